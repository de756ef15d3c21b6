(** The symmetric primitives of a parameter set: SHA3-256, SHA3-512 and SHAKE128, or, in the 90s variants,
    SHA-256, SHA-512 and AES-256 in counter mode with a zero nonce. *)
From Coq Require Import ZArith List.
From Verif Require Import Lib.Arr Spec.Keccak Spec.Sha2 Spec.Aes.
Local Open Scope Z_scope.

Definition HashH (ninety : bool) : list Z -> list Z := if ninety then SHA256 else SHA3_256.
Definition HashG (ninety : bool) : list Z -> list Z := if ninety then SHA512 else SHA3_512.
(** [n] bytes from a seed. *)
Definition PRF (ninety : bool) (n : Z) (seed : list Z) : list Z :=
  if ninety then ctr_stream seed (zeros 12) 0 n else SHAKE128 n seed.
