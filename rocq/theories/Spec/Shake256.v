(** FIPS 202, 6.2: SHAKE256 with an output of [n] bytes. *)
From Coq Require Import ZArith List Bool.
From Verif Require Import Spec.Keccak.
Import ListNotations.
Local Open Scope Z_scope.

Definition SHAKE256 (n : Z) (M : list Z) : list Z :=
  bytes_of_bits (KECCAK 512 (bits_of_bytes M ++ [true; true; true; true]) (8 * n)).
