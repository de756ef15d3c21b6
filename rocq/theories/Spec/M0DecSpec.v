(** Decapsulation as the Cortex-M0 code does it, given the 32 bytes that it takes for the message. *)
From Coq Require Import ZArith List Bool.
From Verif Require Import Lib.Arr Spec.Bits Spec.Ring Spec.Keccak Spec.Saber Spec.M0Spec.
Import ListNotations.
Local Open Scope Z_scope.

(** The inner product of the ciphertext vector and the secret, from which the message is read off. *)
Definition dec_v (sk c : list Z) : list Z := inner 3 (unpack_vec 10 3 c) (unpack_vec 13 3 sk).

(** Bits of the message: (b'^T s + 224 - 2^6 c_m mod p) / 2^9.  The reference adds 228. *)
Definition m0_dec_bits (sk c : list Z) : list Z :=
  let cm := unpack 4 (zskip 960 c) in ztab 256 (fun k => (get (dec_v sk c) k + 224 - 64 * get cm k) mod 1024 / 512).

(** The message as bytes; and what is in the first 32 bytes of an array of little-endian 16-bit words, one for each bit. *)
Definition m0_msg (sk c : list Z) : list Z := pack 1 (m0_dec_bits sk c).
Definition bits16 (bits : list Z) : list Z := ztab 32 (fun k => if Z.even k then get bits (k / 2) else 0).

Definition m0_dec_key (m sk c : list Z) : list Z :=
  let kr := SHA3_512 (m ++ sk_hash saber sk) in
  let pre := if list_eq_dec Z.eq_dec c (m0_pke_enc (sk_pk saber sk) m (zskip 32 kr)) then zfirst 32 kr else sk_z saber sk in
  SHA3_256 (pre ++ SHA3_256 c).
