(** Encapsulation as the Cortex-M0 code does it: Saber without the rounding constant in the second part of the ciphertext. *)
From Coq Require Import ZArith List.
From Verif Require Import Lib.Arr Spec.Bits Spec.Ring Spec.Keccak Spec.Saber.
Import ListNotations.
Local Open Scope Z_scope.

(** The inner product b^T s' hidden by the message. *)
Definition enc_v (pk r : list Z) : list Z := inner 3 (unpack_vec 10 3 pk) (expand_s SHAKE128 saber r).

(** c_m = (b^T s' + 2^9 m mod p) / 2^6. *)
Definition m0_ct_msg (v m : list Z) : list Z := ztab 256 (fun k => (get v k + 512 * get m k) mod 1024 / 64).

Definition m0_pke_enc (pk m r : list Z) : list Z :=
  let A := expand_A SHAKE128 saber (zfirst 32 (zskip 960 pk)) in
  pack_vec 10 (ct_vec saber A (expand_s SHAKE128 saber r)) ++ pack 4 (m0_ct_msg (enc_v pk r) (unpack 1 m)).

Definition m0_enc (pk rnd : list Z) : list Z * list Z :=
  let m := SHA3_256 rnd in
  let kr := SHA3_512 (m ++ SHA3_256 pk) in
  let c := m0_pke_enc pk m (zskip 32 kr) in
  (c, SHA3_256 (zfirst 32 kr ++ SHA3_256 c)).

(** The seed of the secret of an encapsulation with random bytes [rnd]. *)
Definition enc_seed (pk rnd : list Z) : list Z := zskip 32 (SHA3_512 (SHA3_256 rnd ++ SHA3_256 pk)).

(** The random bytes: half [h] of a word, and byte [i] of a request for [n] bytes that starts with word [k].  Only the low byte
    of each half is used; the last word gives the last one or two bytes in reverse order. *)
Definition half (w h : Z) : Z := w / 65536 ^ h mod 65536.
Definition prng_byte (word : Z -> Z) (k n i : Z) : Z :=
  let p := 2 * ((n - 1) / 2) in
  if i <? p then half (word (k + i / 2)) (i mod 2) mod 256 else half (word (k + (n - 1) / 2)) (n - 1 - i) mod 256.
(** As a random source whose state is the number of the next word. *)
Definition prng_source (word : Z -> Z) (k n : Z) : list Z * Z := (ztab n (prng_byte word k n), k + (n + 1) / 2).
