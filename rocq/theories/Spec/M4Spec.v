(** What the Cortex-M4 code is compared with: the contract of its multipliers, and the meaning of the 4-bit
    encoding of secret keys. *)
From Coq Require Import ZArith List Bool.
From Verif Require Import Lib.Arr Lib.CInt Lib.CMon Spec.Bits Spec.Ring.
Import ListNotations.
Local Open Scope Z_scope.

(** A multiplier called as poly_mul(a, b, res): it may overwrite [b], and leaves in [res] the negacyclic product
    modulo 2^13.  It returns the new contents of [b] and [res]. *)
Definition mul_ok (mul : mem -> list Z -> list Z -> list Z -> M (list Z * list Z)) : Prop :=
  forall junk a b res, arr U16 256 a -> arr U16 256 b -> len res = 256 ->
    wp (mul junk a b res) (fun '(b', r) => arr U16 256 b' /\ arr U16 256 r /\
      forall k, 0 <= k < 256 -> get r k mod 8192 = mul_coef a b k mod 8192).
(** The same for poly_mul_acc(a, b, res), which adds the product to [res]. *)
Definition mul_acc_ok (mul : mem -> list Z -> list Z -> list Z -> M (list Z * list Z)) : Prop :=
  forall junk a b res, arr U16 256 a -> arr U16 256 b -> arr U16 256 res ->
    wp (mul junk a b res) (fun '(b', r) => arr U16 256 b' /\ arr U16 256 r /\
      forall k, 0 <= k < 256 -> get r k mod 8192 = (get res k + mul_coef a b k) mod 8192).

(** A hash function with [m] bytes of output called as h(out, in, n), and an extendable-output function called as
    prf(out, n, in, 32): they write the value of the function and nothing else. *)
Definition hash_ok (h : mem -> list Z -> list Z -> Z -> M (list Z)) (m : Z) (F : list Z -> list Z) : Prop :=
  forall junk out inp n, m <= len out -> 0 <= n <= len inp -> n < 2 ^ 32 -> typed U8 inp ->
    wp (h junk out inp n) (fun r => r = F (zfirst n inp) ++ zskip m out).
Definition stream_ok (prf : mem -> list Z -> Z -> list Z -> Z -> M (list Z)) (F : Z -> list Z -> list Z) : Prop :=
  forall junk out n inp, 0 <= n <= len out -> n < 2 ^ 32 -> 32 <= len inp -> typed U8 inp ->
    wp (prf junk out n inp 32) (fun r => r = F n (zfirst 32 inp) ++ zskip n out).

(** The signed value of a 4-bit field. *)
Definition sext4 (x : Z) : Z := (x + 8) mod 16 - 8.
(** A secret key of module rank [n] whose polynomials are packed to 4 bits, rewritten in the standard format. *)
Definition uncompress_sk (n : Z) (sk : list Z) : list Z :=
  pack_vec 13 (map (map sext4) (unpack_vec 4 n sk)) ++ zskip (n * 128) sk.
