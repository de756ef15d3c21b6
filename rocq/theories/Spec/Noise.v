(** Decryption noise of Saber.PKE. *)
From Coq Require Import ZArith List.
From Verif Require Import Lib.Arr Spec.Bits Spec.Ring Spec.Saber.
Local Open Scope Z_scope.

(** Coefficient [k] of the noise: difference of the two shared polynomials, plus the centred part of
    the shared polynomial that the ciphertext drops. *)
Definition noise (p : params) (A : list (list (list Z))) (s s' : list (list Z)) (m : list Z) (k : Z) : Z :=
  let b := pub_vec p A s in
  let b' := ct_vec p A s' in
  let v := get (inner (Z.to_nat (p_l p)) b s') k in
  let v' := get (inner (Z.to_nat (p_l p)) b' s) k in
  let dropped := ((v - 2 ^ 9 * get m k + rc1 p) mod 2 ^ 10) mod 2 ^ (10 - p_et p) in
  v' - v + (dropped - 2 ^ (10 - p_et p - 1)).

(** The representative in [-512, 511] modulo 1024 lies in [-256, 255]. *)
Definition in_window (e : Z) : Prop := -256 <= (e + 512) mod 1024 - 512 <= 255.

(** Noise of an encryption with seeds [seed_A], [seed_s], message [m] and coins [r]. *)
Definition pke_noise (X : Z -> list Z -> list Z) (p : params) (seed_A seed_s m r : list Z) (k : Z) : Z :=
  noise p (expand_A X p seed_A) (expand_s X p seed_s) (expand_s X p r) (unpack 1 m) k.

(** Noise of an encapsulation: keys from the random bytes [r1], [r2], encapsulation from [rnd]. *)
Definition kem_noise (H G : list Z -> list Z) (X : Z -> list Z -> list Z) (p : params) (r1 r2 rnd : list Z) (k : Z) : Z :=
  let m := H rnd in
  pke_noise X p (X 32 r1) r2 m (zskip 32 (G (m ++ H (kem_pk X p r1 r2)))) k.
