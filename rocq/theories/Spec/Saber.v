(** Saber public-key encryption and key encapsulation (round 3 specification), over
    integers and bytes.  Independent of the C code: products are taken exactly in
    Z[x]/(x^256+1) and reduced where the specification reduces. *)
From Coq Require Import ZArith List Bool.
From Verif Require Import Lib.Arr Spec.Bits Spec.Ring Spec.Sampling.
Import ListNotations.
Local Open Scope Z_scope.

(** Module rank [l], binomial parameter [mu] (or uniform secrets), exponents of the moduli
    q = 2^eq, p = 2^10, T = 2^et. *)
Record params := Params { p_l : Z; p_mu : Z; p_et : Z; p_eq : Z; p_uniform : bool }.

Definition lightsaber := Params 2 10 3 13 false.
Definition saber := Params 3 8 4 13 false.
Definition firesaber := Params 4 6 6 13 false.
Definition ulightsaber := Params 2 10 3 12 true.
Definition usaber_ := Params 3 8 4 12 true.
Definition ufiresaber := Params 4 6 6 12 true.

(** ** Expansion of seeds *)

(** Public matrix: entry (i,j) is decoded from segment [i*n+j] of the stream. *)
Definition gen_mat (w n : Z) (stream : list Z) : list (list (list Z)) :=
  ztab n (fun i => unpack_vec w n (zskip (32 * w * n * i) stream)).
(** Secret vector, as integers. *)
Definition gen_vec (mu n : Z) (stream : list Z) : list (list Z) :=
  ztab n (fun i => cbd_poly mu (zskip (32 * mu * i) stream)).
Definition gen_vec_u (n : Z) (stream : list Z) : list (list Z) :=
  ztab n (fun i => uni_poly (zskip (64 * i) stream)).

Section Scheme.
  (** Hash functions to 32 and 64 bytes, and the extendable output function. *)
  Variable H G : list Z -> list Z.
  Variable XOF : Z -> list Z -> list Z.
  Variable p : params.

  Definition expand_A (seed : list Z) : list (list (list Z)) :=
    gen_mat (p_eq p) (p_l p) (XOF (p_l p * (p_l p * (32 * p_eq p))) seed).
  Definition expand_s (seed : list Z) : list (list Z) :=
    if p_uniform p then gen_vec_u (p_l p) (XOF (p_l p * 64) seed)
    else gen_vec (p_mu p) (p_l p) (XOF (p_l p * (32 * p_mu p)) seed).

  (** Rounding constants. *)
  Definition rc1 : Z := 2 ^ (p_eq p - 10 - 1).
  Definition rc2 : Z := 2 ^ (10 - 2) - 2 ^ (10 - p_et p - 1) + 2 ^ (p_eq p - 10 - 1).

  (** From modulo q to modulo p, with rounding. *)
  Definition round_qp (x : Z) : Z := ((x + rc1) mod 2 ^ p_eq p) / 2 ^ (p_eq p - 10).
  Definition round_vec (v : list (list Z)) : list (list Z) := map (map round_qp) v.

  (** Public vector b = round(A^T s); ciphertext vector b' = round(A s'). *)
  Definition pub_vec (A : list (list (list Z))) (s : list (list Z)) : list (list Z) :=
    round_vec (mat_vec (p_l p) (transpose (p_l p) A) s).
  Definition ct_vec (A : list (list (list Z))) (s : list (list Z)) : list (list Z) :=
    round_vec (mat_vec (p_l p) A s).

  (** c_m = (b^T s' + rc1 - 2^9 m mod p) / 2^(10-et). *)
  Definition ct_msg (b s : list (list Z)) (m : list Z) : list Z :=
    let v := inner (Z.to_nat (p_l p)) b s in
    ztab 256 (fun k => ((get v k - 2 ^ 9 * get m k + rc1) mod 2 ^ 10) / 2 ^ (10 - p_et p)).
  (** m' = (b'^T s + rc2 - 2^(10-et) c_m mod p) / 2^9. *)
  Definition dec_msg (b s : list (list Z)) (cm : list Z) : list Z :=
    let v := inner (Z.to_nat (p_l p)) b s in
    ztab 256 (fun k => ((get v k + rc2 - 2 ^ (10 - p_et p) * get cm k) mod 2 ^ 10) / 2 ^ 9).

  (** ** Public-key encryption on byte strings *)

  Definition pke_pk (seed_A seed_s : list Z) : list Z :=
    pack_vec 10 (pub_vec (expand_A seed_A) (expand_s seed_s)) ++ seed_A.
  Definition pke_sk (seed_s : list Z) : list Z := pack_vec (p_eq p) (expand_s seed_s).

  Definition pke_enc (pk m r : list Z) : list Z :=
    let b := unpack_vec 10 (p_l p) pk in
    let seed_A := zfirst 32 (zskip (p_l p * 320) pk) in
    let A := expand_A seed_A in
    let s := expand_s r in
    pack_vec 10 (ct_vec A s) ++ pack (p_et p) (ct_msg b s (unpack 1 m)).

  Definition pke_dec (sk c : list Z) : list Z :=
    let s := unpack_vec (p_eq p) (p_l p) sk in
    let b := unpack_vec 10 (p_l p) c in
    let cm := unpack (p_et p) (zskip (p_l p * 320) c) in
    pack 1 (dec_msg b s cm).

  (** ** Key encapsulation *)

  Definition kem_pk (r1 r2 : list Z) : list Z := pke_pk (XOF 32 r1) r2.
  Definition kem_sk (r1 r2 z : list Z) : list Z :=
    pke_sk r2 ++ kem_pk r1 r2 ++ H (kem_pk r1 r2) ++ z.

  Definition kem_enc (pk rnd : list Z) : list Z * list Z :=
    let m := H rnd in
    let kr := G (m ++ H pk) in
    let c := pke_enc pk m (zskip 32 kr) in
    (c, H (zfirst 32 kr ++ H c)).

  (** Components of the secret key. *)
  Definition sk_pke (sk : list Z) := zfirst (p_l p * (32 * p_eq p)) sk.
  Definition sk_pk (sk : list Z) := zfirst (p_l p * 320 + 32) (zskip (p_l p * (32 * p_eq p)) sk).
  Definition sk_hash (sk : list Z) := zfirst 32 (zskip (p_l p * (32 * p_eq p) + (p_l p * 320 + 32)) sk).
  Definition sk_z (sk : list Z) := zfirst 32 (zskip (p_l p * (32 * p_eq p) + (p_l p * 320 + 32) + 32) sk).

  (** Message, pre-key and coins, and re-encryption computed from a ciphertext. *)
  Definition dec_m (sk c : list Z) : list Z := pke_dec (sk_pke sk) c.
  Definition dec_kr (sk c : list Z) : list Z := G (dec_m sk c ++ sk_hash sk).
  Definition dec_ct (sk c : list Z) : list Z := pke_enc (sk_pk sk) (dec_m sk c) (zskip 32 (dec_kr sk c)).

  Definition kem_dec (sk c : list Z) : list Z :=
    if list_eq_dec Z.eq_dec c (dec_ct sk c)
    then H (zfirst 32 (dec_kr sk c) ++ H c)
    else H (sk_z sk ++ H c).
End Scheme.
