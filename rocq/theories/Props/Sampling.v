(** C19, C20, C21, C32: sampling of secrets and of the public matrix. *)
From Coq Require Import ZArith List.
From Verif Require Import Lib.Arr Lib.CInt Lib.CMon Spec.Bits Spec.Ring Spec.Sampling Spec.Saber Spec.Sym Spec.Count
  Model.Params Model.Cbd Model.Poly Model.Api Proof.PackP Proof.PolyP Proof.SampleThm.
Import ListNotations.
Local Open Scope Z_scope.

(** ** C19: the centred binomial formula. *)
Theorem C19_cbd : forall c s buf, len s = 256 -> 32 * SABER_MU c <= len buf -> typed U8 buf ->
  exists r, run (cbd c s buf) = Some r /\ len r = 256 /\
    forall i, 0 <= i < 256 -> get r i = cbd_coef (SABER_MU c) buf i mod 65536 /\
      - (SABER_MU c / 2) <= cbd_coef (SABER_MU c) buf i <= SABER_MU c / 2.
Proof. exact cbd_ok. Qed.
Print Assumptions C19_cbd.

Theorem C19_GenSecret : forall junk c s seed, usaber c = false -> vec_mem (SABER_L c) s -> 32 <= len seed -> typed U8 seed ->
  run (GenSecret (prf c) junk c s seed) =
  Some (map (map (fun x => x mod 65536)) (gen_vec (SABER_MU c) (SABER_L c) (PRF (s90 c) (SABER_L c * (32 * SABER_MU c)) (zfirst 32 seed)))).
Proof. exact gensecret_run. Qed.
Print Assumptions C19_GenSecret.

Example C19_case : 32 * SABER_MU (Cfg Saber false false) <= len (repeat 255 256) /\ typed U8 (repeat 255 256) /\ vec_mem 3 (repeat (zeros 256) 3).
Proof. exact sample_case. Qed.
(** 0x37 = bits 1110 1100: HW 3 against HW 2. *)
Example C19_value : cbd_coef 8 [0x37] 0 = 1 /\ cbd_coef 8 [0; 0xf0] 1 = -4.
Proof. split; reflexivity. Qed.

(** ** C20: for uniform input the output is exactly binomial, coefficients independent. *)
Theorem C20_joint : forall c s v, len s = 256 -> len v = 256 -> Forall (fun x => -32768 <= x < 32768) v ->
  count (fun buf => gives (run (cbd c s buf)) (map (fun x => x mod 65536) v)) (byte_strings (32 * SABER_MU c)) =
  product (map (fun x => binom (SABER_MU c) (SABER_MU c / 2 + x)) v).
Proof. exact cbd_count. Qed.
Print Assumptions C20_joint.

Theorem C20_coefficient : forall c s i x, len s = 256 -> 0 <= i < 256 -> -32768 <= x < 32768 ->
  count (fun buf => gives_at (run (cbd c s buf)) i (x mod 65536)) (byte_strings (32 * SABER_MU c)) =
  binom (SABER_MU c) (SABER_MU c / 2 + x) * 2 ^ (SABER_MU c * 255).
Proof. exact cbd_count_coef. Qed.
Print Assumptions C20_coefficient.

(** The list counted over contains every byte string of the length exactly once. *)
Theorem C20_all_strings : forall n, 0 <= n ->
  (forall l, In l (byte_strings n) <-> len l = n /\ Forall (fun x => 0 <= x < 256) l) /\ NoDup (byte_strings n).
Proof. exact all_strings. Qed.
Print Assumptions C20_all_strings.

Example C20_case : len (zeros 256) = 256 /\ Forall (fun x => -32768 <= x < 32768) (repeat (-3) 256) /\
  map (fun x => binom 6 (6 / 2 + x)) [-4; -3; -2; -1; 0; 1; 2; 3; 4] = [0; 1; 6; 15; 20; 15; 6; 1; 0].
Proof. split; [reflexivity|]. split; [apply Forall_repeat; split; reflexivity || discriminate|reflexivity]. Qed.

(** ** C21: expansion of the public matrix. *)
Theorem C21_GenMatrix : forall junk c A seed, mat_mem (SABER_L c) A -> 32 <= len seed -> typed U8 seed ->
  exists M, run (GenMatrix (prf c) junk c A seed) = Some M /\ mat U16 (SABER_L c) M /\
    let l := SABER_L c in let w := SABER_EQ c in
    forall i j k, 0 <= i < l -> 0 <= j < l -> 0 <= k < 256 ->
      get (getr (znth [] M i) j) k =
        bits_val w (fun m => fbit 8 (PRF (s90 c) (l * (l * (32 * w))) (zfirst 32 seed)) (w * (256 * (l * i + j) + k) + m)) /\
      0 <= get (getr (znth [] M i) j) k < 2 ^ w.
Proof. exact genmatrix_ok. Qed.
Print Assumptions C21_GenMatrix.

Theorem C21_stream : forall junk c A seed, mat_mem (SABER_L c) A -> 32 <= len seed -> typed U8 seed ->
  run (GenMatrix (prf c) junk c A seed) =
  Some (gen_mat (SABER_EQ c) (SABER_L c) (PRF (s90 c) (SABER_L c * (SABER_L c * (32 * SABER_EQ c))) (zfirst 32 seed))).
Proof. exact genmatrix_run. Qed.
Print Assumptions C21_stream.

(** Each matrix comes from exactly one stream. *)
Theorem C21_bijection : forall c A, len A = SABER_L c ->
  Forall (fun v => len v = SABER_L c /\ Forall (fun p => len p = 256 /\ Forall (fun x => 0 <= x < 2 ^ SABER_EQ c) p) v) A ->
  exists! st, arr U8 (SABER_L c * (SABER_L c * (32 * SABER_EQ c))) st /\ gen_mat (SABER_EQ c) (SABER_L c) st = A.
Proof. exact gen_mat_bij. Qed.
Print Assumptions C21_bijection.

Example C21_case : mat_mem 2 (repeat (repeat (repeat 5 256) 2) 2) /\
  Forall (fun v => len v = 2 /\ Forall (fun p => len p = 256 /\ Forall (fun x => 0 <= x < 2 ^ 13) p) v) (repeat (repeat (repeat 8191 256) 2) 2).
Proof. exact mat_case. Qed.

(** ** C32: the uniform variant. *)
Theorem C32_uni : forall s buf, len s = 256 -> 64 <= len buf -> typed U8 buf ->
  exists r, run (uni s buf) = Some r /\ len r = 256 /\
    forall i, 0 <= i < 256 -> get r i = uni_coef buf i mod 65536 /\ -2 <= uni_coef buf i <= 1.
Proof. exact uni_ok. Qed.
Print Assumptions C32_uni.

Theorem C32_GenSecret : forall junk c s seed, usaber c = true -> vec_mem (SABER_L c) s -> 32 <= len seed -> typed U8 seed ->
  run (GenSecret (prf c) junk c s seed) =
  Some (map (map (fun x => x mod 65536)) (gen_vec_u (SABER_L c) (PRF (s90 c) (SABER_L c * 64) (zfirst 32 seed)))).
Proof. exact gensecret_u_run. Qed.
Print Assumptions C32_GenSecret.

(** Every vector of values comes from exactly one input; every value of a coefficient from a quarter of the 2^512 inputs. *)
Theorem C32_joint : forall s v, len s = 256 -> len v = 256 -> Forall (fun x => -2 <= x <= 1) v ->
  count (fun buf => gives (run (uni s buf)) (map (fun x => x mod 65536) v)) (byte_strings 64) = 1.
Proof. exact uni_count. Qed.
Print Assumptions C32_joint.

Theorem C32_coefficient : forall s i x, len s = 256 -> 0 <= i < 256 -> -2 <= x <= 1 ->
  count (fun buf => gives_at (run (uni s buf)) i (x mod 65536)) (byte_strings 64) = 2 ^ 510.
Proof. exact uni_count_coef. Qed.
Print Assumptions C32_coefficient.

Example C32_case : 64 <= len (repeat 0x1b 64) /\ typed U8 (repeat 0x1b 64) /\ Forall (fun x => -2 <= x <= 1) (repeat (-2) 256).
Proof. repeat split; try discriminate; apply Forall_repeat; split; discriminate. Qed.
Example C32_value : map (uni_coef [0x1b]) [0; 1; 2; 3] = [-1; -2; 1; 0].
Proof. reflexivity. Qed.
