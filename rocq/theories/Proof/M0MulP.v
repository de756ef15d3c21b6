(** Proofs of C56. *)
From Coq Require Import ZArith List Bool Lia.
From Verif Require Import Lib.Arr Lib.CInt Lib.CMon Spec.Ring Model.M0 Proof.M0KaraP.
Import ListNotations.
Local Open Scope Z_scope.

Lemma C56_wrapping_lemma : forall junk a b res, arr U16 256 a -> arr U16 256 b -> arr U16 256 res ->
  run (pol_mul_wrap junk a b res) = Some (ztab 256 (fun k => (get res k + mul_coef a b k) mod 65536)).
Proof. intros. apply wp_run_eq. apply wp_pol_mul with (X := 65535) (Y := 65535); auto.
  - apply mulacc_school.
  - intros i _. apply (typed_u16 a i). apply H.
  - intros i _. apply (typed_u16 b i). apply H0.
Qed.

Lemma C56_as_written_lemma : forall junk a b res r, arr U16 256 a -> arr U16 256 b -> arr U16 256 res ->
  run (pol_mul junk a b res) = Some r -> r = ztab 256 (fun k => (get res k + mul_coef a b k) mod 65536).
Proof.
  intros junk a b res r Ha Hb Hr E. apply (ref_run _ _ _ r (ref_pol_mul junk a b res)) in E.
  rewrite C56_wrapping_lemma in E by auto. congruence.
Qed.

Lemma C56_small_lemma : forall X Y junk a b res, arr U16 256 a -> arr U16 256 b -> arr U16 256 res ->
  Forall (fun x => x <= X) a -> Forall (fun x => x <= Y) b -> Z.min (16 * X) 65535 * Z.min (16 * Y) 65535 <= 2147418112 ->
  run (pol_mul junk a b res) = Some (ztab 256 (fun k => (get res k + mul_coef a b k) mod 65536)).
Proof.
  intros X Y junk a b res Ha Hb Hr Fa Fb HXY. apply wp_run_eq. apply wp_pol_mul with (X := X) (Y := Y); auto.
  - apply mulacc_school_int. lia.
  - intros i Hi. apply (Forall_znth (fun x => x <= X)); [auto|]. rewrite (proj1 Ha). lia.
  - intros i Hi. apply (Forall_znth (fun x => x <= Y)); [auto|]. rewrite (proj1 Hb). lia.
Qed.
