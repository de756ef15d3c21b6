(** C56: the multiplication of the Cortex-M0 code. *)
From Coq Require Import ZArith List Bool Lia.
From Verif Require Import Lib.Arr Lib.CInt Lib.CMon Spec.Ring Model.M0 Proof.M0MulP.
Import ListNotations.
Local Open Scope Z_scope.

(** ** C56 *)

(** Whenever the signed products do not overflow. *)
Theorem C56_as_written : forall junk a b res r, arr U16 256 a -> arr U16 256 b -> arr U16 256 res ->
  run (pol_mul junk a b res) = Some r -> r = ztab 256 (fun k => (get res k + mul_coef a b k) mod 65536).
Proof. exact C56_as_written_lemma. Qed.
Print Assumptions C56_as_written.

(** Always, if they wrap. *)
Theorem C56_wrapping : forall junk a b res, arr U16 256 a -> arr U16 256 b -> arr U16 256 res ->
  run (pol_mul_wrap junk a b res) = Some (ztab 256 (fun k => (get res k + mul_coef a b k) mod 65536)).
Proof. exact C56_wrapping_lemma. Qed.
Print Assumptions C56_wrapping.

(** As written, with coefficients small enough that no product overflows. *)
Theorem C56_small : forall X Y junk a b res, arr U16 256 a -> arr U16 256 b -> arr U16 256 res ->
  Forall (fun x => x <= X) a -> Forall (fun x => x <= Y) b -> Z.min (16 * X) 65535 * Z.min (16 * Y) 65535 <= 2147418112 ->
  run (pol_mul junk a b res) = Some (ztab 256 (fun k => (get res k + mul_coef a b k) mod 65536)).
Proof. exact C56_small_lemma. Qed.
Print Assumptions C56_small.

Example C56_case : let a := ztab 256 (fun i => 32 * i + 31) in let b := ztab 256 (fun i => i * i mod 2048) in
  let res := ztab 256 (fun i => 65535 - i) in
  arr U16 256 a /\ arr U16 256 b /\ arr U16 256 res /\
  Forall (fun x => x <= 8191) a /\ Forall (fun x => x <= 2047) b /\ Z.min (16 * 8191) 65535 * Z.min (16 * 2047) 65535 <= 2147418112.
Proof.
  cbv zeta. split; [apply arrb_ok; reflexivity|]. split; [apply arrb_ok; reflexivity|]. split; [apply arrb_ok; reflexivity|].
  split; [apply Forall_ztab; intros; lia|]. split; [|discriminate].
  apply Forall_ztab; intros i Hi. pose proof (Z.mod_pos_bound (i * i) 2048). lia.
Qed.
