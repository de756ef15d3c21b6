(** Addresses and branches of the assembly multipliers of the Cortex-M4 code. *)
From Coq Require Import ZArith List Lia.
From Verif Require Import Model.Arm Model.ArmCode Model.ArmTrace Lib.Arr Lib.CInt Lib.CMon Spec.M4Spec Model.M4Mul Proof.ArmTrThm.
Import ListNotations.
Local Open Scope Z_scope.

(** ** C68 *)

Theorem C68_tc4kara_asm_trace : forall env env' scratch scratch', regs_ok env -> regs_ok env' ->
  forall a a' b b' res res', arr U16 256 a -> arr U16 256 a' -> arr U16 256 b -> arr U16 256 b' -> arr U16 256 res -> arr U16 256 res' ->
  asm_trace env scratch 1776 3 toom_cook_4way_mem_asm (Ptr 1 0) (Ptr 2 0) (Ptr 3 0) (rg env R3) [(1%positive, a); (2%positive, b); (3%positive, res)] =
  asm_trace env' scratch' 1776 3 toom_cook_4way_mem_asm (Ptr 1 0) (Ptr 2 0) (Ptr 3 0) (rg env' R3) [(1%positive, a'); (2%positive, b'); (3%positive, res')] /\
  run (toom_cook_4way_mem env scratch a b res) <> None.
Proof. exact C68_tc4kara_lemma. Qed.
Print Assumptions C68_tc4kara_asm_trace.

Theorem C68_striding_asm_trace : forall env env' scratch scratch', regs_ok env -> regs_ok env' ->
  forall a a' b b' res res' ext ext', arr U16 64 a -> arr U16 64 a' -> arr U16 64 b -> arr U16 64 b' ->
  arr U16 64 res -> arr U16 64 res' -> arr U16 64 ext -> arr U16 64 ext' ->
  asm_trace env scratch 30 2 kara_strd_mem_asm (Ptr 1 0) (Ptr 2 0) (Ptr 3 0) (Ptr 5 0)
    [(1%positive, a); (2%positive, b); (3%positive, res); (5%positive, ext)] =
  asm_trace env' scratch' 30 2 kara_strd_mem_asm (Ptr 1 0) (Ptr 2 0) (Ptr 3 0) (Ptr 5 0)
    [(1%positive, a'); (2%positive, b'); (3%positive, res'); (5%positive, ext')] /\
  run (kara_strd_mem env scratch a b res ext) <> None.
Proof. exact C68_striding_lemma. Qed.
Print Assumptions C68_striding_asm_trace.

(** Two sets of arguments that meet the hypotheses, and the start of the trace: the registers are pushed and coefficients are loaded. *)
Example C68_case : forall v, v = 0 \/ v = 65535 ->
  (exists env env', regs_ok env /\ regs_ok env' /\ rg env R0 <> rg env' R0) /\ arr U16 256 (repeat v 256) /\ arr U16 64 (repeat v 64) /\
  let env := State (fun _ => Int 0) (fun _ _ => Half v) true true in let a := repeat v 256 in let x := repeat v 64 in
  firstn 5 (asm_trace env env 1776 3 toom_cook_4way_mem_asm (Ptr 1 0) (Ptr 2 0) (Ptr 3 0) (rg env R3) [(1%positive, a); (2%positive, a); (3%positive, a)]) =
    [Access 4 3508 44; Access 1 384 4; Access 1 128 4; Access 1 256 4; Access 1 0 4] /\
  firstn 5 (asm_trace env env 30 2 kara_strd_mem_asm (Ptr 1 0) (Ptr 2 0) (Ptr 3 0) (Ptr 5 0)
    [(1%positive, x); (2%positive, x); (3%positive, x); (5%positive, x)]) =
    [Access 4 24 36; Access 1 0 4; Access 1 4 4; Access 1 8 4; Access 1 12 4].
Proof.
  intros v Hv.
  assert (R : forall n, arr U16 (Z.of_nat n) (repeat v n)).
  { intros n. split; [unfold len; now rewrite repeat_length|]. apply Forall_forall. intros y Hy. apply repeat_spec in Hy. subst y.
    change (tmin U16) with 0. change (tmax U16) with 65535. lia. }
  split; [|split; [exact (R 256%nat)|split; [exact (R 64%nat)|]]].
  - exists (State (fun _ => Int 0) (fun _ _ => Half 0) true true), (State (fun _ => Int 1) (fun _ _ => Half 0) true true).
    split; [intros r z E; injection E as <-; lia|]. split; [intros r z E; injection E as <-; lia|]. discriminate.
  - destruct Hv as [-> | ->]; split; lazy; reflexivity.
Qed.
