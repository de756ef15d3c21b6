(** The trace of assembly code is determined by its symbolic execution. *)
From Coq Require Import ZArith List Bool Lia FMapPositive.
From Verif Require Import Lib.Arr Spec.Ring Model.Arm Model.ArmCode Model.M4Mul Model.ArmTrace Proof.ArmSym Proof.ArmSymP.
Import ListNotations.
Local Open Scope Z_scope.

Section Place.
  Variable size : positive -> Z.
  Variable pr : positive -> positive.
  Variable hb : positive -> Z.
  Definition atr_at (s : astate) (a : adr) (n : Z) : list aev :=
    match aaddress s a with Some (p, o, _) => [Access (pr p) (2 * hb p + o) n] | None => [] end.
  Fixpoint atr_step (i : instr) (s : astate) : list aev :=
    match i with
    | LDR _ a | STR _ a => atr_at s a 4
    | LDRH _ a | STRH _ a => atr_at s a 2
    | PUSH l => match aget s SP with AP p o => let n := 4 * Z.of_nat (length l) in [Access (pr p) (2 * hb p + o - n) n] | _ => [] end
    | POP l => match aget s SP with AP p o => [Access (pr p) (2 * hb p + o) (4 * Z.of_nat (length l))] | _ => [] end
    | ITLS i => match af s with Some (z, c) => let b := (negb c || z)%bool in Branch b :: if b then atr_step i s else [] | None => [] end
    | BX r => match aget s r with AR k => [Jump (Ret k)] | _ => [] end
    | _ => []
    end.
  Definition atr_then (f : option astate) (k : astate -> list aev) : list aev := match f with Some s => k s | None => [] end.
  Fixpoint atr_steps (l : list instr) (s : astate) : list aev :=
    match l with [] => [] | i :: l => atr_step i s ++ atr_then (astep size i s) (atr_steps l) end.
  Fixpoint atr_loop (n : nat) (body : list instr) (s : astate) : list aev :=
    match n with
    | O => []
    | S n => atr_steps body s ++ atr_then (asteps size body s) (fun s =>
        match af s with Some (z, _) => Branch (negb z) :: if z then [] else atr_loop n body s | None => [] end)
    end.
  Definition atr_memset0 (s : astate) : list aev :=
    match aget s R0, aget s R2 with AP p o, AC n => [Access (pr p) (2 * hb p + o) n] | _, _ => [] end.
  Fixpoint atr_run (call : list stmt -> astate -> option astate) (ctr : list stmt -> astate -> list aev) (c : list stmt) (s : astate) : list aev :=
    match c with
    | [] => []
    | x :: c =>
      match x with
      | I i => atr_step i s ++ atr_then (astep size i s) (atr_run call ctr c)
      | Loop b => atr_loop 64 b s ++ atr_then (aloop size 64 b s) (atr_run call ctr c)
      | Memset => atr_memset0 s ++ atr_then (amemset0 size s) (atr_run call ctr c)
      | Call f => ctr f s ++ atr_then (call f s) (atr_run call ctr c)
      end
    end.
  Fixpoint atr_exec (n : nat) : list stmt -> astate -> list aev :=
    match n with
    | O => fun _ _ => []
    | S n => atr_run (acall (aexec size n) n) (fun f s => atr_exec n f (aset s LR (AR (Z.of_nat n))))
    end.

  Variable vx vy : Z -> Z.
  Hypothesis vx0 : vx 0 = 1.
  Hypothesis vy0 : vy 0 = 1.
  Variable csize : positive -> Z.
  Variable ini scratch : state.
  Hypothesis Hpl : placed size csize pr hb.
  Hypothesis Hini : regs_ok ini.
  Let M := mst vx vy size pr hb ini.

  Ltac bnd H := repeat match type of H with
    | Arm.bind ?m _ = Some _ => let E := fresh "E" in destruct m eqn:E; cbn [Arm.bind] in H; [|discriminate]
    | (let '(_, _) := ?p in _) = Some _ => destruct p
    end.
  Lemma tr_at_ok : forall s t a n p, M s t -> aaddress s a = Some p -> tr_at t a n = atr_at s a n.
  Proof.
    intros s t a n ((p, o), s') H E. destruct (mst_address vx vy size pr hb ini s t a p o s' H E) as (t' & E' & _).
    unfold tr_at, atr_at. now rewrite E, E'.
  Qed.
  Lemma tr_step_ok : forall i s t s', M s t -> astep size i s = Some s' -> tr_step i t = atr_step i s.
  Proof.
    induction i as [x a|x a|x a|x a|l|l|d x|d n|d n x|d n x|d n x|d n k w|d n m|d n m|d n m k|d n m k|tn tm d n m|tn tm d n m r|x d n m|x d n m r|n x|i IHi|r];
      intros s t s' H E; cbn [tr_step atr_step astep] in *; try reflexivity.
    - bnd E. eapply tr_at_ok; eassumption.
    - bnd E. eapply tr_at_ok; eassumption.
    - bnd E. eapply tr_at_ok; eassumption.
    - bnd E. eapply tr_at_ok; eassumption.
    - destruct (aget s SP) as [| |p o| | |] eqn:Es; try discriminate. pose proof (proj1 H SP) as Hs. rewrite Es in Hs. cbn [mval conc] in Hs. now rewrite Hs.
    - destruct (aget s SP) as [| |p o| | |] eqn:Es; try discriminate. pose proof (proj1 H SP) as Hs. rewrite Es in Hs. cbn [mval conc] in Hs. now rewrite Hs.
    - destruct (af s) as [[z c]|] eqn:Ef; [|discriminate]. pose proof (proj2 (proj2 (proj2 H)) _ Ef) as F. injection F as -> ->. cbn zeta. f_equal.
      destruct (_ || _); [|reflexivity]. eapply IHi; eassumption.
    - destruct (aget s r) as [| | |k| |] eqn:Er; try discriminate. pose proof (proj1 H r) as Hr. rewrite Er in Hr. cbn [mval conc] in Hr. now rewrite Hr.
  Qed.
  Lemma tr_steps_ok : forall l s t s', M s t -> asteps size l s = Some s' -> tr_steps csize l t = atr_steps l s.
  Proof.
    induction l as [|i l IH]; intros s t s' H E; cbn [tr_steps atr_steps asteps] in *; [reflexivity|]. bnd E.
    rewrite (tr_step_ok _ _ _ _ H E0). destruct (mst_step vx vy vx0 vy0 size csize pr hb ini Hpl Hini _ _ _ _ H E0) as (t1 & E1 & M1).
    rewrite E1. cbn [tr_then atr_then]. f_equal. eapply IH; eassumption.
  Qed.
  Lemma tr_loop_ok : forall n l s t s', M s t -> aloop size n l s = Some s' -> tr_loop csize n l t = atr_loop n l s.
  Proof.
    induction n as [|n IH]; intros l s t s' H E; cbn [tr_loop atr_loop aloop] in *; [reflexivity|]. bnd E.
    rewrite (tr_steps_ok _ _ _ _ H E0). destruct (mst_steps vx vy vx0 vy0 size csize pr hb ini Hpl Hini _ _ _ _ H E0) as (t1 & E1 & M1).
    rewrite E1. cbn [tr_then atr_then]. f_equal.
    destruct (af a) as [[z c]|] eqn:Ef; [|discriminate]. pose proof (proj2 (proj2 (proj2 M1)) _ Ef) as F. injection F as -> ->. f_equal.
    destruct (fz t1); [reflexivity|]. eapply IH; eassumption.
  Qed.
  Lemma tr_memset_ok : forall s t s', M s t -> amemset0 size s = Some s' -> tr_memset0 t = atr_memset0 s.
  Proof.
    intros s t s' H E. unfold amemset0, tr_memset0, atr_memset0 in *.
    pose proof (proj1 H R0) as A0. pose proof (proj1 H R2) as A2.
    destruct (aget s R0) as [| |p o| | |]; try discriminate. destruct (aget s R1) as [|[| |]| | | |]; try discriminate. destruct (aget s R2) as [|n| | | |]; try discriminate.
    cbn [mval conc] in A0, A2. now rewrite A0, (proj1 A2).
  Qed.
  Lemma tr_cons : forall n x c t, tr_exec csize scratch (S n) (x :: c) t =
    match x with
    | I i => tr_step i t ++ tr_then (step csize i t) (tr_exec csize scratch (S n) c)
    | Loop b => tr_loop csize 64 b t ++ tr_then (loop csize 64 b t) (tr_exec csize scratch (S n) c)
    | Memset => tr_memset0 t ++ tr_then (memset0 csize scratch t) (tr_exec csize scratch (S n) c)
    | Call f => tr_exec csize scratch n f (setr t LR (Ret (Z.of_nat n))) ++
                tr_then (exec csize scratch n f (setr t LR (Ret (Z.of_nat n)))) (tr_exec csize scratch (S n) c)
    end.
  Proof. intros. destruct x; reflexivity. Qed.
  Lemma tr_run_ok : forall n call ctr c,
    Forall (fun f => forall s s' t, call f s = Some s' -> M s t -> (exists t', ccall csize scratch n f t = Some t' /\ M s' t') /\
      tr_exec csize scratch n f (setr t LR (Ret (Z.of_nat n))) = ctr f s) (calls c) ->
    forall s t s', M s t -> arun size call c s = Some s' -> tr_exec csize scratch (S n) c t = atr_run call ctr c s.
  Proof.
    intros n call ctr. induction c as [|x c IH]; intros Hc s t s' H E; [reflexivity|]. cbn [arun] in E.
    rewrite tr_cons. cbn [atr_run]. unfold calls in Hc. cbn [flat_map] in Hc. apply Forall_app in Hc as (Hf & Hc). specialize (IH Hc). destruct x as [i|b|f|].
    - bnd E. rewrite (tr_step_ok _ _ _ _ H E0). destruct (mst_step vx vy vx0 vy0 size csize pr hb ini Hpl Hini _ _ _ _ H E0) as (t1 & E1 & M1).
      rewrite E1. cbn [tr_then atr_then]. f_equal. eapply IH; eassumption.
    - bnd E. rewrite (tr_loop_ok _ _ _ _ _ H E0). destruct (mst_loop vx vy vx0 vy0 size csize pr hb ini Hpl Hini _ _ _ _ _ H E0) as (t1 & E1 & M1).
      rewrite E1. cbn [tr_then atr_then]. f_equal. eapply IH; eassumption.
    - bnd E. apply Forall_inv in Hf. destruct (Hf _ _ _ E0 H) as ((t1 & E1 & M1) & ->). cbn [atr_then]. f_equal.
      unfold ccall in E1. destruct (exec csize scratch n f _) as [t2|] eqn:E2; cbn [Arm.bind] in E1; [|discriminate].
      destruct (val_eq_dec _ _); [|discriminate]. injection E1 as ->. cbn [tr_then]. eapply IH; eassumption.
    - bnd E. rewrite (tr_memset_ok _ _ _ H E0). destruct (mst_memset vx vy vx0 vy0 size csize pr hb ini scratch Hpl _ _ _ H E0) as (t1 & E1 & M1).
      rewrite E1. cbn [tr_then atr_then]. f_equal. eapply IH; eassumption.
  Qed.
  Lemma tr_exec_ok : forall n c s t s', M s t -> aexec size n c s = Some s' -> tr_exec csize scratch n c t = atr_exec n c s.
  Proof.
    induction n as [|n IH]; intros c s t s' H E; [discriminate|]. cbn [aexec] in E. cbn [atr_exec].
    eapply tr_run_ok; [|exact H|exact E]. clear s t s' H E. apply Forall_forall. intros f _ s s' t E H. unfold acall in E. bnd E.
    assert (HL : M (aset s LR (AR (Z.of_nat n))) (setr t LR (Ret (Z.of_nat n)))) by (apply mst_setr; [exact H|reflexivity]).
    split; [|eapply IH; eassumption].
    destruct (mst_exec vx vy vx0 vy0 size csize pr hb ini scratch Hpl Hini _ _ _ _ _ HL E0) as (t1 & E1 & M1).
    unfold ccall. rewrite E1. cbn [Arm.bind].
    destruct (aget a PC) as [| | |k| |] eqn:Ep; try discriminate. destruct (Z.eqb_spec k (Z.of_nat n)); [|discriminate]. injection E as <-. subst k.
    pose proof (proj1 M1 PC) as Hp. rewrite Ep in Hp. cbn [mval conc] in Hp. rewrite Hp. destruct (val_eq_dec _ _); [|congruence]. eauto.
  Qed.
End Place.
