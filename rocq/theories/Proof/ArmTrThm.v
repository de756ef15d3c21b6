(** The traces of the assembly multipliers of the Cortex-M4 code are constant. *)
From Coq Require Import ZArith List Bool Lia FMapPositive.
From Verif Require Import Lib.Arr Lib.CInt Lib.CMon Spec.Ring Model.Arm Model.ArmCode Model.M4Mul Model.ArmTrace
  Proof.ArmSym Proof.ArmSymP Proof.ArmKaraP Proof.ArmToomP Proof.M4MulP Proof.ArmStrdP Proof.ArmTrP.
Import ListNotations.
Local Open Scope Z_scope.
Local Opaque arun aexec toom_cook_4way_mem_asm karatsuba_64x64 kara_strd_mem_asm atr_run atr_exec tr_exec exec.

(** ** m4-tc4kara *)
Definition kpr (p0 p1 p2 p4 r : positive) : positive := match r with 1%positive => p1 | 2%positive => p2 | 3%positive => p0 | _ => p4 end.
Definition khb (h0 h1 h2 h4 : Z) (r : positive) : Z := match r with 1%positive => h1 | 2%positive => h2 | 3%positive => h0 | _ => h4 - 208 end.
Definition ttr (f : list stmt) (s : astate) : list aev :=
  match aget s R0, aget s R1, aget s R2, aget s SP with
  | AP p0 o0, AP p1 o1, AP p2 o2, AP p4 o4 => atr_exec ksize (kpr p0 p1 p2 p4) (khb (o0 / 2) (o1 / 2) (o2 / 2) (o4 / 2)) 2 f kinit
  | _, _, _, _ => []
  end.

Section Toom.
  Variable a b res : list Z.
  Hypothesis La : len a = 256.
  Hypothesis Lb : len b = 256.
  Variable ini scratch : state.
  Hypothesis Hini : regs_ok ini.
  Variable csize : positive -> Z.
  Hypothesis Hcs : forall p, csize p = tsize p.
  Let M := mst (tv a b res) one tsize (fun r => r) (fun _ => 0) ini.

  Lemma ttr_ok : forall s s' t, tcall karatsuba_64x64 s = Some s' -> M s t ->
    tr_exec csize scratch 2 karatsuba_64x64 (setr t LR (Ret 2)) = ttr karatsuba_64x64 s.
  Proof.
    intros s s' t H HM. unfold tcall in H. unfold ttr.
    pose proof (proj1 HM R0) as V0. pose proof (proj1 HM R1) as V1. pose proof (proj1 HM R2) as V2. pose proof (proj1 HM SP) as V4.
    destruct (aget s R0) as [| |p0 o0| | |]; try discriminate. destruct (aget s R1) as [| |p1 o1| | |]; try discriminate.
    destruct (aget s R2) as [| |p2 o2| | |]; try discriminate. destruct (aget s SP) as [| |p4 o4| | |]; try discriminate.
    cbn [mval conc] in V0, V1, V2, V4. rewrite Z.mul_0_r, Z.add_0_l in V0, V1, V2, V4.
    destruct (_ && _) eqn:E; [|discriminate]. rewrite !andb_true_iff in E.
    destruct E as ((((((((((((((X1 & X2) & X3) & X4) & X5) & X6) & X7) & X8) & X9) & X10) & X11) & X12) & X13) & X14) & X15).
    apply Pos.eqb_eq in X5. subst p4.
    destruct (find _ tpts) as [pt|] eqn:F; cbn [Arm.bind] in H; [|discriminate]. clear H s'.
    apply find_some in F as (F1 & F2). apply andb_true_iff in F2 as (F2 & F3).
    remember (o0 / 2) as h0. remember (o1 / 2) as h1. remember (o2 / 2) as h2. remember (o4 / 2) as h4.
    assert (O0 : o0 = 2 * h0) by (clear - X1 Heqh0; dlia). assert (O1 : o1 = 2 * h1) by (clear - X2 Heqh1; dlia). assert (O2 : o2 = 2 * h2) by (clear - X3 Heqh2; dlia). assert (O4 : o4 = 2 * h4) by (clear - X4 Heqh4; dlia).
    clear Heqh0 Heqh1 Heqh2 Heqh4 X1 X2 X3 X4. subst o0 o1 o2 o4.
    pose proof (tis_ok a b res ini s t p1 h1 257 pt HM X7 F2) as Wx. pose proof (tis_ok a b res ini s t p2 h2 1 pt HM X8 F3) as Wy.
    unfold within in X6, X7, X8, X9. rewrite !andb_true_iff in X6, X7, X8, X9.
    destruct kara_run as (ks & KE & _).
    assert (PL : placed ksize csize (kpr p0 p1 p2 4) (khb h0 h1 h2 h4)).
    { apply (kplaced csize p0 p1 p2 4%positive h0 h1 h2 h4).
      { rewrite Hcs. lia. } { rewrite Hcs. lia. } { rewrite Hcs. lia. } { rewrite Hcs. lia. }
      { now apply apart_ok. } { now apply apart_ok. } { now apply apart_ok. } { now apply below_ok. } { now apply below_ok. } { now apply below_ok. } }
    eapply (tr_exec_ok ksize (kpr p0 p1 p2 4) (khb h0 h1 h2 h4) (ArmKaraP.window (win t p1 h1 64)) (ArmKaraP.window (win t p2 h2 64)) eq_refl eq_refl csize
      (State (fun _ => Int 0) (mm t) false false) scratch PL); [|eapply kara_mst|exact KE].
    { intros r z Er. cbn [rg] in Er. injection Er as <-. lia. }
    all: auto.
    { now apply apart_ok. } { now apply apart_ok. } { now apply apart_ok. } { now apply below_ok. } { now apply below_ok. } { now apply below_ok. }
    { intros i Hi. destruct (Wx i Hi) as (A & B & _). auto. } { intros i Hi. destruct (Wy i Hi) as (A & B & _). auto. }
  Qed.

  Lemma toom_trace :
    rg ini R0 = Ptr 1 0 -> rg ini R1 = Ptr 2 0 -> rg ini R2 = Ptr 3 0 -> rg ini SP = Ptr 4 3552 -> rg ini LR = Ret 3 ->
    (forall i, 0 <= i < 256 -> mm ini 1 i = Half (get a i) /\ mm ini 2 i = Half (get b i) /\ mm ini 3 i = Half (get res i)) ->
    (forall i, 0 <= i < 256 -> 0 <= get a i < 65536 /\ 0 <= get b i < 65536 /\ 0 <= get res i < 65536) ->
    tr_exec csize scratch 3 toom_cook_4way_mem_asm ini = atr_run tsize (fun r => r) (fun _ => 0) tcall ttr toom_cook_4way_mem_asm tinit.
  Proof.
    intros E0 E1 E2 E4 EL Em Rg. pose proof (toom_mst a b res ini E0 E1 E2 E4 EL Em Rg) as HM. destruct toom_run as (s & E & _).
    eapply (tr_run_ok tsize (fun r => r) (fun _ => 0) (tv a b res) one eq_refl eq_refl csize ini scratch (tplaced csize Hcs) Hini 2); [|exact HM|exact E].
    rewrite calls_toom. apply Forall_repeat. intros s0 s0' t0 F0 M0. split; [|now apply (ttr_ok s0 s0')].
    eapply tcall_ok; eassumption.
  Qed.
End Toom.

Lemma tc4_trace : forall env env' scratch scratch', regs_ok env -> regs_ok env' ->
  forall a a' b b' res res', arr U16 256 a -> arr U16 256 a' -> arr U16 256 b -> arr U16 256 b' -> arr U16 256 res -> arr U16 256 res' ->
  asm_trace env scratch 1776 3 toom_cook_4way_mem_asm (Ptr 1 0) (Ptr 2 0) (Ptr 3 0) (rg env R3) [(1%positive, a); (2%positive, b); (3%positive, res)] =
  asm_trace env' scratch' 1776 3 toom_cook_4way_mem_asm (Ptr 1 0) (Ptr 2 0) (Ptr 3 0) (rg env' R3) [(1%positive, a'); (2%positive, b'); (3%positive, res')].
Proof.
  assert (G : forall env scratch, regs_ok env -> forall a b res, arr U16 256 a -> arr U16 256 b -> arr U16 256 res ->
    asm_trace env scratch 1776 3 toom_cook_4way_mem_asm (Ptr 1 0) (Ptr 2 0) (Ptr 3 0) (rg env R3) [(1%positive, a); (2%positive, b); (3%positive, res)] =
    atr_run tsize (fun r => r) (fun _ => 0) tcall ttr toom_cook_4way_mem_asm tinit).
  { intros env scratch He a b res (La & Ta) (Lb & Tb) (Lr & Tr). unfold asm_trace. set (arrs := [(1%positive, a); (2%positive, b); (3%positive, res)]).
    change (Z.of_nat 3) with 3. set (s := asm_entry env 1776 3 (Ptr 1 0) (Ptr 2 0) (Ptr 3 0) (rg env R3) arrs).
    assert (Hs : regs_ok s).
    { intros r z. unfold s, asm_entry. cbn [rg]. destruct r; try discriminate; apply He. }
    assert (Hc : forall p, asm_size 1776 arrs p = tsize p).
    { intros p. unfold asm_size, arrs. cbn [array]. destruct p as [[[]|[]|]|[[]|[]|]|]; cbn [Pos.eqb]; auto. }
    apply (toom_trace a b res s scratch Hs (asm_size 1776 arrs) Hc); auto.
    intros i Hi. pose proof (typed_get U16 a i Ta ltac:(lia)). pose proof (typed_get U16 b i Tb ltac:(lia)). pose proof (typed_get U16 res i Tr ltac:(lia)).
    change (tmin U16) with 0 in *. change (tmax U16) with 65535 in *. lia. }
  intros. rewrite (G env) by auto. symmetry. now apply G.
Qed.

(** ** m4-striding *)
Lemma strd_trace : forall env env' scratch scratch', regs_ok env -> regs_ok env' ->
  forall a a' b b' res res' ext ext', arr U16 64 a -> arr U16 64 a' -> arr U16 64 b -> arr U16 64 b' ->
  arr U16 64 res -> arr U16 64 res' -> arr U16 64 ext -> arr U16 64 ext' ->
  asm_trace env scratch 30 2 kara_strd_mem_asm (Ptr 1 0) (Ptr 2 0) (Ptr 3 0) (Ptr 5 0)
    [(1%positive, a); (2%positive, b); (3%positive, res); (5%positive, ext)] =
  asm_trace env' scratch' 30 2 kara_strd_mem_asm (Ptr 1 0) (Ptr 2 0) (Ptr 3 0) (Ptr 5 0)
    [(1%positive, a'); (2%positive, b'); (3%positive, res'); (5%positive, ext')].
Proof.
  assert (G : forall env scratch, regs_ok env -> forall a b res ext, arr U16 64 a -> arr U16 64 b -> arr U16 64 res -> arr U16 64 ext ->
    asm_trace env scratch 30 2 kara_strd_mem_asm (Ptr 1 0) (Ptr 2 0) (Ptr 3 0) (Ptr 5 0)
      [(1%positive, a); (2%positive, b); (3%positive, res); (5%positive, ext)] =
    atr_exec ssize (fun r => r) (fun _ => 0) 2 kara_strd_mem_asm sinit).
  { intros env scratch He a b res ext Ha Hb Hr Hx. pose proof (strd_mst env a b res ext Ha Hb) as HM.
    unfold asm_trace. change (Z.of_nat 2) with 2. fold (strd_arrs a b res ext). fold (strd_entry env a b res ext).
    assert (Hs : regs_ok (strd_entry env a b res ext)).
    { intros r z. unfold strd_entry, asm_entry. cbn [rg]. destruct r; try discriminate; apply He. }
    assert (Hc : forall p, asm_size 30 (strd_arrs a b res ext) p = ssize p).
    { destruct Ha, Hb, Hr, Hx. intros p. unfold asm_size, strd_arrs. cbn [array]. destruct p as [[[]|[]|]|[[]|[]|]|]; cbn [Pos.eqb]; auto. }
    destruct strd_run as (s & E & _).
    eapply (tr_exec_ok ssize (fun r => r) (fun _ => 0) _ _ eq_refl eq_refl (asm_size 30 (strd_arrs a b res ext)) _ scratch (splaced _ Hc) Hs); [exact HM|exact E]. }
  intros. rewrite (G env) by auto. symmetry. now apply G.
Qed.

Lemma C68_tc4kara_lemma : forall env env' scratch scratch', regs_ok env -> regs_ok env' ->
  forall a a' b b' res res', arr U16 256 a -> arr U16 256 a' -> arr U16 256 b -> arr U16 256 b' -> arr U16 256 res -> arr U16 256 res' ->
  asm_trace env scratch 1776 3 toom_cook_4way_mem_asm (Ptr 1 0) (Ptr 2 0) (Ptr 3 0) (rg env R3) [(1%positive, a); (2%positive, b); (3%positive, res)] =
  asm_trace env' scratch' 1776 3 toom_cook_4way_mem_asm (Ptr 1 0) (Ptr 2 0) (Ptr 3 0) (rg env' R3) [(1%positive, a'); (2%positive, b'); (3%positive, res')] /\
  run (toom_cook_4way_mem env scratch a b res) <> None.
Proof.
  intros env env' sc sc' He He' a a' b b' res res' A A' B B' C C'. split; [now apply tc4_trace|].
  destruct (wp_run _ _ _ (toom_mem_ok env sc He a b res A B C)) as (x & E & _). rewrite E. discriminate.
Qed.
Lemma C68_striding_lemma : forall env env' scratch scratch', regs_ok env -> regs_ok env' ->
  forall a a' b b' res res' ext ext', arr U16 64 a -> arr U16 64 a' -> arr U16 64 b -> arr U16 64 b' ->
  arr U16 64 res -> arr U16 64 res' -> arr U16 64 ext -> arr U16 64 ext' ->
  asm_trace env scratch 30 2 kara_strd_mem_asm (Ptr 1 0) (Ptr 2 0) (Ptr 3 0) (Ptr 5 0)
    [(1%positive, a); (2%positive, b); (3%positive, res); (5%positive, ext)] =
  asm_trace env' scratch' 30 2 kara_strd_mem_asm (Ptr 1 0) (Ptr 2 0) (Ptr 3 0) (Ptr 5 0)
    [(1%positive, a'); (2%positive, b'); (3%positive, res'); (5%positive, ext')] /\
  run (kara_strd_mem env scratch a b res ext) <> None.
Proof.
  intros env env' sc sc' He He' a a' b b' res res' ext ext' A A' B B' C C' D D'. split; [now apply strd_trace|].
  destruct (wp_run _ _ _ (kara_strd_ok env sc He a b res ext A B C D)) as (x & E & _). rewrite E. discriminate.
Qed.
