(** toom_cook_4way_mem_asm of the Cortex-M4 code adds the negacyclic product. *)
From Coq Require Import ZArith List Bool Lia FMapPositive.
From Verif Require Import Lib.Arr Spec.Ring Proof.ToomP Proof.Conv Model.Arm Model.ArmCode Proof.ArmSym Proof.ArmSymP Proof.ArmKaraP.
Import ListNotations.
Local Open Scope Z_scope.

(** ** Symbolic execution, with the limb products as variables *)
Definition tsize (p : positive) : Z := match p with 1%positive | 2%positive | 3%positive => 256 | 4%positive => 1776 | _ => 0 end.
Definition tvar (k : Z) : acell := CH (16, [(k, 0, 1)]).
Definition tinit : astate :=
  let s := afill 256 1 0 (fun i => tvar (i + 1)) (afill 256 2 0 (fun i => tvar (i + 257)) (afill 256 3 0 (fun i => tvar (i + 513)) aempty)) in
  let s := aset (aset (aset (aset (aset s R0 (AP 1 0)) R1 (AP 2 0)) R2 (AP 3 0)) SP (AP 4 3552)) LR (AR 3) in
  fold_left (fun s r => aset s r (AO r)) [R3; R4; R5; R6; R7; R8; R9; R10; R11; R12] s.

(** The points of evaluation: the coefficients of the four limbs. *)
Definition tpts : list (Z * Z * Z * Z) :=
  [(1, 0, 0, 0); (0, 0, 0, 1); (1, 1, 1, 1); (1, -1, 1, -1); (8, 4, 2, 1); (8, -4, 2, -1); (1, 2, 4, 8)].
Definition tm (k c : Z) : poly := if c =? 0 then [] else [(k, 0, c)].
Definition teval (base : Z) (pt : Z * Z * Z * Z) (i : Z) : poly :=
  let '(e0, e1, e2, e3) := pt in
  padd (tm (base + i) e0) (padd (tm (base + 64 + i) e1) (padd (tm (base + 128 + i) e2) (tm (base + 192 + i) e3))).
Definition tkey (t i : Z) : Z := 769 + 127 * t + i.
Definition tprod (pt : Z * Z * Z * Z) (i : Z) : poly :=
  let '(e0, e1, e2, e3) := pt in
  padd (tm (tkey 0 i) (e0 * e0)) (padd (tm (tkey 1 i) (e0 * e1)) (padd (tm (tkey 2 i) (e1 * e1))
    (padd (tm (tkey 3 i) (e0 * e3)) (padd (tm (tkey 4 i) (e2 * e2)) (padd (tm (tkey 5 i) (e2 * e3)) (tm (tkey 6 i) (e3 * e3))))))).
Definition is_pt (pt : Z * Z * Z * Z) : bool :=
  let '(e0, e1, e2, e3) := pt in (e1 * e1 =? e0 * e2) && (e1 * e2 =? e0 * e3) && (e2 * e2 =? e1 * e3).
Definition tis (s : astate) (p : positive) (h base : Z) (pt : Z * Z * Z * Z) : bool :=
  upto 64 (fun i => is_half (mget s p (h + i)) 16 (teval base pt i)).
Definition apart (p q : positive) (h n h' n' : Z) : bool := negb (Pos.eqb p q) || (h + n <=? h') || (h' + n' <=? h).
Definition within (p : positive) (h n : Z) : bool := (Zpos p <? 8) && (0 <=? h) && (h + n <=? tsize p).
Definition tcall (f : list stmt) (s : astate) : option astate :=
  match aget s R0, aget s R1, aget s R2, aget s SP with
  | AP p0 o0, AP p1 o1, AP p2 o2, AP p4 o4 =>
    let h0 := o0 / 2 in let h1 := o1 / 2 in let h2 := o2 / 2 in let h4 := o4 / 2 in
    if (o0 mod 2 =? 0) && (o1 mod 2 =? 0) && (o2 mod 2 =? 0) && (o4 mod 2 =? 0) && Pos.eqb p4 4 &&
       within p0 h0 127 && within p1 h1 64 && within p2 h2 64 && within p4 (h4 - 208) 208 &&
       apart p0 p1 h0 127 h1 64 && apart p0 p2 h0 127 h2 64 && apart p1 p2 h1 64 h2 64 &&
       (negb (Pos.eqb p0 4) || (h4 <=? h0)) && (negb (Pos.eqb p1 4) || (h4 <=? h1)) && (negb (Pos.eqb p2 4) || (h4 <=? h2))
    then
      pt <-? find (fun pt => tis s p1 h1 257 pt && tis s p2 h2 1 pt) tpts ;;
      let s := afill 127 p0 h0 (fun i => CH (16, tprod pt (i - h0))) s in
      let s := afill 208 4 (h4 - 208) (fun _ => CT) s in
      Some (AState (PositiveMap.add (rkey SP) (AP p4 o4) (PositiveMap.empty _)) (am s) None)
    else None
  | _, _, _, _ => None
  end.

(** Coefficient k of [res] plus the product, in terms of the limb products. *)
Definition tc (t i c : Z) : poly := if (0 <=? t) && (t <? 7) && (0 <=? i) && (i <? 127) then [(tkey t i, 0, c)] else [].
Definition texpect (k : Z) : poly :=
  let l := k / 64 in let i := k mod 64 in
  padd (padd [(k + 513, 0, 1)] (padd (tc l i 1) (tc (l - 1) (i + 64) 1))) (padd (tc (l + 4) i (-1)) (tc (l + 3) (i + 64) (-1))).
Definition tfinal (s : astate) : bool :=
  aval_eqb (aget s PC) (AR 3) && aval_eqb (aget s SP) (AP 4 3552) &&
  forallb (fun r => aval_eqb (aget s r) (AO r)) [R4; R5; R6; R7; R8; R9; R10; R11] &&
  upto 256 (fun k => is_half (mget s 1 k) 16 [(k + 1, 0, 1)]) && upto 256 (fun k => is_half (mget s 2 k) 16 [(k + 257, 0, 1)]) &&
  upto 256 (fun k => is_half (mget s 3 k) 13 (texpect k)).
Lemma toom_run : exists s, arun tsize tcall toom_cook_4way_mem_asm tinit = Some s /\ tfinal s = true.
Proof. apply (run_some (arun tsize tcall toom_cook_4way_mem_asm tinit) tfinal). vm_cast_no_check (eq_refl true). Qed.
Local Opaque arun toom_cook_4way_mem_asm karatsuba_64x64.

Lemma some_inj : forall A (x y : A), Some x = Some y -> x = y.
Proof. congruence. Qed.
Lemma mget_am : forall x s f r i, mget (AState x (am s) f) r i = mget s r i.
Proof. reflexivity. Qed.
Lemma tpts_ok : forall pt, In pt tpts -> is_pt pt = true.
Proof. apply forallb_forall. reflexivity. Qed.

Lemma calls_toom : calls toom_cook_4way_mem_asm = repeat karatsuba_64x64 7.
Proof. Local Transparent toom_cook_4way_mem_asm. reflexivity. Qed.
Local Opaque toom_cook_4way_mem_asm.

Section Toom.
  Variable a b res : list Z.
  Hypothesis La : len a = 256.
  Hypothesis Lb : len b = 256.
  Variable ini scratch : state.
  Hypothesis Hini : regs_ok ini.
  Variable csize : positive -> Z.
  Hypothesis Hcs : forall p, csize p = tsize p.

  Definition cc (t : Z) (i : Z) : Z :=
    match t with 0 => c0 a b i | 1 => c1 a b i | 2 => c2 a b i | 3 => c3 a b i | 4 => c4 a b i | 5 => c5 a b i | 6 => c6 a b i | _ => 0 end.
  Definition tv (k : Z) : Z :=
    if k =? 0 then 1 else if k <=? 256 then get a (k - 1) else if k <=? 512 then get b (k - 257) else if k <=? 768 then get res (k - 513)
    else cc ((k - 769) / 127) ((k - 769) mod 127).
  Definition one (_ : Z) : Z := 1.

  Lemma tv_a : forall i, 0 <= i < 256 -> tv (i + 1) = get a i.
  Proof. intros. unfold tv. destruct (Z.eqb_spec (i + 1) 0); [lia|]. destruct (Z.leb_spec (i + 1) 256); [|lia]. f_equal. lia. Qed.
  Lemma tv_b : forall i, 0 <= i < 256 -> tv (i + 257) = get b i.
  Proof.
    intros. unfold tv. destruct (Z.eqb_spec (i + 257) 0); [lia|]. destruct (Z.leb_spec (i + 257) 256); [lia|].
    destruct (Z.leb_spec (i + 257) 512); [|lia]. f_equal. lia.
  Qed.
  Lemma tv_r : forall i, 0 <= i < 256 -> tv (i + 513) = get res i.
  Proof.
    intros. unfold tv. destruct (Z.eqb_spec (i + 513) 0); [lia|]. destruct (Z.leb_spec (i + 513) 256); [lia|].
    destruct (Z.leb_spec (i + 513) 512); [lia|]. destruct (Z.leb_spec (i + 513) 768); [|lia]. f_equal. lia.
  Qed.
  Lemma tv_c : forall t i, 0 <= t -> 0 <= i < 127 -> tv (tkey t i) = cc t i.
  Proof.
    intros. unfold tv, tkey. destruct (Z.eqb_spec (769 + 127 * t + i) 0); [lia|]. destruct (Z.leb_spec (769 + 127 * t + i) 256); [lia|].
    destruct (Z.leb_spec (769 + 127 * t + i) 512); [lia|]. destruct (Z.leb_spec (769 + 127 * t + i) 768); [lia|].
    replace (769 + 127 * t + i - 769) with (i + t * 127) by lia. rewrite Z.div_add, Z.mod_add by lia.
    rewrite Z.div_small, Z.mod_small by lia. reflexivity.
  Qed.

  Lemma peval_tm : forall k c, peval tv one (tm k c) = c * tv k.
  Proof. intros. unfold tm. destruct (Z.eqb_spec c 0); cbn [peval]; unfold one; lia. Qed.
  Lemma teval_a : forall e0 e1 e2 e3 i, 0 <= i < 64 -> peval tv one (teval 1 (e0, e1, e2, e3) i) = lin4 e0 e1 e2 e3 (get a) i.
  Proof.
    intros. cbn [teval]. rewrite !peval_add, !peval_tm. unfold lin4. rewrite !blk_in by lia.
    replace (1 + i) with (64 * 0 + i + 1) by lia. replace (1 + 64 + i) with (64 * 1 + i + 1) by lia.
    replace (1 + 128 + i) with (64 * 2 + i + 1) by lia. replace (1 + 192 + i) with (64 * 3 + i + 1) by lia. rewrite !tv_a by lia. lia.
  Qed.
  Lemma teval_b : forall e0 e1 e2 e3 i, 0 <= i < 64 -> peval tv one (teval 257 (e0, e1, e2, e3) i) = lin4 e0 e1 e2 e3 (get b) i.
  Proof.
    intros. cbn [teval]. rewrite !peval_add, !peval_tm. unfold lin4. rewrite !blk_in by lia.
    replace (257 + i) with (64 * 0 + i + 257) by lia. replace (257 + 64 + i) with (64 * 1 + i + 257) by lia.
    replace (257 + 128 + i) with (64 * 2 + i + 257) by lia. replace (257 + 192 + i) with (64 * 3 + i + 257) by lia. rewrite !tv_b by lia. lia.
  Qed.
  Lemma tprod_ok : forall e0 e1 e2 e3 i, is_pt (e0, e1, e2, e3) = true -> 0 <= i < 127 ->
    peval tv one (tprod (e0, e1, e2, e3) i) = conv 64 (lin4 e0 e1 e2 e3 (get a)) (lin4 e0 e1 e2 e3 (get b)) i.
  Proof.
    intros e0 e1 e2 e3 i H Hi. unfold is_pt in H. rewrite !andb_true_iff in H. destruct H as ((H1 & H2) & H3). apply Z.eqb_eq in H1, H2, H3.
    cbn [tprod]. rewrite !peval_add, !peval_tm. rewrite !tv_c by lia. rewrite conv_lin4. cbn [cc]. unfold c0, c1, c2, c3, c4, c5, c6.
    repeat match goal with |- context [B ?a ?b ?p ?q ?x] => generalize (B a b p q x); intro end.
    rewrite (Z.mul_comm e1 e0), (Z.mul_comm e2 e0), (Z.mul_comm e3 e0), (Z.mul_comm e2 e1), (Z.mul_comm e3 e1), (Z.mul_comm e3 e2).
    rewrite H2, <- H1, <- H3. ring.
  Qed.

  Let M := mst tv one tsize (fun r => r) (fun _ => 0) ini.
  Lemma tplaced : placed tsize csize (fun r => r) (fun _ => 0).
  Proof. split; [|split]; intros; auto; [rewrite Hcs; lia|congruence]. Qed.

  Definition value (c : cell) : Z := match c with Half z => z | _ => 0 end.
  Definition win (t : state) (p : positive) (h n i : Z) : Z := if (0 <=? i) && (i <? n) then value (mm t p (h + i)) else 0.

  Lemma tis_ok : forall s t p h base pt, M s t -> within p h 64 = true -> tis s p h base pt = true ->
    forall i, 0 <= i < 64 -> mm t p (h + i) = Half (win t p h 64 i) /\ 0 <= win t p h 64 i < 65536 /\ eqm 65536 (win t p h 64 i) (peval tv one (teval base pt i)).
  Proof.
    intros s t p h base pt (_ & Hm & _) W H i Hi. unfold within in W. rewrite !andb_true_iff in W. destruct W as ((W1 & W2) & W3).
    unfold tis in H. apply (upto_ok _ _ i) in H; [|lia].
    assert (I : inw tsize p (h + i)) by (split; lia).
    destruct (is_half_ok _ _ tsize _ _ _ _ _ _ 16 _ _ ltac:(lia) H (Hm p (h + i) I) I) as (z & Ez & R & Hz). rewrite Z.add_0_l in Ez.
    unfold win. replace (_ && _)%bool with true by lia. rewrite Ez. cbn [value]. auto.
  Qed.
  Lemma win_supp : forall t p h, supp 64 (win t p h 64).
  Proof. intros t p h k Hk. unfold win. destruct (_ && _) eqn:E; auto. lia. Qed.

  Lemma apart_ok : forall p q h n h' n', apart p q h n h' n' = true -> p = q -> h + n <= h' \/ h' + n' <= h.
  Proof. intros p q h n h' n' H ->. unfold apart in H. rewrite Pos.eqb_refl in H. cbn [negb orb] in H. lia. Qed.
  Lemma below_ok : forall p h4 h, (negb (Pos.eqb p 4) || (h4 <=? h))%bool = true -> 4%positive = p -> h4 <= h.
  Proof. intros p h4 h H <-. cbn in H. lia. Qed.

  Lemma tcall_ok : forall s s' t, tcall karatsuba_64x64 s = Some s' -> M s t ->
    exists t', ccall csize scratch 2 karatsuba_64x64 t = Some t' /\ M s' t'.
  Proof.
    intros s s' t H HM. unfold tcall in H.
    pose proof (proj1 HM R0) as V0. pose proof (proj1 HM R1) as V1. pose proof (proj1 HM R2) as V2. pose proof (proj1 HM SP) as V4.
    destruct (aget s R0) as [| |p0 o0| | |]; try discriminate. destruct (aget s R1) as [| |p1 o1| | |]; try discriminate.
    destruct (aget s R2) as [| |p2 o2| | |]; try discriminate. destruct (aget s SP) as [| |p4 o4| | |]; try discriminate.
    cbn [mval conc] in V0, V1, V2, V4. rewrite Z.mul_0_r, Z.add_0_l in V0, V1, V2, V4.
    destruct (_ && _) eqn:E; [|discriminate]. rewrite !andb_true_iff in E.
    destruct E as ((((((((((((((X1 & X2) & X3) & X4) & X5) & X6) & X7) & X8) & X9) & X10) & X11) & X12) & X13) & X14) & X15).
    apply Pos.eqb_eq in X5. subst p4.
    destruct (find _ tpts) as [pt|] eqn:F; cbn [bind] in H; [|discriminate]. apply some_inj in H. subst s'.
    apply find_some in F as (F1 & F2). apply tpts_ok in F1. apply andb_true_iff in F2 as (F2 & F3).
    remember (o0 / 2) as h0. remember (o1 / 2) as h1. remember (o2 / 2) as h2. remember (o4 / 2) as h4.
    assert (O0 : o0 = 2 * h0) by dlia. assert (O1 : o1 = 2 * h1) by dlia. assert (O2 : o2 = 2 * h2) by dlia. assert (O4 : o4 = 2 * h4) by dlia.
    clear Heqh0 Heqh1 Heqh2 Heqh4 X1 X2 X3 X4. subst o0 o1 o2 o4.
    pose proof (tis_ok s t p1 h1 257 pt HM X7 F2) as Wx. pose proof (tis_ok s t p2 h2 1 pt HM X8 F3) as Wy.
    unfold within in X6, X7, X8, X9. rewrite !andb_true_iff in X6, X7, X8, X9.
    edestruct (kara_ok csize scratch t p0 p1 p2 4%positive h0 h1 h2 h4 (win t p1 h1 64) (win t p2 h2 64)) as (t' & Et & Es & Hout & Hfr); auto.
    { rewrite Hcs. lia. } { rewrite Hcs. lia. } { rewrite Hcs. lia. } { rewrite Hcs. lia. }
    { now apply apart_ok. } { now apply apart_ok. } { now apply apart_ok. } { now apply below_ok. } { now apply below_ok. } { now apply below_ok. }
    { intros i Hi. destruct (Wx i Hi) as (A & B & _). auto. } { intros i Hi. destruct (Wy i Hi) as (A & B & _). auto. }
    { apply win_supp. }
    exists t'. split; [exact Et|].
    assert (Wo : forall k, 0 <= k < Z.of_nat 127 -> inw tsize p0 (h0 + k)) by (intros; split; lia).
    assert (Ws : forall k, 0 <= k < Z.of_nat 208 -> inw tsize 4 (h4 - 208 + k)) by (intros; split; lia).
    assert (HP : forall k, 0 <= k < 127 -> eqm 65536 (conv 64 (win t p2 h2 64) (win t p1 h1 64) k) (peval tv one (tprod pt k))).
    { intros k Hk. destruct pt as [[[e0 e1] e2] e3]. rewrite tprod_ok by auto. apply conv_eqm; [apply win_supp|apply lin4_supp| |]; intros i Hi.
      - destruct (Wy i Hi) as (_ & _ & G). now rewrite teval_a in G.
      - destruct (Wx i Hi) as (_ & _ & G). now rewrite teval_b in G. }
    destruct HM as (Hr & Hm & Ho & Hf). split; [|split; [|split]].
    - intros r. unfold aget. cbn [ar]. destruct (reg_eq_dec r SP) as [->|N].
      + rewrite PositiveMap.gss. cbn [mval conc]. rewrite Es, V4. reflexivity.
      + rewrite PositiveMap.gso, PositiveMap.gempty; [exact Logic.I|]. intros E. apply N. now apply rkey_inj.
    - intros r i W.
      rewrite mget_am.
      rewrite !(mget_afill tsize) by auto. rewrite Z.add_0_l. change (Z.of_nat 208) with 208. change (Z.of_nat 127) with 127.
      destruct (_ && _) eqn:B4; [exact Logic.I|]. destruct (Pos.eqb r p0 && (h0 <=? i) && (i <? h0 + 127)) eqn:B0.
      + rewrite !andb_true_iff in B0. destruct B0 as ((B0 & B1) & B2). apply Pos.eqb_eq in B0. subst r.
        destruct (Hout (i - h0) ltac:(lia)) as (z & Ez & Rz & Hz). replace (h0 + (i - h0)) with i in Ez by lia.
        cbn [mcell]. exists z. split; auto. split; auto. split; cbn [fst snd]; [lia|].
        eapply eqm_trans; [exact Hz|]. apply HP. lia.
      + rewrite Hfr.
        * specialize (Hm r i W). now rewrite Z.add_0_l in Hm.
        * intros (-> & B). rewrite Pos.eqb_refl in B0. lia.
        * intros (-> & B). rewrite Pos.eqb_refl in B4. lia.
    - intros p j Hout'. rewrite Hfr.
      + now apply Ho.
      + intros (-> & B). apply (Hout' p0 j); [|split; auto; lia]. replace j with (h0 + (j - h0)) by lia. apply Wo. lia.
      + intros (-> & B). apply (Hout' 4%positive j); [|split; auto; lia]. replace j with (h4 - 208 + (j - h4 + 208)) by lia. apply Ws. lia.
    - cbn [af]. discriminate.
  Qed.

  Lemma cc_out : forall t i, ~ (0 <= i < 127) -> cc t i = 0.
  Proof.
    intros t i H. assert (O : forall p q, B a b p q i = 0) by (intros; apply conv_out; [apply blk_supp|lia]).
    destruct t as [|[[[]|[]|]|[[]|[]|]|]|]; cbn [cc]; auto; unfold c0, c1, c2, c3, c4, c5, c6; rewrite !O; reflexivity.
  Qed.
  Lemma conv_cc : forall k, conv 256 (get a) (get b) k =
    cc 0 k + cc 1 (k - 64) + cc 2 (k - 128) + cc 3 (k - 192) + cc 4 (k - 256) + cc 5 (k - 320) + cc 6 (k - 384).
  Proof. intros k. exact (conv_blocks 64 (get a) (get b) k ltac:(lia) (get_supp b 256 Lb)). Qed.

  Lemma tc_ok : forall t i c, 0 <= t < 7 -> peval tv one (tc t i c) = c * cc t i.
  Proof.
    intros t i c Ht. unfold tc. destruct (_ && _) eqn:E; cbn [peval]; [rewrite tv_c by lia; unfold one; lia|].
    rewrite cc_out; lia.
  Qed.
  Lemma tc_out : forall t i c, ~ (0 <= t < 7) -> peval tv one (tc t i c) = 0.
  Proof. intros t i c Ht. unfold tc. destruct (_ && _) eqn:E; [lia|reflexivity]. Qed.

  Lemma texpect_ok : forall k, 0 <= k < 256 -> peval tv one (texpect k) = get res k + mul_coef a b k.
  Proof.
    intros k Hk. unfold texpect. rewrite !peval_add. cbn [peval]. rewrite tv_r by auto. unfold one at 1.
    rewrite mul_coef_conv by auto. rewrite !conv_cc.
    assert (H : k = 64 * (k / 64) + k mod 64 /\ 0 <= k mod 64 < 64 /\ 0 <= k / 64 < 4) by dlia.
    remember (k / 64) as l. remember (k mod 64) as i. destruct H as (-> & Hi & Hl). clear Heql Heqi.
    assert (C : l = 0 \/ l = 1 \/ l = 2 \/ l = 3) by lia.
    destruct C as [->|[->|[->| ->]]]; rewrite ?tc_ok by lia; rewrite ?tc_out by lia; rewrite ?tc_ok by lia;
      repeat match goal with |- context [cc ?t ?e] => first
        [ rewrite (cc_out t e) by lia
        | let H := fresh in assert (H : e = i) by lia; progress rewrite H; clear H
        | let H := fresh in assert (H : e = i + 64) by lia; progress rewrite H; clear H ] end;
      repeat match goal with |- context [cc (?x + ?y) _] => let v := eval compute in (x + y) in change (x + y) with v end;
      repeat match goal with |- context [cc (?x - ?y) _] => let v := eval compute in (x - y) in change (x - y) with v end; lia.
  Qed.

  Lemma toom_mst :
    rg ini R0 = Ptr 1 0 -> rg ini R1 = Ptr 2 0 -> rg ini R2 = Ptr 3 0 -> rg ini SP = Ptr 4 3552 -> rg ini LR = Ret 3 ->
    (forall i, 0 <= i < 256 -> mm ini 1 i = Half (get a i) /\ mm ini 2 i = Half (get b i) /\ mm ini 3 i = Half (get res i)) ->
    (forall i, 0 <= i < 256 -> 0 <= get a i < 65536 /\ 0 <= get b i < 65536 /\ 0 <= get res i < 65536) ->
    M tinit ini.
  Proof.
    intros E0 E1 E2 E4 EL Em Rg.
    split; [|split; [|split]].
    - intros r. unfold tinit. cbn [fold_left]. rewrite !aget_aset, !aget_afill.
      destruct r; cbn -[Z.mul Z.add afill]; try exact Logic.I; try reflexivity; auto.
    - intros r i W. change (mget tinit r i) with
        (mget (afill 256 1 0 (fun i => tvar (i + 1)) (afill 256 2 0 (fun i => tvar (i + 257)) (afill 256 3 0 (fun i => tvar (i + 513)) aempty))) r i).
      assert (W1 : forall k, 0 <= k < Z.of_nat 256 -> inw tsize 1 (0 + k)) by (intros; split; cbn [tsize]; lia).
      assert (W2 : forall k, 0 <= k < Z.of_nat 256 -> inw tsize 2 (0 + k)) by (intros; split; cbn [tsize]; lia).
      assert (W3 : forall k, 0 <= k < Z.of_nat 256 -> inw tsize 3 (0 + k)) by (intros; split; cbn [tsize]; lia).
      rewrite !(mget_afill tsize) by auto. change (Z.of_nat 256) with 256. clear W1 W2 W3. rewrite !Z.add_0_l.
      assert (G : forall k z, tv k = z -> 0 <= z < 65536 -> mcell tv one (fun r => r) (fun _ => 0) ini r i (Some (tvar k)) (Half z)).
      { intros k z Hk Hz. cbn [mcell tvar]. exists z. split; auto. split; auto. split; cbn [fst snd peval]; [lia|]. rewrite Hk. apply eqm_eq. unfold one. lia. }
      destruct W as (W & W'). destruct r as [[[]|[]|]|[[]|[]|]|]; cbn [tsize] in W'; try lia; cbn [Pos.eqb andb]; cbv beta.
      + replace (_ && _)%bool with true by lia. destruct (Em i W') as (_ & _ & ->). apply G; [now apply tv_r|now apply Rg].
      + unfold mget, aempty. cbn [am]. rewrite PositiveMap.gempty. reflexivity.
      + replace (_ && _)%bool with true by lia. destruct (Em i W') as (_ & -> & _). apply G; [now apply tv_b|now apply Rg].
      + replace (_ && _)%bool with true by lia. destruct (Em i W') as (-> & _). apply G; [now apply tv_a|now apply Rg].
    - reflexivity.
    - discriminate.
  Qed.

  Lemma toom_ok :
    rg ini R0 = Ptr 1 0 -> rg ini R1 = Ptr 2 0 -> rg ini R2 = Ptr 3 0 -> rg ini SP = Ptr 4 3552 -> rg ini LR = Ret 3 ->
    (forall i, 0 <= i < 256 -> mm ini 1 i = Half (get a i) /\ mm ini 2 i = Half (get b i) /\ mm ini 3 i = Half (get res i)) ->
    (forall i, 0 <= i < 256 -> 0 <= get a i < 65536 /\ 0 <= get b i < 65536 /\ 0 <= get res i < 65536) ->
    exists t', exec csize scratch 3 toom_cook_4way_mem_asm ini = Some t' /\ rg t' PC = Ret 3 /\
      (forall r, In r [R4; R5; R6; R7; R8; R9; R10; R11; SP] -> rg t' r = rg ini r) /\
      (forall i, 0 <= i < 256 -> mm t' 1 i = Half (get a i) /\ mm t' 2 i = Half (get b i)) /\
      (forall i, 0 <= i < 256 -> exists z, mm t' 3 i = Half z /\ 0 <= z < 65536 /\ eqm 8192 z (get res i + mul_coef a b i)).
  Proof.
    intros E0 E1 E2 E4 EL Em Rg.
    pose proof (toom_mst E0 E1 E2 E4 EL Em Rg) as HM.
    destruct toom_run as (s & E & K).
    assert (HC : Forall (fun f => forall s s' t, tcall f s = Some s' -> mst tv one tsize (fun r => r) (fun _ => 0) ini s t ->
      exists t', ccall csize scratch 2 f t = Some t' /\ mst tv one tsize (fun r => r) (fun _ => 0) ini s' t') (calls toom_cook_4way_mem_asm)).
    { rewrite calls_toom. apply Forall_repeat. exact tcall_ok. }
    destruct (mst_run tv one eq_refl eq_refl tsize csize (fun r => r) (fun _ => 0) ini scratch tplaced Hini 2 tcall toom_cook_4way_mem_asm HC tinit ini s HM E) as (t' & Ex & M').
    clear E HM HC. unfold tfinal in K. rewrite !andb_true_iff in K. destruct K as (((((K1 & K2) & K3) & K4) & K5) & K6).
    apply aval_eqb_ok in K1, K2. rewrite forallb_forall in K3. destruct M' as (Hr & Hm & _ & _).
    exists t'. split; [exact Ex|]. split; [|split; [|split]].
    - specialize (Hr PC). now rewrite K1 in Hr.
    - intros r Hin. apply in_app_or with (l := [R4; R5; R6; R7; R8; R9; R10; R11]) (m := [SP]) in Hin. destruct Hin as [Hin|[<-|[]]].
      + specialize (K3 r Hin). apply aval_eqb_ok in K3. specialize (Hr r). now rewrite K3 in Hr.
      + specialize (Hr SP). rewrite K2 in Hr. cbn [mval conc] in Hr. rewrite Hr, E4. reflexivity.
    - intros i Hi. destruct (Rg i Hi) as (Ra & Rb & _). split.
      + assert (W : inw tsize 1 i) by (split; cbn [tsize]; lia). apply (upto_ok _ _ i) in K4; [|lia].
        destruct (is_half_ok _ _ tsize _ _ _ _ _ _ 16 _ _ ltac:(lia) K4 (Hm 1%positive i W) W) as (z & Ez & R & Hz). cbn [peval] in Hz. rewrite tv_a in Hz by auto.
        rewrite Z.add_0_l in Ez. rewrite Ez. f_equal. apply half_eq; auto. eapply eqm_trans; [exact Hz|]. apply eqm_eq. unfold one. lia.
      + assert (W : inw tsize 2 i) by (split; cbn [tsize]; lia). apply (upto_ok _ _ i) in K5; [|lia].
        destruct (is_half_ok _ _ tsize _ _ _ _ _ _ 16 _ _ ltac:(lia) K5 (Hm 2%positive i W) W) as (z & Ez & R & Hz). cbn [peval] in Hz. rewrite tv_b in Hz by auto.
        rewrite Z.add_0_l in Ez. rewrite Ez. f_equal. apply half_eq; auto. eapply eqm_trans; [exact Hz|]. apply eqm_eq. unfold one. lia.
    - intros i Hi. assert (W : inw tsize 3 i) by (split; cbn [tsize]; lia). apply (upto_ok _ _ i) in K6; [|lia].
      destruct (is_half_ok _ _ tsize _ _ _ _ _ _ 13 _ _ ltac:(lia) K6 (Hm 3%positive i W) W) as (z & Ez & R & Hz). rewrite texpect_ok in Hz by auto.
      rewrite Z.add_0_l in Ez. exists z. auto.
  Qed.
End Toom.
