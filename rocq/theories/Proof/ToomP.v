(** [toom_cook_4way] and [poly_mul_acc] compute the product modulo 2^13. *)
From Coq Require Import ZArith List Bool Lia.
From Verif Require Import Lib.Arr Lib.CInt Lib.CMon Spec.Ring Proof.Conv Model.PolyMul Proof.KaraP.
Import ListNotations.
Local Open Scope Z_scope.

Lemma wp_asgm : forall n m e v (Q : cexp -> Prop), m * n = 65536 -> safe e = true -> lok e -> eqm m (val e) v ->
  (forall z, u16 z -> eqm m z v -> Q (Var U16 z)) -> wp (asg U16 e) Q.
Proof.
  intros n m e v Q Hm Hs Hl Hv HQ. apply wp_asg; auto. apply HQ; [exact (wrap_range U16 (val e))|].
  eapply eqm_trans; [|apply Hv]. apply eqm_divide with n. rewrite Hm. apply wrap16.
Qed.

Lemma eqm_shr : forall s m e v w, 0 <= s -> w = 2 ^ s * v -> eqm (2 ^ s * m) e w -> eqm m (Z.shiftr e s) v.
Proof.
  intros s m e v w Hs -> (q & ->). exists q. rewrite Z.shiftr_div_pow2 by lia.
  replace (2 ^ s * v + 2 ^ s * m * q) with ((v + m * q) * 2 ^ s) by ring. apply Z.div_mul.
  apply Z.pow_nonzero; lia.
Qed.

Ltac ev := cbn [val val_bin ty promote common]; unfold cv, uw; cbn [subr signed].
Ltac lk := unfold u16 in *; cbn [lok OVERFLOWING_MUL tmin tmax]; repeat split; (assumption || lia).
(** Congruence of a compound expression from those of its parts. *)
Ltac ec := repeat first [eassumption | apply eqm_add | apply eqm_sub | apply eqm_opp | apply eqm_mul | apply eqm_refl].
Ltac lin := ev; eapply eqm_trans; [ec|apply eqm_eq; ring].

(** ** Evaluation *)

Definition lin4 (x0 x1 x2 x3 : Z) (a : Z -> Z) (i : Z) : Z :=
  x0 * blk 64 0 a i + x1 * blk 64 1 a i + x2 * blk 64 2 a i + x3 * blk 64 3 a i.

Definition pre (l : list Z) (i : Z) (f : Z -> Z) : Prop :=
  len l = 64 /\ forall k, 0 <= k < i -> u16 (get l k) /\ eq16 (get l k) (f k).

Lemma pre_st : forall l i e f (Q : list Z -> Prop), pre l i f -> 0 <= i < 64 ->
  safe e = true -> lok e -> eq16 (val e) (f i) -> (forall l', pre l' (i + 1) f -> Q l') -> wp (st U16 l i e) Q.
Proof.
  intros l i e f Q (L & H) Hi Hs Hl Hv HQ. apply wp_st; auto; [lia|]. apply HQ. split; [now rewrite len_upd|].
  intros k Hk. unfold get. rewrite znth_upd by lia. destruct (k =? i) eqn:E.
  - split; [exact (wrap_range U16 _)|]. replace k with i by lia. eapply eqm_trans; [apply wrap16|auto].
  - apply H. lia.
Qed.

Lemma pre_rep : forall l f, pre l 64 f -> len l = 64 /\ rep l f.
Proof.
  intros l f (L & H). split; auto. split; [|intros; apply H; lia]. apply (Forall_znth_iff _ 0). intros k Hk. exact (proj1 (H k ltac:(lia))).
Qed.

Definition evinv (a : Z -> Z) (i : Z) (s : evs) : Prop :=
  pre (e1 s) i (lin4 0 0 0 1 a) /\ pre (e2 s) i (lin4 1 2 4 8 a) /\ pre (e3 s) i (lin4 1 1 1 1 a) /\
  pre (e4 s) i (lin4 1 (-1) 1 (-1) a) /\ pre (e5 s) i (lin4 8 4 2 1 a) /\ pre (e6 s) i (lin4 8 (-4) 2 (-1) a) /\
  pre (e7 s) i (lin4 1 0 0 0 a).

Lemma toom_eval_ok : forall a j s, len a = 256 -> typed U16 a -> 0 <= j < 64 -> evinv (get a) j s ->
  wp (toom_eval a (zskip 64 a) (zskip 128 a) (zskip 192 a) j s) (evinv (get a) (j + 1)).
Proof.
  intros a j [a1 a2 a3 a4 a5 a6 a7] La Ta Hj (P1 & P2 & P3 & P4 & P5 & P6 & P7).
  cbn [e1 e2 e3 e4 e5 e6 e7] in *. unfold toom_eval.
  assert (forall p, 0 <= p < 4 -> get (zskip (64 * p) a) j = blk 64 p (get a) j) as G.
  { intros. rewrite blk_in by lia. unfold get. rewrite znth_zskip by lia. f_equal. }
  assert (forall p, 0 <= p < 4 -> len (zskip (64 * p) a) = 256 - 64 * p) as L by (intros; rewrite len_zskip; lia).
  assert (forall p, typed U16 (zskip p a)) as TT by (intros; now apply Forall_zskip).
  pose proof (L 1) as L1. pose proof (L 2) as L2. pose proof (L 3) as L3.
  change (64 * 1) with 64 in L1. change (64 * 2) with 128 in L2. change (64 * 3) with 192 in L3.
  pose proof (TT 64). pose proof (TT 128). pose proof (TT 192).
  set (x0 := blk 64 0 (get a) j) in *. set (x1 := blk 64 1 (get a) j) in *.
  set (x2 := blk 64 2 (get a) j) in *. set (x3 := blk 64 3 (get a) j) in *.
  apply wp_bind, wp_asg16 with (v := x0); [reflexivity|lk|apply eqm_eq; exact (G 0 ltac:(lia))|]. intros z0 U0 E0.
  apply wp_bind, wp_asg16 with (v := x1); [reflexivity|lk|apply eqm_eq; exact (G 1 ltac:(lia))|]. intros z1 U1 E1.
  apply wp_bind, wp_asg16 with (v := x2); [reflexivity|lk|apply eqm_eq; exact (G 2 ltac:(lia))|]. intros z2 U2 E2.
  apply wp_bind, wp_asg16 with (v := x3); [reflexivity|lk|apply eqm_eq; exact (G 3 ltac:(lia))|]. intros z3 U3 E3.
  apply wp_bind, wp_asg16 with (v := x0 + x2); [reflexivity|lk|lin|]. intros z4 U4 E4.
  apply wp_bind, wp_asg16 with (v := x1 + x3); [reflexivity|lk|lin|]. intros z5 U5 E5.
  apply wp_bind, wp_asg16 with (v := x0 + x2 + (x1 + x3)); [reflexivity|lk|lin|]. intros z6 U6 E6.
  apply wp_bind, wp_asg16 with (v := x0 + x2 - (x1 + x3)); [reflexivity|lk|lin|]. intros z7 U7 E7.
  apply wp_bind. eapply pre_st; [exact P3|lia|reflexivity|lk|unfold lin4; fold x0 x1 x2 x3; lin|]. intros a3' P3'.
  apply wp_bind. eapply pre_st; [exact P4|lia|reflexivity|lk|unfold lin4; fold x0 x1 x2 x3; lin|]. intros a4' P4'.
  apply wp_bind, wp_asg16 with (v := 8 * x0 + 2 * x2); [reflexivity|lk|lin|]. intros y4 V4 F4.
  apply wp_bind, wp_asg16 with (v := 4 * x1 + x3); [reflexivity|lk|lin|]. intros y5 V5 F5.
  apply wp_bind, wp_asg16 with (v := 8 * x0 + 2 * x2 + (4 * x1 + x3)); [reflexivity|lk|lin|]. intros y6 V6 F6.
  apply wp_bind, wp_asg16 with (v := 8 * x0 + 2 * x2 - (4 * x1 + x3)); [reflexivity|lk|lin|]. intros y7 V7 F7.
  apply wp_bind. eapply pre_st; [exact P5|lia|reflexivity|lk|unfold lin4; fold x0 x1 x2 x3; lin|]. intros a5' P5'.
  apply wp_bind. eapply pre_st; [exact P6|lia|reflexivity|lk|unfold lin4; fold x0 x1 x2 x3; lin|]. intros a6' P6'.
  apply wp_bind, wp_asg16 with (v := 8 * x3 + 4 * x2 + 2 * x1 + x0); [reflexivity|lk|lin|]. intros t4 W4 G4.
  apply wp_bind. eapply pre_st; [exact P2|lia|reflexivity|lk|unfold lin4; fold x0 x1 x2 x3; lin|]. intros a2' P2'.
  apply wp_bind. eapply pre_st; [exact P7|lia|reflexivity|lk|unfold lin4; fold x0 x1 x2 x3; lin|]. intros a7' P7'.
  apply wp_bind. eapply pre_st; [exact P1|lia|reflexivity|lk|unfold lin4; fold x0 x1 x2 x3; lin|]. intros a1' P1'.
  apply wp_ret. repeat split; auto; match goal with P : pre ?l _ _ |- context [?l] => apply P end; auto.
Qed.

(** ** Products of the evaluations *)

Section Toom.
  Variables a b : list Z.
  Hypothesis La : len a = 256. Hypothesis Lb : len b = 256.
  Hypothesis Ta : typed U16 a. Hypothesis Tb : typed U16 b.

  Definition B p q := conv 64 (blk 64 p (get a)) (blk 64 q (get b)).

  (** Coefficients of the product, as a polynomial in x^64. *)
  Definition c0 k := B 0 0 k.
  Definition c1 k := B 0 1 k + B 1 0 k.
  Definition c2 k := B 0 2 k + B 1 1 k + B 2 0 k.
  Definition c3 k := B 0 3 k + B 1 2 k + B 2 1 k + B 3 0 k.
  Definition c4 k := B 1 3 k + B 2 2 k + B 3 1 k.
  Definition c5 k := B 2 3 k + B 3 2 k.
  Definition c6 k := B 3 3 k.

  Lemma lin4_supp : forall x0 x1 x2 x3 f, supp 64 (lin4 x0 x1 x2 x3 f).
  Proof. intros x0 x1 x2 x3 f k Hk. unfold lin4. rewrite !(blk_supp 64 _ f) by auto. lia. Qed.

  Lemma conv_lin4 : forall x0 x1 x2 x3 y0 y1 y2 y3 k,
    conv 64 (lin4 x0 x1 x2 x3 (get a)) (lin4 y0 y1 y2 y3 (get b)) k =
      x0 * y0 * B 0 0 k + x0 * y1 * B 0 1 k + x0 * y2 * B 0 2 k + x0 * y3 * B 0 3 k
    + x1 * y0 * B 1 0 k + x1 * y1 * B 1 1 k + x1 * y2 * B 1 2 k + x1 * y3 * B 1 3 k
    + x2 * y0 * B 2 0 k + x2 * y1 * B 2 1 k + x2 * y2 * B 2 2 k + x2 * y3 * B 2 3 k
    + x3 * y0 * B 3 0 k + x3 * y1 * B 3 1 k + x3 * y2 * B 3 2 k + x3 * y3 * B 3 3 k.
  Proof.
    intros. unfold lin4.
    assert (forall f, conv 64 f (fun i => y0 * blk 64 0 (get b) i + y1 * blk 64 1 (get b) i
              + y2 * blk 64 2 (get b) i + y3 * blk 64 3 (get b) i) k =
            y0 * conv 64 f (blk 64 0 (get b)) k + y1 * conv 64 f (blk 64 1 (get b)) k
            + y2 * conv 64 f (blk 64 2 (get b)) k + y3 * conv 64 f (blk 64 3 (get b)) k) as R.
    { intros. rewrite !conv_addr, !conv_scaler. reflexivity. }
    rewrite R. clear R. unfold B. rewrite !conv_addl, !conv_scalel.
    repeat match goal with |- context [conv ?n ?f ?g ?x] => generalize (conv n f g x); intro end. ring.
  Qed.

  Lemma wp_kara_lin : forall junk x0 x1 x2 x3 aw bw w (Q : list Z -> Prop),
    pre aw 64 (lin4 x0 x1 x2 x3 (get a)) -> pre bw 64 (lin4 x0 x1 x2 x3 (get b)) -> len w = 127 ->
    (forall r, len r = 127 -> rep r (conv 64 (lin4 x0 x1 x2 x3 (get a)) (lin4 x0 x1 x2 x3 (get b))) -> Q r) ->
    wp (karatsuba_simple junk aw bw w) Q.
  Proof.
    intros junk x0 x1 x2 x3 aw bw w Q Pa Pb Lw HQ.
    apply pre_rep in Pa, Pb. destruct Pa as (La' & Ra), Pb as (Lb' & Rb).
    apply wp_karatsuba; auto; [apply Ra|apply Rb|]. intros r Lr (Tr & Rr). apply HQ; auto. split; auto.
    intros k Hk. eapply eqm_trans; [apply Rr; auto|].
    apply conv_eqm; [apply get_supp; auto|apply lin4_supp| |]; intros i Hi; [apply Ra|apply Rb]; lia.
  Qed.

  (** ** Interpolation *)

  Definition on (s i : Z) (f : Z -> Z) (k : Z) : Z := if (0 <=? k - s) && (k - s <? i) then f (k - s) else 0.
  Definition FC i k := on 0 i c0 k + on 64 i c1 k + on 128 i c2 k + on 192 i c3 k + on 256 i c4 k
                     + on 320 i c5 k + on 384 i c6 k.

  Definition rep13 (l : list Z) (f : Z -> Z) : Prop :=
    len l = 512 /\ typed U16 l /\ forall k, 0 <= k < 512 -> eqm 8192 (get l k) (f k).

  Lemma add_st13 : forall l i z f v (Q : list Z -> Prop), rep13 l f -> 0 <= i < 512 -> u16 z -> eqm 8192 z v ->
    (forall l', rep13 l' (fun k => f k + if k =? i then v else 0) -> Q l') -> wp (add_st l i (Var U16 z)) Q.
  Proof.
    intros l i z f v Q (L & T & R) Hi Hz Hv HQ. apply wp_st; [reflexivity|unfold u16 in *; cbn [lok tmin tmax]; repeat split; auto; lia|lia|].
    apply HQ. split; [now rewrite len_upd|]. split; [apply typed_upd; auto; apply wrap_range|].
    intros k Hk. unfold get. rewrite znth_upd by lia. destruct (k =? i) eqn:E.
    - assert (k = i) by lia. subst k. eapply eqm_trans; [apply eqm_divide with 8; apply wrap16|].
      cbn [val val_bin ty promote common]; unfold cv, uw; cbn [subr signed]. apply eqm_add; auto.
    - rewrite Z.add_0_r. apply R. lia.
  Qed.

  Lemma weaken : forall n m x y, n = m * (n / m) -> eqm n x y -> eqm m x y.
  Proof. intros n m x y H E. apply eqm_divide with (n / m). now rewrite <- H. Qed.

  Lemma toom_interp_ok : forall w1 w2 w3 w4 w5 w6 w7 i C,
    len w1 = 127 -> len w2 = 127 -> len w3 = 127 -> len w4 = 127 -> len w5 = 127 -> len w6 = 127 -> len w7 = 127 ->
    rep w1 c6 ->
    rep w2 (fun k => c0 k + 2 * c1 k + 4 * c2 k + 8 * c3 k + 16 * c4 k + 32 * c5 k + 64 * c6 k) ->
    rep w3 (fun k => c0 k + c1 k + c2 k + c3 k + c4 k + c5 k + c6 k) ->
    rep w4 (fun k => c0 k - c1 k + c2 k - c3 k + c4 k - c5 k + c6 k) ->
    rep w5 (fun k => 64 * c0 k + 32 * c1 k + 16 * c2 k + 8 * c3 k + 4 * c4 k + 2 * c5 k + c6 k) ->
    rep w6 (fun k => 64 * c0 k - 32 * c1 k + 16 * c2 k - 8 * c3 k + 4 * c4 k - 2 * c5 k + c6 k) ->
    rep w7 c0 ->
    0 <= i < 127 -> rep13 C (FC i) ->
    wp (toom_interp w1 w2 w3 w4 w5 w6 w7 i C) (fun C' => rep13 C' (FC (i + 1))).
  Proof.
    intros w1 w2 w3 w4 w5 w6 w7 i C L1 L2 L3 L4 L5 L6 L7 R1 R2 R3 R4 R5 R6 R7 Hi HC.
    unfold toom_interp.
    apply wp_bind, wp_asg16 with (v := c6 i); [reflexivity|cbn [lok]; split; [lia|apply R1]|apply R1; lia|]. intros r0 U0 E0.
    apply wp_bind. eapply wp_asg16; [reflexivity|cbn [lok]; split; [lia|apply R2]|apply R2; lia|]. cbn beta. intros r1 U1 E1.
    apply wp_bind. eapply wp_asg16; [reflexivity|cbn [lok]; split; [lia|apply R3]|apply R3; lia|]. cbn beta. intros r2 U2 E2.
    apply wp_bind. eapply wp_asg16; [reflexivity|cbn [lok]; split; [lia|apply R4]|apply R4; lia|]. cbn beta. intros r3 U3 E3.
    apply wp_bind. eapply wp_asg16; [reflexivity|cbn [lok]; split; [lia|apply R5]|apply R5; lia|]. cbn beta. intros r4 U4 E4.
    apply wp_bind. eapply wp_asg16; [reflexivity|cbn [lok]; split; [lia|apply R6]|apply R6; lia|]. cbn beta. intros r5 U5 E5.
    apply wp_bind. eapply wp_asg16; [reflexivity|cbn [lok]; split; [lia|apply R7]|apply R7; lia|]. intros r6 U6 E6.
    assert (forall C', rep13 C' (fun k => FC i k + (if k =? i then c0 i else 0) + (if k =? i + 64 then c1 i else 0)
      + (if k =? i + 128 then c2 i else 0) + (if k =? i + 192 then c3 i else 0) + (if k =? i + 256 then c4 i else 0)
      + (if k =? i + 320 then c5 i else 0) + (if k =? i + 384 then c6 i else 0)) -> rep13 C' (FC (i + 1))) as FIN.
    { intros C' (X1 & X2 & X3). split; auto. split; auto. intros k Hk. specialize (X3 k Hk). cbn beta in X3.
      eapply eqm_trans; [apply X3|]. apply eqm_eq. unfold FC.
      assert (forall s f, 0 <= s -> on s (i + 1) f k = on s i f k + if k =? i + s then f i else 0) as ON.
      { intros s f Hs. unfold on. destruct ((0 <=? k - s) && (k - s <? i + 1)) eqn:D1, ((0 <=? k - s) && (k - s <? i)) eqn:D2,
          (k =? i + s) eqn:D3; try lia. all: replace (k - s) with i by lia; lia. }
      rewrite !ON by lia. rewrite Z.add_0_r.
      repeat match goal with |- context [on ?s ?n ?f ?x] => generalize (on s n f x); intro end.
      repeat match goal with |- context [if ?c then ?u else ?v] => generalize (if c then u else v); intro end. ring. }
    revert E0 E1 E2 E3 E4 E5 E6 FIN.
    generalize (c0 i) (c1 i) (c2 i) (c3 i) (c4 i) (c5 i) (c6 i). intros d0 d1 d2 d3 d4 d5 d6 E0 E1 E2 E3 E4 E5 E6 FIN.
    clear R1 R2 R3 R4 R5 R6 R7 L1 L2 L3 L4 L5 L6 L7 w1 w2 w3 w4 w5 w6 w7.
    (* r1 = r1 + r4 *)
    apply wp_bind, wp_asg16 with (v := 65 * d0 + 34 * d1 + 20 * d2 + 16 * d3 + 20 * d4 + 34 * d5 + 65 * d6); [reflexivity|lk|lin|].
    clear r1 U1 E1. intros r1 U1 E1.
    (* r5 = r5 - r4 *)
    apply wp_bind, wp_asg16 with (v := - (64 * d1 + 16 * d3 + 4 * d5)); [reflexivity|lk|lin|].
    clear r5 U5 E5. intros r5 U5 E5.
    (* r3 = (r3 - r2) >> 1 *)
    apply wp_bind, (wp_asgm 2 32768) with (v := - (d1 + d3 + d5)); [reflexivity|reflexivity|lk| |].
    { ev. eapply (eqm_shr 1 32768); [lia| |apply eqm_sub; eassumption]. ring. }
    clear r3 U3 E3. intros r3 U3 (e & E3). apply (eqm_eq 65536) in E3.
    (* r4 = r4 - r0; r4 = r4 - (r6 << 6); r4 = (r4 << 1) + r5 *)
    apply wp_bind, wp_asg16 with (v := 64 * d0 + 32 * d1 + 16 * d2 + 8 * d3 + 4 * d4 + 2 * d5); [reflexivity|lk|lin|].
    clear r4 U4 E4. intros r4 U4 E4.
    apply wp_bind, wp_asg16 with (v := 32 * d1 + 16 * d2 + 8 * d3 + 4 * d4 + 2 * d5); [reflexivity|lk|lin|].
    clear r4 U4 E4. intros r4 U4 E4.
    apply wp_bind, wp_asg16 with (v := 32 * d2 + 8 * d4); [reflexivity|lk|lin|].
    clear r4 U4 E4. intros r4 U4 E4.
    (* r2 = r2 + r3 *)
    apply wp_bind, wp_asg16 with (v := d0 + d2 + d4 + d6 + 32768 * e); [reflexivity|lk|lin|].
    clear r2 U2 E2. intros r2 U2 E2.
    (* r1 = r1 - (r2 << 6) - r2 *)
    apply wp_bind, wp_asg16 with (v := 34 * d1 - 45 * d2 + 16 * d3 - 45 * d4 + 34 * d5 - 65 * (32768 * e)); [reflexivity|lk|lin|].
    clear r1 U1 E1. intros r1 U1 E1.
    (* r2 = r2 - r6; r2 = r2 - r0 *)
    apply wp_bind, wp_asg16 with (v := d2 + d4 + d6 + 32768 * e); [reflexivity|lk|lin|].
    clear r2 U2 E2. intros r2 U2 E2.
    apply wp_bind, wp_asg16 with (v := d2 + d4 + 32768 * e); [reflexivity|lk|lin|].
    clear r2 U2 E2. intros r2 U2 E2.
    (* r1 = r1 + 45 * r2 *)
    apply wp_bind, wp_asg16 with (v := 34 * d1 + 16 * d3 + 34 * d5); [reflexivity|lk| |].
    { ev. eapply eqm_trans; [ec|]. exists (- 10 * e). ring. }
    clear r1 U1 E1. intros r1 U1 E1.
    (* r4 = ((r4 - (r2 << 3)) * inv3) >> 3 *)
    apply wp_bind, (wp_asgm 8 8192) with (v := d2); [reflexivity|reflexivity|lk| |].
    { ev. apply (eqm_trans _ _ (Z.shiftr (wrap U32 (wrap U32 (r4 - r2 * 2 ^ 3) * 43691)) 3));
        [apply eqm_divide with 8; apply wrap16|].
      eapply (eqm_shr 3 8192); [lia|reflexivity|].
      eapply eqm_trans; [apply wrap32|]. eapply eqm_trans; [apply eqm_mul; [apply wrap32|apply eqm_refl]|].
      eapply eqm_trans; [ec|]. exists (16 * d2 - 43691 * 4 * e). ring. }
    clear r4 U4 E4. intros r4 U4 E4.
    (* r5 = r5 + r1 *)
    apply wp_bind, wp_asg16 with (v := - 30 * d1 + 30 * d5); [reflexivity|lk|lin|].
    clear r5 U5 E5. intros r5 U5 E5.
    (* r1 = ((r1 + (r3 << 4)) * inv9) >> 1 *)
    apply wp_bind, (wp_asgm 2 32768) with (v := d1 + d5); [reflexivity|reflexivity|lk| |].
    { ev. apply (eqm_trans _ _ (Z.shiftr (wrap U32 (wrap U32 (r1 + r3 * 2 ^ 4) * 36409)) 1));
        [apply eqm_divide with 2; apply wrap16|].
      eapply (eqm_shr 1 32768); [lia|reflexivity|].
      eapply eqm_trans; [apply wrap32|]. eapply eqm_trans; [apply eqm_mul; [apply wrap32|apply eqm_refl]|].
      eapply eqm_trans; [ec|]. exists (10 * (d1 + d5) + 36409 * 8 * e). ring. }
    clear r1 U1 E1. intros r1 U1 E1.
    (* r3 = -(r3 + r1) *)
    apply wp_bind, (wp_asgm 2 32768) with (v := d3); [reflexivity|reflexivity|lk| |].
    { ev. apply (weaken 65536 32768) in E3; [|reflexivity]. eapply eqm_trans; [ec|]. exists (- e). ring. }
    clear r3 U3 E3. intros r3 U3 E3.
    (* r5 = ((30 * r1 - r5) * inv15) >> 2 *)
    apply wp_bind, (wp_asgm 4 16384) with (v := d1); [reflexivity|reflexivity|lk| |].
    { ev. apply (eqm_trans _ _ (Z.shiftr (wrap U32 (wrap U32 (30 * r1 - r5) * 61167)) 2));
        [apply eqm_divide with 4; apply wrap16|].
      eapply (eqm_shr 2 16384); [lia|reflexivity|].
      eapply eqm_trans; [apply wrap32|]. eapply eqm_trans; [apply eqm_mul; [apply wrap32|apply eqm_refl]|].
      destruct E1 as (q & E1). destruct E5 as (q' & E5). rewrite E1, E5. exists (56 * d1 + 61167 * (15 * q) - 61167 * q'). ring. }
    clear r5 U5 E5. intros r5 U5 E5.
    (* r2 = r2 - r4; r1 = r1 - r5 *)
    apply wp_bind, (wp_asgm 8 8192) with (v := d4); [reflexivity|reflexivity|lk| |].
    { ev. apply (weaken 65536 8192) in E2; [|reflexivity]. eapply eqm_trans; [ec|]. exists (4 * e). ring. }
    clear r2 U2 E2. intros r2 U2 E2.
    apply wp_bind, (wp_asgm 4 16384) with (v := d5); [reflexivity|reflexivity|lk| |].
    { ev. apply (weaken 32768 16384) in E1; [|reflexivity]. lin. }
    clear r1 U1 E1. intros r1 U1 E1.
    apply (weaken _ 8192) in E0, E1, E3, E5, E6; try reflexivity.
    apply wp_bind. eapply add_st13; [apply HC|lia|exact U6|exact E6|]. intros C1 H1.
    apply wp_bind. eapply add_st13; [apply H1|lia|exact U5|exact E5|]. intros C2 H2.
    apply wp_bind. eapply add_st13; [apply H2|lia|exact U4|exact E4|]. intros C3 H3.
    apply wp_bind. eapply add_st13; [apply H3|lia|exact U3|exact E3|]. intros C4 H4.
    apply wp_bind. eapply add_st13; [apply H4|lia|exact U2|exact E2|]. intros C5 H5.
    apply wp_bind. eapply add_st13; [apply H5|lia|exact U1|exact E1|]. intros C6 H6.
    eapply add_st13; [apply H6|lia|exact U0|exact E0|]. intros C7 H7. apply FIN. exact H7.
  Qed.

  Lemma FC_0 : forall k, FC 0 k = 0.
  Proof.
    intros. unfold FC, on.
    repeat match goal with |- context [(0 <=? ?x) && (?x <? 0)] => replace ((0 <=? x) && (x <? 0)) with false by lia end. reflexivity.
  Qed.

  Lemma FC_end : forall k, 0 <= k < 512 -> FC 127 k = conv 256 (get a) (get b) k.
  Proof.
    intros k Hk.
    transitivity (B 0 0 k
      + (B 0 1 (k - 64) + B 1 0 (k - 64))
      + (B 0 2 (k - 128) + B 1 1 (k - 128) + B 2 0 (k - 128))
      + (B 0 3 (k - 192) + B 1 2 (k - 192) + B 2 1 (k - 192) + B 3 0 (k - 192))
      + (B 1 3 (k - 256) + B 2 2 (k - 256) + B 3 1 (k - 256))
      + (B 2 3 (k - 320) + B 3 2 (k - 320))
      + B 3 3 (k - 384)).
    2: { symmetry. exact (conv_blocks 64 (get a) (get b) k ltac:(lia) (get_supp b 256 Lb)). }
    assert (forall p q x, ~ (0 <= x < 127) -> B p q x = 0) as Bo by (intros; apply conv_out; [apply blk_supp|lia]).
    assert (forall s f, (forall x, ~ (0 <= x < 127) -> f x = 0) -> on s 127 f k = f (k - s)) as ON.
    { intros s f Hf. unfold on. destruct (_ && _) eqn:E; auto. rewrite Hf; auto. lia. }
    unfold FC. rewrite !ON by (intros; unfold c0, c1, c2, c3, c4, c5, c6; rewrite !Bo by auto; lia).
    unfold c0, c1, c2, c3, c4, c5, c6. rewrite Z.sub_0_r. reflexivity.
  Qed.

  Lemma pre_0 : forall junk t f, pre (uninit junk t 64) 0 f.
  Proof. intros. split; [apply uninit_len; lia|]. intros. lia. Qed.

  Lemma wp_toom : forall junk (Q : list Z -> Prop),
    (forall r, rep13 r (conv 256 (get a) (get b)) -> Q r) -> wp (toom_cook_4way junk a b (zeros 512)) Q.
  Proof.
    intros junk Q HQ. unfold toom_cook_4way.
    apply wp_bind, wp_ptr; [lia|]. apply wp_bind, wp_ptr; [lia|]. apply wp_bind, wp_ptr; [lia|].
    apply wp_bind, wp_ptr; [lia|]. apply wp_bind, wp_ptr; [lia|]. apply wp_bind, wp_ptr; [lia|].
    apply wp_bind, wp_for with (I := evinv (get a)); [lia|unfold evinv; do 6 (split; [apply pre_0|]); apply pre_0|intros; now apply toom_eval_ok|].
    intros aw (A1 & A2 & A3 & A4 & A5 & A6 & A7).
    apply wp_bind, wp_for with (I := evinv (get b)); [lia|unfold evinv; do 6 (split; [apply pre_0|]); apply pre_0|intros; now apply toom_eval_ok|].
    intros bw (B1 & B2 & B3 & B4 & B5 & B6 & B7).
    apply wp_bind. eapply wp_kara_lin; [exact A1|exact B1|reflexivity|]. intros w1 L1 R1.
    apply wp_bind. eapply wp_kara_lin; [exact A2|exact B2|reflexivity|]. intros w2 L2 R2.
    apply wp_bind. eapply wp_kara_lin; [exact A3|exact B3|reflexivity|]. intros w3 L3 R3.
    apply wp_bind. eapply wp_kara_lin; [exact A4|exact B4|reflexivity|]. intros w4 L4 R4.
    apply wp_bind. eapply wp_kara_lin; [exact A5|exact B5|reflexivity|]. intros w5 L5 R5.
    apply wp_bind. eapply wp_kara_lin; [exact A6|exact B6|reflexivity|]. intros w6 L6 R6.
    apply wp_bind. eapply wp_kara_lin; [exact A7|exact B7|reflexivity|]. intros w7 L7 R7.
    apply wp_for with (I := fun i C => rep13 C (FC i)).
    - lia.
    - split; [reflexivity|]. split; [apply Forall_repeat; cbn; lia|]. intros k Hk. unfold get, zeros. rewrite znth_repeat, FC_0. apply eqm_refl.
    - intros i C Hi HC. apply toom_interp_ok; auto;
      (eapply rep_ext; [eassumption|]; intros k Hk; rewrite conv_lin4; unfold c0, c1, c2, c3, c4, c5, c6;
       repeat match goal with |- context [B ?p ?q ?x] => generalize (B p q x); intro end; ring).
    - intros C (X1 & X2 & X3). apply HQ. split; auto. split; auto. intros k Hk. rewrite <- FC_end by auto. auto.
  Qed.

  Lemma wp_poly_mul_acc : forall junk res (Q : list Z -> Prop), arr U16 256 res ->
    (forall r, arr U16 256 r -> (forall k, 0 <= k < 256 -> eqm 8192 (get r k) (get res k + mul_coef a b k)) -> Q r) ->
    wp (poly_mul_acc junk a b res) Q.
  Proof.
    intros junk res Q (Lr & Tr) HQ. unfold poly_mul_acc. apply wp_bind, wp_toom. intros c (Lc & Tc & Rc).
    apply wp_for with (I := fun i r => len r = 256 /\ typed U16 r /\
      forall k, 0 <= k < 256 -> eqm 8192 (get r k) (get res k + if k <? i - 256 then mul_coef a b k else 0)).
    - lia.
    - repeat split; auto. intros k Hk. destruct (k <? 256 - 256) eqn:E; [lia|]. rewrite Z.add_0_r. apply eqm_refl.
    - intros i r Hi (L & T & R). apply wp_st; [reflexivity|cbn [lok]; repeat split; auto; lia|lia|].
      rewrite len_upd. split; auto. split; [apply typed_upd; auto; apply wrap_range|].
      intros k Hk. unfold get at 1. rewrite znth_upd by lia. destruct (k =? i - 256) eqn:E.
      + assert (k = i - 256) by lia. subst k. replace (i - 256 <? i + 1 - 256) with true by lia.
        eapply eqm_trans; [apply eqm_divide with 8; apply wrap16|].
        cbn [val val_bin ty promote common]; unfold cv, uw; cbn [subr signed].
        rewrite mul_coef_conv by (auto; lia). replace (i - 256 + 256) with i by lia.
        specialize (R (i - 256) Hk). replace (i - 256 <? i - 256) with false in R by lia. rewrite Z.add_0_r in R.
        apply eqm_add; auto. apply eqm_sub; apply Rc; lia.
      + specialize (R k Hk). replace (k <? i + 1 - 256) with (k <? i - 256) by lia. apply R.
    - intros r (L & T & R). apply HQ; [split; auto|]. intros k Hk. specialize (R k Hk).
      replace (k <? 512 - 256) with true in R by lia. auto.
  Qed.
End Toom.
