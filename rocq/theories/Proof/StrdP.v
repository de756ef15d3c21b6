(** The multiplier of m4-striding: Toom-Cook with stride 4. *)
From Coq Require Import ZArith List Bool Lia.
From Verif Require Import Model.Arm Lib.Arr Lib.CInt Lib.CMon Spec.Ring Spec.M4Spec Proof.Conv Model.PolyMul Proof.KaraP Proof.ToomP Proof.PackThm
  Model.M4Mul Proof.ArmStrdP.
Import ListNotations.
Local Open Scope Z_scope.

(** ** The product in terms of the residues of the exponents modulo 4 *)
Definition sub4 (l : Z) (f : Z -> Z) (i : Z) : Z := if (0 <=? i) && (i <? 64) then f (4 * i + l) else 0.
Lemma sub4_supp : forall l f, supp 64 (sub4 l f).
Proof. intros l f k Hk. unfold sub4. destruct (_ && _) eqn:E; [lia|reflexivity]. Qed.
Lemma sub4_in : forall l f i, 0 <= i < 64 -> sub4 l f i = f (4 * i + l).
Proof. intros. unfold sub4. now replace ((0 <=? i) && (i <? 64)) with true by lia. Qed.
Lemma sub4_get : forall l f i, 0 <= l < 4 -> supp 256 f -> sub4 l f i = f (4 * i + l).
Proof. intros l f i Hl Hf. unfold sub4. destruct (_ && _) eqn:E; auto. symmetry. apply Hf. lia. Qed.

Definition slin (x : Z * Z * Z * Z) (f : Z -> Z) (i : Z) : Z :=
  let '(x0, x1, x2, x3) := x in x0 * sub4 0 f i + x1 * sub4 1 f i + x2 * sub4 2 f i + x3 * sub4 3 f i.
Lemma slin_supp : forall x f, supp 64 (slin x f).
Proof. intros (((x0, x1), x2), x3) f k Hk. unfold slin. rewrite !(sub4_supp _ f) by auto. lia. Qed.

Definition pt (r : Z) : Z * Z * Z * Z :=
  if r =? 0 then (0, 0, 0, 1) else if r =? 1 then (1, 2, 4, 8) else if r =? 2 then (1, 1, 1, 1) else if r =? 3 then (1, -1, 1, -1)
  else if r =? 4 then (8, 4, 2, 1) else if r =? 5 then (8, -4, 2, -1) else (1, 0, 0, 0).

Lemma zsum4 : forall n f, 0 <= n -> zsum (4 * n) f = zsum n (fun i => f (4 * i) + f (4 * i + 1) + f (4 * i + 2) + f (4 * i + 3)).
Proof.
  intros n f Hn. unfold zsum. rewrite <- (Z2Nat.id n) at 1 by auto. generalize (Z.to_nat n). clear n Hn. intros n.
  replace (Z.to_nat (4 * Z.of_nat n)) with (4 * n)%nat by lia. induction n as [|n IH]; [reflexivity|].
  replace (4 * S n)%nat with (S (S (S (S (4 * n))))) by lia. cbn [zsumn]. rewrite IH.
  replace (Z.of_nat (4 * n)) with (4 * Z.of_nat n) by lia. replace (Z.of_nat (S (4 * n))) with (4 * Z.of_nat n + 1) by lia.
  replace (Z.of_nat (S (S (4 * n)))) with (4 * Z.of_nat n + 2) by lia. replace (Z.of_nat (S (S (S (4 * n))))) with (4 * Z.of_nat n + 3) by lia. lia.
Qed.

Lemma conv4 : forall f g j t, supp 256 g -> 0 <= t < 4 ->
  let D l := if l <=? t then conv 64 (sub4 l f) (sub4 (t - l) g) j else conv 64 (sub4 l f) (sub4 (t - l + 4) g) (j - 1) in
  conv 256 f g (4 * j + t) = D 0 + D 1 + D 2 + D 3.
Proof.
  intros f g j t Hg Ht D. unfold conv at 1. change 256 with (4 * 64). rewrite zsum4 by lia.
  assert (E : forall l, 0 <= l < 4 -> D l = zsum 64 (fun i => f (4 * i + l) * g (4 * j + t - (4 * i + l)))).
  { intros l Hl. unfold D. destruct (l <=? t) eqn:E; unfold conv; apply zsum_ext; intros i Hi; rewrite sub4_in by auto; rewrite sub4_get by (auto; lia); f_equal; f_equal; lia. }
  rewrite !E by lia. rewrite <- !zsum_add. apply zsum_ext. intros i Hi. rewrite Z.add_0_r. reflexivity.
Qed.

Definition prev (f : Z -> Z) (j : Z) : Z := if j =? 0 then - f 63 else f (j - 1).
Lemma nconv_prev : forall f g j, supp 64 g -> 0 <= j < 64 -> conv 64 f g (j - 1) - conv 64 f g (j + 64 - 1) = prev (nconv f g) j.
Proof.
  intros f g j Hg Hj. unfold prev, nconv. destruct (Z.eqb_spec j 0) as [->|N].
  - rewrite (conv_out 64 f g (0 - 1)), (conv_out 64 f g (63 + 64)) by (auto; lia). change (0 + 64 - 1) with 63. lia.
  - f_equal. f_equal. lia.
Qed.

Section Strd.
  Variables a b : list Z.
  Hypothesis La : len a = 256. Hypothesis Lb : len b = 256.
  Hypothesis Ta : typed U16 a. Hypothesis Tb : typed U16 b.

  Definition N l m := nconv (sub4 l (get a)) (sub4 m (get b)).
  Definition s0 k := N 0 0 k.
  Definition s1 k := N 0 1 k + N 1 0 k.
  Definition s2 k := N 0 2 k + N 1 1 k + N 2 0 k.
  Definition s3 k := N 0 3 k + N 1 2 k + N 2 1 k + N 3 0 k.
  Definition s4 k := N 1 3 k + N 2 2 k + N 3 1 k.
  Definition s5 k := N 2 3 k + N 3 2 k.
  Definition s6 k := N 3 3 k.

  Definition sc t := if t =? 0 then s0 else if t =? 1 then s1 else if t =? 2 then s2 else if t =? 3 then s3 else if t =? 4 then s4 else if t =? 5 then s5 else s6.
  Lemma mul_coef_strd : forall j t, 0 <= j < 64 -> 0 <= t < 4 -> mul_coef a b (4 * j + t) = sc t j + if t =? 3 then 0 else prev (sc (t + 4)) j.
  Proof.
    intros j t Hj Ht. rewrite mul_coef_conv by (auto; lia). replace (4 * j + t + 256) with (4 * (j + 64) + t) by lia.
    rewrite !conv4 by (auto; now apply get_supp). cbv zeta.
    assert (P : forall l m, conv 64 (sub4 l (get a)) (sub4 m (get b)) (j - 1) - conv 64 (sub4 l (get a)) (sub4 m (get b)) (j + 64 - 1) = prev (N l m) j)
      by (intros; apply nconv_prev; auto; apply sub4_supp).
    assert (Q : forall l m, conv 64 (sub4 l (get a)) (sub4 m (get b)) j - conv 64 (sub4 l (get a)) (sub4 m (get b)) (j + 64) = N l m j)
      by (intros; unfold N, nconv; reflexivity).
    assert (PA : forall f g, prev (fun k => f k + g k) j = prev f j + prev g j) by (intros; unfold prev; destruct (j =? 0); lia).
    assert (C : t = 0 \/ t = 1 \/ t = 2 \/ t = 3) by lia.
    pose proof (P 1 3). pose proof (P 2 2). pose proof (P 3 1). pose proof (P 2 3). pose proof (P 3 2). pose proof (P 3 3).
    pose proof (Q 0 0). pose proof (Q 0 1). pose proof (Q 1 0). pose proof (Q 0 2). pose proof (Q 1 1). pose proof (Q 2 0).
    pose proof (Q 0 3). pose proof (Q 1 2). pose proof (Q 2 1). pose proof (Q 3 0). clear P Q.
    unfold sc, s0, s1, s2, s3, s4, s5, s6.
    destruct C as [->|[->|[->| ->]]]; cbn [Z.leb Z.compare Pos.compare Pos.compare_cont Z.eqb Pos.eqb Z.add Pos.add Pos.succ Z.sub Z.opp Z.pos_sub
      Z.double Z.pred_double Z.succ_double Pos.pred_double]; rewrite ?PA; change (fun k : Z => N 3 3 k) with (N 3 3); lia.
  Qed.

  (** The product of two evaluations. *)
  Definition P (r : Z) : Z -> Z := nconv (slin (pt r) (get a)) (slin (pt r) (get b)).
  Lemma nconv_lin : forall x0 x1 x2 x3 k, nconv (slin (x0, x1, x2, x3) (get a)) (slin (x0, x1, x2, x3) (get b)) k =
      x0 * x0 * N 0 0 k + x0 * x1 * (N 0 1 k + N 1 0 k) + x0 * x2 * (N 0 2 k + N 2 0 k) + x0 * x3 * (N 0 3 k + N 3 0 k)
    + x1 * x1 * N 1 1 k + x1 * x2 * (N 1 2 k + N 2 1 k) + x1 * x3 * (N 1 3 k + N 3 1 k)
    + x2 * x2 * N 2 2 k + x2 * x3 * (N 2 3 k + N 3 2 k) + x3 * x3 * N 3 3 k.
  Proof.
    intros. unfold N, nconv, slin.
    assert (forall f k, conv 64 f (fun i => x0 * sub4 0 (get b) i + x1 * sub4 1 (get b) i + x2 * sub4 2 (get b) i + x3 * sub4 3 (get b) i) k =
            x0 * conv 64 f (sub4 0 (get b)) k + x1 * conv 64 f (sub4 1 (get b)) k + x2 * conv 64 f (sub4 2 (get b)) k + x3 * conv 64 f (sub4 3 (get b)) k) as R.
    { intros. rewrite !conv_addr, !conv_scaler. reflexivity. }
    rewrite !R. clear R. rewrite !conv_addl, !conv_scalel.
    repeat match goal with |- context [conv ?n ?f ?g ?x] => generalize (conv n f g x); intro end. ring.
  Qed.

  Lemma nconv_eqm : forall f g f' g' k, supp 64 g -> supp 64 g' -> (forall i, 0 <= i < 64 -> eqm 65536 (f i) (f' i)) ->
    (forall i, 0 <= i < 64 -> eqm 65536 (g i) (g' i)) -> eqm 65536 (nconv f g k) (nconv f' g' k).
  Proof. intros f g f' g' k Hg Hg' Hf HG. unfold nconv. apply eqm_sub; apply conv_eqm; auto. Qed.

  (** ** Evaluation *)
  Lemma st_flat : forall n l p e v (Q : list Z -> Prop), arr U16 n l -> 0 <= p < n -> safe e = true -> lok e -> eq16 (val e) v ->
    (forall l', arr U16 n l' -> eq16 (get l' p) v -> (forall q, 0 <= q < n -> q <> p -> get l' q = get l q) -> Q l') -> wp (st U16 l p e) Q.
  Proof.
    intros n l p e v Q (Ll & Tl) Hp Hs Hl Hv HQ. apply wp_st; auto; [lia|]. apply HQ.
    - split; [now rewrite len_upd|]. apply typed_upd; auto. apply wrap_range.
    - unfold get. rewrite znth_upd by lia. rewrite Z.eqb_refl. eapply eqm_trans; [apply wrap16|auto].
    - intros q Hq N'. unfold get. rewrite znth_upd by lia. now replace (q =? p) with false by lia.
  Qed.

  Definition rows (n : Z) (o : Z -> Z) (f : Z -> Z) (l : list Z) (lo hi : Z) : Prop :=
    forall r k, lo <= r < hi -> 0 <= k < n -> eq16 (get l (64 * o r + k)) (slin (pt r) f k).

  Lemma eval_a_ok : forall j stack, 0 <= j < 64 -> arr U16 832 stack -> rows j (fun r => r) (get a) stack 0 7 ->
    wp (strd_eval_a a j stack) (fun s => arr U16 832 s /\ rows (j + 1) (fun r => r) (get a) s 0 7).
  Proof.
    intros j stack Hj As Rs. unfold strd_eval_a.
    set (x0 := get a (4 * j)) in *. set (x1 := get a (4 * j + 1)) in *. set (x2 := get a (4 * j + 2)) in *. set (x3 := get a (4 * j + 3)) in *.
    assert (G : forall p q r s, slin (p, q, r, s) (get a) j = p * x0 + q * x1 + r * x2 + s * x3).
    { intros. unfold slin. rewrite !sub4_in by auto. rewrite Z.add_0_r. reflexivity. }
    apply wp_bind, wp_asg16 with (v := x0); [reflexivity|lk|apply eqm_refl|]. intros z0 U0 E0.
    apply wp_bind, wp_asg16 with (v := x1); [reflexivity|lk|apply eqm_refl|]. intros z1 U1 E1.
    apply wp_bind, wp_asg16 with (v := x2); [reflexivity|lk|apply eqm_refl|]. intros z2 U2 E2.
    apply wp_bind, wp_asg16 with (v := x3); [reflexivity|lk|apply eqm_refl|]. intros z3 U3 E3.
    apply wp_bind, wp_asg16 with (v := x0 + x2); [reflexivity|lk|lin|]. intros z4 U4 E4.
    apply wp_bind, wp_asg16 with (v := x1 + x3); [reflexivity|lk|lin|]. intros z5 U5 E5.
    apply wp_bind, wp_asg16 with (v := x0 + x2 + (x1 + x3)); [reflexivity|lk|lin|]. intros z6 U6 E6.
    apply wp_bind, wp_asg16 with (v := x0 + x2 - (x1 + x3)); [reflexivity|lk|lin|]. intros z7 U7 E7.
    apply wp_bind. eapply st_flat; [exact As|lia|reflexivity|lk|exact E6|]. intros l2 A2 V2 F2.
    apply wp_bind. eapply st_flat; [exact A2|lia|reflexivity|lk|exact E7|]. intros l3 A3 V3 F3.
    apply wp_bind, wp_asg16 with (v := 8 * x0 + 2 * x2); [reflexivity|lk|lin|]. intros y4 W4 X4.
    apply wp_bind, wp_asg16 with (v := 4 * x1 + x3); [reflexivity|lk|lin|]. intros y5 W5 X5.
    apply wp_bind, wp_asg16 with (v := 8 * x0 + 2 * x2 + (4 * x1 + x3)); [reflexivity|lk|lin|]. intros y6 W6 X6.
    apply wp_bind, wp_asg16 with (v := 8 * x0 + 2 * x2 - (4 * x1 + x3)); [reflexivity|lk|lin|]. intros y7 W7 X7.
    apply wp_bind. eapply st_flat; [exact A3|lia|reflexivity|lk|exact X6|]. intros l4 A4 V4 F4.
    apply wp_bind. eapply st_flat; [exact A4|lia|reflexivity|lk|exact X7|]. intros l5 A5 V5 F5.
    apply wp_bind, wp_asg16 with (v := 8 * x3 + 4 * x2 + 2 * x1 + x0); [reflexivity|lk|lin|]. intros t4 Y4 T4.
    apply wp_bind. eapply st_flat; [exact A5|lia|reflexivity|lk|exact T4|]. intros l1 A1 V1 F1.
    apply wp_bind. eapply st_flat; [exact A1|lia|reflexivity|lk|exact E0|]. intros l6 A6 V6 F6.
    eapply st_flat; [exact A6|lia|reflexivity|lk|exact E3|]. intros l0 A0 V0 F0.
    split; [exact A0|]. intros r k Hr Hk.
    destruct (Z.eq_dec k j) as [->|Nk].
    - clear Rs. assert (C : r = 0 \/ r = 1 \/ r = 2 \/ r = 3 \/ r = 4 \/ r = 5 \/ r = 6) by lia.
      destruct C as [->|[->|[->|[->|[->|[->| ->]]]]]]; cbn [pt Z.eqb Pos.eqb]; rewrite G;
        [|rewrite F0, F6 by lia|rewrite F0, F6, F1, F5, F4, F3 by lia|rewrite F0, F6, F1, F5, F4 by lia|rewrite F0, F6, F1, F5 by lia|rewrite F0, F6, F1 by lia|rewrite F0 by lia];
        (eapply eqm_trans; [first [exact V0|exact V1|exact V2|exact V3|exact V4|exact V5|exact V6]|apply eqm_eq; ring]).
    - rewrite F0, F6, F1, F5, F4, F3, F2 by lia. apply Rs; lia.
  Qed.

  Definition brow (r : Z) : Z := r + 6.
  Definition Ib (j : Z) (s : list Z * list Z) : Prop :=
    let '(stack, b') := s in
    arr U16 832 stack /\ arr U16 256 b' /\ rows 64 (fun r => r) (get a) stack 0 7 /\ rows j brow (get b) stack 1 7 /\
    (forall k, 0 <= k < j -> eq16 (get b' k) (slin (pt 0) (get b) k)) /\ (forall k, j <= k < 256 -> get b' k = get b k).

  Lemma eval_b_ok : forall j s, 0 <= j < 64 -> Ib j s -> wp (strd_eval_b j s) (Ib (j + 1)).
  Proof.
    intros j (stack, b') Hj (As & Ab & Ra & Rs & Rb & Rk). unfold strd_eval_b. destruct Ab as (Lb' & Tb').
    set (x0 := get b (4 * j)) in *. set (x1 := get b (4 * j + 1)) in *. set (x2 := get b (4 * j + 2)) in *. set (x3 := get b (4 * j + 3)) in *.
    assert (G : forall p q r s, slin (p, q, r, s) (get b) j = p * x0 + q * x1 + r * x2 + s * x3).
    { intros. unfold slin. rewrite !sub4_in by auto. rewrite Z.add_0_r. reflexivity. }
    apply wp_bind, wp_asg16 with (v := x0); [reflexivity|lk|apply eqm_eq; apply Rk; lia|]. intros z0 U0 E0.
    apply wp_bind, wp_asg16 with (v := x1); [reflexivity|lk|apply eqm_eq; apply Rk; lia|]. intros z1 U1 E1.
    apply wp_bind, wp_asg16 with (v := x2); [reflexivity|lk|apply eqm_eq; apply Rk; lia|]. intros z2 U2 E2.
    apply wp_bind, wp_asg16 with (v := x3); [reflexivity|lk|apply eqm_eq; apply Rk; lia|]. intros z3 U3 E3.
    apply wp_bind, wp_asg16 with (v := x0 + x2); [reflexivity|lk|lin|]. intros z4 U4 E4.
    apply wp_bind, wp_asg16 with (v := x1 + x3); [reflexivity|lk|lin|]. intros z5 U5 E5.
    apply wp_bind, wp_asg16 with (v := x0 + x2 + (x1 + x3)); [reflexivity|lk|lin|]. intros z6 U6 E6.
    apply wp_bind, wp_asg16 with (v := x0 + x2 - (x1 + x3)); [reflexivity|lk|lin|]. intros z7 U7 E7.
    apply wp_bind. eapply st_flat; [exact As|lia|reflexivity|lk|exact E6|]. intros l2 A2 V2 F2.
    apply wp_bind. eapply st_flat; [exact A2|lia|reflexivity|lk|exact E7|]. intros l3 A3 V3 F3.
    apply wp_bind, wp_asg16 with (v := 8 * x0 + 2 * x2); [reflexivity|lk|lin|]. intros y4 W4 X4.
    apply wp_bind, wp_asg16 with (v := 4 * x1 + x3); [reflexivity|lk|lin|]. intros y5 W5 X5.
    apply wp_bind, wp_asg16 with (v := 8 * x0 + 2 * x2 + (4 * x1 + x3)); [reflexivity|lk|lin|]. intros y6 W6 X6.
    apply wp_bind, wp_asg16 with (v := 8 * x0 + 2 * x2 - (4 * x1 + x3)); [reflexivity|lk|lin|]. intros y7 W7 X7.
    apply wp_bind. eapply st_flat; [exact A3|lia|reflexivity|lk|exact X6|]. intros l4 A4 V4 F4.
    apply wp_bind. eapply st_flat; [exact A4|lia|reflexivity|lk|exact X7|]. intros l5 A5 V5 F5.
    apply wp_bind, wp_asg16 with (v := 8 * x3 + 4 * x2 + 2 * x1 + x0); [reflexivity|lk|lin|]. intros t4 Y4 T4.
    apply wp_bind. eapply st_flat; [exact A5|lia|reflexivity|lk|exact T4|]. intros l1 A1 V1 F1.
    apply wp_bind. eapply st_flat; [exact A1|lia|reflexivity|lk|exact E0|]. intros l6 A6 V6 F6.
    apply wp_bind. eapply (st_flat 256); [split; assumption|lia|reflexivity|lk|exact E3|]. intros b1 B1 V0 F0.
    apply wp_ret. split; [exact A6|]. split; [exact B1|]. split; [|split; [|split]].
    - intros r k Hr Hk. rewrite F6, F1, F5, F4, F3, F2 by lia. apply Ra; lia.
    - clear Ra. intros r k Hr Hk. unfold brow in *.
      destruct (Z.eq_dec k j) as [->|Nk].
      + clear Rs. assert (C : r = 1 \/ r = 2 \/ r = 3 \/ r = 4 \/ r = 5 \/ r = 6) by lia.
        destruct C as [->|[->|[->|[->|[->| ->]]]]]; cbn [pt Z.eqb Pos.eqb]; rewrite G;
          [rewrite F6 by lia|rewrite F6, F1, F5, F4, F3 by lia|rewrite F6, F1, F5, F4 by lia|rewrite F6, F1, F5 by lia|rewrite F6, F1 by lia|];
          (eapply eqm_trans; [first [exact V1|exact V2|exact V3|exact V4|exact V5|exact V6]|apply eqm_eq; ring]).
      + rewrite F6, F1, F5, F4, F3, F2 by lia. apply Rs; lia.
    - intros k Hk. destruct (Z.eq_dec k j) as [->|Nk].
      + cbn [pt Z.eqb]. rewrite G. eapply eqm_trans; [exact V0|apply eqm_eq; ring].
      + rewrite F0 by lia. apply Rb. lia.
    - intros k Hk. rewrite F0 by lia. apply Rk. lia.
  Qed.

  (** ** Products *)
  Lemma window_get : forall l o k, 0 <= o -> 0 <= k < 64 -> get (window l o) k = get l (o + k).
  Proof. intros l o k Ho Hk. unfold window, get. rewrite znth_zfirst by lia. rewrite znth_zskip by lia. reflexivity. Qed.
  Lemma window_arr : forall n l o, arr U16 n l -> 0 <= o -> o + 64 <= n -> arr U16 64 (window l o).
  Proof.
    intros n l o (Ll & Tl) Ho Hn. split; [unfold window; apply len_zfirst; rewrite len_zskip; lia|]. now apply Forall_zfirst, Forall_zskip.
  Qed.
  Lemma put_arr : forall n l o x, arr U16 n l -> arr U16 64 x -> 0 <= o -> o + 64 <= n -> arr U16 n (put l o x).
  Proof.
    intros n l o x (Ll & Tl) (Lx & Tx) Ho Hn. split; [unfold put; rewrite !len_app, len_zfirst, len_zskip by lia; lia|].
    apply Forall_app. split; [now apply Forall_zfirst|]. apply Forall_app. split; auto. now apply Forall_zskip.
  Qed.
  Lemma put_in : forall n l o x k, arr U16 n l -> arr U16 64 x -> 0 <= o -> o + 64 <= n -> 0 <= k < 64 -> get (put l o x) (o + k) = get x k.
  Proof.
    intros n l o x k (Ll & Tl) (Lx & Tx) Ho Hn Hk. unfold put, get. rewrite znth_app2 by (rewrite len_zfirst; lia).
    rewrite len_zfirst by lia. rewrite znth_app1 by lia. f_equal. lia.
  Qed.
  Lemma put_out : forall n l o x q, arr U16 n l -> arr U16 64 x -> 0 <= o -> o + 64 <= n -> 0 <= q < n -> ~ (o <= q < o + 64) -> get (put l o x) q = get l q.
  Proof.
    intros n l o x q (Ll & Tl) (Lx & Tx) Ho Hn Hq N'. unfold put, get. destruct (Z_lt_le_dec q o).
    - rewrite znth_app1 by (rewrite len_zfirst; lia). now rewrite znth_zfirst by lia.
    - rewrite znth_app2 by (rewrite len_zfirst; lia). rewrite len_zfirst by lia. rewrite znth_app2 by lia. rewrite znth_zskip by lia. f_equal. lia.
  Qed.

  Variables env scratch : state.
  Hypothesis He : regs_ok env.

  (** After [n] products; the results of the first two are in [b']. *)
  Definition Im (n : Z) (stack b' : list Z) : Prop :=
    arr U16 832 stack /\ arr U16 256 b' /\ rows 64 (fun r => r) (get a) stack n 7 /\ rows 64 brow (get b) stack n 7 /\
    (forall k, 0 <= k < 64 -> eq16 (get b' (64 + k)) (P 0 k)) /\ (forall k, 0 <= k < 64 -> eq16 (get b' k) (P 1 k)) /\
    (forall r k, 2 <= r < n -> 0 <= k < 64 -> eq16 (get stack (64 * (r + 5) + k)) (P r k)).

  Lemma kara_rows : forall r x y z e (Q : list Z * list Z * list Z * list Z -> Prop), arr U16 64 x -> arr U16 64 y -> arr U16 64 z -> arr U16 64 e ->
    (forall k, 0 <= k < 64 -> eq16 (get x k) (slin (pt r) (get a) k)) -> (forall k, 0 <= k < 64 -> eq16 (get y k) (slin (pt r) (get b) k)) ->
    (forall x' y' z' e', arr U16 64 x' -> arr U16 64 y' -> arr U16 64 z' -> arr U16 64 e' -> (forall k, 0 <= k < 64 -> eq16 (get z' k) (P r k)) -> Q (x', y', z', e')) ->
    wp (kara_strd_mem env scratch x y z e) Q.
  Proof.
    intros r x y z e Q Ax Ay Az Ae Hx Hy HQ. eapply wp_mono; [apply (kara_strd_ok env scratch He x y z e); auto|].
    intros (((x', y'), z'), e') (A1 & A2 & A3 & A4 & H). apply HQ; auto. intros k Hk. eapply eqm_trans; [apply H; auto|].
    unfold P. apply nconv_eqm; [apply get_supp; apply Ay|apply slin_supp|exact Hx|exact Hy].
  Qed.

  Lemma more_ok : forall n stack b', 2 <= n < 7 -> Im n stack b' -> wp (strd_more env scratch n stack b') (fun '(s, b'') => Im (n + 1) s b'').
  Proof.
    intros n stack b' Hn (As & Ab & Ra & Rb & B0 & B1 & R). unfold strd_more. apply wp_bind. apply (kara_rows n).
    1-3: eapply window_arr; [exact As|lia|lia].
    { eapply window_arr; [exact Ab|lia|lia]. }
    { intros k Hk. rewrite window_get by lia. replace (n * 64 + k) with (64 * n + k) by lia. apply Ra; lia. }
    { intros k Hk. rewrite window_get by lia. replace ((n + 6) * 64 + k) with (64 * brow n + k) by (unfold brow; lia). apply Rb; lia. }
    intros x y z e Ax Ay Az Ae Hz. apply wp_ret.
    assert (A1 : arr U16 832 (put stack (n * 64) x)) by (apply put_arr; auto; lia).
    assert (A2 : arr U16 832 (put (put stack (n * 64) x) ((n + 6) * 64) y)) by (apply put_arr; auto; lia).
    assert (A3 : arr U16 832 (put (put (put stack (n * 64) x) ((n + 6) * 64) y) ((n + 5) * 64) z)) by (apply put_arr; auto; lia).
    assert (F : forall q, 0 <= q < 832 -> ~ (n * 64 <= q < n * 64 + 64) -> ~ ((n + 5) * 64 <= q < (n + 5) * 64 + 128) ->
      get (put (put (put stack (n * 64) x) ((n + 6) * 64) y) ((n + 5) * 64) z) q = get stack q).
    { intros q Hq N1 N2. rewrite (put_out 832), (put_out 832), (put_out 832) by (auto; lia). reflexivity. }
    split; [exact A3|]. split; [apply put_arr; auto; lia|]. unfold brow, rows in *. split; [|split; [|split; [|split]]].
    - intros r k Hr Hk. rewrite F by lia. apply Ra; lia.
    - intros r k Hr Hk. rewrite F by lia. apply Rb; lia.
    - intros k Hk. rewrite (put_out 256) by (auto; lia). auto.
    - intros k Hk. rewrite (put_out 256) by (auto; lia). auto.
    - intros r k Hr Hk. destruct (Z.eq_dec r n) as [->|Nr].
      + replace (64 * (n + 5) + k) with ((n + 5) * 64 + k) by lia. rewrite (put_in 832) by (auto; lia). auto.
      + rewrite F by lia. apply R; lia.
  Qed.

  Lemma mult_ok : forall stack b', Ib 64 (stack, b') -> wp (strd_mult env scratch stack b') (fun '(s, b'') => Im 7 s b'').
  Proof.
    intros stack b' (As & Ab & Ra & Rb & R0 & _). unfold strd_mult. unfold rows in Ra, Rb.
    apply wp_bind. apply (kara_rows 0).
    { eapply window_arr; [exact As|lia|lia]. }
    1-3: eapply window_arr; [exact Ab|lia|lia].
    { intros k Hk. rewrite window_get by lia. exact (Ra 0 k ltac:(lia) Hk). }
    { intros k Hk. rewrite window_get by lia. rewrite Z.add_0_l. auto. }
    intros x y z e Ax Ay Az Ae Hz. cbv beta iota zeta.
    assert (As1 : arr U16 832 (put stack 0 x)) by (apply put_arr; auto; lia).
    assert (Ab1 : arr U16 256 (put b' 0 y)) by (apply put_arr; auto; lia).
    assert (Ab2 : arr U16 256 (put (put b' 0 y) 64 z)) by (apply put_arr; auto; lia).
    assert (Ab3 : arr U16 256 (put (put (put b' 0 y) 64 z) 128 e)) by (apply put_arr; auto; lia).
    assert (Ra1 : forall r k, 1 <= r < 7 -> 0 <= k < 64 -> eq16 (get (put stack 0 x) (64 * r + k)) (slin (pt r) (get a) k)).
    { intros r k Hr Hk. rewrite (put_out 832) by (auto; lia). apply Ra; lia. }
    assert (Rb1 : forall r k, 1 <= r < 7 -> 0 <= k < 64 -> eq16 (get (put stack 0 x) (64 * brow r + k)) (slin (pt r) (get b) k)).
    { intros r k Hr Hk. rewrite (put_out 832) by (auto; unfold brow; lia). apply Rb; lia. }
    assert (Q0 : forall k, 0 <= k < 64 -> eq16 (get (put (put (put b' 0 y) 64 z) 128 e) (64 + k)) (P 0 k)).
    { intros k Hk. rewrite (put_out 256) by (auto; lia). rewrite (put_in 256) by (auto; lia). auto. }
    revert As1 Ab3 Ra1 Rb1 Q0. generalize (put stack 0 x), (put (put (put b' 0 y) 64 z) 128 e).
    clear x y z e Ax Ay Az Ae Hz Ab1 Ab2 As Ab Ra Rb R0 stack b'. intros stack b' As Ab Ra Rb Q0.
    apply wp_bind. apply (kara_rows 1).
    1-2: eapply window_arr; [exact As|lia|lia].
    1-2: eapply window_arr; [exact Ab|lia|lia].
    { intros k Hk. rewrite window_get by lia. apply (Ra 1 k); lia. }
    { intros k Hk. rewrite window_get by lia. apply (Rb 1 k); lia. }
    intros x y z e Ax Ay Az Ae Hz. cbv beta iota zeta.
    assert (A1 : arr U16 832 (put stack 64 x)) by (apply put_arr; auto; lia).
    assert (Ab1 : arr U16 256 (put b' 0 z)) by (apply put_arr; auto; lia).
    apply wp_bind. eapply wp_mono; [apply more_ok; [lia|]|].
    { split; [apply put_arr; auto; lia|]. split; [apply put_arr; auto; lia|]. unfold rows, brow in *. split; [|split; [|split; [|split]]].
      - intros r k Hr Hk. rewrite (put_out 832), (put_out 832) by (auto; lia). apply Ra; lia.
      - intros r k Hr Hk. rewrite (put_out 832), (put_out 832) by (auto; lia). apply Rb; lia.
      - intros k Hk. rewrite (put_out 256), (put_out 256) by (auto; lia). auto.
      - intros k Hk. rewrite (put_out 256) by (auto; lia). rewrite <- (Z.add_0_l k) at 1. rewrite (put_in 256) by (auto; lia). auto.
      - intros r k Hr Hk. lia. }
    intros (t2, u2) I2. apply wp_bind. eapply wp_mono; [apply more_ok; [lia|exact I2]|].
    intros (t3, u3) I3. apply wp_bind. eapply wp_mono; [apply more_ok; [lia|exact I3]|].
    intros (t4, u4) I4. apply wp_bind. eapply wp_mono; [apply more_ok; [lia|exact I4]|].
    intros (t5, u5) I5. apply more_ok; [lia|exact I5].
  Qed.

  (** ** Interpolation *)
  Lemma st13 : forall l p e v (Q : list Z -> Prop), arr U16 256 l -> 0 <= p < 256 -> safe e = true -> lok e -> eqm 8192 (val e) v ->
    (forall l', arr U16 256 l' -> eqm 8192 (get l' p) v -> (forall q, 0 <= q < 256 -> q <> p -> get l' q = get l q) -> Q l') -> wp (st U16 l p e) Q.
  Proof.
    intros l p e v Q (Ll & Tl) Hp Hs Hl Hv HQ. apply wp_st; auto; [lia|]. apply HQ.
    - split; [now rewrite len_upd|]. apply typed_upd; auto. apply wrap_range.
    - unfold get. rewrite znth_upd by lia. rewrite Z.eqb_refl. eapply eqm_trans; [apply eqm_divide with 8; apply wrap16|auto].
    - intros q Hq N'. unfold get. rewrite znth_upd by lia. now replace (q =? p) with false by lia.
  Qed.

  Lemma wrapI32 : forall z, eq16 (wrap I32 z) z.
  Proof.
    intros z. exists (65536 * - ((z + 2 ^ 31) / 2 ^ 32)). cbn [wrap]. rewrite Z.mod_eq by lia. change (2 ^ 32) with (65536 * 65536). ring.
  Qed.
  Lemma imul_val : forall x y, eq16 (val (imul true x y)) (val x * val y).
  Proof.
    intros x y. unfold imul. cbn [val val_bin ty promote common]; unfold cv, uw; cbn [subr signed].
    eapply eqm_trans; [apply wrapI32|]. eapply eqm_trans; [apply wrap32|]. apply eqm_mul; (destruct (subr _ _); [apply eqm_refl|apply wrap32]).
  Qed.
  Lemma imul_shr : forall x y k, val (imul true x y .>> Cst I32 k)%C = Z.shiftr (val (imul true x y)) k.
  Proof. reflexivity. Qed.

  Variable res : list Z.

  Definition F (i k : Z) : Z :=
    if k <? 4 * i then sc (k mod 4) (k / 4) + (if (k mod 4 =? 3) || (k / 4 =? 0) then 0 else sc (k mod 4 + 4) (k / 4 - 1)) else 0.
  Lemma F_new : forall i t, 0 <= i -> 0 <= t < 4 -> F (i + 1) (4 * i + t) = sc t i + (if (t =? 3) || (i =? 0) then 0 else sc (t + 4) (i - 1)).
  Proof.
    intros i t Hi Ht. unfold F. replace (4 * i + t <? 4 * (i + 1)) with true by lia.
    replace ((4 * i + t) mod 4) with t by dlia. replace ((4 * i + t) / 4) with i by dlia. reflexivity.
  Qed.
  Lemma F_old : forall i k, ~ (4 * i <= k < 4 * i + 4) -> F (i + 1) k = F i k.
  Proof. intros i k H. unfold F. replace (k <? 4 * (i + 1)) with (k <? 4 * i) by lia. reflexivity. Qed.
  Lemma F_not : forall i k, 4 * i <= k -> F i k = 0.
  Proof. intros i k H. unfold F. now replace (k <? 4 * i) with false by lia. Qed.

  Definition Ii (i : Z) (s : list Z * (cexp * cexp * cexp)) : Prop :=
    let '(res', (r0, r1, r2)) := s in
    arr U16 256 res' /\ (forall k, 0 <= k < 256 -> eqm 8192 (get res' k) (get res k + F i k)) /\
    exists z0 z1 z2, r0 = Var U16 z0 /\ r1 = Var U16 z1 /\ r2 = Var U16 z2 /\ u16 z0 /\ u16 z1 /\ u16 z2 /\
      (0 < i -> eqm 8192 z0 (s6 (i - 1)) /\ eqm 8192 z1 (s5 (i - 1)) /\ eqm 8192 z2 (s4 (i - 1))).

  Lemma P_all : forall i, P 0 i = s6 i /\
    P 1 i = s0 i + 2 * s1 i + 4 * s2 i + 8 * s3 i + 16 * s4 i + 32 * s5 i + 64 * s6 i /\
    P 2 i = s0 i + s1 i + s2 i + s3 i + s4 i + s5 i + s6 i /\
    P 3 i = s0 i - s1 i + s2 i - s3 i + s4 i - s5 i + s6 i /\
    P 4 i = 64 * s0 i + 32 * s1 i + 16 * s2 i + 8 * s3 i + 4 * s4 i + 2 * s5 i + s6 i /\
    P 5 i = 64 * s0 i - 32 * s1 i + 16 * s2 i - 8 * s3 i + 4 * s4 i - 2 * s5 i + s6 i /\
    P 6 i = s0 i.
  Proof.
    intros i. unfold P, pt. cbn [Z.eqb Pos.eqb]. rewrite !nconv_lin. unfold s0, s1, s2, s3, s4, s5, s6.
    repeat match goal with |- context [N ?p ?q ?x] => generalize (N p q x); intro end. repeat split; ring.
  Qed.

  Ltac lk2 := cbn [lok tmin tmax]; unfold u16 in *; repeat split; (lia || match goal with A : arr U16 256 ?l |- typed _ ?l => apply A | A : arr U16 256 ?l |- _ < len ?l => destruct A; lia end).
  Lemma interp_ok : forall stack b', Im 7 stack b' -> forall i s, 0 <= i < 64 -> Ii i s -> wp (strd_interp true stack b' i s) (Ii (i + 1)).
  Proof.
    intros stack b' ((Ls & Ts) & (Lb' & Tb') & _ & _ & Q0 & Q1 & QR) i (r, ((c0, c1), c2)) Hi (Ar & Hr & z0 & z1 & z2 & -> & -> & -> & Uz0 & Uz1 & Uz2 & Hz).
    unfold strd_interp. destruct (P_all i) as (P0 & P1 & P2 & P3 & P4 & P5 & P6).
    apply wp_bind, wp_asg16 with (v := z0); [reflexivity|lk|apply eqm_refl|]. intros r7 U7 E7.
    apply wp_bind, wp_asg16 with (v := z1); [reflexivity|lk|apply eqm_refl|]. intros r8 U8 E8.
    apply wp_bind, wp_asg16 with (v := z2); [reflexivity|lk|apply eqm_refl|]. intros r9 U9 E9.
    apply wp_bind, wp_asg16 with (v := P 0 i); [reflexivity|cbn [lok]; split; [lia|exact Tb']|now apply Q0|]. rewrite P0. intros r0 U0 E0.
    apply wp_bind, wp_asg16 with (v := P 1 i); [reflexivity|cbn [lok]; split; [lia|exact Tb']|now apply Q1|]. rewrite P1. intros r1 U1 E1.
    apply wp_bind, wp_asg16 with (v := P 2 i); [reflexivity|cbn [lok]; split; [lia|exact Ts]|exact (QR 2 i ltac:(lia) Hi)|]. rewrite P2. intros r2 U2 E2.
    apply wp_bind, wp_asg16 with (v := P 3 i); [reflexivity|cbn [lok]; split; [lia|exact Ts]|exact (QR 3 i ltac:(lia) Hi)|]. rewrite P3. intros r3 U3 E3.
    apply wp_bind, wp_asg16 with (v := P 4 i); [reflexivity|cbn [lok]; split; [lia|exact Ts]|exact (QR 4 i ltac:(lia) Hi)|]. rewrite P4. intros r4 U4 E4.
    apply wp_bind, wp_asg16 with (v := P 5 i); [reflexivity|cbn [lok]; split; [lia|exact Ts]|exact (QR 5 i ltac:(lia) Hi)|]. rewrite P5. intros r5 U5 E5.
    apply wp_bind, wp_asg16 with (v := P 6 i); [reflexivity|cbn [lok]; split; [lia|exact Ts]|exact (QR 6 i ltac:(lia) Hi)|]. rewrite P6. intros r6 U6 E6.
    clear P0 P1 P2 P3 P4 P5 P6 Q0 Q1 QR.
    assert (FIN : forall r' y0 y1 y2, arr U16 256 r' -> u16 y0 -> u16 y1 -> u16 y2 -> eqm 8192 y0 (s6 i) -> eqm 8192 y1 (s5 i) -> eqm 8192 y2 (s4 i) ->
      eqm 8192 (get r' (0 + 4 * i)) (get r (0 + 4 * i) + (s0 i + if i =? 0 then 0 else s4 (i - 1))) ->
      eqm 8192 (get r' (1 + 4 * i)) (get r (1 + 4 * i) + (s1 i + if i =? 0 then 0 else s5 (i - 1))) ->
      eqm 8192 (get r' (2 + 4 * i)) (get r (2 + 4 * i) + (s2 i + if i =? 0 then 0 else s6 (i - 1))) ->
      eqm 8192 (get r' (3 + 4 * i)) (get r (3 + 4 * i) + s3 i) ->
      (forall q, 0 <= q < 256 -> ~ (4 * i <= q < 4 * i + 4) -> get r' q = get r q) ->
      Ii (i + 1) (r', (Var U16 y0, Var U16 y1, Var U16 y2))).
    { intros r' y0 y1 y2 Ar' V0 V1 V2 X0 X1 X2 Y0 Y1 Y2 Y3 Ho. 
      assert (forall t, 0 <= t < 4 -> eqm 8192 (get r' (4 * i + t)) (get r (4 * i + t) + (sc t i + (if (t =? 3) || (i =? 0) then 0 else sc (t + 4) (i - 1))))) as Hn.
      { intros t Ht. rewrite (Z.add_comm _ t). assert (t = 0 \/ t = 1 \/ t = 2 \/ t = 3) as [-> | [-> | [-> | ->]]] by lia; auto.
        eapply eqm_trans; [exact Y3|]. apply eqm_eq. change (sc 3) with s3. cbn [Z.eqb Pos.eqb orb]. rewrite Z.add_0_r. reflexivity. }
      split; [exact Ar'|]. split.
      - intros k Hk. destruct (Z_lt_le_dec k (4 * i)); [|destruct (Z_lt_le_dec k (4 * i + 4))].
        + rewrite Ho, F_old by lia. auto.
        + replace k with (4 * i + (k - 4 * i)) by lia. rewrite F_new by lia. eapply eqm_trans; [apply Hn; lia|]. apply eqm_add; [|apply eqm_refl].
          eapply eqm_trans; [apply Hr; lia|]. rewrite F_not by lia. apply eqm_eq. lia.
        + rewrite Ho, F_old by lia. auto.
      - exists y0, y1, y2. repeat (split; [auto; fail|]). intros _. replace (i + 1 - 1) with i by lia. auto. }
    assert (HS : 0 < i -> eqm 8192 r7 (s6 (i - 1)) /\ eqm 8192 r8 (s5 (i - 1)) /\ eqm 8192 r9 (s4 (i - 1))).
    { intros Hp. destruct (Hz Hp) as (X0 & X1 & X2). apply (weaken _ 8192) in E7, E8, E9; try reflexivity.
      repeat split; eapply eqm_trans; eassumption. }
    clear E7 E8 E9 Hz z0 z1 z2 Uz0 Uz1 Uz2.
    revert E0 E1 E2 E3 E4 E5 E6 FIN.
    generalize (s0 i) (s1 i) (s2 i) (s3 i) (s4 i) (s5 i) (s6 i). intros d0 d1 d2 d3 d4 d5 d6 E0 E1 E2 E3 E4 E5 E6 FIN.
    (* r1 = r1 + r4 *)
    apply wp_bind, wp_asg16 with (v := 65 * d0 + 34 * d1 + 20 * d2 + 16 * d3 + 20 * d4 + 34 * d5 + 65 * d6); [reflexivity|lk|lin|].
    clear r1 U1 E1. intros r1 U1 E1.
    (* r5 = r5 - r4 *)
    apply wp_bind, wp_asg16 with (v := - (64 * d1 + 16 * d3 + 4 * d5)); [reflexivity|lk|lin|].
    clear r5 U5 E5. intros r5 U5 E5.
    (* r3 = (r3 - r2) >> 1 *)
    apply wp_bind, (wp_asgm 2 32768) with (v := - (d1 + d3 + d5)); [reflexivity|reflexivity|unfold imul; lk| |].
    { ev. eapply (eqm_shr 1 32768); [lia| |apply eqm_sub; eassumption]. ring. }
    clear r3 U3 E3. intros r3 U3 (e & E3). apply (eqm_eq 65536) in E3.
    (* r4 = r4 - r0; r4 = r4 - (r6 << 6); r4 = (r4 << 1) + r5 *)
    apply wp_bind, wp_asg16 with (v := 64 * d0 + 32 * d1 + 16 * d2 + 8 * d3 + 4 * d4 + 2 * d5); [reflexivity|lk|lin|].
    clear r4 U4 E4. intros r4 U4 E4.
    apply wp_bind, wp_asg16 with (v := 32 * d1 + 16 * d2 + 8 * d3 + 4 * d4 + 2 * d5); [reflexivity|lk|lin|].
    clear r4 U4 E4. intros r4 U4 E4.
    apply wp_bind, wp_asg16 with (v := 32 * d2 + 8 * d4); [reflexivity|lk|lin|].
    clear r4 U4 E4. intros r4 U4 E4.
    (* r2 = r2 + r3 *)
    apply wp_bind, wp_asg16 with (v := d0 + d2 + d4 + d6 + 32768 * e); [reflexivity|lk|lin|].
    clear r2 U2 E2. intros r2 U2 E2.
    (* r1 = r1 - (r2 << 6) - r2 *)
    apply wp_bind, wp_asg16 with (v := 34 * d1 - 45 * d2 + 16 * d3 - 45 * d4 + 34 * d5 - 65 * (32768 * e)); [reflexivity|lk|lin|].
    clear r1 U1 E1. intros r1 U1 E1.
    (* r2 = r2 - r6; r2 = r2 - r0 *)
    apply wp_bind, wp_asg16 with (v := d2 + d4 + d6 + 32768 * e); [reflexivity|lk|lin|].
    clear r2 U2 E2. intros r2 U2 E2.
    apply wp_bind, wp_asg16 with (v := d2 + d4 + 32768 * e); [reflexivity|lk|lin|].
    clear r2 U2 E2. intros r2 U2 E2.
    (* r1 = r1 + 45 * r2 *)
    apply wp_bind, wp_asg16 with (v := 34 * d1 + 16 * d3 + 34 * d5); [reflexivity|unfold imul; lk| |].
    { ev. eapply eqm_trans; [ec|]. exists (- 10 * e). ring. }
    clear r1 U1 E1. intros r1 U1 E1.
    (* r4 = ((r4 - (r2 << 3)) * inv3) >> 3 *)
    apply wp_bind, (wp_asgm 8 8192) with (v := d2); [reflexivity|reflexivity|unfold imul; lk| |].
    { rewrite imul_shr. eapply (eqm_shr 3 8192); [lia|reflexivity|]. eapply eqm_trans; [apply imul_val|]. ev.
      eapply eqm_trans; [ec|]. exists (16 * d2 - 43691 * 4 * e). ring. }
    clear r4 U4 E4. intros r4 U4 E4.
    (* r5 = r5 + r1 *)
    apply wp_bind, wp_asg16 with (v := - 30 * d1 + 30 * d5); [reflexivity|lk|lin|].
    clear r5 U5 E5. intros r5 U5 E5.
    (* r1 = ((r1 + (r3 << 4)) * inv9) >> 1 *)
    apply wp_bind, (wp_asgm 2 32768) with (v := d1 + d5); [reflexivity|reflexivity|unfold imul; lk| |].
    { rewrite imul_shr. eapply (eqm_shr 1 32768); [lia|reflexivity|]. eapply eqm_trans; [apply imul_val|]. ev.
      eapply eqm_trans; [ec|]. exists (10 * (d1 + d5) + 36409 * 8 * e). ring. }
    clear r1 U1 E1. intros r1 U1 E1.
    (* r3 = -(r3 + r1) *)
    apply wp_bind, (wp_asgm 2 32768) with (v := d3); [reflexivity|reflexivity|unfold imul; lk| |].
    { ev. apply (weaken 65536 32768) in E3; [|reflexivity]. eapply eqm_trans; [ec|]. exists (- e). ring. }
    clear r3 U3 E3. intros r3 U3 E3.
    (* r5 = ((30 * r1 - r5) * inv15) >> 2 *)
    apply wp_bind, (wp_asgm 4 16384) with (v := d1); [reflexivity|reflexivity|unfold imul; lk| |].
    { rewrite imul_shr. eapply (eqm_shr 2 16384); [lia|reflexivity|]. eapply eqm_trans; [apply imul_val|]. ev.
      destruct E1 as (q & E1). destruct E5 as (q' & E5). rewrite E1, E5. exists (56 * d1 + 61167 * (15 * q) - 61167 * q'). ring. }
    clear r5 U5 E5. intros r5 U5 E5.
    (* r2 = r2 - r4; r1 = r1 - r5 *)
    apply wp_bind, (wp_asgm 8 8192) with (v := d4); [reflexivity|reflexivity|unfold imul; lk| |].
    { ev. apply (weaken 65536 8192) in E2; [|reflexivity]. eapply eqm_trans; [ec|]. exists (4 * e). ring. }
    clear r2 U2 E2. intros r2 U2 E2.
    apply wp_bind, (wp_asgm 4 16384) with (v := d5); [reflexivity|reflexivity|unfold imul; lk| |].
    { ev. apply (weaken 32768 16384) in E1; [|reflexivity]. lin. }
    clear r1 U1 E1. intros r1 U1 E1.
    apply (weaken _ 8192) in E0, E1, E3, E5, E6; try reflexivity.
    apply wp_bind. eapply st13; [exact Ar|lia|reflexivity|lk2|ev; apply eqm_add; [apply eqm_refl|exact E3]|]. intros R3 A3 G3 O3.
    apply wp_bind, wp_ite. destruct (i =? 0) eqn:Hc.
    - apply wp_bind. eapply st13; [exact A3|lia|reflexivity|lk2|ev; apply eqm_add; [apply eqm_refl|exact E6]|]. intros R0 A0 G0 O0.
      apply wp_bind. eapply st13; [exact A0|lia|reflexivity|lk2|ev; apply eqm_add; [apply eqm_refl|exact E5]|]. intros R1 A1 G1 O1.
      eapply st13; [exact A1|lia|reflexivity|lk2|ev; apply eqm_add; [apply eqm_refl|exact E4]|]. intros R2 A2 G2 O2.
      apply wp_ret. apply FIN; auto.
      + rewrite ?Z.add_0_r, O2, O1 by lia. rewrite O3 in G0 by lia. exact G0.
      + rewrite ?Z.add_0_r, O2 by lia. rewrite O0, O3 in G1 by lia. exact G1.
      + rewrite ?Z.add_0_r. rewrite O1, O0, O3 in G2 by lia. exact G2.
      + rewrite O2, O1, O0 by lia. exact G3.
      + intros q Hq Nq. rewrite O2, O1, O0, O3 by lia. reflexivity.
    - destruct HS as (E7 & E8 & E9); [lia|].
      apply wp_bind. eapply st13; [exact A3|lia|reflexivity|lk2|ev; apply eqm_add; [apply eqm_refl|apply eqm_add; [exact E6|exact E9]]|]. intros R0 A0 G0 O0.
      apply wp_bind. eapply st13; [exact A0|lia|reflexivity|lk2|ev; apply eqm_add; [apply eqm_refl|apply eqm_add; [exact E5|exact E8]]|]. intros R1 A1 G1 O1.
      eapply st13; [exact A1|lia|reflexivity|lk2|ev; apply eqm_add; [apply eqm_refl|apply eqm_add; [exact E4|exact E7]]|]. intros R2 A2 G2 O2.
      apply wp_ret. apply FIN; auto.
      + rewrite O2, O1 by lia. rewrite O3 in G0 by lia. exact G0.
      + rewrite O2 by lia. rewrite O0, O3 in G1 by lia. exact G1.
      + rewrite O1, O0, O3 in G2 by lia. exact G2.
      + rewrite O2, O1, O0 by lia. exact G3.
      + intros q Hq Nq. rewrite O2, O1, O0, O3 by lia. reflexivity.
  Qed.

  Lemma F_end : forall k, 3 <= k < 256 -> F 64 k = mul_coef a b k.
  Proof.
    intros k Hk. unfold F. replace (k <? 4 * 64) with true by lia.
    replace (mul_coef a b k) with (mul_coef a b (4 * (k / 4) + k mod 4)) by (f_equal; dlia). rewrite mul_coef_strd by dlia. f_equal. unfold prev.
    destruct (k mod 4 =? 3) eqn:E; [reflexivity|]. replace (k / 4 =? 0) with false by dlia. reflexivity.
  Qed.
  Lemma F_end0 : forall t, 0 <= t < 3 -> F 64 t - sc (t + 4) 63 = mul_coef a b t.
  Proof.
    intros t Ht. unfold F. replace (t <? 4 * 64) with true by lia. replace (t mod 4) with t by dlia. replace (t / 4) with 0 by dlia.
    replace (mul_coef a b t) with (mul_coef a b (4 * 0 + t)) by reflexivity. rewrite mul_coef_strd by lia. replace (t =? 3) with false by lia. cbn [orb Z.eqb]. unfold prev. cbn [Z.eqb].
    generalize (sc t 0) (sc (t + 4) 63). intros. ring.
  Qed.

  Lemma setup_ok : forall A junk (f : list Z * list Z -> M A) (Q : A -> Prop), (forall s b', Im 7 s b' -> wp (f (s, b')) Q) ->
    wp (stack <- for_ 0 64 (strd_eval_a a) (ztab (13 * 64) (fun i => wrap U16 (junk [1] i))) ;;
        ' (stack, b) <- for_ 0 64 strd_eval_b (stack, b) ;;
        ' (stack, b) <- strd_mult env scratch stack b ;; f (stack, b)) Q.
  Proof.
    intros A junk f Q HQ. apply wp_bind.
    apply wp_for with (I := fun j s => arr U16 832 s /\ rows j (fun r => r) (get a) s 0 7); [lia| | |].
    { split; [split; [reflexivity|apply Forall_ztab; intros; apply wrap_range]|]. intros r k Hr Hk. lia. }
    { intros j s Hj (As & Rs). now apply eval_a_ok. }
    intros s (As & Rs). apply wp_bind.
    apply wp_for with (I := Ib); [lia| | |].
    { split; auto. split; [split; auto|]. split; auto. split; [intros r k Hr Hk; lia|]. split; [intros; lia|reflexivity]. }
    { intros j s' Hj Is. now apply eval_b_ok. }
    intros (s', b') Is. cbv beta iota. apply wp_bind. eapply wp_mono; [now apply mult_ok|]. intros (s2, b2) I2. cbv beta iota. now apply HQ.
  Qed.

  Lemma toom_strd_ok : forall junk, arr U16 256 res -> wp (toom_cook_4way_striding true env scratch junk a b res)
    (fun '(b', r) => arr U16 256 b' /\ arr U16 256 r /\ forall k, 0 <= k < 256 -> eqm 8192 (get r k) (get res k + mul_coef a b k)).
  Proof.
    intros junk Ar. unfold toom_cook_4way_striding.
    apply (setup_ok _ junk (fun '(stack, b) =>
      ' (res, (r0, r1, r2)) <- for_ 0 64 (strd_interp true stack b) (res, (Var U16 (wrap U16 (junk [2] 0)), Var U16 (wrap U16 (junk [2] 1)), Var U16 (wrap U16 (junk [2] 2)))) ;;
      res <- st U16 res 0 (Idx U16 res 0 - r2)%C ;;
      res <- st U16 res 1 (Idx U16 res 1 - r1)%C ;;
      res <- st U16 res 2 (Idx U16 res 2 - r0)%C ;;
      ret (b, res))).
    intros s b' HI. cbv beta iota. apply wp_bind.
    apply wp_for with (I := Ii); [lia| | |].
    { split; auto. split; [intros k Hk; rewrite F_not by lia; apply eqm_eq; lia|].
      eexists _, _, _. do 3 (split; [reflexivity|]). do 3 (split; [apply (wrap_range U16)|]). intros; lia. }
    { intros. now apply interp_ok. }
    intros (r, ((c0, c1), c2)) (Ar' & Hr & z0 & z1 & z2 & -> & -> & -> & U0 & U1 & U2 & Hz). cbv beta iota.
    destruct (Hz eq_refl) as (E0 & E1 & E2). change (64 - 1) with 63 in E0, E1, E2.
    apply wp_bind. eapply st13; [exact Ar'|lia|reflexivity|lk2|ev; apply eqm_sub; [apply Hr; lia|exact E2]|]. intros R0 A0 G0 O0.
    apply wp_bind. eapply st13; [exact A0|lia|reflexivity|lk2|ev; apply eqm_sub; [rewrite O0 by lia; apply Hr; lia|exact E1]|]. intros R1 A1 G1 O1.
    apply wp_bind. eapply st13; [exact A1|lia|reflexivity|lk2|ev; apply eqm_sub; [rewrite O1, O0 by lia; apply Hr; lia|exact E0]|]. intros R2 A2 G2 O2.
    apply wp_ret. split; [apply HI|]. split; [exact A2|]. intros k Hk.
    destruct (Z_lt_le_dec k 3).
    - rewrite <- F_end0 by lia. assert (k = 0 \/ k = 1 \/ k = 2) as [-> | [-> | ->]] by lia.
      + rewrite O2, O1 by lia. eapply eqm_trans; [exact G0|]. change (sc (0 + 4) 63) with (s4 63). apply eqm_eq. symmetry. apply Z.add_sub_assoc.
      + rewrite O2 by lia. eapply eqm_trans; [exact G1|]. change (sc (1 + 4) 63) with (s5 63). apply eqm_eq. symmetry. apply Z.add_sub_assoc.
      + eapply eqm_trans; [exact G2|]. change (sc (2 + 4) 63) with (s6 63). apply eqm_eq. symmetry. apply Z.add_sub_assoc.
    - rewrite O2, O1, O0 by lia. rewrite <- F_end by lia. auto.
  Qed.
End Strd.

Lemma striding_mul_acc_ok : forall env scratch, regs_ok env -> mul_acc_ok (striding_poly_mul_acc true env scratch).
Proof.
  intros env scratch He junk a b res (La & Ta) (Lb & Tb) Hr. unfold striding_poly_mul_acc. eapply wp_mono; [apply (toom_strd_ok a b La Lb Ta Tb env scratch He res); auto|].
  intros (b', r) (Ab & Ar & H). split; auto. split; auto. intros k Hk. apply eqm_mod_eq; [lia|]. now apply H.
Qed.
Lemma striding_mul_ok : forall env scratch, regs_ok env -> mul_ok (striding_poly_mul true env scratch).
Proof.
  intros env scratch He junk a b res (La & Ta) (Lb & Tb) Hr. unfold striding_poly_mul. apply wp_bind, wp_memset; [lia|].
  rewrite zskip_all by lia. rewrite app_nil_r. change (repeat 0 (Z.to_nat 256)) with (zeros 256).
  eapply wp_mono; [apply (toom_strd_ok a b La Lb Ta Tb env scratch He (zeros 256)); auto|].
  - split; [reflexivity|]. apply Forall_repeat. cbn. lia.
  - intros (b', r) (Ab & Ar & H). split; auto. split; auto. intros k Hk. apply eqm_mod_eq; [lia|]. specialize (H k Hk).
    now rewrite get_zeros, Z.add_0_l in H.
Qed.

(** ** With multiplication of type int as in C *)

Definition ubs {A} (m : M A) : Prop := forall t, m t = UB.
Lemma ubs_bind : forall A B (m : M A) (f : A -> M B) Q, wp m Q -> (forall a, Q a -> ubs (f a)) -> ubs (bind m f).
Proof. intros A B m f Q Hm Hf t. destruct (Hm t) as (a & t' & E & HQ). unfold bind. rewrite E. now apply Hf. Qed.
Lemma ubs_first : forall A B (m : M A) (f : A -> M B), ubs m -> ubs (bind m f).
Proof. intros A B m f Hm t. unfold bind. now rewrite Hm. Qed.
Lemma ubs_for : forall S lo hi (body : Z -> S -> M S) s, lo < hi -> ubs (body lo s) -> ubs (for_ lo hi body s).
Proof.
  intros S lo hi body s Hl Hb t. unfold for_. destruct (Z.to_nat (hi - lo)) eqn:E; [lia|]. cbn [forn].
  unfold bind at 1, emit. unfold bind. now rewrite Hb.
Qed.
Lemma ubs_load : forall A l i v (f : cexp -> M A), 0 <= i < len l -> typed U16 l -> 0 <= v < 65536 -> eq16 (get l i) v -> ubs (f (Var U16 v)) ->
  ubs (bind (asg U16 (Idx U16 l i)) f).
Proof.
  intros A l i v f Hi Tl Hv E Hf. eapply ubs_bind with (Q := fun e => e = Var U16 v); [|now intros e ->].
  apply wp_asg; [reflexivity|split; auto|]. cbn [val]. f_equal. destruct E as (q & ->).
  cbn [wrap]. change (2 ^ 16) with 65536. rewrite (Z.mul_comm 65536), Z.mod_add by lia. now apply Z.mod_small.
Qed.

(** 6144 x^2 and 1. *)
Definition bad_a : list Z := ztab 256 (fun i => if i =? 2 then 6144 else 0).
Definition bad_b : list Z := ztab 256 (fun i => if i =? 0 then 1 else 0).
Lemma bad_arr : arr U16 256 bad_a /\ arr U16 256 bad_b /\ Forall (fun x => 0 <= x < 8192) bad_a /\ Forall (fun x => 0 <= x < 2) bad_b.
Proof. repeat split; apply Forall_ztab; intros i _; destruct (_ =? _); cbn; lia. Qed.

Lemma strd_ub : forall env scratch junk res t, regs_ok env -> toom_cook_4way_striding false env scratch junk bad_a bad_b res t = UB.
Proof.
  intros env scratch junk res t He. revert t. unfold toom_cook_4way_striding.
  destruct bad_arr as ((La & Ta) & (Lb & Tb) & _ & _).
  eapply ubs_bind.
  { apply wp_for with (I := fun j s => arr U16 832 s /\ rows j (fun r => r) (get bad_a) s 0 7); [lia| | |].
    { split; [split; [reflexivity|apply Forall_ztab; intros; apply wrap_range]|]. intros r k Hr Hk. lia. }
    { intros j s Hj (As & Rs). now apply eval_a_ok. }
    intros s Hs. exact Hs. }
  intros s (As & Rs). eapply ubs_bind.
  { apply wp_for with (I := Ib bad_a bad_b); [lia| | |].
    { split; auto. split; [split; auto|]. split; auto. split; [intros r k Hr Hk; lia|]. split; [intros; lia|reflexivity]. }
    { intros j s' Hj Is. now apply eval_b_ok. }
    intros s' Hs. exact Hs. }
  intros (s', b') Is. cbv beta iota. eapply ubs_bind; [now apply (mult_ok bad_a bad_b env scratch He)|].
  intros (s2, b2) ((Ls & Ts) & (Lb' & Tb') & _ & _ & Q0 & Q1 & QR). cbv beta iota.
  apply ubs_first, ubs_for; [lia|]. unfold strd_interp.
  pose proof (Q0 0 ltac:(lia)) as V0. pose proof (Q1 0 ltac:(lia)) as V1.
  pose proof (QR 2 0 ltac:(lia) ltac:(lia)) as V2. pose proof (QR 3 0 ltac:(lia) ltac:(lia)) as V3. pose proof (QR 4 0 ltac:(lia) ltac:(lia)) as V4.
  pose proof (QR 5 0 ltac:(lia) ltac:(lia)) as V5. pose proof (QR 6 0 ltac:(lia) ltac:(lia)) as V6. clear Q0 Q1 QR.
  assert (P0 : P bad_a bad_b 0 0 = 0) by (vm_compute; reflexivity). rewrite P0 in V0. clear P0.
  assert (P1 : P bad_a bad_b 1 0 = 24576) by (vm_compute; reflexivity). rewrite P1 in V1. clear P1.
  assert (P2 : P bad_a bad_b 2 0 = 6144) by (vm_compute; reflexivity). rewrite P2 in V2. clear P2.
  assert (P3 : P bad_a bad_b 3 0 = 6144) by (vm_compute; reflexivity). rewrite P3 in V3. clear P3.
  assert (P4 : P bad_a bad_b 4 0 = 98304) by (vm_compute; reflexivity). rewrite P4 in V4. clear P4.
  assert (P5 : P bad_a bad_b 5 0 = 98304) by (vm_compute; reflexivity). rewrite P5 in V5. clear P5.
  assert (P6 : P bad_a bad_b 6 0 = 0) by (vm_compute; reflexivity). rewrite P6 in V6. clear P6.
  assert (W : eq16 98304 32768) by (exists 1; reflexivity).
  eapply ubs_bind with (Q := fun _ => True); [apply wp_asg; [reflexivity|apply (wrap_range U16)|trivial]|]. intros r7 _.
  eapply ubs_bind with (Q := fun _ => True); [apply wp_asg; [reflexivity|apply (wrap_range U16)|trivial]|]. intros r8 _.
  eapply ubs_bind with (Q := fun _ => True); [apply wp_asg; [reflexivity|apply (wrap_range U16)|trivial]|]. intros r9 _.
  apply ubs_load with (v := 0); [lia|exact Tb'|lia|exact V0|].
  apply ubs_load with (v := 24576); [lia|exact Tb'|lia|exact V1|].
  apply ubs_load with (v := 6144); [lia|exact Ts|lia|exact V2|].
  apply ubs_load with (v := 6144); [lia|exact Ts|lia|exact V3|].
  apply ubs_load with (v := 32768); [lia|exact Ts|lia|eapply eqm_trans; [exact V4|exact W]|].
  apply ubs_load with (v := 32768); [lia|exact Ts|lia|eapply eqm_trans; [exact V5|exact W]|].
  apply ubs_load with (v := 0); [lia|exact Ts|lia|exact V6|].
  intros t. reflexivity.
Qed.

(** ** C45, C46 *)

Lemma C45_mul_lemma : forall env scratch, regs_ok env -> forall junk a b res, arr U16 256 a -> arr U16 256 b -> len res = 256 ->
  exists b' r, run (striding_poly_mul true env scratch junk a b res) = Some (b', r) /\ arr U16 256 b' /\ arr U16 256 r /\
    forall k, 0 <= k < 256 -> get r k mod 8192 = mul_coef a b k mod 8192.
Proof.
  intros env scratch He junk a b res Ha Hb Hr. destruct (wp_run _ _ _ (striding_mul_ok env scratch He junk a b res Ha Hb Hr)) as ((b', r) & E & H).
  exists b', r. auto.
Qed.
Lemma C45_mul_acc_lemma : forall env scratch, regs_ok env -> forall junk a b res, arr U16 256 a -> arr U16 256 b -> arr U16 256 res ->
  exists b' r, run (striding_poly_mul_acc true env scratch junk a b res) = Some (b', r) /\ arr U16 256 b' /\ arr U16 256 r /\
    forall k, 0 <= k < 256 -> get r k mod 8192 = (get res k + mul_coef a b k) mod 8192.
Proof.
  intros env scratch He junk a b res Ha Hb Hr. destruct (wp_run _ _ _ (striding_mul_acc_ok env scratch He junk a b res Ha Hb Hr)) as ((b', r) & E & H).
  exists b', r. auto.
Qed.

Lemma C46_mul_lemma : forall env scratch, regs_ok env ->
  exists a b, arr U16 256 a /\ arr U16 256 b /\ Forall (fun x => 0 <= x < 8192) a /\ Forall (fun x => 0 <= x < 2) b /\
    forall junk res, len res = 256 -> run (striding_poly_mul false env scratch junk a b res) = None.
Proof.
  intros env scratch He. exists bad_a, bad_b. destruct bad_arr as (Ha & Hb & Ra & Rb). repeat (split; [assumption|]).
  intros junk res Hr. unfold run, striding_poly_mul. unfold bind at 1. destruct (memset res 0 256 []) as [r t|]; [|reflexivity]. now rewrite strd_ub.
Qed.
Lemma C46_mul_acc_lemma : forall env scratch, regs_ok env ->
  exists a b, arr U16 256 a /\ arr U16 256 b /\ Forall (fun x => 0 <= x < 8192) a /\ Forall (fun x => 0 <= x < 2) b /\
    forall junk res, arr U16 256 res -> run (striding_poly_mul_acc false env scratch junk a b res) = None.
Proof.
  intros env scratch He. exists bad_a, bad_b. destruct bad_arr as (Ha & Hb & Ra & Rb). repeat (split; [assumption|]).
  intros junk res Hr. unfold run, striding_poly_mul_acc. now rewrite strd_ub.
Qed.
