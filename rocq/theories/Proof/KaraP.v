(** [karatsuba_simple] computes the 64x64 product modulo 2^16. *)
From Coq Require Import ZArith List Bool Lia.
From Verif Require Import Lib.Arr Lib.CInt Lib.CMon Spec.Ring Proof.Conv Model.PolyMul.
Import ListNotations.
Local Open Scope Z_scope.

Notation eq16 := (eqm 65536).

(** Variables of type uint16_t hold values modulo 2^16. *)
Lemma wrap16 : forall z, eq16 (wrap U16 z) z.
Proof. intros. cbn [wrap]. apply eqm_mod. lia. Qed.

Lemma wrap32 : forall z, eq16 (wrap U32 z) z.
Proof. intros. cbn [wrap]. apply eqm_divide with 65536. apply (eqm_mod (2 ^ 32)). lia. Qed.

Lemma wrap64 : forall z, eq16 (wrap U64 z) z.
Proof. intros. cbn [wrap]. apply eqm_divide with (2 ^ 48). apply (eqm_mod (2 ^ 64)). lia. Qed.

Definition u16 (z : Z) : Prop := 0 <= z <= 65535.

Lemma wp_asg16 : forall e v (Q : cexp -> Prop), safe e = true -> lok e -> eq16 (val e) v ->
  (forall z, u16 z -> eq16 z v -> Q (Var U16 z)) -> wp (asg U16 e) Q.
Proof.
  intros e v Q Hs Hl Hv HQ. apply wp_asg; auto. apply HQ; [exact (wrap_range U16 (val e))|].
  eapply eqm_trans; [apply wrap16|]. auto.
Qed.

(** An array of uint16_t represents a function modulo 2^16. *)
Definition rep (l : list Z) (f : Z -> Z) : Prop :=
  typed U16 l /\ forall k, 0 <= k < len l -> eq16 (get l k) (f k).

Lemma rep_ext : forall l f g, rep l f -> (forall k, 0 <= k < len l -> f k = g k) -> rep l g.
Proof. intros l f g (T & H) E. split; auto. intros. rewrite <- E by auto. auto. Qed.

Lemma rep_zeros : forall n, rep (repeat 0 n) (fun _ => 0).
Proof.
  intros. split; [apply Forall_repeat; cbn; lia|]. intros. unfold get. rewrite znth_repeat. apply eqm_refl.
Qed.

Lemma rep_get : forall l, typed U16 l -> rep l (get l).
Proof. intros. split; auto. intros. apply eqm_refl. Qed.

Lemma wp_st16 : forall l i e f v (Q : list Z -> Prop), rep l f -> 0 <= i < len l ->
  safe e = true -> lok e -> eq16 (val e) v ->
  (forall l', len l' = len l -> rep l' (fun k => if k =? i then v else f k) -> Q l') ->
  wp (st U16 l i e) Q.
Proof.
  intros l i e f v Q (T & R) Hi Hs Hl Hv HQ. apply wp_st; auto. apply HQ; [apply len_upd|].
  split; [apply typed_upd; auto; apply wrap_range|].
  intros k Hk. rewrite len_upd in Hk. unfold get. rewrite znth_upd by lia.
  destruct (k =? i) eqn:E; [|apply R; auto]. eapply eqm_trans; [apply wrap16|]. auto.
Qed.

Lemma wp_add_st : forall l i e f v (Q : list Z -> Prop), rep l f -> 0 <= i < len l ->
  safe (Bin Add (Idx U16 l i) e) = true -> promote (ty e) = I32 -> subr (ty e) I32 = true -> lok e -> eq16 (val e) v ->
  (forall l', len l' = len l -> rep l' (fun k => f k + if k =? i then v else 0) -> Q l') ->
  wp (add_st l i e) Q.
Proof.
  intros l i e f v Q H Hi Hs Ht Hsub Hl Hv HQ. eapply wp_st16 with (v := f i + v); eauto.
  - cbn [lok]. destruct H. repeat split; auto; lia.
  - cbn [val val_bin ty]. rewrite Ht. cbn [promote common]. unfold uw, cv. cbn [signed subr]. rewrite Hsub.
    apply eqm_add; auto. now apply H.
  - intros l' Hl' R. apply HQ; auto. eapply rep_ext; [apply R|]. cbn beta. intros.
    destruct (k =? i) eqn:E; [|lia]. assert (k = i) by lia. now subst.
Qed.

(** Values of the arithmetic expressions used. *)
Lemma val_omul : forall x y, u16 x -> u16 y -> eq16 (val (OVERFLOWING_MUL (Var U16 x) (Var U16 y))) (x * y).
Proof.
  intros. unfold OVERFLOWING_MUL. cbn [val val_bin ty promote common]. unfold cv, uw. cbn [subr signed].
  eapply eqm_trans; [apply wrap16|]. apply wrap32.
Qed.

Lemma val_mul64 : forall x y, u16 x -> u16 y -> eq16 (val (Cast U16 (Var U16 x * Cast U64 (Var U16 y))%C)) (x * y).
Proof.
  intros. cbn [val val_bin ty promote common]. unfold cv, uw. cbn [subr signed].
  eapply eqm_trans; [apply wrap16|]. apply wrap64.
Qed.

Lemma val_add16 : forall x y v w, eq16 x v -> eq16 y w -> eq16 (val (Var U16 x + Var U16 y)%C) (v + w).
Proof. intros. cbn [val val_bin ty promote common]. unfold cv, uw. cbn [subr signed]. now apply eqm_add. Qed.

(** Partial products: rows before [i], and the first [j] columns of row [i]. *)
Definition pc (a b : Z -> Z) (i j k : Z) : Z :=
  zsum i (fun i' => a i' * b (k - i')) + (if (0 <=? k - i) && (k - i <? j) then a i * b (k - i) else 0).

Lemma pc_step : forall a b i j k, 0 <= j -> pc a b i (j + 1) k = pc a b i j k + (if k =? i + j then a i * b j else 0).
Proof.
  intros. unfold pc. destruct (k =? i + j) eqn:E.
  - assert (k = i + j) by lia. subst. replace (i + j - i) with j by lia.
    destruct (_ && _) eqn:E1; destruct ((0 <=? j) && (j <? j)) eqn:E2; try lia.
  - destruct ((0 <=? k - i) && (k - i <? j + 1)) eqn:E1; destruct ((0 <=? k - i) && (k - i <? j)) eqn:E2; lia.
Qed.

Lemma pc_row : forall a b i k, 0 <= i -> supp 16 b -> pc a b i 16 k = pc a b (i + 1) 0 k.
Proof.
  intros. unfold pc. rewrite zsum_S by lia.
  destruct ((0 <=? k - i) && (k - i <? 16)) eqn:E1; destruct ((0 <=? k - (i + 1)) && (k - (i + 1) <? 0)) eqn:E2; try lia.
  rewrite (H0 (k - i)) by lia. lia.
Qed.

Lemma pc_0 : forall a b k, pc a b 0 0 k = 0.
Proof. intros. unfold pc. destruct (_ && _) eqn:E; [lia|reflexivity]. Qed.

Lemma pc_end : forall a b k, pc a b 16 0 k = conv 16 a b k.
Proof. intros. unfold pc, conv. destruct (_ && _) eqn:E; lia. Qed.

Definition fadd (f g : Z -> Z) (k : Z) : Z := f k + g k.

Lemma supp_add : forall n f g, supp n f -> supp n g -> supp n (fadd f g).
Proof. intros n f g Hf Hg k Hk. unfold fadd. rewrite Hf, Hg by auto. auto. Qed.

Section Kara.
  Variables a_1 b_1 : list Z.
  Hypothesis La : len a_1 = 64. Hypothesis Lb : len b_1 = 64.
  Hypothesis Ta : typed U16 a_1. Hypothesis Tb : typed U16 b_1.

  Definition fa p := blk 16 p (get a_1).
  Definition fb p := blk 16 p (get b_1).

  Definition Frf i j k := pc (fa 0) (fb 0) i j k + pc (fa 1) (fb 1) i j (k - 32)
                        + pc (fa 2) (fb 2) i j (k - 64) + pc (fa 3) (fb 3) i j (k - 96).
  Definition Fd01 i j k := pc (fadd (fa 0) (fa 1)) (fadd (fb 0) (fb 1)) i j k.
  Definition Fd23 i j k := pc (fadd (fa 2) (fa 3)) (fadd (fb 2) (fb 3)) i j k.
  Definition Frd i j k := pc (fadd (fa 0) (fa 2)) (fadd (fb 0) (fb 2)) i j k
                        + pc (fadd (fa 1) (fa 3)) (fadd (fb 1) (fb 3)) i j (k - 32).
  Definition Fd0123 i j k := pc (fadd (fadd (fa 0) (fa 2)) (fadd (fa 1) (fa 3)))
                                (fadd (fadd (fb 0) (fb 2)) (fadd (fb 1) (fb 3))) i j k.

  Definition kinv (i j : Z) (s : kst) : Prop :=
    len (k_rf s) = 127 /\ len (k_d01 s) = 31 /\ len (k_d0123 s) = 31 /\ len (k_d23 s) = 31 /\ len (k_rd s) = 63 /\
    rep (k_rf s) (Frf i j) /\ rep (k_d01 s) (Fd01 i j) /\ rep (k_d0123 s) (Fd0123 i j) /\
    rep (k_d23 s) (Fd23 i j) /\ rep (k_rd s) (Frd i j).

  Lemma fb_at : forall p j, 0 <= j < 16 -> 0 <= p < 4 -> fb p j = get b_1 (j + 16 * p).
  Proof. intros. unfold fb. rewrite blk_in by lia. f_equal. lia. Qed.
  Lemma fa_at : forall p j, 0 <= j < 16 -> 0 <= p < 4 -> fa p j = get a_1 (j + 16 * p).
  Proof. intros. unfold fa. rewrite blk_in by lia. f_equal. lia. Qed.

  Ltac lk := unfold u16 in *; cbn [lok OVERFLOWING_MUL tmin tmax]; repeat split; (assumption || lia).

  Lemma kara_inner_ok : forall i j z1 z2 z3 z4 s, 0 <= i < 16 -> 0 <= j < 16 ->
    u16 z1 -> u16 z2 -> u16 z3 -> u16 z4 ->
    eq16 z1 (fa 0 i) -> eq16 z2 (fa 1 i) -> eq16 z3 (fa 2 i) -> eq16 z4 (fa 3 i) ->
    kinv i j s ->
    wp (kara_inner b_1 i (Var U16 z1) (Var U16 z2) (Var U16 z3) (Var U16 z4) j s) (kinv i (j + 1)).
  Proof.
    intros i j z1 z2 z3 z4 [rf d01 d0123 d23 rd] Hi Hj U1 U2 U3 U4 E1 E2 E3 E4
      (L1 & L2 & L3 & L4 & L5 & R1 & R2 & R3 & R4 & R5).
    cbn [k_rf k_d01 k_d0123 k_d23 k_rd] in *. unfold kara_inner.
    apply wp_bind, wp_asg16 with (v := fb 0 j); [reflexivity|lk|apply eqm_eq; rewrite fb_at by lia; cbn [val]; f_equal; lia|].
    intros z5 U5 E5.
    apply wp_bind, wp_asg16 with (v := fb 1 j); [reflexivity|lk|apply eqm_eq; rewrite fb_at by lia; cbn [val]; f_equal; lia|].
    intros z6 U6 E6.
    apply wp_bind. eapply wp_add_st with (v := fa 0 i * fb 0 j);
      [eassumption|lia|reflexivity|reflexivity|reflexivity|lk|eapply eqm_trans; [apply val_omul; auto|now apply eqm_mul]|].
    intros rf1 L1' R1'.
    apply wp_bind. eapply wp_add_st with (v := fa 1 i * fb 1 j);
      [eassumption|lia|reflexivity|reflexivity|reflexivity|lk|eapply eqm_trans; [apply val_omul; auto|now apply eqm_mul]|].
    intros rf2 L1'' R1''.
    apply wp_bind, wp_asg16 with (v := fadd (fb 0) (fb 1) j); [reflexivity|lk|now apply val_add16|].
    intros z7 U7 E7.
    apply wp_bind, wp_asg16 with (v := fadd (fa 0) (fa 1) i); [reflexivity|lk|now apply val_add16|].
    intros z8 U8' E8.
    apply wp_bind. eapply wp_add_st with (v := fadd (fa 0) (fa 1) i * fadd (fb 0) (fb 1) j);
      [eassumption|lia|reflexivity|reflexivity|reflexivity|lk|
       eapply eqm_trans; [apply val_mul64; auto|rewrite Z.mul_comm; now apply eqm_mul]|].
    intros d01' L2' R2'.
    apply wp_bind, wp_asg16 with (v := fb 2 j); [reflexivity|lk|apply eqm_eq; rewrite fb_at by lia; cbn [val]; f_equal; lia|].
    intros z7' U7' E7'.
    apply wp_bind, wp_asg16 with (v := fb 3 j); [reflexivity|lk|apply eqm_eq; rewrite fb_at by lia; cbn [val]; f_equal; lia|].
    intros z8' U8'' E8'.
    apply wp_bind. eapply wp_add_st with (v := fa 2 i * fb 2 j);
      [eassumption|lia|reflexivity|reflexivity|reflexivity|lk|eapply eqm_trans; [apply val_omul; auto|rewrite Z.mul_comm; now apply eqm_mul]|].
    intros rf3 L1a R1a.
    apply wp_bind. eapply wp_add_st with (v := fa 3 i * fb 3 j);
      [eassumption|lia|reflexivity|reflexivity|reflexivity|lk|eapply eqm_trans; [apply val_omul; auto|rewrite Z.mul_comm; now apply eqm_mul]|].
    intros rf4 L1b R1b.
    apply wp_bind, wp_asg16 with (v := fadd (fa 2) (fa 3) i); [reflexivity|lk|now apply val_add16|].
    intros z9 U9 E9.
    apply wp_bind, wp_asg16 with (v := fadd (fb 2) (fb 3) j); [reflexivity|lk|now apply val_add16|].
    intros z10 U10 E10.
    apply wp_bind. eapply wp_add_st with (v := fadd (fa 2) (fa 3) i * fadd (fb 2) (fb 3) j);
      [eassumption|lia|reflexivity|reflexivity|reflexivity|lk|eapply eqm_trans; [apply val_omul; auto|now apply eqm_mul]|].
    intros d23' L4' R4'.
    apply wp_bind, wp_asg16 with (v := fadd (fb 0) (fb 2) j); [reflexivity|lk|now apply val_add16|].
    intros z5' U5' E5'.
    apply wp_bind, wp_asg16 with (v := fadd (fa 0) (fa 2) i); [reflexivity|lk|now apply val_add16|].
    intros z7'' U7'' E7''.
    apply wp_bind. eapply wp_add_st with (v := fadd (fa 0) (fa 2) i * fadd (fb 0) (fb 2) j);
      [eassumption|lia|reflexivity|reflexivity|reflexivity|lk|eapply eqm_trans; [apply val_omul; auto|rewrite Z.mul_comm; now apply eqm_mul]|].
    intros rd1 L5' R5'.
    apply wp_bind, wp_asg16 with (v := fadd (fb 1) (fb 3) j); [reflexivity|lk|now apply val_add16|].
    intros z6' U6' E6'.
    apply wp_bind, wp_asg16 with (v := fadd (fa 1) (fa 3) i); [reflexivity|lk|now apply val_add16|].
    intros z8'' U8''' E8''.
    apply wp_bind. eapply wp_add_st with (v := fadd (fa 1) (fa 3) i * fadd (fb 1) (fb 3) j);
      [eassumption|lia|reflexivity|reflexivity|reflexivity|lk|eapply eqm_trans; [apply val_omul; auto|rewrite Z.mul_comm; now apply eqm_mul]|].
    intros rd2 L5'' R5''.
    apply wp_bind, wp_asg16 with (v := fadd (fadd (fb 0) (fb 2)) (fadd (fb 1) (fb 3)) j); [reflexivity|lk|now apply val_add16|].
    intros y5 V5 F5.
    apply wp_bind, wp_asg16 with (v := fadd (fadd (fa 0) (fa 2)) (fadd (fa 1) (fa 3)) i); [reflexivity|lk|now apply val_add16|].
    intros y7 V7 F7.
    apply wp_bind. eapply wp_add_st with
      (v := fadd (fadd (fa 0) (fa 2)) (fadd (fa 1) (fa 3)) i * fadd (fadd (fb 0) (fb 2)) (fadd (fb 1) (fb 3)) j);
      [eassumption|lia|reflexivity|reflexivity|reflexivity|lk|eapply eqm_trans; [apply val_omul; auto|rewrite Z.mul_comm; now apply eqm_mul]|].
    intros d0123' L3' R3'.
    apply wp_ret. unfold kinv. cbn [k_rf k_d01 k_d0123 k_d23 k_rd]. repeat split; try lia;
    match goal with
    | R : rep ?l _ |- typed U16 ?l => apply R
    | R : rep ?l _ |- forall k, 0 <= k < len ?l -> _ => eapply rep_ext; [apply R|]
    end; cbn beta; intros k Hk.
    - unfold Frf. rewrite !pc_step by lia.
      destruct (k =? i + j + 0) eqn:C0, (k =? i + j + 32) eqn:C1, (k =? i + j + 64) eqn:C2, (k =? i + j + 96) eqn:C3,
        (k =? i + j) eqn:D0, (k - 32 =? i + j) eqn:D1, (k - 64 =? i + j) eqn:D2, (k - 96 =? i + j) eqn:D3; lia.
    - unfold Fd01. rewrite pc_step by lia. auto.
    - unfold Fd0123. rewrite pc_step by lia. auto.
    - unfold Fd23. rewrite pc_step by lia. auto.
    - unfold Frd. rewrite !pc_step by lia.
      destruct (k =? i + j + 0) eqn:C0, (k =? i + j + 32) eqn:C1, (k =? i + j) eqn:D0, (k - 32 =? i + j) eqn:D1; lia.
  Qed.

  Lemma kinv_row : forall i s, 0 <= i < 16 -> kinv i 16 s -> kinv (i + 1) 0 s.
  Proof.
    intros i s Hi (L1 & L2 & L3 & L4 & L5 & R1 & R2 & R3 & R4 & R5).
    assert (forall p, supp 16 (fb p)) as S by (intros; apply blk_supp).
    unfold kinv. repeat split; auto;
    match goal with
    | R : rep ?l _ |- typed U16 ?l => apply R
    | R : rep ?l _ |- forall k, 0 <= k < len ?l -> _ => eapply rep_ext; [apply R|]
    end; intros k Hk; unfold Frf, Fd01, Fd0123, Fd23, Frd; rewrite !pc_row; auto using supp_add; lia.
  Qed.

  Lemma kara_outer_ok : forall i s, 0 <= i < 16 -> kinv i 0 s -> wp (kara_outer a_1 b_1 i s) (kinv (i + 1) 0).
  Proof.
    intros i s Hi Hs. unfold kara_outer.
    apply wp_bind, wp_asg16 with (v := fa 0 i); [reflexivity|lk|apply eqm_eq; rewrite fa_at by lia; cbn [val]; f_equal; lia|].
    intros z1 U1 E1.
    apply wp_bind, wp_asg16 with (v := fa 1 i); [reflexivity|lk|apply eqm_eq; rewrite fa_at by lia; cbn [val]; f_equal; lia|].
    intros z2 U2 E2.
    apply wp_bind, wp_asg16 with (v := fa 2 i); [reflexivity|lk|apply eqm_eq; rewrite fa_at by lia; cbn [val]; f_equal; lia|].
    intros z3 U3 E3.
    apply wp_bind, wp_asg16 with (v := fa 3 i); [reflexivity|lk|apply eqm_eq; rewrite fa_at by lia; cbn [val]; f_equal; lia|].
    intros z4 U4 E4.
    apply wp_for with (I := kinv i); auto; [lia| |].
    - intros. apply kara_inner_ok; auto.
    - intros. now apply kinv_row.
  Qed.

  (** Products of blocks. *)
  Definition T p q := conv 16 (fa p) (fb q).
  Definition U p q c k := T p q (k - c).

  Lemma T_out : forall p q k, ~ (0 <= k < 31) -> T p q k = 0.
  Proof. intros. apply conv_out; [apply blk_supp|lia]. Qed.

  Lemma conv_faddl : forall f g h k, conv 16 (fadd f g) h k = conv 16 f h k + conv 16 g h k.
  Proof. intros. apply conv_addl. Qed.
  Lemma conv_faddr : forall f g h k, conv 16 h (fadd f g) k = conv 16 h f k + conv 16 h g k.
  Proof. intros. apply conv_addr. Qed.

  Definition RF k := T 0 0 k + T 1 1 (k - 32) + T 2 2 (k - 64) + T 3 3 (k - 96).
  Definition D01 k := T 0 0 k + T 0 1 k + T 1 0 k + T 1 1 k.
  Definition D23 k := T 2 2 k + T 2 3 k + T 3 2 k + T 3 3 k.
  Definition E0 k := T 0 0 k + T 0 2 k + T 2 0 k + T 2 2 k.
  Definition E1 k := T 1 1 k + T 1 3 k + T 3 1 k + T 3 3 k.
  Definition RD k := E0 k + E1 (k - 32).
  Definition D0123 k := E0 k + E1 k + (T 0 1 k + T 0 3 k + T 2 1 k + T 2 3 k) + (T 1 0 k + T 1 2 k + T 3 0 k + T 3 2 k).

  Lemma kinv_end : forall s, kinv 16 0 s ->
    len (k_rf s) = 127 /\ len (k_d01 s) = 31 /\ len (k_d0123 s) = 31 /\ len (k_d23 s) = 31 /\ len (k_rd s) = 63 /\
    rep (k_rf s) RF /\ rep (k_d01 s) D01 /\ rep (k_d0123 s) D0123 /\ rep (k_d23 s) D23 /\ rep (k_rd s) RD.
  Proof.
    intros s (L1 & L2 & L3 & L4 & L5 & R1 & R2 & R3 & R4 & R5).
    do 5 (split; [assumption|]).
    split; [|split; [|split; [|split]]];
    [eapply rep_ext; [exact R1|]|eapply rep_ext; [exact R2|]|eapply rep_ext; [exact R3|]
    |eapply rep_ext; [exact R4|]|eapply rep_ext; [exact R5|]];
    intros k Hk; clear; unfold Frf, Fd01, Fd0123, Fd23, Frd; rewrite !pc_end by first [lia|apply blk_supp];
    rewrite ?conv_faddl, ?conv_faddr; unfold RF, D01, D23, RD, D0123, E0, E1, T; lia.
  Qed.

  Lemma kinv_init : forall rf d01 d0123 d23 rd,
    rf = repeat 0 127 -> d01 = repeat 0 31 -> d0123 = repeat 0 31 -> d23 = repeat 0 31 -> rd = repeat 0 63 ->
    kinv 0 0 (K rf d01 d0123 d23 rd).
  Proof.
    intros; subst. unfold kinv. cbn [k_rf k_d01 k_d0123 k_d23 k_rd].
    repeat (split; [reflexivity|]).
    repeat split; try (apply Forall_repeat; cbn; lia);
    intros k Hk; unfold get; rewrite znth_repeat; apply eqm_eq;
    unfold Frf, Fd01, Fd0123, Fd23, Frd; rewrite !pc_0; reflexivity.
  Qed.

  (** Stage 1 (lines 88-92) *)
  Definition X k := D0123 k - RD k - RD (k + 32).
  Definition Y k := D01 k - RF k - RF (k + 32).
  Definition W k := D23 k - RF (k + 64) - RF (k + 96).
  Definition step1 (f g : Z -> Z) i k := if k <? i then f k else g k.
  (** Stage 2 (lines 94-98) *)
  Definition plus (s i : Z) (f : Z -> Z) k := if (s <=? k) && (k <? s + i) then f (k - s) else 0.
  Definition RD2 i k := RD k + plus 16 i X k.
  Definition RF2 i k := RF k + plus 16 i Y k + plus 80 i W k.
  (** Stage 3 (lines 101-103) *)
  Definition V k := RD2 31 k - RF2 31 k - RF2 31 (k + 64).

  Lemma val_sub3 : forall l1 l2 l3 i1 i2 i3 f1 f2 f3, rep l1 f1 -> rep l2 f2 -> rep l3 f3 ->
    0 <= i1 < len l1 -> 0 <= i2 < len l2 -> 0 <= i3 < len l3 ->
    eq16 (val (Idx U16 l1 i1 - Idx U16 l2 i2 - Idx U16 l3 i3)%C) (f1 i1 - f2 i2 - f3 i3).
  Proof.
    intros. cbn [val val_bin ty promote common]. unfold cv, uw. cbn [subr signed].
    apply eqm_sub; [apply eqm_sub|]; [apply H|apply H0|apply H1]; auto.
  Qed.

  Lemma step1_rep : forall l f g i, 0 <= i < len l ->
    rep l (fun k => if k =? i then f i else step1 f g i k) -> rep l (step1 f g (i + 1)).
  Proof.
    intros l f g i Hi H. eapply rep_ext; [apply H|]. cbn beta. intros k Hk. unfold step1.
    destruct (k =? i) eqn:C1, (k <? i) eqn:C2, (k <? i + 1) eqn:C3; try lia; auto.
    assert (k = i) by lia. now subst.
  Qed.

  Lemma step1_at : forall f g i, step1 f g i i = g i.
  Proof. intros. unfold step1. now rewrite Z.ltb_irrefl. Qed.

  Lemma plus_step : forall s i f k, 0 <= i -> plus s (i + 1) f k = plus s i f k + (if k =? i + s then f i else 0).
  Proof.
    intros. unfold plus. destruct ((s <=? k) && (k <? s + (i + 1))) eqn:C1, ((s <=? k) && (k <? s + i)) eqn:C2,
      (k =? i + s) eqn:C3; try lia; replace (k - s) with i by lia; lia.
  Qed.

  Lemma plus_0 : forall s f k, plus s 0 f k = 0.
  Proof. intros. unfold plus. destruct (_ && _) eqn:E; auto. lia. Qed.

  Ltac t_step k :=
    match goal with
    | |- context [T ?p ?q ?e] =>
      first [ rewrite (T_out p q e) by lia
            | replace (T p q e) with (U p q 0 k) by (unfold U; f_equal; lia)
            | replace (T p q e) with (U p q 16 k) by (unfold U; f_equal; lia)
            | replace (T p q e) with (U p q 32 k) by (unfold U; f_equal; lia)
            | replace (T p q e) with (U p q 48 k) by (unfold U; f_equal; lia)
            | replace (T p q e) with (U p q 64 k) by (unfold U; f_equal; lia)
            | replace (T p q e) with (U p q 80 k) by (unfold U; f_equal; lia)
            | replace (T p q e) with (U p q 96 k) by (unfold U; f_equal; lia) ]
    end.

  Lemma kara_algebra : forall k, 0 <= k < 127 ->
    RF2 31 k + plus 32 63 V k = conv 64 (get a_1) (get b_1) k.
  Proof.
    intros k Hk.
    transitivity (T 0 0 k
      + (T 0 1 (k - 16) + T 1 0 (k - 16))
      + (T 0 2 (k - 32) + T 1 1 (k - 32) + T 2 0 (k - 32))
      + (T 0 3 (k - 48) + T 1 2 (k - 48) + T 2 1 (k - 48) + T 3 0 (k - 48))
      + (T 1 3 (k - 64) + T 2 2 (k - 64) + T 3 1 (k - 64))
      + (T 2 3 (k - 80) + T 3 2 (k - 80))
      + T 3 3 (k - 96)).
    2: { symmetry. exact (conv_blocks 16 (get a_1) (get b_1) k ltac:(lia) (get_supp b_1 64 Lb)). }
    unfold V, RF2, RD2, plus, X, Y, W.
    destruct ((32 <=? k) && (k <? 32 + 63)) eqn:C1;
    destruct ((16 <=? k) && (k <? 16 + 31)) eqn:C2;
    destruct ((80 <=? k) && (k <? 80 + 31)) eqn:C3; try lia;
    destruct ((16 <=? k - 32) && (k - 32 <? 16 + 31)) eqn:C4; try lia;
    destruct ((16 <=? k - 32 + 64) && (k - 32 + 64 <? 16 + 31)) eqn:C5; try lia;
    destruct ((80 <=? k - 32) && (k - 32 <? 80 + 31)) eqn:C6; try lia;
    destruct ((80 <=? k - 32 + 64) && (k - 32 + 64 <? 80 + 31)) eqn:C7; try lia;
    unfold RF, RD, D01, D23, D0123, E0, E1; repeat (t_step k); lia.
  Qed.

  Lemma memset_uninit : forall junk t n (Q : list Z -> Prop), 0 <= n -> Q (repeat 0 (Z.to_nat n)) ->
    wp (memset (uninit junk t n) 0 n) Q.
  Proof.
    intros. apply wp_memset; [rewrite uninit_len; lia|].
    replace (zskip n (uninit junk t n)) with (@nil Z); [now rewrite app_nil_r|].
    symmetry. unfold zskip. apply skipn_all2. pose proof (uninit_len junk t n). unfold len in *. lia.
  Qed.

  Lemma wp_karatsuba : forall junk rf (Q : list Z -> Prop), len rf = 127 ->
    (forall r, len r = 127 -> rep r (conv 64 (get a_1) (get b_1)) -> Q r) ->
    wp (karatsuba_simple junk a_1 b_1 rf) Q.
  Proof.
    intros junk rf Q Lrf HQ. unfold karatsuba_simple.
    apply wp_bind, memset_uninit; [lia|]. apply wp_bind, memset_uninit; [lia|].
    apply wp_bind, memset_uninit; [lia|]. apply wp_bind, memset_uninit; [lia|].
    apply wp_bind, wp_memset; [lia|].
    replace (zskip 127 rf) with (@nil Z) by (symmetry; apply skipn_all2; unfold len in *; lia).
    rewrite app_nil_r.
    apply wp_bind, wp_for with (I := fun i s => kinv i 0 s).
    { lia. } { now apply kinv_init. } { intros. now apply kara_outer_ok. }
    intros [rf0 d01 d0123 d23 rd] Hk. apply kinv_end in Hk.
    destruct Hk as (L1 & L2 & L3 & L4 & L5 & R1 & R2 & R3 & R4 & R5).
    cbn [k_rf k_d01 k_d0123 k_d23 k_rd] in *.
    (* stage 1 *)
    apply wp_bind, wp_for with (I := fun i '(d01, d0123, d23) =>
      len d01 = 31 /\ len d0123 = 31 /\ len d23 = 31 /\
      rep d01 (step1 Y D01 i) /\ rep d0123 (step1 X D0123 i) /\ rep d23 (step1 W D23 i)).
    { lia. }
    { repeat split; auto; try (apply R2 || apply R3 || apply R4); intros k Hk; unfold step1;
      destruct (k <? 0) eqn:E; try lia; (apply R2 || apply R3 || apply R4); lia. }
    { intros i [[x1 x2] x3] Hi (A1 & A2 & A3 & B1 & B2 & B3).
      apply wp_bind. eapply wp_st16 with (v := X i); [apply B2|lia|reflexivity| | |].
      { cbn [lok]. repeat split; try lia; (apply B2 || apply R5). }
      { eapply eqm_trans; [eapply val_sub3; [apply B2|apply R5|apply R5|lia|lia|lia]|].
        apply eqm_eq. rewrite step1_at, Z.add_0_r. unfold X. reflexivity. }
      intros y2 A2' B2'.
      apply wp_bind. eapply wp_st16 with (v := Y i); [apply B1|lia|reflexivity| | |].
      { cbn [lok]. repeat split; try lia; (apply B1 || apply R1). }
      { eapply eqm_trans; [eapply val_sub3; [apply B1|apply R1|apply R1|lia|lia|lia]|].
        apply eqm_eq. rewrite step1_at, Z.add_0_r. unfold Y. reflexivity. }
      intros y1 A1' B1'.
      apply wp_bind. eapply wp_st16 with (v := W i); [apply B3|lia|reflexivity| | |].
      { cbn [lok]. repeat split; try lia; (apply B3 || apply R1). }
      { eapply eqm_trans; [eapply val_sub3; [apply B3|apply R1|apply R1|lia|lia|lia]|].
        apply eqm_eq. rewrite step1_at. unfold W. reflexivity. }
      intros y3 A3' B3'. apply wp_ret.
      split; [lia|]. split; [lia|]. split; [lia|].
      split; [|split]; apply step1_rep; auto; lia. }
    intros [[x1 x2] x3] (A1 & A2 & A3 & B1 & B2 & B3).
    assert (forall l f g, len l = 31 -> rep l (step1 f g 31) -> rep l f) as S31.
    { intros l f g Hl H. eapply rep_ext; [apply H|]. intros k Hk. unfold step1. destruct (k <? 31) eqn:E; auto. lia. }
    apply S31 in B1; auto. apply S31 in B2; auto. apply S31 in B3; auto. clear S31.
    (* stage 2 *)
    apply wp_bind, wp_for with (I := fun i '(rd, rf) =>
      len rd = 63 /\ len rf = 127 /\ rep rd (RD2 i) /\ rep rf (RF2 i)).
    { lia. }
    { split; auto. split; auto. split; [eapply rep_ext; [apply R5|]|eapply rep_ext; [apply R1|]];
      intros k Hk; unfold RD2, RF2; rewrite !plus_0; lia. }
    { intros i [z1 z2] Hi (A4 & A5 & B4 & B5).
      apply wp_bind. eapply wp_add_st with (v := X i); [apply B4|lia|reflexivity|reflexivity|reflexivity| | |].
      { cbn [lok]. split; [lia|apply B2]. }
      { apply B2. lia. }
      intros y4 A4' B4'.
      apply wp_bind. eapply wp_add_st with (v := Y i); [apply B5|lia|reflexivity|reflexivity|reflexivity| | |].
      { cbn [lok]. split; [lia|apply B1]. }
      { apply B1. lia. }
      intros y5 A5' B5'.
      apply wp_bind. eapply wp_add_st with (v := W i); [apply B5'|lia|reflexivity|reflexivity|reflexivity| | |].
      { cbn [lok]. split; [lia|apply B3]. }
      { apply B3. lia. }
      intros y6 A6' B6'. apply wp_ret. split; [lia|]. split; [lia|].
      split; [eapply rep_ext; [apply B4'|]|eapply rep_ext; [apply B6'|]]; cbn beta; intros k Hk; unfold RD2, RF2;
      rewrite !plus_step by lia; lia. }
    intros [z1 z2] (A4 & A5 & B4 & B5).
    (* stage 3 *)
    apply wp_bind, wp_for with (I := fun i rd => len rd = 63 /\ rep rd (step1 V (RD2 31) i)).
    { lia. }
    { split; auto. eapply rep_ext; [apply B4|]. intros k Hk. unfold step1. destruct (k <? 0) eqn:E; auto. lia. }
    { intros i x Hi (A6 & B6). eapply wp_st16 with (v := V i); [apply B6|lia|reflexivity| | |].
      { cbn [lok]. repeat split; try lia; (apply B6 || apply B5). }
      { eapply eqm_trans; [eapply val_sub3; [apply B6|apply B5|apply B5|lia|lia|lia]|].
        apply eqm_eq. rewrite step1_at. unfold V. reflexivity. }
      intros y A B. split; [lia|]. apply step1_rep; auto. lia. }
    intros z3 (A6 & B6).
    assert (rep z3 V) as B7.
    { eapply rep_ext; [apply B6|]. intros k Hk. unfold step1. destruct (k <? 63) eqn:E; auto. lia. }
    (* stage 4 *)
    apply wp_for with (I := fun i rf => len rf = 127 /\ rep rf (fun k => RF2 31 k + plus 32 i V k)).
    { lia. }
    { split; auto. eapply rep_ext; [apply B5|]. intros k Hk. rewrite plus_0. lia. }
    { intros i x Hi (A7 & B8). eapply wp_add_st with (v := V i); [apply B8|lia|reflexivity|reflexivity|reflexivity| | |].
      { cbn [lok]. split; [lia|apply B7]. }
      { apply B7. lia. }
      intros y A B. split; [lia|]. eapply rep_ext; [apply B|]. cbn beta. intros k Hk. rewrite plus_step by lia. lia. }
    intros r (Lr & Rr). apply HQ; auto. eapply rep_ext; [apply Rr|]. cbn beta. intros k Hk. apply kara_algebra. lia.
  Qed.
End Kara.
