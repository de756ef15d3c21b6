(** [cbd] computes the centred binomial formula. *)
From Coq Require Import ZArith List Bool Lia.
From Verif Require Import Lib.Arr Lib.CInt Lib.CMon Lib.Wire Spec.Bits Spec.Ring Spec.Sampling Proof.Conv Model.Params Model.Cbd Proof.PackThm.
Import ListNotations.
Local Open Scope Z_scope.

Lemma wp_asgv : forall t e v (Q : cexp -> Prop), safe e = true -> lok e -> val e = v -> tmin t <= v <= tmax t ->
  Q (Var t v) -> wp (asg t e) Q.
Proof. intros. apply wp_asg; auto. rewrite H1. rewrite wrap_id by auto. auto. Qed.

(** ** Bit-parallel population count *)

Fixpoint ones (w : Z) (n : nat) : Z := match n with O => 0 | S m => 1 + 2 ^ w * ones w m end.
Fixpoint spread (w : Z) (n : nat) (x : Z) : Z :=
  match n with O => 0 | S m => x mod 2 + 2 ^ w * spread w m (Z.shiftr x w) end.

Lemma land_step : forall x w m, 0 < w ->
  Z.land x (1 + 2 ^ w * m) = x mod 2 + 2 ^ w * Z.land (Z.shiftr x w) m.
Proof.
  intros x w m Hw. apply Z.bits_inj'. intros k Hk. rewrite Z.land_spec.
  assert (forall b y, (b = 0 \/ b = 1) -> Z.testbit (b + 2 ^ w * y) k =
            if k =? 0 then b =? 1 else if k <? w then false else Z.testbit y (k - w)) as R.
  { intros b y Hb. rewrite Z.add_nocarry_lxor by
      (apply Z.bits_inj'; intros n Hn; rewrite Z.bits_0, Z.land_spec, Z.mul_comm, Z.mul_pow2_bits by lia;
       destruct (Z_lt_dec n w); [rewrite (Z.testbit_neg_r y) by lia; apply andb_false_r|];
       replace (Z.testbit b n) with false; auto; symmetry; destruct Hb; subst;
       [apply Z.bits_0|apply Z.bits_above_log2; cbn; lia]).
    rewrite Z.lxor_spec, Z.mul_comm, Z.mul_pow2_bits by lia.
    destruct (k =? 0) eqn:E0.
    - assert (k = 0) by lia. subst. rewrite (Z.testbit_neg_r y) by lia. rewrite xorb_false_r. destruct Hb; subst; reflexivity.
    - replace (Z.testbit b k) with false
        by (symmetry; destruct Hb; subst; [apply Z.bits_0|apply Z.bits_above_log2; cbn; lia]).
      rewrite xorb_false_l. destruct (k <? w) eqn:E1; [apply Z.testbit_neg_r; lia|auto]. }
  rewrite !R by (auto; pose proof (Z.mod_pos_bound x 2 eq_refl); lia).
  destruct (k =? 0) eqn:E0.
  - assert (k = 0) by lia. subst. rewrite Z.bit0_odd.
    rewrite Zmod_odd. destruct (Z.odd x); reflexivity.
  - destruct (k <? w) eqn:E1; [apply andb_false_r|].
    rewrite Z.land_spec, Z.shiftr_spec by lia. now replace (k - w + w) with k by lia.
Qed.

Lemma land_ones : forall w n x, 0 < w -> Z.land x (ones w n) = spread w n x.
Proof.
  induction n; intros x Hw; cbn [ones spread]; [apply Z.land_0_r|]. rewrite land_step by auto. now rewrite IHn.
Qed.

(** Number of ones among the low [w] bits. *)
Definition pcn (w x : Z) : Z := zsum w (fun j => Z.shiftr x j mod 2).
Fixpoint digs (w : Z) (n : nat) (x : Z) : Z :=
  match n with O => 0 | S m => pcn w x + 2 ^ w * digs w m (Z.shiftr x w) end.

Lemma sum_spread : forall w n x, 0 < w -> zsum w (fun j => spread w n (Z.shiftr x j)) = digs w n x.
Proof.
  induction n; intros x Hw; cbn [spread digs]; [apply zsum_zero; auto|].
  rewrite zsum_add, zsum_scale. unfold pcn. f_equal. f_equal. rewrite <- IHn by auto. apply zsum_ext. intros j Hj.
  f_equal. rewrite !Z.shiftr_shiftr by lia. f_equal. lia.
Qed.

Lemma zsum_bound : forall n f b, 0 <= n -> (forall i, 0 <= i < n -> 0 <= f i <= b) -> 0 <= zsum n f <= n * b.
Proof.
  intros n f b Hn. pattern n. apply natlike_ind; auto; [intros; rewrite zsum_0; lia|].
  intros m Hm IH H. unfold Z.succ. rewrite zsum_S by lia. specialize (IH ltac:(intros; apply H; lia)).
  specialize (H m ltac:(lia)). lia.
Qed.

Lemma pcn_bound : forall w x, 0 < w -> 0 <= pcn w x <= w.
Proof.
  intros. pose proof (zsum_bound w (fun j => Z.shiftr x j mod 2) 1 ltac:(lia)) as B. unfold pcn.
  rewrite Z.mul_1_r in B. apply B. intros i Hi. pose proof (Z.mod_pos_bound (Z.shiftr x i) 2 eq_refl). lia.
Qed.

Lemma pow_gt : forall w, 0 <= w -> w < 2 ^ w.
Proof. intros. apply Z.pow_gt_lin_r; lia. Qed.

Lemma shiftr_add : forall w p d, 0 < w -> 0 <= p <= w -> Z.shiftr (p + 2 ^ w * d) w = d.
Proof.
  intros. pose proof (pow_gt w ltac:(lia)). rewrite Z.shiftr_div_pow2 by lia. symmetry. apply Z.div_unique with p; lia.
Qed.

Lemma digs_shift : forall k w n x, 0 < w -> Z.shiftr (digs w (k + n) x) (w * Z.of_nat k) = digs w n (Z.shiftr x (w * Z.of_nat k)).
Proof.
  induction k; intros w n x Hw; [cbn [Nat.add]; rewrite Z.mul_0_r, !Z.shiftr_0_r; auto|].
  cbn [Nat.add digs]. replace (w * Z.of_nat (S k)) with (w + w * Z.of_nat k) by lia.
  rewrite <- !Z.shiftr_shiftr by lia. rewrite shiftr_add by (auto; apply pcn_bound; auto). now apply IHk.
Qed.

Lemma digit : forall w n k x, 0 < w -> 0 <= k -> k < Z.of_nat n ->
  Z.land (Z.shiftr (digs w n x) (w * k)) (2 ^ w - 1) = pcn w (Z.shiftr x (w * k)).
Proof.
  intros w n k x Hw Hk Hkn. replace n with (Z.to_nat k + S (n - Z.to_nat k - 1))%nat by lia.
  rewrite <- (Z2Nat.id k) by lia. rewrite Nat2Z.id, digs_shift by auto. cbn [digs].
  replace (2 ^ w - 1) with (Z.ones w) by (rewrite Z.ones_equiv; lia). rewrite Z.land_ones by lia.
  pose proof (pcn_bound w (Z.shiftr x (w * Z.of_nat (Z.to_nat k))) Hw). pose proof (pow_gt w ltac:(lia)).
  rewrite (Z.mul_comm (2 ^ w)), Z.mod_add, Z.mod_small by lia. auto.
Qed.

Lemma digit_top : forall w n k x, 0 < w -> 0 <= k -> k + 1 = Z.of_nat n ->
  Z.shiftr (digs w n x) (w * k) = pcn w (Z.shiftr x (w * k)).
Proof.
  intros w n k x Hw Hk Hkn. replace n with (Z.to_nat k + 1)%nat by lia.
  rewrite <- (Z2Nat.id k) by lia. rewrite Nat2Z.id, digs_shift by auto. cbn [digs]. lia.
Qed.

Lemma pcn_hw : forall w x k n f, 0 < w -> 0 <= k -> w * k + w <= n -> x = bits_val n f ->
  pcn w (Z.shiftr x (w * k)) = hw w (fun j => f (w * k + j)).
Proof.
  intros w x k n f Hw Hk Hn ->. apply zsum_ext. intros j Hj. rewrite Z.shiftr_shiftr by lia.
  rewrite <- Z.bit0_mod, Z.shiftr_spec by lia. rewrite bits_val_testbit by nia.
  replace (0 + (w * k + j) <? n) with true by nia. cbn [andb]. do 2 f_equal.
Qed.

(** ** Loading bytes *)

Lemma wp_load : forall x n (Q : cexp -> Prop), 1 <= n <= 5 -> n <= len x -> typed U8 x ->
  Q (Var U64 (bits_val (8 * n) (fbit 8 x))) -> wp (load_littleendian x n) Q.
Proof.
  intros x n Q Hn Hl T HQ. unfold load_littleendian.
  assert (forall i, 0 <= get x i <= 255) as G.
  { intros i. destruct (Z_lt_dec i 0); [unfold get; rewrite znth_default; lia|].
    destruct (Z_lt_dec i (len x)); [|unfold get; rewrite znth_default; lia]. pose proof (typed_get U8 x i T). cbn in *. lia. }
  assert (forall i k, i < n -> 0 <= k < 8 * (i + 1) -> 8 * i <= k -> fbit 8 x k = Z.testbit (get x i) (k - 8 * i)) as F.
  { intros i k Hi Hk Hk'. replace k with (8 * i + (k - 8 * i)) at 1 by lia. apply fbit_at; lia. }
  assert (forall i, 0 <= i -> 0 <= bits_val (8 * i) (fbit 8 x) < 2 ^ (8 * i)) as B by (intros; apply bits_val_bound; lia).
  apply wp_bind, wp_asgv with (v := bits_val (8 * 1) (fbit 8 x)); [reflexivity|cbn [lok]; split; auto; lia| |cbn [tmin tmax]; specialize (B 1); lia|].
  { cbn [val]. apply bits_val_eq; [lia|specialize (G 0); change (2 ^ (8 * 1)) with 256; lia|]. intros k Hk. rewrite (F 0) by lia. f_equal. lia. }
  apply wp_for with (I := fun i r => r = Var U64 (bits_val (8 * i) (fbit 8 x))).
  - lia.
  - auto.
  - intros i r Hi ->. assert (2 ^ (8 * i) <= 2 ^ 32) by (apply Z.pow_le_mono_r; lia).
    assert (2 ^ (8 * (i + 1)) <= 2 ^ 40) by (apply Z.pow_le_mono_r; lia).
    assert (2 ^ (8 * (i + 1)) = 2 ^ (8 * i) * 256) as P by (replace (8 * (i + 1)) with (8 * i + 8) by lia; rewrite Z.pow_add_r by lia; reflexivity).
    assert (0 < 2 ^ (8 * i)) by (apply Z.pow_pos_nonneg; lia).
    pose proof (B i). pose proof (B (i + 1)). pose proof (G i).
    apply wp_asgv with (v := bits_val (8 * (i + 1)) (fbit 8 x)); [reflexivity| | |cbn [tmin tmax]; lia|auto].
    + cbn [lok tmin tmax]. repeat split; auto; lia.
    + cbn [val val_bin ty promote common]. unfold cv, uw. cbn [subr signed wrap].
      rewrite Z.mod_small by nia.
      apply Z.bits_inj'. intros k Hk. rewrite Z.lor_spec, !bits_val_testbit, Z.mul_pow2_bits by lia.
      destruct (k <? 8 * i) eqn:E1.
      * rewrite (Z.testbit_neg_r (get x i)) by lia. replace (k <? 8 * (i + 1)) with true by lia. apply orb_false_r.
      * cbn [andb orb]. destruct (k <? 8 * (i + 1)) eqn:E2; cbn [andb]; [rewrite (F i) by lia; auto|].
        apply testbit_high with 8; lia.
  - intros r ->. auto.
Qed.

(** ** The three samplers *)

(** Coefficients reduced modulo [md]. *)
Definition cbd_postm (md mu : Z) (s buf : list Z) (r : list Z) : Prop :=
  r = ztab 256 (fun i => cbd_coef mu buf i mod md) ++ zskip 256 s.
Definition cbd_post : Z -> list Z -> list Z -> list Z -> Prop := cbd_postm 65536.

Lemma cbd_elem : forall mu w nb i r buf n x, mu = 2 * w -> 0 < w -> 8 * nb = 4 * mu -> 0 <= nb -> 0 <= i -> 0 <= r < 4 ->
  n = 8 * nb -> x = bits_val n (fbit 8 (zskip (nb * i) buf)) ->
  pcn w (Z.shiftr x (w * (2 * r))) - pcn w (Z.shiftr x (w * (2 * r + 1))) = cbd_coef mu buf (4 * i + r).
Proof.
  intros mu w nb i r buf n x -> Hw Hnb Hnb' Hi Hr -> Hx. unfold cbd_coef.
  replace (2 * w / 2) with w by (symmetry; rewrite Z.mul_comm; apply Z.div_mul; lia).
  rewrite (pcn_hw w x (2 * r) (8 * nb) _ Hw ltac:(lia) ltac:(nia) Hx), (pcn_hw w x (2 * r + 1) (8 * nb) _ Hw ltac:(lia) ltac:(nia) Hx).
  assert (forall k, 0 <= k -> fbit 8 (zskip (nb * i) buf) k = fbit 8 buf (8 * (nb * i) + k)) as F.
  { intros k Hk. unfold fbit. rewrite (Z.mul_comm 8), Z.add_comm. rewrite Z.div_add, Z.mod_add by lia.
    unfold get. rewrite znth_zskip by (try apply Z.div_pos; nia). do 2 f_equal. lia. }
  f_equal; apply zsum_ext; intros j Hj; f_equal; rewrite F by nia; f_equal; nia.
Qed.

Lemma sum_ok : forall t w mask x (body : Z -> cexp -> M cexp) (Q : cexp -> Prop) n,
  signed t = false -> 0 < w -> mask = ones w n -> w * mask <= tmax t ->
  (forall j z, 0 <= j < w -> 0 <= z <= j * mask -> wp (body j (Var t z)) (fun d => d = Var t (z + Z.land (Z.shiftr x j) mask))) ->
  0 <= mask -> Q (Var t (digs w n x)) -> wp (for_ 0 w body (Var t 0)) Q.
Proof.
  intros t w mask x body Q n Ht Hw Hm Hb Hbody Hmask HQ.
  assert (forall j, 0 <= Z.land (Z.shiftr x j) mask <= mask) as LM.
  { intros. rewrite Z.land_comm. pose proof (land_nonneg_le mask (Z.shiftr x j)). lia. }
  apply wp_for with (I := fun j d => d = Var t (zsum j (fun j' => Z.land (Z.shiftr x j') mask))).
  - lia.
  - reflexivity.
  - intros j d Hj ->. eapply wp_mono; [apply Hbody; auto|].
    + apply zsum_bound; [lia|]. intros; apply LM.
    + cbn beta. intros d ->. now rewrite zsum_S by lia.
  - intros d ->. rewrite <- sum_spread in HQ by auto. erewrite zsum_ext; [apply HQ|]. intros j Hj. cbn beta.
    now rewrite Hm, land_ones.
Qed.

Lemma cbd_final : forall md s buf mu r, len s = 256 -> len r = 256 ->
  (forall k, 0 <= k < 256 -> get r k = if k <? 4 * 64 then cbd_coef mu buf k mod md else get s k) ->
  cbd_postm md mu s buf r.
Proof.
  intros md s buf mu r Ls Lr H. unfold cbd_postm. rewrite zskip_all, app_nil_r by lia. apply ztab_eq with 0; auto.
  intros i Hi. specialize (H i Hi). replace (i <? 4 * 64) with true in H by lia. auto.
Qed.

Lemma cast_sub : forall t l k p q, t = U32 \/ t = U64 ->
  znth (Cst I32 0) l k = Cast U16 (Var t p - Var t q)%C ->
  wrap U16 (val (znth (Cst I32 0) l k)) = (p - q) mod 65536.
Proof.
  intros t l k p q Ht ->. apply (eqm_mod_eq 65536); [lia|].
  cbn [val val_bin ty].
  destruct Ht; subst t; cbn [promote common]; unfold cv, uw; cbn [subr signed wrap].
  - eapply eqm_trans; [apply eqm_mod; lia|].
    apply eqm_divide with (2 ^ 16). apply (eqm_mod (2 ^ 32)). lia.
  - eapply eqm_trans; [apply eqm_mod; lia|].
    apply eqm_divide with (2 ^ 48). apply (eqm_mod (2 ^ 64)). lia.
Qed.

Ltac lkv := cbn [lok tmin tmax]; repeat split; (assumption || lia).

(** [ld] is the lemma about loading bytes, [cs] the lemma about the reduction modulo [md]. *)
Ltac cbd_tacm ld cs md mu w nb t mask :=
  intros s buf Q Ls Lb Tb HQ; match goal with |- wp (?f s buf) _ => unfold f end; change (256 / 4) with 64;
  apply wp_for with (I := fun i r => len r = 256 /\ forall k, 0 <= k < 256 ->
    get r k = if k <? 4 * i then cbd_coef mu buf k mod md else get s k);
  [ lia
  | split; auto; intros k Hk; destruct (k <? 4 * 0) eqn:E; auto; lia
  | intros i r Hi (Lr & Hr);
    apply wp_bind, wp_ptr; [lia|];
    apply wp_bind, ld; [lia|rewrite len_zskip; lia|apply Forall_zskip; auto|];
    pose proof (bits_val_bound (8 * nb) (fbit 8 (zskip (nb * i) buf)) ltac:(lia)) as Bx;
    remember (bits_val (8 * nb) (fbit 8 (zskip (nb * i) buf))) as x eqn:Hx;
    change (2 ^ (8 * nb)) with ltac:(let v := eval vm_compute in (2 ^ (8 * nb)) in exact v) in Bx;
    apply wp_bind, wp_asgv with (v := x); [reflexivity|lkv|reflexivity|cbn [tmin tmax]; lia|];
    apply wp_bind, wp_asgv with (v := 0); [reflexivity|lkv|reflexivity|cbn [tmin tmax]; lia|];
    apply wp_bind, (sum_ok t w mask x) with (n := 8%nat);
    [ reflexivity | lia | reflexivity | cbn [tmax]; lia
    | intros j z Hj Hz;
      pose proof (land_nonneg_le mask (Z.shiftr x j)) as LM; rewrite (Z.land_comm mask) in LM;
      apply wp_asgv with (v := z + Z.land (Z.shiftr x j) mask);
      [ reflexivity | lkv
      | cbn [val val_bin ty promote common]; unfold cv, uw; cbn [subr signed wrap]; try change (mask mod 2 ^ 32) with mask; rewrite Z.mod_small by lia; reflexivity
      | cbn [tmin tmax]; lia | reflexivity ]
    | lia | ];
    assert (forall k, 0 <= pcn w (Z.shiftr x (w * k)) <= w) as PB by (intros; apply pcn_bound; lia);
    assert (0 <= digs w 8 x <= w * mask) as DB
      by (rewrite <- sum_spread by lia; apply zsum_bound; [lia|]; intros j Hj; rewrite <- land_ones by lia;
          change (ones w 8) with mask; rewrite Z.land_comm;
          pose proof (land_nonneg_le mask (Z.shiftr x j)); lia);
    apply wp_bind, wp_asgv with (v := pcn w (Z.shiftr x (w * 0)));
      [reflexivity|lkv|rewrite <- (digit w 8) by lia; rewrite Z.mul_0_r, Z.shiftr_0_r; reflexivity|specialize (PB 0); cbn [tmin tmax]; lia|];
    apply wp_bind, wp_asgv with (v := pcn w (Z.shiftr x (w * 1)));
      [reflexivity|lkv|rewrite <- (digit w 8) by lia; reflexivity|specialize (PB 1); cbn [tmin tmax]; lia|];
    apply wp_bind, wp_asgv with (v := pcn w (Z.shiftr x (w * 2)));
      [reflexivity|lkv|rewrite <- (digit w 8) by lia; reflexivity|specialize (PB 2); cbn [tmin tmax]; lia|];
    apply wp_bind, wp_asgv with (v := pcn w (Z.shiftr x (w * 3)));
      [reflexivity|lkv|rewrite <- (digit w 8) by lia; reflexivity|specialize (PB 3); cbn [tmin tmax]; lia|];
    apply wp_bind, wp_asgv with (v := pcn w (Z.shiftr x (w * 4)));
      [reflexivity|lkv|rewrite <- (digit w 8) by lia; reflexivity|specialize (PB 4); cbn [tmin tmax]; lia|];
    apply wp_bind, wp_asgv with (v := pcn w (Z.shiftr x (w * 5)));
      [reflexivity|lkv|rewrite <- (digit w 8) by lia; reflexivity|specialize (PB 5); cbn [tmin tmax]; lia|];
    apply wp_bind, wp_asgv with (v := pcn w (Z.shiftr x (w * 6)));
      [reflexivity|lkv|rewrite <- (digit w 8) by lia; reflexivity|specialize (PB 6); cbn [tmin tmax]; lia|];
    apply wp_bind, wp_asgv with (v := pcn w (Z.shiftr x (w * 7)));
      [reflexivity|lkv|rewrite <- (digit_top w 8) by lia; reflexivity|specialize (PB 7); cbn [tmin tmax]; lia|];
    pose proof (PB 0); pose proof (PB 1); pose proof (PB 2); pose proof (PB 3);
    pose proof (PB 4); pose proof (PB 5); pose proof (PB 6); pose proof (PB 7);
    pose proof (fun r Hr => cbd_elem mu w nb i r buf (8 * nb) x eq_refl ltac:(lia) ltac:(lia) ltac:(lia) ltac:(lia) Hr eq_refl Hx) as CE;
    apply wp_sts;
    [ intros e He; cbn [In] in He; repeat destruct He as [<-|He]; try (split; [reflexivity|lkv]); contradiction
    | lia | match goal with |- context [len (?y :: ?l)] => change (len (y :: l)) with 4 end; lia
    | intros r' Lr' Hr'; split; [lia|]; intros k Hk; rewrite Hr' by lia; match goal with |- context [len (?y :: ?l)] => change (len (y :: l)) with 4 end;
      destruct ((4 * i <=? k) && (k <? 4 * i + 4)) eqn:E;
      [ replace (k <? 4 * (i + 1)) with true by lia;
        assert (k = 4 * i + 0 \/ k = 4 * i + 1 \/ k = 4 * i + 2 \/ k = 4 * i + 3) as K by lia;
        destruct K as [-> | [-> | [-> | ->]]];
        [ rewrite <- (CE 0) by lia | rewrite <- (CE 1) by lia | rewrite <- (CE 2) by lia | rewrite <- (CE 3) by lia ];
        rewrite Z.add_simpl_l; (apply (cs t); [first [left; reflexivity|right; reflexivity]|reflexivity])
      | rewrite Hr by lia;
        replace (k <? 4 * (i + 1)) with (k <? 4 * i) by lia; reflexivity ] ]
  | intros r (Lr & Hr); apply HQ, cbd_final; auto ].
Ltac cbd_tac ld mu w nb t mask := cbd_tacm ld cast_sub 65536 mu w nb t mask.

Lemma wp_cbd_6 : forall s buf (Q : list Z -> Prop), len s = 256 -> 192 <= len buf -> typed U8 buf ->
  (forall r, cbd_post 6 s buf r -> Q r) -> wp (cbd_6 s buf) Q.
Proof. cbd_tac wp_load 6 3 3 U32 0x249249. Qed.

Lemma wp_cbd_8 : forall s buf (Q : list Z -> Prop), len s = 256 -> 256 <= len buf -> typed U8 buf ->
  (forall r, cbd_post 8 s buf r -> Q r) -> wp (cbd_8 s buf) Q.
Proof. cbd_tac wp_load 8 4 4 U32 0x11111111. Qed.

Lemma wp_cbd_10 : forall s buf (Q : list Z -> Prop), len s = 256 -> 320 <= len buf -> typed U8 buf ->
  (forall r, cbd_post 10 s buf r -> Q r) -> wp (cbd_10 s buf) Q.
Proof. cbd_tac wp_load 10 5 5 U64 0x0842108421. Qed.

Lemma wp_cbd : forall c s buf (Q : list Z -> Prop), len s = 256 -> 32 * SABER_MU c <= len buf -> typed U8 buf ->
  Q (map (fun x => x mod 65536) (cbd_poly (SABER_MU c) buf)) -> wp (cbd c s buf) Q.
Proof.
  intros c s buf Q Ls Lb Tb HQ.
  assert (forall r, cbd_post (SABER_MU c) s buf r -> Q r) as H.
  { intros r ->. rewrite zskip_all, app_nil_r by lia. unfold cbd_poly in HQ. rewrite map_ztab in HQ. exact HQ. }
  unfold cbd. unfold SABER_MU in *.
  destruct (lvl c); [apply wp_cbd_10|apply wp_cbd_8|apply wp_cbd_6]; auto.
Qed.
