(** The lane-wise permutation of fips202.c is KECCAK-p[1600,24]. *)
From Coq Require Import ZArith List Bool Lia.
From Verif Require Import Lib.Wire Lib.Arr Lib.CInt Lib.CMon Spec.Bits Spec.Keccak Model.Params Model.Fips202 Proof.CbdP.
Import ListNotations.
Local Open Scope Z_scope.

(** ** Bits of 64-bit operations *)

Definition u64 (x : Z) : Prop := 0 <= x < 2 ^ 64.

Lemma u64_lt : forall x, 0 <= x -> (forall z, 64 <= z -> Z.testbit x z = false) -> u64 x.
Proof.
  intros x Hx H. split; auto. destruct (Z.eq_dec x 0) as [->|]; [lia|].
  apply Z.log2_lt_pow2; [lia|]. destruct (Z_lt_dec (Z.log2 x) 64); auto.
  specialize (H (Z.log2 x) ltac:(lia)). rewrite Z.bit_log2 in H by lia. discriminate.
Qed.
Lemma u64_high : forall x z, u64 x -> 64 <= z -> Z.testbit x z = false.
Proof.
  intros x z (H1 & H2) Hz. destruct (Z.eq_dec x 0) as [->|]; [apply Z.bits_0|].
  apply Z.bits_above_log2; auto. assert (Z.log2 x < 64) by (apply Z.log2_lt_pow2; lia). lia.
Qed.
Lemma u64_lxor : forall x y, u64 x -> u64 y -> u64 (Z.lxor x y).
Proof.
  intros x y Hx Hy. apply u64_lt; [apply Z.lxor_nonneg; unfold u64 in *; split; lia|].
  intros. rewrite Z.lxor_spec, !u64_high; auto.
Qed.
Lemma u64_land : forall x y, u64 x -> u64 y -> u64 (Z.land x y).
Proof.
  intros x y Hx Hy. apply u64_lt; [apply Z.land_nonneg; unfold u64 in *; left; lia|].
  intros. rewrite Z.land_spec, !u64_high; auto.
Qed.
Lemma wrap_U64 : forall x, wrap U64 x = x mod 2 ^ 64.
Proof. reflexivity. Qed.
Lemma u64_wrap : forall x, u64 (wrap U64 x).
Proof. intros. rewrite wrap_U64. apply Z.mod_pos_bound. lia. Qed.
Lemma u64_not : forall x, u64 (not64 x).
Proof. intros. apply u64_wrap. Qed.
Lemma u64_ROL : forall x n, u64 x -> 0 < n < 64 -> u64 (ROL x n).
Proof.
  intros x n Hx Hn. unfold ROL. apply u64_lxor; [apply u64_wrap|].
  split; [apply Z.shiftr_nonneg; unfold u64 in *; lia|].
  rewrite Z.shiftr_div_pow2 by lia. apply Z.div_lt_upper_bound; [lia|]. unfold u64 in *.
  assert (0 < 2 ^ (64 - n)) by (apply Z.pow_pos_nonneg; lia). nia.
Qed.
Lemma testbit_not64 : forall x z, 0 <= z < 64 -> Z.testbit (not64 x) z = negb (Z.testbit x z).
Proof. intros. unfold not64. rewrite wrap_U64, Z.mod_pow2_bits_low by lia. apply Z.lnot_spec. lia. Qed.
Lemma testbit_ROL : forall x n z, u64 x -> 0 < n < 64 -> 0 <= z < 64 ->
  Z.testbit (ROL x n) z = Z.testbit x ((z - n) mod 64).
Proof.
  intros x n z Hx Hn Hz. unfold ROL. rewrite Z.lxor_spec, wrap_U64, Z.mod_pow2_bits_low by lia.
  rewrite Z.shiftl_spec, Z.shiftr_spec by lia. destruct (Z_lt_dec z n).
  - rewrite (Z.testbit_neg_r x (z - n)) by lia. 
    replace ((z - n) mod 64) with (z + (64 - n)) by (apply Z.mod_unique with (-1); lia). now rewrite xorb_false_l.
  - rewrite (u64_high x (z + (64 - n))) by (auto; lia). rewrite xorb_false_r.
    now rewrite Z.mod_small by lia.
Qed.

Lemma typed_u64 : forall A i, typed U64 A -> 0 <= i < len A -> u64 (get A i).
Proof. intros A i H Hi. pose proof (typed_get U64 A i H Hi) as R. cbn in R. unfold u64. lia. Qed.
Lemma u64_typed : forall n f, (forall i, 0 <= i < n -> u64 (f i)) -> typed U64 (ztab n f).
Proof. intros. apply Forall_ztab. intros i Hi. specialize (H i Hi). unfold u64 in H. cbn. lia. Qed.
Lemma arr_get_u64 : forall A i, arr U64 25 A -> 0 <= i < 25 -> u64 (get A i).
Proof. intros A i (L & T) Hi. apply typed_u64; auto. lia. Qed.

Lemma mkA_arr : forall f, arr U64 25 (mkA f).
Proof.
  intros. split; [apply len_ztab; lia|]. apply u64_typed. intros. apply bits_val_bound. lia.
Qed.

Lemma mkA_lane : forall f g,
  (forall i, 0 <= i < 25 -> u64 (g i) /\ forall z, 0 <= z < 64 -> Z.testbit (g i) z = f (i mod 5) (i / 5) z) ->
  mkA f = ztab 25 g.
Proof.
  intros f g H. apply ztab_ext. intros i Hi. destruct (H i Hi) as (U & B). symmetry. apply bits_val_eq; auto; lia.
Qed.

(** ** The steps on lanes *)
Definition C_l (A : list Z) (x : Z) : Z :=
  Z.lxor (Z.lxor (Z.lxor (Z.lxor (get A x) (get A (5 + x))) (get A (10 + x))) (get A (15 + x))) (get A (20 + x)).
Definition theta_l (A : list Z) : list Z :=
  ztab 25 (fun i => Z.lxor (get A i) (Z.lxor (C_l A ((i mod 5 - 1) mod 5)) (ROL (C_l A ((i mod 5 + 1) mod 5)) 1))).
Definition rho_l (A : list Z) : list Z :=
  ztab 25 (fun i => let o := rho_off (i mod 5) (i / 5) mod 64 in if o =? 0 then get A i else ROL (get A i) o).
Definition pi_l (A : list Z) : list Z := ztab 25 (fun i => get A (5 * (i mod 5) + (i mod 5 + 3 * (i / 5)) mod 5)).
Definition chi_l (A : list Z) : list Z :=
  ztab 25 (fun i => Z.lxor (get A i) (Z.land (not64 (get A (5 * (i / 5) + (i mod 5 + 1) mod 5)))
                                              (get A (5 * (i / 5) + (i mod 5 + 2) mod 5)))).
Definition iota_l (rc : Z) (A : list Z) : list Z :=
  ztab 25 (fun i => if i =? 0 then Z.lxor (get A i) rc else get A i).

Lemma lane_idx : forall i, 0 <= i < 25 -> i = 5 * (i / 5) + i mod 5 /\ 0 <= i mod 5 < 5 /\ 0 <= i / 5 < 5.
Proof. intros. dlia. Qed.

Lemma C_l_u64 : forall A x, arr U64 25 A -> 0 <= x < 5 -> u64 (C_l A x).
Proof. intros. unfold C_l. repeat apply u64_lxor; apply arr_get_u64; auto; lia. Qed.
Lemma C_l_bit : forall A x z, Z.testbit (C_l A x) z = parity A x z.
Proof. intros. unfold C_l, parity, bitA. rewrite !Z.lxor_spec. reflexivity. Qed.

Lemma theta_lane : forall A, arr U64 25 A -> theta A = theta_l A.
Proof.
  intros A HA. apply mkA_lane. intros i Hi. destruct (lane_idx i Hi) as (E & Hx & Hy).
  assert (forall k, 0 <= k mod 5 < 5) as M5 by (intros; apply Z.mod_pos_bound; lia).
  split.
  - apply u64_lxor; [apply arr_get_u64; auto|]. apply u64_lxor; [apply C_l_u64; auto|]. apply u64_ROL; [apply C_l_u64; auto|lia].
  - intros z Hz. rewrite !Z.lxor_spec, testbit_ROL, !C_l_bit by (auto using C_l_u64; lia).
    unfold bitA. now rewrite <- E.
Qed.

Lemma rho_off_nonneg : forall x y, 0 <= rho_off x y.
Proof.
  intros. unfold rho_off. cut (forall n t a b, 0 <= t -> 0 <= rho_walk n t a b x y); [intros H; apply H; lia|].
  induction n; cbn [rho_walk]; intros; [lia|]. destruct (_ && _); [|apply IHn; lia]. apply Z.div_pos; nia.
Qed.

Lemma rho_lane : forall A, arr U64 25 A -> rho A = rho_l A.
Proof.
  intros A HA. apply mkA_lane. intros i Hi. destruct (lane_idx i Hi) as (E & Hx & Hy). cbn zeta.
  set (r := rho_off (i mod 5) (i / 5)). pose proof (Z.mod_pos_bound r 64 ltac:(lia)) as Hr.
  destruct (r mod 64 =? 0) eqn:Er.
  - split; [apply arr_get_u64; auto|]. intros z Hz. unfold bitA. rewrite <- E. f_equal.
    rewrite <- (Z.mod_small z 64) at 1 by lia. assert (r mod 64 = 0) as R0 by lia.
    rewrite Zminus_mod, R0, Z.sub_0_r. now rewrite Z.mod_mod by lia.
  - split; [apply u64_ROL; [apply arr_get_u64; auto|lia]|]. intros z Hz.
    rewrite testbit_ROL by (auto using arr_get_u64; lia). unfold bitA. rewrite <- E. f_equal.
    now rewrite Zminus_mod_idemp_r.
Qed.

Lemma pi_lane : forall A, arr U64 25 A -> pi_ A = pi_l A.
Proof.
  intros A HA. apply mkA_lane. intros i Hi. destruct (lane_idx i Hi) as (E & Hx & Hy).
  pose proof (Z.mod_pos_bound (i mod 5 + 3 * (i / 5)) 5 ltac:(lia)).
  split; [apply arr_get_u64; auto; lia|]. reflexivity.
Qed.

Lemma chi_lane : forall A, arr U64 25 A -> chi A = chi_l A.
Proof.
  intros A HA. apply mkA_lane. intros i Hi. destruct (lane_idx i Hi) as (E & Hx & Hy).
  pose proof (Z.mod_pos_bound (i mod 5 + 1) 5 ltac:(lia)). pose proof (Z.mod_pos_bound (i mod 5 + 2) 5 ltac:(lia)).
  split.
  - apply u64_lxor; [apply arr_get_u64; auto|]. apply u64_land; [apply u64_not|apply arr_get_u64; auto; lia].
  - intros z Hz. rewrite Z.lxor_spec, Z.land_spec, testbit_not64 by lia. unfold bitA. rewrite <- E. reflexivity.
Qed.

Lemma iota_lane : forall ir rc A, arr U64 25 A -> u64 rc -> (forall z, 0 <= z < 64 -> Z.testbit rc z = RC_bit ir z) ->
  iota ir A = iota_l rc A.
Proof.
  intros ir rc A HA Hrc Hb. apply mkA_lane. intros i Hi. destruct (lane_idx i Hi) as (E & Hx & Hy).
  unfold bitA. rewrite <- E. destruct (i =? 0) eqn:Ei.
  - assert (i = 0) as -> by lia. cbn [andb Z.eqb Z.modulo Z.div]. split; [apply u64_lxor; auto; apply arr_get_u64; auto|].
    intros z Hz. rewrite Z.lxor_spec, Hb by lia. reflexivity.
  - split; [apply arr_get_u64; auto|]. intros z Hz. destruct ((i mod 5 =? 0) && (i / 5 =? 0)) eqn:E2; auto. lia.
Qed.

Lemma Rnd_arr : forall ir A, arr U64 25 (Rnd ir A).
Proof. intros. apply mkA_arr. Qed.
Lemma keccak_rounds_arr : forall n A, arr U64 25 A -> arr U64 25 (keccak_rounds n A).
Proof. intros [|n] A H; cbn [keccak_rounds]; auto. apply Rnd_arr. Qed.
Lemma keccak_f_arr : forall A, arr U64 25 A -> arr U64 25 (keccak_f A).
Proof. intros. now apply keccak_rounds_arr. Qed.

Lemma RC_table : forall ir, 0 <= ir < 24 -> u64 (get KeccakF_RoundConstants ir) /\
  forall z, 0 <= z < 64 -> Z.testbit (get KeccakF_RoundConstants ir) z = RC_bit ir z.
Proof.
  assert (forallb (fun ir => let c := get KeccakF_RoundConstants (Z.of_nat ir) in
    (0 <=? c) && (c <? 2 ^ 64) && forallb (fun z => Bool.eqb (Z.testbit c (Z.of_nat z)) (RC_bit (Z.of_nat ir) (Z.of_nat z))) (seq 0 64))
    (seq 0 24) = true) as H by (vm_compute; reflexivity).
  intros ir Hir. rewrite forallb_forall in H. specialize (H (Z.to_nat ir) ltac:(apply in_seq; lia)). cbn zeta in H.
  rewrite Z2Nat.id in H by lia. apply andb_true_iff in H. destruct H as (H1 & H2). split; [unfold u64; lia|].
  intros z Hz. rewrite forallb_forall in H2. specialize (H2 (Z.to_nat z) ltac:(apply in_seq; lia)).
  rewrite Z2Nat.id in H2 by lia. now apply eqb_prop in H2.
Qed.

(** ** The code *)
Definition lanes_list (L : lanes) : list Z :=
  let '(Lanes ba be bi bo bu ga ge gi go gu ka ke ki ko ku ma me mi mo mu sa se si so su) := L in
  [ba; be; bi; bo; bu; ga; ge; gi; go; gu; ka; ke; ki; ko; ku; ma; me; mi; mo; mu; sa; se; si; so; su].

Lemma half_round_lanes : forall rc L,
  lanes_list (half_round rc L) = iota_l rc (chi_l (pi_l (rho_l (theta_l (lanes_list L))))).
Proof.
  intros rc [ba be bi bo bu ga ge gi go gu ka ke ki ko ku ma me mi mo mu sa se si so su].
  cbv -[Z.lxor Z.land not64 ROL]. reflexivity.
Qed.

Lemma half_round_ok : forall ir L, 0 <= ir < 24 -> arr U64 25 (lanes_list L) ->
  lanes_list (half_round (get KeccakF_RoundConstants ir) L) = Rnd ir (lanes_list L).
Proof.
  intros ir L Hir HL. destruct (RC_table ir Hir) as (U & B). rewrite half_round_lanes. unfold Rnd.
  rewrite (iota_lane ir (get KeccakF_RoundConstants ir)) by (auto; apply mkA_arr).
  rewrite chi_lane, pi_lane, rho_lane, theta_lane by (auto; apply mkA_arr).
  reflexivity.
Qed.

Lemma list25 : forall s : list Z, len s = 25 -> exists L, s = lanes_list L.
Proof.
  intros s H. unfold len in H.
  do 25 (destruct s as [|? s]; [cbn in H; lia|]). destruct s; [|cbn [length] in H; lia].
  eexists (Lanes _ _ _ _ _ _ _ _ _ _ _ _ _ _ _ _ _ _ _ _ _ _ _ _ _). reflexivity.
Qed.

Lemma wp_permute : forall s (Q : list Z -> Prop), arr U64 25 s -> Q (keccak_f s) -> wp (KeccakF1600_StatePermute s) Q.
Proof.
  intros s Q Hs HQ. unfold KeccakF1600_StatePermute. destruct (list25 s (proj1 Hs)) as (L & ->).
  do 25 (apply wp_bind, wp_rd; [rewrite (proj1 Hs); lia|]).
  match goal with |- context [Lanes ?a ?b ?c ?d ?e ?f ?g ?h ?i ?j ?k ?l ?m ?n ?o ?p ?q ?r ?t ?u ?v ?w ?x ?y ?z] =>
    replace (Lanes a b c d e f g h i j k l m n o p q r t u v w x y z) with L by (destruct L; reflexivity) end.
  apply wp_bind.
  apply wp_for with (I := fun k A => lanes_list A = keccak_rounds (Z.to_nat (2 * k)) (lanes_list L)).
  - lia.
  - reflexivity.
  - intros k A Hk HA.
    assert (arr U64 25 (lanes_list A)) as TA by (rewrite HA; now apply keccak_rounds_arr).
    change (len KeccakF_RoundConstants) with 24.
    apply wp_bind, wp_rd; [change (len KeccakF_RoundConstants) with 24; lia|].
    pose proof (half_round_ok (2 * k) A ltac:(lia) TA) as E1. cbn zeta.
    set (B := half_round (get KeccakF_RoundConstants (2 * k)) A) in *.
    assert (arr U64 25 (lanes_list B)) as TB by (rewrite E1; apply Rnd_arr).
    apply wp_bind, wp_rd; [change (len KeccakF_RoundConstants) with 24; lia|].
    apply wp_ret. rewrite (half_round_ok (2 * k + 1) B) by (auto; lia). rewrite E1, HA.
    replace (Z.to_nat (2 * (k + 1))) with (S (S (Z.to_nat (2 * k)))) by lia. cbn [keccak_rounds].
    do 2 f_equal; lia.
  - intros A HA. change (Z.to_nat (2 * 12)) with 24%nat in HA. fold (keccak_f (lanes_list L)) in HA.
    rewrite <- HA in HQ. clear HA. destruct L, A.
    do 25 (apply wp_bind, wp_wr; [rewrite ?len_upd; rewrite (proj1 Hs); lia|]).
    apply wp_ret. exact HQ.
Qed.

(** ** Loading and storing lanes *)

Lemma wp_load64 : forall x (Q : cexp -> Prop), 8 <= len x -> typed U8 x ->
  Q (Var U64 (bits_val 64 (fbit 8 x))) -> wp (load64 x) Q.
Proof.
  intros x Q Hl T HQ. unfold load64.
  assert (forall i, 0 <= get x i <= 255) as G.
  { intros i. destruct (Z_lt_dec i 0); [unfold get; rewrite znth_default; lia|].
    destruct (Z_lt_dec i (len x)); [|unfold get; rewrite znth_default; lia]. pose proof (typed_get U8 x i T). cbn in *. lia. }
  assert (forall i k, 0 <= k < 8 * (i + 1) -> 8 * i <= k -> fbit 8 x k = Z.testbit (get x i) (k - 8 * i)) as F.
  { intros i k Hk Hk'. replace k with (8 * i + (k - 8 * i)) at 1 by lia. apply fbit_at; lia. }
  assert (forall i, 0 <= i -> 0 <= bits_val (8 * i) (fbit 8 x) < 2 ^ (8 * i)) as B by (intros; apply bits_val_bound; lia).
  apply wp_bind, wp_asg; [reflexivity|cbn; lia|].
  apply wp_for with (I := fun i r => r = Var U64 (bits_val (8 * i) (fbit 8 x))).
  - lia.
  - reflexivity.
  - intros i r Hi ->. assert (2 ^ (8 * i) <= 2 ^ 56) by (apply Z.pow_le_mono_r; lia).
    assert (2 ^ (8 * (i + 1)) <= 2 ^ 64) by (apply Z.pow_le_mono_r; lia).
    assert (2 ^ (8 * (i + 1)) = 2 ^ (8 * i) * 256) as P by (replace (8 * (i + 1)) with (8 * i + 8) by lia; rewrite Z.pow_add_r by lia; reflexivity).
    assert (0 < 2 ^ (8 * i)) by (apply Z.pow_pos_nonneg; lia).
    pose proof (B i). pose proof (B (i + 1)). pose proof (G i).
    apply wp_asgv with (v := bits_val (8 * (i + 1)) (fbit 8 x)); [reflexivity| | |cbn [tmin tmax]; lia|auto].
    + cbn [lok tmin tmax]. repeat split; auto; lia.
    + cbn [val val_bin ty promote common]. unfold cv, uw. cbn [subr signed wrap]. change (8 mod 18446744073709551616) with 8.
      rewrite (Z.mod_small (8 * i)) by lia.
      rewrite (Z.mod_small (_ * 2 ^ _)) by nia.
      apply Z.bits_inj'. intros k Hk. rewrite Z.lor_spec, !bits_val_testbit, Z.mul_pow2_bits by lia.
      destruct (k <? 8 * i) eqn:E1.
      * rewrite (Z.testbit_neg_r (get x i)) by lia. replace (k <? 8 * (i + 1)) with true by lia. apply orb_false_r.
      * cbn [andb orb]. destruct (k <? 8 * (i + 1)) eqn:E2; cbn [andb]; [rewrite (F i) by lia; auto|].
        apply testbit_high with 8; lia.
  - intros r ->. auto.
Qed.

Lemma wp_store64 : forall x u (Q : list Z -> Prop), 8 <= len x -> u64 u ->
  Q (ztab 8 (fun i => bits_val 8 (fun m => Z.testbit u (8 * i + m))) ++ zskip 8 x) -> wp (store64 x (Var U64 u)) Q.
Proof.
  intros x u Q Lx Hu HQ. unfold store64. apply wp_bind.
  apply wp_for with (I := fun i '(x', u') => u' = Var U64 (Z.shiftr u (8 * i)) /\
    x' = ztab i (fun i => bits_val 8 (fun m => Z.testbit u (8 * i + m))) ++ zskip i x).
  - lia.
  - rewrite zskip_0. split; auto.
  - intros i (x', u') Hi (-> & ->). unfold u64 in Hu.
    set (v := Z.shiftr u (8 * i)).
    assert (0 <= v < 2 ^ 64) as Hv.
    { unfold v. split; [apply Z.shiftr_nonneg; lia|]. rewrite Z.shiftr_div_pow2 by lia.
      assert (0 < 2 ^ (8 * i)) by (apply Z.pow_pos_nonneg; lia). apply Z.div_lt_upper_bound; nia. }
    assert (len (ztab i (fun i => bits_val 8 (fun m => Z.testbit u (8 * i + m)))) = i) as Lz by (apply len_ztab; lia).
    assert (0 < len (zskip i x)) as Lk by (rewrite len_zskip; lia).
    apply wp_bind, wp_st; [reflexivity|cbn [lok tmin tmax]; lia|rewrite len_app; lia|].
    apply wp_bind, wp_asg; [reflexivity|cbn [lok tmin tmax]; lia|]. apply wp_ret. split.
    + f_equal. cbn [val val_bin ty promote common]. unfold cv, uw. cbn [subr signed wrap].
      unfold v. rewrite Z.shiftr_shiftr by lia.
      replace (8 * i + 8) with (8 * (i + 1)) by lia. apply Z.mod_small.
      split; [apply Z.shiftr_nonneg; lia|]. rewrite Z.shiftr_div_pow2 by lia.
      assert (0 < 2 ^ (8 * (i + 1))) by (apply Z.pow_pos_nonneg; lia). apply Z.div_lt_upper_bound; nia.
    + replace (upd (ztab i (fun i => bits_val 8 (fun m => Z.testbit u (8 * i + m))) ++ zskip i x) i (wrap U8 (val (Var U64 v))))
        with (upd (ztab i (fun i => bits_val 8 (fun m => Z.testbit u (8 * i + m))) ++ zskip i x) (len (ztab i (fun i => bits_val 8 (fun m => Z.testbit u (8 * i + m))))) (wrap U8 (val (Var U64 v)))) by now rewrite Lz.
      rewrite upd_app_skip by auto. rewrite zskip_zskip by lia. rewrite ztab_split by lia.
      change (ztab 1 ?f) with [f 0]. cbn beta. rewrite Z.add_0_r, <- app_assoc. do 3 f_equal.
      cbn [val]. change (wrap U8 v) with (v mod 2 ^ 8).
      apply bits_val_eq; [lia|apply Z.mod_pos_bound; lia|]. intros k Hk. rewrite Z.mod_pow2_bits_low by lia.
      unfold v. rewrite Z.shiftr_spec by lia. f_equal. lia.
  - intros (x', u') (-> & ->). now apply wp_ret.
Qed.
