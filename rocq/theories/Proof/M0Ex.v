(** Concrete inputs for the theorems about the Cortex-M0 key encapsulation. *)
From Coq Require Import ZArith List Bool Lia.
From Verif Require Import Lib.Arr Lib.CInt Lib.CMon Spec.Bits Spec.Ring Spec.Sampling Spec.Keccak Spec.Sym Spec.Saber Spec.M0Spec Model.Params Model.Fips202 Model.Api Model.M0
  Model.M0Kem Proof.CbdP Proof.Dist Proof.SpongeP Proof.SymP Proof.PolyP Proof.IndcpaP Proof.KemP Proof.KemThm Proof.KeccakF Proof.Fast Proof.M0KaraP Proof.M0GenP Proof.M0KemThm Proof.M0ApiP.
Import ListNotations.
Local Open Scope Z_scope.

(** Everything drawn is zero. *)
Definition zsrc (u : unit) (n : Z) : list Z * unit := (zeros n, u).
Lemma zsrc_ok : source_ok zsrc.
Proof.
  intros u n Hn. split; cbn [zsrc fst]; [now apply len_zeros|]. unfold typed, zeros. apply Forall_forall.
  intros x Hx. apply repeat_spec in Hx. subst x. change (0 <= 0 <= 255). lia.
Qed.

(** The first polynomial of the public key is the constant 60, the others are 0. *)
Definition pk60 : list Z := 60 :: zeros 991.
Definition b60 : list (list Z) := [60 :: zeros 255; zeros 256; zeros 256].
Lemma pk60_ok : pk_bytes m0_cfg pk60.
Proof. apply arrb_ok. vm_compute. reflexivity. Qed.
Lemma pk60_b : unpack_vec 10 3 pk60 = b60.
Proof. rewrite unpack_vec_fast by lia. vm_compute. reflexivity. Qed.

Lemma mul_zero : forall b k, mul_coef (zeros 256) b k = 0.
Proof.
  intros. unfold mul_coef. rewrite (zsum_extend 0 256); [reflexivity|lia|]. intros i Hi. rewrite (get_zeros 256 i). destruct (i <=? k); ring.
Qed.
Lemma mul_const : forall b k, 0 <= k < 256 -> mul_coef (60 :: zeros 255) b k = 60 * get b k.
Proof.
  intros b k Hk. unfold mul_coef. rewrite (zsum_extend 1 256); [|lia|].
  - change (zsum 1) with (zsum (0 + 1)). rewrite zsum_S by lia. rewrite zsum_0. replace (0 <=? k) with true by lia. rewrite Z.sub_0_r.
    change (get (60 :: zeros 255) 0) with 60. ring.
  - intros i Hi. assert (get (60 :: zeros 255) i = 0) as ->.
    { change (60 :: zeros 255) with ([60] ++ zeros 255). rewrite get_app by lia. change (len [60]) with 1. replace (i <? 1) with false by lia.
      apply get_zeros. }
    destruct (i <=? k); ring.
Qed.
Lemma v60 : forall r k, 0 <= k < 256 -> get (enc_v pk60 r) k = 60 * get (getr (expand_s SHAKE128 saber r) 0) k.
Proof.
  intros r k Hk. unfold enc_v. rewrite pk60_b. change 3%nat with (Z.to_nat (0 + 1 + 1 + 1)). rewrite !get_inner_S by lia. rewrite get_inner_0.
  change (getr b60 0) with (60 :: zeros 255). change (getr b60 (0 + 1)) with (zeros 256). change (getr b60 (0 + 1 + 1)) with (zeros 256).
  rewrite !mul_zero, mul_const by auto. ring.
Qed.

Lemma s60 : get (getr (expand_s SHAKE128 saber (enc_seed pk60 (zeros 32))) 0) 2 = 1.
Proof.
  unfold enc_seed. rewrite sha3_512_fast, !sha3_256_fast. change saber with (par m0_cfg). rewrite (expand_s_fast SHAKE128 SHAKE128_f shake128_fast).
  vm_cast_no_check (eq_refl 1).
Qed.

Lemma C59_refuted_lemma : exists (st : unit) (pk : list Z), pk_bytes m0_cfg pk /\ forall junkm junk junk' g c k, arr U8 280 (g_buf g) -> len (g_s g) = 25 -> ct_buf m0_cfg c -> ss_buf k ->
    run (m0_kem_enc (pol_mul_wrap junkm) zsrc junk g st c k pk) <> run (enc zsrc junk' m0_cfg st c k pk).
Proof.
  exists tt, pk60. split; [apply pk60_ok|]. intros junkm junk junk' g c k Hb Hs Lc Lk E.
  apply (C59_same_lemma zsrc zsrc_ok) with (i := 2) in E; auto using pk60_ok; [|lia].
  change (draw1 zsrc tt) with (zeros 32) in E. rewrite v60, s60 in E by lia. vm_compute in E. discriminate.
Qed.

(** A secret key for it: the secret vector is 0. *)
Definition sk60 : list Z := zeros 1248 ++ pk60 ++ SHA3_256 pk60 ++ zeros 32.
Lemma len_pk60 : len pk60 = 992. Proof. apply pk60_ok. Qed.
Lemma sk60_ok : sk_bytes m0_cfg sk60 /\ sk_pk saber sk60 = pk60 /\ sk_hash saber sk60 = SHA3_256 pk60 /\ sk_pke saber sk60 = zeros 1248.
Proof.
  destruct (SHA3_256_arr pk60) as (LH & TH). pose proof len_pk60 as Lp. pose proof (proj2 pk60_ok) as Tp.
  assert (forall n, 0 <= n -> arr U8 n (zeros n)) as Z0 by (intros; apply (zsrc_ok tt); auto).
  destruct (Z0 1248 ltac:(lia)) as (L1 & T1). destruct (Z0 32 ltac:(lia)) as (L2 & T2).
  split; [split; [unfold sk60; rewrite !len_app, L1, Lp, LH, L2; reflexivity|unfold sk60; repeat apply typed_app; auto]|].
  unfold sk_pk, sk_hash, sk_pke. cbn [saber p_l p_eq]. change (3 * (32 * 13)) with 1248. change (3 * 320 + 32) with 992. unfold sk60.
  split; [rewrite (zskip_app_at 1248), (zfirst_app_at 992) by auto; reflexivity|]. split.
  - rewrite <- (zskip_zskip 992 1248) by lia. rewrite (zskip_app_at 1248), (zskip_app_at 992), (zfirst_app_at 32) by auto. reflexivity.
  - rewrite (zfirst_app_at 1248) by auto. reflexivity.
Qed.

Lemma zero_mul : forall a k, mul_coef a (zeros 256) k = 0.
Proof.
  intros. unfold mul_coef. rewrite (zsum_extend 0 256); [reflexivity|lia|]. intros i Hi. rewrite !(get_zeros 256). destruct (i <=? k); ring.
Qed.

Lemma s_range : forall seed k, 0 <= k < 256 -> -4 <= get (getr (expand_s SHAKE128 saber seed) 0) k <= 4.
Proof.
  intros seed k Hk. unfold expand_s. cbn [saber p_uniform p_l p_mu]. unfold gen_vec. unfold getr. rewrite znth_ztab by lia. unfold cbd_poly. rewrite get_ztab by auto.
  match goal with |- context [cbd_coef 8 ?b k] => pose proof (cbd_coef_range 8 b k ltac:(lia)) as R end. change (8 / 2) with 4 in R. lia.
Qed.

Lemma dec60 : forall r, dec_m saber sk60 (fst (m0_enc pk60 r)) = SHA3_256 r.
Proof.
  intros r. unfold dec_m. rewrite (proj2 (proj2 (proj2 sk60_ok))). unfold m0_enc. cbv zeta. cbn [fst]. fold (enc_seed pk60 r).
  destruct (SHA3_256_arr r) as (Lm & Tm). set (m := SHA3_256 r) in *. set (seed := enc_seed pk60 r).
  unfold m0_pke_enc, pke_dec. cbv zeta. cbn [saber p_eq p_l p_et]. change (3 * 320) with 960. set (PV := pack_vec 10 _).
  assert (len PV = 960) as Lp.
  { unfold PV. rewrite Bits.len_pack_vec by lia. unfold ct_vec, round_vec. rewrite len_map. cbn [saber p_l]. rewrite len_mat_vec by lia. reflexivity. }
  rewrite (zskip_app_at 960 PV) by auto. set (v := enc_v pk60 seed).
  assert (unpack 4 (pack 4 (m0_ct_msg v (unpack 1 m))) = m0_ct_msg v (unpack 1 m)) as ->.
  { rewrite unpack_pack by (try apply len_ztab; lia). rewrite <- (map_id (m0_ct_msg _ _)) at 2. apply map_ext_in. intros x Hx.
    change (2 ^ 4) with 16. apply Z.mod_small. unfold m0_ct_msg, ztab in Hx. apply in_map_iff in Hx. destruct Hx as (j & <- & _). dlia. }
  transitivity (pack 1 (unpack 1 m)); [|apply pack_unpack; [lia|auto|]].
  2:{ apply Forall_forall. intros x Hx. unfold typed in Tm. rewrite Forall_forall in Tm. specialize (Tm x Hx). cbn [tmin tmax] in Tm. lia. }
  apply (f_equal (pack 1)). apply znth_ext with 0.
  { unfold dec_msg. rewrite len_ztab by lia. symmetry. apply len_regroup. lia. }
  unfold dec_msg at 1. rewrite len_ztab by lia. intros k Hk. fold (get (dec_msg saber (unpack_vec 10 3 (PV ++ pack 4 (m0_ct_msg v (unpack 1 m)))) (unpack_vec 13 3 (zeros 1248)) (m0_ct_msg v (unpack 1 m))) k).
  fold (get (unpack 1 m) k). unfold dec_msg. rewrite get_ztab by auto. cbn [saber p_l p_et]. change (2 ^ (10 - 4)) with 64. change (2 ^ 10) with 1024. change (2 ^ 9) with 512.
  change (rc2 saber) with 228.
  assert (unpack_vec 13 3 (zeros 1248) = [zeros 256; zeros 256; zeros 256]) as -> by (rewrite unpack_vec_fast by lia; vm_compute; reflexivity).
  set (B := unpack_vec 10 3 _).
  assert (get (inner (Z.to_nat 3) B [zeros 256; zeros 256; zeros 256]) k = 0) as ->.
  { change 3 with (0 + 1 + 1 + 1). rewrite !get_inner_S by lia. rewrite get_inner_0.
    change (getr [zeros 256; zeros 256; zeros 256] 0) with (zeros 256). change (getr [zeros 256; zeros 256; zeros 256] (0 + 1)) with (zeros 256).
    change (getr [zeros 256; zeros 256; zeros 256] (0 + 1 + 1)) with (zeros 256). now rewrite !zero_mul. }
  unfold m0_ct_msg. rewrite get_ztab by auto. unfold v. rewrite v60 by auto.
  assert (-4 <= get (getr (expand_s SHAKE128 saber seed) 0) k <= 4) as R.
  { apply s_range. auto. }
  assert (0 <= get (unpack 1 m) k <= 1) as Rm.
  { unfold unpack. rewrite get_regroup by lia. pose proof (bits_val_bound 1 (fun x => fbit 8 m (1 * k + x)) ltac:(lia)). lia. }
  revert R Rm. generalize (get (getr (expand_s SHAKE128 saber seed) 0) k) (get (unpack 1 m) k). clear. intros x y Hx Hy.
  assert (x = -4 \/ x = -3 \/ x = -2 \/ x = -1 \/ x = 0 \/ x = 1 \/ x = 2 \/ x = 3 \/ x = 4) as C by lia. assert (y = 0 \/ y = 1) as D by lia.
  destruct D as [->| ->]; repeat (destruct C as [->|C]; [reflexivity|]); subst x; reflexivity.
Qed.

Lemma C59_case_lemma : sk_bytes m0_cfg sk60 /\ pk_bytes m0_cfg pk60 /\ sk_pk saber sk60 = pk60 /\ sk_hash saber sk60 = SHA3_256 pk60 /\
  (forall r, dec_m saber sk60 (fst (m0_enc pk60 r)) = SHA3_256 r) /\
  get (enc_v pk60 (enc_seed pk60 (zeros 32))) 2 = 60.
Proof.
  destruct sk60_ok as (H1 & H2 & H3 & _). split; [exact H1|]. split; [exact pk60_ok|]. split; [exact H2|]. split; [exact H3|]. split; [exact dec60|].
  rewrite v60, s60 by lia. reflexivity.
Qed.
