(** Concrete inputs for the theorems about decapsulation of the Cortex-M0 code. *)
From Coq Require Import ZArith List Bool Lia.
From Verif Require Import Lib.Arr Lib.CInt Lib.CMon Spec.Bits Spec.Ring Spec.Sampling Spec.Keccak Spec.Sym Spec.Saber Spec.M0Spec Spec.M0DecSpec Model.Params
  Model.Fips202 Model.Api Model.M0 Model.M0Kem Model.M0Dec Proof.SpongeP Proof.PolyP Proof.IndcpaP Proof.KemP Proof.SymP
  Proof.KemThm Proof.KeccakF Proof.Fast Proof.M0KaraP Proof.M0GenP Proof.M0KemThm Proof.M0ApiP Proof.M0Ex Proof.M0DecP Proof.M0DecThm.
Import ListNotations.
Local Open Scope Z_scope.

(** The first polynomial of the public key is the constant 50, the others are 0; the secret vector is 0. *)
Definition pk50 : list Z := 50 :: zeros 991.
Definition b50 : list (list Z) := [50 :: zeros 255; zeros 256; zeros 256].
Lemma pk50_ok : pk_bytes m0_cfg pk50.
Proof. apply arrb_ok. vm_compute. reflexivity. Qed.
Lemma pk50_b : unpack_vec 10 3 pk50 = b50.
Proof. rewrite unpack_vec_fast by lia. vm_compute. reflexivity. Qed.
Lemma mul_const50 : forall b k, 0 <= k < 256 -> mul_coef (50 :: zeros 255) b k = 50 * get b k.
Proof.
  intros b k Hk. unfold mul_coef. rewrite (zsum_extend 1 256); [|lia|].
  - change (zsum 1) with (zsum (0 + 1)). rewrite zsum_S by lia. rewrite zsum_0. replace (0 <=? k) with true by lia. rewrite Z.sub_0_r.
    change (get (50 :: zeros 255) 0) with 50. ring.
  - intros i Hi. assert (get (50 :: zeros 255) i = 0) as ->.
    { change (50 :: zeros 255) with ([50] ++ zeros 255). rewrite get_app by lia. change (len [50]) with 1. replace (i <? 1) with false by lia.
      apply get_zeros. }
    destruct (i <=? k); ring.
Qed.
Lemma v50 : forall r k, 0 <= k < 256 -> get (enc_v pk50 r) k = 50 * get (getr (expand_s SHAKE128 saber r) 0) k.
Proof.
  intros r k Hk. unfold enc_v. rewrite pk50_b. change 3%nat with (Z.to_nat (0 + 1 + 1 + 1)). rewrite !get_inner_S by lia. rewrite get_inner_0.
  change (getr b50 0) with (50 :: zeros 255). change (getr b50 (0 + 1)) with (zeros 256). change (getr b50 (0 + 1 + 1)) with (zeros 256).
  rewrite !mul_zero, mul_const50 by auto. ring.
Qed.

Definition sk50 : list Z := zeros 1248 ++ pk50 ++ SHA3_256 pk50 ++ zeros 32.
Lemma sk50_ok : sk_bytes m0_cfg sk50 /\ sk_pk saber sk50 = pk50 /\ sk_hash saber sk50 = SHA3_256 pk50 /\ zfirst 1248 sk50 = zeros 1248.
Proof.
  destruct (SHA3_256_arr pk50) as (LH & TH). pose proof (proj1 pk50_ok) as Lp. change (len pk50 = 992) in Lp. pose proof (proj2 pk50_ok) as Tp.
  assert (forall n, 0 <= n -> arr U8 n (zeros n)) as Z0 by (intros; apply (zsrc_ok tt); auto).
  destruct (Z0 1248 ltac:(lia)) as (L1 & T1). destruct (Z0 32 ltac:(lia)) as (L2 & T2).
  split; [split; [unfold sk50; rewrite !len_app, L1, Lp, LH, L2; reflexivity|unfold sk50; repeat apply typed_app; auto]|].
  unfold sk_pk, sk_hash. cbn [saber p_l p_eq]. change (3 * (32 * 13)) with 1248. change (3 * 320 + 32) with 992. unfold sk50.
  split; [rewrite (zskip_app_at 1248), (zfirst_app_at 992) by auto; reflexivity|]. split.
  - rewrite <- (zskip_zskip 992 1248) by lia. rewrite (zskip_app_at 1248), (zskip_app_at 992), (zfirst_app_at 32) by auto. reflexivity.
  - rewrite (zfirst_app_at 1248) by auto. reflexivity.
Qed.

Lemma dec_v50 : forall c k, 0 <= k < 256 -> get (dec_v sk50 c) k = 0.
Proof.
  intros c k Hk. unfold dec_v. assert (unpack_vec 13 3 sk50 = [zeros 256; zeros 256; zeros 256]) as ->.
  { destruct sk50_ok as ((L & _) & _ & _ & E). change (len sk50 = 2304) in L.
    rewrite <- (X4IndP.unpack_vec_first 13 3 sk50 1248) by lia. rewrite E. rewrite unpack_vec_fast by lia. vm_compute. reflexivity. }
  change 3%nat with (Z.to_nat (0 + 1 + 1 + 1)). rewrite !get_inner_S by lia. rewrite get_inner_0.
  change (getr [zeros 256; zeros 256; zeros 256] 0) with (zeros 256). change (getr [zeros 256; zeros 256; zeros 256] (0 + 1)) with (zeros 256).
  change (getr [zeros 256; zeros 256; zeros 256] (0 + 1 + 1)) with (zeros 256). now rewrite !zero_mul.
Qed.

Lemma noise50 : forall c r i, 0 <= i < 256 -> exists e, -224 <= e <= 224 /\ (get (dec_v sk50 c) i - get (enc_v pk50 r) i - e) mod 1024 = 0.
Proof.
  intros c r i Hi. rewrite dec_v50, v50 by auto. pose proof (s_range r i Hi) as R.
  exists (- (50 * get (getr (expand_s SHAKE128 saber r) 0) i)). revert R. generalize (get (getr (expand_s SHAKE128 saber r) 0) i). intros x R.
  split; [lia|]. replace (0 - 50 * x - - (50 * x)) with 0 by ring. reflexivity.
Qed.

Lemma msg50 : forall m r, arr U8 32 m -> m0_msg sk50 (m0_pke_enc pk50 m r) = m.
Proof. intros m r Hm. apply m0_dec_ok; auto. intros i Hi. now apply noise50. Qed.

Lemma bits16_arr : forall m, arr U8 32 (bits16 (unpack 1 m)).
Proof.
  intros. split; [apply len_ztab; lia|]. apply Forall_ztab. intros k Hk. cbn [tmin tmax]. destruct (Z.even k); [|lia].
  rewrite get_bit1 by dlia. destruct (Z.testbit _ _); cbn; lia.
Qed.

Lemma hash0 : SHA3_256 (zeros 32) <> zeros 32 /\ SHA3_256 (zeros 32) <> one32.
Proof.
  assert ((nth 1 (SHA3_256 (zeros 32)) 0 =? 0) = false) as H by (rewrite sha3_256_fast; vm_cast_no_check (eq_refl false)).
  revert H. generalize (SHA3_256 (zeros 32)). intros l H. split; intros ->; discriminate H.
Qed.

Lemma C61_case_lemma : sk_bytes m0_cfg sk50 /\ sk_pk saber sk50 = pk50 /\ m0_msg sk50 (fst (m0_enc pk50 (zeros 32))) = SHA3_256 (zeros 32) /\
  (let m := bits16 (unpack 1 (SHA3_256 (zeros 32))) in m0_msg sk50 (m0_pke_enc pk50 m (zskip 32 (SHA3_512 (m ++ sk_hash saber sk50)))) = m) /\
  SHA3_256 (zeros 32) <> zeros 32 /\ SHA3_256 (zeros 32) <> one32.
Proof.
  split; [apply sk50_ok|]. split; [apply sk50_ok|]. split; [rewrite m0_enc_fst; apply msg50, SHA3_256_arr|].
  split; [|apply hash0]. cbv zeta. apply msg50, bits16_arr.
Qed.

Lemma C61_refuted_lemma : exists pk sk r, pk_bytes m0_cfg pk /\ sk_bytes m0_cfg sk /\ sk_pk saber sk = pk /\ sk_hash saber sk = SHA3_256 pk /\
  m0_msg sk (fst (m0_enc pk r)) = SHA3_256 r /\
  forall mul junk g k, run (m0_kem_dec mul junk g k (fst (m0_enc pk r)) sk) = None.
Proof.
  exists pk50, sk50, (zeros 32). split; [apply pk50_ok|]. split; [apply sk50_ok|]. split; [apply sk50_ok|]. split; [apply sk50_ok|].
  split; [rewrite m0_enc_fst; apply msg50, SHA3_256_arr|]. intros. apply C61_always_lemma.
Qed.

Lemma C62_case_lemma : sk_bytes m0_cfg sk50 /\ sk_pk saber sk50 = pk50 /\ sk_hash saber sk50 = SHA3_256 pk50 /\
  (forall r i, 0 <= i < 256 -> exists e, -224 <= e <= 224 /\
     (get (dec_v sk50 (fst (m0_enc pk50 r))) i - get (enc_v pk50 (enc_seed pk50 r)) i - e) mod 1024 = 0) /\
  (forall s i, 0 <= i < 256 -> get (enc_v pk50 s) i = 50 * get (getr (expand_s SHAKE128 saber s) 0) i).
Proof.
  split; [apply sk50_ok|]. split; [apply sk50_ok|]. split; [apply sk50_ok|]. split; [intros; now apply noise50|exact v50].
Qed.
