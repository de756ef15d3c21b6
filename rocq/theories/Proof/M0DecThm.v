(** Decapsulation of the Cortex-M0 code: messages that survive, and decapsulation of its own ciphertexts. *)
From Coq Require Import ZArith List Bool Lia.
From Verif Require Import Lib.Arr Lib.CInt Lib.CMon Spec.Bits Spec.Ring Spec.Sampling Spec.Keccak Spec.Sym Spec.Saber Spec.M0Spec Spec.M0DecSpec Model.Params
  Model.Fips202 Model.Api Model.M0 Model.M0Kem Model.M0Dec Proof.PackP Proof.PackThm Proof.Conv Proof.CbdP Proof.Dist Proof.PolyP Proof.SpongeP Proof.IndcpaP Proof.KemP Proof.SymP
  Proof.KemThm Proof.KeccakF Proof.Fast Proof.M0KaraP Proof.M0MulP Proof.M0GenP Proof.M0KemThm Proof.M0ApiP Proof.M0Ex Proof.M0DecP.
Import ListNotations.
Local Open Scope Z_scope.

Lemma C61_buffer_lemma : forall n junkm junk g k c sk, 512 <= n -> arr U8 280 (g_buf g) -> len (g_s g) = 25 -> ss_buf k -> ct_bytes m0_cfg c -> sk_bytes m0_cfg sk ->
  run (m0_kem_dec_n (pol_mul_wrap junkm) n junk g k c sk) = Some (m0_dec_key (bits16 (m0_dec_bits sk c)) sk c, 0).
Proof.
  intros n junkm junk g k c sk Hn Hb Hs Hk Hc Hsk. apply wp_run_eq. now apply (wp_m0_kem_dec_n (pol_mul_wrap junkm) (wp_wrap junkm)).
Qed.

Lemma C62_exact_lemma : forall junkm junk g k c sk, arr U8 280 (g_buf g) -> len (g_s g) = 25 -> ss_buf k -> ct_bytes m0_cfg c -> sk_bytes m0_cfg sk ->
  run (m0_kem_dec_packed (pol_mul_wrap junkm) junk g k c sk) = Some (m0_dec_key (m0_msg sk c) sk c, 0).
Proof.
  intros junkm junk g k c sk Hb Hs Hk Hc Hsk. apply wp_run_eq. now apply (wp_m0_kem_dec_packed (pol_mul_wrap junkm) (wp_wrap junkm)).
Qed.

(** ** The multiplier as written *)

Section Ref.
  Variable m1 m2 : list Z -> list Z -> list Z -> M (list Z).
  Hypothesis Hm : forall a b r, ref (m1 a b r) (m2 a b r).
  Lemma ref_dec_rest : forall junk g k c sk pk buf, ref (m0_dec_rest m1 junk g k c sk pk buf) (m0_dec_rest m2 junk g k c sk pk buf).
  Proof. intros. unfold m0_dec_rest. repeat reft (ref_indcpa_enc m1 m2 Hm). Qed.
  Lemma ref_dec_packed : forall junk g k c sk, ref (m0_kem_dec_packed m1 junk g k c sk) (m0_kem_dec_packed m2 junk g k c sk).
  Proof.
    intros. unfold m0_kem_dec_packed. apply ref_bind; [apply ref_refl|]. intros pk. apply ref_bind; [|intros; apply ref_dec_rest].
    unfold indcpa_kem_dec_packed. repeat reft (ref_VM m1 m2 Hm).
  Qed.
  Lemma ref_dec_n : forall n junk g k c sk, ref (m0_kem_dec_n m1 n junk g k c sk) (m0_kem_dec_n m2 n junk g k c sk).
  Proof.
    intros. unfold m0_kem_dec_n. apply ref_bind; [apply ref_refl|]. intros pk. apply ref_bind; [|intros; apply ref_dec_rest].
    unfold indcpa_kem_dec. repeat reft (ref_VM m1 m2 Hm).
  Qed.
End Ref.

Lemma C61_as_written_lemma : forall n junkm junk g k c sk r, 512 <= n -> arr U8 280 (g_buf g) -> len (g_s g) = 25 -> ss_buf k -> ct_bytes m0_cfg c -> sk_bytes m0_cfg sk ->
  run (m0_kem_dec_n (pol_mul junkm) n junk g k c sk) = Some r -> r = (m0_dec_key (bits16 (m0_dec_bits sk c)) sk c, 0).
Proof.
  intros n junkm junk g k c sk r Hn Hb Hs Hk Hc Hsk E.
  assert (run (m0_kem_dec_n (pol_mul_wrap junkm) n junk g k c sk) = Some r) as E'.
  { eapply ref_run; [|exact E]. apply ref_dec_n. intros. apply ref_pol_mul. }
  rewrite C61_buffer_lemma in E' by auto. symmetry. exact (some_eq _ _ _ E').
Qed.

Lemma C62_as_written_lemma : forall junkm junk g k c sk r, arr U8 280 (g_buf g) -> len (g_s g) = 25 -> ss_buf k -> ct_bytes m0_cfg c -> sk_bytes m0_cfg sk ->
  run (m0_kem_dec_packed (pol_mul junkm) junk g k c sk) = Some r -> r = (m0_dec_key (m0_msg sk c) sk c, 0).
Proof.
  intros junkm junk g k c sk r Hb Hs Hk Hc Hsk E.
  assert (run (m0_kem_dec_packed (pol_mul_wrap junkm) junk g k c sk) = Some r) as E'.
  { eapply ref_run; [|exact E]. apply ref_dec_packed. intros. apply ref_pol_mul. }
  rewrite C62_exact_lemma in E' by auto. symmetry. exact (some_eq _ _ _ E').
Qed.

(** ** Messages *)

Lemma dec_bits_range : forall sk c, Forall (fun x => 0 <= x < 2 ^ 1) (m0_dec_bits sk c).
Proof. intros. apply Forall_ztab. intros k Hk. change (2 ^ 1) with 2. dlia. Qed.

Lemma bits_msg : forall sk c m, m0_msg sk c = m -> m0_dec_bits sk c = unpack 1 m.
Proof.
  intros sk c m <-. unfold m0_msg. rewrite unpack_pack by (try (unfold m0_dec_bits; cbv zeta; apply len_ztab); lia).
  rewrite map_mod_small by apply dec_bits_range. reflexivity.
Qed.

Lemma get_bit1 : forall m k, 0 <= k < 256 -> get (unpack 1 m) k = Z.b2z (Z.testbit (get m (k / 8)) (k mod 8)).
Proof.
  intros m k Hk. unfold unpack. rewrite get_regroup by lia. unfold fbit. rewrite Z.mul_1_l.
  change (bits_val 1 ?f) with (Z.b2z (f 0) + 0). cbn beta. now rewrite !Z.add_0_r.
Qed.

Definition one32 : list Z := 1 :: zeros 31.

Lemma bits16_fix : forall m, arr U8 32 m -> bits16 (unpack 1 m) = m -> m = zeros 32 \/ m = one32.
Proof.
  intros m (Lm & Tm) E.
  assert (forall k, 0 <= k < 32 -> get m k = if Z.even k then Z.b2z (Z.testbit (get m (k / 2 / 8)) (k / 2 mod 8)) else 0) as G.
  { intros k Hk. rewrite <- E at 1. unfold bits16. rewrite get_ztab by auto. destruct (Z.even k); auto. rewrite get_bit1 by dlia. reflexivity. }
  assert (get m 1 = 0) as G1 by (rewrite G by lia; reflexivity).
  assert (get m 0 = 0 \/ get m 0 = 1) as G0.
  { rewrite G by lia. change (Z.even 0) with true. cbv iota. destruct (Z.testbit _ _); auto. }
  assert (forall k, 1 <= k < 32 -> get m k = 0) as Gk.
  { intros k Hk. rewrite G by lia. destruct (Z.even k) eqn:Ev; auto.
    assert (k / 2 / 8 = 0 \/ k / 2 / 8 = 1) as [E1|E1] by dlia; rewrite E1.
    - assert (1 <= k / 2 mod 8) as Hp by (apply Z.even_spec in Ev; destruct Ev as (x & ->); dlia).
      assert (0 <= k / 2 mod 8 < 8) by dlia. set (p := k / 2 mod 8) in *.
      destruct G0 as [-> | ->]; [now rewrite Z.testbit_0_l|]. rewrite (Z.bits_above_log2 1 p); [reflexivity|lia|cbn; lia].
    - rewrite G1. now rewrite Z.testbit_0_l. }
  destruct G0 as [G0|G0]; [left|right]; apply znth_ext with 0; try (rewrite Lm; reflexivity); rewrite Lm; intros k Hk; fold (get m k).
  - fold (get (zeros 32) k). rewrite (get_zeros 32). destruct (Z.eq_dec k 0) as [-> |]; [auto|apply Gk; lia].
  - fold (get one32 k). destruct (Z.eq_dec k 0) as [-> |]; [rewrite G0; reflexivity|]. rewrite Gk by lia. unfold one32. symmetry.
    change (1 :: zeros 31) with ([1] ++ zeros 31). rewrite get_app by lia. change (len [1]) with 1. replace (k <? 1) with false by lia. apply get_zeros.
Qed.

(** Decapsulation with a longer buffer rejects honest ciphertexts. *)
Lemma C61_rejects_lemma : forall n junkm junk g k pk sk r, 512 <= n -> arr U8 280 (g_buf g) -> len (g_s g) = 25 -> ss_buf k -> sk_bytes m0_cfg sk ->
  sk_pk saber sk = pk ->
  m0_msg sk (fst (m0_enc pk r)) = SHA3_256 r ->
  (let m := bits16 (unpack 1 (SHA3_256 r)) in m0_msg sk (m0_pke_enc pk m (zskip 32 (SHA3_512 (m ++ sk_hash saber sk)))) = m) ->
  SHA3_256 r <> zeros 32 -> SHA3_256 r <> one32 ->
  run (m0_kem_dec_n (pol_mul_wrap junkm) n junk g k (fst (m0_enc pk r)) sk) =
    Some (SHA3_256 (zskip 2272 sk ++ SHA3_256 (fst (m0_enc pk r))), 0).
Proof.
  intros n junkm junk g k pk sk r Hn Hb Hs Hk Hsk Hpk Hm Hm' N0 N1. cbv zeta in Hm'.
  assert (ct_bytes m0_cfg (fst (m0_enc pk r))) as Hc by (exact (m0_pke_enc_arr _ _ _)).
  rewrite C61_buffer_lemma by auto. rewrite (bits_msg _ _ _ Hm).
  destruct (SHA3_256_arr r) as (Lr & Tr). revert Hc Hm Hm' N0 N1 Lr Tr. generalize (SHA3_256 r) (fst (m0_enc pk r)). intros m c Hc Hm Hm' N0 N1 Lm Tm.
  unfold m0_dec_key. rewrite Hpk. cbv zeta. set (m' := bits16 (unpack 1 m)) in *. set (kr := SHA3_512 (m' ++ sk_hash saber sk)) in *.
  assert (sk_z saber sk = zskip 2272 sk) as Ez.
  { unfold sk_z. apply (zfirst_all_at 32 (zskip 2272 sk)). destruct Hsk as (L & _). change (SABER_SECRETKEYBYTES m0_cfg) with 2304 in L. rewrite len_zskip; lia. }
  destruct (list_eq_dec Z.eq_dec c (m0_pke_enc pk m' (zskip 32 kr))) as [E|E]; [|now rewrite Ez].
  exfalso. rewrite <- E, Hm in Hm'. destruct (bits16_fix m) as [?|?]; auto. now split.
Qed.

(** ** Own ciphertexts *)

Lemma m0_dec_ok : forall pk sk m r, arr U8 32 m ->
  (forall i, 0 <= i < 256 -> exists e, -224 <= e <= 224 /\ (get (dec_v sk (m0_pke_enc pk m r)) i - get (enc_v pk r) i - e) mod 1024 = 0) ->
  m0_msg sk (m0_pke_enc pk m r) = m.
Proof.
  intros pk sk m r (Lm & Tm) H. unfold m0_msg.
  transitivity (pack 1 (unpack 1 m)); [|apply pack_unpack; [lia|auto|]].
  2:{ apply Forall_forall. intros x Hx. unfold typed in Tm. rewrite Forall_forall in Tm. specialize (Tm x Hx). cbn [tmin tmax] in Tm. lia. }
  apply (f_equal (pack 1)). unfold m0_dec_bits. cbv zeta.
  revert H. generalize (dec_v sk (m0_pke_enc pk m r)). intros v H. unfold m0_pke_enc. cbv zeta. set (PV := pack_vec 10 _).
  assert (len PV = 960) as Lp.
  { unfold PV. rewrite Bits.len_pack_vec by lia. unfold ct_vec, round_vec. rewrite len_map. cbn [saber p_l]. rewrite len_mat_vec by lia. reflexivity. }
  rewrite (zskip_app_at 960 PV) by auto. clear Lp PV. revert H. generalize (enc_v pk r). intros v' H.
  assert (unpack 4 (pack 4 (m0_ct_msg v' (unpack 1 m))) = m0_ct_msg v' (unpack 1 m)) as ->.
  { rewrite unpack_pack by (try apply len_ztab; lia). apply map_mod_small. apply Forall_ztab. intros k Hk. change (2 ^ 4) with 16. dlia. }
  symmetry. apply ztab_eq with 0; [exact (len_unpack 1 m)|]. intros k Hk. fold (get (unpack 1 m) k). symmetry.
  unfold m0_ct_msg. rewrite get_ztab by auto. destruct (H k Hk) as (e & He & Ee). rewrite get_bit1 by auto.
  set (b := Z.b2z _). assert (b = 0 \/ b = 1) as Hb by (unfold b; destruct (Z.testbit _ _); auto). clearbody b.
  revert Ee He Hb. generalize (get v k) (get v' k). clear. intros x y Ee He Hb.
  destruct Hb as [-> | ->]; dlia.
Qed.

Lemma m0_enc_fst : forall pk r, fst (m0_enc pk r) = m0_pke_enc pk (SHA3_256 r) (enc_seed pk r).
Proof. intros. unfold m0_enc, enc_seed. cbv zeta. cbn [fst]. reflexivity. Qed.
Lemma m0_enc_snd : forall pk r, snd (m0_enc pk r) = SHA3_256 (zfirst 32 (SHA3_512 (SHA3_256 r ++ SHA3_256 pk)) ++ SHA3_256 (fst (m0_enc pk r))).
Proof. intros. unfold m0_enc. cbv zeta. cbn [fst snd]. reflexivity. Qed.

Lemma enc_seed_eq : forall pk r, zskip 32 (SHA3_512 (SHA3_256 r ++ SHA3_256 pk)) = enc_seed pk r.
Proof. reflexivity. Qed.

Lemma C62_lemma : forall junkm junk g k pk sk r, arr U8 280 (g_buf g) -> len (g_s g) = 25 -> ss_buf k -> sk_bytes m0_cfg sk ->
  sk_pk saber sk = pk -> sk_hash saber sk = SHA3_256 pk ->
  (forall i, 0 <= i < 256 -> exists e, -224 <= e <= 224 /\ (get (dec_v sk (fst (m0_enc pk r))) i - get (enc_v pk (enc_seed pk r)) i - e) mod 1024 = 0) ->
  run (m0_kem_dec_packed (pol_mul_wrap junkm) junk g k (fst (m0_enc pk r)) sk) = Some (snd (m0_enc pk r), 0).
Proof.
  intros junkm junk g k pk sk r Hb Hs Hk Hsk Hpk Hh He.
  assert (ct_bytes m0_cfg (fst (m0_enc pk r))) as Hc by (rewrite m0_enc_fst; apply m0_pke_enc_arr).
  rewrite C62_exact_lemma by auto. rewrite m0_enc_snd.
  assert (m0_msg sk (fst (m0_enc pk r)) = SHA3_256 r) as Em.
  { rewrite m0_enc_fst. apply m0_dec_ok; [apply SHA3_256_arr|]. rewrite <- m0_enc_fst. exact He. }
  rewrite Em. unfold m0_dec_key. rewrite Hpk, Hh. cbv zeta. rewrite enc_seed_eq, <- m0_enc_fst.
  destruct (list_eq_dec Z.eq_dec (fst (m0_enc pk r)) (fst (m0_enc pk r))) as [E|E]; [reflexivity|contradiction].
Qed.
