(** Key generation and encapsulation of the Cortex-M0 code against the specification. *)
From Coq Require Import ZArith List Bool Lia.
From Verif Require Import Lib.Arr Lib.CInt Lib.CMon Lib.Wire Spec.Bits Spec.Ring Spec.Sampling Spec.Keccak Spec.Saber Spec.M0Spec Model.Params Model.Pack
  Model.Indcpa Model.Fips202 Model.Api Model.M0 Model.M0Kem Proof.PackP Proof.PackThm Proof.Conv Proof.KaraP Proof.CbdP Proof.PolyP Proof.KeccakP Proof.SpongeP
  Proof.IndcpaP Proof.KemP Proof.SymP Proof.M4P Proof.M0P Proof.M0KaraP Proof.M0MulP Proof.M0GenP Proof.M0KemP.
Import ListNotations.
Local Open Scope Z_scope.

Lemma m0_pke_enc_arr : forall pk m r, arr U8 1088 (m0_pke_enc pk m r).
Proof.
  intros. unfold m0_pke_enc. cbv zeta. set (PV := pack_vec 10 _). set (C := pack 4 _).
  assert (len PV = 960) as Lp.
  { unfold PV. rewrite Bits.len_pack_vec by lia. unfold ct_vec, round_vec. rewrite len_map. cbn [saber p_l]. rewrite len_mat_vec by lia. reflexivity. }
  assert (len C = 128) as LC by (exact (len_pack 4 _ ltac:(lia))).
  split; [rewrite len_app; lia|]. apply typed_app; [apply pack_vec_typed; lia|].
  apply typed_range with (w := 8); [cbn; lia|cbn; lia|exact (regroup_range 4 8 _ _ ltac:(lia))].
Qed.

Section Kem.
  Variable mul : list Z -> list Z -> list Z -> M (list Z).
  Hypothesis Hmul : forall a b r, arr U16 256 a -> arr U16 256 b -> arr U16 256 r ->
    wp (mul a b r) (fun x => x = ztab 256 (fun k => (get r k + mul_coef a b k) mod 65536)).
  Context {S : Type}.
  Variable rb : S -> Z -> list Z * S.
  Hypothesis Hrb : source_ok rb.

  Lemma wp_m0_keypair : forall junk g st pk sk (Q : list Z * list Z * S -> Prop), arr U8 280 (g_buf g) -> len (g_s g) = 25 ->
    len pk = 992 -> 1248 <= len sk ->
    (let r1 := fst (rb st 32) in let st1 := snd (rb st 32) in let r2 := fst (rb st1 32) in
     Q (pke_pk SHAKE128 saber (SHAKE128 32 r1) r2, pke_sk SHAKE128 saber r2 ++ zskip 1248 sk, snd (rb st1 32))) ->
    wp (m0_indcpa_keypair mul rb junk g st pk sk) Q.
  Proof.
    intros junk g st pk sk Q Hb Hs Lpk Lsk HQ. unfold m0_indcpa_keypair.
    destruct (Hrb st 32 ltac:(lia)) as (L1 & T1). set (r1 := fst (rb st 32)) in *. set (st1 := snd (rb st 32)) in *.
    destruct (Hrb st1 32 ltac:(lia)) as (L2 & T2). set (r2 := fst (rb st1 32)) in *. cbv zeta in HQ.
    apply wp_bind, wp_randombytes; [rewrite uninit_len; lia|]. fold r1 st1. cbn beta iota.
    rewrite zskip_all by (rewrite uninit_len; lia). rewrite app_nil_r.
    apply wp_bind, wp_shake128; [lia|lia|auto|]. rewrite (zskip_all 32 r1) by lia. rewrite app_nil_r.
    rewrite (zfirst_all_at 32 r1) by auto.
    destruct (SHAKE128_arr 32 r1 ltac:(lia)) as (LA & TA). set (seed := SHAKE128 32 r1) in *.
    apply wp_bind, wp_randombytes; [rewrite uninit_len; lia|]. fold r2. cbn beta iota.
    rewrite zskip_all by (rewrite uninit_len; lia). rewrite app_nil_r.
    destruct (vec_mem_uninit2 junk 4 3 ltac:(lia)) as (Lu & Fu).
    apply wp_bind, wp_m0_GenSecret; auto; [intros i Hi; exact (Forall_znth _ [] _ Fu i ltac:(lia))|lia|].
    rewrite (zfirst_all_at 32 r2) by auto.
    destruct (skpv_ok r2) as (Vt & Ht). cbv zeta in Vt, Ht. set (s := expand_s SHAKE128 saber r2) in *. set (t := map (map mod13) s) in *.
    destruct (vec_mem_uninit2 junk 5 3 ltac:(lia)) as (Lu5 & Fu5).
    apply wp_bind, (wp_rows _ []) with (g := fun _ => ztab 256 (fun _ => 0)); [lia| |].
    { intros i a Hi La Ea. apply wp_rowloop with (f := fun _ => 0); [lia|unfold getr; rewrite Ea; exact (Forall_znth _ [] _ Fu5 i ltac:(lia))| |auto].
      intros j r Hj Lr Gr. split; [reflexivity|]. split; [cbn; lia|reflexivity]. }
    rewrite zskip_all by lia. rewrite app_nil_r.
    apply wp_bind, (wp_MVK mul Hmul _ _ _ _ _ s); [split; assumption|assumption|assumption|apply Vt|exact Ht|apply len_ztab; lia| |].
    { intros i Hi. unfold getr. rewrite znth_ztab by auto. reflexivity. }
    intros b Lb Hbj. set (At := transpose 3 (expand_A SHAKE128 saber seed)) in *.
    apply wp_bind, (wp_rows _ []) with (g := fun i => map rnd0 (getr b i)); [lia| |].
    { intros i a Hi La Ea. apply wp_bind, wp_row with (d := []); [lia|]. rewrite Ea. fold (getr b i).
      apply wp_bind, wp_m0_round; [apply Hbj; auto|]. now apply wp_setrow; [lia|]. }
    rewrite (zskip_all 3 b) by lia. rewrite app_nil_r.
    apply wp_bind, wp_POLVECq2BS; [change (SABER_POLYVECBYTES m0_cfg) with 1248; lia|exact Vt|].
    change (SABER_POLYVECBYTES m0_cfg) with 1248. change (SABER_EQ m0_cfg) with 13.
    set (B := ztab 3 (fun i => map rnd0 (getr b i))).
    assert (vec U16 3 B) as VB.
    { split; [apply len_ztab; lia|]. apply Forall_ztab. intros i Hi. destruct (Hbj i Hi) as ((L & T) & _). split; [now rewrite len_map|].
      apply Forall_map, Forall_forall. intros x _. unfold rnd0. cbn [tmin tmax]. dlia. }
    apply wp_bind, wp_POLVECp2BS; [change (SABER_POLYVECCOMPRESSEDBYTES m0_cfg) with 960; lia|exact VB|].
    change (SABER_POLYVECCOMPRESSEDBYTES m0_cfg) with 960.
    assert (pack_vec 10 B = pack_vec 10 (pub_vec saber (expand_A SHAKE128 saber seed) s)) as ->.
    { unfold pub_vec, round_vec. cbn [saber p_l]. fold At.
      rewrite <- (concat_ztab_map 10 3 B) by apply VB. rewrite <- (concat_ztab_map 10 3 (map _ _)) by (rewrite len_map; apply len_mat_vec; lia).
      f_equal. apply ztab_ext. intros i Hi. unfold B. unfold getr at 1. rewrite znth_ztab by auto.
      rewrite getr_map by (rewrite len_mat_vec; lia). rewrite getr_mat_vec by auto. destruct (Hbj i Hi) as ((L & T) & G).
      apply pack_rnd0; [auto|apply len_inner|]. intros k Hk. apply (G k Hk). }
    set (PV := pack_vec 10 _).
    assert (len PV = 960) as Lp.
    { unfold PV. rewrite Bits.len_pack_vec by lia. unfold pub_vec, round_vec. rewrite len_map. cbn [saber p_l]. rewrite len_mat_vec by lia. reflexivity. }
    apply wp_bind, wp_copy with (doff := 960) (soff := 0); try lia; auto; [rewrite len_app, len_zskip; lia|].
    rewrite zskip_0, (zfirst_all_at 32 seed), (zfirst_app_at 960 PV) by auto.
    rewrite (zskip_all (960 + 32)) by (rewrite len_app, len_zskip; lia). rewrite app_nil_r.
    apply wp_ret.
    assert (pack_vec 13 t = pke_sk SHAKE128 saber r2) as ->.
    { unfold pke_sk. cbn [saber p_eq]. fold s. apply pack_vec_eqm with (n := 3); auto; [lia|apply (vec_vec_mem U16); auto|exact (expand_s_mem SHAKE128 m0_cfg r2)|].
      intros i Hi. apply Ht; auto. }
    exact HQ.
  Qed.

  Lemma wp_m0_indcpa_enc : forall junk g m r pk ct (Q : list Z -> Prop), arr U8 280 (g_buf g) -> len (g_s g) = 25 ->
    32 <= len m -> typed U8 m -> arr U8 32 r -> 992 <= len pk -> typed U8 pk -> len ct = 1088 ->
    Q (m0_pke_enc pk (zfirst 32 m) r) -> wp (m0_indcpa_enc mul junk g m r pk ct) Q.
  Proof.
    intros junk g m r pk ct Q Hb Hs Lm Tm (Lr & Tr) Lpk Tpk Lct HQ. unfold m0_indcpa_enc.
    destruct (uninit8_arr junk 0 32 ltac:(lia)) as (Lu & Tu).
    apply wp_bind, (wp_copy 32 0 960 _ pk (fun i => i)); try lia; auto.
    change (zfirst 0 ?x) with (@nil Z). rewrite app_nil_l, (zskip_all (0 + 32)) by lia. rewrite app_nil_r. set (seed := zfirst 32 (zskip 960 pk)).
    assert (arr U8 32 seed) as Hseed by (split; [apply len_zfirst; rewrite len_zskip; lia|apply Forall_zfirst, Forall_zskip; auto]).
    destruct (vec_mem_uninit2 junk 2 3 ltac:(lia)) as (Lu2 & Fu2).
    apply wp_bind, wp_m0_GenSecret; auto; [intros i Hi; exact (Forall_znth _ [] _ Fu2 i ltac:(lia))|lia|].
    rewrite (zfirst_all_at 32 r) by auto.
    destruct (skpv_ok r) as (Vt & Ht). cbv zeta in Vt, Ht. unfold m0_pke_enc, enc_v in HQ. fold seed in HQ. cbv zeta in HQ.
    set (s := expand_s SHAKE128 saber r) in *. set (t := map (map mod13) s) in *.
    apply wp_bind, (wp_MVE mul Hmul _ _ _ _ _ s); [assumption|assumption|assumption|apply Vt|exact Ht|lia|].
    set (PV := pack_vec 10 _) in *.
    assert (len PV = 960) as Lp.
    { unfold PV. rewrite Bits.len_pack_vec by lia. unfold ct_vec, round_vec. rewrite len_map. cbn [saber p_l]. rewrite len_mat_vec by lia. reflexivity. }
    apply wp_bind, (wp_each U16 256 (fun _ => #0)%C (fun _ => 0)); [rewrite uninit_len; lia|intros; split; [reflexivity|]; split; [cbn; lia|reflexivity]|].
    intros v0 L0 G0. rewrite uninit_len in L0 by lia.
    assert (v0 = zeros 256) as ->.
    { apply znth_ext with 0; [now rewrite len_zeros|]. rewrite L0. intros k Hk. fold (get v0 k). rewrite G0 by (rewrite uninit_len; lia).
      replace (k <? 256) with true by lia. symmetry. exact (get_zeros 256 k). }
    clear L0 G0.
    apply wp_bind, (wp_rows _ []) with (g := fun i => ztab 256 (fun k => get (getr t i) k mod 1024)); [destruct Vt; lia| |].
    { intros i a Hi La Ea. assert (getr a i = getr t i) as Ea' by exact Ea. destruct (Ht i Hi) as ((L & T) & _).
      assert (len t = 3) as Lt by apply Vt.
      apply wp_rowloop with (f := fun k => get (getr t i) k mod 1024); [lia|now rewrite Ea'| |auto].
      intros j x Hj Lx Gx. rewrite Ea' in Gx.
      assert (forall k, 0 <= k < 256 -> 0 <= get (getr t i) k <= 65535) as R.
      { intros k Hk. pose proof (typed_get U16 _ k T ltac:(lia)) as R. cbn [tmin tmax] in R. lia. }
      assert (typed U16 x) as Tx.
      { apply Forall_znth_iff with (d := 0). rewrite Lx. intros k Hk. fold (get x k). rewrite Gx by auto. specialize (R k Hk). cbn [tmin tmax].
        destruct (k <? j); [dlia|lia]. }
      specialize (Gx j Hj). rewrite Z.ltb_irrefl in Gx. specialize (R j Hj).
      split; [reflexivity|]. split; [cbn [lok tmin tmax]; repeat split; auto; lia|].
      cbn [val val_bin ty promote common]. unfold cv, uw. cbn [subr signed]. rewrite Gx, mask1023. apply wrap_id. cbn [tmin tmax]. dlia. }
    rewrite (zskip_all 3 t) by (destruct Vt; lia). rewrite app_nil_r.
    apply wp_bind, (wp_VM mul Hmul _ _ _ _ s); [lia|auto|apply len_ztab; lia| |reflexivity|].
    { intros i Hi.
      assert (getr (ztab 3 (fun i => ztab 256 (fun k => get (getr t i) k mod 1024))) i = ztab 256 (fun k => get (getr t i) k mod 1024)) as ->
        by (unfold getr at 1; now rewrite znth_ztab by auto).
      destruct (Ht i Hi) as ((L & T) & E). split.
      - split; [apply len_ztab; lia|]. apply Forall_ztab. intros k Hk. cbn [tmin tmax]. dlia.
      - intros k Hk. rewrite get_ztab by lia. eapply eqm_trans; [apply eqm_mod; lia|]. apply eqm_divide with 8. apply (E k Hk). }
    set (v := inner 3 (unpack_vec 10 3 pk) s) in *.
    apply wp_bind, wp_message; auto.
    { split; [apply len_ztab; lia|]. apply Forall_ztab. intros k Hk. cbn [tmin tmax]. dlia. }
    { apply Forall_ztab. intros k Hk. dlia. }
    assert (forall k, 0 <= k < 256 -> 0 <= get (unpack 1 m) k <= 1) as Rm.
    { intros k Hk. unfold unpack. rewrite get_regroup by lia. pose proof (bits_val_bound 1 (fun x => fbit 8 m (1 * k + x)) ltac:(lia)). lia. }
    apply wp_bind, wp_GenCipherText.
    { split; [apply len_ztab; lia|]. apply Forall_ztab. intros k Hk. rewrite get_ztab by lia. specialize (Rm k Hk). cbn [tmin tmax]. dlia. }
    { apply uninit8_arr. lia. }
    set (C := pack 4 _).
    assert (C = pack 4 (m0_ct_msg v (unpack 1 (zfirst 32 m)))) as EC.
    { unfold C, m0_ct_msg. apply pack_eqm; [lia|apply len_ztab; lia|apply len_ztab; lia|]. intros k Hk. rewrite !get_ztab by lia.
      assert (get (unpack 1 (zfirst 32 m)) k = get (unpack 1 m) k) as ->. { change 32 with (32 * 1). now rewrite unpack_first. }
      change (2 ^ 4) with 16. apply eqm_mod_eq; [lia|]. specialize (Rm k Hk). dlia. }
    rewrite EC. clear EC C. set (C := pack 4 _) in *.
    assert (len C = 128) as LC by (exact (len_pack 4 _ ltac:(lia))).
    assert (typed U8 C) as TC by (apply typed_range with (w := 8); [cbn; lia|cbn; lia|exact (regroup_range 4 8 _ _ ltac:(lia))]).
    apply wp_copy with (doff := 960) (soff := 0); try lia; auto; [rewrite len_app, len_zskip; lia|].
    rewrite zskip_0, (zfirst_all_at 128 C), (zfirst_app_at 960 PV) by auto.
    rewrite (zskip_all (960 + 128)) by (rewrite len_app, len_zskip; lia). rewrite app_nil_r. exact HQ.
  Qed.

  Lemma wp_m0_kem_keypair : forall junk g st pk sk (Q : list Z * list Z * S * Z -> Prop), arr U8 280 (g_buf g) -> len (g_s g) = 25 ->
    len pk = 992 -> len sk = 2304 ->
    (let '(r1, s1) := rb st 32 in
     let '(r2, s2) := rb s1 32 in
     let '(z, s3) := rb s2 32 in
     Q (kem_pk SHAKE128 saber r1 r2, kem_sk SHA3_256 SHAKE128 saber r1 r2 z, s3, 0)) ->
    wp (m0_kem_keypair mul rb junk g st pk sk) Q.
  Proof.
    intros junk g st pk sk Q Hb Hs Lpk Lsk HQ. unfold m0_kem_keypair.
    apply wp_bind, wp_m0_keypair; auto; [lia|]. cbn beta iota zeta.
    destruct (rb st 32) as (r1, s1) eqn:R1. destruct (rb s1 32) as (r2, s2) eqn:R2. destruct (rb s2 32) as (z, s3) eqn:R3.
    cbn [fst snd]. rewrite R2. cbn [fst snd].
    fold (kem_pk SHAKE128 saber r1 r2).
    assert (arr U8 32 r1) as A1 by (change r1 with (fst (r1, s1)); rewrite <- R1; apply Hrb; lia).
    destruct (kem_pk_arr SHAKE128 (PRF_bytes false) m0_cfg r1 r2 A1) as (Lk & Tk). change (par m0_cfg) with saber in Lk, Tk.
    change (SABER_PUBLICKEYBYTES m0_cfg) with 992 in Lk. set (PK := kem_pk SHAKE128 saber r1 r2) in *.
    destruct (pke_sk_arr SHAKE128 m0_cfg r2) as (Ls & Ts). change (par m0_cfg) with saber in Ls, Ts.
    change (SABER_L m0_cfg * (32 * SABER_EQ m0_cfg)) with 1248 in Ls. set (SK := pke_sk SHAKE128 saber r2) in *.
    assert (len (zskip 1248 sk) = 1056) as Lt by (rewrite len_zskip; lia).
    apply wp_bind. apply (wp_copy 992 1248 0 (SK ++ zskip 1248 sk) PK (fun i => i + 1248)); try lia; auto.
    { rewrite len_app. lia. }
    rewrite zskip_0, (zfirst_all_at 992 PK), (zfirst_app_at 1248 SK) by auto.
    rewrite <- (zskip_zskip 992 1248), (zskip_app_at 1248 SK) by (auto; lia).
    set (T := zskip 992 (zskip 1248 sk)). assert (len T = 64) as LT by (unfold T; rewrite len_zskip; lia).
    change (2304 - 64) with 2240. change (2304 - 32) with 2272.
    apply wp_bind, wp_at; [rewrite !len_app; lia|].
    replace (zskip 2240 (SK ++ PK ++ T)) with T by (change 2240 with (1248 + 992); rewrite <- (zskip_zskip 992 1248), (zskip_app_at 1248 SK), (zskip_app_at 992 PK) by (auto; lia); reflexivity).
    apply wp_sha3_256; try lia; auto. rewrite (zfirst_all_at 992 PK) by auto.
    rewrite (app_assoc SK), (zfirst_app_at 2240) by (rewrite len_app; lia).
    destruct (SHA3_256_arr PK) as (LH & TH).
    assert (len (zskip 32 T) = 32) as LT2 by (rewrite len_zskip; lia).
    assert (len (SK ++ PK) = 2240) as L12 by (rewrite len_app; lia).
    apply wp_bind, wp_ptr; [rewrite !len_app; lia|].
    replace (zskip 2272 ((SK ++ PK) ++ SHA3_256 PK ++ zskip 32 T)) with (zskip 32 T)
      by (change 2272 with (2240 + 32); rewrite <- (zskip_zskip 32 2240), (zskip_app_at 2240), (zskip_app_at 32) by (auto; lia); reflexivity).
    apply wp_bind, wp_randombytes; [lia|]. cbn beta iota. rewrite R3. cbn [fst snd].
    rewrite (zskip_all 32 (zskip 32 T)) by lia. rewrite app_nil_r.
    apply wp_bind, wp_at; [rewrite !len_app; lia|]. apply wp_ret. apply wp_ret.
    rewrite (app_assoc (SK ++ PK)), (zfirst_app_at 2272) by (rewrite !len_app; lia).
    unfold kem_sk in HQ. fold PK SK in HQ. rewrite <- !app_assoc. exact HQ.
  Qed.

  Lemma wp_m0_kem_enc : forall junk g st c k pk (Q : list Z * list Z * S * Z -> Prop), arr U8 280 (g_buf g) -> len (g_s g) = 25 ->
    len c = 1088 -> len k = 32 -> arr U8 992 pk ->
    (let '(r, s1) := rb st 32 in Q (fst (m0_enc pk r), snd (m0_enc pk r), s1, 0)) ->
    wp (m0_kem_enc mul rb junk g st c k pk) Q.
  Proof.
    intros junk g st c k pk Q Hb Hs Lc Lk (Lpk & Tpk) HQ. unfold m0_kem_enc.
    destruct (Hrb st 32 ltac:(lia)) as (Lr & Tr). destruct (rb st 32) as (r, s1) eqn:R. cbn [fst] in Lr, Tr.
    destruct (uninit8_arr junk 1 64 ltac:(lia)) as (LU & TU).
    apply wp_bind, wp_randombytes; [lia|]. cbn beta iota. rewrite R. cbn [fst snd].
    set (T := zskip 32 (uninit8 junk 1 64)). assert (len T = 32) as LT by (unfold T; rewrite len_zskip; lia).
    assert (typed U8 T) as TT by (unfold T; now apply Forall_zskip).
    assert (len (r ++ T) = 64) as LrT by (rewrite len_app; lia).
    apply wp_bind, wp_sha3_256; try lia; [now apply typed_app|]. rewrite (zfirst_app_at 32 r) by auto.
    rewrite (zskip_app_at 32 r) by auto. unfold m0_enc in HQ. cbv zeta in HQ. cbn [fst snd] in HQ.
    set (m := SHA3_256 r) in *. destruct (SHA3_256_arr r) as (Lm & Tm). fold m in Lm, Tm.
    assert (len (m ++ T) = 64) as LmT by (rewrite len_app; lia).
    apply wp_bind, wp_at; [lia|]. rewrite (zskip_app_at 32 m), (zfirst_app_at 32 m) by auto.
    apply wp_sha3_256; try lia; auto; rewrite (zfirst_all_at 992 pk) by auto.
    rewrite (zskip_all 32 T) by lia. rewrite app_nil_r. destruct (SHA3_256_arr pk) as (Lh & Th).
    assert (len (m ++ SHA3_256 pk) = 64) as Lb by (rewrite len_app; lia).
    apply wp_bind, wp_sha3_512; [rewrite uninit_len; lia|lia|now apply typed_app|]; rewrite (zfirst_all_at 64 (m ++ SHA3_256 pk)) by auto.
    rewrite zskip_all by (rewrite uninit_len; lia). rewrite app_nil_r.
    destruct (SHA3_512_arr (m ++ SHA3_256 pk)) as (Lkr & Tkr). set (kr := SHA3_512 (m ++ SHA3_256 pk)) in *.
    assert (len (zskip 32 kr) = 32) as Lz by (rewrite len_zskip; lia).
    apply wp_bind, wp_ptr; [lia|].
    apply wp_bind, wp_m0_indcpa_enc; auto; try lia.
    { now apply typed_app. }
    { split; [lia|]. now apply Forall_zskip. }
    rewrite (zfirst_app_at 32 m) by auto. set (ct := m0_pke_enc pk m (zskip 32 kr)) in *.
    destruct (m0_pke_enc_arr pk m (zskip 32 kr)) as (Lct & Tct). fold ct in Lct, Tct.
    apply wp_bind, wp_at; [lia|]. assert (len (zskip 32 kr) = 32) by lia.
    apply wp_sha3_256; try lia; auto. rewrite (zfirst_all_at 1088 ct) by auto.
    rewrite (zskip_all 32 (zskip 32 kr)) by lia. rewrite app_nil_r.
    destruct (SHA3_256_arr ct) as (Lhc & Thc). assert (len (zfirst 32 kr) = 32) as Lf by (apply len_zfirst; lia).
    assert (len (zfirst 32 kr ++ SHA3_256 ct) = 64) as Lx by (rewrite len_app; lia).
    apply wp_bind, wp_sha3_256; [lia|lia|apply typed_app; [now apply Forall_zfirst|auto]|].
    rewrite (zfirst_all_at 64 (zfirst 32 kr ++ SHA3_256 ct)) by auto.
    rewrite (zskip_all 32 k) by lia. rewrite app_nil_r. apply wp_ret. exact HQ.
  Qed.
End Kem.
