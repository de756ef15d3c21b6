(** The public-key layer of the AVX2 code refines the specification. *)
From Coq Require Import ZArith List Bool Lia.
From Verif Require Import Lib.Arr Lib.CInt Lib.CMon Lib.Wire Spec.Bits Spec.Ring Spec.Sampling Spec.Saber Spec.AvxSpec Model.Params Model.Vec Model.AvxMul Model.AvxKem
  Model.Pack Model.Cbd Model.Poly Model.Indcpa Proof.PackP Proof.PackThm Proof.Conv Proof.KaraP Proof.ToomP Proof.CbdP Proof.PolyP Proof.IndcpaP Proof.KemP
  Proof.AvxMulP Proof.AvxIntP Proof.AvxThm Proof.AvxKemP.
Import ListNotations.
Local Open Scope Z_scope.

(** ** Messages *)

Lemma wp_msg : forall m data (Q : list Z -> Prop), 32 <= len m -> typed U8 m -> len data = 256 ->
  Q (regroup 8 1 256 m) ->
  wp (for_ 0 SABER_KEYBYTES (fun j message => for_ 0 8 (fun i message =>
        st U16 message (8 * j + i) ((Idx U8 m j .>> Bnd U32 0 7 i) .& #1)%C) message) data)%M Q.
Proof.
  intros bytes data Q Hb Ht Hd HQ. change SABER_KEYBYTES with 32.
  assert (forall k, 0 <= k < 256 -> get (regroup 8 1 256 bytes) k = Z.b2z (Z.testbit (get bytes (k / 8)) (k mod 8))) as G.
  { intros k Hk. rewrite get_regroup by lia. unfold fbit. rewrite Z.mul_1_l.
    change (bits_val 1 ?f) with (Z.b2z (f 0) + 0). cbn beta. now rewrite !Z.add_0_r. }
  apply wp_for with (I := fun j a => len a = 256 /\ forall k, 0 <= k < 8 * j -> get a k = get (regroup 8 1 256 bytes) k).
  - lia.
  - split; auto. intros. lia.
  - intros j a Hj (La & Ha).
    apply wp_for with (I := fun i a => len a = 256 /\ forall k, 0 <= k < 8 * j + i -> get a k = get (regroup 8 1 256 bytes) k).
    + lia.
    + split; auto. intros. apply Ha. lia.
    + intros i a' Hi (La' & Ha'). apply wp_st.
      * reflexivity.
      * cbn [lok tmin tmax]. repeat split; auto; lia.
      * lia.
      * split; [now rewrite len_upd|]. intros k Hk. unfold get at 1. rewrite znth_upd by lia.
        destruct (k =? 8 * j + i) eqn:E; [|apply Ha'; lia].
        rewrite G by lia.
        assert (k / 8 = j) as -> by (symmetry; apply Z.div_unique with i; lia).
        assert (k mod 8 = i) as -> by (symmetry; apply Z.mod_unique with j; lia).
        cbn [val val_bin ty promote common cv subr].
        rewrite land_1, Z.shiftr_spec by lia. rewrite Z.add_0_l.
        apply wrap_id. destruct (Z.testbit _ _); cbn; lia.
    + intros a' (La' & Ha'). split; auto. intros. apply Ha'. lia.
  - intros a (La & Ha). replace a with (regroup 8 1 256 bytes); auto.
    apply znth_ext with 0; rewrite len_regroup by lia; [auto|]. intros. symmetry. apply Ha. lia.
Qed.

Lemma wp_POL2MSG : forall data bytes (Q : list Z -> Prop),
  32 <= len bytes -> len data = 256 -> (forall k, 0 <= k < 256 -> 0 <= get data k <= 1) ->
  Q (regroup 1 8 32 data ++ zskip 32 bytes) -> wp (POL2MSG data bytes) Q.
Proof.
  intros data bytes Q Hb Hd Hr HQ. unfold POL2MSG. change SABER_KEYBYTES with 32.
  set (bit := fun k => Z.testbit (get data k) 0).
  assert (typed U16 data) as Td.
  { unfold typed. apply Forall_znth_iff with (d := 0). intros k Hk. specialize (Hr k ltac:(lia)). unfold get in Hr. cbn. lia. }
  apply wp_for with (I := fun j a => len a = len bytes /\ forall k, 0 <= k < len bytes ->
    get a k = if k <? j then get (regroup 1 8 32 data) k else get bytes k).
  - lia.
  - split; auto. intros. destruct (k <? 0) eqn:E; auto. lia.
  - intros j a Hj (La & Ha). apply wp_bind, wp_st; [reflexivity|cbn; lia|lia|]. change (wrap U8 (val #0%C)) with 0.
    apply wp_for with (I := fun i a' => len a' = len bytes /\ forall k, 0 <= k < len bytes ->
      get a' k = if k =? j then bits_val i (fun m => bit (8 * j + m)) else get a k).
    + lia.
    + split; [now rewrite len_upd|]. intros k Hk. unfold get at 1. rewrite znth_upd by lia. destruct (k =? j); reflexivity.
    + intros i a' Hi (La' & Ha'). assert (0 <= get a' j < 2 ^ i) as Hr'.
      { rewrite Ha' by lia. rewrite Z.eqb_refl. apply bits_val_bound. lia. }
      assert (2 ^ i <= 2 ^ 7) by (apply Z.pow_le_mono_r; lia).
      apply wp_bind. cbn [ev]. apply wp_bind. apply wp_rd; [lia|].
      apply wp_bind. apply wp_bind. apply wp_rd; [lia|].
      apply wp_bind, wp_ret.
      cbn [ty promote common]. pose proof (Hr (j * 8 + i) ltac:(lia)) as B.
      assert (get data (j * 8 + i) = Z.b2z (Z.testbit (get data (j * 8 + i)) 0)) as EB.
      { assert (get data (j * 8 + i) = 0 \/ get data (j * 8 + i) = 1) as [->| ->] by lia; reflexivity. }
      rewrite EB. set (b := Z.testbit (get data (j * 8 + i)) 0).
      assert (0 <= Z.b2z b <= 1) by (destruct b; cbn; lia).
      try rewrite !wrap_id by (cbn; lia).
      eapply wp_lift with (a := Z.b2z b * 2 ^ i).
      { unfold eval_bin. cbn [promote signed width]. destruct (_ && _) eqn:E; [|lia].
        destruct (0 <=? Z.b2z b) eqn:E'; [|lia]. unfold arith. cbn [signed].
        replace (inr I32 (Z.b2z b * 2 ^ i)) with true; auto. symmetry. apply inr_spec. cbn [tmin tmax]. nia. }
      eapply wp_lift; [reflexivity|]. cbn [promote common]. rewrite !(wrap_id I32) by (cbn [tmin tmax]; nia).
      assert (Z.lor (get a' j) (Z.b2z b * 2 ^ i) = bits_val (i + 1) (fun m => bit (8 * j + m))) as ->.
      { rewrite Ha' by lia. rewrite Z.eqb_refl. apply Z.bits_inj'. intros m Hm.
        rewrite Z.lor_spec, !bits_val_testbit by lia. rewrite <- Z.shiftl_mul_pow2 by lia.
        rewrite Z.shiftl_spec by lia. destruct (Z.ltb_spec m i).
        - rewrite Z.testbit_neg_r by lia. rewrite orb_false_r. destruct (Z.ltb_spec m (i + 1)); auto. lia.
        - destruct (Z.ltb_spec m (i + 1)).
          + assert (m = i) by lia. subst. rewrite Z.sub_diag. rewrite Z.b2z_bit0. cbn [andb orb].
            unfold b, bit. do 2 f_equal. lia.
          + cbn [andb orb]. destruct b; cbn [Z.b2z]; [|apply Z.bits_0].
            apply testbit_high with 1; lia. }
      pose proof (bits_val_bound (i + 1) (fun m => bit (8 * j + m)) ltac:(lia)).
      assert (2 ^ (i + 1) <= 2 ^ 8) by (apply Z.pow_le_mono_r; lia).
      rewrite (wrap_id U8) by (cbn [tmin tmax]; lia).
      apply wp_wr; [lia|]. split; [now rewrite len_upd|]. intros k Hk. unfold get at 1.
      rewrite znth_upd by lia. destruct (k =? j) eqn:E; auto. fold (get a' k). rewrite Ha' by lia. now rewrite E.
    + intros a' (La' & Ha'). split; auto. intros k Hk. rewrite Ha' by lia.
      destruct (k =? j) eqn:E.
      * assert (k = j) by lia. subst. destruct (j <? j + 1) eqn:E'; [|lia].
        rewrite get_regroup by lia. apply bits_val_ext. intros m Hm. unfold fbit, bit.
        rewrite Z.div_1_r, Z.mod_1_r. auto.
      * rewrite Ha by lia. destruct (k <? j) eqn:E1, (k <? j + 1) eqn:E2; auto; lia.
  - intros a (La & Ha). replace a with (regroup 1 8 32 data ++ zskip 32 bytes); auto.
    apply znth_ext with 0; rewrite len_app, len_regroup, len_zskip by lia; [lia|].
    intros i Hi. fold (get a i). rewrite Ha by lia. destruct (i <? 32) eqn:E.
    + rewrite znth_app1 by (rewrite len_regroup; lia). auto.
    + rewrite znth_app2 by (rewrite ?len_regroup; lia).
      rewrite len_regroup, znth_zskip by lia. unfold get. f_equal. lia.
Qed.

(** ** Two arrays of lanes *)

Lemma wp_lanes2 : forall (f : list Z -> list Z -> list Z) g v u (Q : list (list Z) -> Prop), vok 16 v -> vok 16 u ->
  (forall x y, arr U16 16 x -> arr U16 16 y -> f x y = lanes (fun k => g (get x k) (get y k))) ->
  (forall x y, 0 <= g x y < 65536) ->
  (forall r, vok 16 r -> concat r = ztab 256 (fun k => g (get (concat v) k) (get (concat u) k)) -> Q r) ->
  wp (for_ 0 16 (fun k v => x <- row v k ;; y <- row u k ;; setrow v k (f x y))%M v) Q.
Proof.
  intros f g v u Q Vv Vu Hf Hg HQ. assert (len v = 16) as Lv by apply Vv. assert (len u = 16) as Lu by apply Vu.
  apply wp_rows with (d0 := []) (g := fun i => f (znth [] v i) (znth [] u i)); [lia| |].
  - intros i a Hi La Ea. apply wp_bind, wp_row with (d := []); [lia|]. rewrite Ea. apply wp_bind, wp_row with (d := []); [lia|].
    apply wp_setrow; [lia|]. reflexivity.
  - rewrite zskip_all, app_nil_r by lia.
    assert (forall i, 0 <= i < 16 -> arr U16 16 (znth [] v i) /\ arr U16 16 (znth [] u i)) as A.
    { intros i Hi. split; [apply (Forall_znth (arr U16 16) [] v (proj2 Vv) i)|apply (Forall_znth (arr U16 16) [] u (proj2 Vu) i)]; lia. }
    assert (vok 16 (ztab 16 (fun i => f (znth [] v i) (znth [] u i)))) as V.
    { split; [reflexivity|]. apply Forall_ztab. intros i Hi. destruct (A i Hi). rewrite Hf by auto. split; [now apply len_ztab|].
      apply Forall_ztab. intros k Hk. cbn. specialize (Hg (get (znth [] v i) k) (get (znth [] u i) k)). lia. }
    apply HQ; auto. apply vok_ext; auto.
    { split; [now apply len_ztab|]. apply Forall_ztab. intros k Hk. cbn. specialize (Hg (get (concat v) k) (get (concat u) k)). lia. }
    intros i k Hi Hk. rewrite znth_ztab by lia. destruct (A i Hi). rewrite Hf by auto. unfold lanes. rewrite !get_ztab by lia.
    rewrite !vok_concat by (auto; lia). unfold vg. replace ((16 * i + k) / 16) with i by dlia. replace ((16 * i + k) mod 16) with k by dlia. reflexivity.
Qed.

Lemma vuninit2_ok : forall junk t n m, 0 <= n -> 0 <= m -> len (vuninit2 junk t n m) = n /\ Forall (vok m) (vuninit2 junk t n m).
Proof. intros. split; [now apply len_ztab|]. apply Forall_ztab. intros. now apply vok_uninit. Qed.
Lemma vuninit2_avec : forall junk t n, 0 <= n -> avec n (vuninit2 junk t n 16).
Proof. intros. apply vuninit2_ok; lia. Qed.
Lemma vuninit2_len : forall junk t n m, 0 <= n -> 0 <= m -> Forall (fun x => len x = m) (vuninit2 junk t n m).
Proof. intros. apply Forall_ztab. intros. now apply len_ztab. Qed.
Lemma vuninit3_len : forall junk t n m, 0 <= n -> 0 <= m ->
  len (vuninit3 junk t n m) = n /\ Forall (fun x => len x = n /\ Forall (fun y => len y = m) x) (vuninit3 junk t n m).
Proof. intros. split; [now apply len_ztab|]. apply Forall_ztab. intros. split; [now apply len_ztab|]. now apply vuninit2_len. Qed.

Lemma avec_polys : forall n r, avec n r -> vec U16 n (polys r).
Proof.
  intros n r (Lr & Fr). unfold polys. split; [now rewrite len_map|]. apply Forall_map. eapply Forall_impl; [|exact Fr].
  intros v Hv. apply vok_len. exact Hv.
Qed.

Lemma pack_round_avx : forall c r v, usaber c = false -> vec U16 (SABER_L c) r -> vec_mem (SABER_L c) v ->
  (forall i k, 0 <= i < SABER_L c -> 0 <= k < 256 -> eqm 8192 (get (getr r i) k) (get (getr v i) k)) ->
  pack_vec 10 (map (map arnd) r) = pack_vec 10 (round_vec (par c) v).
Proof.
  intros c r v Hu Vr Vv E. assert (len r = SABER_L c) as Lr by apply Vr. assert (len v = SABER_L c) as Lv by apply Vv.
  assert (forall f (a : list (list Z)) , vec_mem (SABER_L c) a -> vec_mem (SABER_L c) (map (map f) a)) as VM.
  { intros f a (La & Fa). split; [now rewrite len_map|]. apply Forall_map. eapply Forall_impl; [|apply Fa].
    cbn beta. intros. now rewrite len_map. }
  apply pack_vec_eqm with (n := SABER_L c); [lia|apply VM, (vec_vec_mem U16); auto|apply VM; auto|].
  intros i Hi k Hk. destruct (vec_getr _ _ _ _ Vr Hi) as (Lri & Tri). pose proof (vec_mem_getr _ _ _ Vv Hi) as Lvi.
  pose proof (typed_get U16 _ k Tri ltac:(lia)) as B. cbn [tmin tmax] in B.
  specialize (E i k Hi Hk). unfold round_vec. unfold getr in *. rewrite !znth_map with (d := []) by lia.
  unfold get in *. rewrite !znth_map with (d := 0) by lia. apply arnd_ok; auto. lia.
Qed.

Section Ref.
  Variable prf : mem -> list Z -> Z -> list Z -> Z -> M (list Z).
  Variable P : Z -> list Z -> list Z.
  Hypothesis Hprf : prf_spec prf P.
  Hypothesis HP : bytes_fun P.
  Context {S : Type}.
  Variable rb : S -> Z -> list Z * S.
  Hypothesis Hrb : forall st n, 0 <= n -> arr U8 n (fst (rb st n)).
  Variable c : cfg.
  Hypothesis Hu : usaber c = false.

  Notation n := (SABER_L c).
  Lemma expand_A_13 : forall seed, gen_mat 13 n (P (n * SABER_POLYVECBYTES c) seed) = expand_A P (par c) seed.
  Proof. intros. rewrite <- expand_A_eq. now rewrite (EQ13 c Hu). Qed.
  Lemma round_pack : forall B sa sv r, polys sa = mod13 sv -> avec n r ->
    (forall i, 0 <= i < n -> peq 8192 (concat (znth [] r i)) (getr (mat_vec n B (polys sa)) i)) ->
    pack_vec 10 (map (map arnd) (polys r)) = pack_vec 10 (round_vec (par c) (mat_vec n B sv)).
  Proof.
    intros B sa sv r Es Vr Er. pose proof (cfg_L c). apply pack_round_avx; auto; [now apply avec_polys|apply vec_mem_mat_vec; lia|].
    intros i k Hi Hk. assert (len r = n) by apply Vr. unfold getr at 1, polys. rewrite znth_map with (d := []) by lia.
    eapply eqm_trans; [apply Er; auto|]. rewrite Es. now apply mat_vec_mod13.
  Qed.
  Lemma vec_arnd : forall r, avec n r -> vec U16 n (map (map arnd) (polys r)).
  Proof.
    intros r Vr. destruct (avec_polys _ _ Vr) as (Lp & Fp). split; [now rewrite len_map|]. apply Forall_map. eapply Forall_impl; [|exact Fp].
    intros l (Ll & Tl). split; [now rewrite len_map|]. apply Forall_map. eapply Forall_impl; [|exact Tl]. cbn beta. intros x _. unfold arnd. cbn. dlia.
  Qed.

  Lemma wp_avx_keypair : forall junk st pk sk (Q : list Z * list Z * S -> Prop),
    SABER_INDCPA_PUBLICKEYBYTES c <= len pk -> SABER_INDCPA_SECRETKEYBYTES c <= len sk ->
    (let seed_A := P 32 (fst (rb st 32)) in
     let st1 := snd (rb st 32) in
     let seed_s := fst (rb st1 32) in
     Q (pke_pk P (par c) seed_A seed_s ++ zskip (SABER_INDCPA_PUBLICKEYBYTES c) pk,
        pke_sk P (par c) seed_s ++ zskip (SABER_INDCPA_SECRETKEYBYTES c) sk,
        snd (rb st1 32))) ->
    wp (avx_indcpa_kem_keypair prf rb junk c st pk sk) Q.
  Proof.
    intros junk st pk sk Q Hpk Hsk HQ. unfold avx_indcpa_kem_keypair. pose proof (cfg_L c) as HL. cbv zeta.
    change SABER_SEEDBYTES with 32.
    unfold SABER_INDCPA_PUBLICKEYBYTES, SABER_INDCPA_SECRETKEYBYTES, SABER_POLYVECCOMPRESSEDBYTES in *.
    change SABER_POLYCOMPRESSEDBYTES with 320 in *. change SABER_SEEDBYTES with 32 in *.
    destruct (Hrb st 32 ltac:(lia)) as (L1 & T1). set (r1 := fst (rb st 32)) in *. set (st1 := snd (rb st 32)) in *.
    destruct (Hrb st1 32 ltac:(lia)) as (L2 & T2). set (r2 := fst (rb st1 32)) in *.
    apply wp_bind. eapply wp_mono; [apply load_values_ok|]. intros g Hg.
    apply wp_bind, wp_randombytes; [rewrite uninit_len; lia|]. fold r1 st1. cbn beta iota.
    rewrite zskip_all by (rewrite uninit_len; lia). rewrite app_nil_r.
    apply wp_bind, Hprf; [lia|lia|lia|auto|]. rewrite (zskip_all 32 r1) by lia. rewrite app_nil_r.
    replace (zfirst 32 r1) with r1 by (rewrite <- L1; symmetry; apply zfirst_all).
    destruct (HP 32 r1 ltac:(lia) ltac:(split; auto; lia)) as (LA & TA). set (seed_A := P 32 r1) in *.
    apply wp_bind, wp_randombytes; [rewrite uninit_len; lia|]. fold r2. cbn beta iota.
    rewrite zskip_all by (rewrite uninit_len; lia). rewrite app_nil_r.
    apply wp_bind, (wp_avx_GenMatrix prf P Hprf HP c Hu); auto; [apply mat_mem_uninit3; lia|lia|].
    replace (zfirst 32 seed_A) with seed_A by (rewrite <- LA; symmetry; apply zfirst_all).
    rewrite expand_A_13.
    apply wp_bind, (wp_avx_GenSecret prf P Hprf HP c Hu); auto; [apply vec_mem_uninit2; lia|lia|].
    replace (zfirst 32 r2) with r2 by (rewrite <- L2; symmetry; apply zfirst_all). rewrite expand_s_eq.
    set (A := expand_A P (par c) seed_A). set (s := expand_s P (par c) r2).
    assert (vec_mem n s) as Vs by apply expand_s_mem.
    apply wp_bind. eapply wp_mono; [apply wp_load_polys; [lia|now apply vec_mod13|apply len_ztab; lia|apply vuninit2_len; lia]|]. intros sa (Vsa & Esa).
    destruct (vuninit3_len junk 6 n 16 ltac:(lia) ltac:(lia)) as (LU & FU).
    apply wp_bind. eapply wp_mono; [apply wp_load_matrix; [lia|apply (expand_A_mat P c seed_A)|exact LU|exact FU]|]. intros aa (Vaa & Eaa). fold A in Eaa.
    destruct (vuninit2_ok junk 7 n 64 ltac:(lia) ltac:(lia)) as (LB & FB).
    apply wp_bind. eapply wp_mono; [apply (eval_buckets_ok _ n sa); auto; lia|]. intros bb Hbb.
    apply wp_bind. eapply wp_mono; [apply (matrix_vector_mul_ok _ n g aa sa bb); auto; [lia|apply vuninit2_avec; lia]|]. intros rs (Vrs & Ers).
    change (cmat n 1 aa) with (transpose n (map polys aa)) in Ers. rewrite Eaa in Ers.
    apply wp_bind, wp_avx_round; [lia|auto|]. intros ra Vra Era.
    apply wp_bind, wp_POLVECq2BS; auto; [now apply vec_mod13|].
    apply wp_bind, wp_store_polys; [lia|auto|apply (vec_vec_mem U16), vec_mod13; auto|]. rewrite Era.
    apply wp_bind, wp_POLVECp2BS.
    { unfold SABER_POLYVECCOMPRESSEDBYTES. change SABER_POLYCOMPRESSEDBYTES with 320. lia. }
    { now apply vec_arnd. }
    unfold SABER_POLYVECCOMPRESSEDBYTES. change SABER_POLYCOMPRESSEDBYTES with 320.
    assert (pack_vec 10 (map (map arnd) (polys rs)) = pack_vec 10 (pub_vec (par c) A s)) as ->.
    { unfold pub_vec. rewrite par_l. eapply round_pack; eauto. }
    assert (len (pack_vec 10 (pub_vec (par c) A s)) = n * 320) as Lp.
    { rewrite len_pack_vec by lia. unfold pub_vec, round_vec. rewrite len_map, par_l, len_mat_vec by lia. lia. }
    apply wp_bind, wp_copy with (doff := n * 320) (soff := 0); auto; try lia.
    { rewrite len_app, Lp, len_zskip by lia. lia. }
    apply wp_ret. rewrite (zfirst_app_at (n * 320)) by auto. rewrite zskip_0.
    replace (zfirst 32 seed_A) with seed_A by (rewrite <- LA; symmetry; apply zfirst_all).
    rewrite <- (zskip_zskip 32 (n * 320)), (zskip_app_at (n * 320)) by (auto; lia). rewrite zskip_zskip by lia. rewrite app_assoc.
    assert (pack_vec (SABER_EQ c) (mod13 s) = pke_sk P (par c) r2) as ->.
    { unfold pke_sk. rewrite par_eq. fold s. rewrite (EQ13 c Hu). apply pack_vec_eqm with (n := n); auto; [lia|apply (vec_vec_mem U16), vec_mod13; auto|].
      intros i Hi. rewrite getr_mod13. apply peq_mod13. }
    exact HQ.
  Qed.

  Lemma wp_avx_enc : forall junk m seed_sp pk ct (Q : list Z -> Prop),
    32 <= len m -> typed U8 m -> 32 <= len seed_sp -> typed U8 seed_sp ->
    SABER_INDCPA_PUBLICKEYBYTES c <= len pk -> typed U8 pk -> SABER_BYTES_CCA_DEC c <= len ct ->
    Q (pke_enc P (par c) (zfirst (SABER_INDCPA_PUBLICKEYBYTES c) pk) (zfirst 32 m) (zfirst 32 seed_sp) ++ zskip (SABER_BYTES_CCA_DEC c) ct) ->
    wp (avx_indcpa_kem_enc prf junk c m seed_sp pk ct) Q.
  Proof.
    intros junk m r pk ct Q Lm Tm Lr Tr Lpk Tpk Lct HQ. unfold avx_indcpa_kem_enc. pose proof (cfg_L c) as HL. pose proof (cfg_ET c) as HET. cbv zeta.
    unfold SABER_BYTES_CCA_DEC, SABER_INDCPA_PUBLICKEYBYTES, SABER_INDCPA_SECRETKEYBYTES, SABER_POLYVECCOMPRESSEDBYTES in *.
    change SABER_POLYCOMPRESSEDBYTES with 320 in *. change SABER_SEEDBYTES with 32 in *. rewrite cfg_SCALE in *.
    apply wp_bind. eapply wp_mono; [apply load_values_ok|]. intros g Hg.
    apply wp_bind, wp_copy with (doff := 0) (soff := n * 320); auto; try lia; [rewrite uninit_len; lia|].
    change (zfirst 0 ?l) with (@nil Z). rewrite (zskip_all (0 + 32)) by (rewrite uninit_len; lia). cbn [app]. rewrite app_nil_r.
    set (sd := zfirst 32 (zskip (n * 320) pk)).
    assert (arr U8 32 sd) as (Lsd & Tsd).
    { split; [apply len_zfirst; rewrite len_zskip; lia|]. now apply Forall_zfirst, Forall_zskip. }
    apply wp_bind, (wp_avx_GenMatrix prf P Hprf HP c Hu); auto; [apply mat_mem_uninit3; lia|lia|].
    rewrite (zfirst_all_at 32 sd) by auto.
    rewrite expand_A_13.
    apply wp_bind, (wp_avx_GenSecret prf P Hprf HP c Hu); auto; [apply vec_mem_uninit2; lia|]. rewrite expand_s_eq.
    set (A := expand_A P (par c) sd). set (s := expand_s P (par c) (zfirst 32 r)).
    assert (vec_mem n s) as Vs by apply expand_s_mem.
    apply wp_bind. eapply wp_mono; [apply wp_load_polys; [lia|now apply vec_mod13|apply len_ztab; lia|apply vuninit2_len; lia]|]. intros sa (Vsa & Esa).
    destruct (vuninit3_len junk 10 n 16 ltac:(lia) ltac:(lia)) as (LU & FU).
    apply wp_bind. eapply wp_mono; [apply wp_load_matrix; [lia|apply (expand_A_mat P c sd)|exact LU|exact FU]|]. intros aa (Vaa & Eaa). fold A in Eaa.
    destruct (vuninit2_ok junk 13 n 64 ltac:(lia) ltac:(lia)) as (LB & FB).
    apply wp_bind. eapply wp_mono; [apply (eval_buckets_ok _ n sa); auto; lia|]. intros bb Hbb.
    apply wp_bind. eapply wp_mono; [apply (matrix_vector_mul_ok _ n g aa sa bb); auto; [lia|apply vuninit2_avec; lia]|]. intros rs (Vrs & Ers).
    change (cmat n 0 aa) with (map polys aa) in Ers. rewrite Eaa in Ers.
    apply wp_bind, wp_avx_round; [lia|auto|]. intros ra Vra Era.
    apply wp_bind, wp_store_polys; [lia|auto|apply vec_mem_uninit2; lia|]. rewrite Era.
    pose proof (vec_arnd rs Vrs) as Varn.
    apply wp_bind, wp_POLVECp2BS; [|exact Varn|].
    { unfold SABER_POLYVECCOMPRESSEDBYTES. change SABER_POLYCOMPRESSEDBYTES with 320. lia. }
    unfold SABER_POLYVECCOMPRESSEDBYTES. change SABER_POLYCOMPRESSEDBYTES with 320.
    assert (pack_vec 10 (map (map arnd) (polys rs)) = pack_vec 10 (ct_vec (par c) A s)) as ->.
    { unfold ct_vec. rewrite par_l. eapply round_pack; eauto. }
    assert (len (pack_vec 10 (ct_vec (par c) A s)) = n * 320) as Lp.
    { rewrite len_pack_vec by lia. unfold ct_vec, round_vec. rewrite len_map, par_l, len_mat_vec by lia. lia. }
    apply wp_bind, wp_BS2POLVECp; auto.
    { unfold SABER_POLYVECCOMPRESSEDBYTES. change SABER_POLYCOMPRESSEDBYTES with 320. lia. }
    { apply vec_mem_uninit2. lia. }
    apply wp_bind. eapply wp_mono; [apply wp_load_polys; [lia|apply vec_unpack; lia|apply len_ztab; lia|apply vuninit2_len; lia]|]. intros pa (Vpa & Epa).
    apply wp_bind. eapply wp_mono; [apply (vector_vector_mul_ok _ n g pa sa bb); auto; [lia|apply vok_uninit; lia]|]. intros v (Vv & Ev). rewrite Epa, Esa in Ev.
    apply wp_bind, wp_lanes; [apply Vv|].
    destruct (vok_map (fun x => vadd x (vset1 avx_h1)) (fun z => (z + 4) mod 65536) v Vv) as (Vv1 & Ev1).
    { intros x Hx. apply lanes_map; auto; [intros; dlia|]. intros k Hk. unfold vset1, lanes. rewrite znth_ztab by lia. reflexivity. }
    set (v1 := map _ v) in *.
    apply wp_bind, wp_msg; [lia|auto|now apply uninit_len|].
    set (mp := regroup 8 1 256 m).
    assert (len mp = 256) as Lmp by now apply len_regroup.
    assert (Forall (fun z => 0 <= z < 2 ^ 1) mp) as Rmp by (apply regroup_range; lia).
    assert (typed U16 mp) as Tmp. { eapply typed_range with (w := 1); [cbn; lia|cbn; lia|exact Rmp]. }
    apply wp_bind.
    apply wp_rows with (d0 := []) (g := fun i => vsll (lanes (fun k => wrap U16 (znth 0 mp (i * 16 + k)))) (SABER_EP - 1)); [unfold vuninit; rewrite len_ztab; lia| |].
    { intros i a Hi La _. unfold vuninit in La. rewrite len_ztab in La by lia. apply wp_bind. unfold loadu. destruct (_ && _) eqn:E; [|lia].
      apply wp_bind, wp_emit. apply wp_ret. apply wp_bind, wp_setrow; [lia|]. apply wp_bind, wp_row with (d := []); [rewrite len_upd; lia|].
      rewrite znth_upd_same by lia. apply wp_setrow; [rewrite len_upd; lia|].
      apply znth_ext with []; [now rewrite !len_upd|]. rewrite !len_upd. intros k Hk. rewrite !znth_upd by (rewrite ?len_upd; lia).
      destruct (k =? i); auto. }
    rewrite zskip_all, app_nil_r by (unfold vuninit; rewrite len_ztab; lia).
    set (mv := ztab 16 _).
    assert (vok 16 mv /\ concat mv = map (fun z => 512 * z) mp) as (Vmv & Emv).
    { assert (forall i k, 0 <= i < 16 -> 0 <= k < 16 -> znth 0 (znth [] mv i) k = 512 * get mp (16 * i + k)) as G.
      { intros i k Hi Hk. unfold mv. rewrite znth_ztab by lia. unfold vsll, lanes. change (SABER_EP - 1 <=? 15) with true. rewrite !znth_ztab by lia.
        fold (get mp (i * 16 + k)). assert (0 <= get mp (i * 16 + k) < 2 ^ 1) by (apply (Forall_znth (fun z => 0 <= z < 2 ^ 1) 0 mp Rmp (i * 16 + k)); lia).
        rewrite Z.shiftl_mul_pow2 by (cbn; lia). change (2 ^ (SABER_EP - 1)) with 512. unfold wrap. change (2 ^ 16) with 65536. change (2 ^ 1) with 2 in *.
        rewrite (Z.mod_small (get _ _)) by lia. rewrite Z.mod_small by lia. replace (i * 16 + k) with (16 * i + k) by lia. lia. }
      assert (vok 16 mv) as V.
      { unfold mv. split; [reflexivity|]. apply Forall_ztab. intros i Hi. split; [reflexivity|]. apply Forall_ztab. intros k Hk.
        change (SABER_EP - 1 <=? 15) with true. cbv iota. apply (wrap_range U16). }
      split; [exact V|]. apply vok_ext; auto.
      - split; [now rewrite len_map|]. apply Forall_map. eapply Forall_impl; [|exact Rmp]. cbv beta. intros z Hz. change (2 ^ 1) with 2 in Hz. cbn [tmin tmax]. lia.
      - intros i k Hi Hk. unfold get at 1. rewrite G by lia. unfold get. now rewrite znth_map with (d := 0) by lia. }
    clearbody mv.
    set (gv := fun x y => ((x - y) mod 1024) / 2 ^ (SABER_EP - SABER_ET c)).
    assert (Het : 2 ^ (SABER_EP - SABER_ET c) = 128 \/ 2 ^ (SABER_EP - SABER_ET c) = 64 \/ 2 ^ (SABER_EP - SABER_ET c) = 16).
    { destruct c as [[] [] ?]; cbn; auto. }
    apply wp_bind, wp_lanes2 with (g := gv)
      (f := fun x y => vsrl (vand (vsub x y) (vset1 1023)) (SABER_EP - SABER_ET c)); auto.
    { intros x y Hx Hy. unfold vsrl, vand, vsub, vset1, lane2, lanes. apply ztab_ext. intros k Hk. rewrite !znth_ztab by lia.
      replace (SABER_EP - SABER_ET c <=? 15) with true by (unfold SABER_EP; lia). change (wrap U16 1023) with (Z.ones 10).
      rewrite Z.land_ones, Z.shiftr_div_pow2 by (unfold SABER_EP; lia). unfold gv. f_equal. unfold wrap, get. change (2 ^ 10) with 1024. change (2 ^ 16) with 65536. dlia. }
    { intros x y. unfold gv. assert (0 <= (x - y) mod 1024 < 1024) by (apply Z.mod_pos_bound; lia). destruct Het as [->|[->| ->]]; dlia. }
    intros vp Vvp Evp.
    apply wp_bind, wp_row with (d := []); [destruct Varn; lia|].
    destruct (vec_getr _ _ _ 0 Varn ltac:(lia)) as (L0 & _).
    apply wp_bind, wp_store_poly; auto.
    destruct (vok_len vp Vvp) as (Lvp & Tvp).
    apply wp_bind, wp_POLT2BS; auto.
    { rewrite cfg_SCALE, uninit_len by lia. lia. }
    { lia. }
    rewrite cfg_SCALE, zskip_all by (rewrite uninit_len; lia). rewrite app_nil_r.
    set (cm := pack (SABER_ET c) (concat vp)).
    assert (arr U8 (32 * SABER_ET c) cm) as (Lcm & Tcm) by (split; [apply len_pack; lia|apply pack_typed]).
    apply wp_copy with (doff := n * 320) (soff := 0); auto; try lia.
    { rewrite len_app, Lp, len_zskip by lia. lia. }
    rewrite (zfirst_app_at (n * 320)) by auto. rewrite zskip_0, (zfirst_all_at _ cm) by auto.
    rewrite <- (zskip_zskip (32 * SABER_ET c) (n * 320)), (zskip_app_at (n * 320)) by (auto; lia). rewrite zskip_zskip by lia.
    match type of HQ with Q (?l ++ _) => match goal with |- Q (?a ++ ?b ++ ?r) => replace (a ++ b ++ r) with (l ++ r); [exact HQ|] end end.
    rewrite app_assoc. f_equal. unfold pke_enc. rewrite par_l, par_et.
    assert (zfirst 32 (zskip (n * 320) (zfirst (n * 320 + 32) pk)) = sd) as ->.
    { assert (len (zfirst (n * 320 + 32) pk) = n * 320 + 32) by (apply len_zfirst; lia). unfold sd.
      apply znth_ext with 0; rewrite !len_zfirst; rewrite ?len_zskip; rewrite ?len_zfirst; try lia.
      intros i Hi. rewrite !znth_zfirst, !znth_zskip by lia. rewrite znth_zfirst by lia. auto. }
    fold A s. f_equal.
    unfold cm. symmetry. unfold ct_msg. apply pack_eqm; [lia|auto|apply len_ztab; lia|]. intros k Hk.
    rewrite Evp, !get_ztab by lia. rewrite par_l, par_c1, par_et.
    assert (get (unpack 1 (zfirst 32 m)) k = get mp k) as ->. { change 32 with (32 * 1). now rewrite unpack_first. }
    assert (unpack_vec 10 n (zfirst (n * 320 + 32) pk) = unpack_vec 10 n pk) as ->.
    { unfold unpack_vec. apply ztab_ext. intros i Hi.
      rewrite <- (unpack_first 10 (zskip _ pk)), <- (unpack_first 10 (zskip _ (zfirst _ pk))) by lia. f_equal.
      assert (len (zfirst (n * 320 + 32) pk) = n * 320 + 32) by (apply len_zfirst; lia).
      apply znth_ext with 0; rewrite !len_zfirst; rewrite ?len_zskip; rewrite ?len_zfirst; try lia.
      intros j Hj. rewrite !znth_zfirst, !znth_zskip by lia. rewrite znth_zfirst by lia. auto. }
    assert (eqm 8192 (get (concat v) k) (get (inner (Z.to_nat n) (unpack_vec 10 n pk) s) k)) as Ek.
    { eapply eqm_trans; [apply Ev; auto|]. apply inner_eqm; auto; intros.
      - apply peq_refl.
      - rewrite getr_mod13. apply peq_mod13. }
    destruct (vok_len v Vv) as (Lcv & _).
    rewrite Ev1, Emv. unfold get at 1 2. rewrite !znth_map with (d := 0) by lia. fold (get (concat v) k) (get mp k).
    destruct Ek as (q & ->). generalize (get (inner (Z.to_nat n) (unpack_vec 10 n pk) s) k) as x. generalize (get mp k) as y.
    intros y x. unfold gv. clear - Hu. unfold SABER_EP.
    assert (SABER_ET c = 3 \/ SABER_ET c = 4 \/ SABER_ET c = 6) as H2 by (destruct c as [[] [] ?]; cbn; lia).
    assert (h1 c = 4) as -> by (destruct c as [[] [] ?]; [discriminate|reflexivity|discriminate|reflexivity|discriminate|reflexivity]).
    change (2 ^ (10 - 1)) with 512. change (2 ^ 9) with 512. change (2 ^ 10) with 1024.
    exists 0. rewrite Z.mul_0_r, Z.add_0_r.
    assert (((x + 8192 * q + 4) mod 65536 - 512 * y) mod 1024 = (x - 512 * y + 4) mod 1024) as -> by dlia.
    destruct H2 as [->|[->| ->]]; cbn -[Z.div Z.modulo Z.mul Z.add Z.sub]; dlia.
  Qed.

  Lemma wp_avx_dec : forall junk sk ct m (Q : list Z -> Prop),
    SABER_INDCPA_SECRETKEYBYTES c <= len sk -> typed U8 sk ->
    SABER_BYTES_CCA_DEC c <= len ct -> typed U8 ct -> 32 <= len m ->
    Q (pke_dec (par c) (zfirst (SABER_INDCPA_SECRETKEYBYTES c) sk) ct ++ zskip 32 m) ->
    wp (avx_indcpa_kem_dec junk c sk ct m) Q.
  Proof.
    intros junk sk ct m Q Lsk Tsk Lct Tct Lm HQ. unfold avx_indcpa_kem_dec. pose proof (cfg_L c) as HL. pose proof (cfg_ET c) as HET. cbv zeta.
    unfold SABER_BYTES_CCA_DEC, SABER_INDCPA_PUBLICKEYBYTES, SABER_INDCPA_SECRETKEYBYTES, SABER_POLYVECCOMPRESSEDBYTES in *.
    change SABER_POLYCOMPRESSEDBYTES with 320 in *. rewrite cfg_SCALE in *.
    apply wp_bind. eapply wp_mono; [apply load_values_ok|]. intros g Hg.
    apply wp_bind, wp_BS2POLVECq; auto; [apply vec_mem_uninit2; lia|].
    rewrite cfg_POLYVECBYTES in *. rewrite (EQ13 c Hu) in *.
    apply wp_bind, wp_BS2POLVECp; auto.
    { unfold SABER_POLYVECCOMPRESSEDBYTES. change SABER_POLYCOMPRESSEDBYTES with 320. lia. }
    { apply vec_mem_uninit2. lia. }
    apply wp_bind. eapply wp_mono; [apply wp_load_polys; [lia|apply vec_unpack; lia|apply len_ztab; lia|apply vuninit2_len; lia]|]. intros sa (Vsa & Esa).
    apply wp_bind. eapply wp_mono; [apply wp_load_polys; [lia|apply vec_unpack; lia|apply len_ztab; lia|apply vuninit2_len; lia]|]. intros pa (Vpa & Epa).
    apply wp_bind, (wp_lanes (fun x => vxor x x)); [apply len_ztab; lia|].
    destruct (vok_map (fun x => vxor x x) (fun z => 0) (vuninit junk 5 16)) as (V0 & _); [apply vok_uninit; lia| |].
    { intros x Hx. apply lanes_map; auto; [intros; lia|]. intros k Hk. now rewrite Z.lxor_nilpotent. }
    destruct (vuninit2_ok junk 8 n 64 ltac:(lia) ltac:(lia)) as (LB & FB).
    apply wp_bind. eapply wp_mono; [apply (eval_buckets_ok _ n sa); auto; lia|]. intros bb Hbb.
    apply wp_bind. eapply wp_mono; [apply (vector_vector_mul_ok _ n g pa sa bb); auto; lia|]. intros v (Vv & Ev). rewrite Epa, Esa in Ev.
    apply wp_bind, wp_store_poly; [exact Vv|now apply uninit_len|].
    destruct (vok_len v Vv) as (Lv & Tv).
    apply wp_bind, wp_copy with (doff := 0) (soff := n * 320); auto; try lia; [rewrite uninit_len; lia|].
    change (zfirst 0 ?l) with (@nil Z). rewrite (zskip_all (0 + 32 * SABER_ET c)) by (rewrite uninit_len; lia). cbn [app]. rewrite app_nil_r.
    set (sc := zfirst (32 * SABER_ET c) (zskip (n * 320) ct)).
    assert (arr U8 (32 * SABER_ET c) sc) as (Lsc & Tsc).
    { split; [apply len_zfirst; rewrite len_zskip; lia|]. now apply Forall_zfirst, Forall_zskip. }
    apply wp_bind, wp_BS2POLT; auto.
    { rewrite cfg_SCALE. lia. }
    { rewrite uninit_len; lia. }
    rewrite (zskip_all 256 (uninit junk 4 256)) by (rewrite uninit_len; lia). rewrite app_nil_r.
    unfold sc. rewrite unpack_first by lia.
    set (cm := unpack (SABER_ET c) (zskip (n * 320) ct)).
    assert (len cm = 256) as Lcm by apply len_unpack.
    assert (typed U16 cm) as Tcm by (apply unpack_typed; lia).
    assert (avx_h2 c = h2 c) as H2 by (unfold avx_h2, h2; now rewrite (EQ13 c Hu)).
    pose proof (cfg_h2 c) as Hh2.
    apply wp_bind, wp_map1 with
      (f := fun j => ((get (concat v) j + h2 c - get cm j * 2 ^ (SABER_EP - SABER_ET c)) mod 1024) / 512); auto; [lia| |].
    { intros j a Hj La Ta Ga. rewrite H2. split; [|split].
      - destruct c as [[] [] ?]; try reflexivity; discriminate.
      - cbn [lok tmin tmax]. unfold SABER_EP. repeat split; auto; lia.
      - cbn [val val_bin ty promote common]. unfold cv, uw. cbn [subr signed]. rewrite Ga. change 1023 with (Z.ones 10).
        rewrite Z.land_ones, Z.shiftr_div_pow2 by (cbn; lia). change (2 ^ 10) with 1024. change (2 ^ (SABER_EP - 1)) with 512. unfold wrap. apply Z.mod_small.
        dlia. }
    apply wp_POL2MSG; [lia|apply len_ztab; lia| |].
    { intros k Hk. rewrite get_ztab by lia. dlia. }
    change (regroup 1 8 32) with (pack 1).
    match type of HQ with Q (?l ++ _) => match goal with |- Q (?a ++ ?r) => replace a with l; [exact HQ|] end end.
    unfold pke_dec. rewrite par_l, par_et, par_eq, (EQ13 c Hu). fold cm.
    symmetry. unfold dec_msg. apply pack_eqm; [lia|apply len_ztab; lia|apply len_ztab; lia|]. intros k Hk.
    rewrite !get_ztab by lia. rewrite par_l, par_c2, par_et.
    assert (unpack_vec 13 n (zfirst (n * (32 * 13)) sk) = unpack_vec 13 n sk) as ->.
    { unfold unpack_vec. apply ztab_ext. intros i Hi.
      rewrite <- (unpack_first 13 (zskip _ sk)), <- (unpack_first 13 (zskip _ (zfirst _ sk))) by lia. f_equal.
      assert (len (zfirst (n * (32 * 13)) sk) = n * (32 * 13)) by (apply len_zfirst; nia).
      apply znth_ext with 0; rewrite !len_zfirst; rewrite ?len_zskip; rewrite ?len_zfirst; try nia.
      intros j Hj. rewrite !znth_zfirst, !znth_zskip by nia. rewrite znth_zfirst by nia. auto. }
    specialize (Ev k Hk). destruct Ev as (q & ->).
    generalize (get (inner (Z.to_nat n) (unpack_vec 10 n ct) (unpack_vec 13 n sk)) k) as x. generalize (get cm k) as y.
    intros y x. clear. unfold SABER_EP. rewrite (Z.mul_comm y).
    replace (x + 8192 * q + h2 c - 2 ^ (10 - SABER_ET c) * y) with (x + h2 c - 2 ^ (10 - SABER_ET c) * y + 8192 * q) by ring.
    generalize (x + h2 c - 2 ^ (10 - SABER_ET c) * y) as t. clear x y. intros t.
    change (2 ^ (10 - 1)) with 512. change (2 ^ 10) with 1024. change (2 ^ 1) with 2. change (2 ^ 9) with 512.
    exists 0. rewrite Z.mul_0_r, Z.add_0_r. f_equal. dlia.
  Qed.
End Ref.
