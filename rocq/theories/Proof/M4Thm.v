(** The Cortex-M4 code against the reference implementation. *)
From Coq Require Import ZArith List Bool Lia.
From Verif Require Import Lib.Arr Lib.CInt Lib.CMon Lib.Wire Spec.Bits Spec.Ring Spec.Sampling Spec.Saber Spec.Keccak Spec.Sym Spec.M4Spec
  Model.Params Model.PolyMul Model.Indcpa Model.Kem Model.Api Model.M4
  Proof.Conv Proof.PackP Proof.PackThm Proof.PolyP Proof.ToomP Proof.IndcpaP Proof.KemP Proof.SpongeP Proof.HashThm Proof.SymP Proof.KemThm Proof.Dist
  Proof.M4PackP Proof.M4P.
Import ListNotations.
Local Open Scope Z_scope.

Lemma hash_of : forall h m F, hash_ok h m F -> hash_spec h m F.
Proof. intros h m F H junk out inp n Q H1 H2 H3 H4 HQ. eapply wp_mono; [apply H; auto|]. intros r ->. exact HQ. Qed.
Lemma to_hash : forall h m F, hash_spec h m F -> hash_ok h m F.
Proof. intros h m F H junk out inp n H1 H2 H3 H4. apply H; auto. Qed.
Lemma xof_of : forall h F, stream_ok h F -> prf_spec h F.
Proof. intros h F H junk out n inp Q H1 H2 H3 H4 HQ. eapply wp_mono; [apply H; auto|]. intros r ->. exact HQ. Qed.
Lemma to_xof : forall h F, prf_spec h F -> stream_ok h F.
Proof. intros h F H junk out n inp H1 H2 H3 H4. apply H; auto. Qed.

Lemma shake_pre : forall n m x, 0 <= n <= m -> arr U8 32 x -> SHAKE128 n x = zfirst n (SHAKE128 m x).
Proof. intros. now apply SHAKE128_prefix. Qed.

Definition zrb (u : unit) (n : Z) : list Z * unit := (zeros n, u).
Lemma zrb_ok : source_ok zrb.
Proof.
  intros u n Hn. split; cbn [zrb fst]; [now apply len_zeros|]. unfold typed, zeros. apply Forall_forall.
  intros x Hx. apply repeat_spec in Hx. subst x. change (0 <= 0 <= 255). lia.
Qed.

(** The reference multiplier as the multipliers of the Cortex-M4 code. *)
Definition ref_mul_acc (junk : mem) (a b res : list Z) : M (list Z * list Z) := (r <- poly_mul_acc junk a b res ;; ret (b, r))%M.
Definition ref_mul (junk : mem) (a b res : list Z) : M (list Z * list Z) := ref_mul_acc junk a b (zeros 256).
Lemma ref_mul_acc_ok : mul_acc_ok ref_mul_acc.
Proof.
  intros junk a b res Ha Hb Hr. unfold ref_mul_acc. destruct Ha as (La & Ta), Hb as (Lb & Tb). apply wp_bind, wp_poly_mul_acc; auto.
  intros r Tr Er. apply wp_ret. split; [now split|]. split; [exact Tr|]. intros k Hk. apply eqm_mod_eq; [lia|]. now apply Er.
Qed.
Lemma ref_mul_ok : mul_ok ref_mul.
Proof.
  intros junk a b res Ha Hb Hr. pose proof zeros_arr as Z0.
  eapply wp_mono; [apply (ref_mul_acc_ok junk a b (zeros 256)); auto|].
  intros (b', r) (Tb & Tr & Er). split; [exact Tb|]. split; [exact Tr|]. intros k Hk. rewrite Er by auto. f_equal.
  rewrite get_zeros. lia.
Qed.

Section Thm.
  Variable l : level.
  Notation c := (Cfg l false false).
  Variable hh hg : mem -> list Z -> list Z -> Z -> M (list Z).
  Variable xof : mem -> list Z -> Z -> list Z -> Z -> M (list Z).
  Variable mul mul_acc : mem -> list Z -> list Z -> list Z -> M (list Z * list Z).
  Hypothesis Hh : hash_ok hh 32 SHA3_256.
  Hypothesis Hg : hash_ok hg 64 SHA3_512.
  Hypothesis Hx : stream_ok xof SHAKE128.
  Hypothesis Hm : mul_ok mul.
  Hypothesis Ha : mul_acc_ok mul_acc.
  Lemma dec_run : forall cs junk k ct sk, ss_buf k -> ct_bytes c ct -> arr U8 (M4_SECRETKEYBYTES l cs) sk ->
    run (m4_kem_dec l cs SHAKE128 hh hg xof mul mul_acc junk k ct sk) =
    Some (kem_dec SHA3_256 SHA3_512 SHAKE128 (par c) (if cs then uncompress_sk (SABER_L c) sk else sk) ct, 0).
  Proof.
    intros. apply wp_run_eq.
    apply (wp_m4_kem_dec l cs SHAKE128 (PRF_bytes false) shake_pre mul mul_acc Hm Ha xof (xof_of _ _ Hx) zrb zrb_ok hh hg SHA3_256 SHA3_512
             (hash_of _ _ _ Hh) (hash_of _ _ _ Hg) SHA3_256_arr SHA3_512_arr); auto.
  Qed.

  Lemma C38_dec_lemma : forall junk junk' k ct sk, ss_buf k -> ct_bytes c ct -> sk_bytes c sk ->
    run (m4_kem_dec l false SHAKE128 hh hg xof mul mul_acc junk k ct sk) = run (dec junk' c k ct sk) /\
    run (dec junk' c k ct sk) <> None.
  Proof.
    intros junk junk' k ct sk Hk Hc Hs. rewrite dec_ok by auto. rewrite dec_run by (auto; destruct l; exact Hs).
    split; [reflexivity|discriminate].
  Qed.
  Context {S : Type}.
  Variable rb : S -> Z -> list Z * S.
  Hypothesis Hrb : source_ok rb.

  Lemma kp_run : forall cs junk st pk sk, pk_buf c pk -> len sk = M4_SECRETKEYBYTES l cs ->
    run (m4_kem_keypair l cs SHAKE128 hh xof mul mul_acc rb junk st pk sk) =
    let '(r1, s1) := rb st 32 in
    let '(r2, s2) := rb s1 32 in
    let '(z, s3) := rb s2 32 in
    let PK := kem_pk SHAKE128 (par c) r1 r2 in
    Some (PK, pack_vec (if cs then 4 else 13) (expand_s SHAKE128 (par c) r2) ++ PK ++ SHA3_256 PK ++ z, s3, 0).
  Proof.
    intros. destruct (rb st 32) as (r1, s1) eqn:R1. destruct (rb s1 32) as (r2, s2) eqn:R2. destruct (rb s2 32) as (z, s3) eqn:R3.
    cbv zeta. apply wp_run_eq.
    apply (wp_m4_kem_keypair l cs SHAKE128 (PRF_bytes false) shake_pre mul mul_acc Hm Ha xof (xof_of _ _ Hx) rb Hrb hh SHA3_256 (hash_of _ _ _ Hh) SHA3_256_arr); auto.
    rewrite R1, R2, R3. reflexivity.
  Qed.

  Lemma C38_keypair_lemma : forall junk junk' st pk sk, pk_buf c pk -> sk_buf c sk ->
    run (m4_kem_keypair l false SHAKE128 hh xof mul mul_acc rb junk st pk sk) = run (keypair rb junk' c st pk sk) /\
    run (keypair rb junk' c st pk sk) <> None.
  Proof.
    intros junk junk' st pk sk Hp Hs. rewrite keypair_ok by auto. rewrite kp_run by (destruct l; auto).
    destruct (rb st 32) as (r1, s1). destruct (rb s1 32) as (r2, s2). destruct (rb s2 32) as (z, s3).
    split; [|discriminate]. unfold kem_sk, pke_sk. rewrite par_eq. reflexivity.
  Qed.

  Lemma C38_enc_lemma : forall cs junk junk' st ct k pk, ct_buf c ct -> ss_buf k -> pk_bytes c pk ->
    run (m4_kem_enc l cs SHAKE128 hh hg xof mul mul_acc rb junk st ct k pk) = run (enc rb junk' c st ct k pk) /\
    run (enc rb junk' c st ct k pk) <> None.
  Proof.
    intros cs junk junk' st ct k pk Hc Hk Hp. rewrite enc_ok by auto.
    destruct (rb st 32) as (r, s1) eqn:R. cbn [s90].
    change (HashH false) with SHA3_256. change (HashG false) with SHA3_512. change (PRF false) with SHAKE128.
    destruct (kem_enc SHA3_256 SHA3_512 SHAKE128 (par c) pk r) as (ct', k') eqn:E. split; [|discriminate].
    apply wp_run_eq.
    apply (wp_m4_kem_enc l cs SHAKE128 (PRF_bytes false) shake_pre mul mul_acc Hm Ha xof (xof_of _ _ Hx) rb Hrb hh hg SHA3_256 SHA3_512
             (hash_of _ _ _ Hh) (hash_of _ _ _ Hg) SHA3_256_arr SHA3_512_arr); auto.
    rewrite R, E. reflexivity.
  Qed.

End Thm.

Lemma sext4_small : forall x, -8 <= x < 8 -> sext4 (x mod 2 ^ 4) = x.
Proof.
  intros. unfold sext4. change (2 ^ 4) with 16. rewrite Zplus_mod_idemp_l. rewrite Z.mod_small by lia. lia.
Qed.

Lemma uncompress_small : forall n s T, len s = n -> Forall (fun p => len p = 256) s -> Forall (Forall (fun x => -8 <= x < 8)) s ->
  uncompress_sk n (pack_vec 4 s ++ T) = pack_vec 13 s ++ T.
Proof.
  intros n s T Ln L R. unfold uncompress_sk.
  assert (len (pack_vec 4 s) = n * 128) as Lp by (rewrite len_pack_vec by lia; rewrite Ln; lia).
  rewrite zskip_app_at by auto. f_equal. f_equal.
  assert (unpack_vec 4 n (pack_vec 4 s ++ T) = unpack_vec 4 n (pack_vec 4 s)) as ->.
  { unfold unpack_vec. apply ztab_ext. intros i Hi.
    rewrite <- (unpack_first 4 (zskip _ (_ ++ _))), <- (unpack_first 4 (zskip _ (pack_vec _ _))) by lia. f_equal.
    assert (len (pack_vec 4 s ++ T) = n * 128 + len T) as LT by (rewrite len_app; lia). pose proof (len_nonneg T).
    apply znth_ext with 0; rewrite !len_zfirst; rewrite ?len_zskip; try lia.
    intros j Hj. rewrite !znth_zfirst, !znth_zskip by lia. rewrite znth_app1 by lia. reflexivity. }
  rewrite <- Ln. rewrite unpack_pack_vec by (auto; lia). rewrite map_map.
  clear - R. induction R as [|p s Hp Hs IH]; [reflexivity|]. cbn [map]. f_equal; [|exact IH]. rewrite map_map.
  clear - Hp. induction Hp as [|x p Hx Hp IH]; [reflexivity|]. cbn [map]. f_equal; [|exact IH]. now apply sext4_small.
Qed.

Lemma expand_small : forall l seed, len (expand_s SHAKE128 (par (Cfg l false false)) seed) = SABER_L (Cfg l false false) /\
  Forall (fun p => len p = 256) (expand_s SHAKE128 (par (Cfg l false false)) seed) /\
  Forall (Forall (fun x => -8 <= x < 8)) (expand_s SHAKE128 (par (Cfg l false false)) seed).
Proof.
  intros. set (c := Cfg l false false). assert (p_uniform (par c) = false) as U by (destruct l; reflexivity).
  unfold expand_s. rewrite U. unfold gen_vec. rewrite par_l.
  assert (0 <= SABER_L c) by (destruct l; discriminate).
  split; [now apply len_ztab|]. split; apply Forall_ztab; intros i Hi; [apply len_cbd_poly|].
  unfold cbd_poly. apply Forall_ztab. intros j Hj. pose proof (cbd_coef_range (p_mu (par c)) (zskip (32 * p_mu (par c) * i) (SHAKE128 (SABER_L c * (32 * p_mu (par c))) seed)) j).
  assert (0 <= p_mu (par c) <= 10) as B by (destruct l; split; discriminate).
  assert (p_mu (par c) / 2 <= 5) by (apply Z.div_le_upper_bound; lia). lia.
Qed.

Section Small.
  Variable l : level.
  Notation c := (Cfg l false false).
  Variable hh hg : mem -> list Z -> list Z -> Z -> M (list Z).
  Variable xof : mem -> list Z -> Z -> list Z -> Z -> M (list Z).
  Variable mul mul_acc : mem -> list Z -> list Z -> list Z -> M (list Z * list Z).
  Hypothesis Hh : hash_ok hh 32 SHA3_256.
  Hypothesis Hg : hash_ok hg 64 SHA3_512.
  Hypothesis Hx : stream_ok xof SHAKE128.
  Hypothesis Hm : mul_ok mul.
  Hypothesis Ha : mul_acc_ok mul_acc.

  Lemma C43_dec_lemma : forall junk junk' k ct sk, ss_buf k -> ct_bytes c ct -> arr U8 (M4_SECRETKEYBYTES l true) sk ->
    run (m4_kem_dec l true SHAKE128 hh hg xof mul mul_acc junk k ct sk) =
    run (dec junk' c k ct (uncompress_sk (SABER_L c) sk)) /\
    run (dec junk' c k ct (uncompress_sk (SABER_L c) sk)) <> None.
  Proof.
    intros junk junk' k ct sk Hk Hc Hs. rewrite (dec_run l hh hg xof mul mul_acc) by auto.
    assert (sk_bytes c (uncompress_sk (SABER_L c) sk)) as Hu.
    { destruct Hs as (Ls & Ts). pose proof (vec_mem_us l sk) as V. unfold uncompress_sk.
      assert (len (pack_vec 13 (map (map sext4) (unpack_vec 4 (SABER_L c) sk))) = SABER_L c * 416) as Lp
        by (rewrite len_pack_vec by lia; rewrite (proj1 V); lia).
      assert (len (zskip (SABER_L c * 128) sk) = SABER_L c * 320 + 32 + 64) as Lz
        by (rewrite len_zskip; rewrite Ls; destruct l; split || reflexivity; discriminate).
      split; [rewrite len_app, Lp, Lz; destruct l; reflexivity|].
      apply typed_app; [apply pack_vec_typed|now apply Forall_zskip]. }
    rewrite dec_ok by auto. split; [reflexivity|discriminate].
  Qed.

  Context {S : Type}.
  Variable rb : S -> Z -> list Z * S.
  Hypothesis Hrb : source_ok rb.

  Lemma C43_keypair_lemma : forall junk junk' st pk0 sk0 pk0' sk0', pk_buf c pk0 -> len sk0 = M4_SECRETKEYBYTES l true -> pk_buf c pk0' -> sk_buf c sk0' ->
    exists pk sk st', run (m4_kem_keypair l true SHAKE128 hh xof mul mul_acc rb junk st pk0 sk0) = Some (pk, sk, st', 0) /\
      arr U8 (M4_SECRETKEYBYTES l true) sk /\
      run (keypair rb junk' c st pk0' sk0') = Some (pk, uncompress_sk (SABER_L c) sk, st', 0).
  Proof.
    intros junk junk' st pk sk pk' sk' Hp Hs Hp' Hs'. rewrite keypair_ok by auto. rewrite (kp_run l hh xof mul mul_acc) by auto.
    pose proof (Hrb st 32) as A1. destruct (rb st 32) as (r1, s1). pose proof (Hrb s1 32) as A2. destruct (rb s1 32) as (r2, s2).
    pose proof (Hrb s2 32) as A3. destruct (rb s2 32) as (z, s3). cbn [fst] in A1, A2, A3.
    cbv zeta. destruct (expand_small l r2) as (E1 & E2 & E3).
    eexists _, _, _. split; [reflexivity|]. split.
    - destruct (A3 ltac:(lia)) as (Lz & Tz). destruct (gen_pk_bytes c r1 r2 (A1 ltac:(lia))) as (Lp & Tp). cbn [s90] in Lp, Tp.
      change (PRF false) with SHAKE128 in *. destruct (SHA3_256_arr (kem_pk SHAKE128 (par c) r1 r2)) as (LH & TH).
      split.
      + rewrite !len_app, Lz, LH, Lp, len_pack_vec, E1 by lia. destruct l; reflexivity.
      + apply typed_app; [apply pack_vec_typed|]. apply typed_app; [exact Tp|]. now apply typed_app.
    - rewrite uncompress_small by auto. unfold kem_sk, pke_sk. rewrite par_eq. reflexivity.
  Qed.
End Small.
