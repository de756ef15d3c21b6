(** The key-encapsulation functions of the AVX2 code against the specification and the reference implementation. *)
From Coq Require Import ZArith List Bool Lia.
From Verif Require Import Lib.Arr Lib.CInt Lib.CMon Lib.Wire Spec.Bits Spec.Ring Spec.Sampling Spec.Saber Spec.Keccak Spec.Sym Spec.M4Spec Model.Params Model.Pack
  Model.AvxKem Model.Poly Model.Verify Model.Indcpa Model.Kem Model.Api Proof.PackP Proof.PackThm Proof.VerifyP Proof.PolyP Proof.IndcpaP Proof.KemP
  Proof.SpongeP Proof.HashThm Proof.SymP Proof.KemThm Proof.Dist Proof.M4Thm Proof.AvxKemP Proof.AvxIndP.
Import ListNotations.
Local Open Scope Z_scope.

Section Ref.
  Variable hash_h hash_g : mem -> list Z -> list Z -> Z -> M (list Z).
  Variable prf : mem -> list Z -> Z -> list Z -> Z -> M (list Z).
  Variable H G : list Z -> list Z.
  Variable X : Z -> list Z -> list Z.
  Hypothesis Hh : hash_spec hash_h 32 H.
  Hypothesis Hg : hash_spec hash_g 64 G.
  Hypothesis Hprf : prf_spec prf X.
  Hypothesis HH : forall x, arr U8 32 (H x).
  Hypothesis HG : forall x, arr U8 64 (G x).
  Hypothesis HX : bytes_fun X.
  Context {S : Type}.
  Variable rb : S -> Z -> list Z * S.
  Hypothesis Hrb : forall st n, 0 <= n -> arr U8 n (fst (rb st n)).

  Lemma wp_avx_kem_keypair : forall junk c st pk sk (Q : list Z * list Z * S * Z -> Prop),
    usaber c = false -> len pk = SABER_PUBLICKEYBYTES c -> len sk = SABER_SECRETKEYBYTES c ->
    (let '(r1, s1) := rb st 32 in
     let '(r2, s2) := rb s1 32 in
     let '(z, s3) := rb s2 32 in
     Q (kem_pk X (par c) r1 r2, kem_sk H X (par c) r1 r2 z, s3, 0)) ->
    wp (avx_kem_keypair prf rb hash_h junk c st pk sk) Q.
  Proof.
    intros junk c st pk sk Q Hu Lpk Lsk HQ. unfold avx_kem_keypair.
    destruct (sizes c) as (E1 & E2 & _). pose proof (cfg_L c). pose proof (cfg_EQ c).
    apply wp_bind, (wp_avx_keypair prf X Hprf HX rb Hrb c Hu); [unfold SABER_PUBLICKEYBYTES in *; lia| |].
    { unfold SABER_INDCPA_SECRETKEYBYTES. rewrite cfg_POLYVECBYTES. lia. }
    cbn beta iota zeta. change (SABER_INDCPA_PUBLICKEYBYTES c) with (SABER_PUBLICKEYBYTES c).
    change (SABER_INDCPA_SECRETKEYBYTES c) with (SABER_POLYVECBYTES c). rewrite cfg_POLYVECBYTES, E1, E2.
    destruct (rb st 32) as (r1, s1) eqn:R1. destruct (rb s1 32) as (r2, s2) eqn:R2. destruct (rb s2 32) as (z, s3) eqn:R3.
    cbn [fst snd]. rewrite R2. cbn [fst snd].
    fold (kem_pk X (par c) r1 r2).
    destruct (kem_pk_arr X HX c r1 r2) as (Lk & Tk); [change r1 with (fst (r1, s1)); rewrite <- R1; apply Hrb; lia|]. rewrite E1 in Lk. set (PK := kem_pk X (par c) r1 r2) in *.
    destruct (pke_sk_arr X c r2) as (Ls & Ts). set (SK := pke_sk X (par c) r2) in *.
    set (n1 := SABER_L c * (32 * SABER_EQ c)) in *. set (n2 := SABER_L c * 320 + 32) in *.
    assert (0 <= n1 /\ 0 <= n2 < 2 ^ 32) by (unfold n1, n2; nia).
    rewrite (zskip_all n2 pk) by lia. rewrite app_nil_r.
    assert (len (zskip n1 sk) = n2 + 64) as Lt by (rewrite len_zskip; lia).
    apply wp_bind, wp_copy with (doff := n1) (soff := 0); try lia; auto.
    { rewrite len_app. lia. }
    rewrite zskip_0, (zfirst_all_at n2 PK), (zfirst_app_at n1 SK) by auto.
    rewrite <- (zskip_zskip n2 n1), (zskip_app_at n1 SK) by (auto; lia).
    set (T := zskip n2 (zskip n1 sk)). assert (len T = 64) as LT by (unfold T; rewrite len_zskip; lia).
    replace (n1 + n2 + 64 - 64) with (n1 + n2) by lia. replace (n1 + n2 + 64 - SABER_KEYBYTES) with (n1 + n2 + 32) by (unfold SABER_KEYBYTES; lia).
    apply wp_bind, wp_at; [rewrite !len_app; lia|].
    rewrite <- (zskip_zskip n2 n1), (zskip_app_at n1 SK), (zskip_app_at n2 PK) by (auto; lia).
    apply Hh; try lia; auto; rewrite (zfirst_all_at n2 PK) by auto.
    rewrite (app_assoc SK), (zfirst_app_at (n1 + n2)) by (rewrite len_app; lia).
    destruct (HH PK) as (LH & TH).
    assert (len (zskip 32 T) = 32) as LT2 by (rewrite len_zskip; lia).
    assert (len (SK ++ PK) = n1 + n2) as L12 by (rewrite len_app; lia).
    apply wp_bind, wp_ptr; [rewrite !len_app; lia|].
    rewrite <- (zskip_zskip 32 (n1 + n2)), (zskip_app_at (n1 + n2)), (zskip_app_at 32) by (auto; lia).
    apply wp_bind, wp_randombytes; [unfold SABER_KEYBYTES; lia|]. cbn beta iota. change SABER_KEYBYTES with 32. rewrite R3. cbn [fst snd].
    rewrite (zskip_all 32 (zskip 32 T)) by lia. rewrite app_nil_r.
    apply wp_bind, wp_at; [rewrite !len_app; lia|]. apply wp_ret. apply wp_ret.
    rewrite (app_assoc (SK ++ PK)), (zfirst_app_at (n1 + n2 + 32)) by (rewrite !len_app; lia).
    unfold kem_sk in HQ. fold PK SK in HQ. rewrite <- !app_assoc. exact HQ.
  Qed.

  Lemma wp_avx_kem_enc : forall junk cf st c k pk (Q : list Z * list Z * S * Z -> Prop),
    usaber cf = false -> len c = SABER_BYTES_CCA_DEC cf -> len k = 32 -> arr U8 (SABER_PUBLICKEYBYTES cf) pk ->
    (let '(r, s1) := rb st 32 in
     Q (fst (kem_enc H G X (par cf) pk r), snd (kem_enc H G X (par cf) pk r), s1, 0)) ->
    wp (avx_kem_enc prf rb hash_h hash_g junk cf st c k pk) Q.
  Proof.
    intros junk cf st c k pk Q Hu Lc Lk (Lpk & Tpk) HQ. unfold avx_kem_enc.
    destruct (sizes cf) as (E1 & _ & E3). pose proof (cfg_L cf). pose proof (cfg_ET cf).
    change (SABER_INDCPA_PUBLICKEYBYTES cf) with (SABER_PUBLICKEYBYTES cf).
    destruct (Hrb st 32 ltac:(lia)) as (Lr & Tr). destruct (rb st 32) as (r, s1) eqn:R. cbn [fst] in Lr, Tr.
    destruct (uninit8_arr junk 1 64 ltac:(lia)) as (LU & TU).
    apply wp_bind, wp_randombytes; [lia|]. cbn beta iota. rewrite R. cbn [fst snd].
    set (T := zskip 32 (uninit8 junk 1 64)). assert (len T = 32) as LT by (unfold T; rewrite len_zskip; lia).
    assert (typed U8 T) as TT by (unfold T; now apply Forall_zskip).
    assert (len (r ++ T) = 64) as LrT by (rewrite len_app; lia).
    apply wp_bind, Hh; try lia; [now apply typed_app|]. rewrite (zfirst_app_at 32 r) by auto.
    rewrite (zskip_app_at 32 r) by auto. set (m := H r). destruct (HH r) as (Lm & Tm). fold m in Lm, Tm.
    assert (len (m ++ T) = 64) as LmT by (rewrite len_app; lia).
    apply wp_bind, wp_at; [lia|]. rewrite (zskip_app_at 32 m), (zfirst_app_at 32 m) by auto.
    assert (SABER_PUBLICKEYBYTES cf < 2 ^ 32) by lia.
    apply Hh; try lia; auto; rewrite (zfirst_all_at _ pk) by auto.
    rewrite (zskip_all 32 T) by lia. rewrite app_nil_r. destruct (HH pk) as (Lh & Th).
    assert (len (m ++ H pk) = 64) as Lb by (rewrite len_app; lia).
    apply wp_bind, Hg; [rewrite uninit_len; lia|lia|lia|now apply typed_app|]; rewrite (zfirst_all_at _ (m ++ H pk)) by auto.
    rewrite zskip_all by (rewrite uninit_len; lia). rewrite app_nil_r.
    set (kr := G (m ++ H pk)). destruct (HG (m ++ H pk)) as (Lkr & Tkr). fold kr in Lkr, Tkr.
    assert (len (zskip 32 kr) = 32) as Lz by (rewrite len_zskip; lia).
    apply wp_bind, wp_ptr; [lia|].
    apply wp_bind, (wp_avx_enc prf X Hprf HX rb Hrb cf Hu); auto; try lia.
    { now apply typed_app. }
    { now apply Forall_zskip. }
    { change (SABER_INDCPA_PUBLICKEYBYTES cf) with (SABER_PUBLICKEYBYTES cf). lia. }
    change (SABER_INDCPA_PUBLICKEYBYTES cf) with (SABER_PUBLICKEYBYTES cf).
    rewrite (zfirst_all_at _ pk), (zfirst_app_at 32 m), (zfirst_all_at 32 (zskip 32 kr)) by auto.
    rewrite (zskip_all _ c) by lia. rewrite app_nil_r.
    unfold kem_enc in HQ. fold m kr in HQ. cbn zeta in HQ. cbn [fst snd] in HQ.
    set (ct := pke_enc X (par cf) pk m (zskip 32 kr)) in *.
    destruct (pke_enc_arr X cf pk m (zskip 32 kr)) as (Lct & Tct). fold ct in Lct, Tct. rewrite <- E3 in Lct.
    apply wp_bind, wp_at; [lia|].
    assert (SABER_BYTES_CCA_DEC cf < 2 ^ 32) by lia.
    apply Hh; try lia; auto; rewrite (zfirst_all_at _ ct) by auto.
    rewrite (zskip_all 32 (zskip 32 kr)) by lia. rewrite app_nil_r. destruct (HH ct) as (Lhc & Thc).
    assert (len (zfirst 32 kr) = 32) as Lf by (apply len_zfirst; lia).
    assert (len (zfirst 32 kr ++ H ct) = 64) as Lb2 by (rewrite len_app; lia).
    apply wp_bind, Hh; try lia.
    { apply typed_app; auto. now apply Forall_zfirst. }
    rewrite (zfirst_all_at 64 (zfirst 32 kr ++ H ct)) by auto.
    rewrite (zskip_all 32 k) by lia. rewrite app_nil_r. now apply wp_ret.
  Qed.

  Lemma wp_avx_kem_dec : forall junk cf k c sk (Q : list Z * Z -> Prop),
    usaber cf = false -> len k = 32 -> arr U8 (SABER_BYTES_CCA_DEC cf) c -> arr U8 (SABER_SECRETKEYBYTES cf) sk ->
    Q (kem_dec H G X (par cf) sk c, 0) ->
    wp (avx_kem_dec prf hash_h hash_g junk cf k c sk) Q.
  Proof.
    intros junk cf k c sk Q Hu Lk (Lc & Tc) (Lsk & Tsk) HQ. unfold avx_kem_dec.
    destruct (sizes cf) as (E1 & E2 & E3). pose proof (cfg_L cf). pose proof (cfg_ET cf). pose proof (cfg_EQ cf).
    change (SABER_INDCPA_SECRETKEYBYTES cf) with (SABER_POLYVECBYTES cf). rewrite cfg_POLYVECBYTES.
    set (n1 := SABER_L cf * (32 * SABER_EQ cf)) in *. 
    set (n2 := SABER_L cf * 320 + 32) in *.
    assert (0 <= n1 /\ 0 <= n2 < 2 ^ 32) by (unfold n1, n2; nia).
    assert (SABER_BYTES_CCA_DEC cf < 2 ^ 32) as Hc32 by (rewrite E3; lia).
    apply wp_bind, wp_ptr; [lia|].
    apply wp_bind, (wp_avx_dec rb Hrb cf Hu); auto; [| |rewrite uninit_len; lia|].
    { change (SABER_INDCPA_SECRETKEYBYTES cf) with (SABER_POLYVECBYTES cf). rewrite cfg_POLYVECBYTES. fold n1. lia. }
    { lia. }
    change (SABER_INDCPA_SECRETKEYBYTES cf) with (SABER_POLYVECBYTES cf). rewrite cfg_POLYVECBYTES. fold n1.
    set (m := pke_dec (par cf) (zfirst n1 sk) c). destruct (pke_dec_arr cf (zfirst n1 sk) c) as (Lm & Tm). fold m in Lm, Tm.
    set (T := zskip 32 (uninit junk 1 64)). assert (len T = 32) as LT by (unfold T; rewrite len_zskip; rewrite uninit_len; lia).
    apply wp_bind, wp_copy with (doff := 32) (soff := n1 + n2); auto; try lia.
    { rewrite len_app. lia. }
    set (hs := zfirst 32 (zskip (n1 + n2) sk)).
    assert (arr U8 32 hs) as (Lhs & Ths).
    { unfold hs. split; [apply len_zfirst; rewrite len_zskip; lia|]. now apply Forall_zfirst, Forall_zskip. }
    rewrite (zfirst_app_at 32 m) by auto. rewrite (zskip_all (32 + 32)) by (rewrite len_app; lia). rewrite app_nil_r.
    assert (len (m ++ hs) = 64) as Lb by (rewrite len_app; lia).
    apply wp_bind, Hg; [rewrite uninit_len; lia|lia|lia|now apply typed_app|]; rewrite (zfirst_all_at _ (m ++ hs)) by auto.
    rewrite zskip_all by (rewrite uninit_len; lia). rewrite app_nil_r.
    set (kr := G (m ++ hs)). destruct (HG (m ++ hs)) as (Lkr & Tkr). fold kr in Lkr, Tkr.
    assert (len (zskip 32 kr) = 32) as Lz by (rewrite len_zskip; lia).
    assert (len (zfirst 32 kr) = 32) as Lf by (apply len_zfirst; lia).
    apply wp_bind, wp_ptr; [lia|].
    apply wp_bind, (wp_avx_enc prf X Hprf HX rb Hrb cf Hu); auto; try lia.
    { now apply typed_app. }
    { now apply Forall_zskip. }
    { change (SABER_INDCPA_PUBLICKEYBYTES cf) with (SABER_PUBLICKEYBYTES cf). rewrite len_zskip; lia. }
    { now apply Forall_zskip. }
    { rewrite uninit_len; lia. }
    change (SABER_INDCPA_PUBLICKEYBYTES cf) with (SABER_PUBLICKEYBYTES cf). rewrite E1.
    rewrite (zfirst_app_at 32 m), (zfirst_all_at 32 (zskip 32 kr)) by auto.
    rewrite (zskip_all _ (uninit junk 0 _)) by (rewrite uninit_len; lia). rewrite app_nil_r.
    set (pk := zfirst n2 (zskip n1 sk)).
    set (ct := pke_enc X (par cf) pk m (zskip 32 kr)).
    destruct (pke_enc_arr X cf pk m (zskip 32 kr)) as (Lct & Tct). fold ct in Lct, Tct. rewrite <- E3 in Lct.
    apply wp_bind, wp_verify; auto; try lia.
    rewrite (zfirst_all_at _ c), (zfirst_all_at _ ct) by auto.
    apply wp_bind, wp_at; [lia|].
    apply Hh; try lia; auto; rewrite (zfirst_all_at _ c) by auto.
    rewrite (zskip_all 32 (zskip 32 kr)) by lia. rewrite app_nil_r. destruct (HH c) as (Lhc & Thc).
    apply wp_bind, wp_ptr; [unfold SABER_KEYBYTES; lia|].
    apply wp_bind, wp_asg; [reflexivity| |].
    { cbn [lok tmin tmax]. destruct (list_eqb c ct); cbn; lia. }
    cbn [val].
    assert (len (zfirst 32 kr ++ H c) = 64) as Lb2 by (rewrite len_app; lia).
    change SABER_KEYBYTES with 32. rewrite E2. replace (n1 + n2 + 64 - 32) with (n1 + n2 + 32) by lia.
    set (z := zskip (n1 + n2 + 32) sk). assert (len z = 32) as Lzz by (unfold z; rewrite len_zskip; lia).
    assert (typed U8 (zfirst 32 kr ++ H c)) as Tb2 by (apply typed_app; auto; now apply Forall_zfirst).
    assert (kem_dec H G X (par cf) sk c = H ((if list_eqb c ct then zfirst 32 kr else z) ++ H c)) as EK.
    { unfold kem_dec, dec_ct, dec_kr, dec_m, sk_pke, sk_pk, sk_hash, sk_z. rewrite par_l, par_eq. fold n1 n2 m hs kr pk ct z.
      rewrite (zfirst_all_at 32 z) by auto. unfold list_eqb. destruct (list_eq_dec Z.eq_dec c ct); reflexivity. }
    rewrite EK in HQ. replace (wrap U8 (if list_eqb c ct then 0 else 1)) with (if list_eqb c ct then 0 else 1) by (now destruct (list_eqb c ct)).
    apply wp_bind, wp_cmov; auto; try lia.
    { unfold z. now apply Forall_zskip. }
    { destruct (list_eqb c ct); auto. }
    assert (sel (if list_eqb c ct then 0 else 1) 32 (zfirst 32 kr ++ H c) z = (if list_eqb c ct then zfirst 32 kr else z) ++ H c) as ->.
    { unfold sel. destruct (list_eqb c ct); cbn [Z.eqb]; auto.
      now rewrite (zfirst_all_at 32 z), (zskip_app_at 32) by auto. }
    set (kf := if list_eqb c ct then zfirst 32 kr else z) in *.
    assert (arr U8 32 kf) as (Lkf & Tkf).
    { unfold kf. destruct (list_eqb c ct); split; auto; [now apply Forall_zfirst|now apply Forall_zskip]. }
    assert (len (kf ++ H c) = 64) as Lb3 by (rewrite len_app; lia).
    apply wp_bind, Hh; try lia.
    { now apply typed_app. }
    rewrite (zfirst_all_at 64 (kf ++ H c)) by auto.
    rewrite (zskip_all 32 k) by lia. rewrite app_nil_r. now apply wp_ret.
  Qed.
End Ref.

(** ** The AVX2 code against the reference code *)

Section Thm.
  Variable c : cfg.
  Hypothesis Hu : usaber c = false.
  Variable hh hg : mem -> list Z -> list Z -> Z -> M (list Z).
  Variable xof : mem -> list Z -> Z -> list Z -> Z -> M (list Z).
  Hypothesis Hh : hash_ok hh 32 (HashH (s90 c)).
  Hypothesis Hg : hash_ok hg 64 (HashG (s90 c)).
  Hypothesis Hx : stream_ok xof (PRF (s90 c)).

  Lemma C48_dec_lemma : forall junk junk' k ct sk, ss_buf k -> ct_bytes c ct -> sk_bytes c sk ->
    run (avx_kem_dec xof hh hg junk c k ct sk) = run (dec junk' c k ct sk) /\ run (dec junk' c k ct sk) <> None.
  Proof.
    intros junk junk' k ct sk Hk Hc Hs. rewrite dec_ok by auto. split; [|discriminate]. apply wp_run_eq.
    apply (wp_avx_kem_dec hh hg xof _ _ _ (hash_of _ _ _ Hh) (hash_of _ _ _ Hg) (xof_of _ _ Hx) (HashH_arr (s90 c)) (HashG_arr (s90 c)) (PRF_bytes (s90 c)) zrb zrb_ok); auto.
  Qed.

  Context {S : Type}.
  Variable rb : S -> Z -> list Z * S.
  Hypothesis Hrb : source_ok rb.

  Lemma C48_keypair_lemma : forall junk junk' st pk sk, pk_buf c pk -> sk_buf c sk ->
    run (avx_kem_keypair xof rb hh junk c st pk sk) = run (keypair rb junk' c st pk sk) /\ run (keypair rb junk' c st pk sk) <> None.
  Proof.
    intros junk junk' st pk sk Hp Hs. split; [|now apply keypair_ne]. rewrite keypair_ok by auto.
    destruct (rb st 32) as (r1, s1) eqn:R1. destruct (rb s1 32) as (r2, s2) eqn:R2. destruct (rb s2 32) as (z, s3) eqn:R3. apply wp_run_eq.
    apply (wp_avx_kem_keypair hh xof _ _ (hash_of _ _ _ Hh) (xof_of _ _ Hx) (HashH_arr (s90 c)) (PRF_bytes (s90 c)) rb Hrb); auto.
    now rewrite R1, R2, R3.
  Qed.

  Lemma C48_enc_lemma : forall junk junk' st ct k pk, ct_buf c ct -> ss_buf k -> pk_bytes c pk ->
    run (avx_kem_enc xof rb hh hg junk c st ct k pk) = run (enc rb junk' c st ct k pk) /\ run (enc rb junk' c st ct k pk) <> None.
  Proof.
    intros junk junk' st ct k pk Hc Hk Hp. split; [|now apply enc_ne]. rewrite enc_ok by auto.
    destruct (rb st 32) as (r, s1) eqn:R1. destruct (kem_enc _ _ _ _ _ _) as (ct', k') eqn:E. apply wp_run_eq.
    apply (wp_avx_kem_enc hh hg xof _ _ _ (hash_of _ _ _ Hh) (hash_of _ _ _ Hg) (xof_of _ _ Hx) (HashH_arr (s90 c)) (HashG_arr (s90 c)) (PRF_bytes (s90 c)) rb Hrb); auto.
    now rewrite R1, E.
  Qed.
End Thm.
