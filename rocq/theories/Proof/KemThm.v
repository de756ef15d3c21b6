(** Consequences of the refinement of the key-encapsulation functions, with the primitives of each variant. *)
From Coq Require Import ZArith List Bool Lia.
From Verif Require Import Lib.Arr Lib.CInt Lib.CMon Spec.Bits Spec.Ring Spec.Sampling Spec.Saber Spec.Noise Spec.Sym
  Model.Params Model.Indcpa Model.Kem Model.Api
  Proof.PackP Proof.PackThm Proof.PolyP Proof.IndcpaP Proof.KemP Proof.CtP Proof.SymP Proof.NoiseP.
Import ListNotations.
Local Open Scope Z_scope.

Section Thm.
  Context {S : Type}.
  Variable rb : S -> Z -> list Z * S.
  Hypothesis Hrb : source_ok rb.

  Lemma keypair_ok : forall junk c st pk sk, pk_buf c pk -> sk_buf c sk ->
    run (keypair rb junk c st pk sk) =
    let '(r1, s1) := rb st 32 in let '(r2, s2) := rb s1 32 in let '(z, s3) := rb s2 32 in
    Some (kem_pk (PRF (s90 c)) (par c) r1 r2, kem_sk (HashH (s90 c)) (PRF (s90 c)) (par c) r1 r2 z, s3, 0).
  Proof.
    intros. destruct (rb st 32) as (r1, s1) eqn:R1. destruct (rb s1 32) as (r2, s2) eqn:R2. destruct (rb s2 32) as (z, s3) eqn:R3.
    apply wp_run_eq.
    apply (wp_kem_keypair (hash_h c) (prf c) (HashH (s90 c)) (PRF (s90 c)) (hash_h_ok c) (prf_ok c) (HashH_arr (s90 c)) (PRF_bytes (s90 c)) rb Hrb); auto.
    now rewrite R1, R2, R3.
  Qed.

  Lemma enc_ok : forall junk c st ct k pk, ct_buf c ct -> ss_buf k -> pk_bytes c pk ->
    run (enc rb junk c st ct k pk) =
    let '(r, s1) := rb st 32 in
    let '(ct, k) := kem_enc (HashH (s90 c)) (HashG (s90 c)) (PRF (s90 c)) (par c) pk r in
    Some (ct, k, s1, 0).
  Proof.
    intros. destruct (rb st 32) as (r, s1) eqn:R1. destruct (kem_enc _ _ _ _ _ _) as (ct', k') eqn:E. apply wp_run_eq.
    apply (wp_kem_enc (hash_h c) (hash_g c) (prf c) (HashH (s90 c)) (HashG (s90 c)) (PRF (s90 c)) (hash_h_ok c) (hash_g_ok c) (prf_ok c) (HashH_arr (s90 c)) (HashG_arr (s90 c)) (PRF_bytes (s90 c)) rb Hrb); auto.
    now rewrite R1, E.
  Qed.

  Lemma ct_leak_ok : forall A B (R : A -> B -> Prop) m1 m2, ct R m1 m2 -> run m1 <> None -> run m2 <> None -> leak m1 = leak m2.
  Proof.
    intros A B R m1 m2 C H1 H2. destruct (run m1) eqn:E1; [|congruence]. destruct (run m2) eqn:E2; [|congruence].
    eapply ct_leak; eauto.
  Qed.

  Lemma slen_len : forall (a b : list Z), len a = len b -> slen a b.
  Proof. unfold len, slen. intros. lia. Qed.

  Lemma keypair_ne : forall junk c st pk sk, pk_buf c pk -> sk_buf c sk -> run (keypair rb junk c st pk sk) <> None.
  Proof.
    intros. rewrite keypair_ok by auto. destruct (rb st 32) as (r1, s1). destruct (rb s1 32) as (r2, s2). now destruct (rb s2 32).
  Qed.
  Lemma enc_ne : forall junk c st ct k pk, ct_buf c ct -> ss_buf k -> pk_bytes c pk -> run (enc rb junk c st ct k pk) <> None.
  Proof. intros. rewrite enc_ok by auto. destruct (rb st 32) as (r1, s1). now destruct (kem_enc _ _ _ _ _ _). Qed.

  Lemma keypair_leak : forall junk junk' c st st' pk pk' sk sk', pk_buf c pk -> sk_buf c sk -> pk_buf c pk' -> sk_buf c sk' ->
    leak (keypair rb junk c st pk sk) = leak (keypair rb junk' c st' pk' sk').
  Proof.
    intros. eapply ct_leak_ok; [|now apply keypair_ne|now apply keypair_ne].
    apply (ct_kem_keypair (prf c) (ct_prf_ c) rb Hrb (hash_h c) (ct_hash_h c)); apply slen_len; unfold pk_buf, sk_buf in *; congruence.
  Qed.

  Lemma enc_leak : forall junk junk' c st st' ct ct' k k' pk pk', ct_buf c ct -> ss_buf k -> pk_bytes c pk ->
    ct_buf c ct' -> ss_buf k' -> pk_bytes c pk' ->
    leak (enc rb junk c st ct k pk) = leak (enc rb junk' c st' ct' k' pk').
  Proof.
    intros. eapply ct_leak_ok; [|now apply enc_ne|now apply enc_ne].
    apply (ct_kem_enc (prf c) (ct_prf_ c) rb Hrb (hash_h c) (hash_g c) (ct_hash_h c) (ct_hash_g c)); apply slen_len; unfold ct_buf, ss_buf, pk_bytes, arr in *; intuition congruence.
  Qed.
End Thm.

Lemma dec_ok : forall junk c k ct sk, ss_buf k -> ct_bytes c ct -> sk_bytes c sk ->
  run (dec junk c k ct sk) = Some (kem_dec (HashH (s90 c)) (HashG (s90 c)) (PRF (s90 c)) (par c) sk ct, 0).
Proof.
  intros. apply wp_run_eq.
  apply (wp_kem_dec (hash_h c) (hash_g c) (prf c) (HashH (s90 c)) (HashG (s90 c)) (PRF (s90 c)) (hash_h_ok c) (hash_g_ok c) (prf_ok c) (HashH_arr (s90 c)) (HashG_arr (s90 c)) (PRF_bytes (s90 c))); auto.
Qed.

Lemma dec_leak : forall junk junk' c k k' ct ct' sk sk', ss_buf k -> ct_bytes c ct -> sk_bytes c sk ->
  ss_buf k' -> ct_bytes c ct' -> sk_bytes c sk' ->
  leak (dec junk c k ct sk) = leak (dec junk' c k' ct' sk').
Proof.
  intros. eapply ct_leak_ok; [|rewrite dec_ok by auto; discriminate|rewrite dec_ok by auto; discriminate].
  apply (ct_kem_dec (prf c) (ct_prf_ c) (hash_h c) (hash_g c) (ct_hash_h c) (ct_hash_g c)); apply slen_len; unfold ss_buf, ct_bytes, sk_bytes, arr in *; intuition congruence.
Qed.

(** ** Consequences *)

Lemma zlast : forall c sk, sk_bytes c sk -> sk_z (par c) sk = zskip (len sk - 32) sk.
Proof.
  intros c sk (L & _). destruct (sizes c) as (_ & E & _). unfold sk_z. rewrite par_l, par_eq.
  pose proof (cfg_L c). pose proof (cfg_EQ c). rewrite L, E.
  replace (_ + 64 - 32) with (SABER_L c * (32 * SABER_EQ c) + (SABER_L c * 320 + 32) + 32) by lia.
  apply zfirst_all_at. rewrite len_zskip by lia. lia.
Qed.

Lemma dec_reject : forall junk c k ct sk, ss_buf k -> ct_bytes c ct -> sk_bytes c sk ->
  ct <> dec_ct (HashG (s90 c)) (PRF (s90 c)) (par c) sk ct ->
  run (dec junk c k ct sk) = Some ((HashH (s90 c)) (zskip (len sk - 32) sk ++ (HashH (s90 c)) ct), 0).
Proof.
  intros. rewrite dec_ok by auto. unfold kem_dec. destruct (list_eq_dec _ _ _); [contradiction|].
  now rewrite zlast with (c := c) by auto.
Qed.

Lemma dec_accept : forall junk c k ct sk, ss_buf k -> ct_bytes c ct -> sk_bytes c sk ->
  ct = dec_ct (HashG (s90 c)) (PRF (s90 c)) (par c) sk ct ->
  run (dec junk c k ct sk) = Some ((HashH (s90 c)) (zfirst 32 (dec_kr (HashG (s90 c)) (par c) sk ct) ++ (HashH (s90 c)) ct), 0).
Proof. intros. rewrite dec_ok by auto. unfold kem_dec. destruct (list_eq_dec _ _ _); [reflexivity|contradiction]. Qed.

Lemma dec_unique : forall junk c k ct1 ct2 sk, ss_buf k -> ct_bytes c ct1 -> ct_bytes c ct2 -> sk_bytes c sk ->
  ct1 <> ct2 -> dec_m (par c) sk ct1 = dec_m (par c) sk ct2 ->
  run (dec junk c k ct1 sk) = Some ((HashH (s90 c)) (zskip (len sk - 32) sk ++ (HashH (s90 c)) ct1), 0) \/
  run (dec junk c k ct2 sk) = Some ((HashH (s90 c)) (zskip (len sk - 32) sk ++ (HashH (s90 c)) ct2), 0).
Proof.
  intros junk c k ct1 ct2 sk Hk H1 H2 Hs N E.
  assert (dec_ct (HashG (s90 c)) (PRF (s90 c)) (par c) sk ct1 = dec_ct (HashG (s90 c)) (PRF (s90 c)) (par c) sk ct2) as D
    by (unfold dec_ct, dec_kr; now rewrite E).
  destruct (list_eq_dec Z.eq_dec ct1 (dec_ct (HashG (s90 c)) (PRF (s90 c)) (par c) sk ct1)); [|left; now apply dec_reject].
  destruct (list_eq_dec Z.eq_dec ct2 (dec_ct (HashG (s90 c)) (PRF (s90 c)) (par c) sk ct2)); [|right; now apply dec_reject].
  congruence.
Qed.

Lemma some4_inj : forall A B C D (a a' : A) (b b' : B) (c c' : C) (d d' : D),
  Some (a, b, c, d) = Some (a', b', c', d') -> a = a' /\ b = b'.
Proof. intros. now inversion H. Qed.

Section Cor.
  Context {S : Type}.
  Variable rb : S -> Z -> list Z * S.
  Hypothesis Hrb : source_ok rb.

  Lemma keypair_out : forall junk c st pk0 sk0, pk_buf c pk0 -> sk_buf c sk0 ->
    run (keypair rb junk c st pk0 sk0) =
    Some (kem_pk (PRF (s90 c)) (par c) (draw1 rb st) (draw2 rb st),
          kem_sk (HashH (s90 c)) (PRF (s90 c)) (par c) (draw1 rb st) (draw2 rb st) (draw3 rb st),
          snd (rb (snd (rb (snd (rb st 32)) 32)) 32), 0).
  Proof.
    intros. rewrite keypair_ok by auto. unfold draw1, draw2, draw3.
    destruct (rb st 32) as (r1, s1). cbn [fst snd]. destruct (rb s1 32) as (r2, s2). cbn [fst snd]. now destruct (rb s2 32).
  Qed.

  Lemma enc_out : forall junk c st ct0 k0 pk, ct_buf c ct0 -> ss_buf k0 -> pk_bytes c pk ->
    run (enc rb junk c st ct0 k0 pk) =
    Some (fst (kem_enc (HashH (s90 c)) (HashG (s90 c)) (PRF (s90 c)) (par c) pk (draw1 rb st)),
          snd (kem_enc (HashH (s90 c)) (HashG (s90 c)) (PRF (s90 c)) (par c) pk (draw1 rb st)), snd (rb st 32), 0).
  Proof.
    intros. rewrite enc_ok by auto. unfold draw1.
    destruct (rb st 32) as (r1, s1). cbn [fst snd]. now destruct (kem_enc _ _ _ _ _ _).
  Qed.

  Lemma gen_pk_bytes : forall c r1 r2, arr U8 32 r1 -> pk_bytes c (kem_pk (PRF (s90 c)) (par c) r1 r2).
  Proof. intros. now apply (kem_pk_arr (PRF (s90 c)) (PRF_bytes (s90 c))). Qed.

  Lemma gen_sk_bytes : forall c r1 r2 z, arr U8 32 r1 -> arr U8 32 z -> sk_bytes c (kem_sk (HashH (s90 c)) (PRF (s90 c)) (par c) r1 r2 z).
  Proof.
    intros c r1 r2 z Hr (Lz & Tz). unfold sk_bytes, kem_sk. destruct (sizes c) as (E1 & E2 & _).
    destruct (gen_pk_bytes c r1 r2 Hr) as (L1 & T1). destruct (pke_sk_arr (PRF (s90 c)) c r2) as (L2 & T2).
    destruct ((HashH_arr (s90 c)) (kem_pk (PRF (s90 c)) (par c) r1 r2)) as (L3 & T3). split.
    - rewrite !len_app, L1, L2, L3, Lz, E2. lia.
    - apply typed_app; [exact T2|]. apply typed_app; [exact T1|]. now apply typed_app.
  Qed.

  Lemma enc_ct_bytes : forall c pk r, ct_bytes c (fst (kem_enc (HashH (s90 c)) (HashG (s90 c)) (PRF (s90 c)) (par c) pk r)).
  Proof.
    intros. unfold kem_enc. cbn [fst]. destruct (sizes c) as (_ & _ & E). unfold ct_bytes. rewrite E. apply pke_enc_arr.
  Qed.

  Lemma roundtrip : forall c junk1 junk2 junk3 st st' pk0 sk0 ct0 k0 k1 pk sk st2 ret1 ct k st3 ret2,
    pk_buf c pk0 -> sk_buf c sk0 -> ct_buf c ct0 -> ss_buf k0 -> ss_buf k1 ->
    run (keypair rb junk1 c st pk0 sk0) = Some (pk, sk, st2, ret1) ->
    run (enc rb junk2 c st' ct0 k0 pk) = Some (ct, k, st3, ret2) ->
    (forall i, 0 <= i < 256 -> in_window (kem_noise (HashH (s90 c)) (HashG (s90 c)) (PRF (s90 c)) (par c) (draw1 rb st) (draw2 rb st) (draw1 rb st') i)) ->
    run (dec junk3 c k1 ct sk) = Some (k, 0).
  Proof.
    intros c junk1 junk2 junk3 st st' pk0 sk0 ct0 k0 k1 pk sk st2 ret1 ct k st3 ret2 B1 B2 B3 B4 B5 E1 E2 HW.
    rewrite keypair_out in E1 by auto. apply some4_inj in E1. destruct E1 as (Epk & Esk).
    assert (pk_bytes c pk) as Bpk by (subst pk; apply gen_pk_bytes; apply Hrb; lia).
    rewrite enc_out in E2 by auto. apply some4_inj in E2. destruct E2 as (Ect & Ek).
    assert (ct_bytes c ct) as Bct by (subst ct; apply enc_ct_bytes).
    assert (arr U8 32 (draw3 rb st)) as Bz by (apply Hrb; lia).
    assert (sk_bytes c sk) as Bsk by (subst sk; apply gen_sk_bytes; auto; apply Hrb; lia).
    rewrite dec_ok by auto. subst sk ct k pk. do 2 f_equal.
    apply (kem_roundtrip (HashH (s90 c)) (HashG (s90 c)) (PRF (s90 c)) (fun x => proj1 ((HashH_arr (s90 c)) x)) (fun x => PRF_len (s90 c) 32 x ltac:(lia))
             (fun x => proj2 ((HashH_arr (s90 c)) x))); [apply Bz|exact HW].
  Qed.

  (** Public-key layer, for arbitrary message and coins. *)
  Lemma pke_bit_api : forall c junk1 junk2 junk3 st pk0 sk0 m r ct0 m0,
    len pk0 = SABER_INDCPA_PUBLICKEYBYTES c -> len sk0 = SABER_INDCPA_SECRETKEYBYTES c ->
    len ct0 = SABER_BYTES_CCA_DEC c -> len m0 = 32 -> arr U8 32 m -> arr U8 32 r ->
    exists pk sk st' ct m',
      run (indcpa_kem_keypair (prf c) rb junk1 c st pk0 sk0) = Some (pk, sk, st') /\
      run (indcpa_kem_enc (prf c) junk2 c m r pk ct0) = Some ct /\
      run (indcpa_kem_dec junk3 c sk ct m0) = Some m' /\
      forall i, 0 <= i < 256 ->
        (fbit 8 m' i = fbit 8 m i <->
         in_window (noise (par c) (expand_A (PRF (s90 c)) (par c) ((PRF (s90 c)) 32 (draw1 rb st))) (expand_s (PRF (s90 c)) (par c) (draw2 rb st))
                      (expand_s (PRF (s90 c)) (par c) r) (unpack 1 m) i)).
  Proof.
    intros c junk1 junk2 junk3 st pk0 sk0 m r ct0 m0 L1 L2 L3 L4 (Lm & Tm) (Lr & Tr).
    set (pk := pke_pk (PRF (s90 c)) (par c) ((PRF (s90 c)) 32 (draw1 rb st)) (draw2 rb st)).
    set (sk := pke_sk (PRF (s90 c)) (par c) (draw2 rb st)).
    assert (arr U8 (SABER_INDCPA_PUBLICKEYBYTES c) pk) as (Lp & Tp).
    { destruct (sizes c) as (E & _). change (SABER_INDCPA_PUBLICKEYBYTES c) with (SABER_PUBLICKEYBYTES c). rewrite E.
      apply pke_pk_arr. apply (PRF_bytes (s90 c)); [lia|apply Hrb; lia]. }
    assert (arr U8 (SABER_INDCPA_SECRETKEYBYTES c) sk) as (Ls & Ts).
    { change (SABER_INDCPA_SECRETKEYBYTES c) with (SABER_POLYVECBYTES c). rewrite cfg_POLYVECBYTES. apply pke_sk_arr. }
    set (ct := pke_enc (PRF (s90 c)) (par c) pk m r).
    assert (arr U8 (SABER_BYTES_CCA_DEC c) ct) as (Lc & Tc).
    { destruct (sizes c) as (_ & _ & E). rewrite E. apply pke_enc_arr. }
    exists pk, sk, (snd (rb (snd (rb st 32)) 32)), ct, (pke_dec (par c) sk ct). split; [|split; [|split]].
    - apply wp_run_eq. apply (wp_keypair (prf c) (PRF (s90 c)) (prf_ok c) (PRF_bytes (s90 c)) rb Hrb); [lia|lia|]. cbn zeta.
      rewrite !zskip_all by lia. now rewrite !app_nil_r.
    - apply wp_run_eq. apply (wp_enc (prf c) (PRF (s90 c)) (prf_ok c) (PRF_bytes (s90 c))); auto; try lia.
      rewrite zskip_all by lia. rewrite app_nil_r. now rewrite !zfirst_all_at by auto.
    - apply wp_run_eq. apply wp_dec; auto; try lia. rewrite zskip_all by lia. rewrite app_nil_r. now rewrite !zfirst_all_at by auto.
    - intros i Hi. exact (pke_bit (PRF (s90 c)) c _ _ m r i (PRF_len (s90 c) 32 _ ltac:(lia)) Hi).
  Qed.
End Cor.

(** ** Randomness *)

Lemma logged_ok : forall S (rb : S -> Z -> list Z * S), source_ok rb -> source_ok (logged rb).
Proof. intros S rb H st n Hn. apply H. auto. Qed.

Lemma keypair_log : forall S (rb : S -> Z -> list Z * S) junk c st log pk sk, source_ok rb -> pk_buf c pk -> sk_buf c sk ->
  exists pk' sk' st', run (keypair (logged rb) junk c (st, log) pk sk) = Some (pk', sk', (st', log ++ [32; 32; 32]), 0).
Proof.
  intros. rewrite keypair_out by (auto; now apply logged_ok). cbn [logged fst snd]. do 3 eexists. rewrite <- !app_assoc. reflexivity.
Qed.

Lemma enc_log : forall S (rb : S -> Z -> list Z * S) junk c st log ct k pk, source_ok rb -> ct_buf c ct -> ss_buf k -> pk_bytes c pk ->
  exists ct' k' st', run (enc (logged rb) junk c (st, log) ct k pk) = Some (ct', k', (st', log ++ [32]), 0).
Proof. intros. rewrite enc_out by (auto; now apply logged_ok). cbn [logged fst snd]. do 3 eexists. reflexivity. Qed.

(** Sources that deliver the same bytes give the same result. *)
Lemma keypair_same : forall S S' (rb : S -> Z -> list Z * S) (rb' : S' -> Z -> list Z * S') junk junk' c st st' pk sk pk' sk',
  source_ok rb -> source_ok rb' -> pk_buf c pk -> sk_buf c sk -> pk_buf c pk' -> sk_buf c sk' ->
  draw1 rb st = draw1 rb' st' -> draw2 rb st = draw2 rb' st' -> draw3 rb st = draw3 rb' st' ->
  option_map (fun x => (fst (fst x), snd x)) (run (keypair rb junk c st pk sk)) =
  option_map (fun x => (fst (fst x), snd x)) (run (keypair rb' junk' c st' pk' sk')).
Proof. intros. rewrite !keypair_out by auto. cbn [option_map fst snd]. congruence. Qed.

Lemma enc_same : forall S S' (rb : S -> Z -> list Z * S) (rb' : S' -> Z -> list Z * S') junk junk' c st st' ct k ct' k' pk,
  source_ok rb -> source_ok rb' -> ct_buf c ct -> ss_buf k -> ct_buf c ct' -> ss_buf k' -> pk_bytes c pk ->
  draw1 rb st = draw1 rb' st' ->
  option_map (fun x => (fst (fst x), snd x)) (run (enc rb junk c st ct k pk)) =
  option_map (fun x => (fst (fst x), snd x)) (run (enc rb' junk' c st' ct' k' pk)).
Proof. intros. rewrite !enc_out by auto. cbn [option_map fst snd]. congruence. Qed.

(** ** Absence of undefined behaviour, determinism, traces *)

Lemma dec_ne : forall junk c k ct sk, ss_buf k -> ct_bytes c ct -> sk_bytes c sk -> run (dec junk c k ct sk) <> None.
Proof. intros. rewrite dec_ok by auto. discriminate. Qed.

Lemma leak_ne : forall A (m : M A), run m <> None -> leak m <> None.
Proof. unfold run, leak. intros A m H. destruct (m []); congruence. Qed.

Lemma dec_indep : forall junk junk' c k k' ct sk, ss_buf k -> ss_buf k' -> ct_bytes c ct -> sk_bytes c sk ->
  run (dec junk c k ct sk) = run (dec junk' c k' ct sk).
Proof. intros. now rewrite !dec_ok by auto. Qed.

Lemma dec_leak_some : forall junk junk' c k k' ct ct' sk sk', ss_buf k -> ct_bytes c ct -> sk_bytes c sk ->
  ss_buf k' -> ct_bytes c ct' -> sk_bytes c sk' ->
  leak (dec junk c k ct sk) = leak (dec junk' c k' ct' sk') /\ leak (dec junk c k ct sk) <> None.
Proof. intros. split; [now apply dec_leak|]. now apply leak_ne, dec_ne. Qed.

Section Cor2.
  Context {S : Type}.
  Variable rb : S -> Z -> list Z * S.
  Hypothesis Hrb : source_ok rb.

  Lemma keypair_indep : forall junk junk' c st pk pk' sk sk', pk_buf c pk -> sk_buf c sk -> pk_buf c pk' -> sk_buf c sk' ->
    run (keypair rb junk c st pk sk) = run (keypair rb junk' c st pk' sk').
  Proof. intros. now rewrite !keypair_out by auto. Qed.

  Lemma enc_indep : forall junk junk' c st ct ct' k k' pk, ct_buf c ct -> ss_buf k -> ct_buf c ct' -> ss_buf k' -> pk_bytes c pk ->
    run (enc rb junk c st ct k pk) = run (enc rb junk' c st ct' k' pk).
  Proof. intros. now rewrite !enc_out by auto. Qed.

  Lemma keypair_leak_some : forall junk junk' c st st' pk pk' sk sk', pk_buf c pk -> sk_buf c sk -> pk_buf c pk' -> sk_buf c sk' ->
    leak (keypair rb junk c st pk sk) = leak (keypair rb junk' c st' pk' sk') /\ leak (keypair rb junk c st pk sk) <> None.
  Proof. intros. split; [now apply keypair_leak|]. now apply leak_ne, keypair_ne. Qed.

  Lemma enc_leak_some : forall junk junk' c st st' ct ct' k k' pk pk', ct_buf c ct -> ss_buf k -> pk_bytes c pk ->
    ct_buf c ct' -> ss_buf k' -> pk_bytes c pk' ->
    leak (enc rb junk c st ct k pk) = leak (enc rb junk' c st' ct' k' pk') /\ leak (enc rb junk c st ct k pk) <> None.
  Proof. intros. split; [now apply enc_leak|]. now apply leak_ne, enc_ne. Qed.

  Lemma layout : forall junk c st pk0 sk0, pk_buf c pk0 -> sk_buf c sk0 ->
    exists pk sk st' s, run (keypair rb junk c st pk0 sk0) = Some (pk, sk, st', 0) /\
      len s = SABER_INDCPA_SECRETKEYBYTES c /\ len pk = SABER_PUBLICKEYBYTES c /\
      sk = s ++ pk ++ (HashH (s90 c)) pk ++ draw3 rb st.
  Proof.
    intros. rewrite keypair_out by auto. do 3 eexists. exists (pke_sk (PRF (s90 c)) (par c) (draw2 rb st)).
    split; [reflexivity|]. split; [|split].
    - change (SABER_INDCPA_SECRETKEYBYTES c) with (SABER_POLYVECBYTES c). rewrite cfg_POLYVECBYTES. apply pke_sk_arr.
    - apply gen_pk_bytes. apply Hrb. lia.
    - reflexivity.
  Qed.
End Cor2.

Lemma dec_embedded : forall junk c k ct s pk h z, ss_buf k -> ct_bytes c ct ->
  arr U8 (SABER_INDCPA_SECRETKEYBYTES c) s -> pk_bytes c pk -> arr U8 32 h -> arr U8 32 z ->
  run (dec junk c k ct (s ++ pk ++ h ++ z)) =
  let m := pke_dec (par c) s ct in
  let kr := (HashG (s90 c)) (m ++ h) in
  if list_eq_dec Z.eq_dec ct (pke_enc (PRF (s90 c)) (par c) pk m (zskip 32 kr))
  then Some ((HashH (s90 c)) (zfirst 32 kr ++ (HashH (s90 c)) ct), 0)
  else Some ((HashH (s90 c)) (z ++ (HashH (s90 c)) ct), 0).
Proof.
  intros junk c k ct s pk h z Hk Hct (Ls & Ts) (Lp & Tp) (Lh & Th) (Lz & Tz).
  destruct (sizes c) as (E1 & E2 & _).
  change (SABER_INDCPA_SECRETKEYBYTES c) with (SABER_POLYVECBYTES c) in Ls. rewrite cfg_POLYVECBYTES in Ls.
  rewrite E1 in Lp. pose proof (cfg_L c). pose proof (cfg_EQ c).
  assert (sk_bytes c (s ++ pk ++ h ++ z)) as Hsk.
  { split; [rewrite !len_app, E2; lia|]. apply typed_app; [exact Ts|]. apply typed_app; [exact Tp|]. now apply typed_app. }
  rewrite dec_ok by auto.
  assert (sk_pke (par c) (s ++ pk ++ h ++ z) = s) as Q1 by (unfold sk_pke; rewrite par_l, par_eq; now apply zfirst_app_at).
  assert (sk_pk (par c) (s ++ pk ++ h ++ z) = pk) as Q2.
  { unfold sk_pk; rewrite par_l, par_eq. rewrite zskip_app_at by auto. now apply zfirst_app_at. }
  assert (sk_hash (par c) (s ++ pk ++ h ++ z) = h) as Q3.
  { unfold sk_hash; rewrite par_l, par_eq. rewrite app_assoc. rewrite zskip_app_at by (rewrite len_app; lia). now apply zfirst_app_at. }
  assert (sk_z (par c) (s ++ pk ++ h ++ z) = z) as Q4.
  { unfold sk_z; rewrite par_l, par_eq. rewrite !app_assoc. rewrite zskip_app_at by (rewrite !len_app; lia). now apply zfirst_all_at. }
  unfold kem_dec, dec_ct, dec_kr, dec_m. rewrite Q1, Q2, Q3, Q4. cbn zeta.
  now destruct (list_eq_dec _ _ _).
Qed.
