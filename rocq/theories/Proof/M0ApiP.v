(** The Cortex-M0 key encapsulation against the reference implementation. *)
From Coq Require Import ZArith List Bool Lia.
From Verif Require Import Lib.Arr Lib.CInt Lib.CMon Lib.Wire Spec.Bits Spec.Ring Spec.Sampling Spec.Keccak Spec.Sym Spec.Saber Spec.M0Spec Model.Params Model.Pack
  Model.Indcpa Model.Fips202 Model.Api Model.M0 Model.M0Kem Proof.PackP Proof.PackThm Proof.Conv Proof.PolyP Proof.SpongeP
  Proof.IndcpaP Proof.KemP Proof.SymP Proof.KemThm Proof.M0KaraP Proof.M0MulP Proof.M0KemThm.
Import ListNotations.
Local Open Scope Z_scope.

Lemma wp_wrap : forall junk a b r, arr U16 256 a -> arr U16 256 b -> arr U16 256 r ->
  wp (pol_mul_wrap junk a b r) (fun x => x = ztab 256 (fun k => (get r k + mul_coef a b k) mod 65536)).
Proof.
  intros junk a b r Ha Hb Hr. apply wp_pol_mul with (X := 65535) (Y := 65535); auto.
  - apply mulacc_school.
  - intros i _. apply (typed_u16 a i). apply Ha.
  - intros i _. apply (typed_u16 b i). apply Hb.
Qed.

Lemma some_eq : forall A (x y : A), Some x = Some y -> x = y.
Proof. intros A x y H. now inversion H. Qed.

(** ** The multiplier as written *)

Lemma ref_ite : forall A (c : bool) (a a' b b' : M A), ref a a' -> ref b b' -> ref (ite c a b) (ite c a' b').
Proof. intros A c a a' b b' H1 H2 t. unfold ite, bind, emit. destruct c; [apply H1|apply H2]. Qed.

Ltac reft Hm :=
  match goal with
  | |- ref ?m ?m => apply ref_refl
  | |- ref (let (_, _) := ?x in _) _ => destruct x
  | |- ref (bind _ _) _ => apply ref_bind; [|intros ?]
  | |- ref (for_ _ _ _ _) _ => apply ref_for; intros ? ?
  | |- ref (at_ _ _ _) _ => apply ref_at; intros ?
  | _ => apply Hm
  end.

Section Ref.
  Variable m1 m2 : list Z -> list Z -> list Z -> M (list Z).
  Hypothesis Hm : forall a b r, ref (m1 a b r) (m2 a b r).
  Context {S : Type}.
  Variable rb : S -> Z -> list Z * S.

  Lemma ref_MVK : forall junk g seed s res, ref (MatrixVectorMul_keypair m1 junk g seed s res) (MatrixVectorMul_keypair m2 junk g seed s res).
  Proof. intros. unfold MatrixVectorMul_keypair. repeat reft Hm. Qed.
  Lemma ref_MVE : forall junk g seed s c, ref (MatrixVectorMul_encryption m1 junk g seed s c) (MatrixVectorMul_encryption m2 junk g seed s c).
  Proof. intros. unfold MatrixVectorMul_encryption. repeat reft Hm. Qed.
  Lemma ref_VM : forall junk pk s v, ref (VectorMul m1 junk pk s v) (VectorMul m2 junk pk s v).
  Proof. intros. unfold VectorMul. repeat reft Hm. Qed.
  Lemma ref_indcpa_keypair : forall junk g st pk sk, ref (m0_indcpa_keypair m1 rb junk g st pk sk) (m0_indcpa_keypair m2 rb junk g st pk sk).
  Proof. intros. unfold m0_indcpa_keypair. repeat reft ref_MVK. Qed.
  Lemma ref_indcpa_enc : forall junk g m r pk ct, ref (m0_indcpa_enc m1 junk g m r pk ct) (m0_indcpa_enc m2 junk g m r pk ct).
  Proof. intros. unfold m0_indcpa_enc. repeat first [reft ref_MVE | apply ref_VM]. Qed.
  Lemma ref_kem_keypair : forall junk g st pk sk, ref (m0_kem_keypair m1 rb junk g st pk sk) (m0_kem_keypair m2 rb junk g st pk sk).
  Proof. intros. unfold m0_kem_keypair. repeat reft ref_indcpa_keypair. Qed.
  Lemma ref_kem_enc : forall junk g st c k pk, ref (m0_kem_enc m1 rb junk g st c k pk) (m0_kem_enc m2 rb junk g st c k pk).
  Proof. intros. unfold m0_kem_enc. repeat reft ref_indcpa_enc. Qed.
End Ref.

(** ** Key generation *)

Section Thm.
  Context {S : Type}.
  Variable rb : S -> Z -> list Z * S.
  Hypothesis Hrb : source_ok rb.

  Lemma C58_wrapping_lemma : forall junkm junk junk' g st pk sk, arr U8 280 (g_buf g) -> len (g_s g) = 25 -> pk_buf m0_cfg pk -> sk_buf m0_cfg sk ->
    run (m0_kem_keypair (pol_mul_wrap junkm) rb junk g st pk sk) = run (keypair rb junk' m0_cfg st pk sk).
  Proof.
    intros junkm junk junk' g st pk sk Hb Hs Lpk Lsk. rewrite (keypair_ok rb Hrb) by auto.
    destruct (rb st 32) as (r1, s1) eqn:R1. destruct (rb s1 32) as (r2, s2) eqn:R2. destruct (rb s2 32) as (z, s3) eqn:R3.
    apply wp_run_eq. apply (wp_m0_kem_keypair (pol_mul_wrap junkm) (wp_wrap junkm) rb Hrb); auto.
    rewrite R1, R2, R3. reflexivity.
  Qed.

  Lemma C58_as_written_lemma : forall junkm junk junk' g st pk sk r, arr U8 280 (g_buf g) -> len (g_s g) = 25 -> pk_buf m0_cfg pk -> sk_buf m0_cfg sk ->
    run (m0_kem_keypair (pol_mul junkm) rb junk g st pk sk) = Some r -> run (keypair rb junk' m0_cfg st pk sk) = Some r.
  Proof.
    intros junkm junk junk' g st pk sk r Hb Hs Lpk Lsk E. rewrite <- (C58_wrapping_lemma junkm junk junk' g st pk sk) by auto.
    eapply ref_run; [|exact E]. apply ref_kem_keypair. intros. apply ref_pol_mul.
  Qed.

  (** ** Encapsulation *)

  Lemma C59_exact_lemma : forall junkm junk g st c k pk, arr U8 280 (g_buf g) -> len (g_s g) = 25 -> ct_buf m0_cfg c -> ss_buf k -> pk_bytes m0_cfg pk ->
    run (m0_kem_enc (pol_mul_wrap junkm) rb junk g st c k pk) =
    Some (fst (m0_enc pk (draw1 rb st)), snd (m0_enc pk (draw1 rb st)), snd (rb st 32), 0).
  Proof.
    intros junkm junk g st c k pk Hb Hs Lc Lk Hpk. apply wp_run_eq. apply (wp_m0_kem_enc (pol_mul_wrap junkm) (wp_wrap junkm) rb Hrb); auto.
    unfold draw1. destruct (rb st 32) as (r, s1). reflexivity.
  Qed.

  Lemma C59_as_written_lemma : forall junkm junk g st c k pk r, arr U8 280 (g_buf g) -> len (g_s g) = 25 -> ct_buf m0_cfg c -> ss_buf k -> pk_bytes m0_cfg pk ->
    run (m0_kem_enc (pol_mul junkm) rb junk g st c k pk) = Some r ->
    r = (fst (m0_enc pk (draw1 rb st)), snd (m0_enc pk (draw1 rb st)), snd (rb st 32), 0).
  Proof.
    intros junkm junk g st c k pk r Hb Hs Lc Lk Hpk E.
    assert (run (m0_kem_enc (pol_mul_wrap junkm) rb junk g st c k pk) = Some r) as E'.
    { eapply ref_run; [|exact E]. apply ref_kem_enc. intros. apply ref_pol_mul. }
    rewrite C59_exact_lemma in E' by auto. symmetry. exact (some_eq _ _ _ E').
  Qed.
End Thm.

(** Same ciphertext as the reference exactly when the missing rounding constant makes no difference. *)
Lemma ct_msg_same : forall b s m, m0_ct_msg (inner 3 b s) m = ct_msg saber b s m <-> forall k, 0 <= k < 256 -> get (inner 3 b s) k mod 64 < 60.
Proof.
  intros b s m. unfold m0_ct_msg, ct_msg. cbn [saber p_l p_et]. change (Z.to_nat 3) with 3%nat. unfold rc1. cbn [saber p_eq]. cbv zeta.
  set (v := inner 3 b s).
  change (2 ^ (10 - 4)) with 64. change (2 ^ 10) with 1024. change (2 ^ 9) with 512.
  split.
  - intros E k Hk. apply (f_equal (fun l => get l k)) in E. rewrite !get_ztab in E by auto. change (2 ^ (13 - 10 - 1)) with 4 in E. clear - E. dlia.
  - intros E. apply ztab_ext. intros k Hk. specialize (E k Hk). change (2 ^ (13 - 10 - 1)) with 4. clear - E. dlia.
Qed.

Lemma pke_same : forall pk m r, m0_pke_enc pk m r = pke_enc SHAKE128 saber pk m r <-> forall k, 0 <= k < 256 -> get (enc_v pk r) k mod 64 < 60.
Proof.
  intros pk m r. unfold m0_pke_enc, pke_enc, enc_v. rewrite <- (ct_msg_same (unpack_vec 10 3 pk) (expand_s SHAKE128 saber r) (unpack 1 m)). cbv zeta. cbn [saber p_l p_et]. change (3 * 320) with 960.
  set (b := unpack_vec 10 3 pk). set (s := expand_s SHAKE128 _ r).
  set (PV := pack_vec 10 _).
  assert (forall v, len v = 256 -> Forall (fun x => 0 <= x < 16) v -> unpack 4 (pack 4 v) = v) as U.
  { intros v L F. rewrite unpack_pack by lia. rewrite <- (map_id v) at 2. apply map_ext_in. intros x Hx. rewrite Forall_forall in F.
    change (2 ^ 4) with 16. apply Z.mod_small. auto. }
  split.
  - intros E. apply app_inv_head in E. apply (f_equal (unpack 4)) in E. rewrite (U (m0_ct_msg _ _)), (U (ct_msg _ _ _ _)) in E; [exact E| | | |].
    + unfold ct_msg. apply len_ztab. lia.
    + unfold ct_msg. apply Forall_ztab. intros k Hk. cbn [saber p_et]. change (2 ^ (10 - 4)) with 64. change (2 ^ 10) with 1024. dlia.
    + unfold m0_ct_msg. apply len_ztab. lia.
    + unfold m0_ct_msg. apply Forall_ztab. intros k Hk. dlia.
  - intros E. do 2 f_equal. exact E.
Qed.

Section Same.
  Context {S : Type}.
  Variable rb : S -> Z -> list Z * S.
  Hypothesis Hrb : source_ok rb.

  Lemma C59_same_lemma : forall junkm junk junk' g st c k pk, arr U8 280 (g_buf g) -> len (g_s g) = 25 -> ct_buf m0_cfg c -> ss_buf k -> pk_bytes m0_cfg pk ->
    run (m0_kem_enc (pol_mul_wrap junkm) rb junk g st c k pk) = run (enc rb junk' m0_cfg st c k pk) <->
    forall i, 0 <= i < 256 -> get (enc_v pk (enc_seed pk (draw1 rb st))) i mod 64 < 60.
  Proof.
    intros junkm junk junk' g st c k pk Hb Hs Lc Lk Hpk. rewrite C59_exact_lemma, (enc_ok rb Hrb) by auto.
    rewrite <- (pke_same pk (SHA3_256 (draw1 rb st)) (enc_seed pk (draw1 rb st))).
    unfold draw1. destruct (rb st 32) as (r, s1). cbn [fst snd].
    change (HashH (s90 m0_cfg)) with SHA3_256. change (HashG (s90 m0_cfg)) with SHA3_512. change (PRF (s90 m0_cfg)) with SHAKE128. change (par m0_cfg) with saber.
    unfold m0_enc, kem_enc. cbv zeta. cbn [fst snd]. fold (enc_seed pk r).
    set (c1 := m0_pke_enc _ _ _). set (c2 := pke_enc _ _ _ _ _). split.
    - intros E. apply some_eq in E. exact (f_equal (fun x => fst (fst (fst x))) E).
    - intros ->. reflexivity.
  Qed.
End Same.

(** Decapsulation by the reference of a Cortex-M0 ciphertext whose message is recovered. *)
Lemma C59_decapsulation_lemma : forall junk k pk sk r, ss_buf k -> sk_bytes m0_cfg sk -> pk_bytes m0_cfg pk ->
  sk_pk saber sk = pk -> sk_hash saber sk = SHA3_256 pk -> dec_m saber sk (fst (m0_enc pk r)) = SHA3_256 r ->
  ((forall i, 0 <= i < 256 -> get (enc_v pk (enc_seed pk r)) i mod 64 < 60) ->
   run (dec junk m0_cfg k (fst (m0_enc pk r)) sk) = Some (snd (m0_enc pk r), 0)) /\
  ((exists i, 0 <= i < 256 /\ 60 <= get (enc_v pk (enc_seed pk r)) i mod 64) ->
   run (dec junk m0_cfg k (fst (m0_enc pk r)) sk) = Some (SHA3_256 (zskip 2272 sk ++ SHA3_256 (fst (m0_enc pk r))), 0)).
Proof.
  intros junk k pk sk r Hk Hsk Hpk E1 E2 E3.
  assert (dec_kr SHA3_512 saber sk (fst (m0_enc pk r)) = SHA3_512 (SHA3_256 r ++ SHA3_256 pk)) as Ek by (unfold dec_kr; now rewrite E2, E3).
  assert (dec_ct SHA3_512 SHAKE128 saber sk (fst (m0_enc pk r)) = pke_enc SHAKE128 saber pk (SHA3_256 r) (enc_seed pk r)) as Ec.
  { unfold dec_ct. rewrite E1, E3, Ek. reflexivity. }
  assert (ct_bytes m0_cfg (fst (m0_enc pk r))) as Hc by (exact (m0_pke_enc_arr _ _ _)).
  pose proof (pke_same pk (SHA3_256 r) (enc_seed pk r)) as P.
  assert (m0_pke_enc pk (SHA3_256 r) (enc_seed pk r) = fst (m0_enc pk r)) as Em by reflexivity. rewrite Em in P.
  assert (snd (m0_enc pk r) = SHA3_256 (zfirst 32 (SHA3_512 (SHA3_256 r ++ SHA3_256 pk)) ++ SHA3_256 (fst (m0_enc pk r)))) as Es by reflexivity.
  revert Ek Ec Hc P Es. generalize (fst (m0_enc pk r)) (snd (m0_enc pk r)). intros c k' Ek Ec Hc P Es. clear Em E1 E2 E3. split.
  - intros G. apply P in G. rewrite (dec_accept junk m0_cfg k c sk Hk Hc Hsk).
    + change (HashH (s90 m0_cfg)) with SHA3_256. change (HashG (s90 m0_cfg)) with SHA3_512. change (par m0_cfg) with saber. rewrite Ek, Es. reflexivity.
    + change (HashG (s90 m0_cfg)) with SHA3_512. change (PRF (s90 m0_cfg)) with SHAKE128. change (par m0_cfg) with saber. rewrite Ec. exact G.
  - intros (i & Hi & Gi). rewrite (dec_reject junk m0_cfg k c sk Hk Hc Hsk).
    + destruct Hsk as (L & _). rewrite L. reflexivity.
    + change (HashG (s90 m0_cfg)) with SHA3_512. change (PRF (s90 m0_cfg)) with SHAKE128. change (par m0_cfg) with saber. rewrite Ec. intros E.
      apply (proj1 P) with (k := i) in E; lia.
Qed.
