(** Traces of the Cortex-M4 code: key generation, encapsulation and decapsulation. *)
From Coq Require Import ZArith List Bool Lia.
From Verif Require Import Model.Arm Lib.Arr Lib.CInt Lib.CMon Spec.Sym Spec.Keccak Spec.M4Spec Spec.CtSpec Model.Params Model.Kem Model.Api Model.M4 Model.M4Mul
  Proof.CtP Proof.SymP Proof.KemThm Proof.M4Thm Proof.M4MulP Proof.StrdP Proof.AvxCtThm Proof.M4Ct.
Import ListNotations.
Local Open Scope Z_scope.

Lemma quiet_prf : forall h, stream_quiet h -> ct_prf h.
Proof.
  intros h Q j j' out out' n inp inp' m Ho Hi t. specialize (Q j j' out out' n inp inp' m). unfold len in Q.
  specialize (Q ltac:(unfold slen in *; lia) ltac:(unfold slen in *; lia) t).
  destruct (h j out n inp m t), (h j' out' n inp' m t); auto. destruct Q as (-> & Q). split; auto. unfold slen. cbn. unfold slen. lia.
Qed.
Lemma prf_quiet : forall h, ct_prf h -> stream_quiet h.
Proof.
  intros h Q j j' out out' n inp inp' m Ho Hi t. specialize (Q j j' out out' n inp inp' m (slen_len _ _ Ho) (slen_len _ _ Hi) t).
  destruct (h j out n inp m t), (h j' out' n inp' m t); auto. destruct Q as (-> & Q). split; auto. unfold len. cbn in Q. unfold slen in Q. lia.
Qed.

Section Thm.
  Variable l : level.
  Notation c := (Cfg l false false).
  Variable hh hg : mem -> list Z -> list Z -> Z -> M (list Z).
  Variable xof : mem -> list Z -> Z -> list Z -> Z -> M (list Z).
  Variable mul mul' mul_acc mul_acc' : mem -> list Z -> list Z -> list Z -> M (list Z * list Z).
  Hypothesis Hh : hash_ok hh 32 SHA3_256.
  Hypothesis Hg : hash_ok hg 64 SHA3_512.
  Hypothesis Hx : stream_ok xof SHAKE128.
  Hypothesis Qh : hash_quiet hh.
  Hypothesis Qg : hash_quiet hg.
  Hypothesis Qx : stream_quiet xof.
  Hypothesis Hm : mul_ok mul.
  Hypothesis Ha : mul_acc_ok mul_acc.
  Hypothesis Hm' : mul_ok mul'.
  Hypothesis Ha' : mul_acc_ok mul_acc'.
  Hypothesis Tm : ct_mul mul mul'.
  Hypothesis Ta : ct_mul mul_acc mul_acc'.

  Lemma m4_dec_leak : forall cs junk junk' k k' ct ct' sk sk', ss_buf k -> ct_bytes c ct -> arr U8 (M4_SECRETKEYBYTES l cs) sk ->
    ss_buf k' -> ct_bytes c ct' -> arr U8 (M4_SECRETKEYBYTES l cs) sk' ->
    leak (m4_kem_dec l cs SHAKE128 hh hg xof mul mul_acc junk k ct sk) = leak (m4_kem_dec l cs SHAKE128 hh hg xof mul' mul_acc' junk' k' ct' sk') /\
    leak (m4_kem_dec l cs SHAKE128 hh hg xof mul mul_acc junk k ct sk) <> None.
  Proof.
    intros.
    assert (run (m4_kem_dec l cs SHAKE128 hh hg xof mul mul_acc junk k ct sk) <> None) as N1 by (rewrite (dec_run l hh hg xof) by auto; discriminate).
    assert (run (m4_kem_dec l cs SHAKE128 hh hg xof mul' mul_acc' junk' k' ct' sk') <> None) as N2 by (rewrite (dec_run l hh hg xof) by auto; discriminate).
    split; [|now apply leak_ne]. eapply ct_leak_ok; [|exact N1|exact N2].
    apply ct_m4_dec; auto using quiet_ct, quiet_prf; try (intros; apply (PRF_len false); assumption);
      apply slen_len; unfold ss_buf, ct_bytes, arr in *; intuition congruence.
  Qed.

  Context {S : Type}.
  Variable rb : S -> Z -> list Z * S.
  Hypothesis Hrb : source_ok rb.

  Lemma m4_keypair_leak : forall cs junk junk' st st' pk pk' sk sk', pk_buf c pk -> len sk = M4_SECRETKEYBYTES l cs -> pk_buf c pk' -> len sk' = M4_SECRETKEYBYTES l cs ->
    leak (m4_kem_keypair l cs SHAKE128 hh xof mul mul_acc rb junk st pk sk) = leak (m4_kem_keypair l cs SHAKE128 hh xof mul' mul_acc' rb junk' st' pk' sk') /\
    leak (m4_kem_keypair l cs SHAKE128 hh xof mul mul_acc rb junk st pk sk) <> None.
  Proof.
    intros.
    assert (N : forall f g, mul_ok f -> mul_acc_ok g -> forall junk st pk sk, pk_buf c pk -> len sk = M4_SECRETKEYBYTES l cs ->
      run (m4_kem_keypair l cs SHAKE128 hh xof f g rb junk st pk sk) <> None).
    { intros. rewrite (kp_run l hh xof) by auto. destruct (rb st0 32) as (r1, s1). destruct (rb s1 32) as (r2, s2). destruct (rb s2 32) as (z, s3). discriminate. }
    pose proof (N mul mul_acc Hm Ha junk st pk sk H H0) as N1. pose proof (N mul' mul_acc' Hm' Ha' junk' st' pk' sk' H1 H2) as N2.
    split; [|now apply leak_ne]. eapply ct_leak_ok; [|exact N1|exact N2].
    apply ct_m4_keypair; auto using quiet_ct, quiet_prf; try (intros; apply (PRF_len false); assumption);
      apply slen_len; unfold pk_buf in *; congruence.
  Qed.

  Lemma m4_enc_leak : forall cs junk junk' st st' ct ct' k k' pk pk', ct_buf c ct -> ss_buf k -> pk_bytes c pk ->
    ct_buf c ct' -> ss_buf k' -> pk_bytes c pk' ->
    leak (m4_kem_enc l cs SHAKE128 hh hg xof mul mul_acc rb junk st ct k pk) = leak (m4_kem_enc l cs SHAKE128 hh hg xof mul' mul_acc' rb junk' st' ct' k' pk') /\
    leak (m4_kem_enc l cs SHAKE128 hh hg xof mul mul_acc rb junk st ct k pk) <> None.
  Proof.
    intros.
    pose proof (ne_of _ _ _ (C38_enc_lemma l hh hg xof mul mul_acc Hh Hg Hx Hm Ha rb Hrb cs junk junk st ct k pk H H0 H1)) as N1.
    pose proof (ne_of _ _ _ (C38_enc_lemma l hh hg xof mul' mul_acc' Hh Hg Hx Hm' Ha' rb Hrb cs junk' junk' st' ct' k' pk' H2 H3 H4)) as N2.
    split; [|now apply leak_ne]. eapply ct_leak_ok; [|exact N1|exact N2].
    apply ct_m4_enc; auto using quiet_ct, quiet_prf; try (intros; apply (PRF_len false); assumption);
      apply slen_len; unfold ct_buf, ss_buf, pk_bytes, arr in *; intuition congruence.
  Qed.
End Thm.

Lemma C67_tc4kara_keypair_lemma : forall env env' scratch scratch', regs_ok env -> regs_ok env' ->
  forall l hh xof, hash_ok hh 32 SHA3_256 -> hash_quiet hh -> stream_ok xof SHAKE128 -> stream_quiet xof ->
  forall S (rb : S -> Z -> list Z * S), source_ok rb -> let c := Cfg l false false in
  forall cs junk junk' st st' pk pk' sk sk', pk_buf c pk -> len sk = M4_SECRETKEYBYTES l cs -> pk_buf c pk' -> len sk' = M4_SECRETKEYBYTES l cs ->
  leak (m4_kem_keypair l cs SHAKE128 hh xof (tc4kara_poly_mul env scratch) (tc4kara_poly_mul_acc env scratch) rb junk st pk sk) =
  leak (m4_kem_keypair l cs SHAKE128 hh xof (tc4kara_poly_mul env' scratch') (tc4kara_poly_mul_acc env' scratch') rb junk' st' pk' sk') /\
  leak (m4_kem_keypair l cs SHAKE128 hh xof (tc4kara_poly_mul env scratch) (tc4kara_poly_mul_acc env scratch) rb junk st pk sk) <> None.
Proof.
  intros. apply m4_keypair_leak; auto.
  - now apply tc4kara_mul_ok.
  - now apply tc4kara_mul_acc_ok.
  - now apply tc4kara_mul_ok.
  - now apply tc4kara_mul_acc_ok.
  - now apply ct_tc4.
  - now apply ct_tc4_acc.
Qed.
Lemma C67_tc4kara_enc_lemma : forall env env' scratch scratch', regs_ok env -> regs_ok env' ->
  forall l hh hg xof, hash_ok hh 32 SHA3_256 -> hash_quiet hh -> hash_ok hg 64 SHA3_512 -> hash_quiet hg -> stream_ok xof SHAKE128 -> stream_quiet xof ->
  forall S (rb : S -> Z -> list Z * S), source_ok rb -> let c := Cfg l false false in
  forall cs junk junk' st st' ct ct' k k' pk pk', ct_buf c ct -> ss_buf k -> pk_bytes c pk -> ct_buf c ct' -> ss_buf k' -> pk_bytes c pk' ->
  leak (m4_kem_enc l cs SHAKE128 hh hg xof (tc4kara_poly_mul env scratch) (tc4kara_poly_mul_acc env scratch) rb junk st ct k pk) =
  leak (m4_kem_enc l cs SHAKE128 hh hg xof (tc4kara_poly_mul env' scratch') (tc4kara_poly_mul_acc env' scratch') rb junk' st' ct' k' pk') /\
  leak (m4_kem_enc l cs SHAKE128 hh hg xof (tc4kara_poly_mul env scratch) (tc4kara_poly_mul_acc env scratch) rb junk st ct k pk) <> None.
Proof.
  intros. apply m4_enc_leak; auto.
  - now apply tc4kara_mul_ok.
  - now apply tc4kara_mul_acc_ok.
  - now apply tc4kara_mul_ok.
  - now apply tc4kara_mul_acc_ok.
  - now apply ct_tc4.
  - now apply ct_tc4_acc.
Qed.
Lemma C67_tc4kara_dec_lemma : forall env env' scratch scratch', regs_ok env -> regs_ok env' ->
  forall l hh hg xof, hash_ok hh 32 SHA3_256 -> hash_quiet hh -> hash_ok hg 64 SHA3_512 -> hash_quiet hg -> stream_ok xof SHAKE128 -> stream_quiet xof ->
  let c := Cfg l false false in
  forall cs junk junk' k k' ct ct' sk sk', ss_buf k -> ct_bytes c ct -> arr U8 (M4_SECRETKEYBYTES l cs) sk ->
  ss_buf k' -> ct_bytes c ct' -> arr U8 (M4_SECRETKEYBYTES l cs) sk' ->
  leak (m4_kem_dec l cs SHAKE128 hh hg xof (tc4kara_poly_mul env scratch) (tc4kara_poly_mul_acc env scratch) junk k ct sk) =
  leak (m4_kem_dec l cs SHAKE128 hh hg xof (tc4kara_poly_mul env' scratch') (tc4kara_poly_mul_acc env' scratch') junk' k' ct' sk') /\
  leak (m4_kem_dec l cs SHAKE128 hh hg xof (tc4kara_poly_mul env scratch) (tc4kara_poly_mul_acc env scratch) junk k ct sk) <> None.
Proof.
  intros. apply m4_dec_leak; auto.
  - now apply tc4kara_mul_ok.
  - now apply tc4kara_mul_acc_ok.
  - now apply tc4kara_mul_ok.
  - now apply tc4kara_mul_acc_ok.
  - now apply ct_tc4.
  - now apply ct_tc4_acc.
Qed.
Lemma C67_striding_keypair_lemma : forall env env' scratch scratch', regs_ok env -> regs_ok env' ->
  forall l hh xof, hash_ok hh 32 SHA3_256 -> hash_quiet hh -> stream_ok xof SHAKE128 -> stream_quiet xof ->
  forall S (rb : S -> Z -> list Z * S), source_ok rb -> let c := Cfg l false false in
  forall cs junk junk' st st' pk pk' sk sk', pk_buf c pk -> len sk = M4_SECRETKEYBYTES l cs -> pk_buf c pk' -> len sk' = M4_SECRETKEYBYTES l cs ->
  leak (m4_kem_keypair l cs SHAKE128 hh xof (striding_poly_mul true env scratch) (striding_poly_mul_acc true env scratch) rb junk st pk sk) =
  leak (m4_kem_keypair l cs SHAKE128 hh xof (striding_poly_mul true env' scratch') (striding_poly_mul_acc true env' scratch') rb junk' st' pk' sk') /\
  leak (m4_kem_keypair l cs SHAKE128 hh xof (striding_poly_mul true env scratch) (striding_poly_mul_acc true env scratch) rb junk st pk sk) <> None.
Proof.
  intros. apply m4_keypair_leak; auto.
  - now apply striding_mul_ok.
  - now apply striding_mul_acc_ok.
  - now apply striding_mul_ok.
  - now apply striding_mul_acc_ok.
  - now apply ct_striding.
  - now apply ct_striding_acc.
Qed.
Lemma C67_striding_enc_lemma : forall env env' scratch scratch', regs_ok env -> regs_ok env' ->
  forall l hh hg xof, hash_ok hh 32 SHA3_256 -> hash_quiet hh -> hash_ok hg 64 SHA3_512 -> hash_quiet hg -> stream_ok xof SHAKE128 -> stream_quiet xof ->
  forall S (rb : S -> Z -> list Z * S), source_ok rb -> let c := Cfg l false false in
  forall cs junk junk' st st' ct ct' k k' pk pk', ct_buf c ct -> ss_buf k -> pk_bytes c pk -> ct_buf c ct' -> ss_buf k' -> pk_bytes c pk' ->
  leak (m4_kem_enc l cs SHAKE128 hh hg xof (striding_poly_mul true env scratch) (striding_poly_mul_acc true env scratch) rb junk st ct k pk) =
  leak (m4_kem_enc l cs SHAKE128 hh hg xof (striding_poly_mul true env' scratch') (striding_poly_mul_acc true env' scratch') rb junk' st' ct' k' pk') /\
  leak (m4_kem_enc l cs SHAKE128 hh hg xof (striding_poly_mul true env scratch) (striding_poly_mul_acc true env scratch) rb junk st ct k pk) <> None.
Proof.
  intros. apply m4_enc_leak; auto.
  - now apply striding_mul_ok.
  - now apply striding_mul_acc_ok.
  - now apply striding_mul_ok.
  - now apply striding_mul_acc_ok.
  - now apply ct_striding.
  - now apply ct_striding_acc.
Qed.
Lemma C67_striding_dec_lemma : forall env env' scratch scratch', regs_ok env -> regs_ok env' ->
  forall l hh hg xof, hash_ok hh 32 SHA3_256 -> hash_quiet hh -> hash_ok hg 64 SHA3_512 -> hash_quiet hg -> stream_ok xof SHAKE128 -> stream_quiet xof ->
  let c := Cfg l false false in
  forall cs junk junk' k k' ct ct' sk sk', ss_buf k -> ct_bytes c ct -> arr U8 (M4_SECRETKEYBYTES l cs) sk ->
  ss_buf k' -> ct_bytes c ct' -> arr U8 (M4_SECRETKEYBYTES l cs) sk' ->
  leak (m4_kem_dec l cs SHAKE128 hh hg xof (striding_poly_mul true env scratch) (striding_poly_mul_acc true env scratch) junk k ct sk) =
  leak (m4_kem_dec l cs SHAKE128 hh hg xof (striding_poly_mul true env' scratch') (striding_poly_mul_acc true env' scratch') junk' k' ct' sk') /\
  leak (m4_kem_dec l cs SHAKE128 hh hg xof (striding_poly_mul true env scratch) (striding_poly_mul_acc true env scratch) junk k ct sk) <> None.
Proof.
  intros. apply m4_dec_leak; auto.
  - now apply striding_mul_ok.
  - now apply striding_mul_acc_ok.
  - now apply striding_mul_ok.
  - now apply striding_mul_acc_ok.
  - now apply ct_striding.
  - now apply ct_striding_acc.
Qed.

(** The hash functions of the reference code meet the contracts. *)
Lemma quiet_case : let c := Cfg Saber false false in
  hash_ok (hash_h c) 32 SHA3_256 /\ hash_quiet (hash_h c) /\ hash_ok (hash_g c) 64 SHA3_512 /\ hash_quiet (hash_g c) /\ stream_ok (prf c) SHAKE128 /\ stream_quiet (prf c).
Proof.
  intros c. split; [exact (to_hash _ _ _ (hash_h_ok c))|]. split; [apply ct_quiet, ct_hash_h|].
  split; [exact (to_hash _ _ _ (hash_g_ok c))|]. split; [apply ct_quiet, ct_hash_g|].
  split; [exact (to_xof _ _ (prf_ok c))|]. apply prf_quiet, ct_prf_.
Qed.
