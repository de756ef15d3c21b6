(** Traces of the AVX2 implementation: key generation, encapsulation and decapsulation. *)
From Coq Require Import ZArith List Bool Lia.
From Verif Require Import Lib.Arr Lib.CInt Lib.CMon Spec.Aes Spec.AesCtr Spec.Sym Spec.M4Spec Spec.CtSpec Model.Params Model.Kem Model.Api Model.Vec Model.AvxKem Model.AesNi
  Proof.CtP Proof.SymP Proof.KemThm Proof.M4Thm Proof.AvxKemThm Proof.AesNiThm Proof.AvxCt Proof.AesNiCt.
Import ListNotations.
Local Open Scope Z_scope.

Lemma ne_of : forall A (m m' : M A), run m = run m' /\ run m' <> None -> run m <> None.
Proof. intros A m m' (-> & H). exact H. Qed.

Section Thm.
  Variable c : cfg.
  Hypothesis Hu : usaber c = false.
  Variable hh hg : mem -> list Z -> list Z -> Z -> M (list Z).
  Variable xof : mem -> list Z -> Z -> list Z -> Z -> M (list Z).
  Hypothesis Hh : hash_ok hh 32 (HashH (s90 c)).
  Hypothesis Hg : hash_ok hg 64 (HashG (s90 c)).
  Hypothesis Hx : stream_ok xof (PRF (s90 c)).
  Hypothesis Th : ct_hash hh.
  Hypothesis Tg : ct_hash hg.
  Hypothesis Tx : ct_prf xof.

  Lemma avx_dec_leak : forall junk junk' k k' ct ct' sk sk', ss_buf k -> ct_bytes c ct -> sk_bytes c sk ->
    ss_buf k' -> ct_bytes c ct' -> sk_bytes c sk' ->
    leak (avx_kem_dec xof hh hg junk c k ct sk) = leak (avx_kem_dec xof hh hg junk' c k' ct' sk') /\ leak (avx_kem_dec xof hh hg junk c k ct sk) <> None.
  Proof.
    intros.
    pose proof (ne_of _ _ _ (C48_dec_lemma c Hu hh hg xof Hh Hg Hx junk junk k ct sk H H0 H1)) as N1.
    pose proof (ne_of _ _ _ (C48_dec_lemma c Hu hh hg xof Hh Hg Hx junk' junk' k' ct' sk' H2 H3 H4)) as N2.
    split; [|now apply leak_ne]. eapply ct_leak_ok; [|exact N1|exact N2].
    apply (ct_avx_kem_dec xof Tx hh hg Th Tg); apply slen_len; unfold ss_buf, ct_bytes, sk_bytes, arr in *; intuition congruence.
  Qed.

  Context {S : Type}.
  Variable rb : S -> Z -> list Z * S.
  Hypothesis Hrb : source_ok rb.

  Lemma avx_keypair_leak : forall junk junk' st st' pk pk' sk sk', pk_buf c pk -> sk_buf c sk -> pk_buf c pk' -> sk_buf c sk' ->
    leak (avx_kem_keypair xof rb hh junk c st pk sk) = leak (avx_kem_keypair xof rb hh junk' c st' pk' sk') /\
    leak (avx_kem_keypair xof rb hh junk c st pk sk) <> None.
  Proof.
    intros.
    pose proof (ne_of _ _ _ (C48_keypair_lemma c Hu hh xof Hh Hx rb Hrb junk junk st pk sk H H0)) as N1.
    pose proof (ne_of _ _ _ (C48_keypair_lemma c Hu hh xof Hh Hx rb Hrb junk' junk' st' pk' sk' H1 H2)) as N2.
    split; [|now apply leak_ne]. eapply ct_leak_ok; [|exact N1|exact N2].
    apply (ct_avx_kem_keypair xof Tx rb Hrb hh Th); apply slen_len; unfold pk_buf, sk_buf in *; congruence.
  Qed.

  Lemma avx_enc_leak : forall junk junk' st st' ct ct' k k' pk pk', ct_buf c ct -> ss_buf k -> pk_bytes c pk ->
    ct_buf c ct' -> ss_buf k' -> pk_bytes c pk' ->
    leak (avx_kem_enc xof rb hh hg junk c st ct k pk) = leak (avx_kem_enc xof rb hh hg junk' c st' ct' k' pk') /\
    leak (avx_kem_enc xof rb hh hg junk c st ct k pk) <> None.
  Proof.
    intros.
    pose proof (ne_of _ _ _ (C48_enc_lemma c Hu hh hg xof Hh Hg Hx rb Hrb junk junk st ct k pk H H0 H1)) as N1.
    pose proof (ne_of _ _ _ (C48_enc_lemma c Hu hh hg xof Hh Hg Hx rb Hrb junk' junk' st' ct' k' pk' H2 H3 H4)) as N2.
    split; [|now apply leak_ne]. eapply ct_leak_ok; [|exact N1|exact N2].
    apply (ct_avx_kem_enc xof Tx rb Hrb hh hg Th Tg); apply slen_len; unfold ct_buf, ss_buf, pk_bytes, arr in *; intuition congruence.
  Qed.
End Thm.

(** ** C63: with the functions of fips202.c *)
Lemma C63_keypair_lemma : forall l S (rb : S -> Z -> list Z * S), source_ok rb -> let c := Cfg l false false in
  forall junk junk' st st' pk pk' sk sk', pk_buf c pk -> sk_buf c sk -> pk_buf c pk' -> sk_buf c sk' ->
  leak (avx_kem_keypair (prf c) rb (hash_h c) junk c st pk sk) = leak (avx_kem_keypair (prf c) rb (hash_h c) junk' c st' pk' sk') /\
  leak (avx_kem_keypair (prf c) rb (hash_h c) junk c st pk sk) <> None.
Proof.
  intros l S rb Hrb c. apply avx_keypair_leak; try reflexivity; auto.
  - exact (to_hash _ _ _ (hash_h_ok c)).
  - exact (to_xof _ _ (prf_ok c)).
  - apply ct_hash_h.
  - apply ct_prf_.
Qed.
Lemma C63_enc_lemma : forall l S (rb : S -> Z -> list Z * S), source_ok rb -> let c := Cfg l false false in
  forall junk junk' st st' ct ct' k k' pk pk', ct_buf c ct -> ss_buf k -> pk_bytes c pk -> ct_buf c ct' -> ss_buf k' -> pk_bytes c pk' ->
  leak (avx_kem_enc (prf c) rb (hash_h c) (hash_g c) junk c st ct k pk) = leak (avx_kem_enc (prf c) rb (hash_h c) (hash_g c) junk' c st' ct' k' pk') /\
  leak (avx_kem_enc (prf c) rb (hash_h c) (hash_g c) junk c st ct k pk) <> None.
Proof.
  intros l S rb Hrb c. apply avx_enc_leak; try reflexivity; auto.
  - exact (to_hash _ _ _ (hash_h_ok c)).
  - exact (to_hash _ _ _ (hash_g_ok c)).
  - exact (to_xof _ _ (prf_ok c)).
  - apply ct_hash_h.
  - apply ct_hash_g.
  - apply ct_prf_.
Qed.
Lemma C63_dec_lemma : forall l junk junk' k k' ct ct' sk sk', let c := Cfg l false false in ss_buf k -> ct_bytes c ct -> sk_bytes c sk ->
  ss_buf k' -> ct_bytes c ct' -> sk_bytes c sk' ->
  leak (avx_kem_dec (prf c) (hash_h c) (hash_g c) junk c k ct sk) = leak (avx_kem_dec (prf c) (hash_h c) (hash_g c) junk' c k' ct' sk') /\
  leak (avx_kem_dec (prf c) (hash_h c) (hash_g c) junk c k ct sk) <> None.
Proof.
  intros l junk junk' k k' ct ct' sk sk' c. apply avx_dec_leak; try reflexivity.
  - exact (to_hash _ _ _ (hash_h_ok c)).
  - exact (to_hash _ _ _ (hash_g_ok c)).
  - exact (to_xof _ _ (prf_ok c)).
  - apply ct_hash_h.
  - apply ct_hash_g.
  - apply ct_prf_.
Qed.

(** ** C64: with the AES instructions *)
Lemma quiet_ct : forall h, hash_quiet h -> ct_hash h.
Proof.
  intros h Q j j' out out' inp inp' n Ho Hi t. specialize (Q j j' out out' inp inp' n). unfold len in Q.
  specialize (Q ltac:(unfold slen in *; lia) ltac:(unfold slen in *; lia) t).
  destruct (h j out inp n t), (h j' out' inp' n t); auto. destruct Q as (-> & Q). split; auto. unfold slen. cbn. unfold slen. lia.
Qed.
Lemma C64_stream_lemma : forall junk junk' out out' n iv k k', 0 <= n <= len out -> len out = len out' -> 16 <= len iv -> typed U8 iv ->
  32 <= len k -> typed U8 k -> len k = len k' -> typed U8 k' ->
  be_val (zfirst 16 iv) mod 8 <> 0 \/ be_val (zfirst 16 iv) mod 2 ^ 64 + (n + 15) / 16 <= 2 ^ 64 ->
  leak (crypto_stream_aes256ctr junk out n iv k) = leak (crypto_stream_aes256ctr junk' out' n iv k') /\
  leak (crypto_stream_aes256ctr junk out n iv k) <> None.
Proof.
  intros junk junk' out out' n iv k k' Hn Ho Li Ti Lk Tk Ek Tk' Hc.
  assert (run (crypto_stream_aes256ctr junk out n iv k) <> None) as N1 by (rewrite stream_run by auto; discriminate).
  assert (run (crypto_stream_aes256ctr junk' out' n iv k') <> None) as N2 by (rewrite stream_run by (auto; lia); discriminate).
  split; [|now apply leak_ne]. eapply ct_leak_ok; [|exact N1|exact N2]. apply ct_stream0; auto; now apply slen_len.
Qed.
Lemma C64_keypair_lemma : forall l hh, hash_ok hh 32 (HashH true) -> hash_quiet hh ->
  forall S (rb : S -> Z -> list Z * S), source_ok rb -> let c := Cfg l false true in
  forall junk junk' st st' pk pk' sk sk', pk_buf c pk -> sk_buf c sk -> pk_buf c pk' -> sk_buf c sk' ->
  leak (avx_kem_keypair avx_aes256ctr_prf rb hh junk c st pk sk) = leak (avx_kem_keypair avx_aes256ctr_prf rb hh junk' c st' pk' sk') /\
  leak (avx_kem_keypair avx_aes256ctr_prf rb hh junk c st pk sk) <> None.
Proof.
  intros l hh Hh Qh S rb Hrb c. apply avx_keypair_leak; try reflexivity; auto.
  - exact ni_stream_ok.
  - now apply quiet_ct.
  - exact ct_ni_prf.
Qed.
Lemma C64_enc_lemma : forall l hh hg, hash_ok hh 32 (HashH true) -> hash_quiet hh -> hash_ok hg 64 (HashG true) -> hash_quiet hg ->
  forall S (rb : S -> Z -> list Z * S), source_ok rb -> let c := Cfg l false true in
  forall junk junk' st st' ct ct' k k' pk pk', ct_buf c ct -> ss_buf k -> pk_bytes c pk -> ct_buf c ct' -> ss_buf k' -> pk_bytes c pk' ->
  leak (avx_kem_enc avx_aes256ctr_prf rb hh hg junk c st ct k pk) = leak (avx_kem_enc avx_aes256ctr_prf rb hh hg junk' c st' ct' k' pk') /\
  leak (avx_kem_enc avx_aes256ctr_prf rb hh hg junk c st ct k pk) <> None.
Proof.
  intros l hh hg Hh Qh Hg Qg S rb Hrb c. apply avx_enc_leak; try reflexivity; auto.
  - exact ni_stream_ok.
  - now apply quiet_ct.
  - now apply quiet_ct.
  - exact ct_ni_prf.
Qed.
Lemma C64_dec_lemma : forall l hh hg, hash_ok hh 32 (HashH true) -> hash_quiet hh -> hash_ok hg 64 (HashG true) -> hash_quiet hg ->
  let c := Cfg l false true in
  forall junk junk' k k' ct ct' sk sk', ss_buf k -> ct_bytes c ct -> sk_bytes c sk -> ss_buf k' -> ct_bytes c ct' -> sk_bytes c sk' ->
  leak (avx_kem_dec avx_aes256ctr_prf hh hg junk c k ct sk) = leak (avx_kem_dec avx_aes256ctr_prf hh hg junk' c k' ct' sk') /\
  leak (avx_kem_dec avx_aes256ctr_prf hh hg junk c k ct sk) <> None.
Proof.
  intros l hh hg Hh Qh Hg Qg c. apply avx_dec_leak; try reflexivity; auto.
  - exact ni_stream_ok.
  - now apply quiet_ct.
  - now apply quiet_ct.
  - exact ct_ni_prf.
Qed.

(** The hash functions of the model of the reference code meet the contract. *)
Lemma ct_quiet : forall h, ct_hash h -> hash_quiet h.
Proof.
  intros h Q j j' out out' inp inp' n Ho Hi t. specialize (Q j j' out out' inp inp' n (slen_len _ _ Ho) (slen_len _ _ Hi) t).
  destruct (h j out inp n t), (h j' out' inp' n t); auto. destruct Q as (-> & Q). split; auto. unfold len. cbn in Q. unfold slen in Q. lia.
Qed.
