(** C49, C50: the lemmas that Props/AvxAes.v states. *)
From Coq Require Import ZArith List Lia.
From Verif Require Import Lib.Arr Lib.CInt Lib.CMon Spec.Aes Spec.AesCtr Spec.Sym Spec.M4Spec Model.Params Model.Api Model.AvxKem Model.AesNi
  Proof.SymP Proof.AesP Proof.AesKey Proof.BytesP Proof.KemP Proof.AvxKemThm Proof.AesNiThm.
Import ListNotations.
Local Open Scope Z_scope.
Local Opaque AES256 avx_kem_keypair avx_kem_enc avx_kem_dec keypair enc dec.

Lemma C49_keypair_lemma : forall l hh, hash_ok hh 32 (HashH true) ->
  forall S (rb : S -> Z -> list Z * S), source_ok rb ->
  forall junk junk' st pk sk, pk_buf (Cfg l false true) pk -> sk_buf (Cfg l false true) sk ->
  run (avx_kem_keypair avx_aes256ctr_prf rb hh junk (Cfg l false true) st pk sk) = run (keypair rb junk' (Cfg l false true) st pk sk) /\
  run (keypair rb junk' (Cfg l false true) st pk sk) <> None.
Proof. intros l hh Hh S rb. exact (C48_keypair_lemma (Cfg l false true) eq_refl hh avx_aes256ctr_prf Hh ni_stream_ok rb). Qed.

Lemma C49_enc_lemma : forall l hh hg, hash_ok hh 32 (HashH true) -> hash_ok hg 64 (HashG true) ->
  forall S (rb : S -> Z -> list Z * S), source_ok rb ->
  forall junk junk' st ct k pk, ct_buf (Cfg l false true) ct -> ss_buf k -> pk_bytes (Cfg l false true) pk ->
  run (avx_kem_enc avx_aes256ctr_prf rb hh hg junk (Cfg l false true) st ct k pk) = run (enc rb junk' (Cfg l false true) st ct k pk) /\
  run (enc rb junk' (Cfg l false true) st ct k pk) <> None.
Proof. intros l hh hg Hh Hg S rb. exact (C48_enc_lemma (Cfg l false true) eq_refl hh hg avx_aes256ctr_prf Hh Hg ni_stream_ok rb). Qed.

Lemma C49_dec_lemma : forall l hh hg, hash_ok hh 32 (HashH true) -> hash_ok hg 64 (HashG true) ->
  forall junk junk' k ct sk, ss_buf k -> ct_bytes (Cfg l false true) ct -> sk_bytes (Cfg l false true) sk ->
  run (avx_kem_dec avx_aes256ctr_prf hh hg junk (Cfg l false true) k ct sk) = run (dec junk' (Cfg l false true) k ct sk) /\
  run (dec junk' (Cfg l false true) k ct sk) <> None.
Proof. intros l hh hg Hh Hg. exact (C48_dec_lemma (Cfg l false true) eq_refl hh hg avx_aes256ctr_prf Hh Hg ni_stream_ok). Qed.

Lemma C50_lemma : exists n iv key, 0 <= n /\ arr U8 16 iv /\ arr U8 32 key /\
  forall junk out, n <= len out -> exists out', run (crypto_stream_aes256ctr junk out n iv key) = Some (out', 0) /\
    zfirst n out' <> ctr128_stream key iv n.
Proof.
  destruct ni_differ as (k & Hk & D). exists 144, (be 16 (2 ^ 64 - 8)), k. split; [lia|]. split; [apply arr_be; lia|]. split; [exact Hk|].
  intros junk out Lo. destruct (ni_carry junk out k Lo Hk) as (R & N1 & N2). eexists. split; [exact R|]. intros E. apply D.
  rewrite <- N1, <- N2, <- E. rewrite zfirst_app_at by (rewrite len_ztab; lia). symmetry. rewrite get_tab by lia. reflexivity.
Qed.
