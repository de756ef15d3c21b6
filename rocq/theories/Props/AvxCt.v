(** Constant-time properties of the AVX2 implementation.  The trace of a run has every branch condition and every index that the C code
    computes; the vector instructions have constant operands and no branches, so they add nothing to it. *)
From Coq Require Import ZArith List Lia.
From Verif Require Import Lib.Arr Lib.CInt Lib.CMon Spec.Aes Spec.AesCtr Spec.Sym Spec.M4Spec Spec.CtSpec Model.Params Model.Kem Model.Api Model.AvxKem Model.AesNi
  Proof.SymP Proof.M4Thm Proof.AvxCtThm.
Import ListNotations.
Local Open Scope Z_scope.

(** ** C63: with SHA-3 and SHAKE of fips202.c *)

Theorem C63_avx_keypair_ct : forall l S (rb : S -> Z -> list Z * S), source_ok rb -> let c := Cfg l false false in
  forall junk junk' st st' pk pk' sk sk', pk_buf c pk -> sk_buf c sk -> pk_buf c pk' -> sk_buf c sk' ->
  leak (avx_kem_keypair (prf c) rb (hash_h c) junk c st pk sk) = leak (avx_kem_keypair (prf c) rb (hash_h c) junk' c st' pk' sk') /\
  leak (avx_kem_keypair (prf c) rb (hash_h c) junk c st pk sk) <> None.
Proof. exact C63_keypair_lemma. Qed.
Print Assumptions C63_avx_keypair_ct.

Theorem C63_avx_enc_ct : forall l S (rb : S -> Z -> list Z * S), source_ok rb -> let c := Cfg l false false in
  forall junk junk' st st' ct ct' k k' pk pk', ct_buf c ct -> ss_buf k -> pk_bytes c pk -> ct_buf c ct' -> ss_buf k' -> pk_bytes c pk' ->
  leak (avx_kem_enc (prf c) rb (hash_h c) (hash_g c) junk c st ct k pk) = leak (avx_kem_enc (prf c) rb (hash_h c) (hash_g c) junk' c st' ct' k' pk') /\
  leak (avx_kem_enc (prf c) rb (hash_h c) (hash_g c) junk c st ct k pk) <> None.
Proof. exact C63_enc_lemma. Qed.
Print Assumptions C63_avx_enc_ct.

Theorem C63_avx_dec_ct : forall l junk junk' k k' ct ct' sk sk', let c := Cfg l false false in ss_buf k -> ct_bytes c ct -> sk_bytes c sk ->
  ss_buf k' -> ct_bytes c ct' -> sk_bytes c sk' ->
  leak (avx_kem_dec (prf c) (hash_h c) (hash_g c) junk c k ct sk) = leak (avx_kem_dec (prf c) (hash_h c) (hash_g c) junk' c k' ct' sk') /\
  leak (avx_kem_dec (prf c) (hash_h c) (hash_g c) junk c k ct sk) <> None.
Proof. exact C63_dec_lemma. Qed.
Print Assumptions C63_avx_dec_ct.

Example C63_case : forall l, let c := Cfg l false false in source_ok zrb /\
  pk_bytes c (zeros (SABER_PUBLICKEYBYTES c)) /\ sk_bytes c (zeros (SABER_SECRETKEYBYTES c)) /\ ct_bytes c (zeros (SABER_BYTES_CCA_DEC c)) /\ ss_buf (zeros 32).
Proof.
  intros l c. split; [exact zrb_ok|].
  assert (Z0 : forall n, 0 <= n -> arr U8 n (zeros n)) by (intros n Hn; exact (zrb_ok tt n Hn)).
  split; [apply Z0; destruct l; vm_compute; discriminate|]. split; [apply Z0; destruct l; vm_compute; discriminate|].
  split; [apply Z0; destruct l; vm_compute; discriminate|]. reflexivity.
Qed.

(** ** C64: with the AES instructions; [hh], [hg] are SHA256 and SHA512 of OpenSSL *)

Theorem C64_aesni_stream_ct : forall junk junk' out out' n iv k k', 0 <= n <= len out -> len out = len out' -> 16 <= len iv -> typed U8 iv ->
  32 <= len k -> typed U8 k -> len k = len k' -> typed U8 k' ->
  be_val (zfirst 16 iv) mod 8 <> 0 \/ be_val (zfirst 16 iv) mod 2 ^ 64 + (n + 15) / 16 <= 2 ^ 64 ->
  leak (crypto_stream_aes256ctr junk out n iv k) = leak (crypto_stream_aes256ctr junk' out' n iv k') /\
  leak (crypto_stream_aes256ctr junk out n iv k) <> None.
Proof. exact C64_stream_lemma. Qed.
Print Assumptions C64_aesni_stream_ct.

Theorem C64_aesni_keypair_ct : forall l hh, hash_ok hh 32 (HashH true) -> hash_quiet hh ->
  forall S (rb : S -> Z -> list Z * S), source_ok rb -> let c := Cfg l false true in
  forall junk junk' st st' pk pk' sk sk', pk_buf c pk -> sk_buf c sk -> pk_buf c pk' -> sk_buf c sk' ->
  leak (avx_kem_keypair avx_aes256ctr_prf rb hh junk c st pk sk) = leak (avx_kem_keypair avx_aes256ctr_prf rb hh junk' c st' pk' sk') /\
  leak (avx_kem_keypair avx_aes256ctr_prf rb hh junk c st pk sk) <> None.
Proof. exact C64_keypair_lemma. Qed.
Print Assumptions C64_aesni_keypair_ct.

Theorem C64_aesni_enc_ct : forall l hh hg, hash_ok hh 32 (HashH true) -> hash_quiet hh -> hash_ok hg 64 (HashG true) -> hash_quiet hg ->
  forall S (rb : S -> Z -> list Z * S), source_ok rb -> let c := Cfg l false true in
  forall junk junk' st st' ct ct' k k' pk pk', ct_buf c ct -> ss_buf k -> pk_bytes c pk -> ct_buf c ct' -> ss_buf k' -> pk_bytes c pk' ->
  leak (avx_kem_enc avx_aes256ctr_prf rb hh hg junk c st ct k pk) = leak (avx_kem_enc avx_aes256ctr_prf rb hh hg junk' c st' ct' k' pk') /\
  leak (avx_kem_enc avx_aes256ctr_prf rb hh hg junk c st ct k pk) <> None.
Proof. exact C64_enc_lemma. Qed.
Print Assumptions C64_aesni_enc_ct.

Theorem C64_aesni_dec_ct : forall l hh hg, hash_ok hh 32 (HashH true) -> hash_quiet hh -> hash_ok hg 64 (HashG true) -> hash_quiet hg ->
  let c := Cfg l false true in
  forall junk junk' k k' ct ct' sk sk', ss_buf k -> ct_bytes c ct -> sk_bytes c sk -> ss_buf k' -> ct_bytes c ct' -> sk_bytes c sk' ->
  leak (avx_kem_dec avx_aes256ctr_prf hh hg junk c k ct sk) = leak (avx_kem_dec avx_aes256ctr_prf hh hg junk' c k' ct' sk') /\
  leak (avx_kem_dec avx_aes256ctr_prf hh hg junk c k ct sk) <> None.
Proof. exact C64_dec_lemma. Qed.
Print Assumptions C64_aesni_dec_ct.

Example C64_case :
  (let iv := be 16 (2 ^ 64 - 3) in 0 <= 100 <= len (zeros 100) /\ arr U8 16 iv /\ 32 <= len (zeros 32) /\ be_val (zfirst 16 iv) mod 8 <> 0) /\
  (forall l, let c := Cfg l false true in hash_ok (hash_h c) 32 (HashH true) /\ hash_quiet (hash_h c) /\ hash_ok (hash_g c) 64 (HashG true) /\ hash_quiet (hash_g c)).
Proof.
  split.
  - split; [vm_compute; split; discriminate|]. split; [apply BytesP.arr_be; lia|]. split; [discriminate|vm_compute; discriminate].
  - intros l c. split; [exact (to_hash _ _ _ (hash_h_ok c))|]. split; [apply ct_quiet, ct_hash_h|]. split; [exact (to_hash _ _ _ (hash_g_ok c))|apply ct_quiet, ct_hash_g].
Qed.
