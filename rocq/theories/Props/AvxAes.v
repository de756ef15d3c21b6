(** Properties of AES-256 in counter mode with the AES instructions (Variants/uSaber-90s/avx2), and of the AVX2
    implementation of Saber-90s that uses it. *)
From Coq Require Import ZArith List Lia.
From Verif Require Import Lib.Arr Lib.CInt Lib.CMon Spec.Aes Spec.AesCtr Spec.Sym Spec.M4Spec Model.Params Model.Api Model.AvxKem Model.AesNi
  Proof.SymP Proof.M4Thm Proof.AesNiThm Proof.AesNiKem.
Import ListNotations.
Local Open Scope Z_scope.

(** ** C49 *)

(** The condition: the low half of the counter does not wrap within the stream, or it never is 2^64 - 8 when a group of
    eight blocks starts. *)
Theorem C49_aesni_stream : forall junk out n iv k, 0 <= n <= len out -> 16 <= len iv -> typed U8 iv -> 32 <= len k -> typed U8 k ->
  be_val (zfirst 16 iv) mod 8 <> 0 \/ be_val (zfirst 16 iv) mod 2 ^ 64 + (n + 15) / 16 <= 2 ^ 64 ->
  run (crypto_stream_aes256ctr junk out n iv k) = Some (ctr128_stream (zfirst 32 k) (zfirst 16 iv) n ++ zskip n out, 0).
Proof. exact stream_run. Qed.
Print Assumptions C49_aesni_stream.

(** The key stream of the reference implementation (C34). *)
Theorem C49_aesni_prf : forall junk out n key m, 0 <= n <= len out -> n <= 2 ^ 36 -> 32 <= len key -> typed U8 key ->
  run (avx_aes256ctr_prf junk out n key m) = Some (ctr_stream (zfirst 32 key) (zeros 12) 0 n ++ zskip n out).
Proof. exact ni_prf_run. Qed.
Print Assumptions C49_aesni_prf.

(** [hh], [hg]: SHA256 and SHA512 of OpenSSL. *)
Theorem C49_aesni_keypair : forall l hh, hash_ok hh 32 (HashH true) ->
  forall S (rb : S -> Z -> list Z * S), source_ok rb ->
  forall junk junk' st pk sk, pk_buf (Cfg l false true) pk -> sk_buf (Cfg l false true) sk ->
  run (avx_kem_keypair avx_aes256ctr_prf rb hh junk (Cfg l false true) st pk sk) = run (keypair rb junk' (Cfg l false true) st pk sk) /\
  run (keypair rb junk' (Cfg l false true) st pk sk) <> None.
Proof. exact C49_keypair_lemma. Qed.
Print Assumptions C49_aesni_keypair.

Theorem C49_aesni_enc : forall l hh hg, hash_ok hh 32 (HashH true) -> hash_ok hg 64 (HashG true) ->
  forall S (rb : S -> Z -> list Z * S), source_ok rb ->
  forall junk junk' st ct k pk, ct_buf (Cfg l false true) ct -> ss_buf k -> pk_bytes (Cfg l false true) pk ->
  run (avx_kem_enc avx_aes256ctr_prf rb hh hg junk (Cfg l false true) st ct k pk) = run (enc rb junk' (Cfg l false true) st ct k pk) /\
  run (enc rb junk' (Cfg l false true) st ct k pk) <> None.
Proof. exact C49_enc_lemma. Qed.
Print Assumptions C49_aesni_enc.

Theorem C49_aesni_dec : forall l hh hg, hash_ok hh 32 (HashH true) -> hash_ok hg 64 (HashG true) ->
  forall junk junk' k ct sk, ss_buf k -> ct_bytes (Cfg l false true) ct -> sk_bytes (Cfg l false true) sk ->
  run (avx_kem_dec avx_aes256ctr_prf hh hg junk (Cfg l false true) k ct sk) = run (dec junk' (Cfg l false true) k ct sk) /\
  run (dec junk' (Cfg l false true) k ct sk) <> None.
Proof. exact C49_dec_lemma. Qed.
Print Assumptions C49_aesni_dec.

(** A stream of 100 bytes whose counter carries into the high half; and hash functions that meet the contract. *)
Example C49_case :
  (let iv := be 16 (2 ^ 64 - 3) in 0 <= 100 <= len (zeros 100) /\ arr U8 16 iv /\ 32 <= len (zeros 32) /\ be_val (zfirst 16 iv) mod 8 <> 0) /\
  (forall l, let c := Cfg l false true in hash_ok (hash_h c) 32 (HashH true) /\ hash_ok (hash_g c) 64 (HashG true) /\ source_ok zrb /\
    pk_bytes c (zeros (SABER_PUBLICKEYBYTES c)) /\ sk_bytes c (zeros (SABER_SECRETKEYBYTES c)) /\
    ct_bytes c (zeros (SABER_BYTES_CCA_DEC c)) /\ ss_buf (zeros 32)).
Proof.
  split.
  - split; [vm_compute; split; discriminate|]. split; [apply BytesP.arr_be; lia|]. split; [discriminate|vm_compute; discriminate].
  - intros l c. split; [exact (to_hash _ _ _ (hash_h_ok c))|]. split; [exact (to_hash _ _ _ (hash_g_ok c))|]. split; [exact zrb_ok|].
    assert (Z0 : forall n, 0 <= n -> arr U8 n (zeros n)) by (intros n Hn; exact (zrb_ok tt n Hn)).
    split; [apply Z0; destruct l; vm_compute; discriminate|]. split; [apply Z0; destruct l; vm_compute; discriminate|].
    split; [apply Z0; destruct l; vm_compute; discriminate|]. reflexivity.
Qed.

(** ** C50 *)

(** Without that condition the claim is false: the carry into the high half is lost. *)
Theorem C50_aesni_any_nonce_refuted : exists n iv key, 0 <= n /\ arr U8 16 iv /\ arr U8 32 key /\
  forall junk out, n <= len out -> exists out', run (crypto_stream_aes256ctr junk out n iv key) = Some (out', 0) /\
    zfirst n out' <> ctr128_stream key iv n.
Proof. exact C50_lemma. Qed.
Print Assumptions C50_aesni_any_nonce_refuted.
