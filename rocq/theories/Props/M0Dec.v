(** C61, C62: decapsulation of the Cortex-M0 code. *)
From Coq Require Import ZArith List Bool Lia.
From Verif Require Import Lib.Arr Lib.CInt Lib.CMon Spec.Bits Spec.Ring Spec.Keccak Spec.Saber Spec.M0Spec Spec.M0DecSpec Model.Params Model.Api Model.M0 Model.M0Kem Model.M0Dec
  Proof.M0DecP Proof.M0DecThm Proof.M0DecEx.
Import ListNotations.
Local Open Scope Z_scope.

(** ** C61 *)

(** A key pair and a ciphertext of the Cortex-M0 code from which the secret key recovers the message: decapsulation has undefined
    behaviour, whatever the multiplication does. *)
Theorem C61_refuted : exists pk sk r, pk_bytes m0_cfg pk /\ sk_bytes m0_cfg sk /\ sk_pk saber sk = pk /\ sk_hash saber sk = SHA3_256 pk /\
  m0_msg sk (fst (m0_enc pk r)) = SHA3_256 r /\
  forall mul junk g k, run (m0_kem_dec mul junk g k (fst (m0_enc pk r)) sk) = None.
Proof. exact C61_refuted_lemma. Qed.
Print Assumptions C61_refuted.

Theorem C61_always : forall mul junk g k c sk, run (m0_kem_dec mul junk g k c sk) = None.
Proof. exact C61_always_lemma. Qed.
Print Assumptions C61_always.

(** With an array [buf] of at least 512 bytes, what it computes: the message is taken to be the first 16 bits, spread over 32 bytes. *)
Theorem C61_buffer : forall n junkm junk g k c sk, 512 <= n -> arr U8 280 (g_buf g) -> len (g_s g) = 25 -> ss_buf k -> ct_bytes m0_cfg c -> sk_bytes m0_cfg sk ->
  run (m0_kem_dec_n (pol_mul_wrap junkm) n junk g k c sk) = Some (m0_dec_key (bits16 (m0_dec_bits sk c)) sk c, 0).
Proof. exact C61_buffer_lemma. Qed.
Print Assumptions C61_buffer.

Theorem C61_as_written : forall n junkm junk g k c sk r, 512 <= n -> arr U8 280 (g_buf g) -> len (g_s g) = 25 -> ss_buf k -> ct_bytes m0_cfg c -> sk_bytes m0_cfg sk ->
  run (m0_kem_dec_n (pol_mul junkm) n junk g k c sk) = Some r -> r = (m0_dec_key (bits16 (m0_dec_bits sk c)) sk c, 0).
Proof. exact C61_as_written_lemma. Qed.
Print Assumptions C61_as_written.

(** So the longer array is no repair: decapsulation of an honest ciphertext is implicit rejection, unless the message is one of two. *)
Theorem C61_rejects : forall n junkm junk g k pk sk r, 512 <= n -> arr U8 280 (g_buf g) -> len (g_s g) = 25 -> ss_buf k -> sk_bytes m0_cfg sk ->
  sk_pk saber sk = pk ->
  m0_msg sk (fst (m0_enc pk r)) = SHA3_256 r ->
  (let m := bits16 (unpack 1 (SHA3_256 r)) in m0_msg sk (m0_pke_enc pk m (zskip 32 (SHA3_512 (m ++ sk_hash saber sk)))) = m) ->
  SHA3_256 r <> zeros 32 -> SHA3_256 r <> 1 :: zeros 31 ->
  run (m0_kem_dec_n (pol_mul_wrap junkm) n junk g k (fst (m0_enc pk r)) sk) =
    Some (SHA3_256 (zskip 2272 sk ++ SHA3_256 (fst (m0_enc pk r))), 0).
Proof. exact C61_rejects_lemma. Qed.
Print Assumptions C61_rejects.

Example C61_case : sk_bytes m0_cfg sk50 /\ sk_pk saber sk50 = pk50 /\ m0_msg sk50 (fst (m0_enc pk50 (zeros 32))) = SHA3_256 (zeros 32) /\
  (let m := bits16 (unpack 1 (SHA3_256 (zeros 32))) in m0_msg sk50 (m0_pke_enc pk50 m (zskip 32 (SHA3_512 (m ++ sk_hash saber sk50)))) = m) /\
  SHA3_256 (zeros 32) <> zeros 32 /\ SHA3_256 (zeros 32) <> 1 :: zeros 31.
Proof. exact C61_case_lemma. Qed.

(** ** C62 *)
Theorem C62 : forall junkm junk g k pk sk r, arr U8 280 (g_buf g) -> len (g_s g) = 25 -> ss_buf k -> sk_bytes m0_cfg sk ->
  sk_pk saber sk = pk -> sk_hash saber sk = SHA3_256 pk ->
  (forall i, 0 <= i < 256 -> exists e, -224 <= e <= 224 /\ (get (dec_v sk (fst (m0_enc pk r))) i - get (enc_v pk (enc_seed pk r)) i - e) mod 1024 = 0) ->
  run (m0_kem_dec_packed (pol_mul_wrap junkm) junk g k (fst (m0_enc pk r)) sk) = Some (snd (m0_enc pk r), 0).
Proof. exact C62_lemma. Qed.
Print Assumptions C62.

Theorem C62_exact : forall junkm junk g k c sk, arr U8 280 (g_buf g) -> len (g_s g) = 25 -> ss_buf k -> ct_bytes m0_cfg c -> sk_bytes m0_cfg sk ->
  run (m0_kem_dec_packed (pol_mul_wrap junkm) junk g k c sk) = Some (m0_dec_key (m0_msg sk c) sk c, 0).
Proof. exact C62_exact_lemma. Qed.
Print Assumptions C62_exact.

Theorem C62_as_written : forall junkm junk g k c sk r, arr U8 280 (g_buf g) -> len (g_s g) = 25 -> ss_buf k -> ct_bytes m0_cfg c -> sk_bytes m0_cfg sk ->
  run (m0_kem_dec_packed (pol_mul junkm) junk g k c sk) = Some r -> r = (m0_dec_key (m0_msg sk c) sk c, 0).
Proof. exact C62_as_written_lemma. Qed.
Print Assumptions C62_as_written.

(** The noise of this key pair is 50 times a coefficient of the secret of the ciphertext. *)
Example C62_case : sk_bytes m0_cfg sk50 /\ sk_pk saber sk50 = pk50 /\ sk_hash saber sk50 = SHA3_256 pk50 /\
  (forall r i, 0 <= i < 256 -> exists e, -224 <= e <= 224 /\
     (get (dec_v sk50 (fst (m0_enc pk50 r))) i - get (enc_v pk50 (enc_seed pk50 r)) i - e) mod 1024 = 0) /\
  (forall s i, 0 <= i < 256 -> get (enc_v pk50 s) i = 50 * get (getr (expand_s SHAKE128 saber s) 0) i).
Proof. exact C62_case_lemma. Qed.
