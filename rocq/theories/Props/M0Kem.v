(** C57, C58, C59, C60: random bytes, key generation, encapsulation and comparison of the Cortex-M0 code. *)
From Coq Require Import ZArith List Bool Lia.
From Verif Require Import Lib.Arr Lib.CInt Lib.CMon Spec.Keccak Spec.Saber Spec.M0Spec Model.Params Model.Api Model.M0 Model.M0Kem
  Proof.M0PrngP Proof.M0ApiP Proof.M0Ex.
Import ListNotations.
Local Open Scope Z_scope.

(** ** C57 *)

(** The register delivers 16 random bits in a 32-bit word: then some bytes are always 0. *)
Theorem C57_refuted : exists n i, 0 <= i < n /\ forall word x k, n <= len x -> (forall j, 0 <= word j < 65536) ->
  exists r k', run (prng_randombytes word x n k) = Some (r, k') /\ get r i = 0.
Proof. exact C57_refuted_lemma. Qed.
Print Assumptions C57_refuted.

(** Which ones. *)
Theorem C57_zero : forall word x n k i r k', 0 <= n <= len x -> (forall j, 0 <= word j < 65536) ->
  0 <= i < n -> (i < 2 * ((n - 1) / 2) /\ i mod 2 = 1 \/ i = n - 2 /\ n mod 2 = 0) ->
  run (prng_randombytes word x n k) = Some (r, k') -> get r i = 0.
Proof. exact C57_zero_lemma. Qed.
Print Assumptions C57_zero.

(** Exactly [n] bytes are written, for every sequence of words. *)
Theorem C57_exact : forall word x n k, 0 <= n <= len x ->
  run (prng_randombytes word x n k) = Some (fst (prng_source word k n) ++ zskip n x, snd (prng_source word k n)).
Proof. exact C57_exact_lemma. Qed.
Print Assumptions C57_exact.

(** The theorems below hold with it as random source. *)
Theorem C57_source : forall word, source_ok (prng_source word).
Proof. exact C57_source_lemma. Qed.
Print Assumptions C57_source.

Example C57_case : run (prng_randombytes (fun j => 0x01020304 + 0x10101010 * j) [0; 0; 0; 0; 0; 7] 4 0) = Some ([0x04; 0x02; 0x12; 0x14; 0; 7], 2).
Proof. reflexivity. Qed.

(** ** C58 *)

(** Products that wrap. *)
Theorem C58_wrapping : forall S (rb : S -> Z -> list Z * S), source_ok rb ->
  forall junkm junk junk' g st pk sk, arr U8 280 (g_buf g) -> len (g_s g) = 25 -> pk_buf m0_cfg pk -> sk_buf m0_cfg sk ->
  run (m0_kem_keypair (pol_mul_wrap junkm) rb junk g st pk sk) = run (keypair rb junk' m0_cfg st pk sk).
Proof. exact (fun S => @C58_wrapping_lemma S). Qed.
Print Assumptions C58_wrapping.

(** Products of type [int], whenever none overflows. *)
Theorem C58_as_written : forall S (rb : S -> Z -> list Z * S), source_ok rb ->
  forall junkm junk junk' g st pk sk r, arr U8 280 (g_buf g) -> len (g_s g) = 25 -> pk_buf m0_cfg pk -> sk_buf m0_cfg sk ->
  run (m0_kem_keypair (pol_mul junkm) rb junk g st pk sk) = Some r -> run (keypair rb junk' m0_cfg st pk sk) = Some r.
Proof. exact (fun S => @C58_as_written_lemma S). Qed.
Print Assumptions C58_as_written.

(** Static variables left behind by an earlier call, and buffers. *)
Definition g_case : gmstate := Gm (ztab 280 (fun i => i mod 256)) (ztab 25 (fun i => 3 * i + 1)) 200 12.
Example C58_case : source_ok (prng_source (fun j => (40503 * j + 12345) mod 65536)) /\ arr U8 280 (g_buf g_case) /\ len (g_s g_case) = 25 /\
  pk_buf m0_cfg (zeros 992) /\ sk_buf m0_cfg (zeros 2304).
Proof. split; [apply C57_source|]. split; [apply arrb_ok; reflexivity|]. repeat split. Qed.

(** ** C59 *)

(** Encapsulation differs from the reference. *)
Theorem C59_refuted : exists st pk, pk_bytes m0_cfg pk /\
  forall junkm junk junk' g c k, arr U8 280 (g_buf g) -> len (g_s g) = 25 -> ct_buf m0_cfg c -> ss_buf k ->
    run (m0_kem_enc (pol_mul_wrap junkm) zsrc junk g st c k pk) <> run (enc zsrc junk' m0_cfg st c k pk).
Proof. exact C59_refuted_lemma. Qed.
Print Assumptions C59_refuted.

(** What it computes. *)
Theorem C59_exact : forall S (rb : S -> Z -> list Z * S), source_ok rb ->
  forall junkm junk g st c k pk, arr U8 280 (g_buf g) -> len (g_s g) = 25 -> ct_buf m0_cfg c -> ss_buf k -> pk_bytes m0_cfg pk ->
  run (m0_kem_enc (pol_mul_wrap junkm) rb junk g st c k pk) =
  Some (fst (m0_enc pk (draw1 rb st)), snd (m0_enc pk (draw1 rb st)), snd (rb st 32), 0).
Proof. exact (fun S => @C59_exact_lemma S). Qed.
Print Assumptions C59_exact.

Theorem C59_as_written : forall S (rb : S -> Z -> list Z * S), source_ok rb ->
  forall junkm junk g st c k pk r, arr U8 280 (g_buf g) -> len (g_s g) = 25 -> ct_buf m0_cfg c -> ss_buf k -> pk_bytes m0_cfg pk ->
  run (m0_kem_enc (pol_mul junkm) rb junk g st c k pk) = Some r ->
  r = (fst (m0_enc pk (draw1 rb st)), snd (m0_enc pk (draw1 rb st)), snd (rb st 32), 0).
Proof. exact (fun S => @C59_as_written_lemma S). Qed.
Print Assumptions C59_as_written.

(** Exactly when it agrees with the reference. *)
Theorem C59_same : forall S (rb : S -> Z -> list Z * S), source_ok rb ->
  forall junkm junk junk' g st c k pk, arr U8 280 (g_buf g) -> len (g_s g) = 25 -> ct_buf m0_cfg c -> ss_buf k -> pk_bytes m0_cfg pk ->
  run (m0_kem_enc (pol_mul_wrap junkm) rb junk g st c k pk) = run (enc rb junk' m0_cfg st c k pk) <->
  forall i, 0 <= i < 256 -> get (enc_v pk (enc_seed pk (draw1 rb st))) i mod 64 < 60.
Proof. exact (fun S => @C59_same_lemma S). Qed.
Print Assumptions C59_same.

(** Decapsulation by the reference, for a key pair that recovers the message: acceptance in the same cases, otherwise
    implicit rejection. *)
Theorem C59_decapsulation : forall junk k pk sk r, ss_buf k -> sk_bytes m0_cfg sk -> pk_bytes m0_cfg pk ->
  sk_pk saber sk = pk -> sk_hash saber sk = SHA3_256 pk -> dec_m saber sk (fst (m0_enc pk r)) = SHA3_256 r ->
  ((forall i, 0 <= i < 256 -> get (enc_v pk (enc_seed pk r)) i mod 64 < 60) ->
   run (dec junk m0_cfg k (fst (m0_enc pk r)) sk) = Some (snd (m0_enc pk r), 0)) /\
  ((exists i, 0 <= i < 256 /\ 60 <= get (enc_v pk (enc_seed pk r)) i mod 64) ->
   run (dec junk m0_cfg k (fst (m0_enc pk r)) sk) = Some (SHA3_256 (zskip 2272 sk ++ SHA3_256 (fst (m0_enc pk r))), 0)).
Proof. exact C59_decapsulation_lemma. Qed.
Print Assumptions C59_decapsulation.

Example C59_case : sk_bytes m0_cfg sk60 /\ pk_bytes m0_cfg pk60 /\ sk_pk saber sk60 = pk60 /\ sk_hash saber sk60 = SHA3_256 pk60 /\
  (forall r, dec_m saber sk60 (fst (m0_enc pk60 r)) = SHA3_256 r) /\
  get (enc_v pk60 (enc_seed pk60 (zeros 32))) 2 = 60.
Proof. exact C59_case_lemma. Qed.

(** ** C60 *)
Theorem C60 : forall a b n, 0 <= n -> n <= len a -> n <= len b -> typed U8 a -> typed U8 b ->
  (zfirst n a = zfirst n b -> run (m0_verify a b n) = Some (Var I32 0)) /\
  (zfirst n a <> zfirst n b -> run (m0_verify a b n) = Some (Var I32 1)).
Proof. exact C60_lemma. Qed.
Print Assumptions C60.

Example C60_case : run (m0_verify [1; 2; 3] [1; 2; 131] 3) = Some (Var I32 1) /\ run (m0_verify [1; 2; 3] [1; 2; 131] 2) = Some (Var I32 0) /\
  typed U8 [1; 2; 131].
Proof. split; [reflexivity|]. split; [reflexivity|]. apply (arrb_ok U8 3). reflexivity. Qed.
