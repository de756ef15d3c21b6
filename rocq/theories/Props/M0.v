(** C35, C36, C37, C41, C42: the Cortex-M0 code. *)
From Coq Require Import ZArith List Bool Lia.
From Verif Require Import Lib.Arr Lib.CInt Lib.CMon Spec.Keccak Model.Params Model.M0 Proof.M0P.
Import ListNotations.
Local Open Scope Z_scope.

(** ** C35 *)

(** Whatever the multiplier returns and whatever [crypto_kem_dec] does after decryption, decryption has left the bounds of
    the 64-byte buffer before. *)
Theorem C35_refuted : exists pol_mul rest junk c sk,
  arr U8 1088 c /\ arr U8 2304 sk /\ run (crypto_kem_dec pol_mul rest junk c sk) = None.
Proof. exact C35_refuted_lemma. Qed.
Print Assumptions C35_refuted.

Theorem C35_always : forall pol_mul rest junk c sk, run (crypto_kem_dec pol_mul rest junk c sk) = None.
Proof. exact C35_always_lemma. Qed.
Print Assumptions C35_always.

(** The last step of decryption is the cause: it needs 512 bytes, and they are enough. *)
Theorem C35_cause : forall junk v b buf, arr U16 256 v -> arr U8 128 b ->
  (exists r, run (ExtractKeyBits junk v b buf) = Some r) <-> 512 <= len buf.
Proof. exact C35_cause_lemma. Qed.
Print Assumptions C35_cause.

Example C35_cause_case : arr U16 256 (repeat 1023 256) /\ arr U8 128 (repeat 255 128).
Proof. split; apply arrb_ok; reflexivity. Qed.

(** ** C36 *)
Theorem C36_refuted : exists data, arr U16 256 data /\ Forall (fun x => 0 <= x < 8) data /\
  forall out out' b, len out = 96 -> len out' = 256 -> run (SABER_pack_3bit out data) = Some b ->
    run (SABER_un_pack3bit b out') <> Some data.
Proof. exact C36_refuted_lemma. Qed.
Print Assumptions C36_refuted.

(** Exactly which polynomials survive. *)
Theorem C36_exact : forall out out' data, len out = 96 -> len out' = 256 -> arr U16 256 data ->
  exists b, run (SABER_pack_3bit out data) = Some b /\ arr U8 96 b /\
    (run (SABER_un_pack3bit b out') = Some (map (fun x => x mod 8) data) <->
     forall j, 0 <= j < 32 -> Z.testbit (get data (8 * j + 5)) 0 = Z.testbit (get data (8 * j + 5)) 2).
Proof. exact C36_exact_lemma. Qed.
Print Assumptions C36_exact.

(** The 4-bit and the 6-bit packing have the property. *)
Theorem C36_four : forall out out' data, len out = 128 -> len out' = 256 -> arr U16 256 data ->
  exists b, run (SABER_pack_4bit out data) = Some b /\ arr U8 128 b /\
    run (SABER_un_pack4bit b out') = Some (map (fun x => x mod 16) data).
Proof. exact C36_four_lemma. Qed.
Print Assumptions C36_four.

Theorem C36_six : forall out out' data, len out = 192 -> len out' = 256 -> arr U16 256 data ->
  exists b, run (SABER_pack_6bit out data) = Some b /\ arr U8 192 b /\
    run (SABER_un_pack6bit b out') = Some (map (fun x => x mod 64) data).
Proof. exact C36_six_lemma. Qed.
Print Assumptions C36_six.

Example C36_case : arr U16 256 (repeat 5 256) /\
  (forall j, 0 <= j < 32 -> Z.testbit (get (repeat 5 256) (8 * j + 5)) 0 = Z.testbit (get (repeat 5 256) (8 * j + 5)) 2) /\
  Z.testbit 1 0 <> Z.testbit 1 2.
Proof.
  split; [apply arrb_ok; reflexivity|]. split; [|discriminate].
  intros j Hj. assert (get (repeat 5 256) (8 * j + 5) = 5) as ->; [|reflexivity].
  apply (Forall_znth (fun x => x = 5)); [|change (len (repeat 5 256)) with 256; lia].
  rewrite Forall_forall. intros x Hx. now apply repeat_spec in Hx.
Qed.

(** ** C37 *)

(** Both functions ignore the customisation value; they are Keccak with the suffix bits 00 on the input alone. *)
Theorem C37_refuted : exists c1 c2, 0 <= c1 < 65536 /\ 0 <= c2 < 65536 /\ c1 <> c2 /\
  forall junk out n inp k, 0 <= n <= len out -> 0 <= k <= len inp -> typed U8 inp ->
    exists r, run (cshake128_simple junk out n c1 inp k) = Some r /\ run (cshake128_simple junk out n c2 inp k) = Some r.
Proof. exact C37_refuted_lemma. Qed.
Print Assumptions C37_refuted.

Theorem C37_always_128 : forall junk out n inp k cstm, 0 <= n <= len out -> 0 <= k <= len inp -> typed U8 inp ->
  run (cshake128_simple junk out n cstm inp k) =
  Some (bytes_of_bits (KECCAK 256 (bits_of_bytes (zfirst k inp) ++ [false; false]) (8 * n)) ++ zskip n out).
Proof. exact C37_128_lemma. Qed.
Print Assumptions C37_always_128.

Theorem C37_always_256 : forall junk out n inp k cstm, 0 <= n <= len out -> 0 <= k <= len inp -> typed U8 inp ->
  run (cshake256_simple junk out n cstm inp k) =
  Some (bytes_of_bits (KECCAK 512 (bits_of_bytes (zfirst k inp) ++ [false; false]) (8 * n)) ++ zskip n out).
Proof. exact C37_256_lemma. Qed.
Print Assumptions C37_always_256.

Example C37_case : 0 <= 200 <= len (zeros 200) /\ 0 <= 3 <= len [1; 2; 3] /\ typed U8 [1; 2; 3].
Proof.
  change (len (zeros 200)) with 200. change (len [1; 2; 3]) with 3.
  split; [lia|]. split; [lia|]. apply (arrb_ok U8 3). reflexivity.
Qed.

(** ** C41 *)

(** [vp]: the polynomial encryption compresses, [v]: the one decryption computes, [m i]: bit [i] of the message.  The
    message bits come out as 16-bit words. *)
Theorem C41 : forall junk junk' scl buf vp v m,
  arr U16 256 vp -> Forall (fun x => x < 1024) vp -> arr U16 256 v -> len scl = 128 -> len buf = 512 ->
  (forall i, 0 <= i < 256 -> 0 <= m i <= 1 /\ exists e, -224 <= e <= 224 /\ (get v i - (get vp i - 512 * m i) - e) mod 1024 = 0) ->
  exists b, run (GenCipherText junk vp scl) = Some b /\ arr U8 128 b /\
    run (ExtractKeyBits junk' v b buf) = Some (ztab 512 (fun k => if k mod 2 =? 0 then m (k / 2) else 0)).
Proof. exact C41_lemma. Qed.
Print Assumptions C41.

(** The bound 224 is the largest one. *)
Theorem C41_tight : exists vp v, arr U16 256 vp /\ Forall (fun x => x < 1024) vp /\ arr U16 256 v /\
  (forall i, 0 <= i < 256 -> get v i = get vp i + 225) /\
  forall junk junk' scl buf, len scl = 128 -> len buf = 512 ->
    exists b, run (GenCipherText junk vp scl) = Some b /\ run (ExtractKeyBits junk' v b buf) <> Some (zeros 512).
Proof. exact C41_tight_lemma. Qed.
Print Assumptions C41_tight.

Example C41_case : let vp := repeat 1000 256 in let v := repeat 264 256 in
  arr U16 256 vp /\ Forall (fun x => x < 1024) vp /\ arr U16 256 v /\
  (264 - (1000 - 512 * 1) - (-224)) mod 1024 = 0.
Proof. repeat (split; [first [apply arrb_ok; reflexivity | rewrite Forall_forall; intros x Hx; apply repeat_spec in Hx; lia]|]). reflexivity. Qed.

(** ** C42 *)

(** A product of two sums of 16-bit coefficients does not fit [int]. *)
Theorem C42_refuted : exists junk a b, arr U16 256 a /\ arr U16 256 b /\
  Forall (fun x => x < 8192) a /\ Forall (fun x => x < 8192) b /\ run (pol_mul junk a b (zeros 256)) = None.
Proof. exact C42_refuted_lemma. Qed.
Print Assumptions C42_refuted.
