(** Properties of the four-fold key encapsulation of Variants/SaberX4_avx2. *)
From Coq Require Import ZArith List Lia.
From Verif Require Import Lib.Arr Lib.CInt Lib.CMon Lib.Wire Spec.Bits Spec.Keccak Spec.Saber Spec.Sym Spec.X4Spec Model.Vec Model.Params Model.Api Model.Fips202x4 Model.X4Pack Model.X4Kem
  Proof.PackP Proof.M4Thm Proof.Keccak4P Spec.AvxSpec Proof.X4PackP Proof.X4KemThm.
Import ListNotations.
Local Open Scope Z_scope.

(** ** C53 *)

(** SHAKE256_RATE is the length of t0, ..., t3 in the code. *)
Theorem C53_keypair_refuted : exists junk pk sk, arr U8 (4 * 992) pk /\ arr U8 (4 * 2304) sk /\ source_ok zrb /\
  run (x4_kem_keypair zrb SHAKE256_RATE junk tt pk sk) = None.
Proof. exact C53_refuted_lemma. Qed.
Print Assumptions C53_keypair_refuted.

(** Whatever the arguments and the random bytes. *)
Theorem C53_keypair_undefined : forall S (rb : S -> Z -> list Z * S) junk s pk sk, run (x4_kem_keypair rb SHAKE256_RATE junk s pk sk) = None.
Proof. exact C53_keypair_code. Qed.
Print Assumptions C53_keypair_undefined.

Theorem C53_enc_undefined : forall S (rb : S -> Z -> list Z * S) junk s c k pk, run (x4_kem_enc rb SHAKE256_RATE junk s c k pk) = None.
Proof. exact C53_enc_code. Qed.
Print Assumptions C53_enc_undefined.

Theorem C53_dec_undefined : forall junk k c sk, run (x4_kem_dec SHAKE256_RATE junk k c sk) = None.
Proof. exact C53_dec_code. Qed.
Print Assumptions C53_dec_undefined.

(** ** C54 *)

(** With t0, ..., t3 of one block (168 bytes) each. *)
Theorem C54_keypair : forall S (rb : S -> Z -> list Z * S) junk junk' s pk sk, source_ok rb ->
  len pk = 4 * 992 -> len sk = 4 * 2304 ->
  exists p0 k0 s0 p1 k1 s1 p2 k2 s2 p3 k3 s3,
    run (keypair rb junk' x4 s (part 992 0 pk) (part 2304 0 sk)) = Some (p0, k0, s0, 0) /\
    run (keypair rb junk' x4 s0 (part 992 1 pk) (part 2304 1 sk)) = Some (p1, k1, s1, 0) /\
    run (keypair rb junk' x4 s1 (part 992 2 pk) (part 2304 2 sk)) = Some (p2, k2, s2, 0) /\
    run (keypair rb junk' x4 s2 (part 992 3 pk) (part 2304 3 sk)) = Some (p3, k3, s3, 0) /\
    run (x4_kem_keypair rb 168 junk s pk sk) = Some (p0 ++ p1 ++ p2 ++ p3, k0 ++ k1 ++ k2 ++ k3, s3, 0).
Proof. exact C54_keypair_lemma. Qed.
Print Assumptions C54_keypair.

Theorem C54_enc : forall S (rb : S -> Z -> list Z * S) junk junk' s c k pk, source_ok rb ->
  len c = 4 * 1088 -> len k = 4 * 32 -> arr U8 (4 * 992) pk ->
  exists c0 k0 s0 c1 k1 s1 c2 k2 s2 c3 k3 s3,
    run (enc rb junk' x4 s (part 1088 0 c) (part 32 0 k) (part 992 0 pk)) = Some (c0, k0, s0, 0) /\
    run (enc rb junk' x4 s0 (part 1088 1 c) (part 32 1 k) (part 992 1 pk)) = Some (c1, k1, s1, 0) /\
    run (enc rb junk' x4 s1 (part 1088 2 c) (part 32 2 k) (part 992 2 pk)) = Some (c2, k2, s2, 0) /\
    run (enc rb junk' x4 s2 (part 1088 3 c) (part 32 3 k) (part 992 3 pk)) = Some (c3, k3, s3, 0) /\
    run (x4_kem_enc rb 168 junk s c k pk) = Some (c0 ++ c1 ++ c2 ++ c3, k0 ++ k1 ++ k2 ++ k3, s3, 0).
Proof. exact C54_enc_lemma. Qed.
Print Assumptions C54_enc.

Theorem C54_dec : forall junk junk' k c sk, len k = 4 * 32 -> arr U8 (4 * 1088) c -> arr U8 (4 * 2304) sk ->
  exists k0 k1 k2 k3,
    run (dec junk' x4 (part 32 0 k) (part 1088 0 c) (part 2304 0 sk)) = Some (k0, 0) /\
    run (dec junk' x4 (part 32 1 k) (part 1088 1 c) (part 2304 1 sk)) = Some (k1, 0) /\
    run (dec junk' x4 (part 32 2 k) (part 1088 2 c) (part 2304 2 sk)) = Some (k2, 0) /\
    run (dec junk' x4 (part 32 3 k) (part 1088 3 c) (part 2304 3 sk)) = Some (k3, 0) /\
    run (x4_kem_dec 168 junk k c sk) = Some (k0 ++ k1 ++ k2 ++ k3, 0).
Proof. exact C54_dec_lemma. Qed.
Print Assumptions C54_dec.

(** Buffers of these lengths exist; the parts of a buffer are its quarters; x4 is the configuration of Saber. *)
Example C54_case : source_ok zrb /\ arr U8 (4 * 992) (zeros (4 * 992)) /\ arr U8 (4 * 2304) (zeros (4 * 2304)) /\ arr U8 (4 * 1088) (zeros (4 * 1088)) /\
  len (zeros (4 * 32)) = 4 * 32 /\ map (fun m => part 2 m [1; 2; 3; 4; 5; 6; 7; 8]) [0; 1; 2; 3] = [[1; 2]; [3; 4]; [5; 6]; [7; 8]] /\
  x4 = Cfg Saber false false /\ SABER_PUBLICKEYBYTES x4 = 992 /\ SABER_SECRETKEYBYTES x4 = 2304 /\ SABER_BYTES_CCA_DEC x4 = 1088.
Proof.
  assert (Z0 : forall n, 0 <= n -> arr U8 n (zeros n)) by (intros n Hn; exact (zrb_ok tt n Hn)).
  split; [exact zrb_ok|]. do 3 (split; [apply Z0; lia|]). repeat split; reflexivity.
Qed.

(** ** C55 *)

Theorem C55_POLVECp2BSX4 : forall junk bytes data, (forall j, 0 <= j < 4 -> 960 <= len (sel bytes j) /\ vec U16 3 (sel data j)) ->
  exists r, run (POLVECp2BSX4 junk bytes data) = Some r /\ forall j, 0 <= j < 4 -> sel r j = pack_vec 10 (sel data j) ++ zskip 960 (sel bytes j).
Proof. exact C55_p2BS_lemma. Qed.
Print Assumptions C55_POLVECp2BSX4.

Theorem C55_POLVECq2BSX4 : forall junk bytes data, (forall j, 0 <= j < 4 -> 1248 <= len (sel bytes j) /\ vec U16 3 (sel data j)) ->
  exists r, run (POLVECq2BSX4 junk bytes data) = Some r /\ forall j, 0 <= j < 4 -> sel r j = pack_vec 13 (sel data j) ++ zskip 1248 (sel bytes j).
Proof. exact C55_q2BS_lemma. Qed.
Print Assumptions C55_POLVECq2BSX4.

(** The result is three polynomials of sixteen vectors for each instance ([avec]); [polys] puts the lanes one after the other. *)
Theorem C55_BS2POLVECpX4 : forall junk bs data, (forall j, 0 <= j < 4 -> 960 <= len (sel bs j) /\ typed U8 (sel bs j) /\ vecs (sel data j)) ->
  exists r, run (BS2POLVECpX4 junk bs data) = Some r /\ forall j, 0 <= j < 4 -> avec 3 (sel r j) /\ polys (sel r j) = unpack_vec 10 3 (sel bs j).
Proof. exact C55_BS2p_lemma. Qed.
Print Assumptions C55_BS2POLVECpX4.

Theorem C55_BS2POLVECqX4 : forall junk bs data, (forall j, 0 <= j < 4 -> 1248 <= len (sel bs j) /\ typed U8 (sel bs j) /\ vecs (sel data j)) ->
  exists r, run (BS2POLVECqX4 junk bs data) = Some r /\ forall j, 0 <= j < 4 -> avec 3 (sel r j) /\ polys (sel r j) = unpack_vec 13 3 (sel bs j).
Proof. exact C55_BS2q_lemma. Qed.
Print Assumptions C55_BS2POLVECqX4.

Theorem C55_BS2POLq4x : forall junk bs data, (forall j, 0 <= j < 4 -> 416 <= len (sel bs j) /\ typed U8 (sel bs j) /\ len (sel data j) = 16) ->
  exists r, run (BS2POLq4x junk bs data) = Some r /\ forall j, 0 <= j < 4 -> vok 16 (sel r j) /\ concat (sel r j) = unpack 13 (sel bs j).
Proof. exact C55_BS2POL_lemma. Qed.
Print Assumptions C55_BS2POLq4x.

(** Four different vectors, with coefficients beyond the modulus; buffers longer than the result. *)
Example C55_case : (forall j, 0 <= j < 4 -> 1248 <= len (sel (tab4 (fun k => repeat k 1300)) j) /\ vec U16 3 (sel (tab4 (fun k => repeat (repeat (65000 + k) 256) 3)) j)) /\
  (forall j, 0 <= j < 4 -> 1248 <= len (sel (tab4 (fun k => repeat (100 + k) 1300)) j) /\ typed U8 (sel (tab4 (fun k => repeat (100 + k) 1300)) j) /\
     vecs (sel (tab4 (fun k => repeat (repeat [k] 16) 3)) j)).
Proof.
  assert (R : forall A (x : A) n (P : A -> Prop), P x -> Forall P (repeat x n)) by (intros A x n P HP; apply Forall_forall; intros y Hy; apply repeat_spec in Hy; now subst).
  split; intros j Hj; rewrite !sel_tab4 by auto.
  - split; [unfold len; rewrite repeat_length; lia|]. split; [reflexivity|]. apply R. split; [reflexivity|]. apply R. cbn [tmin tmax]. lia.
  - split; [unfold len; rewrite repeat_length; lia|]. split; [apply R; cbn [tmin tmax]; lia|]. split; [reflexivity|]. apply R. reflexivity.
Qed.
