(** C16, C17, C18: encodings. *)
From Coq Require Import ZArith List.
From Verif Require Import Lib.Arr Lib.CInt Lib.CMon Spec.Bits Model.Params Model.Pack Proof.PackP Proof.PackThm.
Import ListNotations.
Local Open Scope Z_scope.

(** ** C16: unpacking a packed polynomial or vector reduces each coefficient modulo
    2^width.  [out], [out'] are the old contents of the output buffers. *)

Theorem C16_ciphertext_part : forall c out out' data,
  len out = 32 * SABER_ET c -> len out' = 256 -> arr U16 256 data ->
  exists b, run (POLT2BS c out data) = Some b /\ arr U8 (32 * SABER_ET c) b /\
            run (BS2POLT c b out') = Some (map (fun x => x mod 2 ^ SABER_ET c) data).
Proof. exact C16_T. Qed.
Print Assumptions C16_ciphertext_part.

Theorem C16_q : forall c out out' data,
  len out = 32 * SABER_EQ c -> len out' = 256 -> arr U16 256 data ->
  exists b, run (POLq2BS c out data) = Some b /\ arr U8 (32 * SABER_EQ c) b /\
            run (BS2POLq c b out') = Some (map (fun x => x mod 2 ^ SABER_EQ c) data).
Proof. exact C16_q_lemma. Qed.
Print Assumptions C16_q.

Theorem C16_p : forall out out' data,
  len out = 320 -> len out' = 256 -> arr U16 256 data ->
  exists b, run (POLp2BS out data) = Some b /\ arr U8 320 b /\
            run (BS2POLp b out') = Some (map (fun x => x mod 2 ^ 10) data).
Proof. exact C16_p_lemma. Qed.
Print Assumptions C16_p.

Theorem C16_message : forall out out' data,
  len out = 32 -> len out' = 256 -> arr U16 256 data -> Forall (fun x => x = 0 \/ x = 1) data ->
  exists b, run (POLmsg2BS out data) = Some b /\ arr U8 32 b /\ run (BS2POLmsg b out') = Some data.
Proof. exact C16_msg_lemma. Qed.
Print Assumptions C16_message.

Theorem C16_vector_q : forall c out out' data,
  len out = SABER_L c * (32 * SABER_EQ c) -> vec_mem (SABER_L c) out' -> vec U16 (SABER_L c) data ->
  exists b, run (POLVECq2BS c out data) = Some b /\ arr U8 (SABER_L c * (32 * SABER_EQ c)) b /\
            run (BS2POLVECq c b out') = Some (map (map (fun x => x mod 2 ^ SABER_EQ c)) data).
Proof. exact C16_vq_lemma. Qed.
Print Assumptions C16_vector_q.

Theorem C16_vector_p : forall c out out' data,
  len out = SABER_L c * 320 -> vec_mem (SABER_L c) out' -> vec U16 (SABER_L c) data ->
  exists b, run (POLVECp2BS c out data) = Some b /\ arr U8 (SABER_L c * 320) b /\
            run (BS2POLVECp c b out') = Some (map (map (fun x => x mod 2 ^ 10)) data).
Proof. exact C16_vp_lemma. Qed.
Print Assumptions C16_vector_p.

(** ** C17: every byte string is the packing of its unpacking. *)

Theorem C17_ciphertext_part : forall c out out' bytes,
  len out = 32 * SABER_ET c -> len out' = 256 -> arr U8 (32 * SABER_ET c) bytes ->
  exists d, run (BS2POLT c bytes out') = Some d /\ arr U16 256 d /\ run (POLT2BS c out d) = Some bytes.
Proof. exact C17_T. Qed.
Print Assumptions C17_ciphertext_part.

Theorem C17_q : forall c out out' bytes,
  len out = 32 * SABER_EQ c -> len out' = 256 -> arr U8 (32 * SABER_EQ c) bytes ->
  exists d, run (BS2POLq c bytes out') = Some d /\ arr U16 256 d /\ run (POLq2BS c out d) = Some bytes.
Proof. exact C17_q_lemma. Qed.
Print Assumptions C17_q.

Theorem C17_p : forall out out' bytes,
  len out = 320 -> len out' = 256 -> arr U8 320 bytes ->
  exists d, run (BS2POLp bytes out') = Some d /\ arr U16 256 d /\ run (POLp2BS out d) = Some bytes.
Proof. exact C17_p_lemma. Qed.
Print Assumptions C17_p.

Theorem C17_message : forall out out' bytes,
  len out = 32 -> len out' = 256 -> arr U8 32 bytes ->
  exists d, run (BS2POLmsg bytes out') = Some d /\ arr U16 256 d /\ run (POLmsg2BS out d) = Some bytes.
Proof. exact C17_msg_lemma. Qed.
Print Assumptions C17_message.

Theorem C17_vector_q : forall c out out' bytes,
  len out = SABER_L c * (32 * SABER_EQ c) -> vec_mem (SABER_L c) out' ->
  arr U8 (SABER_L c * (32 * SABER_EQ c)) bytes ->
  exists d, run (BS2POLVECq c bytes out') = Some d /\ vec U16 (SABER_L c) d /\
            run (POLVECq2BS c out d) = Some bytes.
Proof. exact C17_vq_lemma. Qed.
Print Assumptions C17_vector_q.

Theorem C17_vector_p : forall c out out' bytes,
  len out = SABER_L c * 320 -> vec_mem (SABER_L c) out' -> arr U8 (SABER_L c * 320) bytes ->
  exists d, run (BS2POLVECp c bytes out') = Some d /\ vec U16 (SABER_L c) d /\
            run (POLVECp2BS c out d) = Some bytes.
Proof. exact C17_vp_lemma. Qed.
Print Assumptions C17_vector_p.

(** ** C18: bit [k] of the packed string is bit [k mod w] of coefficient [k / w]. *)

Theorem C18_ciphertext_part : forall c out data,
  len out = 32 * SABER_ET c -> arr U16 256 data ->
  exists b, run (POLT2BS c out data) = Some b /\ arr U8 (32 * SABER_ET c) b /\
    forall k, 0 <= k < 256 * SABER_ET c ->
      Z.testbit (get b (k / 8)) (k mod 8) = Z.testbit (get data (k / SABER_ET c)) (k mod SABER_ET c).
Proof. exact C18_T. Qed.
Print Assumptions C18_ciphertext_part.

Theorem C18_q : forall c out data,
  len out = 32 * SABER_EQ c -> arr U16 256 data ->
  exists b, run (POLq2BS c out data) = Some b /\ arr U8 (32 * SABER_EQ c) b /\
    forall k, 0 <= k < 256 * SABER_EQ c ->
      Z.testbit (get b (k / 8)) (k mod 8) = Z.testbit (get data (k / SABER_EQ c)) (k mod SABER_EQ c).
Proof. exact C18_q_lemma. Qed.
Print Assumptions C18_q.

Theorem C18_p : forall out data,
  len out = 320 -> arr U16 256 data ->
  exists b, run (POLp2BS out data) = Some b /\ arr U8 320 b /\
    forall k, 0 <= k < 2560 ->
      Z.testbit (get b (k / 8)) (k mod 8) = Z.testbit (get data (k / 10)) (k mod 10).
Proof. exact C18_p_lemma. Qed.
Print Assumptions C18_p.

Theorem C18_message : forall out data,
  len out = 32 -> arr U16 256 data ->
  exists b, run (POLmsg2BS out data) = Some b /\ arr U8 32 b /\
    forall k, 0 <= k < 256 -> Z.testbit (get b (k / 8)) (k mod 8) = Z.testbit (get data k) 0.
Proof. exact C18_msg_lemma. Qed.
Print Assumptions C18_message.

Theorem C18_vector_q : forall c out data,
  len out = SABER_L c * (32 * SABER_EQ c) -> vec U16 (SABER_L c) data ->
  exists b, run (POLVECq2BS c out data) = Some b /\ arr U8 (SABER_L c * (32 * SABER_EQ c)) b /\
    forall p k, 0 <= p < SABER_L c -> 0 <= k < 256 * SABER_EQ c ->
      Z.testbit (get b ((256 * SABER_EQ c * p + k) / 8)) ((256 * SABER_EQ c * p + k) mod 8) =
      Z.testbit (get (getr data p) (k / SABER_EQ c)) (k mod SABER_EQ c).
Proof. exact C18_vq_lemma. Qed.
Print Assumptions C18_vector_q.

Theorem C18_vector_p : forall c out data,
  len out = SABER_L c * 320 -> vec U16 (SABER_L c) data ->
  exists b, run (POLVECp2BS c out data) = Some b /\ arr U8 (SABER_L c * 320) b /\
    forall p k, 0 <= p < SABER_L c -> 0 <= k < 2560 ->
      Z.testbit (get b ((2560 * p + k) / 8)) ((2560 * p + k) mod 8) =
      Z.testbit (get (getr data p) (k / 10)) (k mod 10).
Proof. exact C18_vp_lemma. Qed.
Print Assumptions C18_vector_p.

(** ** The hypotheses hold of concrete data, and the functions compute on it. *)

Definition sample_poly : list Z := ztab 256 (fun i => (i * 7919 + 13) mod 65536).
Definition sample_bytes (n : Z) : list Z := ztab n (fun i => (i * 179 + 5) mod 256).

Example sample_poly_ok : arr U16 256 sample_poly.
Proof. apply arrb_ok. vm_compute. reflexivity. Qed.
Example sample_bytes_ok : arr U8 416 (sample_bytes 416).
Proof. apply arrb_ok. vm_compute. reflexivity. Qed.
Example sample_vec_ok : vec U16 3 [sample_poly; sample_poly; sample_poly].
Proof. split; [reflexivity|]. repeat apply Forall_cons; try apply Forall_nil; exact sample_poly_ok. Qed.

Example pack_runs :
  run (POLq2BS (Cfg Saber false false) (sample_bytes 416) (repeat 0x1abc 256)) =
  Some (concat (repeat [0xbc; 0x9a; 0x57; 0xf3; 0x6a; 0x5e; 0xcd; 0xab; 0x79; 0x35; 0xaf; 0xe6; 0xd5] 32)).
Proof. vm_compute. reflexivity. Qed.
