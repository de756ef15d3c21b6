(** C34: AES-256 in counter mode, the prf of the 90s variants. *)
From Coq Require Import ZArith List.
From Verif Require Import Lib.Arr Lib.CInt Lib.CMon Spec.Aes Model.Aes Proof.AesThm.
Import ListNotations.
Local Open Scope Z_scope.

(** ** C34: the prf writes the first [n] bytes of the key stream with a zero nonce, for every key and
    every length; bytes after them keep their value. *)
Theorem C34_prf : forall junk out n key, 0 <= n <= len out -> 32 <= len key -> typed U8 key ->
  run (saber_aes256ctr_prf junk out n key) = Some (ctr_stream (zfirst 32 key) (zeros 12) 0 n ++ zskip n out).
Proof. exact saber_prf_run. Qed.
Print Assumptions C34_prf.

(** aes256ctr_prf with any nonce. *)
Theorem C34_ctr : forall junk out n key nonce, 0 <= n <= len out -> 32 <= len key -> typed U8 key -> 12 <= len nonce -> typed U8 nonce ->
  run (aes256ctr_prf junk out n key nonce) = Some (ctr_stream (zfirst 32 key) nonce 0 n ++ zskip n out).
Proof. exact aes_prf_run. Qed.
Print Assumptions C34_ctr.

(** 70 bytes: one group of four blocks and a part of the second group. *)
Example C34_case : 0 <= 70 <= len (repeat (-7) 80) /\ 32 <= len (repeat 255 32) /\ typed U8 (repeat 255 32) /\ 12 <= len (repeat 9 12) /\ typed U8 (repeat 9 12).
Proof. repeat split; try discriminate; apply Forall_repeat; split; discriminate. Qed.

(** The incremental interface: after aes256ctr_init, any sequence of calls of aes256ctr_squeezeblocks
    delivers consecutive pieces of the same stream, with the counter modulo 2^32. *)
Theorem C34_incremental : forall junk s key nonce outs, aes_ctx_ok s -> 32 <= len key -> typed U8 key -> 12 <= len nonce -> typed U8 nonce ->
  Forall (fun p => 0 <= snd p /\ 64 * snd p <= len (fst p)) outs ->
  run (s <- aes256ctr_init junk s key nonce ;; squeezes junk outs s)%M = Some (pieces (zfirst 32 key) nonce 0 outs).
Proof. exact squeezes_run. Qed.
Print Assumptions C34_incremental.

Example C34_incremental_case : aes_ctx_ok (Ctx (repeat 5 120) (repeat 6 16)) /\
  Forall (fun p : list Z * Z => 0 <= snd p /\ 64 * snd p <= len (fst p)) [(zeros 130, 2); ([], 0); (zeros 64, 1)].
Proof. split; [split; (split; [reflexivity|apply Forall_repeat; split; discriminate])|repeat constructor; discriminate]. Qed.

(** The trace depends on the lengths, not on the key, the nonce or the buffers. *)
Theorem C34_trace : forall j j' out out' n key key' nonce nonce' r r', len out = len out' -> len key = len key' -> len nonce = len nonce' ->
  run (aes256ctr_prf j out n key nonce) = Some r -> run (aes256ctr_prf j' out' n key' nonce') = Some r' ->
  leak (aes256ctr_prf j out n key nonce) = leak (aes256ctr_prf j' out' n key' nonce').
Proof. exact aes_prf_leak. Qed.
Print Assumptions C34_trace.

Theorem C34_incremental_trace : forall j j' s s' key key' nonce nonce' outs outs' r r', aes_ctx_ok s -> aes_ctx_ok s' ->
  len key = len key' -> len nonce = len nonce' -> Forall2 (fun p q => len (fst p) = len (fst q) /\ snd p = snd q) outs outs' ->
  run (s <- aes256ctr_init j s key nonce ;; squeezes j outs s)%M = Some r -> run (s <- aes256ctr_init j' s' key' nonce' ;; squeezes j' outs' s)%M = Some r' ->
  leak (s <- aes256ctr_init j s key nonce ;; squeezes j outs s)%M = leak (s <- aes256ctr_init j' s' key' nonce' ;; squeezes j' outs' s)%M.
Proof. exact squeezes_leak. Qed.
Print Assumptions C34_incremental_trace.

Example C34_trace_case : exists r r', run (aes256ctr_prf (fun _ _ => 0) (zeros 80) 70 (zeros 32) (zeros 12)) = Some r /\
  run (aes256ctr_prf (fun _ _ => 0) (zeros 80) 70 (repeat 255 32) (repeat 9 12)) = Some r' /\ zeros 32 <> repeat 255 32.
Proof.
  do 2 eexists. split; [apply aes_prf_run|split; [apply aes_prf_run|discriminate]];
    try split; try discriminate; apply Forall_repeat; split; discriminate.
Qed.

(** FIPS 197, C.3. *)
Example C34_value : AES256 (ztab 32 (fun i => i)) [0x00; 0x11; 0x22; 0x33; 0x44; 0x55; 0x66; 0x77; 0x88; 0x99; 0xaa; 0xbb; 0xcc; 0xdd; 0xee; 0xff] =
  [0x8e; 0xa2; 0xb7; 0xca; 0x51; 0x67; 0x45; 0xbf; 0xea; 0xfc; 0x49; 0x90; 0x4b; 0x49; 0x60; 0x89].
Proof. vm_compute. reflexivity. Qed.
Example C34_sbox_value : sbox 0 = 0x63 /\ sbox 0x53 = 0xed.
Proof. split; vm_compute; reflexivity. Qed.
