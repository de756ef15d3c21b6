(** Constant-time properties of the Cortex-M4 code.  The trace of a run has every branch condition and every index that the C code
    computes, and every address and branch of the assembly multipliers.  The two runs may differ in keys, ciphertexts, random bytes, and in what the
    registers and the memory contain at the calls of the assembly code. *)
From Coq Require Import ZArith List Lia.
From Verif Require Import Model.Arm Lib.Arr Lib.CInt Lib.CMon Spec.Keccak Spec.Sym Spec.M4Spec Spec.CtSpec Model.Params Model.Kem Model.Api Model.M4 Model.M4Mul
  Proof.SymP Proof.M4Thm Proof.M4CtThm.
Import ListNotations.
Local Open Scope Z_scope.

(** ** C67 *)

Theorem C67_tc4kara_keypair_ct : forall env env' scratch scratch', regs_ok env -> regs_ok env' ->
  forall l hh xof, hash_ok hh 32 SHA3_256 -> hash_quiet hh -> stream_ok xof SHAKE128 -> stream_quiet xof ->
  forall S (rb : S -> Z -> list Z * S), source_ok rb -> let c := Cfg l false false in
  forall cs junk junk' st st' pk pk' sk sk', pk_buf c pk -> len sk = M4_SECRETKEYBYTES l cs -> pk_buf c pk' -> len sk' = M4_SECRETKEYBYTES l cs ->
  leak (m4_kem_keypair l cs SHAKE128 hh xof (tc4kara_poly_mul env scratch) (tc4kara_poly_mul_acc env scratch) rb junk st pk sk) =
  leak (m4_kem_keypair l cs SHAKE128 hh xof (tc4kara_poly_mul env' scratch') (tc4kara_poly_mul_acc env' scratch') rb junk' st' pk' sk') /\
  leak (m4_kem_keypair l cs SHAKE128 hh xof (tc4kara_poly_mul env scratch) (tc4kara_poly_mul_acc env scratch) rb junk st pk sk) <> None.
Proof. exact C67_tc4kara_keypair_lemma. Qed.
Print Assumptions C67_tc4kara_keypair_ct.

Theorem C67_tc4kara_enc_ct : forall env env' scratch scratch', regs_ok env -> regs_ok env' ->
  forall l hh hg xof, hash_ok hh 32 SHA3_256 -> hash_quiet hh -> hash_ok hg 64 SHA3_512 -> hash_quiet hg -> stream_ok xof SHAKE128 -> stream_quiet xof ->
  forall S (rb : S -> Z -> list Z * S), source_ok rb -> let c := Cfg l false false in
  forall cs junk junk' st st' ct ct' k k' pk pk', ct_buf c ct -> ss_buf k -> pk_bytes c pk -> ct_buf c ct' -> ss_buf k' -> pk_bytes c pk' ->
  leak (m4_kem_enc l cs SHAKE128 hh hg xof (tc4kara_poly_mul env scratch) (tc4kara_poly_mul_acc env scratch) rb junk st ct k pk) =
  leak (m4_kem_enc l cs SHAKE128 hh hg xof (tc4kara_poly_mul env' scratch') (tc4kara_poly_mul_acc env' scratch') rb junk' st' ct' k' pk') /\
  leak (m4_kem_enc l cs SHAKE128 hh hg xof (tc4kara_poly_mul env scratch) (tc4kara_poly_mul_acc env scratch) rb junk st ct k pk) <> None.
Proof. exact C67_tc4kara_enc_lemma. Qed.
Print Assumptions C67_tc4kara_enc_ct.

Theorem C67_tc4kara_dec_ct : forall env env' scratch scratch', regs_ok env -> regs_ok env' ->
  forall l hh hg xof, hash_ok hh 32 SHA3_256 -> hash_quiet hh -> hash_ok hg 64 SHA3_512 -> hash_quiet hg -> stream_ok xof SHAKE128 -> stream_quiet xof ->
  let c := Cfg l false false in
  forall cs junk junk' k k' ct ct' sk sk', ss_buf k -> ct_bytes c ct -> arr U8 (M4_SECRETKEYBYTES l cs) sk ->
  ss_buf k' -> ct_bytes c ct' -> arr U8 (M4_SECRETKEYBYTES l cs) sk' ->
  leak (m4_kem_dec l cs SHAKE128 hh hg xof (tc4kara_poly_mul env scratch) (tc4kara_poly_mul_acc env scratch) junk k ct sk) =
  leak (m4_kem_dec l cs SHAKE128 hh hg xof (tc4kara_poly_mul env' scratch') (tc4kara_poly_mul_acc env' scratch') junk' k' ct' sk') /\
  leak (m4_kem_dec l cs SHAKE128 hh hg xof (tc4kara_poly_mul env scratch) (tc4kara_poly_mul_acc env scratch) junk k ct sk) <> None.
Proof. exact C67_tc4kara_dec_lemma. Qed.
Print Assumptions C67_tc4kara_dec_ct.

Theorem C67_striding_keypair_ct : forall env env' scratch scratch', regs_ok env -> regs_ok env' ->
  forall l hh xof, hash_ok hh 32 SHA3_256 -> hash_quiet hh -> stream_ok xof SHAKE128 -> stream_quiet xof ->
  forall S (rb : S -> Z -> list Z * S), source_ok rb -> let c := Cfg l false false in
  forall cs junk junk' st st' pk pk' sk sk', pk_buf c pk -> len sk = M4_SECRETKEYBYTES l cs -> pk_buf c pk' -> len sk' = M4_SECRETKEYBYTES l cs ->
  leak (m4_kem_keypair l cs SHAKE128 hh xof (striding_poly_mul true env scratch) (striding_poly_mul_acc true env scratch) rb junk st pk sk) =
  leak (m4_kem_keypair l cs SHAKE128 hh xof (striding_poly_mul true env' scratch') (striding_poly_mul_acc true env' scratch') rb junk' st' pk' sk') /\
  leak (m4_kem_keypair l cs SHAKE128 hh xof (striding_poly_mul true env scratch) (striding_poly_mul_acc true env scratch) rb junk st pk sk) <> None.
Proof. exact C67_striding_keypair_lemma. Qed.
Print Assumptions C67_striding_keypair_ct.

Theorem C67_striding_enc_ct : forall env env' scratch scratch', regs_ok env -> regs_ok env' ->
  forall l hh hg xof, hash_ok hh 32 SHA3_256 -> hash_quiet hh -> hash_ok hg 64 SHA3_512 -> hash_quiet hg -> stream_ok xof SHAKE128 -> stream_quiet xof ->
  forall S (rb : S -> Z -> list Z * S), source_ok rb -> let c := Cfg l false false in
  forall cs junk junk' st st' ct ct' k k' pk pk', ct_buf c ct -> ss_buf k -> pk_bytes c pk -> ct_buf c ct' -> ss_buf k' -> pk_bytes c pk' ->
  leak (m4_kem_enc l cs SHAKE128 hh hg xof (striding_poly_mul true env scratch) (striding_poly_mul_acc true env scratch) rb junk st ct k pk) =
  leak (m4_kem_enc l cs SHAKE128 hh hg xof (striding_poly_mul true env' scratch') (striding_poly_mul_acc true env' scratch') rb junk' st' ct' k' pk') /\
  leak (m4_kem_enc l cs SHAKE128 hh hg xof (striding_poly_mul true env scratch) (striding_poly_mul_acc true env scratch) rb junk st ct k pk) <> None.
Proof. exact C67_striding_enc_lemma. Qed.
Print Assumptions C67_striding_enc_ct.

Theorem C67_striding_dec_ct : forall env env' scratch scratch', regs_ok env -> regs_ok env' ->
  forall l hh hg xof, hash_ok hh 32 SHA3_256 -> hash_quiet hh -> hash_ok hg 64 SHA3_512 -> hash_quiet hg -> stream_ok xof SHAKE128 -> stream_quiet xof ->
  let c := Cfg l false false in
  forall cs junk junk' k k' ct ct' sk sk', ss_buf k -> ct_bytes c ct -> arr U8 (M4_SECRETKEYBYTES l cs) sk ->
  ss_buf k' -> ct_bytes c ct' -> arr U8 (M4_SECRETKEYBYTES l cs) sk' ->
  leak (m4_kem_dec l cs SHAKE128 hh hg xof (striding_poly_mul true env scratch) (striding_poly_mul_acc true env scratch) junk k ct sk) =
  leak (m4_kem_dec l cs SHAKE128 hh hg xof (striding_poly_mul true env' scratch') (striding_poly_mul_acc true env' scratch') junk' k' ct' sk') /\
  leak (m4_kem_dec l cs SHAKE128 hh hg xof (striding_poly_mul true env scratch) (striding_poly_mul_acc true env scratch) junk k ct sk) <> None.
Proof. exact C67_striding_dec_lemma. Qed.
Print Assumptions C67_striding_dec_ct.

Example C67_case : forall l cs, let c := Cfg l false false in
  (exists env env', regs_ok env /\ regs_ok env' /\ rg env R0 <> rg env' R0) /\
  (exists hh hg xof, hash_ok hh 32 SHA3_256 /\ hash_quiet hh /\ hash_ok hg 64 SHA3_512 /\ hash_quiet hg /\ stream_ok xof SHAKE128 /\ stream_quiet xof) /\
  source_ok zrb /\ pk_bytes c (zeros (SABER_PUBLICKEYBYTES c)) /\ arr U8 (M4_SECRETKEYBYTES l cs) (zeros (M4_SECRETKEYBYTES l cs)) /\
  ct_bytes c (zeros (SABER_BYTES_CCA_DEC c)) /\ ss_buf (zeros 32).
Proof.
  intros l cs c. split.
  { exists (State (fun _ => Int 0) (fun _ _ => Half 0) true true), (State (fun _ => Int 1) (fun _ _ => Half 0) true true).
    split; [intros r z E; injection E as <-; lia|]. split; [intros r z E; injection E as <-; lia|]. discriminate. }
  split; [do 3 eexists; exact quiet_case|]. split; [exact zrb_ok|].
  assert (Z0 : forall n, 0 <= n -> arr U8 n (zeros n)) by (intros n Hn; exact (zrb_ok tt n Hn)).
  split; [apply Z0; destruct l; vm_compute; discriminate|]. split; [apply Z0; destruct l, cs; vm_compute; discriminate|].
  split; [apply Z0; destruct l; vm_compute; discriminate|]. reflexivity.
Qed.
