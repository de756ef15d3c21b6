(** C38, C43 to C46: the Cortex-M4 code. *)
From Coq Require Import ZArith List Bool Lia.
From Verif Require Import Lib.Arr Lib.CInt Lib.CMon Spec.Keccak Spec.Bits Spec.Ring Spec.Saber Spec.M4Spec Model.Params Model.Api Model.M4
  Model.Arm Model.ArmCode Model.M4Mul
  Proof.SymP Proof.M4P Proof.M4Thm Proof.M4MulP Proof.StrdP.
Import ListNotations.
Local Open Scope Z_scope.

(** ** C38 *)

(** [hh], [hg], [xof]: the Keccak functions of pqm4, which are not in the repository.  [mul], [mul_acc]: any
    multiplier that meets its contract; the theorems after these have the two multipliers of the repository. *)
Theorem C38_keypair : forall l hh xof mul mul_acc, hash_ok hh 32 SHA3_256 -> stream_ok xof SHAKE128 -> mul_ok mul -> mul_acc_ok mul_acc ->
  forall S (rb : S -> Z -> list Z * S), source_ok rb ->
  forall junk junk' st pk sk, pk_buf (Cfg l false false) pk -> sk_buf (Cfg l false false) sk ->
  run (m4_kem_keypair l false SHAKE128 hh xof mul mul_acc rb junk st pk sk) = run (keypair rb junk' (Cfg l false false) st pk sk) /\
  run (keypair rb junk' (Cfg l false false) st pk sk) <> None.
Proof. intros l hh xof mul mul_acc H1 H2 H3 H4 S rb. now apply C38_keypair_lemma. Qed.
Print Assumptions C38_keypair.

Theorem C38_enc : forall l hh hg xof mul mul_acc, hash_ok hh 32 SHA3_256 -> hash_ok hg 64 SHA3_512 -> stream_ok xof SHAKE128 ->
  mul_ok mul -> mul_acc_ok mul_acc ->
  forall S (rb : S -> Z -> list Z * S), source_ok rb ->
  forall cs junk junk' st ct k pk, ct_buf (Cfg l false false) ct -> ss_buf k -> pk_bytes (Cfg l false false) pk ->
  run (m4_kem_enc l cs SHAKE128 hh hg xof mul mul_acc rb junk st ct k pk) = run (enc rb junk' (Cfg l false false) st ct k pk) /\
  run (enc rb junk' (Cfg l false false) st ct k pk) <> None.
Proof. intros l hh hg xof mul mul_acc H1 H2 H3 H4 H5 S rb. now apply C38_enc_lemma. Qed.
Print Assumptions C38_enc.

Theorem C38_dec : forall l hh hg xof mul mul_acc, hash_ok hh 32 SHA3_256 -> hash_ok hg 64 SHA3_512 -> stream_ok xof SHAKE128 ->
  mul_ok mul -> mul_acc_ok mul_acc ->
  forall junk junk' k ct sk, ss_buf k -> ct_bytes (Cfg l false false) ct -> sk_bytes (Cfg l false false) sk ->
  run (m4_kem_dec l false SHAKE128 hh hg xof mul mul_acc junk k ct sk) = run (dec junk' (Cfg l false false) k ct sk) /\
  run (dec junk' (Cfg l false false) k ct sk) <> None.
Proof. exact C38_dec_lemma. Qed.
Print Assumptions C38_dec.

(** With the multipliers of m4-tc4kara and m4-striding: their C and assembly code, run from any registers, flags and stack contents.
    [true]: multiplication of type int wraps around in m4-striding, see C46. *)
Theorem C38_tc4kara_keypair : forall env scratch, regs_ok env ->
  forall l hh xof, hash_ok hh 32 SHA3_256 -> stream_ok xof SHAKE128 ->
  forall S (rb : S -> Z -> list Z * S), source_ok rb ->
  forall junk junk' st pk sk, pk_buf (Cfg l false false) pk -> sk_buf (Cfg l false false) sk ->
  run (m4_kem_keypair l false SHAKE128 hh xof (tc4kara_poly_mul env scratch) (tc4kara_poly_mul_acc env scratch) rb junk st pk sk) =
  run (keypair rb junk' (Cfg l false false) st pk sk) /\
  run (keypair rb junk' (Cfg l false false) st pk sk) <> None.
Proof.
  intros env scratch He l hh xof H1 H2 S rb.
  exact (C38_keypair_lemma l hh xof _ _ H1 H2 (tc4kara_mul_ok env scratch He) (tc4kara_mul_acc_ok env scratch He) rb).
Qed.
Print Assumptions C38_tc4kara_keypair.

Theorem C38_striding_keypair : forall env scratch, regs_ok env ->
  forall l hh xof, hash_ok hh 32 SHA3_256 -> stream_ok xof SHAKE128 ->
  forall S (rb : S -> Z -> list Z * S), source_ok rb ->
  forall junk junk' st pk sk, pk_buf (Cfg l false false) pk -> sk_buf (Cfg l false false) sk ->
  run (m4_kem_keypair l false SHAKE128 hh xof (striding_poly_mul true env scratch) (striding_poly_mul_acc true env scratch) rb junk st pk sk) =
  run (keypair rb junk' (Cfg l false false) st pk sk) /\
  run (keypair rb junk' (Cfg l false false) st pk sk) <> None.
Proof.
  intros env scratch He l hh xof H1 H2 S rb.
  exact (C38_keypair_lemma l hh xof _ _ H1 H2 (striding_mul_ok env scratch He) (striding_mul_acc_ok env scratch He) rb).
Qed.
Print Assumptions C38_striding_keypair.

Theorem C38_tc4kara_enc : forall env scratch, regs_ok env ->
  forall l hh hg xof, hash_ok hh 32 SHA3_256 -> hash_ok hg 64 SHA3_512 -> stream_ok xof SHAKE128 ->
  forall S (rb : S -> Z -> list Z * S), source_ok rb ->
  forall cs junk junk' st ct k pk, ct_buf (Cfg l false false) ct -> ss_buf k -> pk_bytes (Cfg l false false) pk ->
  run (m4_kem_enc l cs SHAKE128 hh hg xof (tc4kara_poly_mul env scratch) (tc4kara_poly_mul_acc env scratch) rb junk st ct k pk) =
  run (enc rb junk' (Cfg l false false) st ct k pk) /\
  run (enc rb junk' (Cfg l false false) st ct k pk) <> None.
Proof.
  intros env scratch He l hh hg xof H1 H2 H3 S rb.
  exact (C38_enc_lemma l hh hg xof _ _ H1 H2 H3 (tc4kara_mul_ok env scratch He) (tc4kara_mul_acc_ok env scratch He) rb).
Qed.
Print Assumptions C38_tc4kara_enc.

Theorem C38_striding_enc : forall env scratch, regs_ok env ->
  forall l hh hg xof, hash_ok hh 32 SHA3_256 -> hash_ok hg 64 SHA3_512 -> stream_ok xof SHAKE128 ->
  forall S (rb : S -> Z -> list Z * S), source_ok rb ->
  forall cs junk junk' st ct k pk, ct_buf (Cfg l false false) ct -> ss_buf k -> pk_bytes (Cfg l false false) pk ->
  run (m4_kem_enc l cs SHAKE128 hh hg xof (striding_poly_mul true env scratch) (striding_poly_mul_acc true env scratch) rb junk st ct k pk) =
  run (enc rb junk' (Cfg l false false) st ct k pk) /\
  run (enc rb junk' (Cfg l false false) st ct k pk) <> None.
Proof.
  intros env scratch He l hh hg xof H1 H2 H3 S rb.
  exact (C38_enc_lemma l hh hg xof _ _ H1 H2 H3 (striding_mul_ok env scratch He) (striding_mul_acc_ok env scratch He) rb).
Qed.
Print Assumptions C38_striding_enc.

Theorem C38_tc4kara_dec : forall env scratch, regs_ok env ->
  forall l hh hg xof, hash_ok hh 32 SHA3_256 -> hash_ok hg 64 SHA3_512 -> stream_ok xof SHAKE128 ->
  forall junk junk' k ct sk, ss_buf k -> ct_bytes (Cfg l false false) ct -> sk_bytes (Cfg l false false) sk ->
  run (m4_kem_dec l false SHAKE128 hh hg xof (tc4kara_poly_mul env scratch) (tc4kara_poly_mul_acc env scratch) junk k ct sk) =
  run (dec junk' (Cfg l false false) k ct sk) /\
  run (dec junk' (Cfg l false false) k ct sk) <> None.
Proof.
  intros env scratch He l hh hg xof H1 H2 H3.
  exact (C38_dec_lemma l hh hg xof _ _ H1 H2 H3 (tc4kara_mul_ok env scratch He) (tc4kara_mul_acc_ok env scratch He)).
Qed.
Print Assumptions C38_tc4kara_dec.

Theorem C38_striding_dec : forall env scratch, regs_ok env ->
  forall l hh hg xof, hash_ok hh 32 SHA3_256 -> hash_ok hg 64 SHA3_512 -> stream_ok xof SHAKE128 ->
  forall junk junk' k ct sk, ss_buf k -> ct_bytes (Cfg l false false) ct -> sk_bytes (Cfg l false false) sk ->
  run (m4_kem_dec l false SHAKE128 hh hg xof (striding_poly_mul true env scratch) (striding_poly_mul_acc true env scratch) junk k ct sk) =
  run (dec junk' (Cfg l false false) k ct sk) /\
  run (dec junk' (Cfg l false false) k ct sk) <> None.
Proof.
  intros env scratch He l hh hg xof H1 H2 H3.
  exact (C38_dec_lemma l hh hg xof _ _ H1 H2 H3 (striding_mul_ok env scratch He) (striding_mul_acc_ok env scratch He)).
Qed.
Print Assumptions C38_striding_dec.

(** The primitives and the multiplier of the reference implementation meet the contracts. *)
Example C38_case : forall c, s90 c = false -> hash_ok (hash_h c) 32 SHA3_256 /\ hash_ok (hash_g c) 64 SHA3_512 /\ stream_ok (prf c) SHAKE128 /\
  mul_ok ref_mul /\ mul_acc_ok ref_mul_acc.
Proof.
  intros [l u s] E. cbn in E. subst s. split; [exact (to_hash _ _ _ (hash_h_ok _))|]. split; [exact (to_hash _ _ _ (hash_g_ok _))|].
  split; [exact (to_xof _ _ (prf_ok _))|]. split; [exact ref_mul_ok|exact ref_mul_acc_ok].
Qed.

(** ** C43 *)

Theorem C43_keypair : forall l hh xof mul mul_acc, hash_ok hh 32 SHA3_256 -> stream_ok xof SHAKE128 -> mul_ok mul -> mul_acc_ok mul_acc ->
  forall S (rb : S -> Z -> list Z * S), source_ok rb ->
  forall junk junk' st pk0 sk0 pk0' sk0', pk_buf (Cfg l false false) pk0 -> len sk0 = M4_SECRETKEYBYTES l true ->
  pk_buf (Cfg l false false) pk0' -> sk_buf (Cfg l false false) sk0' ->
  exists pk sk st', run (m4_kem_keypair l true SHAKE128 hh xof mul mul_acc rb junk st pk0 sk0) = Some (pk, sk, st', 0) /\
    arr U8 (M4_SECRETKEYBYTES l true) sk /\
    run (keypair rb junk' (Cfg l false false) st pk0' sk0') = Some (pk, uncompress_sk (SABER_L (Cfg l false false)) sk, st', 0).
Proof. intros l hh xof mul mul_acc H1 H2 H3 H4 S rb. now apply C43_keypair_lemma. Qed.
Print Assumptions C43_keypair.

Theorem C43_dec : forall l hh hg xof mul mul_acc, hash_ok hh 32 SHA3_256 -> hash_ok hg 64 SHA3_512 -> stream_ok xof SHAKE128 ->
  mul_ok mul -> mul_acc_ok mul_acc ->
  forall junk junk' k ct sk, ss_buf k -> ct_bytes (Cfg l false false) ct -> arr U8 (M4_SECRETKEYBYTES l true) sk ->
  run (m4_kem_dec l true SHAKE128 hh hg xof mul mul_acc junk k ct sk) =
  run (dec junk' (Cfg l false false) k ct (uncompress_sk (SABER_L (Cfg l false false)) sk)) /\
  run (dec junk' (Cfg l false false) k ct (uncompress_sk (SABER_L (Cfg l false false)) sk)) <> None.
Proof. exact C43_dec_lemma. Qed.
Print Assumptions C43_dec.

Theorem C43_tc4kara_keypair : forall env scratch, regs_ok env ->
  forall l hh xof, hash_ok hh 32 SHA3_256 -> stream_ok xof SHAKE128 ->
  forall S (rb : S -> Z -> list Z * S), source_ok rb ->
  forall junk junk' st pk0 sk0 pk0' sk0', pk_buf (Cfg l false false) pk0 -> len sk0 = M4_SECRETKEYBYTES l true ->
  pk_buf (Cfg l false false) pk0' -> sk_buf (Cfg l false false) sk0' ->
  exists pk sk st', run (m4_kem_keypair l true SHAKE128 hh xof (tc4kara_poly_mul env scratch) (tc4kara_poly_mul_acc env scratch) rb junk st pk0 sk0) =
    Some (pk, sk, st', 0) /\
    arr U8 (M4_SECRETKEYBYTES l true) sk /\
    run (keypair rb junk' (Cfg l false false) st pk0' sk0') = Some (pk, uncompress_sk (SABER_L (Cfg l false false)) sk, st', 0).
Proof.
  intros env scratch He l hh xof H1 H2 S rb.
  exact (C43_keypair_lemma l hh xof _ _ H1 H2 (tc4kara_mul_ok env scratch He) (tc4kara_mul_acc_ok env scratch He) rb).
Qed.
Print Assumptions C43_tc4kara_keypair.

Theorem C43_striding_keypair : forall env scratch, regs_ok env ->
  forall l hh xof, hash_ok hh 32 SHA3_256 -> stream_ok xof SHAKE128 ->
  forall S (rb : S -> Z -> list Z * S), source_ok rb ->
  forall junk junk' st pk0 sk0 pk0' sk0', pk_buf (Cfg l false false) pk0 -> len sk0 = M4_SECRETKEYBYTES l true ->
  pk_buf (Cfg l false false) pk0' -> sk_buf (Cfg l false false) sk0' ->
  exists pk sk st', run (m4_kem_keypair l true SHAKE128 hh xof (striding_poly_mul true env scratch) (striding_poly_mul_acc true env scratch) rb junk st pk0 sk0) =
    Some (pk, sk, st', 0) /\
    arr U8 (M4_SECRETKEYBYTES l true) sk /\
    run (keypair rb junk' (Cfg l false false) st pk0' sk0') = Some (pk, uncompress_sk (SABER_L (Cfg l false false)) sk, st', 0).
Proof.
  intros env scratch He l hh xof H1 H2 S rb.
  exact (C43_keypair_lemma l hh xof _ _ H1 H2 (striding_mul_ok env scratch He) (striding_mul_acc_ok env scratch He) rb).
Qed.
Print Assumptions C43_striding_keypair.

Theorem C43_tc4kara_dec : forall env scratch, regs_ok env ->
  forall l hh hg xof, hash_ok hh 32 SHA3_256 -> hash_ok hg 64 SHA3_512 -> stream_ok xof SHAKE128 ->
  forall junk junk' k ct sk, ss_buf k -> ct_bytes (Cfg l false false) ct -> arr U8 (M4_SECRETKEYBYTES l true) sk ->
  run (m4_kem_dec l true SHAKE128 hh hg xof (tc4kara_poly_mul env scratch) (tc4kara_poly_mul_acc env scratch) junk k ct sk) =
  run (dec junk' (Cfg l false false) k ct (uncompress_sk (SABER_L (Cfg l false false)) sk)) /\
  run (dec junk' (Cfg l false false) k ct (uncompress_sk (SABER_L (Cfg l false false)) sk)) <> None.
Proof.
  intros env scratch He l hh hg xof H1 H2 H3.
  exact (C43_dec_lemma l hh hg xof _ _ H1 H2 H3 (tc4kara_mul_ok env scratch He) (tc4kara_mul_acc_ok env scratch He)).
Qed.
Print Assumptions C43_tc4kara_dec.

Theorem C43_striding_dec : forall env scratch, regs_ok env ->
  forall l hh hg xof, hash_ok hh 32 SHA3_256 -> hash_ok hg 64 SHA3_512 -> stream_ok xof SHAKE128 ->
  forall junk junk' k ct sk, ss_buf k -> ct_bytes (Cfg l false false) ct -> arr U8 (M4_SECRETKEYBYTES l true) sk ->
  run (m4_kem_dec l true SHAKE128 hh hg xof (striding_poly_mul true env scratch) (striding_poly_mul_acc true env scratch) junk k ct sk) =
  run (dec junk' (Cfg l false false) k ct (uncompress_sk (SABER_L (Cfg l false false)) sk)) /\
  run (dec junk' (Cfg l false false) k ct (uncompress_sk (SABER_L (Cfg l false false)) sk)) <> None.
Proof.
  intros env scratch He l hh hg xof H1 H2 H3.
  exact (C43_dec_lemma l hh hg xof _ _ H1 H2 H3 (striding_mul_ok env scratch He) (striding_mul_acc_ok env scratch He)).
Qed.
Print Assumptions C43_striding_dec.

(** The keys are smaller, and all values of a 4-bit field occur. *)
Example C43_case : map (fun l => M4_SECRETKEYBYTES l true) [Light; Saber; Fire] = [992; 1440; 1888] /\
  map (fun l => M4_SECRETKEYBYTES l false) [Light; Saber; Fire] = [1568; 2304; 3040] /\
  map sext4 [0; 5; 7; 8; 11; 15] = [0; 5; 7; -8; -5; -1].
Proof. repeat split. Qed.

(** ** C44 *)

Theorem C44_tc4kara_mul : forall env scratch, regs_ok env -> forall junk a b res, arr U16 256 a -> arr U16 256 b -> len res = 256 ->
  exists r, run (tc4kara_poly_mul env scratch junk a b res) = Some (b, r) /\ arr U16 256 r /\
    forall k, 0 <= k < 256 -> get r k mod 8192 = mul_coef a b k mod 8192.
Proof. exact C44_mul_lemma. Qed.
Print Assumptions C44_tc4kara_mul.

Theorem C44_tc4kara_mul_acc : forall env scratch, regs_ok env -> forall junk a b res, arr U16 256 a -> arr U16 256 b -> arr U16 256 res ->
  exists r, run (tc4kara_poly_mul_acc env scratch junk a b res) = Some (b, r) /\ arr U16 256 r /\
    forall k, 0 <= k < 256 -> get r k mod 8192 = (get res k + mul_coef a b k) mod 8192.
Proof. exact C44_mul_acc_lemma. Qed.
Print Assumptions C44_tc4kara_mul_acc.

(** The assembly code itself, with 3552 bytes of stack and no other memory than the stack and the three arrays. *)
Theorem C44_tc4kara_asm : forall a b res, arr U16 256 a -> arr U16 256 b -> arr U16 256 res ->
  forall env scratch, regs_ok env ->
  let arrs := [(1%positive, a); (2%positive, b); (3%positive, res)] in
  let s := asm_entry env 1776 3 (Ptr 1 0) (Ptr 2 0) (Ptr 3 0) (rg env R3) arrs in
  exists s', exec (asm_size 1776 arrs) scratch 3 toom_cook_4way_mem_asm s = Some s' /\ rg s' PC = Ret 3 /\ rg s' SP = Ptr 4 3552 /\
    (forall r, In r [R4; R5; R6; R7; R8; R9; R10; R11] -> rg s' r = rg env r) /\
    (forall k, 0 <= k < 256 -> mm s' 1 k = Half (get a k) /\ mm s' 2 k = Half (get b k) /\
      exists z, mm s' 3 k = Half z /\ z mod 8192 = (get res k + mul_coef a b k) mod 8192).
Proof. exact C44_asm_lemma. Qed.
Print Assumptions C44_tc4kara_asm.

(** A state and arrays which meet the hypotheses; the largest elements, for which the product wraps around. *)
Example C44_case : regs_ok (State (fun _ => Int 4294967295) (fun _ _ => Half 0) false false) /\
  arr U16 256 (repeat 65535 256) /\ map (mul_coef (repeat 65535 256) (repeat 65535 256)) [0; 1; 255] =
    [-254 * 65535 * 65535; -252 * 65535 * 65535; 256 * 65535 * 65535].
Proof.
  split; [intros r z H; injection H as <-; lia|]. split; [split; [reflexivity|apply Forall_repeat; cbn; lia]|]. vm_compute. reflexivity.
Qed.

(** ** C45 *)

Theorem C45_striding_mul : forall env scratch, regs_ok env -> forall junk a b res, arr U16 256 a -> arr U16 256 b -> len res = 256 ->
  exists b' r, run (striding_poly_mul true env scratch junk a b res) = Some (b', r) /\ arr U16 256 b' /\ arr U16 256 r /\
    forall k, 0 <= k < 256 -> get r k mod 8192 = mul_coef a b k mod 8192.
Proof. exact C45_mul_lemma. Qed.
Print Assumptions C45_striding_mul.

Theorem C45_striding_mul_acc : forall env scratch, regs_ok env -> forall junk a b res, arr U16 256 a -> arr U16 256 b -> arr U16 256 res ->
  exists b' r, run (striding_poly_mul_acc true env scratch junk a b res) = Some (b', r) /\ arr U16 256 b' /\ arr U16 256 r /\
    forall k, 0 <= k < 256 -> get r k mod 8192 = (get res k + mul_coef a b k) mod 8192.
Proof. exact C45_mul_acc_lemma. Qed.
Print Assumptions C45_striding_mul_acc.

(** The hypotheses are those of [C44_case].  x^255 * x^2 = - x. *)
Example C45_case : let x n := ztab 256 (fun i => if i =? n then 1 else 0) in
  arr U16 256 (x 255) /\ arr U16 256 (x 2) /\ map (mul_coef (x 255) (x 2)) [0; 1; 2; 255] = [0; -1; 0; 0].
Proof.
  cbv zeta. split; [split; [reflexivity|apply Forall_ztab; intros i _; destruct (_ =? _); cbn; lia]|].
  split; [split; [reflexivity|apply Forall_ztab; intros i _; destruct (_ =? _); cbn; lia]|]. vm_compute. reflexivity.
Qed.

(** ** C46 *)

(** With multiplication of type int as in C. *)
Theorem C46_mul_refuted : forall env scratch, regs_ok env ->
  exists a b, arr U16 256 a /\ arr U16 256 b /\ Forall (fun x => 0 <= x < 8192) a /\ Forall (fun x => 0 <= x < 2) b /\
    forall junk res, len res = 256 -> run (striding_poly_mul false env scratch junk a b res) = None.
Proof. exact C46_mul_lemma. Qed.
Print Assumptions C46_mul_refuted.

Theorem C46_mul_acc_refuted : forall env scratch, regs_ok env ->
  exists a b, arr U16 256 a /\ arr U16 256 b /\ Forall (fun x => 0 <= x < 8192) a /\ Forall (fun x => 0 <= x < 2) b /\
    forall junk res, arr U16 256 res -> run (striding_poly_mul_acc false env scratch junk a b res) = None.
Proof. exact C46_mul_acc_lemma. Qed.
Print Assumptions C46_mul_acc_refuted.
