(** Properties of the AVX2 implementation.

    [n] is NUM_POLY.  The polynomials, the buckets and the contents of uninitialised memory ([junk]) are arbitrary. *)
From Coq Require Import ZArith List Lia.
From Verif Require Import Lib.Arr Lib.CInt Lib.CMon Spec.Ring Spec.Sym Spec.AvxSpec Spec.M4Spec Model.Vec Model.AvxMul Model.Params Model.Api Model.AvxKem
  Proof.SymP Proof.M4Thm Proof.AvxThm Proof.AvxKemThm.
Import ListNotations.
Local Open Scope Z_scope.

(** ** C47 *)

Theorem C47_avx_matrix_vector : forall junk junk' junk'' n a s bb rs tr, 1 <= n ->
  amat n a -> avec n s -> avec n rs -> len bb = n -> Forall (vok 64) bb ->
  exists r, run (g <- load_values junk ;; bb <- eval_buckets junk' n s bb ;; matrix_vector_mul junk'' n g a bb rs tr)%M = Some r /\ avec n r /\
    forall i k, 0 <= i < n -> 0 <= k < 256 ->
      get (getr (polys r) i) k mod 8192 = get (getr (mat_vec n (cmat n tr a) (polys s)) i) k mod 8192.
Proof. exact C47_matrix_vector_lemma. Qed.
Print Assumptions C47_avx_matrix_vector.

Theorem C47_avx_vector_vector : forall junk junk' junk'' n a s bb rs, 1 <= n ->
  avec n a -> avec n s -> vok 16 rs -> len bb = n -> Forall (vok 64) bb ->
  exists r, run (g <- load_values junk ;; bb <- eval_buckets junk' n s bb ;; vector_vector_mul junk'' n g a bb rs)%M = Some r /\ vok 16 r /\
    forall k, 0 <= k < 256 ->
      get (concat r) k mod 8192 = get (inner (Z.to_nat n) (polys a) (polys s)) k mod 8192.
Proof. exact C47_vector_vector_lemma. Qed.
Print Assumptions C47_avx_vector_vector.

(** Vectors of the sixteen lanes hold the coefficients in order.  With n = 2, a = (x^255, 1) and s = (x^2, 3) the
    product is 3 - x. *)
Example C47_case :
  let x c m := ztab 16 (fun q => ztab 16 (fun k => if 16 * q + k =? m then c else 0)) in
  avec 2 [x 1 255; x 1 0] /\ avec 2 [x 1 2; x 3 0] /\ vok 16 (x 7 7) /\ Forall (vok 64) (ztab 2 (fun _ => ztab 64 (fun _ => ztab 16 (fun _ => 5)))) /\
  zfirst 4 (inner 2 (polys [x 1 255; x 1 0]) (polys [x 1 2; x 3 0])) = [3; -1; 0; 0].
Proof.
  cbv zeta.
  assert (V : forall c m, 0 <= c < 8 -> vok 16 (ztab 16 (fun q => ztab 16 (fun k => if 16 * q + k =? m then c else 0)))).
  { intros c m Hc. split; [reflexivity|]. apply Forall_ztab. intros i _. split; [reflexivity|]. apply Forall_ztab. intros j _. destruct (_ =? _); cbn; lia. }
  split; [split; [reflexivity|apply Forall_cons; [apply V; lia|]; apply Forall_cons; [apply V; lia|]; apply Forall_nil]|]. split; [split; [reflexivity|apply Forall_cons; [apply V; lia|]; apply Forall_cons; [apply V; lia|]; apply Forall_nil]|].
  split; [apply V; lia|]. split; [|vm_compute; reflexivity].
  apply Forall_ztab. intros i _. split; [reflexivity|]. apply Forall_ztab. intros j _. split; [reflexivity|]. apply Forall_ztab. intros k _. cbn. lia.
Qed.

(** ** C48 *)

(** [c]: Saber or Saber-90s at any level, the parameter sets of the AVX2 code.  [hh], [hg], [xof]: hash_h, hash_g and
    prf.  For Saber-90s hash_h and hash_g are functions of OpenSSL, and prf is
    the subject of C49. *)
Theorem C48_avx_keypair : forall c, usaber c = false ->
  forall hh xof, hash_ok hh 32 (HashH (s90 c)) -> stream_ok xof (PRF (s90 c)) ->
  forall S (rb : S -> Z -> list Z * S), source_ok rb ->
  forall junk junk' st pk sk, pk_buf c pk -> sk_buf c sk ->
  run (avx_kem_keypair xof rb hh junk c st pk sk) = run (keypair rb junk' c st pk sk) /\
  run (keypair rb junk' c st pk sk) <> None.
Proof. intros c Hu hh xof H1 H2 S rb. exact (C48_keypair_lemma c Hu hh xof H1 H2 rb). Qed.
Print Assumptions C48_avx_keypair.

Theorem C48_avx_enc : forall c, usaber c = false ->
  forall hh hg xof, hash_ok hh 32 (HashH (s90 c)) -> hash_ok hg 64 (HashG (s90 c)) -> stream_ok xof (PRF (s90 c)) ->
  forall S (rb : S -> Z -> list Z * S), source_ok rb ->
  forall junk junk' st ct k pk, ct_buf c ct -> ss_buf k -> pk_bytes c pk ->
  run (avx_kem_enc xof rb hh hg junk c st ct k pk) = run (enc rb junk' c st ct k pk) /\
  run (enc rb junk' c st ct k pk) <> None.
Proof. intros c Hu hh hg xof H1 H2 H3 S rb. exact (C48_enc_lemma c Hu hh hg xof H1 H2 H3 rb). Qed.
Print Assumptions C48_avx_enc.

Theorem C48_avx_dec : forall c, usaber c = false ->
  forall hh hg xof, hash_ok hh 32 (HashH (s90 c)) -> hash_ok hg 64 (HashG (s90 c)) -> stream_ok xof (PRF (s90 c)) ->
  forall junk junk' k ct sk, ss_buf k -> ct_bytes c ct -> sk_bytes c sk ->
  run (avx_kem_dec xof hh hg junk c k ct sk) = run (dec junk' c k ct sk) /\
  run (dec junk' c k ct sk) <> None.
Proof. exact C48_dec_lemma. Qed.
Print Assumptions C48_avx_dec.

(** The functions of fips202.c meet the contracts, so the theorems hold of them at every level. *)
Example C48_case : forall l, let c := Cfg l false false in
  usaber c = false /\ hash_ok (hash_h c) 32 (HashH (s90 c)) /\ hash_ok (hash_g c) 64 (HashG (s90 c)) /\ stream_ok (prf c) (PRF (s90 c)) /\
  source_ok zrb /\ pk_bytes c (zeros (SABER_PUBLICKEYBYTES c)) /\ sk_bytes c (zeros (SABER_SECRETKEYBYTES c)) /\
  ct_bytes c (zeros (SABER_BYTES_CCA_DEC c)) /\ ss_buf (zeros 32).
Proof.
  intros l c. split; [reflexivity|]. split; [exact (to_hash _ _ _ (hash_h_ok c))|]. split; [exact (to_hash _ _ _ (hash_g_ok c))|].
  split; [exact (to_xof _ _ (prf_ok c))|]. split; [exact zrb_ok|].
  assert (Z0 : forall n, 0 <= n -> arr U8 n (zeros n)) by (intros n Hn; exact (zrb_ok tt n Hn)).
  split; [apply Z0; destruct l; vm_compute; discriminate|]. split; [apply Z0; destruct l; vm_compute; discriminate|].
  split; [apply Z0; destruct l; vm_compute; discriminate|]. reflexivity.
Qed.
