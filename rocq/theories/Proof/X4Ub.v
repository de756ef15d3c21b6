(** shake128x4 as written stores beyond its buffers. *)
From Coq Require Import ZArith List Bool Lia.
From Verif Require Import Lib.Arr Lib.CInt Lib.CMon Spec.Keccak Spec.Shake256 Model.Fips202 Model.Fips202x4 Proof.M0P Proof.SpongeP Proof.KeccakF
  Proof.Keccak4P.
Import ListNotations.
Local Open Scope Z_scope.

Lemma wlp_undef : forall A (Q : A -> Prop), wlp undef Q.
Proof. intros A Q t. exact I. Qed.

Lemma wlp_ite : forall A b (m1 m2 : M A) Q, (b = true -> wlp m1 Q) -> (b = false -> wlp m2 Q) -> wlp (ite b m1 m2) Q.
Proof. intros A b m1 m2 Q H1 H2. unfold ite. apply wlp_any. intros _. destruct b; auto. Qed.

(** Storing through a pointer keeps the length of the array if the store keeps that of its part. *)
Lemma wlp_at_len : forall a off f (P : Z -> Prop),
  (0 <= off <= len a -> wlp (f (zskip off a)) (fun b => len b = len a - off /\ P (len a))) ->
  wlp (at_ a off f) (fun b => len b = len a /\ P (len a)).
Proof.
  intros a off f P H. unfold at_. destruct (Z.leb_spec 0 off), (Z.leb_spec off (len a)); cbn [andb]; try apply wlp_undef.
  apply wlp_any. intros _. apply wlp_bind. eapply wlp_mono; [apply H; lia|]. cbn beta. intros b (L & HP).
  apply wlp_ret. split; auto. rewrite len_app, len_zfirst; lia.
Qed.

Lemma wlp_store64 : forall x u, wlp (store64 x u) (fun y => len y = len x /\ 8 <= len x).
Proof.
  intros x u. unfold store64. apply wlp_bind.
  apply wlp_for with (I := fun i s => len (fst s) = len x /\ i <= len x).
  - lia.
  - cbn [fst]. split; auto. apply len_nonneg.
  - intros j [y v] Hj (L & HL). cbn [fst] in *. apply wlp_bind, wlp_st. intros w Hw. apply wlp_any. intros v'. apply wlp_ret.
    cbn [fst]. rewrite len_upd. lia.
  - intros [y v] (L & HL). apply wlp_ret. cbn [fst] in *. lia.
Qed.

Lemma wlp_for4_first : forall A (f : Z -> A -> M A) q (P : A -> Prop),
  wlp (f 0 (sel q 0)) P -> wlp (for4 f q) (fun r => P (sel r 0)).
Proof.
  intros A f [[[a0 a1] a2] a3] P H. unfold for4. apply wlp_bind. eapply wlp_mono; [exact H|]. cbn beta. intros b Hb.
  do 3 (apply wlp_any; intros). apply wlp_ret. exact Hb.
Qed.

Lemma wlp_squeeze_short : forall h ss r, 0 <= r -> len (sel h 0) < 8 * (r / 8) ->
  wlp (keccak_squeezeblocks4x h 1 ss r) (fun _ => False).
Proof.
  intros h ss r Hr Hh. unfold keccak_squeezeblocks4x.
  apply wlp_for with (I := fun b s => if b =? 0 then len (sel (fst s) 0) = len (sel h 0) else False); [lia|reflexivity| |easy].
  intros b [h' ss'] Hb. replace b with 0 by lia. cbn [Z.eqb fst Z.add]. intros Lh.
  apply wlp_any. intros ss''. apply wlp_bind.
  apply wlp_for with (I := fun i h'' => len (sel h'' 0) = len (sel h 0) /\ 8 * i <= len (sel h 0)).
  - apply Z.div_pos; lia.
  - split; auto. pose proof (len_nonneg (sel h 0)). lia.
  - intros i h'' Hi (L & Hl). apply wlp_for4_first with (P := fun x => len x = len (sel h 0) /\ 8 * (i + 1) <= len (sel h 0)).
    apply wlp_any. intros w. rewrite <- L.
    apply wlp_at_len with (P := fun n => 8 * (i + 1) <= n). intros H0. replace (r * 0) with 0 by lia.
    eapply wlp_mono; [apply wlp_at_len with (P := fun n => 8 * (i + 1) <= n)|].
    + intros H1. eapply wlp_mono; [apply wlp_store64|]. cbn beta. intros y (Ly & H8). rewrite !len_zskip in * by lia. lia.
    + cbn beta. intros y. rewrite !len_zskip by lia. lia.
  - intros h'' (L & Hl). lia.
Qed.

Lemma shake128x4_ub : forall tlen junk out outlen inp inlen, 0 <= tlen < 168 -> outlen mod 168 <> 0 ->
  wlp (shake128x4 tlen junk out outlen inp inlen) (fun _ => False).
Proof.
  intros tlen junk out outlen inp inlen Ht Ho. unfold shake128x4, shakex4. cbv zeta.
  apply wlp_any. intros s0. apply wlp_any. intros s1. apply wlp_any. intros [o s2].
  apply wlp_ite.
  - intros _. apply wlp_bind. eapply wlp_mono; [apply wlp_squeeze_short|contradiction].
    + unfold SHAKE128_RATE. lia.
    + change (8 * (SHAKE128_RATE / 8)) with 168. cbn [sel tab4 Z.eqb]. unfold uninit. rewrite len_ztab; lia.
  - change SHAKE128_RATE with 168. intros H. apply negb_false_iff, Z.eqb_eq in H. contradiction.
Qed.

Lemma shake128x4_code_undefined : forall junk out outlen inp inlen, outlen mod 168 <> 0 ->
  run (shake128x4_code junk out outlen inp inlen) = None.
Proof. intros. apply wlp_run, shake128x4_ub; auto. unfold SHAKE256_RATE. lia. Qed.

Lemma shake128x4_refuted : exists junk out inp,
  (forall k, 0 <= k < 4 -> arr U8 32 (sel out k)) /\ (forall k, 0 <= k < 4 -> arr U8 32 (sel inp k)) /\
  run (shake128x4_code junk out 32 inp 32) = None.
Proof.
  exists (fun _ _ => 0), (tab4 (fun _ => zeros 32)), (tab4 (fun _ => zeros 32)).
  assert (forall k, 0 <= k < 4 -> arr U8 32 (sel (tab4 (fun _ => zeros 32)) k)) as H.
  { intros k Hk. rewrite sel_tab4 by auto. split; [apply len_zeros; lia|].
    apply Forall_znth_iff with (d := 0). intros i Hi. fold (get (zeros 32) i). rewrite get_zeros. cbn [tmin tmax]. lia. }
  split; [exact H|]. split; [exact H|]. apply shake128x4_code_undefined. discriminate.
Qed.

(** ** SHAKE256 by computation *)

Definition SHAKE256_f (n : Z) (x : list Z) : list Z := if bytesb x && (0 <=? n) then sponge_f 17 31 x n else SHAKE256 n x.
Lemma shake256_fast : forall n x, SHAKE256 n x = SHAKE256_f n x.
Proof.
  intros n x. unfold SHAKE256_f. destruct (bytesb x && (0 <=? n)) eqn:E; auto. apply andb_true_iff in E. destruct E as (E & En).
  apply (sponge_fast 17 31 [true; true; true; true] ltac:(lia) ltac:(cbn; lia) ltac:(lia) ltac:(sfx_tac) x n); [now apply bytesb_ok|lia].
Qed.
