(** Consequences for the hash interface. *)
From Coq Require Import ZArith List Bool Lia.
From Verif Require Import Lib.Arr Lib.CInt Lib.CMon Spec.Bits Spec.Keccak Model.Fips202
  Proof.PackThm Proof.CbdP Proof.PolyP Proof.KemP Proof.KeccakP Proof.SpongeP.
Import ListNotations.
Local Open Scope Z_scope.

Lemma sha3_256_run : forall junk out inp n, 32 <= len out -> 0 <= n <= len inp -> typed U8 inp ->
  run (sha3_256 junk out inp n) = Some (SHA3_256 (zfirst n inp) ++ zskip 32 out).
Proof. intros. apply wp_run_eq. apply wp_sha3_256; auto. Qed.
Lemma sha3_512_run : forall junk out inp n, 64 <= len out -> 0 <= n <= len inp -> typed U8 inp ->
  run (sha3_512 junk out inp n) = Some (SHA3_512 (zfirst n inp) ++ zskip 64 out).
Proof. intros. apply wp_run_eq. apply wp_sha3_512; auto. Qed.
Lemma shake128_run : forall junk out n inp k, 0 <= n <= len out -> 0 <= k <= len inp -> typed U8 inp ->
  run (shake128 junk out n inp k) = Some (SHAKE128 n (zfirst k inp) ++ zskip n out).
Proof. intros. apply wp_run_eq. apply wp_shake128; auto. Qed.

Definition xof_state (M : list Z) : list Z := absorbed 168 M [true; true; true; true].

Lemma SHAKE128_stream : forall n M, 0 <= n -> SHAKE128 n M = ztab n (outbyte 168 (keccak_f (xof_state M))).
Proof.
  intros. unfold SHAKE128, KECCAK. change (1600 - 256) with (8 * (8 * 21)). now rewrite (sponge_bytes (8 * 21)) by (cbn; lia).
Qed.

Lemma SHAKE128_prefix : forall n m M, 0 <= n <= m -> SHAKE128 n M = zfirst n (SHAKE128 m M).
Proof.
  intros. rewrite !SHAKE128_stream by lia. set (f := outbyte _ _). clearbody f.
  assert (len (ztab m f) = m) by (apply len_ztab; lia).
  symmetry. apply ztab_eq with 0; [apply len_zfirst; lia|]. intros. rewrite znth_zfirst, znth_ztab by lia. reflexivity.
Qed.

(** Squeezing into several buffers one after the other: [calls] lists the buffers and their numbers of blocks. *)
Fixpoint squeeze_calls (calls : list (list Z * Z)) (s : list Z) : M (list (list Z)) :=
  match calls with
  | [] => ret []
  | (h, n) :: rest => ('(h, s) <- keccak_squeezeblocks h n s SHAKE128_RATE ;; r <- squeeze_calls rest s ;; ret (h :: r))%M
  end.
Definition absorb_squeeze (junk : mem) (input : list Z) (inlen : Z) (calls : list (list Z * Z)) : M (list (list Z)) :=
  (s <- zero_state (uninit junk 0 25) ;; s <- keccak_absorb (sub junk 2) s SHAKE128_RATE input inlen 0x1F ;; squeeze_calls calls s)%M.

Lemma outbyte_shift : forall s n i, 0 <= n -> 0 <= i -> outbyte 168 (keccak_f (fiter n s)) i = outbyte 168 (keccak_f s) (168 * n + i).
Proof.
  intros. unfold outbyte. rewrite (Z.mul_comm 168 n), Z.div_add_l by lia.
  rewrite (Z.add_comm (n * 168)), Z.mod_add by lia. assert (0 <= i / 168) by (apply Z.div_pos; lia).
  rewrite <- !fiter_S', <- fiter_add by lia. apply bits_val_ext. intros m _. do 2 f_equal. lia.
Qed.

Lemma sum_pos : forall calls : list (list Z * Z), Forall (fun '(h, n) => 0 <= n /\ len h = 168 * n) calls ->
  0 <= fold_right Z.add 0 (map snd calls).
Proof.
  induction calls as [|(h, n) l IH]; intros F; cbn [fold_right map snd]; [lia|]. apply Forall_cons_iff in F. destruct F as ((Hn & _) & F).
  specialize (IH F). lia.
Qed.

Lemma wp_squeeze_calls : forall calls s (Q : list (list Z) -> Prop), arr U64 25 s ->
  Forall (fun '(h, n) => 0 <= n /\ len h = 168 * n) calls ->
  (forall outs, concat outs = ztab (168 * fold_right Z.add 0 (map snd calls)) (outbyte 168 (keccak_f s)) ->
     map len outs = map (fun '(_, n) => 168 * n) calls -> Q outs) ->
  wp (squeeze_calls calls s) Q.
Proof.
  induction calls as [|(h, n) calls IH]; intros s Q Hs F HQ; cbn [squeeze_calls].
  - apply wp_ret. apply HQ; reflexivity.
  - apply Forall_cons_iff in F. destruct F as ((Hn & Lh) & F'). apply wp_bind, (wp_squeezeblocks _ n _ 21); [auto|lia|lia|lia|].
    apply wp_bind. change (8 * 21) with 168. apply IH; [now apply fiter_arr|auto|]. intros outs E1 E2. apply wp_ret.
    rewrite zskip_all, app_nil_r by lia.
    assert (0 <= fold_right Z.add 0 (map snd calls)) as P.
    { now apply sum_pos. }
    apply HQ.
    + cbn [concat map snd fold_right]. rewrite E1. rewrite Z.mul_add_distr_l, ztab_split by lia. f_equal.
      apply ztab_ext. intros. now rewrite outbyte_shift by lia.
    + cbn [map]. rewrite E2. f_equal. apply len_ztab. lia.
Qed.

Lemma incremental : forall junk inp k calls, 0 <= k <= len inp -> typed U8 inp ->
  Forall (fun '(h, n) => 0 <= n /\ len h = 168 * n) calls ->
  exists outs, run (absorb_squeeze junk inp k calls) = Some outs /\
    map len outs = map (fun '(_, n) => 168 * n) calls /\
    concat outs = SHAKE128 (168 * fold_right Z.add 0 (map snd calls)) (zfirst k inp).
Proof.
  intros junk inp k calls Hk Ti F.
  assert (0 <= fold_right Z.add 0 (map snd calls)) as P.
  { now apply sum_pos. }
  assert (wp (absorb_squeeze junk inp k calls) (fun outs => map len outs = map (fun '(_, n) => 168 * n) calls /\
    concat outs = SHAKE128 (168 * fold_right Z.add 0 (map snd calls)) (zfirst k inp))) as W.
  { unfold absorb_squeeze. apply wp_bind, wp_zero_state; [now apply uninit_len|].
    apply wp_bind, (wp_keccak_absorb _ 21 _ _ _ [true; true; true; true]); [lia|auto|auto|cbn; lia|lia|sfx_tac|].
    apply wp_squeeze_calls; [apply absorbed_arr|auto|]. intros outs E1 E2. split; auto. rewrite E1. rewrite SHAKE128_stream by lia. reflexivity. }
  apply wp_run in W. exact W.
Qed.

Lemma shake128_prefix : forall junk junk' out out' n m inp k, 0 <= n <= m -> n <= len out -> m <= len out' -> 0 <= k <= len inp -> typed U8 inp ->
  exists r r', run (shake128 junk out n inp k) = Some r /\ run (shake128 junk' out' m inp k) = Some r' /\ zfirst n r = zfirst n r'.
Proof.
  intros junk junk' out out' n m inp k Hn H1 H2 Hk Ti. do 2 eexists. split; [apply shake128_run; auto; lia|].
  split; [apply shake128_run; auto; lia|].
  assert (forall j, 0 <= j -> len (SHAKE128 j (zfirst k inp)) = j) as L by (intros; now apply SHAKE128_arr).
  rewrite zfirst_app_at by (apply L; lia). rewrite (SHAKE128_prefix n m) by lia.
  unfold zfirst at 3. rewrite firstn_app. replace (Z.to_nat n - _)%nat with O by (pose proof (L m); unfold len in *; lia).
  cbn [firstn]. now rewrite app_nil_r.
Qed.
Lemma sha3_256_in_place : forall junk buf n, 32 <= len buf -> 0 <= n <= len buf -> typed U8 buf ->
  run (sha3_256 junk buf buf n) = Some (SHA3_256 (zfirst n buf) ++ zskip 32 buf).
Proof. intros. now apply sha3_256_run. Qed.
Lemma shake128_in_place : forall junk buf n k, 0 <= n <= len buf -> 0 <= k <= len buf -> typed U8 buf ->
  run (shake128 junk buf n buf k) = Some (SHAKE128 n (zfirst k buf) ++ zskip n buf).
Proof. intros. now apply shake128_run. Qed.
