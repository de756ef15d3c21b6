(** Theorems about rng.c: histories of calls, the seed expander, limits. *)
From Coq Require Import ZArith List Bool Lia.
From Verif Require Import Lib.Arr Lib.CInt Lib.CMon Spec.Drbg Model.Params Model.Rng Proof.PackThm Proof.VerifyP Proof.KemP Proof.RngP.
Import ListNotations.
Local Open Scope Z_scope.

(** ** Undefined runs *)
Definition ub {A} (m : M A) : Prop := forall t, m t = UB.
Lemma ub_run : forall A (m : M A), ub m -> run m = None.
Proof. intros A m H. unfold run. now rewrite H. Qed.
Lemma ub_bind1 : forall A B (m : M A) (f : A -> M B), ub m -> ub (bind m f).
Proof. intros A B m f H t. unfold bind. now rewrite H. Qed.
Lemma ub_bind2 : forall A B (m : M A) (f : A -> M B), wp m (fun a => ub (f a)) -> ub (bind m f).
Proof. intros A B m f H t. unfold bind. destruct (H t) as (a & t' & -> & Hf). apply Hf. Qed.

Lemma ub_add32 : forall a b, - 2 ^ 31 <= a < 2 ^ 31 -> 0 <= b < 2 ^ 31 -> 2 ^ 31 <= a + b -> ub (ev (Var I32 a + Cst I32 b)%C).
Proof.
  intros a b Ha Hb Hab t. cbn [ev]. unfold bind, ret. unfold eval_bin. cbn [ty promote common]. rewrite !wrap_id by (cbn [tmin tmax]; lia).
  unfold arith, inr. cbn [signed tmin tmax]. destruct (_ && _) eqn:D; [lia|reflexivity].
Qed.

Section Thm.
  Variable E : list Z -> list Z -> list Z.
  Hypothesis HE : forall k v, arr U8 16 (E k v).

  (** ** C27 *)
  Lemma init_ok : forall junk ctx entropy pers, len (d_Key ctx) = 32 -> len (d_V ctx) = 16 ->
    48 <= len entropy -> typed U8 entropy ->
    (match pers with Some x => 48 <= len x /\ typed U8 x | None => True end) ->
    run (randombytes_init E junk ctx entropy pers) =
    let s := instantiate E entropy (match pers with Some x => x | None => zeros 48 end) in
    Some (Drbg (fst s) (be 16 (snd s)) 1).
  Proof. intros. apply wp_run_eq. apply wp_init; auto. Qed.

  Lemma randombytes_ok : forall junk K v rc x n, len K = 32 -> - 2 ^ 31 <= rc < 2 ^ 31 - 1 ->
    0 <= n < 2 ^ 31 -> n <= len x ->
    run (randombytes E junk (Drbg K (be 16 v) rc) x n) =
    let '(out, (K', v')) := generate E (K, v) n in Some (Drbg K' (be 16 v') (rc + 1), out ++ zskip n x, RNG_SUCCESS).
  Proof.
    intros. destruct (generate E (K, v) n) as (out & (K' & v')) eqn:G. apply wp_run_eq. apply wp_randombytes; auto. rewrite G. reflexivity.
  Qed.

  Lemma generate_facts : forall s n, 0 <= n -> arr U8 n (fst (generate E s n)) /\
    arr U8 32 (fst (snd (generate E s n))) /\ 0 <= snd (snd (generate E s n)) < 2 ^ 128.
  Proof.
    intros (K, v) n Hn. unfold generate. cbn [fst snd].
    assert (16 * cdiv n 16 >= n /\ 0 <= cdiv n 16) as (H1 & H2).
    { unfold cdiv. pose proof (Z.div_mod (n + 16 - 1) 16 ltac:(lia)). pose proof (Z.mod_pos_bound (n + 16 - 1) 16 ltac:(lia)). lia. }
    destruct (arr_blocks E HE K v (cdiv n 16) H2) as (LB & TB).
    split; [split; [rewrite len_zfirst by lia; lia|now apply Forall_zfirst]|].
    apply arr_update; auto; [now rewrite len_zeros|apply typed_zeros].
  Qed.

  (** ** C28 *)
  Lemma wp_calls : forall reqs junk K v rc (Q : drbg * list (list Z * Z) -> Prop), len K = 32 ->
    Forall (fun q => 0 <= snd q < 2 ^ 31 /\ snd q <= len (fst q)) reqs -> - 2 ^ 31 <= rc -> rc + len reqs < 2 ^ 31 ->
    (let '(os, (K', v')) := generates E (K, v) (map snd reqs) in Q (Drbg K' (be 16 v') (rc + len reqs), answers os reqs)) ->
    wp (randombytes_calls E junk (Drbg K (be 16 v) rc) reqs) Q.
  Proof.
    induction reqs as [|(x, n) r IH]; intros junk K v rc Q LK HF H1 H2 HQ.
    - cbn [generates map] in HQ. rewrite Z.add_0_r in HQ. apply wp_ret. exact HQ.
    - inversion HF as [|? ? (Hn & Hx) HF']; subst. cbn [fst snd] in *. rewrite len_cons in *. pose proof (len_nonneg r).
      cbn [randombytes_calls]. apply wp_bind, wp_randombytes; auto; [lia|].
      destruct (generate_facts (K, v) n ltac:(lia)) as (_ & (LK' & _) & _).
      cbn [generates map snd] in HQ. destruct (generate E (K, v) n) as (out & (K1 & v1)). cbn [fst snd] in *.
      apply wp_bind, IH; auto; [lia|lia|]. destruct (generates E (K1, v1) (map snd r)) as (os & (K2 & v2)).
      apply wp_ret. cbn [answers] in HQ. replace (rc + 1 + len r) with (rc + (len r + 1)) by lia. exact HQ.
  Qed.

  Lemma calls_ok : forall reqs junk K v rc, len K = 32 ->
    Forall (fun q => 0 <= snd q < 2 ^ 31 /\ snd q <= len (fst q)) reqs -> - 2 ^ 31 <= rc -> rc + len reqs < 2 ^ 31 ->
    run (randombytes_calls E junk (Drbg K (be 16 v) rc) reqs) =
    let '(os, (K', v')) := generates E (K, v) (map snd reqs) in Some (Drbg K' (be 16 v') (rc + len reqs), answers os reqs).
  Proof.
    intros. destruct (generates E (K, v) (map snd reqs)) as (os & (K' & v')) eqn:G. apply wp_run_eq. apply wp_calls; auto. rewrite G. reflexivity.
  Qed.

  Lemma generates_app : forall ns ms s, generates E s (ns ++ ms) =
    (fst (generates E s ns) ++ fst (generates E (snd (generates E s ns)) ms), snd (generates E (snd (generates E s ns)) ms)).
  Proof.
    induction ns as [|n ns IH]; intros ms s; cbn [app generates].
    - cbn [fst snd app]. apply surjective_pairing.
    - destruct (generate E s n) as (o & s1). rewrite IH. destruct (generates E s1 ns) as (os & s2). cbn [fst snd app]. reflexivity.
  Qed.
  Lemma generates_len : forall ns s, length (fst (generates E s ns)) = length ns.
  Proof.
    induction ns as [|n ns IH]; intros s; cbn [generates]; auto. destruct (generate E s n) as (o & s1). specialize (IH s1).
    destruct (generates E s1 ns) as (os & s2). cbn [fst length] in *. lia.
  Qed.
  Lemma answers_app : forall os reqs os' reqs', length os = length reqs -> answers (os ++ os') (reqs ++ reqs') = answers os reqs ++ answers os' reqs'.
  Proof.
    induction os as [|o os IH]; intros [|(x, n) r] os' reqs' H; try discriminate; auto. cbn [app answers]. rewrite IH; auto.
  Qed.
  Lemma answers_len : forall os reqs, length os = length reqs -> length (answers os reqs) = length reqs.
  Proof. induction os as [|o os IH]; intros [|(x, n) r] H; try discriminate; auto. cbn [answers length]. rewrite IH; auto. Qed.

  Lemma prefix_ok : forall pre q q' junk junk' K v rc, len K = 32 ->
    Forall (fun q => 0 <= snd q < 2 ^ 31 /\ snd q <= len (fst q)) (pre ++ q) ->
    Forall (fun q => 0 <= snd q < 2 ^ 31 /\ snd q <= len (fst q)) (pre ++ q') ->
    - 2 ^ 31 <= rc -> rc + len (pre ++ q) < 2 ^ 31 -> rc + len (pre ++ q') < 2 ^ 31 ->
    exists c c' o r r',
      run (randombytes_calls E junk (Drbg K (be 16 v) rc) (pre ++ q)) = Some (c, o ++ r) /\
      run (randombytes_calls E junk' (Drbg K (be 16 v) rc) (pre ++ q')) = Some (c', o ++ r') /\ length o = length pre.
  Proof.
    intros pre q q' junk junk' K v rc LK F1 F2 H1 H2 H3. rewrite !calls_ok by auto.
    rewrite !map_app, !generates_app. destruct (generates E (K, v) (map snd pre)) as (os & s) eqn:G. cbn [fst snd].
    assert (length os = length pre) as L by (pose proof (generates_len (map snd pre) (K, v)) as L; rewrite G, map_length in L; exact L).
    destruct (generates E s (map snd q)) as (o1 & (K1 & v1)). destruct (generates E s (map snd q')) as (o2 & (K2 & v2)). cbn [fst snd].
    rewrite !answers_app by auto. do 5 eexists. split; [reflexivity|]. split; [reflexivity|]. now apply answers_len.
  Qed.

  (** Two histories with the same lengths but different buffers. *)
  Lemma same_lengths : forall r1 r2 junk1 junk2 K v rc, len K = 32 -> map snd r1 = map snd r2 ->
    Forall (fun q => 0 <= snd q < 2 ^ 31 /\ snd q <= len (fst q)) r1 ->
    Forall (fun q => 0 <= snd q < 2 ^ 31 /\ snd q <= len (fst q)) r2 -> - 2 ^ 31 <= rc -> rc + len r1 < 2 ^ 31 ->
    exists c o os, run (randombytes_calls E junk1 (Drbg K (be 16 v) rc) r1) = Some (c, answers os r1) /\
                run (randombytes_calls E junk2 (Drbg K (be 16 v) rc) r2) = Some (c, answers os r2) /\
                generates E (K, v) (map snd r1) = (os, o) /\ map len os = map snd r1.
  Proof.
    intros r1 r2 j1 j2 K v rc LK Hm F1 F2 H1 H2.
    assert (len r2 = len r1) as L by (unfold len; rewrite <- (map_length snd r1), <- (map_length snd r2), Hm; reflexivity).
    rewrite !calls_ok by (auto; lia). rewrite <- Hm, L.
    assert (forall l s, Forall (fun q : list Z * Z => 0 <= snd q < 2 ^ 31 /\ snd q <= len (fst q)) l -> map len (fst (generates E s (map snd l))) = map snd l) as G.
    { induction l as [|(x, n) l IH]; intros s F; [reflexivity|]. inversion F as [|? ? (A & _) F']; subst. cbn [map snd generates] in *.
      pose proof (generate_facts s n ltac:(lia)) as ((Lo & _) & _). destruct (generate E s n) as (o & s1). specialize (IH s1 F').
      destruct (generates E s1 (map snd l)) as (os & s2). cbn [fst map] in *. now rewrite Lo, IH. }
    specialize (G r1 (K, v) F1). destruct (generates E (K, v) (map snd r1)) as (os & (K1 & v1)). cbn [fst] in G.
    do 3 eexists. split; [reflexivity|]. split; [reflexivity|]. split; [reflexivity|exact G].
  Qed.

  (** Blocks of one request. *)
  Lemma zskip_blocks : forall K v m i, 0 <= i < m -> zfirst 16 (zskip (16 * i) (blocks E K v m)) = E K (be 16 (v + 1 + i)).
  Proof.
    intros K v m i Hi. pose proof (arr_blocks E HE K v i ltac:(lia)) as (Li & _). pose proof (arr_blocks E HE K v (i + 1) ltac:(lia)) as (Li' & _).
    assert (exists r, blocks E K v m = blocks E K v (i + 1) ++ r) as (r & ->).
    { assert (forall d, 0 <= d -> exists r, blocks E K v (i + 1 + d) = blocks E K v (i + 1) ++ r) as X.
      { intros d Hd. pattern d. apply natlike_ind; auto; clear d Hd.
        - exists []. rewrite app_nil_r. f_equal; lia.
        - intros d Hd (r & IH). unfold Z.succ. rewrite Z.add_assoc, blocks_S by lia. rewrite IH, <- app_assoc. eexists. reflexivity. }
      specialize (X (m - (i + 1)) ltac:(lia)). replace (i + 1 + (m - (i + 1))) with m in X by lia. exact X. }
    rewrite blocks_S by lia. rewrite <- app_assoc. rewrite zskip_app_at by auto. apply zfirst_app_at. apply HE.
  Qed.

  Lemma be_distinct : forall v i j, 0 <= i < 2 ^ 128 -> 0 <= j < 2 ^ 128 -> i <> j -> be 16 (v + 1 + i) <> be 16 (v + 1 + j).
  Proof.
    intros v i j Hi Hj Hij H. apply be_inj in H; [|lia]. change (256 ^ 16) with (2 ^ 128) in H. set (P := 2 ^ 128) in *.
    assert (0 < P) by reflexivity. clearbody P.
    assert ((i - j) mod P = 0) as D.
    { replace (i - j) with ((v + 1 + i) - (v + 1 + j)) by lia. rewrite Zminus_mod, H, Z.sub_diag. apply Z.mod_0_l. lia. }
    apply Z.mod_divide in D; [|lia]. destruct D as (q & D). assert (q = 0) by nia. subst q. lia.
  Qed.

  Lemma distinct_ok : forall junk K v rc x n i j, len K = 32 -> - 2 ^ 31 <= rc < 2 ^ 31 - 1 -> 0 <= n < 2 ^ 31 -> n <= len x ->
    (forall a b, arr U8 16 a -> arr U8 16 b -> E K a = E K b -> a = b) ->
    0 <= i -> 0 <= j -> i <> j -> 16 * (i + 1) <= n -> 16 * (j + 1) <= n ->
    exists ctx out, run (randombytes E junk (Drbg K (be 16 v) rc) x n) = Some (ctx, out, 0) /\
      zfirst 16 (zskip (16 * i) out) <> zfirst 16 (zskip (16 * j) out).
  Proof.
    intros junk K v rc x n i j LK Hrc Hn Hx Inj Hi Hj Hij Ni Nj. rewrite randombytes_ok by auto.
    pose proof (generate_facts (K, v) n ltac:(lia)) as ((Lo & _) & _). unfold generate in Lo |- *. cbn [fst snd] in Lo |- *.
    set (B := blocks E K v (cdiv n 16)) in *. destruct (update E (K, v + cdiv n 16) (zeros 48)) as (K' & v').
    do 2 eexists. split; [reflexivity|].
    assert (n <= 16 * cdiv n 16) as Hc.
    { unfold cdiv. pose proof (Z.div_mod (n + 16 - 1) 16 ltac:(lia)). pose proof (Z.mod_pos_bound (n + 16 - 1) 16 ltac:(lia)). lia. }
    assert (forall k, 0 <= k -> 16 * (k + 1) <= n -> zfirst 16 (zskip (16 * k) (zfirst n B ++ zskip n x)) = E K (be 16 (v + 1 + k))) as X.
    { intros k Hk Nk. rewrite <- (zskip_blocks K v (cdiv n 16) k) by lia. fold B. 
      apply znth_ext with 0. 
      - destruct (arr_blocks E HE K v (cdiv n 16) ltac:(lia)) as (LB & _). fold B in LB.
        rewrite !len_zfirst; rewrite ?len_zskip; rewrite ?len_app, ?len_zskip; lia.
      - intros p Hp. rewrite len_zfirst in Hp by (rewrite len_zskip by (rewrite len_app, len_zskip by lia; lia); rewrite len_app, len_zskip by lia; lia).
        rewrite !znth_zfirst, !znth_zskip by lia. rewrite znth_app1 by lia. apply znth_zfirst. lia. }
    rewrite !X by auto. intros Heq. apply Inj in Heq; [|apply arr_be; lia|apply arr_be; lia].
    revert Heq. apply be_distinct; lia.
  Qed.

  (** ** C39: lengths of 2^31 and more, and the call counter at its maximum *)
  Lemma ub_loop : forall f K V block x i xlen, len K = 32 -> (exists v, V = be 16 v) -> len block = 16 -> 0 <= i < 2 ^ 31 -> i mod 16 = 0 ->
    2 ^ 31 <= i + xlen <= len x ->
    ub (while_ f (fun '(_, _, _, _, xlen) => 0 <? xlen)
      (fun '(V, block, x, i, xlen) =>
        V <- incr 16 V 15 ;;
        block <- AES256_ECB E K V block ;;
        ite (15 <? xlen)
          (x <- at_ x i (fun p => memcpy p block 16) ;;
           i <- ev (Var I32 i + #16)%C ;;
           ret (V, block, x, i, xlen - 16))
          (x <- at_ x i (fun p => memcpy p block xlen) ;;
           ret (V, block, x, i, 0)))
      (V, block, x, i, xlen)).
  Proof.
    induction f; intros K V block x i xlen LK (v & ->) Lb Hi Hm Hx; cbn [while_].
    - intros t. reflexivity.
    - replace (0 <? xlen) with true by lia. apply ub_bind2, wp_emit.
      assert (16 <= xlen) as H16.
      { pose proof (Z.div_mod i 16 ltac:(lia)). lia. }
      destruct (Z_lt_dec (i + 16) (2 ^ 31)).
      + apply ub_bind2. apply wp_bind, wp_incr16. pose proof (HE K (be 16 (v + 1))) as (LE & TE).
        apply wp_bind, wp_ecb; [auto|now apply len_be|lia|]. rewrite zskip_all, app_nil_r by lia.
        apply wp_ite. replace (15 <? xlen) with true by lia.
        apply wp_bind, wp_at; [lia|]. apply wp_memcpy; [rewrite len_zskip by lia; lia|lia|].
        apply wp_bind, wp_add32; [lia|lia|lia|]. apply wp_ret. apply IHf; auto; [eexists; reflexivity|lia| |].
        * rewrite Z.add_mod, Hm by lia. reflexivity.
        * rewrite !len_app, (zfirst_ge 16) by lia. rewrite len_zfirst by lia. rewrite !len_zskip by (rewrite ?len_zskip by lia; lia). lia.
      + apply ub_bind1. apply ub_bind2, wp_incr16. apply ub_bind2. pose proof (HE K (be 16 (v + 1))) as (LE & TE).
        apply wp_ecb; [auto|now apply len_be|lia|]. rewrite zskip_all, app_nil_r by lia.
        apply ub_bind2, wp_emit. replace (15 <? xlen) with true by lia.
        apply ub_bind2, wp_at; [lia|]. apply wp_memcpy; [rewrite len_zskip by lia; lia|lia|].
        apply ub_bind1. apply ub_add32; lia.
  Qed.

  Lemma randombytes_ub : forall junk K v rc x n, len K = 32 -> 2 ^ 31 <= n <= len x ->
    run (randombytes E junk (Drbg K (be 16 v) rc) x n) = None.
  Proof.
    intros junk K v rc x n LK Hn. apply ub_run. unfold randombytes. cbn [d_Key d_V d_rc]. apply ub_bind1.
    apply ub_loop; auto; try lia; eexists; reflexivity.
  Qed.

  Lemma counter_ub : forall junk K v x n, len K = 32 -> 0 <= n < 2 ^ 31 -> n <= len x ->
    run (randombytes E junk (Drbg K (be 16 v) (2 ^ 31 - 1)) x n) = None.
  Proof.
    intros junk K v x n LK Hn Hx. apply ub_run. 
    assert (wp (randombytes E junk (Drbg K (be 16 v) 0) x n) (fun _ => True)) as W.
    { apply wp_randombytes; auto; [lia|]. now destruct (generate E (K, v) n). }
    intros t. destruct (W t) as (a & t' & H & _). unfold randombytes in H |- *. cbn [d_Key d_V d_rc] in H |- *.
    unfold bind at 1 in H. unfold bind at 1. destruct (while_ _ _ _ _ t) as [((((V, block), x'), i), xlen) t1|]; [|discriminate].
    unfold bind at 1 in H. unfold bind at 1. destruct (AES256_CTR_DRBG_Update _ _ _ _ _ t1) as [(K', V') t2|]; [|discriminate].
    apply ub_bind1. apply ub_add32; lia.
  Qed.

  (** ** C29, C30: the seed expander *)

  (** Context after [d] bytes of the stream have been delivered. *)
  Definition xctx (seed div : list Z) (maxlen d : Z) : xof :=
    Xof (if d =? 0 then zeros 16 else xblock E seed div maxlen (cdiv d 16 - 1)) (d - 16 * cdiv d 16 + 16) (maxlen - d) seed
        (div ++ be 4 maxlen ++ be 4 (cdiv d 16)).

  Lemma len8 : forall l : list Z, len l = 8 -> exists a b c d e f g h, l = [a; b; c; d; e; f; g; h].
  Proof.
    intros l H. do 8 (destruct l as [|? l]; [discriminate|]). destruct l; [|unfold len in H; cbn [length] in H; lia]. do 8 eexists. reflexivity.
  Qed.

  Lemma wp_xinit : forall ctx seed div maxlen (Q : xof * Z -> Prop), len (x_buffer ctx) = 16 -> len (x_key ctx) = 32 -> len (x_ctr ctx) = 16 ->
    32 <= len seed -> 8 <= len div -> 0 <= maxlen < 2 ^ 32 ->
    Q (xctx (zfirst 32 seed) (zfirst 8 div) maxlen 0, 0) -> wp (seedexpander_init ctx seed div maxlen) Q.
  Proof.
    intros ctx seed div maxlen Q Lb Lk Lc Ls Ld Hm HQ. unfold seedexpander_init. apply wp_ite. destruct (_ <=? maxlen) eqn:D; [lia|].
    apply wp_bind, wp_memcpy; [lia|lia|]. apply wp_bind, wp_memcpy; [lia|lia|].
    rewrite (zskip_all 32 (x_key ctx)), app_nil_r by lia.
    destruct (len8 (zfirst 8 div)) as (a0 & a1 & a2 & a3 & a4 & a5 & a6 & a7 & ED); [rewrite len_zfirst by lia; lia|]. rewrite ED in *.
    destruct (len8 (zskip 8 (x_ctr ctx))) as (b0 & b1 & b2 & b3 & b4 & b5 & b6 & b7 & ->); [rewrite len_zskip by lia; lia|].
    cbn [app].
    assert (forall z, 0 <= z < 2 ^ 64 -> forall Q : Z -> Prop, Q (z / 256) -> wp (ev (Var U64 z .>> #8)%C) Q) as Sh.
    { intros z Hz P HP. apply wp_ev; [reflexivity|cbn [lok tmin tmax]; lia|]. cbn [val val_bin]. rewrite Z.shiftr_div_pow2 by lia. exact HP. }
    assert (0 <= maxlen / 256 < 2 ^ 64) by (split; [apply Z.div_pos; lia|apply Z.div_lt_upper_bound; lia]).
    assert (0 <= maxlen / 256 / 256 < 2 ^ 64) by (split; [apply Z.div_pos; lia|apply Z.div_lt_upper_bound; lia]).
    apply wp_bind, wp_wr; [unfold len; cbn [length]; lia|]. apply wp_bind, Sh; [lia|]. apply wp_bind, wp_wr; [rewrite len_upd; unfold len; cbn [length]; lia|].
    apply wp_bind, Sh; [lia|]. apply wp_bind, wp_wr; [rewrite !len_upd; unfold len; cbn [length]; lia|]. apply wp_bind, Sh; [lia|].
    apply wp_bind, wp_wr; [rewrite !len_upd; unfold len; cbn [length]; lia|].
    set (m1 := maxlen / 256) in *. set (m2 := m1 / 256) in *. set (m3 := m2 / 256) in *.
    match goal with |- context [at_ ?l 12] => set (C := l) end.
    assert (C = [a0; a1; a2; a3; a4; a5; a6; a7; m3 mod 256; m2 mod 256; m1 mod 256; maxlen mod 256; b4; b5; b6; b7]) as EC by reflexivity.
    clearbody C. subst C.
    apply wp_bind, wp_at; [unfold len; cbn [length]; lia|]. apply wp_memset; [rewrite len_zskip; unfold len; cbn [length]; lia|].
    apply wp_bind, wp_memset; [lia|]. rewrite (zskip_all 16 (x_buffer ctx)), app_nil_r by lia. apply wp_ret.
    unfold xctx in HQ. change (cdiv 0 16) with 0 in HQ. rewrite (Z.sub_0_r maxlen) in HQ. exact HQ.
  Qed.

  Section Stream.
    Variables seed div : list Z.
    Variable maxlen : Z.
    Hypothesis Hseed : len seed = 32.
    Hypothesis Hdiv : arr U8 8 div.

    Lemma wp_incr4 : forall nb (Q : list Z -> Prop), Q (div ++ be 4 maxlen ++ be 4 (nb + 1)) ->
      wp (incr 4 (div ++ be 4 maxlen ++ be 4 nb) 15) Q.
    Proof.
      intros nb Q HQ. destruct Hdiv as (Ld & Td).
      pose proof (wp_incr 4 (div ++ be 4 maxlen) nb [] Q) as H. rewrite !app_nil_r, len_app, Ld, len_be in H by lia.
      rewrite <- !app_assoc in H. apply H; [|constructor|exact HQ]. apply Forall_app. split; auto. apply typed_ben.
    Qed.

    Lemma len_ctr : forall nb, len (div ++ be 4 maxlen ++ be 4 nb) = 16.
    Proof. intros. destruct Hdiv as (Ld & _). rewrite !len_app, !len_be by lia. lia. Qed.

    Notation strm := (xstream E seed div maxlen).
    Notation blk := (xblock E seed div maxlen).

    Lemma xstream_app : forall o a b, 0 <= a -> 0 <= b -> strm o (a + b) = strm o a ++ strm (o + a) b.
    Proof. intros. unfold xstream. rewrite ztab_split by lia. f_equal. apply ztab_ext. intros. f_equal. lia. Qed.
    Lemma len_xstream : forall o n, 0 <= n -> len (strm o n) = n.
    Proof. intros. now apply len_ztab. Qed.

    Lemma piece : forall j p n, 0 <= p -> 0 <= n -> p + n <= 16 -> zfirst n (zskip p (blk j)) = strm (16 * j + p) n.
    Proof.
      intros j p n Hp Hn H. assert (len (blk j) = 16) as L by apply HE.
      unfold xstream. apply ztab_eq with 0; [rewrite len_zfirst by (rewrite len_zskip by lia; lia); lia|].
      intros i Hi. rewrite znth_zfirst, znth_zskip by lia. unfold xbyte.
      replace (16 * j + p + i) with (p + i + j * 16) by lia. rewrite Z.div_add, Z.mod_add by lia.
      rewrite Z.div_small, Z.mod_small by lia. reflexivity.
    Qed.

    Lemma wp_xloop : forall f buffer nb pos x off rem (Q : list Z * Z * list Z * list Z * Z * Z -> Prop),
      0 <= nb -> 0 <= pos <= 16 -> (pos < 16 -> buffer = blk (nb - 1)) -> len buffer = 16 -> 0 < rem < 2 ^ 64 -> 0 <= off ->
      off + rem <= len x -> 2 <= Z.of_nat f -> rem - (16 - pos) <= 16 * (Z.of_nat f - 2) ->
      (let d := 16 * (nb - 1) + pos + rem in
       forall off', Q (blk (cdiv d 16 - 1), d - 16 * cdiv d 16 + 16, div ++ be 4 maxlen ++ be 4 (cdiv d 16),
          zfirst off x ++ strm (16 * (nb - 1) + pos) rem ++ zskip (off + rem) x, off', 0)) ->
      wp (while_ f (fun '(_, _, _, _, _, xlen) => 0 <? xlen)
           (fun '(buffer, pos, ctr, x, offset, xlen) =>
             let r := wrap U64 (16 - pos) in
             ite (xlen <=? r)
               (p <- ptr buffer pos ;;
                x <- at_ x offset (fun q => memcpy q p xlen) ;;
                ret (buffer, pos + xlen, ctr, x, offset, 0))
               (p <- ptr buffer pos ;;
                x <- at_ x offset (fun q => memcpy q p r) ;;
                buffer <- AES256_ECB E seed ctr buffer ;;
                ctr <- incr 4 ctr 15 ;;
                ret (buffer, 0, ctr, x, offset + r, xlen - r)))
           (buffer, pos, div ++ be 4 maxlen ++ be 4 nb, x, off, rem)) Q.
    Proof.
      induction f; intros buffer nb pos x off rem Q Hnb Hpos Hbuf Lb Hrem Hoff Hx Hf Hfuel HQ; [lia|].
      cbn [while_]. replace (0 <? rem) with true by lia. apply wp_bind, wp_emit. apply wp_bind.
      cbv zeta. rewrite wrap_id by (cbn [tmin tmax]; lia). apply wp_ite. destruct (rem <=? 16 - pos) eqn:D.
      - apply wp_bind, wp_ptr; [lia|]. apply wp_bind, wp_at; [lia|]. apply wp_memcpy; [rewrite len_zskip by lia; lia|rewrite len_zskip by lia; lia|].
        apply wp_ret. destruct f; [lia|]. cbn [while_]. cbn [Z.ltb Z.compare]. apply wp_bind, wp_emit, wp_ret.
        cbv zeta in HQ. assert (cdiv (16 * (nb - 1) + pos + rem) 16 = nb) as Hc.
        { unfold cdiv. symmetry. apply Z.div_unique with (pos + rem - 1); lia. }
        rewrite Hc in HQ. specialize (HQ off). rewrite Hbuf in * by lia. rewrite zskip_zskip by lia.
        rewrite piece by lia. replace (pos + rem) with (16 * (nb - 1) + pos + rem - 16 * nb + 16) by lia. exact HQ.
      - apply wp_bind, wp_ptr; [lia|]. apply wp_bind, wp_at; [lia|]. apply wp_memcpy; [rewrite len_zskip by lia; lia|rewrite len_zskip by lia; lia|].
        apply wp_bind, wp_ecb; [auto|apply len_ctr|lia|]. rewrite (zskip_all 16 buffer), app_nil_r by lia.
        apply wp_bind, wp_incr4. apply wp_ret. fold (blk nb).
        assert (zfirst (16 - pos) (zskip pos buffer) = strm (16 * (nb - 1) + pos) (16 - pos)) as P.
        { destruct (Z.eq_dec pos 16) as [->|]; [reflexivity|]. rewrite Hbuf by lia. apply piece; lia. }
        rewrite P, zskip_zskip by lia.
        assert (len (zfirst off x) = off) as L1 by (rewrite len_zfirst by lia; lia).
        assert (len (strm (16 * (nb - 1) + pos) (16 - pos)) = 16 - pos) as L2 by (apply len_xstream; lia).
        assert (len (zskip (off + (16 - pos)) x) = len x - (off + (16 - pos))) as L3 by (rewrite len_zskip by lia; lia).
        rewrite (app_assoc (zfirst off x)). set (y := (zfirst off x ++ strm (16 * (nb - 1) + pos) (16 - pos))).
        assert (len y = off + (16 - pos)) as L4 by (unfold y; rewrite len_app; lia).
        apply IHf; [lia|lia| |apply HE|lia|lia|rewrite len_app; lia|lia|lia|].
        + intros _. f_equal. lia.
        + cbv zeta in HQ |- *. intros off'. specialize (HQ off').
          replace (16 * (nb + 1 - 1) + 0 + (rem - (16 - pos))) with (16 * (nb - 1) + pos + rem) by lia.
          rewrite zfirst_app_at by auto.
          replace (zskip (off + (16 - pos) + (rem - (16 - pos))) (y ++ zskip (off + (16 - pos)) x)) with (zskip (off + rem) x).
          * unfold y. rewrite <- !app_assoc. 
            replace (strm (16 * (nb - 1) + pos) (16 - pos) ++ strm (16 * (nb + 1 - 1) + 0) (rem - (16 - pos)) ++ zskip (off + rem) x)
              with (strm (16 * (nb - 1) + pos) rem ++ zskip (off + rem) x); [exact HQ|].
            rewrite app_assoc. f_equal. replace rem with ((16 - pos) + (rem - (16 - pos))) at 1 by lia.
            rewrite xstream_app by lia. do 2 f_equal. lia.
          * replace (off + (16 - pos) + (rem - (16 - pos))) with (len y + (rem - (16 - pos))) by lia.
            assert (forall l : list Z, zskip (len y + (rem - (16 - pos))) l = zskip (rem - (16 - pos)) (zskip (len y) l)) as ZZ
              by (intros; rewrite zskip_zskip by lia; reflexivity).
            rewrite ZZ. rewrite (zskip_app_at (len y)) by auto. rewrite zskip_zskip by lia. f_equal. lia.
    Qed.

    Lemma cdiv16 : forall d, 0 <= d -> 16 * cdiv d 16 - 16 < d <= 16 * cdiv d 16.
    Proof.
      intros d Hd. unfold cdiv. pose proof (Z.div_mod (d + 16 - 1) 16 ltac:(lia)). pose proof (Z.mod_pos_bound (d + 16 - 1) 16 ltac:(lia)). lia.
    Qed.

    Lemma wp_expand : forall d x n (Q : xof * option (list Z) * Z -> Prop), 0 <= d -> 0 <= n -> maxlen < 2 ^ 64 -> n < maxlen - d -> n <= len x ->
      Q (xctx seed div maxlen (d + n), Some (strm d n ++ zskip n x), 0) ->
      wp (seedexpander E (xctx seed div maxlen d) (Some x) n) Q.
    Proof.
      intros d x n Q Hd Hn Hmax Hlim Hx HQ. unfold seedexpander. apply wp_bind, wp_emit. apply wp_ite.
      unfold xctx at 1. cbn [x_left]. destruct (_ <=? n) eqn:D; [lia|]. clear D.
      unfold xctx at 1 2 3 4 5. cbn [x_left x_buffer x_pos x_ctr x_key]. pose proof (cdiv16 d Hd) as Hc.
      assert (0 <= cdiv d 16) as Hc0 by lia. apply wp_bind. destruct (Z.eq_dec n 0) as [->|Hn0].
      - cbn [while_]. cbn [Z.ltb Z.compare]. apply wp_bind, wp_emit, wp_ret. apply wp_ret.
        rewrite Z.add_0_r in HQ. rewrite Z.sub_0_r. exact HQ.
      - apply wp_xloop; [lia|lia| | |lia|lia|lia| | |].
        + intros Hp. destruct (d =? 0) eqn:D0; [|reflexivity]. assert (d = 0) by lia. subst d. change (cdiv 0 16) with 0 in Hp. lia.
        + destruct (d =? 0); [reflexivity|apply HE].
        + lia.
        + rewrite !Nat2Z.inj_succ, Z2Nat.id by (pose proof (Z.div_pos n 16); lia). pose proof (Z.div_mod n 16 ltac:(lia)). pose proof (Z.mod_pos_bound n 16 ltac:(lia)). lia.
        + cbv zeta. replace (16 * (cdiv d 16 - 1) + (d - 16 * cdiv d 16 + 16)) with d by lia. intros off'. apply wp_ret.
          unfold xctx in HQ. replace (d + n =? 0) with false in HQ by lia. replace (maxlen - (d + n)) with (maxlen - d - n) in HQ by lia. exact HQ.
    Qed.

    (** Any sequence of requests. *)
    Lemma wp_xcalls : forall reqs d (Q : xof * list (option (list Z) * Z) -> Prop), 0 <= d -> maxlen < 2 ^ 64 ->
      Forall (fun q => 0 <= snd q /\ match fst q with Some x => maxlen - d <= snd q \/ snd q <= len x | None => True end) reqs ->
      (let '(a, e) := xserve E seed div maxlen d reqs in Q (xctx seed div maxlen e, a)) ->
      wp (seedexpander_calls E (xctx seed div maxlen d) reqs) Q.
    Proof.
      induction reqs as [|([x|], n) r IH]; intros d Q Hd Hmax HF HQ; cbn [seedexpander_calls xserve] in *.
      - apply wp_ret. exact HQ.
      - inversion HF as [|? ? (Hn & Hx) HF']; subst. cbn [fst snd] in *. apply wp_bind.
        destruct (maxlen - d <=? n) eqn:D.
        + unfold seedexpander. apply wp_bind, wp_emit. apply wp_ite. unfold xctx at 1. cbn [x_left]. rewrite D. apply wp_ret.
          apply wp_bind, IH; auto. destruct (xserve E seed div maxlen d r) as (a & e). apply wp_ret. exact HQ.
        + apply wp_expand; [lia|lia|lia|lia|lia|]. apply wp_bind, IH; [lia|lia| |].
          * eapply Forall_impl; [|exact HF']. intros ([y|], m); cbn [fst snd]; intros (A & B); split; auto. lia.
          * destruct (xserve E seed div maxlen (d + n) r) as (a & e). apply wp_ret. exact HQ.
      - inversion HF as [|? ? (Hn & Hx) HF']; subst. apply wp_bind. unfold seedexpander. apply wp_bind, wp_emit, wp_ret.
        apply wp_bind, IH; auto. destruct (xserve E seed div maxlen d r) as (a & e). apply wp_ret. exact HQ.
    Qed.

    (** Total delivered. *)
    Lemma xserve_bound : forall reqs d, Forall (fun q => 0 <= snd q) reqs -> d <= snd (xserve E seed div maxlen d reqs) /\
      (d < maxlen -> snd (xserve E seed div maxlen d reqs) < maxlen).
    Proof.
      induction reqs as [|([x|], n) r IH]; intros d HF; cbn [xserve]; [cbn [snd]; lia| |].
      - inversion HF; subst. cbn [snd] in *. destruct (maxlen - d <=? n) eqn:D.
        + specialize (IH d H2). destruct (xserve E seed div maxlen d r). exact IH.
        + specialize (IH (d + n) H2). destruct (xserve E seed div maxlen (d + n) r). cbn [snd] in *. lia.
      - inversion HF; subst. specialize (IH d H2). destruct (xserve E seed div maxlen d r). exact IH.
    Qed.

    Lemma xserve_split : forall ns d, Forall (fun n => 0 <= n) ns -> d + total ns < maxlen ->
      concat (map payload (fst (xserve E seed div maxlen d (exact_bufs ns)))) = strm d (total ns) /\
      map snd (fst (xserve E seed div maxlen d (exact_bufs ns))) = map (fun _ => 0) ns.
    Proof.
      assert (forall ns, Forall (fun n => 0 <= n) ns -> 0 <= total ns) as T.
      { induction ns; intros HF; cbn [total]; [lia|]. inversion HF; subst. specialize (IHns H2). lia. }
      induction ns as [|n r IH]; intros d HF Ht; cbn [exact_bufs map xserve total] in *; [split; reflexivity|].
      inversion HF as [|? ? Hn HF']; subst. pose proof (T r HF').
      destruct (maxlen - d <=? n) eqn:D; [lia|]. fold (exact_bufs r). specialize (IH (d + n) HF' ltac:(lia)).
      destruct (xserve E seed div maxlen (d + n) (exact_bufs r)) as (a & e). cbn [fst map concat snd payload] in *. destruct IH as (I1 & I2).
      rewrite (zskip_all n (zeros n)), app_nil_r by (rewrite len_zeros by auto; lia). rewrite I1, I2. split; [|reflexivity].
      symmetry. now apply xstream_app.
    Qed.
  End Stream.
End Thm.

(** ** Statements for arbitrary contexts *)
Section Final.
  Variable E : list Z -> list Z -> list Z.
  Hypothesis HE : forall k v, arr U8 16 (E k v).

  Lemma ctx_be : forall ctx, arr U8 16 (d_V ctx) -> ctx = Drbg (d_Key ctx) (be 16 (be_val (d_V ctx))) (d_rc ctx).
  Proof. intros (K, V, rc) H. cbn [d_Key d_V d_rc] in *. now rewrite be_be_val. Qed.

  Lemma randombytes_all : forall junk ctx x n, ctx_ok ctx -> d_rc ctx < 2 ^ 31 - 1 -> 0 <= n < 2 ^ 31 -> n <= len x ->
    run (randombytes E junk ctx x n) =
    let '(out, (K', v')) := generate E (d_Key ctx, be_val (d_V ctx)) n in Some (Drbg K' (be 16 v') (d_rc ctx + 1), out ++ zskip n x, RNG_SUCCESS).
  Proof.
    intros junk ctx x n (AK & AV & Hrc) H1 H2 H3. rewrite (ctx_be ctx AV) at 1. apply randombytes_ok; auto; [apply AK|lia].
  Qed.

  Lemma ctx_kept : forall junk ctx x n ctx' x' r, ctx_ok ctx -> d_rc ctx < 2 ^ 31 - 1 -> 0 <= n < 2 ^ 31 -> n <= len x ->
    run (randombytes E junk ctx x n) = Some (ctx', x', r) -> ctx_ok ctx' /\ len x' = len x.
  Proof.
    intros junk ctx x n ctx' x' r C H1 H2 H3 R. rewrite randombytes_all in R by auto.
    pose proof (generate_facts E HE (d_Key ctx, be_val (d_V ctx)) n ltac:(lia)) as ((Lo & _) & G1 & G2).
    destruct (generate E (d_Key ctx, be_val (d_V ctx)) n) as (out & (K' & v')). cbn [fst snd] in *. destruct C as (_ & _ & C).
    inversion R; subst. split; [|rewrite len_app, len_zskip by lia; lia].
    split; [exact G1|]. split; [apply arr_be; lia|cbn [d_rc]; lia].
  Qed.

  Lemma init_all : forall junk ctx entropy pers, len (d_Key ctx) = 32 -> len (d_V ctx) = 16 ->
    48 <= len entropy -> typed U8 entropy ->
    (match pers with Some x => 48 <= len x /\ typed U8 x | None => True end) ->
    exists ctx', run (randombytes_init E junk ctx entropy pers) = Some ctx' /\ ctx_ok ctx' /\ d_rc ctx' = 1 /\
      (d_Key ctx', be_val (d_V ctx')) = instantiate E entropy (match pers with Some x => x | None => zeros 48 end).
  Proof.
    intros junk ctx ent pers LK LV Le Te Hp. rewrite init_ok by auto. set (p := match pers with Some x => x | None => zeros 48 end).
    eexists. split; [reflexivity|]. cbn [d_Key d_V d_rc]. unfold instantiate.
    set (X := ztab 48 (fun i => Z.lxor (get ent i) (get p i))). assert (arr U8 48 X) as (LX & TX).
    { assert (48 <= len p /\ typed U8 p) as (Lp & Tp) by (unfold p; destruct pers; [exact Hp|split; [rewrite len_zeros; lia|apply typed_zeros]]).
      split; [now apply len_ztab|]. apply Forall_ztab. intros i Hi. cbn [tmin tmax]. apply lxor_byte; apply byte_get; auto; lia. }
    destruct (arr_update E HE (zeros 32, 0) X ltac:(lia) TX) as (G1 & G2).
    split; [split; [exact G1|split; [apply arr_be; lia|cbn [d_rc]; lia]]|]. split; [reflexivity|].
    rewrite be_val_be by lia. change (256 ^ 16) with (2 ^ 128). rewrite Z.mod_small by exact G2. symmetry. apply surjective_pairing.
  Qed.

  Lemma history : forall junk ctx reqs, ctx_ok ctx ->
    Forall (fun q => 0 <= snd q < 2 ^ 31 /\ snd q <= len (fst q)) reqs -> d_rc ctx + len reqs < 2 ^ 31 ->
    run (randombytes_calls E junk ctx reqs) =
    let '(os, (K', v')) := generates E (d_Key ctx, be_val (d_V ctx)) (map snd reqs) in
    Some (Drbg K' (be 16 v') (d_rc ctx + len reqs), answers os reqs).
  Proof.
    intros junk ctx reqs (AK & AV & Hrc) HF H. rewrite (ctx_be ctx AV) at 1. apply calls_ok; auto; [apply AK|lia].
  Qed.

  Lemma history_prefix : forall pre q q' junk junk' ctx, ctx_ok ctx ->
    Forall (fun q => 0 <= snd q < 2 ^ 31 /\ snd q <= len (fst q)) (pre ++ q) ->
    Forall (fun q => 0 <= snd q < 2 ^ 31 /\ snd q <= len (fst q)) (pre ++ q') ->
    d_rc ctx + len (pre ++ q) < 2 ^ 31 -> d_rc ctx + len (pre ++ q') < 2 ^ 31 ->
    exists c c' o r r',
      run (randombytes_calls E junk ctx (pre ++ q)) = Some (c, o ++ r) /\
      run (randombytes_calls E junk' ctx (pre ++ q')) = Some (c', o ++ r') /\ length o = length pre.
  Proof. intros pre q q' junk junk' ctx (AK & AV & Hrc) F1 F2 H1 H2. 
    pose proof (prefix_ok E HE pre q q' junk junk' (d_Key ctx) (be_val (d_V ctx)) (d_rc ctx)) as P. rewrite <- (ctx_be ctx AV) in P.
    apply P; auto; [apply AK|lia]. Qed.

  Lemma no_repeat : forall junk ctx x n i j, ctx_ok ctx -> d_rc ctx < 2 ^ 31 - 1 -> 0 <= n < 2 ^ 31 -> n <= len x ->
    (forall a b, arr U8 16 a -> arr U8 16 b -> E (d_Key ctx) a = E (d_Key ctx) b -> a = b) ->
    0 <= i -> 0 <= j -> i <> j -> 16 * (i + 1) <= n -> 16 * (j + 1) <= n ->
    exists ctx' out, run (randombytes E junk ctx x n) = Some (ctx', out, 0) /\
      zfirst 16 (zskip (16 * i) out) <> zfirst 16 (zskip (16 * j) out).
  Proof. 
    intros junk ctx x n i j (AK & AV & Hrc). intros.
    pose proof (distinct_ok E HE junk (d_Key ctx) (be_val (d_V ctx)) (d_rc ctx) x n i j) as P. rewrite <- (ctx_be ctx AV) in P.
    apply P; auto; [apply AK|lia]. Qed.

  Lemma too_long : forall junk ctx x n, ctx_ok ctx -> 2 ^ 31 <= n <= len x -> run (randombytes E junk ctx x n) = None.
  Proof. intros junk ctx x n (AK & AV & Hrc) H. rewrite (ctx_be ctx AV). apply randombytes_ub; auto. apply AK. Qed.
  Lemma too_many : forall junk ctx x n, ctx_ok ctx -> d_rc ctx = 2 ^ 31 - 1 -> 0 <= n < 2 ^ 31 -> n <= len x -> run (randombytes E junk ctx x n) = None.
  Proof. intros junk ctx x n (AK & AV & Hrc) H. rewrite (ctx_be ctx AV), H. apply counter_ub; auto. apply AK. Qed.

  Lemma expander : forall ctx seed div maxlen reqs, xof_ok ctx -> 32 <= len seed -> 8 <= len div -> typed U8 div -> 0 <= maxlen < 2 ^ 32 ->
    Forall (fun q => 0 <= snd q /\ match fst q with Some x => snd q <= len x | None => True end) reqs ->
    exists ctx0 ctx1, run (seedexpander_init ctx seed div maxlen) = Some (ctx0, RNG_SUCCESS) /\
      let '(a, d) := xserve E (zfirst 32 seed) (zfirst 8 div) maxlen 0 reqs in
      run (seedexpander_calls E ctx0 reqs) = Some (ctx1, a) /\ x_left ctx1 = maxlen - d.
  Proof.
    intros ctx seed div maxlen reqs (C1 & C2 & C3) Ls Ld Td Hm HF.
    exists (xctx E (zfirst 32 seed) (zfirst 8 div) maxlen 0).
    destruct (xserve E (zfirst 32 seed) (zfirst 8 div) maxlen 0 reqs) as (a & d) eqn:X.
    exists (xctx E (zfirst 32 seed) (zfirst 8 div) maxlen d). split; [apply wp_run_eq; apply (wp_xinit E); auto|].
    split; [|reflexivity]. apply wp_run_eq. apply wp_xcalls; auto; [rewrite len_zfirst by lia; lia| |lia|lia| |now rewrite X].
    - split; [rewrite len_zfirst by lia; lia|now apply Forall_zfirst].
    - eapply Forall_impl; [|exact HF]. intros ([x|], n); cbn [fst snd]; intros (A & B); split; auto.
  Qed.

  Lemma expander_split : forall ctx seed div maxlen ns, xof_ok ctx -> 32 <= len seed -> 8 <= len div -> typed U8 div -> 0 <= maxlen < 2 ^ 32 ->
    Forall (fun n => 0 <= n) ns -> total ns < maxlen ->
    exists ctx0 c1 c2 outs out, run (seedexpander_init ctx seed div maxlen) = Some (ctx0, RNG_SUCCESS) /\
      run (seedexpander_calls E ctx0 (exact_bufs ns)) = Some (c1, outs) /\
      run (seedexpander E ctx0 (Some (zeros (total ns))) (total ns)) = Some (c2, Some out, RNG_SUCCESS) /\
      map snd outs = map (fun _ => RNG_SUCCESS) ns /\ concat (map payload outs) = out.
  Proof.
    intros ctx seed div maxlen ns (C1 & C2 & C3) Ls Ld Td Hm HF Ht.
    assert (forall ns, Forall (fun n => 0 <= n) ns -> 0 <= total ns) as T.
    { induction ns0; intros F; cbn [total]; [lia|]. inversion F; subst. specialize (IHns0 H2). lia. }
    set (sd := zfirst 32 seed). set (dv := zfirst 8 div).
    assert (len sd = 32) as L1 by (unfold sd; rewrite len_zfirst by lia; lia).
    assert (arr U8 8 dv) as L2 by (unfold dv; split; [rewrite len_zfirst by lia; lia|now apply Forall_zfirst]).
    destruct (xserve_split E sd dv maxlen ns 0 HF ltac:(lia)) as (S1 & S2).
    destruct (xserve E sd dv maxlen 0 (exact_bufs ns)) as (a & d) eqn:X. cbn [fst] in *.
    exists (xctx E sd dv maxlen 0), (xctx E sd dv maxlen d), (xctx E sd dv maxlen (0 + total ns)), a, (xstream E sd dv maxlen 0 (total ns)).
    split; [apply wp_run_eq; apply (wp_xinit E); auto|]. pose proof (T ns HF). split; [|split; [|split; auto]].
    - apply wp_run_eq. apply wp_xcalls; auto; [lia|lia| |now rewrite X].
      apply Forall_map. eapply Forall_impl; [|exact HF]. intros n Hn. cbn [fst snd]. split; [exact Hn|]. rewrite len_zeros by auto. lia.
    - apply wp_run_eq. apply wp_expand; auto; [lia|lia|lia|rewrite len_zeros; lia|].
      rewrite (zskip_all (total ns)), app_nil_r by (rewrite len_zeros; lia). reflexivity.
  Qed.

  Lemma expander_total : forall ctx seed div maxlen reqs, xof_ok ctx -> 32 <= len seed -> 8 <= len div -> typed U8 div -> 0 < maxlen < 2 ^ 32 ->
    Forall (fun q => 0 <= snd q /\ match fst q with Some x => snd q <= len x | None => True end) reqs ->
    exists ctx0 ctx1 outs, run (seedexpander_init ctx seed div maxlen) = Some (ctx0, RNG_SUCCESS) /\
      run (seedexpander_calls E ctx0 reqs) = Some (ctx1, outs) /\
      x_left ctx0 = maxlen /\ x_left ctx1 = maxlen - served (map snd reqs) (map snd outs) /\
      0 <= served (map snd reqs) (map snd outs) < maxlen.
  Proof.
    intros ctx seed div maxlen reqs C Ls Ld Td Hm HF.
    destruct (expander ctx seed div maxlen reqs C Ls Ld Td ltac:(lia) HF) as (c0 & c1 & R & X).
    assert (forall reqs d, let '(a, e) := xserve E (zfirst 32 seed) (zfirst 8 div) maxlen d reqs in e = d + served (map snd reqs) (map snd a)) as S.
    { induction reqs0 as [|([x|], n) r IH]; intros d; cbn [xserve]; [cbn; lia| |].
      - destruct (maxlen - d <=? n); [specialize (IH d)|specialize (IH (d + n))];
        destruct (xserve E (zfirst 32 seed) (zfirst 8 div) maxlen _ r) as (a & e); cbn [map snd served Z.eqb]; lia.
      - specialize (IH d). destruct (xserve E (zfirst 32 seed) (zfirst 8 div) maxlen d r) as (a & e); cbn [map snd served Z.eqb]; lia. }
    specialize (S reqs 0). pose proof (xserve_bound E (zfirst 32 seed) (zfirst 8 div) maxlen reqs 0) as B.
    destruct (xserve E (zfirst 32 seed) (zfirst 8 div) maxlen 0 reqs) as (a & d). destruct X as (X1 & X2). cbn [snd] in B.
    assert (Forall (fun q : option (list Z) * Z => 0 <= snd q) reqs) as HF' by (eapply Forall_impl; [|exact HF]; intros ? (A & _); exact A).
    specialize (B HF'). exists c0, c1, a. split; [exact R|]. split; [exact X1|].
    destruct C as (C1 & C2 & C3).
    assert (run (seedexpander_init ctx seed div maxlen) = Some (xctx E (zfirst 32 seed) (zfirst 8 div) maxlen 0, RNG_SUCCESS)) as R'.
    { apply wp_run_eq. apply (wp_xinit E); auto. lia. }
    rewrite R in R'. inversion R'; subst c0. cbn [xctx x_left]. repeat split; lia.
  Qed.

  Lemma refusals : forall ctx x n, 0 <= n ->
    run (seedexpander E ctx None n) = Some (ctx, None, RNG_BAD_OUTBUF) /\
    (x_left ctx <= n -> run (seedexpander E ctx (Some x) n) = Some (ctx, Some x, RNG_BAD_REQ_LEN)).
  Proof.
    intros ctx x n Hn. split; [reflexivity|]. intros H. unfold seedexpander. apply wp_run_eq. apply wp_bind, wp_emit, wp_ite.
    replace (x_left ctx <=? n) with true by lia. now apply wp_ret.
  Qed.
  Lemma init_refusal : forall ctx seed div maxlen, 2 ^ 32 <= maxlen -> run (seedexpander_init ctx seed div maxlen) = Some (ctx, RNG_BAD_MAXLEN).
  Proof.
    intros ctx seed div maxlen H. unfold seedexpander_init. apply wp_run_eq. apply wp_ite.
    replace (0x100000000 <=? maxlen) with true by lia. now apply wp_ret.
  Qed.
End Final.

(** A cipher for the concrete cases. *)
Definition toy (k v : list Z) : list Z := ztab 16 (fun i => (get k i + get v i) mod 256).
Lemma toy_ok : forall k v, arr U8 16 (toy k v).
Proof.
  intros. split; [now apply len_ztab|]. apply Forall_ztab. intros i Hi. cbn [tmin tmax]. pose proof (Z.mod_pos_bound (get k i + get v i) 256). lia.
Qed.
Lemma toy_inj : forall k a b, arr U8 16 a -> arr U8 16 b -> toy k a = toy k b -> a = b.
Proof.
  intros k a b (La & Ta) (Lb & Tb) H. apply znth_ext with 0; [lia|]. intros i Hi.
  assert (znth 0 (toy k a) i = znth 0 (toy k b) i) as G by now rewrite H. unfold toy in G. rewrite !znth_ztab in G by lia.
  pose proof (byte_get a i Ta ltac:(lia)). pose proof (byte_get b i Tb ltac:(lia)).
  assert ((get a i - get b i) mod 256 = 0) as D.
  { replace (get a i - get b i) with ((get k i + get a i) - (get k i + get b i)) by lia. rewrite Zminus_mod, G, Z.sub_diag. reflexivity. }
  apply Z.mod_divide in D; [|lia]. destruct D as (q & D). unfold get in *. lia.
Qed.
