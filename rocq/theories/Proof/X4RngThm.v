(** C65, C66: the five generators of SaberX4. *)
From Coq Require Import ZArith List Lia.
From Verif Require Import Lib.Arr Lib.CInt Lib.CMon Spec.Drbg Spec.X4RngSpec Model.Params Model.Rng Model.X4Rng Proof.PackThm Proof.VerifyP Proof.KemP Proof.BytesP Proof.RngP Proof.RngThm.
Import ListNotations.
Local Open Scope Z_scope.

Definition gid (g : Z) : Prop := -1 <= g <= 3.
Lemma gid_cases : forall g, gid g -> g = -1 \/ g = 0 \/ g = 1 \/ g = 2 \/ g = 3.
Proof. unfold gid. lia. Qed.

Lemma some_eq : forall A (a b : A), Some a = Some b -> a = b.
Proof. intros A a b [= H]. exact H. Qed.

Section Thm.
  Variable E : list Z -> list Z -> list Z.
  Hypothesis HE : forall k v, arr U8 16 (E k v).

  Lemma wp_reset : forall junk seed ctx (Q : drbg -> Prop), len (d_Key ctx) = 32 -> len (d_V ctx) = 16 -> 48 <= len seed -> typed U8 seed ->
    (let s := update E (zeros 32, 0) seed in Q (Drbg (fst s) (be 16 (snd s)) 1)) -> wp (reset E junk seed ctx) Q.
  Proof.
    intros junk seed ctx Q LK LV LX TX HQ. unfold reset.
    apply wp_bind, wp_memset; [lia|]. apply wp_bind, wp_memset; [lia|].
    rewrite !zskip_all by lia. rewrite !app_nil_r. change (repeat 0 (Z.to_nat 16)) with (be 16 0). change (repeat 0 (Z.to_nat 32)) with (zeros 32).
    apply wp_bind, wp_update; [exact HE|reflexivity|split; [lia|auto]|]. apply wp_ret. exact HQ.
  Qed.

  Definition seeded (entropy : list Z) (pers : option (list Z)) : drbg :=
    let s := instantiate E entropy (match pers with Some x => x | None => zeros 48 end) in Drbg (fst s) (be 16 (snd s)) 1.

  Lemma wp_x4_init : forall junk cs entropy pers (Q : ctxs -> Prop),
    (forall g, gid g -> len (d_Key (ctx_of g cs)) = 32 /\ len (d_V (ctx_of g cs)) = 16) ->
    48 <= len entropy -> typed U8 entropy -> (match pers with Some x => 48 <= len x /\ typed U8 x | None => True end) ->
    (let s := seeded entropy pers in Q (Ctxs s s s s s)) -> wp (x4_randombytes_init E junk cs entropy pers) Q.
  Proof.
    intros junk cs ent pers Q Hc Le Te Hp HQ. unfold x4_randombytes_init.
    assert (len (uninit8 junk 0 48) = 48) as L0 by now apply uninit8_arr.
    apply wp_bind, wp_memcpy; [lia|lia|]. rewrite (zskip_all 48) by lia. rewrite app_nil_r.
    assert (arr U8 48 (zfirst 48 ent)) as AE by (split; [rewrite len_zfirst by lia; lia|now apply Forall_zfirst]).
    assert (48 <= len (xdata pers) /\ typed U8 (xdata pers)) as (Lx & Tx).
    { destruct pers as [x|]; cbn [xdata]; [exact Hp|]. split; [rewrite len_zeros; lia|apply typed_zeros]. }
    pose proof (arr_xor48 _ (xdata pers) AE Lx Tx) as (LX & TX).
    assert (ztab 48 (fun i => Z.lxor (get (zfirst 48 ent) i) (get (xdata pers) i)) = ztab 48 (fun i => Z.lxor (get ent i) (get (xdata pers) i))) as EX.
    { apply ztab_ext. intros i Hi. unfold get. rewrite znth_zfirst by lia. reflexivity. }
    rewrite EX in *. set (X := ztab 48 _) in *.
    apply wp_bind. assert (wp (match pers with
        | Some ps => emit (Br true) ;; for_ 0 48 (fun i s => st U8 s i (Idx U8 s i .^ Idx U8 ps i)%C) (zfirst 48 ent)
        | None => emit (Br false) ;; ret (zfirst 48 ent) end)%M (fun r => r = X)) as W.
    { destruct pers as [x|]; apply wp_bind, wp_emit.
      - destruct Hp. apply wp_xor48; auto.
      - apply wp_ret. unfold X. apply ztab_eq with 0; [apply AE|]. intros i Hi. cbn [xdata]. rewrite get_zeros, Z.lxor_0_r.
        unfold get. rewrite znth_zfirst by lia. reflexivity. }
    eapply wp_mono; [exact W|]. cbn beta. intros r ->.
    assert (forall j g (Q : drbg -> Prop), gid g -> Q (seeded ent pers) -> wp (reset E j X (ctx_of g cs)) Q) as R.
    { intros j g Q' Hg HQ'. destruct (Hc g Hg). apply wp_reset; [auto|auto|lia|auto|exact HQ']. }
    unfold gid in R.
    apply wp_bind, (R _ (-1)); [lia|]. apply wp_bind, (R _ 0); [lia|]. apply wp_bind, (R _ 1); [lia|]. apply wp_bind, (R _ 2); [lia|].
    apply wp_bind, (R _ 3); [lia|]. apply wp_ret. exact HQ.
  Qed.

  Lemma seeded_ok : forall ent pers, 48 <= len ent -> typed U8 ent -> (match pers with Some x => 48 <= len x /\ typed U8 x | None => True end) ->
    ctx_ok (seeded ent pers) /\ d_rc (seeded ent pers) = 1 /\
    (d_Key (seeded ent pers), be_val (d_V (seeded ent pers))) = instantiate E ent (match pers with Some x => x | None => zeros 48 end).
  Proof.
    intros ent pers Le Te Hp.
    destruct (init_all E HE (fun _ _ => 0) (Drbg (zeros 32) (zeros 16) 0) ent pers eq_refl eq_refl Le Te Hp) as (c & R & C).
    rewrite init_ok in R by auto. apply some_eq in R. rewrite <- R in C. exact C.
  Qed.

  Lemma ctx_same : forall g s, ctx_of g (Ctxs s s s s s) = s.
  Proof. intros. unfold ctx_of. cbn. now repeat destruct (_ =? _). Qed.

  Lemma C65_init_lemma : forall junk cs entropy pers, (forall g, -1 <= g <= 3 -> len (d_Key (ctx_of g cs)) = 32 /\ len (d_V (ctx_of g cs)) = 16) ->
    48 <= len entropy -> typed U8 entropy -> (match pers with Some x => 48 <= len x /\ typed U8 x | None => True end) ->
    exists cs', run (x4_randombytes_init E junk cs entropy pers) = Some cs' /\ forall g, -1 <= g <= 3 ->
      ctx_ok (ctx_of g cs') /\ d_rc (ctx_of g cs') = 1 /\
      (d_Key (ctx_of g cs'), be_val (d_V (ctx_of g cs'))) = instantiate E entropy (match pers with Some x => x | None => zeros 48 end).
  Proof.
    intros junk cs ent pers Hc Le Te Hp. exists (let s := seeded ent pers in Ctxs s s s s s). split.
    - apply wp_run_eq, wp_x4_init; auto.
    - intros g Hg. rewrite ctx_same. now apply seeded_ok.
  Qed.

  (** One call: the context of [g] steps, the others stay. *)
  Lemma wp_x4_call : forall junk cs g x n (Q : ctxs * list Z * Z -> Prop), gid g -> ctx_ok (ctx_of g cs) -> d_rc (ctx_of g cs) < 2 ^ 31 - 1 ->
    0 <= n < 2 ^ 31 -> n <= len x ->
    (forall cs', let '(out, (K', v')) := generate E (d_Key (ctx_of g cs), be_val (d_V (ctx_of g cs))) n in
       ctx_of g cs' = Drbg K' (be 16 v') (d_rc (ctx_of g cs) + 1) -> (forall h, gid h -> h <> g -> ctx_of h cs' = ctx_of h cs) -> Q (cs', out ++ zskip n x, 0)) ->
    wp (x4_call E junk cs g x n) Q.
  Proof.
    intros junk cs g x n Q Hg C Hr Hn Hx HQ. destruct (generate E (d_Key (ctx_of g cs), be_val (d_V (ctx_of g cs))) n) as (out & (K' & v')) eqn:G.
    assert (forall Q' : drbg * list Z * Z -> Prop, Q' (Drbg K' (be 16 v') (d_rc (ctx_of g cs) + 1), out ++ zskip n x, 0) -> wp (randombytes E junk (ctx_of g cs) x n) Q') as W.
    { intros Q' H'. destruct C as (AK & AV & Hrc). rewrite (ctx_be (ctx_of g cs) AV). apply wp_randombytes; auto; [apply AK|lia|]. rewrite G. exact H'. }
    unfold x4_call. destruct (gid_cases g Hg) as [->|[->|[->|[->| ->]]]]; cbn [Z.eqb Pos.eqb]; apply wp_bind, W; apply wp_ret, HQ; auto;
      intros h Hh N; destruct (gid_cases h Hh) as [->|[->|[->|[->| ->]]]]; try reflexivity; congruence.
  Qed.

  (** The answers and the final context of generator [g] in a history. *)
  Definition follows (cs : ctxs) (reqs : list (Z * (list Z * Z))) (cs' : ctxs) (outs : list (Z * (list Z * Z))) (g : Z) : Prop :=
    let '(os, (K', v')) := generates E (d_Key (ctx_of g cs), be_val (d_V (ctx_of g cs))) (map snd (of g reqs)) in
    ctx_of g cs' = Drbg K' (be 16 v') (d_rc (ctx_of g cs) + len (of g reqs)) /\ of g outs = answers os (of g reqs).

  Lemma of_cons : forall A g h (a : A) l, of g ((h, a) :: l) = if h =? g then a :: of g l else of g l.
  Proof. intros. unfold of. cbn [filter fst]. destruct (h =? g); reflexivity. Qed.

  Lemma wp_x4_calls : forall reqs junk cs (Q : ctxs * list (Z * (list Z * Z)) -> Prop), (forall g, gid g -> ctx_ok (ctx_of g cs)) ->
    Forall (fun q => gid (fst q) /\ 0 <= snd (snd q) < 2 ^ 31 /\ snd (snd q) <= len (fst (snd q))) reqs ->
    (forall g, gid g -> d_rc (ctx_of g cs) + len (of g reqs) < 2 ^ 31) ->
    (forall cs' outs, map fst outs = map fst reqs -> (forall g, gid g -> follows cs reqs cs' outs g) -> Q (cs', outs)) ->
    wp (x4_calls E junk cs reqs) Q.
  Proof.
    induction reqs as [|(g, (x, n)) r IH]; intros junk cs Q HC HF HR HQ.
    - apply wp_ret. apply HQ; auto. intros g Hg. unfold follows, of. cbn [filter map generates]. change (len []) with 0. rewrite Z.add_0_r.
      split; [|reflexivity]. apply ctx_be. apply (HC g Hg).
    - inversion HF as [|? ? (Hg & Hn & Hx) HF']; subst. cbn [fst snd] in *. cbn [x4_calls].
      pose proof (HR g Hg) as HRg. rewrite of_cons, Z.eqb_refl, len_cons in HRg. pose proof (len_nonneg (of g r)).
      apply wp_bind, wp_x4_call; auto; [lia|]. intros cs1.
      pose proof (generate_facts E HE (d_Key (ctx_of g cs), be_val (d_V (ctx_of g cs))) n ltac:(lia)) as (_ & G1 & G2).
      destruct (generate E (d_Key (ctx_of g cs), be_val (d_V (ctx_of g cs))) n) as (out & (K' & v')) eqn:G. cbn [fst snd] in *.
      intros E1 F1.
      assert (be_val (d_V (ctx_of g cs1)) = v') as EV. { rewrite E1. cbn [d_V]. rewrite be_val_be by lia. change (256 ^ 16) with (2 ^ 128). now apply Z.mod_small. }
      apply wp_bind, IH.
      + intros h Hh. destruct (Z.eq_dec h g) as [->|N]; [|rewrite F1 by auto; auto]. rewrite E1. destruct (HC g Hg) as (_ & _ & ?).
        split; [exact G1|]. split; [apply arr_be; lia|cbn [d_rc]; lia].
      + exact HF'.
      + intros h Hh. specialize (HR h Hh). rewrite of_cons in HR. destruct (Z.eq_dec h g) as [->|N].
        * rewrite E1. cbn [d_rc]. lia.
        * rewrite F1 by auto. replace (g =? h) with false in HR by lia. exact HR.
      + intros cs' outs M HO. apply wp_ret. apply HQ; [cbn [map fst]; now rewrite M|]. intros h Hh. specialize (HO h Hh). unfold follows in *.
        rewrite !of_cons. destruct (Z.eq_dec h g) as [->|N].
        * rewrite Z.eqb_refl. cbn [map snd generates]. rewrite G. rewrite EV in HO. rewrite E1 in HO. cbn [d_Key d_rc] in HO.
          destruct (generates E (K', v') (map snd (of g r))) as (os & (K2 & v2)). destruct HO as (-> & ->). rewrite len_cons. split; [f_equal; lia|reflexivity].
        * replace (g =? h) with false by lia. rewrite F1 in HO by auto. exact HO.
  Qed.

  Lemma C65_history_lemma : forall junk cs reqs, (forall g, -1 <= g <= 3 -> ctx_ok (ctx_of g cs) /\ d_rc (ctx_of g cs) + len (of g reqs) < 2 ^ 31) ->
    Forall (fun q => -1 <= fst q <= 3 /\ 0 <= snd (snd q) < 2 ^ 31 /\ snd (snd q) <= len (fst (snd q))) reqs ->
    exists cs' outs, run (x4_calls E junk cs reqs) = Some (cs', outs) /\ map fst outs = map fst reqs /\
      forall g, -1 <= g <= 3 ->
        let '(os, (K', v')) := generates E (d_Key (ctx_of g cs), be_val (d_V (ctx_of g cs))) (map snd (of g reqs)) in
        ctx_of g cs' = Drbg K' (be 16 v') (d_rc (ctx_of g cs) + len (of g reqs)) /\ of g outs = answers os (of g reqs).
  Proof.
    intros junk cs reqs HC HF.
    destruct (wp_run _ _ (fun p => map fst (snd p) = map fst reqs /\ forall g, gid g -> follows cs reqs (fst p) (snd p) g)
      (wp_x4_calls reqs junk cs _ (fun g Hg => proj1 (HC g Hg)) HF (fun g Hg => proj2 (HC g Hg)) (fun cs' outs M H => conj M H))) as ((cs', outs) & R & M & H).
    exists cs', outs. split; [exact R|]. split; [exact M|]. exact H.
  Qed.

  Lemma C66_same_lemma : forall junk junk' cs entropy pers reqs, (forall g, -1 <= g <= 3 -> len (d_Key (ctx_of g cs)) = 32 /\ len (d_V (ctx_of g cs)) = 16) ->
    48 <= len entropy -> typed U8 entropy -> (match pers with Some x => 48 <= len x /\ typed U8 x | None => True end) ->
    Forall (fun q => -1 <= fst q <= 3 /\ 0 <= snd (snd q) < 2 ^ 31 /\ snd (snd q) <= len (fst (snd q))) reqs -> len reqs < 2 ^ 31 - 1 ->
    exists cs0 cs' outs, run (x4_randombytes_init E junk cs entropy pers) = Some cs0 /\ run (x4_calls E junk' cs0 reqs) = Some (cs', outs) /\
      forall g h, -1 <= g <= 3 -> -1 <= h <= 3 -> of g reqs = of h reqs -> of g outs = of h outs.
  Proof.
    intros junk junk' cs ent pers reqs Hc Le Te Hp HF HL.
    assert (run (x4_randombytes_init E junk cs ent pers) = Some (let s := seeded ent pers in Ctxs s s s s s)) as R0 by (apply wp_run_eq, wp_x4_init; auto).
    destruct (seeded_ok ent pers Le Te Hp) as (S1 & S2 & _). set (s := seeded ent pers) in *. cbn zeta in R0.
    assert (forall g (l : list (Z * (list Z * Z))), len (of g l) <= len l) as LO.
    { intros g l. induction l as [|(h, a) l IH]; [reflexivity|]. rewrite of_cons, len_cons. destruct (h =? g); rewrite ?len_cons; lia. }
    destruct (C65_history_lemma junk' (Ctxs s s s s s) reqs) as (cs' & outs & R & _ & H); [|exact HF|].
    { intros g Hg. rewrite ctx_same. split; [exact S1|]. specialize (LO g reqs). lia. }
    exists (Ctxs s s s s s), cs', outs. split; [exact R0|]. split; [exact R|]. intros g h Hg Hh EQ. pose proof (H g Hg) as A. pose proof (H h Hh) as B.
    rewrite ctx_same, EQ in A. rewrite ctx_same in B. destruct (generates _ _ _) as (os & (K' & v')). destruct A as (_ & ->). destruct B as (_ & ->). reflexivity.
  Qed.
End Thm.

Lemma C66_distinct_lemma : exists g h, -1 <= g <= 3 /\ -1 <= h <= 3 /\ g <> h /\
  forall E, (forall k v, arr U8 16 (E k v)) ->
  forall junk junk' junk2 cs entropy pers x n, (forall g, -1 <= g <= 3 -> len (d_Key (ctx_of g cs)) = 32 /\ len (d_V (ctx_of g cs)) = 16) ->
    48 <= len entropy -> typed U8 entropy -> (match pers with Some x => 48 <= len x /\ typed U8 x | None => True end) -> 0 <= n < 2 ^ 31 -> n <= len x ->
    exists cs0 cs1 cs2 x', run (x4_randombytes_init E junk cs entropy pers) = Some cs0 /\
      run (x4_call E junk' cs0 g x n) = Some (cs1, x', 0) /\ run (x4_call E junk2 cs1 h x n) = Some (cs2, x', 0).
Proof.
  exists 0, 1. split; [lia|]. split; [lia|]. split; [lia|]. intros E HE junk junk' junk2 cs ent pers x n Hc Le Te Hp Hn Hx.
  assert (run (x4_randombytes_init E junk cs ent pers) = Some (let s := seeded E ent pers in Ctxs s s s s s)) as R0 by (apply wp_run_eq, wp_x4_init; auto).
  destruct (seeded_ok E HE ent pers Le Te Hp) as (S1 & S2 & _). set (s := seeded E ent pers) in *. cbn zeta in R0.
  destruct (generate E (d_Key s, be_val (d_V s)) n) as (out & (K' & v')) eqn:G.
  assert (wp (x4_call E junk' (Ctxs s s s s s) 0 x n) (fun p => snd (fst p) = out ++ zskip n x /\ snd p = 0 /\ ctx_of 1 (fst (fst p)) = s)) as W1.
  { apply wp_x4_call; auto; [unfold gid; lia|rewrite ctx_same; lia|]. intros cs'. rewrite !ctx_same, G. intros _ F. cbn [fst snd]. split; [reflexivity|]. split; [reflexivity|].
    rewrite F by (unfold gid; lia). apply ctx_same. }
  destruct (wp_run _ _ _ W1) as (((cs1, x1), r1) & R1 & H1). cbn [fst snd] in H1. destruct H1 as (-> & -> & C1).
  assert (wp (x4_call E junk2 cs1 1 x n) (fun p => snd (fst p) = out ++ zskip n x /\ snd p = 0)) as W2.
  { apply wp_x4_call; auto; [unfold gid; lia|now rewrite C1|rewrite C1; lia|]. intros cs'. rewrite !C1, G. auto. }
  destruct (wp_run _ _ _ W2) as (((cs2, x2), r2) & R2 & H2). cbn [fst snd] in H2. destruct H2 as (-> & ->).
  exists (Ctxs s s s s s), cs1, cs2, (out ++ zskip n x). auto.
Qed.

Definition zc : drbg := Drbg (zeros 32) (zeros 16) 1.
Lemma zc_ok : ctx_ok zc.
Proof. split; [split; [reflexivity|apply typed_zeros]|]. split; [split; [reflexivity|apply typed_zeros]|cbn [zc d_rc]; lia]. Qed.
Lemma x4rng_case : exists cs', run (x4_calls toy (fun _ _ => 0) (Ctxs zc zc zc zc zc) [(0, (zeros 3, 2)); (1, (zeros 17, 17)); (0, (zeros 1, 1)); (1, (zeros 16, 16)); (-1, (zeros 2, 0))]) =
  Some (cs', [(0, ([0; 0; 0], 0)); (1, (repeat 0 15 ++ [1; 0], 0)); (0, ([0], 0)); (1, (repeat 0 15 ++ [9], 0)); (-1, ([0; 0], 0))]) /\ d_rc (DRBG_ctx0 cs') = 3 /\ d_rc (DRBG_ctx3 cs') = 1.
Proof. eexists. split; [vm_compute; reflexivity|]. split; reflexivity. Qed.
