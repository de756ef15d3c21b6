(** Statements: an error monad with undefined behaviour and a leakage trace. *)
From Coq Require Import ZArith List Bool Lia.
From Verif Require Import Lib.Arr Lib.CInt.
Import ListNotations.
Local Open Scope Z_scope.

(** What an observer of addresses and control flow sees: the index of each array
    access, the offset of each pointer or row formed, and the outcome of each branch
    (loop conditions included). *)
Inductive event := Rd (i : Z) | Wr (i : Z) | Ad (i : Z) | Br (b : bool).

Inductive outcome (A : Type) :=
| Ok (a : A) (t : list event)
| UB.
Arguments Ok {A} a t.
Arguments UB {A}.

(** A computation extends the trace (newest event first) or is undefined. *)
Definition M (A : Type) : Type := list event -> outcome A.

Definition ret {A} (a : A) : M A := fun t => Ok a t.
Definition bind {A B} (m : M A) (f : A -> M B) : M B :=
  fun t => match m t with Ok a t' => f a t' | UB => UB end.
Definition undef {A} : M A := fun _ => UB.
Definition emit (e : event) : M unit := fun t => Ok tt (e :: t).

Declare Scope M_scope.
Delimit Scope M_scope with M.
Notation "x <- m ;; f" := (bind m (fun x => f))
  (at level 61, m at next level, right associativity) : M_scope.
Notation "' p <- m ;; f" := (bind m (fun p => f))
  (at level 61, p pattern, m at next level, right associativity) : M_scope.
Notation "m ;; f" := (bind m (fun _ => f)) (at level 61, right associativity) : M_scope.
Open Scope M_scope.

(** Result without the trace. *)
Definition run {A} (m : M A) : option A := match m [] with Ok a _ => Some a | UB => None end.
(** Trace of a terminating execution, oldest event first. *)
Definition leak {A} (m : M A) : option (list event) :=
  match m [] with Ok _ t => Some (rev t) | UB => None end.

(** [assert b]: undefined behaviour unless [b]. *)
Definition lift {A} (o : option A) : M A := match o with Some a => ret a | None => undef end.

(** Array read and write with bounds check. *)
Definition rd (a : list Z) (i : Z) : M Z :=
  match lookup a i with Some v => (emit (Rd i) ;; ret v) | None => undef end.
Definition wr (a : list Z) (i v : Z) : M (list Z) :=
  match update a i v with Some a' => (emit (Wr i) ;; ret a') | None => undef end.

(** Evaluation of an expression. *)
Fixpoint ev (e : cexp) : M Z :=
  match e with
  | Cst _ z | Var _ z | Bnd _ _ _ z => ret z
  | Idx _ a i => rd a i
  | Cast t e => v <- ev e ;; ret (wrap t v)
  | Bin o e1 e2 =>
      v1 <- ev e1 ;; v2 <- ev e2 ;; lift (eval_bin o (ty e1) v1 (ty e2) v2)
  | Neg e => v <- ev e ;; lift (eval_neg (ty e) v)
  | Not e => v <- ev e ;; lift (eval_not (ty e) v)
  end.

(** [x = e] for a variable [x] of type [t]: the result is the new [x]. *)
Definition asg (t : ity) (e : cexp) : M cexp := v <- ev e ;; ret (Var t (wrap t v)).
(** [a[i] = e] for an array [a] of elements of type [t]: the result is the new [a]. *)
Definition st (t : ity) (a : list Z) (i : Z) (e : cexp) : M (list Z) :=
  v <- ev e ;; wr a i (wrap t v).

(** [a[i] = e0; a[i+1] = e1; ...] for a list of expressions. *)
Fixpoint sts (t : ity) (a : list Z) (i : Z) (es : list cexp) : M (list Z) :=
  match es with
  | [] => ret a
  | e :: r => a' <- st t a i e ;; sts t a' (i + 1) r
  end.

(** [for (i = lo; i < hi; i++) s = body i s]. *)
Fixpoint forn {S} (n : nat) (i : Z) (body : Z -> S -> M S) (s : S) : M S :=
  match n with
  | O => emit (Br false) ;; ret s
  | Datatypes.S n' => emit (Br true) ;; s' <- body i s ;; forn n' (i + 1) body s'
  end.
Definition for_ {S} (lo hi : Z) (body : Z -> S -> M S) (s : S) : M S :=
  forn (Z.to_nat (hi - lo)) lo body s.

(** [while (c s) s = body s], with at most [n] tests of the condition.  Needing more counts as
    undefined behaviour, so a proof that the result is defined is a proof of termination. *)
Fixpoint while_ {S} (n : nat) (c : S -> bool) (body : S -> M S) (s : S) : M S :=
  match n with
  | O => undef
  | Datatypes.S n' => emit (Br (c s)) ;; (if c s then s' <- body s ;; while_ n' c body s' else ret s)
  end.

(** [if (b) ... else ...], where [b] is visible in the trace. *)
Definition ite {A} (b : bool) (m1 m2 : M A) : M A :=
  emit (Br b) ;; (if b then m1 else m2).

(** [a + off] used as a read-only pointer: the rest of the array.
    Forming a pointer more than one past the end is undefined (C11 6.5.6p8). *)
Definition ptr (a : list Z) (off : Z) : M (list Z) :=
  if (0 <=? off) && (off <=? len a) then emit (Ad off) ;; ret (zskip off a) else undef.

(** [f (a + off)] where [f] writes through its pointer argument. *)
Definition at_ (a : list Z) (off : Z) (f : list Z -> M (list Z)) : M (list Z) :=
  if (0 <=? off) && (off <=? len a)
  then emit (Ad off) ;; v <- f (zskip off a) ;; ret (zfirst off a ++ v) else undef.

(** Rows of two-dimensional arrays. *)
Definition row {A} (a : list A) (i : Z) : M A := emit (Ad i) ;; lift (lookup a i).
Definition setrow {A} (a : list A) (i : Z) (r : A) : M (list A) := emit (Ad i) ;; lift (update a i r).

(** [memcpy(dst, src, n)] on non-overlapping arrays. *)
Definition memcpy (dst src : list Z) (n : Z) : M (list Z) :=
  for_ 0 n (fun i d => v <- rd src i ;; wr d i v) dst.
(** [memset(dst, v, n)] in elements. *)
Definition memset (dst : list Z) (v n : Z) : M (list Z) :=
  for_ 0 n (fun i d => wr d i v) dst.

(** ** Weakest precondition: [m] is not undefined and its result satisfies [Q]. *)
Definition wp {A} (m : M A) (Q : A -> Prop) : Prop :=
  forall t, exists a t', m t = Ok a t' /\ Q a.

Lemma wp_run : forall A (m : M A) Q, wp m Q -> exists a, run m = Some a /\ Q a.
Proof. intros A m Q H. destruct (H []) as (a & t & E & HQ). exists a. unfold run. now rewrite E. Qed.

Lemma wp_run_eq : forall A (m : M A) a, wp m (fun x => x = a) -> run m = Some a.
Proof. intros A m a H. apply wp_run in H. destruct H as (b & E & ->). auto. Qed.

Lemma wp_ret : forall A (a : A) (Q : A -> Prop), Q a -> wp (ret a) Q.
Proof. intros A a Q H t. exists a, t. auto. Qed.

Lemma wp_bind : forall A B (m : M A) (f : A -> M B) Q,
  wp m (fun a => wp (f a) Q) -> wp (bind m f) Q.
Proof.
  intros A B m f Q H t. destruct (H t) as (a & t' & E & H').
  destruct (H' t') as (b & t'' & E' & HQ). exists b, t''. unfold bind. now rewrite E.
Qed.

Lemma wp_mono : forall A (m : M A) (P Q : A -> Prop),
  wp m P -> (forall a, P a -> Q a) -> wp m Q.
Proof.
  intros A m P Q H HPQ t. destruct (H t) as (a & t' & E & HP). exists a, t'. auto.
Qed.

Lemma wp_conj : forall A (m : M A) (P Q : A -> Prop),
  wp m P -> wp m Q -> wp m (fun a => P a /\ Q a).
Proof.
  intros A m P Q H1 H2 t. destruct (H1 t) as (a & t' & E & HP).
  destruct (H2 t) as (b & t'' & E' & HQ). rewrite E in E'. inversion E'; subst.
  exists b, t''. auto.
Qed.

Lemma wp_emit : forall e (Q : unit -> Prop), Q tt -> wp (emit e) Q.
Proof. intros e Q H t. exists tt, (e :: t). auto. Qed.

Lemma wp_lift : forall A (o : option A) a (Q : A -> Prop), o = Some a -> Q a -> wp (lift o) Q.
Proof. intros; subst. now apply wp_ret. Qed.

Lemma wp_rd : forall a i (Q : Z -> Prop), 0 <= i < len a -> Q (get a i) -> wp (rd a i) Q.
Proof.
  intros a i Q Hi H. unfold rd. rewrite lookup_in with (d := 0) by auto.
  apply wp_bind, wp_emit, wp_ret. auto.
Qed.

Lemma wp_wr : forall a i v (Q : list Z -> Prop), 0 <= i < len a -> Q (upd a i v) -> wp (wr a i v) Q.
Proof.
  intros a i v Q Hi H. unfold wr. rewrite update_in by auto.
  apply wp_bind, wp_emit, wp_ret. auto.
Qed.

Lemma wp_ev_strong : forall e r, an e = Some r -> lok e ->
  wp (ev e) (fun v => v = val e /\ fst r <= v <= snd r /\ tmin (ty e) <= v <= tmax (ty e)).
Proof.
  induction e; cbn [an lok ev val]; intros r Hr Hl.
  - inversion Hr; subst. apply wp_ret. cbn; auto with zarith.
  - inversion Hr; subst. apply wp_ret. cbn; auto with zarith.
  - destruct (_ && _) eqn:E; [|discriminate]. inversion Hr; subst. apply wp_ret. cbn; auto with zarith.
  - inversion Hr; subst. destruct Hl. apply wp_rd; auto.
    pose proof (typed_get _ _ _ H0 H). cbn; auto with zarith.
  - destruct (an e) as [r'|] eqn:E; [|discriminate]. inversion Hr; subst.
    apply wp_bind. eapply wp_mono; [apply IHe; eauto|]. cbn beta.
    intros v (-> & R & T). apply wp_ret. rewrite cv_wrap by auto.
    pose proof (an_conv_ok t r' (val e) R). pose proof (wrap_range t (val e)). cbn [ty].
    repeat split; auto; lia.
  - destruct (an e1) as [r1|] eqn:E1; [|discriminate]. destruct (an e2) as [r2|] eqn:E2; [|discriminate].
    destruct Hl. apply wp_bind. eapply wp_mono; [apply IHe1; eauto|]. cbn beta.
    intros v1 (-> & R1 & T1). apply wp_bind. eapply wp_mono; [apply IHe2; eauto|]. cbn beta.
    intros v2 (-> & R2 & T2).
    destruct (an_bin_ok _ _ _ _ _ _ _ _ Hr T1 T2 R1 R2) as (A & B & C).
    eapply wp_lift; [apply A|]. repeat split; auto; try lia; destruct o; cbn [ty]; lia.
  - destruct (an e) as [[l h]|] eqn:E; [|discriminate].
    apply wp_bind. eapply wp_mono; [apply IHe; eauto|]. cbn beta. intros v (-> & R & T).
    cbn [fst snd] in R. destruct (an_arith_ok _ _ _ _ (- val e) Hr) as (A & B & C); [lia|].
    eapply wp_lift; [unfold eval_neg; apply A|]. cbn [ty]. repeat split; auto; lia.
  - destruct (an e) as [[l h]|] eqn:E; [|discriminate].
    apply wp_bind. eapply wp_mono; [apply IHe; eauto|]. cbn beta. intros v (-> & R & T).
    cbn [fst snd] in R. eapply wp_lift; [reflexivity|]. cbn [ty]. unfold uw.
    assert (Z.lnot (val e) = - val e - 1) by (unfold Z.lnot; lia).
    destruct (signed (promote (ty e))) eqn:S.
    + inversion Hr; subst. cbn [fst snd]. repeat split; auto; try lia;
      destruct (ty e); cbn in *; try discriminate; lia.
    + inversion Hr; subst. cbn [fst snd full]. pose proof (wrap_range (promote (ty e)) (Z.lnot (val e))).
      repeat split; auto; lia.
Qed.

Lemma wp_ev : forall e (Q : Z -> Prop), safe e = true -> lok e -> Q (val e) -> wp (ev e) Q.
Proof.
  intros e Q Hs Hl HQ. unfold safe in Hs. destruct (an e) as [r|] eqn:E; [|discriminate].
  eapply wp_mono; [eapply wp_ev_strong; eauto|]. cbn beta. intros a (-> & _). auto.
Qed.

Lemma wp_asg : forall (t : ity) (e : cexp) (Q : cexp -> Prop), safe e = true -> lok e ->
  Q (Var t (wrap t (val e))) -> wp (asg t e) Q.
Proof. intros. apply wp_bind, wp_ev; auto. now apply wp_ret. Qed.

Lemma wp_st : forall t (a : list Z) i e (Q : list Z -> Prop), safe e = true -> lok e -> 0 <= i < len a ->
  Q (upd a i (wrap t (val e))) -> wp (st t a i e) Q.
Proof. intros. apply wp_bind, wp_ev; auto. now apply wp_wr. Qed.

Lemma wp_ite : forall A (b : bool) (m1 m2 : M A) Q, wp (if b then m1 else m2) Q -> wp (ite b m1 m2) Q.
Proof. intros. apply wp_bind, wp_emit. auto. Qed.

Lemma wp_row : forall A (d : A) a i (Q : A -> Prop), 0 <= i < len a -> Q (znth d a i) -> wp (row a i) Q.
Proof. intros. apply wp_bind, wp_emit. eapply wp_lift; [apply lookup_in with (d := d); auto|]. auto. Qed.

Lemma wp_setrow : forall A (a : list A) i r (Q : list A -> Prop), 0 <= i < len a ->
  Q (upd a i r) -> wp (setrow a i r) Q.
Proof. intros. apply wp_bind, wp_emit. eapply wp_lift; [apply update_in; auto|]. auto. Qed.

Lemma wp_ptr : forall a off (Q : list Z -> Prop), 0 <= off <= len a -> Q (zskip off a) -> wp (ptr a off) Q.
Proof.
  intros. unfold ptr. destruct (_ && _) eqn:E; [|lia]. apply wp_bind, wp_emit. now apply wp_ret.
Qed.

Lemma wp_at : forall a off f (Q : list Z -> Prop), 0 <= off <= len a ->
  wp (f (zskip off a)) (fun v => Q (zfirst off a ++ v)) -> wp (at_ a off f) Q.
Proof.
  intros. unfold at_. destruct (_ && _) eqn:E; [|lia]. apply wp_bind, wp_emit.
  apply wp_bind. eapply wp_mono; [eauto|]. cbn beta. intros. now apply wp_ret.
Qed.

Lemma wp_forn : forall S (body : Z -> S -> M S) (I : Z -> S -> Prop) n i s (Q : S -> Prop),
  I i s ->
  (forall j s, i <= j < i + Z.of_nat n -> I j s -> wp (body j s) (I (j + 1))) ->
  (forall s, I (i + Z.of_nat n) s -> Q s) ->
  wp (forn n i body s) Q.
Proof.
  intros S body I n. induction n; cbn [forn]; intros i s Q H0 Hstep HQ.
  - apply wp_bind, wp_emit, wp_ret, HQ. now rewrite Z.add_0_r.
  - apply wp_bind, wp_emit, wp_bind. eapply wp_mono; [apply Hstep; auto; lia|]. cbn beta. intros s' Hs'.
    apply IHn; auto.
    + intros. apply Hstep; auto. lia.
    + intros. apply HQ. replace (i + Z.of_nat (Datatypes.S n)) with (i + 1 + Z.of_nat n) by lia. auto.
Qed.

(** Loop rule with invariant [I]. *)
Lemma wp_for : forall S (I : Z -> S -> Prop) lo hi (body : Z -> S -> M S) s (Q : S -> Prop),
  lo <= hi ->
  I lo s ->
  (forall j s, lo <= j < hi -> I j s -> wp (body j s) (I (j + 1))) ->
  (forall s, I hi s -> Q s) ->
  wp (for_ lo hi body s) Q.
Proof.
  intros S I lo hi body s Q Hle H0 Hstep HQ. unfold for_.
  apply wp_forn with (I := I); auto.
  - intros. apply Hstep; auto. lia.
  - intros s'. replace (lo + Z.of_nat (Z.to_nat (hi - lo))) with hi by lia. auto.
Qed.

(** Rule for [while_]: after [k] iterations [I k] holds; the loop stops at [k = m]. *)
Lemma wp_while : forall S (I : Z -> S -> Prop) m (c : S -> bool) body s n (Q : S -> Prop),
  0 <= m -> m < Z.of_nat n ->
  I 0 s ->
  (forall k s, 0 <= k <= m -> I k s -> c s = (k <? m)) ->
  (forall k s, 0 <= k < m -> I k s -> wp (body s) (I (k + 1))) ->
  (forall s, I m s -> Q s) ->
  wp (while_ n c body s) Q.
Proof.
  intros S I m c body s n Q Hm Hn H0 Hc Hb HQ.
  cut (forall n k s, 0 <= k <= m -> m - k < Z.of_nat n -> I k s -> wp (while_ n c body s) Q).
  { intros H. apply (H n 0 s); auto; lia. }
  clear n Hn s H0. induction n; intros k s Hk Hn Hi; [lia|]. cbn [while_].
  apply wp_bind, wp_emit. rewrite (Hc k s) by auto. destruct (k <? m) eqn:E.
  - apply wp_bind. eapply wp_mono; [apply (Hb k); auto; lia|]. cbn beta. intros s' Hs'. apply (IHn (k + 1)); auto; lia.
  - apply wp_ret, HQ. replace m with k by lia. auto.
Qed.

Lemma wp_memcpy : forall dst src n (Q : list Z -> Prop), 0 <= n <= len dst -> n <= len src ->
  Q (zfirst n src ++ zskip n dst) -> wp (memcpy dst src n) Q.
Proof.
  intros dst src n Q Hd Hs HQ. unfold memcpy.
  apply wp_for with (I := fun i d => len d = len dst /\ forall k, 0 <= k < len dst ->
     get d k = if k <? i then get src k else get dst k).
  - lia.
  - split; auto. intros. destruct (k <? 0) eqn:E; auto. lia.
  - intros j d Hj (Hl & Hg). apply wp_bind, wp_rd; [lia|]. apply wp_wr; [lia|].
    split; [now rewrite len_upd|]. intros k Hk. unfold get at 1. rewrite znth_upd by lia.
    destruct (k =? j) eqn:E.
    + assert (k = j) by lia; subst. destruct (j <? j + 1) eqn:E'; [auto|lia].
    + fold (get d k). rewrite Hg by lia. destruct (k <? j) eqn:E1, (k <? j + 1) eqn:E2; auto; lia.
  - intros d (Hl & Hg). replace d with (zfirst n src ++ zskip n dst); auto.
    apply znth_ext with 0; rewrite len_app, len_zfirst, len_zskip by lia; [lia|].
    intros i Hi. fold (get d i). rewrite Hg by lia. destruct (i <? n) eqn:E.
    + rewrite znth_app1 by (rewrite len_zfirst; lia). now rewrite znth_zfirst by lia.
    + rewrite znth_app2 by (rewrite len_zfirst; lia). rewrite len_zfirst by lia.
      rewrite znth_zskip by lia. unfold get. f_equal. lia.
Qed.

Lemma wp_memset : forall dst v n (Q : list Z -> Prop), 0 <= n <= len dst ->
  Q (repeat v (Z.to_nat n) ++ zskip n dst) -> wp (memset dst v n) Q.
Proof.
  intros dst v n Q Hd HQ. unfold memset.
  apply wp_for with (I := fun i d => len d = len dst /\ forall k, 0 <= k < len dst ->
     get d k = if k <? i then v else get dst k).
  - lia.
  - split; auto. intros. destruct (k <? 0) eqn:E; auto. lia.
  - intros j d Hj (Hl & Hg). apply wp_wr; [lia|].
    split; [now rewrite len_upd|]. intros k Hk. unfold get at 1. rewrite znth_upd by lia.
    destruct (k =? j) eqn:E.
    + assert (k = j) by lia; subst. destruct (j <? j + 1) eqn:E'; [auto|lia].
    + fold (get d k). rewrite Hg by lia. destruct (k <? j) eqn:E1, (k <? j + 1) eqn:E2; auto; lia.
  - intros d (Hl & Hg). replace d with (repeat v (Z.to_nat n) ++ zskip n dst); auto.
    apply znth_ext with 0; rewrite len_app, len_repeat, len_zskip by lia; [lia|].
    intros i Hi. fold (get d i). rewrite Hg by lia. destruct (i <? n) eqn:E.
    + rewrite znth_app1 by (rewrite len_repeat; lia).
      unfold znth. destruct (i <? 0) eqn:E'; [lia|].
      assert (forall k m, (k < m)%nat -> nth k (repeat v m) 0 = v) as R.
      { induction k; destruct m; cbn; intros; try lia; auto. apply IHk; lia. }
      apply R. lia.
    + rewrite znth_app2 by (rewrite len_repeat; lia). rewrite len_repeat.
      rewrite znth_zskip by lia. unfold get. f_equal. lia.
Qed.

Lemma wp_sts : forall t es a i (Q : list Z -> Prop),
  (forall e, In e es -> safe e = true /\ lok e) -> 0 <= i -> i + len es <= len a ->
  (forall a', len a' = len a ->
     (forall k, 0 <= k < len a -> get a' k =
        if (i <=? k) && (k <? i + len es) then wrap t (val (znth (Cst I32 0) es (k - i))) else get a k) ->
     Q a') ->
  wp (sts t a i es) Q.
Proof.
  intros t es. induction es as [|e es IH]; cbn [sts]; intros a i Q He Hi Hl HQ.
  - apply wp_ret, HQ; auto. intros. rewrite len_nil. destruct (_ && _) eqn:E; auto. lia.
  - rewrite len_cons in *. pose proof (len_nonneg es).
    apply wp_bind, wp_st; try (apply He; now left); [lia|].
    apply IH; rewrite ?len_upd; try lia; [intros; apply He; now right|].
    intros a' La' Ha'. apply HQ; auto. intros k Hk. rewrite Ha' by lia.
    destruct (Z.eq_dec k i).
    + subst. destruct ((i + 1 <=? i) && _) eqn:E1; [lia|]. destruct ((i <=? i) && _) eqn:E2; [|lia].
      unfold get. rewrite znth_upd_same by lia. now rewrite Z.sub_diag.
    + unfold get. rewrite znth_upd_diff by lia.
      destruct ((i + 1 <=? k) && _) eqn:E1, ((i <=? k) && _) eqn:E2; try lia; auto.
      rewrite (znth_cons _ e) by lia. do 3 f_equal. lia.
Qed.

(** A loop that fills consecutive groups of [k] elements. *)
Lemma wp_fill : forall t n k (es : Z -> list cexp) out (Q : list Z -> Prop),
  0 <= n -> 0 < k -> (forall j, 0 <= j < n -> len (es j) = k) -> k * n <= len out ->
  (forall j e, 0 <= j < n -> In e (es j) -> safe e = true /\ lok e) ->
  Q (ztab (k * n) (fun i => wrap t (val (znth (Cst I32 0) (es (i / k)) (i mod k)))) ++ zskip (k * n) out) ->
  wp (for_ 0 n (fun j out => sts t out (k * j) (es j)) out) Q.
Proof.
  intros t n k es out Q Hn Hk Hlen Hout He HQ.
  apply wp_for with (I := fun j a => len a = len out /\ forall i, 0 <= i < len out ->
    get a i = if i <? k * j then wrap t (val (znth (Cst I32 0) (es (i / k)) (i mod k))) else get out i).
  - lia.
  - split; auto. intros. destruct (i <? k * 0) eqn:E; auto. lia.
  - intros j a Hj (La & Ha). apply wp_sts.
    + intros. apply He with j; auto.
    + nia.
    + rewrite Hlen by lia. nia.
    + intros a' La' Ha'. split; [lia|]. intros i Hi. rewrite Ha' by lia. rewrite Hlen by lia.
      destruct (_ && _) eqn:E.
      * assert (i / k = j) as -> by (symmetry; apply Z.div_unique with (i - k * j); lia).
        assert (i mod k = i - k * j) as -> by (symmetry; apply Z.mod_unique with j; lia).
        destruct (i <? k * (j + 1)) eqn:E'; auto. lia.
      * rewrite Ha by lia.
        destruct (i <? k * j) eqn:E1, (i <? k * (j + 1)) eqn:E2; auto; lia.
  - intros a (La & Ha). replace a with (ztab (k * n) (fun i => wrap t (val (znth (Cst I32 0) (es (i / k)) (i mod k)))) ++ zskip (k * n) out); auto.
    assert (0 <= k * n) by nia.
    apply znth_ext with 0; rewrite len_app, len_ztab, len_zskip by lia; [lia|].
    intros i Hi. fold (get a i). rewrite Ha by lia. destruct (i <? k * n) eqn:E.
    + rewrite znth_app1 by (rewrite len_ztab; lia). now rewrite znth_ztab by lia.
    + rewrite znth_app2 by (rewrite len_ztab; lia). rewrite len_ztab by lia.
      rewrite znth_zskip by lia. unfold get. f_equal. lia.
Qed.

(** ** Relational rule for traces: if both executions are defined, they extend the
    trace in the same way and their results are related by [R]. *)
Definition ct {A B} (R : A -> B -> Prop) (m1 : M A) (m2 : M B) : Prop :=
  forall t, match m1 t, m2 t with
            | Ok a t1, Ok b t2 => t1 = t2 /\ R a b
            | _, _ => True
            end.

Lemma ct_leak : forall A B (R : A -> B -> Prop) m1 m2 a b,
  ct R m1 m2 -> run m1 = Some a -> run m2 = Some b -> leak m1 = leak m2.
Proof.
  intros A B R m1 m2 a b H. unfold run, leak. specialize (H []).
  destruct (m1 []), (m2 []); intros; try discriminate. destruct H; now subst.
Qed.

Lemma ct_ret : forall A B (R : A -> B -> Prop) a b, R a b -> ct R (ret a) (ret b).
Proof. intros. intro t. cbn. auto. Qed.

Lemma ct_bind : forall A B A' B' (R : A -> A' -> Prop) (R' : B -> B' -> Prop) m1 m2 f1 f2,
  ct R m1 m2 -> (forall a b, R a b -> ct R' (f1 a) (f2 b)) -> ct R' (bind m1 f1) (bind m2 f2).
Proof.
  intros A B A' B' R R' m1 m2 f1 f2 H Hf t. unfold bind. specialize (H t).
  destruct (m1 t) as [a t1|]; auto. destruct (m2 t) as [b t2|].
  - destruct H as [-> HR]. exact (Hf a b HR t2).
  - destruct (f1 a t1); auto.
Qed.

Lemma ct_emit : forall e (R : unit -> unit -> Prop), R tt tt -> ct R (emit e) (emit e).
Proof. intros e R H t. cbn. auto. Qed.

Lemma ct_undef_l : forall A B (R : A -> B -> Prop) m, ct R undef m.
Proof. intros A B R m t. exact I. Qed.

Lemma ct_undef_r : forall A B (R : A -> B -> Prop) m, ct R m undef.
Proof. intros A B R m t. unfold undef. destruct (m t); exact I. Qed.

Lemma ct_lift : forall A B (R : A -> B -> Prop) o1 o2,
  (forall a b, o1 = Some a -> o2 = Some b -> R a b) -> ct R (lift o1) (lift o2).
Proof.
  intros A B R o1 o2 H. destruct o1; [|apply ct_undef_l]. destruct o2; [|apply ct_undef_r].
  apply ct_ret. auto.
Qed.

Lemma ct_mono : forall A B (R R' : A -> B -> Prop) m1 m2,
  ct R m1 m2 -> (forall a b, R a b -> R' a b) -> ct R' m1 m2.
Proof.
  intros A B R R' m1 m2 H HR t. specialize (H t). destruct (m1 t), (m2 t); auto.
  destruct H; split; auto.
Qed.

(** Arrays of the same length. *)
Definition slen {A B} (a : list A) (b : list B) : Prop := length a = length b.

Lemma ct_rd : forall a b i, ct (fun _ _ => True) (rd a i) (rd b i).
Proof.
  intros. unfold rd. destruct (lookup a i); [|apply ct_undef_l]. destruct (lookup b i); [|apply ct_undef_r].
  eapply ct_bind; [apply ct_emit with (R := fun _ _ => True); auto|]. intros. now apply ct_ret.
Qed.

Lemma update_len : forall A (l l' : list A) i v, update l i v = Some l' -> length l' = length l.
Proof.
  intros A l l' i v H. destruct (Z_lt_dec i 0).
  - unfold update in H. destruct (i <? 0) eqn:E; [discriminate|lia].
  - destruct (Z_lt_dec i (len l)).
    + rewrite update_in in H by lia. inversion H. pose proof (len_upd l i v). unfold len in *. lia.
    + rewrite update_out in H by lia. discriminate.
Qed.

Lemma ct_wr : forall a b i v w, slen a b -> ct slen (wr a i v) (wr b i w).
Proof.
  intros. unfold wr. destruct (update a i v) eqn:E1; [|apply ct_undef_l].
  destruct (update b i w) eqn:E2; [|apply ct_undef_r].
  eapply ct_bind; [apply ct_emit with (R := fun _ _ => True); auto|]. intros. apply ct_ret.
  unfold slen in *. apply update_len in E1, E2. congruence.
Qed.

(** Expressions of the same shape reading the same indices. *)
Inductive sim : cexp -> cexp -> Prop :=
| sim_cst : forall t t' z z', sim (Cst t z) (Cst t' z')
| sim_var : forall t t' z z', sim (Var t z) (Var t' z')
| sim_bnd : forall t t' l l' h h' z z', sim (Bnd t l h z) (Bnd t' l' h' z')
| sim_idx : forall t t' a b i, sim (Idx t a i) (Idx t' b i)
| sim_cast : forall t t' e e', sim e e' -> sim (Cast t e) (Cast t' e')
| sim_bin : forall o o' e1 e2 e1' e2', sim e1 e1' -> sim e2 e2' -> sim (Bin o e1 e2) (Bin o' e1' e2')
| sim_neg : forall e e', sim e e' -> sim (Neg e) (Neg e')
| sim_not : forall e e', sim e e' -> sim (Not e) (Not e').

Lemma ct_ev : forall e e', sim e e' -> ct (fun _ _ => True) (ev e) (ev e').
Proof.
  induction 1; cbn [ev].
  - now apply ct_ret.
  - now apply ct_ret.
  - now apply ct_ret.
  - apply ct_rd.
  - eapply ct_bind; eauto. intros. now apply ct_ret.
  - eapply ct_bind; eauto. intros. eapply ct_bind; eauto. intros. apply ct_lift; auto.
  - eapply ct_bind; eauto. intros. apply ct_lift; auto.
  - eapply ct_bind; eauto. intros. apply ct_lift; auto.
Qed.

(** Two values of a variable: both are variables. *)
Definition svar (e e' : cexp) : Prop := exists t z t' z', e = Var t z /\ e' = Var t' z'.

Lemma svar_sim : forall e e', svar e e' -> sim e e'.
Proof. intros e e' (t & z & t' & z' & -> & ->). constructor. Qed.

Lemma ct_asg : forall t t' e e', sim e e' -> ct svar (asg t e) (asg t' e').
Proof.
  intros. unfold asg. eapply ct_bind; [apply ct_ev; eauto|]. intros. apply ct_ret. red. eauto 8.
Qed.

Lemma ct_st : forall t t' a b i e e', sim e e' -> slen a b -> ct slen (st t a i e) (st t' b i e').
Proof.
  intros. unfold st. eapply ct_bind; [apply ct_ev; eauto|]. intros. now apply ct_wr.
Qed.

Inductive sims : list cexp -> list cexp -> Prop :=
| sims_nil : sims [] []
| sims_cons : forall e e' l l', sim e e' -> sims l l' -> sims (e :: l) (e' :: l').

Lemma ct_sts : forall t es es', sims es es' -> forall a b i, slen a b ->
  ct slen (sts t a i es) (sts t b i es').
Proof.
  induction 1; cbn [sts]; intros; [now apply ct_ret|].
  eapply ct_bind; [apply ct_st; eauto|]. intros. now apply IHsims.
Qed.

Lemma ct_for : forall S S' (R : S -> S' -> Prop) lo hi (f : Z -> S -> M S) (g : Z -> S' -> M S') s s',
  R s s' -> (forall i a b, R a b -> ct R (f i a) (g i b)) ->
  ct R (for_ lo hi f s) (for_ lo hi g s').
Proof.
  intros S S' R lo hi f g s s' H Hb. unfold for_.
  generalize (Z.to_nat (hi - lo)) as n. intros n. revert lo s s' H.
  induction n; cbn [forn]; intros.
  - eapply ct_bind; [apply ct_emit with (R := fun _ _ => True); auto|]. intros. now apply ct_ret.
  - eapply ct_bind; [apply ct_emit with (R := fun _ _ => True); auto|]. intros.
    eapply ct_bind; [apply Hb; eauto|]. intros. now apply IHn.
Qed.

Lemma ct_while : forall S S' (R : S -> S' -> Prop) n c c' (f : S -> M S) (g : S' -> M S') s s',
  R s s' -> (forall a b, R a b -> c a = c' b) -> (forall a b, R a b -> ct R (f a) (g b)) ->
  ct R (while_ n c f s) (while_ n c' g s').
Proof.
  intros S S' R n c c' f g s s' H Hc Hb. revert s s' H. induction n; cbn [while_]; intros; [apply ct_undef_l|].
  rewrite (Hc _ _ H). eapply ct_bind; [apply ct_emit with (R := fun _ _ => True); auto|]. intros.
  destruct (c' s'); [|now apply ct_ret]. eapply ct_bind; [apply Hb; eauto|]. intros. now apply IHn.
Qed.

Lemma ct_ite : forall A B (R : A -> B -> Prop) b m1 m2 n1 n2,
  (b = true -> ct R m1 n1) -> (b = false -> ct R m2 n2) -> ct R (ite b m1 m2) (ite b n1 n2).
Proof.
  intros. unfold ite. eapply ct_bind; [apply ct_emit with (R := fun _ _ => True); auto|].
  intros. destruct b; auto.
Qed.

Lemma ct_ptr : forall a b off, slen a b -> ct slen (ptr a off) (ptr b off).
Proof.
  intros. unfold ptr. unfold slen, len in *. rewrite H. destruct (_ && _).
  - eapply ct_bind; [apply ct_emit with (R := fun _ _ => True); auto|]. intros. apply ct_ret. unfold zskip. now rewrite !skipn_length, H.
  - apply ct_undef_l.
Qed.

Lemma ct_at : forall a b off f g, slen a b ->
  (forall v w, slen v w -> ct slen (f v) (g w)) -> ct slen (at_ a off f) (at_ b off g).
Proof.
  intros a b off f g H Hf. unfold at_. unfold len. red in H. rewrite H. destruct (_ && _).
  - eapply ct_bind; [apply ct_emit with (R := fun _ _ => True); auto|]. intros.
    eapply ct_bind; [apply Hf; red; unfold zskip; rewrite !skipn_length, H; auto|].
    intros x y Hxy. apply ct_ret. red in Hxy. red. unfold zfirst. rewrite !app_length, !firstn_length, H, Hxy. auto.
  - apply ct_undef_l.
Qed.

(** Arrays of rows: same shape. *)
Lemma ct_row : forall A B (R : A -> B -> Prop) a b i, Forall2 R a b -> ct R (row a i) (row b i).
Proof.
  intros A B R a b i H. unfold row. eapply ct_bind; [apply ct_emit with (R := fun _ _ => True); auto|]. intros _ _ _.
  apply ct_lift. intros x y. unfold lookup. destruct (i <? 0); [discriminate|].
  generalize (Z.to_nat i) as k. clear i. induction H; intros [|k]; cbn [nth_error]; try discriminate.
  - intros [= <-] [= <-]. auto.
  - apply IHForall2.
Qed.

Lemma ct_setrow : forall A B (R : A -> B -> Prop) a b i r s, Forall2 R a b -> R r s ->
  ct (Forall2 R) (setrow a i r) (setrow b i s).
Proof.
  intros A B R a b i r s H Hr. unfold setrow. eapply ct_bind; [apply ct_emit with (R := fun _ _ => True); auto|]. intros _ _ _.
  apply ct_lift. intros x y. unfold update. destruct (i <? 0); [discriminate|].
  generalize (Z.to_nat i) as k. clear i. intros k. revert x y. revert k.
  induction H as [|u v a b Huv H IH]; intros [|k] x y; cbn [updn_opt]; try discriminate.
  - intros [= <-] [= <-]. now constructor.
  - destruct (updn_opt a k r) as [a'|] eqn:Ea; [|discriminate]. destruct (updn_opt b k s) as [b'|] eqn:Eb; [|discriminate].
    intros [= <-] [= <-]. constructor; auto. eapply IH; eauto.
Qed.

Lemma ct_memcpy : forall a b c d n, slen a b -> ct slen (memcpy a c n) (memcpy b d n).
Proof.
  intros. unfold memcpy. apply ct_for; auto. intros. eapply ct_bind; [apply ct_rd|].
  intros. now apply ct_wr.
Qed.

Lemma ct_memset : forall a b v w n, slen a b -> ct slen (memset a v n) (memset b w n).
Proof. intros. unfold memset. apply ct_for; auto. intros. now apply ct_wr. Qed.

(** ** Loops that fill an array chunk by chunk, or a two-dimensional array row by row *)

Lemma len_concat_ztab : forall {A} (g : Z -> list A) sz n, 0 <= n ->
  (forall i, 0 <= i < n -> len (g i) = sz) -> len (concat (ztab n g)) = n * sz.
Proof.
  intros A g sz n Hn. pattern n. apply natlike_ind; auto; clear n Hn.
  intros n Hn IH Hg. unfold Z.succ. rewrite ztab_split by lia. rewrite concat_app, len_app, IH by (intros; apply Hg; lia).
  change (ztab 1 ?f) with [f 0]. cbn [concat]. rewrite app_nil_r, Z.add_0_r, Hg by lia. lia.
Qed.

Lemma wp_chunks : forall n sz (g : Z -> list Z) (body : Z -> list Z -> M (list Z)) out (Q : list Z -> Prop),
  0 <= n -> 0 <= sz -> n * sz <= len out -> (forall i, 0 <= i < n -> len (g i) = sz) ->
  (forall i a, 0 <= i < n -> len a = len out ->
     wp (body i a) (fun r => r = zfirst (i * sz) a ++ g i ++ zskip (i * sz + sz) a)) ->
  Q (concat (ztab n g) ++ zskip (n * sz) out) ->
  wp (for_ 0 n body out) Q.
Proof.
  intros n sz g body out Q Hn Hsz Hlen Hg Hbody HQ.
  apply wp_for with (I := fun i a => a = concat (ztab i g) ++ zskip (i * sz) out); auto.
  - intros i a Hi ->.
    assert (len (concat (ztab i g)) = i * sz) as Hl by (apply len_concat_ztab; [lia|intros; apply Hg; lia]).
    eapply wp_mono; [apply Hbody; auto|].
    + rewrite len_app, Hl, len_zskip by nia. lia.
    + cbn beta. intros r ->. rewrite <- Hl at 1. rewrite zfirst_app.
      rewrite <- zskip_zskip by nia. rewrite <- Hl at 1. rewrite zskip_app.
      rewrite zskip_zskip by nia. rewrite ztab_split by lia. rewrite concat_app.
      change (ztab 1 ?f) with [f 0]. cbn [concat]. rewrite app_nil_r, Z.add_0_r.
      rewrite <- app_assoc. do 3 f_equal. lia.
  - intros a ->. auto.
Qed.

Lemma upd_app_skip : forall {A} (l m : list A) v, 0 < len m -> upd (l ++ m) (len l) v = l ++ [v] ++ zskip 1 m.
Proof.
  intros A l m v Hm. destruct m as [|x m]; [cbn in Hm; lia|].
  apply znth_ext with v.
  - rewrite len_upd, !len_app, len_zskip by (rewrite len_cons; pose proof (len_nonneg m); lia).
    rewrite !len_cons, len_nil. lia.
  - rewrite len_upd, len_app. intros i Hi. rewrite znth_upd by (rewrite len_app; pose proof (len_nonneg l); lia).
    pose proof (len_nonneg l). destruct (i =? len l) eqn:E.
    + assert (i = len l) by lia. subst. rewrite znth_app2, Z.sub_diag by lia. reflexivity.
    + destruct (Z_lt_dec i (len l)).
      * now rewrite !znth_app1 by lia.
      * rewrite !znth_app2 by lia. cbn [app zskip Z.to_nat Pos.to_nat Pos.iter_op skipn Nat.add].
        rewrite !znth_cons by lia. auto.
Qed.

Lemma wp_rows : forall A (d0 : A) n (g : Z -> A) (body : Z -> list A -> M (list A)) data (Q : list A -> Prop),
  0 <= n <= len data ->
  (forall i a, 0 <= i < n -> len a = len data -> znth d0 a i = znth d0 data i ->
     wp (body i a) (fun r => r = upd a i (g i))) ->
  Q (ztab n g ++ zskip n data) ->
  wp (for_ 0 n body data) Q.
Proof.
  intros A d0 n g body data Q Hn Hbody HQ.
  apply wp_for with (I := fun i a => a = ztab i g ++ zskip i data); auto; [lia| |].
  - intros i a Hi ->.
    assert (len (ztab i g) = i) as Hl by (apply len_ztab; lia).
    eapply wp_mono; [apply Hbody; auto|].
    + rewrite len_app, Hl, len_zskip by lia. lia.
    + rewrite znth_app2 by lia. rewrite Hl, Z.sub_diag, znth_zskip by lia. now rewrite Z.add_0_r.
    + cbn beta. intros r ->. 
      replace (upd (ztab i g ++ zskip i data) i (g i)) with
        (upd (ztab i g ++ zskip i data) (len (ztab i g)) (g i)) by now rewrite Hl.
      rewrite upd_app_skip by (rewrite len_zskip; lia).
      rewrite zskip_zskip, ztab_split by lia. change (ztab 1 ?f) with [f 0]. cbn beta. rewrite Z.add_0_r.
      now rewrite <- app_assoc.
  - intros a ->. auto.
Qed.

(** ** Uninitialised local arrays

    Their contents are given by a function of the array and the index.  An array is
    named by the path of calls leading to it, so that no two share their contents. *)
Definition mem : Type := list Z -> Z -> Z.
Definition sub (junk : mem) (k : Z) : mem := fun p => junk (k :: p).
(** [T x[n];] *)
Definition uninit (junk : mem) (tag n : Z) : list Z := ztab n (junk [tag]).

Lemma uninit_len : forall junk t n, 0 <= n -> len (uninit junk t n) = n.
Proof. intros. unfold uninit. now apply len_ztab. Qed.

(** [uint8_t x[n];]: arbitrary bytes. *)
Definition uninit8 (junk : mem) (tag n : Z) : list Z := ztab n (fun i => wrap U8 (junk [tag] i)).
Lemma uninit8_arr : forall junk t n, 0 <= n -> arr U8 n (uninit8 junk t n).
Proof. intros. split; [now apply len_ztab|]. apply Forall_ztab. intros. apply (wrap_range U8). Qed.
