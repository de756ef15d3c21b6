(** Arrays as lists indexed by integers, with lemmas used everywhere. *)
From Coq Require Import ZArith List Bool Lia.
From Coq Require Export ZifyBool.
Import ListNotations.
Local Open Scope Z_scope.

(** [lia] with division and modulo by constants. *)
Ltac dlia := Z.to_euclidean_division_equations; lia.

Section Gen.
  Context {A : Type}.

  (** Number of elements. *)
  Definition len (l : list A) : Z := Z.of_nat (length l).

  (** Element [i], or [d] outside the list. *)
  Definition znth (d : A) (l : list A) (i : Z) : A :=
    if i <? 0 then d else nth (Z.to_nat i) l d.

  (** Element [i] if it exists. *)
  Definition lookup (l : list A) (i : Z) : option A :=
    if i <? 0 then None else nth_error l (Z.to_nat i).

  Fixpoint updn (l : list A) (n : nat) (v : A) : list A :=
    match l, n with
    | [], _ => []
    | _ :: r, O => v :: r
    | x :: r, S m => x :: updn r m v
    end.

  (** [l] with element [i] replaced by [v] (unchanged if [i] is outside). *)
  Definition upd (l : list A) (i : Z) (v : A) : list A :=
    if i <? 0 then l else updn l (Z.to_nat i) v.

  Fixpoint updn_opt (l : list A) (n : nat) (v : A) : option (list A) :=
    match l, n with
    | [], _ => None
    | _ :: r, O => Some (v :: r)
    | x :: r, S m => match updn_opt r m v with Some r' => Some (x :: r') | None => None end
    end.

  (** [upd], or [None] if [i] is outside. *)
  Definition update (l : list A) (i : Z) (v : A) : option (list A) :=
    if i <? 0 then None else updn_opt l (Z.to_nat i) v.

  (** [ztab n f] is [f 0; f 1; ...; f (n-1)]. *)
  Definition ztab (n : Z) (f : Z -> A) : list A :=
    map (fun i => f (Z.of_nat i)) (seq 0 (Z.to_nat n)).

  Definition zfirst (n : Z) (l : list A) : list A := firstn (Z.to_nat n) l.
  Definition zskip (n : Z) (l : list A) : list A := skipn (Z.to_nat n) l.

  Lemma len_nonneg : forall l, 0 <= len l.
  Proof. unfold len; lia. Qed.

  Lemma len_nil : len [] = 0. Proof. reflexivity. Qed.

  Lemma len_cons : forall x l, len (x :: l) = len l + 1.
  Proof. intros; unfold len; cbn [length]; lia. Qed.

  Lemma len_app : forall l1 l2, len (l1 ++ l2) = len l1 + len l2.
  Proof. intros; unfold len; rewrite app_length; lia. Qed.

  Lemma len_updn : forall l n v, length (updn l n v) = length l.
  Proof. induction l; destruct n; cbn; intros; auto. Qed.

  Lemma len_upd : forall l i v, len (upd l i v) = len l.
  Proof. intros; unfold upd, len; destruct (i <? 0); auto; now rewrite len_updn. Qed.

  Lemma len_ztab : forall n f, 0 <= n -> len (ztab n f) = n.
  Proof. intros; unfold len, ztab; rewrite map_length, seq_length; lia. Qed.

  Lemma len_zfirst : forall n l, 0 <= n <= len l -> len (zfirst n l) = n.
  Proof. unfold len, zfirst; intros; rewrite firstn_length; lia. Qed.

  Lemma len_zskip : forall n l, 0 <= n <= len l -> len (zskip n l) = len l - n.
  Proof. unfold len, zskip; intros; rewrite skipn_length; lia. Qed.

  Lemma len_repeat : forall (x : A) n, len (repeat x n) = Z.of_nat n.
  Proof. intros; unfold len; now rewrite repeat_length. Qed.

  Lemma lookup_in : forall d l i, 0 <= i < len l -> lookup l i = Some (znth d l i).
  Proof.
    unfold lookup, znth, len; intros. destruct (i <? 0) eqn:E; [lia|].
    apply nth_error_nth'. lia.
  Qed.

  Lemma lookup_out : forall l i, ~ (0 <= i < len l) -> lookup l i = None.
  Proof.
    unfold lookup, len; intros. destruct (i <? 0) eqn:E; auto.
    apply nth_error_None. lia.
  Qed.

  Lemma updn_opt_in : forall l n v, (n < length l)%nat -> updn_opt l n v = Some (updn l n v).
  Proof.
    induction l; destruct n; cbn; intros; try lia; auto.
    rewrite IHl by lia. auto.
  Qed.

  Lemma updn_opt_out : forall l n v, (length l <= n)%nat -> updn_opt l n v = None.
  Proof.
    induction l; destruct n; cbn; intros; try lia; auto.
    rewrite IHl by lia. auto.
  Qed.

  Lemma update_in : forall l i v, 0 <= i < len l -> update l i v = Some (upd l i v).
  Proof.
    unfold update, upd, len; intros. destruct (i <? 0) eqn:E; [lia|].
    apply updn_opt_in; lia.
  Qed.

  Lemma update_out : forall l i v, ~ (0 <= i < len l) -> update l i v = None.
  Proof.
    unfold update, len; intros. destruct (i <? 0) eqn:E; auto.
    apply updn_opt_out; lia.
  Qed.

  Lemma nth_updn_same : forall l n v d, (n < length l)%nat -> nth n (updn l n v) d = v.
  Proof. induction l; destruct n; cbn; intros; try lia; auto. apply IHl; lia. Qed.

  Lemma nth_updn_diff : forall l n m v d, n <> m -> nth n (updn l m v) d = nth n l d.
  Proof. induction l; destruct n, m; cbn; intros; try lia; auto. Qed.

  Lemma znth_upd_same : forall d l i v, 0 <= i < len l -> znth d (upd l i v) i = v.
  Proof.
    unfold znth, upd, len; intros. destruct (i <? 0) eqn:E; [lia|].
    apply nth_updn_same; lia.
  Qed.

  Lemma znth_upd_diff : forall d l i j v, i <> j -> znth d (upd l i v) j = znth d l j.
  Proof.
    unfold znth, upd; intros.
    destruct (j <? 0) eqn:E; destruct (i <? 0) eqn:E'; auto.
    apply nth_updn_diff; lia.
  Qed.

  Lemma znth_upd : forall d l i j v, 0 <= i < len l ->
    znth d (upd l i v) j = if j =? i then v else znth d l j.
  Proof.
    intros. destruct (j =? i) eqn:E.
    - assert (j = i) by lia. subst. now apply znth_upd_same.
    - apply znth_upd_diff; lia.
  Qed.

  Lemma nth_seq_map : forall n s (f : nat -> A) k d, (k < n)%nat ->
    nth k (map f (seq s n)) d = f (s + k)%nat.
  Proof.
    induction n; intros; [lia|]. destruct k; cbn.
    - f_equal; lia.
    - rewrite IHn by lia. f_equal; lia.
  Qed.

  Lemma znth_ztab : forall d n f i, 0 <= i < n -> znth d (ztab n f) i = f i.
  Proof.
    unfold znth, ztab; intros. destruct (i <? 0) eqn:E; [lia|].
    rewrite nth_seq_map by lia. f_equal; lia.
  Qed.

  Lemma znth_ext : forall d l1 l2, len l1 = len l2 ->
    (forall i, 0 <= i < len l1 -> znth d l1 i = znth d l2 i) -> l1 = l2.
  Proof.
    unfold len, znth; intros. apply nth_ext with d d; [lia|]. intros n Hn.
    specialize (H0 (Z.of_nat n)). destruct (Z.of_nat n <? 0) eqn:E; [lia|].
    rewrite Nat2Z.id in H0. apply H0. lia.
  Qed.

  Lemma ztab_eq : forall d l n f, len l = n ->
    (forall i, 0 <= i < n -> znth d l i = f i) -> l = ztab n f.
  Proof.
    intros. assert (0 <= n) by (subst; apply len_nonneg).
    apply znth_ext with d; rewrite ?len_ztab by auto; auto.
    intros; rewrite znth_ztab by lia; apply H0; lia.
  Qed.

  Lemma ztab_ext : forall n f g, (forall i, 0 <= i < n -> f i = g i) -> ztab n f = ztab n g.
  Proof.
    intros. unfold ztab. apply map_ext_in. intros a Ha. apply in_seq in Ha. apply H. lia.
  Qed.

  Lemma ztab_self : forall d l, ztab (len l) (znth d l) = l.
  Proof. intros. symmetry. apply ztab_eq with d; auto. Qed.

  Lemma znth_app1 : forall d l1 l2 i, i < len l1 -> znth d (l1 ++ l2) i = znth d l1 i.
  Proof.
    unfold znth, len; intros. destruct (i <? 0) eqn:E; auto. apply app_nth1. lia.
  Qed.

  Lemma znth_app2 : forall d l1 l2 i, len l1 <= i -> znth d (l1 ++ l2) i = znth d l2 (i - len l1).
  Proof.
    unfold znth, len; intros. destruct (i <? 0) eqn:E; [lia|].
    destruct (i - Z.of_nat (length l1) <? 0) eqn:E'; [lia|].
    rewrite app_nth2 by lia. f_equal; lia.
  Qed.

  Lemma znth_zskip : forall d n l i, 0 <= n -> 0 <= i -> znth d (zskip n l) i = znth d l (n + i).
  Proof.
    unfold znth, zskip; intros.
    destruct (i <? 0) eqn:E; destruct (n + i <? 0) eqn:E'; try lia.
    rewrite <- (firstn_skipn (Z.to_nat n) l) at 2.
    destruct (Nat.le_gt_cases (Z.to_nat n) (length l)).
    - rewrite app_nth2; rewrite firstn_length; [f_equal|]; lia.
    - rewrite skipn_all2 by lia. rewrite nth_overflow with (l := []) by (cbn; lia).
      rewrite nth_overflow; auto. rewrite app_length, firstn_length. cbn. lia.
  Qed.

  Lemma znth_zfirst : forall d n l i, i < n -> znth d (zfirst n l) i = znth d l i.
  Proof.
    unfold znth, zfirst; intros. destruct (i <? 0) eqn:E; auto.
    rewrite <- (firstn_skipn (Z.to_nat n) l) at 2.
    destruct (Nat.le_gt_cases (Z.to_nat n) (length l)).
    - rewrite app_nth1; auto. rewrite firstn_length. lia.
    - rewrite skipn_all2 by lia. now rewrite app_nil_r.
  Qed.

  Lemma zfirst_zskip : forall n l, zfirst n l ++ zskip n l = l.
  Proof. intros. apply firstn_skipn. Qed.

  Lemma zskip_0 : forall l, zskip 0 l = l. Proof. reflexivity. Qed.

  Lemma zfirst_all : forall l, zfirst (len l) l = l.
  Proof. intros. unfold zfirst, len. rewrite Nat2Z.id. apply firstn_all. Qed.

  Lemma zskip_zskip : forall a b l, 0 <= a -> 0 <= b -> zskip a (zskip b l) = zskip (b + a) l.
  Proof.
    intros. unfold zskip. rewrite Z2Nat.inj_add by lia.
    generalize (Z.to_nat a) (Z.to_nat b). clear. intros a b; revert l.
    induction b; cbn; intros; auto. destruct l; auto. now rewrite skipn_nil.
  Qed.

  Lemma zfirst_app : forall l1 l2, zfirst (len l1) (l1 ++ l2) = l1.
  Proof.
    intros. unfold zfirst, len. rewrite Nat2Z.id.
    rewrite firstn_app, firstn_all, Nat.sub_diag, firstn_O. apply app_nil_r.
  Qed.

  Lemma zskip_app : forall l1 l2, zskip (len l1) (l1 ++ l2) = l2.
  Proof.
    intros. unfold zskip, len. rewrite Nat2Z.id.
    rewrite skipn_app, skipn_all, Nat.sub_diag, skipn_O. auto.
  Qed.

  Lemma znth_default : forall d l i, ~ (0 <= i < len l) -> znth d l i = d.
  Proof.
    unfold znth, len; intros. destruct (i <? 0) eqn:E; auto. apply nth_overflow. lia.
  Qed.

  Lemma znth_repeat : forall d n i, znth d (repeat d n) i = d.
  Proof.
    intros. unfold znth. destruct (i <? 0); auto.
    revert n. induction (Z.to_nat i) as [|k IH]; intros [|n]; cbn; auto.
  Qed.

  Lemma znth_0 : forall d x l, znth d (x :: l) 0 = x.
  Proof. reflexivity. Qed.

  Lemma znth_cons : forall d x l i, 0 < i -> znth d (x :: l) i = znth d l (i - 1).
  Proof.
    intros. unfold znth. destruct (i <? 0) eqn:E; [lia|]. destruct (i - 1 <? 0) eqn:E'; [lia|].
    replace (Z.to_nat i) with (S (Z.to_nat (i - 1))) by lia. reflexivity.
  Qed.

  Lemma Forall_znth : forall (P : A -> Prop) d l, Forall P l ->
    forall i, 0 <= i < len l -> P (znth d l i).
  Proof.
    intros. rewrite Forall_forall in H. apply H. unfold znth.
    destruct (i <? 0) eqn:E; [lia|]. apply nth_In. unfold len in *; lia.
  Qed.

  Lemma Forall_znth_iff : forall (P : A -> Prop) d l,
    Forall P l <-> (forall i, 0 <= i < len l -> P (znth d l i)).
  Proof.
    split; [intros; now apply Forall_znth|].
    intros. apply Forall_forall. intros x Hx.
    destruct (In_nth l x d Hx) as (n & Hn & <-).
    specialize (H (Z.of_nat n)). unfold znth, len in H.
    destruct (Z.of_nat n <? 0) eqn:E; [lia|]. rewrite Nat2Z.id in H. apply H. lia.
  Qed.

  Lemma Forall_upd : forall (P : A -> Prop) l i v, Forall P l -> P v -> Forall P (upd l i v).
  Proof.
    intros P l i v Hl Hv. unfold upd. destruct (i <? 0); auto.
    generalize (Z.to_nat i). clear i. induction Hl; cbn; intros; auto.
    destruct n; constructor; auto.
  Qed.

  Lemma Forall_zskip : forall (P : A -> Prop) l n, Forall P l -> Forall P (zskip n l).
  Proof.
    intros. unfold zskip. rewrite <- (firstn_skipn (Z.to_nat n) l) in H.
    apply Forall_app in H. tauto.
  Qed.

  Lemma Forall_zfirst : forall (P : A -> Prop) l n, Forall P l -> Forall P (zfirst n l).
  Proof.
    intros. unfold zfirst. rewrite <- (firstn_skipn (Z.to_nat n) l) in H.
    apply Forall_app in H. tauto.
  Qed.

  Lemma Forall_ztab : forall (P : A -> Prop) n f,
    (forall i, 0 <= i < n -> P (f i)) -> Forall P (ztab n f).
  Proof.
    intros. unfold ztab. apply Forall_forall. intros x Hx.
    apply in_map_iff in Hx. destruct Hx as (k & <- & Hk). apply in_seq in Hk. apply H. lia.
  Qed.

  Lemma Forall_repeat : forall (P : A -> Prop) x n, P x -> Forall P (repeat x n).
  Proof. induction n; cbn; auto. Qed.
End Gen.

(** Integer arrays: default element 0. *)
Definition get (l : list Z) (i : Z) : Z := znth 0 l i.
(** Rows of a two-dimensional array. *)
Definition getr (l : list (list Z)) (i : Z) : list Z := znth [] l i.

Definition zeros (n : Z) : list Z := repeat 0 (Z.to_nat n).

Lemma len_zeros : forall n, 0 <= n -> len (zeros n) = n.
Proof. intros. unfold zeros. rewrite len_repeat. lia. Qed.

Lemma get_zeros : forall n i, get (zeros n) i = 0.
Proof. intros. apply znth_repeat. Qed.

Lemma ztab_split : forall {A} n m (f : Z -> A), 0 <= n -> 0 <= m ->
  ztab (n + m) f = ztab n f ++ ztab m (fun i => f (n + i)).
Proof.
  intros. unfold ztab. rewrite Z2Nat.inj_add by lia. rewrite seq_app, map_app. f_equal.
  rewrite Nat.add_0_l.
  rewrite <- (Nat.add_0_r (Z.to_nat n)) at 1. generalize (Z.to_nat m). intros k.
  apply nth_ext with (f 0) (f 0).
  - now rewrite !map_length, !seq_length.
  - rewrite map_length, seq_length. intros j Hj. rewrite !nth_seq_map by lia. f_equal. lia.
Qed.

Lemma map_ztab : forall {A B} (g : A -> B) n f, map g (ztab n f) = ztab n (fun i => g (f i)).
Proof. intros. unfold ztab. now rewrite map_map. Qed.

Lemma len_map : forall {A B} (g : A -> B) l, len (map g l) = len l.
Proof. intros. unfold len. now rewrite map_length. Qed.

Lemma znth_map : forall {A B} (g : A -> B) d d' l i, 0 <= i < len l ->
  znth d' (map g l) i = g (znth d l i).
Proof.
  intros. unfold znth, len in *. destruct (i <? 0) eqn:E; [lia|].
  rewrite nth_indep with (d' := g d) by (rewrite map_length; lia). apply map_nth.
Qed.
