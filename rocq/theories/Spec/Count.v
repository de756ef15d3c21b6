(** Counting strings, for statements about uniformly distributed inputs. *)
From Coq Require Import ZArith List Bool Lia FinFun.
From Verif Require Import Lib.Arr.
Import ListNotations.
Local Open Scope Z_scope.

(** All lists of [n] elements of [A]. *)
Fixpoint strings {T} (A : list T) (n : nat) : list (list T) :=
  match n with
  | O => [[]]
  | S k => flat_map (fun l => map (fun x => x :: l) A) (strings A k)
  end.

Definition bytes256 : list Z := ztab 256 (fun x => x).

(** All byte strings of length [n]. *)
Definition byte_strings (n : Z) : list (list Z) := strings bytes256 (Z.to_nat n).

(** How many elements of a list have a property. *)
Definition count {T} (P : T -> bool) (l : list T) : Z := len (filter P l).

(** Binomial coefficients, by Pascal's rule. *)
Fixpoint binomn (n k : nat) : Z :=
  match n, k with
  | _, O => 1
  | O, S _ => 0
  | S n', S k' => binomn n' k' + binomn n' k
  end.
Definition binom (n k : Z) : Z := if k <? 0 then 0 else binomn (Z.to_nat n) (Z.to_nat k).

Definition product (l : list Z) : Z := fold_right Z.mul 1 l.

(** [byte_strings n] lists every byte string of length [n] exactly once. *)
Lemma strings_in : forall T (A : list T) n l, In l (strings A n) <-> length l = n /\ Forall (fun x => In x A) l.
Proof.
  intros T A. induction n; intros l; cbn [strings].
  - cbn. split; [intros [<-|[]]; split; [reflexivity|constructor]|]. intros (E & _). left. symmetry. now apply length_zero_iff_nil.
  - rewrite in_flat_map. split.
    + intros (m & Hm & H). apply in_map_iff in H. destruct H as (x & <- & Hx). apply IHn in Hm. destruct Hm as (E & F).
      split; [cbn; now rewrite E|now constructor].
    + intros (E & F). destruct l as [|x m]; [discriminate|]. inversion F; subst. exists m. split.
      * apply IHn. split; auto.
      * apply in_map_iff. exists x. auto.
Qed.

Lemma strings_nodup : forall T (A : list T) n, NoDup A -> NoDup (strings A n).
Proof.
  intros T A n HA. induction n; cbn [strings]; [constructor; [intros []|constructor]|].
  induction IHn as [|l L Hl HL IH]; cbn [flat_map]; [constructor|].
  assert (forall X Y : list (list T), NoDup X -> NoDup Y -> (forall z, In z X -> ~ In z Y) -> NoDup (X ++ Y)) as NA.
  { intros X Y HX HY HD. induction HX; cbn; auto. constructor.
    - rewrite in_app_iff. intros [|]; [tauto|]. apply (HD x); cbn; auto.
    - apply IHHX. intros z Hz. apply HD. now right. }
  apply NA; auto.
  - apply Injective_map_NoDup; auto. intros x y E. congruence.
  - intros z Hz Hz'. apply in_map_iff in Hz. destruct Hz as (x & <- & _).
    apply in_flat_map in Hz'. destruct Hz' as (m & Hm & Hz'). apply in_map_iff in Hz'. destruct Hz' as (y & E & _). congruence.
Qed.

Lemma bytes256_in : forall x, In x bytes256 <-> 0 <= x < 256.
Proof.
  intros x. unfold bytes256, ztab. rewrite in_map_iff. split.
  - intros (k & <- & H). apply in_seq in H. lia.
  - intros H. exists (Z.to_nat x). split; [lia|]. apply in_seq. lia.
Qed.

Lemma byte_strings_in : forall n l, 0 <= n -> In l (byte_strings n) <-> len l = n /\ Forall (fun x => 0 <= x < 256) l.
Proof.
  intros n l Hn. unfold byte_strings. rewrite strings_in. unfold len. split; intros (E & F); (split; [lia|]).
  - eapply Forall_impl; [|exact F]. intros. now apply bytes256_in.
  - eapply Forall_impl; [|exact F]. intros. now apply bytes256_in.
Qed.

Lemma byte_strings_nodup : forall n, NoDup (byte_strings n).
Proof.
  intros. apply strings_nodup. unfold bytes256, ztab. apply Injective_map_NoDup; [|apply seq_NoDup].
  intros x y E. lia.
Qed.

(** Does a computation end with the array [v]? *)
Definition gives (o : option (list Z)) (v : list Z) : bool :=
  match o with Some r => if list_eq_dec Z.eq_dec r v then true else false | None => false end.
(** Does it end with an array whose element [i] is [x]? *)
Definition gives_at (o : option (list Z)) (i x : Z) : bool :=
  match o with Some r => get r i =? x | None => false end.
(** The same for arrays of arrays. *)
Definition gives2 (o : option (list (list Z))) (v : list (list Z)) : bool :=
  match o with Some r => if list_eq_dec (list_eq_dec Z.eq_dec) r v then true else false | None => false end.
