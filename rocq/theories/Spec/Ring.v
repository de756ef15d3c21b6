(** Specification of polynomial arithmetic in Z[x]/(x^256 + 1). *)
From Coq Require Import ZArith List Lia.
From Verif Require Import Lib.Arr.
Import ListNotations.
Local Open Scope Z_scope.

Fixpoint zsumn (n : nat) (f : Z -> Z) : Z :=
  match n with O => 0 | S k => zsumn k f + f (Z.of_nat k) end.
(** [zsum n f] is f 0 + f 1 + ... + f (n-1). *)
Definition zsum (n : Z) (f : Z -> Z) : Z := zsumn (Z.to_nat n) f.

(** Coefficient [k] of the product: x^256 = -1. *)
Definition mul_coef (a b : list Z) (k : Z) : Z :=
  zsum 256 (fun i => if i <=? k then get a i * get b (k - i) else - (get a i * get b (256 + k - i))).

Definition pmul (a b : list Z) : list Z := ztab 256 (mul_coef a b).
Definition padd (a b : list Z) : list Z := ztab 256 (fun k => get a k + get b k).
Definition pzero : list Z := zeros 256.

(** Inner product of two vectors of [n] polynomials. *)
Fixpoint inner (n : nat) (a b : list (list Z)) : list Z :=
  match n with
  | O => pzero
  | S m => padd (inner m a b) (pmul (getr a (Z.of_nat m)) (getr b (Z.of_nat m)))
  end.

(** Matrix (list of rows) times vector. *)
Definition mat_vec (n : Z) (A : list (list (list Z))) (s : list (list Z)) : list (list Z) :=
  ztab n (fun i => inner (Z.to_nat n) (znth [] A i) s).
Definition transpose (n : Z) (A : list (list (list Z))) : list (list (list Z)) :=
  ztab n (fun i => ztab n (fun j => getr (znth [] A j) i)).

(** ** Facts about sums *)

Lemma zsumn_ext : forall n f g, (forall i, 0 <= i < Z.of_nat n -> f i = g i) -> zsumn n f = zsumn n g.
Proof. induction n; cbn [zsumn]; intros; auto. rewrite (IHn f g), H by (intros; try apply H; lia). auto. Qed.

Lemma zsum_ext : forall n f g, (forall i, 0 <= i < n -> f i = g i) -> zsum n f = zsum n g.
Proof. intros. apply zsumn_ext. intros. apply H. lia. Qed.

Lemma zsum_S : forall n f, 0 <= n -> zsum (n + 1) f = zsum n f + f n.
Proof.
  intros. unfold zsum. replace (Z.to_nat (n + 1)) with (S (Z.to_nat n)) by lia. cbn [zsumn].
  f_equal. f_equal. lia.
Qed.

Lemma zsum_0 : forall f, zsum 0 f = 0. Proof. reflexivity. Qed.

Lemma zsumn_add : forall n f g, zsumn n (fun i => f i + g i) = zsumn n f + zsumn n g.
Proof. induction n; cbn [zsumn]; intros; auto. rewrite IHn. lia. Qed.
Lemma zsum_add : forall n f g, zsum n (fun i => f i + g i) = zsum n f + zsum n g.
Proof. intros. apply zsumn_add. Qed.

Lemma zsumn_scale : forall n c f, zsumn n (fun i => c * f i) = c * zsumn n f.
Proof. induction n; cbn [zsumn]; intros; [lia|]. rewrite IHn. lia. Qed.
Lemma zsum_scale : forall n c f, zsum n (fun i => c * f i) = c * zsum n f.
Proof. intros. apply zsumn_scale. Qed.

Lemma zsum_opp : forall n f, zsum n (fun i => - f i) = - zsum n f.
Proof. intros. rewrite (zsum_ext n _ (fun i => (-1) * f i)) by (intros; lia). rewrite zsum_scale. lia. Qed.

Lemma zsum_sub : forall n f g, zsum n (fun i => f i - g i) = zsum n f - zsum n g.
Proof.
  intros. rewrite (zsum_ext n _ (fun i => f i + (-1) * g i)) by (intros; lia).
  rewrite zsum_add, zsum_scale. lia.
Qed.

Lemma zsum_zero : forall n f, (forall i, 0 <= i < n -> f i = 0) -> zsum n f = 0.
Proof.
  intros. rewrite (zsum_ext n f (fun i => 0 * 0)) by (intros; rewrite H; lia).
  rewrite zsum_scale. lia.
Qed.

Lemma zsumn_app : forall n m f, zsumn (n + m) f = zsumn n f + zsumn m (fun i => f (Z.of_nat n + i)).
Proof.
  intros n m f. induction m; cbn [zsumn].
  - rewrite Nat.add_0_r. lia.
  - rewrite Nat.add_succ_r. cbn [zsumn]. rewrite IHm. rewrite Nat2Z.inj_add. lia.
Qed.

Lemma zsum_app : forall n m f, 0 <= n -> 0 <= m -> zsum (n + m) f = zsum n f + zsum m (fun i => f (n + i)).
Proof.
  intros. unfold zsum. rewrite Z2Nat.inj_add by lia. rewrite zsumn_app. now rewrite Z2Nat.id by lia.
Qed.

Lemma zsum_mod : forall n f g m, 0 < m -> (forall i, 0 <= i < n -> (f i - g i) mod m = 0) ->
  (zsum n f - zsum n g) mod m = 0.
Proof.
  intros. rewrite <- zsum_sub. rewrite (zsum_ext n _ (fun i => m * ((f i - g i) / m))).
  - rewrite zsum_scale. rewrite Z.mul_comm. apply Z.mod_mul. lia.
  - intros i Hi. specialize (H0 i Hi). pose proof (Z.div_mod (f i - g i) m ltac:(lia)). lia.
Qed.
