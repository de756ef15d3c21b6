(** Convolution of finitely supported sequences, and the identities behind the
    Karatsuba and Toom-Cook multiplication. *)
From Coq Require Import ZArith List Bool Lia.
From Verif Require Import Lib.Arr Spec.Ring.
Import ListNotations.
Local Open Scope Z_scope.

(** Congruence modulo [m]. *)
Definition eqm (m a b : Z) : Prop := exists q, a = b + m * q.

Lemma eqm_refl : forall m a, eqm m a a. Proof. intros. exists 0. lia. Qed.
Lemma eqm_eq : forall m a b, a = b -> eqm m a b. Proof. intros; subst; apply eqm_refl. Qed.
Lemma eqm_sym : forall m a b, eqm m a b -> eqm m b a. Proof. intros m a b (q & ->). exists (- q). lia. Qed.
Lemma eqm_trans : forall m a b c, eqm m a b -> eqm m b c -> eqm m a c.
Proof. intros m a b c (q & ->) (r & ->). exists (q + r). lia. Qed.
Lemma eqm_add : forall m a b c d, eqm m a b -> eqm m c d -> eqm m (a + c) (b + d).
Proof. intros m a b c d (q & ->) (r & ->). exists (q + r). lia. Qed.
Lemma eqm_sub : forall m a b c d, eqm m a b -> eqm m c d -> eqm m (a - c) (b - d).
Proof. intros m a b c d (q & ->) (r & ->). exists (q - r). lia. Qed.
Lemma eqm_opp : forall m a b, eqm m a b -> eqm m (- a) (- b).
Proof. intros m a b (q & ->). exists (- q). lia. Qed.
Lemma eqm_mul : forall m a b c d, eqm m a b -> eqm m c d -> eqm m (a * c) (b * d).
Proof. intros m a b c d (q & ->) (r & ->). exists (b * r + q * d + m * q * r). lia. Qed.
Lemma eqm_mod : forall m a, 0 < m -> eqm m (a mod m) a.
Proof. intros. exists (- (a / m)). pose proof (Z.div_mod a m ltac:(lia)). lia. Qed.
Lemma eqm_divide : forall m n a b, eqm (m * n) a b -> eqm m a b.
Proof. intros m n a b (q & ->). exists (n * q). lia. Qed.
Lemma eqm_mod_eq : forall m a b, 0 < m -> eqm m a b <-> a mod m = b mod m.
Proof.
  intros. split.
  - intros (q & ->). rewrite Z.mul_comm. apply Z.mod_add. lia.
  - intros E. exists (a / m - b / m). pose proof (Z.div_mod a m ltac:(lia)). pose proof (Z.div_mod b m ltac:(lia)). lia.
Qed.
Lemma eqm_zsum : forall m n f g, (forall i, 0 <= i < n -> eqm m (f i) (g i)) -> eqm m (zsum n f) (zsum n g).
Proof.
  intros m n f g. unfold zsum. intros H.
  assert (forall k, (k <= Z.to_nat n)%nat -> eqm m (zsumn k f) (zsumn k g)) as G; [|now apply G].
  induction k; intros; cbn [zsumn]; [apply eqm_refl|]. apply eqm_add; [apply IHk; lia|]. apply H. lia.
Qed.

(** Support in [0, n). *)
Definition supp (n : Z) (f : Z -> Z) : Prop := forall k, ~ (0 <= k < n) -> f k = 0.

(** Product coefficient [k] of two sequences, the first with support in [0, n). *)
Definition conv (n : Z) (a b : Z -> Z) (k : Z) : Z := zsum n (fun i => a i * b (k - i)).

Lemma conv_addl : forall n a a' b k, conv n (fun i => a i + a' i) b k = conv n a b k + conv n a' b k.
Proof. intros. unfold conv. rewrite <- zsum_add. apply zsum_ext. intros. lia. Qed.
Lemma conv_addr : forall n a b b' k, conv n a (fun i => b i + b' i) k = conv n a b k + conv n a b' k.
Proof. intros. unfold conv. rewrite <- zsum_add. apply zsum_ext. intros. lia. Qed.
Lemma conv_subl : forall n a a' b k, conv n (fun i => a i - a' i) b k = conv n a b k - conv n a' b k.
Proof. intros. unfold conv. rewrite <- zsum_sub. apply zsum_ext. intros. lia. Qed.
Lemma conv_subr : forall n a b b' k, conv n a (fun i => b i - b' i) k = conv n a b k - conv n a b' k.
Proof. intros. unfold conv. rewrite <- zsum_sub. apply zsum_ext. intros. lia. Qed.
Lemma conv_scalel : forall n c a b k, conv n (fun i => c * a i) b k = c * conv n a b k.
Proof. intros. unfold conv. rewrite <- zsum_scale. apply zsum_ext. intros. lia. Qed.
Lemma conv_scaler : forall n c a b k, conv n a (fun i => c * b i) k = c * conv n a b k.
Proof. intros. unfold conv. rewrite <- zsum_scale. apply zsum_ext. intros. lia. Qed.
Lemma conv_shiftr : forall n a b s k, conv n a (fun i => b (i - s)) k = conv n a b (k - s).
Proof. intros. unfold conv. apply zsum_ext. intros. do 2 f_equal. lia. Qed.
Lemma conv_ext : forall n a a' b b' k, (forall i, 0 <= i < n -> a i = a' i) -> (forall i, b i = b' i) ->
  conv n a b k = conv n a' b' k.
Proof. intros. unfold conv. apply zsum_ext. intros. rewrite H, H0 by auto. auto. Qed.
Lemma conv_out : forall n a b k, supp n b -> ~ (0 <= k < 2 * n - 1) -> conv n a b k = 0.
Proof. intros. apply zsum_zero. intros. rewrite H by lia. lia. Qed.
Lemma conv_eqm : forall m n a a' b b' k, supp n b -> supp n b' ->
  (forall i, 0 <= i < n -> eqm m (a i) (a' i)) -> (forall i, 0 <= i < n -> eqm m (b i) (b' i)) ->
  eqm m (conv n a b k) (conv n a' b' k).
Proof.
  intros. apply eqm_zsum. intros. apply eqm_mul; auto.
  destruct (Z_lt_dec (k - i) 0); [rewrite H, H0 by lia; apply eqm_refl|].
  destruct (Z_lt_dec (k - i) n); [apply H2; lia|]. rewrite H, H0 by lia. apply eqm_refl.
Qed.

(** Block [p] of [sz] coefficients. *)
Definition blk (sz p : Z) (f : Z -> Z) (i : Z) : Z := if (0 <=? i) && (i <? sz) then f (sz * p + i) else 0.

Lemma blk_supp : forall sz p f, supp sz (blk sz p f).
Proof. intros sz p f k H. unfold blk. destruct (_ && _) eqn:E; auto. lia. Qed.

Lemma blk_in : forall sz p f i, 0 <= i < sz -> blk sz p f i = f (sz * p + i).
Proof. intros. unfold blk. destruct (_ && _) eqn:E; auto. lia. Qed.

Lemma blk_sum : forall sz f k, 0 <= sz -> supp (4 * sz) f ->
  f k = blk sz 0 f k + blk sz 1 f (k - sz * 1) + blk sz 2 f (k - sz * 2) + blk sz 3 f (k - sz * 3).
Proof.
  intros sz f k Hs Hf. unfold blk.
  destruct ((0 <=? k) && (k <? sz)) eqn:E0; destruct ((0 <=? k - sz * 1) && (k - sz * 1 <? sz)) eqn:E1;
  destruct ((0 <=? k - sz * 2) && (k - sz * 2 <? sz)) eqn:E2; destruct ((0 <=? k - sz * 3) && (k - sz * 3 <? sz)) eqn:E3;
  try lia.
  - replace (sz * 0 + k) with k by lia. lia.
  - replace (sz * 1 + (k - sz * 1)) with k by lia. lia.
  - replace (sz * 2 + (k - sz * 2)) with k by lia. lia.
  - replace (sz * 3 + (k - sz * 3)) with k by lia. lia.
  - rewrite Hf by lia. lia.
Qed.

Lemma conv_blkl : forall sz a b k, 0 <= sz ->
  conv (4 * sz) a b k = conv sz (blk sz 0 a) b k + conv sz (blk sz 1 a) b (k - sz * 1)
                      + conv sz (blk sz 2 a) b (k - sz * 2) + conv sz (blk sz 3 a) b (k - sz * 3).
Proof.
  intros. unfold conv. replace (4 * sz) with (sz + (sz + (sz + sz))) by lia.
  rewrite !zsum_app by lia. rewrite <- !Z.add_assoc.
  repeat match goal with |- _ + _ = _ + _ => f_equal end; apply zsum_ext; intros i Hi; rewrite blk_in by lia.
  - do 2 f_equal; lia.
  - f_equal; f_equal; lia.
  - f_equal; f_equal; lia.
  - f_equal; f_equal; lia.
Qed.

Lemma conv_blkr : forall sz n a b k, 0 <= sz -> supp (4 * sz) b ->
  conv n a b k = conv n a (blk sz 0 b) k + conv n a (blk sz 1 b) (k - sz * 1)
               + conv n a (blk sz 2 b) (k - sz * 2) + conv n a (blk sz 3 b) (k - sz * 3).
Proof.
  intros. rewrite <- !(conv_shiftr n a).
  rewrite <- !conv_addr. apply conv_ext; auto. intros. now apply blk_sum.
Qed.

Lemma conv_blocks : forall sz a b k, 0 <= sz -> supp (4 * sz) b ->
  let T p q := conv sz (blk sz p a) (blk sz q b) in
  conv (4 * sz) a b k =
    T 0 0 k
  + (T 0 1 (k - sz * 1) + T 1 0 (k - sz * 1))
  + (T 0 2 (k - sz * 2) + T 1 1 (k - sz * 2) + T 2 0 (k - sz * 2))
  + (T 0 3 (k - sz * 3) + T 1 2 (k - sz * 3) + T 2 1 (k - sz * 3) + T 3 0 (k - sz * 3))
  + (T 1 3 (k - sz * 4) + T 2 2 (k - sz * 4) + T 3 1 (k - sz * 4))
  + (T 2 3 (k - sz * 5) + T 3 2 (k - sz * 5))
  + T 3 3 (k - sz * 6).
Proof.
  intros sz a b k Hs Hb T. rewrite conv_blkl by auto.
  rewrite !(conv_blkr sz sz _ b) by auto. fold (T 0 0) (T 0 1) (T 0 2) (T 0 3) (T 1 0) (T 1 1) (T 1 2) (T 1 3)
    (T 2 0) (T 2 1) (T 2 2) (T 2 3) (T 3 0) (T 3 1) (T 3 2) (T 3 3).
  replace (k - sz * 1 - sz * 1) with (k - sz * 2) by lia.
  replace (k - sz * 1 - sz * 2) with (k - sz * 3) by lia.
  replace (k - sz * 1 - sz * 3) with (k - sz * 4) by lia.
  replace (k - sz * 2 - sz * 1) with (k - sz * 3) by lia.
  replace (k - sz * 2 - sz * 2) with (k - sz * 4) by lia.
  replace (k - sz * 2 - sz * 3) with (k - sz * 5) by lia.
  replace (k - sz * 3 - sz * 1) with (k - sz * 4) by lia.
  replace (k - sz * 3 - sz * 2) with (k - sz * 5) by lia.
  replace (k - sz * 3 - sz * 3) with (k - sz * 6) by lia.
  lia.
Qed.

(** Negacyclic product in terms of [conv]. *)
Lemma mul_coef_conv : forall a b k, len a = 256 -> len b = 256 -> 0 <= k < 256 ->
  mul_coef a b k = conv 256 (get a) (get b) k - conv 256 (get a) (get b) (k + 256).
Proof.
  intros a b k Ha Hb Hk. unfold mul_coef, conv. rewrite <- zsum_sub. apply zsum_ext. intros i Hi.
  destruct (i <=? k) eqn:E.
  - replace (get b (k + 256 - i)) with 0 by (unfold get; rewrite znth_default; lia). lia.
  - replace (get b (k - i)) with 0 by (unfold get; rewrite znth_default; lia).
    replace (256 + k - i) with (k + 256 - i) by lia. lia.
Qed.

Lemma get_supp : forall l n, len l = n -> supp n (get l).
Proof. intros l n H k Hk. unfold get. apply znth_default. lia. Qed.
