(** The distribution of sampled secrets: counting the inputs that give each output. *)
From Coq Require Import ZArith List Bool Lia.
From Verif Require Import Lib.Arr Lib.CInt Lib.CMon Spec.Bits Spec.Ring Spec.Sampling Spec.Count.
Import ListNotations.
Local Open Scope Z_scope.

Fixpoint sumo {T} (F : T -> Z) (l : list T) : Z := match l with [] => 0 | x :: r => F x + sumo F r end.

Lemma sumo_app : forall T (F : T -> Z) l m, sumo F (l ++ m) = sumo F l + sumo F m.
Proof. induction l; intros; cbn [sumo app]; [lia|]. rewrite IHl. lia. Qed.
Lemma sumo_map : forall T U (g : U -> T) F l, sumo F (map g l) = sumo (fun x => F (g x)) l.
Proof. induction l; cbn [sumo map]; congruence. Qed.
Lemma sumo_flat_map : forall T U (g : U -> list T) F l, sumo F (flat_map g l) = sumo (fun x => sumo F (g x)) l.
Proof. induction l; cbn [sumo flat_map]; auto. rewrite sumo_app. congruence. Qed.
Lemma sumo_ext_in : forall T (F G : T -> Z) l, (forall x, In x l -> F x = G x) -> sumo F l = sumo G l.
Proof. induction l; intros H; cbn [sumo]; auto. rewrite (H a) by now left. rewrite IHl; auto. intros. apply H. now right. Qed.
Lemma sumo_scale : forall T (F : T -> Z) k l, sumo (fun x => k * F x) l = k * sumo F l.
Proof. induction l; cbn [sumo]; lia. Qed.

Lemma count_sumo : forall T (P : T -> bool) l, count P l = sumo (fun x => Z.b2z (P x)) l.
Proof.
  unfold count, len. induction l; cbn [filter sumo]; [reflexivity|]. destruct (P a); cbn [length Z.b2z]; lia.
Qed.

Lemma count_ext : forall T (P Q : T -> bool) l, (forall x, In x l -> P x = Q x) -> count P l = count Q l.
Proof. intros. rewrite !count_sumo. apply sumo_ext_in. intros. now rewrite H. Qed.

Lemma sumo_strings_app : forall T (A : list T) n m F,
  sumo F (strings A (m + n)) = sumo (fun y => sumo (fun x => F (x ++ y)) (strings A m)) (strings A n).
Proof.
  intros T A n. induction m; intros F; cbn [Nat.add strings].
  - apply sumo_ext_in. intros. cbn [sumo app]. lia.
  - rewrite sumo_flat_map, IHm. apply sumo_ext_in. intros y _. rewrite sumo_flat_map. apply sumo_ext_in. intros x _.
    now rewrite !sumo_map.
Qed.

(** ** Bytes and bits *)

Definition bits8 (x : Z) : list bool := map (fun k => Z.testbit x (Z.of_nat k)) (seq 0 8).
Definition bits (b : list Z) : list bool := flat_map bits8 b.
Notation B := [false; true].

Lemma bytes_bits : map bits8 bytes256 = strings B 8.
Proof. vm_compute. reflexivity. Qed.

Lemma sumo_bits : forall n F, sumo (fun b => F (bits b)) (strings bytes256 n) = sumo F (strings B (8 * n)).
Proof.
  induction n; intros F; [reflexivity|]. replace (8 * S n)%nat with (8 + 8 * n)%nat by lia.
  rewrite sumo_strings_app. change (strings bytes256 (S n)) with (flat_map (fun l => map (fun x => x :: l) bytes256) (strings bytes256 n)). rewrite sumo_flat_map.
  rewrite <- (IHn (fun z => sumo (fun y => F (y ++ z)) (strings B 8))).
  apply sumo_ext_in. intros l _. rewrite sumo_map, <- bytes_bits, sumo_map. reflexivity.
Qed.

Lemma count_bits : forall n P, count (fun b => P (bits b)) (strings bytes256 n) = count P (strings B (8 * n)).
Proof. intros. rewrite !count_sumo. apply (sumo_bits n (fun x => Z.b2z (P x))). Qed.

Lemma znth_bits : forall b k, 0 <= k -> znth false (bits b) k = fbit 8 b k.
Proof.
  induction b as [|x b IH]; intros k Hk; unfold fbit.
  - cbn [bits flat_map]. unfold get. rewrite (znth_default 0 []), (znth_default false []) by (unfold len; cbn [length]; lia). now rewrite Z.testbit_0_l.
  - cbn [bits flat_map]. fold (bits b). assert (len (bits8 x) = 8) as L by reflexivity.
    destruct (Z_lt_dec k 8).
    + rewrite znth_app1 by lia. rewrite Z.div_small, Z.mod_small by lia. unfold bits8.
      rewrite znth_map with (d := O) by (unfold len; rewrite seq_length; lia). unfold get, znth. cbn [Z.ltb Z.compare nth].
      destruct (k <? 0) eqn:E; [lia|]. rewrite seq_nth by lia. f_equal. lia.
    + rewrite znth_app2 by lia. rewrite L, IH by lia. unfold fbit.
      replace k with (k - 8 + 1 * 8) at 3 4 by lia. rewrite Z.div_add, Z.mod_add by lia. unfold get.
      rewrite znth_cons by (apply Z.add_nonneg_pos; [apply Z.div_pos; lia|lia]). f_equal. f_equal. lia.
Qed.

(** ** Fields of a fixed width *)

Fixpoint fields_all (mu : nat) (ps : list (list bool -> bool)) (bs : list bool) : bool :=
  match ps with [] => true | p :: ps => p (firstn mu bs) && fields_all mu ps (skipn mu bs) end.

Lemma count_fields : forall mu ps,
  count (fields_all mu ps) (strings B (length ps * mu)) = product (map (fun p => count p (strings B mu)) ps).
Proof.
  intros mu. induction ps as [|p ps IH]; [reflexivity|]. cbn [length Nat.mul map product fold_right]. fold (product (map (fun p => count p (strings B mu)) ps)).
  rewrite count_sumo, sumo_strings_app, <- IH, count_sumo, (count_sumo _ (fields_all mu ps)).
  rewrite <- sumo_scale. apply sumo_ext_in. intros y _. rewrite Z.mul_comm, <- sumo_scale. apply sumo_ext_in. intros x Hx.
  apply strings_in in Hx. destruct Hx as (E & _). cbn [fields_all].
  rewrite firstn_app, skipn_app, E, Nat.sub_diag, firstn_all2, skipn_all2 by lia. cbn [firstn skipn app]. rewrite app_nil_r.
  destruct (p x), (fields_all mu ps y); reflexivity.
Qed.

Lemma skipn_skipn : forall T n m (l : list T), skipn n (skipn m l) = skipn (n + m) l.
Proof.
  intros T n m. induction m; intros l; [now rewrite Nat.add_0_r|]. rewrite Nat.add_succ_r.
  destruct l; cbn [skipn]; [apply skipn_nil|]. apply IHm.
Qed.

Lemma fields_seq : forall mu q n a bs,
  fields_all mu (map q (seq a n)) bs = true <-> forall i, (i < n)%nat -> q (a + i)%nat (firstn mu (skipn (mu * i) bs)) = true.
Proof.
  intros mu q. induction n; intros a bs; cbn [seq map fields_all].
  - split; [lia|reflexivity].
  - rewrite andb_true_iff, IHn. split.
    + intros (H0 & H) i Hi. destruct i; [now rewrite Nat.add_0_r, Nat.mul_0_r|].
      specialize (H i ltac:(lia)). rewrite skipn_skipn in H. replace (a + S i)%nat with (S a + i)%nat by lia.
      replace (mu * S i)%nat with (mu * i + mu)%nat by lia. exact H.
    + intros H. split; [specialize (H O ltac:(lia)); now rewrite Nat.add_0_r, Nat.mul_0_r in H|].
      intros i Hi. specialize (H (S i) ltac:(lia)). rewrite skipn_skipn. replace (S a + i)%nat with (a + S i)%nat by lia.
      replace (mu * i + mu)%nat with (mu * S i)%nat by lia. exact H.
Qed.

Lemma fields_ztab : forall mu q n bs, 0 <= mu -> 0 <= n ->
  fields_all (Z.to_nat mu) (ztab n q) bs = true <-> forall i, 0 <= i < n -> q i (zfirst mu (zskip (mu * i) bs)) = true.
Proof.
  intros mu q n bs Hm Hn. unfold ztab. rewrite fields_seq with (q := fun i => q (Z.of_nat i)). unfold zfirst, zskip. split.
  - intros H i Hi. specialize (H (Z.to_nat i) ltac:(lia)). cbn [Nat.add] in H. rewrite Z2Nat.id in H by lia.
    rewrite Z2Nat.inj_mul by lia. exact H.
  - intros H i Hi. specialize (H (Z.of_nat i) ltac:(lia)). cbn [Nat.add]. rewrite Z2Nat.inj_mul, Nat2Z.id in H by lia. exact H.
Qed.

(** Counting byte strings by a condition on each [mu]-bit field. *)
Lemma count_ztab : forall mu n k (q : Z -> list bool -> bool), 0 <= mu -> 0 <= n -> 0 <= k -> 8 * k = n * mu ->
  count (fun b => fields_all (Z.to_nat mu) (ztab n q) (bits b)) (byte_strings k) =
  product (ztab n (fun i => count (q i) (strings B (Z.to_nat mu)))).
Proof.
  intros mu n k q Hm Hn Hk E. unfold byte_strings. rewrite count_bits.
  replace (8 * Z.to_nat k)%nat with (length (ztab n q) * Z.to_nat mu)%nat.
  - rewrite count_fields, map_ztab. reflexivity.
  - unfold ztab. rewrite map_length, seq_length. nia.
Qed.

Lemma product_ones : forall n f, (forall i, 0 <= i < n -> f i = 1) -> product (ztab n f) = 1.
Proof.
  intros. rewrite ztab_ext with (g := fun _ => 1) by auto. unfold ztab. generalize (seq 0 (Z.to_nat n)).
  induction l; cbn [map product fold_right]; auto. fold (product (map (fun _ => 1) l)). rewrite IHl. reflexivity.
Qed.
Lemma product_const : forall n c, 0 <= n -> product (ztab n (fun _ => c)) = c ^ n.
Proof.
  intros n c Hn. unfold ztab. rewrite <- (Z2Nat.id n) at 2 by lia. generalize (Z.to_nat n) O. clear.
  induction n; intros a; [reflexivity|]. cbn [seq map product fold_right]. fold (product (map (fun _ => c) (seq (S a) n))).
  rewrite IHn, Nat2Z.inj_succ, Z.pow_succ_r by lia. reflexivity.
Qed.
Lemma product_app : forall l m, product (l ++ m) = product l * product m.
Proof. induction l; intros; cbn [app product fold_right]; [symmetry; apply Z.mul_1_l|]. fold (product (l ++ m)) (product l). rewrite IHl. ring. Qed.
Lemma product_single : forall n i b c, 0 <= i < n -> product (ztab n (fun j => if j =? i then b else c)) = b * c ^ (n - 1).
Proof.
  intros n i b c Hi. replace n with (i + (1 + (n - i - 1))) at 1 by lia.
  rewrite !ztab_split by lia. rewrite !product_app.
  rewrite (ztab_ext i _ (fun _ => c)) by (intros; destruct (i0 =? i) eqn:E; [lia|auto]).
  rewrite (ztab_ext (n - i - 1) _ (fun _ => c)) by (intros; destruct (i + (1 + i0) =? i) eqn:E; [lia|auto]).
  rewrite !product_const by lia. replace (product (ztab 1 _)) with b.
  - replace (n - 1) with (i + (n - i - 1)) by lia. rewrite Z.pow_add_r by lia. ring.
  - unfold ztab. change (Z.to_nat 1) with 1%nat. cbn [seq map product fold_right]. rewrite Z.add_0_r, Z.eqb_refl. lia.
Qed.

(** ** One field of the two samplers *)

Definition cbdf (mu : Z) (w : list bool) : Z :=
  hw (mu / 2) (fun t => znth false w t) - hw (mu / 2) (fun t => znth false w (mu / 2 + t)).
Definition unif (w : list bool) : Z := Z.b2z (znth false w 0) - 2 * Z.b2z (znth false w 1).

Lemma hw_ext : forall n f g, (forall i, 0 <= i < n -> f i = g i) -> hw n f = hw n g.
Proof. intros. unfold hw. apply zsum_ext. intros. now rewrite H. Qed.

Lemma znth_field : forall b mu i t, 0 <= i -> 0 <= t < mu -> znth false (zfirst mu (zskip (mu * i) (bits b))) t = fbit 8 b (mu * i + t).
Proof.
  intros. rewrite znth_zfirst by lia. rewrite znth_zskip by nia. apply znth_bits. nia.
Qed.

Lemma cbdf_coef : forall mu b i, 0 <= mu -> 0 <= i -> cbd_coef mu b i = cbdf mu (zfirst mu (zskip (mu * i) (bits b))).
Proof.
  intros mu b i Hm Hi. unfold cbd_coef, cbdf. pose proof (Z.mul_div_le mu 2 ltac:(lia)).
  f_equal; apply hw_ext; intros t Ht; rewrite znth_field by lia; f_equal. lia.
Qed.
Lemma unif_coef : forall b i, 0 <= i -> uni_coef b i = unif (zfirst 2 (zskip (2 * i) (bits b))).
Proof. intros. unfold uni_coef, unif. rewrite !znth_field by lia. now rewrite Z.add_0_r. Qed.

Lemma hw_range : forall n f, 0 <= n -> 0 <= hw n f <= n.
Proof.
  intros n f Hn. unfold hw, zsum. rewrite <- (Z2Nat.id n) at 3 by lia. generalize (Z.to_nat n). clear.
  induction n; cbn [zsumn]; [lia|]. destruct (f (Z.of_nat n)); cbn [Z.b2z]; lia.
Qed.
Lemma cbdf_range : forall mu w, 0 <= mu -> - (mu / 2) <= cbdf mu w <= mu / 2.
Proof.
  intros. unfold cbdf. pose proof (Z.div_pos mu 2 ltac:(lia) ltac:(lia)).
  pose proof (hw_range (mu / 2) (fun t => znth false w t) ltac:(lia)).
  pose proof (hw_range (mu / 2) (fun t => znth false w (mu / 2 + t)) ltac:(lia)). lia.
Qed.
Lemma cbd_coef_range : forall mu b i, 0 <= mu -> - (mu / 2) <= cbd_coef mu b i <= mu / 2.
Proof.
  intros. unfold cbd_coef. pose proof (Z.div_pos mu 2 ltac:(lia) ltac:(lia)).
  pose proof (hw_range (mu / 2) (fun t => fbit 8 b (mu * i + t)) ltac:(lia)).
  pose proof (hw_range (mu / 2) (fun t => fbit 8 b (mu * i + mu / 2 + t)) ltac:(lia)). lia.
Qed.
Lemma uni_coef_range : forall b i, -2 <= uni_coef b i <= 1.
Proof. intros. unfold uni_coef. destruct (fbit _ _ _), (fbit _ _ _); cbn [Z.b2z]; lia. Qed.

Definition hist_ok (mu : Z) : bool :=
  let vs := map (cbdf mu) (strings B (Z.to_nat mu)) in
  forallb (fun x => count (fun y => y =? x) vs =? binom mu (mu / 2 + x)) (ztab (mu + 1) (fun k => k - mu / 2)).

Lemma count_map : forall T U (g : U -> T) P l, count P (map g l) = count (fun x => P (g x)) l.
Proof. intros. rewrite !count_sumo. apply sumo_map. Qed.
Lemma count_none : forall T (P : T -> bool) l, (forall x, In x l -> P x = false) -> count P l = 0.
Proof. intros. rewrite count_sumo. rewrite sumo_ext_in with (G := fun _ => 0 * 0) by (intros; now rewrite H). now rewrite sumo_scale. Qed.

Lemma binomn_gt : forall n k, (n < k)%nat -> binomn n k = 0.
Proof. induction n; intros k H; destruct k; try lia; cbn [binomn]; auto. rewrite !IHn by lia. reflexivity. Qed.

Lemma count_cbdf : forall mu x, mu = 6 \/ mu = 8 \/ mu = 10 ->
  count (fun w => cbdf mu w =? x) (strings B (Z.to_nat mu)) = binom mu (mu / 2 + x).
Proof.
  intros mu x Hmu. assert (hist_ok mu = true) as HH by (destruct Hmu as [->|[->| ->]]; vm_compute; reflexivity).
  assert (mu = mu / 2 * 2) as Ev by (destruct Hmu as [->|[->| ->]]; reflexivity).
  assert (6 <= mu) by lia. clear Hmu. destruct (Z_lt_dec x (- (mu / 2))); [|destruct (Z_lt_dec (mu / 2) x)].
  - rewrite count_none; [unfold binom; destruct (mu / 2 + x <? 0) eqn:E; lia|].
    intros w _. pose proof (cbdf_range mu w ltac:(lia)). lia.
  - rewrite count_none; [|intros w _; pose proof (cbdf_range mu w ltac:(lia)); lia].
    unfold binom. destruct (mu / 2 + x <? 0) eqn:E; auto. rewrite binomn_gt; lia.
  - unfold hist_ok in HH. cbv zeta in HH. rewrite forallb_forall in HH. specialize (HH x).
    rewrite count_map in HH. apply Z.eqb_eq, HH. unfold ztab. apply in_map_iff. exists (Z.to_nat (x + mu / 2)).
    split; [lia|]. apply in_seq. lia.
Qed.

Lemma count_all : forall n, count (fun _ => true) (strings B n) = 2 ^ Z.of_nat n.
Proof.
  intros. rewrite count_sumo. induction n; [reflexivity|]. cbn [strings]. rewrite sumo_flat_map.
  rewrite sumo_ext_in with (G := fun _ => 2 * 1) by reflexivity. rewrite sumo_scale.
  rewrite Nat2Z.inj_succ, Z.pow_succ_r by lia. f_equal. exact IHn.
Qed.

Lemma count_unif : forall x, -2 <= x <= 1 -> count (fun w => unif w =? x) (strings B 2) = 1.
Proof. intros x Hx. assert (x = -2 \/ x = -1 \/ x = 0 \/ x = 1) as [->|[->|[->| ->]]] by lia; reflexivity. Qed.
