(** Specification of bit-stream encodings.

    A list of [w]-bit fields is read as a stream of bits, least significant bit
    first.  [regroup w1 w2 n l] reads the stream of the [w1]-bit fields [l] and cuts
    it into [n] fields of [w2] bits.  Packing coefficients of width [w] into bytes is
    [regroup w 8]; unpacking is [regroup 8 w]. *)
From Coq Require Import ZArith List Bool Lia.
From Verif Require Import Lib.Arr.
Import ListNotations.
Local Open Scope Z_scope.

(** Bit [k] of the stream of [w]-bit fields. *)
Definition fbit (w : Z) (l : list Z) (k : Z) : bool := Z.testbit (get l (k / w)) (k mod w).

Fixpoint bits_valn (n : nat) (f : nat -> bool) : Z :=
  match n with
  | O => 0
  | S m => Z.b2z (f O) + 2 * bits_valn m (fun k => f (S k))
  end.

(** The number whose bits are [f 0, ..., f (n-1)], least significant first. *)
Definition bits_val (n : Z) (f : Z -> bool) : Z :=
  bits_valn (Z.to_nat n) (fun k => f (Z.of_nat k)).

Definition regroup (w1 w2 n : Z) (l : list Z) : list Z :=
  ztab n (fun i => bits_val w2 (fun m => fbit w1 l (w2 * i + m))).

(** ** Facts *)

Lemma bits_valn_bound : forall n f, 0 <= bits_valn n f < 2 ^ Z.of_nat n.
Proof.
  induction n; intros f; cbn [bits_valn]; [cbn; lia|].
  specialize (IHn (fun k => f (S k))). rewrite Nat2Z.inj_succ, Z.pow_succ_r by lia.
  destruct (f O); cbn [Z.b2z]; lia.
Qed.

Lemma bits_valn_testbit : forall n f k, Z.testbit (bits_valn n f) (Z.of_nat k) = (k <? n)%nat && f k.
Proof.
  induction n; intros f k; cbn [bits_valn].
  - now rewrite Z.bits_0.
  - destruct k.
    + rewrite Z.add_b2z_double_bit0. reflexivity.
    + rewrite Nat2Z.inj_succ. rewrite Z.add_comm.
      change ((S k <? S n)%nat && f (S k)) with ((k <? n)%nat && (fun k => f (S k)) k).
      rewrite <- IHn. destruct (f O); cbn [Z.b2z].
      * now rewrite Z.testbit_odd_succ by lia.
      * rewrite Z.add_0_r. now rewrite Z.testbit_even_succ by lia.
Qed.

Lemma bits_val_bound : forall n f, 0 <= n -> 0 <= bits_val n f < 2 ^ n.
Proof.
  intros. unfold bits_val. pose proof (bits_valn_bound (Z.to_nat n) (fun k => f (Z.of_nat k))).
  rewrite Z2Nat.id in H0 by lia. auto.
Qed.

Lemma bits_val_testbit : forall n f k, 0 <= k -> Z.testbit (bits_val n f) k = (k <? n) && f k.
Proof.
  intros. unfold bits_val. rewrite <- (Z2Nat.id k) at 1 by lia. rewrite bits_valn_testbit.
  rewrite Z2Nat.id by lia. f_equal. destruct (Nat.ltb_spec (Z.to_nat k) (Z.to_nat n)); lia.
Qed.

Lemma bits_val_eq : forall n f z, 0 <= n -> 0 <= z < 2 ^ n ->
  (forall k, 0 <= k < n -> Z.testbit z k = f k) -> z = bits_val n f.
Proof.
  intros n f z Hn Hz H. apply Z.bits_inj'. intros k Hk. rewrite bits_val_testbit by lia.
  destruct (k <? n) eqn:E; cbn [andb]; [apply H; lia|].
  destruct (Z.eq_dec z 0) as [->|]; [apply Z.bits_0|].
  apply Z.bits_above_log2; [lia|]. assert (Z.log2 z < n) by (apply Z.log2_lt_pow2; lia). lia.
Qed.

Lemma bits_val_ext : forall n f g, (forall k, 0 <= k < n -> f k = g k) -> bits_val n f = bits_val n g.
Proof.
  intros. apply Z.bits_inj'. intros k Hk. rewrite !bits_val_testbit by lia.
  destruct (k <? n) eqn:E; auto. rewrite H by lia. auto.
Qed.

Lemma fbit_at : forall w l a r, 0 < w -> 0 <= r < w -> fbit w l (w * a + r) = Z.testbit (get l a) r.
Proof.
  intros. unfold fbit.
  assert ((w * a + r) / w = a) as -> by (symmetry; apply Z.div_unique with r; lia).
  assert ((w * a + r) mod w = r) as -> by (symmetry; apply Z.mod_unique with a; lia). auto.
Qed.

Lemma len_regroup : forall w1 w2 n l, 0 <= n -> len (regroup w1 w2 n l) = n.
Proof. intros. unfold regroup. now apply len_ztab. Qed.

Lemma get_regroup : forall w1 w2 n l i, 0 <= i < n ->
  get (regroup w1 w2 n l) i = bits_val w2 (fun m => fbit w1 l (w2 * i + m)).
Proof. intros. unfold get, regroup. now rewrite znth_ztab. Qed.

Lemma regroup_range : forall w1 w2 n l, 0 <= w2 ->
  Forall (fun z => 0 <= z < 2 ^ w2) (regroup w1 w2 n l).
Proof. intros. apply Forall_ztab. intros. now apply bits_val_bound. Qed.

Lemma fbit_regroup : forall w1 w2 n l k, 0 < w2 -> 0 <= k < w2 * n ->
  fbit w2 (regroup w1 w2 n l) k = fbit w1 l k.
Proof.
  intros. rewrite (Z.div_mod k w2) by lia.
  pose proof (Z.mod_pos_bound k w2 ltac:(lia)).
  assert (0 <= k / w2 < n) by (split; [apply Z.div_pos; lia | apply Z.div_lt_upper_bound; lia]).
  rewrite fbit_at by lia. rewrite get_regroup by lia. rewrite bits_val_testbit by lia.
  destruct (k mod w2 <? w2) eqn:E; auto. lia.
Qed.

(** Regrouping and regrouping back reduces each field modulo its width. *)
Lemma regroup_regroup : forall w1 w2 n1 n2 l, 0 < w1 -> 0 < w2 -> 0 <= n1 -> n1 * w1 = n2 * w2 ->
  len l = n1 -> regroup w2 w1 n1 (regroup w1 w2 n2 l) = map (fun x => x mod 2 ^ w1) l.
Proof.
  intros w1 w2 n1 n2 l H1 H2 Hn E Hl. apply znth_ext with 0.
  - rewrite len_regroup, len_map by lia. auto.
  - rewrite len_regroup by lia. intros i Hi. fold (get (regroup w2 w1 n1 (regroup w1 w2 n2 l)) i).
    rewrite get_regroup by lia. rewrite znth_map with (d := 0) by lia. fold (get l i).
    apply Z.bits_inj'. intros k Hk. rewrite bits_val_testbit by lia.
    destruct (k <? w1) eqn:Ek; cbn [andb].
    + rewrite Z.mod_pow2_bits_low by lia. rewrite fbit_regroup by nia. apply fbit_at; lia.
    + rewrite Z.mod_pow2_bits_high by lia. auto.
Qed.

Lemma map_mod_small : forall w l, Forall (fun z => 0 <= z < 2 ^ w) l -> map (fun x => x mod 2 ^ w) l = l.
Proof. induction 1; cbn [map]; auto. rewrite Z.mod_small by auto. now f_equal. Qed.

(** Reading the fields of a stream of which only the low [w1] bits of each field matter. *)
Lemma regroup_mod : forall w1 w2 n l, 0 < w1 -> regroup w1 w2 n (map (fun x => x mod 2 ^ w1) l) = regroup w1 w2 n l.
Proof.
  intros. unfold regroup. apply ztab_ext. intros i Hi. apply bits_val_ext. intros k Hk.
  unfold fbit. pose proof (Z.mod_pos_bound (w2 * i + k) w1 H).
  set (q := (w2 * i + k) / w1). destruct (Z_lt_dec q 0) as [|Hq];
    [unfold get; rewrite !znth_default by lia; auto|].
  destruct (Z_lt_dec q (len l)).
  - unfold get. rewrite znth_map with (d := 0) by lia. now rewrite Z.mod_pow2_bits_low by lia.
  - unfold get. rewrite !znth_default by (rewrite ?len_map; lia). auto.
Qed.

(** ** Polynomials and vectors of 256 coefficients *)

(** 256 coefficients of [w] bits as [32 w] bytes, and back. *)
Definition pack (w : Z) (l : list Z) : list Z := regroup w 8 (32 * w) l.
Definition unpack (w : Z) (b : list Z) : list Z := regroup 8 w 256 b.

(** Vectors are the concatenation of their components. *)
Definition pack_vec (w : Z) (v : list (list Z)) : list Z := flat_map (pack w) v.
Definition unpack_vec (w n : Z) (b : list Z) : list (list Z) :=
  ztab n (fun i => unpack w (zskip (32 * w * i) b)).

Lemma len_pack : forall w l, 0 <= w -> len (pack w l) = 32 * w.
Proof. intros. apply len_regroup. lia. Qed.

Lemma len_unpack : forall w l, len (unpack w l) = 256.
Proof. intros. now apply len_regroup. Qed.

Lemma len_pack_vec : forall w v, 0 <= w -> len (pack_vec w v) = 32 * w * len v.
Proof.
  intros. induction v; cbn [pack_vec flat_map]; [unfold len; cbn [length]; lia|].
  fold (pack_vec w v). rewrite len_app, IHv, len_pack, len_cons by auto. lia.
Qed.

Lemma pack_range : forall w l, Forall (fun z => 0 <= z < 256) (pack w l).
Proof. intros. apply (regroup_range w 8); lia. Qed.

Lemma unpack_range : forall w l, 0 <= w -> Forall (fun z => 0 <= z < 2 ^ w) (unpack w l).
Proof. intros. now apply regroup_range. Qed.

Lemma pack_vec_range : forall w v, Forall (fun z => 0 <= z < 256) (pack_vec w v).
Proof.
  induction v; cbn [pack_vec flat_map]; auto. apply Forall_app. split; auto. apply pack_range.
Qed.

Lemma unpack_pack : forall w l, 0 < w -> len l = 256 -> unpack w (pack w l) = map (fun x => x mod 2 ^ w) l.
Proof. intros. apply regroup_regroup; lia. Qed.

Lemma pack_unpack : forall w b, 0 < w -> len b = 32 * w -> Forall (fun z => 0 <= z < 256) b ->
  pack w (unpack w b) = b.
Proof.
  intros. unfold pack, unpack. rewrite regroup_regroup by lia. now apply map_mod_small with (w := 8).
Qed.

Lemma pack_mod : forall w l, 0 < w -> pack w (map (fun x => x mod 2 ^ w) l) = pack w l.
Proof. intros. now apply regroup_mod. Qed.

(** Only the first [n] fields are read. *)
Lemma regroup_first : forall w1 w2 n m l, 0 < w1 -> 0 < w2 -> 0 <= n -> w2 * n <= w1 * m ->
  regroup w1 w2 n (zfirst m l) = regroup w1 w2 n l.
Proof.
  intros. unfold regroup. apply ztab_ext. intros i Hi. apply bits_val_ext. intros k Hk.
  unfold fbit, get. rewrite znth_zfirst; auto. apply Z.div_lt_upper_bound; nia.
Qed.

Lemma unpack_first : forall w l, 0 < w -> unpack w (zfirst (32 * w) l) = unpack w l.
Proof. intros. apply regroup_first; lia. Qed.

Lemma regroup_app : forall w1 w2 n l r, 0 < w1 -> 0 < w2 -> 0 <= n -> w2 * n <= w1 * len l ->
  regroup w1 w2 n (l ++ r) = regroup w1 w2 n l.
Proof.
  intros. rewrite <- (regroup_first w1 w2 n (len l)) by auto. now rewrite zfirst_app.
Qed.

Lemma unpack_app : forall w l r, 0 < w -> len l = 32 * w -> unpack w (l ++ r) = unpack w l.
Proof. intros. apply regroup_app; lia. Qed.

Lemma unpack_pack_vec : forall w v, 0 < w -> Forall (fun l => len l = 256) v ->
  unpack_vec w (len v) (pack_vec w v) = map (map (fun x => x mod 2 ^ w)) v.
Proof.
  intros w v Hw Hv. induction Hv as [|l v Hl Hv IH]; auto.
  rewrite len_cons. unfold unpack_vec. rewrite Z.add_comm, ztab_split by (try apply len_nonneg; lia).
  cbn [map pack_vec flat_map]. fold (pack_vec w v).
  assert (len (pack w l) = 32 * w) as Hp by (apply len_pack; lia).
  change (ztab 1 ?f) with [f 0]. cbn [app]. f_equal.
  - rewrite Z.mul_0_r, zskip_0, unpack_app by auto. now apply unpack_pack.
  - rewrite <- IH. apply ztab_ext. intros i Hi. f_equal.
    replace (32 * w * (1 + i)) with (len (pack w l) + 32 * w * i) by lia.
    rewrite <- zskip_zskip by nia. now rewrite zskip_app.
Qed.

Lemma pack_unpack_vec : forall w n b, 0 < w -> 0 <= n -> len b = 32 * w * n ->
  Forall (fun z => 0 <= z < 256) b -> pack_vec w (unpack_vec w n b) = b.
Proof.
  intros w n b Hw Hn. revert b. pattern n. apply natlike_ind; auto; clear n Hn.
  - intros b Hb _. destruct b; auto. rewrite len_cons in Hb. pose proof (len_nonneg b). lia.
  - intros n Hn IH b Hb Hr. unfold unpack_vec. unfold Z.succ. rewrite Z.add_comm, ztab_split by lia.
    change (ztab 1 ?f) with [f 0]. cbn [app pack_vec flat_map].
    transitivity (zfirst (32 * w) b ++ zskip (32 * w) b); [|apply zfirst_zskip]. f_equal.
    + rewrite Z.mul_0_r, zskip_0. rewrite <- unpack_first by auto.
      apply pack_unpack; auto; [rewrite len_zfirst; nia|now apply Forall_zfirst].
    + transitivity (pack_vec w (unpack_vec w n (zskip (32 * w) b))).
      * unfold pack_vec. f_equal. unfold unpack_vec. apply ztab_ext. intros i Hi. f_equal.
        rewrite zskip_zskip by nia. f_equal. lia.
      * apply IH; [rewrite len_zskip; nia|now apply Forall_zskip].
Qed.
