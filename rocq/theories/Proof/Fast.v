(** Equivalent forms of the specification that evaluate quickly, for concrete cases and known-answer tests. *)
From Coq Require Import ZArith List Bool Lia.
From Verif Require Import Lib.Arr Lib.CInt Lib.CMon Spec.Bits Spec.Ring Spec.Sampling Spec.Saber Spec.Noise Spec.Keccak
  Model.Params Model.Fips202 Proof.PackP Proof.PackThm Proof.Conv Proof.PolyP Proof.IndcpaP Proof.KemP Proof.SpongeP Proof.NoiseP Proof.KeccakF.
Import ListNotations.
Local Open Scope Z_scope.

(** ** Polynomial multiplication: Horner's rule *)

Definition rot (a : list Z) : list Z := - last a 0 :: removelast a.
Fixpoint axpy (x : Z) (b acc : list Z) : list Z :=
  match b, acc with y :: b, z :: acc => x * y + z :: axpy x b acc | _, _ => [] end.
Fixpoint horner (a b : list Z) : list Z :=
  match a with [] => repeat 0 256 | x :: a => axpy x b (rot (horner a b)) end.
Definition fit (a : list Z) : list Z := firstn 256 (a ++ repeat 0 256).
Definition pmul_f (a b : list Z) : list Z := horner (firstn 256 a) (fit b).

Lemma axpy_len : forall x b acc, length b = length acc -> length (axpy x b acc) = length b.
Proof. induction b; destruct acc; cbn [length axpy]; intros; try lia. rewrite IHb; lia. Qed.
Lemma axpy_nth : forall x b acc k, length b = length acc -> nth k (axpy x b acc) 0 = x * nth k b 0 + nth k acc 0.
Proof. induction b; destruct acc, k; cbn [length axpy nth]; intros; try lia. apply IHb. lia. Qed.

Lemma rot_len : forall a, a <> [] -> length (rot a) = length a.
Proof. intros. unfold rot. rewrite (app_removelast_last 0 H) at 3. rewrite app_length. cbn [length]. lia. Qed.

Lemma nth_removelast : forall (a : list Z) k, (S k < length a)%nat -> nth k (removelast a) 0 = nth k a 0.
Proof.
  intros a k H. assert (a <> []) as N by (destruct a; cbn in *; [lia|discriminate]).
  rewrite (app_removelast_last 0 N) at 2. rewrite app_nth1; auto.
  pose proof (f_equal (@length Z) (app_removelast_last 0 N)) as E. rewrite app_length in E. cbn [length] in E. lia.
Qed.

Lemma last_nth : forall (a : list Z), last a 0 = nth (length a - 1) a 0.
Proof.
  intros a. destruct a as [|x a]; auto. assert (x :: a <> []) as N by discriminate.
  rewrite (app_removelast_last 0 N) at 2 3. rewrite app_length, app_nth2; cbn [length]; [|lia].
  replace (_ + 1 - 1 - _)%nat with O by lia. reflexivity.
Qed.

Lemma horner_len : forall a b, length b = 256%nat -> length (horner a b) = 256%nat.
Proof.
  induction a; intros b H; cbn [horner]; [now rewrite repeat_length|].
  rewrite axpy_len; auto. rewrite rot_len, IHa; auto. intros E. pose proof (IHa b H) as L. rewrite E in L. discriminate.
Qed.

Definition ext_ (b : list Z) (k : Z) : Z := if 0 <=? k then get b k else - get b (256 + k).

Lemma zsum_front : forall n f, 0 <= n -> zsum (n + 1) f = f 0 + zsum n (fun i => f (i + 1)).
Proof.
  intros n f Hn. pattern n. apply natlike_ind; [|intros x Hx IH|]; auto.
  - rewrite zsum_S by lia. rewrite !zsum_0. lia.
  - unfold Z.succ. rewrite zsum_S by lia. rewrite IH. rewrite (zsum_S x) by lia. lia.
Qed.

Lemma horner_get : forall a b k, length b = 256%nat -> (length a <= 256)%nat -> 0 <= k < 256 ->
  get (horner a b) k = zsum (len a) (fun i => get a i * ext_ b (k - i)).
Proof.
  induction a as [|x a IH]; intros b k Lb La Hk; cbn [horner].
  - unfold get. rewrite znth_repeat. reflexivity.
  - cbn [length] in La. pose proof (horner_len a b Lb) as LH.
    assert (horner a b <> []) as N by (intros E; rewrite E in LH; discriminate).
    replace (len (x :: a)) with (len a + 1) by (unfold len; cbn [length]; lia).
    rewrite zsum_front by apply len_nonneg.
    assert (forall j, 0 <= j -> get (x :: a) (j + 1) = get a j) as G1.
    { intros. unfold get, znth. replace (j + 1 <? 0) with false by lia. replace (j <? 0) with false by lia.
      replace (Z.to_nat (j + 1)) with (S (Z.to_nat j)) by lia. reflexivity. }
    rewrite (zsum_ext _ _ (fun i => get a i * ext_ b (k - 1 - i)))
      by (intros; rewrite G1 by lia; do 2 f_equal; lia).
    unfold get at 1, znth at 1. replace (k <? 0) with false by lia.
    rewrite axpy_nth by (rewrite rot_len, LH; auto).
    f_equal.
    + unfold ext_. replace (0 <=? k - 0) with true by lia. unfold get, znth at 2. replace (k - 0 <? 0) with false by lia.
      replace (k - 0) with k by lia. reflexivity.
    + unfold rot. destruct (Z.eq_dec k 0) as [->|].
      * cbn [Z.to_nat nth]. rewrite last_nth, LH. change (256 - 1)%nat with (Z.to_nat 255).
        replace (nth (Z.to_nat 255) (horner a b) 0) with (get (horner a b) 255) by reflexivity.
        rewrite IH by (auto; lia). rewrite <- zsum_opp. apply zsum_ext. intros i Hi.
        assert (len a <= 256) by (unfold len; lia).
        unfold ext_. replace (0 <=? 255 - i) with true by lia. replace (0 <=? 0 - 1 - i) with false by lia.
        replace (256 + (0 - 1 - i)) with (255 - i) by lia. lia.
      * replace (Z.to_nat k) with (S (Z.to_nat (k - 1))) by lia. cbn [nth]. rewrite nth_removelast by lia.
        replace (nth (Z.to_nat (k - 1)) (horner a b) 0) with (get (horner a b) (k - 1))
          by (unfold get, znth; now replace (k - 1 <? 0) with false by lia).
        apply IH; auto; lia.
Qed.

Lemma zsum_extend : forall n m f, 0 <= n <= m -> (forall i, n <= i < m -> f i = 0) -> zsum m f = zsum n f.
Proof.
  intros n m f Hn. replace m with (n + (m - n)) by lia. pattern (m - n). apply natlike_ind; [|intros x Hx IH|lia]; intros H0.
  - f_equal. lia.
  - replace (n + Z.succ x) with (n + x + 1) by lia. rewrite zsum_S by lia. rewrite IH by (intros; apply H0; lia).
    rewrite (H0 (n + x)) by lia. lia.
Qed.

Lemma fit_len : forall b, length (fit b) = 256%nat.
Proof. intros. unfold fit. rewrite firstn_length, app_length, repeat_length. lia. Qed.

Lemma get_firstn : forall a i, 0 <= i < 256 -> get (firstn 256 a) i = get a i.
Proof. intros. change (firstn 256 a) with (zfirst 256 a). unfold get. now rewrite znth_zfirst by lia. Qed.

Lemma get_fit : forall b i, 0 <= i < 256 -> get (fit b) i = get b i.
Proof.
  intros. unfold fit. rewrite get_firstn by auto. unfold get. destruct (Z_lt_dec i (len b)).
  - now rewrite znth_app1 by lia.
  - rewrite znth_app2 by lia. rewrite znth_repeat. now rewrite znth_default by lia.
Qed.

Lemma pmul_fast : forall a b, pmul a b = pmul_f a b.
Proof.
  intros. unfold pmul. symmetry. apply ztab_eq with 0.
  - unfold pmul_f, len. rewrite horner_len by apply fit_len. reflexivity.
  - intros k Hk. fold (get (pmul_f a b) k). unfold pmul_f.
    rewrite horner_get; [|apply fit_len|rewrite firstn_length; lia|auto].
    assert (len (firstn 256 a) <= 256) by (unfold len; rewrite firstn_length; lia). pose proof (len_nonneg (firstn 256 a)).
    unfold mul_coef. rewrite (zsum_extend (len (firstn 256 a)) 256); [|lia|].
    + apply zsum_ext. intros i Hi. rewrite get_firstn by lia. unfold ext_. destruct (i <=? k) eqn:E.
      * replace (0 <=? k - i) with true by lia. now rewrite get_fit by lia.
      * replace (0 <=? k - i) with false by lia. rewrite get_fit by lia. replace (256 + (k - i)) with (256 + k - i) by lia. lia.
    + intros i Hi. rewrite <- get_firstn by lia. unfold get at 1 3. rewrite !znth_default by lia. destruct (i <=? k); lia.
Qed.

Fixpoint inner_f (n : nat) (a b : list (list Z)) : list Z :=
  match n with
  | O => pzero
  | S m => padd (inner_f m a b) (pmul_f (getr a (Z.of_nat m)) (getr b (Z.of_nat m)))
  end.
Lemma inner_fast : forall n a b, inner n a b = inner_f n a b.
Proof. induction n; intros; cbn [inner inner_f]; auto. now rewrite IHn, pmul_fast. Qed.

Definition mat_vec_f (n : Z) (A : list (list (list Z))) (s : list (list Z)) : list (list Z) :=
  ztab n (fun i => inner_f (Z.to_nat n) (znth [] A i) s).
Lemma mat_vec_fast : forall n A s, mat_vec n A s = mat_vec_f n A s.
Proof. intros. apply ztab_ext. intros. apply inner_fast. Qed.

(** ** Bit streams, read sequentially *)

Fixpoint word_bits (w : nat) (x : Z) : list bool :=
  match w with O => [] | S w => Z.odd x :: word_bits w (Z.div2 x) end.
Definition stream (w : Z) (l : list Z) : list bool := flat_map (word_bits (Z.to_nat w)) l.
Fixpoint groups {A} (k n : nat) (g : list bool -> A) (s : list bool) : list A :=
  match k with O => [] | S k => g (firstn n s) :: groups k n g (skipn n s) end.
Fixpoint bval (c : list bool) : Z := match c with [] => 0 | b :: c => Z.b2z b + 2 * bval c end.
Fixpoint count (c : list bool) : Z := match c with [] => 0 | b :: c => Z.b2z b + count c end.

Lemma word_bits_len : forall w x, length (word_bits w x) = w.
Proof. induction w; cbn [word_bits length]; auto. Qed.
Lemma word_bits_nth : forall w x k, 0 <= k < Z.of_nat w -> znth false (word_bits w x) k = Z.testbit x k.
Proof.
  induction w; intros x k Hk; [lia|]. cbn [word_bits]. unfold znth. replace (k <? 0) with false by lia.
  destruct (Z.eq_dec k 0) as [->|]; [symmetry; apply Z.bit0_odd|].
  replace (Z.to_nat k) with (S (Z.to_nat (k - 1))) by lia. cbn [nth].
  specialize (IHw (Z.div2 x) (k - 1) ltac:(lia)). unfold znth in IHw. replace (k - 1 <? 0) with false in IHw by lia. rewrite IHw.
  rewrite Z.div2_spec, Z.shiftr_spec by lia. f_equal. lia.
Qed.

Lemma stream_bit : forall w l k, 0 < w -> 0 <= k -> znth false (stream w l) k = fbit w l k.
Proof.
  intros w. induction l as [|x l IH]; intros k Hw Hk.
  - unfold fbit, get. rewrite !znth_default by (cbn; try lia; pose proof (Z.div_pos k w); cbn; lia). now rewrite Z.bits_0.
  - cbn [stream flat_map]. assert (len (word_bits (Z.to_nat w) x) = w) as L by (unfold len; rewrite word_bits_len; lia).
    destruct (Z_lt_dec k w).
    + rewrite znth_app1 by lia. rewrite word_bits_nth by lia. unfold fbit. rewrite Z.div_small, Z.mod_small by lia. reflexivity.
    + rewrite znth_app2 by lia. rewrite L. fold (stream w l). rewrite IH by lia. unfold fbit.
      replace k with (k - w + 1 * w) at 3 4 by lia. rewrite Z.div_add, Z.mod_add by lia.
      rewrite get_cons by (apply Z.div_pos; lia). reflexivity.
Qed.

Lemma groups_fast : forall A n w (g : list bool -> A) f s, 0 <= n -> 0 <= w ->
  (forall i, 0 <= i < n -> f i = g (zfirst w (zskip (w * i) s))) -> ztab n f = groups (Z.to_nat n) (Z.to_nat w) g s.
Proof.
  intros A n w g f s Hn Hw. revert f s. pattern n. apply natlike_ind; auto; clear n Hn.
  intros n Hn IH f s H. rewrite <- Z.add_1_r. replace (Z.to_nat (n + 1)) with (S (Z.to_nat n)) by lia. cbn [groups].
  rewrite (Z.add_comm n), ztab_split by lia. change (ztab 1 f) with [f 0]. cbn [app]. f_equal.
  - rewrite H by lia. rewrite Z.mul_0_r. reflexivity.
  - apply IH. intros i Hi. rewrite H by lia. f_equal. f_equal. change (skipn (Z.to_nat w) s) with (zskip w s).
    rewrite zskip_zskip by nia. f_equal. lia.
Qed.

Lemma bval_bound : forall c, 0 <= bval c < 2 ^ len c.
Proof.
  induction c; cbn [bval]; [cbn; lia|]. replace (len (a :: c)) with (len c + 1) by (unfold len; cbn [length]; lia).
  pose proof (len_nonneg c). rewrite Z.pow_add_r by lia. destruct a; cbn [Z.b2z]; lia.
Qed.
Lemma bval_testbit : forall c k, 0 <= k -> Z.testbit (bval c) k = znth false c k.
Proof.
  induction c as [|b c IH]; intros k Hk; cbn [bval].
  - rewrite Z.bits_0. unfold znth. destruct (k <? 0); auto. now destruct (Z.to_nat k).
  - unfold znth. replace (k <? 0) with false by lia. destruct (Z.eq_dec k 0) as [->|].
    + rewrite Z.add_b2z_double_bit0. reflexivity.
    + replace (Z.to_nat k) with (S (Z.to_nat (k - 1))) by lia. cbn [nth].
      replace (Z.b2z b + 2 * bval c) with (2 * bval c + Z.b2z b) by lia.
      replace k with (Z.succ (k - 1)) at 1 by lia. specialize (IH (k - 1) ltac:(lia)). unfold znth in IH. replace (k - 1 <? 0) with false in IH by lia.
      rewrite <- IH. destruct b; cbn [Z.b2z]; [now rewrite Z.testbit_odd_succ by lia|rewrite Z.add_0_r; now rewrite Z.testbit_even_succ by lia].
Qed.

Lemma len_zfirst_le : forall A n (l : list A), 0 <= n -> len (zfirst n l) <= n.
Proof. intros. unfold len, zfirst. rewrite firstn_length. lia. Qed.

Lemma chunk_bit : forall w1 w2 l i m, 0 < w1 -> 0 <= i -> 0 <= m < w2 ->
  znth false (zfirst w2 (zskip (w2 * i) (stream w1 l))) m = fbit w1 l (w2 * i + m).
Proof. intros. rewrite znth_zfirst, znth_zskip by nia. apply stream_bit; nia. Qed.

Definition regroup_f (w1 w2 n : Z) (l : list Z) : list Z := groups (Z.to_nat n) (Z.to_nat w2) bval (stream w1 l).
Lemma regroup_fast : forall w1 w2 n l, 0 < w1 -> 0 <= w2 -> 0 <= n -> regroup w1 w2 n l = regroup_f w1 w2 n l.
Proof.
  intros. apply groups_fast; auto. intros i Hi. set (c := zfirst _ _). symmetry. apply bits_val_eq; [lia| |].
  - pose proof (bval_bound c). assert (2 ^ len c <= 2 ^ w2) by (apply Z.pow_le_mono_r; [lia|apply len_zfirst_le; lia]). lia.
  - intros k Hk. rewrite bval_testbit by lia. apply chunk_bit; lia.
Qed.

Lemma count_hw : forall c n, len c <= Z.of_nat n -> count c = zsumn n (fun k => Z.b2z (znth false c k)).
Proof.
  intros c n. revert c. induction n; intros c H.
  - destruct c; [reflexivity|unfold len in H; cbn [length] in H; lia].
  - cbn [zsumn]. destruct (Z.eq_dec (len c) (Z.of_nat n + 1)) as [E|].
    + assert (c <> []) as N by (destruct c; [cbn in E; lia|discriminate]).
      destruct (exists_last N) as (c' & b & ->). rewrite len_app in E. change (len [b]) with 1 in E.
      rewrite znth_app2 by lia. replace (Z.of_nat n - len c') with 0 by lia. change (znth false [b] 0) with b.
      rewrite (zsumn_ext _ _ (fun k => Z.b2z (znth false c' k))) by (intros; now rewrite znth_app1 by lia).
      rewrite <- IHn by lia. clear. induction c'; cbn [app count]; [lia|]. rewrite IHc'. lia.
    + rewrite (znth_default false c (Z.of_nat n)) by lia. rewrite IHn by lia. cbn. lia.
Qed.

Definition cbd_chunk (h : nat) (c : list bool) : Z := count (firstn h c) - count (skipn h c).
Definition cbd_poly_f (mu : Z) (buf : list Z) : list Z := groups 256 (Z.to_nat mu) (cbd_chunk (Z.to_nat (mu / 2))) (stream 8 buf).
Lemma cbd_poly_fast : forall mu buf, 0 <= mu -> mu mod 2 = 0 -> cbd_poly mu buf = cbd_poly_f mu buf.
Proof.
  intros mu buf Hm He. pose proof (Z.div_mod mu 2). apply groups_fast; [lia|lia|]. intros i Hi. unfold cbd_coef, cbd_chunk, hw, zsum.
  change (firstn (Z.to_nat (mu / 2))) with (@zfirst bool (mu / 2)). change (skipn (Z.to_nat (mu / 2))) with (@zskip bool (mu / 2)).
  set (c := zfirst mu _). pose proof (len_zfirst_le bool mu (zskip (mu * i) (stream 8 buf)) Hm). fold c in H0.
  rewrite (count_hw (zfirst (mu / 2) c) (Z.to_nat (mu / 2))) by (rewrite Z2Nat.id by lia; apply len_zfirst_le; lia).
  rewrite (count_hw (zskip (mu / 2) c) (Z.to_nat (mu / 2))) by (unfold len, zskip in *; rewrite skipn_length; lia).
  f_equal; apply zsumn_ext; intros k Hk; f_equal.
  - rewrite znth_zfirst by lia. symmetry. apply chunk_bit; lia.
  - rewrite znth_zskip by lia. unfold c. rewrite chunk_bit by lia. f_equal. lia.
Qed.

(** ** The scheme *)

Definition pack_f (w : Z) (l : list Z) : list Z := regroup_f w 8 (32 * w) l.
Definition unpack_f (w : Z) (l : list Z) : list Z := regroup_f 8 w 256 l.
Definition pack_vec_f (w : Z) (v : list (list Z)) : list Z := flat_map (pack_f w) v.
Definition unpack_vec_f (w n : Z) (b : list Z) : list (list Z) := ztab n (fun i => unpack_f w (zskip (32 * w * i) b)).
Lemma pack_fast : forall w l, 0 < w -> pack w l = pack_f w l.
Proof. intros. apply regroup_fast; lia. Qed.
Lemma unpack_fast : forall w l, 0 < w -> unpack w l = unpack_f w l.
Proof. intros. apply regroup_fast; lia. Qed.
Lemma pack_vec_fast : forall w v, 0 < w -> pack_vec w v = pack_vec_f w v.
Proof. intros. unfold pack_vec, pack_vec_f. apply flat_map_ext. intros. now apply pack_fast. Qed.
Lemma unpack_vec_fast : forall w n b, 0 < w -> unpack_vec w n b = unpack_vec_f w n b.
Proof. intros. apply ztab_ext. intros. now apply unpack_fast. Qed.

Section Fast.
  Variable H G H' G' : list Z -> list Z.
  Variable X X' : Z -> list Z -> list Z.
  Hypothesis EH : forall x, H x = H' x.
  Hypothesis EG : forall x, G x = G' x.
  Hypothesis EX : forall n x, X n x = X' n x.
  Variable c : cfg.
  Let p := par c.

  Lemma Pw : 0 < p_eq p /\ 0 < p_et p /\ 0 <= p_mu p /\ p_mu p mod 2 = 0.
  Proof. subst p. destruct c as [[] [] ?]; cbn; lia. Qed.

  Definition round_vec_f (v : list (list Z)) : list (list Z) :=
    let r := rc1 p in let m := Z.ones (p_eq p) in let s := p_eq p - 10 in map (map (fun x => Z.shiftr (Z.land (x + r) m) s)) v.
  Lemma round_vec_fast : forall v, round_vec p v = round_vec_f v.
  Proof.
    intros. apply map_ext. intros l. apply map_ext. intros x. unfold round_qp. destruct Pw as (P1 & _).
    rewrite Z.land_ones, Z.shiftr_div_pow2; auto; subst p; rewrite ?par_eq; pose proof (cfg_EQ c); lia.
  Qed.
  Definition pub_vec_f A s := round_vec_f (mat_vec_f (p_l p) (transpose (p_l p) A) s).
  Definition ct_vec_f A s := round_vec_f (mat_vec_f (p_l p) A s).
  Definition ct_msg_f b s m :=
    let v := inner_f (Z.to_nat (p_l p)) b s in let r := rc1 p in let d := 10 - p_et p in
    ztab 256 (fun k => Z.shiftr (Z.land (get v k - 512 * get m k + r) 1023) d).
  Definition dec_msg_f b s cm :=
    let v := inner_f (Z.to_nat (p_l p)) b s in let r := rc2 p in let d := 2 ^ (10 - p_et p) in
    ztab 256 (fun k => Z.shiftr (Z.land (get v k + r - d * get cm k) 1023) 9).
  Lemma pub_vec_fast : forall A s, pub_vec p A s = pub_vec_f A s.
  Proof. intros. unfold pub_vec. now rewrite mat_vec_fast, round_vec_fast. Qed.
  Lemma ct_vec_fast : forall A s, ct_vec p A s = ct_vec_f A s.
  Proof. intros. unfold ct_vec. now rewrite mat_vec_fast, round_vec_fast. Qed.
  Lemma ct_msg_fast : forall b s m, ct_msg p b s m = ct_msg_f b s m.
  Proof.
    intros. unfold ct_msg, ct_msg_f. rewrite inner_fast. cbn zeta. apply ztab_ext. intros. change 1023 with (Z.ones 10). rewrite Z.land_ones by lia.
    rewrite Z.shiftr_div_pow2; auto. subst p; rewrite par_et; pose proof (cfg_ET c); lia.
  Qed.
  Lemma dec_msg_fast : forall b s m, dec_msg p b s m = dec_msg_f b s m.
  Proof.
    intros. unfold dec_msg, dec_msg_f. rewrite inner_fast. cbn zeta. apply ztab_ext. intros. change 1023 with (Z.ones 10). rewrite Z.land_ones by lia.
    rewrite Z.shiftr_div_pow2; auto. lia.
  Qed.

  Definition expand_A_f (seed : list Z) : list (list (list Z)) :=
    let stream := X' (p_l p * (p_l p * (32 * p_eq p))) seed in
    ztab (p_l p) (fun i => unpack_vec_f (p_eq p) (p_l p) (zskip (32 * p_eq p * p_l p * i) stream)).
  Definition expand_s_f (seed : list Z) : list (list Z) :=
    if p_uniform p then gen_vec_u (p_l p) (X' (p_l p * 64) seed)
    else let stream := X' (p_l p * (32 * p_mu p)) seed in ztab (p_l p) (fun i => cbd_poly_f (p_mu p) (zskip (32 * p_mu p * i) stream)).
  Lemma expand_A_fast : forall seed, expand_A X p seed = expand_A_f seed.
  Proof. intros. unfold expand_A. rewrite EX. apply ztab_ext. intros. apply unpack_vec_fast. apply Pw. Qed.
  Lemma expand_s_fast : forall seed, expand_s X p seed = expand_s_f seed.
  Proof.
    intros. unfold expand_s, expand_s_f. rewrite !EX. destruct (p_uniform p); auto. apply ztab_ext. intros. apply cbd_poly_fast; apply Pw.
  Qed.

  Definition pke_pk_f seed_A seed_s := pack_vec_f 10 (pub_vec_f (expand_A_f seed_A) (expand_s_f seed_s)) ++ seed_A.
  Definition pke_sk_f seed_s := pack_vec_f (p_eq p) (expand_s_f seed_s).
  Definition pke_enc_f (pk m r : list Z) : list Z :=
    let b := unpack_vec_f 10 (p_l p) pk in
    let A := expand_A_f (zfirst 32 (zskip (p_l p * 320) pk)) in
    let s := expand_s_f r in
    pack_vec_f 10 (ct_vec_f A s) ++ pack_f (p_et p) (ct_msg_f b s (unpack_f 1 m)).
  Definition pke_dec_f (sk c : list Z) : list Z :=
    let s := unpack_vec_f (p_eq p) (p_l p) sk in
    let b := unpack_vec_f 10 (p_l p) c in
    let cm := unpack_f (p_et p) (zskip (p_l p * 320) c) in
    pack_f 1 (dec_msg_f b s cm).
  Lemma pke_pk_fast : forall a s, pke_pk X p a s = pke_pk_f a s.
  Proof. intros. unfold pke_pk, pke_pk_f. now rewrite pub_vec_fast, expand_A_fast, expand_s_fast, pack_vec_fast by lia. Qed.
  Lemma pke_sk_fast : forall s, pke_sk X p s = pke_sk_f s.
  Proof. intros. unfold pke_sk. rewrite expand_s_fast. apply pack_vec_fast. apply Pw. Qed.
  Lemma pke_enc_fast : forall pk m r, pke_enc X p pk m r = pke_enc_f pk m r.
  Proof.
    intros. unfold pke_enc, pke_enc_f. cbn zeta. rewrite ct_vec_fast, ct_msg_fast, expand_A_fast, expand_s_fast.
    rewrite pack_vec_fast, pack_fast, unpack_vec_fast, unpack_fast by (try apply Pw; lia). reflexivity.
  Qed.
  Lemma pke_dec_fast : forall sk c, pke_dec p sk c = pke_dec_f sk c.
  Proof.
    intros. unfold pke_dec, pke_dec_f. cbn zeta. rewrite dec_msg_fast. destruct Pw as (? & ? & _).
    rewrite pack_fast, !unpack_vec_fast, unpack_fast by lia. reflexivity.
  Qed.

  (** Public key, secret key, ciphertext and key of one run, and the result of decapsulation. *)
  Definition kem_keys_f (r1 r2 z : list Z) : list Z * list Z :=
    let pk := pke_pk_f (X' 32 r1) r2 in (pk, pke_sk_f r2 ++ pk ++ H' pk ++ z).
  Lemma kem_keys_fast : forall r1 r2 z, (kem_pk X p r1 r2, kem_sk H X p r1 r2 z) = kem_keys_f r1 r2 z.
  Proof. intros. unfold kem_sk, kem_pk, kem_keys_f. now rewrite !pke_pk_fast, pke_sk_fast, EX, EH. Qed.

  Definition kem_enc_f (pk rnd : list Z) : list Z * list Z :=
    let m := H' rnd in
    let kr := G' (m ++ H' pk) in
    let c := pke_enc_f pk m (zskip 32 kr) in
    (c, H' (zfirst 32 kr ++ H' c)).
  Lemma kem_enc_fast : forall pk rnd, kem_enc H G X p pk rnd = kem_enc_f pk rnd.
  Proof. intros. unfold kem_enc, kem_enc_f. now rewrite !pke_enc_fast, !EH, !EG. Qed.

  Definition kem_dec_f (sk c : list Z) : list Z :=
    let m := pke_dec_f (sk_pke p sk) c in
    let kr := G' (m ++ sk_hash p sk) in
    if list_eq_dec Z.eq_dec c (pke_enc_f (sk_pk p sk) m (zskip 32 kr))
    then H' (zfirst 32 kr ++ H' c) else H' (sk_z p sk ++ H' c).
  Lemma kem_dec_fast : forall sk c, kem_dec H G X p sk c = kem_dec_f sk c.
  Proof.
    intros. unfold kem_dec, kem_dec_f, dec_ct, dec_kr, dec_m. rewrite !EH, !EG, !pke_enc_fast, !pke_dec_fast.
    reflexivity.
  Qed.

  (** All noise coefficients of an encapsulation are in the window. *)
  Definition in_windowb (e : Z) : bool := let z := Z.land (e + 512) 1023 in (256 <=? z) && (z <=? 767).
  Lemma in_windowb_ok : forall e, in_windowb e = true -> in_window e.
  Proof.
    unfold in_windowb, in_window. intros e E. change 1023 with (Z.ones 10) in E. rewrite Z.land_ones in E by lia. change (2 ^ 10) with 1024 in E.
    apply andb_true_iff in E. lia.
  Qed.
  Definition window_f (r1 r2 rnd : list Z) : bool :=
    let a := X' 32 r1 in
    let A := expand_A_f a in
    let s := expand_s_f r2 in
    let b := pub_vec_f A s in
    let m := H' rnd in
    let s' := expand_s_f (zskip 32 (G' (m ++ H' (pack_vec_f 10 b ++ a)))) in
    let v := inner_f (Z.to_nat (p_l p)) b s' in
    let v' := inner_f (Z.to_nat (p_l p)) (ct_vec_f A s') s in
    let mp := unpack_f 1 m in
    let r := rc1 p in let d := Z.ones (10 - p_et p) in let h := 2 ^ (10 - p_et p - 1) in
    forallb in_windowb (ztab 256 (fun k => get v' k - get v k + (Z.land (Z.land (get v k - 512 * get mp k + r) 1023) d - h))).
  Lemma window_fast : forall r1 r2 rnd, window_f r1 r2 rnd = true ->
    forall k, 0 <= k < 256 -> in_window (kem_noise H G X p r1 r2 rnd k).
  Proof.
    intros r1 r2 rnd W k Hk. unfold window_f in W. cbn zeta in W. rewrite forallb_forall in W.
    apply in_windowb_ok. apply W. clear W.
    match goal with |- In ?x ?l => replace x with (get l k) end.
    - unfold get, znth. replace (k <? 0) with false by lia. apply nth_In.
      match goal with |- (_ < length ?l)%nat => assert (len l = 256) as L by (apply len_ztab; lia) end. unfold len in L. lia.
    - rewrite get_ztab by auto. unfold kem_noise, pke_noise, noise, kem_pk, pke_pk. fold p.
      rewrite <- (pack_vec_fast 10) by lia. rewrite <- EX, <- !EH, <- EG. rewrite <- unpack_fast by lia.
      rewrite <- !expand_A_fast, <- !expand_s_fast, <- !pub_vec_fast, <- ct_vec_fast, <- !inner_fast.
      change 1023 with (Z.ones 10). assert (0 <= 10 - p_et p) by (subst p; rewrite par_et; pose proof (cfg_ET c); lia).
      rewrite !Z.land_ones by lia. reflexivity.
  Qed.
End Fast.
