(** Facts about big-endian numbers. *)
From Coq Require Import ZArith List Bool Lia.
From Verif Require Import Lib.Arr Lib.CInt Lib.CMon Spec.Bytes Model.Params.
Import ListNotations.
Local Open Scope Z_scope.

Lemma len_ben : forall n v, len (ben n v) = Z.of_nat n.
Proof. induction n; intros; cbn [ben]; [reflexivity|]. rewrite len_app, IHn. unfold len; cbn [length]. lia. Qed.
Lemma len_be : forall n v, 0 <= n -> len (be n v) = n.
Proof. intros. unfold be. rewrite len_ben. lia. Qed.
Lemma typed_ben : forall n v, typed U8 (ben n v).
Proof.
  induction n; intros; cbn [ben]; [constructor|]. apply Forall_app. split; [apply IHn|].
  constructor; [|constructor]. pose proof (Z.mod_pos_bound v 256). cbn. lia.
Qed.
Lemma arr_be : forall n v, 0 <= n -> arr U8 n (be n v).
Proof. intros. split; [now apply len_be|apply typed_ben]. Qed.

Lemma be_val_snoc : forall l x, be_val (l ++ [x]) = be_val l * 256 + x.
Proof. intros. unfold be_val. now rewrite fold_left_app. Qed.

Lemma be_val_ben : forall n v, be_val (ben n v) = v mod 256 ^ Z.of_nat n.
Proof.
  induction n; intros v; cbn [ben]; [now rewrite Z.mod_1_r|]. rewrite be_val_snoc, IHn.
  rewrite Nat2Z.inj_succ, Z.pow_succ_r by lia. rewrite Z.rem_mul_r by (try apply Z.pow_pos_nonneg; lia). lia.
Qed.
Lemma be_val_be : forall n v, 0 <= n -> be_val (be n v) = v mod 256 ^ n.
Proof. intros. unfold be. rewrite be_val_ben. do 2 f_equal. lia. Qed.

Lemma ben_mod : forall n v, ben n (v mod 256 ^ Z.of_nat n) = ben n v.
Proof.
  induction n; intros v; cbn [ben]; auto. rewrite Nat2Z.inj_succ, Z.pow_succ_r by lia.
  assert (0 < 256 ^ Z.of_nat n) by (apply Z.pow_pos_nonneg; lia).
  rewrite Z.rem_mul_r by lia. rewrite (Z.mul_comm 256), Z.div_add, Z.mod_add by lia.
  rewrite (Z.div_small (v mod 256)), Z.mod_mod by (try apply Z.mod_pos_bound; lia). cbn [Z.add]. now rewrite IHn.
Qed.
Lemma be_mod : forall v, be 16 (v mod 2 ^ 128) = be 16 v.
Proof. intros. unfold be. change (2 ^ 128) with (256 ^ Z.of_nat (Z.to_nat 16)). apply ben_mod. Qed.

Lemma ben_be_val : forall l, typed U8 l -> ben (length l) (be_val l) = l.
Proof.
  induction l using rev_ind; intros T; [reflexivity|]. apply Forall_app in T. destruct T as (T1 & T2). inversion T2; subst. cbn in H1.
  rewrite app_length. cbn [length]. rewrite Nat.add_1_r. cbn [ben]. rewrite be_val_snoc.
  rewrite Z.div_add_l, Z.div_small, Z.add_0_r by lia. rewrite IHl by auto. f_equal. f_equal.
  rewrite Z.add_comm, Z.mod_add, Z.mod_small by lia. reflexivity.
Qed.
Lemma be_be_val : forall n l, arr U8 n l -> be n (be_val l) = l.
Proof. intros n l (L & T). unfold be. rewrite <- L. unfold len. rewrite Nat2Z.id. now apply ben_be_val. Qed.

Lemma be_inj : forall n v w, 0 <= n -> be n v = be n w -> v mod 256 ^ n = w mod 256 ^ n.
Proof. intros n v w Hn H. rewrite <- !be_val_be by auto. now rewrite H. Qed.

Lemma zfirst_ge : forall {A} n (l : list A), len l <= n -> zfirst n l = l.
Proof. intros A n l H. unfold zfirst. apply firstn_all2. unfold len in H. lia. Qed.
