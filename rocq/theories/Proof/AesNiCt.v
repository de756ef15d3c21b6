(** Traces of AES-256 in counter mode with the AES instructions: they depend on the nonce and on lengths, not on the key. *)
From Coq Require Import ZArith List Bool Lia.
From Verif Require Import Lib.Arr Lib.CInt Lib.CMon Model.Params Model.Vec Model.AesNi Proof.CtP Proof.AesNiThm Proof.AvxCt.
Import ListNotations.
Local Open Scope Z_scope.

Lemma ct_refl : forall A (m : M A), ct eq m m.
Proof. intros A m t. destruct (m t); auto. Qed.
Lemma ct_wp : forall A B (R : A -> B -> Prop) m1 m2 (P : A -> Prop) (Q : B -> Prop), ct R m1 m2 -> wp m1 P -> wp m2 Q ->
  ct (fun a b => R a b /\ P a /\ Q b) m1 m2.
Proof.
  intros A B R m1 m2 P Q C H1 H2 t. specialize (C t). destruct (H1 t) as (a & t1 & E1 & Ha). destruct (H2 t) as (b & t2 & E2 & Hb).
  rewrite E1, E2 in *. intuition.
Qed.

Lemma slen_ztab : forall n (f g : Z -> Z), slen (ztab n f) (ztab n g).
Proof. intros. unfold slen, ztab. now rewrite !map_length. Qed.
Lemma slen_app : forall (a b a' b' : list Z), slen a a' -> slen b b' -> slen (a ++ b) (a' ++ b').
Proof. unfold slen. intros. rewrite !app_length. congruence. Qed.
Lemma slen_xor : forall a b a' b', slen (mm_xor a b) (mm_xor a' b').
Proof. intros. apply slen_ztab. Qed.
Lemma slen_ps : forall a b a' b' i, slen (mm_shuffle_ps a b i) (mm_shuffle_ps a' b' i).
Proof. intros. unfold mm_shuffle_ps, elt. repeat apply slen_app; apply slen_ztab. Qed.
#[export] Hint Resolve slen_xor slen_ps : ct.

Lemma ct_mm_load : forall p p', ct (@shape _ sh_l1) (mm_load p) (mm_load p').
Proof. intros. unfold mm_load. apply ct_memcpy. reflexivity. Qed.
Lemma ct_mm_store : forall p p' v v', slen p p' -> ct (@shape _ sh_l1) (mm_store p v) (mm_store p' v').
Proof. intros. unfold mm_store. now apply ct_memcpy. Qed.

(** The state of the key expansion: the index is the same. *)
Definition kx (s s' : list Z * list Z * list Z * list (list Z) * Z) : Prop :=
  let '(a, b, c, r, i) := s in let '(a', b', c', r', i') := s' in slen a a' /\ slen b b' /\ slen c c' /\ Forall2 slen r r' /\ i = i'.
Lemma ct_BLOCK1 : forall imm s s', kx s s' -> ct kx (BLOCK1 imm s) (BLOCK1 imm s').
Proof.
  intros imm ((((a, b), c), r), i) ((((a', b'), c'), r'), i') (H1 & H2 & H3 & H4 & <-). unfold BLOCK1.
  eapply ct_bind; [apply ct_setrow; eauto|]. intros. apply ct_ret. repeat split; auto with ct.
Qed.
Lemma ct_BLOCK2 : forall imm s s', kx s s' -> ct kx (BLOCK2 imm s) (BLOCK2 imm s').
Proof.
  intros imm ((((a, b), c), r), i) ((((a', b'), c'), r'), i') (H1 & H2 & H3 & H4 & <-). unfold BLOCK2.
  eapply ct_bind; [apply ct_setrow; eauto|]. intros. apply ct_ret. repeat split; auto with ct.
Qed.
Lemma ct_expand : forall k k' r r', slen k k' -> Forall2 slen r r' -> ct (Forall2 slen) (aesni_key256_expand k r) (aesni_key256_expand k' r').
Proof.
  intros k k' r r' Hk Hr. unfold aesni_key256_expand.
  eapply ct_bind; [apply ct_mm_load|]. intros. eapply ct_bind; [apply ct_ptr; eauto|]. intros.
  eapply ct_bind; [apply ct_mm_load|]. intros. eapply ct_bind; [apply ct_setrow; eauto|]. intros.
  eapply ct_bind; [apply ct_BLOCK1; repeat split; eauto|]. intros.
  do 5 (eapply ct_bind; [apply ct_BLOCK2; eassumption|]; intros; eapply ct_bind; [apply ct_BLOCK1; eassumption|]; intros).
  eapply ct_bind; [apply ct_BLOCK2; eassumption|]. intros.
  eapply ct_bind; [apply ct_BLOCK1; eassumption|].
  intros ((((?, ?), ?), ?), ?) ((((?, ?), ?), ?), ?) (? & ? & ? & ? & <-). now apply ct_setrow.
Qed.

Lemma F2_map : forall (f g : list Z -> list Z) a b, (forall x y, slen (f x) (g y)) -> Forall2 slen a b -> Forall2 slen (map f a) (map g b).
Proof. induction 2; cbn [map]; auto. Qed.
Lemma ct_blocks : forall N out out' nv nv' r r', slen out out' -> Forall2 slen nv nv' -> Forall2 slen r r' ->
  ct slen (aesni_blocks N out nv r) (aesni_blocks N out' nv' r').
Proof.
  intros. unfold aesni_blocks. eapply ct_bind; [apply ct_row; eauto|]. intros.
  eapply ct_bind with (R := Forall2 slen).
  { apply ct_for; [apply F2_map; auto; intros; apply slen_xor|]. intros. eapply ct_bind; [apply ct_row; eauto|]. intros. apply ct_ret.
    apply F2_map; auto. intros. apply slen_xor. }
  intros. eapply ct_bind; [apply ct_row; eauto|]. intros. apply ct_for; auto. intros.
  eapply ct_bind; [apply ct_row, F2_map; eauto; intros; apply slen_xor|]. intros. apply ct_at; auto. intros. now apply ct_mm_store.
Qed.
Lemma F2_refl : forall (l : list (list Z)), Forall2 slen l l.
Proof. induction l; constructor; auto. reflexivity. Qed.

(** The counter [n] is the same in both runs. *)
Definition sc (p q : list Z * list Z) : Prop := slen (fst p) (fst q) /\ snd p = snd q.
Lemma ct_encrypt : forall N out out' n r r', slen out out' -> Forall2 slen r r' -> ct sc (aesni_encrypt N out n r) (aesni_encrypt N out' n r').
Proof.
  intros N out out' n r r' Ho Hr. unfold aesni_encrypt.
  eapply ct_bind; [apply ct_refl|]. intros x ? <-. eapply ct_bind; [apply ct_refl|]. intros p ? <-. eapply ct_bind; [apply ct_refl|]. intros nl ? <-. cbn zeta.
  eapply ct_bind; [apply ct_refl|]. intros (nv, n2) ? <-. eapply ct_bind; [apply ct_blocks; eauto; apply F2_refl|]. intros. apply ct_ret. split; auto.
Qed.

(** Lines 211-250 with a given nonce. *)
Lemma ct_stream : forall N junk junk' out out' outlen n k k', slen out out' -> 16 <= len n -> typed U8 n -> slen k k' ->
  ct (fun p q => slen (fst p) (fst q) /\ snd p = snd q) (crypto_stream_aes256ctr_iter N junk out outlen n k) (crypto_stream_aes256ctr_iter N junk' out' outlen n k').
Proof.
  intros N junk junk' out out' outlen n k k' Ho Ln Tn Hk.
  unfold crypto_stream_aes256ctr_iter. cbn zeta.
  eapply ct_bind; [apply ct_expand; [exact Hk|apply Forall2_ztab; intros; apply slen_uninit]|]. intros rk rk' Hrk.
  assert (forall lo hi f (n2 : list Z), 0 <= lo <= hi -> hi <= 16 -> len n2 = 16 -> (forall i, lo <= i < hi -> 0 <= f i < 16) ->
    wp (for_ lo hi (fun i n2 => st U8 n2 i (Idx U8 n (f i))) n2) (fun m => len m = 16 /\ (forall j, lo <= j < hi -> get m j = get n (f j)) /\ forall j, 0 <= j < lo -> get m j = get n2 j)) as W.
  { intros lo hi f n2 H1 H2 L2 Hf. apply wp_for with (I := fun i m => len m = 16 /\ (forall j, lo <= j < i -> get m j = get n (f j)) /\ forall j, 0 <= j < lo -> get m j = get n2 j); [lia| | |auto].
    - split; [auto|]. split; [lia|auto].
    - intros i m Hi (L & A & B). apply wp_st; [reflexivity|cbn [lok]; split; [specialize (Hf i); lia|auto]|lia|].
      split; [now rewrite len_upd|]. specialize (Hf i ltac:(lia)). split; intros j Hj; unfold get.
      + destruct (Z.eq_dec j i) as [->|].
        * rewrite znth_upd_same by lia. cbn [val]. apply wrap_id. apply (typed_get U8); auto; lia.
        * rewrite znth_upd_diff by lia. apply A. lia.
      + rewrite znth_upd_diff by lia. now apply B. }
  eapply ct_bind.
  { apply ct_wp with (R := slen); [|apply (W 0 8 (fun i => 7 - i)); try lia; apply uninit8_arr; lia|apply (W 0 8 (fun i => 7 - i)); try lia; apply uninit8_arr; lia].
    apply ct_for; [apply slen_uninit8|]. intros. apply ct_st; auto. constructor. }
  intros m m' (Sm & (Lm & Am & _) & (Lm' & Am' & _)).
  eapply ct_bind.
  { apply ct_wp with (R := slen); [|apply (W 8 16 (fun i => 23 - i)); auto; lia|apply (W 8 16 (fun i => 23 - i)); auto; lia].
    apply ct_for; [exact Sm|]. intros. apply ct_st; auto. constructor. }
  intros n2 n2' (_ & (Ln2 & A2 & B2) & (Ln2' & A2' & B2')).
  assert (n2 = n2') as <-.
  { apply znth_ext with 0; [lia|]. intros i Hi. fold (get n2 i). fold (get n2' i). destruct (Z_lt_le_dec i 8).
    - rewrite B2, B2', Am, Am' by lia. reflexivity.
    - rewrite A2, A2' by lia. reflexivity. }
  eapply ct_bind with (R := fun '(o, m, i) '(o', m', i') => slen o o' /\ m = m' /\ i = i').
  - apply ct_while.
    + auto.
    + intros ((?, ?), ?) ((?, ?), ?) (? & -> & ->). auto.
    + intros ((o, c), i) ((o', ?), ?) (Hoo & <- & <-).
      eapply ct_bind; [apply ct_encrypt; [apply slen_uninit|exact Hrk]|]. intros (?, ?) (?, ?) (? & E). cbn [fst snd] in *. subst.
      eapply ct_bind; [apply ct_refl|]. intros mj ? <-.
      eapply ct_bind; [apply ct_for; [exact Hoo|]; intros; apply ct_st; auto; constructor|]. intros. apply ct_ret. auto.
  - intros ((?, ?), ?) ((?, ?), ?) (? & -> & ->). apply ct_ret. split; auto.
Qed.

Lemma ct_ni_prf : ct_prf avx_aes256ctr_prf.
Proof.
  intros j j' out out' n inp inp' m Ho Hi. unfold avx_aes256ctr_prf, crypto_stream_aes256ctr.
  assert (typed U8 (zeros 16)) as T by apply zeros16.
  pose proof (ct_stream 8 j j' out out' n (zeros 16) inp inp' Ho ltac:(discriminate) T Hi) as C.
  eapply ct_bind; [exact C|]. intros (?, ?) (?, ?) (E & _). apply ct_ret. exact E.
Qed.
Definition ct_stream0 := ct_stream 8.
