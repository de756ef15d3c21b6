(** A faster evaluator for AES-256 and counter mode: the S-box as a table, each block computed once. *)
From Coq Require Import ZArith List Bool Lia.
From Verif Require Import Lib.Arr Spec.Aes.
Import ListNotations.
Local Open Scope Z_scope.

Definition sbox_tab : list Z := Eval vm_compute in ztab 256 sbox.
Definition sbox_f (x : Z) : Z := if (0 <=? x) && (x <? 256) then get sbox_tab x else sbox x.
Lemma sbox_fast : forall x, sbox x = sbox_f x.
Proof.
  intros x. unfold sbox_f. destruct ((0 <=? x) && (x <? 256)) eqn:E; auto.
  assert (ztab 256 sbox = sbox_tab) as <- by (vm_compute; reflexivity).
  apply andb_true_iff in E. unfold get. rewrite znth_ztab by lia. reflexivity.
Qed.

Definition SubBytes_f (s : list Z) : list Z := map sbox_f (ztab 16 (get s)).
Definition SubWord_f (w : list Z) : list Z := map sbox_f (ztab 4 (get w)).
Lemma map_ztab : forall n (f g : Z -> Z), map f (ztab n g) = ztab n (fun i => f (g i)).
Proof. intros. unfold ztab. now rewrite map_map. Qed.
Lemma SubBytes_fast : forall s, SubBytes s = SubBytes_f s.
Proof. intros. unfold SubBytes_f. rewrite map_ztab. apply ztab_ext. intros. apply sbox_fast. Qed.
Lemma SubWord_fast : forall s, SubWord s = SubWord_f s.
Proof. intros. unfold SubWord_f. rewrite map_ztab. apply ztab_ext. intros. apply sbox_fast. Qed.

Definition next_word_f (w : list (list Z)) : list Z :=
  let i := len w in
  let temp := getr w (i - 1) in
  let temp := if i mod 8 =? 0 then xorw (SubWord_f (RotWord temp)) (Rcon (i / 8)) else if i mod 8 =? 4 then SubWord_f temp else temp in
  xorw (getr w (i - 8)) temp.
Fixpoint expand_f (n : nat) (w : list (list Z)) : list (list Z) := match n with O => w | S k => expand_f k (w ++ [next_word_f w]) end.
Lemma next_word_fast : forall w, next_word w = next_word_f w.
Proof. intros. unfold next_word, next_word_f. cbn zeta. now rewrite !SubWord_fast. Qed.
Lemma expand_fast : forall n w, expand n w = expand_f n w.
Proof. induction n; intros; cbn [expand expand_f]; auto. now rewrite IHn, next_word_fast. Qed.
Definition KeyExpansion_f (key : list Z) : list (list Z) := expand_f 52 (ztab 8 (fun i => ztab 4 (fun j => get key (4 * i + j)))).
Lemma KeyExpansion_fast : forall key, KeyExpansion key = KeyExpansion_f key.
Proof. intros. unfold KeyExpansion, KeyExpansion_f. rewrite expand_fast. reflexivity. Qed.
Local Opaque KeyExpansion KeyExpansion_f.

Fixpoint rounds_f (w : list (list Z)) (n : nat) (r : Z) (s : list Z) : list Z :=
  match n with O => s | S k => rounds_f w k (r + 1) (AddRoundKey (MixColumns (ShiftRows (SubBytes_f s))) (round_key w r)) end.
Definition Cipher_f (w : list (list Z)) (inp : list Z) : list Z :=
  let s := AddRoundKey inp (round_key w 0) in
  let s := rounds_f w 13 1 s in
  AddRoundKey (ShiftRows (SubBytes_f s)) (round_key w 14).
Lemma rounds_fast : forall w n r s, rounds w n r s = rounds_f w n r s.
Proof. intros w n. induction n; intros; cbn [rounds rounds_f]; auto. unfold cipher_round. now rewrite IHn, SubBytes_fast. Qed.
Lemma Cipher_fast : forall w inp, Cipher w inp = Cipher_f w inp.
Proof. intros. unfold Cipher, Cipher_f. cbn zeta. now rewrite rounds_fast, SubBytes_fast. Qed.
Definition AES256_f (key inp : list Z) : list Z := Cipher_f (KeyExpansion_f key) inp.
Lemma AES256_fast : forall key inp, AES256 key inp = AES256_f key inp.
Proof. intros. unfold AES256, AES256_f. rewrite Cipher_fast, KeyExpansion_fast. reflexivity. Qed.
Lemma Cipher_len : forall w x, len (Cipher w x) = 16.
Proof. intros. unfold Cipher. cbn zeta. unfold AddRoundKey at 1. apply len_ztab. lia. Qed.
Local Opaque Cipher Cipher_f.

(** The first [n] bytes of the stream. *)
Definition ctr_f (key nonce : list Z) (n : Z) : list Z :=
  let w := KeyExpansion_f key in let p := zfirst 12 nonce in
  zfirst n (concat (ztab ((n + 15) / 16) (fun j => Cipher_f w (p ++ be 4 (j mod 2 ^ 32))))).
Lemma concat_ztab_get : forall (f : Z -> list Z) m i, (forall j, len (f j) = 16) -> 0 <= m -> 0 <= i < 16 * m ->
  get (concat (ztab m f)) i = get (f (i / 16)) (i mod 16).
Proof.
  intros f m i L Hm. revert f L i. pattern m. apply natlike_ind; auto.
  - intros. lia.
  - intros x Hx IH f L i Hi. replace (Z.succ x) with (1 + x) by lia. rewrite ztab_split by lia.
    unfold ztab at 1. change (Z.to_nat 1) with 1%nat. cbn [seq map app concat]. change (Z.of_nat 0) with 0.
    destruct (Z_lt_le_dec i 16) as [H|H].
    + unfold get. rewrite znth_app1 by (rewrite L; lia). now rewrite Z.div_small, Z.mod_small by lia.
    + unfold get. rewrite znth_app2 by (rewrite L; lia). rewrite L. fold (get (concat (ztab x (fun i0 => f (1 + i0)))) (i - 16)).
      rewrite IH by (auto; lia). replace i with (i - 16 + 1 * 16) at 3 4 by lia. rewrite Z.div_add, Z.mod_add by lia.
      unfold get. do 2 f_equal. lia.
Qed.
Lemma concat_ztab_len : forall (f : Z -> list Z) m, (forall j, len (f j) = 16) -> 0 <= m -> len (concat (ztab m f)) = 16 * m.
Proof.
  intros f m L Hm. revert f L. pattern m. apply natlike_ind; auto.
  intros x Hx IH f L. replace (Z.succ x) with (1 + x) by lia. rewrite ztab_split by lia.
  unfold ztab at 1. change (Z.to_nat 1) with 1%nat. cbn [seq map app concat]. rewrite len_app, L, IH by auto. lia.
Qed.
Lemma ctr_fast : forall key nonce n, ctr_stream key nonce 0 n = ctr_f key nonce n.
Proof.
  intros key nonce n. destruct (Z_lt_le_dec n 0) as [Hn|Hn].
  { unfold ctr_stream, ztab, ctr_f, zfirst. destruct n; try lia. reflexivity. }
  unfold ctr_f. cbn zeta.
  replace (ztab ((n + 15) / 16) _) with (ztab ((n + 15) / 16) (ctr_block key nonce)).
  2:{ apply ztab_ext. intros j Hj. unfold ctr_block, AES256. rewrite <- Cipher_fast, <- KeyExpansion_fast. reflexivity. }
  assert (0 <= (n + 15) / 16 /\ n <= 16 * ((n + 15) / 16)) as (H1 & H2) by (pose proof (Z.div_mod (n + 15) 16); pose proof (Z.mod_pos_bound (n + 15) 16); lia).
  assert (forall j, len (ctr_block key nonce j) = 16) as L by (intros; apply Cipher_len).
  apply znth_ext with 0.
  - rewrite len_zfirst by (rewrite concat_ztab_len by auto; lia). unfold ctr_stream. apply len_ztab. lia.
  - unfold ctr_stream at 1. rewrite len_ztab by lia. intros i Hi. unfold ctr_stream. rewrite znth_ztab by lia. rewrite znth_zfirst by lia.
    fold (get (concat (ztab ((n + 15) / 16) (ctr_block key nonce))) i). rewrite concat_ztab_get by (auto; lia). reflexivity.
Qed.
