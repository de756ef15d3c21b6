(** Traces of the four-fold implementation: key generation, encapsulation and decapsulation. *)
From Coq Require Import ZArith List Lia.
From Verif Require Import Lib.Arr Lib.CInt Lib.CMon Spec.Sym Spec.X4Spec Spec.CtSpec Model.Params Model.Api Model.X4Kem
  Proof.CtP Proof.SymP Proof.KemThm Proof.M4Thm Proof.X4KemThm Proof.AvxCtThm Proof.X4Ct.
Import ListNotations.
Local Open Scope Z_scope.

Lemma C69_keypair_lemma : forall S (rb : S -> Z -> list Z * S), source_ok rb ->
  forall junk junk' s s' pk pk' sk sk', len pk = 4 * 992 -> len pk' = 4 * 992 -> len sk = 4 * 2304 -> len sk' = 4 * 2304 ->
  leak (x4_kem_keypair rb 168 junk s pk sk) = leak (x4_kem_keypair rb 168 junk' s' pk' sk') /\ leak (x4_kem_keypair rb 168 junk s pk sk) <> None.
Proof.
  intros S rb Hrb junk junk' s s' pk pk' sk sk' Lp Lp' Ls Ls'.
  assert (N : forall junk s pk sk, len pk = 4 * 992 -> len sk = 4 * 2304 -> run (x4_kem_keypair rb 168 junk s pk sk) <> None).
  { intros j x p k Hp Hk. destruct (C54_keypair_lemma S rb j j x p k Hrb Hp Hk) as (? & ? & ? & ? & ? & ? & ? & ? & ? & ? & ? & ? & _ & _ & _ & _ & E).
    rewrite E. discriminate. }
  split; [|apply leak_ne; now apply N]. eapply ct_leak_ok; [|now apply N|now apply N].
  apply (ct_x4_kem_keypair rb Hrb); apply slen_len; congruence.
Qed.
Lemma C69_enc_lemma : forall S (rb : S -> Z -> list Z * S), source_ok rb ->
  forall junk junk' s s' c c' k k' pk pk', len c = 4 * 1088 -> len c' = 4 * 1088 -> len k = 4 * 32 -> len k' = 4 * 32 ->
  arr U8 (4 * 992) pk -> arr U8 (4 * 992) pk' ->
  leak (x4_kem_enc rb 168 junk s c k pk) = leak (x4_kem_enc rb 168 junk' s' c' k' pk') /\ leak (x4_kem_enc rb 168 junk s c k pk) <> None.
Proof.
  intros S rb Hrb junk junk' s s' c c' k k' pk pk' Lc Lc' Lk Lk' Lp Lp'.
  assert (N : forall junk s c k pk, len c = 4 * 1088 -> len k = 4 * 32 -> arr U8 (4 * 992) pk -> run (x4_kem_enc rb 168 junk s c k pk) <> None).
  { intros j x d l p Hd Hl Hp. destruct (C54_enc_lemma S rb j j x d l p Hrb Hd Hl Hp) as (? & ? & ? & ? & ? & ? & ? & ? & ? & ? & ? & ? & _ & _ & _ & _ & E).
    rewrite E. discriminate. }
  split; [|apply leak_ne; now apply N]. eapply ct_leak_ok; [|now apply N|now apply N].
  destruct Lp as (Lp & _), Lp' as (Lp' & _). apply (ct_x4_kem_enc rb Hrb); apply slen_len; congruence.
Qed.
Lemma C69_dec_lemma : forall junk junk' k k' c c' sk sk', len k = 4 * 32 -> len k' = 4 * 32 -> arr U8 (4 * 1088) c -> arr U8 (4 * 1088) c' ->
  arr U8 (4 * 2304) sk -> arr U8 (4 * 2304) sk' ->
  leak (x4_kem_dec 168 junk k c sk) = leak (x4_kem_dec 168 junk' k' c' sk') /\ leak (x4_kem_dec 168 junk k c sk) <> None.
Proof.
  intros junk junk' k k' c c' sk sk' Lk Lk' Lc Lc' Ls Ls'.
  assert (N : forall junk k c sk, len k = 4 * 32 -> arr U8 (4 * 1088) c -> arr U8 (4 * 2304) sk -> run (x4_kem_dec 168 junk k c sk) <> None).
  { intros j l d p Hl Hd Hp. destruct (C54_dec_lemma j j l d p Hl Hd Hp) as (? & ? & ? & ? & _ & _ & _ & _ & E). rewrite E. discriminate. }
  split; [|apply leak_ne; now apply N]. eapply ct_leak_ok; [|now apply N|now apply N].
  destruct Lc as (Lc & _), Lc' as (Lc' & _), Ls as (Ls & _), Ls' as (Ls' & _). apply ct_x4_kem_dec; apply slen_len; congruence.
Qed.
