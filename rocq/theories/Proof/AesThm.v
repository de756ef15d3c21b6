(** Consequences for aes256ctr.c and the prf of the 90s variants. *)
From Coq Require Import ZArith List Bool Lia.
From Verif Require Import Lib.Arr Lib.CInt Lib.CMon Spec.Aes Model.Params Model.Sha2 Model.Aes Proof.BytesP Proof.KemP Proof.CtP Proof.AesKey Proof.AesP Proof.AesCt.
Import ListNotations.
Local Open Scope Z_scope.
Local Opaque ctr_stream KeyExpansion Cipher.

Lemma zeros12 : 12 <= len (zeros 12) /\ typed U8 (zeros 12).
Proof. split; [discriminate|apply Forall_repeat; cbn; lia]. Qed.

Lemma aes_prf_run : forall junk out n key nonce, 0 <= n <= len out -> 32 <= len key -> typed U8 key -> 12 <= len nonce -> typed U8 nonce ->
  run (aes256ctr_prf junk out n key nonce) = Some (ctr_stream (zfirst 32 key) nonce 0 n ++ zskip n out).
Proof. intros. apply wp_run_eq. now apply aes256ctr_prf_ok. Qed.

Lemma saber_prf_run : forall junk out n key, 0 <= n <= len out -> 32 <= len key -> typed U8 key ->
  run (saber_aes256ctr_prf junk out n key) = Some (ctr_stream (zfirst 32 key) (zeros 12) 0 n ++ zskip n out).
Proof. intros. destruct zeros12. now apply aes_prf_run. Qed.

Lemma squeezes_ok : forall key nonce, arr U8 32 key -> 12 <= len nonce -> typed U8 nonce ->
  forall junk outs s k, Forall (fun p => 0 <= snd p /\ 64 * snd p <= len (fst p)) outs -> 0 <= k -> ctx_at key nonce s k ->
  wp (squeezes junk outs s) (fun r => r = pieces key nonce (64 * k) outs).
Proof.
  intros key nonce Hk Hn Tn junk. induction outs as [|(out, n) outs IH]; intros s k F Hk0 Hs.
  - now apply wp_ret.
  - inversion F as [|x y (H1 & H2) F']. cbn [fst snd] in *. subst x y. cbn [squeezes pieces]. apply wp_bind.
    pose proof (proj1 Hk) as Lk. pose proof (proj2 Hk) as Tk.
    eapply wp_mono; [apply (squeezeblocks_ok key nonce key ltac:(lia) Tk (eq_sym (zfirst_all_at 32 _ Lk)) Hn _ _ _ _ k); auto|].
    intros (o, s') (Eo & Hs'). cbn [fst snd] in Eo, Hs'. subst o. apply wp_bind. eapply wp_mono; [apply (IH s' (k + n)); auto; lia|].
    intros rs ->. apply wp_ret. replace (64 * (k + n)) with (64 * k + 64 * n) by lia. reflexivity.
Qed.

Lemma squeezes_run : forall junk s key nonce outs, aes_ctx_ok s -> 32 <= len key -> typed U8 key -> 12 <= len nonce -> typed U8 nonce ->
  Forall (fun p => 0 <= snd p /\ 64 * snd p <= len (fst p)) outs ->
  run (s <- aes256ctr_init junk s key nonce ;; squeezes junk outs s)%M = Some (pieces (zfirst 32 key) nonce 0 outs).
Proof.
  intros junk s key nonce outs Hs Lk Tk Ln Tn F. apply wp_run_eq. apply wp_bind.
  eapply wp_mono; [apply (aes256ctr_init_ok (zfirst 32 key)); auto|]. intros s' Hs'.
  apply (squeezes_ok (zfirst 32 key) nonce) with (k := 0); auto; [|lia]. split; [apply len_zfirst; lia|now apply Forall_zfirst].
Qed.

Lemma aes_prf_leak : forall j j' out out' n key key' nonce nonce' r r', len out = len out' -> len key = len key' -> len nonce = len nonce' ->
  run (aes256ctr_prf j out n key nonce) = Some r -> run (aes256ctr_prf j' out' n key' nonce') = Some r' ->
  leak (aes256ctr_prf j out n key nonce) = leak (aes256ctr_prf j' out' n key' nonce').
Proof. intros. eapply ct_leak; eauto. apply ct_aes256ctr_prf; unfold slen, len in *; lia. Qed.

Lemma ct_squeezes : forall j j' outs outs' s s', Forall2 (fun p q => slen (fst p) (fst q) /\ snd p = snd q) outs outs' ->
  slen (c_sk s) (c_sk s') -> slen (c_ivw s) (c_ivw s') -> ct (fun _ _ => True) (squeezes j outs s) (squeezes j' outs' s').
Proof.
  intros j j' outs. induction outs as [|(o, n) outs IH]; intros outs' s s' F Hs Hw; inversion F as [|? (o', n') ? outs'' (Ho & En) F']; subst.
  - now apply ct_ret.
  - cbn [fst snd] in *. subst n'. cbn [squeezes]. eapply ct_bind; [apply ct_squeeze; eauto|].
    intros (?, ?) (?, ?) (_ & H1 & H2). cbn [fst snd] in *. eapply ct_bind; [apply IH; eauto|]. intros. now apply ct_ret.
Qed.

Lemma squeezes_leak : forall j j' s s' key key' nonce nonce' outs outs' r r', aes_ctx_ok s -> aes_ctx_ok s' ->
  len key = len key' -> len nonce = len nonce' -> Forall2 (fun p q => len (fst p) = len (fst q) /\ snd p = snd q) outs outs' ->
  run (s <- aes256ctr_init j s key nonce ;; squeezes j outs s)%M = Some r -> run (s <- aes256ctr_init j' s' key' nonce' ;; squeezes j' outs' s)%M = Some r' ->
  leak (s <- aes256ctr_init j s key nonce ;; squeezes j outs s)%M = leak (s <- aes256ctr_init j' s' key' nonce' ;; squeezes j' outs' s)%M.
Proof.
  intros j j' s s' key key' nonce nonce' outs outs' r r' ((H1 & _) & (H2 & _)) ((H3 & _) & (H4 & _)) Hk Hn F R R'. eapply ct_leak; eauto.
  eapply ct_bind; [apply ct_aes256ctr_init; unfold slen, len in *; lia|]. intros a b (Ha & Hb). apply ct_squeezes; auto.
  clear - F. induction F as [|x y ? ? (E1 & E2)]; constructor; auto. split; auto. unfold slen, len in *; lia.
Qed.
