(** Traces of sha256 and sha512 depend on the input length only. *)
From Coq Require Import ZArith List Bool Lia.
From Verif Require Import Lib.Arr Lib.CInt Lib.CMon Model.Params Model.Sha2 Proof.CtP Proof.SpongeCt.
Import ListNotations.
Local Open Scope Z_scope.

Definition anyR {A B} : A -> B -> Prop := fun _ _ => True.

Lemma ct_refl : forall A (m : M A), ct eq m m.
Proof. intros A m t. destruct (m t); auto. Qed.

Lemma ct_each : forall X A (R : A -> A -> Prop) (l : list X) f g s s', R s s' ->
  (forall x a b, R a b -> ct R (f x a) (g x b)) -> ct R (each l f s) (each l g s').
Proof.
  intros X A R l f g. induction l as [|x l IH]; intros s s' H Hf; cbn [each]; [now apply ct_ret|].
  eapply ct_bind; [now apply Hf|]. intros. apply IH; auto.
Qed.

Lemma ct_evR : forall e e', sim e e' -> ct anyR (ev e) (ev e').
Proof. exact ct_ev. Qed.

Lemma sim_refl : forall e, sim e e.
Proof. induction e; constructor; auto. Qed.
Lemma sims_refl : forall l, sims l l.
Proof. induction l; constructor; auto. apply sim_refl. Qed.

Ltac simt := repeat constructor.

Section Alg.
  Variable p : alg.
  Hypothesis Hload : forall x x', sim (a_load p x) (a_load p x').
  Hypothesis Hstore : forall x x' t t' u u', slen x x' -> ct slen (a_store p x (Var t u)) (a_store p x' (Var t' u')).

  Lemma sim_sig : forall r x x', sim x x' -> sim (big_sigma p r x) (big_sigma p r x') /\ sim (small_sigma p r x) (small_sigma p r x').
  Proof. intros ((i, j), k) x x' H. split; cbn [big_sigma small_sigma]; unfold ROTR, SHR; repeat constructor; auto. Qed.

  Lemma ct_M : forall l w w', ct anyR (M_ p l w) (M_ p l w').
  Proof.
    intros (((a, b), c), d) w w'. unfold M_. eapply ct_bind; [apply ct_evR|intros; now apply ct_ret].
    repeat apply sim_bin; try apply sim_sig; constructor.
  Qed.
  Lemma ct_F : forall w w' k k' v v', ct anyR (F p w k v) (F p w' k' v').
  Proof.
    intros. unfold F. cbv zeta.
    eapply ct_bind; [apply ct_evR|]; [unfold Ch; repeat constructor; try apply sim_sig; constructor|intros].
    eapply ct_bind; [apply ct_evR|]; [unfold Maj; repeat constructor; try apply sim_sig; constructor|intros].
    eapply ct_bind; [apply ct_evR; simt|intros]. eapply ct_bind; [apply ct_evR; simt|intros]. now apply ct_ret.
  Qed.
  Lemma ct_F16 : forall w w' ks ks' v v', ct anyR (F16 p w ks v) (F16 p w' ks' v').
  Proof. intros. unfold F16. apply ct_each; [exact I|]. intros. apply ct_F. Qed.

  Lemma ct_hash_block : forall q q' s s' v v', slen q q' -> slen s s' ->
    ct (fun a b => slen (fst a) (fst b)) (hash_block p q s v) (hash_block p q' s' v').
  Proof.
    intros q q' s s' v v' Hq Hs. unfold hash_block.
    eapply ct_bind with (R := anyR).
    { apply ct_each; [exact I|]. intros. eapply ct_bind; [apply ct_ptr; auto|]. intros. eapply ct_bind; [apply ct_evR, Hload|]. intros. now apply ct_ret. }
    intros w w' _. eapply ct_bind; [apply ct_F16|]. intros v1 v1' _.
    eapply ct_bind with (R := anyR).
    { apply ct_each; [exact I|]. intros ks (wa, va) (wb, vb) _. eapply ct_bind with (R := anyR).
      - apply ct_each; [exact I|]. intros. apply ct_M.
      - intros. eapply ct_bind; [apply ct_F16|]. intros. now apply ct_ret. }
    intros (w2, v2) (w2', v2') _. eapply ct_bind with (R := anyR).
    { apply ct_each; [exact I|]. intros. eapply ct_bind; [apply ct_evR; simt|]. intros. now apply ct_ret. }
    intros v3 v3' _. eapply ct_bind with (R := slen).
    { apply ct_each; [exact Hs|]. intros. apply ct_st; [simt|auto]. }
    intros. now apply ct_ret.
  Qed.

  Lemma ct_hashblocks : forall j j' h h' q q' n, slen h h' -> slen q q' -> ct slen (hashblocks p j h q n) (hashblocks p j' h' q' n).
  Proof.
    intros j j' h h' q q' n Hh Hq. unfold hashblocks.
    eapply ct_bind with (R := fun a b => slen (fst a) (fst b)).
    { apply ct_each; [apply slen_uninit|]. intros i (sa, va) (sb, vb) H. cbn [fst] in H.
      eapply ct_bind; [apply ct_ptr; auto|]. intros. eapply ct_bind; [apply ct_evR, Hload|]. intros.
      eapply ct_bind; [apply ct_st; [simt|exact H]|]. intros. now apply ct_ret. }
    intros (s1, v1) (s1', v1') H1. cbn [fst] in H1.
    eapply ct_bind with (R := fun '(s, _, q, n) '(s', _, q', n') => slen s s' /\ slen q q' /\ n = n').
    { apply ct_while; auto.
      - intros (((?, ?), ?), ?) (((?, ?), ?), ?) (? & ? & ->). reflexivity.
      - intros (((?, ?), ?), ?) (((?, ?), ?), ?) (? & ? & ->).
        eapply ct_bind; [apply ct_hash_block; auto|]. intros (?, ?) (?, ?) ?.
        eapply ct_bind; [apply ct_ptr; auto|]. intros. apply ct_ret. auto. }
    intros (((s2, ?), ?), ?) (((s2', ?), ?), ?) (H2 & _ & _).
    apply ct_each; auto. intros. eapply ct_bind; [apply ct_rd|]. intros. apply ct_at; auto.
  Qed.
End Alg.

Lemma ct_store32 : forall x x' t t' u u', slen x x' -> ct slen (store_bigendian32 x (Var t u)) (store_bigendian32 x' (Var t' u')).
Proof. intros. unfold store_bigendian32. change slen with (@shape _ sh_l1). ctt. Qed.
Lemma ct_store64' : forall x x' t t' u u', slen x x' -> ct slen (store_bigendian64 x (Var t u)) (store_bigendian64 x' (Var t' u')).
Proof. intros. unfold store_bigendian64. change slen with (@shape _ sh_l1). ctt. Qed.
Lemma ct_hb256 : forall j j' h h' q q' n, slen h h' -> slen q q' -> ct slen (hashblocks alg256 j h q n) (hashblocks alg256 j' h' q' n).
Proof. apply ct_hashblocks; [intros; cbn; unfold load_bigendian32; simt|exact ct_store32]. Qed.
Lemma ct_hb512 : forall j j' h h' q q' n, slen h h' -> slen q q' -> ct slen (hashblocks alg512 j h q n) (hashblocks alg512 j' h' q' n).
Proof. apply ct_hashblocks; [intros; cbn; unfold load_bigendian64; simt|exact ct_store64']. Qed.

Lemma ct_sha256 : ct_hash sha256.
Proof.
  intros j j' out out' inp inp' n Ho Hi. unfold sha256.
  eapply ct_bind; [apply ct_refl|]. intros bits _ <-.
  eapply ct_bind with (R := slen); [apply ct_for; [apply slen_uninit8|intros; apply ct_st; [simt|auto]]|]. intros.
  eapply ct_bind; [apply ct_hb256; auto|]. intros.
  eapply ct_bind; [apply ct_ptr; eauto|]. intros. eapply ct_bind; [apply ct_refl|]. intros r _ <-.
  eapply ct_bind; [apply ct_ptr; eauto|]. intros.
  eapply ct_bind with (R := slen); [apply ct_for; [apply slen_uninit8|intros; apply ct_st; [simt|auto]]|]. intros.
  eapply ct_bind; [apply ct_st; [simt|eauto]|]. intros.
  eapply ct_bind with (R := slen).
  { apply ct_ite; intros _.
    all: eapply ct_bind with (R := slen); [apply ct_for; [eauto|intros; apply ct_st; [simt|auto]]|]; intros.
    all: eapply ct_bind; [apply ct_sts; [apply sims_refl|eauto]|]; intros; apply ct_hb256; auto. }
  intros. apply ct_for; auto. intros. apply ct_st; [simt|auto].
Qed.

Lemma ct_sha512 : ct_hash sha512.
Proof.
  intros j j' out out' inp inp' n Ho Hi. unfold sha512.
  eapply ct_bind with (R := slen); [apply ct_for; [apply slen_uninit8|intros; apply ct_st; [simt|auto]]|]. intros.
  eapply ct_bind; [apply ct_hb512; auto|]. intros.
  eapply ct_bind; [apply ct_ptr; eauto|]. intros. eapply ct_bind; [apply ct_refl|]. intros r _ <-.
  eapply ct_bind; [apply ct_ptr; eauto|]. intros.
  eapply ct_bind with (R := slen); [apply ct_for; [apply slen_uninit8|intros; apply ct_st; [simt|auto]]|]. intros.
  eapply ct_bind; [apply ct_st; [simt|eauto]|]. intros.
  eapply ct_bind with (R := slen).
  { apply ct_ite; intros _.
    all: eapply ct_bind with (R := slen); [apply ct_for; [eauto|intros; apply ct_st; [simt|auto]]|]; intros.
    all: eapply ct_bind; [apply ct_sts; [apply sims_refl|eauto]|]; intros; apply ct_hb512; auto. }
  intros. apply ct_for; auto. intros. apply ct_st; [simt|auto].
Qed.


Lemma sha256_leak : forall j j' out out' inp inp' n r r', len out = len out' -> len inp = len inp' ->
  run (sha256 j out inp n) = Some r -> run (sha256 j' out' inp' n) = Some r' -> leak (sha256 j out inp n) = leak (sha256 j' out' inp' n).
Proof. intros. eapply ct_leak; eauto. apply ct_sha256; unfold slen, len in *; lia. Qed.
Lemma sha512_leak : forall j j' out out' inp inp' n r r', len out = len out' -> len inp = len inp' ->
  run (sha512 j out inp n) = Some r -> run (sha512 j' out' inp' n) = Some r' -> leak (sha512 j out inp n) = leak (sha512 j' out' inp' n).
Proof. intros. eapply ct_leak; eauto. apply ct_sha512; unfold slen, len in *; lia. Qed.
