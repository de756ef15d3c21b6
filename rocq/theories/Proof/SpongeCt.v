(** Traces of the functions of fips202.c depend on lengths only. *)
From Coq Require Import ZArith List Bool Lia.
From Verif Require Import Lib.Arr Lib.CInt Lib.CMon Model.Params Model.Fips202 Proof.CtP.
Import ListNotations.
Local Open Scope Z_scope.

#[export] Instance sh_lanes : Shape lanes := fun _ _ => True.

Lemma rd_sh : forall a b i, ct (@shape _ sh_Z) (rd a i) (rd b i).
Proof. exact ct_rd. Qed.
Lemma wr_sh : forall (a b : list Z) i v w, slen a b -> ct (@shape _ sh_l1) (wr a i v) (wr b i w).
Proof. exact ct_wr. Qed.
#[export] Hint Resolve rd_sh wr_sh : ctf.

Lemma ct_permute : forall s s', slen s s' -> ct shape (KeccakF1600_StatePermute s) (KeccakF1600_StatePermute s').
Proof.
  intros. unfold KeccakF1600_StatePermute. do 25 (eapply ct_bind_sh; [apply rd_sh|intros ? ? _]).
  eapply ct_bind_sh with (H := sh_lanes).
  - apply ct_for_sh; [exact I|]. intros. eapply ct_bind_sh; [apply rd_sh|intros ? ? _].
    eapply ct_bind_sh; [apply rd_sh|intros ? ? _]. apply ct_ret. exact I.
  - intros [] [] _. do 25 (eapply ct_bind_sh; [apply wr_sh; eassumption|]; intros; unsh).
    now apply ct_ret.
Qed.
#[export] Hint Resolve ct_permute : ctf.

Lemma ct_load64 : forall x x', ct shape (load64 x) (load64 x').
Proof. intros. unfold load64. ctt. Qed.
#[export] Hint Resolve ct_load64 : ctf.
Lemma ct_store64 : forall x x' u u', slen x x' -> svar u u' -> ct shape (store64 x u) (store64 x' u').
Proof. intros. unfold store64. open_shapes. ctt. Qed.
#[export] Hint Resolve ct_store64 : ctf.
Lemma ct_xor_lanes : forall s s' r m m', slen s s' -> slen m m' -> ct shape (xor_lanes s r m) (xor_lanes s' r m').
Proof. intros. unfold xor_lanes. ctt. Qed.
#[export] Hint Resolve ct_xor_lanes : ctf.

Lemma ct_keccak_absorb : forall j j' s s' r m m' l p, slen s s' -> slen m m' ->
  ct shape (keccak_absorb j s r m l p) (keccak_absorb j' s' r m' l p).
Proof.
  intros. unfold keccak_absorb.
  eapply ct_bind with (R := fun '(s, m, l) '(s', m', l') => slen s s' /\ slen m m' /\ l = l').
  - apply ct_while.
    + auto.
    + intros ((?, ?), ?) ((?, ?), ?) (? & ? & ->). auto.
    + intros ((?, ?), ?) ((?, ?), ?) (? & ? & ->).
      eapply ct_bind; [eauto with ctf|]. intros. eapply ct_bind; [eauto with ctf|]. intros.
      eapply ct_bind; [apply ct_ptr; auto|]. intros. apply ct_ret. auto.
  - intros ((?, ?), ?) ((?, ?), ?) (? & ? & ->). ctt.
Qed.
#[export] Hint Resolve ct_keccak_absorb : ctf.

Lemma ct_squeezeblocks : forall h h' n s s' r, slen h h' -> slen s s' ->
  ct shape (keccak_squeezeblocks h n s r) (keccak_squeezeblocks h' n s' r).
Proof. intros. unfold keccak_squeezeblocks. ctt. Qed.
#[export] Hint Resolve ct_squeezeblocks : ctf.
Lemma ct_zero_state : forall s s', slen s s' -> ct shape (zero_state s) (zero_state s').
Proof. intros. unfold zero_state. ctt. Qed.
#[export] Hint Resolve ct_zero_state : ctf.

Lemma ct_shake128 : ct_prf shake128.
Proof. intros j j' out out' n inp inp' m Ho Hi. unfold shake128. change slen with (@shape _ sh_l1). ctt. Qed.
Lemma ct_sha3_256 : ct_hash sha3_256.
Proof. intros j j' out out' inp inp' n Ho Hi. unfold sha3_256. change slen with (@shape _ sh_l1). ctt. Qed.
Lemma ct_sha3_512 : ct_hash sha3_512.
Proof. intros j j' out out' inp inp' n Ho Hi. unfold sha3_512. change slen with (@shape _ sh_l1). ctt. Qed.
