(** Evaluation of the known answers, and comparison with the response files in /repo/KAT. *)
From Coq Require Import ZArith List Bool Lia.
From Verif Require Import Lib.Arr Spec.Keccak Spec.Sha2 Spec.Aes Spec.Drbg Spec.Saber Spec.Sym Spec.Kat
  Model.Params Proof.IndcpaP Proof.KeccakF Proof.Fast Proof.AesF.
Import ListNotations.
Local Open Scope Z_scope.

Section Ext.
  Variable E E' : list Z -> list Z -> list Z.
  Hypothesis EE : forall k v, E k v = E' k v.
  Lemma blocks_ext : forall K v m, blocks E K v m = blocks E' K v m.
  Proof. intros. unfold blocks. f_equal. apply ztab_ext. intros. apply EE. Qed.
  Lemma update_ext : forall s d, update E s d = update E' s d.
  Proof. intros. unfold update. now rewrite blocks_ext. Qed.
  Lemma generate_ext : forall s n, generate E s n = generate E' s n.
  Proof. intros. unfold generate. now rewrite blocks_ext, update_ext. Qed.
  Lemma instantiate_ext : forall e p, instantiate E e p = instantiate E' e p.
  Proof. intros. unfold instantiate. apply update_ext. Qed.
  Lemma generates_ext : forall ns s, generates E s ns = generates E' s ns.
  Proof. induction ns; intros; cbn [generates]; auto. rewrite generate_ext. destruct (generate E' s a). now rewrite IHns. Qed.
End Ext.

Definition AES_f (key blk : list Z) : list Z :=
  if bytes_of 32 key && bytes_of 16 blk then AES256_f key blk else zeros 16.
Lemma AES_fast : forall k v, AES256_total k v = AES_f k v.
Proof. intros. unfold AES256_total, AES_f. now rewrite AES256_fast. Qed.

Definition H_f (ninety : bool) : list Z -> list Z := if ninety then SHA256 else SHA3_256_f.
Definition G_f (ninety : bool) : list Z -> list Z := if ninety then SHA512 else SHA3_512_f.
Definition X_f (ninety : bool) (n : Z) (x : list Z) : list Z := if ninety then ctr_f x (zeros 12) n else SHAKE128_f n x.
Lemma H_fast : forall b x, HashH b x = H_f b x.
Proof. intros [|] x; [reflexivity|apply sha3_256_fast]. Qed.
Lemma G_fast : forall b x, HashG b x = G_f b x.
Proof. intros [|] x; [reflexivity|apply sha3_512_fast]. Qed.
Lemma X_fast : forall b n x, PRF b n x = X_f b n x.
Proof. intros [|] n x; [apply ctr_fast|apply shake128_fast]. Qed.

Definition known_answer_f (c : cfg) (seed : list Z) : answer :=
  let H := H_f (s90 c) in let G := G_f (s90 c) in let X := X_f (s90 c) in
  let '(r1, s1) := generate AES_f (instantiate AES_f seed (zeros 48)) 32 in
  let '(r2, s2) := generate AES_f s1 32 in
  let '(z, s3) := generate AES_f s2 32 in
  let '(r, _) := generate AES_f s3 32 in
  let '(pk, sk) := kem_keys_f H X c r1 r2 z in
  let '(ct, ss) := kem_enc_f H G X c pk r in
  Answer pk sk ct ss (if list_eq_dec Z.eq_dec (kem_dec_f H G X c sk ct) ss then 0 else -4).

Local Opaque instantiate generate kem_pk kem_sk kem_enc kem_dec HashH HashG PRF H_f G_f X_f AES_f AES256_total par kem_keys_f kem_enc_f kem_dec_f.
Lemma known_answer_fast : forall c seed, known_answer (s90 c) (par c) seed = known_answer_f c seed.
Proof.
  intros c seed. unfold known_answer, known_answer_f. cbn zeta.
  rewrite (instantiate_ext _ _ AES_fast). rewrite (generate_ext _ _ AES_fast).
  destruct (generate AES_f (instantiate AES_f seed (zeros 48)) 32) as (r1 & s1). rewrite (generate_ext _ _ AES_fast).
  destruct (generate AES_f s1 32) as (r2 & s2). rewrite (generate_ext _ _ AES_fast).
  destruct (generate AES_f s2 32) as (z & s3). rewrite (generate_ext _ _ AES_fast).
  destruct (generate AES_f s3 32) as (r & s4).
  pose proof (kem_keys_fast _ _ _ _ (H_fast (s90 c)) (X_fast (s90 c)) c r1 r2 z) as K.
  destruct (kem_keys_f (H_f (s90 c)) (X_f (s90 c)) c r1 r2 z) as (pk & sk).
  apply pair_equal_spec in K. destruct K as (K1 & K2). rewrite K1, K2.
  rewrite (kem_enc_fast _ _ _ _ _ _ (H_fast (s90 c)) (G_fast (s90 c)) (X_fast (s90 c)) c pk r).
  destruct (kem_enc_f _ _ _ _ pk r) as (ct & ss).
  rewrite (kem_dec_fast _ _ _ _ _ _ (H_fast (s90 c)) (G_fast (s90 c)) (X_fast (s90 c)) c sk ct). reflexivity.
Qed.

Definition seeds_f (n : nat) : list (list Z) :=
  fst (generates AES_f (instantiate AES_f (ztab 48 (fun i => i)) (zeros 48)) (repeat 48 n)).
Lemma seeds_fast : forall n, seeds n = seeds_f n.
Proof. intros. unfold seeds, seeds_f. now rewrite (instantiate_ext _ _ AES_fast), (generates_ext _ _ AES_fast). Qed.

(** ** Values written in hexadecimal *)
From Coq Require Import Ascii String.
Definition hexdigit (a : ascii) : Z :=
  let n := Z.of_N (N_of_ascii a) in
  if (48 <=? n) && (n <=? 57) then n - 48 else if (65 <=? n) && (n <=? 70) then n - 55 else -1.
Fixpoint unhex (s : string) : list Z :=
  match s with
  | String a (String b r) => 16 * hexdigit a + hexdigit b :: unhex r
  | _ => []
  end.

(** Does the specification give these values? *)
Definition eqb_bytes (a b : list Z) : bool := if list_eq_dec Z.eq_dec a b then true else false.
Definition check (c : cfg) (seed pk sk ct ss : string) : bool :=
  let a := known_answer_f c (unhex seed) in
  eqb_bytes (a_pk a) (unhex pk) && eqb_bytes (a_sk a) (unhex sk) && eqb_bytes (a_ct a) (unhex ct) && eqb_bytes (a_ss a) (unhex ss) && (a_code a =? 0).
