(** Concrete inputs for the theorems about the key-encapsulation mechanism. *)
From Coq Require Import ZArith List Bool Lia.
From Verif Require Import Lib.Arr Lib.CInt Lib.CMon Spec.Bits Spec.Ring Spec.Saber Spec.Noise Spec.Keccak Spec.Sym
  Model.Params Model.Kem Model.Fips202 Model.Api Proof.SpongeP Proof.SymP Proof.IndcpaP Proof.KemP Proof.NoiseP Proof.KemThm Proof.KeccakF Proof.Fast.
Import ListNotations.
Local Open Scope Z_scope.

(** A source that counts. *)
Definition counter (st n : Z) : list Z * Z := (ztab n (fun i => (st + i) mod 256), st + n).
Lemma counter_ok : source_ok counter.
Proof.
  intros st n Hn. split; [now apply len_ztab|]. apply Forall_ztab. intros i Hi. cbn [tmin tmax].
  pose proof (Z.mod_pos_bound (st + i) 256). lia.
Qed.

(** ** Decryption failures *)

Definition ce_p (a : Z) := ztab 256 (fun k => if k =? 0 then a else 0).
Definition ce_A (c : cfg) (a : Z) := ztab (SABER_L c) (fun _ => ztab (SABER_L c) (fun _ => ce_p a)).
Definition ce_s (c : cfg) (x : Z) := ztab (SABER_L c) (fun _ => ztab 256 (fun _ => x)).
Definition ce_a (l : level) := match l with Light => 2 | _ => 1 end.
Definition ce_k (l : level) := match l with Light => 0 | _ => 10 end.

Lemma forall_ztab : forall A n (f : Z -> A) (P : A -> Prop), (forall i, P (f i)) -> Forall P (ztab n f).
Proof. intros. apply Forall_ztab. auto. Qed.

Lemma unconditional_refuted : forall l, exists A s s' k,
  let c := Cfg l false false in
  0 <= k < 256 /\
  Forall (Forall (Forall (fun x => 0 <= x < 8192))) A /\
  Forall (Forall (fun x => - (SABER_MU c / 2) <= x <= SABER_MU c / 2)) s /\
  Forall (Forall (fun x => - (SABER_MU c / 2) <= x <= SABER_MU c / 2)) s' /\
  get (dec_msg (par c) (ct_vec (par c) A s') s (ct_msg (par c) (pub_vec (par c) A s) s' (zeros 256))) k <> get (zeros 256) k.
Proof.
  intros l. set (c := Cfg l false false).
  exists (ce_A c (ce_a l)), (ce_s c (SABER_MU c / 2)), (ce_s c (- (SABER_MU c / 2))), (ce_k l). cbn zeta.
  assert (0 <= SABER_MU c / 2) by (subst c; destruct l; vm_compute; discriminate).
  split; [destruct l; cbn; lia|]. split; [|split; [|split]].
  - apply forall_ztab. intros _. apply forall_ztab. intros _. apply forall_ztab. intros i. destruct (i =? 0); destruct l; cbn [ce_a]; lia.
  - apply forall_ztab. intros _. apply forall_ztab. intros _. fold c. lia.
  - apply forall_ztab. intros _. apply forall_ztab. intros _. fold c. lia.
  - fold c. rewrite dec_msg_fast, ct_vec_fast, ct_msg_fast, pub_vec_fast. subst c. destruct l; vm_compute; discriminate.
Qed.

(** ** LightSaber with the counting source *)

Definition ex_c : cfg := Cfg Light false false.

Lemma ex_window : forall i, 0 <= i < 256 ->
  in_window (kem_noise (HashH (s90 ex_c)) (HashG (s90 ex_c)) (PRF (s90 ex_c)) (par ex_c) (draw1 counter 0) (draw2 counter 0) (draw1 counter 96) i).
Proof.
  change (HashH (s90 ex_c)) with SHA3_256. change (HashG (s90 ex_c)) with SHA3_512. change (PRF (s90 ex_c)) with SHAKE128.
  apply (window_fast _ _ SHA3_256_f SHA3_512_f _ SHAKE128_f sha3_256_fast sha3_512_fast shake128_fast).
  vm_cast_no_check (eq_refl true).
Qed.

Definition ex_pk := kem_pk (PRF (s90 ex_c)) (par ex_c) (draw1 counter 0) (draw2 counter 0).
Definition ex_sk := kem_sk (HashH (s90 ex_c)) (PRF (s90 ex_c)) (par ex_c) (draw1 counter 0) (draw2 counter 0) (draw3 counter 0).
Definition ex_ct := fst (kem_enc (HashH (s90 ex_c)) (HashG (s90 ex_c)) (PRF (s90 ex_c)) (par ex_c) ex_pk (draw1 counter 96)).

Lemma draws : arr U8 32 (draw1 counter 0) /\ arr U8 32 (draw2 counter 0) /\ arr U8 32 (draw3 counter 0) /\ arr U8 32 (draw1 counter 96).
Proof. repeat apply conj; apply counter_ok; lia. Qed.
Lemma ex_bytes : pk_bytes ex_c ex_pk /\ sk_bytes ex_c ex_sk /\ ct_bytes ex_c ex_ct.
Proof. split; [apply gen_pk_bytes; apply draws|]. split; [apply gen_sk_bytes; apply draws|apply enc_ct_bytes]. Qed.

Lemma ex_accept : ex_ct = dec_ct (HashG (s90 ex_c)) (PRF (s90 ex_c)) (par ex_c) ex_sk ex_ct.
Proof.
  exact (proj2 (kem_accept (HashH (s90 ex_c)) (HashG (s90 ex_c)) (PRF (s90 ex_c)) (fun x => proj1 ((HashH_arr (s90 ex_c)) x)) (fun x => PRF_len (s90 ex_c) 32 x ltac:(lia))
    (fun x => proj2 ((HashH_arr (s90 ex_c)) x)) ex_c (draw1 counter 0) (draw2 counter 0) (draw3 counter 0) (draw1 counter 96) (proj1 (proj1 (proj2 (proj2 draws)))) ex_window)).
Qed.

(** A secret key whose secret vector is zero, and two ciphertexts that it decrypts to the same message. *)
Definition ex_sk0 := zeros 832 ++ ztab 736 (fun i => (7 * i) mod 256).
Definition ex_ct1 := ztab 736 (fun i => (i * i) mod 256).
Definition ex_ct2 := upd ex_ct1 5 77.
Lemma ex_bytes0 : sk_bytes ex_c ex_sk0 /\ ct_bytes ex_c ex_ct1 /\ ct_bytes ex_c ex_ct2.
Proof. split; [|split]; apply arrb_ok; vm_compute; reflexivity. Qed.
Lemma ex_ct2_ne : ex_ct1 <> ex_ct2.
Proof. intros E. apply (f_equal (fun l => get l 5)) in E. vm_compute in E. discriminate. Qed.
Lemma ex_same_m : dec_m (par ex_c) ex_sk0 ex_ct1 = dec_m (par ex_c) ex_sk0 ex_ct2.
Proof. unfold dec_m. rewrite !pke_dec_fast. vm_compute. reflexivity. Qed.
Lemma ex_reject : exists ct, ct_bytes ex_c ct /\ ct <> dec_ct (HashG (s90 ex_c)) (PRF (s90 ex_c)) (par ex_c) ex_sk0 ct.
Proof.
  assert (dec_ct (HashG (s90 ex_c)) (PRF (s90 ex_c)) (par ex_c) ex_sk0 ex_ct1 = dec_ct (HashG (s90 ex_c)) (PRF (s90 ex_c)) (par ex_c) ex_sk0 ex_ct2) as D
    by (unfold dec_ct, dec_kr; now rewrite <- ex_same_m).
  destruct (list_eq_dec Z.eq_dec ex_ct1 (dec_ct (HashG (s90 ex_c)) (PRF (s90 ex_c)) (par ex_c) ex_sk0 ex_ct1)) as [E|N].
  - exists ex_ct2. split; [apply ex_bytes0|]. rewrite <- D, <- E. intros F. exact (ex_ct2_ne (eq_sym F)).
  - exists ex_ct1. split; [apply ex_bytes0|exact N].
Qed.
