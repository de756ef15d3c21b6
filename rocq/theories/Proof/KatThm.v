(** The known-answer test driver against its specification. *)
From Coq Require Import ZArith List Bool Lia.
From Verif Require Import Lib.Arr Lib.CInt Lib.CMon Spec.Drbg Spec.Saber Spec.Sym Spec.Kat
  Model.Params Model.Rng Model.Kem Model.Api Model.Driver Proof.PackThm Proof.IndcpaP Proof.KemP Proof.SymP Proof.KemThm Proof.RngP Proof.RngThm Proof.AesKey Proof.AesBlock Proof.AesP.
Import ListNotations.
Local Open Scope Z_scope.

Lemma bytes_of_ok : forall n l, bytes_of n l = true -> arr U8 n l.
Proof. intros n l H. apply arrb_ok. exact H. Qed.

Lemma AES256_arr : forall k v, arr U8 32 k -> arr U8 16 v -> arr U8 16 (Aes.AES256 k v).
Proof. intros k v Hk Hv. unfold Aes.AES256. apply Cipher_arr; auto. now apply KE_arr. Qed.
Local Opaque Spec.Aes.AES256.
Lemma AES256_total_arr : forall k v, arr U8 16 (AES256_total k v).
Proof.
  intros k v. unfold AES256_total. destruct (bytes_of 32 k) eqn:B1; [destruct (bytes_of 16 v) eqn:B2|]; cbn [andb].
  - apply bytes_of_ok in B1. apply bytes_of_ok in B2. now apply AES256_arr.
  - apply arrb_ok. reflexivity.
  - apply arrb_ok. reflexivity.
Qed.

Lemma arr_arrb : forall t n l, arr t n l -> arrb t n l = true.
Proof.
  intros t n l (L & T). unfold arrb. rewrite L, Z.eqb_refl. cbn [andb]. apply forallb_forall. intros x Hx.
  unfold typed in T. rewrite Forall_forall in T. specialize (T x Hx). unfold inr. lia.
Qed.

Section Kat.
  Variable E : list Z -> list Z -> list Z.
  Hypothesis HE : forall k v, arr U8 16 (E k v).

  Lemma rng_source : forall junk, source_ok (rng E junk).
  Proof.
    intros junk ctx n Hn. unfold rng. destruct (_ && _) eqn:D.
    - rewrite !andb_true_iff in D. destruct D as ((((D1 & D2) & D3) & D4) & D5). apply arrb_ok in D1, D2.
      assert (len (zeros n) = n) as L by (apply len_zeros; lia).
      rewrite randombytes_all; [|exact HE|split; [auto|split; [auto|lia]]|lia|lia|lia].
      pose proof (generate_facts E HE (d_Key ctx, be_val (d_V ctx)) n Hn) as ((G1 & G2) & _).
      destruct (generate _ _ _) as (out & (K' & v')). cbn [fst]. rewrite zskip_all by lia. rewrite app_nil_r. split; auto.
    - cbn [fst]. split; [now apply len_zeros|apply typed_zeros].
  Qed.

  Lemma rng_gen : forall junk K v rc, arr U8 32 K -> 0 <= v < 2 ^ 128 -> - 2 ^ 31 <= rc < 2 ^ 31 - 1 ->
    rng E junk (Drbg K (be 16 v) rc) 32 =
    (fst (generate E (K, v) 32), Drbg (fst (snd (generate E (K, v) 32))) (be 16 (snd (snd (generate E (K, v) 32)))) (rc + 1)) /\
    arr U8 32 (fst (snd (generate E (K, v) 32))) /\ 0 <= snd (snd (generate E (K, v) 32)) < 2 ^ 128.
  Proof.
    intros junk K v rc AK Hv Hrc. unfold rng. cbn [d_Key d_V d_rc].
    rewrite (arr_arrb U8 32 K) by auto. rewrite (arr_arrb U8 16 (be 16 v)) by (apply arr_be; lia).
    replace (- 2 ^ 31 <=? rc) with true by lia. replace (rc <? 2 ^ 31 - 1) with true by lia. change (32 <? 2 ^ 31) with true. cbn [andb].
    assert (len (zeros 32) = 32) as L32 by reflexivity.
    rewrite (randombytes_ok E HE junk K v rc (zeros 32) 32 (proj1 AK) Hrc ltac:(lia) ltac:(lia)).
    pose proof (generate_facts E HE (K, v) 32 ltac:(lia)) as (G1 & G2 & G3).
    destruct (generate E (K, v) 32) as (out & (K' & v')). cbn [fst snd] in *. rewrite zskip_all by lia. rewrite app_nil_r. split; [reflexivity|]. split; assumption.
  Qed.
End Kat.

Lemma inst_facts : forall seed, arr U8 48 seed ->
  arr U8 32 (fst (instantiate AES256_total seed (zeros 48))) /\ 0 <= snd (instantiate AES256_total seed (zeros 48)) < 2 ^ 128.
Proof.
  intros seed (Ls & Ts). unfold instantiate. apply arr_update; [apply AES256_total_arr|rewrite len_ztab; lia|].
  apply Forall_ztab. intros i Hi. cbn [tmin tmax].
  assert (0 <= Z.lxor (get seed i) (get (zeros 48) i) < 256); [|change (2 ^ 8 - 1) with 255; lia].
  apply AesKey.lxor_byte; (eapply arr_get; [|exact Hi]); [split; assumption|]. split; [reflexivity|apply typed_zeros].
Qed.

Local Opaque instantiate generate kem_pk kem_sk kem_enc kem_dec.
Lemma kat_pass_ok : forall junk c ctx seed pk sk ct ss ss1,
  len (d_Key ctx) = 32 -> len (d_V ctx) = 16 -> arr U8 48 seed ->
  pk_buf c pk -> sk_buf c sk -> ct_buf c ct -> ss_buf ss -> ss_buf ss1 ->
  exists ctx', run (kat_pass AES256_total junk c ctx seed pk sk ct ss ss1) =
    let a := known_answer (s90 c) (par c) seed in
    Some (Some (a_pk a, a_sk a), Some (a_ct a, a_ss a), a_code a, ctx').
Proof.
  intros junk c ctx seed pk sk ct ss ss1 LK LV (Ls & Ts) Bpk Bsk Bct Bss Bss1.
  set (E := AES256_total). pose proof AES256_total_arr as HE. fold E in HE.
  set (s0 := instantiate E seed (zeros 48)).
  assert (arr U8 32 (fst s0) /\ 0 <= snd s0 < 2 ^ 128) as (A0 & V0).
  { apply inst_facts. split; assumption. }
  destruct (rng_gen E HE (sub junk 1) (fst s0) (snd s0) 1 A0 V0 ltac:(lia)) as (R1 & A1 & V1). rewrite <- surjective_pairing in *.
  destruct (generate E s0 32) as (r1 & (K1 & v1)) eqn:G1. cbn [fst snd] in *.
  destruct (rng_gen E HE (sub junk 1) K1 v1 2 A1 V1 ltac:(lia)) as (R2 & A2 & V2).
  destruct (generate E (K1, v1) 32) as (r2 & (K2 & v2)) eqn:G2. cbn [fst snd] in *.
  destruct (rng_gen E HE (sub junk 1) K2 v2 3 A2 V2 ltac:(lia)) as (R3 & A3 & V3).
  destruct (generate E (K2, v2) 32) as (z & (K3 & v3)) eqn:G3. cbn [fst snd] in *.
  destruct (rng_gen E HE (sub junk 3) K3 v3 4 A3 V3 ltac:(lia)) as (R4 & A4 & V4).
  destruct (generate E (K3, v3) 32) as (r & (K4 & v4)) eqn:G4. cbn [fst snd] in *.
  assert (arr U8 32 r1) as Ar1 by (pose proof (generate_facts E HE s0 32 ltac:(lia)) as (H & _); now rewrite G1 in H).
  assert (arr U8 32 z) as Az by (pose proof (generate_facts E HE (K2, v2) 32 ltac:(lia)) as (H & _); now rewrite G3 in H).
  exists (Drbg K4 (be 16 v4) 5). cbn zeta. apply wp_run_eq. unfold kat_pass.
  apply wp_bind, wp_init; auto; [lia|]. cbn zeta. change (xdata None) with (zeros 48). fold s0.
  apply wp_bind. set (pk' := kem_pk (PRF (s90 c)) (par c) r1 r2). set (sk' := kem_sk (HashH (s90 c)) (PRF (s90 c)) (par c) r1 r2 z).
  assert (wp (keypair (rng E (sub junk 1)) (sub junk 2) c (Drbg (fst s0) (be 16 (snd s0)) 1) pk sk) (fun x => x = (pk', sk', Drbg K3 (be 16 v3) 4, 0))) as W1.
  { unfold keypair. apply (wp_kem_keypair (hash_h c) (prf c) (HashH (s90 c)) (PRF (s90 c)) (hash_h_ok c) (prf_ok c) (HashH_arr (s90 c)) (PRF_bytes (s90 c)) _ (rng_source E HE (sub junk 1))); [exact Bpk|exact Bsk|].
    change (1 + 1) with 2 in R1. change (2 + 1) with 3 in R2. rewrite R1, R2, R3. reflexivity. }
  eapply wp_mono; [exact W1|]. clear W1. intros x ->. apply wp_ite. cbn [negb Z.eqb].
  assert (pk_bytes c pk') as Bpk' by (now apply gen_pk_bytes). assert (sk_bytes c sk') as Bsk' by (now apply gen_sk_bytes).
  pose proof (enc_ct_bytes c pk' r) as Bct'.
  destruct (kem_enc (HashH (s90 c)) (HashG (s90 c)) (PRF (s90 c)) (par c) pk' r) as (ct' & ss') eqn:EN. cbn [fst] in Bct'.
  assert (wp (enc (rng E (sub junk 3)) (sub junk 4) c (Drbg K3 (be 16 v3) 4) ct ss pk') (fun x => x = (ct', ss', Drbg K4 (be 16 v4) 5, 0))) as W2.
  { apply (wp_kem_enc (hash_h c) (hash_g c) (prf c) (HashH (s90 c)) (HashG (s90 c)) (PRF (s90 c)) (hash_h_ok c) (hash_g_ok c) (prf_ok c) (HashH_arr (s90 c)) (HashG_arr (s90 c)) (PRF_bytes (s90 c)) _ (rng_source E HE (sub junk 3))); auto.
    rewrite R4, EN. reflexivity. }
  apply wp_bind. eapply wp_mono; [exact W2|]. clear W2. intros x ->. apply wp_ite. cbn [negb Z.eqb].
  assert (wp (dec (sub junk 5) c ss1 ct' sk') (fun x => x = (kem_dec (HashH (s90 c)) (HashG (s90 c)) (PRF (s90 c)) (par c) sk' ct', 0))) as W3.
  { apply (wp_kem_dec (hash_h c) (hash_g c) (prf c) (HashH (s90 c)) (HashG (s90 c)) (PRF (s90 c)) (hash_h_ok c) (hash_g_ok c) (prf_ok c) (HashH_arr (s90 c)) (HashG_arr (s90 c)) (PRF_bytes (s90 c))); auto. }
  apply wp_bind. eapply wp_mono; [exact W3|]. clear W3. intros x ->. apply wp_ite. cbn [negb Z.eqb]. apply wp_ite.
  assert (known_answer (s90 c) (par c) seed = Answer pk' sk' ct' ss' (if list_eq_dec Z.eq_dec (kem_dec (HashH (s90 c)) (HashG (s90 c)) (PRF (s90 c)) (par c) sk' ct') ss' then 0 else -4)) as K.
  { unfold known_answer. cbn zeta. fold E. fold s0. rewrite G1, G2, G3, G4. fold pk' sk'. now rewrite EN. }
  rewrite K. cbn [a_pk a_sk a_ct a_ss a_code].
  destruct (list_eq_dec Z.eq_dec ss' _) as [e|e]; destruct (list_eq_dec Z.eq_dec _ ss') as [e'|e']; try (exfalso; congruence); apply wp_ret; reflexivity.
Qed.

Lemma wp_kat_seeds : forall n junk K v rc buf (Q : list (list Z) -> Prop), len K = 32 ->
  - 2 ^ 31 <= rc -> rc + Z.of_nat n < 2 ^ 31 -> len buf = 48 ->
  Q (fst (generates AES256_total (K, v) (repeat 48 n))) ->
  wp (kat_seeds AES256_total junk n (Drbg K (be 16 v) rc) buf) Q.
Proof.
  induction n; intros junk K v rc buf Q LK H1 H2 Lb HQ; cbn [kat_seeds].
  - apply wp_ret. exact HQ.
  - apply wp_bind. apply wp_randombytes; [apply AES256_total_arr|auto|lia|lia|lia|]. cbn [repeat generates] in HQ.
    pose proof (generate_facts AES256_total AES256_total_arr (K, v) 48 ltac:(lia)) as ((G1 & _) & (G2 & _) & _).
    destruct (generate AES256_total (K, v) 48) as (o & (K' & v')). cbn [fst snd] in *.
    rewrite zskip_all by lia. rewrite app_nil_r. apply wp_bind. apply IHn; auto; try lia.
    destruct (generates AES256_total (K', v') (repeat 48 n)) as (os & s2). cbn [fst] in *. apply wp_ret. exact HQ.
Qed.

Lemma kat_requests_ok : forall junk n ctx e buf, len (d_Key ctx) = 32 -> len (d_V ctx) = 16 -> len e = 48 -> len buf = 48 ->
  Z.of_nat n < 2 ^ 31 - 1 ->
  run (kat_requests AES256_total junk n ctx e buf) = Some (seeds n).
Proof.
  intros junk n ctx e buf LK LV Le Lb Hn. apply wp_run_eq. unfold kat_requests. apply wp_bind.
  apply wp_for with (I := fun i r => len r = 48 /\ forall k, 0 <= k < i -> get r k = k); [lia|split; [auto|intros; lia]| |].
  - intros i r Hi (Lr & Hr). apply wp_st; [reflexivity|cbn; lia|lia|]. rewrite len_upd. split; auto. intros k Hk.
    unfold get. rewrite znth_upd by lia. cbn [val]. rewrite wrap_id by (cbn; lia). destruct (k =? i) eqn:Ek; [lia|]. apply Hr. lia.
  - intros r (Lr & Hr). assert (r = ztab 48 (fun i => i)) as ->.
    { apply znth_ext with 0; [rewrite len_ztab; lia|]. intros i Hi. rewrite znth_ztab by lia. apply Hr. lia. }
    assert (typed U8 (ztab 48 (fun i => i))) as T by (apply Forall_ztab; intros; cbn [tmin tmax]; lia).
    apply wp_bind. apply wp_init; auto; [apply AES256_total_arr|lia|]. cbn zeta. change (xdata None) with (zeros 48).
    set (s := instantiate AES256_total _ _).
    assert (len (fst s) = 32) as Ls.
    { apply inst_facts. split; [now apply len_ztab|exact T]. }
    apply wp_kat_seeds; [exact Ls|lia|lia|exact Lb|]. rewrite <- surjective_pairing. reflexivity.
Qed.
