(** AES-256 in counter mode with the AES instructions. *)
From Coq Require Import ZArith List Bool Lia.
From Verif Require Import Lib.Arr Lib.CInt Lib.CMon Spec.Aes Spec.AesCtr Model.AesNi Proof.BytesP Proof.AesWord Proof.AesKey Proof.AesBlock.
Import ListNotations.
Local Open Scope Z_scope.

(** ** Vectors of four words *)
Notation V a b c d := (a ++ b ++ c ++ d).
Lemma list4 : forall l : list Z, len l = 4 -> exists a b c d, l = [a; b; c; d].
Proof. intros [|a [|b [|c [|d [|]]]]] H; try discriminate H; [eauto|]. unfold len in H. cbn [length] in H. lia. Qed.
Ltac words := repeat match goal with H : len ?l = 4 |- _ => is_var l; destruct (list4 l H) as (? & ? & ? & ? & ->); clear H end.
Ltac xors := apply Z.bits_inj'; intros ? _; rewrite ?Z.lxor_spec, ?Z.bits_0; repeat match goal with |- context [Z.testbit ?x ?n] => destruct (Z.testbit x n) end; reflexivity.

Lemma xor_V : forall a b c d a' b' c' d', len a = 4 -> len b = 4 -> len c = 4 -> len d = 4 -> len a' = 4 -> len b' = 4 -> len c' = 4 -> len d' = 4 ->
  mm_xor (V a b c d) (V a' b' c' d') = V (xorw a a') (xorw b b') (xorw c c') (xorw d d').
Proof. intros. words. reflexivity. Qed.
Lemma elt_V0 : forall a b c d, len a = 4 -> len b = 4 -> len c = 4 -> len d = 4 -> elt (V a b c d) 0 = a.
Proof. intros. words. reflexivity. Qed.
Lemma elt_V1 : forall a b c d, len a = 4 -> len b = 4 -> len c = 4 -> len d = 4 -> elt (V a b c d) 1 = b.
Proof. intros. words. reflexivity. Qed.
Lemma elt_V2 : forall a b c d, len a = 4 -> len b = 4 -> len c = 4 -> len d = 4 -> elt (V a b c d) 2 = c.
Proof. intros. words. reflexivity. Qed.
Lemma elt_V3 : forall a b c d, len a = 4 -> len b = 4 -> len c = 4 -> len d = 4 -> elt (V a b c d) 3 = d.
Proof. intros. words. reflexivity. Qed.
Lemma len_xorw : forall a b, len (xorw a b) = 4.
Proof. reflexivity. Qed.

(** The updates of the two macros. *)
Definition spread (x t w : list Z) : list Z * list Z :=
  let t := mm_shuffle_ps t x 0x10 in
  let x := mm_xor x t in
  let t := mm_shuffle_ps t x 0x8c in
  let x := mm_xor x t in
  (mm_xor x w, t).
Lemma spread_ok : forall x0 x1 x2 x3 t1 t2 t3 w, len x0 = 4 -> len x1 = 4 -> len x2 = 4 -> len x3 = 4 -> len t1 = 4 -> len t2 = 4 -> len t3 = 4 -> len w = 4 ->
  exists t1' t2' t3', len t1' = 4 /\ len t2' = 4 /\ len t3' = 4 /\
  spread (V x0 x1 x2 x3) (V (zeros 4) t1 t2 t3) (V w w w w) =
  (V (xorw x0 w) (xorw x1 (xorw x0 w)) (xorw x2 (xorw x1 (xorw x0 w))) (xorw x3 (xorw x2 (xorw x1 (xorw x0 w)))), V (zeros 4) t1' t2' t3').
Proof.
  intros. exists x0, x0, (xorw x2 x1). do 2 (split; [assumption|]). split; [reflexivity|]. words.
  unfold spread. apply f_equal2.
  - cbv -[Z.lxor]. repeat (apply f_equal2; [xors|]). reflexivity.
  - cbv -[Z.lxor]. repeat (apply f_equal2; [first [reflexivity|xors]|]). reflexivity.
Qed.

Lemma BLOCK1_eq : forall imm t0 t2 t4 rk idx, BLOCK1 imm (t0, t2, t4, rk, idx) =
  (rk <- setrow rk idx t2 ;; let r := spread t0 t4 (mm_shuffle_ps (mm_aeskeygenassist t2 imm) (mm_aeskeygenassist t2 imm) 0xff) in ret (fst r, t2, snd r, rk, idx + 1))%M.
Proof. reflexivity. Qed.
Lemma BLOCK2_eq : forall imm t0 t2 t4 rk idx, BLOCK2 imm (t0, t2, t4, rk, idx) =
  (rk <- setrow rk idx t0 ;; let r := spread t2 t4 (mm_shuffle_ps (mm_aeskeygenassist t0 imm) (mm_aeskeygenassist t0 imm) 0xaa) in ret (t0, fst r, snd r, rk, idx + 1))%M.
Proof. reflexivity. Qed.

Lemma keygen_ff : forall a b c d imm, len a = 4 -> len b = 4 -> len c = 4 -> len d = 4 ->
  let w := xorw (RotWord (SubWord d)) [imm; 0; 0; 0] in
  mm_shuffle_ps (mm_aeskeygenassist (V a b c d) imm) (mm_aeskeygenassist (V a b c d) imm) 0xff = V w w w w.
Proof. intros. unfold mm_aeskeygenassist. rewrite elt_V1, elt_V3 by auto. unfold mm_shuffle_ps. change (0xff mod 4) with 3. change (0xff / 4 mod 4) with 3.
  change (0xff / 16 mod 4) with 3. change (0xff / 64 mod 4) with 3. now rewrite !elt_V3 by reflexivity.
Qed.
Lemma keygen_aa : forall a b c d imm, len a = 4 -> len b = 4 -> len c = 4 -> len d = 4 ->
  let w := SubWord d in
  mm_shuffle_ps (mm_aeskeygenassist (V a b c d) imm) (mm_aeskeygenassist (V a b c d) imm) 0xaa = V w w w w.
Proof. intros. unfold mm_aeskeygenassist. rewrite elt_V1, elt_V3 by auto. unfold mm_shuffle_ps. change (0xaa mod 4) with 2. change (0xaa / 4 mod 4) with 2.
  change (0xaa / 16 mod 4) with 2. change (0xaa / 64 mod 4) with 2. now rewrite !elt_V2 by reflexivity.
Qed.

(** ** Key expansion *)
Lemma rk_V : forall ks r, (forall i, 4 * r <= i < 4 * r + 4 -> len (getr ks i) = 4) ->
  round_key ks r = V (getr ks (4 * r)) (getr ks (4 * r + 1)) (getr ks (4 * r + 2)) (getr ks (4 * r + 3)).
Proof.
  intros ks r H. unfold round_key.
  change (ztab 16 (fun i => get (getr ks (4 * r + i / 4)) (i mod 4))) with
    (V (ztab 4 (get (getr ks (4 * r + 0)))) (ztab 4 (get (getr ks (4 * r + 1)))) (ztab 4 (get (getr ks (4 * r + 2)))) (ztab 4 (get (getr ks (4 * r + 3))))).
  replace (4 * r + 0) with (4 * r) by lia.
  assert (forall l, len l = 4 -> ztab 4 (get l) = l) as E by (intros l Hl; words; reflexivity).
  rewrite !E by (apply H; lia). reflexivity.
Qed.
Lemma rcon_imm : forall j, 1 <= j <= 7 -> Rcon j = [2 ^ (j - 1); 0; 0; 0].
Proof. intros j Hj. assert (j = 1 \/ j = 2 \/ j = 3 \/ j = 4 \/ j = 5 \/ j = 6 \/ j = 7) as H by lia. repeat destruct H as [->|H]; try subst; reflexivity. Qed.
Lemma sub_rot : forall w, RotWord (SubWord w) = SubWord (RotWord w).
Proof. reflexivity. Qed.

Section Key.
  Variable key : list Z.
  Hypothesis Hkey : arr U8 32 key.
  Notation ks := (KeyExpansion key).
  Lemma ks_len : forall i, 0 <= i < 60 -> len (getr ks i) = 4.
  Proof. intros i Hi. now apply KE_arr. Qed.

  (** The vectors hold round keys [2 m] and [2 m + 1]; the first [2 m + 1] are stored. *)
  Definition stored (rk : list (list Z)) (r : Z) : Prop := len rk = 16 /\ forall i, 0 <= i < r -> getr rk i = round_key ks i.
  Definition ztail (t : list Z) : Prop := exists t1 t2 t3, len t1 = 4 /\ len t2 = 4 /\ len t3 = 4 /\ t = V (zeros 4) t1 t2 t3.

  Lemma stored_next : forall rk r, stored rk r -> 0 <= r < 16 -> stored (upd rk r (round_key ks r)) (r + 1).
  Proof.
    intros rk r (L & H) Hr. split; [now rewrite len_upd|]. intros i Hi. unfold getr.
    destruct (Z.eq_dec i r) as [->|]; [now rewrite znth_upd_same by lia|]. rewrite znth_upd_diff by lia. apply H. lia.
  Qed.

  (** The words of round key [r] from those of round key [r - 2]. *)
  Definition chain (r : Z) (w : list Z) : list Z :=
    V (xorw (getr ks (4 * r)) w) (xorw (getr ks (4 * r + 1)) (xorw (getr ks (4 * r)) w))
      (xorw (getr ks (4 * r + 2)) (xorw (getr ks (4 * r + 1)) (xorw (getr ks (4 * r)) w)))
      (xorw (getr ks (4 * r + 3)) (xorw (getr ks (4 * r + 2)) (xorw (getr ks (4 * r + 1)) (xorw (getr ks (4 * r)) w)))).
  Lemma rk_chain : forall r w, 0 <= r < 13 -> getr ks (4 * r + 8) = xorw (getr ks (4 * r)) w -> round_key ks (r + 2) = chain r w.
  Proof.
    intros r w Hr H0. rewrite rk_V by (intros; apply ks_len; lia). unfold chain.
    replace (4 * (r + 2)) with (4 * r + 8) by lia.
    assert (forall j, 1 <= j <= 3 -> getr ks (4 * r + 8 + j) = xorw (getr ks (4 * r + j)) (getr ks (4 * r + 8 + (j - 1)))) as GJ.
    { intros j Hj. rewrite (KE_rec key) by lia. unfold nxt.
      destruct (Z.eqb_spec ((4 * r + 8 + j) mod 8) 0); [dlia|]. destruct (Z.eqb_spec ((4 * r + 8 + j) mod 8) 4); [dlia|]. f_equal; f_equal; lia. }
    pose proof (GJ 1 ltac:(lia)) as G1. pose proof (GJ 2 ltac:(lia)) as G2. pose proof (GJ 3 ltac:(lia)) as G3.
    replace (1 - 1) with 0 in G1 by lia. replace (2 - 1) with 1 in G2 by lia. replace (3 - 1) with 2 in G3 by lia. rewrite Z.add_0_r in G1.
    rewrite G3, G2, G1, H0. reflexivity.
  Qed.
  Lemma spread_rk : forall r w t, 0 <= r < 13 -> len w = 4 -> ztail t ->
    fst (spread (round_key ks r) t (V w w w w)) = chain r w /\ ztail (snd (spread (round_key ks r) t (V w w w w))).
  Proof.
    intros r w t Hr Hw (t1 & t2 & t3 & L1 & L2 & L3 & ->). rewrite (rk_V ks r) by (intros; apply ks_len; lia).
    destruct (spread_ok (getr ks (4 * r)) (getr ks (4 * r + 1)) (getr ks (4 * r + 2)) (getr ks (4 * r + 3)) t1 t2 t3 w) as (u1 & u2 & u3 & M1 & M2 & M3 & E);
      try (apply ks_len; lia); try assumption.
    rewrite E. split; [reflexivity|]. exists u1, u2, u3. auto.
  Qed.

  Lemma wp_BLOCK1 : forall m imm t4 rk (Q : _ -> Prop), 0 <= m < 7 -> imm = 2 ^ m -> ztail t4 -> stored rk (2 * m + 1) ->
    (forall t4 rk, ztail t4 -> stored rk (2 * m + 2) -> Q (round_key ks (2 * m + 2), round_key ks (2 * m + 1), t4, rk, 2 * m + 2)) ->
    wp (BLOCK1 imm (round_key ks (2 * m), round_key ks (2 * m + 1), t4, rk, 2 * m + 1)) Q.
  Proof.
    intros m imm t4 rk Q Hm -> Ht Hs HQ. rewrite BLOCK1_eq. pose proof (stored_next rk (2 * m + 1) Hs ltac:(lia)) as Hn.
    apply wp_bind, wp_setrow; [destruct Hs; lia|]. cbv zeta. apply wp_ret.
    assert (exists w, len w = 4 /\ mm_shuffle_ps (mm_aeskeygenassist (round_key ks (2 * m + 1)) (2 ^ m)) (mm_aeskeygenassist (round_key ks (2 * m + 1)) (2 ^ m)) 0xff = V w w w w /\
      getr ks (4 * (2 * m) + 8) = xorw (getr ks (4 * (2 * m))) w) as (w & Lw & -> & Ew).
    { exists (xorw (RotWord (SubWord (getr ks (4 * (2 * m + 1) + 3)))) [2 ^ m; 0; 0; 0]). split; [reflexivity|]. split.
      - rewrite (rk_V ks (2 * m + 1)) by (intros; apply ks_len; lia). apply keygen_ff; apply ks_len; lia.
      - rewrite (KE_rec key) by lia. unfold nxt. replace ((4 * (2 * m) + 8) mod 8) with 0 by dlia. cbn [Z.eqb].
        replace (4 * (2 * m) + 8 - 8) with (4 * (2 * m)) by lia. rewrite sub_rot.
        replace (4 * (2 * m) + 8 - 1) with (4 * (2 * m + 1) + 3) by lia. replace ((4 * (2 * m) + 8) / 8) with (m + 1) by dlia.
        rewrite rcon_imm by lia. now replace (m + 1 - 1) with m by lia. }
    destruct (spread_rk (2 * m) w t4 ltac:(lia) Lw Ht) as (E1 & E2). rewrite E1, <- rk_chain by (auto; lia).
    replace (2 * m + 1 + 1) with (2 * m + 2) in * by lia. now apply HQ.
  Qed.

  Lemma wp_BLOCK2 : forall m imm t4 rk (Q : _ -> Prop), 0 <= m < 6 -> ztail t4 -> stored rk (2 * m + 2) ->
    (forall t4 rk, ztail t4 -> stored rk (2 * m + 3) -> Q (round_key ks (2 * m + 2), round_key ks (2 * m + 3), t4, rk, 2 * m + 3)) ->
    wp (BLOCK2 imm (round_key ks (2 * m + 2), round_key ks (2 * m + 1), t4, rk, 2 * m + 2)) Q.
  Proof.
    intros m imm t4 rk Q Hm Ht Hs HQ. rewrite BLOCK2_eq. pose proof (stored_next rk (2 * m + 2) Hs ltac:(lia)) as Hn.
    apply wp_bind, wp_setrow; [destruct Hs; lia|]. cbv zeta. apply wp_ret.
    assert (exists w, len w = 4 /\ mm_shuffle_ps (mm_aeskeygenassist (round_key ks (2 * m + 2)) imm) (mm_aeskeygenassist (round_key ks (2 * m + 2)) imm) 0xaa = V w w w w /\
      getr ks (4 * (2 * m + 1) + 8) = xorw (getr ks (4 * (2 * m + 1))) w) as (w & Lw & -> & Ew).
    { exists (SubWord (getr ks (4 * (2 * m + 2) + 3))). split; [reflexivity|]. split.
      - rewrite (rk_V ks (2 * m + 2)) by (intros; apply ks_len; lia). apply keygen_aa; apply ks_len; lia.
      - rewrite (KE_rec key) by lia. unfold nxt. replace ((4 * (2 * m + 1) + 8) mod 8) with 4 by dlia. cbn [Z.eqb Pos.eqb].
        replace (4 * (2 * m + 1) + 8 - 8) with (4 * (2 * m + 1)) by lia.
        replace (4 * (2 * m + 1) + 8 - 1) with (4 * (2 * m + 2) + 3) by lia. reflexivity. }
    destruct (spread_rk (2 * m + 1) w t4 ltac:(lia) Lw Ht) as (E1 & E2). rewrite E1, <- rk_chain by (auto; lia).
    replace (2 * m + 1 + 2) with (2 * m + 3) by lia. replace (2 * m + 2 + 1) with (2 * m + 3) in * by lia. now apply HQ.
  Qed.

  Lemma wp_expand : forall k rk (Q : list (list Z) -> Prop), zfirst 32 k = key -> 32 <= len k -> len rk = 16 ->
    (forall rk, stored rk 15 -> Q rk) -> wp (aesni_key256_expand k rk) Q.
  Proof.
    intros k rk Q Ek Lk Lrk HQ. unfold aesni_key256_expand, mm_load.
    assert (forall o, o = 0 \/ o = 16 -> zfirst 16 (zskip o k) = round_key ks (o / 16)) as EK.
    { intros o Ho. apply znth_ext with (d := 0).
      { rewrite len_zfirst by (rewrite len_zskip; lia). reflexivity. }
      intros i Hi. rewrite len_zfirst in Hi by (rewrite len_zskip; lia). rewrite znth_zfirst, znth_zskip by lia. unfold round_key. rewrite znth_ztab by lia.
      rewrite KE_init by dlia. unfold get. rewrite znth_ztab by dlia. rewrite <- Ek. rewrite znth_zfirst by dlia. f_equal. dlia. }
    apply wp_bind, wp_memcpy; [rewrite len_zeros; lia|lia|]. apply wp_bind, wp_ptr; [lia|]. apply wp_bind, wp_memcpy; [rewrite len_zeros; lia|rewrite len_zskip; lia|].
    change (zskip 16 (zeros 16)) with (@nil Z). rewrite !app_nil_r. rewrite (EK 16) by auto. change (16 / 16) with 1.
    replace (zfirst 16 k) with (round_key ks 0) by (symmetry; exact (EK 0 (or_introl eq_refl))).
    apply wp_bind, wp_setrow; [lia|].
    assert (stored (upd rk 0 (round_key ks 0)) 1) as S1 by (apply (stored_next rk 0); [split; [auto|lia]|lia]).
    assert (ztail (zeros 16)) as T0 by (exists (zeros 4), (zeros 4), (zeros 4); repeat split; reflexivity).
    apply wp_bind, (wp_BLOCK1 0); [lia|reflexivity|exact T0|exact S1|]. clear T0 S1. intros t1 r1 T1 S1.
    apply wp_bind, (wp_BLOCK2 0); [lia|exact T1|exact S1|]. clear T1 S1. intros t2 r2 T2 S2.
    apply wp_bind, (wp_BLOCK1 1); [lia|reflexivity|exact T2|exact S2|]. clear T2 S2. intros t3 r3 T3 S3.
    apply wp_bind, (wp_BLOCK2 1); [lia|exact T3|exact S3|]. clear T3 S3. intros t4 r4 T4 S4.
    apply wp_bind, (wp_BLOCK1 2); [lia|reflexivity|exact T4|exact S4|]. clear T4 S4. intros t5 r5 T5 S5.
    apply wp_bind, (wp_BLOCK2 2); [lia|exact T5|exact S5|]. clear T5 S5. intros t6 r6 T6 S6.
    apply wp_bind, (wp_BLOCK1 3); [lia|reflexivity|exact T6|exact S6|]. clear T6 S6. intros t7 r7 T7 S7.
    apply wp_bind, (wp_BLOCK2 3); [lia|exact T7|exact S7|]. clear T7 S7. intros t8 r8 T8 S8.
    apply wp_bind, (wp_BLOCK1 4); [lia|reflexivity|exact T8|exact S8|]. clear T8 S8. intros t9 r9 T9 S9.
    apply wp_bind, (wp_BLOCK2 4); [lia|exact T9|exact S9|]. clear T9 S9. intros t10 r10 T10 S10.
    apply wp_bind, (wp_BLOCK1 5); [lia|reflexivity|exact T10|exact S10|]. clear T10 S10. intros t11 r11 T11 S11.
    apply wp_bind, (wp_BLOCK2 5); [lia|exact T11|exact S11|]. clear T11 S11. intros t12 r12 T12 S12.
    apply wp_bind, (wp_BLOCK1 6); [lia|reflexivity|exact T12|exact S12|]. clear T12 S12. intros t13 r13 T13 S13.
    apply wp_setrow; [destruct S13; cbn; lia|]. apply HQ. exact (stored_next r13 14 S13 ltac:(lia)).
  Qed.
End Key.

(** ** Rounds *)
Lemma sub_shift : forall s, SubBytes (ShiftRows s) = ShiftRows (SubBytes s).
Proof.
  intros s. unfold SubBytes, ShiftRows. apply ztab_ext. intros i Hi. rewrite !get_tab by dlia. reflexivity.
Qed.
Lemma aesenc_round : forall w r s, mm_aesenc s (round_key w r) = cipher_round w r s.
Proof. intros. unfold mm_aesenc. rewrite sub_shift. reflexivity. Qed.
Lemma rounds_snoc : forall w n r s, rounds w (S n) r s = cipher_round w (r + Z.of_nat n) (rounds w n r s).
Proof.
  intros w n. induction n as [|n IH]; intros r s.
  - cbn [rounds]. f_equal. lia.
  - change (rounds w (S (S n)) r s) with (rounds w (S n) (r + 1) (cipher_round w r s)). rewrite IH. cbn [rounds]. f_equal. lia.
Qed.

Definition blocks_of (key : list Z) (N : Z) (nv : list (list Z)) : list Z := ztab (16 * N) (fun i => get (AES256 key (getr nv (i / 16))) (i mod 16)).

Lemma wp_aesni_blocks : forall key rk N out nv (Q : list Z -> Prop), stored key rk 15 -> 0 <= N -> len nv = N -> 16 * N <= len out ->
  Q (blocks_of key N nv ++ zskip (16 * N) out) -> wp (aesni_blocks N out nv rk) Q.
Proof.
  intros key rk N out nv Q (Lrk & Hrk) HN Lnv Lout HQ. unfold aesni_blocks. set (ks := KeyExpansion key) in *.
  apply wp_bind, wp_row with (d := []); [lia|]. fold (getr rk 0). rewrite Hrk by lia.
  apply wp_bind, wp_for with (I := fun i temp => temp = map (fun v => rounds ks (Z.to_nat (i - 1)) 1 (AddRoundKey v (round_key ks 0))) nv); [lia|reflexivity| |].
  - intros i temp Hi ->. apply wp_bind, wp_row with (d := []); [lia|]. fold (getr rk i). rewrite Hrk by lia. apply wp_ret.
    rewrite map_map. apply map_ext. intros v. rewrite aesenc_round. replace (Z.to_nat (i + 1 - 1)) with (S (Z.to_nat (i - 1))) by lia.
    rewrite rounds_snoc. f_equal. lia.
  - intros temp ->. apply wp_bind, wp_row with (d := []); [lia|]. fold (getr rk 14). rewrite Hrk by lia. rewrite map_map.
    assert (map (fun v => mm_aesenclast (rounds ks (Z.to_nat (14 - 1)) 1 (AddRoundKey v (round_key ks 0))) (round_key ks 14)) nv = map (AES256 key) nv) as E.
    { apply map_ext. intros v. unfold mm_aesenclast. rewrite sub_shift. reflexivity. }
    fold ks. rewrite E.
    apply wp_for with (I := fun a o => len o = len out /\ o = blocks_of key a nv ++ zskip (16 * a) out); [lia| | |].
    + split; auto.
    + intros a o Ha (Lo & Eo). apply wp_bind, wp_row with (d := []); [unfold len in *; rewrite map_length; lia|].
      assert (znth [] (map (AES256 key) nv) a = AES256 key (getr nv a)) as EA.
      { unfold getr, znth. destruct (Z.ltb_spec a 0); [lia|]. rewrite nth_indep with (d' := AES256 key []) by (rewrite map_length; unfold len in *; lia). apply map_nth. }
      rewrite EA. set (B := AES256 key (getr nv a)). assert (len B = 16) as LB by reflexivity.
      apply wp_at; [lia|]. apply wp_memcpy; [rewrite len_zskip; lia|lia|].
      assert (zfirst 16 B = B) as -> by reflexivity.
      set (o' := zfirst (a * 16) o ++ B ++ zskip 16 (zskip (a * 16) o)).
      assert (len o' = len out) as Lo'.
      { unfold o'. rewrite !len_app, len_zfirst, !len_zskip by (rewrite ?len_zskip; lia). lia. }
      split; [exact Lo'|].
      assert (len (blocks_of key a nv) = 16 * a) as L1 by (apply len_ztab; lia).
      assert (len (blocks_of key (a + 1) nv) = 16 * (a + 1)) as L2 by (apply len_ztab; lia).
      apply znth_ext with (d := 0).
      { rewrite Lo', len_app, L2, len_zskip by lia. lia. }
      intros i Hi. rewrite Lo' in Hi. unfold o'. destruct (Z_lt_le_dec i (16 * a)) as [D|D].
      * rewrite znth_app1 by (rewrite len_zfirst; lia). rewrite znth_zfirst by lia. rewrite Eo. rewrite znth_app1 by lia. rewrite znth_app1 by lia.
        unfold blocks_of. rewrite !znth_ztab by lia. reflexivity.
      * rewrite znth_app2 by (rewrite len_zfirst; lia). rewrite len_zfirst by lia. destruct (Z_lt_le_dec i (16 * a + 16)) as [D2|D2].
        -- rewrite znth_app1 by lia. rewrite znth_app1 by lia. unfold blocks_of. rewrite znth_ztab by lia.
           replace (i / 16) with a by dlia. fold B. unfold get. f_equal. dlia.
        -- rewrite znth_app2 by lia. rewrite LB. rewrite !znth_zskip by (rewrite ?len_zskip; lia). rewrite znth_app2 by lia. rewrite L2.
           rewrite Eo. rewrite znth_app2 by lia. rewrite L1. rewrite !znth_zskip by lia. f_equal. lia.
    + intros o (_ & ->). exact HQ.
Qed.

(** ** Counters *)
Lemma zskip_ge : forall {A} n (l : list A), len l <= n -> zskip n l = [].
Proof. intros A n l H. unfold zskip. apply skipn_all2. unfold len in H. lia. Qed.
Lemma dig_bits : forall x k i, 0 <= k -> 0 <= i < 8 -> Z.testbit ((x / 2 ^ k) mod 256) i = Z.testbit x (i + k).
Proof. intros. change 256 with (2 ^ 8). rewrite Z.mod_pow2_bits_low by lia. now rewrite Z.div_pow2_bits by lia. Qed.
Lemma dig_eq : forall x y k j, 0 <= k -> 0 <= j -> (forall i, 0 <= i < 8 -> Z.testbit x (i + k) = Z.testbit y (i + j)) -> (x / 2 ^ k) mod 256 = (y / 2 ^ j) mod 256.
Proof.
  intros x y k j Hk Hj H. apply Z.bits_inj'. intros i Hi. destruct (Z_lt_le_dec i 8).
  - rewrite !dig_bits by lia. apply H. lia.
  - change 256 with (2 ^ 8). rewrite !Z.mod_pow2_bits_high by lia. reflexivity.
Qed.
Lemma hi_lo_bits : forall h l n, 0 <= l < 2 ^ 64 -> 0 <= n -> Z.testbit (h * 2 ^ 64 + l) n = if n <? 64 then Z.testbit l n else Z.testbit h (n - 64).
Proof.
  intros h l n Hl Hn. destruct (Z.ltb_spec n 64).
  - rewrite <- (Z.mod_pow2_bits_low (h * 2 ^ 64 + l) 64) by lia. rewrite Z.add_comm, Z.mod_add by lia. rewrite Z.mod_small by lia. reflexivity.
  - replace n with (n - 64 + 64) at 1 by lia. rewrite <- Z.div_pow2_bits by lia. rewrite Z.div_add_l by lia. rewrite Z.div_small by lia. now rewrite Z.add_0_r.
Qed.
Lemma get_ben : forall n v i, 0 <= i < Z.of_nat n -> get (ben n v) i = (v / 2 ^ (8 * (Z.of_nat n - 1 - i))) mod 256.
Proof.
  induction n as [|n IH]; intros v i Hi; [lia|]. cbn [ben]. unfold get in *. destruct (Z.eq_dec i (Z.of_nat n)) as [->|].
  - rewrite znth_app2 by (rewrite len_ben; lia). rewrite len_ben. replace (Z.of_nat n - Z.of_nat n) with 0 by lia. rewrite znth_0.
    replace (8 * (Z.of_nat (S n) - 1 - Z.of_nat n)) with 0 by lia. now rewrite Z.div_1_r.
  - rewrite znth_app1 by (rewrite len_ben; lia). rewrite IH by lia. f_equal. change 256 with (2 ^ 8). rewrite Z.div_div by (first [apply Z.pow_nonzero; lia|apply Z.pow_pos_nonneg; lia|lia]).
    rewrite <- Z.pow_add_r by lia. do 2 f_equal. lia.
Qed.

Lemma len_le64 : forall x, len (le64 x) = 8.
Proof. reflexivity. Qed.
Lemma swap_be : forall h l, mm_shuffle_epi8 (le64 h ++ le64 l) bswap_mask = be 16 ((h mod 2 ^ 64) * 2 ^ 64 + l mod 2 ^ 64).
Proof.
  intros h l. pose proof (Z.mod_pos_bound l (2 ^ 64) ltac:(lia)) as Hl. apply znth_ext with (d := 0); [reflexivity|]. intros i Hi. change (len (mm_shuffle_epi8 (le64 h ++ le64 l) bswap_mask)) with 16 in Hi.
  fold (get (mm_shuffle_epi8 (le64 h ++ le64 l) bswap_mask) i). fold (get (be 16 (h mod 2 ^ 64 * 2 ^ 64 + l mod 2 ^ 64)) i).
  unfold be. rewrite get_ben by lia. unfold mm_shuffle_epi8. rewrite get_tab by lia.
  assert (get bswap_mask i = if i <? 8 then 7 - i else 23 - i) as ->.
  { assert (forall j, 0 <= j < 16 -> get bswap_mask j = if j <? 8 then 7 - j else 23 - j) as F; [|now apply F].
    intros j Hj. assert (j = 0 \/ j = 1 \/ j = 2 \/ j = 3 \/ j = 4 \/ j = 5 \/ j = 6 \/ j = 7 \/ j = 8 \/ j = 9 \/ j = 10 \/ j = 11 \/ j = 12 \/ j = 13 \/ j = 14 \/ j = 15) as H by lia.
    repeat destruct H as [->|H]; try subst j; reflexivity. }
  change (Z.of_nat (Z.to_nat 16)) with 16. unfold get. destruct (Z.ltb_spec i 8).
  - destruct (Z.leb_spec 128 (7 - i)); [lia|]. rewrite (Z.mod_small (7 - i)) by lia. rewrite znth_app1 by (rewrite len_le64; lia). unfold le64. rewrite znth_ztab by lia.
    apply dig_eq; [lia|lia|]. intros b Hb. rewrite hi_lo_bits by lia. destruct (Z.ltb_spec (b + 8 * (16 - 1 - i)) 64); [lia|].
    rewrite Z.mod_pow2_bits_low by lia. f_equal. lia.
  - destruct (Z.leb_spec 128 (23 - i)); [lia|]. rewrite (Z.mod_small (23 - i)) by lia. rewrite znth_app2 by (rewrite len_le64; lia). rewrite len_le64. unfold le64. rewrite znth_ztab by lia.
    apply dig_eq; [lia|lia|]. intros b Hb. rewrite hi_lo_bits by lia. destruct (Z.ltb_spec (b + 8 * (16 - 1 - i)) 64); [|lia].
    rewrite Z.mod_pow2_bits_low by lia. f_equal. lia.
Qed.

Lemma le_sum : forall x, (x / 2 ^ 0) mod 256 + 256 * ((x / 2 ^ 8) mod 256 + 256 * ((x / 2 ^ 16) mod 256 + 256 * ((x / 2 ^ 24) mod 256 + 256 * ((x / 2 ^ 32) mod 256 +
  256 * ((x / 2 ^ 40) mod 256 + 256 * ((x / 2 ^ 48) mod 256 + 256 * ((x / 2 ^ 56) mod 256 + 256 * 0))))))) = x mod 2 ^ 64.
Proof.
  intros x. assert (forall k m y, 0 < m -> 0 <= k -> (y / 2 ^ k) mod (256 * m) = (y / 2 ^ k) mod 256 + 256 * ((y / 2 ^ (8 + k)) mod m)) as E.
  { intros k m y Hm Hk. rewrite Z.rem_mul_r by lia. do 3 f_equal. rewrite Z.div_div by (first [apply Z.pow_nonzero; lia|apply Z.pow_pos_nonneg; lia|lia]). f_equal. rewrite Z.pow_add_r by lia. change (2 ^ 8) with 256. lia. }
  replace (x mod 2 ^ 64) with ((x / 2 ^ 0) mod 2 ^ 64) by (now rewrite Z.div_1_r).
  pose proof (E 0 (2 ^ 56) x ltac:(lia) ltac:(lia)) as E0. change (256 * 2 ^ 56) with (2 ^ 64) in E0. change (8 + 0) with 8 in E0.
  pose proof (E 8 (2 ^ 48) x ltac:(lia) ltac:(lia)) as E8. change (256 * 2 ^ 48) with (2 ^ 56) in E8. change (8 + 8) with 16 in E8.
  pose proof (E 16 (2 ^ 40) x ltac:(lia) ltac:(lia)) as E16. change (256 * 2 ^ 40) with (2 ^ 48) in E16. change (8 + 16) with 24 in E16.
  pose proof (E 24 (2 ^ 32) x ltac:(lia) ltac:(lia)) as E24. change (256 * 2 ^ 32) with (2 ^ 40) in E24. change (8 + 24) with 32 in E24.
  pose proof (E 32 (2 ^ 24) x ltac:(lia) ltac:(lia)) as E32. change (256 * 2 ^ 24) with (2 ^ 32) in E32. change (8 + 32) with 40 in E32.
  pose proof (E 40 (2 ^ 16) x ltac:(lia) ltac:(lia)) as E40. change (256 * 2 ^ 16) with (2 ^ 24) in E40. change (8 + 40) with 48 in E40.
  pose proof (E 48 (2 ^ 8) x ltac:(lia) ltac:(lia)) as E48. change (256 * 2 ^ 8) with (2 ^ 16) in E48. change (8 + 48) with 56 in E48.
  replace (2 ^ 8) with 256 in E48 by reflexivity. rewrite E0, E8, E16, E24, E32, E40, E48. lia.
Qed.
Lemma qw_lo : forall h l, qw (le64 h ++ le64 l) 0 = h mod 2 ^ 64.
Proof. intros h l. rewrite <- le_sum. reflexivity. Qed.
Lemma qw_hi : forall h l, qw (le64 h ++ le64 l) 1 = l mod 2 ^ 64.
Proof. intros h l. rewrite <- le_sum. reflexivity. Qed.

Definition cval (n : list Z) : Z := qw n 0 * 2 ^ 64 + qw n 1.
(** The counter that [N] blocks leave behind. *)
Definition ctr_next (N C : Z) : Z := if C mod 2 ^ 64 =? 2 ^ 64 - N then C - C mod 2 ^ 64 else (C + N) mod 2 ^ 128.

Lemma list16 : forall l : list Z, len l = 16 -> exists a b c d e f g h i j k m n o p q, l = [a; b; c; d; e; f; g; h; i; j; k; m; n; o; p; q].
Proof.
  intros l H. do 16 (destruct l as [|? l]; [unfold len in H; cbn [length] in H; lia|]). destruct l; [|unfold len in H; cbn [length] in H; lia]. repeat eexists.
Qed.
Lemma qw_range : forall n k, arr U8 16 n -> 0 <= k < 2 -> 0 <= qw n k < 2 ^ 64.
Proof.
  intros n k Hn Hk. assert (forall j, 0 <= j < 8 -> 0 <= get n (8 * k + j) < 256) as H by (intros j Hj; apply (arr_get 16); auto; lia).
  unfold qw. change (ztab 8 (fun j => j)) with [0; 1; 2; 3; 4; 5; 6; 7]. cbn [fold_right].
  pose proof (H 0 ltac:(lia)). pose proof (H 1 ltac:(lia)). pose proof (H 2 ltac:(lia)). pose proof (H 3 ltac:(lia)).
  pose proof (H 4 ltac:(lia)). pose proof (H 5 ltac:(lia)). pose proof (H 6 ltac:(lia)). pose proof (H 7 ltac:(lia)). lia.
Qed.
Lemma arr_le64 : forall h l, arr U8 16 (le64 h ++ le64 l).
Proof.
  intros. split; [reflexivity|]. apply Forall_app. split; apply Forall_ztab; intros i Hi; pose proof (Z.mod_pos_bound (h / 2 ^ (8 * i)) 256 ltac:(lia));
    pose proof (Z.mod_pos_bound (l / 2 ^ (8 * i)) 256 ltac:(lia)); cbn [tmin tmax]; lia.
Qed.
Lemma add_set : forall n a c, mm_add_epi64 n (mm_set_epi64x a c) = le64 (qw n 0 + c mod 2 ^ 64) ++ le64 (qw n 1 + a mod 2 ^ 64).
Proof. intros. unfold mm_add_epi64, mm_set_epi64x. now rewrite qw_lo, qw_hi. Qed.

Definition ctr_blocks (key : list Z) (N C : Z) : list Z := ztab (16 * N) (fun i => get (AES256 key (be 16 ((C + i / 16) mod 2 ^ 128))) (i mod 16)).

Lemma wp_aesni_encrypt : forall key rk N out n (Q : list Z * list Z -> Prop), stored key rk 15 -> 1 <= N <= 12 -> len out = 16 * N -> arr U8 16 n ->
  (forall n', arr U8 16 n' -> cval n' = ctr_next N (cval n) -> Q (ctr_blocks key N (cval n), n')) ->
  wp (aesni_encrypt N out n rk) Q.
Proof.
  intros key rk N out n Q Hrk HN Lout Hn HQ. destruct Hn as (Ln & Tn). pose proof (conj Ln Tn : arr U8 16 n) as Hn. unfold aesni_encrypt, mm_load, mm_store.
  apply wp_bind, wp_memcpy; [rewrite len_zeros; lia|lia|]. apply wp_bind, wp_ptr; [lia|]. apply wp_bind, wp_memcpy; [rewrite len_zeros; lia|rewrite len_zskip; lia|].
  change (zskip 16 (zeros 16)) with (@nil Z). change (zskip 8 (zeros 8)) with (@nil Z). rewrite !app_nil_r.
  assert (zfirst 16 n = n) as -> by (apply zfirst_ge; lia).
  assert (qw (zfirst 8 (zskip 8 n)) 0 = qw n 1) as ->.
  { destruct (list16 n Ln) as (x0 & x1 & x2 & x3 & x4 & x5 & x6 & x7 & x8 & x9 & xa & xb & xc & xd & xe & xf & ->). reflexivity. }
  pose proof (qw_range n 0 Hn ltac:(lia)) as Hh. pose proof (qw_range n 1 Hn ltac:(lia)) as Hl.
  unfold cval in HQ. set (h := qw n 0) in *. set (l := qw n 1) in *. set (nl := wrap I64 l).
  assert (nl = if l <? 2 ^ 63 then l else l - 2 ^ 64) as Enl.
  { unfold nl. destruct (Z.ltb_spec l (2 ^ 63)).
    - apply wrap_id. cbn [tmin tmax]. lia.
    - unfold wrap. dlia. }
  assert ((h * 2 ^ 64 + l) mod 2 ^ 64 = l) as El by (rewrite Z.add_comm, Z.mod_add by lia; apply Z.mod_small; lia).
  assert (forall nv n', arr U8 16 n' -> cval n' = ctr_next N (h * 2 ^ 64 + l) -> len nv = N -> (forall a, 0 <= a < N -> getr nv a = be 16 (h * 2 ^ 64 + l + a)) ->
    wp (out <- aesni_blocks N out nv rk ;; ret (out, n'))%M Q) as FIN.
  { intros nv n' Hn' En' Lnv Env. apply wp_bind, (wp_aesni_blocks key); auto; [lia|lia|]. apply wp_ret. rewrite zskip_ge by lia. rewrite app_nil_r.
    unfold blocks_of. assert (E : ztab (16 * N) (fun i => get (AES256 key (getr nv (i / 16))) (i mod 16)) = ctr_blocks key N (h * 2 ^ 64 + l)).
    { unfold ctr_blocks. apply ztab_ext. intros i Hi. rewrite Env by dlia. now rewrite be_mod. }
    rewrite E. now apply HQ. }
  apply wp_bind, wp_ite. destruct ((nl <? 0) && (0 <=? nl + (N - 1))) eqn:B.
  - apply andb_true_iff in B. destruct B as (B1 & B2). apply Z.ltb_lt in B1. apply Z.leb_le in B2.
    assert (2 ^ 63 <= l /\ nl = l - 2 ^ 64) as (Hl2 & Enl2) by (destruct (Z.ltb_spec l (2 ^ 63)); lia).
    assert (wrap I32 (N - (nl + N)) = 2 ^ 64 - l) as ->. { rewrite Enl2. replace (N - (l - 2 ^ 64 + N)) with (2 ^ 64 - l) by lia. apply wrap_id. cbn [tmin tmax]. lia. }
    apply wp_bind, wp_memcpy; [lia|reflexivity|]. apply wp_ret. rewrite zskip_ge by lia. rewrite app_nil_r. rewrite add_set. change (1 mod 2 ^ 64) with 1. rewrite (Z.mod_small N) by lia.
    change (zfirst 16 (le64 (qw n 0 + 1) ++ le64 (qw n 1 + N))) with (le64 (h + 1) ++ le64 (l + N)).
    apply FIN; [apply arr_le64| |apply len_ztab; lia|].
    + unfold cval. rewrite qw_lo, qw_hi. unfold ctr_next. rewrite El. destruct (Z.eqb_spec l (2 ^ 64 - N)); dlia.
    + intros a Ha. unfold getr. rewrite znth_ztab by lia. rewrite add_set. fold h l. rewrite (Z.mod_small a) by lia. rewrite swap_be. rewrite <- be_mod. rewrite <- (be_mod (h * 2 ^ 64 + l + a)). f_equal.
      destruct (Z.leb_spec (2 ^ 64 - l) a); change (1 mod 2 ^ 64) with 1; change (0 mod 2 ^ 64) with 0; dlia.
  - assert (l + N <= 2 ^ 64) as Hw.
    { apply andb_false_iff in B. destruct B as [B|B]; [apply Z.ltb_ge in B|apply Z.leb_gt in B]; destruct (Z.ltb_spec l (2 ^ 63)); lia. }
    apply wp_bind, wp_memcpy; [lia|reflexivity|]. apply wp_ret. rewrite zskip_ge by lia. rewrite app_nil_r. rewrite add_set. change (0 mod 2 ^ 64) with 0. rewrite (Z.mod_small N) by lia.
    change (zfirst 16 (le64 (qw n 0 + 0) ++ le64 (qw n 1 + N))) with (le64 (h + 0) ++ le64 (l + N)).
    apply FIN; [apply arr_le64| |apply len_ztab; lia|].
    + unfold cval. rewrite qw_lo, qw_hi. unfold ctr_next. rewrite El. destruct (Z.eqb_spec l (2 ^ 64 - N)); dlia.
    + intros a Ha. unfold getr. rewrite znth_ztab by lia. rewrite add_set. fold h l. rewrite (Z.mod_small a) by lia. rewrite swap_be. f_equal.
      change (0 mod 2 ^ 64) with 0. dlia.
Qed.
