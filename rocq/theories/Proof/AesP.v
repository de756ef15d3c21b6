(** aes256ctr.c produces the AES-256 counter-mode key stream. *)
From Coq Require Import ZArith List Bool Lia.
From Verif Require Import Lib.Arr Lib.CInt Lib.CMon Lib.Gate Spec.Aes Model.Params Model.Sha2 Model.Aes Proof.BytesP Proof.Sha2P Proof.GateP Proof.AesGate Proof.AesWord Proof.AesKey Proof.AesBlock Proof.KemP.
Import ListNotations.
Local Open Scope Z_scope.

Lemma ctr_init_ok : forall junk sk inp key, arr U64 120 sk -> 32 <= len inp -> typed U8 inp -> key = zfirst 32 inp -> wp (ctr_init junk sk inp) (fun sk' => ksliced sk' (KeyExpansion key)).
Proof.
  intros junk sk inp key Hsk Li Ti Ek. unfold ctr_init. apply wp_bind. eapply wp_mono; [apply (keysched_ok _ _ _ key); auto; apply uninit__arr; lia|].
  intros comp (Ac & Hc). apply skey_expand_ok; auto.
Qed.

Lemma list16 : forall (l : list Z), len l = 16 -> exists a0 a1 a2 a3 a4 a5 a6 a7 a8 a9 b0 b1 b2 b3 b4 b5, l = [a0; a1; a2; a3; a4; a5; a6; a7; a8; a9; b0; b1; b2; b3; b4; b5].
Proof. intros q L. unfold len in L. do 17 (destruct q as [|? q]; cbn [length] in L; try lia). do 16 eexists. reflexivity. Qed.

Lemma fill_ivw_ok : forall ivw iv c0 c1 c2 c3 j, arr U32 16 ivw -> 12 <= len iv -> typed U8 iv ->
  safe c0 = true -> safe c1 = true -> safe c2 = true -> safe c3 = true -> lok c0 -> lok c1 -> lok c2 -> lok c3 ->
  wrap U32 (val c0) = (j + 0) mod 2 ^ 32 -> wrap U32 (val c1) = (j + 1) mod 2 ^ 32 -> wrap U32 (val c2) = (j + 2) mod 2 ^ 32 -> wrap U32 (val c3) = (j + 3) mod 2 ^ 32 ->
  wp (fill_ivw ivw iv c0 c1 c2 c3) (fun ivw' => ivw_ok ivw' iv j).
Proof.
  intros ivw iv c0 c1 c2 c3 j (L & T) Li Ti S0 S1 S2 S3 K0 K1 K2 K3 V0 V1 V2 V3. unfold fill_ivw.
  apply wp_bind. eapply wp_mono; [apply range_dec32le_ok; auto; lia|]. intros w (Lw & _ & Hw). rewrite L in Lw. clear ivw L T.
  destruct (Hw 0 ltac:(lia)) as (B0 & E0). destruct (Hw 1 ltac:(lia)) as (B1 & E1). destruct (Hw 2 ltac:(lia)) as (B2 & E2). clear Hw.
  destruct (list16 w Lw) as (a & b & c & x0 & x1 & x2 & x3 & x4 & x5 & x6 & x7 & x8 & x9 & y0 & y1 & y2 & ->). clear Lw.
  change (get [a; b; c; x0; x1; x2; x3; x4; x5; x6; x7; x8; x9; y0; y1; y2] 0) with a in *.
  change (get [a; b; c; x0; x1; x2; x3; x4; x5; x6; x7; x8; x9; y0; y1; y2] 1) with b in *.
  change (get [a; b; c; x0; x1; x2; x3; x4; x5; x6; x7; x8; x9; y0; y1; y2] 2) with c in *.
  apply wp_bind, wp_at; [split; discriminate|]. apply wp_memcpy; [split; discriminate|discriminate|].
  change (zfirst 4 _ ++ (zfirst 3 _ ++ zskip 3 (zskip 4 _))) with [a; b; c; x0; a; b; c; x4; x5; x6; x7; x8; x9; y0; y1; y2].
  apply wp_bind, wp_at; [split; discriminate|]. apply wp_memcpy; [split; discriminate|discriminate|].
  change (zfirst 8 _ ++ (zfirst 3 _ ++ zskip 3 (zskip 8 _))) with [a; b; c; x0; a; b; c; x4; a; b; c; x8; x9; y0; y1; y2].
  apply wp_bind, wp_at; [split; discriminate|]. apply wp_memcpy; [split; discriminate|discriminate|].
  change (zfirst 12 _ ++ (zfirst 3 _ ++ zskip 3 (zskip 12 _))) with [a; b; c; x0; a; b; c; x4; a; b; c; x8; a; b; c; y2].
  apply wp_bind, swap32_ok; auto. intros v0 W0 U0. rewrite V0 in U0.
  apply wp_bind, wp_st; [reflexivity|cbn [lok tmin tmax]; lia|split; [discriminate|reflexivity]|]. cbn [val]. rewrite wrap_id by (cbn [tmin tmax]; lia).
  change (upd _ 3 v0) with [a; b; c; v0; a; b; c; x4; a; b; c; x8; a; b; c; y2].
  apply wp_bind, swap32_ok; auto. intros v1 W1 U1. rewrite V1 in U1.
  apply wp_bind, wp_st; [reflexivity|cbn [lok tmin tmax]; lia|split; [discriminate|reflexivity]|]. cbn [val]. rewrite wrap_id by (cbn [tmin tmax]; lia).
  change (upd _ 7 v1) with [a; b; c; v0; a; b; c; v1; a; b; c; x8; a; b; c; y2].
  apply wp_bind, swap32_ok; auto. intros v2 W2 U2. rewrite V2 in U2.
  apply wp_bind, wp_st; [reflexivity|cbn [lok tmin tmax]; lia|split; [discriminate|reflexivity]|]. cbn [val]. rewrite wrap_id by (cbn [tmin tmax]; lia).
  change (upd _ 11 v2) with [a; b; c; v0; a; b; c; v1; a; b; c; v2; a; b; c; y2].
  apply wp_bind, swap32_ok; auto. intros v3 W3 U3. rewrite V3 in U3.
  apply wp_st; [reflexivity|cbn [lok tmin tmax]; lia|split; [discriminate|reflexivity]|]. cbn [val]. rewrite wrap_id by (cbn [tmin tmax]; lia).
  change (upd _ 15 v3) with [a; b; c; v0; a; b; c; v1; a; b; c; v2; a; b; c; v3].
  split; [split; [reflexivity|repeat (apply Forall_cons; [cbn [tmin tmax]; lia|]); constructor]|].
  intros i Hi. assert (i = 0 \/ i = 1 \/ i = 2 \/ i = 3) as [-> | [-> | [-> | ->]]] by lia; (split; [|assumption]);
    intros m r Hm Hr; (assert (m = 0 \/ m = 1 \/ m = 2) as [-> | [-> | ->]] by lia; [apply (E0 r Hr)|apply (E1 r Hr)|apply (E2 r Hr)]).
Qed.

Lemma ctr_stream_app : forall key nonce o a b, 0 <= a -> 0 <= b -> ctr_stream key nonce o (a + b) = ctr_stream key nonce o a ++ ctr_stream key nonce (o + a) b.
Proof.
  intros key nonce o a b Ha Hb. unfold ctr_stream. generalize (ctr_byte key nonce). intros f.
  apply znth_ext with (d := 0); [rewrite len_app, !len_ztab by lia; lia|]. intros i Hi. rewrite len_ztab in Hi by lia. rewrite znth_ztab by lia.
  destruct (Z_lt_le_dec i a).
  - rewrite znth_app1 by (rewrite len_ztab; lia). now rewrite znth_ztab by lia.
  - rewrite znth_app2, len_ztab by (rewrite ?len_ztab; lia). rewrite znth_ztab by lia. f_equal. lia.
Qed.
Lemma ctr_stream_len : forall key nonce o n, 0 <= n -> len (ctr_stream key nonce o n) = n.
Proof. intros. unfold ctr_stream. now apply len_ztab. Qed.
Lemma ctr_stream_first : forall key nonce o n m, 0 <= n <= m -> zfirst n (ctr_stream key nonce o m) = ctr_stream key nonce o n.
Proof.
  intros key nonce o n m H. replace m with (n + (m - n)) by lia. rewrite ctr_stream_app by lia.
  unfold zfirst. rewrite firstn_app. pose proof (ctr_stream_len key nonce o n ltac:(lia)) as L. unfold len in L.
  replace (Z.to_nat n - length (ctr_stream key nonce o n))%nat with 0%nat by lia. rewrite firstn_O, app_nil_r. apply firstn_all2. lia.
Qed.

(** ** Bytes *)
Lemma Cipher_arr : forall ks s, (forall i, 0 <= i < 60 -> arr U8 4 (getr ks i)) -> arr U8 16 s -> arr U8 16 (Cipher ks s).
Proof.
  intros ks s Hks Hs.
  assert (forall s, arr U8 16 s -> arr U8 16 (SubBytes s)) as SUB by (intros x Hx; apply arr_tab; [lia|]; intros i Hi; apply sbox_range; eapply arr_get; eauto).
  assert (forall s, arr U8 16 s -> arr U8 16 (ShiftRows s)) as SHI by (intros x Hx; apply arr_tab; [lia|]; intros i Hi; cbv zeta; eapply arr_get; eauto; zlia).
  assert (forall s, arr U8 16 s -> arr U8 16 (MixColumns s)) as MIX.
  { intros x Hx; apply arr_tab; [lia|]; intros i Hi. cbv zeta.
    assert (forall d, 0 <= get x ((i mod 4 + d) mod 4 + 4 * (i / 4)) < 256) as G by (intros d; eapply arr_get; [eauto|]; zlia).
    destruct (gmul_small _ (G 0)) as (-> & _ & X0). destruct (gmul_small _ (G 1)) as (_ & -> & X1). specialize (G 0) as G0; specialize (G 1) as G1; specialize (G 2) as G2; specialize (G 3) as G3.
    repeat apply lxor_byte; auto. }
  assert (forall s m, 0 <= m < 15 -> arr U8 16 s -> arr U8 16 (AddRoundKey s (round_key ks m))) as ARK.
  { intros x m Hm Hx. pose proof (rk_arr ks m Hks Hm). apply arr_tab; [lia|]; intros i Hi. apply lxor_byte; eapply arr_get; eauto. }
  assert (forall n r x, 0 <= r -> r + Z.of_nat n <= 15 -> arr U8 16 x -> arr U8 16 (rounds ks n r x)) as RDS.
  { induction n as [|n IH]; intros r x Hr Hn Hx; cbn [rounds]; auto. apply IH; try lia. apply ARK; [lia|]. auto. }
  unfold Cipher. apply ARK; [lia|]. apply SHI, SUB, RDS; try lia. apply ARK; [lia|auto].
Qed.
Lemma ctr_byte_range : forall key nonce i, arr U8 32 key -> 12 <= len nonce -> typed U8 nonce -> 0 <= ctr_byte key nonce i < 256.
Proof.
  intros key nonce i Hkey Ln Tn. unfold ctr_byte, ctr_block, AES256. eapply arr_get; [apply Cipher_arr; [now apply KE_arr|]|apply Z.mod_pos_bound; lia].
  pose proof (arr_be 4 (i / 16 mod 2 ^ 32) ltac:(lia)) as (Lb & Tb). split; [rewrite len_app, len_zfirst, Lb by lia; reflexivity|].
  apply Forall_app. split; [now apply Forall_zfirst|exact Tb].
Qed.
Lemma ctr_stream_arr : forall key nonce o n, arr U8 32 key -> 12 <= len nonce -> typed U8 nonce -> 0 <= n -> arr U8 n (ctr_stream key nonce o n).
Proof. intros. unfold ctr_stream. apply arr_tab; auto. intros. now apply ctr_byte_range. Qed.

Lemma wp_at2 : forall B a off (f : list Z -> M (list Z * B)) Q, 0 <= off <= len a -> wp (f (zskip off a)) (fun r => Q (zfirst off a ++ fst r, snd r)) -> wp (at2 a off f) Q.
Proof.
  intros B a off f Q Ho H. unfold at2. apply wp_bind, wp_ptr; [auto|]. apply wp_bind. eapply wp_mono; [exact H|]. intros (v & b) HQ. now apply wp_ret.
Qed.

Local Opaque ctr_stream KeyExpansion.
(** Writing the next 64 bytes behind what is already written. *)
Lemma step_eq : forall (s1 s2 d : list Z) o, len s1 = o -> 0 <= o -> o + 64 <= len d -> len s2 = 64 ->
  zfirst o (s1 ++ zskip o d) ++ (s2 ++ zskip 64 (zskip o (s1 ++ zskip o d))) = (s1 ++ s2) ++ zskip (o + 64) d.
Proof.
  intros s1 s2 d o L1 Ho Ld L2. rewrite zfirst_app_at, zskip_app_at by auto. rewrite zskip_zskip by lia. now rewrite app_assoc.
Qed.

Section Stream.
  Variables key nonce : list Z.
  Variable inp : list Z.
  Hypothesis Linp : 32 <= len inp.
  Hypothesis Tinp : typed U8 inp.
  Hypothesis Einp : key = zfirst 32 inp.
  Lemma stream_key : arr U8 32 key.
  Proof. rewrite Einp. split; [apply len_zfirst; lia|now apply Forall_zfirst]. Qed.
  Hint Resolve stream_key : core.
  Hypothesis Hnonce : 12 <= len nonce.
  Hypothesis Tnonce : typed U8 nonce.

  Lemma run_ok : forall junk sk ivw j data ln,
    ksliced sk (KeyExpansion key) -> ivw_ok ivw nonce j -> 0 <= j -> 0 <= ln <= len data ->
    wp ('(data, ivw, o, ln) <- while_ (S (Z.to_nat (ln / 64))) (fun '(_, _, _, ln) => 64 <? ln)
          (fun '(data, ivw, o, ln) =>
            '(data, ivw) <- at2 data o (fun p => aes_ctr4x (sub junk 1) p ivw sk) ;;
            ret (data, ivw, o + 64, ln - 64)) (data, ivw, 0, ln) ;;
        ite (0 <? ln)
          (let tmp := uninit8 junk 2 64 in
           '(tmp, ivw) <- aes_ctr4x (sub junk 3) tmp ivw sk ;;
           at_ data o (fun p => for_ 0 ln (fun i p => st U8 p i (Idx U8 tmp i)) p))
          (ret data)) (fun r => r = ctr_stream key nonce (16 * j) ln ++ zskip ln data).
  Proof.
    intros junk sk ivw j data ln Hsk Hiv Hj Hln. apply wp_bind.
    apply (wp_while _ (fun k (s : list Z * list Z * Z * Z) => let '(d, w, o, l) := s in
      d = ctr_stream key nonce (16 * j) (64 * k) ++ zskip (64 * k) data /\ ivw_ok w nonce (j + 4 * k) /\ o = 64 * k /\ l = ln - 64 * k) (if ln =? 0 then 0 else (ln - 1) / 64)).
    - destruct (ln =? 0) eqn:D; dlia.
    - destruct (ln =? 0) eqn:D; rewrite Nat2Z.inj_succ, Z2Nat.id by dlia; dlia.
    - split; [reflexivity|]. split; [rewrite Z.add_0_r; exact Hiv|]. lia.
    - intros k (((d & w) & o) & l) Hk (_ & _ & _ & ->). destruct (ln =? 0) eqn:D; dlia.
    - intros k (((d & w) & o) & l) Hk (-> & Hw & -> & ->). assert (64 * k + 64 <= ln) as Hk' by (destruct (ln =? 0) eqn:D; dlia).
      pose proof (ctr_stream_len key nonce (16 * j) (64 * k) ltac:(lia)) as Ls.
      apply wp_bind, wp_at2; [rewrite len_app, Ls, len_zskip by lia; lia|].
      apply (aes_ctr4x_ok _ _ _ _ key nonce (j + 4 * k)); auto; try lia.
      { rewrite zskip_app_at, len_zskip by lia. lia. }
      intros w' Hw'. cbn [fst snd]. apply wp_ret. split; [|split; [|split; lia]].
      + rewrite step_eq by (auto; try lia; apply ctr_stream_len; lia). replace (64 * (k + 1)) with (64 * k + 64) by lia.
        rewrite (ctr_stream_app _ _ _ (64 * k) 64) by lia. replace (16 * (j + 4 * k)) with (16 * j + 64 * k) by lia. reflexivity.
      + replace (j + 4 * (k + 1)) with (j + 4 * k + 4) by lia. exact Hw'.
    - set (m := if ln =? 0 then 0 else (ln - 1) / 64). assert (0 <= 64 * m <= ln /\ ln - 64 * m <= 64 /\ (0 < ln -> 0 < ln - 64 * m)) as (M1 & M2 & M3) by (unfold m; destruct (ln =? 0) eqn:D; dlia).
      clearbody m. intros (((d & w) & o) & l) (-> & Hw & -> & ->). apply wp_ite. destruct (0 <? ln - 64 * m) eqn:D.
      + cbv zeta. apply wp_bind. apply (aes_ctr4x_ok _ _ _ _ key nonce (j + 4 * m)); auto; try lia.
        { pose proof (uninit8_arr junk 2 64 ltac:(lia)) as (L & _). lia. }
        intros w' _. pose proof (uninit8_arr junk 2 64 ltac:(lia)) as (L & _).
        replace (zskip 64 (uninit8 junk 2 64)) with (@nil Z) by (unfold zskip; rewrite skipn_all2; [reflexivity|unfold len in L; lia]). rewrite app_nil_r.
        pose proof (ctr_stream_len key nonce (16 * j) (64 * m) ltac:(lia)) as Ls.
        apply wp_at; [rewrite len_app, Ls, len_zskip by lia; lia|].
        rewrite zfirst_app_at, zskip_app_at by auto.
        pose proof (ctr_stream_len key nonce (16 * (j + 4 * m)) 64 ltac:(lia)) as L64.
        apply (wp_copy (ln - 64 * m) 0 0 _ _ (fun i => i) (fun i => i)); try lia; [rewrite len_zskip; lia|now apply ctr_stream_arr|].
        rewrite Z.add_0_l. change (zfirst 0 (zskip (64 * m) data)) with (@nil Z). cbn [app]. rewrite (zskip_0 (ctr_stream _ _ _ _)). rewrite ctr_stream_first by lia. rewrite zskip_zskip by lia. replace (64 * m + (ln - 64 * m)) with ln by lia. rewrite app_assoc.
        replace (16 * (j + 4 * m)) with (16 * j + 64 * m) by lia. rewrite <- ctr_stream_app by lia. replace (64 * m + (ln - 64 * m)) with ln by lia. reflexivity.
      + apply wp_ret. replace (64 * m) with ln by lia. reflexivity.
  Qed.

  Lemma aes256ctr_prf_ok : forall junk out n, 0 <= n <= len out ->
    wp (aes256ctr_prf junk out n inp nonce) (fun r => r = ctr_stream key nonce 0 n ++ zskip n out).
  Proof.
    intros junk out n Hn. unfold aes256ctr_prf. apply wp_bind. eapply wp_mono; [apply ctr_init_ok; [apply uninit__arr; lia|eauto..]|]. intros sk Hsk.
    unfold ctr_run. apply wp_bind. eapply wp_mono; [apply (fill_ivw_ok _ nonce _ _ _ _ 0); auto; try reflexivity; [apply uninit__arr; lia|cbn; lia..]|].
    intros ivw Hiv. apply (run_ok _ _ _ 0); auto; lia.
  Qed.

  (** The state after [64 k] bytes. *)
  Definition ctx_at (s : aes256ctr_ctx) (k : Z) : Prop := ksliced (c_sk s) (KeyExpansion key) /\ ivw_ok (c_ivw s) nonce (4 * k).

  Lemma aes256ctr_init_ok : forall junk s, aes_ctx_ok s -> wp (aes256ctr_init junk s inp nonce) (fun s' => ctx_at s' 0).
  Proof.
    intros junk s (H1 & H2). unfold aes256ctr_init. apply wp_bind. eapply wp_mono; [apply (ctr_init_ok _ _ _ key); auto|]. intros sk Hsk.
    apply wp_bind. eapply wp_mono; [apply (fill_ivw_ok _ nonce _ _ _ _ 0); auto; try reflexivity; cbn; lia|].
    intros ivw Hiv. apply wp_ret. split; auto.
  Qed.

  Lemma squeezeblocks_ok : forall junk out n s k, 0 <= n -> 64 * n <= len out -> 0 <= k -> ctx_at s k ->
    wp (aes256ctr_squeezeblocks junk out n s) (fun r => fst r = ctr_stream key nonce (64 * k) (64 * n) ++ zskip (64 * n) out /\ ctx_at (snd r) (k + n)).
  Proof.
    intros junk out n s k Hn Lo Hk (Hsk & Hiv). unfold aes256ctr_squeezeblocks. apply wp_bind.
    apply (wp_while _ (fun i (st : list Z * list Z * Z * Z) => let '(d, w, o, l) := st in
      d = ctr_stream key nonce (64 * k) (64 * i) ++ zskip (64 * i) out /\ ivw_ok w nonce (4 * (k + i)) /\ o = 64 * i /\ l = n - i) n).
    - lia.
    - lia.
    - split; [reflexivity|]. split; [rewrite Z.add_0_r; exact Hiv|]. lia.
    - intros i (((d & w) & o) & l) Hi (_ & _ & _ & ->). lia.
    - intros i (((d & w) & o) & l) Hi (-> & Hw & -> & ->).
      pose proof (ctr_stream_len key nonce (64 * k) (64 * i) ltac:(lia)) as Ls.
      apply wp_bind, wp_at2; [rewrite len_app, Ls, len_zskip by lia; lia|].
      apply (aes_ctr4x_ok _ _ _ _ key nonce (4 * (k + i))); auto; try lia.
      { rewrite zskip_app_at, len_zskip by lia. lia. }
      intros w' Hw'. cbn [fst snd]. apply wp_ret. split; [|split; [|split; lia]].
      + rewrite step_eq by (auto; try lia; apply ctr_stream_len; lia). replace (64 * (i + 1)) with (64 * i + 64) by lia.
        rewrite (ctr_stream_app _ _ _ (64 * i) 64) by lia. replace (16 * (4 * (k + i))) with (64 * k + 64 * i) by lia. reflexivity.
      + replace (4 * (k + (i + 1))) with (4 * (k + i) + 4) by lia. exact Hw'.
    - intros (((d & w) & o) & l) (-> & Hw & _). apply wp_ret. cbn [fst snd]. split; auto. split; auto.
  Qed.
End Stream.
