(** The four-fold public-key layer of SaberX4 refines the specification, if the buffers of shake128x4 are large enough. *)
From Coq Require Import ZArith List Bool Lia.
From Verif Require Import Lib.Arr Lib.CInt Lib.CMon Lib.Wire Spec.Bits Spec.Ring Spec.Sampling Spec.Saber Spec.Keccak Spec.Sym Model.Params Model.Vec Model.AvxMul Model.AvxKem
  Model.Pack Model.Cbd Model.Poly Model.Indcpa Model.Fips202x4 Model.X4Pack Model.X4Kem
  Proof.PackP Proof.PackThm Proof.Conv Proof.KaraP Proof.ToomP Proof.CbdP Proof.PolyP Proof.IndcpaP Proof.KemP Proof.SymP Proof.Keccak4P Proof.Sponge4P
  Spec.AvxSpec Proof.AvxMulP Proof.AvxIntP Proof.AvxThm Proof.AvxKemP Proof.AvxIndP Proof.X4PackP Proof.X4GenP.
Import ListNotations.
Local Open Scope Z_scope.
Local Notation X := (PRF false).
Local Notation p4 := (par x4).

(** ** Copying four times *)

Lemma wp_copy4 : forall n doff soff dst src (fi gi : Z -> Z) (Q : quad (list Z) -> Prop),
  0 <= n -> 0 <= doff -> 0 <= soff ->
  (forall m, 0 <= m < 4 -> doff + n <= len (sel dst m) /\ soff + n <= len (sel src m) /\ typed U8 (sel src m)) ->
  (forall i, fi i = doff + i) -> (forall i, gi i = soff + i) ->
  Q (tab4 (fun m => zfirst doff (sel dst m) ++ zfirst n (zskip soff (sel src m)) ++ zskip (doff + n) (sel dst m))) ->
  wp (for_ 0 n (fun i => for4 (fun m d => st U8 d (fi i) (Idx U8 (sel src m) (gi i)))) dst) Q.
Proof.
  intros n doff soff dst src fi gi Q Hn Hd Hs HL Hf Hg HQ.
  apply (wp_for_for4 _ 0 n _ (fun m i d => len d = len (sel dst m) /\ forall k, 0 <= k < len (sel dst m) ->
    get d k = if (doff <=? k) && (k <? doff + i) then get (sel src m) (soff + (k - doff)) else get (sel dst m) k)).
  - lia.
  - intros m Hm. split; auto. intros k Hk. destruct (_ && _) eqn:E; auto. lia.
  - intros i m d Hi Hm (Ll & G). destruct (HL m Hm) as (Ld & Ls & Ts). rewrite Hf, Hg. apply wp_st; [reflexivity|cbn [lok]; split; [lia|auto]|lia|].
    rewrite len_upd. split; auto. intros k Hk. unfold get at 1. rewrite znth_upd by lia. destruct (k =? doff + i) eqn:E.
    + assert (k = doff + i) by lia. subst. destruct (_ && _) eqn:E'; [|lia]. cbn [val].
      rewrite (wrap_id U8) by (apply (typed_get U8); auto; lia). f_equal. lia.
    + fold (get d k). rewrite G by lia. destruct ((doff <=? k) && (k <? doff + i)) eqn:E1, ((doff <=? k) && (k <? doff + (i + 1))) eqn:E2; auto; lia.
  - intros q' Hq'. rewrite (quad_eq _ q' (fun m => zfirst doff (sel dst m) ++ zfirst n (zskip soff (sel src m)) ++ zskip (doff + n) (sel dst m))); auto.
    intros m Hm. destruct (Hq' m Hm) as (Ll & G). destruct (HL m Hm) as (Ld & Ls & Ts). set (d := sel q' m) in *.
    assert (len (zfirst doff (sel dst m)) = doff) as L1 by (apply len_zfirst; lia).
    assert (len (zfirst n (zskip soff (sel src m))) = n) as L2 by (apply len_zfirst; rewrite len_zskip; lia).
    assert (len (zskip (doff + n) (sel dst m)) = len (sel dst m) - (doff + n)) as L3 by (apply len_zskip; lia).
    apply znth_ext with 0; rewrite ?len_app, ?L1, ?L2, ?L3; [lia|]. rewrite Ll. intros i Hi. fold (get d i). rewrite G by lia.
    destruct (_ && _) eqn:E.
    + rewrite znth_app2 by lia. rewrite znth_app1 by lia. rewrite L1, znth_zfirst, znth_zskip by lia. reflexivity.
    + destruct (Z_lt_dec i doff).
      * rewrite znth_app1 by lia. now rewrite znth_zfirst by lia.
      * rewrite znth_app2 by lia. rewrite znth_app2 by lia. rewrite L1, L2, znth_zskip by lia. unfold get. f_equal. lia.
Qed.

(** ** Key generation *)

Lemma wp_eqr : forall A (m : M A) (v : A) (Q : A -> Prop), wp m (fun r => r = v) -> Q v -> wp m Q.
Proof. intros A m v Q H HQ. eapply wp_mono; [exact H|]. now intros r ->. Qed.

Lemma uninit2_mem : forall junk t, vec_mem 3 (uninit2 junk t 3).
Proof. intros. apply vec_mem_uninit2. lia. Qed.

Lemma pack13_mod : forall s, vec_mem 3 s -> pack_vec 13 (mod13 s) = pack_vec 13 s.
Proof.
  intros s Vs. apply pack_vec_eqm with (n := 3); auto; [lia|apply (vec_vec_mem U16), vec_mod13; auto|].
  intros i Hi. rewrite getr_mod13. apply peq_mod13.
Qed.

Lemma wp_x4_keypair : forall junk pk sk seed noise (Q : quad (list Z) * quad (list Z) -> Prop),
  (forall m, 0 <= m < 4 -> 992 <= len (sel pk m) /\ 1248 <= len (sel sk m) /\ arr U8 32 (sel seed m) /\ arr U8 32 (sel noise m)) ->
  Q (tab4 (fun m => pke_pk X p4 (X 32 (sel seed m)) (sel noise m) ++ zskip 992 (sel pk m)),
     tab4 (fun m => pke_sk X p4 (sel noise m) ++ zskip 1248 (sel sk m))) ->
  wp (x4_indcpa_keypair 168 junk pk sk seed noise) Q.
Proof.
  intros junk pk sk seed noise Q HL HQ. unfold x4_indcpa_keypair. cbv zeta. change SABER_SEEDBYTES with 32. change (SABER_POLYVECCOMPRESSEDBYTES x4) with 960.
  apply wp_bind. eapply wp_mono; [apply load_values_ok|]. intros g Hg.
  apply wp_bind, wp_eqr with (v := tab4 (fun m => X 32 (sel seed m))).
  { apply wp_shake; [lia|intros m Hm; destruct (HL m Hm) as (_ & _ & (L & _) & _); exact L| |].
    - intros m Hm. destruct (HL m Hm) as (_ & _ & (L & T) & _). split; [lia|auto].
    - apply tab4_ext. intros m Hm. destruct (HL m Hm) as (_ & _ & (L & T) & _). now rewrite (zfirst_all_at 32). }
  set (SA := fun m => X 32 (sel seed m)).
  assert (forall m, 0 <= m < 4 -> arr U8 32 (SA m)) as HSA.
  { intros m Hm. destruct (HL m Hm) as (_ & _ & As & _). apply (PRF_bytes false); [lia|exact As]. }
  apply wp_bind, wp_GenMatrix4x.
  { intros m Hm. rewrite sel_tab4 by auto. apply uninit3_cube. }
  { intros m Hm. rewrite sel_tab4 by auto. destruct (HSA m Hm). split; [lia|auto]. }
  intros a Ha.
  apply wp_bind, wp_eqr with (v := tab4 (fun m => mod13 (expand_s X p4 (sel noise m)))).
  { apply wp_GenSecret4x.
    - intros m Hm. rewrite sel_tab4 by auto. apply uninit2_mem.
    - intros m Hm. destruct (HL m Hm) as (_ & _ & _ & (L & T)). split; [lia|auto].
    - apply tab4_ext. intros m Hm. destruct (HL m Hm) as (_ & _ & _ & (L & T)). now rewrite (zfirst_all_at 32). }
  set (S := fun m => expand_s X p4 (sel noise m)).
  assert (forall m, vec_mem 3 (S m)) as HS by (intros m; apply (expand_s_mem X x4)).
  apply wp_bind, wp_for4 with (g := fun m r => product_post 1 (sel a m) (S m) r).
  { intros m Hm. rewrite sel_tab4 by auto. apply wp_x4_product; auto. apply Ha; auto. }
  intros br Hbr.
  apply wp_bind, wp_eqr with (v := tab4 (fun m => pke_sk X p4 (sel noise m) ++ zskip 1248 (sel sk m))).
  { apply wp_POLVECq2BSX4.
    - intros m Hm. rewrite sel_tab4 by auto. split; [apply HL; auto|]. apply vec_mod13, HS.
    - apply tab4_ext. intros m Hm. rewrite sel_tab4 by auto. f_equal. apply pack13_mod, HS. }
  apply wp_bind, wp_for4_eq with (g := fun m => polys (snd (sel br m))).
  { intros m Hm T HT. rewrite sel_tab4 by auto. destruct (Hbr m Hm) as (_ & V & _). apply wp_store_polys; auto; [lia|].
    apply (vec_vec_mem U16), vec_mod13, HS. }
  set (PV := fun m => pack_vec 10 (pub_vec p4 (expand_A X p4 (SA m)) (S m))).
  assert (forall m, len (PV m) = 960) as LPV.
  { intros m. unfold PV. rewrite len_pack_vec by lia. unfold pub_vec, round_vec. rewrite len_map, len_mat_vec by (cbn; lia). reflexivity. }
  apply wp_bind, wp_eqr with (v := tab4 (fun m => PV m ++ zskip 960 (sel pk m))).
  { apply wp_POLVECp2BSX4.
    - intros m Hm. rewrite sel_tab4 by auto. destruct (HL m Hm). split; [lia|]. apply avec_polys. apply Hbr; auto.
    - apply tab4_ext. intros m Hm. rewrite sel_tab4 by auto. f_equal. destruct (Hbr m Hm) as (_ & _ & E). rewrite E. destruct (Ha m Hm) as (_ & EA).
      rewrite sel_tab4 in EA by auto. change (cmat 3 1 (sel a m)) with (transpose 3 (map polys (sel a m))). rewrite EA.
      destruct (HSA m Hm). rewrite (zfirst_all_at 32 (SA m)) by auto. unfold PV, pub_vec. reflexivity. }
  apply wp_bind, wp_eqr with (v := tab4 (fun m => pke_pk X p4 (X 32 (sel seed m)) (sel noise m) ++ zskip 992 (sel pk m))); [|apply wp_ret; exact HQ].
  apply wp_copy4 with (doff := 960) (soff := 0); auto; try lia.
  { intros m Hm. rewrite !sel_tab4 by auto. rewrite len_app, LPV. destruct (HL m Hm) as (L & _). rewrite len_zskip by lia. destruct (HSA m Hm). repeat split; auto; lia. }
  apply tab4_ext. intros m Hm. rewrite !sel_tab4 by auto. rewrite (zfirst_app_at 960) by apply LPV. rewrite zskip_0. destruct (HSA m Hm).
  rewrite (zfirst_all_at 32 (SA m)) by auto. change (960 + 32) with 992. change 992 with (32 + 960) at 1.
  rewrite <- (zskip_zskip 32 960), (zskip_app_at 960) by (auto; lia). rewrite zskip_zskip by lia. rewrite app_assoc. reflexivity.
Qed.

(** ** Encryption *)

Lemma wp_x4_cm : forall junk g pa bb sa s m temp b t (B : list (list Z)) (Q : list Z -> Prop),
  glob_ok g -> avec 3 pa -> polys pa = B -> buckets 3 sa bb -> polys sa = mod13 s -> vec_mem 3 s -> 32 <= len m -> typed U8 m -> vec_mem 3 temp ->
  len b = 960 -> 128 <= len t ->
  Q (b ++ pack 4 (ct_msg p4 B s (unpack 1 m)) ++ zskip 128 t) ->
  wp (x4_cm junk g pa bb m temp (b ++ t)) Q.
Proof.
  intros junk g pa bb sa s m temp b t B Q Hg Vpa Epa Hbb Esa Vs Lm Tm Vt Lb Lt HQ. unfold x4_cm. cbv zeta.
  apply wp_bind, wp_clear; [apply vok_uninit; lia|]. intros v0 Hv0.
  apply wp_bind. eapply wp_mono; [apply (vector_vector_mul_ok _ 3 g pa sa bb); auto; lia|]. intros v (Vv & Ev). rewrite Epa, Esa in Ev.
  apply wp_bind, wp_lanes; [apply Vv|].
  destruct (vok_map (fun x => vadd x (vset1 avx_h1)) (fun z => (z + 4) mod 65536) v Vv) as (Vv1 & Ev1).
  { intros x Hx. apply lanes_map; auto; [intros; dlia|]. intros k Hk. unfold vset1, lanes. rewrite znth_ztab by lia. reflexivity. }
  set (v1 := map _ v) in *.
  apply wp_bind, wp_msg; [lia|auto|now apply uninit_len|].
  change (regroup 8 1 256 m) with (unpack 1 m). set (mp := unpack 1 m).
  assert (len mp = 256) as Lmp by now apply len_regroup.
  assert (Forall (fun z => 0 <= z < 2 ^ 1) mp) as Rmp by (apply regroup_range; lia).
  assert (typed U16 mp) as Tmp. { eapply typed_range with (w := 1); [cbn; lia|cbn; lia|exact Rmp]. }
  apply wp_bind.
  apply wp_rows with (d0 := []) (g := fun i => vsll (lanes (fun k => wrap U16 (znth 0 mp (i * 16 + k)))) (SABER_EP - 1)); [unfold vuninit; rewrite len_ztab; lia| |].
  { intros i a Hi La _. unfold vuninit in La. rewrite len_ztab in La by lia. apply wp_bind. unfold loadu. destruct (_ && _) eqn:E; [|lia].
    apply wp_bind, wp_emit. apply wp_ret. apply wp_bind, wp_setrow; [lia|]. apply wp_bind, wp_row with (d := []); [rewrite len_upd; lia|].
    rewrite znth_upd_same by lia. apply wp_setrow; [rewrite len_upd; lia|].
    apply znth_ext with []; [now rewrite !len_upd|]. rewrite !len_upd. intros k Hk. rewrite !znth_upd by (rewrite ?len_upd; lia).
    destruct (k =? i); auto. }
  rewrite zskip_all, app_nil_r by (unfold vuninit; rewrite len_ztab; lia).
  set (mv := ztab 16 _).
  assert (vok 16 mv /\ concat mv = map (fun z => 512 * z) mp) as (Vmv & Emv).
  { assert (forall i k, 0 <= i < 16 -> 0 <= k < 16 -> znth 0 (znth [] mv i) k = 512 * get mp (16 * i + k)) as G.
    { intros i k Hi Hk. unfold mv. rewrite znth_ztab by lia. unfold vsll, lanes. change (SABER_EP - 1 <=? 15) with true. rewrite !znth_ztab by lia.
      fold (get mp (i * 16 + k)). assert (0 <= get mp (i * 16 + k) < 2 ^ 1) by (apply (Forall_znth (fun z => 0 <= z < 2 ^ 1) 0 mp Rmp (i * 16 + k)); lia).
      rewrite Z.shiftl_mul_pow2 by (cbn; lia). change (2 ^ (SABER_EP - 1)) with 512. unfold wrap. change (2 ^ 16) with 65536. change (2 ^ 1) with 2 in *.
      rewrite (Z.mod_small (get _ _)) by lia. rewrite Z.mod_small by lia. replace (i * 16 + k) with (16 * i + k) by lia. lia. }
    assert (vok 16 mv) as V.
    { unfold mv. split; [reflexivity|]. apply Forall_ztab. intros i Hi. split; [reflexivity|]. apply Forall_ztab. intros k Hk.
      change (SABER_EP - 1 <=? 15) with true. cbv iota. apply (wrap_range U16). }
    split; [exact V|]. apply vok_ext; auto.
    - split; [now rewrite len_map|]. apply Forall_map. eapply Forall_impl; [|exact Rmp]. cbv beta. intros z Hz. change (2 ^ 1) with 2 in Hz. cbn [tmin tmax]. lia.
    - intros i k Hi Hk. unfold get at 1. rewrite G by lia. unfold get. now rewrite znth_map with (d := 0) by lia. }
  clearbody mv.
  set (gv := fun x y => ((x - y) mod 1024) / 64).
  apply wp_bind, wp_lanes2 with (g := gv)
    (f := fun x y => vsrl (vand (vsub x y) (vset1 1023)) (SABER_EP - SABER_ET x4)); auto.
  { intros x y Hx Hy. unfold vsrl, vand, vsub, vset1, lane2, lanes. apply ztab_ext. intros k Hk. rewrite !znth_ztab by lia.
    change (SABER_EP - SABER_ET x4) with 6. change (6 <=? 15) with true. change (wrap U16 1023) with (Z.ones 10).
    rewrite Z.land_ones, Z.shiftr_div_pow2 by lia. unfold gv. change (2 ^ 6) with 64. f_equal. unfold wrap, get. change (2 ^ 10) with 1024. change (2 ^ 16) with 65536. dlia. }
  { intros x y. unfold gv. assert (0 <= (x - y) mod 1024 < 1024) by (apply Z.mod_pos_bound; lia). dlia. }
  intros vp Vvp Evp.
  apply wp_bind, wp_row with (d := []); [destruct Vt; lia|].
  apply wp_bind, wp_store_poly; auto; [apply (vec_mem_getr 3 temp 0 Vt); lia|].
  destruct (vok_len vp Vvp) as (Lvp & Tvp). change (SABER_POLYVECCOMPRESSEDBYTES x4) with 960.
  apply wp_at; [rewrite len_app; lia|]. rewrite (zskip_app_at 960), (zfirst_app_at 960) by auto.
  apply wp_POLT2BS_4; auto; [lia|].
  assert (pack 4 (concat vp) = pack 4 (ct_msg p4 B s mp)) as ->; [|exact HQ].
  unfold ct_msg. apply pack_eqm; [lia|auto|apply len_ztab; lia|]. intros k Hk.
  rewrite Evp, !get_ztab by lia.
  assert (eqm 8192 (get (concat v) k) (get (inner 3 B s) k)) as Ek.
  { eapply eqm_trans; [apply Ev; auto|]. apply inner_eqm; auto; intros.
    - apply peq_refl.
    - rewrite getr_mod13. apply peq_mod13. }
  destruct (vok_len v Vv) as (Lcv & _).
  rewrite Ev1, Emv. unfold get at 1 2. rewrite !znth_map with (d := 0) by lia. fold (get (concat v) k) (get mp k).
  change (Z.to_nat (p_l p4)) with 3%nat. change (rc1 p4) with 4. change (2 ^ (10 - p_et p4)) with 64.
  destruct Ek as (q & ->). generalize (get (inner 3 B s) k) as x. generalize (get mp k) as y.
  intros y x. unfold gv. clear.
  change (2 ^ 9) with 512. change (2 ^ 10) with 1024.
  exists 0. rewrite Z.mul_0_r, Z.add_0_r.
  assert (((x + 8192 * q + 4) mod 65536 - 512 * y) mod 1024 = (x - 512 * y + 4) mod 1024) as -> by dlia. reflexivity.
Qed.

Lemma unpack_vec_first : forall w n l k, 0 < w -> 0 <= n -> n * (32 * w) <= k <= len l -> unpack_vec w n (zfirst k l) = unpack_vec w n l.
Proof.
  intros w n l k Hw Hn Hk. unfold unpack_vec. apply ztab_ext. intros i Hi.
  rewrite <- (unpack_first w (zskip _ l)), <- (unpack_first w (zskip _ (zfirst _ l))) by lia. f_equal.
  assert (len (zfirst k l) = k) by (apply len_zfirst; lia).
  assert (32 * w * i + 32 * w <= k) by nia.
  apply znth_ext with 0; rewrite !len_zfirst; rewrite ?len_zskip; rewrite ?len_zfirst; try nia.
  intros j Hj. rewrite !znth_zfirst, !znth_zskip by nia. rewrite znth_zfirst by nia. auto.
Qed.

Lemma wp_x4_enc : forall junk msg r pk ct (Q : quad (list Z) -> Prop),
  bytes4 32 msg -> bytes4 32 r -> bytes4 992 pk -> room4 1088 ct ->
  Q (tab4 (fun m => pke_enc X p4 (zfirst 992 (sel pk m)) (zfirst 32 (sel msg m)) (zfirst 32 (sel r m)) ++ zskip 1088 (sel ct m))) ->
  wp (x4_indcpa_enc 168 junk msg r pk ct) Q.
Proof.
  intros junk msg r pk ct Q Hm Hr Hpk Hct HQ. unfold x4_indcpa_enc. cbv zeta. change SABER_SEEDBYTES with 32. change (SABER_POLYVECCOMPRESSEDBYTES x4) with 960.
  apply wp_bind. eapply wp_mono; [apply load_values_ok|]. intros g Hg.
  set (SA := fun m => zfirst 32 (zskip 960 (sel pk m))).
  apply wp_bind, wp_eqr with (v := tab4 SA).
  { apply wp_copy4 with (doff := 0) (soff := 960); auto; try lia.
    - intros m Hmm. rewrite sel_tab4, uninit_len by (auto; lia). destruct (Hpk m Hmm). repeat split; auto; lia.
    - apply tab4_ext. intros m Hmm. rewrite sel_tab4 by auto. change (zfirst 0 ?l) with (@nil Z). rewrite (zskip_all (0 + 32)) by (rewrite uninit_len; lia).
      cbn [app]. now rewrite app_nil_r. }
  assert (forall m, 0 <= m < 4 -> arr U8 32 (SA m)) as HSA.
  { intros m Hmm. destruct (Hpk m Hmm). split; [apply len_zfirst; rewrite len_zskip; lia|]. now apply Forall_zfirst, Forall_zskip. }
  apply wp_bind, wp_GenMatrix4x.
  { intros m Hmm. rewrite sel_tab4 by auto. apply uninit3_cube. }
  { intros m Hmm. rewrite sel_tab4 by auto. destruct (HSA m Hmm). split; [lia|auto]. }
  intros a Ha.
  apply wp_bind, wp_GenSecret4x; auto.
  { intros m Hmm. rewrite sel_tab4 by auto. apply uninit2_mem. }
  set (S := fun m => expand_s X p4 (zfirst 32 (sel r m))).
  assert (forall m, vec_mem 3 (S m)) as HS by (intros m; apply (expand_s_mem X x4)).
  apply wp_bind, wp_for4 with (g := fun m r => product_post 0 (sel a m) (S m) r).
  { intros m Hmm. rewrite sel_tab4 by auto. apply wp_x4_product; auto. apply Ha; auto. }
  intros br Hbr.
  apply wp_bind, wp_for4_eq with (g := fun m => polys (snd (sel br m))).
  { intros m Hmm T HT. rewrite sel_tab4 by auto. destruct (Hbr m Hmm) as (_ & V & _). apply wp_store_polys; auto; [lia|]. apply uninit2_mem. }
  set (PV := fun m => pack_vec 10 (ct_vec p4 (expand_A X p4 (SA m)) (S m))).
  assert (forall m, len (PV m) = 960) as LPV.
  { intros m. unfold PV. rewrite len_pack_vec by lia. unfold ct_vec, round_vec. rewrite len_map, len_mat_vec by (cbn; lia). reflexivity. }
  apply wp_bind, wp_eqr with (v := tab4 (fun m => PV m ++ zskip 960 (sel ct m))).
  { apply wp_POLVECp2BSX4.
    - intros m Hmm. rewrite sel_tab4 by auto. specialize (Hct m Hmm). split; [lia|]. apply avec_polys. apply Hbr; auto.
    - apply tab4_ext. intros m Hmm. rewrite sel_tab4 by auto. f_equal. destruct (Hbr m Hmm) as (_ & _ & E). rewrite E. destruct (Ha m Hmm) as (_ & EA).
      rewrite sel_tab4 in EA by auto. change (cmat 3 0 (sel a m)) with (map polys (sel a m)). rewrite EA.
      destruct (HSA m Hmm). rewrite (zfirst_all_at 32 (SA m)) by auto. unfold PV, ct_vec. reflexivity. }
  apply wp_bind, wp_BS2POLVECpX4.
  { intros m Hmm. rewrite sel_tab4 by auto. destruct (Hpk m Hmm). split; [lia|]. split; auto. split; [reflexivity|]. apply vuninit2_len; lia. }
  intros pa Hpa.
  apply wp_for4_eq with (g := fun m => pke_enc X p4 (zfirst 992 (sel pk m)) (zfirst 32 (sel msg m)) (zfirst 32 (sel r m)) ++ zskip 1088 (sel ct m)); [|exact HQ].
  intros m Hmm T HT. rewrite !sel_tab4 by auto. destruct (Hbr m Hmm) as ((sa & Esa & Hb) & Vr & _). destruct (Hpa m Hmm) as (Vp & Ep).
  destruct (Hm m Hmm) as (Lm & Tm). specialize (Hct m Hmm). destruct (Hpk m Hmm) as (Lp & Tp).
  eapply wp_x4_cm; [exact Hg|exact Vp|exact Ep|exact Hb|exact Esa|apply HS|exact Lm|exact Tm| |apply LPV|rewrite len_zskip; lia|].
  { apply (vec_vec_mem U16), avec_polys, Vr. }
  match goal with |- T ?x => match type of HT with T ?y => assert (x = y) as -> end end; [|exact HT].
  rewrite zskip_zskip by lia. change (128 + 960) with 1088. rewrite app_assoc. f_equal. unfold pke_enc.
  change (p_l p4) with 3. change (p_et p4) with 4. cbv zeta. change (3 * 320) with 960.
  assert (zfirst 32 (zskip 960 (zfirst 992 (sel pk m))) = SA m) as ->.
  { assert (len (zfirst 992 (sel pk m)) = 992) by (apply len_zfirst; lia). unfold SA.
    apply znth_ext with 0; rewrite !len_zfirst; rewrite ?len_zskip; rewrite ?len_zfirst; try lia.
    intros i Hi. rewrite !znth_zfirst, !znth_zskip by lia. rewrite znth_zfirst by lia. auto. }
  fold (S m). fold (PV m). f_equal. rewrite unpack_vec_first by lia.
  change 32 with (32 * 1) at 1. now rewrite (unpack_first 1 (sel msg m)) by lia.
Qed.

(** ** Decryption *)

Lemma wp_x4_dec_msg : forall junk g sa pa (S B : list (list Z)) ct m (Q : list Z -> Prop),
  glob_ok g -> avec 3 sa -> polys sa = S -> avec 3 pa -> polys pa = B -> 1088 <= len ct -> typed U8 ct -> 32 <= len m ->
  Q (pack 1 (dec_msg p4 B S (unpack 4 (zskip 960 ct))) ++ zskip 32 m) ->
  wp (x4_dec_msg junk g sa pa ct m) Q.
Proof.
  intros junk g sa pa S B ct m Q Hg Vsa Esa Vpa Epa Lct Tct Lm HQ. unfold x4_dec_msg. cbv zeta.
  apply wp_bind, wp_clear; [apply vok_uninit; lia|]. intros v0 Hv0.
  destruct (vuninit2_ok junk 3 3 64 ltac:(lia) ltac:(lia)) as (LB & FB).
  apply wp_bind. eapply wp_mono; [apply (eval_buckets_ok _ 3 sa); auto; lia|]. intros bb Hbb.
  apply wp_bind. eapply wp_mono; [apply (vector_vector_mul_ok _ 3 g pa sa bb); auto; lia|]. intros v (Vv & Ev). rewrite Epa, Esa in Ev.
  apply wp_bind, wp_store_poly; [exact Vv|now apply uninit_len|].
  destruct (vok_len v Vv) as (Lv & Tv). change (SABER_POLYVECCOMPRESSEDBYTES x4) with 960.
  apply wp_bind, wp_ptr; [lia|].
  apply wp_bind, wp_BS2POLT_4; [rewrite len_zskip; lia|rewrite uninit_len; lia|now apply Forall_zskip|].
  rewrite (zskip_all 256 (uninit junk 0 256)) by (rewrite uninit_len; lia). rewrite app_nil_r.
  set (cm := unpack 4 (zskip 960 ct)) in *.
  assert (len cm = 256) as Lcm by apply len_unpack.
  assert (typed U16 cm) as Tcm by (apply unpack_typed; lia).
  change (avx_h2 x4) with 228. change (SABER_EP - SABER_ET x4) with 6. change (SABER_EP - 1) with 9.
  apply wp_bind, wp_map1 with
    (f := fun j => ((get (concat v) j + 228 - get cm j * 2 ^ 6) mod 1024) / 512); auto; [lia| |].
  { intros j a Hj La Ta Ga. split; [reflexivity|split].
    - cbn [lok tmin tmax]. repeat split; auto; lia.
    - cbn [val val_bin ty promote common]. unfold cv, uw. cbn [subr signed]. rewrite Ga. change 1023 with (Z.ones 10).
      rewrite Z.land_ones, Z.shiftr_div_pow2 by (cbn; lia). change (2 ^ 10) with 1024. change (2 ^ 9) with 512. unfold wrap. apply Z.mod_small.
      dlia. }
  apply wp_POL2MSG; [lia|apply len_ztab; lia| |].
  { intros k Hk. rewrite get_ztab by lia. dlia. }
  change (regroup 1 8 32) with (pack 1).
  match type of HQ with Q (?l ++ _) => match goal with |- Q (?a ++ ?r) => replace a with l; [exact HQ|] end end.
  symmetry. unfold dec_msg. apply pack_eqm; [lia|apply len_ztab; lia|apply len_ztab; lia|]. intros k Hk.
  rewrite !get_ztab by lia. change (Z.to_nat (p_l p4)) with 3%nat. change (rc2 p4) with 228. change (2 ^ (10 - p_et p4)) with 64.
  specialize (Ev k Hk). change (Z.to_nat 3) with 3%nat in Ev. destruct Ev as (q & ->).
  generalize (get (inner 3 B S) k) as x. generalize (get cm k) as y.
  intros y x. clear.
  change (2 ^ 6) with 64. change (2 ^ 10) with 1024. change (2 ^ 1) with 2. change (2 ^ 9) with 512.
  exists 0. rewrite Z.mul_0_r, Z.add_0_r. f_equal. dlia.
Qed.

Lemma wp_x4_dec : forall junk sk ct msg (Q : quad (list Z) -> Prop),
  bytes4 1248 sk -> bytes4 1088 ct -> room4 32 msg ->
  Q (tab4 (fun m => pke_dec p4 (zfirst 1248 (sel sk m)) (sel ct m) ++ zskip 32 (sel msg m))) ->
  wp (x4_indcpa_dec junk sk ct msg) Q.
Proof.
  intros junk sk ct msg Q Hsk Hct Hm HQ. unfold x4_indcpa_dec. cbv zeta.
  apply wp_bind. eapply wp_mono; [apply load_values_ok|]. intros g Hg.
  apply wp_bind, wp_BS2POLVECqX4.
  { intros m Hmm. rewrite sel_tab4 by auto. destruct (Hsk m Hmm). split; [lia|]. split; auto. split; [reflexivity|]. apply vuninit2_len; lia. }
  intros sa Hsa.
  apply wp_bind, wp_BS2POLVECpX4.
  { intros m Hmm. rewrite sel_tab4 by auto. destruct (Hct m Hmm). split; [lia|]. split; auto. split; [reflexivity|]. apply vuninit2_len; lia. }
  intros pa Hpa.
  apply wp_for4_eq with (g := fun m => pke_dec p4 (zfirst 1248 (sel sk m)) (sel ct m) ++ zskip 32 (sel msg m)); [|exact HQ].
  intros m Hmm T HT. destruct (Hsa m Hmm) as (V1 & E1), (Hpa m Hmm) as (V2 & E2), (Hct m Hmm), (Hsk m Hmm).
  eapply wp_x4_dec_msg; [exact Hg|exact V1|exact E1|exact V2|exact E2|auto|auto|apply Hm; auto|].
  match goal with |- T ?x => match type of HT with T ?y => assert (x = y) as -> end end; [|exact HT].
  unfold pke_dec. change (p_l p4) with 3. change (p_et p4) with 4. change (p_eq p4) with 13. cbv zeta. change (3 * 320) with 960.
  now rewrite unpack_vec_first by lia.
Qed.
