(** The AVX2 code outside the multiplication: samplers, loading and storing of vectors, rounding. *)
From Coq Require Import ZArith List Bool Lia.
From Verif Require Import Lib.Arr Lib.CInt Lib.CMon Spec.Bits Spec.Ring Spec.Sampling Spec.Saber Spec.AvxSpec Model.Params Model.Vec Model.AvxMul Model.AvxKem
  Model.Pack Model.Cbd Model.Poly Model.Indcpa Proof.PackP Proof.PackThm Proof.Conv Proof.KaraP Proof.ToomP Proof.CbdP Proof.PolyP Proof.IndcpaP Proof.KemP
  Proof.AvxMulP Proof.AvxThm.
Import ListNotations.
Local Open Scope Z_scope.

(** ** The sampler *)

Lemma cast_sub_mask : forall t l k p q, t = U32 \/ t = U64 ->
  znth (Cst I32 0) l k = (Cast U16 (Var t p - Var t q) .& Var U16 8191)%C ->
  wrap U16 (val (znth (Cst I32 0) l k)) = (p - q) mod 8192.
Proof.
  intros t l k p q Ht ->.
  pose proof (cast_sub t [Cast U16 (Var t p - Var t q)%C] 0 p q Ht eq_refl) as E. cbn [znth Z.ltb Z.compare nth Z.to_nat] in E.
  change (znth (Cst I32 0) [Cast U16 (Var t p - Var t q)%C] 0) with (Cast U16 (Var t p - Var t q)%C) in E.
  assert (val (Cast U16 (Var t p - Var t q) .& Var U16 8191)%C = Z.land (wrap U16 (val (Cast U16 (Var t p - Var t q)%C))) 8191) as ->.
  { destruct Ht; subst t; cbn [val val_bin ty promote common]; unfold cv; cbn [subr]; rewrite (wrap_id U16 (wrap U16 _)) by apply wrap_range; reflexivity. }
  rewrite E. change 8191 with (Z.ones 13). rewrite Z.land_ones by lia. change (2 ^ 13) with 8192. unfold wrap. dlia.
Qed.

Lemma wp_avx_cbd_6 : forall s buf (Q : list Z -> Prop), len s = 256 -> 192 <= len buf -> typed U8 buf ->
  (forall r, cbd_postm 8192 6 s buf r -> Q r) -> wp (avx_cbd_6 s buf) Q.
Proof. cbd_tacm wp_load cast_sub_mask 8192 6 3 3 U32 0x249249. Qed.

Lemma wp_avx_cbd_8 : forall s buf (Q : list Z -> Prop), len s = 256 -> 256 <= len buf -> typed U8 buf ->
  (forall r, cbd_postm 8192 8 s buf r -> Q r) -> wp (avx_cbd_8 s buf) Q.
Proof. cbd_tacm wp_load cast_sub_mask 8192 8 4 4 U32 0x11111111. Qed.

Lemma wp_avx_cbd_10 : forall s buf (Q : list Z -> Prop), len s = 256 -> 320 <= len buf -> typed U8 buf ->
  (forall r, cbd_postm 8192 10 s buf r -> Q r) -> wp (avx_cbd_10 s buf) Q.
Proof. cbd_tacm wp_load cast_sub_mask 8192 10 5 5 U64 0x0842108421. Qed.

Lemma wp_avx_cbd : forall c s buf (Q : list Z -> Prop), len s = 256 -> 32 * SABER_MU c <= len buf -> typed U8 buf ->
  Q (map (fun x => x mod 8192) (cbd_poly (SABER_MU c) buf)) -> wp (avx_cbd c s buf) Q.
Proof.
  intros c s buf Q Ls Lb Tb HQ.
  assert (forall r, cbd_postm 8192 (SABER_MU c) s buf r -> Q r) as H.
  { intros r ->. rewrite zskip_all, app_nil_r by lia. unfold cbd_poly in HQ. rewrite map_ztab in HQ. exact HQ. }
  unfold avx_cbd. unfold SABER_MU in *.
  destruct (lvl c); [apply wp_avx_cbd_10|apply wp_avx_cbd_8|apply wp_avx_cbd_6]; auto.
Qed.

(** ** Expansion of the matrix and of the secrets *)

Definition mod13 (v : list (list Z)) : list (list Z) := map (map (fun x => x mod 8192)) v.

Lemma vec_mod13 : forall n v, vec_mem n v -> vec U16 n (mod13 v).
Proof.
  intros n v (L & F). split; [unfold mod13; now rewrite len_map|].
  unfold mod13. rewrite Forall_map. eapply Forall_impl; [|apply F]. cbn beta. intros l Hl.
  split; [now rewrite len_map|]. apply Forall_map, Forall_forall. intros x _. cbn. dlia.
Qed.
Lemma getr_mod13 : forall v i, getr (mod13 v) i = map (fun x => x mod 8192) (getr v i).
Proof.
  intros. unfold getr, mod13. destruct (Z_lt_dec i 0); [rewrite !znth_default by lia; auto|].
  destruct (Z_lt_dec i (len v)).
  - now rewrite znth_map with (d := []) by lia.
  - rewrite !znth_default by (rewrite ?len_map; lia). auto.
Qed.
Lemma peq_mod13 : forall l, peq 8192 (map (fun x => x mod 8192) l) l.
Proof.
  intros l k Hk. unfold get. destruct (Z_lt_dec k (len l)).
  - rewrite znth_map with (d := 0) by lia. now apply eqm_mod.
  - rewrite !znth_default by (rewrite ?len_map; lia). apply eqm_refl.
Qed.
Lemma mat_vec_mod13 : forall n A s i k, 0 <= i < n -> 0 <= k < 256 ->
  eqm 8192 (get (getr (mat_vec n A (mod13 s)) i) k) (get (getr (mat_vec n A s) i) k).
Proof.
  intros. rewrite !getr_mat_vec by auto. apply inner_eqm; auto; intros; [apply peq_refl|].
  rewrite getr_mod13. apply peq_mod13.
Qed.

(** A double loop over the entries of a matrix. *)
Lemma wp_entry : forall n a i j p (Q : list (list (list Z)) -> Prop), mat_mem n a -> 0 <= i < n -> 0 <= j < n ->
  arr U16 256 p -> Forall (fun z => 0 <= z < 8192) p ->
  Q (upd a i (upd (znth [] a i) j p)) ->
  wp (for_ 0 256 (fun k a => ai <- row a i ;; aij <- row ai j ;; aij <- st U16 aij k (Idx U16 p k .& Var U16 8191)%C ;;
        ai <- setrow ai j aij ;; setrow a i ai)%M a) Q.
Proof.
  intros n a i j p Q (La & Fa) Hi Hj (Lp & Tp) Rp HQ. set (ai := znth [] a i) in *.
  destruct (mat_mem_row n a i (conj La Fa) Hi) as (Lai & Fai). fold ai in Lai, Fai.
  assert (len (znth [] ai j) = 256) as Laij by (apply Forall_znth with (P := fun r => len r = 256); auto; lia).
  apply wp_for with (I := fun k a' => exists q, a' = upd a i (upd ai j q) /\ len q = 256 /\
    forall m, 0 <= m < k -> get q m = get p m).
  - lia.
  - exists (znth [] ai j). split; [|split; [auto|intros; lia]].
    apply znth_ext with []; [now rewrite len_upd|]. intros k Hk. rewrite znth_upd by lia. destruct (k =? i) eqn:E; auto.
    assert (k = i) by lia. subst k. fold ai. apply znth_ext with []; [now rewrite len_upd|]. intros m Hm. rewrite znth_upd by lia.
    destruct (m =? j) eqn:E'; auto. assert (m = j) by lia. now subst.
  - intros k a' Hk (q & -> & Lq & Gq).
    apply wp_bind, wp_row with (d := []); [rewrite len_upd; lia|]. rewrite znth_upd_same by lia.
    apply wp_bind, wp_row with (d := []); [rewrite len_upd; lia|]. rewrite znth_upd_same by lia.
    apply wp_bind, wp_st; [reflexivity|cbn [lok tmin tmax]; repeat split; auto; lia|lia|].
    apply wp_bind, wp_setrow; [rewrite len_upd; lia|]. apply wp_setrow; [rewrite len_upd; lia|].
    match goal with |- context [upd q k ?v] => set (x := v) end.
    exists (upd q k x). split; [|split; [now rewrite len_upd|]].
    + apply znth_ext with []; [now rewrite !len_upd|]. rewrite !len_upd. intros m Hm. rewrite !znth_upd by (rewrite ?len_upd; lia).
      destruct (m =? i); auto.
      apply znth_ext with []; [now rewrite !len_upd|]. rewrite !len_upd. intros m' Hm'. rewrite !znth_upd by (rewrite ?len_upd; lia).
      destruct (m' =? j); auto.
    + intros m Hm. unfold get at 1. rewrite znth_upd by lia. destruct (m =? k) eqn:E; [|apply Gq; lia].
      assert (m = k) by lia. subst m. unfold x. cbn [val val_bin ty promote common]. unfold cv. cbn [subr].
      assert (0 <= get p k < 8192) as B by (apply (Forall_znth (fun z => 0 <= z < 8192) 0 p Rp k); lia).
      change 8191 with (Z.ones 13). rewrite Z.land_ones by lia. change (2 ^ 13) with 8192. rewrite Z.mod_small by lia.
      apply wrap_id. cbn. lia.
  - intros a' (q & -> & Lq & Gq). replace q with p; auto. apply znth_ext with 0; [lia|]. intros m Hm. symmetry. apply Gq. lia.
Qed.

Section Gen.
  Variable prf : mem -> list Z -> Z -> list Z -> Z -> M (list Z).
  Variable P : Z -> list Z -> list Z.
  Hypothesis Hprf : prf_spec prf P.
  Hypothesis HP : bytes_fun P.
  Variable c : cfg.
  Hypothesis Hu : usaber c = false.

  Lemma EQ13 : SABER_EQ c = 13. Proof. unfold SABER_EQ. now rewrite Hu. Qed.

  Lemma wp_avx_GenMatrix : forall junk A seed (Q : list (list (list Z)) -> Prop),
    mat_mem (SABER_L c) A -> 32 <= len seed -> typed U8 seed ->
    Q (gen_mat 13 (SABER_L c) (P (SABER_L c * SABER_POLYVECBYTES c) (zfirst 32 seed))) ->
    wp (avx_GenMatrix prf junk c A seed) Q.
  Proof.
    intros junk A seed Q HA Ls Ts HQ. unfold avx_GenMatrix. pose proof (cfg_L c).
    rewrite cfg_POLYVECBYTES, EQ13 in *. cbv zeta. change (13 * SABER_N / 8) with 416. change (32 * 13) with 416 in *. set (n := SABER_L c) in *.
    replace (n * (n * 416)) with (n * n * 416) in HQ by ring.
    assert (0 <= n * n <= 16) by nia.
    change SABER_SEEDBYTES with 32.
    apply wp_bind, Hprf; auto; [rewrite uninit_len by lia; lia|nia|].
    rewrite zskip_all by (rewrite uninit_len; lia). rewrite app_nil_r.
    set (buf := P _ _) in *. assert (arr U8 32 (zfirst 32 seed)) as As by (split; [apply len_zfirst; lia|now apply Forall_zfirst]).
    destruct (HP (n * n * 416) (zfirst 32 seed) ltac:(lia) As) as (Lb & Tb). fold buf in Lb, Tb.
    set (G := gen_mat 13 n buf) in *.
    assert (forall i j, 0 <= i < n -> 0 <= j < n -> getr (znth [] G i) j = unpack 13 (zskip ((i * n + j) * 416) buf)) as GG.
    { intros i j Hi Hj. unfold G, gen_mat. rewrite znth_ztab by lia. unfold unpack_vec, getr. rewrite znth_ztab by lia.
      rewrite zskip_zskip by nia. do 2 f_equal. lia. }
    assert (mat U16 n G) as HG by (apply mat_gen; lia).
    apply wp_bind.
    apply wp_for with (I := fun i '(a, t) => mat_mem n a /\ len t = 256 /\ forall p, 0 <= p < i -> znth [] a p = znth [] G p).
    - lia.
    - split; [auto|]. split; [now rewrite uninit_len|]. intros; lia.
    - intros i (a, t) Hi (Va & Lt & Ga).
      apply wp_for with (I := fun j '(a, t) => mat_mem n a /\ len t = 256 /\ (forall p, 0 <= p < i -> znth [] a p = znth [] G p) /\
        forall q, 0 <= q < j -> getr (znth [] a i) q = getr (znth [] G i) q).
      + lia.
      + split; [auto|]. split; [auto|]. split; [auto|]. intros; lia.
      + intros j (a', t') Hj (Va' & Lt' & Ga' & Gi').
        apply wp_bind, wp_ptr; [nia|]. apply wp_bind, wp_BS2POLq_13; [rewrite len_zskip by nia; nia|lia|now apply Forall_zskip|].
        rewrite (zskip_all 256 t') by lia. rewrite app_nil_r. set (u := unpack 13 _).
        assert (arr U16 256 u) as (Lu & Tu) by (split; [apply len_unpack|apply unpack_typed; lia]).
        destruct (mat_mem_row n a' i Va' Hi) as (Lai & Fai). destruct Va' as (La' & Fa').
        apply wp_bind, wp_entry with (n := n); auto; [split; auto|split; auto|apply (unpack_range 13); lia|].
        apply wp_ret. split; [split; [now rewrite len_upd|]|split; [auto|split]].
        * apply Forall_upd; auto. split; [now rewrite len_upd|]. apply Forall_upd; auto.
        * intros p Hp. rewrite znth_upd_diff by lia. auto.
        * intros q Hq. rewrite znth_upd_same by lia. unfold getr at 1. rewrite znth_upd by lia. destruct (q =? j) eqn:E; [|apply Gi'; lia].
          assert (q = j) by lia. subst q. now rewrite GG.
      + intros (a', t') (Va' & Lt' & Ga' & Gi'). split; [auto|]. split; [auto|]. intros p Hp. destruct (Z.eq_dec p i); [|apply Ga'; lia].
        subst p. destruct (mat_mem_row n a' i Va' Hi) as (Lai & Fai). destruct (mat_row _ _ _ _ HG Hi) as (LGi & _).
        apply znth_ext with []; [lia|]. intros q Hq. apply Gi'. lia.
    - intros (a, t) (Va & Lt & Ga). apply wp_ret. replace a with G; auto. destruct Va as (La & _), HG as (LG & _).
      apply znth_ext with []; [lia|]. intros i Hi. symmetry. apply Ga. lia.
  Qed.

  Lemma wp_avx_GenSecret : forall junk s seed (Q : list (list Z) -> Prop),
    vec_mem (SABER_L c) s -> 32 <= len seed -> typed U8 seed ->
    Q (mod13 (sec_vec c (P (SABER_L c * SABER_POLYCOINBYTES c) (zfirst 32 seed)))) ->
    wp (avx_GenSecret prf junk c s seed) Q.
  Proof.
    intros junk s seed Q Hs Ls Ts HQ. unfold avx_GenSecret. pose proof (cfg_L c).
    assert (SABER_POLYCOINBYTES c = 32 * SABER_MU c) as EC by (destruct c as [[] [] ?]; try reflexivity; discriminate).
    assert (SABER_MU c * SABER_N * SABER_L c / 8 = SABER_L c * (32 * SABER_MU c)) as ES by (destruct c as [[] [] ?]; reflexivity).
    assert (forall i, i * SABER_MU c * SABER_N / 8 = 32 * SABER_MU c * i) as EI by (intros i; unfold SABER_N; dlia).
    cbv zeta. rewrite ES. rewrite EC in HQ.
    assert (0 < SABER_MU c <= 10) by (destruct c as [[] [] ?]; cbn; lia).
    set (n := SABER_L c) in *. set (w := 32 * SABER_MU c) in *.
    change SABER_NOISE_SEEDBYTES with 32.
    apply wp_bind, Hprf; auto; [rewrite uninit_len by nia; nia|nia|].
    rewrite zskip_all by (rewrite uninit_len; nia). rewrite app_nil_r.
    set (buf := P _ _) in *. assert (arr U8 32 (zfirst 32 seed)) as As by (split; [apply len_zfirst; lia|now apply Forall_zfirst]).
    destruct (HP (n * w) (zfirst 32 seed) ltac:(nia) As) as (Lb & Tb). fold buf in Lb, Tb.
    apply wp_rows with (d0 := []) (g := fun i => map (fun x => x mod 8192) (cbd_poly (SABER_MU c) (zskip (w * i) buf))).
    - destruct Hs. lia.
    - intros i a Hi La Ea. rewrite EI. apply wp_bind, wp_ptr; [nia|].
      apply wp_bind, wp_row with (d := []); [destruct Hs; lia|]. rewrite Ea.
      pose proof (vec_mem_getr _ _ _ Hs Hi) as Li. unfold getr in Li.
      apply wp_bind, wp_avx_cbd; auto; [rewrite len_zskip by nia; nia|now apply Forall_zskip|].
      apply wp_setrow; [destruct Hs; lia|]. reflexivity.
    - rewrite zskip_all by (destruct Hs; lia). rewrite app_nil_r.
      unfold sec_vec, gen_vec, mod13 in HQ. rewrite Hu, map_ztab in HQ. apply HQ.
  Qed.
End Gen.

(** ** Loading and storing *)

Lemma vok_ext : forall v w, vok 16 v -> arr U16 256 w -> (forall i k, 0 <= i < 16 -> 0 <= k < 16 -> get (znth [] v i) k = get w (16 * i + k)) -> concat v = w.
Proof.
  intros v w Hv (Lw & _) E. destruct (vok_len v Hv) as (Lv & _). apply znth_ext with 0; [lia|]. intros k Hk.
  fold (get (concat v) k). rewrite vok_concat by (auto; lia). fold (get w k). unfold vg.
  rewrite E by dlia. f_equal. dlia.
Qed.

Lemma wp_load_poly : forall s v, arr U16 256 s -> len v = 16 -> wp (load_poly s v) (fun r => vok 16 r /\ concat r = s).
Proof.
  intros s v (Ls & Ts) Lv. unfold load_poly.
  apply wp_rows with (d0 := []) (g := fun j => lanes (fun k => wrap U16 (znth 0 s (j * 16 + k)))); [lia| |].
  - intros i a Hi La _. apply wp_bind. unfold loadu. destruct (_ && _) eqn:E; [|lia].
    apply wp_bind, wp_emit. apply wp_ret. apply wp_setrow; [lia|]. reflexivity.
  - rewrite zskip_all, app_nil_r by lia.
    assert (vok 16 (ztab 16 (fun j => lanes (fun k => wrap U16 (znth 0 s (j * 16 + k)))))) as V.
    { apply vok_ztab; [lia|]. intros. pose proof (wrap_range U16 (znth 0 s (q * 16 + k))) as W; cbn [tmin tmax] in W; lia. }
    split; [exact V|]. apply vok_ext; auto; [now split|]. intros i k Hi Hk. rewrite znth_ztab by lia. unfold lanes, get. rewrite znth_ztab by lia.
    fold (get s (i * 16 + k)). rewrite wrap_id by (apply (typed_get U16); auto; lia). unfold get. f_equal. lia.
Qed.

Lemma wp_load_polys : forall n s v, 0 <= n -> vec U16 n s -> len v = n -> Forall (fun x => len x = 16) v ->
  wp (load_polys n s v) (fun r => avec n r /\ polys r = s).
Proof.
  intros n s v Hn Vs Lv Fv. unfold load_polys.
  apply wp_for with (I := fun i r => len r = n /\ Forall (fun x => len x = 16) r /\
    forall k, 0 <= k < i -> vok 16 (znth [] r k) /\ concat (znth [] r k) = getr s k).
  - lia.
  - split; auto. split; auto. intros; lia.
  - intros i r Hi (Lr & Fr & Gr). destruct Vs as (Ls & Fs) eqn:EV.
    apply wp_bind, wp_row with (d := []); [lia|]. apply wp_bind, wp_row with (d := []); [lia|].
    apply wp_bind. eapply wp_mono; [apply wp_load_poly|].
    + apply (vec_getr U16 n); [split; auto|auto].
    + apply Forall_znth with (P := fun x => len x = 16); auto. lia.
    + intros x (Vx & Cx). apply wp_setrow; [lia|]. split; [now rewrite len_upd|]. split; [apply Forall_upd; auto; apply Vx|].
      intros k Hk. destruct (Z.eq_dec k i) as [->|N]; [rewrite znth_upd_same by lia; split; auto|].
      rewrite znth_upd_diff by lia. apply Gr. lia.
  - intros r (Lr & Fr & Gr). destruct Vs as (Ls & Fs). split.
    + split; auto. apply Forall_znth_iff with (d := []). intros i Hi. apply Gr. lia.
    + unfold polys. apply znth_ext with []; [rewrite len_map; lia|]. rewrite len_map. intros i Hi. rewrite znth_map with (d := []) by lia.
      apply Gr. lia.
Qed.

Lemma wp_load_matrix : forall n a v, 0 <= n -> mat U16 n a -> len v = n -> Forall (fun x => len x = n /\ Forall (fun y => len y = 16) x) v ->
  wp (load_matrix n a v) (fun r => amat n r /\ map polys r = a).
Proof.
  intros n a v Hn Va Lv Fv. unfold load_matrix. assert (len a = n) as La by apply Va.
  apply wp_for with (I := fun i r => len r = n /\ Forall (fun x => len x = n /\ Forall (fun y => len y = 16) x) r /\
    forall k, 0 <= k < i -> avec n (znth [] r k) /\ polys (znth [] r k) = znth [] a k).
  - lia.
  - split; auto. split; auto. intros; lia.
  - intros i r Hi (Lr & Fr & Gr).
    apply wp_bind, wp_row with (d := []); [lia|]. apply wp_bind, wp_row with (d := []); [lia|].
    assert (len (znth [] r i) = n /\ Forall (fun y => len y = 16) (znth [] r i)) as (L1 & F1)
      by (apply (Forall_znth (fun x => len x = n /\ Forall (fun y => len y = 16) x) [] r Fr i); lia).
    apply wp_bind. eapply wp_mono; [apply wp_load_polys; auto; now apply mat_row|].
    intros x (Vx & Cx). apply wp_setrow; [lia|]. split; [now rewrite len_upd|]. split.
    + apply Forall_upd; auto. destruct Vx as (Lx & Fx). split; auto. eapply Forall_impl; [|exact Fx]. intros y Hy. apply Hy.
    + intros k Hk. destruct (Z.eq_dec k i) as [->|N]; [rewrite znth_upd_same by lia; split; auto|].
      rewrite znth_upd_diff by lia. apply Gr. lia.
  - intros r (Lr & Fr & Gr). split.
    + split; auto. apply Forall_znth_iff with (d := []). intros i Hi. apply Gr. lia.
    + apply znth_ext with []; [rewrite len_map; lia|]. rewrite len_map. intros i Hi. rewrite znth_map with (d := []) by lia.
      apply Gr. lia.
Qed.

Lemma wp_store_poly : forall v s (Q : list Z -> Prop), vok 16 v -> len s = 256 -> Q (concat v) -> wp (store_poly v s) Q.
Proof.
  intros v s Q Hv Ls HQ. unfold store_poly. destruct Hv as (Lv & Fv) eqn:EV. destruct (vok_len v Hv) as (Lc & _).
  apply wp_for with (I := fun j s => len s = 256 /\ forall k, 0 <= k < 16 * j -> get s k = get (concat v) k).
  - lia.
  - split; auto. intros; lia.
  - intros j a Hj (La & Ga). apply wp_bind, wp_row with (d := []); [lia|].
    assert (arr U16 16 (znth [] v j)) as (Lx & Tx) by (apply (Forall_znth (arr U16 16) [] v Fv j); lia).
    unfold storeu. destruct (_ && _) eqn:E; [|lia]. apply wp_bind, wp_emit. apply wp_ret.
    assert (len (zfirst (j * 16) a) = j * 16) as L1 by (apply len_zfirst; lia).
    split; [rewrite !len_app, L1, Lx, len_zskip by lia; lia|].
    intros k Hk. unfold get at 1. destruct (Z_lt_dec k (16 * j)).
    + rewrite znth_app1 by lia. rewrite znth_zfirst by lia. apply Ga. lia.
    + rewrite znth_app2 by lia. rewrite znth_app1 by lia. rewrite L1. rewrite vok_concat by (auto; lia).
      unfold vg, get. replace (k / 16) with j by dlia. f_equal. dlia.
  - intros a (La & Ga). replace a with (concat v); auto. apply znth_ext with 0; [lia|]. intros k Hk. symmetry. apply Ga. lia.
Qed.

Lemma wp_store_polys : forall n v s (Q : list (list Z) -> Prop), 0 <= n -> avec n v -> vec_mem n s -> Q (polys v) -> wp (store_polys n v s) Q.
Proof.
  intros n v s Q Hn (Lv & Fv) (Ls & Fs) HQ. unfold store_polys.
  apply wp_rows with (d0 := []) (g := fun i => concat (znth [] v i)); [lia| |].
  - intros i a Hi La Ea. apply wp_bind, wp_row with (d := []); [lia|]. apply wp_bind, wp_row with (d := []); [lia|]. rewrite Ea.
    apply wp_bind, wp_store_poly.
    + apply (Forall_znth (vok 16) [] v Fv i). lia.
    + apply (Forall_znth (fun r => len r = 256) [] s Fs i). lia.
    + apply wp_setrow; [lia|]. reflexivity.
  - rewrite zskip_all, app_nil_r by lia. replace (ztab n (fun i => concat (znth [] v i))) with (polys v); auto.
    unfold polys. apply ztab_eq with []; [now rewrite len_map|]. intros i Hi. now rewrite znth_map with (d := []) by lia.
Qed.

(** ** Loops over lanes *)

Lemma wp_lanes : forall (f : list Z -> list Z) v (Q : list (list Z) -> Prop), len v = 16 -> Q (map f v) ->
  wp (for_ 0 16 (fun i v => x <- row v i ;; setrow v i (f x))%M v) Q.
Proof.
  intros f v Q Lv HQ. apply wp_rows with (d0 := []) (g := fun i => f (znth [] v i)); [lia| |].
  - intros i a Hi La Ea. apply wp_bind, wp_row with (d := []); [lia|]. rewrite Ea. apply wp_setrow; [lia|]. reflexivity.
  - rewrite zskip_all, app_nil_r by lia. replace (ztab 16 (fun i => f (znth [] v i))) with (map f v); auto.
    apply ztab_eq with []; [now rewrite len_map|]. intros i Hi. now rewrite znth_map with (d := []) by lia.
Qed.

(** A map over all coefficients. *)
Lemma vok_map : forall (f : list Z -> list Z) g v, vok 16 v -> (forall x, arr U16 16 x -> arr U16 16 (f x) /\ f x = map g x) ->
  vok 16 (map f v) /\ concat (map f v) = map g (concat v).
Proof.
  intros f g v (Lv & Fv) H. split.
  - split; [now rewrite len_map|]. apply Forall_map. eapply Forall_impl; [|exact Fv]. intros x Hx. now apply H.
  - clear Lv. induction Fv as [|x v Hx Fv IH]; [reflexivity|]. cbn [map concat]. rewrite map_app, IH. f_equal. now apply H.
Qed.

Definition arnd (x : Z) : Z := ((x + 4) mod 65536) / 8.
Definition rndv (x : list Z) : list Z := vand (vsrl (vadd x (vset1 avx_h1)) (13 - SABER_EP)) (vset1 8191).
Lemma lanes_map : forall (x : list Z) g f, arr U16 16 x -> (forall z, 0 <= z < 65536 -> 0 <= g z < 65536) ->
  (forall k, 0 <= k < 16 -> f k = g (get x k)) -> arr U16 16 (lanes f) /\ lanes f = map g x.
Proof.
  intros x g f (Lx & Tx) R E. assert (lanes f = map g x) as ->.
  { symmetry. apply ztab_eq with 0; [now rewrite len_map|]. intros k Hk. rewrite znth_map with (d := 0) by lia. now rewrite E. }
  split; [|reflexivity]. split; [now rewrite len_map|]. apply Forall_map. eapply Forall_impl; [|exact Tx].
  cbn. intros z Hz. specialize (R z). lia.
Qed.

Lemma rndv_ok : forall x, arr U16 16 x -> arr U16 16 (rndv x) /\ rndv x = map arnd x.
Proof.
  intros x Hx. apply lanes_map; auto.
  - intros z Hz. unfold arnd. dlia.
  - intros k Hk. unfold vsrl, vadd, vset1, lane2, lanes. rewrite !znth_ztab by lia. change (13 - SABER_EP <=? 15) with true.
    change (13 - SABER_EP) with 3. change (wrap U16 avx_h1) with 4. change (wrap U16 8191) with (Z.ones 13). fold (get x k).
    rewrite Z.land_ones, Z.shiftr_div_pow2 by lia. unfold wrap, arnd. change (2 ^ 3) with 8. change (2 ^ 13) with 8192. change (2 ^ 16) with 65536. dlia.
Qed.

Lemma wp_avx_round : forall n r (Q : list (list (list Z)) -> Prop), 0 <= n -> avec n r ->
  (forall r', avec n r' -> polys r' = map (map arnd) (polys r) -> Q r') -> wp (avx_round n r) Q.
Proof.
  intros n r Q Hn (Lr & Fr) HQ. unfold avx_round. change (@for_ (list (list (list Z)))) with (@for_ (list (list (list Z)))).
  apply wp_rows with (d0 := []) (g := fun i => map rndv (znth [] r i)); [lia| |].
  - intros i a Hi La Ea.
    assert (vok 16 (znth [] r i)) as (Li & Fi) by (apply (Forall_znth (vok 16) [] r Fr i); lia).
    apply wp_for with (I := fun j a' => a' = upd a i (ztab j (fun k => rndv (znth [] (znth [] r i) k)) ++ zskip j (znth [] r i))).
    + lia.
    + change (ztab 0 ?f) with (@nil (list Z)). cbn [app]. rewrite zskip_0. apply znth_ext with []; [now rewrite len_upd|]. intros k Hk. rewrite znth_upd by lia.
      destruct (k =? i) eqn:E; auto. assert (k = i) by lia. now subst.
    + intros j a' Hj ->. apply wp_bind, wp_row with (d := []); [rewrite len_upd; lia|]. rewrite znth_upd_same by lia.
      set (u := ztab j (fun k => rndv (znth [] (znth [] r i) k))). assert (len u = j) as Lu by (apply len_ztab; lia).
      assert (len (zskip j (znth [] r i)) = 16 - j) as Lz by (rewrite len_zskip; lia).
      apply wp_bind, wp_row with (d := []); [rewrite len_app; lia|].
      rewrite znth_app2 by lia. rewrite Lu, Z.sub_diag, znth_zskip, Z.add_0_r by lia. cbv zeta. fold (rndv (znth [] (znth [] r i) j)).
      apply wp_bind, wp_setrow; [rewrite len_app; lia|]. apply wp_setrow; [rewrite len_upd; lia|].
      match goal with |- context [upd (u ++ ?t) j ?y] => replace (upd (u ++ t) j y) with (upd (u ++ t) (len u) y) by now rewrite Lu end.
      rewrite upd_app_skip by lia. rewrite zskip_zskip by lia. rewrite ztab_split by lia. change (ztab 1 ?f) with [f 0]. cbn beta.
      rewrite Z.add_0_r. fold u. rewrite <- app_assoc. cbn [app].
      apply znth_ext with []; [now rewrite !len_upd|]. rewrite !len_upd. intros m Hm. rewrite !znth_upd by (rewrite ?len_upd; lia).
      destruct (m =? i); auto.
    + intros a' ->. rewrite zskip_all, app_nil_r by lia. f_equal. symmetry. apply ztab_eq with []; [rewrite len_map; lia|].
      intros k Hk. now rewrite znth_map with (d := []) by lia.
  - rewrite zskip_all, app_nil_r by lia. replace (ztab n (fun i => map rndv (znth [] r i))) with (map (map rndv) r).
    2:{ apply ztab_eq with []; [now rewrite len_map|]. intros i Hi. now rewrite znth_map with (d := []) by lia. }
    apply HQ.
    + split; [now rewrite len_map|]. apply Forall_map. eapply Forall_impl; [|exact Fr]. intros v Hv. apply (vok_map rndv arnd v Hv rndv_ok).
    + clear Lr HQ. unfold polys. induction Fr as [|v r Hv Fr IH]; [reflexivity|]. cbn [map]. rewrite IH. f_equal. apply (vok_map rndv arnd v Hv rndv_ok).
Qed.

Lemma arnd_ok : forall c x y, usaber c = false -> 0 <= x < 65536 -> eqm 8192 x y -> eqm (2 ^ 10) (arnd x) (round_qp (par c) y).
Proof.
  intros c x y Hu Hx E. eapply eqm_trans; [|apply rnd_ok; exact E]. unfold arnd, rnd, h1, SABER_EQ, SABER_EP. rewrite Hu.
  change (2 ^ (13 - 10 - 1)) with 4. change (13 - 10) with 3. change (2 ^ 10) with 1024. rewrite Z.shiftr_div_pow2 by lia. change (2 ^ 3) with 8.
  exists (((x + 4) mod 65536 / 8 - ((x + 4) / 8) mod 65536) / 1024). dlia.
Qed.
