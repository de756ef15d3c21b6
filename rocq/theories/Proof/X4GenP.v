(** The parts of the four-fold key encapsulation that work on one instance, and the four-fold expansion of matrix and secret. *)
From Coq Require Import ZArith List Bool Lia.
From Verif Require Import Lib.Arr Lib.CInt Lib.CMon Lib.Wire Spec.Bits Spec.Ring Spec.Sampling Spec.Saber Spec.Keccak Spec.Sym Model.Params Model.Vec Model.AvxMul Model.AvxKem
  Model.Pack Model.Cbd Model.Poly Model.Indcpa Model.Fips202x4 Model.X4Pack Model.X4Kem
  Proof.PackP Proof.PackThm Proof.Conv Proof.KaraP Proof.ToomP Proof.CbdP Proof.PolyP Proof.IndcpaP Proof.KemP Proof.SymP Proof.Keccak4P Proof.Sponge4P
  Spec.AvxSpec Proof.AvxMulP Proof.AvxIntP Proof.AvxThm Proof.AvxKemP Proof.AvxIndP Proof.X4PackP.
Import ListNotations.
Local Open Scope Z_scope.

Lemma hx4 : usaber x4 = false. Proof. reflexivity. Qed.
Local Notation X := (PRF false).
Local Notation p4 := (par x4).

(** ** One instance *)

Lemma vxor_ok : forall x, arr U16 16 x -> arr U16 16 (vxor x x) /\ vxor x x = map (fun _ => 0) x.
Proof. intros x Hx. apply lanes_map; auto; [intros; lia|]. intros k Hk. now rewrite Z.lxor_nilpotent. Qed.

Lemma wp_clear : forall v (Q : list (list Z) -> Prop), vok 16 v -> (forall r, vok 16 r -> Q r) -> wp (clear v) Q.
Proof.
  intros v Q Hv HQ. unfold clear. apply (wp_lanes (fun x => vxor x x)); [apply Hv|]. apply HQ.
  apply (vok_map (fun x => vxor x x) (fun _ => 0) v Hv). apply vxor_ok.
Qed.

Lemma avec_upd : forall n r i x, avec n r -> vok 16 x -> avec n (upd r i x).
Proof. intros n r i x (L & F) Hx. split; [now rewrite len_upd|]. now apply Forall_upd. Qed.

Lemma wp_clear3 : forall v (Q : list (list (list Z)) -> Prop), avec 3 v -> (forall r, avec 3 r -> Q r) -> wp (clear3 v) Q.
Proof.
  intros v Q Hv HQ. unfold clear3. apply wp_for with (I := fun _ r => avec 3 r); auto; [lia|].
  intros i r Hi Hr. assert (len r = 3) by apply Hr. apply wp_bind, wp_row with (d := []); [lia|].
  apply wp_bind, wp_clear; [apply avec_row with 3; auto|]. intros y Hy. apply wp_setrow; [lia|]. now apply avec_upd.
Qed.

Definition rndx (x : list Z) : list Z := vsrl (vadd x (vset1 avx_h1)) (13 - SABER_EP).
Lemma rndx_ok : forall x, arr U16 16 x -> arr U16 16 (rndx x) /\ rndx x = map arnd x.
Proof.
  intros x Hx. apply lanes_map; auto.
  - intros z Hz. unfold arnd. dlia.
  - intros k Hk. unfold vsrl, vadd, vset1, lane2, lanes. rewrite !znth_ztab by lia. change (13 - SABER_EP <=? 15) with true.
    change (13 - SABER_EP) with 3. change (wrap U16 avx_h1) with 4. fold (get x k).
    rewrite Z.shiftr_div_pow2 by lia. unfold wrap, arnd. change (2 ^ 3) with 8. change (2 ^ 16) with 65536. reflexivity.
Qed.

Lemma wp_x4_round : forall r (Q : list (list (list Z)) -> Prop), avec 3 r ->
  (forall r', avec 3 r' -> polys r' = map (map arnd) (polys r) -> Q r') -> wp (x4_round r) Q.
Proof.
  intros r Q (Lr & Fr) HQ. unfold x4_round.
  apply wp_rows with (d0 := []) (g := fun i => map rndx (znth [] r i)); [lia| |].
  - intros i a Hi La Ea. apply wp_bind, wp_row with (d := []); [lia|]. rewrite Ea.
    assert (vok 16 (znth [] r i)) as (Li & Fi) by (apply (Forall_znth (vok 16) [] r Fr i); lia).
    apply wp_bind, (wp_lanes rndx); [auto|]. apply wp_setrow; [lia|]. reflexivity.
  - rewrite zskip_all, app_nil_r by lia. replace (ztab 3 (fun i => map rndx (znth [] r i))) with (map (map rndx) r).
    2:{ apply ztab_eq with []; [now rewrite len_map|]. intros i Hi. now rewrite znth_map with (d := []) by lia. }
    apply HQ.
    + split; [now rewrite len_map|]. apply Forall_map. eapply Forall_impl; [|exact Fr]. intros v Hv. apply (vok_map rndx arnd v Hv rndx_ok).
    + unfold polys. rewrite !map_map. apply map_ext_in. intros v Hv. apply (vok_map rndx arnd v); [|apply rndx_ok].
      rewrite Forall_forall in Fr. now apply Fr.
Qed.

(** Arrays of three times three polynomials. *)
Definition cube (a : list (list (list (list Z)))) : Prop := len a = 3 /\ Forall vecs a.
Definition ent (a : list (list (list (list Z)))) (p q : Z) : list (list Z) := znth [] (znth [] a p) q.

Lemma cube_row : forall a p, cube a -> 0 <= p < 3 -> vecs (znth [] a p).
Proof. intros a p (L & F) Hp. apply (Forall_znth vecs [] a F p). lia. Qed.
Lemma cube_ent : forall a p q, cube a -> 0 <= p < 3 -> 0 <= q < 3 -> len (ent a p q) = 16.
Proof. intros a p q H Hp Hq. destruct (cube_row a p H Hp) as (L & F). apply (Forall_znth (fun r => len r = 16) [] _ F q). lia. Qed.

Lemma wp_set_ent : forall a i j v (Q : list (list (list (list Z))) -> Prop), cube a -> 0 <= i < 3 -> 0 <= j < 3 -> len v = 16 ->
  (forall r, cube r -> (forall p q, 0 <= p < 3 -> 0 <= q < 3 -> ent r p q = if (p =? i) && (q =? j) then v else ent a p q) -> Q r) ->
  wp (set2 a i j v) Q.
Proof.
  intros a i j v Q Ha Hi Hj Lv HQ. unfold set2. destruct (cube_row a i Ha Hi) as (Li & Fi). destruct Ha as (La & Fa).
  apply wp_bind, wp_row with (d := []); [lia|]. apply wp_bind, wp_setrow; [lia|]. apply wp_setrow; [lia|]. apply HQ.
  - split; [now rewrite len_upd|]. apply Forall_upd; auto. split; [now rewrite len_upd|]. now apply Forall_upd.
  - intros p q Hp Hq. unfold ent. rewrite znth_upd by lia. destruct (p =? i) eqn:E; [|reflexivity]. cbn [andb].
    rewrite znth_upd by lia. assert (p = i) by lia. now subst p.
Qed.

Lemma cube_ext : forall a b, cube a -> cube b -> (forall p q, 0 <= p < 3 -> 0 <= q < 3 -> ent a p q = ent b p q) -> a = b.
Proof.
  intros a b Ha Hb E. apply znth_ext with []; [destruct Ha, Hb; lia|]. intros p Hp. assert (0 <= p < 3) as Hp' by (destruct Ha; lia).
  destruct (cube_row a p Ha Hp') as (L1 & _), (cube_row b p Hb Hp') as (L2 & _). apply znth_ext with []; [lia|].
  intros q Hq. apply E; lia.
Qed.

Lemma amat_cube : forall a, amat 3 a -> cube a.
Proof.
  intros a (L & F). split; auto. eapply Forall_impl; [|exact F]. intros v (Lv & Fv). split; auto.
  eapply Forall_impl; [|exact Fv]. intros x Hx. apply Hx.
Qed.

Lemma wp_copy_matrix : forall a v (Q : list (list (list (list Z))) -> Prop), cube a -> cube v -> Q a -> wp (copy_matrix a v) Q.
Proof.
  intros a v Q Ha Hv HQ. unfold copy_matrix.
  apply wp_for with (I := fun i v => cube v /\ forall p q, 0 <= p < i -> 0 <= q < 3 -> ent v p q = ent a p q); [lia| | |].
  - split; auto. intros; lia.
  - intros i v1 Hi (C1 & G1).
    apply wp_for with (I := fun j v => cube v /\ (forall p q, 0 <= p < i -> 0 <= q < 3 -> ent v p q = ent a p q) /\
      forall q, 0 <= q < j -> ent v i q = ent a i q); [lia| | |].
    + split; auto. split; auto. intros; lia.
    + intros j v2 Hj (C2 & G2 & H2).
      apply wp_for with (I := fun k v => cube v /\ (forall p q, 0 <= p < i -> 0 <= q < 3 -> ent v p q = ent a p q) /\
        (forall q, 0 <= q < j -> ent v i q = ent a i q) /\ forall m, 0 <= m < k -> znth [] (ent v i j) m = znth [] (ent a i j) m); [lia| | |].
      * split; auto. split; auto. split; auto. intros; lia.
      * intros k v3 Hk (C3 & G3 & H3 & K3).
        destruct (cube_row a i Ha Hi) as (Lai & _). pose proof (cube_ent a i j Ha Hi Hj) as Laij.
        destruct (cube_row v3 i C3 Hi) as (Lvi & _). pose proof (cube_ent v3 i j C3 Hi Hj) as Lvij.
        assert (len a = 3) by apply Ha. assert (len v3 = 3) by apply C3.
        apply wp_bind, wp_row with (d := []); [lia|]. apply wp_bind, wp_row with (d := []); [lia|]. fold (ent a i j).
        apply wp_bind, wp_row with (d := []); [lia|].
        apply wp_bind, wp_row with (d := []); [lia|]. apply wp_bind, wp_row with (d := []); [lia|]. fold (ent v3 i j).
        apply wp_bind, wp_setrow; [lia|]. apply wp_set_ent; auto; [now rewrite len_upd|].
        intros r Cr Er. split; auto. split; [|split].
        -- intros p q Hp Hq. rewrite Er by lia. replace (p =? i) with false by lia. cbn [andb]. auto.
        -- intros q Hq. rewrite Er by lia. replace (q =? j) with false by lia. rewrite andb_false_r. auto.
        -- intros m Hm. rewrite Er by lia. rewrite !Z.eqb_refl. cbn [andb]. rewrite znth_upd by lia.
           destruct (m =? k) eqn:E; [f_equal; lia|]. apply K3. lia.
      * intros v3 (C3 & G3 & H3 & K3). split; auto. split; auto. intros q Hq. destruct (Z.eq_dec q j) as [->|N]; [|apply H3; lia].
        pose proof (cube_ent a i j Ha Hi Hj). pose proof (cube_ent v3 i j C3 Hi Hj). apply znth_ext with []; [lia|]. intros m Hm. apply K3. lia.
    + intros v2 (C2 & G2 & H2). split; auto. intros p q Hp Hq. destruct (Z.eq_dec p i) as [->|N]; [apply H2; lia|apply G2; lia].
  - intros r (Cr & Gr). now rewrite (cube_ext r a Cr Ha Gr).
Qed.

Lemma uninit3_cube : forall junk t, cube (vuninit3 junk t 3 16).
Proof. intros. split; [reflexivity|]. apply Forall_ztab. intros. split; [reflexivity|]. apply vuninit2_len; lia. Qed.

(** The buckets belong to the secret, and the product is rounded as the specification rounds it. *)
Definition product_post (tr : Z) (a : list (list (list (list Z)))) (sv : list (list Z)) (r : list (list (list Z)) * list (list (list Z))) : Prop :=
  (exists sa, polys sa = mod13 sv /\ buckets 3 sa (fst r)) /\ avec 3 (snd r) /\
  pack_vec 10 (polys (snd r)) = pack_vec 10 (round_vec p4 (mat_vec 3 (cmat 3 tr a) sv)).

Lemma wp_x4_product : forall junk g tr a sv, glob_ok g -> amat 3 a -> vec_mem 3 sv ->
  wp (x4_product junk g tr a (mod13 sv)) (product_post tr a sv).
Proof.
  intros junk g tr a sv Hg Ha Hs. unfold x4_product. cbv zeta.
  apply wp_bind. eapply wp_mono; [apply wp_load_polys; [lia|now apply vec_mod13|apply len_ztab; lia|apply vuninit2_len; lia]|]. intros sa (Vsa & Esa).
  apply wp_bind, wp_copy_matrix; [now apply amat_cube|apply uninit3_cube|].
  apply wp_bind, wp_clear3; [apply vuninit2_avec; lia|]. intros r0 Hr0.
  destruct (vuninit2_ok junk 3 3 64 ltac:(lia) ltac:(lia)) as (LB & FB).
  apply wp_bind. eapply wp_mono; [apply (eval_buckets_ok _ 3 sa); auto; lia|]. intros bb Hbb.
  apply wp_bind. eapply wp_mono; [apply (matrix_vector_mul_ok _ 3 g a sa bb); auto; lia|]. intros rs (Vrs & Ers).
  apply wp_bind, wp_x4_round; [auto|]. intros ra Vra Era. apply wp_ret. split; [exists sa; split; auto|]. cbn [fst snd]. split; auto.
  rewrite Era. apply (round_pack x4 hx4 (cmat 3 tr a) sa sv rs Esa Vrs Ers).
Qed.

(** ** The matrix and the secret *)

Lemma X_bytes : forall n seed, 0 <= n -> 32 <= len seed -> typed U8 seed -> arr U8 n (X n (zfirst 32 seed)).
Proof. intros n seed Hn Ls Ts. apply (PRF_bytes false); [lia|]. split; [apply len_zfirst; lia|now apply Forall_zfirst]. Qed.

Lemma wp_shake : forall junk out n inp (Q : quad (list Z) -> Prop), 0 <= n -> (forall k, 0 <= k < 4 -> len (sel out k) = n) ->
  bytes4 32 inp -> Q (tab4 (fun k => X n (zfirst 32 (sel inp k)))) -> wp (shake128x4 168 junk out n inp 32) Q.
Proof.
  intros junk out n inp Q Hn Ho Hi HQ. apply wp_shake128x4; auto; [intros k Hk; rewrite Ho; auto; lia|lia|].
  rewrite (tab4_ext _ _ (fun k => X n (zfirst 32 (sel inp k)))); auto. intros k Hk. cbv beta.
  rewrite zskip_all by (rewrite Ho; auto; lia). apply app_nil_r.
Qed.

Lemma wp_GenMatrix4x : forall junk a seed (Q : quad (list (list (list (list Z)))) -> Prop),
  (forall m, 0 <= m < 4 -> cube (sel a m)) -> bytes4 32 seed ->
  (forall r, (forall m, 0 <= m < 4 -> amat 3 (sel r m) /\ map polys (sel r m) = expand_A X p4 (zfirst 32 (sel seed m))) -> Q r) ->
  wp (GenMatrix4x 168 junk a seed) Q.
Proof.
  intros junk a seed Q Ha Hs HQ. unfold GenMatrix4x. cbv zeta. change (13 * SABER_N / 8) with 416. change (3 * 3 * 416) with 3744. change SABER_SEEDBYTES with 32.
  apply wp_bind, wp_shake; auto; [lia|intros k Hk; rewrite sel_tab4 by auto; now apply uninit_len|].
  set (B := fun m => X 3744 (zfirst 32 (sel seed m))).
  assert (forall m, 0 <= m < 4 -> arr U8 3744 (B m)) as HB by (intros m Hm; destruct (Hs m Hm); apply X_bytes; auto; lia).
  set (U := fun m p q => unpack 13 (zskip ((p * 3 + q) * 416) (B m))).
  apply wp_for with (I := fun i a => forall m, 0 <= m < 4 -> cube (sel a m) /\
    forall p q, 0 <= p < 3 -> 0 <= q < 3 -> 3 * p + q < 3 * i -> vok 16 (ent (sel a m) p q) /\ concat (ent (sel a m) p q) = U m p q); [lia| | |].
  - intros m Hm. split; auto. intros; lia.
  - intros i a1 Hi H1.
    apply wp_for with (I := fun j a => forall m, 0 <= m < 4 -> cube (sel a m) /\
      forall p q, 0 <= p < 3 -> 0 <= q < 3 -> 3 * p + q < 3 * i + j -> vok 16 (ent (sel a m) p q) /\ concat (ent (sel a m) p q) = U m p q); [lia| | |].
    + intros m Hm. destruct (H1 m Hm) as (C & G). split; auto. intros. apply G; lia.
    + intros j a2 Hj H2.
      apply wp_bind, wp_for4_eq with (g := fun m => zskip ((i * 3 + j) * 416) (B m)).
      { intros m Hm T HT. rewrite sel_tab4 by auto. destruct (HB m Hm). apply wp_ptr; [lia|exact HT]. }
      apply wp_bind, wp_for4_eq with (g := fun m => ent (sel a2 m) i j).
      { intros m Hm T HT. destruct (H2 m Hm) as (C & _). destruct (cube_row _ i C Hi). assert (len (sel a2 m) = 3) by apply C.
        apply wp_bind, wp_row with (d := []); [lia|]. apply wp_row with (d := []); [lia|]. exact HT. }
      apply wp_bind, wp_BS2POLq4x.
      { intros m Hm. rewrite !sel_tab4 by auto. destruct (HB m Hm). destruct (H2 m Hm) as (C & _).
        split; [rewrite len_zskip; lia|]. split; [now apply Forall_zskip|]. now apply cube_ent. }
      intros d Hd.
      apply wp_for4 with (g := fun m r => cube r /\ forall p q, 0 <= p < 3 -> 0 <= q < 3 -> 3 * p + q < 3 * i + (j + 1) -> vok 16 (ent r p q) /\ concat (ent r p q) = U m p q); auto.
      intros m Hm. destruct (H2 m Hm) as (C & G). destruct (Hd m Hm) as (Vd & Ed). rewrite sel_tab4 in Ed by auto.
      apply wp_set_ent; auto; [apply Vd|]. intros r Cr Er. split; auto. intros p q Hp Hq Hpq. rewrite Er by auto.
      destruct ((p =? i) && (q =? j)) eqn:E.
      * assert (p = i /\ q = j) as (-> & ->) by lia. split; auto.
      * apply G; auto. lia.
    + intros a2 H2 m Hm. destruct (H2 m Hm) as (C & G). split; auto. intros. apply G; lia.
  - intros r Hr. apply HQ. intros m Hm. destruct (Hr m Hm) as (C & G).
    assert (amat 3 (sel r m)) as A.
    { split; [apply C|]. apply Forall_znth_iff with (d := []). intros p Hp. assert (0 <= p < 3) by (destruct C; lia).
      destruct (cube_row _ p C ltac:(lia)) as (L & F). split; auto. apply Forall_znth_iff with (d := []). intros q Hq. apply G; lia. }
    split; auto.
    rewrite <- (expand_A_13 X x4 hx4). change (SABER_L x4) with 3. change (3 * SABER_POLYVECBYTES x4) with 3744. fold (B m).
    unfold gen_mat. apply ztab_eq with []; [rewrite len_map; apply A|]. intros p Hp. rewrite znth_map with (d := []) by (destruct A; lia).
    unfold unpack_vec, polys. apply ztab_eq with []; [rewrite len_map; apply (cube_row _ p C Hp)|]. intros q Hq.
    rewrite znth_map with (d := []) by (rewrite (proj1 (cube_row _ p C Hp)); lia). fold (ent (sel r m) p q). rewrite (proj2 (G p q Hp Hq ltac:(lia))).
    unfold U. rewrite zskip_zskip by lia. do 2 f_equal. lia.
Qed.

Lemma wp_GenSecret4x : forall junk r seed (Q : quad (list (list Z)) -> Prop),
  (forall m, 0 <= m < 4 -> vec_mem 3 (sel r m)) -> bytes4 32 seed ->
  Q (tab4 (fun m => mod13 (expand_s X p4 (zfirst 32 (sel seed m))))) ->
  wp (GenSecret4x 168 junk r seed) Q.
Proof.
  intros junk r seed Q Hr Hs HQ. unfold GenSecret4x. cbv zeta. change (SABER_MU x4 * SABER_N * 3 / 8) with 768. change SABER_SEEDBYTES with 32.
  apply wp_bind, wp_shake; auto; [lia|intros k Hk; rewrite sel_tab4 by auto; now apply uninit_len|].
  set (B := fun m => X 768 (zfirst 32 (sel seed m))).
  assert (forall m, 0 <= m < 4 -> arr U8 768 (B m)) as HB by (intros m Hm; destruct (Hs m Hm); apply X_bytes; auto; lia).
  set (C := fun m i => map (fun x => x mod 8192) (cbd_poly 8 (zskip (256 * i) (B m)))).
  apply (wp_for_for4 _ 0 3 _ (fun m i x => x = ztab i (C m) ++ zskip i (sel r m))); [lia| | |].
  - intros m Hm. reflexivity.
  - intros i m x Hi Hm ->. rewrite sel_tab4 by auto. destruct (HB m Hm). destruct (Hr m Hm) as (Lr & Fr).
    assert (len (ztab i (C m)) = i) as Lt by (apply len_ztab; lia).
    assert (len (zskip i (sel r m)) = 3 - i) as Lz by (rewrite len_zskip; lia).
    replace (i * SABER_MU x4 * SABER_N / 8) with (256 * i) by (change (SABER_MU x4) with 8; unfold SABER_N; dlia).
    apply wp_bind, wp_ptr; [lia|]. apply wp_bind, wp_row with (d := []); [rewrite len_app; lia|].
    rewrite znth_app2 by lia. rewrite Lt, Z.sub_diag, znth_zskip by lia.
    apply wp_bind, wp_avx_cbd; [apply (Forall_znth (fun l => len l = 256) [] _ Fr); lia|change (32 * SABER_MU x4) with 256; rewrite len_zskip; lia|now apply Forall_zskip|].
    apply wp_setrow; [rewrite len_app; lia|]. change (SABER_MU x4) with 8. fold (C m i).
    match goal with |- upd ?l i ?y = _ => replace (upd l i y) with (upd l (len (ztab i (C m))) y) by now rewrite Lt end.
    rewrite upd_app_skip by lia. rewrite zskip_zskip by lia. rewrite ztab_split by lia. change (ztab 1 ?f) with [f 0]. cbv beta. rewrite Z.add_0_r, <- app_assoc. reflexivity.
  - intros q' Hq'. rewrite (quad_eq _ q' (fun m => mod13 (expand_s X p4 (zfirst 32 (sel seed m))))); auto.
    intros m Hm. rewrite Hq' by auto. destruct (Hr m Hm) as (Lr & _). rewrite zskip_all, app_nil_r by lia.
    rewrite <- expand_s_eq. change (SABER_L x4 * SABER_POLYCOINBYTES x4) with 768. fold (B m).
    unfold sec_vec, gen_vec, mod13. rewrite hx4, map_ztab. reflexivity.
Qed.
