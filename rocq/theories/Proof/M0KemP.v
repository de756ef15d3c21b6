(** Key generation and encapsulation of the Cortex-M0 code, for a multiplication that wraps. *)
From Coq Require Import ZArith List Bool Lia.
From Verif Require Import Lib.Arr Lib.CInt Lib.CMon Lib.Wire Spec.Bits Spec.Ring Spec.Sampling Spec.Keccak Spec.Saber Spec.M0Spec Model.Params Model.Pack
  Model.Indcpa Model.Fips202 Model.M0 Model.M0Kem Proof.PackP Proof.PackThm Proof.Conv Proof.KaraP Proof.CbdP Proof.PolyP Proof.KeccakP Proof.SpongeP
  Proof.IndcpaP Proof.KemP Proof.M4P Proof.M0P Proof.M0GenP.
Import ListNotations.
Local Open Scope Z_scope.

(** ** Loops *)

Lemma wp_rowloop : forall t (v : list (list Z)) i e f (Q : list (list Z) -> Prop), 0 <= i < len v -> len (getr v i) = 256 ->
  (forall j r, 0 <= j < 256 -> len r = 256 -> (forall k, 0 <= k < 256 -> get r k = if k <? j then f k else get (getr v i) k) ->
     safe (e r j) = true /\ lok (e r j) /\ wrap t (val (e r j)) = f j) ->
  Q (upd v i (ztab 256 f)) ->
  wp (for_ 0 256 (fun j v => r <- row v i ;; r <- st t r j (e r j) ;; setrow v i r)%M v) Q.
Proof.
  intros t v i e f Q Hi Lv He HQ.
  apply wp_for with (I := fun j w => exists r, w = upd v i r /\ len r = 256 /\ forall k, 0 <= k < 256 -> get r k = if k <? j then f k else get (getr v i) k).
  - lia.
  - exists (getr v i). split; [|split; auto; intros k Hk; destruct (k <? 0) eqn:E; auto; lia].
    apply znth_ext with []; [now rewrite len_upd|]. intros k Hk. rewrite znth_upd by lia. destruct (k =? i) eqn:E; auto.
    unfold getr. f_equal. lia.
  - intros j w Hj (r & -> & Lr & G). apply wp_bind, wp_row with (d := []); [rewrite len_upd; lia|].
    rewrite znth_upd by lia. rewrite Z.eqb_refl. destruct (He j r Hj Lr G) as (H1 & H2 & H3).
    apply wp_bind, wp_st; [auto|auto|lia|]. apply wp_setrow; [rewrite len_upd; lia|]. rewrite H3.
    exists (upd r j (f j)). split; [|split; [now rewrite len_upd|]].
    + apply znth_ext with []; [now rewrite !len_upd|]. rewrite !len_upd. intros k Hk. rewrite !znth_upd by (rewrite ?len_upd; lia).
      now destruct (k =? i).
    + intros k Hk. unfold get at 1. rewrite znth_upd by lia. destruct (k =? j) eqn:E.
      * replace (k <? j + 1) with true by lia. f_equal. lia.
      * fold (get r k). rewrite G by lia. destruct (k <? j) eqn:E1, (k <? j + 1) eqn:E2; auto; lia.
  - intros w (r & -> & Lr & G). replace r with (ztab 256 f); auto. symmetry. apply ztab_eq with 0; auto.
    intros k Hk. fold (get r k). rewrite G by lia. now replace (k <? 256) with true by lia.
Qed.

Definition rnd0 (x : Z) : Z := (x + 4) mod 65536 / 8.
Lemma wp_m0_round : forall r (Q : list Z -> Prop), arr U16 256 r -> Q (map rnd0 r) -> wp (m0_round r) Q.
Proof.
  intros r Q (Lr & Tr) HQ. unfold m0_round.
  apply wp_for with (I := fun j a => arr U16 256 a /\ forall k, 0 <= k < 256 -> get a k = if k <? j then rnd0 (get r k) else get r k).
  - lia.
  - split; [split; auto|]. intros k Hk. destruct (k <? 0) eqn:E; auto; lia.
  - intros j a Hj ((La & Ta) & G). pose proof (typed_get U16 r j Tr ltac:(lia)) as R. cbn [tmin tmax] in R.
    pose proof (G j Hj) as Gj. rewrite Z.ltb_irrefl in Gj.
    apply wp_bind, wp_st; [reflexivity|cbn [lok tmin tmax]; repeat split; auto; lia|lia|].
    cbn [val val_bin ty promote common]. unfold cv, uw. cbn [subr signed]. rewrite Gj.
    set (x := wrap U16 (get r j + 4)). assert (0 <= x <= 65535) as Hx by (pose proof (wrap_range U16 (get r j + 4)); cbn [tmin tmax] in *; lia).
    assert (typed U16 (upd a j x)) as Tu by (apply typed_upd; auto).
    assert (get (upd a j x) j = x) as Gx by (unfold get; rewrite znth_upd by lia; now rewrite Z.eqb_refl).
    apply wp_st; [reflexivity|cbn [lok tmin tmax]; repeat split; auto; rewrite ?len_upd; lia|rewrite len_upd; lia|].
    cbn [val val_bin ty promote common]. unfold cv, uw. cbn [subr signed]. rewrite Gx.
    assert (wrap U16 (Z.shiftr x 3) = rnd0 (get r j)) as ->.
    { rewrite Z.shiftr_div_pow2 by lia. change (2 ^ 3) with 8. rewrite wrap_id by (cbn [tmin tmax]; dlia). reflexivity. }
    assert (tmin U16 <= rnd0 (get r j) <= tmax U16) by (unfold rnd0; cbn [tmin tmax]; dlia).
    split; [split; [now rewrite !len_upd|now apply typed_upd]|].
    intros k Hk. unfold get at 1. rewrite !znth_upd by (rewrite ?len_upd; lia). destruct (k =? j) eqn:E.
    + assert (k = j) by lia. subst k. now replace (j <? j + 1) with true by lia.
    + fold (get a k). rewrite G by lia. destruct (k <? j) eqn:E1, (k <? j + 1) eqn:E2; auto; lia.
  - intros a ((La & Ta) & G). replace a with (map rnd0 r); auto. symmetry.
    apply znth_ext with 0; [rewrite len_map; lia|]. intros k Hk. fold (get a k). rewrite G by lia. replace (k <? 256) with true by lia.
    rewrite (znth_map rnd0 0 0) by lia. reflexivity.
Qed.

Lemma rnd0_ok : forall x y, eqm 8192 x y -> eqm (2 ^ 10) (rnd0 x) (round_qp saber y).
Proof.
  intros x y (q & ->). unfold rnd0, round_qp, rc1. cbn [saber p_eq]. change (2 ^ (13 - 10 - 1)) with 4. change (2 ^ 13) with 8192.
  change (2 ^ (13 - 10)) with 8. change (2 ^ 10) with 1024. apply eqm_mod_eq; [lia|]. dlia.
Qed.

Lemma get_map : forall f l k, 0 <= k < len l -> get (map f l) k = f (get l k).
Proof. intros. unfold get. now rewrite (znth_map f 0 0) by lia. Qed.

Lemma pack_rnd0 : forall r v, len r = 256 -> len v = 256 -> (forall k, 0 <= k < 256 -> eqm 8192 (get r k) (get v k)) ->
  pack 10 (map rnd0 r) = pack 10 (map (round_qp saber) v).
Proof.
  intros r v Lr Lv E. apply pack_eqm; [lia|now rewrite len_map|now rewrite len_map|]. intros k Hk.
  rewrite !get_map by lia. now apply rnd0_ok, E.
Qed.

Lemma getr_A : forall seed i j, 0 <= i < 3 -> 0 <= j < 3 ->
  getr (znth [] (expand_A SHAKE128 saber seed) i) j = unpack 13 (zskip (416 * (3 * i + j)) (SHAKE128 3744 seed)).
Proof.
  intros seed i j Hi Hj. unfold expand_A. cbn [saber p_l p_eq]. unfold gen_mat, getr.
  rewrite znth_ztab by auto. unfold unpack_vec. rewrite znth_ztab by auto.
  change (32 * 13) with 416. change (3 * (3 * 416)) with 3744. rewrite zskip_zskip by lia. f_equal. f_equal. ring.
Qed.

Lemma getr_map : forall f (v : list (list Z)) i, 0 <= i < len v -> getr (map (map f) v) i = map f (getr v i).
Proof. intros. unfold getr. now rewrite (znth_map (map f) [] []) by lia. Qed.

(** ** Products *)

Definition gmpos (seed : list Z) (n : Z) (g : gmstate) : Prop :=
  if n =? 0 then arr U8 280 (g_buf g) /\ len (g_s g) = 25 else gm_at seed n g.
Definition acc (m i : Z) (u v : list (list Z)) (r : list Z) : Prop :=
  arr U16 256 r /\ forall k, 0 <= k < 256 -> eqm m (get r k) (psum i u v k).

  Lemma mask1023 : forall x, Z.land x 1023 = x mod 1024.
  Proof. intros. change 1023 with (Z.ones 10). now rewrite Z.land_ones by lia. Qed.

Section Mul.
  Variable mul : list Z -> list Z -> list Z -> M (list Z).
  Hypothesis Hmul : forall a b r, arr U16 256 a -> arr U16 256 b -> arr U16 256 r ->
    wp (mul a b r) (fun x => x = ztab 256 (fun k => (get r k + mul_coef a b k) mod 65536)).

  Lemma wp_acc : forall m d i u v a b r (Q : list Z -> Prop), m * d = 65536 -> 0 < m -> 0 <= i -> acc m i u v r ->
    arr U16 256 a -> arr U16 256 b -> peq m a (getr u i) -> peq m b (getr v i) ->
    (forall r', acc m (i + 1) u v r' -> Q r') -> wp (mul a b r) Q.
  Proof.
    intros m d i u v a b r Q Hd Hm Hi (Hr & Gr) Ha Hb Ea Eb HQ. eapply wp_mono; [now apply Hmul|]. cbn beta. intros ? ->.
    apply HQ. split; [split; [apply len_ztab; lia|apply Forall_ztab; intros; apply (wrap_range U16)]|].
    intros k Hk. rewrite get_ztab by lia. unfold psum. rewrite get_inner_S by lia.
    eapply eqm_trans; [apply eqm_divide with d; rewrite Hd; apply eqm_mod; lia|]. apply eqm_add; [now apply Gr|].
    now apply mul_coef_eqm.
  Qed.

  Lemma acc0 : forall m u v r, arr U16 256 r -> (forall k, 0 <= k < 256 -> get r k = 0) -> acc m 0 u v r.
  Proof.
    intros m u v r Hr G. split; auto. intros k Hk. rewrite G by auto. unfold psum. rewrite get_inner_0. apply eqm_refl.
  Qed.

  Lemma wp_MVK : forall junk g seed skpv res s (Q : list (list Z) -> Prop), arr U8 32 seed ->
    arr U8 280 (g_buf g) -> len (g_s g) = 25 -> len skpv = 3 -> (forall i, 0 <= i < 3 -> arr U16 256 (getr skpv i) /\ peq 8192 (getr skpv i) (getr s i)) ->
    len res = 3 -> (forall i, 0 <= i < 3 -> getr res i = zeros 256) ->
    (forall res', len res' = 3 -> (forall j, 0 <= j < 3 -> acc 8192 3 (znth [] (transpose 3 (expand_A SHAKE128 saber seed)) j) s (getr res' j)) -> Q res') ->
    wp (MatrixVectorMul_keypair mul junk g seed skpv res) Q.
  Proof.
    intros junk g seed skpv res s Q (Lseed & Tseed) Hb Hs Lk Hk Lr Hr HQ. unfold MatrixVectorMul_keypair.
    assert (zfirst 32 seed = seed) as Ez by now apply zfirst_all_at.
    set (A := expand_A SHAKE128 saber seed) in *. set (At := transpose 3 A) in *.
    apply wp_bind, wp_for with (I := fun i x => let '(g, temp, res) := x in gmpos seed (3 * i) g /\ len temp = 256 /\ len res = 3 /\
      forall j, 0 <= j < 3 -> acc 8192 i (znth [] At j) s (getr res j)).
    - lia.
    - split; [split; auto|]. split; [apply uninit_len; lia|]. split; auto. intros j Hj. rewrite Hr by auto. apply acc0; [apply zeros_arr|].
      intros. apply get_zeros.
    - intros i ((g1, t1), r1) Hi (Hg & Lt & L1 & H1).
      apply wp_for with (I := fun j x => let '(g, temp, res) := x in gmpos seed (3 * i + j) g /\ len temp = 256 /\ len res = 3 /\
        forall j', 0 <= j' < 3 -> acc 8192 (if j' <? j then i + 1 else i) (znth [] At j') s (getr res j')).
      + lia.
      + rewrite Z.add_0_r. split; auto. split; auto. split; auto. intros j' Hj'. replace (j' <? 0) with false by lia. auto.
      + intros j ((g2, t2), r2) Hj (Hg2 & Lt2 & L2 & H2).
        apply wp_bind, (wp_GenMatrix_poly _ (3 * i + j)); try lia; auto.
        { rewrite Ez. exact Hg2. }
        rewrite Ez, <- getr_A by auto. fold A. intros g3 Hg3.
        apply wp_bind, wp_row with (d := []); [lia|]. fold (getr skpv i). apply wp_bind, wp_row with (d := []); [lia|]. fold (getr r2 j).
        destruct (Hk i Hi) as (Hki & Eki).
        assert (arr U16 256 (getr (znth [] A i) j)) as HA by (unfold A; rewrite getr_A by auto; split; [apply len_unpack|apply unpack_typed; lia]).
        apply wp_bind, (wp_acc 8192 8 i (znth [] At j) s); try lia; auto.
        { pose proof (H2 j Hj) as P. now rewrite Z.ltb_irrefl in P. }
        { unfold At. rewrite getr_transpose by auto. apply peq_refl. }
        intros r' Hr'. apply wp_bind, wp_setrow; [lia|]. apply wp_ret.
        split; [unfold gmpos; replace (3 * i + (j + 1) =? 0) with false by lia; replace (3 * i + (j + 1)) with (3 * i + j + 1) by lia; exact Hg3|].
        split; [apply HA|]. split; [now rewrite len_upd|]. intros j' Hj'. unfold getr. rewrite znth_upd by lia.
        destruct (j' =? j) eqn:E.
        * assert (j' = j) by lia. subst j'. now replace (j <? j + 1) with true by lia.
        * fold (getr r2 j'). pose proof (H2 j' Hj') as P. destruct (j' <? j) eqn:E1, (j' <? j + 1) eqn:E2; auto; lia.
      + intros ((g2, t2), r2) (Hg2 & Lt2 & L2 & H2). split; [replace (3 * (i + 1)) with (3 * i + 3) by lia; exact Hg2|]. split; auto. split; auto.
        intros j Hj. pose proof (H2 j Hj) as P. now replace (j <? 3) with true in P by lia.
    - intros ((g1, t1), r1) (_ & _ & L1 & H1). apply wp_ret. now apply HQ.
  Qed.

  Lemma wp_MVE : forall junk g seed skpv ct s (Q : list Z -> Prop), arr U8 32 seed ->
    arr U8 280 (g_buf g) -> len (g_s g) = 25 -> len skpv = 3 -> (forall i, 0 <= i < 3 -> arr U16 256 (getr skpv i) /\ peq 8192 (getr skpv i) (getr s i)) ->
    960 <= len ct ->
    Q (pack_vec 10 (ct_vec saber (expand_A SHAKE128 saber seed) s) ++ zskip 960 ct) ->
    wp (MatrixVectorMul_encryption mul junk g seed skpv ct) Q.
  Proof.
    intros junk g seed skpv ct s Q (Lseed & Tseed) Hb Hs Lk Hk Lct HQ. unfold MatrixVectorMul_encryption.
    assert (zfirst 32 seed = seed) as Ez by now apply zfirst_all_at.
    set (A := expand_A SHAKE128 saber seed) in *.
    set (G := fun i => pack 10 (getr (ct_vec saber A s) i)).
    assert (forall j, len (G j) = 320) as LG by (intros; apply len_pack; lia).
    assert (len (ct_vec saber A s) = 3) as Lc by (unfold ct_vec, round_vec; cbn [saber p_l]; rewrite len_map; apply len_mat_vec; lia).
    apply wp_bind, wp_for with (I := fun i x => let '(g, acc_, res, c) := x in gmpos seed (3 * i) g /\ len acc_ = 256 /\ len res = 256 /\
      c = concat (ztab i G) ++ zskip (i * 320) ct).
    - lia.
    - split; [split; auto|]. split; [apply uninit_len; lia|]. split; [apply uninit_len; lia|]. reflexivity.
    - intros i (((g1, a1), r1), c1) Hi (Hg & La & Lr & Ec).
      apply wp_bind, wp_for with (I := fun j x => let '(a, r) := x in len a = 256 /\ len r = 256 /\ forall k, 0 <= k < j -> get r k = 0).
      { lia. }
      { split; auto. split; auto. lia. }
      { intros j (a, r) Hj (La' & Lr' & Gr). apply wp_bind, wp_st; [reflexivity|cbn; lia|lia|]. apply wp_bind, wp_st; [reflexivity|cbn; lia|lia|].
        apply wp_ret. split; [now rewrite len_upd|]. split; [now rewrite len_upd|]. intros k Hk'. unfold get. rewrite znth_upd by lia.
        destruct (k =? j) eqn:E; auto. apply Gr. lia. }
      intros (a2, r2) (La2 & Lr2 & Gr2).
      assert (r2 = zeros 256) as ->.
      { apply znth_ext with 0; [now rewrite len_zeros|]. rewrite Lr2. intros k Hk'. fold (get r2 k). rewrite Gr2 by auto.
        symmetry. exact (get_zeros 256 k). }
      clear Lr2 Gr2.
      apply wp_bind, wp_for with (I := fun j x => let '(g, a, r) := x in gmpos seed (3 * i + j) g /\ len a = 256 /\
        acc 8192 j (znth [] A i) s r).
      { lia. }
      { rewrite Z.add_0_r. split; auto. split; auto. apply acc0; [apply zeros_arr|]. intros. apply get_zeros. }
      { intros j ((g2, t2), r2) Hj (Hg2 & Lt2 & H2).
        apply wp_bind, (wp_GenMatrix_poly _ (3 * i + j)); try lia; auto.
        { rewrite Ez. exact Hg2. }
        rewrite Ez, <- getr_A by auto. fold A. intros g3 Hg3.
        apply wp_bind, wp_row with (d := []); [lia|]. fold (getr skpv j).
        destruct (Hk j Hj) as (Hkj & Ekj).
        assert (arr U16 256 (getr (znth [] A i) j)) as HA by (unfold A; rewrite getr_A by auto; split; [apply len_unpack|apply unpack_typed; lia]).
        apply wp_bind, (wp_acc 8192 8 j (znth [] A i) s); try lia; auto; [apply peq_refl|].
        intros r' Hr'. apply wp_ret.
        split; [unfold gmpos; replace (3 * i + (j + 1) =? 0) with false by lia; replace (3 * i + (j + 1)) with (3 * i + j + 1) by lia; exact Hg3|].
        split; [apply HA|auto]. }
      intros ((g2, t2), r2) (Hg2 & Lt2 & (Hr2 & Gr2)).
      apply wp_bind, wp_m0_round; auto.
      assert (arr U16 256 (map rnd0 r2)) as (Lm & Tm).
      { split; [rewrite len_map; apply Hr2|]. apply Forall_map, Forall_forall. intros x _. unfold rnd0. cbn [tmin tmax]. dlia. }
      replace (i * (256 * 10) / 8) with (i * 320) by dlia.
      apply wp_bind, wp_at_chunk with (g := G) (out := ct); auto; try lia.
      { apply wp_POLp2BS; auto; [rewrite len_zskip; lia|lia|]. f_equal. unfold G.
        unfold ct_vec, round_vec. cbn [saber p_l]. rewrite getr_map by (rewrite len_mat_vec; lia). rewrite getr_mat_vec by auto.
        apply pack_rnd0; [apply Hr2|apply len_inner|]. intros k Hk'. apply (Gr2 k Hk'). }
      apply wp_ret. split; [replace (3 * (i + 1)) with (3 * i + 3) by lia; exact Hg2|]. split; auto.
    - intros (((g1, a1), r1), c1) (_ & _ & _ & ->). apply wp_ret. unfold G. rewrite concat_ztab_map by auto. exact HQ.
  Qed.

  Lemma wp_VM : forall junk pk skpv res s (Q : list Z -> Prop), 960 <= len pk -> typed U8 pk -> len skpv = 3 ->
    (forall i, 0 <= i < 3 -> arr U16 256 (getr skpv i) /\ peq 1024 (getr skpv i) (getr s i)) -> res = zeros 256 ->
    Q (ztab 256 (fun k => get (inner 3 (unpack_vec 10 3 pk) s) k mod 1024)) ->
    wp (VectorMul mul junk pk skpv res) Q.
  Proof.
    intros junk pk skpv res s Q Lpk Tpk Lk Hk -> HQ. unfold VectorMul.
    apply wp_bind, wp_for with (I := fun j x => let '(p, r) := x in len p = 256 /\ acc 1024 j (unpack_vec 10 3 pk) s r).
    - lia.
    - split; [apply uninit_len; lia|]. apply acc0; [apply zeros_arr|]. intros. apply get_zeros.
    - intros j (p, r) Hj (Lp & Hr). apply wp_bind. unfold BS2POLp_at. apply wp_bind, wp_ptr; [dlia|].
      replace (j * (256 * 10) / 8) with (320 * j) by dlia.
      apply wp_BS2POLp; [rewrite len_zskip; lia|lia|now apply Forall_zskip|]. rewrite (zskip_all 256 p) by lia. rewrite app_nil_r.
      apply wp_bind, wp_row with (d := []); [lia|]. fold (getr skpv j). destruct (Hk j Hj) as (Hkj & Ekj).
      apply wp_bind, (wp_acc 1024 64 j (unpack_vec 10 3 pk) s); try lia; auto.
      + split; [apply len_unpack|apply unpack_typed; lia].
      + unfold unpack_vec, getr. rewrite znth_ztab by auto. change (32 * 10) with 320. apply peq_refl.
      + intros r' Hr'. apply wp_ret. split; [apply len_unpack|auto].
    - intros (p, r) (_ & ((Lr & Tr) & Gr)).
      apply wp_map1 with (f := fun k => get (inner 3 (unpack_vec 10 3 pk) s) k mod 1024); auto; [lia|].
      intros k a Hk' La Ta Ga. pose proof (typed_get U16 r k Tr ltac:(lia)) as R. cbn [tmin tmax] in R.
      split; [reflexivity|]. split; [cbn [lok tmin tmax]; repeat split; auto; lia|].
      cbn [val val_bin ty promote common]. unfold cv, uw. cbn [subr signed]. rewrite Ga, mask1023.
      rewrite wrap_id by (cbn [tmin tmax]; dlia). apply eqm_mod_eq; [lia|]. apply (Gr k Hk').
  Qed.

End Mul.

  Lemma wp_message : forall v m (Q : list Z -> Prop), arr U16 256 v -> Forall (fun x => x < 1024) v -> 32 <= len m -> typed U8 m ->
    Q (ztab 256 (fun k => get v k + 512 * get (unpack 1 m) k)) ->
    wp (for_ 0 32 (fun j vprime => for_ 0 8 (fun i vprime =>
      message_bit <- asg U16 ((Idx U8 m j .>> Bnd U32 0 7 i) .& #0x01)%C ;;
      message_bit <- asg U16 (message_bit .<< #9)%C ;;
      st U16 vprime (j * 8 + i) (Idx U16 vprime (j * 8 + i) + message_bit)%C) vprime) v)%M Q.
  Proof.
    intros v m Q (Lv & Tv) Bv Lm Tm HQ.
    set (f := fun k => get v k + 512 * get (unpack 1 m) k) in *.
    assert (forall k, 0 <= k < 256 -> get (unpack 1 m) k = Z.b2z (Z.testbit (get m (k / 8)) (k mod 8))) as Eb.
    { intros k Hk. unfold unpack. rewrite get_regroup by lia. symmetry. apply bits_val_eq; [lia|destruct (Z.testbit _ _); cbn; lia|].
      intros t Ht. assert (t = 0) by lia. subst t. rewrite Z.add_0_r, Z.mul_1_l. unfold fbit. now destruct (Z.testbit _ (k mod 8)). }
    assert (forall k, 0 <= k < 256 -> 0 <= get v k <= 1023) as Rv.
    { intros k Hk. pose proof (typed_get U16 v k Tv ltac:(lia)) as R. cbn [tmin tmax] in R.
      pose proof (Forall_znth (fun x => x < 1024) 0 v Bv k ltac:(lia)) as B. fold (get v k) in B. cbn beta in B. lia. }
    assert (forall k, 0 <= k < 256 -> 0 <= f k <= 1535) as Rf.
    { intros k Hk. unfold f. rewrite Eb by auto. specialize (Rv k Hk). destruct (Z.testbit _ _); cbn [Z.b2z]; lia. }
    set (I n a := len a = 256 /\ forall k, 0 <= k < 256 -> get a k = if k <? n then f k else get v k).
    assert (forall n a, I n a -> typed U16 a) as TI.
    { intros n a (La & Ga). apply Forall_znth_iff with (d := 0). rewrite La. intros k Hk. fold (get a k). rewrite Ga by auto.
      specialize (Rv k Hk). specialize (Rf k Hk). cbn [tmin tmax]. destruct (k <? n); lia. }
    apply wp_for with (I := fun j a => I (8 * j) a).
    - lia.
    - split; auto. intros k Hk. destruct (k <? 8 * 0) eqn:E; auto; lia.
    - intros j a Hj HI. apply wp_for with (I := fun i a => I (8 * j + i) a).
      + lia.
      + now rewrite Z.add_0_r.
      + intros i b Hi HIb. pose proof (TI _ _ HIb) as Tb. destruct HIb as (Lb & Gb). pose proof (typed_get U8 m j Tm ltac:(lia)) as Rm. cbn [tmin tmax] in Rm.
        set (bt := Z.b2z (Z.testbit (get m j) i)). assert (0 <= bt <= 1) as Hbt by (unfold bt; destruct (Z.testbit _ _); cbn; lia).
        apply wp_bind, wp_asgv with (v := bt); [reflexivity|cbn [lok tmin tmax]; repeat split; auto; lia| |cbn [tmin tmax]; lia|].
        { cbn [val val_bin ty promote common]. unfold cv, uw. cbn [subr signed]. change 1 with (Z.ones 1).
          rewrite Z.land_ones, Z.shiftr_div_pow2 by lia. unfold bt. now rewrite Z.testbit_spec' by lia. }
        apply wp_bind, wp_asgv with (v := 512 * bt); [reflexivity|cbn [lok tmin tmax]; repeat split; auto; lia| |cbn [tmin tmax]; lia|].
        { cbn [val val_bin ty promote common]. unfold cv, uw. cbn [subr signed]. lia. }
        pose proof (Gb (j * 8 + i) ltac:(lia)) as Gj. replace (j * 8 + i <? 8 * j + i) with false in Gj by lia.
        apply wp_st; [reflexivity|cbn [lok tmin tmax]; repeat split; auto; lia|lia|].
        cbn [val val_bin ty promote common]. unfold cv, uw. cbn [subr signed]. rewrite Gj.
        assert (get v (j * 8 + i) + 512 * bt = f (j * 8 + i)) as Ef.
        { unfold f. rewrite Eb by lia. replace ((j * 8 + i) / 8) with j by dlia. replace ((j * 8 + i) mod 8) with i by dlia. reflexivity. }
        rewrite Ef. rewrite wrap_id by (specialize (Rf (j * 8 + i)); cbn [tmin tmax]; lia).
        split; [now rewrite len_upd|]. intros k Hk. unfold get at 1. rewrite znth_upd by lia. destruct (k =? j * 8 + i) eqn:E.
        * replace (k <? 8 * j + (i + 1)) with true by lia. f_equal. lia.
        * fold (get b k). rewrite Gb by auto. destruct (k <? 8 * j + i) eqn:E1, (k <? 8 * j + (i + 1)) eqn:E2; auto; lia.
      + intros b HIb. now replace (8 * (j + 1)) with (8 * j + 8) by lia.
    - intros a (La & Ga). replace a with (ztab 256 f); auto. symmetry. apply ztab_eq with 0; auto. intros k Hk. fold (get a k).
      rewrite Ga by auto. now replace (k <? 8 * 32) with true by lia.
  Qed.

  (** The secret as stored. *)
  Lemma skpv_ok : forall seed, let s := expand_s SHAKE128 saber seed in let t := map (map mod13) s in
    vec U16 3 t /\ forall i, 0 <= i < 3 -> arr U16 256 (getr t i) /\ peq 8192 (getr t i) (getr s i).
  Proof.
    intros seed s t. assert (vec_mem 3 s) as (Ls & Fs) by exact (expand_s_mem SHAKE128 m0_cfg seed).
    assert (forall i, 0 <= i < 3 -> arr U16 256 (getr t i) /\ peq 8192 (getr t i) (getr s i)) as Ht.
    { intros i Hi. unfold t. rewrite getr_map by lia. assert (len (getr s i) = 256) as L by (apply (Forall_znth (fun r => len r = 256) [] s Fs i); lia).
      split; [split; [now rewrite len_map|]|].
      - apply Forall_map, Forall_forall. intros x _. unfold mod13. cbn [tmin tmax]. dlia.
      - intros k Hk. rewrite get_map by lia. unfold mod13. apply eqm_mod. lia. }
    split; auto. assert (len t = 3) as Lt by (unfold t; now rewrite len_map). split; [exact Lt|].
    apply Forall_znth_iff with (d := []). rewrite Lt. intros i Hi. destruct (Ht i Hi) as ((L & T) & _). split; auto.
  Qed.
