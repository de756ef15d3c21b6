(** The Cortex-M4 code refines the specification, for any multiplier meeting its contract. *)
From Coq Require Import ZArith List Bool Lia.
From Verif Require Import Lib.Arr Lib.CInt Lib.CMon Lib.Wire Spec.Bits Spec.Ring Spec.Sampling Spec.Saber Spec.M4Spec Model.Params Model.Pack
  Model.Cbd Model.PolyMul Model.Poly Model.Verify Model.Indcpa Model.M4 Proof.PackP Proof.PackThm Proof.Conv Proof.KaraP Proof.CbdP Proof.VerifyP Proof.PolyP
  Proof.IndcpaP Proof.KemP Proof.M4PackP.
Import ListNotations.
Local Open Scope Z_scope.

(** ** Products *)

Lemma zsum_rev : forall n f, 0 <= n -> zsum n f = zsum n (fun i => f (n - 1 - i)).
Proof.
  intros n f Hn. revert f. pattern n. apply natlike_ind; auto. clear n Hn. intros n Hn IH f. unfold Z.succ.
  rewrite zsum_S by lia. rewrite IH. replace (n + 1) with (1 + n) by lia. rewrite zsum_app by lia.
  change (zsum 1 ?g) with (0 + g 0). cbv beta. rewrite Z.add_0_l, Z.add_comm. f_equal; [f_equal; lia|].
  apply zsum_ext. intros i Hi. f_equal. lia.
Qed.

Lemma mul_coef_comm : forall a b k, 0 <= k < 256 -> mul_coef a b k = mul_coef b a k.
Proof.
  intros a b k Hk. unfold mul_coef.
  assert (forall f, zsum 256 f = zsum (k + 1) f + zsum (255 - k) (fun i => f (k + 1 + i))) as S.
  { intros f. rewrite <- zsum_app by lia. f_equal. lia. }
  rewrite !S. clear S. f_equal; rewrite zsum_rev by lia; apply zsum_ext; intros i Hi.
  - destruct (_ <=? k) eqn:E; [|lia]. destruct (i <=? k) eqn:E'; [|lia].
    replace (k - (k + 1 - 1 - i)) with i by lia. replace (k + 1 - 1 - i) with (k - i) by lia. lia.
  - destruct (_ <=? k) eqn:E; [lia|]. destruct (k + 1 + i <=? k) eqn:E'; [lia|].
    replace (256 + k - (k + 1 + (255 - k - 1 - i))) with (k + 1 + i) by lia.
    replace (k + 1 + (255 - k - 1 - i)) with (256 + k - (k + 1 + i)) by lia. lia.
Qed.

Lemma congr_peq : forall w r u, 0 <= w -> congr w r u -> peq (2 ^ w) r u.
Proof.
  intros w r u Hw C k Hk. rewrite <- (C k Hk). apply eqm_sym, eqm_mod. now apply Z.pow_pos_nonneg.
Qed.
Lemma peq_div : forall m n a b, peq (m * n) a b -> peq m a b.
Proof. intros m n a b E k Hk. apply eqm_divide with n. auto. Qed.

(** A row holding the first [i] terms of a sum of products, uninitialised when [i] is 0. *)
Definition part (m i : Z) (P : Z -> Z) (r : list Z) : Prop :=
  len r = 256 /\ (0 < i -> typed U16 r /\ forall k, 0 <= k < 256 -> eqm m (get r k) (P k)).

Definition psum (i : Z) (u v : list (list Z)) (k : Z) : Z := get (inner (Z.to_nat i) u v) k.

Section Mul.
  Variable mul mul_acc : mem -> list Z -> list Z -> list Z -> M (list Z * list Z).
  Hypothesis Hmul : mul_ok mul.
  Hypothesis Hacc : mul_acc_ok mul_acc.

  Lemma wp_mul_step : forall m d i u v junk a b r (Q : list Z * list Z -> Prop), m * d = 8192 -> 0 < m -> 0 <= i ->
    part m i (psum i u v) r -> arr U16 256 a -> arr U16 256 b -> peq m a (getr v i) -> peq m b (getr u i) ->
    (forall b' r', arr U16 256 b' -> part m (i + 1) (psum (i + 1) u v) r' -> Q (b', r')) ->
    wp (ite (i =? 0) (mul junk a b r) (mul_acc junk a b r)) Q.
  Proof.
    intros m d i u v junk a b r Q Hd Hm Hi (Lr & Pr) Ha Hb Ea Eb HQ. apply wp_ite.
    assert (forall x k, 0 <= k < 256 -> x mod 8192 = mul_coef a b k mod 8192 -> eqm m x (mul_coef (getr u i) (getr v i) k)) as E.
    { intros x k Hk Ex. eapply eqm_trans; [apply eqm_divide with d; rewrite Hd; apply eqm_mod_eq; [lia|apply Ex]|].
      rewrite mul_coef_comm by auto. now apply mul_coef_eqm. }
    destruct (i =? 0) eqn:Ei.
    - eapply wp_mono; [apply Hmul; auto|]. intros (b', r') (Hb' & (Lr' & Tr') & G). apply HQ; auto.
      split; auto. intros _. split; auto. intros k Hk. assert (i = 0) by lia. subst i. unfold psum.
      rewrite get_inner_S by lia. rewrite get_inner_0, Z.add_0_l. apply E; auto.
    - destruct (Pr ltac:(lia)) as (Tr & Gr).
      eapply wp_mono; [apply Hacc; auto; split; auto|]. intros (b', r') (Hb' & (Lr' & Tr') & G). apply HQ; auto.
      split; auto. intros _. split; auto. intros k Hk. unfold psum. rewrite get_inner_S by lia.
      eapply eqm_trans; [apply eqm_divide with d; rewrite Hd; apply eqm_mod_eq; [lia|apply G; auto]|].
      apply eqm_add; [apply Gr; auto|]. apply E; auto.
  Qed.
End Mul.

Lemma part0 : forall m P r, len r = 256 -> part m 0 P r.
Proof. intros. split; auto. lia. Qed.
Lemma part_arr : forall m i P r, 0 < i -> part m i P r -> arr U16 256 r /\ forall k, 0 <= k < 256 -> eqm m (get r k) (P k).
Proof. intros m i P r Hi (L & H). destruct (H Hi). split; [split; auto|auto]. Qed.

(** ** Streams *)

Lemma zskip_zfirst_mid : forall (l : list Z) p n, 0 <= p -> 0 <= n -> p + n <= len l ->
  zskip p (zfirst (p + n) l) = zfirst n (zskip p l).
Proof.
  intros l p n Hp Hn L. assert (len (zfirst (p + n) l) = p + n) by (apply len_zfirst; lia).
  apply znth_ext with 0; rewrite len_zskip, H by lia.
  - rewrite len_zfirst; rewrite ?len_zskip; lia.
  - intros i Hi. rewrite znth_zfirst, !znth_zskip by lia. now rewrite znth_zfirst by lia.
Qed.

Lemma cbd_first : forall mu l, 0 <= mu -> cbd_poly mu (zfirst (32 * mu) l) = cbd_poly mu l.
Proof.
  intros mu l Hm. unfold cbd_poly. apply ztab_ext. intros i Hi. unfold cbd_coef, hw.
  assert (0 <= mu / 2 /\ mu / 2 + mu / 2 <= mu) as (H1 & H2).
  { split; [apply Z.div_pos; lia|]. pose proof (Z.mul_div_le mu 2). lia. }
  f_equal; apply zsum_ext; intros t Ht; unfold fbit, get; rewrite znth_zfirst; auto; apply Z.div_lt_upper_bound; nia.
Qed.

Section Poly.
  Variable l : level.
  Notation c := (Cfg l false false).
  Variable cs : bool.
  Variable X : Z -> list Z -> list Z.
  Hypothesis HX : bytes_fun X.
  Hypothesis Hpre : forall n m x, 0 <= n <= m -> arr U8 32 x -> X n x = zfirst n (X m x).
  Variable mul mul_acc : mem -> list Z -> list Z -> list Z -> M (list Z * list Z).
  Hypothesis Hmul : mul_ok mul.
  Hypothesis Hacc : mul_acc_ok mul_acc.

  Lemma stream_mid : forall p n N seed, arr U8 32 seed -> 0 <= p -> 0 <= n -> p + n <= N ->
    arr U8 n (zskip p (X (p + n) seed)) /\ zskip p (X (p + n) seed) = zfirst n (zskip p (X N seed)).
  Proof.
    intros p n N seed Hs Hp Hn HN. destruct (HX N seed ltac:(lia) Hs) as (L & T).
    assert (zskip p (X (p + n) seed) = zfirst n (zskip p (X N seed))) as E.
    { rewrite (Hpre (p + n) N) by (auto; lia). apply zskip_zfirst_mid; lia. }
    split; auto. rewrite E. split; [apply len_zfirst; rewrite len_zskip; lia|]. now apply Forall_zfirst, Forall_zskip.
  Qed.

  Lemma wp_inc_squeeze : forall out n N ctx (Q : list Z * shakectx -> Prop), 
    arr U8 32 (fst ctx) -> 0 <= snd ctx -> 0 <= n -> snd ctx + n <= N -> len out = n ->
    Q (zfirst n (zskip (snd ctx) (X N (fst ctx))), (fst ctx, snd ctx + n)) -> wp (inc_squeeze X out n ctx) Q.
  Proof.
    intros out n N (seed, p) Q Hs Hp Hn HN Lo HQ. cbn [fst snd] in *. unfold inc_squeeze. cbn [fst snd].
    destruct (n <=? len out) eqn:E; [|lia]. apply wp_ret. rewrite (zskip_all n out) by lia. rewrite app_nil_r.
    destruct (stream_mid p n N seed) as (_ & ->); auto.
  Qed.

  Lemma wp_squeeze_poly : forall junk poly N seed p (Q : list Z * shakectx -> Prop),
    arr U8 32 seed -> 0 <= p -> p + 416 <= N -> len poly = 256 ->
    (forall r, arr U16 256 r -> peq 8192 r (unpack 13 (zskip p (X N seed))) -> Q (r, (seed, p + 416))) ->
    wp (shake128_squeeze_poly l X junk poly (seed, p)) Q.
  Proof.
    intros junk poly N seed p Q Hs Hp HN Lp HQ. unfold shake128_squeeze_poly. change (SABER_POLYBYTES c) with 416.
    destruct (stream_mid p 416 N seed) as ((L & T) & E); auto; try lia.
    apply wp_bind, wp_inc_squeeze with (N := N); cbn [fst snd]; auto; try lia.
    rewrite <- E. apply wp_bind, wp_m4_BS2POLq; auto; [lia|]. intros r Hr Cr. apply wp_ret. apply HQ; auto.
    rewrite E in Cr. change 416 with (32 * 13) in Cr at 1. rewrite unpack_first in Cr by lia.
    change 8192 with (2 ^ 13). apply congr_peq; auto; lia.
  Qed.

  Lemma wp_squeeze_secret : forall junk s N seed p (Q : list Z * shakectx -> Prop), let w := 32 * SABER_MU c in
    arr U8 32 seed -> 0 <= p -> p + w <= N -> len s = 256 ->
    Q (map (fun x => x mod 65536) (cbd_poly (SABER_MU c) (zskip p (X N seed))), (seed, p + w)) ->
    wp (shake128_squeeze_secret l X junk s (seed, p)) Q.
  Proof.
    intros junk s N seed p Q w Hs Hp HN Ls HQ. unfold shake128_squeeze_secret.
    assert (SABER_POLYCOINBYTES c = w) as -> by (unfold w; destruct l; reflexivity).
    assert (0 <= w /\ 0 <= SABER_MU c) as (Hw & Hmu) by (unfold w; destruct l; cbn; lia).
    destruct (stream_mid p w N seed) as ((L & T) & E); auto; try lia.
    apply wp_bind, wp_inc_squeeze with (N := N); cbn [fst snd]; auto; try lia; [now apply uninit_len|].
    rewrite <- E. apply wp_bind, wp_m4_cbd; auto; [fold w; lia|]. apply wp_ret. rewrite E. unfold w at 1.
    rewrite cbd_first by auto. exact HQ.
  Qed.

  Notation n := (SABER_L c).
  Lemma m4_L : 2 <= n <= 4. Proof. apply cfg_L. Qed.
  Lemma m4_mu : 6 <= SABER_MU c <= 10. Proof. destruct l; cbn; lia. Qed.

  Variable prf : mem -> list Z -> Z -> list Z -> Z -> M (list Z).
  Hypothesis Hprf : prf_spec prf X.

  Lemma getr_expand_s : forall seed i, 0 <= i < n ->
    getr (expand_s X (par c) seed) i = cbd_poly (SABER_MU c) (zskip (32 * SABER_MU c * i) (X (n * (32 * SABER_MU c)) seed)).
  Proof.
    intros seed i Hi. unfold expand_s. rewrite par_l, par_mu, par_uniform. cbn [usaber]. unfold gen_vec, getr.
    now rewrite znth_ztab.
  Qed.
  Lemma getr_expand_A : forall seed i j, 0 <= i < n -> 0 <= j < n ->
    getr (znth [] (expand_A X (par c) seed) i) j = unpack 13 (zskip (416 * (n * i + j)) (X (n * (n * 416)) seed)).
  Proof.
    intros seed i j Hi Hj. unfold expand_A. rewrite par_l, par_eq. change (SABER_EQ c) with 13. unfold gen_mat, getr.
    rewrite znth_ztab by auto. unfold unpack_vec. rewrite znth_ztab by auto.
    change (32 * 13) with 416. rewrite zskip_zskip by nia. f_equal. f_equal. ring.
  Qed.

  (** Encoding of a secret polynomial. *)
  Definition sw : Z := if cs then 4 else 13.
  Lemma sw_bytes : SABER_POLYSECRETBYTES l cs = 32 * sw.
  Proof. unfold SABER_POLYSECRETBYTES, sw. destruct cs; reflexivity. Qed.
  Lemma sw_range : 4 <= sw <= 13. Proof. unfold sw. destruct cs; lia. Qed.
  Lemma wp_POLmu2BS : forall bytes data (Q : list Z -> Prop),
    32 * sw <= len bytes -> arr U16 256 data ->
    Q (pack sw data ++ zskip (32 * sw) bytes) -> wp (m4_POLmu2BS cs bytes data) Q.
  Proof.
    intros bytes data Q Lb (Ld & Td) HQ. unfold m4_POLmu2BS, sw in *. destruct cs.
    - apply wp_m4_POLmu2BS_4; auto; lia.
    - apply wp_m4_POLq2BS; auto; lia.
  Qed.

  Lemma arr_mod16 : forall v, len v = 256 -> arr U16 256 (map (fun x => x mod 65536) v).
  Proof. intros v L. split; [now rewrite len_map|]. apply Forall_map, Forall_forall. intros x _. apply (wrap_range U16). Qed.
  Lemma pack_mod16 : forall w v, 0 < w <= 13 -> len v = 256 -> pack w (map (fun x => x mod 65536) v) = pack w v.
  Proof.
    intros w v Hw L. apply pack_eqm; auto; [lia|now rewrite len_map|].
    apply peq_div with (2 ^ (13 - w)). rewrite <- Z.pow_add_r by lia. replace (w + (13 - w)) with 13 by lia. apply peq_mod16.
  Qed.

  Lemma wp_round : forall b (Q : list Z -> Prop), arr U16 256 b -> Q (map (rnd c) b) -> wp (m4_round l b) Q.
  Proof.
    intros b Q (Lb & Tb) HQ. unfold m4_round. apply wp_map1 with (f := fun j => rnd c (get b j)); auto; [lia| |].
    - intros j a Hj La Ta Ga. rewrite <- Ga. apply round_expr; auto. lia.
    - replace (ztab 256 (fun j => rnd c (get b j))) with (map (rnd c) b); auto.
      rewrite <- (map_ztab (rnd c) 256 (get b)). f_equal. apply ztab_eq with 0; auto.
  Qed.

  Lemma wp_m4_GenSecret : forall junk s seed (Q : list (list Z) * list Z -> Prop),
    vec_mem n s -> 32 <= len seed -> typed U8 seed ->
    Q (mod16 (expand_s X (par c) (zfirst 32 seed)), seed) -> wp (m4_GenSecret l cs prf junk s seed false) Q.
  Proof.
    intros junk s seed Q (Ls & Fs) Hl Ht HQ. unfold m4_GenSecret. pose proof m4_L. pose proof m4_mu.
    assert (SABER_POLYCOINBYTES c = 32 * SABER_MU c) as -> by (destruct l; reflexivity).
    change SABER_NOISE_SEEDBYTES with 32. set (mu := SABER_MU c) in *. 
    assert (arr U8 32 (zfirst 32 seed)) as Hz by (split; [apply len_zfirst; lia|now apply Forall_zfirst]).
    destruct (HX (n * (32 * mu)) (zfirst 32 seed) ltac:(nia) Hz) as (LX & TX).
    apply wp_bind, Hprf; auto; [rewrite uninit_len; nia|nia|].
    rewrite (zskip_all _ (uninit _ _ _)) by (rewrite uninit_len; nia). rewrite app_nil_r.
    set (st := X (n * (32 * mu)) (zfirst 32 seed)) in *.
    apply wp_bind, (wp_rows _ []) with (g := fun i => map (fun x => x mod 65536) (cbd_poly mu (zskip (32 * mu * i) st))); [lia| |].
    - intros i a Hi La Ea. apply wp_bind, wp_row with (d := []); [lia|].
      apply wp_bind, wp_ptr; [nia|].
      apply wp_bind, wp_m4_cbd; fold mu.
      + rewrite Ea. apply Forall_znth with (P := fun r => len r = 256); auto. lia.
      + rewrite len_zskip; nia.
      + now apply Forall_zskip.
      + apply wp_setrow; [lia|]. do 4 f_equal. ring.
    - rewrite zskip_all by lia. rewrite app_nil_r. apply wp_ite. apply wp_ret.
      match type of HQ with Q (?x, _) => match goal with |- Q (?y, _) => replace y with x; auto end end.
      unfold expand_s. rewrite par_l, par_mu, par_uniform. cbn [usaber]. fold mu st. unfold mod16, gen_vec. now rewrite map_ztab.
  Qed.

  Lemma chunk_step : forall i sz (g : Z -> list Z) out cur, 0 <= i -> 0 <= sz -> (forall j, 0 <= j <= i -> len (g j) = sz) ->
    (i + 1) * sz <= len out -> cur = concat (ztab i g) ++ zskip (i * sz) out ->
    len cur = len out /\ zskip (i * sz) cur = zskip (i * sz) out /\
    zfirst (i * sz) cur ++ g i ++ zskip sz (zskip (i * sz) out) = concat (ztab (i + 1) g) ++ zskip ((i + 1) * sz) out.
  Proof.
    intros i sz g out cur Hi Hs Hg Ho ->.
    assert (len (concat (ztab i g)) = i * sz) as L by (apply len_concat_ztab; [lia|intros; apply Hg; lia]).
    rewrite len_app, len_zskip, zskip_app_at, zfirst_app_at by (auto; nia). split; [lia|]. split; auto.
    rewrite zskip_zskip by nia. rewrite ztab_split by lia. rewrite concat_app, <- app_assoc. f_equal.
    change (ztab 1 ?f) with [f 0]. cbn [concat]. rewrite app_nil_r, Z.add_0_r. do 2 f_equal. lia.
  Qed.
  Lemma wp_at_chunk : forall i sz (g : Z -> list Z) out cur f (Q : list Z -> Prop),
    0 <= i -> 0 <= sz -> (forall j, 0 <= j <= i -> len (g j) = sz) ->
    (i + 1) * sz <= len out -> cur = concat (ztab i g) ++ zskip (i * sz) out ->
    wp (f (zskip (i * sz) out)) (fun r => r = g i ++ zskip sz (zskip (i * sz) out)) ->
    Q (concat (ztab (i + 1) g) ++ zskip ((i + 1) * sz) out) -> wp (at_ cur (i * sz) f) Q.
  Proof.
    intros i sz g out cur f Q Hi Hs Hg Ho Hc Hf HQ. destruct (chunk_step i sz g out cur Hi Hs Hg Ho Hc) as (L & Z1 & E).
    apply wp_at; [nia|]. rewrite Z1. eapply wp_mono; [apply Hf|]. cbn beta. intros r ->. now rewrite E.
  Qed.

  Lemma wp_KeyPair : forall junk pk sk (Q : list Z * list Z -> Prop),
    n * 320 + 32 <= len pk -> n * (32 * sw) <= len sk ->
    arr U8 32 (zfirst 32 (zskip (n * 320) pk)) -> arr U8 32 (zfirst 32 sk) ->
    (let A := expand_A X (par c) (zfirst 32 (zskip (n * 320) pk)) in
     let s := expand_s X (par c) (zfirst 32 sk) in
     Q (pack_vec 10 (pub_vec (par c) A s) ++ zskip (n * 320) pk, pack_vec sw s ++ zskip (n * (32 * sw)) sk)) ->
    wp (MatrixVectorMulKeyPair l cs X mul mul_acc junk pk sk) Q.
  Proof.
    intros junk pk sk Q Lpk Lsk Hsa Hss HQ. unfold MatrixVectorMulKeyPair. pose proof m4_L as HL. pose proof m4_mu as Hmu. pose proof sw_range as Hsw.
    unfold SABER_POLYVECCOMPRESSEDBYTES. change SABER_POLYCOMPRESSEDBYTES with 320. rewrite sw_bytes.
    set (mu := SABER_MU c) in *.
    apply wp_bind, wp_ptr; [lia|]. unfold shake128_absorb_seed. change SABER_SEEDBYTES with 32.
    set (seedA := zfirst 32 (zskip (n * 320) pk)) in *. set (seeds := zfirst 32 sk) in *.
    set (A := expand_A X (par c) seedA) in *. set (s := expand_s X (par c) seeds) in *. cbv zeta in HQ.
    destruct (32 <=? len (zskip (n * 320) pk)) eqn:E1; [|rewrite len_zskip in E1; lia]. apply wp_bind, wp_ret. fold seedA.
    destruct (32 <=? len sk) eqn:E2; [|nia]. apply wp_bind, wp_ret. fold seeds.
    set (At := transpose n A).
    assert (vec_mem n s) as Vs by apply expand_s_mem.
    assert (forall i, 0 <= i < n -> len (getr s i) = 256) as Ls by (intros; now apply vec_mem_getr with (n := n)).
    set (g := fun i => pack sw (getr s i)).
    assert (forall j, len (g j) = 32 * sw) as Lg by (intros; apply len_pack; lia).
    apply wp_bind, wp_for with (I := fun i x => let '(ctxA, ctxs, sk', A', s', b) := x in
      ctxA = (seedA, 416 * (n * i)) /\ ctxs = (seeds, 32 * mu * i) /\
      sk' = concat (ztab i g) ++ zskip (i * (32 * sw)) sk /\ len A' = 256 /\ len s' = 256 /\ len b = n /\
      forall j, 0 <= j < n -> part 8192 i (psum i (znth [] At j) s) (getr b j)).
    - lia.
    - do 2 (split; [f_equal; lia|]). split; [reflexivity|]. do 2 (split; [now apply uninit_len|]).
      pose proof (vec_mem_uninit2 junk 2 n ltac:(lia)) as V. split; [apply V|].
      intros j Hj. apply part0. now apply vec_mem_getr with (n := n).
    - intros i (((((ctxA, ctxs), sk'), A'), s'), b) Hi (-> & -> & Esk & LA & Ls' & Lb & Pb).
      apply wp_bind, wp_squeeze_secret with (N := n * (32 * mu)); fold mu; auto; [nia|nia|].
      pose proof (getr_expand_s seeds i Hi) as Es. fold mu s in Es. rewrite <- Es.
      set (si := map (fun x => x mod 65536) (getr s i)).
      assert (arr U16 256 si) as Hsi by (apply arr_mod16, Ls; auto).
      apply wp_bind, wp_at_chunk with (g := g) (out := sk); auto; try lia; [nia| |].
      { apply wp_POLmu2BS; auto; [rewrite len_zskip; nia|]. f_equal. unfold g, si. apply pack_mod16; [lia|]. apply Ls; auto. }
      apply wp_bind, wp_for with (I := fun j x => let '(ctxA, A', b) := x in
        ctxA = (seedA, 416 * (n * i + j)) /\ len A' = 256 /\ len b = n /\
        forall j', 0 <= j' < n -> let i' := if j' <? j then i + 1 else i in part 8192 i' (psum i' (znth [] At j') s) (getr b j')).
      + lia.
      + split; [f_equal; lia|]. do 2 (split; auto). intros j' Hj'. destruct (j' <? 0) eqn:E; [lia|]. cbv zeta. auto.
      + clear b A' Pb Lb LA. intros j ((ctxA, A'), b) Hj (-> & LA & Lb & Pb).
        apply wp_bind, wp_squeeze_poly with (N := n * (n * 416)); auto; [nia|nia|].
        intros a Ha Ea. pose proof (getr_expand_A seedA i j Hi Hj) as EA. fold A in EA. rewrite <- EA in Ea.
        apply wp_bind, wp_row with (d := []); [lia|]. fold (getr b j).
        apply wp_bind, (wp_mul_step mul mul_acc Hmul Hacc 8192 1) with (u := znth [] At j) (v := s); auto; try lia.
        { pose proof (Pb j Hj) as P. rewrite Z.ltb_irrefl in P. exact P. }
        { apply peq_mod16. }
        { unfold At. rewrite getr_transpose; auto. }
        intros b' r' (Lb' & _) Pr'. apply wp_bind, wp_setrow; [lia|]. apply wp_ret.
        split; [f_equal; lia|]. split; auto. split; [now rewrite len_upd|].
        intros j' Hj'. unfold getr. rewrite znth_upd by lia. destruct (j' =? j) eqn:E.
        * assert (j' = j) by lia. subst j'. destruct (j <? j + 1) eqn:E'; [|lia]. exact Pr'.
        * fold (getr b j'). pose proof (Pb j' Hj') as P. destruct (j' <? j) eqn:E3, (j' <? j + 1) eqn:E4; try lia; exact P.
      + intros ((ctxA, A''), b') (-> & LA' & Lb' & Pb'). apply wp_ret.
        split; [f_equal; lia|]. split; [f_equal; lia|]. split; [reflexivity|]. split; auto. split; [apply Hsi|]. split; auto.
        intros j Hj. pose proof (Pb' j Hj) as P. destruct (j <? n) eqn:E; [|lia]. exact P.
    - intros (((((ctxA, ctxs), sk'), A'), s'), b) (_ & _ & Esk & _ & _ & Lb & Pb).
      assert (concat (ztab n g) = pack_vec sw s) as Eg by (apply concat_ztab_map, Vs). rewrite Eg in Esk.
      assert (vec U16 n b) as Vb.
      { split; auto. apply Forall_znth_iff with (d := []). intros j Hj. destruct (part_arr 8192 n _ _ ltac:(lia) (Pb j ltac:(lia))) as (H & _). apply H. }
      set (h := fun j => pack 10 (map (rnd c) (getr b j))).
      assert (forall j, len (h j) = 320) as Lh by (intros; apply len_pack; lia).
      apply wp_bind, wp_for with (I := fun i x => let '(pk', b') := x in
        pk' = concat (ztab i h) ++ zskip (i * 320) pk /\ len b' = n /\ forall j, i <= j < n -> getr b' j = getr b j).
      + lia.
      + split; auto.
      + intros i (pk', b') Hi (Epk & Lb' & Gb'). apply wp_bind, wp_row with (d := []); [lia|]. fold (getr b' i). rewrite Gb' by lia.
        destruct (vec_getr _ _ _ _ Vb Hi) as (Lr & Tr).
        apply wp_bind, wp_round; [split; auto|].
        apply wp_bind, wp_setrow; [lia|].
        apply wp_bind, wp_at_chunk with (g := h) (out := pk); auto; try lia.
        { apply wp_m4_POLp2BS; [rewrite len_zskip; lia|rewrite len_map; lia| |reflexivity].
          apply Forall_map, Forall_forall. intros x _. apply (wrap_range U16). }
        apply wp_ret. split; auto. split; [now rewrite len_upd|]. intros j Hj. unfold getr at 1. rewrite znth_upd by lia.
        destruct (j =? i) eqn:E; [lia|]. apply Gb'. lia.
      + intros (pk', b') (-> & _). apply wp_ret. rewrite Esk.
        assert (concat (ztab n h) = pack_vec 10 (pub_vec (par c) A s)) as ->; [|exact HQ].
        unfold pub_vec. rewrite par_l. fold At. rewrite <- (pack_round c b (mat_vec n At s)); auto.
        * rewrite <- (concat_ztab_map 10 n) by (rewrite len_map; auto). f_equal. apply ztab_ext. intros i Hi. unfold h. f_equal.
          unfold getr. now rewrite znth_map with (d := []) by lia.
        * apply vec_mem_mat_vec. lia.
        * intros i k Hi Hk. destruct (part_arr 8192 n _ _ ltac:(lia) (Pb i Hi)) as (_ & H). rewrite getr_mat_vec by auto. apply H; auto.
  Qed.

  Lemma wp_or : forall x y (Q : cexp -> Prop), 0 <= x <= 255 -> 0 <= y <= 255 ->
    (0 <= Z.lor x y <= 255 -> Q (Var U32 (Z.lor x y))) -> wp (asg U32 (Var U32 x .| Var U32 y)%C) Q.
  Proof.
    intros x y Q Hx Hy HQ. pose proof (lor_bound x y 255 ltac:(lia) ltac:(lia)) as B. change (2 ^ (Z.log2 255 + 1) - 1) with 255 in B.
    apply wp_asgv with (v := Z.lor x y); [reflexivity| |reflexivity|cbn [tmin tmax]; lia|apply HQ; lia].
    cbn [lok tmin tmax]. repeat split; lia.
  Qed.

  Lemma pack_row : forall u v r, part 8192 n (psum n u v) r ->
    pack 10 (map (rnd c) r) = pack 10 (map (round_qp (par c)) (inner (Z.to_nat n) u v)).
  Proof.
    intros u v r P. pose proof m4_L. destruct (part_arr 8192 n _ _ ltac:(lia) P) as ((Lr & Tr) & G).
    apply pack_eqm; [lia|now rewrite len_map|rewrite len_map; apply len_inner|].
    intros k Hk. unfold get. rewrite !znth_map with (d := 0) by (rewrite ?len_inner; lia).
    apply rnd_ok. apply G; auto.
  Qed.

  Lemma app_eq_len : forall (a b a' b' : list Z), len a = len a' -> a ++ b = a' ++ b' <-> a = a' /\ b = b'.
  Proof.
    intros a b a' b' L. split; [|intros (-> & ->); auto]. intros E. split.
    - rewrite <- (zfirst_app a b), E, L. apply zfirst_app.
    - rewrite <- (zskip_app a b), E, L. apply zskip_app.
  Qed.

  Lemma zfirst_add : forall (x : list Z) p q, 0 <= p -> 0 <= q -> p + q <= len x -> zfirst (p + q) x = zfirst p x ++ zfirst q (zskip p x).
  Proof.
    intros x p q Hp Hq L. rewrite <- (zfirst_zskip p (zfirst (p + q) x)). f_equal.
    - apply znth_ext with 0; rewrite !len_zfirst; rewrite ?len_zfirst; try lia. intros i Hi. now rewrite !znth_zfirst by lia.
    - now apply zskip_zfirst_mid.
  Qed.

  Lemma wp_MVEnc : forall junk ct0 seed_A s compare (Q : list Z * cexp -> Prop),
    n * 320 <= len ct0 -> 32 <= len seed_A -> typed U8 seed_A -> vec_mem n s -> (compare = true -> typed U8 ct0) ->
    (let b := pack_vec 10 (ct_vec (par c) (expand_A X (par c) (zfirst 32 seed_A)) s) in
     if compare then forall z, 0 <= z <= 255 -> (z = 0 <-> zfirst (n * 320) ct0 = b) -> Q (ct0, Var U32 z)
     else Q (b ++ zskip (n * 320) ct0, Var U32 0)) ->
    wp (MatrixVectorMulEnc l X mul mul_acc junk ct0 seed_A (mod16 s) compare) Q.
  Proof.
    intros junk ct0 seed_A s compare Q Lct LsA TsA Vs Tct HQ. unfold MatrixVectorMulEnc. pose proof m4_L as HL.
    change SABER_POLYCOMPRESSEDBYTES with 320.
    apply wp_bind, wp_asgv with (v := 0); [reflexivity|cbn; lia|reflexivity|cbn; lia|].
    unfold shake128_absorb_seed. change SABER_SEEDBYTES with 32. destruct (32 <=? len seed_A) eqn:E1; [|lia]. apply wp_bind, wp_ret.
    assert (arr U8 32 (zfirst 32 seed_A)) as Hsa by (split; [apply len_zfirst; lia|now apply Forall_zfirst]).
    set (seedA := zfirst 32 seed_A) in *. set (A := expand_A X (par c) seedA) in *. cbv zeta in HQ.
    set (h := fun i => pack 10 (map (round_qp (par c)) (inner (Z.to_nat n) (znth [] A i) s))).
    assert (forall j, len (h j) = 320) as Lh by (intros; apply len_pack; lia).
    assert (concat (ztab n h) = pack_vec 10 (ct_vec (par c) A s)) as Eh.
    { unfold ct_vec, round_vec. rewrite par_l. rewrite <- (concat_ztab_map 10 n) by (rewrite len_map; apply len_mat_vec; lia).
      f_equal. apply ztab_ext. intros i Hi. unfold h. f_equal. unfold getr.
      rewrite znth_map with (d := []) by (rewrite len_mat_vec; lia). f_equal. symmetry. now apply getr_mat_vec. }
    rewrite <- Eh in HQ. clear Eh.
    apply wp_bind, wp_for with (I := fun i x => let '(ctxA, A', bp, ct, fail) := x in
      ctxA = (seedA, 416 * (n * i)) /\ len A' = 256 /\ len bp = 256 /\
      if compare then ct = ct0 /\ exists z, fail = Var U32 z /\ 0 <= z <= 255 /\ (z = 0 <-> zfirst (i * 320) ct0 = concat (ztab i h))
      else ct = concat (ztab i h) ++ zskip (i * 320) ct0 /\ fail = Var U32 0).
    - lia.
    - split; [f_equal; lia|]. do 2 (split; [now apply uninit_len|]). destruct compare.
      + split; auto. exists 0. split; auto. split; [lia|]. split; auto.
      + split; auto.
    - intros i ((((ctxA, A'), bp), ct), fail) Hi (-> & LA & Lbp & HC).
      apply wp_bind, wp_for with (I := fun j x => let '(ctxA, A', bp) := x in
        ctxA = (seedA, 416 * (n * i + j)) /\ len A' = 256 /\ part 8192 j (psum j (znth [] A i) s) bp).
      + lia.
      + split; [f_equal; lia|]. split; auto. now apply part0.
      + clear bp A' Lbp LA. intros j ((ctxA, A'), bp) Hj (-> & LA & Pb).
        apply wp_bind, wp_squeeze_poly with (N := n * (n * 416)); auto; [nia|nia|].
        intros a Ha Ea. pose proof (getr_expand_A seedA i j Hi Hj) as EA. fold A in EA. rewrite <- EA in Ea.
        pose proof (vec_getr _ _ _ j (vec_mod16 _ _ Vs) Hj) as Hsj.
        apply wp_bind, wp_row with (d := []); [unfold mod16; rewrite len_map; destruct Vs; lia|]. fold (getr (mod16 s) j).
        apply wp_bind, (wp_mul_step mul mul_acc Hmul Hacc 8192 1) with (u := znth [] A i) (v := s); auto; try lia.
        { rewrite getr_mod16. apply peq_mod16. }
        intros b' r' (Lb' & _) Pr'. apply wp_ret. split; [f_equal; lia|]. split; auto.
      + clear bp A' Lbp LA. intros ((ctxA, A'), bp) (-> & LA & Pb).
        destruct (part_arr 8192 n _ _ ltac:(lia) Pb) as (Hbp & _).
        apply wp_bind, wp_round; auto. pose proof (pack_row _ _ _ Pb) as EP. fold (h i) in EP.
        assert (arr U16 256 (map (rnd c) bp)) as (Lr & Tr).
        { split; [rewrite len_map; apply Hbp|]. apply Forall_map, Forall_forall. intros x _. apply (wrap_range U16). }
        apply wp_bind, wp_ite. destruct compare.
        * destruct HC as (-> & z & -> & Hz & Ez). specialize (Tct eq_refl).
          apply wp_bind, wp_ptr; [lia|].
          apply wp_bind, wp_m4_POLp2BS_cmp; auto; [rewrite len_zskip; lia|lia|now apply Forall_zskip|].
          intros f Hf Ef. apply wp_bind, wp_or; auto. intros B. apply wp_ret, wp_ret.
          split; [f_equal; lia|]. split; auto. split; auto. split; auto. exists (Z.lor z f). split; auto. split; auto.
          rewrite Z.lor_eq_0_iff, Ez, Ef, EP. replace ((i + 1) * 320) with (i * 320 + 320) by lia. rewrite zfirst_add by lia.
          rewrite ztab_split by lia. rewrite concat_app. change (ztab 1 ?f) with [f 0]. cbn [concat]. rewrite app_nil_r, Z.add_0_r.
          symmetry. apply app_eq_len. rewrite len_zfirst by lia. symmetry. apply len_concat_ztab; auto; lia.
        * destruct HC as (Ect & ->). apply wp_bind, wp_at_chunk with (g := h) (out := ct0); auto; try lia.
          { apply wp_m4_POLp2BS; auto; [rewrite len_zskip; lia|lia|]. now rewrite EP. }
          apply wp_ret, wp_ret. split; [f_equal; lia|]. split; auto.
    - intros ((((ctxA, A'), bp), ct), fail) (_ & _ & _ & HC). apply wp_ret. destruct compare.
      + destruct HC as (-> & z & -> & Hz & Ez). now apply HQ.
      + destruct HC as (-> & ->). exact HQ.
  Qed.

  Lemma shr_ok : forall e u v, 1 <= e <= 9 -> eqm 1024 u v ->
    eqm (2 ^ e) (Z.shiftr u (10 - e) mod 65536) ((v mod 2 ^ 10) / 2 ^ (10 - e)).
  Proof.
    intros e u v He (q & ->). assert (0 < 2 ^ (16 - e)) by (apply Z.pow_pos_nonneg; lia).
    eapply eqm_trans; [apply eqm_divide with (2 ^ (16 - e)); rewrite <- Z.pow_add_r by lia; replace (e + (16 - e)) with 16 by lia; now apply eqm_mod|].
    rewrite Z.shiftr_div_pow2 by lia. change (2 ^ 10) with 1024.
    assert (1024 = 2 ^ e * 2 ^ (10 - e)) as E. { rewrite <- Z.pow_add_r by lia. replace (e + (10 - e)) with 10 by lia. reflexivity. }
    assert (0 < 2 ^ (10 - e)) by (apply Z.pow_pos_nonneg; lia).
    exists (q + v / 1024). pose proof (Z.div_mod v 1024 ltac:(lia)) as D. set (r := v mod 1024) in *.
    replace (v + 1024 * q) with (r + (2 ^ e * (q + v / 1024)) * 2 ^ (10 - e)).
    { rewrite Z.div_add by lia. ring. }
    rewrite D at 2. rewrite E at 2 3. ring_simplify. rewrite E. ring.
  Qed.

  Lemma wp_IPEnc : forall junk ct1 pk s m compare (Q : list Z * cexp -> Prop),
    32 * SABER_ET c <= len ct1 -> n * 320 <= len pk -> typed U8 pk -> vec_mem n s -> 32 <= len m -> typed U8 m ->
    (compare = true -> typed U8 ct1) ->
    (let cm := pack (SABER_ET c) (ct_msg (par c) (unpack_vec 10 n pk) s (unpack 1 m)) in
     if compare then forall z, 0 <= z <= 255 -> (z = 0 <-> zfirst (32 * SABER_ET c) ct1 = cm) -> Q (ct1, Var U32 z)
     else Q (cm ++ zskip (32 * SABER_ET c) ct1, Var U32 0)) ->
    wp (InnerProdEnc l mul mul_acc junk ct1 pk (mod16 s) m compare) Q.
  Proof.
    intros junk ct1 pk s m compare Q Lct Lpk Tpk Vs Lm Tm Tct HQ. unfold InnerProdEnc. pose proof m4_L as HL.
    pose proof (cfg_ET c) as HET. change SABER_POLYCOMPRESSEDBYTES with 320.
    apply wp_bind, wp_asgv with (v := 0); [reflexivity|cbn; lia|reflexivity|cbn; lia|].
    set (ub := unpack_vec 10 n pk) in *.
    apply wp_bind, wp_for with (I := fun j x => let '(b, vp) := x in len b = 256 /\ part 1024 j (psum j ub s) vp).
    - lia.
    - split; [now apply uninit_len|]. apply part0. now apply uninit_len.
    - intros j (b, vp) Hj (Lb & Pv). apply wp_bind, wp_ptr; [lia|].
      apply wp_bind, wp_m4_BS2POLp; auto; [rewrite len_zskip; lia|now apply Forall_zskip|]. intros r Hr Cr.
      pose proof (vec_getr _ _ _ j (vec_mod16 _ _ Vs) Hj) as Hsj.
      apply wp_bind, wp_row with (d := []); [unfold mod16; rewrite len_map; destruct Vs; lia|]. fold (getr (mod16 s) j).
      apply (wp_mul_step mul mul_acc Hmul Hacc 1024 8) with (u := ub) (v := s); auto; try lia.
      { rewrite getr_mod16. apply peq_div with 8. apply peq_mod16. }
      { unfold ub, unpack_vec, getr. rewrite znth_ztab by auto. change (32 * 10 * j) with (320 * j). rewrite Z.mul_comm.
        change 1024 with (2 ^ 10). apply congr_peq; [lia|exact Cr]. }
      intros b' r' (Lb' & _) Pr'. split; auto.
    - intros (b, vp) (Lb & Pv). destruct (part_arr 1024 n _ _ ltac:(lia) Pv) as ((Lv & Tv) & Gv).
      apply wp_bind, wp_m4_BS2POLmsg; auto. intros mp (Lmp & Tmp) Cm.
      apply wp_bind, wp_map1 with
        (f := fun j => Z.shiftr (get vp j - get mp j * 2 ^ (SABER_EP - 1) + h1 c) (SABER_EP - SABER_ET c) mod 65536); auto; [lia| |].
      { intros j a Hj La Ta Ga. split; [|split].
        - destruct l; reflexivity.
        - cbn [lok tmin tmax]. pose proof (cfg_h1 c). pose proof (cfg_h2 c). unfold SABER_EP. repeat split; auto; lia.
        - cbn [val val_bin ty promote common]. unfold cv, uw. cbn [subr signed]. rewrite Ga. reflexivity. }
      set (vp' := ztab 256 _). assert (len vp' = 256) as Lv' by now apply len_ztab.
      assert (typed U16 vp') as Tv' by (apply Forall_ztab; intros; apply (wrap_range U16)).
      assert (pack (SABER_ET c) vp' = pack (SABER_ET c) (ct_msg (par c) ub s (unpack 1 m))) as EP.
      { apply pack_eqm; [lia|auto|now apply len_ztab|]. intros k Hk. unfold vp', ct_msg. rewrite !get_ztab by lia.
        rewrite par_l, par_c1, par_et. unfold SABER_EP. apply shr_ok; [lia|].
        apply eqm_add; [|apply eqm_refl]. apply eqm_sub; [apply Gv; auto|].
        rewrite <- (Cm k Hk). pose proof (Z.div_mod (get mp k) (2 ^ 1) ltac:(lia)) as D. 
        change (2 ^ 1) with 2 in *. change (10 - 1) with 9. change (2 ^ 9) with 512. exists (get mp k / 2). lia. }
      cbv zeta in HQ. rewrite <- EP in HQ. apply wp_ite. destruct compare.
      + specialize (Tct eq_refl). apply wp_bind, wp_m4_POLT2BS_cmp; auto; [rewrite cfg_SCALE; lia|lia|].
        rewrite cfg_SCALE. intros f Hf Ef. apply wp_bind, wp_or; [lia|auto|]. intros B. apply wp_ret. rewrite Z.lor_0_l in *. apply HQ; auto.
      + apply wp_bind, wp_m4_POLT2BS; auto; [rewrite cfg_SCALE; lia|lia|]. rewrite cfg_SCALE. apply wp_ret. exact HQ.
  Qed.

  (** Decoding of a secret polynomial. *)
  Definition usec (b : list Z) : list Z := if cs then map sext4 (unpack 4 b) else unpack 13 b.
  Lemma wp_BS2POLmu : forall bytes data (Q : list Z -> Prop),
    32 * sw <= len bytes -> len data = 256 -> typed U8 bytes ->
    (forall r, arr U16 256 r -> peq 8192 r (usec bytes) -> Q r) -> wp (m4_BS2POLmu cs bytes data) Q.
  Proof.
    intros bytes data Q Lb Ld Tb HQ. unfold m4_BS2POLmu, sw, usec in *. destruct cs.
    - apply wp_m4_BS2POLmu_4; auto. rewrite <- (map_map sext4 (fun x => x mod 65536)).
      apply HQ; [|apply peq_mod16]. apply arr_mod16. rewrite len_map. apply len_unpack.
    - apply wp_m4_BS2POLq; auto; try lia. intros r Hr Cr. apply HQ; auto. change 8192 with (2 ^ 13). apply congr_peq; auto; lia.
  Qed.

  Lemma wp_IPDec : forall junk m ct sk (Q : list Z -> Prop),
    n * 320 + 32 * SABER_ET c <= len ct -> typed U8 ct -> n * (32 * sw) <= len sk -> typed U8 sk -> 32 <= len m ->
    Q (pack 1 (dec_msg (par c) (unpack_vec 10 n ct) (ztab n (fun i => usec (zskip (i * (32 * sw)) sk)))
                       (unpack (SABER_ET c) (zskip (n * 320) ct))) ++ zskip 32 m) ->
    wp (InnerProdDec l cs mul mul_acc junk m ct sk) Q.
  Proof.
    intros junk m ct sk Q Lct Tct Lsk Tsk Lm HQ. unfold InnerProdDec. pose proof m4_L as HL. pose proof sw_range as Hsw.
    pose proof (cfg_ET c) as HET. unfold SABER_POLYVECCOMPRESSEDBYTES. change SABER_POLYCOMPRESSEDBYTES with 320. rewrite sw_bytes.
    set (ub := unpack_vec 10 n ct) in *. set (us := ztab n _) in *.
    apply wp_bind, wp_for with (I := fun i x => let '(v, s, bp) := x in len s = 256 /\ len bp = 256 /\ part 1024 i (psum i ub us) v).
    - lia.
    - do 2 (split; [now apply uninit_len|]). apply part0. now apply uninit_len.
    - intros i ((v, s), bp) Hi (Ls & Lb & Pv).
      apply wp_bind, wp_ptr; [nia|].
      apply wp_bind, wp_BS2POLmu; auto; [rewrite len_zskip; nia|now apply Forall_zskip|]. intros s' Hs' Es'.
      apply wp_bind, wp_ptr; [lia|].
      apply wp_bind, wp_m4_BS2POLp; auto; [rewrite len_zskip; lia|now apply Forall_zskip|]. intros r Hr Cr.
      apply wp_bind, (wp_mul_step mul mul_acc Hmul Hacc 1024 8) with (u := ub) (v := us); auto; try lia.
      { apply peq_div with 8. unfold us, getr. rewrite znth_ztab by auto. exact Es'. }
      { unfold ub, unpack_vec, getr. rewrite znth_ztab by auto. change (32 * 10 * i) with (320 * i). rewrite Z.mul_comm.
        change 1024 with (2 ^ 10). apply congr_peq; [lia|exact Cr]. }
      intros b' r' (Lb' & _) Pr'. apply wp_ret. split; [apply Hs'|]. split; auto.
    - intros ((v, s), bp) (_ & Lb & Pv). destruct (part_arr 1024 n _ _ ltac:(lia) Pv) as ((Lv & Tv) & Gv).
      apply wp_bind, wp_ptr; [lia|].
      apply wp_bind, wp_m4_BS2POLT; auto; [rewrite cfg_SCALE, len_zskip; lia|now apply Forall_zskip|].
      intros cm (Lcm & Tcm) Cm.
      apply wp_bind, wp_map1 with
        (f := fun j => Z.shiftr (get v j + h2 c - get cm j * 2 ^ (SABER_EP - SABER_ET c)) (SABER_EP - 1) mod 65536); auto; [lia| |].
      { intros j a Hj La Ta Ga. split; [|split].
        - destruct l; reflexivity.
        - cbn [lok tmin tmax]. pose proof (cfg_h1 c). pose proof (cfg_h2 c). unfold SABER_EP. repeat split; auto; lia.
        - cbn [val val_bin ty promote common]. unfold cv, uw. cbn [subr signed]. rewrite Ga. reflexivity. }
      apply wp_m4_POLmsg2BS; [lia|apply Forall_ztab; intros; apply (wrap_range U16)|rewrite len_ztab; lia|].
      match type of HQ with Q (?l ++ _) => match goal with |- Q (?a ++ ?r) => replace a with l; [exact HQ|] end end.
      symmetry. apply pack_eqm; [lia|now apply len_ztab|now apply len_ztab|]. intros k Hk. unfold dec_msg. rewrite !get_ztab by lia.
      rewrite par_l, par_c2, par_et. unfold SABER_EP. change (10 - 1) with 9. change 9 with (10 - 1) at 2. change 9 with (10 - 1) at 1.
      apply shr_ok; [lia|].
      apply eqm_sub; [apply eqm_add; [apply Gv; auto|apply eqm_refl]|].
      rewrite <- (Cm k Hk). set (e := SABER_ET c) in *. pose proof (Z.div_mod (get cm k) (2 ^ e) ltac:(apply Z.pow_nonzero; lia)) as D.
      assert (1024 = 2 ^ e * 2 ^ (10 - e)) as E. { rewrite <- Z.pow_add_r by lia. replace (e + (10 - e)) with 10 by lia. reflexivity. }
      exists (get cm k / 2 ^ e). rewrite D at 1. rewrite E. ring.
  Qed.

  (** ** The public-key layer *)

  Context {S : Type}.
  Variable rb : S -> Z -> list Z * S.
  Hypothesis Hrb : forall st k, 0 <= k -> arr U8 k (fst (rb st k)).

  Lemma wp_m4_keypair : forall junk st pk sk (Q : list Z * list Z * S -> Prop),
    len pk = n * 320 + 32 -> n * (32 * sw) <= len sk ->
    (let seed_A := X 32 (fst (rb st 32)) in
     let st1 := snd (rb st 32) in
     let seed_s := fst (rb st1 32) in
     Q (pke_pk X (par c) seed_A seed_s,
        pack_vec sw (expand_s X (par c) seed_s) ++ zskip (n * (32 * sw)) sk,
        snd (rb st1 32))) ->
    wp (m4_indcpa_keypair l cs X prf mul mul_acc rb junk st pk sk) Q.
  Proof.
    intros junk st pk sk Q Lpk Lsk HQ. unfold m4_indcpa_keypair. pose proof m4_L as HL. pose proof sw_range as Hsw.
    unfold SABER_POLYVECCOMPRESSEDBYTES. change SABER_POLYCOMPRESSEDBYTES with 320.
    change SABER_SEEDBYTES with 32. change SABER_NOISE_SEEDBYTES with 32.
    destruct (Hrb st 32 ltac:(lia)) as (L1 & T1). set (r1 := fst (rb st 32)) in *. set (st1 := snd (rb st 32)) in *.
    destruct (Hrb st1 32 ltac:(lia)) as (L2 & T2). set (r2 := fst (rb st1 32)) in *. cbv zeta in HQ.
    assert (len (zskip (n * 320) pk) = 32) as Lp by (rewrite len_zskip; lia).
    assert (len (zfirst (n * 320) pk) = n * 320) as Lf by (apply len_zfirst; lia).
    apply wp_bind, wp_ptr; [lia|].
    apply wp_bind, wp_randombytes; [lia|]. fold r1 st1. rewrite (zskip_all 32 (zskip (n * 320) pk)), app_nil_r by lia. cbn beta iota.
    apply wp_bind, wp_at; [lia|]. apply wp_ret.
    apply wp_bind, wp_randombytes; [nia|]. fold r2. cbn beta iota.
    apply wp_bind, wp_at; [rewrite len_app; lia|]. rewrite (zskip_app_at (n * 320)), (zfirst_app_at (n * 320)) by auto.
    apply Hprf; auto; try lia. rewrite (zfirst_all_at 32 r1), (zskip_all 32 r1), app_nil_r by lia.
    destruct (HX 32 r1 ltac:(lia) ltac:(split; auto)) as (LA & TA). set (sA := X 32 r1) in *.
    apply wp_bind, wp_KeyPair.
    - rewrite len_app. lia.
    - rewrite len_app, len_zskip; nia.
    - rewrite (zskip_app_at (n * 320)), (zfirst_all_at 32 sA) by auto. split; auto.
    - rewrite zfirst_app_at by auto. split; auto.
    - rewrite (zskip_app_at (n * 320)), (zfirst_all_at 32 sA), (zfirst_app_at 32 r2) by auto. cbv zeta.
      assert (zskip (n * (32 * sw)) (r2 ++ zskip 32 sk) = zskip (n * (32 * sw)) sk) as ->.
      { replace (n * (32 * sw)) with (32 + (n * (32 * sw) - 32)) by lia.
        rewrite <- !zskip_zskip by nia. now rewrite (zskip_app_at 32 r2). }
      apply wp_ret. exact HQ.
  Qed.

  Lemma pke_enc_split : forall pk m r, n * 320 + 32 <= len pk -> 32 <= len m ->
    let s := expand_s X (par c) r in
    pke_enc X (par c) (zfirst (n * 320 + 32) pk) (zfirst 32 m) r =
    pack_vec 10 (ct_vec (par c) (expand_A X (par c) (zfirst 32 (zskip (n * 320) pk))) s) ++
    pack (SABER_ET c) (ct_msg (par c) (unpack_vec 10 n pk) s (unpack 1 m)).
  Proof.
    intros pk m r Lpk Lm s. unfold pke_enc. rewrite par_l, par_et. pose proof m4_L as HL.
    assert (len (zfirst (n * 320 + 32) pk) = n * 320 + 32) as Lf by (apply len_zfirst; lia).
    assert (zfirst 32 (zskip (n * 320) (zfirst (n * 320 + 32) pk)) = zfirst 32 (zskip (n * 320) pk)) as ->.
    { rewrite zskip_zfirst_mid by lia. apply zfirst_all_at. apply len_zfirst. rewrite len_zskip; lia. }
    assert (unpack 1 (zfirst 32 m) = unpack 1 m) as ->. { change 32 with (32 * 1). now apply unpack_first. }
    assert (unpack_vec 10 n (zfirst (n * 320 + 32) pk) = unpack_vec 10 n pk) as ->; [|reflexivity].
    unfold unpack_vec. apply ztab_ext. intros i Hi.
    rewrite <- (unpack_first 10 (zskip _ pk)), <- (unpack_first 10 (zskip _ (zfirst _ pk))) by lia. f_equal.
    apply znth_ext with 0; rewrite !len_zfirst; rewrite ?len_zskip; rewrite ?len_zfirst; try lia.
    intros j Hj. rewrite !znth_zfirst, !znth_zskip by lia. rewrite znth_zfirst by lia. auto.
  Qed.
  Lemma len_ct_vec : forall A s, len (pack_vec 10 (ct_vec (par c) A s)) = n * 320.
  Proof.
    intros. pose proof m4_L. rewrite len_pack_vec by lia. unfold ct_vec, round_vec. rewrite len_map, par_l, len_mat_vec by lia. lia.
  Qed.

  Lemma wp_m4_enc : forall junk m seed pk ct (Q : list Z -> Prop),
    32 <= len m -> typed U8 m -> 32 <= len seed -> typed U8 seed ->
    n * 320 + 32 <= len pk -> typed U8 pk -> n * 320 + 32 * SABER_ET c <= len ct ->
    Q (pke_enc X (par c) (zfirst (n * 320 + 32) pk) (zfirst 32 m) (zfirst 32 seed) ++ zskip (n * 320 + 32 * SABER_ET c) ct) ->
    wp (m4_indcpa_enc l cs X prf mul mul_acc junk m seed pk ct) Q.
  Proof.
    intros junk m seed pk ct Q Lm Tm Ls Ts Lpk Tpk Lct HQ. unfold m4_indcpa_enc. pose proof m4_L as HL. pose proof (cfg_ET c).
    rewrite pke_enc_split in HQ by auto. unfold SABER_POLYVECCOMPRESSEDBYTES. change SABER_POLYCOMPRESSEDBYTES with 320.
    apply wp_bind, wp_ptr; [lia|].
    apply wp_bind, wp_m4_GenSecret; auto; [apply vec_mem_uninit2; lia|]. cbn beta iota.
    set (s := expand_s X (par c) (zfirst 32 seed)) in *. assert (vec_mem n s) as Vs by apply expand_s_mem.
    apply wp_bind, wp_MVEnc; auto; [lia|rewrite len_zskip; lia|now apply Forall_zskip|discriminate|].
    cbv zeta iota. set (A := expand_A _ _ _) in *. pose proof (len_ct_vec A s) as Lb. set (b := pack_vec 10 _) in *. cbn beta iota.
    assert (len (zskip (n * 320) ct) = len ct - n * 320) as Lz by (apply len_zskip; lia).
    apply wp_at; [rewrite len_app; lia|]. rewrite (zskip_app_at (n * 320) b), (zfirst_app_at (n * 320) b) by auto.
    apply wp_bind, wp_IPEnc; auto; try lia; try discriminate. cbv zeta iota. apply wp_ret.
    rewrite zskip_zskip by lia. rewrite app_assoc. exact HQ.
  Qed.

  Lemma wp_m4_enc_cmp : forall junk m seed pk ct (Q : cexp -> Prop),
    32 <= len m -> typed U8 m -> 32 <= len seed -> typed U8 seed ->
    n * 320 + 32 <= len pk -> typed U8 pk -> arr U8 (n * 320 + 32 * SABER_ET c) ct ->
    Q (Var U8 (if list_eqb ct (pke_enc X (par c) (zfirst (n * 320 + 32) pk) (zfirst 32 m) (zfirst 32 seed)) then 0 else 1)) ->
    wp (m4_indcpa_enc_cmp l cs X prf mul mul_acc junk m seed pk ct) Q.
  Proof.
    intros junk m seed pk ct Q Lm Tm Ls Ts Lpk Tpk (Lct & Tct) HQ. unfold m4_indcpa_enc_cmp. pose proof m4_L as HL. pose proof (cfg_ET c).
    rewrite pke_enc_split in HQ by auto. unfold SABER_POLYVECCOMPRESSEDBYTES. change SABER_POLYCOMPRESSEDBYTES with 320.
    apply wp_bind, wp_asgv with (v := 0); [reflexivity|cbn; lia|reflexivity|cbn; lia|].
    apply wp_bind, wp_ptr; [lia|]. apply wp_bind, wp_ptr; [lia|].
    apply wp_bind, wp_m4_GenSecret; auto; [apply vec_mem_uninit2; lia|]. cbn beta iota.
    set (s := expand_s X (par c) (zfirst 32 seed)) in *. assert (vec_mem n s) as Vs by apply expand_s_mem.
    assert (len (zskip (n * 320) ct) = 32 * SABER_ET c) as Lz by (rewrite len_zskip; lia).
    apply wp_bind, wp_MVEnc; auto; [lia|rewrite len_zskip; lia|now apply Forall_zskip|].
    cbv zeta iota. intros f1 Hf1 Ef1. set (A := expand_A _ _ _) in *. pose proof (len_ct_vec A s) as Lb. set (b := pack_vec 10 _) in *. cbn beta iota.
    apply wp_bind, wp_or; auto; [lia|]. rewrite Z.lor_0_l. intros _.
    apply wp_bind, wp_IPEnc; auto; [lia|lia|intros _; now apply Forall_zskip|]. cbv zeta iota. intros f2 Hf2 Ef2. cbn beta iota.
    apply wp_bind, wp_or; auto. intros B. set (z := Z.lor f1 f2) in *.
    rewrite (zfirst_all_at _ (zskip (n * 320) ct)) in Ef2 by auto.
    set (cm := pack (SABER_ET c) _) in *.
    assert (z = 0 <-> ct = b ++ cm) as Ez.
    { unfold z. rewrite Z.lor_eq_0_iff, Ef1, Ef2. rewrite <- (zfirst_zskip (n * 320) ct) at 3. symmetry. apply app_eq_len.
      rewrite len_zfirst; lia. }
    apply wp_bind, wp_asg; [reflexivity|cbn [lok tmin tmax]; repeat split; lia|].
    replace (wrap U32 (val (Not (Var U32 z) + #1)%C)) with (if z =? 0 then 0 else 4294967296 - z).
    2:{ cbn [val val_bin ty promote common]. unfold cv, uw. cbn [subr signed wrap]. destruct (z =? 0) eqn:E.
        - assert (z = 0) as -> by lia. reflexivity.
        - unfold Z.lnot, Z.pred. change (2 ^ 32) with 4294967296. dlia. }
    apply wp_bind, wp_asg; [reflexivity|cbn [lok tmin tmax]; repeat split; try lia; destruct (z =? 0) eqn:E; lia|].
    set (z1 := if z =? 0 then 0 else 4294967296 - z).
    replace (wrap U32 (val (Var U32 z1 .>> #31)%C)) with (if z =? 0 then 0 else 1).
    2:{ cbn [val val_bin ty promote common]. unfold cv, uw. cbn [subr signed wrap]. rewrite Z.shiftr_div_pow2 by lia.
        unfold z1. change (2 ^ 31) with 2147483648. destruct (z =? 0) eqn:E; [reflexivity|]. dlia. }
    assert (list_eqb ct (b ++ cm) = (z =? 0)) as El.
    { unfold list_eqb. destruct (list_eq_dec Z.eq_dec ct (b ++ cm)) as [e|e]; destruct (z =? 0) eqn:E; auto; [|].
      - apply Ez in e. lia.
      - assert (z = 0) as E0 by lia. apply Ez in E0. contradiction. }
    rewrite El in HQ.
    apply wp_asgv with (v := if z =? 0 then 0 else 1); [reflexivity| | | |exact HQ];
      destruct (z =? 0); try reflexivity; cbn [lok tmin tmax]; lia.
  Qed.

  (** ** Key encapsulation *)

  Variable hash_h hash_g : mem -> list Z -> list Z -> Z -> M (list Z).
  Variable H G : list Z -> list Z.
  Hypothesis Hh : hash_spec hash_h 32 H.
  Hypothesis Hg : hash_spec hash_g 64 G.
  Hypothesis HH : forall x, arr U8 32 (H x).
  Hypothesis HG : forall x, arr U8 64 (G x).

  Lemma m4_sizes : SABER_PUBLICKEYBYTES c = n * 320 + 32 /\ SABER_INDCPA_PUBLICKEYBYTES c = n * 320 + 32 /\
    M4_INDCPA_SECRETKEYBYTES l cs = n * (32 * sw) /\
    M4_SECRETKEYBYTES l cs = n * (32 * sw) + (n * 320 + 32) + 64 /\
    SABER_BYTES_CCA_DEC c = n * 320 + 32 * SABER_ET c.
  Proof. unfold sw. destruct l, cs; repeat split; reflexivity. Qed.

  Lemma wp_m4_kem_keypair : forall junk st pk sk (Q : list Z * list Z * S * Z -> Prop),
    len pk = SABER_PUBLICKEYBYTES c -> len sk = M4_SECRETKEYBYTES l cs ->
    (let '(r1, s1) := rb st 32 in
     let '(r2, s2) := rb s1 32 in
     let '(z, s3) := rb s2 32 in
     let PK := kem_pk X (par c) r1 r2 in
     Q (PK, pack_vec sw (expand_s X (par c) r2) ++ PK ++ H PK ++ z, s3, 0)) ->
    wp (m4_kem_keypair l cs X hash_h prf mul mul_acc rb junk st pk sk) Q.
  Proof.
    intros junk st pk sk Q Lpk Lsk HQ. unfold m4_kem_keypair. destruct m4_sizes as (E1 & E1' & E2 & E3 & _).
    rewrite E1', E2, E3. rewrite E1 in Lpk. rewrite E3 in Lsk. pose proof m4_L as HL. pose proof sw_range as Hsw.
    assert (0 <= n * (32 * sw)) by nia.
    apply wp_bind, wp_m4_keypair; [auto|lia|]. cbv zeta.
    destruct (rb st 32) as (r1, s1) eqn:R1. destruct (rb s1 32) as (r2, s2) eqn:R2. destruct (rb s2 32) as (z, s3) eqn:R3.
    cbn [fst snd]. rewrite R2. cbn [fst snd]. fold (kem_pk X (par c) r1 r2).
    assert (arr U8 32 r1) as H1 by (change r1 with (fst (r1, s1)); rewrite <- R1; apply Hrb; lia).
    destruct (kem_pk_arr X HX c r1 r2 H1) as (Lk & Tk). rewrite E1 in Lk.
    cbv zeta in HQ. set (PK := kem_pk X (par c) r1 r2) in *.
    assert (len (pack_vec sw (expand_s X (par c) r2)) = n * (32 * sw)) as Ls.
    { rewrite len_pack_vec, len_expand_s by lia. lia. }
    set (SK := pack_vec sw _) in *. set (n1 := n * (32 * sw)) in *. set (n2 := n * 320 + 32) in *.
    assert (0 <= n2 < 2 ^ 32) by (unfold n2; lia).
    assert (len (zskip n1 sk) = n2 + 64) as Lt by (rewrite len_zskip; lia).
    apply wp_bind, wp_at; [rewrite len_app; lia|]. rewrite (zskip_app_at n1 SK), (zfirst_app_at n1 SK) by auto.
    apply wp_memcpy; [lia|lia|]. rewrite (zfirst_all_at n2 PK) by auto.
    set (T := zskip n2 (zskip n1 sk)). assert (len T = 64) as LT by (unfold T; rewrite len_zskip; lia).
    assert (len (SK ++ PK) = n1 + n2) as L12 by (rewrite len_app; lia).
    replace (n1 + n2 + 64 - 64) with (n1 + n2) by lia. replace (n1 + n2 + 64 - SABER_KEYBYTES) with (n1 + n2 + 32) by (unfold SABER_KEYBYTES; lia).
    rewrite (app_assoc SK).
    apply wp_bind, wp_at; [rewrite len_app; lia|].
    rewrite (zskip_app_at (n1 + n2)), (zfirst_app_at (n1 + n2)) by auto.
    apply Hh; try lia; auto; rewrite (zfirst_all_at n2 PK) by auto.
    destruct (HH PK) as (LH & TH).
    assert (len (zskip 32 T) = 32) as LT2 by (rewrite len_zskip; lia).
    apply wp_bind, wp_ptr; [rewrite !len_app; lia|].
    rewrite <- (zskip_zskip 32 (n1 + n2)), (zskip_app_at (n1 + n2)), (zskip_app_at 32) by (auto; lia).
    apply wp_bind, wp_randombytes; [unfold SABER_KEYBYTES; lia|]. cbn beta iota. change SABER_KEYBYTES with 32. rewrite R3. cbn [fst snd].
    rewrite (zskip_all 32 (zskip 32 T)) by lia. rewrite app_nil_r.
    apply wp_bind, wp_at; [rewrite !len_app; lia|]. apply wp_ret. apply wp_ret.
    rewrite (app_assoc (SK ++ PK)), (zfirst_app_at (n1 + n2 + 32)) by (rewrite !len_app; lia).
    rewrite <- !app_assoc. exact HQ.
  Qed.

  Lemma wp_m4_kem_enc : forall junk st ct k pk (Q : list Z * list Z * S * Z -> Prop),
    len ct = SABER_BYTES_CCA_DEC c -> len k = 32 -> arr U8 (SABER_PUBLICKEYBYTES c) pk ->
    (let '(r, s1) := rb st 32 in
     Q (fst (kem_enc H G X (par c) pk r), snd (kem_enc H G X (par c) pk r), s1, 0)) ->
    wp (m4_kem_enc l cs X hash_h hash_g prf mul mul_acc rb junk st ct k pk) Q.
  Proof.
    intros junk st ct0 k pk Q Lc Lk (Lpk & Tpk) HQ. unfold m4_kem_enc. destruct m4_sizes as (E1 & E1' & _ & _ & E3).
    rewrite E1', E3. rewrite E1 in Lpk. rewrite E3 in Lc. pose proof m4_L as HL. pose proof (cfg_ET c).
    destruct (Hrb st 32 ltac:(lia)) as (Lr & Tr). destruct (rb st 32) as (r, s1) eqn:R. cbn [fst] in Lr, Tr.
    destruct (uninit8_arr junk 1 64 ltac:(lia)) as (LU & TU).
    apply wp_bind, wp_randombytes; [lia|]. cbn beta iota. rewrite R. cbn [fst snd].
    set (T := zskip 32 (uninit8 junk 1 64)). assert (len T = 32) as LT by (unfold T; rewrite len_zskip; lia).
    assert (typed U8 T) as TT by (unfold T; now apply Forall_zskip).
    assert (len (r ++ T) = 64) as LrT by (rewrite len_app; lia).
    apply wp_bind, Hh; try lia; [now apply typed_app|]. rewrite (zfirst_app_at 32 r) by auto.
    rewrite (zskip_app_at 32 r) by auto. set (m := H r). destruct (HH r) as (Lm & Tm). fold m in Lm, Tm.
    assert (len (m ++ T) = 64) as LmT by (rewrite len_app; lia).
    apply wp_bind, wp_at; [lia|]. rewrite (zskip_app_at 32 m), (zfirst_app_at 32 m) by auto.
    apply Hh; try lia; auto; rewrite (zfirst_all_at _ pk) by auto.
    rewrite (zskip_all 32 T) by lia. rewrite app_nil_r. destruct (HH pk) as (Lh & Th).
    assert (len (m ++ H pk) = 64) as Lb by (rewrite len_app; lia).
    apply wp_bind, Hg; [rewrite uninit_len; lia|lia|lia|now apply typed_app|]; rewrite (zfirst_all_at _ (m ++ H pk)) by auto.
    rewrite zskip_all by (rewrite uninit_len; lia). rewrite app_nil_r.
    set (kr := G (m ++ H pk)). destruct (HG (m ++ H pk)) as (Lkr & Tkr). fold kr in Lkr, Tkr.
    assert (len (zskip 32 kr) = 32) as Lz by (rewrite len_zskip; lia).
    apply wp_bind, wp_ptr; [lia|].
    apply wp_bind, wp_m4_enc; auto; try lia.
    { now apply typed_app. }
    { now apply Forall_zskip. }
    rewrite (zfirst_all_at _ pk), (zfirst_app_at 32 m), (zfirst_all_at 32 (zskip 32 kr)) by auto.
    rewrite (zskip_all _ ct0) by lia. rewrite app_nil_r.
    unfold kem_enc in HQ. fold m kr in HQ. cbn zeta in HQ. cbn [fst snd] in HQ.
    set (ct := pke_enc X (par c) pk m (zskip 32 kr)) in *.
    destruct (pke_enc_arr X c pk m (zskip 32 kr)) as (Lct & Tct). fold ct in Lct, Tct.
    apply wp_bind, wp_at; [lia|].
    apply Hh; try lia; auto; rewrite (zfirst_all_at _ ct) by auto.
    rewrite (zskip_all 32 (zskip 32 kr)) by lia. rewrite app_nil_r. destruct (HH ct) as (Lhc & Thc).
    assert (len (zfirst 32 kr) = 32) as Lf by (apply len_zfirst; lia).
    assert (len (zfirst 32 kr ++ H ct) = 64) as Lb2 by (rewrite len_app; lia).
    apply wp_bind, Hh; try lia.
    { apply typed_app; auto. now apply Forall_zfirst. }
    rewrite (zfirst_all_at 64 (zfirst 32 kr ++ H ct)) by auto.
    rewrite (zskip_all 32 k) by lia. rewrite app_nil_r. now apply wp_ret.
  Qed.

  (** The secret key in the standard format. *)
  Definition std_sk (sk : list Z) : list Z := if cs then uncompress_sk n sk else sk.

  Lemma vec_mem_us : forall sk, vec_mem n (map (map sext4) (unpack_vec 4 n sk)).
  Proof.
    intros. pose proof m4_L. split; [rewrite len_map; apply len_ztab; lia|]. apply Forall_map, Forall_ztab. intros. rewrite len_map. apply len_unpack.
  Qed.

  Lemma std_tail : forall sk, zskip (n * 416) (std_sk sk) = zskip (n * (32 * sw)) sk.
  Proof.
    intros. unfold std_sk, sw. destruct cs; [|reflexivity]. unfold uncompress_sk. rewrite zskip_app_at; [reflexivity|].
    rewrite len_pack_vec by lia. rewrite (proj1 (vec_mem_us sk)). lia.
  Qed.

  Lemma unpack_vec_first : forall w b k, 0 < w -> n * (32 * w) <= k <= len b -> unpack_vec w n (zfirst k b) = unpack_vec w n b.
  Proof.
    intros w b k Hw Hk. pose proof m4_L. unfold unpack_vec. apply ztab_ext. intros i Hi.
    rewrite <- (unpack_first w (zskip _ b)), <- (unpack_first w (zskip _ (zfirst _ b))) by lia. f_equal.
    assert (0 <= 32 * w * i /\ 32 * w * i + 32 * w <= n * (32 * w)) as (B1 & B2) by nia.
    assert (len (zfirst k b) = k) by (apply len_zfirst; nia).
    apply znth_ext with 0; rewrite !len_zfirst; rewrite ?len_zskip; rewrite ?len_zfirst; try lia.
    intros j Hj. rewrite !znth_zfirst, !znth_zskip by lia. rewrite znth_zfirst by lia. auto.
  Qed.

  Lemma dec_msg_eqm : forall b s s' cm, (forall i, 0 <= i < n -> peq 8192 (getr s i) (getr s' i)) ->
    dec_msg (par c) b s cm = dec_msg (par c) b s' cm.
  Proof.
    intros b s s' cm E. unfold dec_msg. rewrite par_l. apply ztab_ext. intros k Hk. f_equal.
    apply eqm_mod_eq; [lia|]. apply eqm_sub; [|apply eqm_refl]. apply eqm_add; [|apply eqm_refl].
    apply inner_eqm; auto; intros i Hi; [apply peq_refl|]. apply peq_div with 8. apply E. pose proof m4_L. lia.
  Qed.

  Lemma std_dec : forall sk ct, n * (32 * sw) <= len sk ->
    pke_dec (par c) (sk_pke (par c) (std_sk sk)) ct =
    pack 1 (dec_msg (par c) (unpack_vec 10 n ct) (ztab n (fun i => usec (zskip (i * (32 * sw)) sk)))
                    (unpack (SABER_ET c) (zskip (n * 320) ct))).
  Proof.
    intros sk ct Lsk. unfold pke_dec, sk_pke. rewrite par_l, par_et, par_eq. f_equal. change (SABER_EQ c) with 13. change (32 * 13) with 416.
    pose proof m4_L as HL. apply dec_msg_eqm. intros i Hi. unfold std_sk, usec, sw in *. destruct cs.
    - unfold uncompress_sk. pose proof (vec_mem_us sk) as V. set (u := map (map sext4) (unpack_vec 4 n sk)) in *.
      assert (len (pack_vec 13 u) = n * 416) as Lu by (rewrite len_pack_vec by lia; rewrite (proj1 V); lia).
      rewrite zfirst_app_at by auto. rewrite <- (proj1 V) at 1. rewrite unpack_pack_vec by (try lia; apply V).
      unfold getr at 1 2. rewrite znth_map with (d := []) by (rewrite (proj1 V); auto). rewrite znth_ztab by auto.
      intros k Hk. unfold get at 1. assert (len (znth [] u i) = 256) as Li by (now apply vec_mem_getr with (n := n)).
      rewrite znth_map with (d := 0) by lia. fold (get (znth [] u i) k).
      eapply eqm_trans; [now apply eqm_mod|]. apply eqm_eq. unfold u. rewrite znth_map with (d := []) by (unfold unpack_vec; rewrite len_ztab; lia).
      unfold unpack_vec. rewrite znth_ztab by auto. do 4 f_equal. lia.
    - rewrite unpack_vec_first by lia. unfold unpack_vec, getr. rewrite !znth_ztab by auto.
      replace (32 * 13 * i) with (i * (32 * 13)) by lia. apply peq_refl.
  Qed.

  Lemma wp_m4_kem_dec : forall junk k ct sk (Q : list Z * Z -> Prop),
    len k = 32 -> arr U8 (SABER_BYTES_CCA_DEC c) ct -> arr U8 (M4_SECRETKEYBYTES l cs) sk ->
    Q (kem_dec H G X (par c) (std_sk sk) ct, 0) ->
    wp (m4_kem_dec l cs X hash_h hash_g prf mul mul_acc junk k ct sk) Q.
  Proof.
    intros junk k ct sk Q Lk (Lc & Tc) (Lsk & Tsk) HQ. unfold m4_kem_dec.
    destruct m4_sizes as (E1 & E1' & E2 & E3 & E4). rewrite E2, E3, E4 in *. pose proof m4_L as HL. pose proof (cfg_ET c). pose proof sw_range as Hsw.
    pose proof (std_dec sk ct ltac:(nia)) as ED. pose proof (std_tail sk) as ET.
    set (n1 := n * (32 * sw)) in *. set (n2 := n * 320 + 32) in *.
    assert (0 <= n1 /\ 0 <= n2 < 2 ^ 32) by (unfold n1, n2; nia).
    assert (n * 320 + 32 * SABER_ET c < 2 ^ 32) as Hc32 by lia.
    replace (n1 + n2 + 64 - 64) with (n1 + n2) by lia. change SABER_KEYBYTES with 32. replace (n1 + n2 + 64 - 32) with (n1 + n2 + 32) by lia.
    apply wp_bind, wp_ptr; [lia|]. apply wp_bind, wp_ptr; [lia|].
    unfold m4_indcpa_dec. apply wp_bind, wp_IPDec; auto; [lia|fold n1; lia|rewrite uninit_len; lia|]. fold n1 in ED. rewrite <- ED.
    fold (dec_m (par c) (std_sk sk) ct).
    assert (arr U8 32 (dec_m (par c) (std_sk sk) ct)) as (Lm & Tm) by apply pke_dec_arr.
    set (m := dec_m (par c) (std_sk sk) ct) in *.
    set (T := zskip 32 (uninit junk 0 64)). assert (len T = 32) as LT by (unfold T; rewrite len_zskip; rewrite uninit_len; lia).
    assert (len (zskip (n1 + n2) sk) = 64) as Lh by (rewrite len_zskip; lia).
    apply wp_bind, wp_at; [rewrite len_app; lia|]. rewrite (zskip_app_at 32 m), (zfirst_app_at 32 m) by auto.
    apply wp_memcpy; [lia|lia|]. rewrite (zskip_all 32 T), app_nil_r by lia.
    set (hs := zfirst 32 (zskip (n1 + n2) sk)).
    assert (arr U8 32 hs) as (Lhs & Ths).
    { unfold hs. split; [apply len_zfirst; lia|]. now apply Forall_zfirst, Forall_zskip. }
    assert (len (m ++ hs) = 64) as Lb by (rewrite len_app; lia).
    apply wp_bind, Hg; [rewrite uninit_len; lia|lia|lia|now apply typed_app|]; rewrite (zfirst_all_at _ (m ++ hs)) by auto.
    rewrite zskip_all by (rewrite uninit_len; lia). rewrite app_nil_r.
    set (kr := G (m ++ hs)). destruct (HG (m ++ hs)) as (Lkr & Tkr). fold kr in Lkr, Tkr.
    assert (len (zskip 32 kr) = 32) as Lz by (rewrite len_zskip; lia).
    assert (len (zfirst 32 kr) = 32) as Lf by (apply len_zfirst; lia).
    apply wp_bind, wp_ptr; [lia|].
    apply wp_bind, wp_m4_enc_cmp; auto; try lia.
    { now apply typed_app. }
    { now apply Forall_zskip. }
    { rewrite len_zskip; fold n2; lia. }
    { now apply Forall_zskip. }
    { split; auto. }
    fold n2. rewrite (zfirst_app_at 32 m), (zfirst_all_at 32 (zskip 32 kr)) by auto.
    set (pk := zfirst n2 (zskip n1 sk)). set (ct' := pke_enc X (par c) pk m (zskip 32 kr)).
    apply wp_bind, wp_at; [lia|].
    apply Hh; try lia; auto; rewrite (zfirst_all_at _ ct) by auto.
    rewrite (zskip_all 32 (zskip 32 kr)) by lia. rewrite app_nil_r. destruct (HH ct) as (Lhc & Thc).
    apply wp_bind, wp_ptr; [lia|].
    assert (len (zfirst 32 kr ++ H ct) = 64) as Lb2 by (rewrite len_app; lia).
    set (z := zskip (n1 + n2 + 32) sk). assert (len z = 32) as Lzz by (unfold z; rewrite len_zskip; lia).
    assert (typed U8 (zfirst 32 kr ++ H ct)) as Tb2 by (apply typed_app; auto; now apply Forall_zfirst).
    assert (kem_dec H G X (par c) (std_sk sk) ct = H ((if list_eqb ct ct' then zfirst 32 kr else z) ++ H ct)) as EK.
    { unfold kem_dec, dec_ct, dec_kr. fold m. unfold sk_pk, sk_hash, sk_z. rewrite par_l, par_eq. change (SABER_EQ c) with 13. change (32 * 13) with 416.
      fold n2. rewrite <- (Z.add_assoc (n * 416) n2 32).
      rewrite (Z.add_comm (n * 416) n2), (Z.add_comm (n * 416) (n2 + 32)).
      assert (forall p, 0 <= p -> zskip (p + n * 416) (std_sk sk) = zskip (n1 + p) sk) as ES.
      { intros p Hp. rewrite <- (zskip_zskip p n1) by lia. rewrite <- ET. rewrite zskip_zskip by lia. f_equal. lia. }
      rewrite !ES by lia. rewrite ET. rewrite Z.add_assoc. fold hs kr pk ct' z.
      rewrite (zfirst_all_at 32 z) by auto. unfold list_eqb. destruct (list_eq_dec Z.eq_dec ct ct'); reflexivity. }
    rewrite EK in HQ.
    apply wp_bind, wp_cmov; auto; try lia.
    { unfold z. now apply Forall_zskip. }
    { destruct (list_eqb ct ct'); auto. }
    assert (sel (if list_eqb ct ct' then 0 else 1) 32 (zfirst 32 kr ++ H ct) z = (if list_eqb ct ct' then zfirst 32 kr else z) ++ H ct) as ->.
    { unfold sel. destruct (list_eqb ct ct'); cbn [Z.eqb]; auto.
      now rewrite (zfirst_all_at 32 z), (zskip_app_at 32) by auto. }
    set (kf := if list_eqb ct ct' then zfirst 32 kr else z) in *.
    assert (arr U8 32 kf) as (Lkf & Tkf).
    { unfold kf. destruct (list_eqb ct ct'); split; auto; [now apply Forall_zfirst|now apply Forall_zskip]. }
    assert (len (kf ++ H ct) = 64) as Lb3 by (rewrite len_app; lia).
    apply wp_bind, Hh; try lia.
    { now apply typed_app. }
    rewrite (zfirst_all_at 64 (kf ++ H ct)) by auto.
    rewrite (zskip_all 32 k) by lia. rewrite app_nil_r. now apply wp_ret.
  Qed.
End Poly.
