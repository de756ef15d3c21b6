(** The public-key layer refines the specification. *)
From Coq Require Import ZArith List Bool Lia.
From Verif Require Import Lib.Arr Lib.CInt Lib.CMon Spec.Bits Spec.Ring Spec.Sampling Spec.Saber Model.Params Model.Pack Model.Cbd
  Model.PolyMul Model.Poly Model.Indcpa Proof.PackP Proof.PackThm Proof.Conv Proof.KaraP Proof.ToomP Proof.CbdP Proof.PolyP.
Import ListNotations.
Local Open Scope Z_scope.

(** Parameter set of a configuration. *)
Definition par (c : cfg) : params :=
  match lvl c, usaber c with
  | Light, false => lightsaber | Saber, false => saber | Fire, false => firesaber
  | Light, true => ulightsaber | Saber, true => usaber_ | Fire, true => ufiresaber
  end.

Lemma par_l : forall c, p_l (par c) = SABER_L c. Proof. intros [[] [] ?]; reflexivity. Qed.
Lemma par_mu : forall c, p_mu (par c) = SABER_MU c. Proof. intros [[] [] ?]; reflexivity. Qed.
Lemma par_et : forall c, p_et (par c) = SABER_ET c. Proof. intros [[] [] ?]; reflexivity. Qed.
Lemma par_eq : forall c, p_eq (par c) = SABER_EQ c. Proof. intros [[] [] ?]; reflexivity. Qed.
Lemma par_uniform : forall c, p_uniform (par c) = usaber c. Proof. intros [[] [] ?]; reflexivity. Qed.
Lemma par_c1 : forall c, rc1 (par c) = h1 c. Proof. intros [[] [] ?]; reflexivity. Qed.
Lemma par_c2 : forall c, rc2 (par c) = h2 c. Proof. intros [[] [] ?]; reflexivity. Qed.

Lemma cfg_h1 : forall c, 0 <= h1 c <= 4. Proof. intros [[] [] ?]; cbn; lia. Qed.
Lemma cfg_h2 : forall c, 0 <= h2 c <= 256. Proof. intros [[] [] ?]; cbn; lia. Qed.

Lemma get_ztab : forall n f i, 0 <= i < n -> get (ztab n f) i = f i.
Proof. intros. unfold get. now apply znth_ztab. Qed.

(** ** Packing depends on the low bits only *)

Lemma pack_eqm : forall w a b, 0 < w -> len a = 256 -> len b = 256 -> peq (2 ^ w) a b -> pack w a = pack w b.
Proof.
  intros w a b Hw La Lb E. rewrite <- (pack_mod w a), <- (pack_mod w b) by auto. f_equal.
  apply znth_ext with 0; rewrite !len_map; [lia|]. intros i Hi.
  rewrite !znth_map with (d := 0) by lia.
  apply eqm_mod_eq; [apply Z.pow_pos_nonneg; lia|]. apply E. lia.
Qed.

Lemma pack_vec_eqm : forall w n a b, 0 < w -> vec_mem n a -> vec_mem n b ->
  (forall i, 0 <= i < n -> peq (2 ^ w) (getr a i) (getr b i)) -> pack_vec w a = pack_vec w b.
Proof.
  intros w n a b Hw (La & Fa) (Lb & Fb) E. unfold pack_vec. rewrite !flat_map_concat_map. f_equal.
  apply znth_ext with []; rewrite !len_map; [lia|]. intros i Hi. rewrite !znth_map with (d := []) by lia.
  apply pack_eqm; auto.
  - apply Forall_znth with (P := fun r => len r = 256); auto. 
  - apply Forall_znth with (P := fun r => len r = 256); auto. lia.
  - apply E. lia.
Qed.

(** ** Congruent vectors have congruent products *)

Lemma mul_coef_eqm : forall m a a' b b' k, 0 <= k < 256 -> peq m a a' -> peq m b b' ->
  eqm m (mul_coef a b k) (mul_coef a' b' k).
Proof.
  intros m a a' b b' k Hk Ha Hb. unfold mul_coef. apply eqm_zsum. intros i Hi.
  destruct (i <=? k) eqn:E.
  - apply eqm_mul; [apply Ha; lia|apply Hb; lia].
  - apply eqm_opp, eqm_mul; [apply Ha; lia|apply Hb; lia].
Qed.

Lemma inner_eqm : forall m n a a' b b' k, 0 <= k < 256 ->
  (forall i, 0 <= i < Z.of_nat n -> peq m (getr a i) (getr a' i)) ->
  (forall i, 0 <= i < Z.of_nat n -> peq m (getr b i) (getr b' i)) ->
  eqm m (get (inner n a b) k) (get (inner n a' b') k).
Proof.
  intros m n a a' b b' k Hk. induction n; intros Ha Hb.
  - apply eqm_refl.
  - rewrite <- (Nat2Z.id (S n)). rewrite Nat2Z.inj_succ. unfold Z.succ. rewrite !get_inner_S by lia.
    rewrite Nat2Z.id. apply eqm_add; [apply IHn; intros; [apply Ha|apply Hb]; lia|].
    apply mul_coef_eqm; auto; [apply Ha|apply Hb]; lia.
Qed.

Lemma peq_refl : forall m a, peq m a a. Proof. intros m a k Hk. apply eqm_refl. Qed.
Lemma getr_mod16 : forall v i, getr (mod16 v) i = map (fun x => x mod 65536) (getr v i).
Proof.
  intros. unfold getr, mod16. destruct (Z_lt_dec i 0); [rewrite !znth_default by lia; auto|].
  destruct (Z_lt_dec i (len v)).
  - now rewrite znth_map with (d := []) by lia.
  - rewrite !znth_default by (rewrite ?len_map; lia). auto.
Qed.
Lemma peq_mod16 : forall l, peq 8192 (map (fun x => x mod 65536) l) l.
Proof.
  intros l k Hk. unfold get. destruct (Z_lt_dec k (len l)).
  - rewrite znth_map with (d := 0) by lia. apply eqm_divide with 8. now apply eqm_mod.
  - rewrite !znth_default by (rewrite ?len_map; lia). apply eqm_refl.
Qed.

(** ** Loops over coefficients *)

Lemma wp_map1 : forall t n (e : list Z -> Z -> cexp) v f (Q : list Z -> Prop), 0 <= n -> len v = n -> typed t v ->
  (forall j a, 0 <= j < n -> len a = n -> typed t a -> get a j = get v j ->
     safe (e a j) = true /\ lok (e a j) /\ wrap t (val (e a j)) = f j) ->
  Q (ztab n f) -> wp (for_ 0 n (fun j v => st t v j (e v j)) v) Q.
Proof.
  intros t n e v f Q Hn Lv Tv He HQ.
  apply wp_for with (I := fun j a => len a = n /\ typed t a /\
    forall k, 0 <= k < n -> get a k = if k <? j then f k else get v k).
  - lia.
  - split; auto. split; auto. intros k Hk. destruct (k <? 0) eqn:E; auto; lia.
  - intros j a Hj (La & Ta & Ga).
    destruct (He j a Hj La Ta) as (S & L & V). { rewrite Ga by lia. now rewrite Z.ltb_irrefl. }
    apply wp_st; auto; [lia|]. rewrite len_upd. split; auto. split; [apply typed_upd; auto; apply wrap_range|].
    intros k Hk. unfold get at 1. rewrite znth_upd by lia. destruct (k =? j) eqn:E.
    + assert (k = j) by lia. subst. rewrite V. destruct (j <? j + 1) eqn:E'; auto. lia.
    + fold (get a k). rewrite Ga by lia. destruct (k <? j) eqn:E1, (k <? j + 1) eqn:E2; auto; lia.
  - intros a (La & Ta & Ga). replace a with (ztab n f); auto. symmetry. apply ztab_eq with 0; auto.
    intros i Hi. fold (get a i). rewrite Ga by lia. destruct (i <? n) eqn:E; auto; lia.
Qed.

Definition rnd (c : cfg) (x : Z) : Z := Z.shiftr (x + h1 c) (SABER_EQ c - SABER_EP) mod 65536.

Lemma round_expr : forall c a j, 0 <= j < len a -> typed U16 a ->
  let e := ((Idx U16 a j + Cst I32 (h1 c)) .>> Cst I32 (SABER_EQ c - SABER_EP))%C in
  safe e = true /\ lok e /\ wrap U16 (val e) = rnd c (get a j).
Proof.
  intros [l u s] a j Hj Ta e. split; [|split].
  - unfold e. destruct u; reflexivity.
  - unfold e. cbn [lok]. destruct u; cbn; repeat split; auto; lia.
  - unfold e, rnd. cbn [val val_bin ty promote common]. unfold cv, uw. cbn [subr signed]. reflexivity.
Qed.

Lemma wp_round_row : forall c n b i (Q : list (list Z) -> Prop), vec U16 n b -> 0 <= i < n ->
  Q (upd b i (map (rnd c) (getr b i))) ->
  wp (for_ 0 256 (fun j b => bi <- row b i ;;
        bi <- st U16 bi j ((Idx U16 bi j + Cst I32 (h1 c)) .>> Cst I32 (SABER_EQ c - SABER_EP))%C ;;
        setrow b i bi)%M b) Q.
Proof.
  intros c n b i Q Hv Hi HQ. destruct (vec_getr _ _ _ _ Hv Hi) as (Lr & Tr). destruct Hv as (Lb & _).
  apply wp_for with (I := fun j b' => exists a, b' = upd b i a /\ len a = 256 /\ typed U16 a /\
    forall k, 0 <= k < 256 -> get a k = if k <? j then rnd c (get (getr b i) k) else get (getr b i) k).
  - lia.
  - exists (getr b i). split; [|split; [auto|split; [auto|]]].
    + apply znth_ext with []; [now rewrite len_upd|]. intros k Hk. rewrite znth_upd by lia.
      destruct (k =? i) eqn:E; auto. assert (k = i) by lia. now subst.
    + intros k Hk. destruct (k <? 0) eqn:E; auto; lia.
  - intros j b' Hj (a & -> & La & Ta & Ga).
    apply wp_bind, wp_row with (d := []); [rewrite len_upd; lia|]. rewrite znth_upd_same by lia.
    destruct (round_expr c a j ltac:(lia) Ta) as (S & L & V).
    apply wp_bind, wp_st; auto; [lia|]. rewrite V. apply wp_setrow; [rewrite len_upd; lia|].
    exists (upd a j (rnd c (get a j))). split; [|split; [now rewrite len_upd|split]].
    + apply znth_ext with []; [now rewrite !len_upd|]. rewrite len_upd. intros k Hk. rewrite !znth_upd by (rewrite ?len_upd; lia).
      destruct (k =? i); auto.
    + apply typed_upd; auto. apply (wrap_range U16).
    + intros k Hk. unfold get at 1. rewrite znth_upd by lia. destruct (k =? j) eqn:E.
      * assert (k = j) by lia. subst. destruct (j <? j + 1) eqn:E'; [|lia]. rewrite Ga by lia. now rewrite Z.ltb_irrefl.
      * fold (get a k). rewrite Ga by lia. destruct (k <? j) eqn:E1, (k <? j + 1) eqn:E2; auto; lia.
  - intros b' (a & -> & La & Ta & Ga). replace a with (map (rnd c) (getr b i)); auto.
    apply znth_ext with 0; rewrite len_map; [lia|]. rewrite Lr. intros k Hk.
    rewrite znth_map with (d := 0) by lia. fold (get a k). rewrite Ga by lia. destruct (k <? 256) eqn:E; auto; lia.
Qed.

Lemma wp_round_loop : forall c b (Q : list (list Z) -> Prop), vec U16 (SABER_L c) b ->
  Q (map (map (rnd c)) b) -> wp (round_loop c b) Q.
Proof.
  intros c b Q Hv HQ. unfold round_loop. pose proof (cfg_L c). destruct Hv as (Lb & Fb).
  apply wp_for with (I := fun i a => vec U16 (SABER_L c) a /\
    forall k, 0 <= k < SABER_L c -> getr a k = if k <? i then map (rnd c) (getr b k) else getr b k).
  - lia.
  - split; [split; auto|]. intros k Hk. destruct (k <? 0) eqn:E; auto; lia.
  - intros i a Hi (Va & Ga). destruct (vec_getr _ _ _ _ Va Hi) as (Lr & Tr). assert (len a = SABER_L c) as La by apply Va.
    apply wp_round_row with (n := SABER_L c); auto. split.
    + apply vec_upd; auto; [now rewrite len_map|]. apply Forall_map, Forall_forall. intros x _. apply (wrap_range U16).
    + intros k Hk. unfold getr at 1. rewrite znth_upd by lia. destruct (k =? i) eqn:E.
      * assert (k = i) by lia. subst. rewrite Ga by lia. rewrite Z.ltb_irrefl. destruct (i <? i + 1) eqn:E'; auto; lia.
      * fold (getr a k). rewrite Ga by lia. destruct (k <? i) eqn:E1, (k <? i + 1) eqn:E2; auto; lia.
  - intros a (Va & Ga). replace a with (map (map (rnd c)) b); auto. assert (len a = SABER_L c) as La by apply Va.
    apply znth_ext with []; rewrite len_map; [lia|]. intros k Hk. rewrite znth_map with (d := []) by lia.
    fold (getr a k). rewrite Ga by lia. destruct (k <? SABER_L c) eqn:E; auto; lia.
Qed.

(** Rounding in the code agrees with the specification on values congruent modulo 2^13. *)
Lemma rnd_ok : forall c x y, eqm 8192 x y -> eqm (2 ^ 10) (rnd c x) (round_qp (par c) y).
Proof.
  intros [l u s] x y (q & ->). unfold rnd, round_qp. rewrite par_c1, par_eq.
  eapply eqm_trans; [apply eqm_divide with 64; now apply eqm_mod|].
  unfold h1, SABER_EQ, SABER_EP. cbn [usaber]. destruct u; rewrite Z.shiftr_div_pow2 by lia.
  1: change (2 ^ (12 - 10 - 1)) with 2; change (2 ^ (12 - 10)) with 4; change (2 ^ 12) with 4096.
  2: change (2 ^ (13 - 10 - 1)) with 4; change (2 ^ (13 - 10)) with 8; change (2 ^ 13) with 8192.
  all: change (2 ^ 10) with 1024.
  - exists (2 * q + (y + 2) / 4096). dlia.
  - exists (q + (y + 4) / 8192). dlia.
Qed.

Lemma pack_round : forall c r v, vec U16 (SABER_L c) r -> vec_mem (SABER_L c) v ->
  (forall i k, 0 <= i < SABER_L c -> 0 <= k < 256 -> eqm 8192 (get (getr r i) k) (get (getr v i) k)) ->
  pack_vec 10 (map (map (rnd c)) r) = pack_vec 10 (round_vec (par c) v).
Proof.
  intros c r v Vr Vv E. assert (len r = SABER_L c) as Lr by apply Vr. assert (len v = SABER_L c) as Lv by apply Vv.
  assert (forall f (a : list (list Z)) , vec_mem (SABER_L c) a -> vec_mem (SABER_L c) (map (map f) a)) as VM.
  { intros f a (La & Fa). split; [now rewrite len_map|]. apply Forall_map. eapply Forall_impl; [|apply Fa].
    cbn beta. intros. now rewrite len_map. }
  apply pack_vec_eqm with (n := SABER_L c); [lia|apply VM, (vec_vec_mem U16); auto|apply VM; auto|].
  intros i Hi k Hk. destruct (vec_getr _ _ _ _ Vr Hi) as (Lri & _). pose proof (vec_mem_getr _ _ _ Vv Hi) as Lvi.
  unfold round_vec. unfold getr in *. rewrite !znth_map with (d := []) by lia.
  unfold get. rewrite !znth_map with (d := 0) by lia. apply rnd_ok. apply E; auto.
Qed.

(** ** The three functions *)

Lemma vec_mem_uninit2 : forall junk t n, 0 <= n -> vec_mem n (uninit2 junk t n).
Proof. intros. split; [now apply len_ztab|]. apply Forall_ztab. intros. now apply uninit_len. Qed.
Lemma mat_mem_uninit3 : forall junk t n, 0 <= n -> mat_mem n (uninit3 junk t n).
Proof. intros. split; [now apply len_ztab|]. apply Forall_ztab. intros. now apply vec_mem_uninit2. Qed.
Lemma zeros_arr : arr U16 256 (zeros 256).
Proof. split; [now apply len_zeros|]. apply Forall_repeat. cbn. lia. Qed.
Lemma vec_zeros2 : forall n, 0 <= n -> vec U16 n (zeros2 n).
Proof. intros. apply vec_ztab; auto. intros. apply zeros_arr. Qed.
Lemma getr_zeros2 : forall n i k, get (getr (zeros2 n) i) k = 0.
Proof.
  intros. unfold getr. destruct (Z_lt_dec i 0); [rewrite znth_default by lia; unfold get; apply znth_default; cbn; lia|].
  destruct (Z_lt_dec i n).
  - unfold zeros2. rewrite znth_ztab by lia. apply get_zeros.
  - rewrite znth_default; [unfold get; apply znth_default; cbn; lia|].
    unfold zeros2. destruct (Z_lt_dec n 0); [|rewrite len_ztab; lia].
    unfold ztab. replace (Z.to_nat n) with O by lia. cbn. lia.
Qed.

Lemma vec_mem_mat_vec : forall n A s, 0 <= n -> vec_mem n (mat_vec n A s).
Proof. intros. split; [now apply len_mat_vec|]. apply Forall_ztab. intros. apply len_inner. Qed.

Section Ref.
  Variable prf : mem -> list Z -> Z -> list Z -> Z -> M (list Z).
  Variable P : Z -> list Z -> list Z.
  Hypothesis Hprf : prf_spec prf P.
  Hypothesis HP : bytes_fun P.
  Context {S : Type}.
  Variable rb : S -> Z -> list Z * S.
  Hypothesis Hrb : forall st n, 0 <= n -> arr U8 n (fst (rb st n)).

  Lemma wp_randombytes : forall st out n (Q : list Z * S -> Prop), 0 <= n <= len out ->
    Q (fst (rb st n) ++ zskip n out, snd (rb st n)) -> wp (randombytes rb st out n) Q.
  Proof.
    intros st out n Q Hn HQ. unfold randombytes. destruct (_ && _) eqn:E; [|lia]. now apply wp_ret.
  Qed.

  Lemma expand_A_eq : forall c seed,
    gen_mat (SABER_EQ c) (SABER_L c) (P (SABER_L c * SABER_POLYVECBYTES c) seed) = expand_A P (par c) seed.
  Proof. intros. unfold expand_A. now rewrite par_eq, par_l, cfg_POLYVECBYTES. Qed.
  Lemma expand_s_eq : forall c seed,
    sec_vec c (P (SABER_L c * SABER_POLYCOINBYTES c) seed) = expand_s P (par c) seed.
  Proof.
    intros. unfold expand_s, sec_vec. rewrite par_l, par_mu, par_uniform.
    assert (SABER_POLYCOINBYTES c = if usaber c then 64 else 32 * SABER_MU c) as -> by (destruct c as [[] [] ?]; reflexivity).
    destruct (usaber c); reflexivity.
  Qed.
  Lemma expand_s_mem : forall c seed, vec_mem (SABER_L c) (expand_s P (par c) seed).
  Proof. intros. rewrite <- expand_s_eq. apply sec_vec_mem. Qed.
  Lemma expand_A_mat : forall c seed, mat U16 (SABER_L c) (expand_A P (par c) seed).
  Proof.
    intros. rewrite <- expand_A_eq. pose proof (cfg_L c). pose proof (cfg_EQ c). apply mat_gen; lia.
  Qed.

  (** The rounded product, as packed. *)
  Lemma mat_vec_mod16 : forall n A s i k, 0 <= i < n -> 0 <= k < 256 ->
    eqm 8192 (get (getr (mat_vec n A (mod16 s)) i) k) (get (getr (mat_vec n A s) i) k).
  Proof.
    intros. rewrite !getr_mat_vec by auto. apply inner_eqm; auto; intros; [apply peq_refl|].
    rewrite getr_mod16. apply peq_mod16.
  Qed.

  Lemma wp_keypair : forall junk c st pk sk (Q : list Z * list Z * S -> Prop),
    SABER_INDCPA_PUBLICKEYBYTES c <= len pk -> SABER_INDCPA_SECRETKEYBYTES c <= len sk ->
    (let seed_A := P 32 (fst (rb st 32)) in
     let st1 := snd (rb st 32) in
     let seed_s := fst (rb st1 32) in
     Q (pke_pk P (par c) seed_A seed_s ++ zskip (SABER_INDCPA_PUBLICKEYBYTES c) pk,
        pke_sk P (par c) seed_s ++ zskip (SABER_INDCPA_SECRETKEYBYTES c) sk,
        snd (rb st1 32))) ->
    wp (indcpa_kem_keypair prf rb junk c st pk sk) Q.
  Proof.
    intros junk c st pk sk Q Hpk Hsk HQ. unfold indcpa_kem_keypair. pose proof (cfg_L c). pose proof (cfg_EQ c).
    change SABER_SEEDBYTES with 32. change SABER_NOISE_SEEDBYTES with 32.
    unfold SABER_INDCPA_PUBLICKEYBYTES, SABER_INDCPA_SECRETKEYBYTES, SABER_POLYVECCOMPRESSEDBYTES in *.
    change SABER_POLYCOMPRESSEDBYTES with 320 in *. change SABER_SEEDBYTES with 32 in *.
    set (n := SABER_L c) in *.
    destruct (Hrb st 32 ltac:(lia)) as (L1 & T1). set (r1 := fst (rb st 32)) in *. set (st1 := snd (rb st 32)) in *.
    destruct (Hrb st1 32 ltac:(lia)) as (L2 & T2). set (r2 := fst (rb st1 32)) in *.
    apply wp_bind, wp_randombytes; [rewrite uninit_len; lia|]. fold r1 st1. cbn beta iota.
    rewrite zskip_all by (rewrite uninit_len; lia). rewrite app_nil_r.
    apply wp_bind, Hprf; [lia|lia|lia|auto|]. rewrite (zskip_all 32 r1) by lia. rewrite app_nil_r.
    replace (zfirst 32 r1) with r1 by (rewrite <- L1; symmetry; apply zfirst_all).
    destruct (HP 32 r1 ltac:(lia) ltac:(split; auto; lia)) as (LA & TA). set (seed_A := P 32 r1) in *.
    apply wp_bind, wp_randombytes; [rewrite uninit_len; lia|]. fold r2. cbn beta iota.
    rewrite zskip_all by (rewrite uninit_len; lia). rewrite app_nil_r.
    apply wp_bind, (wp_GenMatrix prf P Hprf HP); auto; [apply mat_mem_uninit3; fold n; lia|lia|].
    replace (zfirst 32 seed_A) with seed_A by (rewrite <- LA; symmetry; apply zfirst_all). rewrite expand_A_eq.
    apply wp_bind, (wp_GenSecret prf P Hprf HP); auto; [apply vec_mem_uninit2; fold n; lia|lia|].
    replace (zfirst 32 r2) with r2 by (rewrite <- L2; symmetry; apply zfirst_all). rewrite expand_s_eq.
    set (A := expand_A P (par c) seed_A). set (s := expand_s P (par c) r2).
    assert (vec_mem n s) as Vs by apply expand_s_mem.
    apply wp_bind, wp_MatrixVectorMul; [apply expand_A_mat|now apply vec_mod16|apply vec_zeros2; fold n; lia|].
    intros b Vb Rb. fold n in Rb, Vb.
    apply wp_bind, wp_round_loop; auto.
    apply wp_bind, wp_POLVECq2BS; auto; [now apply vec_mod16|].
    apply wp_bind, wp_POLVECp2BS.
    { unfold SABER_POLYVECCOMPRESSEDBYTES. change SABER_POLYCOMPRESSEDBYTES with 320. fold n. lia. }
    { split; [rewrite len_map; apply Vb|]. apply Forall_map. eapply Forall_impl; [|apply Vb]. cbn beta. intros l (Ll & Tl).
      split; [now rewrite len_map|]. apply Forall_map, Forall_forall. intros x _. apply (wrap_range U16). }
    unfold SABER_POLYVECCOMPRESSEDBYTES. change SABER_POLYCOMPRESSEDBYTES with 320. fold n.
    assert (pack_vec 10 (map (map (rnd c)) b) = pack_vec 10 (pub_vec (par c) A s)) as ->.
    { unfold pub_vec. rewrite par_l. fold n. apply pack_round; auto; [apply vec_mem_mat_vec; lia|].
      intros i k Hi Hk. eapply eqm_trans; [apply Rb; auto|]. rewrite getr_zeros2, Z.add_0_l.
      change (tmat n 1 A) with (transpose n A). now apply mat_vec_mod16. }
    assert (len (pack_vec 10 (pub_vec (par c) A s)) = n * 320) as Lp.
    { rewrite len_pack_vec by lia. unfold pub_vec, round_vec. rewrite len_map, par_l, len_mat_vec by (fold n; lia). fold n. lia. }
    apply wp_bind, wp_at.
    { rewrite len_app, Lp. pose proof (len_nonneg (zskip (n * 320) pk)). lia. }
    rewrite <- Lp at 1. rewrite zskip_app. apply wp_memcpy; rewrite ?LA; try lia.
    { rewrite len_zskip by lia. lia. }
    apply wp_ret. rewrite <- Lp at 1. rewrite zfirst_app.
    replace (zfirst 32 seed_A) with seed_A by (rewrite <- LA; symmetry; apply zfirst_all).
    rewrite zskip_zskip by lia. rewrite app_assoc.
    assert (pack_vec (SABER_EQ c) (mod16 s) = pke_sk P (par c) r2) as ->.
    { unfold pke_sk. rewrite par_eq. fold s. apply pack_vec_eqm with (n := n); auto; [lia|apply (vec_vec_mem U16), vec_mod16; auto|].
      intros i Hi. rewrite getr_mod16. intros k Hk. destruct (peq_mod16 (getr s i) k Hk) as (q & E). unfold SABER_EQ.
      destruct (usaber c); [exists (2 * q)|exists q]; rewrite E; lia. }
    exact HQ.
  Qed.

  Lemma wp_enc : forall junk c m seed_sp pk ct (Q : list Z -> Prop),
    32 <= len m -> typed U8 m -> 32 <= len seed_sp -> typed U8 seed_sp ->
    SABER_INDCPA_PUBLICKEYBYTES c <= len pk -> typed U8 pk -> SABER_BYTES_CCA_DEC c <= len ct ->
    Q (pke_enc P (par c) (zfirst (SABER_INDCPA_PUBLICKEYBYTES c) pk) (zfirst 32 m) (zfirst 32 seed_sp) ++ zskip (SABER_BYTES_CCA_DEC c) ct) ->
    wp (indcpa_kem_enc prf junk c m seed_sp pk ct) Q.
  Proof.
    intros junk c m r pk ct Q Lm Tm Lr Tr Lpk Tpk Lct HQ. unfold indcpa_kem_enc.
    pose proof (cfg_L c). pose proof (cfg_EQ c). pose proof (cfg_ET c).
    unfold SABER_BYTES_CCA_DEC, SABER_INDCPA_PUBLICKEYBYTES, SABER_INDCPA_SECRETKEYBYTES, SABER_POLYVECCOMPRESSEDBYTES in *.
    change SABER_POLYCOMPRESSEDBYTES with 320 in *. change SABER_SEEDBYTES with 32 in *. rewrite cfg_SCALE in *.
    set (n := SABER_L c) in *.
    apply wp_bind, wp_ptr; [lia|].
    apply wp_bind, (wp_GenMatrix prf P Hprf HP); [apply mat_mem_uninit3; fold n; lia|rewrite len_zskip; lia|now apply Forall_zskip|].
    rewrite expand_A_eq.
    apply wp_bind, (wp_GenSecret prf P Hprf HP); auto; [apply vec_mem_uninit2; fold n; lia|]. rewrite expand_s_eq.
    set (A := expand_A _ _ _). set (s := expand_s _ _ _).
    assert (vec_mem n s) as Vs by apply expand_s_mem.
    apply wp_bind, wp_MatrixVectorMul; [apply expand_A_mat|now apply vec_mod16|apply vec_zeros2; fold n; lia|].
    intros b Vb Rb. fold n in Rb, Vb.
    apply wp_bind, wp_round_loop; auto.
    apply wp_bind, wp_POLVECp2BS.
    { unfold SABER_POLYVECCOMPRESSEDBYTES. change SABER_POLYCOMPRESSEDBYTES with 320. fold n. lia. }
    { split; [rewrite len_map; apply Vb|]. apply Forall_map. eapply Forall_impl; [|apply Vb]. cbn beta. intros l (Ll & Tl).
      split; [now rewrite len_map|]. apply Forall_map, Forall_forall. intros x _. apply (wrap_range U16). }
    unfold SABER_POLYVECCOMPRESSEDBYTES. change SABER_POLYCOMPRESSEDBYTES with 320. fold n.
    assert (pack_vec 10 (map (map (rnd c)) b) = pack_vec 10 (ct_vec (par c) A s)) as ->.
    { unfold ct_vec. rewrite par_l. fold n. apply pack_round; auto; [apply vec_mem_mat_vec; lia|].
      intros i k Hi Hk. eapply eqm_trans; [apply Rb; auto|]. rewrite getr_zeros2, Z.add_0_l.
      change (tmat n 0 A) with A. now apply mat_vec_mod16. }
    assert (len (pack_vec 10 (ct_vec (par c) A s)) = n * 320) as Lp.
    { rewrite len_pack_vec by lia. unfold ct_vec, round_vec. rewrite len_map, par_l, len_mat_vec by (fold n; lia). fold n. lia. }
    apply wp_bind, wp_BS2POLVECp; auto.
    { unfold SABER_POLYVECCOMPRESSEDBYTES. change SABER_POLYCOMPRESSEDBYTES with 320. fold n. lia. }
    { apply vec_mem_uninit2. fold n. lia. }
    apply wp_bind, wp_InnerProd; [apply vec_unpack; fold n; lia|now apply vec_mod16|apply zeros_arr|].
    intros v (Lv & Tv) Rv. apply wp_bind, wp_BS2POLmsg; [lia|auto|now apply uninit_len|].
    set (mp := regroup 8 1 256 m).
    assert (len mp = 256) as Lmp by now apply len_regroup.
    assert (typed U16 mp) as Tmp. { eapply typed_range with (w := 1); [cbn; lia|cbn; lia|apply regroup_range; lia]. }
    apply wp_bind, wp_map1 with
      (f := fun j => Z.shiftr (get v j - get mp j * 2 ^ (SABER_EP - 1) + h1 c) (SABER_EP - SABER_ET c) mod 65536); auto; [lia| |].
    { intros j a Hj La Ta Ga. split; [|split].
      - destruct c as [[] [] ?]; reflexivity.
      - cbn [lok tmin tmax]. pose proof (cfg_h1 c). pose proof (cfg_h2 c). unfold SABER_EP. repeat split; auto; lia.
      - cbn [val val_bin ty promote common]. unfold cv, uw. cbn [subr signed]. rewrite Ga. reflexivity. }
    apply wp_at.
    { rewrite len_app, Lp. pose proof (len_nonneg (zskip (n * 320) ct)). lia. }
    rewrite <- Lp at 1. rewrite zskip_app. apply wp_POLT2BS.
    { rewrite cfg_SCALE, len_zskip by lia. lia. }
    { rewrite len_ztab; lia. }
    { apply Forall_ztab. intros. apply (wrap_range U16). }
    rewrite <- Lp at 1. rewrite zfirst_app. rewrite cfg_SCALE, zskip_zskip by lia.
    match type of HQ with Q (?l ++ _) => match goal with |- Q (?a ++ ?b ++ ?r) => replace (a ++ b ++ r) with (l ++ r); [exact HQ|] end end.
    rewrite app_assoc. f_equal. unfold pke_enc. rewrite par_l, par_et. fold n.
    assert (zfirst 32 (zskip (n * 320) (zfirst (n * 320 + 32) pk)) = zfirst 32 (zskip (n * 320) pk)) as ->.
    { assert (len (zfirst (n * 320 + 32) pk) = n * 320 + 32) by (apply len_zfirst; lia).
      apply znth_ext with 0; rewrite !len_zfirst; rewrite ?len_zskip; rewrite ?len_zfirst; try lia.
      intros i Hi. rewrite !znth_zfirst, !znth_zskip by lia. rewrite znth_zfirst by lia. auto. }
    fold A s. f_equal.
    symmetry. unfold ct_msg. apply pack_eqm; [lia|apply len_ztab; lia|apply len_ztab; lia|]. intros k Hk.
    rewrite !get_ztab by lia. rewrite par_l, par_c1, par_et. fold n.
    assert (get (unpack 1 (zfirst 32 m)) k = get mp k) as ->. { change 32 with (32 * 1). now rewrite unpack_first. }
    assert (unpack_vec 10 n (zfirst (n * 320 + 32) pk) = unpack_vec 10 n pk) as ->.
    { unfold unpack_vec. apply ztab_ext. intros i Hi.
      rewrite <- (unpack_first 10 (zskip _ pk)), <- (unpack_first 10 (zskip _ (zfirst _ pk))) by lia. f_equal.
      assert (len (zfirst (n * 320 + 32) pk) = n * 320 + 32) by (apply len_zfirst; lia).
      apply znth_ext with 0; rewrite !len_zfirst; rewrite ?len_zskip; rewrite ?len_zfirst; try lia.
      intros j Hj. rewrite !znth_zfirst, !znth_zskip by lia. rewrite znth_zfirst by lia. auto. }
    assert (eqm 8192 (get v k) (get (inner (Z.to_nat n) (unpack_vec 10 n pk) s) k)) as Ev.
    { eapply eqm_trans; [apply Rv; auto|]. fold n. rewrite get_zeros, Z.add_0_l. apply inner_eqm; auto; intros.
      - apply peq_refl.
      - rewrite getr_mod16. apply peq_mod16. }
    destruct Ev as (q & ->). generalize (get (inner (Z.to_nat n) (unpack_vec 10 n pk) s) k) as x. generalize (get mp k) as y.
    intros y x. clear. unfold SABER_EP.
    assert (0 <= SABER_ET c <= 10 /\ (SABER_ET c = 3 \/ SABER_ET c = 4 \/ SABER_ET c = 6)) as (H1 & H2) by (destruct c as [[] [] ?]; cbn; lia).
    set (z := h1 c). clearbody z.
    eapply eqm_trans; [apply eqm_divide with (65536 / 2 ^ SABER_ET c)|].
    { assert (2 ^ SABER_ET c * (65536 / 2 ^ SABER_ET c) = 65536) as -> by (destruct H2 as [->|[->| ->]]; reflexivity). now apply eqm_mod. }
    rewrite Z.shiftr_div_pow2 by lia. change (2 ^ (10 - 1)) with 512. change (2 ^ 9) with 512. change (2 ^ 10) with 1024.
    exists ((x - 512 * y + z) / 1024 + 8 * q).
    destruct H2 as [->|[->| ->]]; cbn -[Z.div Z.modulo Z.mul Z.add Z.sub]; dlia.
  Qed.

  Lemma wp_dec : forall junk c sk ct m (Q : list Z -> Prop),
    SABER_INDCPA_SECRETKEYBYTES c <= len sk -> typed U8 sk ->
    SABER_BYTES_CCA_DEC c <= len ct -> typed U8 ct -> 32 <= len m ->
    Q (pke_dec (par c) (zfirst (SABER_INDCPA_SECRETKEYBYTES c) sk) ct ++ zskip 32 m) ->
    wp (indcpa_kem_dec junk c sk ct m) Q.
  Proof.
    intros junk c sk ct m Q Lsk Tsk Lct Tct Lm HQ. unfold indcpa_kem_dec.
    pose proof (cfg_L c). pose proof (cfg_EQ c). pose proof (cfg_ET c).
    unfold SABER_BYTES_CCA_DEC, SABER_INDCPA_PUBLICKEYBYTES, SABER_INDCPA_SECRETKEYBYTES, SABER_POLYVECCOMPRESSEDBYTES in *.
    change SABER_POLYCOMPRESSEDBYTES with 320 in *. rewrite cfg_SCALE in *. 
    apply wp_bind, wp_BS2POLVECq; auto; [apply vec_mem_uninit2; lia|].
    rewrite cfg_POLYVECBYTES in *. set (n := SABER_L c) in *.
    apply wp_bind, wp_BS2POLVECp; auto.
    { unfold SABER_POLYVECCOMPRESSEDBYTES. change SABER_POLYCOMPRESSEDBYTES with 320. fold n. lia. }
    { apply vec_mem_uninit2. fold n. lia. }
    fold n. apply wp_bind, wp_InnerProd; [apply vec_unpack; fold n; lia|apply vec_unpack; fold n; lia|apply zeros_arr|].
    intros v (Lv & Tv) Rv. fold n in Rv.
    apply wp_bind, wp_ptr; [lia|]. apply wp_bind, wp_BS2POLT.
    { rewrite cfg_SCALE, len_zskip by lia. lia. }
    { rewrite uninit_len; lia. }
    { now apply Forall_zskip. }
    rewrite (zskip_all 256 (uninit junk 2 256)) by (rewrite uninit_len; lia). rewrite app_nil_r.
    set (cm := unpack (SABER_ET c) (zskip (n * 320) ct)).
    assert (len cm = 256) as Lcm by apply len_unpack.
    assert (typed U16 cm) as Tcm by (apply unpack_typed; lia).
    apply wp_bind, wp_map1 with
      (f := fun j => Z.shiftr (get v j + h2 c - get cm j * 2 ^ (SABER_EP - SABER_ET c)) (SABER_EP - 1) mod 65536); auto; [lia| |].
    { intros j a Hj La Ta Ga. split; [|split].
      - destruct c as [[] [] ?]; reflexivity.
      - cbn [lok tmin tmax]. pose proof (cfg_h1 c). pose proof (cfg_h2 c). unfold SABER_EP. repeat split; auto; lia.
      - cbn [val val_bin ty promote common]. unfold cv, uw. cbn [subr signed]. rewrite Ga. reflexivity. }
    apply wp_POLmsg2BS; [lia|apply Forall_ztab; intros; apply (wrap_range U16)|rewrite len_ztab; lia|]. change (regroup 1 8 32) with (pack 1).
    match type of HQ with Q (?l ++ _) => match goal with |- Q (?a ++ ?r) => replace a with l; [exact HQ|] end end.
    unfold pke_dec. rewrite par_l, par_et, par_eq. fold n. fold cm.
    symmetry. unfold dec_msg. apply pack_eqm; [lia|apply len_ztab; lia|apply len_ztab; lia|]. intros k Hk.
    rewrite !get_ztab by lia. rewrite par_l, par_c2, par_et. fold n.
    assert (unpack_vec (SABER_EQ c) n (zfirst (n * (32 * SABER_EQ c)) sk) = unpack_vec (SABER_EQ c) n sk) as ->.
    { unfold unpack_vec. apply ztab_ext. intros i Hi.
      rewrite <- (unpack_first (SABER_EQ c) (zskip _ sk)), <- (unpack_first (SABER_EQ c) (zskip _ (zfirst _ sk))) by lia. f_equal.
      assert (len (zfirst (n * (32 * SABER_EQ c)) sk) = n * (32 * SABER_EQ c)) by (apply len_zfirst; nia).
      apply znth_ext with 0; rewrite !len_zfirst; rewrite ?len_zskip; rewrite ?len_zfirst; try nia.
      intros j Hj. rewrite !znth_zfirst, !znth_zskip by nia. rewrite znth_zfirst by nia. auto. }
    specialize (Rv k Hk). rewrite get_zeros, Z.add_0_l in Rv. destruct Rv as (q & ->).
    generalize (get (inner (Z.to_nat n) (unpack_vec 10 n ct) (unpack_vec (SABER_EQ c) n sk)) k) as x. generalize (get cm k) as y.
    intros y x. clear. unfold SABER_EP.
    rewrite Z.shiftr_div_pow2 by lia. rewrite (Z.mul_comm y).
    replace (x + 8192 * q + h2 c - 2 ^ (10 - SABER_ET c) * y) with (x + h2 c - 2 ^ (10 - SABER_ET c) * y + 8192 * q) by ring.
    generalize (x + h2 c - 2 ^ (10 - SABER_ET c) * y) as t. clear x y. intros t.
    change (2 ^ (10 - 1)) with 512. change (2 ^ 10) with 1024. change (2 ^ 1) with 2. change (2 ^ 9) with 512.
    eapply eqm_trans; [apply eqm_divide with 32768; now apply eqm_mod|]. exists (t / 1024 + 8 * q). dlia.
  Qed.
End Ref.
