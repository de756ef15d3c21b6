(** Correctness of decryption, exactly. *)
From Coq Require Import ZArith List Bool Lia.
From Verif Require Import Lib.Wire Lib.Arr Lib.CInt Lib.CMon Spec.Bits Spec.Ring Spec.Sampling Spec.Saber Spec.Noise Spec.Keccak
  Model.Params Model.Indcpa Proof.PackP Proof.PackThm Proof.Conv Proof.PolyP Proof.IndcpaP Proof.KemP.
Import ListNotations.
Local Open Scope Z_scope.

(** One coefficient. *)
Lemma window_iff : forall et v v' m c1, 1 <= et <= 9 -> (m = 0 \/ m = 1) ->
  let x := (v - 2 ^ 9 * m + c1) mod 2 ^ 10 in
  let k := 10 - et in
  ((v' + (2 ^ 8 - 2 ^ (k - 1) + c1) - 2 ^ k * (x / 2 ^ k)) mod 2 ^ 10) / 2 ^ 9 = m <->
  in_window (v' - v + (x mod 2 ^ k - 2 ^ (k - 1))).
Proof.
  intros et v v' m c1 Het Hm x k. unfold in_window.
  assert (0 < 2 ^ k) as Pk by (apply Z.pow_pos_nonneg; lia).
  pose proof (Z.div_mod x (2 ^ k) ltac:(lia)) as DX.
  set (r := x mod 2 ^ k) in *. set (h := 2 ^ (k - 1)) in *.
  pose proof (Z.div_mod (v - 2 ^ 9 * m + c1) (2 ^ 10) ltac:(lia)) as DV. fold x in DV. set (q := (v - 2 ^ 9 * m + c1) / 2 ^ 10) in *.
  replace (v' + (2 ^ 8 - h + c1) - 2 ^ k * (x / 2 ^ k)) with (v' - v + (r - h) + 2 ^ 8 + 2 ^ 9 * m + q * 2 ^ 10) by lia.
  rewrite Z.mod_add by lia. set (e := v' - v + (r - h)).
  change (2 ^ 10) with 1024. change (2 ^ 9) with 512. change (2 ^ 8) with 256.
  pose proof (Z.div_mod (e + 256 + 512 * m) 1024 ltac:(lia)). pose proof (Z.mod_pos_bound (e + 256 + 512 * m) 1024 ltac:(lia)).
  pose proof (Z.div_mod (e + 512) 1024 ltac:(lia)). pose proof (Z.mod_pos_bound (e + 512) 1024 ltac:(lia)).
  set (y := (e + 256 + 512 * m) mod 1024) in *. set (z := (e + 512) mod 1024) in *.
  pose proof (Z.div_mod y 512 ltac:(lia)). pose proof (Z.mod_pos_bound y 512 ltac:(lia)).
  destruct Hm as [-> | ->]; lia.
Qed.

Lemma rc2_eq : forall c, rc2 (par c) = 2 ^ 8 - 2 ^ (10 - SABER_ET c - 1) + rc1 (par c).
Proof. intros [[] [] ?]; reflexivity. Qed.

(** Polynomial level: secret known modulo 2^10, message with coefficients 0 and 1. *)
Lemma dec_msg_iff : forall c A s s' s2 m k, 0 <= k < 256 -> (get m k = 0 \/ get m k = 1) ->
  (forall i, 0 <= i < SABER_L c -> peq (2 ^ 10) (getr s2 i) (getr s i)) ->
  get (dec_msg (par c) (ct_vec (par c) A s') s2 (ct_msg (par c) (pub_vec (par c) A s) s' m)) k = get m k <->
  in_window (noise (par c) A s s' m k).
Proof.
  intros c A s s' s2 m k Hk Hm Hs. pose proof (cfg_ET c) as ET. pose proof (cfg_L c).
  unfold noise. rewrite par_et, par_l.
  set (b := pub_vec (par c) A s). set (b' := ct_vec (par c) A s').
  unfold dec_msg. rewrite get_ztab by auto. unfold ct_msg at 1. rewrite get_ztab by auto. rewrite par_et, par_l.
  rewrite rc2_eq.
  assert (eqm (2 ^ 10) (get (inner (Z.to_nat (SABER_L c)) b' s2) k) (get (inner (Z.to_nat (SABER_L c)) b' s) k)) as (q & Hq).
  { apply inner_eqm; auto; intros; [apply peq_refl|]. apply Hs. lia. }
  rewrite <- window_iff by (auto; lia).
  rewrite Hq.
  set (v := get (inner _ b s') k). set (v' := get (inner _ b' s) k).
  match goal with |- (?a mod _) / _ = _ <-> (?b mod _) / _ = _ => replace a with (b + q * 2 ^ 10) by lia end.
  rewrite Z.mod_add by lia. reflexivity.
Qed.

Lemma round_qp_range : forall c x, 0 <= round_qp (par c) x < 2 ^ 10.
Proof.
  intros. unfold round_qp. rewrite par_eq. pose proof (cfg_EQ c).
  assert (2 ^ SABER_EQ c = 2 ^ (SABER_EQ c - 10) * 2 ^ 10) as E by (rewrite <- Z.pow_add_r by lia; f_equal; lia).
  assert (0 < 2 ^ (SABER_EQ c - 10)) by (apply Z.pow_pos_nonneg; lia).
  pose proof (Z.mod_pos_bound (x + rc1 (par c)) (2 ^ SABER_EQ c)).
  split; [apply Z.div_pos; lia|apply Z.div_lt_upper_bound; lia].
Qed.

Lemma map_map_mod : forall w v, Forall (Forall (fun z => 0 <= z < 2 ^ w)) v -> map (map (fun x => x mod 2 ^ w)) v = v.
Proof. intros w v H. induction H; cbn [map]; auto. rewrite map_mod_small, IHForall; auto. Qed.

Lemma round_vec_range : forall c v, Forall (Forall (fun z => 0 <= z < 2 ^ 10)) (round_vec (par c) v).
Proof.
  intros. apply Forall_map, Forall_forall. intros l _. apply Forall_map, Forall_forall. intros. apply round_qp_range.
Qed.

Lemma round_vec_len : forall c n A s, 0 <= n -> vec_mem n (round_vec (par c) (mat_vec n A s)).
Proof.
  intros. destruct (vec_mem_mat_vec n A s H) as (L & F). split; [unfold round_vec; now rewrite len_map|].
  apply Forall_map. eapply Forall_impl; [|exact F]. intros. now rewrite len_map.
Qed.

Lemma unpack_pack_round : forall n v r, 0 <= n -> vec_mem n v -> Forall (Forall (fun z => 0 <= z < 2 ^ 10)) v ->
  unpack_vec 10 n (pack_vec 10 v ++ r) = v.
Proof.
  intros n v r Hn (L & F) R. transitivity (unpack_vec 10 n (pack_vec 10 v)).
  - unfold unpack_vec. apply ztab_ext. intros i Hi.
    rewrite <- (unpack_first 10 (zskip _ (pack_vec 10 v))), <- unpack_first by lia. f_equal.
    assert (len (pack_vec 10 v) = 320 * n) as Lp by (rewrite len_pack_vec by lia; lia).
    apply znth_ext with 0.
    + rewrite !len_zfirst; auto; rewrite len_zskip, ?len_app; rewrite ?len_app; pose proof (len_nonneg r); lia.
    + rewrite len_zfirst by (rewrite len_zskip, ?len_app; rewrite ?len_app; pose proof (len_nonneg r); lia). intros j Hj.
      rewrite !znth_zfirst, !znth_zskip, znth_app1 by lia. reflexivity.
  - rewrite <- L. rewrite unpack_pack_vec by (auto; lia). now apply map_map_mod.
Qed.

Lemma unpack_bit : forall m k, 0 <= k < 256 -> get (unpack 1 m) k = Z.b2z (fbit 8 m k).
Proof.
  intros. unfold unpack. rewrite get_regroup by lia. change (bits_val 1 ?f) with (Z.b2z (f 0) + 2 * 0).
  cbn beta. replace (1 * k + 0) with k by lia. lia.
Qed.

Lemma pack_bit : forall l k, 0 <= k < 256 -> (get l k = 0 \/ get l k = 1) -> Z.b2z (fbit 8 (pack 1 l) k) = get l k.
Proof.
  intros l k Hk Hl. unfold pack. rewrite fbit_regroup by lia. unfold fbit. rewrite Z.div_1_r, Z.mod_1_r.
  destruct Hl as [-> | ->]; reflexivity.
Qed.

Lemma dec_msg_01 : forall p b s cm k, 0 <= k < 256 -> get (dec_msg p b s cm) k = 0 \/ get (dec_msg p b s cm) k = 1.
Proof.
  intros. unfold dec_msg. rewrite get_ztab by auto. set (y := _ mod 2 ^ 10). assert (0 <= y < 2 ^ 10) by (apply Z.mod_pos_bound; lia).
  assert (0 <= y / 2 ^ 9 < 2) by (split; [apply Z.div_pos; lia|apply Z.div_lt_upper_bound; lia]). lia.
Qed.

Lemma ct_msg_ok : forall c b s m, let cm := ct_msg (par c) b s m in
  len cm = 256 /\ Forall (fun z => 0 <= z < 2 ^ SABER_ET c) cm.
Proof.
  intros c b s m cm. split; [apply len_ztab; lia|]. apply Forall_ztab. intros i Hi. rewrite par_et. pose proof (cfg_ET c).
  assert (2 ^ 10 = 2 ^ (10 - SABER_ET c) * 2 ^ SABER_ET c) as E by (rewrite <- Z.pow_add_r by lia; f_equal; lia).
  assert (0 < 2 ^ (10 - SABER_ET c)) by (apply Z.pow_pos_nonneg; lia).
  set (y := _ mod 2 ^ 10). assert (0 <= y < 2 ^ 10) by (apply Z.mod_pos_bound; lia).
  split; [apply Z.div_pos; lia|apply Z.div_lt_upper_bound; lia].
Qed.

Lemma getr_map_mod : forall w v i, getr (map (map (fun x => x mod 2 ^ w)) v) i = map (fun x => x mod 2 ^ w) (getr v i).
Proof.
  intros. unfold getr. destruct (Z_lt_dec i 0); [rewrite !znth_default by lia; auto|].
  destruct (Z_lt_dec i (len v)).
  - now rewrite znth_map with (d := []) by lia.
  - rewrite !znth_default by (rewrite ?len_map; lia). auto.
Qed.

Lemma peq_map_mod : forall w l, 10 <= w -> peq (2 ^ 10) (map (fun x => x mod 2 ^ w) l) l.
Proof.
  intros w l Hw k Hk. unfold get. destruct (Z_lt_dec k (len l)).
  - rewrite znth_map with (d := 0) by lia. set (x := znth 0 l k).
    exists (- (2 ^ (w - 10) * (x / 2 ^ w))). pose proof (Z.div_mod x (2 ^ w)).
    assert (2 ^ w = 2 ^ 10 * 2 ^ (w - 10)) as E by (rewrite <- Z.pow_add_r by lia; f_equal; lia).
    assert (0 < 2 ^ w) by (apply Z.pow_pos_nonneg; lia). nia.
  - rewrite !znth_default by (rewrite ?len_map; lia). apply eqm_refl.
Qed.

Section Bytes.
  Variable H G : list Z -> list Z.
  Variable X : Z -> list Z -> list Z.
  Hypothesis HH : forall x, len (H x) = 32.
  Hypothesis HG : forall x, len (G x) = 64.
  Hypothesis HX : forall x, len (X 32 x) = 32.

  Lemma pke_bit : forall c seed_A seed_s m r k, len seed_A = 32 -> 0 <= k < 256 ->
    fbit 8 (pke_dec (par c) (pke_sk X (par c) seed_s) (pke_enc X (par c) (pke_pk X (par c) seed_A seed_s) m r)) k = fbit 8 m k <->
    in_window (pke_noise X (par c) seed_A seed_s m r k).
  Proof.
    intros c seed_A seed_s m r k LA Hk. pose proof (cfg_L c). pose proof (cfg_ET c). pose proof (cfg_EQ c).
    unfold pke_noise. rewrite <- dec_msg_iff with (s2 := unpack_vec (p_eq (par c)) (p_l (par c)) (pke_sk X (par c) seed_s)); auto.
    - unfold pke_dec, pke_enc.
      set (A := expand_A X (par c) seed_A). set (s := expand_s X (par c) seed_s). set (s' := expand_s X (par c) r).
      set (s2 := unpack_vec (p_eq (par c)) (p_l (par c)) (pke_sk X (par c) seed_s)).
      unfold pke_pk. fold A s.
      assert (len (pack_vec 10 (pub_vec (par c) A s)) = SABER_L c * 320) as L1.
      { rewrite len_pack_vec by lia. unfold pub_vec, round_vec. rewrite len_map, par_l, len_mat_vec by lia. lia. }
      assert (len (pack_vec 10 (ct_vec (par c) A s')) = SABER_L c * 320) as L2.
      { rewrite len_pack_vec by lia. unfold ct_vec, round_vec. rewrite len_map, par_l, len_mat_vec by lia. lia. }
      rewrite par_l.
      rewrite (unpack_pack_round _ (pub_vec (par c) A s)); [|lia|unfold pub_vec; rewrite par_l; apply round_vec_len; lia|apply round_vec_range].
      rewrite (zskip_app_at _ (pack_vec 10 (pub_vec (par c) A s))) by auto. rewrite (zfirst_all_at 32 seed_A) by auto. fold A.
      rewrite (unpack_pack_round _ (ct_vec (par c) A s')); [|lia|unfold ct_vec; rewrite par_l; apply round_vec_len; lia|apply round_vec_range].
      rewrite (zskip_app_at _ (pack_vec 10 (ct_vec (par c) A s'))) by auto.
      destruct (ct_msg_ok c (pub_vec (par c) A s) s' (unpack 1 m)) as (L3 & R3).
      rewrite par_et, unpack_pack by (auto; lia). rewrite map_mod_small by auto.
      set (cm := ct_msg _ _ _ _). rewrite <- (pack_bit (dec_msg (par c) _ _ cm)) by (auto; apply dec_msg_01; auto).
      rewrite unpack_bit by auto.
      destruct (fbit 8 _ k), (fbit 8 m k); cbn; split; congruence.
    - rewrite unpack_bit by auto. destruct (fbit 8 m k); auto.
    - intros i Hi. unfold pke_sk. rewrite par_l, par_eq. destruct (expand_s_mem X c seed_s) as (Ls & Fs).
      rewrite <- Ls at 1. rewrite unpack_pack_vec by (auto; lia). rewrite getr_map_mod. apply peq_map_mod. lia.
  Qed.

  Lemma bytes_ext : forall a b, arr U8 32 a -> arr U8 32 b -> (forall k, 0 <= k < 256 -> fbit 8 a k = fbit 8 b k) -> a = b.
  Proof.
    intros a b (La & Ta) (Lb & Tb) E. apply znth_ext with 0; [lia|]. intros i Hi.
    pose proof (typed_get U8 a i Ta Hi). pose proof (typed_get U8 b i Tb ltac:(lia)). cbn [tmin tmax] in *.
    fold (get a i) (get b i). apply Z.bits_inj'. intros j Hj. destruct (Z_lt_dec j 8).
    - rewrite <- !(fbit_at 8) by lia. apply E. lia.
    - rewrite !(testbit_high 8); auto; lia.
  Qed.

  Hypothesis HHT : forall x, typed U8 (H x).

  Lemma pke_roundtrip : forall c seed_A seed_s m r, len seed_A = 32 -> arr U8 32 m ->
    (forall k, 0 <= k < 256 -> in_window (pke_noise X (par c) seed_A seed_s m r k)) ->
    pke_dec (par c) (pke_sk X (par c) seed_s) (pke_enc X (par c) (pke_pk X (par c) seed_A seed_s) m r) = m.
  Proof.
    intros. apply bytes_ext; auto; [apply pke_dec_arr|]. intros. apply pke_bit; auto.
  Qed.

  (** Components of a generated secret key. *)
  Lemma gen_sk : forall c r1 r2 z, len z = 32 ->
    let sk := kem_sk H X (par c) r1 r2 z in let pk := kem_pk X (par c) r1 r2 in
    sk_pke (par c) sk = pke_sk X (par c) r2 /\ sk_pk (par c) sk = pk /\ sk_hash (par c) sk = H pk /\ sk_z (par c) sk = z.
  Proof.
    intros c r1 r2 z Lz sk pk. subst sk. unfold kem_sk, sk_pke, sk_pk, sk_hash, sk_z. rewrite par_l, par_eq. fold pk.
    assert (len (pke_sk X (par c) r2) = SABER_L c * (32 * SABER_EQ c)) as L1 by apply pke_sk_arr.
    pose proof (cfg_L c). pose proof (cfg_EQ c).
    assert (len pk = SABER_L c * 320 + 32) as L2.
    { unfold pk, kem_pk, pke_pk. rewrite len_app, HX, len_pack_vec by lia. unfold pub_vec, round_vec. rewrite len_map, par_l, len_mat_vec by lia. lia. }
    repeat split.
    - now apply zfirst_app_at.
    - rewrite zskip_app_at by auto. now apply zfirst_app_at.
    - rewrite <- (zskip_zskip (SABER_L c * 320 + 32)) by lia. rewrite zskip_app_at by auto.
      rewrite zskip_app_at by auto. now apply zfirst_app_at.
    - rewrite <- (zskip_zskip 32), <- (zskip_zskip (SABER_L c * 320 + 32)) by lia. rewrite zskip_app_at by auto.
      rewrite zskip_app_at by auto. rewrite zskip_app_at by auto. now apply zfirst_all_at.
  Qed.

  Lemma kem_accept : forall c r1 r2 z rnd, len z = 32 ->
    (forall k, 0 <= k < 256 -> in_window (kem_noise H G X (par c) r1 r2 rnd k)) ->
    let sk := kem_sk H X (par c) r1 r2 z in let ct := fst (kem_enc H G X (par c) (kem_pk X (par c) r1 r2) rnd) in
    dec_kr G (par c) sk ct = G (H rnd ++ H (kem_pk X (par c) r1 r2)) /\ ct = dec_ct G X (par c) sk ct.
  Proof.
    intros c r1 r2 z rnd Lz HW. destruct (gen_sk c r1 r2 z Lz) as (E1 & E2 & E3 & E4).
    unfold kem_enc. cbn [fst snd]. set (pk := kem_pk X (par c) r1 r2) in *. set (sk := kem_sk H X (par c) r1 r2 z) in *.
    set (m := H rnd). set (kr := G (m ++ H pk)). set (ct := pke_enc X (par c) pk m (zskip 32 kr)). cbn zeta.
    assert (dec_m (par c) sk ct = m) as Em.
    { unfold dec_m. rewrite E1. apply pke_roundtrip; [apply HX|split; [apply HH|apply HHT]|exact HW]. }
    assert (dec_kr G (par c) sk ct = kr) as Ekr by (unfold dec_kr; now rewrite Em, E3).
    split; [exact Ekr|]. unfold dec_ct. now rewrite E2, Em, Ekr.
  Qed.

  Lemma kem_roundtrip : forall c r1 r2 z rnd, len z = 32 ->
    (forall k, 0 <= k < 256 -> in_window (kem_noise H G X (par c) r1 r2 rnd k)) ->
    kem_dec H G X (par c) (kem_sk H X (par c) r1 r2 z) (fst (kem_enc H G X (par c) (kem_pk X (par c) r1 r2) rnd)) =
    snd (kem_enc H G X (par c) (kem_pk X (par c) r1 r2) rnd).
  Proof.
    intros c r1 r2 z rnd Lz HW. destruct (kem_accept c r1 r2 z rnd Lz HW) as (Ekr & Ec). unfold kem_dec. rewrite Ekr.
    destruct (list_eq_dec Z.eq_dec _ _) as [_|N]; [reflexivity|contradiction].
  Qed.
End Bytes.
