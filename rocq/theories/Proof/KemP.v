(** The key-encapsulation functions refine the specification. *)
From Coq Require Import ZArith List Bool Lia.
From Verif Require Import Lib.Arr Lib.CInt Lib.CMon Spec.Bits Spec.Ring Spec.Sampling Spec.Saber Model.Params Model.Pack
  Model.Poly Model.Verify Model.Indcpa Model.Kem Proof.PackP Proof.PackThm Proof.VerifyP Proof.PolyP Proof.IndcpaP.
Import ListNotations.
Local Open Scope Z_scope.

(** A hash function of [m] bytes writes exactly [F in]. *)
Definition hash_spec (h : mem -> list Z -> list Z -> Z -> M (list Z)) (m : Z) (F : list Z -> list Z) : Prop :=
  forall junk out inp n (Q : list Z -> Prop),
    m <= len out -> 0 <= n <= len inp -> n < 2 ^ 32 -> typed U8 inp ->
    Q (F (zfirst n inp) ++ zskip m out) -> wp (h junk out inp n) Q.

Lemma zfirst_app_at : forall {A} n (a b : list A), len a = n -> zfirst n (a ++ b) = a.
Proof. intros. subst. apply zfirst_app. Qed.
Lemma zskip_app_at : forall {A} n (a b : list A), len a = n -> zskip n (a ++ b) = b.
Proof. intros. subst. apply zskip_app. Qed.
Lemma zfirst_all_at : forall {A} n (a : list A), len a = n -> zfirst n a = a.
Proof. intros. subst. apply zfirst_all. Qed.

Lemma wp_copy : forall n doff soff dst src (fi gi : Z -> Z) (Q : list Z -> Prop),
  0 <= n -> 0 <= doff -> 0 <= soff -> doff + n <= len dst -> soff + n <= len src -> typed U8 src ->
  (forall i, fi i = doff + i) -> (forall i, gi i = soff + i) ->
  Q (zfirst doff dst ++ zfirst n (zskip soff src) ++ zskip (doff + n) dst) ->
  wp (for_ 0 n (fun i d => st U8 d (fi i) (Idx U8 src (gi i))) dst) Q.
Proof.
  intros n doff soff dst src fi gi Q Hn Hd Hs Ld Ls Ts Hf Hg HQ.
  apply wp_for with (I := fun i d => len d = len dst /\ forall k, 0 <= k < len dst ->
    get d k = if (doff <=? k) && (k <? doff + i) then get src (soff + (k - doff)) else get dst k).
  - lia.
  - split; auto. intros k Hk. destruct (_ && _) eqn:E; auto. lia.
  - intros i d Hi (Ll & G). rewrite Hf, Hg. apply wp_st; [reflexivity|cbn [lok]; split; [lia|auto]|lia|].
    rewrite len_upd. split; auto. intros k Hk. unfold get at 1. rewrite znth_upd by lia. destruct (k =? doff + i) eqn:E.
    + assert (k = doff + i) by lia. subst. destruct (_ && _) eqn:E'; [|lia]. cbn [val].
      rewrite (wrap_id U8) by (apply (typed_get U8); auto; lia). f_equal. lia.
    + fold (get d k). rewrite G by lia. destruct ((doff <=? k) && (k <? doff + i)) eqn:E1, ((doff <=? k) && (k <? doff + (i + 1))) eqn:E2; auto; lia.
  - intros d (Ll & G). match goal with H : Q ?x |- _ => replace d with x; auto end.
    assert (len (zfirst doff dst) = doff) as L1 by (apply len_zfirst; lia).
    assert (len (zfirst n (zskip soff src)) = n) as L2 by (apply len_zfirst; rewrite len_zskip; lia).
    assert (len (zskip (doff + n) dst) = len dst - (doff + n)) as L3 by (apply len_zskip; lia).
    apply znth_ext with 0; rewrite !len_app, L1, L2, L3; [lia|]. intros i Hi. fold (get d i). rewrite G by lia.
    destruct (_ && _) eqn:E.
    + rewrite znth_app2 by lia. rewrite znth_app1 by lia. rewrite L1, znth_zfirst, znth_zskip by lia. reflexivity.
    + destruct (Z_lt_dec i doff).
      * rewrite znth_app1 by lia. now rewrite znth_zfirst by lia.
      * rewrite znth_app2 by lia. rewrite znth_app2 by lia. rewrite L1, L2, znth_zskip by lia. unfold get. f_equal. lia.
Qed.

Lemma typed_app : forall t a b, typed t a -> typed t b -> typed t (a ++ b).
Proof. intros. apply Forall_app. auto. Qed.

Section Ref.
  Variable hash_h hash_g : mem -> list Z -> list Z -> Z -> M (list Z).
  Variable prf : mem -> list Z -> Z -> list Z -> Z -> M (list Z).
  Variable H G : list Z -> list Z.
  Variable X : Z -> list Z -> list Z.
  Hypothesis Hh : hash_spec hash_h 32 H.
  Hypothesis Hg : hash_spec hash_g 64 G.
  Hypothesis Hprf : prf_spec prf X.
  Hypothesis HH : forall x, arr U8 32 (H x).
  Hypothesis HG : forall x, arr U8 64 (G x).
  Hypothesis HX : bytes_fun X.
  Context {S : Type}.
  Variable rb : S -> Z -> list Z * S.
  Hypothesis Hrb : forall st n, 0 <= n -> arr U8 n (fst (rb st n)).

  Lemma len_expand_s : forall c r, len (expand_s X (par c) r) = SABER_L c.
  Proof. intros. apply (expand_s_mem X). Qed.

  Lemma pke_pk_arr : forall c a s, arr U8 32 a -> arr U8 (SABER_L c * 320 + 32) (pke_pk X (par c) a s).
  Proof.
    intros c a s (La & Ta). pose proof (cfg_L c). unfold pke_pk. split.
    - rewrite len_app, La, len_pack_vec by lia. unfold pub_vec, round_vec. rewrite len_map, par_l, len_mat_vec by lia. lia.
    - apply typed_app; auto. apply pack_vec_typed.
  Qed.
  Lemma pke_sk_arr : forall c s, arr U8 (SABER_L c * (32 * SABER_EQ c)) (pke_sk X (par c) s).
  Proof.
    intros. pose proof (cfg_L c). pose proof (cfg_EQ c). unfold pke_sk. rewrite par_eq. split; [|apply pack_vec_typed].
    rewrite len_pack_vec, len_expand_s by lia. lia.
  Qed.
  Lemma pke_enc_arr : forall c pk m r, arr U8 (SABER_L c * 320 + 32 * SABER_ET c) (pke_enc X (par c) pk m r).
  Proof.
    intros. pose proof (cfg_L c). pose proof (cfg_ET c). unfold pke_enc. rewrite par_et. split.
    - rewrite len_app, len_pack, len_pack_vec by lia. unfold ct_vec, round_vec. rewrite len_map, par_l, len_mat_vec by lia. lia.
    - apply typed_app; [apply pack_vec_typed|apply pack_typed].
  Qed.
  Lemma pke_dec_arr : forall c sk ct, arr U8 32 (pke_dec (par c) sk ct).
  Proof. intros. unfold pke_dec. split; [now apply len_pack|apply pack_typed]. Qed.
  Lemma kem_pk_arr : forall c r1 r2, arr U8 32 r1 -> arr U8 (SABER_PUBLICKEYBYTES c) (kem_pk X (par c) r1 r2).
  Proof. intros. unfold kem_pk. apply pke_pk_arr. apply HX; [lia|auto]. Qed.

  Lemma sizes : forall c, SABER_PUBLICKEYBYTES c = SABER_L c * 320 + 32 /\
    SABER_SECRETKEYBYTES c = SABER_L c * (32 * SABER_EQ c) + (SABER_L c * 320 + 32) + 64 /\
    SABER_BYTES_CCA_DEC c = SABER_L c * 320 + 32 * SABER_ET c.
  Proof. intros [[] [] ?]; repeat split; reflexivity. Qed.

  Lemma wp_kem_keypair : forall junk c st pk sk (Q : list Z * list Z * S * Z -> Prop),
    len pk = SABER_PUBLICKEYBYTES c -> len sk = SABER_SECRETKEYBYTES c ->
    (let '(r1, s1) := rb st 32 in
     let '(r2, s2) := rb s1 32 in
     let '(z, s3) := rb s2 32 in
     Q (kem_pk X (par c) r1 r2, kem_sk H X (par c) r1 r2 z, s3, 0)) ->
    wp (crypto_kem_keypair hash_h prf rb junk c st pk sk) Q.
  Proof.
    intros junk c st pk sk Q Lpk Lsk HQ. unfold crypto_kem_keypair.
    destruct (sizes c) as (E1 & E2 & _). pose proof (cfg_L c). pose proof (cfg_EQ c).
    apply wp_bind, (wp_keypair prf X Hprf HX rb Hrb); [unfold SABER_PUBLICKEYBYTES in *; lia| |].
    { unfold SABER_INDCPA_SECRETKEYBYTES. rewrite cfg_POLYVECBYTES. lia. }
    cbn beta iota zeta. change (SABER_INDCPA_PUBLICKEYBYTES c) with (SABER_PUBLICKEYBYTES c).
    change (SABER_INDCPA_SECRETKEYBYTES c) with (SABER_POLYVECBYTES c). rewrite cfg_POLYVECBYTES, E1, E2.
    destruct (rb st 32) as (r1, s1) eqn:R1. destruct (rb s1 32) as (r2, s2) eqn:R2. destruct (rb s2 32) as (z, s3) eqn:R3.
    cbn [fst snd]. rewrite R2. cbn [fst snd].
    fold (kem_pk X (par c) r1 r2).
    destruct (kem_pk_arr c r1 r2) as (Lk & Tk); [change r1 with (fst (r1, s1)); rewrite <- R1; apply Hrb; lia|]. rewrite E1 in Lk. set (PK := kem_pk X (par c) r1 r2) in *.
    destruct (pke_sk_arr c r2) as (Ls & Ts). set (SK := pke_sk X (par c) r2) in *.
    set (n1 := SABER_L c * (32 * SABER_EQ c)) in *. set (n2 := SABER_L c * 320 + 32) in *.
    assert (0 <= n1 /\ 0 <= n2 < 2 ^ 32) by (unfold n1, n2; nia).
    rewrite (zskip_all n2 pk) by lia. rewrite app_nil_r.
    assert (len (zskip n1 sk) = n2 + 64) as Lt by (rewrite len_zskip; lia).
    apply wp_bind, wp_copy with (doff := n1) (soff := 0); try lia; auto.
    { rewrite len_app. lia. }
    rewrite zskip_0, (zfirst_all_at n2 PK), (zfirst_app_at n1 SK) by auto.
    rewrite <- (zskip_zskip n2 n1), (zskip_app_at n1 SK) by (auto; lia).
    set (T := zskip n2 (zskip n1 sk)). assert (len T = 64) as LT by (unfold T; rewrite len_zskip; lia).
    replace (n1 + n2 + 64 - 64) with (n1 + n2) by lia. replace (n1 + n2 + 64 - SABER_KEYBYTES) with (n1 + n2 + 32) by (unfold SABER_KEYBYTES; lia).
    apply wp_bind, wp_at; [rewrite !len_app; lia|].
    rewrite <- (zskip_zskip n2 n1), (zskip_app_at n1 SK), (zskip_app_at n2 PK) by (auto; lia).
    apply Hh; try lia; auto; rewrite (zfirst_all_at n2 PK) by auto.
    rewrite (app_assoc SK), (zfirst_app_at (n1 + n2)) by (rewrite len_app; lia).
    destruct (HH PK) as (LH & TH).
    assert (len (zskip 32 T) = 32) as LT2 by (rewrite len_zskip; lia).
    assert (len (SK ++ PK) = n1 + n2) as L12 by (rewrite len_app; lia).
    apply wp_bind, wp_ptr; [rewrite !len_app; lia|].
    rewrite <- (zskip_zskip 32 (n1 + n2)), (zskip_app_at (n1 + n2)), (zskip_app_at 32) by (auto; lia).
    apply wp_bind, wp_randombytes; [unfold SABER_KEYBYTES; lia|]. cbn beta iota. change SABER_KEYBYTES with 32. rewrite R3. cbn [fst snd].
    rewrite (zskip_all 32 (zskip 32 T)) by lia. rewrite app_nil_r.
    apply wp_bind, wp_at; [rewrite !len_app; lia|]. apply wp_ret. apply wp_ret.
    rewrite (app_assoc (SK ++ PK)), (zfirst_app_at (n1 + n2 + 32)) by (rewrite !len_app; lia).
    unfold kem_sk in HQ. fold PK SK in HQ. rewrite <- !app_assoc. exact HQ.
  Qed.

  Lemma wp_kem_enc : forall junk cf st c k pk (Q : list Z * list Z * S * Z -> Prop),
    len c = SABER_BYTES_CCA_DEC cf -> len k = 32 -> arr U8 (SABER_PUBLICKEYBYTES cf) pk ->
    (let '(r, s1) := rb st 32 in
     Q (fst (kem_enc H G X (par cf) pk r), snd (kem_enc H G X (par cf) pk r), s1, 0)) ->
    wp (crypto_kem_enc hash_h hash_g prf rb junk cf st c k pk) Q.
  Proof.
    intros junk cf st c k pk Q Lc Lk (Lpk & Tpk) HQ. unfold crypto_kem_enc.
    destruct (sizes cf) as (E1 & _ & E3). pose proof (cfg_L cf). pose proof (cfg_ET cf).
    change (SABER_INDCPA_PUBLICKEYBYTES cf) with (SABER_PUBLICKEYBYTES cf).
    destruct (Hrb st 32 ltac:(lia)) as (Lr & Tr). destruct (rb st 32) as (r, s1) eqn:R. cbn [fst] in Lr, Tr.
    destruct (uninit8_arr junk 1 64 ltac:(lia)) as (LU & TU).
    apply wp_bind, wp_randombytes; [lia|]. cbn beta iota. rewrite R. cbn [fst snd].
    set (T := zskip 32 (uninit8 junk 1 64)). assert (len T = 32) as LT by (unfold T; rewrite len_zskip; lia).
    assert (typed U8 T) as TT by (unfold T; now apply Forall_zskip).
    assert (len (r ++ T) = 64) as LrT by (rewrite len_app; lia).
    apply wp_bind, Hh; try lia; [now apply typed_app|]. rewrite (zfirst_app_at 32 r) by auto.
    rewrite (zskip_app_at 32 r) by auto. set (m := H r). destruct (HH r) as (Lm & Tm). fold m in Lm, Tm.
    assert (len (m ++ T) = 64) as LmT by (rewrite len_app; lia).
    apply wp_bind, wp_at; [lia|]. rewrite (zskip_app_at 32 m), (zfirst_app_at 32 m) by auto.
    assert (SABER_PUBLICKEYBYTES cf < 2 ^ 32) by lia.
    apply Hh; try lia; auto; rewrite (zfirst_all_at _ pk) by auto.
    rewrite (zskip_all 32 T) by lia. rewrite app_nil_r. destruct (HH pk) as (Lh & Th).
    assert (len (m ++ H pk) = 64) as Lb by (rewrite len_app; lia).
    apply wp_bind, Hg; [rewrite uninit_len; lia|lia|lia|now apply typed_app|]; rewrite (zfirst_all_at _ (m ++ H pk)) by auto.
    rewrite zskip_all by (rewrite uninit_len; lia). rewrite app_nil_r.
    set (kr := G (m ++ H pk)). destruct (HG (m ++ H pk)) as (Lkr & Tkr). fold kr in Lkr, Tkr.
    assert (len (zskip 32 kr) = 32) as Lz by (rewrite len_zskip; lia).
    apply wp_bind, wp_ptr; [lia|].
    apply wp_bind, (wp_enc prf X Hprf HX); auto; try lia.
    { now apply typed_app. }
    { now apply Forall_zskip. }
    { change (SABER_INDCPA_PUBLICKEYBYTES cf) with (SABER_PUBLICKEYBYTES cf). lia. }
    change (SABER_INDCPA_PUBLICKEYBYTES cf) with (SABER_PUBLICKEYBYTES cf).
    rewrite (zfirst_all_at _ pk), (zfirst_app_at 32 m), (zfirst_all_at 32 (zskip 32 kr)) by auto.
    rewrite (zskip_all _ c) by lia. rewrite app_nil_r.
    unfold kem_enc in HQ. fold m kr in HQ. cbn zeta in HQ. cbn [fst snd] in HQ.
    set (ct := pke_enc X (par cf) pk m (zskip 32 kr)) in *.
    destruct (pke_enc_arr cf pk m (zskip 32 kr)) as (Lct & Tct). fold ct in Lct, Tct. rewrite <- E3 in Lct.
    apply wp_bind, wp_at; [lia|].
    assert (SABER_BYTES_CCA_DEC cf < 2 ^ 32) by lia.
    apply Hh; try lia; auto; rewrite (zfirst_all_at _ ct) by auto.
    rewrite (zskip_all 32 (zskip 32 kr)) by lia. rewrite app_nil_r. destruct (HH ct) as (Lhc & Thc).
    assert (len (zfirst 32 kr) = 32) as Lf by (apply len_zfirst; lia).
    assert (len (zfirst 32 kr ++ H ct) = 64) as Lb2 by (rewrite len_app; lia).
    apply wp_bind, Hh; try lia.
    { apply typed_app; auto. now apply Forall_zfirst. }
    rewrite (zfirst_all_at 64 (zfirst 32 kr ++ H ct)) by auto.
    rewrite (zskip_all 32 k) by lia. rewrite app_nil_r. now apply wp_ret.
  Qed.

  Lemma wp_kem_dec : forall junk cf k c sk (Q : list Z * Z -> Prop),
    len k = 32 -> arr U8 (SABER_BYTES_CCA_DEC cf) c -> arr U8 (SABER_SECRETKEYBYTES cf) sk ->
    Q (kem_dec H G X (par cf) sk c, 0) ->
    wp (crypto_kem_dec hash_h hash_g prf junk cf k c sk) Q.
  Proof.
    intros junk cf k c sk Q Lk (Lc & Tc) (Lsk & Tsk) HQ. unfold crypto_kem_dec.
    destruct (sizes cf) as (E1 & E2 & E3). pose proof (cfg_L cf). pose proof (cfg_ET cf). pose proof (cfg_EQ cf).
    change (SABER_INDCPA_SECRETKEYBYTES cf) with (SABER_POLYVECBYTES cf). rewrite cfg_POLYVECBYTES.
    set (n1 := SABER_L cf * (32 * SABER_EQ cf)) in *. 
    set (n2 := SABER_L cf * 320 + 32) in *.
    assert (0 <= n1 /\ 0 <= n2 < 2 ^ 32) by (unfold n1, n2; nia).
    assert (SABER_BYTES_CCA_DEC cf < 2 ^ 32) as Hc32 by (rewrite E3; lia).
    apply wp_bind, wp_ptr; [lia|].
    apply wp_bind, wp_dec; auto; [| |rewrite uninit_len; lia|].
    { change (SABER_INDCPA_SECRETKEYBYTES cf) with (SABER_POLYVECBYTES cf). rewrite cfg_POLYVECBYTES. fold n1. lia. }
    { lia. }
    change (SABER_INDCPA_SECRETKEYBYTES cf) with (SABER_POLYVECBYTES cf). rewrite cfg_POLYVECBYTES. fold n1.
    set (m := pke_dec (par cf) (zfirst n1 sk) c). destruct (pke_dec_arr cf (zfirst n1 sk) c) as (Lm & Tm). fold m in Lm, Tm.
    set (T := zskip 32 (uninit junk 1 64)). assert (len T = 32) as LT by (unfold T; rewrite len_zskip; rewrite uninit_len; lia).
    apply wp_bind, wp_copy with (doff := 32) (soff := n1 + n2); auto; try lia.
    { rewrite len_app. lia. }
    set (hs := zfirst 32 (zskip (n1 + n2) sk)).
    assert (arr U8 32 hs) as (Lhs & Ths).
    { unfold hs. split; [apply len_zfirst; rewrite len_zskip; lia|]. now apply Forall_zfirst, Forall_zskip. }
    rewrite (zfirst_app_at 32 m) by auto. rewrite (zskip_all (32 + 32)) by (rewrite len_app; lia). rewrite app_nil_r.
    assert (len (m ++ hs) = 64) as Lb by (rewrite len_app; lia).
    apply wp_bind, Hg; [rewrite uninit_len; lia|lia|lia|now apply typed_app|]; rewrite (zfirst_all_at _ (m ++ hs)) by auto.
    rewrite zskip_all by (rewrite uninit_len; lia). rewrite app_nil_r.
    set (kr := G (m ++ hs)). destruct (HG (m ++ hs)) as (Lkr & Tkr). fold kr in Lkr, Tkr.
    assert (len (zskip 32 kr) = 32) as Lz by (rewrite len_zskip; lia).
    assert (len (zfirst 32 kr) = 32) as Lf by (apply len_zfirst; lia).
    apply wp_bind, wp_ptr; [lia|].
    apply wp_bind, (wp_enc prf X Hprf HX); auto; try lia.
    { now apply typed_app. }
    { now apply Forall_zskip. }
    { change (SABER_INDCPA_PUBLICKEYBYTES cf) with (SABER_PUBLICKEYBYTES cf). rewrite len_zskip; lia. }
    { now apply Forall_zskip. }
    { rewrite uninit_len; lia. }
    change (SABER_INDCPA_PUBLICKEYBYTES cf) with (SABER_PUBLICKEYBYTES cf). rewrite E1.
    rewrite (zfirst_app_at 32 m), (zfirst_all_at 32 (zskip 32 kr)) by auto.
    rewrite (zskip_all _ (uninit junk 0 _)) by (rewrite uninit_len; lia). rewrite app_nil_r.
    set (pk := zfirst n2 (zskip n1 sk)).
    set (ct := pke_enc X (par cf) pk m (zskip 32 kr)).
    destruct (pke_enc_arr cf pk m (zskip 32 kr)) as (Lct & Tct). fold ct in Lct, Tct. rewrite <- E3 in Lct.
    apply wp_bind, wp_verify; auto; try lia.
    rewrite (zfirst_all_at _ c), (zfirst_all_at _ ct) by auto.
    apply wp_bind, wp_at; [lia|].
    apply Hh; try lia; auto; rewrite (zfirst_all_at _ c) by auto.
    rewrite (zskip_all 32 (zskip 32 kr)) by lia. rewrite app_nil_r. destruct (HH c) as (Lhc & Thc).
    apply wp_bind, wp_ptr; [unfold SABER_KEYBYTES; lia|].
    apply wp_bind, wp_asg; [reflexivity| |].
    { cbn [lok tmin tmax]. destruct (list_eqb c ct); cbn; lia. }
    cbn [val].
    assert (len (zfirst 32 kr ++ H c) = 64) as Lb2 by (rewrite len_app; lia).
    change SABER_KEYBYTES with 32. rewrite E2. replace (n1 + n2 + 64 - 32) with (n1 + n2 + 32) by lia.
    set (z := zskip (n1 + n2 + 32) sk). assert (len z = 32) as Lzz by (unfold z; rewrite len_zskip; lia).
    assert (typed U8 (zfirst 32 kr ++ H c)) as Tb2 by (apply typed_app; auto; now apply Forall_zfirst).
    assert (kem_dec H G X (par cf) sk c = H ((if list_eqb c ct then zfirst 32 kr else z) ++ H c)) as EK.
    { unfold kem_dec, dec_ct, dec_kr, dec_m, sk_pke, sk_pk, sk_hash, sk_z. rewrite par_l, par_eq. fold n1 n2 m hs kr pk ct z.
      rewrite (zfirst_all_at 32 z) by auto. unfold list_eqb. destruct (list_eq_dec Z.eq_dec c ct); reflexivity. }
    rewrite EK in HQ. replace (wrap U8 (if list_eqb c ct then 0 else 1)) with (if list_eqb c ct then 0 else 1) by (now destruct (list_eqb c ct)).
    apply wp_bind, wp_cmov; auto; try lia.
    { unfold z. now apply Forall_zskip. }
    { destruct (list_eqb c ct); auto. }
    assert (sel (if list_eqb c ct then 0 else 1) 32 (zfirst 32 kr ++ H c) z = (if list_eqb c ct then zfirst 32 kr else z) ++ H c) as ->.
    { unfold sel. destruct (list_eqb c ct); cbn [Z.eqb]; auto.
      now rewrite (zfirst_all_at 32 z), (zskip_app_at 32) by auto. }
    set (kf := if list_eqb c ct then zfirst 32 kr else z) in *.
    assert (arr U8 32 kf) as (Lkf & Tkf).
    { unfold kf. destruct (list_eqb c ct); split; auto; [now apply Forall_zfirst|now apply Forall_zskip]. }
    assert (len (kf ++ H c) = 64) as Lb3 by (rewrite len_app; lia).
    apply wp_bind, Hh; try lia.
    { now apply typed_app. }
    rewrite (zfirst_all_at 64 (kf ++ H c)) by auto.
    rewrite (zskip_all 32 k) by lia. rewrite app_nil_r. now apply wp_ret.
  Qed.
End Ref.
