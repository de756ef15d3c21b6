(** The four-fold key encapsulation of SaberX4: four runs of the reference if the buffers of shake128x4 are large enough, undefined as written. *)
From Coq Require Import ZArith List Bool Lia.
From Verif Require Import Lib.Arr Lib.CInt Lib.CMon Lib.Wire Spec.Bits Spec.Ring Spec.Sampling Spec.Saber Spec.Keccak Spec.Sym Spec.X4Spec Model.Params Model.Verify Model.Kem Model.Api
  Proof.VerifyP Model.Fips202x4 Model.X4Kem
  Proof.PackP Proof.PackThm Proof.PolyP Proof.IndcpaP Proof.KemP Proof.SymP Proof.KemThm Proof.Keccak4P Proof.Sponge4P
  Proof.M4Thm Proof.M0P Proof.X4Ub Proof.X4IndP.
Import ListNotations.
Local Open Scope Z_scope.
Local Notation X := (PRF false).
Local Notation Hf := (HashH false).
Local Notation Gf := (HashG false).
Local Notation p4 := (par x4).

Lemma sel_all : forall A (P : Z -> A -> Prop) (q : quad A), P 0 (sel q 0) -> P 1 (sel q 1) -> P 2 (sel q 2) -> P 3 (sel q 3) -> forall m, 0 <= m < 4 -> P m (sel q m).
Proof. intros A P q H0 H1 H2 H3 m Hm. assert (m = 0 \/ m = 1 \/ m = 2 \/ m = 3) as [-> | [-> | [-> | ->]]] by lia; auto. Qed.

Lemma wp_at4 : forall q off f (Q : quad (list Z) -> Prop),
  (forall m, 0 <= m < 4 -> 0 <= off <= len (sel q m)) ->
  wp (f (tab4 (fun m => zskip off (sel q m)))) (fun p => Q (tab4 (fun m => zfirst off (sel q m) ++ sel p m))) ->
  wp (at4 q off f) Q.
Proof.
  intros q off f Q Hq HQ. unfold at4. apply wp_bind, wp_for4_eq with (g := fun m => zskip off (sel q m)).
  { intros m Hm P HP. apply wp_ptr; auto. }
  apply wp_bind. eapply wp_mono; [exact HQ|]. cbn beta. intros p Hp. apply wp_for4_eq with (g := fun m => zfirst off (sel q m) ++ sel p m); auto.
  intros m Hm P HP. apply wp_at; auto. now apply wp_ret.
Qed.

Lemma wp_quarters : forall n x (Q : quad (list Z) -> Prop), 0 <= n -> 4 * n <= len x -> Q (tab4 (fun m => part n m x)) -> wp (quarters n x) Q.
Proof.
  intros n x Q Hn Hx HQ. unfold quarters. apply wp_for4_eq with (g := fun m => part n m x); auto.
  intros m Hm P HP. assert (0 <= m * n <= 3 * n) by nia. apply wp_bind, wp_ptr; [lia|]. destruct (Z.leb_spec n (len (zskip (m * n) x))) as [Hl|Hl].
  - now apply wp_ret.
  - rewrite len_zskip in Hl by lia. lia.
Qed.

Lemma len_part : forall n m x, 0 <= n -> 0 <= m < 4 -> 4 * n <= len x -> len (part n m x) = n.
Proof. intros n m x Hn Hm Hx. unfold part. assert (0 <= m * n <= 3 * n) by nia. apply len_zfirst. rewrite len_zskip by lia. lia. Qed.

Lemma part_bytes : forall n m x, 0 <= n -> 0 <= m < 4 -> arr U8 (4 * n) x -> arr U8 n (part n m x).
Proof. intros n m x Hn Hm (L & T). split; [apply len_part; lia|]. unfold part. now apply Forall_zfirst, Forall_zskip. Qed.

Section Rb.
  Context {S : Type}.
  Variable rb : S -> Z -> list Z * S.
  Hypothesis Hrb : source_ok rb.

  Lemma wp_draw3 : forall junk s m (Q : list Z * list Z * list Z * S -> Prop),
    (let '(a, s1) := rb s 32 in let '(b, s2) := rb s1 32 in let '(z, s3) := rb s2 32 in
     arr U8 32 a -> arr U8 32 b -> arr U8 32 z -> Q (a, b, z, s3)) -> wp (draw3 rb junk s m) Q.
  Proof.
    intros junk s m Q HQ. unfold draw3. change SABER_SEEDBYTES with 32. change SABER_KEYBYTES with 32.
    destruct (rb s 32) as (a, s1) eqn:R1. destruct (rb s1 32) as (b, s2) eqn:R2. destruct (rb s2 32) as (z, s3) eqn:R3.
    do 3 (apply wp_bind, wp_randombytes; [rewrite uninit_len; lia|]; rewrite ?R1, ?R2, ?R3; cbn [fst snd]; rewrite zskip_all, app_nil_r by (rewrite uninit_len; lia)).
    apply wp_ret. apply HQ.
    - change a with (fst (a, s1)). rewrite <- R1. apply Hrb. lia.
    - change b with (fst (b, s2)). rewrite <- R2. apply Hrb. lia.
    - change z with (fst (z, s3)). rewrite <- R3. apply Hrb. lia.
  Qed.

  (** Key generation after the random bytes have been drawn. *)
  Lemma wp_keypair_rest : forall junk seed noise key pk sk (s : S) (Q : quad (list Z) * quad (list Z) * S -> Prop),
    (forall m, 0 <= m < 4 -> len (sel pk m) = 992 /\ len (sel sk m) = 2304) ->
    (forall m, 0 <= m < 4 -> arr U8 32 (sel seed m) /\ arr U8 32 (sel noise m) /\ arr U8 32 (sel key m)) ->
    Q (tab4 (fun m => kem_pk X p4 (sel seed m) (sel noise m)), tab4 (fun m => kem_sk Hf X p4 (sel seed m) (sel noise m) (sel key m)), s) ->
    wp ('(pk, sk) <- x4_indcpa_keypair 168 (sub junk 3) pk sk seed noise ;;
        sk <- for_ 0 (SABER_INDCPA_PUBLICKEYBYTES x4) (fun i => for4 (fun m sk =>
          st U8 sk (i + SABER_INDCPA_SECRETKEYBYTES x4) (Idx U8 (sel pk m) i))) sk ;;
        sk <- at4 sk (SABER_SECRETKEYBYTES x4 - 64) (fun p => sha3_256x4 (sub junk 4) p pk (SABER_INDCPA_PUBLICKEYBYTES x4)) ;;
        sk <- for_ 0 SABER_KEYBYTES (fun i => for4 (fun m sk =>
          st U8 sk (i + SABER_SECRETKEYBYTES x4 - SABER_KEYBYTES) (Idx U8 (sel key m) i))) sk ;;
        ret (pk, sk, s)) Q.
  Proof.
    intros junk seed noise key pk sk s Q HL HA HQ. change (SABER_INDCPA_PUBLICKEYBYTES x4) with 992. change (SABER_INDCPA_SECRETKEYBYTES x4) with 1248.
    change (SABER_SECRETKEYBYTES x4) with 2304. change SABER_KEYBYTES with 32. change (2304 - 64) with 2240.
    set (PK := fun m => kem_pk X p4 (sel seed m) (sel noise m)). set (SK := fun m => pke_sk X p4 (sel noise m)).
    assert (forall m, 0 <= m < 4 -> arr U8 992 (PK m)) as HPK.
    { intros m Hm. exact (kem_pk_arr X (PRF_bytes false) x4 (sel seed m) (sel noise m) (proj1 (HA m Hm))). }
    assert (forall m, arr U8 1248 (SK m)) as HSK by (intros m; exact (pke_sk_arr X x4 (sel noise m))).
    apply wp_bind, wp_eqr with (v := (tab4 PK, tab4 (fun m => SK m ++ zskip 1248 (sel sk m)))).
    { apply wp_x4_keypair.
      - intros m Hm. destruct (HL m Hm), (HA m Hm) as (A1 & A2 & _). split; [lia|]. split; [lia|]. split; [exact A1|exact A2].
      - f_equal. apply tab4_ext. intros m Hm. destruct (HL m Hm) as (L & _). rewrite zskip_all by lia. now rewrite app_nil_r. }
    apply wp_bind, wp_eqr with (v := tab4 (fun m => SK m ++ PK m ++ zskip 2240 (sel sk m))).
    { apply wp_copy4 with (doff := 1248) (soff := 0); auto; try lia.
      - intros m Hm. rewrite !sel_tab4 by auto. destruct (HL m Hm), (HSK m), (HPK m Hm). rewrite len_app, len_zskip by lia. repeat split; auto; lia.
      - apply tab4_ext. intros m Hm. rewrite !sel_tab4 by auto. destruct (HL m Hm), (HSK m), (HPK m Hm).
        rewrite (zfirst_app_at 1248), zskip_0, (zfirst_all_at 992) by auto.
        change (1248 + 992) with (992 + 1248). rewrite <- (zskip_zskip 992 1248), (zskip_app_at 1248), zskip_zskip by (auto; lia). reflexivity. }
    apply wp_bind, wp_eqr with (v := tab4 (fun m => SK m ++ PK m ++ Hf (PK m) ++ zskip 2272 (sel sk m))).
    { apply wp_at4.
      { intros m Hm. rewrite !sel_tab4 by auto. destruct (HL m Hm), (HSK m), (HPK m Hm). rewrite !len_app, len_zskip by lia. lia. }
      apply wp_sha3_256x4; [lia| | |].
      - intros m Hm. rewrite !sel_tab4 by auto. destruct (HL m Hm), (HSK m), (HPK m Hm). rewrite len_zskip; rewrite !len_app, len_zskip by lia; lia.
      - intros m Hm. rewrite !sel_tab4 by auto. destruct (HPK m Hm). split; [lia|auto].
      - apply tab4_ext. intros m Hm. rewrite !sel_tab4 by auto. destruct (HL m Hm), (HSK m) as (L1 & _), (HPK m Hm) as (L2 & _).
        assert (len (SK m ++ PK m) = 2240) as L12 by (rewrite len_app; lia).
        rewrite (zfirst_all_at 992) by auto. rewrite (app_assoc (SK m) (PK m) (zskip 2240 _)), (zfirst_app_at 2240), (zskip_app_at 2240) by auto.
        rewrite zskip_zskip by lia. rewrite <- app_assoc. reflexivity. }
    apply wp_bind, wp_eqr with (v := tab4 (fun m => kem_sk Hf X p4 (sel seed m) (sel noise m) (sel key m))); [|apply wp_ret; exact HQ].
    apply wp_copy4 with (doff := 2272) (soff := 0); auto; try lia.
    - intros m Hm. rewrite !sel_tab4 by auto. destruct (HL m Hm), (HSK m), (HPK m Hm), (HashH_arr false (PK m)), (HA m Hm) as (_ & _ & ? & ?).
      rewrite !len_app, len_zskip by lia. repeat split; auto; lia.
    - apply tab4_ext. intros m Hm. rewrite !sel_tab4 by auto.
      destruct (HL m Hm), (HSK m) as (L1 & _), (HPK m Hm) as (L2 & _), (HashH_arr false (PK m)) as (L3 & _), (HA m Hm) as (_ & _ & L4 & _).
      assert (len (SK m ++ PK m ++ Hf (PK m)) = 2272) as L by (rewrite !len_app; lia).
      rewrite (app_assoc (PK m)), (app_assoc (SK m)), (zfirst_app_at 2272) by (rewrite <- ?app_assoc; auto).
      rewrite zskip_0, (zfirst_all_at 32) by auto. rewrite (zskip_all (2272 + 32)) by (rewrite !len_app, len_zskip by lia; lia).
      rewrite app_nil_r, <- !app_assoc. reflexivity.
  Qed.

  Lemma sel_quad : forall A (a0 a1 a2 a3 : A) (P : A -> Prop), P a0 -> P a1 -> P a2 -> P a3 -> forall m, 0 <= m < 4 -> P (sel (a0, a1, a2, a3) m).
  Proof. intros A a0 a1 a2 a3 P H0 H1 H2 H3. apply (sel_all A (fun _ => P)); auto. Qed.

  Lemma keypair_arr : forall s n, 0 <= n -> forall a s', rb s n = (a, s') -> arr U8 n a.
  Proof. intros s n Hn a s' E. change a with (fst (a, s')). rewrite <- E. now apply Hrb. Qed.

  (** What the reference computes. *)
  Definition kp (s : S) : list Z * list Z * S :=
    let '(a, s1) := rb s 32 in let '(b, s2) := rb s1 32 in let '(z, s3) := rb s2 32 in
    (kem_pk X p4 a b, kem_sk Hf X p4 a b z, s3).

  Lemma wp_x4_kem_keypair : forall junk s pk sk p0 k0 s0 p1 k1 s1 p2 k2 s2 p3 k3 s3 (Q : list Z * list Z * S * Z -> Prop),
    len pk = 4 * 992 -> len sk = 4 * 2304 ->
    kp s = (p0, k0, s0) -> kp s0 = (p1, k1, s1) -> kp s1 = (p2, k2, s2) -> kp s2 = (p3, k3, s3) ->
    Q (p0 ++ p1 ++ p2 ++ p3, k0 ++ k1 ++ k2 ++ k3, s3, 0) ->
    wp (x4_kem_keypair rb 168 junk s pk sk) Q.
  Proof.
    intros junk s pk sk p0 k0 s0 p1 k1 s1 p2 k2 s2 p3 k3 s3 Q Lp Ls E0 E1 E2 E3 HQ. unfold x4_kem_keypair.
    change (SABER_PUBLICKEYBYTES x4) with 992. change (SABER_SECRETKEYBYTES x4) with 2304.
    apply wp_bind, wp_quarters; [lia|lia|]. apply wp_bind, wp_quarters; [lia|lia|].
    set (pkq := tab4 (fun m => part 992 m pk)). set (skq := tab4 (fun m => part 2304 m sk)).
    assert (forall m, 0 <= m < 4 -> len (sel pkq m) = 992 /\ len (sel skq m) = 2304) as HL.
    { intros m Hm. unfold pkq, skq. rewrite !sel_tab4 by auto. split; apply len_part; lia. }
    clearbody pkq skq. apply wp_bind. unfold keypair4x.
    unfold kp in E0, E1, E2, E3.
    apply wp_bind, wp_draw3. destruct (rb s 32) as (x0, u0). destruct (rb u0 32) as (y0, v0). destruct (rb v0 32) as (z0, w0). intros X0 Y0 Z0.
    cbn beta iota. apply wp_bind, wp_draw3. injection E0 as <- <- <-. destruct (rb w0 32) as (x1, u1). destruct (rb u1 32) as (y1, v1). destruct (rb v1 32) as (z1, w1). intros X1 Y1 Z1.
    cbn beta iota. apply wp_bind, wp_draw3. injection E1 as <- <- <-. destruct (rb w1 32) as (x2, u2). destruct (rb u2 32) as (y2, v2). destruct (rb v2 32) as (z2, w2). intros X2 Y2 Z2.
    cbn beta iota. apply wp_bind, wp_draw3. injection E2 as <- <- <-. destruct (rb w2 32) as (x3, u3). destruct (rb u3 32) as (y3, v3). destruct (rb v3 32) as (z3, w3). intros X3 Y3 Z3.
    cbn beta iota. injection E3 as <- <- <-. cbv zeta.
    apply wp_keypair_rest; auto.
    { intros m Hm. split; [|split]; revert m Hm; apply sel_quad; auto. }
    cbn beta iota. apply wp_ret. rewrite (zskip_all (4 * 992)), (zskip_all (4 * 2304)), !app_nil_r by lia. exact HQ.
  Qed.

  (** *** Encapsulation *)

  Lemma wp_enc_rest : forall junk buf c k pk r (s : S) (Q : quad (list Z) * quad (list Z) * S -> Prop),
    (forall m, 0 <= m < 4 -> arr U8 32 (r m) /\ exists T, sel buf m = r m ++ T /\ arr U8 32 T) ->
    (forall m, 0 <= m < 4 -> len (sel c m) = 1088 /\ len (sel k m) = 32 /\ arr U8 992 (sel pk m)) ->
    Q (tab4 (fun m => fst (kem_enc Hf Gf X p4 (sel pk m) (r m))), tab4 (fun m => snd (kem_enc Hf Gf X p4 (sel pk m) (r m))), s) ->
    wp (buf <- sha3_256x4 (sub junk 2) buf buf 32 ;;
        buf <- at4 buf 32 (fun p => sha3_256x4 (sub junk 3) p pk (SABER_INDCPA_PUBLICKEYBYTES x4)) ;;
        kr <- sha3_512x4 (sub junk 4) (tab4 (fun m => uninit (sub junk 0) m 64)) buf 64 ;;
        r <- for4 (fun _ x => ptr x 32) kr ;;
        c <- x4_indcpa_enc 168 (sub junk 5) buf r pk c ;;
        kr <- at4 kr 32 (fun p => sha3_256x4 (sub junk 6) p c (SABER_BYTES_CCA_DEC x4)) ;;
        k <- sha3_256x4 (sub junk 7) k kr 64 ;;
        ret (c, k, s)) Q.
  Proof.
    intros junk buf c k pk r s Q HB HL HQ. change (SABER_INDCPA_PUBLICKEYBYTES x4) with 992. change (SABER_BYTES_CCA_DEC x4) with 1088.
    set (MM := fun m => Hf (r m)).
    assert (forall m, arr U8 32 (MM m)) as HM by (intros m; exact (HashH_arr false (r m))).
    apply wp_bind, wp_eqr with (v := tab4 (fun m => MM m ++ zskip 32 (sel buf m))).
    { apply wp_sha3_256x4; [lia| | |].
      - intros m Hm. destruct (HB m Hm) as ((L & T) & (t & E & Lt & Tt)). rewrite E, len_app. lia.
      - intros m Hm. destruct (HB m Hm) as ((L & T) & (t & E & Lt & Tt)). rewrite E, len_app. split; [lia|now apply typed_app].
      - apply tab4_ext. intros m Hm. destruct (HB m Hm) as ((L & T) & (t & E & Lt & Tt)). rewrite E, (zfirst_app_at 32) by auto. reflexivity. }
    assert (forall m, 0 <= m < 4 -> len (zskip 32 (sel buf m)) = 32) as LZ.
    { intros m Hm. destruct (HB m Hm) as ((L & T) & (t & E & Lt & Tt)). now rewrite E, (zskip_app_at 32) by auto. }
    set (B := fun m => MM m ++ Hf (sel pk m)).
    assert (forall m, arr U8 64 (B m)) as HBm.
    { intros m. destruct (HM m), (HashH_arr false (sel pk m)). split; [unfold B; rewrite len_app; lia|now apply typed_app]. }
    apply wp_bind, wp_eqr with (v := tab4 B).
    { apply wp_at4.
      { intros m Hm. rewrite !sel_tab4 by auto. destruct (HM m). rewrite len_app, (LZ m Hm). lia. }
      apply wp_sha3_256x4; [lia| | |].
      - intros m Hm. rewrite !sel_tab4 by auto. destruct (HM m). rewrite (zskip_app_at 32) by auto. rewrite (LZ m Hm). lia.
      - intros m Hm. destruct (HL m Hm) as (_ & _ & L & T). split; [lia|auto].
      - apply tab4_ext. intros m Hm. rewrite !sel_tab4 by auto. destruct (HM m) as (Lm & _). destruct (HL m Hm) as (_ & _ & L & T).
        rewrite (zfirst_app_at 32), (zskip_app_at 32), (zfirst_all_at 992) by auto. rewrite (zskip_all 32 (zskip 32 _)) by (rewrite (LZ m Hm); lia).
        rewrite app_nil_r. reflexivity. }
    set (KR := fun m => Gf (B m)).
    assert (forall m, arr U8 64 (KR m)) as HKR by (intros m; exact (HashG_arr false (B m))).
    apply wp_bind, wp_eqr with (v := tab4 KR).
    { apply wp_sha3_512x4; [lia| | |].
      - intros m Hm. rewrite sel_tab4, uninit_len by (auto; lia). lia.
      - intros m Hm. rewrite sel_tab4 by auto. destruct (HBm m). split; [lia|auto].
      - apply tab4_ext. intros m Hm. rewrite !sel_tab4 by auto. destruct (HBm m) as (Lb & _). rewrite (zfirst_all_at 64) by auto.
        rewrite zskip_all by (rewrite uninit_len; lia). rewrite app_nil_r. reflexivity. }
    apply wp_bind, wp_for4_eq with (g := fun m => zskip 32 (KR m)).
    { intros m Hm P HP. rewrite sel_tab4 by auto. destruct (HKR m). apply wp_ptr; [lia|exact HP]. }
    assert (forall m, arr U8 32 (zskip 32 (KR m))) as HR.
    { intros m. destruct (HKR m). split; [rewrite len_zskip; lia|now apply Forall_zskip]. }
    set (CT := fun m => pke_enc X p4 (sel pk m) (MM m) (zskip 32 (KR m))).
    assert (forall m, arr U8 1088 (CT m)) as HCT by (intros m; exact (pke_enc_arr X x4 (sel pk m) (MM m) (zskip 32 (KR m)))).
    apply wp_bind, wp_eqr with (v := tab4 CT).
    { apply wp_x4_enc.
      - intros m Hm. rewrite sel_tab4 by auto. destruct (HBm m). split; [lia|auto].
      - intros m Hm. rewrite sel_tab4 by auto. destruct (HR m). split; [lia|auto].
      - intros m Hm. destruct (HL m Hm) as (_ & _ & L & T). split; [lia|auto].
      - intros m Hm. destruct (HL m Hm) as (L & _). lia.
      - apply tab4_ext. intros m Hm. rewrite !sel_tab4 by auto. destruct (HL m Hm) as (L1 & _ & L & T). destruct (HM m) as (L2 & _), (HR m) as (L3 & _).
        rewrite (zfirst_all_at 992), (zfirst_all_at 32 (zskip 32 (KR m))) by auto. unfold B. rewrite (zfirst_app_at 32) by auto.
        rewrite (zskip_all 1088 (sel c m)) by lia. rewrite app_nil_r. reflexivity. }
    set (K2 := fun m => zfirst 32 (KR m) ++ Hf (CT m)).
    assert (forall m, arr U8 64 (K2 m)) as HK2.
    { intros m. destruct (HKR m), (HashH_arr false (CT m)). split; [unfold K2; rewrite len_app, len_zfirst; lia|apply typed_app; auto; now apply Forall_zfirst]. }
    apply wp_bind, wp_eqr with (v := tab4 K2).
    { apply wp_at4.
      { intros m Hm. rewrite !sel_tab4 by auto. destruct (HKR m). lia. }
      apply wp_sha3_256x4; [lia| | |].
      - intros m Hm. rewrite !sel_tab4 by auto. destruct (HR m). lia.
      - intros m Hm. rewrite sel_tab4 by auto. destruct (HCT m). split; [lia|auto].
      - apply tab4_ext. intros m Hm. rewrite !sel_tab4 by auto. destruct (HR m) as (L3 & _), (HCT m) as (L4 & _).
        rewrite (zfirst_all_at 1088) by auto. rewrite (zskip_all 32 (zskip 32 _)) by lia. rewrite app_nil_r. reflexivity. }
    apply wp_bind, wp_eqr with (v := tab4 (fun m => Hf (K2 m))); [|apply wp_ret; exact HQ].
    apply wp_sha3_256x4; [lia| | |].
    - intros m Hm. destruct (HL m Hm) as (_ & L & _). lia.
    - intros m Hm. rewrite sel_tab4 by auto. destruct (HK2 m). split; [lia|auto].
    - apply tab4_ext. intros m Hm. rewrite !sel_tab4 by auto. destruct (HK2 m) as (L1 & _), (HL m Hm) as (_ & L2 & _).
      rewrite (zfirst_all_at 64) by auto. rewrite (zskip_all 32 (sel k m)) by lia. rewrite app_nil_r. reflexivity.
  Qed.

  Lemma wp_x4_kem_enc : forall junk s c k pk r0 s0 r1 s1 r2 s2 r3 s3 (Q : list Z * list Z * S * Z -> Prop),
    len c = 4 * 1088 -> len k = 4 * 32 -> arr U8 (4 * 992) pk ->
    rb s 32 = (r0, s0) -> rb s0 32 = (r1, s1) -> rb s1 32 = (r2, s2) -> rb s2 32 = (r3, s3) ->
    (let e m r := kem_enc Hf Gf X p4 (part 992 m pk) r in
     Q (fst (e 0 r0) ++ fst (e 1 r1) ++ fst (e 2 r2) ++ fst (e 3 r3), snd (e 0 r0) ++ snd (e 1 r1) ++ snd (e 2 r2) ++ snd (e 3 r3), s3, 0)) ->
    wp (x4_kem_enc rb 168 junk s c k pk) Q.
  Proof.
    intros junk s c k pk r0 s0 r1 s1 r2 s2 r3 s3 Q Lc Lk Ap E0 E1 E2 E3 HQ. unfold x4_kem_enc. destruct Ap as (Lp & Tp).
    change (SABER_PUBLICKEYBYTES x4) with 992. change (SABER_BYTES_CCA_DEC x4) with 1088. change SABER_KEYBYTES with 32.
    do 3 (apply wp_bind, wp_quarters; [lia|lia|]). apply wp_bind. unfold enc4x. cbv zeta.
    pose proof (keypair_arr s 32 ltac:(lia) r0 s0 E0) as A0. pose proof (keypair_arr s0 32 ltac:(lia) r1 s1 E1) as A1.
    pose proof (keypair_arr s1 32 ltac:(lia) r2 s2 E2) as A2. pose proof (keypair_arr s2 32 ltac:(lia) r3 s3 E3) as A3.
    assert (forall j m, arr U8 32 (zskip 32 (uninit8 j m 64))) as HU.
    { intros j m. destruct (uninit8_arr j m 64 ltac:(lia)). split; [rewrite len_zskip; lia|now apply Forall_zskip]. }
    assert (forall j m, len (uninit8 j m 64) = 64) as LU by (intros j m; apply uninit8_arr; lia).
    do 4 (apply wp_bind, wp_randombytes; [rewrite LU; lia|]; rewrite ?E0, ?E1, ?E2, ?E3; cbn [fst snd]; cbn beta iota).
    apply wp_enc_rest with (r := sel (r0, r1, r2, r3)).
    - intros m Hm. split; [revert m Hm; apply sel_quad; auto|]. revert m Hm.
      apply (sel_all _ (fun m x => exists T, x = sel (r0, r1, r2, r3) m ++ T /\ arr U8 32 T)); cbn [sel Z.eqb Pos.eqb]; eexists; (split; [reflexivity|apply HU]).
    - intros m Hm. rewrite !sel_tab4 by auto. split; [apply len_part; lia|]. split; [apply len_part; lia|]. apply part_bytes; [lia|auto|split; auto].
    - cbn beta iota. apply wp_ret. rewrite (zskip_all (4 * 1088)), (zskip_all (4 * 32)), !app_nil_r by lia. exact HQ.
  Qed.
End Rb.

(** *** Decapsulation *)

Lemma wp_dec4x : forall junk k c sk (Q : quad (list Z) -> Prop),
  (forall m, 0 <= m < 4 -> len (sel k m) = 32 /\ arr U8 1088 (sel c m) /\ arr U8 2304 (sel sk m)) ->
  Q (tab4 (fun m => kem_dec Hf Gf X p4 (sel sk m) (sel c m))) ->
  wp (dec4x 168 junk k c sk) Q.
Proof.
  intros junk k c sk Q HL HQ. unfold dec4x. cbv zeta. change (SABER_BYTES_CCA_DEC x4) with 1088. change SABER_KEYBYTES with 32.
  change (SABER_SECRETKEYBYTES x4) with 2304. change (SABER_INDCPA_SECRETKEYBYTES x4) with 1248. change (2304 - 64) with 2240. change (2304 - 32) with 2272.
  apply wp_bind, wp_for4_eq with (g := fun m => zskip 1248 (sel sk m)).
  { intros m Hm P HP. destruct (HL m Hm) as (_ & _ & L & _). apply wp_ptr; [lia|exact HP]. }
  set (MM := fun m => pke_dec p4 (zfirst 1248 (sel sk m)) (sel c m)).
  assert (forall m, arr U8 32 (MM m)) as HM by (intros m; exact (pke_dec_arr x4 (zfirst 1248 (sel sk m)) (sel c m))).
  apply wp_bind, wp_eqr with (v := tab4 (fun m => MM m ++ zskip 32 (uninit (sub junk 1) m 64))).
  { apply wp_x4_dec.
    - intros m Hm. destruct (HL m Hm) as (_ & _ & L & T). split; [lia|auto].
    - intros m Hm. destruct (HL m Hm) as (_ & (L & T) & _). split; [lia|auto].
    - intros m Hm. rewrite sel_tab4, uninit_len by (auto; lia). lia.
    - apply tab4_ext. intros m Hm. rewrite sel_tab4 by auto. reflexivity. }
  set (HS := fun m => zfirst 32 (zskip 2240 (sel sk m))).
  assert (forall m, 0 <= m < 4 -> arr U8 32 (HS m)) as HHS.
  { intros m Hm. destruct (HL m Hm) as (_ & _ & L & T). split; [apply len_zfirst; rewrite len_zskip; lia|now apply Forall_zfirst, Forall_zskip]. }
  set (B := fun m => MM m ++ HS m).
  assert (forall m, 0 <= m < 4 -> arr U8 64 (B m)) as HB.
  { intros m Hm. destruct (HM m), (HHS m Hm). split; [unfold B; rewrite len_app; lia|now apply typed_app]. }
  apply wp_bind, wp_eqr with (v := tab4 B).
  { apply wp_copy4 with (doff := 32) (soff := 2240); auto; try lia.
    - intros m Hm. rewrite sel_tab4 by auto. destruct (HM m), (HL m Hm) as (_ & _ & L & T). rewrite len_app, len_zskip; rewrite uninit_len; try lia. repeat split; auto; lia.
    - apply tab4_ext. intros m Hm. rewrite sel_tab4 by auto. destruct (HM m) as (L & _). rewrite (zfirst_app_at 32) by auto.
      rewrite (zskip_all (32 + 32)) by (rewrite len_app, len_zskip; rewrite uninit_len; lia). rewrite app_nil_r. reflexivity. }
  set (KR := fun m => Gf (B m)).
  assert (forall m, arr U8 64 (KR m)) as HKR by (intros m; exact (HashG_arr false (B m))).
  apply wp_bind, wp_eqr with (v := tab4 KR).
  { apply wp_sha3_512x4; [lia| | |].
    - intros m Hm. rewrite sel_tab4, uninit_len by (auto; lia). lia.
    - intros m Hm. rewrite sel_tab4 by auto. destruct (HB m Hm). split; [lia|auto].
    - apply tab4_ext. intros m Hm. rewrite !sel_tab4 by auto. destruct (HB m Hm) as (Lb & _). rewrite (zfirst_all_at 64) by auto.
      rewrite zskip_all by (rewrite uninit_len; lia). rewrite app_nil_r. reflexivity. }
  apply wp_bind, wp_for4_eq with (g := fun m => zskip 32 (KR m)).
  { intros m Hm P HP. rewrite sel_tab4 by auto. destruct (HKR m). apply wp_ptr; [lia|exact HP]. }
  assert (forall m, arr U8 32 (zskip 32 (KR m))) as HR.
  { intros m. destruct (HKR m). split; [rewrite len_zskip; lia|now apply Forall_zskip]. }
  set (PK := fun m => zfirst 992 (zskip 1248 (sel sk m))).
  set (CT := fun m => pke_enc X p4 (PK m) (MM m) (zskip 32 (KR m))).
  assert (forall m, arr U8 1088 (CT m)) as HCT by (intros m; exact (pke_enc_arr X x4 (PK m) (MM m) (zskip 32 (KR m)))).
  apply wp_bind, wp_eqr with (v := tab4 CT).
  { apply wp_x4_enc.
    - intros m Hm. rewrite sel_tab4 by auto. destruct (HB m Hm). split; [lia|auto].
    - intros m Hm. rewrite sel_tab4 by auto. destruct (HR m). split; [lia|auto].
    - intros m Hm. rewrite sel_tab4 by auto. destruct (HL m Hm) as (_ & _ & L & T). split; [rewrite len_zskip; lia|now apply Forall_zskip].
    - intros m Hm. rewrite sel_tab4, uninit_len by (auto; lia). lia.
    - apply tab4_ext. intros m Hm. rewrite !sel_tab4 by auto. destruct (HM m) as (L2 & _), (HR m) as (L3 & _).
      rewrite (zfirst_all_at 32 (zskip 32 (KR m))) by auto. unfold B. rewrite (zfirst_app_at 32) by auto.
      rewrite (zskip_all 1088) by (rewrite uninit_len; lia). rewrite app_nil_r. reflexivity. }
  set (F := fun m => if list_eqb (sel c m) (CT m) then 0 else 1).
  apply wp_bind, wp_for4_eq with (g := fun m => Var I32 (F m)).
  { intros m Hm P HP. rewrite sel_tab4 by auto. destruct (HL m Hm) as (_ & (L & T) & _), (HCT m) as (L' & T').
    apply wp_verify; auto; try lia. rewrite (zfirst_all_at 1088 (sel c m)), (zfirst_all_at 1088 (CT m)) by auto. exact HP. }
  set (K2 := fun m => zfirst 32 (KR m) ++ Hf (sel c m)).
  assert (forall m, len (zfirst 32 (KR m)) = 32) as LF by (intros m; destruct (HKR m); apply len_zfirst; lia).
  apply wp_bind, wp_eqr with (v := tab4 K2).
  { apply wp_at4.
    { intros m Hm. rewrite !sel_tab4 by auto. destruct (HKR m). lia. }
    apply wp_sha3_256x4; [lia| | |].
    - intros m Hm. rewrite !sel_tab4 by auto. destruct (HR m). lia.
    - intros m Hm. destruct (HL m Hm) as (_ & (L & T) & _). split; [lia|auto].
    - apply tab4_ext. intros m Hm. rewrite !sel_tab4 by auto. destruct (HR m) as (L3 & _), (HL m Hm) as (_ & (L & T) & _).
      rewrite (zfirst_all_at 1088) by auto. rewrite (zskip_all 32 (zskip 32 _)) by lia. rewrite app_nil_r. reflexivity. }
  set (ZZ := fun m => zskip 2272 (sel sk m)).
  set (KF := fun m => (if list_eqb (sel c m) (CT m) then zfirst 32 (KR m) else ZZ m) ++ Hf (sel c m)).
  assert (forall m, 0 <= m < 4 -> arr U8 32 (ZZ m)) as HZ.
  { intros m Hm. destruct (HL m Hm) as (_ & _ & L & T). split; [unfold ZZ; rewrite len_zskip; lia|now apply Forall_zskip]. }
  assert (forall m, 0 <= m < 4 -> arr U8 64 (KF m)) as HKF.
  { intros m Hm. destruct (HZ m Hm), (HKR m), (HashH_arr false (sel c m)). unfold KF.
    split; [rewrite len_app; destruct (list_eqb _ _); rewrite ?LF; lia|]. apply typed_app; auto. destruct (list_eqb _ _); auto. now apply Forall_zfirst. }
  apply wp_bind, wp_for4_eq with (g := KF).
  { intros m Hm P HP. rewrite !sel_tab4 by auto. destruct (HL m Hm) as (_ & _ & L & T), (HZ m Hm) as (LZ & TZ), (HashH_arr false (sel c m)) as (LH & TH), (HKR m) as (LK & TK).
    apply wp_bind, wp_ptr; [lia|]. apply wp_bind, wp_asg; [reflexivity|cbn [lok tmin tmax]; unfold F; destruct (list_eqb _ _); cbn; lia|]. cbn [val]. fold (ZZ m).
    replace (wrap U8 (F m)) with (F m) by (unfold F; now destruct (list_eqb _ _)).
    apply wp_cmov; auto; try lia.
    - unfold K2. rewrite len_app, LF. lia.
    - apply typed_app; auto. now apply Forall_zfirst.
    - unfold F. destruct (list_eqb _ _); auto.
    - assert (VerifyP.sel (F m) 32 (K2 m) (ZZ m) = KF m) as ->; [|exact HP].
      unfold VerifyP.sel, F, KF, K2. destruct (list_eqb _ _); cbn [Z.eqb]; auto. now rewrite (zfirst_all_at 32 (ZZ m)), (zskip_app_at 32) by auto. }
  apply wp_sha3_256x4; [lia| | |].
  - intros m Hm. destruct (HL m Hm) as (L & _). lia.
  - intros m Hm. rewrite sel_tab4 by auto. destruct (HKF m Hm). split; [lia|auto].
  - match goal with |- Q ?x => match type of HQ with Q ?y => assert (x = y) as -> end end; [|exact HQ].
    apply tab4_ext. intros m Hm. rewrite !sel_tab4 by auto. destruct (HKF m Hm) as (L1 & _), (HL m Hm) as (L2 & _), (HZ m Hm) as (LZ & _).
    rewrite (zfirst_all_at 64) by auto. rewrite (zskip_all 32 (sel k m)) by lia. rewrite app_nil_r.
    unfold kem_dec, dec_ct, dec_kr, dec_m, sk_pke, sk_pk, sk_hash, sk_z. change (p_l p4) with 3. change (p_eq p4) with 13.
    change (3 * (32 * 13)) with 1248. change (3 * 320 + 32) with 992. change (1248 + 992) with 2240. change (2240 + 32) with 2272.
    fold (MM m) (HS m) (PK m) (ZZ m). fold (B m). fold (KR m). fold (CT m). rewrite (zfirst_all_at 32 (ZZ m)) by auto.
    unfold KF, list_eqb. destruct (list_eq_dec Z.eq_dec (sel c m) (CT m)); reflexivity.
Qed.

Lemma wp_x4_kem_dec : forall junk k c sk (Q : list Z * Z -> Prop),
  len k = 4 * 32 -> arr U8 (4 * 1088) c -> arr U8 (4 * 2304) sk ->
  (let d m := kem_dec Hf Gf X p4 (part 2304 m sk) (part 1088 m c) in Q (d 0 ++ d 1 ++ d 2 ++ d 3, 0)) ->
  wp (x4_kem_dec 168 junk k c sk) Q.
Proof.
  intros junk k c sk Q Lk Ac As HQ. unfold x4_kem_dec. destruct Ac as (Lc & Tc), As as (Ls & Ts).
  change (SABER_SECRETKEYBYTES x4) with 2304. change (SABER_BYTES_CCA_DEC x4) with 1088. change SABER_KEYBYTES with 32.
  do 3 (apply wp_bind, wp_quarters; [lia|lia|]). apply wp_bind, wp_dec4x.
  - intros m Hm. rewrite !sel_tab4 by auto. split; [apply len_part; lia|]. split; apply part_bytes; try lia; split; auto.
  - apply wp_ret. rewrite (zskip_all (4 * 32)), !app_nil_r by lia. exact HQ.
Qed.

(** ** Against the reference *)

Lemma C54_keypair_lemma : forall S (rb : S -> Z -> list Z * S) junk junk' s pk sk, source_ok rb ->
  len pk = 4 * 992 -> len sk = 4 * 2304 ->
  exists p0 k0 s0 p1 k1 s1 p2 k2 s2 p3 k3 s3,
    run (keypair rb junk' x4 s (part 992 0 pk) (part 2304 0 sk)) = Some (p0, k0, s0, 0) /\
    run (keypair rb junk' x4 s0 (part 992 1 pk) (part 2304 1 sk)) = Some (p1, k1, s1, 0) /\
    run (keypair rb junk' x4 s1 (part 992 2 pk) (part 2304 2 sk)) = Some (p2, k2, s2, 0) /\
    run (keypair rb junk' x4 s2 (part 992 3 pk) (part 2304 3 sk)) = Some (p3, k3, s3, 0) /\
    run (x4_kem_keypair rb 168 junk s pk sk) = Some (p0 ++ p1 ++ p2 ++ p3, k0 ++ k1 ++ k2 ++ k3, s3, 0).
Proof.
  intros S rb junk junk' s pk sk Hrb Lp Ls.
  assert (forall m s, 0 <= m < 4 -> run (keypair rb junk' x4 s (part 992 m pk) (part 2304 m sk)) = Some (kp rb s, 0)) as K.
  { intros m s' Hm. rewrite (keypair_ok rb Hrb); [|exact (len_part 992 m pk ltac:(lia) Hm ltac:(lia))|exact (len_part 2304 m sk ltac:(lia) Hm ltac:(lia))]. unfold kp.
    destruct (rb s' 32) as (a, s1). destruct (rb s1 32) as (b, s2). destruct (rb s2 32) as (z, s3). reflexivity. }
  destruct (kp rb s) as ((p0, k0), s0) eqn:E0. destruct (kp rb s0) as ((p1, k1), s1) eqn:E1.
  destruct (kp rb s1) as ((p2, k2), s2) eqn:E2. destruct (kp rb s2) as ((p3, k3), s3) eqn:E3.
  exists p0, k0, s0, p1, k1, s1, p2, k2, s2, p3, k3, s3.
  rewrite !K, E0, E1, E2, E3 by lia. repeat split.
  apply wp_run_eq. eapply (wp_x4_kem_keypair rb Hrb); eauto.
Qed.

Lemma C54_enc_lemma : forall S (rb : S -> Z -> list Z * S) junk junk' s c k pk, source_ok rb ->
  len c = 4 * 1088 -> len k = 4 * 32 -> arr U8 (4 * 992) pk ->
  exists c0 k0 s0 c1 k1 s1 c2 k2 s2 c3 k3 s3,
    run (enc rb junk' x4 s (part 1088 0 c) (part 32 0 k) (part 992 0 pk)) = Some (c0, k0, s0, 0) /\
    run (enc rb junk' x4 s0 (part 1088 1 c) (part 32 1 k) (part 992 1 pk)) = Some (c1, k1, s1, 0) /\
    run (enc rb junk' x4 s1 (part 1088 2 c) (part 32 2 k) (part 992 2 pk)) = Some (c2, k2, s2, 0) /\
    run (enc rb junk' x4 s2 (part 1088 3 c) (part 32 3 k) (part 992 3 pk)) = Some (c3, k3, s3, 0) /\
    run (x4_kem_enc rb 168 junk s c k pk) = Some (c0 ++ c1 ++ c2 ++ c3, k0 ++ k1 ++ k2 ++ k3, s3, 0).
Proof.
  intros S rb junk junk' s c k pk Hrb Lc Lk Ap.
  destruct (rb s 32) as (r0, s0) eqn:E0. destruct (rb s0 32) as (r1, s1) eqn:E1. destruct (rb s1 32) as (r2, s2) eqn:E2. destruct (rb s2 32) as (r3, s3) eqn:E3.
  set (e := fun m r => kem_enc Hf Gf X p4 (part 992 m pk) r).
  assert (forall m s r s', 0 <= m < 4 -> rb s 32 = (r, s') -> run (enc rb junk' x4 s (part 1088 m c) (part 32 m k) (part 992 m pk)) = Some (fst (e m r), snd (e m r), s', 0)) as K.
  { intros m u r u' Hm E. rewrite (enc_ok rb Hrb); [|exact (len_part 1088 m c ltac:(lia) Hm ltac:(lia))|exact (len_part 32 m k ltac:(lia) Hm ltac:(lia))|exact (part_bytes 992 m pk ltac:(lia) Hm Ap)]. rewrite E.
    change (HashH (s90 x4)) with Hf. change (HashG (s90 x4)) with Gf. change (PRF (s90 x4)) with X. fold (e m r). destruct (e m r) as (a, b). reflexivity. }
  exists (fst (e 0 r0)), (snd (e 0 r0)), s0, (fst (e 1 r1)), (snd (e 1 r1)), s1, (fst (e 2 r2)), (snd (e 2 r2)), s2, (fst (e 3 r3)), (snd (e 3 r3)), s3.
  rewrite (K 0 s r0 s0), (K 1 s0 r1 s1), (K 2 s1 r2 s2), (K 3 s2 r3 s3) by (auto; lia). repeat split.
  apply wp_run_eq. eapply (wp_x4_kem_enc rb Hrb); eauto.
Qed.

Lemma C54_dec_lemma : forall junk junk' k c sk, len k = 4 * 32 -> arr U8 (4 * 1088) c -> arr U8 (4 * 2304) sk ->
  exists k0 k1 k2 k3,
    run (dec junk' x4 (part 32 0 k) (part 1088 0 c) (part 2304 0 sk)) = Some (k0, 0) /\
    run (dec junk' x4 (part 32 1 k) (part 1088 1 c) (part 2304 1 sk)) = Some (k1, 0) /\
    run (dec junk' x4 (part 32 2 k) (part 1088 2 c) (part 2304 2 sk)) = Some (k2, 0) /\
    run (dec junk' x4 (part 32 3 k) (part 1088 3 c) (part 2304 3 sk)) = Some (k3, 0) /\
    run (x4_kem_dec 168 junk k c sk) = Some (k0 ++ k1 ++ k2 ++ k3, 0).
Proof.
  intros junk junk' k c sk Lk Ac As.
  set (d := fun m => kem_dec Hf Gf X p4 (part 2304 m sk) (part 1088 m c)).
  assert (forall m, 0 <= m < 4 -> run (dec junk' x4 (part 32 m k) (part 1088 m c) (part 2304 m sk)) = Some (d m, 0)) as K.
  { intros m Hm. rewrite dec_ok; [reflexivity|exact (len_part 32 m k ltac:(lia) Hm ltac:(lia))|exact (part_bytes 1088 m c ltac:(lia) Hm Ac)|exact (part_bytes 2304 m sk ltac:(lia) Hm As)]. }
  exists (d 0), (d 1), (d 2), (d 3). rewrite !K by lia. repeat split.
  apply wp_run_eq. now apply wp_x4_kem_dec.
Qed.

(** ** As written *)

Lemma keypair4x_ub : forall S (rb : S -> Z -> list Z * S) tlen junk s pk sk, 0 <= tlen < 168 -> wlp (keypair4x rb tlen junk s pk sk) (fun _ => False).
Proof.
  intros S rb tlen junk s pk sk Ht. unfold keypair4x.
  do 4 (apply wlp_any; intros [[[? ?] ?] ?]). cbv zeta. apply wlp_bind. unfold x4_indcpa_keypair. cbv zeta.
  apply wlp_any. intros g. apply wlp_bind. eapply wlp_mono; [apply shake128x4_ub; [lia|discriminate]|contradiction].
Qed.

Lemma x4_enc_ub : forall tlen junk m r pk c, 0 <= tlen < 168 -> wlp (x4_indcpa_enc tlen junk m r pk c) (fun _ => False).
Proof.
  intros tlen junk m r pk c Ht. unfold x4_indcpa_enc. cbv zeta. apply wlp_any. intros g. apply wlp_any. intros seed.
  apply wlp_bind. unfold GenMatrix4x. cbv zeta. apply wlp_bind. eapply wlp_mono; [apply shake128x4_ub; [lia|discriminate]|contradiction].
Qed.

Lemma C53_keypair_lemma : forall S (rb : S -> Z -> list Z * S) tlen junk s pk sk, 0 <= tlen < 168 -> run (x4_kem_keypair rb tlen junk s pk sk) = None.
Proof.
  intros S rb tlen junk s pk sk Ht. apply wlp_run. unfold x4_kem_keypair. do 2 (apply wlp_any; intros ?).
  apply wlp_bind. eapply wlp_mono; [now apply keypair4x_ub|contradiction].
Qed.

Lemma C53_enc_lemma : forall S (rb : S -> Z -> list Z * S) tlen junk s c k pk, 0 <= tlen < 168 -> run (x4_kem_enc rb tlen junk s c k pk) = None.
Proof.
  intros S rb tlen junk s c k pk Ht. apply wlp_run. unfold x4_kem_enc. do 3 (apply wlp_any; intros ?).
  apply wlp_bind. unfold enc4x. cbv zeta. do 4 (apply wlp_any; intros [? ?]). do 4 (apply wlp_any; intros ?).
  apply wlp_bind. eapply wlp_mono; [apply x4_enc_ub; exact Ht|contradiction].
Qed.

Lemma C53_dec_lemma : forall tlen junk k c sk, 0 <= tlen < 168 -> run (x4_kem_dec tlen junk k c sk) = None.
Proof.
  intros tlen junk k c sk Ht. apply wlp_run. unfold x4_kem_dec. do 3 (apply wlp_any; intros ?).
  apply wlp_bind. unfold dec4x. cbv zeta. do 5 (apply wlp_any; intros ?).
  apply wlp_bind. eapply wlp_mono; [apply x4_enc_ub; exact Ht|contradiction].
Qed.

Lemma C53_keypair_code : forall S (rb : S -> Z -> list Z * S) junk s pk sk, run (x4_kem_keypair rb SHAKE256_RATE junk s pk sk) = None.
Proof. intros. apply C53_keypair_lemma. unfold SHAKE256_RATE. lia. Qed.
Lemma C53_enc_code : forall S (rb : S -> Z -> list Z * S) junk s c k pk, run (x4_kem_enc rb SHAKE256_RATE junk s c k pk) = None.
Proof. intros. apply C53_enc_lemma. unfold SHAKE256_RATE. lia. Qed.
Lemma C53_dec_code : forall junk k c sk, run (x4_kem_dec SHAKE256_RATE junk k c sk) = None.
Proof. intros. apply C53_dec_lemma. unfold SHAKE256_RATE. lia. Qed.

Lemma C53_refuted_lemma : exists junk pk sk, arr U8 (4 * 992) pk /\ arr U8 (4 * 2304) sk /\ source_ok zrb /\
  run (x4_kem_keypair zrb SHAKE256_RATE junk tt pk sk) = None.
Proof.
  exists (fun _ _ => 0), (zeros (4 * 992)), (zeros (4 * 2304)).
  split; [exact (zrb_ok tt (4 * 992) ltac:(lia))|]. split; [exact (zrb_ok tt (4 * 2304) ltac:(lia))|]. split; [exact zrb_ok|]. apply C53_keypair_code.
Qed.
