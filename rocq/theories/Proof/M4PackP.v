(** Packing and unpacking of the Cortex-M4 code. *)
From Coq Require Import ZArith List Bool Lia.
From Verif Require Import Lib.Arr Lib.CInt Lib.CMon Lib.Wire Spec.Bits Spec.Ring Spec.Sampling Spec.M4Spec Model.Params Model.Cbd Model.M4
  Proof.PackP Proof.PackThm Proof.CbdP Proof.VerifyP.
Import ListNotations.
Local Open Scope Z_scope.

(** The low [w2] bits of each expression are the [w2] next bits of the stream. *)
Definition low_bits (w1 w2 n k kd : Z) (src : list Z) (es : Z -> list cexp) : Prop :=
  forall j, 0 <= j < n -> all_below (Z.to_nat k) (fun c => all_below (Z.to_nat w2) (fun m =>
     bw (znth (Cst I32 0) (es j) c) m = WB (get src (kd * j + (w2 * c + m) / w1)) ((w2 * c + m) mod w1))).

Lemma znth_In : forall (es : list cexp) c, 0 <= c < len es -> In (znth (Cst I32 0) es c) es.
Proof. intros es c Hc. unfold znth. destruct (c <? 0) eqn:E; [lia|]. apply nth_In. unfold len in Hc. lia. Qed.

Lemma low_val : forall t w1 w2 n k kd src (es : Z -> list cexp) i,
  signed t = false -> 0 < w1 -> 0 < w2 <= width t -> kd * w1 = k * w2 -> 0 < k -> 0 <= n -> 0 <= i < k * n ->
  (forall j, 0 <= j < n -> len (es j) = k) ->
  (forall j e, 0 <= j < n -> In e (es j) -> lok e) ->
  low_bits w1 w2 n k kd src es ->
  wrap t (val (znth (Cst I32 0) (es (i / k)) (i mod k))) mod 2 ^ w2 = get (regroup w1 w2 (k * n) src) i.
Proof.
  intros t w1 w2 n k kd src es i Ht H1 H2 Hk1 Hk Hn Hi Hlen Hlok Hbits.
  rewrite get_regroup by lia. symmetry.
  pose proof (Z.mod_pos_bound i k Hk) as Hc. set (c := i mod k) in *. set (j := i / k).
  assert (i = k * j + c) as Ei by (apply Z.div_mod; lia).
  assert (0 <= j < n) as Hj by (split; [apply Z.div_pos; lia|apply Z.div_lt_upper_bound; lia]).
  assert (lok (znth (Cst I32 0) (es j) c)) as L.
  { apply Hlok with j; auto. apply znth_In. rewrite Hlen; lia. }
  specialize (Hbits j Hj). symmetry. apply bits_val_eq; [lia|apply Z.mod_pos_bound, Z.pow_pos_nonneg; lia|].
  intros m Hm. rewrite Z.mod_pow2_bits_low by lia.
  pose proof (all_below_ok _ _ Hbits c ltac:(lia)) as H. cbn beta in H.
  pose proof (all_below_ok _ _ H m ltac:(lia)) as H'. cbn beta in H'.
  rewrite bw_wrap with (w := WB (get src (kd * j + (w2 * c + m) / w1)) ((w2 * c + m) mod w1)); auto; [|lia|discriminate].
  cbn [den]. pose proof (Z.div_mod (w2 * c + m) w1 ltac:(lia)) as D.
  pose proof (Z.mod_pos_bound (w2 * c + m) w1 H1).
  replace (w2 * i + m) with (w1 * (kd * j + (w2 * c + m) / w1) + (w2 * c + m) mod w1) by nia.
  now rewrite fbit_at by lia.
Qed.

Lemma fill_low : forall t w1 w2 n k kd src (es : Z -> list cexp) out (Q : list Z -> Prop),
  signed t = false -> 0 < w1 -> 0 < w2 <= width t -> kd * w1 = k * w2 -> 0 < k -> 0 <= n ->
  k * n = len out ->
  (forall j, 0 <= j < n -> len (es j) = k) ->
  (forall j e, 0 <= j < n -> In e (es j) -> safe e = true /\ lok e) ->
  low_bits w1 w2 n k kd src es ->
  (forall r, arr t (k * n) r -> (forall i, 0 <= i < k * n -> get r i mod 2 ^ w2 = get (regroup w1 w2 (k * n) src) i) -> Q r) ->
  wp (for_ 0 n (fun j out => sts t out (k * j) (es j)) out) Q.
Proof.
  intros t w1 w2 n k kd src es out Q Ht H1 H2 Hk1 Hk Hn Hout Hlen Hsafe Hbits HQ.
  apply wp_fill; auto; [lia|]. rewrite zskip_all, app_nil_r by lia. apply HQ.
  - split; [apply len_ztab; nia|]. apply Forall_ztab. intros. apply wrap_range.
  - intros i Hi. unfold get at 1. rewrite znth_ztab by lia. apply low_val with kd; auto.
    intros. eapply Hsafe; eauto.
Qed.

(** Comparison with the packed bytes. *)
Lemma wp_cmps : forall es bytes i z (Q : cexp -> Prop), 0 <= z <= 255 -> typed U8 bytes -> 0 <= i -> i + len es <= len bytes ->
  (forall e, In e es -> ty e = U8 /\ lok e /\ (forall z b i, safe (Var U32 z .| (Idx U8 b i .^ e))%C = true) /\ 0 <= val e <= 255) ->
  (forall z', 0 <= z' <= 255 -> (z' = 0 <-> z = 0 /\ forall m, 0 <= m < len es -> get bytes (i + m) = val (znth (Cst I32 0) es m)) ->
     Q (Var U32 z')) -> wp (cmps (Var U32 z) bytes i es) Q.
Proof.
  induction es as [|e es IH]; intros bytes i z Q Hz Tb Hi Hl He HQ; cbn [cmps].
  - apply wp_ret. apply HQ; auto. split; [intros ->; split; auto; intros m Hm; cbn in Hm; lia|tauto].
  - rewrite len_cons in Hl. pose proof (len_nonneg es).
    destruct (He e (or_introl eq_refl)) as (Ty & Le & Se & Be).
    pose proof (byte_get bytes i Tb ltac:(lia)) as Bb.
    pose proof (lxor_bound (get bytes i) (val e) 255 ltac:(lia) ltac:(lia)) as X.
    change (2 ^ (Z.log2 255 + 1) - 1) with 255 in X.
    pose proof (lor_bound z (Z.lxor (get bytes i) (val e)) 255 ltac:(lia) ltac:(lia)) as Y.
    change (2 ^ (Z.log2 255 + 1) - 1) with 255 in Y.
    assert (val (Var U32 z .| (Idx U8 bytes i .^ e))%C = Z.lor z (Z.lxor (get bytes i) (val e))) as V.
    { cbn [val val_bin ty]. rewrite Ty. cbn [promote common]. unfold cv, uw. cbn [subr signed wrap].
      rewrite Z.mod_small by lia. reflexivity. }
    apply wp_bind, wp_asgv with (v := Z.lor z (Z.lxor (get bytes i) (val e))); [apply Se| |exact V|cbn [tmin tmax]; lia|].
    { cbn [lok tmin tmax]. repeat split; auto; lia. }
    apply IH; auto; try lia; [intros; apply He; now right|].
    intros z' Hz' E. apply HQ; auto. rewrite E, Z.lor_eq_0_iff, Z.lxor_eq_0_iff. rewrite len_cons. split.
    + intros ((H1 & H2) & H3). split; auto. intros m Hm. destruct (Z.eq_dec m 0) as [->|].
      * rewrite Z.add_0_r. exact H2.
      * rewrite znth_cons by lia. destruct (m =? 0) eqn:E0; [lia|]. rewrite <- H3 by lia. f_equal. lia.
    + intros (H1 & H2). split; [split; auto|].
      * specialize (H2 0 ltac:(lia)). rewrite Z.add_0_r in H2. exact H2.
      * intros m Hm. specialize (H2 (m + 1) ltac:(lia)). rewrite znth_cons in H2 by lia.
        destruct (m + 1 =? 0) eqn:E0; [lia|]. rewrite Z.add_simpl_r in H2. rewrite <- H2. f_equal. lia.
Qed.

Lemma cmp_loop : forall w1 n k kd src (es : Z -> list cexp) bytes (Q : cexp -> Prop),
  0 < w1 -> kd * w1 = k * 8 -> 0 < k -> 0 <= n -> k * n <= len bytes -> typed U8 bytes ->
  (forall j, 0 <= j < n -> len (es j) = k) ->
  (forall j e, 0 <= j < n -> In e (es j) -> exists e', e = Cast U8 e' /\ subr (ty e') U8 = false /\ lok e /\
     forall z b i, safe (Var U32 z .| (Idx U8 b i .^ e))%C = true) ->
  low_bits w1 8 n k kd src es ->
  (forall z, 0 <= z <= 255 -> (z = 0 <-> zfirst (k * n) bytes = regroup w1 8 (k * n) src) -> Q (Var U32 z)) ->
  wp (fail <- asg U32 #0 ;; for_ 0 n (fun j fail => cmps fail bytes (k * j) (es j)) fail)%M Q.
Proof.
  intros w1 n k kd src es bytes Q H1 Hk1 Hk Hn Hb Tb Hlen Hes Hbits HQ.
  apply wp_bind, wp_asgv with (v := 0); [reflexivity|cbn; lia|reflexivity|cbn; lia|].
  assert (forall i, 0 <= i < k * n -> 0 <= get (regroup w1 8 (k * n) src) i < 256) as Rr.
  { intros i Hi. rewrite get_regroup by lia. apply bits_val_bound. lia. }
  assert (forall e e', e = Cast U8 e' -> subr (ty e') U8 = false -> 0 <= val e <= 255) as Vr.
  { intros e e' -> L. cbn [val]. unfold cv. rewrite L. apply (wrap_range U8). }
  assert (forall j m, 0 <= j < n -> 0 <= m < k -> val (znth (Cst I32 0) (es j) m) = get (regroup w1 8 (k * n) src) (k * j + m)) as V.
  { intros j m Hj Hm. assert (In (znth (Cst I32 0) (es j) m) (es j)) as I by (apply znth_In; rewrite Hlen; lia).
    destruct (Hes j _ Hj I) as (e' & E & Sr & L & _). pose proof (Vr _ _ E Sr) as R.
    pose proof (low_val U8 w1 8 n k kd src es (k * j + m) eq_refl H1 ltac:(cbn; lia) Hk1 Hk Hn ltac:(nia) Hlen) as LV.
    replace ((k * j + m) / k) with j in LV by (apply Z.div_unique with m; lia).
    replace ((k * j + m) mod k) with m in LV by (apply Z.mod_unique with j; lia).
    rewrite <- LV; auto.
    - rewrite wrap_id by (cbn [tmin tmax]; lia). change (2 ^ 8) with 256. rewrite Z.mod_small; lia.
    - intros j' e0 Hj' I'. destruct (Hes j' e0 Hj' I') as (? & ? & ? & ? & ?). auto. }
  apply wp_for with (I := fun j f => exists z, f = Var U32 z /\ 0 <= z <= 255 /\
     (z = 0 <-> forall i, 0 <= i < k * j -> get bytes i = get (regroup w1 8 (k * n) src) i)).
  - lia.
  - exists 0. repeat split; auto; try lia.
  - intros j f Hj (z & -> & Bz & Hz). apply wp_cmps; auto; try nia; [rewrite Hlen by lia; nia| |].
    + intros e I. destruct (Hes j e Hj I) as (e' & -> & Sr & L & Sf). split; [reflexivity|]. split; auto. split; auto.
      apply Vr with e'; auto.
    + intros z' Hz' E. exists z'. split; auto. split; auto. rewrite E, Hz. rewrite Hlen by lia. split.
      * intros (A & B) i Hi. destruct (Z_lt_dec i (k * j)); [apply A; lia|].
        specialize (B (i - k * j) ltac:(lia)). rewrite V in B by lia. replace (k * j + (i - k * j)) with i in B by lia. auto.
      * intros A. split; [intros; apply A; lia|]. intros m Hm. rewrite V by lia. apply A. lia.
  - intros f (z & -> & Bz & Hz). apply HQ; auto. rewrite Hz.
    assert (len (regroup w1 8 (k * n) src) = k * n) as Lr by (apply len_regroup; nia).
    rewrite <- zfirst_eq_iff by (try nia; lia). rewrite <- Lr at 2. rewrite zfirst_all. reflexivity.
Qed.

Ltac low a1 a2 d s :=
  cbv zeta; apply fill_low with (w1 := a1) (w2 := a2) (kd := d) (src := s);
  [ reflexivity | lia | cbn; lia | lia | lia | cbn; lia | cbn; lia
  | intros; reflexivity
  | let HI := fresh in intros j e Hj HI; cbn [In] in HI;
    repeat (destruct HI as [<-|HI]; [split; [reflexivity|cbn [lok tmin tmax]; repeat split; (assumption || lia)]|]); contradiction
  | intros j Hj; cbn [all_below Z.to_nat Pos.to_nat Pos.iter_op width Nat.add];
    repeat split
  | cbn [Z.mul Pos.mul Pos.add Z.div Z.div_eucl] ].

Ltac cmp a1 d s :=
  cbv zeta; apply cmp_loop with (w1 := a1) (kd := d) (src := s);
  [ lia | lia | lia | lia | lia | auto
  | intros; reflexivity
  | let HI := fresh in intros j e Hj HI; cbn [In] in HI;
    repeat (destruct HI as [<-|HI]; [eexists; split; [reflexivity|split; [reflexivity|split; [cbn [lok tmin tmax]; repeat split; (assumption || lia)|reflexivity]]]|]); contradiction
  | intros j Hj; cbn [all_below Z.to_nat Pos.to_nat Pos.iter_op width Nat.add];
    repeat split
  | cbn [Z.mul Pos.mul Pos.add Z.div Z.div_eucl] ].

Definition congr (w : Z) (r u : list Z) : Prop := forall i, 0 <= i < 256 -> get r i mod 2 ^ w = get u i.

Lemma wp_m4_POLp2BS : forall bytes data (Q : list Z -> Prop),
  320 <= len bytes -> 256 <= len data -> typed U16 data ->
  Q (pack 10 data ++ zskip 320 bytes) -> wp (m4_POLp2BS bytes data) Q.
Proof.
  intros bytes data Q Hb Hd Ht HQ. unfold m4_POLp2BS. change (256 / 4) with 64.
  fill 10 8 4 data. exact HQ.
Qed.
Lemma wp_m4_POLq2BS : forall bytes data (Q : list Z -> Prop),
  416 <= len bytes -> 256 <= len data -> typed U16 data ->
  Q (pack 13 data ++ zskip 416 bytes) -> wp (m4_POLq2BS bytes data) Q.
Proof.
  intros bytes data Q Hb Hd Ht HQ. unfold m4_POLq2BS. change (256 / 8) with 32.
  fill 13 8 8 data. exact HQ.
Qed.
Lemma wp_m4_POLT2BS_3 : forall bytes data (Q : list Z -> Prop),
  96 <= len bytes -> 256 <= len data -> typed U16 data ->
  Q (pack 3 data ++ zskip 96 bytes) -> wp (m4_POLT2BS_3 bytes data) Q.
Proof.
  intros bytes data Q Hb Hd Ht HQ. unfold m4_POLT2BS_3. change (256 / 8) with 32.
  fill 3 8 8 data. exact HQ.
Qed.
Lemma wp_m4_POLT2BS_4 : forall bytes data (Q : list Z -> Prop),
  128 <= len bytes -> 256 <= len data -> typed U16 data ->
  Q (pack 4 data ++ zskip 128 bytes) -> wp (m4_POLT2BS_4 bytes data) Q.
Proof.
  intros bytes data Q Hb Hd Ht HQ. unfold m4_POLT2BS_4. change (256 / 2) with 128.
  fill 4 8 2 data. exact HQ.
Qed.
Lemma wp_m4_POLT2BS_6 : forall bytes data (Q : list Z -> Prop),
  192 <= len bytes -> 256 <= len data -> typed U16 data ->
  Q (pack 6 data ++ zskip 192 bytes) -> wp (m4_POLT2BS_6 bytes data) Q.
Proof.
  intros bytes data Q Hb Hd Ht HQ. unfold m4_POLT2BS_6. change (256 / 4) with 64.
  fill 6 8 4 data. exact HQ.
Qed.
Lemma wp_m4_POLmu2BS_4 : forall bytes data (Q : list Z -> Prop),
  128 <= len bytes -> 256 <= len data -> typed U16 data ->
  Q (pack 4 data ++ zskip 128 bytes) -> wp (m4_POLmu2BS_4 bytes data) Q.
Proof.
  intros bytes data Q Hb Hd Ht HQ. unfold m4_POLmu2BS_4. change (256 / 2) with 128.
  fill 4 8 2 data. exact HQ.
Qed.
Lemma wp_m4_POLT2BS : forall l bytes data (Q : list Z -> Prop), let c := Cfg l false false in
  SABER_SCALEBYTES_KEM c <= len bytes -> 256 <= len data -> typed U16 data ->
  Q (pack (SABER_ET c) data ++ zskip (SABER_SCALEBYTES_KEM c) bytes) -> wp (m4_POLT2BS l bytes data) Q.
Proof.
  intros []; unfold m4_POLT2BS; intros;
    [apply wp_m4_POLT2BS_3|apply wp_m4_POLT2BS_4|apply wp_m4_POLT2BS_6]; auto.
Qed.

(** ** Unpacking leaves the high bits unspecified *)

Lemma wp_m4_BS2POLp : forall bytes data (Q : list Z -> Prop),
  320 <= len bytes -> len data = 256 -> typed U8 bytes ->
  (forall r, arr U16 256 r -> congr 10 r (unpack 10 bytes) -> Q r) -> wp (m4_BS2POLp bytes data) Q.
Proof.
  intros bytes data Q Hb Hd Ht HQ. unfold m4_BS2POLp. change (256 / 4) with 64.
  low 8 10 5 bytes. exact HQ.
Qed.
Lemma wp_m4_BS2POLq : forall bytes data (Q : list Z -> Prop),
  416 <= len bytes -> len data = 256 -> typed U8 bytes ->
  (forall r, arr U16 256 r -> congr 13 r (unpack 13 bytes) -> Q r) -> wp (m4_BS2POLq bytes data) Q.
Proof.
  intros bytes data Q Hb Hd Ht HQ. unfold m4_BS2POLq. change (256 / 8) with 32.
  low 8 13 13 bytes. exact HQ.
Qed.
Lemma wp_m4_BS2POLT_3 : forall bytes data (Q : list Z -> Prop),
  96 <= len bytes -> len data = 256 -> typed U8 bytes ->
  (forall r, arr U16 256 r -> congr 3 r (unpack 3 bytes) -> Q r) -> wp (m4_BS2POLT_3 bytes data) Q.
Proof.
  intros bytes data Q Hb Hd Ht HQ. unfold m4_BS2POLT_3. change (256 / 8) with 32.
  low 8 3 3 bytes. exact HQ.
Qed.
Lemma wp_m4_BS2POLT_4 : forall bytes data (Q : list Z -> Prop),
  128 <= len bytes -> len data = 256 -> typed U8 bytes ->
  (forall r, arr U16 256 r -> congr 4 r (unpack 4 bytes) -> Q r) -> wp (m4_BS2POLT_4 bytes data) Q.
Proof.
  intros bytes data Q Hb Hd Ht HQ. unfold m4_BS2POLT_4. change (256 / 2) with 128.
  low 8 4 1 bytes. exact HQ.
Qed.
Lemma wp_m4_BS2POLT_6 : forall bytes data (Q : list Z -> Prop),
  192 <= len bytes -> len data = 256 -> typed U8 bytes ->
  (forall r, arr U16 256 r -> congr 6 r (unpack 6 bytes) -> Q r) -> wp (m4_BS2POLT_6 bytes data) Q.
Proof.
  intros bytes data Q Hb Hd Ht HQ. unfold m4_BS2POLT_6. change (256 / 4) with 64.
  low 8 6 3 bytes. exact HQ.
Qed.
Lemma wp_m4_BS2POLT : forall l bytes data (Q : list Z -> Prop), let c := Cfg l false false in
  SABER_SCALEBYTES_KEM c <= len bytes -> len data = 256 -> typed U8 bytes ->
  (forall r, arr U16 256 r -> congr (SABER_ET c) r (unpack (SABER_ET c) bytes) -> Q r) -> wp (m4_BS2POLT l bytes data) Q.
Proof.
  intros []; unfold m4_BS2POLT; intros;
    [apply wp_m4_BS2POLT_3|apply wp_m4_BS2POLT_4|apply wp_m4_BS2POLT_6]; auto.
Qed.

(** ** Comparisons *)

Lemma wp_m4_POLp2BS_cmp : forall bytes data (Q : cexp -> Prop),
  320 <= len bytes -> 256 <= len data -> typed U8 bytes -> typed U16 data ->
  (forall z, 0 <= z <= 255 -> (z = 0 <-> zfirst 320 bytes = pack 10 data) -> Q (Var U32 z)) -> wp (m4_POLp2BS_cmp bytes data) Q.
Proof.
  intros bytes data Q Hb Hd Tb Ht HQ. unfold m4_POLp2BS_cmp. change (256 / 4) with 64.
  cmp 10 4 data. exact HQ.
Qed.
Lemma wp_m4_POLT2BS_cmp_3 : forall bytes data (Q : cexp -> Prop),
  96 <= len bytes -> 256 <= len data -> typed U8 bytes -> typed U16 data ->
  (forall z, 0 <= z <= 255 -> (z = 0 <-> zfirst 96 bytes = pack 3 data) -> Q (Var U32 z)) -> wp (m4_POLT2BS_cmp_3 bytes data) Q.
Proof.
  intros bytes data Q Hb Hd Tb Ht HQ. unfold m4_POLT2BS_cmp_3. change (256 / 8) with 32.
  cmp 3 8 data. exact HQ.
Qed.
Lemma wp_m4_POLT2BS_cmp_4 : forall bytes data (Q : cexp -> Prop),
  128 <= len bytes -> 256 <= len data -> typed U8 bytes -> typed U16 data ->
  (forall z, 0 <= z <= 255 -> (z = 0 <-> zfirst 128 bytes = pack 4 data) -> Q (Var U32 z)) -> wp (m4_POLT2BS_cmp_4 bytes data) Q.
Proof.
  intros bytes data Q Hb Hd Tb Ht HQ. unfold m4_POLT2BS_cmp_4. change (256 / 2) with 128.
  cmp 4 2 data. exact HQ.
Qed.
Lemma wp_m4_POLT2BS_cmp_6 : forall bytes data (Q : cexp -> Prop),
  192 <= len bytes -> 256 <= len data -> typed U8 bytes -> typed U16 data ->
  (forall z, 0 <= z <= 255 -> (z = 0 <-> zfirst 192 bytes = pack 6 data) -> Q (Var U32 z)) -> wp (m4_POLT2BS_cmp_6 bytes data) Q.
Proof.
  intros bytes data Q Hb Hd Tb Ht HQ. unfold m4_POLT2BS_cmp_6. change (256 / 4) with 64.
  cmp 6 4 data. exact HQ.
Qed.
Lemma wp_m4_POLT2BS_cmp : forall l bytes data (Q : cexp -> Prop), let c := Cfg l false false in
  SABER_SCALEBYTES_KEM c <= len bytes -> 256 <= len data -> typed U8 bytes -> typed U16 data ->
  (forall z, 0 <= z <= 255 -> (z = 0 <-> zfirst (SABER_SCALEBYTES_KEM c) bytes = pack (SABER_ET c) data) -> Q (Var U32 z)) ->
  wp (m4_POLT2BS_cmp l bytes data) Q.
Proof.
  intros []; unfold m4_POLT2BS_cmp; intros;
    [apply wp_m4_POLT2BS_cmp_3|apply wp_m4_POLT2BS_cmp_4|apply wp_m4_POLT2BS_cmp_6]; auto.
Qed.

(** ** Messages *)

Lemma wp_m4_BS2POLmsg : forall bytes data (Q : list Z -> Prop),
  32 <= len bytes -> typed U8 bytes -> len data = 256 ->
  (forall r, arr U16 256 r -> congr 1 r (unpack 1 bytes) -> Q r) -> wp (m4_BS2POLmsg bytes data) Q.
Proof.
  intros bytes data Q Hb Ht Hd HQ. unfold m4_BS2POLmsg. change SABER_KEYBYTES with 32.
  assert (forall k, 0 <= k < 256 -> get (unpack 1 bytes) k = Z.b2z (Z.testbit (get bytes (k / 8)) (k mod 8))) as G.
  { intros k Hk. unfold unpack. rewrite get_regroup by lia. unfold fbit. rewrite Z.mul_1_l.
    change (bits_val 1 ?f) with (Z.b2z (f 0) + 0). cbn beta. now rewrite !Z.add_0_r. }
  set (ok := fun a k => 0 <= get a k <= 65535 /\ get a k mod 2 ^ 1 = get (unpack 1 bytes) k).
  apply wp_for with (I := fun j a => len a = 256 /\ forall k, 0 <= k < 8 * j -> ok a k).
  - lia.
  - split; auto. intros. lia.
  - intros j a Hj (La & Ha). pose proof (byte_get bytes j Ht ltac:(lia)) as B.
    apply wp_bind, wp_asgv with (v := get bytes j); [reflexivity|cbn [lok]; split; [lia|auto]|reflexivity|cbn [tmin tmax]; lia|].
    apply wp_for with (I := fun i a => len a = 256 /\ forall k, 0 <= k < 8 * j + i -> ok a k).
    + lia.
    + split; auto. intros. apply Ha. lia.
    + intros i a' Hi (La' & Ha'). apply wp_st.
      * reflexivity.
      * cbn [lok tmin tmax]. lia.
      * lia.
      * split; [now rewrite len_upd|]. intros k Hk. 
        assert (forall v, get (upd a' (j * 8 + i) v) k = if k =? j * 8 + i then v else get a' k) as U
          by (intros; unfold get; now rewrite znth_upd by lia).
        unfold ok. rewrite !U.
        destruct (k =? j * 8 + i) eqn:E; [|apply Ha'; lia].
        rewrite G by lia.
        assert (k / 8 = j) as -> by (symmetry; apply Z.div_unique with i; lia).
        assert (k mod 8 = i) as -> by (symmetry; apply Z.mod_unique with j; lia).
        cbn [val val_bin ty promote common cv subr]. rewrite wrap_id.
        -- rewrite Z.shiftr_div_pow2 by lia. assert (0 < 2 ^ i) by (apply Z.pow_pos_nonneg; lia).
           assert (0 <= get bytes j / 2 ^ i <= 255) by (split; [apply Z.div_pos; lia|apply Z.div_le_upper_bound; nia]).
           split; [lia|]. rewrite <- Z.shiftr_div_pow2 by lia. change (2 ^ 1) with 2. rewrite <- Z.bit0_mod, Z.shiftr_spec by lia.
           now rewrite Z.add_0_l.
        -- rewrite Z.shiftr_div_pow2 by lia. assert (0 < 2 ^ i) by (apply Z.pow_pos_nonneg; lia).
           assert (0 <= get bytes j / 2 ^ i <= 255) by (split; [apply Z.div_pos; lia|apply Z.div_le_upper_bound; nia]).
           cbn [tmin tmax]. lia.
    + intros a' (La' & Ha'). split; auto. intros. apply Ha'. lia.
  - intros a (La & Ha). apply HQ; [split; auto|].
    + apply Forall_znth_iff with 0. intros k Hk. apply Ha. lia.
    + intros k Hk. apply Ha. lia.
Qed.

Lemma wp_m4_POLmsg2BS : forall bytes data (Q : list Z -> Prop),
  32 <= len bytes -> typed U16 data -> 256 <= len data ->
  Q (pack 1 data ++ zskip 32 bytes) -> wp (m4_POLmsg2BS bytes data) Q.
Proof.
  intros bytes data Q Hb Ht Hd HQ. unfold m4_POLmsg2BS. change SABER_KEYBYTES with 32.
  set (bit := fun k => Z.testbit (get data k) 0).
  apply wp_for with (I := fun j a => len a = len bytes /\ forall k, 0 <= k < len bytes ->
    get a k = if k <? j then get (pack 1 data) k else get bytes k).
  - lia.
  - split; auto. intros. destruct (k <? 0) eqn:E; auto. lia.
  - intros j a Hj (La & Ha).
    apply wp_bind, wp_asgv with (v := 0); [reflexivity|cbn; lia|reflexivity|cbn; lia|].
    apply wp_bind, wp_for with (I := fun i r => r = Var U8 (bits_val i (fun m => bit (8 * j + m)))).
    + lia.
    + reflexivity.
    + intros i r Hi ->. pose proof (bits_val_bound i (fun m => bit (8 * j + m)) ltac:(lia)) as Hr.
      pose proof (bits_val_bound (i + 1) (fun m => bit (8 * j + m)) ltac:(lia)) as Hr'.
      assert (2 ^ i <= 2 ^ 7) by (apply Z.pow_le_mono_r; lia). assert (2 ^ (i + 1) <= 2 ^ 8) by (apply Z.pow_le_mono_r; lia).
      change (2 ^ 8) with 256 in *. change (2 ^ 7) with 128 in *.
      assert (0 < 2 ^ i) by (apply Z.pow_pos_nonneg; lia).
      apply wp_asgv with (v := bits_val (i + 1) (fun m => bit (8 * j + m))); [reflexivity| | |cbn [tmin tmax]; lia|reflexivity].
      * cbn [lok tmin tmax]. repeat split; auto; lia.
      * cbn [val val_bin ty promote common]. unfold cv, uw. cbn [subr signed]. rewrite land_1.
        set (b := Z.testbit (get data (j * 8 + i)) 0).
        apply Z.bits_inj'. intros m Hm.
        rewrite Z.lor_spec, !bits_val_testbit by lia. rewrite <- Z.shiftl_mul_pow2 by lia.
        rewrite Z.shiftl_spec by lia. destruct (Z.ltb_spec m i).
        -- rewrite Z.testbit_neg_r by lia. rewrite orb_false_r. destruct (Z.ltb_spec m (i + 1)); auto. lia.
        -- destruct (Z.ltb_spec m (i + 1)).
           ++ assert (m = i) by lia. subst. rewrite Z.sub_diag. rewrite Z.b2z_bit0. cbn [andb orb].
              unfold b, bit. do 2 f_equal. lia.
           ++ cbn [andb orb]. destruct b; cbn [Z.b2z]; [|apply Z.bits_0].
              replace (m - i) with (1 + (m - i - 1)) by lia. apply (testbit_high 1); lia.
    + intros r ->. pose proof (bits_val_bound 8 (fun m => bit (8 * j + m)) ltac:(lia)) as Hr. change (2 ^ 8) with 256 in Hr.
      apply wp_st; [reflexivity|cbn [lok tmin tmax]; lia|lia|]. cbn [val]. rewrite wrap_id by (cbn [tmin tmax]; lia).
      split; [now rewrite len_upd|]. intros k Hk. unfold get at 1. rewrite znth_upd by lia. destruct (k =? j) eqn:E.
      * assert (k = j) by lia. subst. destruct (j <? j + 1) eqn:E'; [|lia]. unfold pack. rewrite get_regroup by lia.
        apply bits_val_ext. intros m Hm. unfold fbit, bit. rewrite Z.div_1_r, Z.mod_1_r. reflexivity.
      * fold (get a k). rewrite Ha by lia. destruct (k <? j) eqn:E1, (k <? j + 1) eqn:E2; auto; lia.
  - intros a (La & Ha). match type of HQ with Q ?x => replace a with x; auto end.
    assert (len (pack 1 data) = 32) as Lp by now apply len_pack.
    apply znth_ext with 0; rewrite len_app, Lp, len_zskip by lia; [lia|]. intros k Hk. fold (get a k). rewrite Ha by lia.
    destruct (k <? 32) eqn:E.
    + now rewrite znth_app1 by lia.
    + rewrite znth_app2, znth_zskip by lia. rewrite Lp. unfold get. f_equal. lia.
Qed.

(** ** Secrets of four bits *)

Lemma wp_asg4 : forall e (Q : cexp -> Prop), safe e = true -> lok e ->
  Q (Bnd I32 (-8) 7 (sext4 (val e))) -> wp (asg4 e) Q.
Proof. intros. apply wp_bind, wp_ev; auto. now apply wp_ret. Qed.

Lemma sext4_range : forall x, -8 <= sext4 x <= 7.
Proof. intros. unfold sext4. pose proof (Z.mod_pos_bound (x + 8) 16). lia. Qed.

Lemma wp_m4_BS2POLmu_4 : forall bytes data (Q : list Z -> Prop),
  128 <= len bytes -> len data = 256 -> typed U8 bytes ->
  Q (map (fun x => sext4 x mod 65536) (unpack 4 bytes)) -> wp (m4_BS2POLmu_4 bytes data) Q.
Proof.
  intros bytes data Q Hb Hd Ht HQ. unfold m4_BS2POLmu_4. change (256 / 2) with 128.
  assert (len (unpack 4 bytes) = 256) as Lu by reflexivity.
  assert (forall j, 0 <= j < 128 -> get (unpack 4 bytes) (2 * j) = Z.land (get bytes j) 15 /\
     get (unpack 4 bytes) (2 * j + 1) = Z.land (Z.shiftr (get bytes j) 4) 15) as G.
  { intros j Hj. unfold unpack. rewrite !get_regroup by lia. change 15 with (Z.ones 4).
    split; symmetry; apply bits_val_eq; try lia; try (rewrite Z.land_ones by lia; apply Z.mod_pos_bound; lia);
      intros m Hm; rewrite Z.land_spec, Z.ones_spec_low by lia; rewrite andb_true_r.
    - replace (4 * (2 * j) + m) with (8 * j + m) by lia. now rewrite fbit_at by lia.
    - rewrite Z.shiftr_spec by lia. replace (4 * (2 * j + 1) + m) with (8 * j + (m + 4)) by lia. now rewrite fbit_at by lia. }
  apply wp_for with (I := fun j a => len a = 256 /\ forall k, 0 <= k < 256 ->
    get a k = if k <? 2 * j then sext4 (get (unpack 4 bytes) k) mod 65536 else get data k).
  - lia.
  - split; auto. intros k Hk. destruct (k <? 2 * 0) eqn:E; auto. lia.
  - intros j a Hj (La & Ha). destruct (G j Hj) as (G0 & G1).
    apply wp_bind, wp_asg4; [reflexivity|cbn [lok tmin tmax]; repeat split; auto; lia|].
    apply wp_bind, wp_asg4; [reflexivity|cbn [lok tmin tmax]; repeat split; auto; lia|].
    cbn [val val_bin ty promote common cv subr]. rewrite <- G0, <- G1.
    pose proof (sext4_range (get (unpack 4 bytes) (2 * j))). pose proof (sext4_range (get (unpack 4 bytes) (2 * j + 1))).
    apply wp_sts.
    + intros e He. cbn [In] in He. repeat destruct He as [<-|He]; try (split; [reflexivity|cbn [lok]; lia]). contradiction.
    + lia.
    + match goal with |- context [len (?y :: ?l)] => change (len (y :: l)) with 2 end. lia.
    + intros r Lr Hr. split; [lia|]. intros k Hk. rewrite Hr by lia.
      match goal with |- context [len (?y :: ?l)] => change (len (y :: l)) with 2 end.
      destruct ((2 * j <=? k) && (k <? 2 * j + 2)) eqn:E.
      * replace (k <? 2 * (j + 1)) with true by lia.
        assert (k = 2 * j + 0 \/ k = 2 * j + 1) as [->| ->] by lia; rewrite Z.add_simpl_l.
        -- rewrite Z.add_0_r. match goal with |- context [znth ?d (?e :: ?l) 0] => change (znth d (e :: l) 0) with e end.
           cbn [val ty]. unfold cv. cbn [subr]. now rewrite !(wrap_id I16) by (rewrite ?(wrap_id I16) by (cbn [tmin tmax]; lia); cbn [tmin tmax]; lia).
        -- match goal with |- context [znth ?d (?e0 :: ?e :: ?l) 1] => change (znth d (e0 :: e :: l) 1) with e end.
           cbn [val ty]. unfold cv. cbn [subr]. now rewrite !(wrap_id I16) by (rewrite ?(wrap_id I16) by (cbn [tmin tmax]; lia); cbn [tmin tmax]; lia).
      * rewrite Ha by lia. replace (k <? 2 * (j + 1)) with (k <? 2 * j) by lia. reflexivity.
  - intros a (La & Ha). match type of HQ with Q ?x => replace a with x; auto end.
    apply znth_ext with 0; rewrite len_map; [lia|]. intros k Hk. rewrite znth_map with (d := 0) by lia.
    fold (get a k). rewrite Ha by lia. replace (k <? 2 * 128) with true by lia. reflexivity.
Qed.

(** ** cbd.c *)

Lemma wp_load32 : forall x n (Q : cexp -> Prop), 1 <= n <= 4 -> n <= len x -> typed U8 x ->
  Q (Var U32 (bits_val (8 * n) (fbit 8 x))) -> wp (m4_load32 x n) Q.
Proof.
  intros x n Q Hn Hl T HQ. unfold m4_load32.
  assert (forall i, 0 <= get x i <= 255) as G.
  { intros i. destruct (Z_lt_dec i 0); [unfold get; rewrite znth_default; lia|].
    destruct (Z_lt_dec i (len x)); [|unfold get; rewrite znth_default; lia]. pose proof (typed_get U8 x i T). cbn in *. lia. }
  assert (forall i k, i < n -> 0 <= k < 8 * (i + 1) -> 8 * i <= k -> fbit 8 x k = Z.testbit (get x i) (k - 8 * i)) as F.
  { intros i k Hi Hk Hk'. replace k with (8 * i + (k - 8 * i)) at 1 by lia. apply fbit_at; lia. }
  assert (forall i, 0 <= i -> 0 <= bits_val (8 * i) (fbit 8 x) < 2 ^ (8 * i)) as B by (intros; apply bits_val_bound; lia).
  apply wp_bind, wp_asgv with (v := bits_val (8 * 1) (fbit 8 x)); [reflexivity|cbn [lok]; split; auto; lia| |cbn [tmin tmax]; specialize (B 1); lia|].
  { cbn [val]. apply bits_val_eq; [lia|specialize (G 0); change (2 ^ (8 * 1)) with 256; lia|]. intros k Hk. rewrite (F 0) by lia. f_equal. lia. }
  apply wp_for with (I := fun i r => r = Var U32 (bits_val (8 * i) (fbit 8 x))).
  - lia.
  - auto.
  - intros i r Hi ->. assert (2 ^ (8 * i) <= 2 ^ 24) by (apply Z.pow_le_mono_r; lia).
    assert (2 ^ (8 * (i + 1)) <= 2 ^ 32) by (apply Z.pow_le_mono_r; lia).
    assert (2 ^ (8 * (i + 1)) = 2 ^ (8 * i) * 256) as P by (replace (8 * (i + 1)) with (8 * i + 8) by lia; rewrite Z.pow_add_r by lia; reflexivity).
    assert (0 < 2 ^ (8 * i)) by (apply Z.pow_pos_nonneg; lia).
    pose proof (B i). pose proof (B (i + 1)). pose proof (G i).
    apply wp_asgv with (v := bits_val (8 * (i + 1)) (fbit 8 x)); [reflexivity| | |cbn [tmin tmax]; lia|auto].
    + cbn [lok tmin tmax]. repeat split; auto; lia.
    + cbn [val val_bin ty promote common]. unfold cv, uw. cbn [subr signed wrap].
      rewrite Z.mod_small by nia.
      apply Z.bits_inj'. intros k Hk. rewrite Z.lor_spec, !bits_val_testbit, Z.mul_pow2_bits by lia.
      destruct (k <? 8 * i) eqn:E1.
      * rewrite (Z.testbit_neg_r (get x i)) by lia. replace (k <? 8 * (i + 1)) with true by lia. apply orb_false_r.
      * cbn [andb orb]. destruct (k <? 8 * (i + 1)) eqn:E2; cbn [andb]; [rewrite (F i) by lia; auto|].
        apply testbit_high with 8; lia.
  - intros r ->. auto.
Qed.

Lemma wp_m4_cbd_6 : forall s buf (Q : list Z -> Prop), len s = 256 -> 192 <= len buf -> typed U8 buf ->
  (forall r, cbd_post 6 s buf r -> Q r) -> wp (m4_cbd_6 s buf) Q.
Proof. cbd_tac wp_load32 6 3 3 U32 0x249249. Qed.
Lemma wp_m4_cbd_8 : forall s buf (Q : list Z -> Prop), len s = 256 -> 256 <= len buf -> typed U8 buf ->
  (forall r, cbd_post 8 s buf r -> Q r) -> wp (m4_cbd_8 s buf) Q.
Proof. cbd_tac wp_load32 8 4 4 U32 0x11111111. Qed.
Lemma wp_m4_cbd : forall l s buf (Q : list Z -> Prop), let mu := SABER_MU (Cfg l false false) in
  len s = 256 -> 32 * mu <= len buf -> typed U8 buf ->
  Q (map (fun x => x mod 65536) (cbd_poly mu buf)) -> wp (m4_cbd l s buf) Q.
Proof.
  intros l s buf Q mu Ls Lb Tb HQ.
  assert (forall r, cbd_post mu s buf r -> Q r) as H.
  { intros r ->. rewrite zskip_all, app_nil_r by lia. unfold cbd_poly in HQ. rewrite map_ztab in HQ. exact HQ. }
  unfold m4_cbd. subst mu. destruct l; [apply wp_cbd_10|apply wp_m4_cbd_8|apply wp_m4_cbd_6]; auto.
Qed.
