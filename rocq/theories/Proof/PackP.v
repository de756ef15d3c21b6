(** Packing and unpacking implement the bit-stream encoding. *)
From Coq Require Import ZArith List Bool Lia.
From Verif Require Import Lib.Arr Lib.CInt Lib.CMon Lib.Wire Spec.Bits Model.Params Model.Pack.
Import ListNotations.
Local Open Scope Z_scope.

Lemma fill_regroup : forall t w1 w2 n k kd src (es : Z -> list cexp) out (Q : list Z -> Prop),
  signed t = false -> 0 < w1 -> 0 < w2 <= width t -> kd * w1 = k * w2 -> 0 < k -> 0 <= n ->
  k * n <= len out ->
  (forall j, 0 <= j < n -> len (es j) = k) ->
  (forall j e, 0 <= j < n -> In e (es j) -> safe e = true /\ lok e) ->
  (forall j, 0 <= j < n -> all_below (Z.to_nat k) (fun c => all_below (Z.to_nat (width t)) (fun m =>
     bw (znth (Cst I32 0) (es j) c) m =
     if m <? w2 then WB (get src (kd * j + (w2 * c + m) / w1)) ((w2 * c + m) mod w1) else W0))) ->
  Q (regroup w1 w2 (k * n) src ++ zskip (k * n) out) ->
  wp (for_ 0 n (fun j out => sts t out (k * j) (es j)) out) Q.
Proof.
  intros t w1 w2 n k kd src es out Q Ht H1 H2 Hk1 Hk Hn Hout Hlen Hsafe Hbits HQ.
  apply wp_fill; auto.
  match goal with |- Q (?a ++ _) => replace a with (regroup w1 w2 (k * n) src); auto end.
  unfold regroup. apply ztab_ext. intros i Hi.
  pose proof (Z.mod_pos_bound i k Hk) as Hc. set (c := i mod k) in *. set (j := i / k).
  assert (i = k * j + c) as Ei by (apply Z.div_mod; lia).
  assert (0 <= j < n) as Hj by (split; [apply Z.div_pos; lia|apply Z.div_lt_upper_bound; lia]).
  assert (lok (znth (Cst I32 0) (es j) c)) as Hlok.
  { apply Hsafe with j; auto. unfold znth. destruct (c <? 0) eqn:E; [lia|]. apply nth_In.
    specialize (Hlen j Hj). unfold len in Hlen. lia. }
  specialize (Hbits j Hj).
  assert (forall m, 0 <= m < width t -> Z.testbit (wrap t (val (znth (Cst I32 0) (es j) c))) m =
     (m <? w2) && fbit w1 src (w2 * i + m)) as Hb.
  { intros m Hm.
    pose proof (all_below_ok _ _ Hbits c ltac:(lia)) as H. cbn beta in H.
    pose proof (all_below_ok _ _ H m ltac:(lia)) as H'. cbn beta in H'.
    rewrite bw_wrap with (w := if m <? w2 then WB (get src (kd * j + (w2 * c + m) / w1)) ((w2 * c + m) mod w1) else W0);
      auto; [|destruct (m <? w2); discriminate].
    destruct (m <? w2) eqn:E; cbn [den andb]; auto.
    pose proof (Z.div_mod (w2 * c + m) w1 ltac:(lia)) as D.
    pose proof (Z.mod_pos_bound (w2 * c + m) w1 H1).
    replace (w2 * i + m) with (w1 * (kd * j + (w2 * c + m) / w1) + (w2 * c + m) mod w1) by nia.
    now rewrite fbit_at by lia. }
  destruct (unsigned_width t Ht) as (A & B & C).
  pose proof (wrap_range t (val (znth (Cst I32 0) (es j) c))) as Hr.
  symmetry. apply bits_val_eq; [lia| |].
  - split; [lia|]. replace (wrap t (val (znth (Cst I32 0) (es j) c))) with
      (wrap t (val (znth (Cst I32 0) (es j) c)) mod 2 ^ w2); [apply Z.mod_pos_bound; lia|].
    apply Z.bits_inj'. intros m Hm. destruct (Z.ltb_spec m w2).
    + now rewrite Z.mod_pow2_bits_low by lia.
    + rewrite Z.mod_pow2_bits_high by lia. symmetry. destruct (Z_lt_dec m (width t)).
      * rewrite Hb by lia. destruct (m <? w2) eqn:E; auto. lia.
      * apply testbit_high with (width t); lia.
  - intros m Hm. rewrite Hb by lia. destruct (m <? w2) eqn:E; auto. lia.
Qed.

Ltac fill a1 a2 d s :=
  cbv zeta; apply fill_regroup with (w1 := a1) (w2 := a2) (kd := d) (src := s);
  [ reflexivity | lia | cbn; lia | lia | lia | cbn; lia | cbn; lia
  | intros; reflexivity
  | let HI := fresh in intros j e Hj HI; cbn [In] in HI;
    repeat (destruct HI as [<-|HI]; [split; [reflexivity|cbn [lok tmin tmax]; repeat split; (assumption || lia)]|]); contradiction
  | intros j Hj; cbn [all_below Z.to_nat Pos.to_nat Pos.iter_op width Nat.add];
    repeat split
  | cbn [Z.mul Pos.mul Pos.add Z.div Z.div_eucl] ].

Lemma wp_POLT2BS_3 : forall bytes data (Q : list Z -> Prop),
  96 <= len bytes -> 256 <= len data -> typed U16 data ->
  Q (pack 3 data ++ zskip 96 bytes) -> wp (POLT2BS_3 bytes data) Q.
Proof.
  intros bytes data Q Hb Hd Ht HQ. unfold POLT2BS_3. change (256 / 8) with 32.
  fill 3 8 8 data. exact HQ.
Qed.

Lemma wp_POLT2BS_4 : forall bytes data (Q : list Z -> Prop),
  128 <= len bytes -> 256 <= len data -> typed U16 data ->
  Q (pack 4 data ++ zskip 128 bytes) -> wp (POLT2BS_4 bytes data) Q.
Proof.
  intros bytes data Q Hb Hd Ht HQ. unfold POLT2BS_4. change (256 / 2) with 128.
  fill 4 8 2 data. exact HQ.
Qed.

Lemma wp_POLT2BS_6 : forall bytes data (Q : list Z -> Prop),
  192 <= len bytes -> 256 <= len data -> typed U16 data ->
  Q (pack 6 data ++ zskip 192 bytes) -> wp (POLT2BS_6 bytes data) Q.
Proof.
  intros bytes data Q Hb Hd Ht HQ. unfold POLT2BS_6. change (256 / 4) with 64.
  fill 6 8 4 data. exact HQ.
Qed.

Lemma wp_POLq2BS_13 : forall bytes data (Q : list Z -> Prop),
  416 <= len bytes -> 256 <= len data -> typed U16 data ->
  Q (pack 13 data ++ zskip 416 bytes) -> wp (POLq2BS_13 bytes data) Q.
Proof.
  intros bytes data Q Hb Hd Ht HQ. unfold POLq2BS_13. change (256 / 8) with 32.
  fill 13 8 8 data. exact HQ.
Qed.

Lemma wp_POLq2BS_12 : forall bytes data (Q : list Z -> Prop),
  384 <= len bytes -> 256 <= len data -> typed U16 data ->
  Q (pack 12 data ++ zskip 384 bytes) -> wp (POLq2BS_12 bytes data) Q.
Proof.
  intros bytes data Q Hb Hd Ht HQ. unfold POLq2BS_12. change (256 / 2) with 128.
  fill 12 8 2 data. exact HQ.
Qed.

Lemma wp_POLp2BS : forall bytes data (Q : list Z -> Prop),
  320 <= len bytes -> 256 <= len data -> typed U16 data ->
  Q (pack 10 data ++ zskip 320 bytes) -> wp (POLp2BS bytes data) Q.
Proof.
  intros bytes data Q Hb Hd Ht HQ. unfold POLp2BS. change (256 / 4) with 64.
  fill 10 8 4 data. exact HQ.
Qed.

Lemma wp_BS2POLT_3 : forall bytes data (Q : list Z -> Prop),
  96 <= len bytes -> 256 <= len data -> typed U8 bytes ->
  Q (unpack 3 bytes ++ zskip 256 data) -> wp (BS2POLT_3 bytes data) Q.
Proof.
  intros bytes data Q Hb Hd Ht HQ. unfold BS2POLT_3. change (256 / 8) with 32.
  fill 8 3 3 bytes. exact HQ.
Qed.

Lemma wp_BS2POLT_4 : forall bytes data (Q : list Z -> Prop),
  128 <= len bytes -> 256 <= len data -> typed U8 bytes ->
  Q (unpack 4 bytes ++ zskip 256 data) -> wp (BS2POLT_4 bytes data) Q.
Proof.
  intros bytes data Q Hb Hd Ht HQ. unfold BS2POLT_4. change (256 / 2) with 128.
  fill 8 4 1 bytes. exact HQ.
Qed.

Lemma wp_BS2POLT_6 : forall bytes data (Q : list Z -> Prop),
  192 <= len bytes -> 256 <= len data -> typed U8 bytes ->
  Q (unpack 6 bytes ++ zskip 256 data) -> wp (BS2POLT_6 bytes data) Q.
Proof.
  intros bytes data Q Hb Hd Ht HQ. unfold BS2POLT_6. change (256 / 4) with 64.
  fill 8 6 3 bytes. exact HQ.
Qed.

Lemma wp_BS2POLq_13 : forall bytes data (Q : list Z -> Prop),
  416 <= len bytes -> 256 <= len data -> typed U8 bytes ->
  Q (unpack 13 bytes ++ zskip 256 data) -> wp (BS2POLq_13 bytes data) Q.
Proof.
  intros bytes data Q Hb Hd Ht HQ. unfold BS2POLq_13. change (256 / 8) with 32.
  fill 8 13 13 bytes. exact HQ.
Qed.

Lemma wp_BS2POLq_12 : forall bytes data (Q : list Z -> Prop),
  384 <= len bytes -> 256 <= len data -> typed U8 bytes ->
  Q (unpack 12 bytes ++ zskip 256 data) -> wp (BS2POLq_12 bytes data) Q.
Proof.
  intros bytes data Q Hb Hd Ht HQ. unfold BS2POLq_12. change (256 / 2) with 128.
  fill 8 12 3 bytes. exact HQ.
Qed.

Lemma wp_BS2POLp : forall bytes data (Q : list Z -> Prop),
  320 <= len bytes -> 256 <= len data -> typed U8 bytes ->
  Q (unpack 10 bytes ++ zskip 256 data) -> wp (BS2POLp bytes data) Q.
Proof.
  intros bytes data Q Hb Hd Ht HQ. unfold BS2POLp. change (256 / 4) with 64.
  fill 8 10 5 bytes. exact HQ.
Qed.


(** ** Selection by parameters *)

Lemma wp_POLT2BS : forall c bytes data (Q : list Z -> Prop),
  SABER_SCALEBYTES_KEM c <= len bytes -> 256 <= len data -> typed U16 data ->
  Q (pack (SABER_ET c) data ++ zskip (SABER_SCALEBYTES_KEM c) bytes) -> wp (POLT2BS c bytes data) Q.
Proof.
  intros [[] u s]; unfold POLT2BS; cbn [lvl]; intros;
    [apply wp_POLT2BS_3|apply wp_POLT2BS_4|apply wp_POLT2BS_6]; auto.
Qed.

Lemma wp_BS2POLT : forall c bytes data (Q : list Z -> Prop),
  SABER_SCALEBYTES_KEM c <= len bytes -> 256 <= len data -> typed U8 bytes ->
  Q (unpack (SABER_ET c) bytes ++ zskip 256 data) -> wp (BS2POLT c bytes data) Q.
Proof.
  intros [[] u s]; unfold BS2POLT; cbn [lvl]; intros;
    [apply wp_BS2POLT_3|apply wp_BS2POLT_4|apply wp_BS2POLT_6]; auto.
Qed.

Lemma wp_POLq2BS : forall c bytes data (Q : list Z -> Prop),
  SABER_POLYBYTES c <= len bytes -> 256 <= len data -> typed U16 data ->
  Q (pack (SABER_EQ c) data ++ zskip (SABER_POLYBYTES c) bytes) -> wp (POLq2BS c bytes data) Q.
Proof.
  intros [l [] s]; unfold POLq2BS; cbn [usaber]; intros;
    [apply wp_POLq2BS_12|apply wp_POLq2BS_13]; auto.
Qed.

Lemma wp_BS2POLq : forall c bytes data (Q : list Z -> Prop),
  SABER_POLYBYTES c <= len bytes -> 256 <= len data -> typed U8 bytes ->
  Q (unpack (SABER_EQ c) bytes ++ zskip 256 data) -> wp (BS2POLq c bytes data) Q.
Proof.
  intros [l [] s]; unfold BS2POLq; cbn [usaber]; intros;
    [apply wp_BS2POLq_12|apply wp_BS2POLq_13]; auto.
Qed.

(** ** Vectors *)

(** Polynomials of 256 coefficients of type [t], [n] of them. *)
Definition vec (t : ity) (n : Z) (v : list (list Z)) : Prop :=
  len v = n /\ Forall (fun r => len r = 256 /\ typed t r) v.

(** Storage for such a vector: contents arbitrary. *)
Definition vec_mem (n : Z) (v : list (list Z)) : Prop :=
  len v = n /\ Forall (fun r => len r = 256) v.

Lemma vec_getr : forall t n v i, vec t n v -> 0 <= i < n -> len (getr v i) = 256 /\ typed t (getr v i).
Proof.
  intros t n v i (Hl & Hf) Hi. unfold getr.
  apply Forall_znth with (P := fun r => len r = 256 /\ typed t r) (d := []); auto. lia.
Qed.

Lemma vec_mem_getr : forall n v i, vec_mem n v -> 0 <= i < n -> len (getr v i) = 256.
Proof.
  intros n v i (Hl & Hf) Hi. unfold getr.
  apply Forall_znth with (P := fun r => len r = 256) (d := []); auto. lia.
Qed.

Lemma vec_vec_mem : forall t n v, vec t n v -> vec_mem n v.
Proof. intros t n v (H & F). split; auto. eapply Forall_impl; [|apply F]. cbn; tauto. Qed.

Lemma vec_ztab : forall t n f, 0 <= n -> (forall i, 0 <= i < n -> len (f i) = 256 /\ typed t (f i)) ->
  vec t n (ztab n f).
Proof. intros. split; [now apply len_ztab|]. now apply Forall_ztab. Qed.

Lemma concat_ztab_map : forall w n v, len v = n ->
  concat (ztab n (fun i => pack w (getr v i))) = pack_vec w v.
Proof.
  intros. unfold pack_vec. rewrite flat_map_concat_map. f_equal.
  transitivity (map (pack w) (ztab (len v) (znth [] v))); [|now rewrite ztab_self].
  rewrite map_ztab. now subst.
Qed.

Lemma wp_pack_body : forall w (f : list Z -> list Z -> M (list Z)) n v i a,
  0 < w -> vec U16 n v -> 0 <= i < n -> n * (32 * w) <= len a ->
  (forall bytes data (Q : list Z -> Prop), 32 * w <= len bytes -> 256 <= len data -> typed U16 data ->
     Q (pack w data ++ zskip (32 * w) bytes) -> wp (f bytes data) Q) ->
  wp (d <- row v i ;; at_ a (i * (32 * w)) (fun p => f p d))
     (fun r => r = zfirst (i * (32 * w)) a ++ pack w (getr v i) ++ zskip (i * (32 * w) + 32 * w) a).
Proof.
  intros w f n v i a Hw Hv Hi Hl Hf. destruct (vec_getr _ _ _ _ Hv Hi) as (L & T).
  destruct Hv as (Hv & _).
  apply wp_bind, wp_row with (d := []); [lia|]. apply wp_at; [nia|].
  apply Hf; auto.
  - rewrite len_zskip by nia. nia.
  - unfold getr in L. rewrite L. lia.
  - rewrite zskip_zskip by nia. reflexivity.
Qed.

Lemma wp_unpack_body : forall w (f : list Z -> list Z -> M (list Z)) n bytes v i a,
  0 < w -> vec_mem n v -> 0 <= i < n -> n * (32 * w) <= len bytes -> typed U8 bytes ->
  len a = len v -> getr a i = getr v i ->
  (forall bytes data (Q : list Z -> Prop), 32 * w <= len bytes -> 256 <= len data -> typed U8 bytes ->
     Q (unpack w bytes ++ zskip 256 data) -> wp (f bytes data) Q) ->
  wp (p <- ptr bytes (i * (32 * w)) ;; d <- row a i ;; d <- f p d ;; setrow a i d)
     (fun r => r = upd a i (unpack w (zskip (32 * w * i) bytes))).
Proof.
  intros w f n bytes v i a Hw Hv Hi Hl Ht La Ea Hf.
  pose proof (vec_mem_getr _ _ _ Hv Hi) as L. destruct Hv as (Hv & _).
  apply wp_bind, wp_ptr; [nia|]. apply wp_bind, wp_row with (d := []); [lia|].
  fold (getr a i). rewrite Ea. apply wp_bind, Hf.
  - rewrite len_zskip by nia. nia.
  - lia.
  - now apply Forall_zskip.
  - apply wp_setrow; [lia|]. f_equal.
    replace (zskip 256 (getr v i)) with (@nil Z); [rewrite app_nil_r; do 2 f_equal; lia|].
    symmetry. unfold zskip. apply skipn_all2. unfold len in L. lia.
Qed.

Lemma cfg_L : forall c, 2 <= SABER_L c <= 4.
Proof. intros [[] u s]; cbn; lia. Qed.
Lemma cfg_EQ : forall c, 12 <= SABER_EQ c <= 13.
Proof. intros [l [] s]; cbn; lia. Qed.
Lemma cfg_ET : forall c, 3 <= SABER_ET c <= 6.
Proof. intros [[] u s]; cbn; lia. Qed.
Lemma cfg_POLYBYTES : forall c, SABER_POLYBYTES c = 32 * SABER_EQ c.
Proof. intros [l [] s]; reflexivity. Qed.
Lemma cfg_SCALE : forall c, SABER_SCALEBYTES_KEM c = 32 * SABER_ET c.
Proof. intros [[] u s]; reflexivity. Qed.
Lemma cfg_POLYVECBYTES : forall c, SABER_POLYVECBYTES c = SABER_L c * (32 * SABER_EQ c).
Proof. intros. unfold SABER_POLYVECBYTES. now rewrite cfg_POLYBYTES. Qed.

Lemma wp_POLVECq2BS : forall c bytes data (Q : list Z -> Prop),
  SABER_POLYVECBYTES c <= len bytes -> vec U16 (SABER_L c) data ->
  Q (pack_vec (SABER_EQ c) data ++ zskip (SABER_POLYVECBYTES c) bytes) -> wp (POLVECq2BS c bytes data) Q.
Proof.
  intros c bytes data Q Hb Hv HQ. unfold POLVECq2BS. rewrite cfg_POLYVECBYTES in *. rewrite cfg_POLYBYTES.
  pose proof (cfg_L c). pose proof (cfg_EQ c).
  apply wp_chunks with (sz := 32 * SABER_EQ c) (g := fun i => pack (SABER_EQ c) (getr data i)); try lia.
  - intros. apply len_pack. lia.
  - intros i a Hi La. apply wp_pack_body with (n := SABER_L c); auto; try lia.
    intros. apply wp_POLq2BS; rewrite ?cfg_POLYBYTES; auto.
  - rewrite concat_ztab_map; auto. apply Hv.
Qed.

Lemma wp_POLVECp2BS : forall c bytes data (Q : list Z -> Prop),
  SABER_POLYVECCOMPRESSEDBYTES c <= len bytes -> vec U16 (SABER_L c) data ->
  Q (pack_vec 10 data ++ zskip (SABER_POLYVECCOMPRESSEDBYTES c) bytes) -> wp (POLVECp2BS c bytes data) Q.
Proof.
  intros c bytes data Q Hb Hv HQ. unfold POLVECp2BS.
  unfold SABER_POLYVECCOMPRESSEDBYTES, SABER_POLYCOMPRESSEDBYTES in *.
  change (SABER_EP * SABER_N / 8) with (32 * 10) in *. pose proof (cfg_L c).
  apply wp_chunks with (sz := 32 * 10) (g := fun i => pack 10 (getr data i)); try lia.
  - intros. apply len_pack. lia.
  - intros i a Hi La. apply wp_pack_body with (n := SABER_L c); auto; try lia.
    intros. apply wp_POLp2BS; auto.
  - rewrite concat_ztab_map; auto. apply Hv.
Qed.

Lemma wp_BS2POLVECq : forall c bytes data (Q : list (list Z) -> Prop),
  SABER_POLYVECBYTES c <= len bytes -> typed U8 bytes -> vec_mem (SABER_L c) data ->
  Q (unpack_vec (SABER_EQ c) (SABER_L c) bytes) -> wp (BS2POLVECq c bytes data) Q.
Proof.
  intros c bytes data Q Hb Ht Hv HQ. unfold BS2POLVECq. rewrite cfg_POLYVECBYTES in *. rewrite cfg_POLYBYTES.
  pose proof (cfg_L c). pose proof (cfg_EQ c).
  apply wp_rows with (d0 := []) (g := fun i => unpack (SABER_EQ c) (zskip (32 * SABER_EQ c * i) bytes)).
  - destruct Hv. lia.
  - intros i a Hi La Ea. apply wp_unpack_body with (n := SABER_L c) (v := data); auto; try lia.
    intros. apply wp_BS2POLq; rewrite ?cfg_POLYBYTES; auto.
  - replace (zskip (SABER_L c) data) with (@nil (list Z)); [now rewrite app_nil_r|].
    symmetry. unfold zskip. apply skipn_all2. destruct Hv. unfold len in *. lia.
Qed.

Lemma wp_BS2POLVECp : forall c bytes data (Q : list (list Z) -> Prop),
  SABER_POLYVECCOMPRESSEDBYTES c <= len bytes -> typed U8 bytes -> vec_mem (SABER_L c) data ->
  Q (unpack_vec 10 (SABER_L c) bytes) -> wp (BS2POLVECp c bytes data) Q.
Proof.
  intros c bytes data Q Hb Ht Hv HQ. unfold BS2POLVECp.
  unfold SABER_POLYVECCOMPRESSEDBYTES, SABER_POLYCOMPRESSEDBYTES in *.
  change (SABER_EP * SABER_N / 8) with (32 * 10) in *. pose proof (cfg_L c).
  apply wp_rows with (d0 := []) (g := fun i => unpack 10 (zskip (32 * 10 * i) bytes)).
  - destruct Hv. lia.
  - intros i a Hi La Ea. apply wp_unpack_body with (n := SABER_L c) (v := data); auto; try lia.
    intros. apply wp_BS2POLp; auto.
  - replace (zskip (SABER_L c) data) with (@nil (list Z)); [now rewrite app_nil_r|].
    symmetry. unfold zskip. apply skipn_all2. destruct Hv. unfold len in *. lia.
Qed.

(** ** Messages *)

Lemma land_1 : forall z, Z.land z 1 = Z.b2z (Z.testbit z 0).
Proof. intros. change 1 with (Z.ones 1). rewrite Z.land_ones by lia. now rewrite Z.bit0_mod. Qed.

Lemma wp_BS2POLmsg : forall bytes data (Q : list Z -> Prop),
  32 <= len bytes -> typed U8 bytes -> len data = 256 ->
  Q (regroup 8 1 256 bytes) -> wp (BS2POLmsg bytes data) Q.
Proof.
  intros bytes data Q Hb Ht Hd HQ. unfold BS2POLmsg. change SABER_KEYBYTES with 32.
  assert (forall k, 0 <= k < 256 -> get (regroup 8 1 256 bytes) k = Z.b2z (Z.testbit (get bytes (k / 8)) (k mod 8))) as G.
  { intros k Hk. rewrite get_regroup by lia. unfold fbit. rewrite Z.mul_1_l.
    change (bits_val 1 ?f) with (Z.b2z (f 0) + 0). cbn beta. now rewrite !Z.add_0_r. }
  apply wp_for with (I := fun j a => len a = 256 /\ forall k, 0 <= k < 8 * j -> get a k = get (regroup 8 1 256 bytes) k).
  - lia.
  - split; auto. intros. lia.
  - intros j a Hj (La & Ha).
    apply wp_for with (I := fun i a => len a = 256 /\ forall k, 0 <= k < 8 * j + i -> get a k = get (regroup 8 1 256 bytes) k).
    + lia.
    + split; auto. intros. apply Ha. lia.
    + intros i a' Hi (La' & Ha'). apply wp_st.
      * reflexivity.
      * cbn [lok tmin tmax]. repeat split; auto; lia.
      * lia.
      * split; [now rewrite len_upd|]. intros k Hk. unfold get at 1. rewrite znth_upd by lia.
        destruct (k =? j * 8 + i) eqn:E; [|apply Ha'; lia].
        rewrite G by lia.
        assert (k / 8 = j) as -> by (symmetry; apply Z.div_unique with i; lia).
        assert (k mod 8 = i) as -> by (symmetry; apply Z.mod_unique with j; lia).
        cbn [val val_bin ty promote common cv subr].
        rewrite land_1, Z.shiftr_spec by lia. rewrite Z.add_0_l.
        apply wrap_id. destruct (Z.testbit _ _); cbn; lia.
    + intros a' (La' & Ha'). split; auto. intros. apply Ha'. lia.
  - intros a (La & Ha). replace a with (regroup 8 1 256 bytes); auto.
    apply znth_ext with 0; rewrite len_regroup by lia; [auto|]. intros. symmetry. apply Ha. lia.
Qed.

Lemma wp_POLmsg2BS : forall bytes data (Q : list Z -> Prop),
  32 <= len bytes -> typed U16 data -> 256 <= len data ->
  Q (regroup 1 8 32 data ++ zskip 32 bytes) -> wp (POLmsg2BS bytes data) Q.
Proof.
  intros bytes data Q Hb Ht Hd HQ. unfold POLmsg2BS. change SABER_KEYBYTES with 32.
  apply wp_bind, wp_memset; [lia|]. set (z := repeat 0 (Z.to_nat 32) ++ zskip 32 bytes).
  assert (len z = len bytes) as Lz.
  { unfold z. rewrite len_app, len_repeat, len_zskip; lia. }
  set (bit := fun k => Z.testbit (get data k) 0).
  assert (forall j i, 0 <= j < 32 -> 0 <= i < 8 -> lok (Idx U16 data (j * 8 + i))) as Hlok
    by (intros; cbn; split; auto; lia).
  apply wp_for with (I := fun j a => len a = len bytes /\ forall k, 0 <= k < len bytes ->
    get a k = if k <? j then get (regroup 1 8 32 data) k else get z k).
  - lia.
  - split; auto. intros. destruct (k <? 0) eqn:E; auto. lia.
  - intros j a Hj (La & Ha).
    apply wp_for with (I := fun i a' => len a' = len bytes /\ forall k, 0 <= k < len bytes ->
      get a' k = if k =? j then bits_val i (fun m => bit (8 * j + m)) else get a k).
    + lia.
    + split; auto. intros k Hk. destruct (k =? j) eqn:E; auto. assert (k = j) by lia. subst.
      rewrite Ha by lia. rewrite Z.ltb_irrefl. unfold z, get. rewrite znth_app1 by (rewrite len_repeat; lia).
      rewrite znth_repeat. reflexivity.
    + intros i a' Hi (La' & Ha'). assert (0 <= get a' j < 2 ^ i) as Hr.
      { rewrite Ha' by lia. rewrite Z.eqb_refl. apply bits_val_bound. lia. }
      assert (2 ^ i <= 2 ^ 7) by (apply Z.pow_le_mono_r; lia).
      apply wp_bind. cbn [ev]. apply wp_bind. apply wp_rd; [lia|].
      apply wp_bind. apply wp_bind. apply wp_bind. apply wp_rd; [lia|].
      apply wp_bind, wp_ret. eapply wp_lift; [reflexivity|].
      apply wp_bind, wp_ret.
      pose proof (typed_get _ _ (j * 8 + i) Ht ltac:(lia)) as Hg. cbn [tmin tmax] in Hg.
      cbn [ty promote common]. rewrite !wrap_id by (cbn; lia). rewrite land_1.
      set (b := Z.testbit (get data (j * 8 + i)) 0).
      assert (0 <= Z.b2z b <= 1) by (destruct b; cbn; lia).
      eapply wp_lift with (a := Z.b2z b * 2 ^ i).
      { unfold eval_bin. cbn [promote signed width]. destruct (_ && _) eqn:E; [|lia].
        destruct (0 <=? Z.b2z b) eqn:E'; [|lia]. unfold arith. cbn [signed].
        replace (inr I32 (Z.b2z b * 2 ^ i)) with true; auto. symmetry. apply inr_spec. cbn [tmin tmax]. nia. }
      eapply wp_lift; [reflexivity|]. cbn [promote common]. rewrite !(wrap_id I32) by (cbn [tmin tmax]; nia).
      assert (Z.lor (get a' j) (Z.b2z b * 2 ^ i) = bits_val (i + 1) (fun m => bit (8 * j + m))) as ->.
      { rewrite Ha' by lia. rewrite Z.eqb_refl. apply Z.bits_inj'. intros m Hm.
        rewrite Z.lor_spec, !bits_val_testbit by lia. rewrite <- Z.shiftl_mul_pow2 by lia.
        rewrite Z.shiftl_spec by lia. destruct (Z.ltb_spec m i).
        - rewrite Z.testbit_neg_r by lia. rewrite orb_false_r. destruct (Z.ltb_spec m (i + 1)); auto. lia.
        - destruct (Z.ltb_spec m (i + 1)).
          + assert (m = i) by lia. subst. rewrite Z.sub_diag. rewrite Z.b2z_bit0. cbn [andb orb].
            unfold b, bit. do 2 f_equal. lia.
          + cbn [andb orb]. destruct b; cbn [Z.b2z]; [|apply Z.bits_0].
            apply testbit_high with 1; lia. }
      pose proof (bits_val_bound (i + 1) (fun m => bit (8 * j + m)) ltac:(lia)).
      assert (2 ^ (i + 1) <= 2 ^ 8) by (apply Z.pow_le_mono_r; lia).
      rewrite (wrap_id U8) by (cbn [tmin tmax]; lia).
      apply wp_wr; [lia|]. split; [now rewrite len_upd|]. intros k Hk. unfold get at 1.
      rewrite znth_upd by lia. destruct (k =? j) eqn:E; auto. fold (get a' k). rewrite Ha' by lia. now rewrite E.
    + intros a' (La' & Ha'). split; auto. intros k Hk. rewrite Ha' by lia.
      destruct (k =? j) eqn:E.
      * assert (k = j) by lia. subst. destruct (j <? j + 1) eqn:E'; [|lia].
        rewrite get_regroup by lia. apply bits_val_ext. intros m Hm. unfold fbit, bit.
        rewrite Z.div_1_r, Z.mod_1_r. auto.
      * rewrite Ha by lia. destruct (k <? j) eqn:E1, (k <? j + 1) eqn:E2; auto; lia.
  - intros a (La & Ha). replace a with (regroup 1 8 32 data ++ zskip 32 bytes); auto.
    apply znth_ext with 0; rewrite len_app, len_regroup, len_zskip by lia; [lia|].
    intros i Hi. fold (get a i). rewrite Ha by lia. destruct (i <? 32) eqn:E.
    + rewrite znth_app1 by (rewrite len_regroup; lia). auto.
    + unfold z, get. rewrite !znth_app2 by (rewrite ?len_regroup, ?len_repeat; lia).
      rewrite len_regroup, len_repeat by lia. f_equal.
Qed.
