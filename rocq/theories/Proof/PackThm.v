(** Round trips and format of the encodings, at the level of the C functions. *)
From Coq Require Import ZArith List Bool Lia.
From Verif Require Import Lib.Arr Lib.CInt Lib.CMon Spec.Bits Model.Params Model.Pack Proof.PackP.
Import ListNotations.
Local Open Scope Z_scope.

Lemma zskip_all : forall {A} n (l : list A), len l <= n -> zskip n l = [].
Proof. intros. unfold zskip. apply skipn_all2. unfold len in *. lia. Qed.

Lemma bytes_range : forall n b, arr U8 n b -> Forall (fun z => 0 <= z < 256) b.
Proof. intros n b (_ & H). eapply Forall_impl; [|apply H]. cbn; lia. Qed.

Lemma pack_typed : forall w l, typed U8 (pack w l).
Proof. intros. eapply Forall_impl; [|apply pack_range]. cbn; lia. Qed.

Lemma pack_vec_typed : forall w l, typed U8 (pack_vec w l).
Proof. intros. eapply Forall_impl; [|apply pack_vec_range]. cbn; lia. Qed.

Lemma unpack_typed : forall w l, 0 <= w <= 16 -> typed U16 (unpack w l).
Proof.
  intros. eapply typed_range with (w := w); [cbn; lia| |apply unpack_range; lia].
  assert (2 ^ w <= 2 ^ 16) by (apply Z.pow_le_mono_r; lia). cbn [tmax]. lia.
Qed.

(** A packing function of width [w] writes exactly [pack w data]. *)
Definition packs (f : list Z -> list Z -> M (list Z)) (w : Z) : Prop :=
  forall out data, len out = 32 * w -> arr U16 256 data -> run (f out data) = Some (pack w data).
Definition unpacks (f : list Z -> list Z -> M (list Z)) (w : Z) : Prop :=
  forall bytes out, arr U8 (32 * w) bytes -> len out = 256 -> run (f bytes out) = Some (unpack w bytes).

Lemma POLT2BS_packs : forall c, packs (POLT2BS c) (SABER_ET c).
Proof.
  intros c out data Ho (Ld & Td). apply wp_run_eq. apply wp_POLT2BS; auto.
  - rewrite cfg_SCALE. lia.
  - lia.
  - rewrite zskip_all by (rewrite cfg_SCALE; lia). now rewrite app_nil_r.
Qed.
Lemma BS2POLT_unpacks : forall c, unpacks (BS2POLT c) (SABER_ET c).
Proof.
  intros c bytes out (Lb & Tb) Ho. apply wp_run_eq. apply wp_BS2POLT; auto; try lia.
  - rewrite cfg_SCALE. lia.
  - rewrite zskip_all by lia. now rewrite app_nil_r.
Qed.
Lemma POLq2BS_packs : forall c, packs (POLq2BS c) (SABER_EQ c).
Proof.
  intros c out data Ho (Ld & Td). apply wp_run_eq. apply wp_POLq2BS; auto.
  - rewrite cfg_POLYBYTES. lia.
  - lia.
  - rewrite zskip_all by (rewrite cfg_POLYBYTES; lia). now rewrite app_nil_r.
Qed.
Lemma BS2POLq_unpacks : forall c, unpacks (BS2POLq c) (SABER_EQ c).
Proof.
  intros c bytes out (Lb & Tb) Ho. apply wp_run_eq. apply wp_BS2POLq; auto; try lia.
  - rewrite cfg_POLYBYTES. lia.
  - rewrite zskip_all by lia. now rewrite app_nil_r.
Qed.
Lemma POLp2BS_packs : packs POLp2BS 10.
Proof.
  intros out data Ho (Ld & Td). apply wp_run_eq. apply wp_POLp2BS; auto; try lia.
  rewrite zskip_all by lia. now rewrite app_nil_r.
Qed.
Lemma BS2POLp_unpacks : unpacks BS2POLp 10.
Proof.
  intros bytes out (Lb & Tb) Ho. apply wp_run_eq. apply wp_BS2POLp; auto; try lia.
  rewrite zskip_all by lia. now rewrite app_nil_r.
Qed.
Lemma POLmsg2BS_packs : packs POLmsg2BS 1.
Proof.
  intros out data Ho (Ld & Td). apply wp_run_eq. apply wp_POLmsg2BS; auto; try lia.
  rewrite zskip_all by lia. now rewrite app_nil_r.
Qed.
Lemma BS2POLmsg_unpacks : unpacks BS2POLmsg 1.
Proof.
  intros bytes out (Lb & Tb) Ho. apply wp_run_eq. apply wp_BS2POLmsg; auto; lia.
Qed.

Lemma roundtrip1 : forall f g w, 0 < w -> packs f w -> unpacks g w ->
  forall out out' data, len out = 32 * w -> len out' = 256 -> arr U16 256 data ->
  exists b, run (f out data) = Some b /\ arr U8 (32 * w) b /\
            run (g b out') = Some (map (fun x => x mod 2 ^ w) data).
Proof.
  intros f g w Hw Hf Hg out out' data Ho Ho' Hd. exists (pack w data).
  assert (arr U8 (32 * w) (pack w data)) as Hb by (split; [apply len_pack; lia|apply pack_typed]).
  split; [now apply Hf|]. split; auto. rewrite Hg by auto. f_equal. apply unpack_pack; auto. apply Hd.
Qed.

Lemma roundtrip2 : forall f g w, 0 < w <= 16 -> packs f w -> unpacks g w ->
  forall out out' bytes, len out = 32 * w -> len out' = 256 -> arr U8 (32 * w) bytes ->
  exists d, run (g bytes out') = Some d /\ arr U16 256 d /\ run (f out d) = Some bytes.
Proof.
  intros f g w Hw Hf Hg out out' b Ho Ho' Hb. exists (unpack w b).
  assert (arr U16 256 (unpack w b)) as Hd by (split; [apply len_unpack|apply unpack_typed; lia]).
  split; [now apply Hg|]. split; auto. rewrite Hf by auto. f_equal. apply pack_unpack; [lia|apply Hb|].
  now apply bytes_range with (32 * w).
Qed.

Lemma format1 : forall f w, 0 < w -> packs f w ->
  forall out data, len out = 32 * w -> arr U16 256 data ->
  exists b, run (f out data) = Some b /\ arr U8 (32 * w) b /\
    forall k, 0 <= k < 256 * w ->
      Z.testbit (get b (k / 8)) (k mod 8) = Z.testbit (get data (k / w)) (k mod w).
Proof.
  intros f w Hw Hf out data Ho Hd. exists (pack w data). split; [now apply Hf|].
  split; [split; [apply len_pack; lia|apply pack_typed]|].
  intros k Hk. change (fbit 8 (pack w data) k = fbit w data k). apply fbit_regroup; lia.
Qed.

(** Vectors *)

Lemma vec_lens : forall t n v, vec t n v -> Forall (fun l => len l = 256) v.
Proof. intros t n v (_ & F). eapply Forall_impl; [|apply F]. cbn; tauto. Qed.

Definition vpacks (f : list Z -> list (list Z) -> M (list Z)) (w n : Z) : Prop :=
  forall out data, len out = n * (32 * w) -> vec U16 n data -> run (f out data) = Some (pack_vec w data).
Definition vunpacks (f : list Z -> list (list Z) -> M (list (list Z))) (w n : Z) : Prop :=
  forall bytes out, arr U8 (n * (32 * w)) bytes -> vec_mem n out -> run (f bytes out) = Some (unpack_vec w n bytes).

Lemma POLVECq2BS_packs : forall c, vpacks (POLVECq2BS c) (SABER_EQ c) (SABER_L c).
Proof.
  intros c out data Ho Hd. apply wp_run_eq. apply wp_POLVECq2BS; auto.
  - rewrite cfg_POLYVECBYTES. lia.
  - rewrite zskip_all by (rewrite cfg_POLYVECBYTES; lia). now rewrite app_nil_r.
Qed.
Lemma POLVECp2BS_packs : forall c, vpacks (POLVECp2BS c) 10 (SABER_L c).
Proof.
  intros c out data Ho Hd.
  assert (SABER_POLYVECCOMPRESSEDBYTES c = SABER_L c * (32 * 10)) as E by reflexivity.
  apply wp_run_eq. apply wp_POLVECp2BS; auto; [lia|].
  rewrite zskip_all by lia. now rewrite app_nil_r.
Qed.
Lemma BS2POLVECq_unpacks : forall c, vunpacks (BS2POLVECq c) (SABER_EQ c) (SABER_L c).
Proof.
  intros c bytes out (Lb & Tb) Ho. apply wp_run_eq. apply wp_BS2POLVECq; auto.
  rewrite cfg_POLYVECBYTES. lia.
Qed.
Lemma BS2POLVECp_unpacks : forall c, vunpacks (BS2POLVECp c) 10 (SABER_L c).
Proof.
  intros c bytes out (Lb & Tb) Ho.
  assert (SABER_POLYVECCOMPRESSEDBYTES c = SABER_L c * (32 * 10)) as E by reflexivity.
  apply wp_run_eq. apply wp_BS2POLVECp; auto. lia.
Qed.

Lemma vroundtrip1 : forall f g w n, 0 < w -> vpacks f w n -> vunpacks g w n ->
  forall out out' data, len out = n * (32 * w) -> vec_mem n out' -> vec U16 n data ->
  exists b, run (f out data) = Some b /\ arr U8 (n * (32 * w)) b /\
            run (g b out') = Some (map (map (fun x => x mod 2 ^ w)) data).
Proof.
  intros f g w n Hw Hf Hg out out' data Ho Ho' Hd. exists (pack_vec w data).
  assert (arr U8 (n * (32 * w)) (pack_vec w data)) as Hb.
  { split; [|apply pack_vec_typed]. rewrite len_pack_vec by lia. destruct Hd. lia. }
  split; [now apply Hf|]. split; auto. rewrite Hg by auto. f_equal.
  pose proof (vec_lens _ _ _ Hd). destruct Hd as (<- & _). now apply unpack_pack_vec.
Qed.

Lemma vec_unpack_vec : forall w n b, 0 <= w <= 16 -> 0 <= n -> vec U16 n (unpack_vec w n b).
Proof.
  intros. apply vec_ztab; auto. intros. split; [apply len_unpack|now apply unpack_typed].
Qed.

Lemma vroundtrip2 : forall f g w n, 0 < w <= 16 -> 0 <= n -> vpacks f w n -> vunpacks g w n ->
  forall out out' bytes, len out = n * (32 * w) -> vec_mem n out' -> arr U8 (n * (32 * w)) bytes ->
  exists d, run (g bytes out') = Some d /\ vec U16 n d /\ run (f out d) = Some bytes.
Proof.
  intros f g w n Hw Hn Hf Hg out out' b Ho Ho' Hb. exists (unpack_vec w n b).
  assert (vec U16 n (unpack_vec w n b)) by (apply vec_unpack_vec; lia).
  split; [now apply Hg|]. split; auto. rewrite Hf by auto. f_equal.
  apply pack_unpack_vec; auto; try lia; [destruct Hb; lia|]. now apply bytes_range with (n * (32 * w)).
Qed.

(** Bit [k] of a packed vector. *)
Lemma fbit_pack_vec : forall w v p k, 0 < w -> 0 <= p < len v -> 0 <= k < 256 * w ->
  fbit 8 (pack_vec w v) (256 * w * p + k) = fbit w (getr v p) k.
Proof.
  intros w v. induction v as [|l v IH]; intros p k Hw Hp Hk; [cbn in Hp; lia|].
  rewrite len_cons in Hp. cbn [pack_vec flat_map]. fold (pack_vec w v).
  pose proof (len_pack w l ltac:(lia)) as Lp.
  destruct (Z.eq_dec p 0) as [->|].
  - rewrite Z.mul_0_r, Z.add_0_l. unfold fbit at 1. unfold get at 1.
    rewrite znth_app1 by (rewrite Lp; apply Z.div_lt_upper_bound; lia).
    change (fbit 8 (pack w l) k = fbit w l k). apply fbit_regroup; lia.
  - unfold getr. rewrite znth_cons by lia. fold (getr v (p - 1)).
    rewrite <- (IH (p - 1) k) by lia. unfold fbit. f_equal.
    + unfold get. assert (256 * w <= 256 * w * p + k) by nia. rewrite znth_app2.
      * f_equal. rewrite Lp. replace (256 * w * p + k) with (256 * w * (p - 1) + k + (32 * w) * 8) by lia.
        rewrite Z.div_add by lia. lia.
      * rewrite Lp. apply Z.div_le_lower_bound; lia.
    + replace (256 * w * p + k) with (256 * w * (p - 1) + k + (32 * w) * 8) by lia.
      now rewrite Z.mod_add by lia.
Qed.

Lemma vformat1 : forall f w n, 0 < w -> vpacks f w n ->
  forall out data, len out = n * (32 * w) -> vec U16 n data ->
  exists b, run (f out data) = Some b /\ arr U8 (n * (32 * w)) b /\
    forall p k, 0 <= p < n -> 0 <= k < 256 * w ->
      Z.testbit (get b ((256 * w * p + k) / 8)) ((256 * w * p + k) mod 8) =
      Z.testbit (get (getr data p) (k / w)) (k mod w).
Proof.
  intros f w n Hw Hf out data Ho Hd. exists (pack_vec w data). split; [now apply Hf|].
  split; [split; [rewrite len_pack_vec by lia; destruct Hd; lia|apply pack_vec_typed]|].
  intros p k Hp Hk. apply (fbit_pack_vec w data p k); auto. destruct Hd. lia.
Qed.

(** The message bit encoding inverts on bits. *)
Lemma map_mod2_bits : forall d, Forall (fun x => x = 0 \/ x = 1) d -> map (fun x => x mod 2 ^ 1) d = d.
Proof. intros. apply map_mod_small. eapply Forall_impl; [|eassumption]. cbn. intros. lia. Qed.

(** ** The statements of Props/Packing.v *)
Lemma cfg_ET_pos : forall c, 0 < SABER_ET c <= 16.
Proof. intros c. pose proof (cfg_ET c). lia. Qed.
Lemma cfg_EQ_pos : forall c, 0 < SABER_EQ c <= 16.
Proof. intros c. pose proof (cfg_EQ c). lia. Qed.
Lemma cfg_L_pos : forall c, 0 <= SABER_L c.
Proof. intros c. pose proof (cfg_L c). lia. Qed.

Definition C16_T c := roundtrip1 _ _ _ (proj1 (cfg_ET_pos c)) (POLT2BS_packs c) (BS2POLT_unpacks c).
Definition C16_q_lemma c := roundtrip1 _ _ _ (proj1 (cfg_EQ_pos c)) (POLq2BS_packs c) (BS2POLq_unpacks c).
Definition C16_p_lemma := roundtrip1 _ _ 10 eq_refl POLp2BS_packs BS2POLp_unpacks.
Lemma C16_msg_lemma : forall out out' data,
  len out = 32 -> len out' = 256 -> arr U16 256 data -> Forall (fun x => x = 0 \/ x = 1) data ->
  exists b, run (POLmsg2BS out data) = Some b /\ arr U8 32 b /\ run (BS2POLmsg b out') = Some data.
Proof.
  intros out out' data Ho Ho' Hd Hb.
  destruct (roundtrip1 _ _ 1 eq_refl POLmsg2BS_packs BS2POLmsg_unpacks out out' data Ho Ho' Hd) as (b & A & B & C).
  exists b. rewrite map_mod2_bits in C by auto. auto.
Qed.
Definition C16_vq_lemma c := vroundtrip1 _ _ _ _ (proj1 (cfg_EQ_pos c)) (POLVECq2BS_packs c) (BS2POLVECq_unpacks c).
Definition C16_vp_lemma c := vroundtrip1 _ _ 10 _ eq_refl (POLVECp2BS_packs c) (BS2POLVECp_unpacks c).

Lemma w10 : 0 < 10 <= 16. Proof. lia. Qed.
Lemma w1 : 0 < 1 <= 16. Proof. lia. Qed.
Definition C17_T c := roundtrip2 _ _ _ (cfg_ET_pos c) (POLT2BS_packs c) (BS2POLT_unpacks c).
Definition C17_q_lemma c := roundtrip2 _ _ _ (cfg_EQ_pos c) (POLq2BS_packs c) (BS2POLq_unpacks c).
Definition C17_p_lemma := roundtrip2 _ _ 10 w10 POLp2BS_packs BS2POLp_unpacks.
Definition C17_msg_lemma := roundtrip2 _ _ 1 w1 POLmsg2BS_packs BS2POLmsg_unpacks.
Definition C17_vq_lemma c := vroundtrip2 _ _ _ _ (cfg_EQ_pos c) (cfg_L_pos c) (POLVECq2BS_packs c) (BS2POLVECq_unpacks c).
Definition C17_vp_lemma c := vroundtrip2 _ _ 10 _ w10 (cfg_L_pos c) (POLVECp2BS_packs c) (BS2POLVECp_unpacks c).

Definition C18_T c := format1 _ _ (proj1 (cfg_ET_pos c)) (POLT2BS_packs c).
Definition C18_q_lemma c := format1 _ _ (proj1 (cfg_EQ_pos c)) (POLq2BS_packs c).
Definition C18_p_lemma := format1 _ 10 eq_refl POLp2BS_packs.
Lemma C18_msg_lemma : forall out data,
  len out = 32 -> arr U16 256 data ->
  exists b, run (POLmsg2BS out data) = Some b /\ arr U8 32 b /\
    forall k, 0 <= k < 256 -> Z.testbit (get b (k / 8)) (k mod 8) = Z.testbit (get data k) 0.
Proof.
  intros out data Ho Hd. destruct (format1 _ 1 eq_refl POLmsg2BS_packs out data Ho Hd) as (b & A & B & C).
  exists b. split; auto. split; auto. intros k Hk. rewrite C by lia. now rewrite Z.div_1_r, Z.mod_1_r.
Qed.
Definition C18_vq_lemma c := vformat1 _ _ _ (proj1 (cfg_EQ_pos c)) (POLVECq2BS_packs c).
Definition C18_vp_lemma c := vformat1 _ 10 _ eq_refl (POLVECp2BS_packs c).
