(** The samplers, the matrix expansion, [verify] and [cmov]: statements about whole calls. *)
From Coq Require Import ZArith List Bool Lia.
From Verif Require Import Lib.Arr Lib.CInt Lib.CMon Spec.Bits Spec.Ring Spec.Sampling Spec.Saber Spec.Sym Spec.Count
  Model.Params Model.Verify Model.Cbd Model.Poly Model.Api
  Proof.PackP Proof.CbdP Proof.VerifyP Proof.PolyP Proof.CtP Proof.SymP Proof.Dist.
Import ListNotations.
Local Open Scope Z_scope.

Lemma bytes_typed : forall b, Forall (fun x => 0 <= x < 256) b <-> typed U8 b.
Proof. intros. split; intros F; (eapply Forall_impl; [|exact F]); cbn; lia. Qed.

Lemma cfg_MU : forall c, SABER_MU c = 6 \/ SABER_MU c = 8 \/ SABER_MU c = 10.
Proof. intros [[] ? ?]; cbn; auto. Qed.

(** ** The binomial sampler *)

Lemma cbd_run : forall c s buf, len s = 256 -> 32 * SABER_MU c <= len buf -> typed U8 buf ->
  run (cbd c s buf) = Some (map (fun x => x mod 65536) (cbd_poly (SABER_MU c) buf)).
Proof. intros. apply wp_run_eq. now apply wp_cbd. Qed.

Lemma cbd_ok : forall c s buf, len s = 256 -> 32 * SABER_MU c <= len buf -> typed U8 buf ->
  exists r, run (cbd c s buf) = Some r /\ len r = 256 /\
    forall i, 0 <= i < 256 -> get r i = cbd_coef (SABER_MU c) buf i mod 65536 /\
      - (SABER_MU c / 2) <= cbd_coef (SABER_MU c) buf i <= SABER_MU c / 2.
Proof.
  intros c s buf L1 L2 T. eexists. split; [now apply cbd_run|]. split; [now rewrite len_map, len_cbd_poly|].
  intros i Hi. split.
  - unfold get. rewrite znth_map with (d := 0) by (rewrite len_cbd_poly; lia). unfold cbd_poly. now rewrite znth_ztab.
  - apply cbd_coef_range. pose proof (cfg_MU c). lia.
Qed.

Lemma gensecret_run : forall junk c s seed, usaber c = false -> vec_mem (SABER_L c) s -> 32 <= len seed -> typed U8 seed ->
  run (GenSecret (prf c) junk c s seed) =
  Some (map (map (fun x => x mod 65536)) (gen_vec (SABER_MU c) (SABER_L c) (PRF (s90 c) (SABER_L c * (32 * SABER_MU c)) (zfirst 32 seed)))).
Proof.
  intros junk c s seed U Hs Ls Ts. apply wp_run_eq. apply (wp_GenSecret (prf c) (PRF (s90 c)) (prf_ok c) (PRF_bytes (s90 c))); auto.
  unfold sec_vec. rewrite U. replace (SABER_POLYCOINBYTES c) with (32 * SABER_MU c); [reflexivity|].
  destruct c as [[] u ?]; cbn in U; subst; reflexivity.
Qed.

Lemma gensecret_u_run : forall junk c s seed, usaber c = true -> vec_mem (SABER_L c) s -> 32 <= len seed -> typed U8 seed ->
  run (GenSecret (prf c) junk c s seed) =
  Some (map (map (fun x => x mod 65536)) (gen_vec_u (SABER_L c) (PRF (s90 c) (SABER_L c * 64) (zfirst 32 seed)))).
Proof.
  intros junk c s seed U Hs Ls Ts. apply wp_run_eq. apply (wp_GenSecret (prf c) (PRF (s90 c)) (prf_ok c) (PRF_bytes (s90 c))); auto.
  unfold sec_vec. rewrite U. replace (SABER_POLYCOINBYTES c) with 64; [reflexivity|].
  destruct c as [[] u ?]; cbn in U; subst; reflexivity.
Qed.

(** Equality of reduced values is equality of values in the range of [int16_t]. *)
Lemma mod16_inj : forall x y, -32768 <= x < 32768 -> -32768 <= y < 32768 -> x mod 65536 = y mod 65536 -> x = y.
Proof.
  intros x y Hx Hy E. rewrite (Z.div_mod x 65536), (Z.div_mod y 65536), E by lia.
  assert (x / 65536 = y / 65536); [|lia]. pose proof (Z.mod_pos_bound x 65536). pose proof (Z.mod_pos_bound y 65536).
  pose proof (Z.div_mod x 65536). pose proof (Z.div_mod y 65536). lia.
Qed.

Lemma gives_map : forall r v, len v = len r -> Forall (fun x => -32768 <= x < 32768) r -> Forall (fun x => -32768 <= x < 32768) v ->
  gives (Some (map (fun x => x mod 65536) r)) (map (fun x => x mod 65536) v) = true <-> r = v.
Proof.
  intros r v L Fr Fv. unfold gives. destruct (list_eq_dec Z.eq_dec _ _) as [E|E]; split; try congruence.
  intros _. apply znth_ext with 0; auto. intros k Hk. apply mod16_inj.
  - now apply Forall_znth with (P := fun x => -32768 <= x < 32768).
  - apply Forall_znth with (P := fun x => -32768 <= x < 32768); auto. lia.
  - rewrite <- (znth_map (fun x => x mod 65536) 0 0 r), <- (znth_map (fun x => x mod 65536) 0 0 v) by lia. now rewrite E.
Qed.

(** Counting fields: both samplers at once. *)
Section Fields.
  Variable mu : Z.
  Variable f : list bool -> Z.
  Variable N : Z -> Z.
  Hypothesis Hmu : 0 < mu.
  Hypothesis HN : forall x, count (fun w => f w =? x) (strings [false; true] (Z.to_nat mu)) = N x.

  Definition fpoly (b : list Z) : list Z := ztab 256 (fun i => f (zfirst mu (zskip (mu * i) (bits b)))).

  Lemma count_poly : forall v P, len v = 256 ->
    (forall b, In b (byte_strings (32 * mu)) -> P b = true <-> fpoly b = v) ->
    count P (byte_strings (32 * mu)) = product (map N v).
  Proof.
    intros v P L HP.
    rewrite count_ext with (Q := fun b => fields_all (Z.to_nat mu) (ztab 256 (fun i w => f w =? get v i)) (bits b)).
    - rewrite count_ztab by lia. f_equal. apply znth_ext with 0; [rewrite len_map, len_ztab by lia; lia|].
      intros k Hk. rewrite len_ztab in Hk by lia. rewrite znth_ztab by lia. rewrite HN. now rewrite znth_map with (d := 0) by lia.
    - intros b Hb. specialize (HP b Hb). pose proof (fields_ztab mu (fun i w => f w =? get v i) 256 (bits b) ltac:(lia) ltac:(lia)) as F.
      apply eq_true_iff_eq. rewrite HP, F. unfold fpoly. split.
      + intros <- i Hi. apply Z.eqb_eq. unfold get. now rewrite znth_ztab.
      + intros H. apply znth_ext with 0; [now rewrite len_ztab by lia|]. intros k Hk. rewrite len_ztab in Hk by lia.
        rewrite znth_ztab by lia. now apply Z.eqb_eq, H.
  Qed.

  Lemma count_coef : forall x i P, 0 <= i < 256 ->
    (forall b, In b (byte_strings (32 * mu)) -> P b = true <-> f (zfirst mu (zskip (mu * i) (bits b))) = x) ->
    count P (byte_strings (32 * mu)) = N x * 2 ^ (mu * 255).
  Proof.
    intros x i P Hi HP.
    rewrite count_ext with (Q := fun b => fields_all (Z.to_nat mu) (ztab 256 (fun j w => if j =? i then f w =? x else true)) (bits b)).
    - rewrite count_ztab by lia.
      rewrite (ztab_ext 256 _ (fun j => if j =? i then N x else 2 ^ mu)).
      + rewrite product_single by lia. f_equal. rewrite <- Z.pow_mul_r by lia. reflexivity.
      + intros j Hj. destruct (j =? i); [apply HN|]. rewrite count_all. f_equal. lia.
    - intros b Hb. specialize (HP b Hb). pose proof (fields_ztab mu (fun j w => if j =? i then f w =? x else true) 256 (bits b) ltac:(lia) ltac:(lia)) as F.
      apply eq_true_iff_eq. rewrite HP, F. split.
      + intros E j Hj. destruct (j =? i) eqn:Eq; auto. replace j with i by lia. now apply Z.eqb_eq.
      + intros H. specialize (H i Hi). rewrite Z.eqb_refl in H. now apply Z.eqb_eq.
  Qed.
End Fields.

Lemma in_bytes : forall n b, 0 <= n -> In b (byte_strings n) -> len b = n /\ typed U8 b.
Proof. intros n b Hn H. apply byte_strings_in in H; auto. destruct H as (L & F). split; auto. now apply bytes_typed. Qed.

Lemma cbd_fpoly : forall mu b, 0 <= mu -> cbd_poly mu b = fpoly mu (cbdf mu) b.
Proof. intros. unfold cbd_poly, fpoly. apply ztab_ext. intros. apply cbdf_coef; lia. Qed.
Lemma uni_fpoly : forall b, uni_poly b = fpoly 2 unif b.
Proof. intros. unfold uni_poly, fpoly. apply ztab_ext. intros. apply unif_coef; lia. Qed.

Lemma cbd_poly_small : forall c b, Forall (fun x => -32768 <= x < 32768) (cbd_poly (SABER_MU c) b).
Proof.
  intros. apply Forall_ztab. intros. pose proof (cfg_MU c). pose proof (cbd_coef_range (SABER_MU c) b i ltac:(lia)).
  assert (SABER_MU c / 2 <= 5) by (apply Z.div_le_upper_bound; lia). lia.
Qed.
Lemma uni_poly_small : forall b, Forall (fun x => -32768 <= x < 32768) (uni_poly b).
Proof. intros. apply Forall_ztab. intros. pose proof (uni_coef_range b i). lia. Qed.

Lemma cbd_count : forall c s v, len s = 256 -> len v = 256 -> Forall (fun x => -32768 <= x < 32768) v ->
  count (fun buf => gives (run (cbd c s buf)) (map (fun x => x mod 65536) v)) (byte_strings (32 * SABER_MU c)) =
  product (map (fun x => binom (SABER_MU c) (SABER_MU c / 2 + x)) v).
Proof.
  intros c s v Ls Lv Fv. pose proof (cfg_MU c) as M.
  apply (count_poly (SABER_MU c) (cbdf (SABER_MU c))); [lia|intros; now apply count_cbdf|auto|].
  intros b Hb. apply in_bytes in Hb; [|lia]. destruct Hb. rewrite cbd_run by (auto; lia).
  rewrite gives_map by (rewrite ?len_cbd_poly; auto using cbd_poly_small). rewrite cbd_fpoly by lia. reflexivity.
Qed.

Lemma cbd_count_coef : forall c s i x, len s = 256 -> 0 <= i < 256 -> -32768 <= x < 32768 ->
  count (fun buf => gives_at (run (cbd c s buf)) i (x mod 65536)) (byte_strings (32 * SABER_MU c)) =
  binom (SABER_MU c) (SABER_MU c / 2 + x) * 2 ^ (SABER_MU c * 255).
Proof.
  intros c s i x Ls Hi Hx. pose proof (cfg_MU c) as M.
  apply (count_coef (SABER_MU c) (cbdf (SABER_MU c)) (fun x => binom (SABER_MU c) (SABER_MU c / 2 + x))) with (i := i); [lia|intros; now apply count_cbdf|auto|].
  intros b Hb. apply in_bytes in Hb; [|lia]. destruct Hb. rewrite cbd_run by (auto; lia). cbn [gives_at].
  unfold get. rewrite znth_map with (d := 0) by (rewrite len_cbd_poly; lia). unfold cbd_poly at 1. rewrite znth_ztab by lia.
  rewrite <- cbdf_coef by lia. pose proof (cbd_coef_range (SABER_MU c) b i ltac:(lia)).
  assert (SABER_MU c / 2 <= 5) by (apply Z.div_le_upper_bound; lia).
  rewrite Z.eqb_eq. split; [|congruence]. apply mod16_inj; lia.
Qed.

(** ** The uniform sampler *)

Lemma uni_run : forall s buf, len s = 256 -> 64 <= len buf -> typed U8 buf ->
  run (uni s buf) = Some (map (fun x => x mod 65536) (uni_poly buf)).
Proof. intros. apply wp_run_eq. now apply wp_uni. Qed.

Lemma uni_ok : forall s buf, len s = 256 -> 64 <= len buf -> typed U8 buf ->
  exists r, run (uni s buf) = Some r /\ len r = 256 /\
    forall i, 0 <= i < 256 -> get r i = uni_coef buf i mod 65536 /\ -2 <= uni_coef buf i <= 1.
Proof.
  intros s buf L1 L2 T. eexists. split; [now apply uni_run|]. split; [now rewrite len_map, len_uni_poly|].
  intros i Hi. split; [|apply uni_coef_range].
  unfold get. rewrite znth_map with (d := 0) by (rewrite len_uni_poly; lia). unfold uni_poly. now rewrite znth_ztab.
Qed.

Definition uni_n (x : Z) : Z := if (-2 <=? x) && (x <=? 1) then 1 else 0.

Lemma count_unif' : forall x, count (fun w => unif w =? x) (strings [false; true] (Z.to_nat 2)) = uni_n x.
Proof.
  intros x. unfold uni_n. destruct ((-2 <=? x) && (x <=? 1)) eqn:E; [apply count_unif; lia|].
  apply count_none. intros w _. unfold unif. destruct (znth false w 0), (znth false w 1); cbn [Z.b2z]; lia.
Qed.

Lemma uni_count : forall s v, len s = 256 -> len v = 256 -> Forall (fun x => -2 <= x <= 1) v ->
  count (fun buf => gives (run (uni s buf)) (map (fun x => x mod 65536) v)) (byte_strings 64) = 1.
Proof.
  intros s v Ls Lv Fv. assert (product (map uni_n v) = 1) as <-.
  { clear Lv. induction Fv; [reflexivity|]. cbn [map product fold_right]. fold (product (map uni_n l)). rewrite IHFv.
    unfold uni_n. destruct ((-2 <=? x) && (x <=? 1)) eqn:E; lia. }
  apply (count_poly 2 unif uni_n); [lia|exact count_unif'|auto|].
  intros b Hb. apply in_bytes in Hb; [|lia]. destruct Hb. rewrite uni_run by (auto; lia).
  rewrite gives_map; [|rewrite len_uni_poly; auto|apply uni_poly_small|eapply Forall_impl; [|exact Fv]; cbn; lia].
  rewrite uni_fpoly. reflexivity.
Qed.

Lemma uni_count_coef : forall s i x, len s = 256 -> 0 <= i < 256 -> -2 <= x <= 1 ->
  count (fun buf => gives_at (run (uni s buf)) i (x mod 65536)) (byte_strings 64) = 2 ^ 510.
Proof.
  intros s i x Ls Hi Hx. replace (2 ^ 510) with (uni_n x * 2 ^ (2 * 255)).
  2: { unfold uni_n. destruct ((-2 <=? x) && (x <=? 1)) eqn:E; [apply Z.mul_1_l|lia]. }
  apply (count_coef 2 unif uni_n) with (i := i); [lia|exact count_unif'|auto|].
  intros b Hb. apply in_bytes in Hb; [|lia]. destruct Hb. rewrite uni_run by (auto; lia). cbn [gives_at].
  unfold get. rewrite znth_map with (d := 0) by (rewrite len_uni_poly; lia). unfold uni_poly at 1. rewrite znth_ztab by lia.
  rewrite <- unif_coef by lia. pose proof (uni_coef_range b i).
  rewrite Z.eqb_eq. split; [|congruence]. apply mod16_inj; lia.
Qed.

(** ** The public matrix *)

Lemma genmatrix_run : forall junk c A seed, mat_mem (SABER_L c) A -> 32 <= len seed -> typed U8 seed ->
  run (GenMatrix (prf c) junk c A seed) =
  Some (gen_mat (SABER_EQ c) (SABER_L c) (PRF (s90 c) (SABER_L c * (SABER_L c * (32 * SABER_EQ c))) (zfirst 32 seed))).
Proof.
  intros. apply wp_run_eq. apply (wp_GenMatrix (prf c) (PRF (s90 c)) (prf_ok c) (PRF_bytes (s90 c))); auto.
  now rewrite cfg_POLYVECBYTES.
Qed.

Lemma fbit_zskip : forall b o k, 0 <= o -> 0 <= k -> fbit 8 (zskip o b) k = fbit 8 b (8 * o + k).
Proof.
  intros. unfold fbit, get. rewrite znth_zskip by (auto; apply Z.div_pos; lia).
  replace (8 * o + k) with (k + o * 8) by lia. rewrite Z.div_add, Z.mod_add by lia. do 2 f_equal. lia.
Qed.

Lemma gen_mat_entry : forall w n st i j k, 0 <= w -> 0 <= i < n -> 0 <= j < n -> 0 <= k < 256 ->
  get (getr (znth [] (gen_mat w n st) i) j) k = bits_val w (fun m => fbit 8 st (w * (256 * (n * i + j) + k) + m)).
Proof.
  intros w n st i j k Hw Hi Hj Hk. unfold gen_mat. rewrite znth_ztab by lia. unfold unpack_vec, getr. rewrite znth_ztab by lia.
  unfold unpack. rewrite get_regroup by lia. apply bits_val_ext. intros m Hm.
  assert (0 <= 32 * w * j) by (apply Z.mul_nonneg_nonneg; lia).
  assert (0 <= 32 * w * n * i) by (apply Z.mul_nonneg_nonneg; [apply Z.mul_nonneg_nonneg; lia|lia]).
  assert (0 <= w * k) by (apply Z.mul_nonneg_nonneg; lia).
  rewrite !fbit_zskip by lia. f_equal. ring.
Qed.

Lemma genmatrix_ok : forall junk c A seed, mat_mem (SABER_L c) A -> 32 <= len seed -> typed U8 seed ->
  exists M, run (GenMatrix (prf c) junk c A seed) = Some M /\ mat U16 (SABER_L c) M /\
    let l := SABER_L c in let w := SABER_EQ c in
    forall i j k, 0 <= i < l -> 0 <= j < l -> 0 <= k < 256 ->
      get (getr (znth [] M i) j) k =
        bits_val w (fun m => fbit 8 (PRF (s90 c) (l * (l * (32 * w))) (zfirst 32 seed)) (w * (256 * (l * i + j) + k) + m)) /\
      0 <= get (getr (znth [] M i) j) k < 2 ^ w.
Proof.
  intros junk c A seed HA Ls Ts. pose proof (cfg_L c). pose proof (cfg_EQ c). eexists. split; [now apply genmatrix_run|].
  split; [apply mat_gen; lia|]. cbv zeta. intros i j k Hi Hj Hk. rewrite gen_mat_entry by lia. split; [reflexivity|].
  apply bits_val_bound. lia.
Qed.

(** Streams and matrices correspond one to one. *)
Lemma gen_mat_S : forall w n m st, 0 <= w -> 0 <= n -> 0 <= m ->
  ztab (1 + m) (fun i => unpack_vec w n (zskip (32 * w * n * i) st)) =
  unpack_vec w n st :: ztab m (fun i => unpack_vec w n (zskip (32 * w * n * i) (zskip (32 * w * n) st))).
Proof.
  intros. rewrite ztab_split by lia. unfold ztab at 1. change (Z.to_nat 1) with 1%nat. cbn [seq map app].
  rewrite Z.mul_0_r. unfold zskip at 1. cbn [Z.to_nat skipn]. f_equal. apply ztab_ext. intros i Hi.
  rewrite zskip_zskip by nia. do 2 f_equal. lia.
Qed.

Lemma zskip_app1 : forall T n (a b : list T), 0 <= n <= len a -> zskip n (a ++ b) = zskip n a ++ b.
Proof.
  intros. unfold zskip, len in *. rewrite skipn_app. replace (Z.to_nat n - length a)%nat with O by lia. reflexivity.
Qed.

Lemma unpack_vec_app : forall w n a b, 0 < w -> 0 <= n -> len a = 32 * w * n -> unpack_vec w n (a ++ b) = unpack_vec w n a.
Proof.
  intros w n a b Hw Hn L. unfold unpack_vec. apply ztab_ext. intros i Hi.
  assert (32 * w * i + 32 * w <= 32 * w * n) by nia. assert (0 <= 32 * w * i) by nia.
  rewrite zskip_app1 by lia. unfold unpack. apply regroup_app; try lia. rewrite len_zskip by lia. lia.
Qed.

Lemma mat_stream : forall w n A m, 0 < w -> 0 <= n -> len A = m ->
  Forall (fun v => len v = n /\ Forall (fun p => len p = 256 /\ Forall (fun x => 0 <= x < 2 ^ w) p) v) A ->
  ztab m (fun i => unpack_vec w n (zskip (32 * w * n * i) (flat_map (pack_vec w) A))) = A.
Proof.
  intros w n A m Hw Hn L F. subst m. induction F as [|v A (Lv & Fv) F IH]; [reflexivity|].
  rewrite len_cons. replace (len A + 1) with (1 + len A) by lia.
  rewrite gen_mat_S by (try apply len_nonneg; lia). cbn [flat_map].
  assert (len (pack_vec w v) = 32 * w * n) as Lp by (rewrite len_pack_vec by lia; lia).
  rewrite <- Lp, zskip_app, Lp. f_equal; [|exact IH]. rewrite unpack_vec_app by auto. rewrite <- Lv. rewrite unpack_pack_vec; auto.
  - clear Lv Lp. induction Fv as [|p v (Lp & Fp) Fv IHv]; [reflexivity|]. cbn [map]. rewrite IHv.
    rewrite map_mod_small by auto. reflexivity.
  - eapply Forall_impl; [|exact Fv]. now intros p (? & _).
Qed.

Lemma stream_mat : forall w n m st, 0 < w -> 0 <= n -> 0 <= m -> len st = m * (32 * w * n) -> Forall (fun x => 0 <= x < 256) st ->
  flat_map (pack_vec w) (ztab m (fun i => unpack_vec w n (zskip (32 * w * n * i) st))) = st.
Proof.
  intros w n m st Hw Hn Hm. revert st. pattern m. apply natlike_ind; auto; clear m Hm.
  - intros st L F. cbn [ztab Z.to_nat seq map flat_map]. symmetry. apply length_zero_iff_nil. unfold len in L. lia.
  - intros m Hm IH st L F. unfold Z.succ. replace (m + 1) with (1 + m) by lia. rewrite gen_mat_S by lia. cbn [flat_map].
    assert (0 <= 32 * w * n) by nia. assert (32 * w * n <= len st) by nia.
    rewrite IH; [|rewrite len_zskip by lia; nia|now apply Forall_zskip].
    rewrite <- (zfirst_zskip (32 * w * n) st) at 3. f_equal.
    rewrite <- (pack_unpack_vec w n (zfirst (32 * w * n) st)); auto; [|rewrite len_zfirst by lia; lia|now apply Forall_zfirst].
    f_equal. rewrite <- (zfirst_zskip (32 * w * n) st) at 1. apply unpack_vec_app; auto. rewrite len_zfirst by lia. lia.
Qed.

Lemma gen_mat_bij : forall c A,
  len A = SABER_L c ->
  Forall (fun v => len v = SABER_L c /\ Forall (fun p => len p = 256 /\ Forall (fun x => 0 <= x < 2 ^ SABER_EQ c) p) v) A ->
  exists! st, arr U8 (SABER_L c * (SABER_L c * (32 * SABER_EQ c))) st /\ gen_mat (SABER_EQ c) (SABER_L c) st = A.
Proof.
  intros c A LA FA. pose proof (cfg_L c). pose proof (cfg_EQ c). set (n := SABER_L c) in *. set (w := SABER_EQ c) in *.
  exists (flat_map (pack_vec w) A). split.
  - split; [split|].
    + clear -FA LA H H0. rewrite <- LA at 1. clear LA. induction FA as [|v A (Lv & _) F IH]; [cbn [flat_map]; unfold len; cbn [length]; lia|].
      cbn [flat_map]. rewrite len_app, len_cons, IH, len_pack_vec, Lv by lia. lia.
    + apply bytes_typed. clear. induction A; cbn [flat_map]; auto. apply Forall_app. split; auto. apply pack_vec_range.
    + unfold gen_mat. apply mat_stream; auto; lia.
  - intros st ((L & T) & <-). unfold gen_mat. apply stream_mat; try lia. now apply bytes_typed.
Qed.

(** ** verify.c *)

Lemma verify_ok : forall a b n, 0 <= n -> n <= len a -> n <= len b -> typed U8 a -> typed U8 b ->
  (zfirst n a = zfirst n b -> run (verify a b n) = Some (Var I32 0)) /\
  (zfirst n a <> zfirst n b -> run (verify a b n) = Some (Var I32 1)).
Proof.
  intros a b n Hn La Lb Ta Tb. split; intros E; apply wp_run_eq; apply wp_verify; auto.
  - now rewrite (proj2 (list_eqb_iff _ _) E).
  - destruct (list_eqb (zfirst n a) (zfirst n b)) eqn:F; auto. now apply list_eqb_iff in F.
Qed.

Lemma verify_leak : forall a b a' b' n, 0 <= n -> n <= len a -> n <= len b -> typed U8 a -> typed U8 b ->
  n <= len a' -> n <= len b' -> typed U8 a' -> typed U8 b' ->
  exists t, leak (verify a b n) = Some t /\ leak (verify a' b' n) = Some t.
Proof.
  intros. assert (forall x y, n <= len x -> n <= len y -> typed U8 x -> typed U8 y -> exists r, run (verify x y n) = Some r) as R.
  { intros x y X1 X2 X3 X4. destruct (verify_ok x y n) as (V1 & V2); auto.
    destruct (list_eq_dec Z.eq_dec (zfirst n x) (zfirst n y)); [rewrite V1 by auto|rewrite V2 by auto]; eauto. }
  destruct (R a b) as (r & E); auto. destruct (R a' b') as (r' & E'); auto.
  pose proof (ct_leak _ _ _ _ _ _ _ (ct_verify a a' b b' n) E E') as L. rewrite <- L. unfold run, leak in *.
  destruct (verify a b n []); [eauto|discriminate].
Qed.

Lemma cmov_ok : forall r x n b, 0 <= n -> n <= len r -> n <= len x -> typed U8 r -> typed U8 x -> b = 0 \/ b = 1 ->
  run (cmov r x n (Var U8 b)) = Some (if b =? 1 then zfirst n x ++ zskip n r else r).
Proof.
  intros. apply wp_run_eq. apply wp_cmov; auto. unfold sel. destruct H4; subst; reflexivity.
Qed.

Lemma cmov_leak : forall r x r' x' n b b', 0 <= n -> n <= len r -> len r = len r' -> n <= len x -> n <= len x' ->
  typed U8 r -> typed U8 x -> typed U8 r' -> typed U8 x' -> b = 0 \/ b = 1 -> b' = 0 \/ b' = 1 ->
  exists t, leak (cmov r x n (Var U8 b)) = Some t /\ leak (cmov r' x' n (Var U8 b')) = Some t.
Proof.
  intros.
  assert (ct shape (cmov r x n (Var U8 b)) (cmov r' x' n (Var U8 b'))) as C by (apply ct_cmov; [unfold slen, len in *; lia|apply svar_Var]).
  pose proof (cmov_ok r x n b) as E. pose proof (cmov_ok r' x' n b') as E'.
  specialize (E ltac:(auto) ltac:(auto) ltac:(auto) ltac:(auto) ltac:(auto) ltac:(auto)).
  specialize (E' ltac:(auto) ltac:(lia) ltac:(auto) ltac:(auto) ltac:(auto) ltac:(auto)).
  pose proof (ct_leak _ _ _ _ _ _ _ C E E') as L. rewrite <- L. unfold run, leak in *.
  destruct (cmov r x n (Var U8 b) []); [eauto|discriminate].
Qed.

(** ** Cases *)
Lemma sample_case : 32 * SABER_MU (Cfg Saber false false) <= len (repeat 255 256) /\ typed U8 (repeat 255 256) /\ vec_mem 3 (repeat (zeros 256) 3).
Proof.
  split; [discriminate|]. split; [apply Forall_repeat; split; discriminate|]. split; [reflexivity|]. now apply Forall_repeat.
Qed.
Lemma all_strings : forall n, 0 <= n ->
  (forall l, In l (byte_strings n) <-> len l = n /\ Forall (fun x => 0 <= x < 256) l) /\ NoDup (byte_strings n).
Proof. intros n Hn. split; [intros; now apply byte_strings_in|apply byte_strings_nodup]. Qed.
Lemma mat_case : mat_mem 2 (repeat (repeat (repeat 5 256) 2) 2) /\
  Forall (fun v => len v = 2 /\ Forall (fun p => len p = 256 /\ Forall (fun x => 0 <= x < 2 ^ 13) p) v) (repeat (repeat (repeat 8191 256) 2) 2).
Proof.
  split; [split; [reflexivity|]; apply Forall_repeat; split; [reflexivity|]; now apply Forall_repeat|].
  apply Forall_repeat. split; [reflexivity|]. apply Forall_repeat. split; [reflexivity|]. apply Forall_repeat. lia.
Qed.
