(** sha256.c and sha512.c compute the functions of FIPS 180-4. *)
From Coq Require Import ZArith List Bool Lia.
From Verif Require Import Lib.Arr Lib.CInt Lib.CMon Spec.Bytes Model.Params Model.Sha2 Spec.Sha2
  Proof.PackThm Proof.VerifyP Proof.KemP Proof.BytesP.
Import ListNotations.
Local Open Scope Z_scope.

(** Rule for [each]: [I k] holds after [k] elements. *)
Lemma wp_each : forall A S (d : A) (I : Z -> S -> Prop) l (f : A -> S -> M S) s (Q : S -> Prop),
  I 0 s ->
  (forall k s, 0 <= k < len l -> I k s -> wp (f (znth d l k) s) (I (k + 1))) ->
  (forall s, I (len l) s -> Q s) -> wp (each l f s) Q.
Proof.
  intros A S d I l. revert I. induction l as [|x l IH]; intros I f s Q H0 Hs HQ; cbn [each].
  - apply wp_ret, HQ. exact H0.
  - apply wp_bind. eapply wp_mono; [apply (Hs 0); auto; rewrite len_cons; pose proof (len_nonneg l); lia|]. cbn beta.
    intros s' H1. apply IH with (I := fun k => I (k + 1)).
    + exact H1.
    + intros k s0 Hk Ik. replace (znth d l k) with (znth d (x :: l) (k + 1)).
      * apply Hs; auto. rewrite len_cons. lia.
      * rewrite znth_cons by lia. f_equal. lia.
    + intros s0 I0. apply HQ. rewrite len_cons. exact I0.
Qed.

Lemma lor_add : forall a b k, 0 <= k -> 0 <= a < 2 ^ k -> Z.lor a (b * 2 ^ k) = a + b * 2 ^ k.
Proof.
  intros a b k Hk Ha. rewrite <- Z.shiftl_mul_pow2 by lia.
  assert (Z.land a (Z.shiftl b k) = 0) as N.
  { apply Z.bits_inj'. intros n Hn. rewrite Z.land_spec, Z.shiftl_spec, Z.bits_0 by lia.
    destruct (Z_lt_dec n k).
    - rewrite (Z.testbit_neg_r b) by lia. apply andb_false_r.
    - replace (Z.testbit a n) with false; auto. symmetry. destruct (Z.eq_dec a 0) as [->|]; [apply Z.bits_0|].
      apply Z.bits_above_log2; [lia|]. assert (Z.log2 a < k) by (apply Z.log2_lt_pow2; lia). lia. }
  rewrite Z.add_nocarry_lxor by exact N. symmetry. now apply Z.lxor_lor.
Qed.

Lemma sum4 : forall a b c d m, (((a + b) mod m + c) mod m + d) mod m = (a + b + c + d) mod m.
Proof. intros. rewrite Zplus_mod_idemp_l, <- Z.add_assoc, Zplus_mod_idemp_l. f_equal. lia. Qed.
Lemma sum5 : forall a b c d e m, ((((a + b) mod m + c) mod m + d) mod m + e) mod m = (a + b + c + d + e) mod m.
Proof. intros. rewrite sum4. rewrite <- !Z.add_assoc, Zplus_mod_idemp_l. f_equal. lia. Qed.

(** ** Words *)

Section Words.
  Variable t : ity.
  Variable w : Z.
  Hypothesis Hw : t = U32 /\ w = 32 \/ t = U64 /\ w = 64.

  Lemma wrap_w : forall x, wrap t x = x mod 2 ^ w.
  Proof. destruct Hw as [(-> & ->)|(-> & ->)]; reflexivity. Qed.
  Lemma tmin_w : tmin t = 0.
  Proof. destruct Hw as [(-> & ->)|(-> & ->)]; reflexivity. Qed.
  Lemma tmax_w : tmax t = 2 ^ w - 1.
  Proof. destruct Hw as [(-> & ->)|(-> & ->)]; reflexivity. Qed.
  Lemma common_w : common (promote t) (promote t) = t.
  Proof. destruct Hw as [(-> & ->)|(-> & ->)]; reflexivity. Qed.
  Lemma promote_w : promote t = t.
  Proof. destruct Hw as [(-> & ->)|(-> & ->)]; reflexivity. Qed.
  Lemma signed_w : signed t = false.
  Proof. destruct Hw as [(-> & ->)|(-> & ->)]; reflexivity. Qed.
  Lemma subr_w : subr t t = true.
  Proof. destruct Hw as [(-> & ->)|(-> & ->)]; reflexivity. Qed.
  Lemma width_w : width t = w.
  Proof. destruct Hw as [(-> & ->)|(-> & ->)]; reflexivity. Qed.
  Lemma w_pos : 0 < w /\ 0 < 2 ^ w.
  Proof. destruct Hw as [(-> & ->)|(-> & ->)]; split; reflexivity. Qed.

  (** [e] is a defined expression of type [t] with value [v]. *)
  Definition wd (e : cexp) (v : Z) : Prop :=
    ty e = t /\ lok e /\ (exists l h, an e = Some (l, h) /\ 0 <= l) /\ val e = v /\ 0 <= v < 2 ^ w.

  Lemma wp_wd : forall e v (Q : Z -> Prop), wd e v -> Q v -> wp (ev e) Q.
  Proof. intros e v Q (T & L & (l & h & A & _) & V & _) HQ. apply wp_ev; auto; [unfold safe; now rewrite A|now rewrite V]. Qed.

  Lemma wd_var : forall v, 0 <= v < 2 ^ w -> wd (Var t v) v.
  Proof.
    intros v Hv. split; [reflexivity|]. split; [cbn [lok]; rewrite tmin_w, tmax_w; lia|].
    split; [|auto]. do 2 eexists. split; [reflexivity|]. rewrite tmin_w. lia.
  Qed.
  Lemma wd_cst : forall v, 0 <= v < 2 ^ w -> wd (Cst t v) v.
  Proof.
    intros v Hv. split; [reflexivity|]. split; [cbn [lok]; rewrite tmin_w, tmax_w; lia|].
    split; [|auto]. do 2 eexists. split; [reflexivity|]. lia.
  Qed.
  Lemma wd_idx : forall a i, 0 <= i < len a -> typed t a -> wd (Idx t a i) (get a i).
  Proof.
    intros a i Hi Ta. split; [reflexivity|]. split; [cbn [lok]; auto|].
    split; [|split; [reflexivity|pose proof (typed_get _ _ _ Ta Hi); rewrite tmin_w, tmax_w in *; lia]].
    do 2 eexists. split; [reflexivity|]. rewrite tmin_w. lia.
  Qed.

  Lemma conv_lo : forall r, 0 <= fst r -> 0 <= fst (an_conv t r).
  Proof. intros r Hr. unfold an_conv. destruct (_ && _); auto. cbn [full fst]. rewrite tmin_w. lia. Qed.
  Lemma arith_lo : forall l h, 0 <= l -> exists l' h', an_arith t l h = Some (l', h') /\ 0 <= l'.
  Proof.
    intros l h Hl. unfold an_arith. destruct (_ && _); [eauto|]. rewrite signed_w. unfold full. rewrite tmin_w. do 2 eexists.
    split; [reflexivity|lia].
  Qed.

  Lemma bits_lxor : forall a b, 0 <= a < 2 ^ w -> 0 <= b < 2 ^ w -> 0 <= Z.lxor a b < 2 ^ w.
  Proof.
    intros a b Ha Hb. pose proof w_pos. pose proof (lxor_bound a b (2 ^ w - 1) ltac:(lia) ltac:(lia)) as X.
    assert (Z.log2 (2 ^ w - 1) + 1 = w) as E; [|rewrite E in X; lia].
    destruct Hw as [(-> & ->)|(-> & ->)]; reflexivity.
  Qed.
  Lemma bits_lor : forall a b, 0 <= a < 2 ^ w -> 0 <= b < 2 ^ w -> 0 <= Z.lor a b < 2 ^ w.
  Proof.
    intros a b Ha Hb. pose proof w_pos. pose proof (lor_bound a b (2 ^ w - 1) ltac:(lia) ltac:(lia)) as X.
    assert (Z.log2 (2 ^ w - 1) + 1 = w) as E; [|rewrite E in X; lia].
    destruct Hw as [(-> & ->)|(-> & ->)]; reflexivity.
  Qed.

  Ltac prep H1 H2 :=
    destruct H1 as (T1 & L1 & (l1 & h1 & A1 & P1) & V1 & R1); destruct H2 as (T2 & L2 & (l2 & h2 & A2 & P2) & V2 & R2);
    unfold wd; cbn [ty lok an val]; rewrite T1, T2, A1, A2, V1, V2; unfold an_bin, val_bin; rewrite ?common_w, ?promote_w;
    unfold cv; rewrite ?subr_w; unfold uw; rewrite ?signed_w, ?wrap_w;
    pose proof (conv_lo (l1, h1) P1) as C1; pose proof (conv_lo (l2, h2) P2) as C2;
    destruct (an_conv t (l1, h1)) as (a1, b1); destruct (an_conv t (l2, h2)) as (a2, b2); cbn [fst] in C1, C2;
    split; [reflexivity|]; split; [now split|].

  Lemma wd_add : forall e1 v1 e2 v2, wd e1 v1 -> wd e2 v2 -> wd (Bin Add e1 e2) ((v1 + v2) mod 2 ^ w).
  Proof.
    intros e1 v1 e2 v2 H1 H2. prep H1 H2. split; [apply arith_lo; lia|]. split; auto. apply Z.mod_pos_bound. apply w_pos.
  Qed.
  Lemma wd_xor : forall e1 v1 e2 v2, wd e1 v1 -> wd e2 v2 -> wd (Bin Xor e1 e2) (Z.lxor v1 v2).
  Proof.
    intros e1 v1 e2 v2 H1 H2. prep H1 H2. split; [|split; auto; now apply bits_lxor].
    destruct (_ && _); [do 2 eexists; split; [reflexivity|lia]|]. unfold full. do 2 eexists. split; [reflexivity|rewrite tmin_w; lia].
  Qed.
  Lemma wd_or : forall e1 v1 e2 v2, wd e1 v1 -> wd e2 v2 -> wd (Bin Or e1 e2) (Z.lor v1 v2).
  Proof.
    intros e1 v1 e2 v2 H1 H2. prep H1 H2. split; [|split; auto; now apply bits_lor].
    destruct (_ && _); [do 2 eexists; split; [reflexivity|lia]|]. unfold full. do 2 eexists. split; [reflexivity|rewrite tmin_w; lia].
  Qed.
  Lemma wd_and : forall e1 v1 e2 v2, wd e1 v1 -> wd e2 v2 -> wd (Bin And e1 e2) (Z.land v1 v2).
  Proof.
    intros e1 v1 e2 v2 H1 H2. prep H1 H2. split.
    - replace (0 <=? a1) with true by lia. do 2 eexists. split; [reflexivity|lia].
    - split; auto. pose proof (land_nonneg_le v1 v2 ltac:(lia)). lia.
  Qed.
  Lemma wd_not : forall e v, wd e v -> wd (Not e) (2 ^ w - 1 - v).
  Proof.
    intros e v (T & L & (l & h & A & P) & V & R). unfold wd. cbn [ty lok an val]. rewrite T, A, V, promote_w, signed_w.
    split; [reflexivity|]. split; [exact L|]. split.
    - unfold full. rewrite tmin_w. do 2 eexists. split; [reflexivity|lia].
    - unfold uw. rewrite signed_w, wrap_w. split; [|lia]. symmetry. apply Z.mod_unique with (-1); [lia|]. unfold Z.lnot. lia.
  Qed.
  Lemma wd_shr : forall e v c, wd e v -> 0 <= c < w -> wd (Bin Shr e (Cst I32 c)) (v / 2 ^ c).
  Proof.
    intros e v c (T & L & (l & h & A & P) & V & R) Hc. unfold wd. cbn [ty lok an val]. rewrite T, A, V. unfold an_bin, val_bin.
    rewrite promote_w, width_w. destruct (an_conv _ (l, h)) as (a1, b1). destruct (an_conv _ (c, c)) as (a2, b2).
    split; [reflexivity|]. split.
    { split; [exact L|]. cbn [tmin tmax]. destruct Hw as [(_ & ->)|(_ & ->)]; lia. }
    replace (0 <=? c) with true by lia. replace (c <? w) with true by lia. cbn [andb].
    assert (0 < 2 ^ c) by (apply Z.pow_pos_nonneg; lia). rewrite (Z.shiftr_div_pow2 v) by lia. split; [|split; auto].
    - replace (0 <=? l) with true by lia. do 2 eexists. split; [reflexivity|]. apply Z.shiftr_nonneg. lia.
    - split; [apply Z.div_pos; lia|]. apply Z.div_lt_upper_bound; [lia|]. nia.
  Qed.
  Lemma wd_shl : forall e v e2 c, wd e v -> 0 <= c < w -> ty e2 = I32 -> lok e2 -> an e2 = Some (c, c) -> val e2 = c ->
    wd (Bin Shl e e2) ((v * 2 ^ c) mod 2 ^ w).
  Proof.
    intros e v e2 c (T & L & (l & h & A & P) & V & R) Hc T2 L2 A2 V2. unfold wd. cbn [ty lok an val]. rewrite T, A, V, T2, A2, V2. unfold an_bin, val_bin.
    rewrite promote_w, width_w. destruct (an_conv _ (l, h)) as (a1, b1). destruct (an_conv _ (c, c)) as (a2, b2).
    split; [reflexivity|]. split; [now split|].
    replace (0 <=? c) with true by lia. replace (c <? w) with true by lia. replace (0 <=? l) with true by lia. cbn [andb].
    assert (0 < 2 ^ c) by (apply Z.pow_pos_nonneg; lia). unfold uw. rewrite signed_w, wrap_w. split; [apply arith_lo; nia|].
    split; auto. apply Z.mod_pos_bound. apply w_pos.
  Qed.
End Words.

(** ** The compression function *)

Section Alg.
  Variable p : alg.
  Variable s : sha2.
  Let t := a_t p.
  Let w := wbits s.
  Let nb := a_bytes p.

  Definition amounts (r : Z * Z * Z) : Prop := let '(i, j, k) := r in 0 < i < w /\ 0 < j < w /\ 0 < k < w.

  Hypothesis Hw : t = U32 /\ w = 32 \/ t = U64 /\ w = 64.
  Hypothesis Hnb : w = 8 * nb.
  Hypothesis HS0 : a_S0 p = r_S0 s.
  Hypothesis HS1 : a_S1 p = r_S1 s.
  Hypothesis Hs0 : a_s0 p = r_s0 s.
  Hypothesis Hs1 : a_s1 p = r_s1 s.
  Hypothesis Hamt : amounts (r_S0 s) /\ amounts (r_S1 s) /\ amounts (r_s0 s) /\ amounts (r_s1 s).
  Hypothesis HKne : a_K p <> [].
  Hypothesis HK16 : Forall (fun l => len l = 16) (a_K p).
  Hypothesis HK : concat (a_K p) = sK s.
  Hypothesis HKt : typed t (sK s).
  Hypothesis Hload : forall x (Q : Z -> Prop), nb <= len x -> typed U8 x -> Q (be_val (zfirst nb x)) -> wp (ev (a_load p x)) Q.
  Hypothesis Hstore : forall x u (Q : list Z -> Prop), nb <= len x -> 0 <= u < 2 ^ w -> Q (be nb u ++ zskip nb x) -> wp (a_store p x (Var t u)) Q.

  Notation wd := (wd t w).

  Lemma rotr_eq : forall c v, 0 < c < w -> 0 <= v < 2 ^ w -> Z.lor (v / 2 ^ c) ((v * 2 ^ (w - c)) mod 2 ^ w) = rotr s c v.
  Proof.
    intros c v Hc Hv. unfold rotr. fold w. assert (0 < 2 ^ c) by (apply Z.pow_pos_nonneg; lia).
    assert (0 < 2 ^ (w - c)) by (apply Z.pow_pos_nonneg; lia).
    assert (2 ^ w = 2 ^ c * 2 ^ (w - c)) as E by (rewrite <- Z.pow_add_r by lia; f_equal; lia).
    rewrite E at 1. rewrite Z.mul_mod_distr_r by lia. apply lor_add; [lia|].
    split; [apply Z.div_pos; lia|]. apply Z.div_lt_upper_bound; lia.
  Qed.
  Lemma wd_rotr : forall e v c, wd e v -> 0 < c < w -> wd (ROTR p e c) (rotr s c v).
  Proof.
    intros e v c He Hc. assert (0 <= v < 2 ^ w) as Hv by apply He. rewrite <- rotr_eq by auto. unfold ROTR. fold t.
    apply wd_or; auto; [apply wd_shr; auto; lia|]. rewrite (width_w t w Hw).
    apply wd_shl; auto; [lia| |].
    - cbn [lok tmin tmax]. destruct Hw as [(_ & ->)|(_ & ->)]; cbn; lia.
    - cbn [an ty]. unfold an_bin. cbn [common promote]. 
      assert (forall x, 0 <= x <= 64 -> an_conv I32 (x, x) = (x, x)) as C.
      { intros x Hx. unfold an_conv. cbn [fst snd tmin tmax]. destruct (_ && _) eqn:D; auto. lia. }
      rewrite !C by (destruct Hw as [(_ & ->)|(_ & ->)]; lia). unfold an_arith. destruct (_ && _) eqn:D; auto.
      cbn [tmin tmax] in D. destruct Hw as [(_ & E)|(_ & E)]; rewrite E in *; lia.
  Qed.
  Lemma wd_bsig : forall r e v, wd e v -> amounts r -> wd (big_sigma p r e) (bsig s r v).
  Proof. intros ((i & j) & k) e v He (Hi & Hj & Hk). apply wd_xor; auto; [apply wd_xor; auto|]; now apply wd_rotr. Qed.
  Lemma wd_ssig : forall r e v, wd e v -> amounts r -> wd (small_sigma p r e) (ssig s r v).
  Proof.
    intros ((i & j) & k) e v He (Hi & Hj & Hk). apply wd_xor; auto; [apply wd_xor; auto; now apply wd_rotr|].
    apply wd_shr; auto; lia.
  Qed.
  Lemma wd_Ch : forall e1 v1 e2 v2 e3 v3, wd e1 v1 -> wd e2 v2 -> wd e3 v3 -> wd (Verif.Model.Sha2.Ch e1 e2 e3) (Ch s v1 v2 v3).
  Proof. intros. apply wd_xor; auto; apply wd_and; auto. now apply wd_not. Qed.
  Lemma wd_Maj : forall e1 v1 e2 v2 e3 v3, wd e1 v1 -> wd e2 v2 -> wd e3 v3 -> wd (Verif.Model.Sha2.Maj e1 e2 e3) (Maj v1 v2 v3).
  Proof. intros. apply wd_xor; auto; [apply wd_xor; auto|]; now apply wd_and. Qed.

  Definition words (n : Z) (l : list Z) : Prop := len l = n /\ Forall (fun x => 0 <= x < 2 ^ w) l.
  Lemma words_get : forall n l i, words n l -> 0 <= i < n -> 0 <= get l i < 2 ^ w.
  Proof. intros n l i (L & F) Hi. apply Forall_znth with (P := fun x => 0 <= x < 2 ^ w); auto. lia. Qed.
  Lemma words_typed : forall n l, words n l -> typed t l.
  Proof. intros n l (L & F). eapply Forall_impl; [|exact F]. cbn beta. intros. rewrite (tmin_w t w Hw), (tmax_w t w Hw). lia. Qed.
  Lemma typed_words : forall l, typed t l -> words (len l) l.
  Proof. intros l F. split; auto. eapply Forall_impl; [|exact F]. cbn beta. intros a. rewrite (tmin_w t w Hw), (tmax_w t w Hw). lia. Qed.

  Lemma mod_w : forall x, 0 <= x mod 2 ^ w < 2 ^ w.
  Proof. intros. apply Z.mod_pos_bound. apply (w_pos t w Hw). Qed.

  (** The value of a sum of words, whatever the order of reduction. *)
  Lemma wd_eq : forall e v v', wd e v -> v = v' -> wd e v'.
  Proof. intros. now subst. Qed.

  Lemma wp_F : forall x k v (Q : list Z -> Prop), 0 <= x < 2 ^ w -> 0 <= k < 2 ^ w -> words 8 v ->
    Q (vlist (round s k x (lvars v))) -> wp (F p x k v) Q.
  Proof.
    intros x k v Q Hx Hk Hv HQ. unfold F. fold t.
    assert (forall i, 0 <= i < 8 -> wd (Var t (get v i)) (get v i)) as V by (intros; apply wd_var; auto; eapply words_get; eauto).
    destruct Hamt as (M0 & M1 & _ & _). set (lv := lvars v).
    apply wp_bind. eapply wp_wd with (t := t) (w := w); [|].
    { apply wd_add; auto; [|apply wd_var; eauto]. apply wd_add; auto; [|apply wd_cst; eauto].
      apply wd_add; auto; [|apply wd_Ch; apply V; lia]. apply wd_add; auto; [apply V; lia|]. apply wd_bsig; [apply V; lia|rewrite HS1; auto]. }
    rewrite sum5, HS1. set (T1 := (_ + x) mod 2 ^ w).
    apply wp_bind. eapply wp_wd with (t := t) (w := w); [|].
    { apply wd_add; auto; [apply wd_bsig; [apply V; lia|rewrite HS0; auto]|]. apply wd_Maj; apply V; lia. }
    rewrite HS0. set (T2 := (_ + _) mod 2 ^ w).
    apply wp_bind. eapply wp_wd with (t := t) (w := w); [|].
    { apply wd_add; auto; [apply V; lia|]. apply wd_var; auto. apply mod_w. }
    apply wp_bind. eapply wp_wd with (t := t) (w := w); [|].
    { apply wd_add; auto; apply wd_var; auto; apply mod_w. }
    apply wp_ret. exact HQ.
  Qed.

  Lemma words_vlist : forall v, words 8 (vlist v) -> lvars (vlist v) = v.
  Proof. intros [] _. reflexivity. Qed.
  Lemma vlist_lvars : forall v, len v = 8 -> vlist (lvars v) = v.
  Proof.
    intros v L. apply znth_ext with 0; [rewrite L; reflexivity|]. intros i Hi.
    assert (i = 0 \/ i = 1 \/ i = 2 \/ i = 3 \/ i = 4 \/ i = 5 \/ i = 6 \/ i = 7) as C by (change (len (vlist (lvars v))) with 8 in Hi; lia).
    repeat destruct C as [->|C]; try reflexivity. subst. reflexivity.
  Qed.
  Lemma words_round : forall k x v, words 8 (vlist v) -> words 8 (vlist (round s k x v)).
  Proof.
    intros k x v (L & F). split; [reflexivity|]. destruct v as [a b c d e f g h]. cbn [vlist round va vb vc vd ve vf vg vh] in *.
    repeat (apply Forall_cons_iff in F; destruct F as (? & F)).
    repeat (apply Forall_cons; [first [assumption | apply mod_w]|]). apply Forall_nil.
  Qed.
  Lemma words_rounds : forall n W v, words 8 (vlist v) -> words 8 (vlist (rounds s n W v)).
  Proof. induction n; intros; cbn [rounds]; auto. apply words_round. auto. Qed.

  (** *** The message schedule *)

  Lemma len_schedule : forall n B, len (schedule s n B) = len B + Z.of_nat n.
  Proof. induction n; intros; cbn [schedule]; [lia|]. rewrite len_app, IHn. unfold len at 2. cbn [length]. lia. Qed.
  Lemma schedule_words : forall n B, words 16 B -> words (16 + Z.of_nat n) (schedule s n B).
  Proof.
    intros n B HB. assert (HL := HB). destruct HL as (L & _). split; [rewrite len_schedule; lia|].
    induction n; cbn [schedule]; [apply HB|]. apply Forall_app. split; auto. constructor; [apply mod_w|constructor].
  Qed.
  Lemma schedule_stable : forall n m B i, (m <= n)%nat -> i < len B + Z.of_nat m -> get (schedule s n B) i = get (schedule s m B) i.
  Proof.
    intros n m B i Hm Hi. induction Hm; auto. cbn [schedule]. unfold get at 1. rewrite znth_app1; auto. rewrite len_schedule. lia.
  Qed.
  Lemma schedule_rec : forall n B i, len B = 16 -> 16 <= i < 16 + Z.of_nat n ->
    let W := schedule s n B in
    get W i = (ssig s (r_s1 s) (get W (i - 2)) + get W (i - 7) + ssig s (r_s0 s) (get W (i - 15)) + get W (i - 16)) mod 2 ^ w.
  Proof.
    intros n B i L Hi W. set (m := Z.to_nat (i - 16)).
    assert (forall j, j < 16 + Z.of_nat m -> get W j = get (schedule s m B) j) as S by (intros; apply schedule_stable; lia).
    rewrite (S (i - 2)), (S (i - 7)), (S (i - 15)), (S (i - 16)) by lia. unfold W. rewrite (schedule_stable n (Datatypes.S m)) by lia. cbn [schedule]. unfold get at 1.
    rewrite znth_app2 by (rewrite len_schedule; lia). rewrite len_schedule, L.
    replace (i - (16 + Z.of_nat m)) with 0 by lia. rewrite znth_0. replace (16 + Z.of_nat m) with i by lia. reflexivity.
  Qed.

  Section Block.
    Variable B : list Z.
    Hypothesis HB : words 16 B.
    Let R := len (sK s).
    Let W := schedule s (length (sK s) - 16) B.
    Let ng := len (a_K p).

    Lemma concat_get : forall (gs : list (list Z)) g i, Forall (fun l => len l = 16) gs -> 0 <= g < len gs -> 0 <= i < 16 ->
      get (concat gs) (16 * g + i) = get (znth [] gs g) i.
    Proof.
      induction gs as [|x gs IH]; intros g i F Hg Hi; [change (len []) with 0 in Hg; lia|].
      apply Forall_cons_iff in F. destruct F as (Lx & F). rewrite len_cons in Hg. cbn [concat]. destruct (Z.eq_dec g 0) as [->|].
      - unfold get. rewrite znth_app1 by lia. rewrite znth_0. f_equal.
      - rewrite znth_cons by lia. rewrite <- IH by (auto; lia). unfold get. rewrite znth_app2 by lia. f_equal. lia.
    Qed.
    Lemma concat_len : forall (gs : list (list Z)), Forall (fun l => len l = 16) gs -> len (concat gs) = 16 * len gs.
    Proof. induction 1; cbn [concat]; auto. rewrite len_app, len_cons, IHForall. lia. Qed.

    Lemma R_eq : R = 16 * ng.
    Proof. unfold R, ng. rewrite <- HK. now apply concat_len. Qed.
    Lemma ng_pos : 1 <= ng.
    Proof. unfold ng. destruct (a_K p) as [|x l]; [congruence|]. rewrite len_cons. pose proof (len_nonneg l). lia. Qed.
    Lemma W_words : words R W.
    Proof.
      unfold W, R. pose proof (schedule_words (length (sK s) - 16) B HB) as X. pose proof R_eq. pose proof ng_pos. unfold R in *.
      replace (16 + Z.of_nat (length (sK s) - 16)) with (len (sK s)) in X; auto. unfold len in *. lia.
    Qed.
    Lemma W_rec : forall i, 16 <= i < R ->
      get W i = (ssig s (r_s1 s) (get W (i - 2)) + get W (i - 7) + ssig s (r_s0 s) (get W (i - 15)) + get W (i - 16)) mod 2 ^ w.
    Proof.
      intros. apply (schedule_rec (length (sK s) - 16) B i); [apply HB|]. unfold R in *. unfold len in *. lia.
    Qed.
    Lemma W_first : forall i, 0 <= i < 16 -> get W i = get B i.
    Proof. intros. unfold W. rewrite (schedule_stable _ 0) by (try rewrite (proj1 HB); lia). reflexivity. Qed.

    Definition win (g : Z) : list Z := ztab 16 (fun i => get W (16 * g + i)).

    Lemma win_words : forall g, 0 <= g < ng -> words 16 (win g).
    Proof.
      intros g Hg. split; [now apply len_ztab|]. apply Forall_ztab. intros i Hi. eapply words_get; [apply W_words|]. rewrite R_eq. lia.
    Qed.

    Lemma wp_EXPAND : forall g (Q : list Z -> Prop), 0 <= g -> g + 1 < ng -> Q (win (g + 1)) -> wp (each EXPAND_lines (M_ p) (win g)) Q.
    Proof.
      intros g Q Hg Hg1 HQ. pose proof R_eq as HR.
      set (st_ := fun k => ztab 16 (fun i => get W (16 * g + (if i <? k then 16 else 0) + i))).
      assert (forall i, 0 <= i < R -> 0 <= get W i < 2 ^ w) as WR by (intros; eapply words_get; [apply W_words|auto]).
      apply wp_each with (d := (0, 0, 0, 0)) (I := fun k l => l = st_ k).
      - apply ztab_ext. intros i Hi. replace (i <? 0) with false by lia. f_equal. lia.
      - intros k l Hk ->. change (len EXPAND_lines) with 16 in Hk.
        assert (exists j14 j9 j1, znth (0, 0, 0, 0) EXPAND_lines k = (k, j14, j9, j1) /\ 0 <= j14 < 16 /\ 0 <= j9 < 16 /\ 0 <= j1 < 16 /\
          j14 = k + 14 - (if 2 <=? k then 16 else 0) /\ j9 = k + 9 - (if 7 <=? k then 16 else 0) /\ j1 = k + 1 - (if 15 <=? k then 16 else 0)) as (j14 & j9 & j1 & E & B14 & B9 & B1 & E14 & E9 & E1).
        { assert (k = 0 \/ k = 1 \/ k = 2 \/ k = 3 \/ k = 4 \/ k = 5 \/ k = 6 \/ k = 7 \/ k = 8 \/ k = 9 \/ k = 10 \/ k = 11 \/ k = 12 \/ k = 13 \/ k = 14 \/ k = 15) as C by lia.
          repeat destruct C as [->|C]; [..|subst k]; do 3 eexists; (split; [reflexivity|]); repeat split; try reflexivity; try lia. }
        rewrite E. unfold M_. fold t.
        assert (forall j, 0 <= j < 16 -> get (st_ k) j = get W (16 * g + (if j <? k then 16 else 0) + j)) as G.
        { intros j Hj. unfold get at 1, st_. now rewrite znth_ztab by lia. }
        assert (get (st_ k) j14 = get W (16 * (g + 1) + k - 2)) as G14 by (rewrite G by lia; f_equal; destruct (2 <=? k) eqn:D, (j14 <? k) eqn:D'; lia).
        assert (get (st_ k) j9 = get W (16 * (g + 1) + k - 7)) as G9 by (rewrite G by lia; f_equal; destruct (7 <=? k) eqn:D, (j9 <? k) eqn:D'; lia).
        assert (get (st_ k) j1 = get W (16 * (g + 1) + k - 15)) as G1 by (rewrite G by lia; f_equal; destruct (15 <=? k) eqn:D, (j1 <? k) eqn:D'; lia).
        assert (get (st_ k) k = get W (16 * (g + 1) + k - 16)) as G0 by (rewrite G by lia; f_equal; destruct (k <? k) eqn:D'; lia).
        rewrite G14, G9, G1, G0. apply wp_bind. destruct Hamt as (_ & _ & A0 & A1).
        eapply wp_wd with (t := t) (w := w).
        { apply wd_add; auto; [|apply wd_var; auto; apply WR; lia]. apply wd_add; auto; [|apply wd_ssig; [apply wd_var; auto; apply WR; lia|rewrite Hs0; auto]].
          apply wd_add; auto; [|apply wd_var; auto; apply WR; lia]. apply wd_ssig; [apply wd_var; auto; apply WR; lia|rewrite Hs1; auto]. }
        apply wp_ret. rewrite sum4, Hs0, Hs1. rewrite <- W_rec by lia.
        apply ztab_eq with 0; [rewrite len_upd; apply len_ztab; lia|]. intros i Hi.
        rewrite znth_upd by (unfold st_; rewrite len_ztab; lia). destruct (i =? k) eqn:D.
        + assert (i = k) by lia. subst i. replace (k <? k + 1) with true by lia. f_equal. lia.
        + change (znth 0 (st_ k) i) with (get (st_ k) i). rewrite G by lia. f_equal. destruct (i <? k) eqn:D1, (i <? k + 1) eqn:D2; lia.
      - intros l ->. change (len EXPAND_lines) with 16.
        replace (st_ 16) with (win (g + 1)); auto. apply ztab_ext. intros i Hi. replace (i <? 16) with true by lia. f_equal. lia.
    Qed.

    Definition rz (k : Z) (v : vars) : vars := rounds s (Z.to_nat k) W v.
    Lemma rz_S : forall k v, 0 <= k -> rz (k + 1) v = round s (get (sK s) k) (get W k) (rz k v).
    Proof. intros. unfold rz. rewrite Z2Nat.inj_add by lia. rewrite Nat.add_1_r. cbn [rounds]. now rewrite Z2Nat.id by lia. Qed.

    Lemma wp_F16 : forall g ks v0 (Q : list Z -> Prop), 0 <= g < ng -> words 8 (vlist v0) ->
      ks = znth [] (a_K p) g -> Q (vlist (rz (16 * (g + 1)) v0)) -> wp (F16 p (win g) ks (vlist (rz (16 * g) v0))) Q.
    Proof.
      intros g ks v0 Q Hg Hv -> HQ. pose proof R_eq as HR.
      apply wp_each with (d := 0) (I := fun k v => v = vlist (rz (16 * g + k) v0)).
      - now rewrite Z.add_0_r.
      - change (len _) with 16. intros k v Hk ->.
        assert (znth 0 [0; 1; 2; 3; 4; 5; 6; 7; 8; 9; 10; 11; 12; 13; 14; 15] k = k) as ->.
        { assert (k = 0 \/ k = 1 \/ k = 2 \/ k = 3 \/ k = 4 \/ k = 5 \/ k = 6 \/ k = 7 \/ k = 8 \/ k = 9 \/ k = 10 \/ k = 11 \/ k = 12 \/ k = 13 \/ k = 14 \/ k = 15) as C by lia.
          repeat destruct C as [->|C]; [..|subst k]; reflexivity. }
        rewrite <- concat_get by auto. rewrite HK.
        assert (get (win g) k = get W (16 * g + k)) as -> by (unfold get at 1, win; now rewrite znth_ztab by lia).
        assert (words 8 (vlist (rz (16 * g + k) v0))) as Hr by now apply words_rounds.
        apply wp_F; auto.
        + eapply words_get; [apply W_words|lia].
        + eapply words_get; [apply (typed_words _ HKt)|fold R; lia].
        + rewrite words_vlist by auto. rewrite <- rz_S by lia. do 2 f_equal. lia.
      - change (len _) with 16. intros v ->. replace (16 * g + 16) with (16 * (g + 1)) by lia. exact HQ.
    Qed.
  End Block.

  (** *** Blocks *)

  Lemma be_val_bound : forall l, typed U8 l -> 0 <= be_val l < 256 ^ len l.
  Proof.
    intros l T. pose proof (be_be_val (len l) l (conj eq_refl T)) as E. rewrite <- E at 1 2. rewrite be_val_be by apply len_nonneg.
    apply Z.mod_pos_bound. apply Z.pow_pos_nonneg; [lia|apply len_nonneg].
  Qed.
  Lemma pow_nb : 256 ^ nb = 2 ^ w.
  Proof. rewrite Hnb. change 256 with (2 ^ 8). rewrite <- Z.pow_mul_r; [auto|lia|]. destruct Hw as [(_ & E)|(_ & E)]; lia. Qed.
  Lemma nb_pos : 0 < nb.
  Proof. destruct Hw as [(_ & E)|(_ & E)]; lia. Qed.
  Lemma w8 : w / 8 = nb.
  Proof. rewrite Hnb, Z.mul_comm. apply Z.div_mul. lia. Qed.

  Definition block0 (inp : list Z) : list Z := ztab 16 (fun j => be_val (zfirst nb (zskip (nb * j) inp))).
  Lemma block0_words : forall inp, 16 * nb <= len inp -> typed U8 inp -> words 16 (block0 inp).
  Proof.
    intros inp L T. pose proof nb_pos as Nb. split; [now apply len_ztab|]. apply Forall_ztab. intros j Hj.
    rewrite <- pow_nb. assert (len (zfirst nb (zskip (nb * j) inp)) = nb) as E.
    { apply len_zfirst. rewrite len_zskip by nia. nia. }
    pose proof (be_val_bound (zfirst nb (zskip (nb * j) inp))) as X. rewrite E in X. apply X. now apply Forall_zfirst, Forall_zskip.
  Qed.
  Lemma block_eq : forall P k, 0 <= k -> block s P k = block0 (zskip (16 * nb * k) P).
  Proof.
    intros. apply ztab_ext. intros j Hj. fold w. rewrite w8. pose proof nb_pos as Nb. rewrite zskip_zskip by nia. do 3 f_equal. nia.
  Qed.

  Lemma compress_words : forall H B, words 8 (compress s H B).
  Proof. intros. split; [now apply len_ztab|]. apply Forall_ztab. intros. apply mod_w. Qed.

  Lemma znth_regs : forall k, 0 <= k < 8 -> znth 0 regs k = k.
  Proof.
    intros k Hk. assert (k = 0 \/ k = 1 \/ k = 2 \/ k = 3 \/ k = 4 \/ k = 5 \/ k = 6 \/ k = 7) as C by lia.
    repeat destruct C as [->|C]; [..|subst k]; reflexivity.
  Qed.

  Lemma ztab_S : forall A n (f : Z -> A), 0 <= n -> ztab (n + 1) f = ztab n f ++ [f n].
  Proof. intros. rewrite ztab_split by lia. unfold ztab at 2. change (Z.to_nat 1) with 1%nat. cbn [seq map]. now rewrite Z.add_0_r. Qed.

  Lemma wp_hash_block : forall inp H (Q : list Z * list Z -> Prop), words 8 H -> 16 * nb <= len inp -> typed U8 inp ->
    Q (compress s H (block0 inp), compress s H (block0 inp)) -> wp (hash_block p inp H H) Q.
  Proof.
    intros inp H Q HH Li Ti HQ. unfold hash_block. fold t nb. pose proof nb_pos as Nb.
    pose proof (block0_words inp Li Ti) as HB. set (B := block0 inp) in *.
    apply wp_bind. apply wp_each with (d := 0) (I := fun k l => l = ztab k (fun j => be_val (zfirst nb (zskip (nb * j) inp)))).
    { reflexivity. }
    { change (len _) with 16. intros k l Hk ->.
      assert (znth 0 [0; 1; 2; 3; 4; 5; 6; 7; 8; 9; 10; 11; 12; 13; 14; 15] k = k) as ->.
      { assert (k = 0 \/ k = 1 \/ k = 2 \/ k = 3 \/ k = 4 \/ k = 5 \/ k = 6 \/ k = 7 \/ k = 8 \/ k = 9 \/ k = 10 \/ k = 11 \/ k = 12 \/ k = 13 \/ k = 14 \/ k = 15) as C by lia.
        repeat destruct C as [->|C]; [..|subst k]; reflexivity. }
      apply wp_bind, wp_ptr; [nia|]. apply wp_bind, Hload; [rewrite len_zskip by nia; nia|now apply Forall_zskip|].
      apply wp_ret. now rewrite ztab_S by lia. }
    change (len _) with 16. intros l ->. fold (block0 inp). fold B.
    pose proof (ng_pos) as NG. pose proof R_eq as HR.
    assert (B = win B 0) as EB.
    { apply ztab_eq with 0; [apply HB|]. intros i Hi. rewrite Z.mul_0_r, Z.add_0_l. now rewrite W_first. }
    assert (words 8 (vlist (lvars H))) as HV by now rewrite vlist_lvars by apply HH.
    apply wp_bind. replace (F16 p B (hd [] (a_K p)) H) with (F16 p (win B 0) (hd [] (a_K p)) (vlist (rz B (16 * 0) (lvars H)))).
    2:{ f_equal; [now symmetry|]. change (rz B (16 * 0) (lvars H)) with (lvars H). apply vlist_lvars. apply HH. }
    apply wp_F16; auto; [lia|destruct (a_K p); [congruence|reflexivity]|].
    apply wp_bind. apply wp_each with (d := []) (I := fun k '(w', v) => w' = win B k /\ v = vlist (rz B (16 * (k + 1)) (lvars H))).
    { split; [exact EB|reflexivity]. }
    { assert (len (a_K p) = len (tl (a_K p)) + 1) as LT by (destruct (a_K p); [congruence|rewrite len_cons; reflexivity]).
      intros k (w', v) Hk (-> & ->). apply wp_bind, wp_EXPAND; [auto|lia|lia|].
      apply wp_bind, wp_F16; auto; [lia| |].
      - destruct (a_K p) as [|x l]; [congruence|]. cbn [tl]. rewrite znth_cons by lia. f_equal. lia.
      - apply wp_ret. split; reflexivity. }
    intros (w', v) (-> & ->).
    replace (len (tl (a_K p)) + 1) with (len (a_K p)) by (destruct (a_K p); [congruence|rewrite len_cons; reflexivity]).
    rewrite <- HR. set (v1 := rz B (len (sK s)) (lvars H)).
    assert (words 8 (vlist v1)) as H1 by now apply words_rounds.
    assert (compress s H B = ztab 8 (fun i => (get (vlist v1) i + get H i) mod 2 ^ w)) as EC.
    { unfold compress. fold w. apply ztab_ext. intros i Hi. do 3 f_equal. unfold v1, rz, len. rewrite Nat2Z.id. reflexivity. }
    apply wp_bind. apply wp_each with (d := 0) (I := fun k v => len v = 8 /\
      forall i, 0 <= i < 8 -> get v i = if i <? k then (get (vlist v1) i + get H i) mod 2 ^ w else get (vlist v1) i).
    { split; [reflexivity|]. intros i Hi. replace (i <? 0) with false by lia. reflexivity. }
    { change (len regs) with 8. intros k v Hk (Lv & Gv). rewrite znth_regs by auto. rewrite Gv by lia. replace (k <? k) with false by lia.
      apply wp_bind. eapply wp_wd with (t := t) (w := w).
      { apply wd_add; auto; [apply wd_var; auto; eapply words_get; eauto; lia|]. apply wd_idx; auto; [rewrite (proj1 HH); lia|eapply words_typed; eauto]. }
      apply wp_ret. rewrite len_upd. split; auto. intros i Hi. unfold get at 1. rewrite znth_upd by lia. destruct (i =? k) eqn:D.
      - assert (i = k) by lia. subst i. replace (k <? k + 1) with true by lia. reflexivity.
      - change (znth 0 v i) with (get v i). rewrite Gv by lia. replace (i <? k + 1) with (i <? k) by lia. reflexivity. }
    change (len regs) with 8. intros v (Lv & Gv).
    assert (v = compress s H B) as ->.
    { rewrite EC. apply ztab_eq with 0; auto. intros i Hi. change (znth 0 v i) with (get v i). rewrite Gv by lia.
      replace (i <? 8) with true by lia. reflexivity. }
    pose proof (compress_words H B) as HC. set (C := compress s H B) in *. clearbody C.
    apply wp_bind. apply wp_each with (d := 0) (I := fun k st => len st = 8 /\ forall i, 0 <= i < 8 -> get st i = if i <? k then get C i else get H i).
    { split; [apply HH|]. intros i Hi. replace (i <? 0) with false by lia. reflexivity. }
    { change (len regs) with 8. intros k st (Hk1 & Hk2) (Ls & Gs). rewrite znth_regs by lia.
      apply wp_st; [|cbn [lok]; rewrite (tmin_w t w Hw), (tmax_w t w Hw); pose proof (words_get _ _ k HC); lia|lia|].
      { reflexivity. }
      rewrite len_upd. split; auto. intros i Hi. unfold get at 1. rewrite znth_upd by lia. destruct (i =? k) eqn:D.
      - assert (i = k) by lia. subst i. replace (k <? k + 1) with true by lia. cbn [val]. rewrite (wrap_w t w Hw).
        rewrite Z.mod_small; auto. eapply words_get; eauto.
      - change (znth 0 st i) with (get st i). rewrite Gs by lia. replace (i <? k + 1) with (i <? k) by lia. reflexivity. }
    change (len regs) with 8. intros st (Ls & Gs).
    assert (st = C) as ->.
    { apply znth_ext with 0; [rewrite Ls; symmetry; apply HC|]. rewrite Ls. intros i Hi. change (znth 0 st i) with (get st i). rewrite Gs by lia.
      replace (i <? 8) with true by lia. reflexivity. }
    apply wp_ret. exact HQ.
  Qed.

  Definition bytes_of (H : list Z) : list Z := flat_map (be nb) H.
  Lemma len_bytes_of : forall H, len (bytes_of H) = nb * len H.
  Proof.
    pose proof nb_pos as Nb. induction H as [|x H IH]; cbn [bytes_of flat_map]; [rewrite !len_nil; lia|].
    fold (bytes_of H). rewrite len_app, len_cons, len_be by lia. lia.
  Qed.
  Lemma typed_bytes_of : forall H, typed U8 (bytes_of H).
  Proof. induction H as [|x H IH]; cbn [bytes_of flat_map]; [constructor|]. apply Forall_app. split; auto. apply typed_ben. Qed.
  Lemma bytes_of_skip : forall H i, 0 <= i <= len H -> zskip (nb * i) (bytes_of H) = bytes_of (zskip i H).
  Proof.
    pose proof nb_pos as Nb. induction H as [|x H IH]; intros i Hi.
    - change (len []) with 0 in Hi. assert (i = 0) by lia. subst. rewrite Z.mul_0_r. reflexivity.
    - rewrite len_cons in Hi. destruct (Z.eq_dec i 0) as [->|]; [rewrite Z.mul_0_r; reflexivity|].
      cbn [bytes_of flat_map]. fold (bytes_of H).
      replace (nb * i) with (len (be nb x) + nb * (i - 1)) by (rewrite len_be by lia; lia).
      rewrite <- zskip_zskip by (try apply len_nonneg; nia). rewrite zskip_app. rewrite IH by lia.
      f_equal. unfold zskip. replace (Z.to_nat i) with (S (Z.to_nat (i - 1))) by lia. reflexivity.
  Qed.
  Lemma bytes_of_word : forall H i, 0 <= i < len H -> zfirst nb (zskip (nb * i) (bytes_of H)) = be nb (get H i).
  Proof.
    intros H i Hi. pose proof nb_pos as Nb. rewrite bytes_of_skip by lia.
    assert (zskip i H = get H i :: zskip (i + 1) H) as ->.
    { apply znth_ext with 0; [rewrite len_cons, !len_zskip by lia; lia|]. rewrite len_zskip by lia. intros k Hk.
      rewrite znth_zskip by lia. destruct (Z.eq_dec k 0) as [->|]; [rewrite Z.add_0_r; reflexivity|].
      rewrite znth_cons, znth_zskip by lia. f_equal. lia. }
    cbn [bytes_of flat_map]. apply zfirst_app_at. now apply len_be; lia.
  Qed.

  Lemma hash_blocks_words : forall n P H, words 8 H -> words 8 (hash_blocks s n P H).
  Proof. destruct n; intros; cbn [hash_blocks]; auto. apply compress_words. Qed.

  Definition hb (k : Z) (P H : list Z) : list Z := hash_blocks s (Z.to_nat k) P H.
  Lemma hb_S : forall k P H, 0 <= k -> hb (k + 1) P H = compress s (hb k P H) (block s P k).
  Proof. intros. unfold hb. rewrite Z2Nat.inj_add by lia. rewrite Nat.add_1_r. cbn [hash_blocks]. now rewrite Z2Nat.id by lia. Qed.

  Lemma wp_hashblocks : forall junk inp n H (Q : list Z -> Prop), words 8 H -> 0 <= n <= len inp -> typed U8 inp ->
    Q (bytes_of (hb (n / (16 * nb)) inp H)) -> wp (hashblocks p junk (bytes_of H) inp n) Q.
  Proof.
    intros junk inp n H Q HH Hn Ti HQ. unfold hashblocks. fold t nb. pose proof nb_pos as Nb.
    assert (len (bytes_of H) = 8 * nb) as LS by (rewrite len_bytes_of, (proj1 HH); lia).
    apply wp_bind. apply wp_each with (d := 0) (I := fun k '(st, v) => v = zfirst k H /\ len st = 8 /\ forall i, 0 <= i < k -> get st i = get H i).
    { split; [reflexivity|]. split; [now apply uninit_len|]. intros; lia. }
    { change (len regs) with 8. intros k (st, v) Hk (-> & Ls & Gs). rewrite znth_regs by lia.
      apply wp_bind, wp_ptr; [nia|]. apply wp_bind, Hload; [rewrite len_zskip by nia; nia|apply Forall_zskip, typed_bytes_of|].
      rewrite bytes_of_word by (rewrite (proj1 HH); lia). rewrite be_val_be, pow_nb by lia.
      pose proof (words_get _ _ k HH Hk) as Gk. rewrite Z.mod_small by auto.
      apply wp_bind, wp_st; [reflexivity|cbn [lok]; rewrite (tmin_w t w Hw), (tmax_w t w Hw); lia|lia|]. apply wp_ret. cbn [val].
      rewrite (wrap_w t w Hw), Z.mod_small by auto. split; [|split; [now rewrite len_upd|]].
      - apply znth_ext with 0; [rewrite len_app, !len_zfirst by (rewrite (proj1 HH); lia); reflexivity|].
        rewrite len_app, len_zfirst by (rewrite (proj1 HH); lia). change (len [get H k]) with 1. intros i Hi.
        rewrite znth_zfirst by lia. destruct (Z.eq_dec i k) as [->|].
        + rewrite znth_app2; rewrite len_zfirst by (rewrite (proj1 HH); lia); [|lia]. rewrite Z.sub_diag. reflexivity.
        + rewrite znth_app1 by (rewrite len_zfirst by (rewrite (proj1 HH); lia); lia). now rewrite znth_zfirst by lia.
      - intros i Hi. unfold get at 1. rewrite znth_upd by lia. destruct (i =? k) eqn:D; [f_equal; lia|]. apply Gs. lia. }
    change (len regs) with 8. intros (st, v) (-> & Ls & Gs). rewrite zfirst_all_at by apply HH.
    assert (st = H) as -> by (apply znth_ext with 0; [rewrite Ls; symmetry; apply HH|rewrite Ls; exact Gs]).
    set (m := n / (16 * nb)) in *. assert (0 <= m) as Hm by (apply Z.div_pos; lia).
    assert (16 * nb * m <= n < 16 * nb * m + 16 * nb) as Bm by (pose proof (Z.div_mod n (16 * nb)); pose proof (Z.mod_pos_bound n (16 * nb)); fold m in H0; lia).
    assert (forall k, words 8 (hb k inp H)) as HW by (intros; now apply hash_blocks_words).
    apply wp_bind. apply wp_while with (m := m) (I := fun k '(st, v, q, r) => st = hb k inp H /\ v = hb k inp H /\ q = zskip (16 * nb * k) inp /\ r = n - 16 * nb * k).
    { auto. }
    { lia. }
    { rewrite Z.mul_0_r. repeat split. lia. }
    { intros k (((st & v) & q) & r) Hk (_ & _ & _ & ->). destruct (k <? m) eqn:D; nia. }
    { intros k (((st & v) & q) & r) Hk (-> & -> & -> & ->).
      apply wp_bind, wp_hash_block; [apply HW|rewrite len_zskip by nia; nia|now apply Forall_zskip|].
      apply wp_bind, wp_ptr; [rewrite len_zskip by nia; nia|]. apply wp_ret. rewrite <- block_eq, <- hb_S by lia.
      repeat split; [|nia]. rewrite zskip_zskip by nia. f_equal. lia. }
    intros (((st & v) & q) & r) (-> & _ & _ & _). specialize (HW m). set (G := hb m inp H) in *. clearbody G.
    apply wp_each with (d := 0) (I := fun k sb => sb = bytes_of (zfirst k G) ++ zskip (nb * k) (bytes_of H)).
    { rewrite Z.mul_0_r. reflexivity. }
    { change (len regs) with 8. intros k sb Hk ->. rewrite znth_regs by lia.
      pose proof (words_get _ _ k HW Hk) as Gk. destruct HW as (LG & _).
      apply wp_bind, wp_rd; [lia|].
      assert (len (bytes_of (zfirst k G)) = nb * k) as L1 by (rewrite len_bytes_of, len_zfirst by lia; lia).
      apply wp_at; [rewrite len_app, len_zskip by nia; nia|].
      rewrite zskip_app_at, zfirst_app_at by auto.
      apply Hstore; auto; [rewrite len_zskip by nia; nia|]. rewrite zskip_zskip by nia.
      replace (bytes_of (zfirst (k + 1) G)) with (bytes_of (zfirst k G) ++ be nb (get G k)).
      - rewrite <- app_assoc. do 3 f_equal. lia.
      - assert (zfirst (k + 1) G = zfirst k G ++ [get G k]) as ->.
        { apply znth_ext with 0; [rewrite len_app, !len_zfirst by lia; reflexivity|]. rewrite len_zfirst by lia. intros i Hi.
          rewrite znth_zfirst by lia. destruct (Z.eq_dec i k) as [->|].
          - rewrite znth_app2; rewrite len_zfirst by lia; [|lia]. rewrite Z.sub_diag. reflexivity.
          - rewrite znth_app1 by (rewrite len_zfirst by lia; lia). now rewrite znth_zfirst by lia. }
        unfold bytes_of. rewrite flat_map_app. cbn [flat_map]. now rewrite app_nil_r. }
    change (len regs) with 8. intros sb ->. rewrite (zskip_all (nb * 8)), app_nil_r by lia.
    rewrite zfirst_all_at by apply HW. exact HQ.
  Qed.

  (** *** Splitting the message *)

  Lemma block_ext : forall P P' k, 0 <= k -> 16 * nb * (k + 1) <= len P -> len P = len P' \/ 16 * nb * (k + 1) <= len P' ->
    (forall i, 0 <= i < 16 * nb * (k + 1) -> get P i = get P' i) -> block s P k = block s P' k.
  Proof.
    intros P P' k Hk L L' E. pose proof nb_pos as Nb. apply ztab_ext. intros j Hj. fold w. rewrite w8. f_equal.
    apply znth_ext with 0; [rewrite !len_zfirst by (rewrite len_zskip by nia; nia); reflexivity|].
    rewrite len_zfirst by (rewrite len_zskip by nia; nia). intros i Hi.
    rewrite !znth_zfirst, !znth_zskip by nia. apply E. nia.
  Qed.
  Lemma hb_ext : forall k P P' H, 0 <= k -> 16 * nb * k <= len P -> 16 * nb * k <= len P' ->
    (forall i, 0 <= i < 16 * nb * k -> get P i = get P' i) -> hb k P H = hb k P' H.
  Proof.
    intros k P P' H Hk. pattern k. apply natlike_ind; auto; clear k Hk. intros k Hk IH L L' E. unfold Z.succ in *.
    pose proof nb_pos as Nb. rewrite !hb_S by lia. rewrite IH; [|nia|nia|intros; apply E; nia]. f_equal. apply block_ext; auto; nia.
  Qed.
  Lemma hb_add : forall b a P H, 0 <= a -> 0 <= b -> hb (a + b) P H = hb b (zskip (16 * nb * a) P) (hb a P H).
  Proof.
    intros b a P H Ha Hb. pattern b. apply natlike_ind; auto; clear b Hb; [now rewrite Z.add_0_r|].
    intros b Hb IH. unfold Z.succ. rewrite Z.add_assoc, !hb_S by lia. rewrite IH. f_equal. pose proof nb_pos as Nb.
    rewrite !block_eq by lia. rewrite zskip_zskip by nia. do 2 f_equal. lia.
  Qed.

  Lemma final_eq : forall inp n j padded, 0 <= n <= len inp -> typed U8 inp -> 0 <= j ->
    let m := n / (16 * nb) in
    let tail := zskip (16 * nb * m) (zfirst n inp) ++ padding s n in
    len tail = 16 * nb * j -> zfirst (16 * nb * j) padded = tail -> 16 * nb * j <= len padded ->
    bytes_of (hb j padded (hb m inp (sH0 s))) = sha2_hash s (zfirst n inp).
  Proof.
    intros inp n j padded Hn Ti Hj m tail Lt Et Lp. pose proof nb_pos as Nb. unfold sha2_hash. fold w. rewrite w8. fold (bytes_of). unfold bytes_of. f_equal.
    assert (len (zfirst n inp) = n) as Ln by (apply len_zfirst; lia). rewrite Ln.
    set (P := zfirst n inp ++ padding s n). assert (0 <= m) as Hm by (apply Z.div_pos; lia).
    assert (16 * nb * m <= n) as Bm by (apply Z.mul_div_le; lia).
    assert (zskip (16 * nb * m) P = tail) as EP.
    { unfold P, tail. unfold zskip. rewrite skipn_app. f_equal. replace (Z.to_nat (16 * nb * m) - length (zfirst n inp))%nat with O; [reflexivity|].
      unfold len in Ln. lia. }
    assert (len P = 16 * nb * (m + j)) as LP.
    { assert (16 * nb * m <= len P) as LB by (unfold P; rewrite len_app, Ln; pose proof (len_nonneg (padding s n)); lia).
      pose proof (len_zskip (16 * nb * m) P ltac:(nia)) as X. rewrite EP, Lt in X. lia. }
    replace (2 * w) with (16 * nb) by lia. rewrite LP. rewrite (Z.mul_comm (16 * nb) (m + j)), Z.div_mul by lia. fold (hb (m + j) P (sH0 s)).
    rewrite hb_add by lia. rewrite EP. rewrite (hb_ext m P inp) by
      (try nia; intros i Hi; unfold P, get; rewrite znth_app1 by lia; now rewrite znth_zfirst by lia).
    apply hb_ext; [lia|lia|lia|]. intros i Hi. rewrite <- Et. unfold get. now rewrite znth_zfirst by lia.
  Qed.
End Alg.
