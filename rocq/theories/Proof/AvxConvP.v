(** The products of the AVX2 multiplier: schoolbook multiplication of the evaluated polynomials. *)
From Coq Require Import ZArith List Bool Lia.
From Verif Require Import Lib.Arr Lib.CInt Lib.CMon Spec.Ring Spec.AvxSpec Model.Vec Model.AvxCode Model.AvxMul Proof.Conv Proof.ArmSym Proof.ArmSymP Proof.ArmKaraP Proof.AvxSym Proof.AvxTab Proof.AvxMulP.
Import ListNotations.
Local Open Scope Z_scope.

Definition cut (f : Z -> Z) (i : Z) : Z := if (0 <=? i) && (i <? 16) then f i else 0.
Lemma cut_supp : forall f, supp 16 (cut f).
Proof. intros f k H. unfold cut. now replace ((0 <=? k) && (k <? 16)) with false by lia. Qed.
Lemma cut_in : forall f i, 0 <= i < 16 -> cut f i = f i.
Proof. intros f i H. unfold cut. now replace ((0 <=? i) && (i <? 16)) with true by lia. Qed.
(** Coefficient [k] of the product of two polynomials of 16 coefficients. *)
Definition P (f g : Z -> Z) (k : Z) : Z := conv 16 f (cut g) k.

Lemma sprod_ok : forall vx vy k n, peval vx vy (sprod n k) = zsum (Z.of_nat n) (fun i => vx (i + 1) * cut (fun j => vy (j + 1)) (k - i)).
Proof.
  intros vx vy k n. induction n as [|n IH]; [reflexivity|]. cbn [sprod]. rewrite peval_add, IH. rewrite Nat2Z.inj_succ, <- Z.add_1_r, zsum_S by lia.
  unfold cut at 3. destruct (_ && _); cbn [peval]; lia.
Qed.
Lemma P_eqm : forall f f' g g' k, (forall i, 0 <= i < 16 -> eqm 65536 (f i) (f' i)) -> (forall i, 0 <= i < 16 -> eqm 65536 (g i) (g' i)) -> eqm 65536 (P f g k) (P f' g' k).
Proof. intros. unfold P. apply conv_eqm; auto using cut_supp. intros i Hi. rewrite !cut_in by auto. auto. Qed.
Lemma P_top : forall f g k, 31 <= k -> P f g k = 0.
Proof. intros. unfold P. apply conv_out; [apply cut_supp|lia]. Qed.

Lemma school_vec : forall (acc : bool) a b c, vok 16 a -> vok 16 b -> vok 32 c ->
  exists r c', vexec vecs (if acc then schoolbook_avx_new3_acc_code else schoolbook_avx_new2_code) [] [a; b; c] = Some r /\ length r = 3%nat /\ lookup r 2 = Some c' /\ vok 32 c' /\
    forall k m, 0 <= k < 32 -> 0 <= m < 16 ->
      eqm 65536 (vg c' k m) ((if acc && (k <? 31) then vg c k m else 0) + P (fun i => vg a i m) (fun i => vg b i m) k).
Proof.
  intros acc a b c Ha Hb Hc.
  set (vx := fun m => window (fun u => if u <? 16 then vg a u m else vg c (u - 16) m)). set (vy := fun m => window (fun u => vg b u m)).
  assert (X0 : forall k, vx k 0 = 1) by reflexivity. assert (Y0 : forall k, vy k 0 = 1) by reflexivity.
  set (o := if acc then sb_acc else sb_new).
  assert (C : sb_is acc o = true) by (pose proof sb_checked as C; apply andb_true_iff in C as (C1 & C2); destruct acc; auto).
  unfold sb_is in C. rewrite !andb_true_iff in C. destruct C as ((C1 & C2) & C3). apply isn_some in C1 as (s & E & L).
  set (cs := if acc then ztab 32 symc else tops 32).
  assert (Eo : vexec haops (if acc then schoolbook_avx_new3_acc_code else schoolbook_avx_new2_code) [] [ztab 16 sym; ztab 16 symy; cs] = Some s).
  { unfold cs. rewrite <- E. unfold o. destruct acc; reflexivity. }
  assert (F : Forall2 (Forall2 (vrel vx vy)) [ztab 16 sym; ztab 16 symy; cs] [a; b; c]).
  { constructor; [|constructor; [|constructor; [|constructor]]].
    - apply Forall2_ztab with []; [lia|apply Ha|]. intros i Hi. split; [now apply vok_row with 16|]. intros k Hk. split; cbn [sym fst snd]; [lia|].
      cbn [peval]. unfold vx, vy. rewrite window_1, window_0 by lia. replace (i <? 16) with true by lia. unfold vg. apply eqm_eq. lia.
    - apply Forall2_ztab with []; [lia|apply Hb|]. intros i Hi. split; [now apply vok_row with 16|]. intros k Hk. split; cbn [symy fst snd]; [lia|].
      cbn [peval]. unfold vx, vy. rewrite window_1, window_0 by lia. unfold vg. apply eqm_eq. lia.
    - unfold cs. destruct acc; [|apply tops_rel; auto; lia].
      apply Forall2_ztab with []; [lia|apply Hc|]. intros i Hi. split; [now apply vok_row with 32|]. intros k Hk. split; cbn [symc fst snd]; [lia|].
      cbn [peval]. unfold vx, vy. replace (i + 17) with (i + 16 + 1) by lia. rewrite window_1, window_0 by lia. replace (i + 16 <? 16) with false by lia.
      unfold vg. apply eqm_eq. replace (i + 16 - 16) with i by lia. lia. }
  destruct (ha_sim vx vy X0 Y0 _ _ _ _ F Eo) as (r & Er & G).
  destruct (res_lookup _ _ _ 2 G ltac:(lia)) as (c' & Ec & Fc). rewrite <- E in Fc.
  exists r, c'. split; [exact Er|]. split; [apply Forall2_len in G; unfold len in *; lia|]. split; [exact Ec|]. split; [eapply rel_vok; eauto; lia|].
  intros k m Hk Hm. apply (upto_ok _ _ k) in C3; [|lia]. cbv beta in C3. apply andb_true_iff in C3 as (C3 & C4).
  eapply eqm_trans; [apply (rel_eqm vx vy _ _ k m (snd (znth htop (res o 2) k)) Fc); auto; lia|]. eapply eqm_trans; [apply peqb_eqm, C4|]. apply eqm_eq.
  assert (S : peval (vx m) (vy m) (sprod 16 k) = P (fun i => vg a i m) (fun i => vg b i m) k).
  { rewrite sprod_ok. unfold P, conv. apply zsum_ext. change (Z.of_nat 16) with 16. intros i Hi. unfold vx, vy. rewrite window_1 by lia.
    replace (i <? 16) with true by lia. f_equal. unfold cut. destruct ((0 <=? k - i) && (k - i <? 16)) eqn:B; auto. rewrite window_1 by lia. reflexivity. }
  destruct (acc && (k <? 31)) eqn:B; [|lia]. rewrite peval_add, S. cbn [peval]. unfold vx at 1, vy at 1. replace (k + 17) with (k + 16 + 1) by lia.
  rewrite window_1, window_0 by lia. replace (k + 16 <? 16) with false by lia. replace (k + 16 - 16) with k by lia. lia.
Qed.

Definition school (acc : bool) : list vec -> list vec -> list vec -> M (list vec) := if acc then schoolbook_avx_new3_acc else schoolbook_avx_new2.
Lemma school_ok : forall acc na nb nc a b c, vok na a -> vok nb b -> vok nc c -> 16 <= na -> 16 <= nb -> 32 <= nc ->
  wp (school acc a b c) (fun c' => vok nc c' /\ forall k m, 0 <= k < nc -> 0 <= m < 16 ->
    if k <? 32 then eqm 65536 (vg c' k m) ((if acc && (k <? 31) then vg c k m else 0) + P (fun i => vg a i m) (fun i => vg b i m) k) else vg c' k m = vg c k m).
Proof.
  intros acc na nb nc a b c Ha Hb Hc La Lb Lc.
  destruct (school_vec acc (zfirst 16 a) (zfirst 16 b) (zfirst 32 c)) as (r & c' & E & L & E2 & V & G);
    [apply vok_first with na; auto; lia|apply vok_first with nb; auto; lia|apply vok_first with nc; auto; lia|].
  pose proof (vexec_frame _ _ _ [zfirst 16 a; zfirst 16 b; zfirst 32 c] [zskip 16 a; zskip 16 b; zskip 32 c] _ eq_refl E) as E'. cbn [zapp] in E'. rewrite !split_at in E'.
  destruct (lookup_zapp r [zskip 16 a; zskip 16 b; zskip 32 c] 2 c' L E2) as (y & Ey & Ez). injection Ey as <-.
  assert (W : wp (school acc a b c) (fun x => x = c' ++ zskip 32 c)).
  { unfold school, schoolbook_avx_new3_acc, schoolbook_avx_new2. destruct acc; apply wp_bind; (eapply wp_vrun; [exact E'|]); (eapply wp_arr_of; [exact Ez|reflexivity]). }
  eapply wp_mono; [exact W|]. intros x ->. split.
  - replace nc with (32 + (nc - 32)) by lia. apply vok_app; auto. apply vok_skip; auto; lia.
  - intros k m Hk Hm. rewrite (vg_app 32) by (destruct V; lia). destruct (k <? 32) eqn:B.
    + specialize (G k m ltac:(lia) Hm). rewrite vg_first in G by lia. eapply eqm_trans; [exact G|]. apply eqm_add; [apply eqm_refl|].
      apply P_eqm; intros i Hi; apply eqm_eq, vg_first; lia.
    + rewrite vg_skip by lia. f_equal. lia.
Qed.

(** Bucket of products: values of the products of the evaluations number [q] of two polynomials, rows [32 g] to
    [32 g + 31] for [q / 16 = g]. *)
Lemma wp_vptr : forall n a off (Q : list vec -> Prop), vok n a -> 0 <= off <= n -> Q (zskip off a) -> wp (vptr a off) Q.
Proof.
  intros n a off Q (L & _) Ho H. unfold vptr. replace ((0 <=? off) && (off <=? len a))%bool with true by lia.
  apply wp_bind, wp_emit. now apply wp_ret.
Qed.
Lemma school_at_ok : forall acc o a b c, vok 64 a -> vok 64 b -> vok 128 c -> 0 <= o < 4 ->
  wp (a <- vptr a (16 * o) ;; b <- vptr b (16 * o) ;; vat c (32 * o) (fun c => school acc a b c))%M (fun c' => vok 128 c' /\
    forall k m, 0 <= k < 128 -> 0 <= m < 16 -> if k / 32 =? o
      then eqm 65536 (vg c' k m) ((if acc && (k mod 32 <? 31) then vg c k m else 0) + P (fun i => vg a (16 * o + i) m) (fun i => vg b (16 * o + i) m) (k mod 32))
      else vg c' k m = vg c k m).
Proof.
  intros acc o a b c Ha Hb Hc Ho. apply wp_bind. apply wp_vptr with 64; [auto|lia|]. apply wp_bind. apply wp_vptr with 64; [auto|lia|].
  apply wp_vat with 128; [auto|lia|].
  eapply wp_mono; [apply (school_ok acc (64 - 16 * o) (64 - 16 * o) (128 - 32 * o)); try (apply vok_skip; auto; lia); lia|].
  intros v (V & G). cbv beta in G. split.
  - replace 128 with (32 * o + (128 - 32 * o)) by lia. apply vok_app; auto. apply vok_first with 128; auto; lia.
  - intros k m Hk Hm. destruct Hc as (L & F). rewrite (vg_app (32 * o)) by (try rewrite len_zfirst; lia).
    destruct (k <? 32 * o) eqn:E1.
    + replace (k / 32 =? o) with false by dlia. apply vg_first. lia.
    + specialize (G (k - 32 * o) m ltac:(lia) Hm). destruct (k - 32 * o <? 32) eqn:E2.
      * replace (k / 32 =? o) with true by dlia. replace (k mod 32) with (k - 32 * o) by dlia. eapply eqm_trans; [exact G|].
        apply eqm_add; [rewrite vg_skip by lia; replace (32 * o + (k - 32 * o)) with k by lia; apply eqm_refl|].
        apply P_eqm; intros i Hi; apply eqm_eq, vg_skip; lia.
      * replace (k / 32 =? o) with false by dlia. rewrite G. rewrite vg_skip by lia. f_equal. lia.
Qed.

(** [c] holds [X q k], for evaluation [q] and coefficient [k]. *)
Definition products (X : Z -> Z -> Z) (c : list vec) : Prop :=
  vok 128 c /\ forall q k, 0 <= q < 63 -> 0 <= k < 32 -> eqm 65536 (vg c (32 * (q / 16) + k) (q mod 16)) (X q k).
(** The product of evaluations of [A] and [B]. *)
Definition evprod (A B : Z -> Z -> Z) (q k : Z) : Z := P (fun i => lin (evt q) (fun u => A u i)) (fun i => lin (evt q) (fun u => B u i)) k.

Definition mul4 (acc : bool) (a b c : list vec) : M (list vec) :=
  let mul o c := (a <- vptr a (16 * o) ;; b <- vptr b (16 * o) ;; vat c (32 * o) (fun c => school acc a b c))%M in
  (c <- mul 0 c ;; c <- mul 1 c ;; c <- mul 2 c ;; mul 3 c)%M.
Lemma mul4_ok : forall acc A B X a b c, bucket A a -> bucket B b -> vok 128 c -> (acc = true -> products X c) -> (forall q, X q 31 = 0) ->
  wp (mul4 acc a b c) (products (fun q k => (if acc then X q k else 0) + evprod A B q k)).
Proof.
  intros acc A B X a b c (Va & Ga) (Vb & Gb) Vc HX X31.
  set (I := fun o c' => vok 128 c' /\ forall k m, 0 <= k < 128 -> 0 <= m < 16 -> if k / 32 <? o
      then eqm 65536 (vg c' k m) ((if acc && (k mod 32 <? 31) then vg c k m else 0) + P (fun i => vg a (16 * (k / 32) + i) m) (fun i => vg b (16 * (k / 32) + i) m) (k mod 32))
      else vg c' k m = vg c k m).
  assert (S : forall o c', 0 <= o < 4 -> I o c' -> wp (a <- vptr a (16 * o) ;; b <- vptr b (16 * o) ;; vat c' (32 * o) (fun c => school acc a b c))%M (I (o + 1))).
  { intros o c' Ho (V & G). eapply wp_mono; [apply school_at_ok; auto|]. intros c'' (V' & G'). cbv beta in G'. split; auto. intros k m Hk Hm. specialize (G k m Hk Hm). specialize (G' k m Hk Hm).
    destruct (k / 32 =? o) eqn:E1.
    - replace (k / 32 <? o) with false in G by lia. replace (k / 32 <? o + 1) with true by lia. rewrite G in G'. replace (k / 32) with o by lia. exact G'.
    - rewrite G'. replace (k / 32 <? o + 1) with (k / 32 <? o) by lia. exact G. }
  unfold mul4. cbv zeta. apply wp_bind. eapply wp_mono; [apply (S 0); [lia|]|].
  { split; auto. intros k m Hk Hm. replace (k / 32 <? 0) with false by dlia. reflexivity. }
  intros c1 I1. apply wp_bind. eapply wp_mono; [apply (S 1); [lia|exact I1]|].
  intros c2 I2. apply wp_bind. eapply wp_mono; [apply (S 2); [lia|exact I2]|].
  intros c3 I3. eapply wp_mono; [apply (S 3); [lia|exact I3]|]. clear S I1 I2 I3. intros c' (V & G). cbv beta in G. split; auto. intros q k Hq Hk.
  specialize (G (32 * (q / 16) + k) (q mod 16) ltac:(dlia) ltac:(dlia)).
  replace ((32 * (q / 16) + k) / 32) with (q / 16) in G by dlia. replace ((32 * (q / 16) + k) mod 32) with k in G by dlia.
  replace (q / 16 <? 3 + 1) with true in G by dlia. eapply eqm_trans; [exact G|]. apply eqm_add.
  - destruct acc; cbn [andb]; [|apply eqm_refl]. destruct (k <? 31) eqn:E.
    + destruct (HX eq_refl) as (_ & HX'). apply HX'; auto.
    + replace k with 31 by lia. rewrite X31. apply eqm_refl.
  - apply P_eqm; intros i Hi; [apply Ga|apply Gb]; auto.
Qed.

Lemma toom_cook_4way_avx_n1_ok : forall junk a b_bucket c_bucket f B X, vok 16 a -> bucket B b_bucket -> vok 128 c_bucket ->
  (f <> 0 -> products X c_bucket) -> (forall q, X q 31 = 0) ->
  wp (toom_cook_4way_avx_n1 junk a b_bucket c_bucket f) (products (fun q k => (if f =? 0 then 0 else X q k) + evprod (vg a) B q k)).
Proof.
  intros junk a bb c f B X Ha Hb Hc HX X31. destruct evA_facts as (C1 & C2 & C3 & C4 & C5).
  destruct (eval_ok _ _ C1 C2 C3 C4 a (vuninit junk 0 28) (vuninit (sub junk 1) 0 64) Ha (vok_uninit junk 0 28 ltac:(lia)) (vok_uninit (sub junk 1) 0 64 ltac:(lia)))
    as (r1 & w & r2 & b' & E1 & Ew & E2 & Eb & V & G).
  unfold toom_cook_4way_avx_n1. apply wp_bind. eapply forv; [exact E1|]. apply wp_bind. eapply wp_arr_of; [exact Ew|]. unfold batch_64coefficient_multiplications_new.
  cbv zeta. apply wp_bind. eapply wp_vrun; [exact E2|]. apply wp_bind. eapply wp_arr_of; [exact Eb|].
  apply trans4k; auto. intros a' T.
  assert (Ba : bucket (vg a) a') by (apply (bucket_trans _ b' a' T); intros q k Hq Hk; apply G; [lia|auto|apply C5; lia]).
  apply wp_ite. destruct (f =? 0) eqn:Hf.
  - eapply wp_mono; [apply (mul4_ok false (vg a) B X a' bb c); auto; discriminate|]. intros c' Hc'; exact Hc'.
  - eapply wp_mono; [apply (mul4_ok true (vg a) B X a' bb c); auto; intros _; apply HX; lia|]. intros c' Hc'; exact Hc'.
Qed.
