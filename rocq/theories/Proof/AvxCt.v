(** Traces of the AVX2 implementation: two runs on inputs of the same shape have the same trace. *)
From Coq Require Import ZArith List Bool Lia.
From Verif Require Import Lib.Arr Lib.CInt Lib.CMon Model.Params Model.Verify Model.Pack Model.Cbd Model.Indcpa Model.Vec Model.AvxCode Model.AvxMul Model.AvxKem Proof.CtP.
Import ListNotations.
Local Open Scope Z_scope.

(** ** Straight-line vector code *)

(** Two values of a register, or of an element, have equally many lanes; arrays have equally many elements. *)
Definition sregs (r s : list (Z * list Z)) : Prop := Forall2 (fun p q => fst p = fst q /\ slen (snd p) (snd q)) r s.
Lemma rget_sh : forall r s k x y, sregs r s -> rget r k = Some x -> rget s k = Some y -> slen x y.
Proof.
  induction 1 as [|(a, v) (b, w) r s (E & L) _ IH]; cbn [rget]; [discriminate|]. cbn [fst snd] in *. subst b.
  destruct (a =? k); auto. intros [= <-] [= <-]. auto.
Qed.
Lemma lookup_sh : forall A (R : A -> A -> Prop) a b i x y, Forall2 R a b -> lookup a i = Some x -> lookup b i = Some y -> R x y.
Proof.
  intros A R a b i x y H. unfold lookup. destruct (i <? 0); [discriminate|]. generalize (Z.to_nat i) as k.
  induction H; intros [|k]; cbn [nth_error]; try discriminate.
  - intros [= <-] [= <-]. auto.
  - apply IHForall2.
Qed.
Lemma update_sh : forall A (R : A -> A -> Prop) a b i v w x y, Forall2 R a b -> R v w -> update a i v = Some x -> update b i w = Some y -> Forall2 R x y.
Proof.
  intros A R a b i v w x y H Hr. unfold update. destruct (i <? 0); [discriminate|]. generalize (Z.to_nat i) as k. intros k. revert x y k.
  induction H as [|p q a b Hpq H IH]; intros x y [|k]; cbn [updn_opt]; try discriminate.
  - intros [= <-] [= <-]. now constructor.
  - destruct (updn_opt a k v) as [a'|] eqn:Ea; [|discriminate]. destruct (updn_opt b k w) as [b'|] eqn:Eb; [|discriminate].
    intros [= <-] [= <-]. constructor; auto. eapply IH; eauto.
Qed.
Lemma slen_lanes : forall f g, slen (lanes f) (lanes g).
Proof. intros. unfold slen, lanes, ztab. now rewrite !map_length. Qed.
Lemma slen_shuffle : forall src x y x' y', slen (shuffle 0 src x y) (shuffle 0 src x' y').
Proof. intros. unfold slen, shuffle. now rewrite !map_length. Qed.
Lemma obind_some : forall A B (o : option A) (f : A -> option B) y, obind o f = Some y -> exists a, o = Some a /\ f a = Some y.
Proof. intros A B [a|] f y; cbn [obind]; [eauto|discriminate]. Qed.
Lemma some_inj : forall A (a b : A), Some a = Some b -> a = b.
Proof. congruence. Qed.
Ltac ob H := apply obind_some in H; destruct H as (? & ? & H).

Lemma veval_sh : forall e r s a b x y, sregs r s -> Forall2 (Forall2 slen) a b ->
  veval vecs r a e = Some x -> veval vecs s b e = Some y -> slen x y.
Proof.
  induction e as [k|k i|o e1 IH1 e2 IH2|e IH n|e IH n|]; cbn [veval]; intros r s a b x y Hr Ha H1 H2.
  - eapply rget_sh; eauto.
  - ob H1. ob H2. eapply lookup_sh; [eapply lookup_sh; [exact Ha|eauto|eauto]|eauto|eauto].
  - ob H1. ob H1. ob H2. ob H2. destruct o; cbn [o_bin vecs] in *; apply some_inj in H1, H2; subst x y; first [apply slen_lanes|apply slen_shuffle].
  - ob H1. ob H2. revert H1 H2. cbn [o_sll vecs]. intros [= <-] [= <-]. apply slen_lanes.
  - ob H1. ob H2. revert H1 H2. cbn [o_srl vecs]. intros [= <-] [= <-]. apply slen_lanes.
  - revert H1 H2. cbn [o_zero vecs]. intros [= <-] [= <-]. apply slen_lanes.
Qed.

Lemma vexec_sh : forall c r s a b x y, sregs r s -> Forall2 (Forall2 slen) a b ->
  vexec vecs c r a = Some x -> vexec vecs c s b = Some y -> Forall2 (Forall2 slen) x y.
Proof.
  induction c as [|[k e|k i e] c IH]; cbn [vexec]; intros r s a b x y Hr Ha H1 H2.
  - revert H1 H2. intros [= <-] [= <-]. auto.
  - ob H1. ob H2. eapply IH; [|exact Ha|exact H1|exact H2]. constructor; [|exact Hr]. split; [reflexivity|]. cbn [snd]. eapply veval_sh; eauto.
  - ob H1. ob H1. ob H1. ob H1. ob H2. ob H2. ob H2. ob H2.
    eapply IH; [exact Hr| |exact H1|exact H2].
    eapply (update_sh _ (Forall2 slen)); [exact Ha| |eauto|eauto].
    eapply (update_sh _ slen); [eapply (lookup_sh _ (Forall2 slen)); [exact Ha|eauto|eauto]|eapply veval_sh; eauto|eauto|eauto].
Qed.

(** ** Shapes of arrays of vectors *)
#[export] Instance sh_l4 : Shape (list (list (list (list Z)))) := Forall2 (Forall2 (Forall2 slen)).
Lemma sh_slen4 : forall a b, Forall2 (Forall2 (Forall2 slen)) a b -> @shape _ sh_l4 a b.
Proof. auto. Qed.
Lemma vrun_sh : forall c a b, Forall2 (Forall2 slen) a b -> ct (@shape _ sh_l3) (vrun c a) (vrun c b).
Proof. intros. unfold vrun. apply ct_lift. intros. eapply vexec_sh; eauto. constructor. Qed.
Lemma arr_of_sh : forall a b i, Forall2 (Forall2 slen) a b -> ct (@shape _ sh_l2) (arr_of a i) (arr_of b i).
Proof. intros. unfold arr_of. apply ct_lift. intros. eapply (lookup_sh _ (Forall2 slen)); eauto. Qed.
Lemma F2_len : forall A B (R : A -> B -> Prop) a b, Forall2 R a b -> len a = len b.
Proof. intros. unfold len. f_equal. induction H; cbn [length]; congruence. Qed.
Lemma F2_skip : forall A B (R : A -> B -> Prop) n a b, Forall2 R a b -> Forall2 R (zskip n a) (zskip n b).
Proof.
  intros A B R n a b H. unfold zskip. generalize (Z.to_nat n) as k. induction H; intros [|k]; cbn [skipn]; auto.
Qed.
Lemma F2_first : forall A B (R : A -> B -> Prop) n a b, Forall2 R a b -> Forall2 R (zfirst n a) (zfirst n b).
Proof.
  intros A B R n a b H. unfold zfirst. generalize (Z.to_nat n) as k. induction H; intros [|k]; cbn [firstn]; auto.
Qed.
Lemma vat_sh : forall (a b : list (list Z)) o f g, Forall2 slen a b ->
  (forall v w : list (list Z), Forall2 slen v w -> ct (@shape _ sh_l2) (f v) (g w)) -> ct (@shape _ sh_l2) (vat a o f) (vat b o g).
Proof.
  intros a b o f g H Hf. unfold vat. rewrite (F2_len _ _ _ _ _ H). destruct ((0 <=? o) && (o <=? len b)); [|apply ct_undef_l].
  eapply ct_bind; [apply ct_emit with (R := fun _ _ => True); auto|]. intros _ _ _.
  eapply ct_bind; [apply Hf, F2_skip, H|]. intros v w Hv. apply ct_ret. apply Forall2_app; [now apply F2_first|exact Hv].
Qed.
Lemma vptr_sh : forall (a b : list (list Z)) o, Forall2 slen a b -> ct (@shape _ sh_l2) (vptr a o) (vptr b o).
Proof.
  intros a b o H. unfold vptr. rewrite (F2_len _ _ _ _ _ H). destruct ((0 <=? o) && (o <=? len b)); [|apply ct_undef_l].
  eapply ct_bind; [apply ct_emit with (R := fun _ _ => True); auto|]. intros _ _ _. apply ct_ret. now apply F2_skip.
Qed.
Lemma loadu_sh : forall a b o, slen a b -> ct (@shape _ sh_l1) (loadu a o) (loadu b o).
Proof.
  intros a b o H. unfold loadu, len. rewrite H. destruct (_ && _); [|apply ct_undef_l].
  eapply ct_bind; [apply ct_emit with (R := fun _ _ => True); auto|]. intros _ _ _. apply ct_ret. apply slen_lanes.
Qed.
Lemma storeu_sh : forall a b o v w, slen a b -> slen v w -> ct (@shape _ sh_l1) (storeu a o v) (storeu b o w).
Proof.
  intros a b o v w H Hv. unfold storeu, len. rewrite H. destruct (_ && _); [|apply ct_undef_l].
  eapply ct_bind; [apply ct_emit with (R := fun _ _ => True); auto|]. intros _ _ _. apply ct_ret. apply sh_slen. unfold slen in *.
  unfold zfirst, zskip. rewrite !app_length, !firstn_length, !skipn_length. lia.
Qed.
Lemma row_l4 : forall (a b : list (list (list (list Z)))) i, Forall2 (Forall2 (Forall2 slen)) a b -> ct (@shape _ sh_l3) (row a i) (row b i).
Proof. intros. now apply ct_row. Qed.
Lemma setrow_l4 : forall (a b : list (list (list (list Z)))) i r s, Forall2 (Forall2 (Forall2 slen)) a b -> Forall2 (Forall2 slen) r s ->
  ct (@shape _ sh_l4) (setrow a i r) (setrow b i s).
Proof. intros. now apply ct_setrow. Qed.
Lemma shape_vuninit : forall j j' t t' n, Forall2 slen (vuninit j t n) (vuninit j' t' n).
Proof. intros. apply Forall2_ztab. intros. apply slen_lanes. Qed.
Lemma shape_vuninit2 : forall j j' t t' n m, Forall2 (Forall2 slen) (vuninit2 j t n m) (vuninit2 j' t' n m).
Proof. intros. apply Forall2_ztab. intros. apply shape_vuninit. Qed.
Lemma shape_vuninit3 : forall j j' t t' n m, Forall2 (Forall2 (Forall2 slen)) (vuninit3 j t n m) (vuninit3 j' t' n m).
Proof. intros. apply Forall2_ztab. intros. apply shape_vuninit2. Qed.
Lemma vop_sh : (forall x y x' y', slen (vadd x y) (vadd x' y')) /\ (forall x y x' y', slen (vsub x y) (vsub x' y')) /\
  (forall x y x' y', slen (vand x y) (vand x' y')) /\ (forall x y x' y', slen (vxor x y) (vxor x' y')) /\
  (forall x x' n, slen (vsll x n) (vsll x' n)) /\ (forall x x' n, slen (vsrl x n) (vsrl x' n)).
Proof. repeat split; intros; apply slen_lanes. Qed.
Definition vadd_sh := proj1 vop_sh.
Definition vsub_sh := proj1 (proj2 vop_sh).
Definition vand_sh := proj1 (proj2 (proj2 vop_sh)).
Definition vxor_sh := proj1 (proj2 (proj2 (proj2 vop_sh))).
Definition vsll_sh := proj1 (proj2 (proj2 (proj2 (proj2 vop_sh)))).
Definition vsrl_sh := proj2 (proj2 (proj2 (proj2 (proj2 vop_sh)))).
#[export] Hint Resolve slen_lanes shape_vuninit shape_vuninit2 shape_vuninit3 vadd_sh vsub_sh vand_sh vxor_sh vsll_sh vsrl_sh : ct.
Create HintDb vctf discriminated.
#[export] Hint Constants Opaque : vctf.
#[export] Hint Resolve ct_verify ct_cmov ct_POLT2BS ct_BS2POLT ct_POLVECq2BS ct_BS2POLVECq ct_POLVECp2BS ct_BS2POLVECp ct_load : vctf.

Ltac vopen := unfold sh_l4 in * |-; open_shapes; unfold sh_l4, sh_l3, sh_l2, sh_l1 in * |-.
Ltac vlist := repeat first [apply Forall2_cons | apply Forall2_nil | apply Forall2_app | apply F2_skip | apply F2_first]; auto with ct.
Ltac vleaf := repeat first [apply sh_pair | apply sh_Var | apply sh_slen | apply sh_slen2 | apply sh_slen3 | apply sh_slen4 | exact I]; vlist.
Ltac vstep :=
  lazymatch goal with
  | |- ct _ (let _ := _ in _) _ => cbn zeta
  | |- ct _ (vat _ _ _) (vat _ _ _) => apply vat_sh; [auto 12 with ct|intros; vopen]
  | |- ct _ (bind _ _) (bind _ _) => eapply ct_bind_sh; [|intros; vopen]
  | |- ct _ (for_ _ _ _ _) (for_ _ _ _ _) => apply ct_for_sh; [try solve [vleaf]|intros; vopen]
  | |- ct _ (ret _) (ret _) => apply ct_ret; try solve [vleaf]
  | |- ct _ (row _ _) (row _ _) => first [apply row_Z; solve [auto with ct] | apply row_ZZ; solve [auto with ct] | apply row_l4; solve [auto with ct]]
  | |- ct _ (setrow _ _ _) (setrow _ _ _) => first [apply setrow_Z; solve [auto with ct] | apply setrow_ZZ; solve [auto with ct] | apply setrow_l4; solve [auto with ct]]
  | |- ct _ (vrun _ _) (vrun _ _) => apply vrun_sh; vlist
  | |- ct _ (vptr _ _) (vptr _ _) => apply vptr_sh; auto with ct
  | |- ct _ (arr_of _ _) (arr_of _ _) => apply arr_of_sh; auto with ct
  | |- ct _ (loadu _ _) (loadu _ _) => apply loadu_sh; auto with ct
  | |- ct _ (storeu _ _ _) (storeu _ _ _) => apply storeu_sh; auto with ct
  | |- ct _ (ite _ _ _) (ite _ _ _) => apply ct_ite_sh
  | |- ct _ (asg _ _) (asg _ _) => ct_step
  | |- ct _ (st _ _ _ _) (st _ _ _ _) => ct_step
  | |- ct _ (sts _ _ _ _) (sts _ _ _ _) => ct_step
  | |- ct _ (ptr _ _) (ptr _ _) => ct_step
  | |- ct _ (at_ _ _ _) (at_ _ _ _) => ct_step
  | |- ct _ _ _ => solve [eauto with vctf ct]
  end.
Ltac vtt := repeat vstep.

(** ** The multiplication *)
Lemma ct_load_values : forall j j', ct (@shape _ sh_l2) (load_values j) (load_values j').
Proof. intros. unfold load_values. vtt. Qed.
Lemma ct_transpose : forall m m', Forall2 slen m m' -> ct (@shape _ sh_l2) (transpose_n1 m) (transpose_n1 m').
Proof. intros. unfold transpose_n1. vtt. Qed.
#[export] Hint Resolve ct_load_values ct_transpose : vctf.
Lemma ct_school2 : forall a a' b b' c c', Forall2 slen a a' -> Forall2 slen b b' -> Forall2 slen c c' ->
  ct (@shape _ sh_l2) (schoolbook_avx_new2 a b c) (schoolbook_avx_new2 a' b' c').
Proof. intros. unfold schoolbook_avx_new2. vtt. Qed.
Lemma ct_school3 : forall a a' b b' c c', Forall2 slen a a' -> Forall2 slen b b' -> Forall2 slen c c' ->
  ct (@shape _ sh_l2) (schoolbook_avx_new3_acc a b c) (schoolbook_avx_new3_acc a' b' c').
Proof. intros. unfold schoolbook_avx_new3_acc. vtt. Qed.
#[export] Hint Resolve ct_school2 ct_school3 : vctf.
Lemma ct_batch : forall j j' a a' b b' c c' f, Forall2 slen a a' -> Forall2 slen b b' -> Forall2 slen c c' ->
  ct (@shape _ sh_l2) (batch_64coefficient_multiplications_new j a b c f) (batch_64coefficient_multiplications_new j' a' b' c' f).
Proof. intros. unfold batch_64coefficient_multiplications_new. cbn zeta. vtt. Qed.
Lemma ct_KARA_eval : forall b b' c c', Forall2 slen b b' -> Forall2 slen c c' -> ct (@shape _ sh_l2) (KARA_eval b c) (KARA_eval b' c').
Proof. intros. unfold KARA_eval. vtt. Qed.
#[export] Hint Resolve ct_batch ct_KARA_eval : vctf.
Lemma ct_toom_n1 : forall j j' a a' b b' c c' f, Forall2 slen a a' -> Forall2 slen b b' -> Forall2 slen c c' ->
  ct (@shape _ sh_l2) (toom_cook_4way_avx_n1 j a b c f) (toom_cook_4way_avx_n1 j' a' b' c' f).
Proof. intros. unfold toom_cook_4way_avx_n1. cbn zeta. vtt. Qed.
Lemma ct_TC_eval : forall j j' b b' c c', Forall2 slen b b' -> Forall2 slen c c' -> ct (@shape _ sh_l2) (TC_eval j b c) (TC_eval j' b' c').
Proof. intros. unfold TC_eval. cbn zeta. vtt. Qed.
Lemma ct_TC_interpol : forall j j' g g' c c' r r', Forall2 slen g g' -> Forall2 slen c c' -> Forall2 slen r r' ->
  ct shape (TC_interpol j g c r) (TC_interpol j' g' c' r').
Proof. intros. unfold TC_interpol. cbn zeta. vtt. Qed.
#[export] Hint Resolve ct_toom_n1 ct_TC_eval ct_TC_interpol : vctf.
Lemma ct_matrix_vector_mul : forall j j' n g g' a a' b b' r r' t, Forall2 slen g g' -> Forall2 (Forall2 (Forall2 slen)) a a' -> Forall2 (Forall2 slen) b b' ->
  Forall2 (Forall2 slen) r r' -> ct (@shape _ sh_l3) (matrix_vector_mul j n g a b r t) (matrix_vector_mul j' n g' a' b' r' t).
Proof. intros. unfold matrix_vector_mul. cbn zeta. vtt. Qed.
Lemma ct_vector_vector_mul : forall j j' n g g' a a' b b' r r', Forall2 slen g g' -> Forall2 (Forall2 slen) a a' -> Forall2 (Forall2 slen) b b' ->
  Forall2 slen r r' -> ct (@shape _ sh_l2) (vector_vector_mul j n g a b r) (vector_vector_mul j' n g' a' b' r').
Proof. intros. unfold vector_vector_mul. cbn zeta. vtt. Qed.
Lemma ct_eval_buckets : forall j j' n a a' b b', Forall2 (Forall2 slen) a a' -> Forall2 (Forall2 slen) b b' ->
  ct (@shape _ sh_l3) (eval_buckets j n a b) (eval_buckets j' n a' b').
Proof. intros. unfold eval_buckets. vtt. Qed.
#[export] Hint Resolve ct_matrix_vector_mul ct_vector_vector_mul ct_eval_buckets : vctf.

(** ** The rest of SABER_indcpa.c, cbd.c *)
Lemma ct_avx_cbd : forall c s s' b b', slen s s' -> slen b b' -> ct (@shape _ sh_l1) (avx_cbd c s b) (avx_cbd c s' b').
Proof. intros. unfold avx_cbd, avx_cbd_6, avx_cbd_8, avx_cbd_10. destruct (lvl c); vtt. Qed.
Lemma ct_load_poly : forall s s' v v', slen s s' -> Forall2 slen v v' -> ct (@shape _ sh_l2) (load_poly s v) (load_poly s' v').
Proof. intros. unfold load_poly. vtt. Qed.
#[export] Hint Resolve ct_avx_cbd ct_load_poly : vctf.
Lemma ct_load_polys : forall n s s' v v', Forall2 slen s s' -> Forall2 (Forall2 slen) v v' -> ct (@shape _ sh_l3) (load_polys n s v) (load_polys n s' v').
Proof. intros. unfold load_polys. vtt. Qed.
#[export] Hint Resolve ct_load_polys : vctf.
Lemma ct_load_matrix : forall n s s' v v', Forall2 (Forall2 slen) s s' -> Forall2 (Forall2 (Forall2 slen)) v v' ->
  ct (@shape _ sh_l4) (load_matrix n s v) (load_matrix n s' v').
Proof. intros. unfold load_matrix. vtt. Qed.
Lemma ct_store_poly : forall v v' s s', Forall2 slen v v' -> slen s s' -> ct (@shape _ sh_l1) (store_poly v s) (store_poly v' s').
Proof. intros. unfold store_poly. vtt. Qed.
#[export] Hint Resolve ct_load_matrix ct_store_poly : vctf.
Lemma ct_store_polys : forall n v v' s s', Forall2 (Forall2 slen) v v' -> Forall2 slen s s' -> ct (@shape _ sh_l2) (store_polys n v s) (store_polys n v' s').
Proof. intros. unfold store_polys. vtt. Qed.
Lemma ct_avx_round : forall n v v', Forall2 (Forall2 slen) v v' -> ct (@shape _ sh_l3) (avx_round n v) (avx_round n v').
Proof. intros. unfold avx_round. cbn zeta. vtt. Qed.
Lemma ct_POL2MSG : forall m m' d d', slen d d' -> ct (@shape _ sh_l1) (POL2MSG m d) (POL2MSG m' d').
Proof. intros. unfold POL2MSG. vtt. Qed.
Lemma ct_BS2POLq_13 : forall b b' d d', slen d d' -> ct (@shape _ sh_l1) (BS2POLq_13 b d) (BS2POLq_13 b' d').
Proof. intros. unfold BS2POLq_13. vtt. Qed.
#[export] Hint Resolve ct_store_polys ct_avx_round ct_POL2MSG ct_BS2POLq_13 : vctf.

Section Avx.
  Variable prf : mem -> list Z -> Z -> list Z -> Z -> M (list Z).
  Hypothesis Hp : ct_prf prf.
  Lemma vprf_sh : forall j j' out out' n inp inp' m, slen out out' -> slen inp inp' ->
    ct (@shape _ sh_l1) (prf j out n inp m) (prf j' out' n inp' m).
  Proof. exact Hp. Qed.
  Hint Resolve vprf_sh : vctf.

  Lemma ct_avx_GenMatrix : forall j j' c A A' s s', Forall2 (Forall2 slen) A A' -> slen s s' ->
    ct (@shape _ sh_l3) (avx_GenMatrix prf j c A s) (avx_GenMatrix prf j' c A' s').
  Proof. intros. unfold avx_GenMatrix. cbn zeta. vtt. Qed.
  Lemma ct_avx_GenSecret : forall j j' c s s' x x', Forall2 slen s s' -> slen x x' ->
    ct (@shape _ sh_l2) (avx_GenSecret prf j c s x) (avx_GenSecret prf j' c s' x').
  Proof. intros. unfold avx_GenSecret. cbn zeta. vtt. Qed.
  Hint Resolve ct_avx_GenMatrix ct_avx_GenSecret : vctf.

  Context {S : Type}.
  Variable rb : S -> Z -> list Z * S.
  Hypothesis Hrb : forall st n, 0 <= n -> arr U8 n (fst (rb st n)).
  Instance vsh_S : Shape S := fun _ _ => True.
  Lemma vct_randombytes : forall st st' o o' n, slen o o' -> ct shape (randombytes rb st o n) (randombytes rb st' o' n).
  Proof. intros. now apply ct_randombytes. Qed.
  Hint Resolve vct_randombytes : vctf.
  Hint Extern 1 (shape _ _) => exact I : ct.

  Lemma ct_avx_indcpa_keypair : forall j j' c st st' pk pk' sk sk', slen pk pk' -> slen sk sk' ->
    ct shape (avx_indcpa_kem_keypair prf rb j c st pk sk) (avx_indcpa_kem_keypair prf rb j' c st' pk' sk').
  Proof. intros. unfold avx_indcpa_kem_keypair. cbn zeta. vtt. Qed.
  Lemma ct_avx_indcpa_enc : forall j j' c m m' r r' pk pk' ct0 ct0', slen m m' -> slen r r' -> slen pk pk' -> slen ct0 ct0' ->
    ct (@shape _ sh_l1) (avx_indcpa_kem_enc prf j c m r pk ct0) (avx_indcpa_kem_enc prf j' c m' r' pk' ct0').
  Proof. intros. unfold avx_indcpa_kem_enc. cbn zeta. vtt. Qed.
  Lemma ct_avx_indcpa_dec : forall j j' c sk sk' ct0 ct0' m m', slen sk sk' -> slen ct0 ct0' -> slen m m' ->
    ct (@shape _ sh_l1) (avx_indcpa_kem_dec j c sk ct0 m) (avx_indcpa_kem_dec j' c sk' ct0' m').
  Proof. intros. unfold avx_indcpa_kem_dec. cbn zeta. vtt. Qed.
  Hint Resolve ct_avx_indcpa_keypair ct_avx_indcpa_enc ct_avx_indcpa_dec : vctf.

  Variable hash_h hash_g : mem -> list Z -> list Z -> Z -> M (list Z).
  Hypothesis Hh : ct_hash hash_h.
  Hypothesis Hg : ct_hash hash_g.
  Lemma vhash_h_sh : forall j j' out out' inp inp' n, slen out out' -> slen inp inp' ->
    ct (@shape _ sh_l1) (hash_h j out inp n) (hash_h j' out' inp' n).
  Proof. exact Hh. Qed.
  Lemma vhash_g_sh : forall j j' out out' inp inp' n, slen out out' -> slen inp inp' ->
    ct (@shape _ sh_l1) (hash_g j out inp n) (hash_g j' out' inp' n).
  Proof. exact Hg. Qed.
  Hint Resolve vhash_h_sh vhash_g_sh : vctf.

  Lemma ct_avx_kem_keypair : forall j j' c st st' pk pk' sk sk', slen pk pk' -> slen sk sk' ->
    ct shape (avx_kem_keypair prf rb hash_h j c st pk sk) (avx_kem_keypair prf rb hash_h j' c st' pk' sk').
  Proof. intros. unfold avx_kem_keypair. cbn zeta. vtt. Qed.
  Lemma ct_avx_kem_enc : forall j j' cf st st' c c' k k' pk pk', slen c c' -> slen k k' -> slen pk pk' ->
    ct shape (avx_kem_enc prf rb hash_h hash_g j cf st c k pk) (avx_kem_enc prf rb hash_h hash_g j' cf st' c' k' pk').
  Proof. intros. unfold avx_kem_enc. cbn zeta. vtt. Qed.
  Lemma ct_avx_kem_dec : forall j j' cf k k' c c' sk sk', slen k k' -> slen c c' -> slen sk sk' ->
    ct shape (avx_kem_dec prf hash_h hash_g j cf k c sk) (avx_kem_dec prf hash_h hash_g j' cf k' c' sk').
  Proof. intros. unfold avx_kem_dec. cbn zeta. vtt. Qed.
End Avx.
