(** Traces of the KEM: two runs on inputs of the same shape have the same trace. *)
From Coq Require Import ZArith List Bool Lia.
From Verif Require Import Lib.Arr Lib.CInt Lib.CMon Model.Params Model.Pack Model.Verify Model.Cbd Model.PolyMul Model.Poly
  Model.Indcpa Model.Kem.
Import ListNotations.
Local Open Scope Z_scope.

(** Values of the same shape: arrays of equal lengths. *)
Class Shape (A : Type) := shape : A -> A -> Prop.
#[export] Instance sh_Z : Shape Z := fun _ _ => True.
#[export] Instance sh_cexp : Shape cexp := svar.
#[export] Instance sh_l1 : Shape (list Z) := slen.
#[export] Instance sh_l2 : Shape (list (list Z)) := Forall2 slen.
#[export] Instance sh_l3 : Shape (list (list (list Z))) := Forall2 (Forall2 slen).
#[export] Instance sh_prod {A B} `{Shape A} `{Shape B} : Shape (A * B) :=
  fun p q => shape (fst p) (fst q) /\ shape (snd p) (snd q).
#[export] Instance sh_kst : Shape kst := fun p q => slen (k_rf p) (k_rf q) /\ slen (k_d01 p) (k_d01 q) /\
  slen (k_d0123 p) (k_d0123 q) /\ slen (k_d23 p) (k_d23 q) /\ slen (k_rd p) (k_rd q).
#[export] Instance sh_evs : Shape evs := fun p q => slen (e1 p) (e1 q) /\ slen (e2 p) (e2 q) /\ slen (e3 p) (e3 q) /\
  slen (e4 p) (e4 q) /\ slen (e5 p) (e5 q) /\ slen (e6 p) (e6 q) /\ slen (e7 p) (e7 q).

Lemma ct_bind_sh : forall A B `{Shape A} `{Shape B} (m1 m2 : M A) (f1 f2 : A -> M B),
  ct shape m1 m2 -> (forall a b, shape a b -> ct shape (f1 a) (f2 b)) -> ct shape (bind m1 f1) (bind m2 f2).
Proof. intros. eapply ct_bind; eauto. Qed.

Lemma ct_for_sh : forall A `{Shape A} lo hi (f g : Z -> A -> M A) s s',
  shape s s' -> (forall i a b, shape a b -> ct shape (f i a) (g i b)) ->
  ct shape (for_ lo hi f s) (for_ lo hi g s').
Proof. intros. apply ct_for; auto. Qed.

Lemma ct_ite_sh : forall A `{Shape A} b (m1 m2 n1 n2 : M A),
  ct shape m1 n1 -> ct shape m2 n2 -> ct shape (ite b m1 m2) (ite b n1 n2).
Proof. intros. apply ct_ite; auto. Qed.

Lemma ct_at_sh : forall (a b : list Z) off f g, slen a b ->
  (forall v w : list Z, shape v w -> ct shape (f v) (g w)) -> ct (@shape _ sh_l1) (at_ a off f) (at_ b off g).
Proof. intros. apply ct_at; auto. Qed.

Lemma slen_uninit : forall j j' t t' n, slen (uninit j t n) (uninit j' t' n).
Proof. intros. unfold slen, uninit, ztab. now rewrite !map_length. Qed.
Lemma slen_uninit8 : forall j j' t t' n, slen (uninit8 j t n) (uninit8 j' t' n).
Proof. intros. unfold slen, uninit8, ztab. now rewrite !map_length. Qed.
Lemma slen_zeros : forall n, slen (zeros n) (zeros n).
Proof. reflexivity. Qed.
Lemma slen_refl : forall (a : list Z), slen a a.
Proof. reflexivity. Qed.
Lemma Forall2_ztab : forall A B (R : A -> B -> Prop) n f g, (forall i, R (f i) (g i)) -> Forall2 R (ztab n f) (ztab n g).
Proof.
  intros A B R n f g H. unfold ztab. generalize (seq 0 (Z.to_nat n)). induction l; cbn; constructor; auto.
Qed.
Lemma shape_uninit2 : forall j j' t t' n, Forall2 slen (uninit2 j t n) (uninit2 j' t' n).
Proof. intros. apply Forall2_ztab. intros. apply slen_uninit. Qed.
Lemma shape_uninit3 : forall j j' t t' n, Forall2 (Forall2 slen) (uninit3 j t n) (uninit3 j' t' n).
Proof. intros. apply Forall2_ztab. intros. apply shape_uninit2. Qed.
Lemma shape_zeros2 : forall n, Forall2 slen (zeros2 n) (zeros2 n).
Proof. intros. apply Forall2_ztab. reflexivity. Qed.
#[export] Hint Resolve slen_uninit slen_uninit8 slen_zeros slen_refl shape_uninit2 shape_uninit3 shape_zeros2 : ct.

Lemma row_Z : forall (a b : list (list Z)) i, Forall2 slen a b -> ct (@shape _ sh_l1) (row a i) (row b i).
Proof. intros. now apply ct_row. Qed.
Lemma row_ZZ : forall (a b : list (list (list Z))) i, Forall2 (Forall2 slen) a b -> ct (@shape _ sh_l2) (row a i) (row b i).
Proof. intros. now apply ct_row. Qed.
Lemma setrow_Z : forall (a b : list (list Z)) i r s, Forall2 slen a b -> slen r s -> ct (@shape _ sh_l2) (setrow a i r) (setrow b i s).
Proof. intros. now apply ct_setrow. Qed.
Lemma setrow_ZZ : forall (a b : list (list (list Z))) i r s, Forall2 (Forall2 slen) a b -> Forall2 slen r s ->
  ct (@shape _ sh_l3) (setrow a i r) (setrow b i s).
Proof. intros. now apply ct_setrow. Qed.

Ltac unsh := unfold shape, sh_Z, sh_cexp, sh_l1, sh_l2, sh_l3, sh_prod, sh_kst, sh_evs, shape in * |-.
Ltac open_shapes :=
  unsh;
  repeat match goal with
  | H : svar _ _ |- _ => destruct H as (? & ? & ? & ? & -> & ->)
  | H : _ /\ _ |- _ => destruct H
  | x : _ * _ |- _ => destruct x
  | x : kst |- _ => destruct x
  | x : evs |- _ => destruct x
  end;
  cbn [fst snd k_rf k_d01 k_d0123 k_d23 k_rd e1 e2 e3 e4 e5 e6 e7] in *;
  repeat match goal with H : svar _ _ |- _ => destruct H as (? & ? & ? & ? & -> & ->) end.

Ltac sim_tac := repeat constructor; auto.

Create HintDb ctf.

Lemma svar_Var : forall t z t' z', svar (Var t z) (Var t' z').
Proof. intros. red. eauto 8. Qed.
#[export] Hint Resolve svar_Var : ct.

Lemma sh_Var : forall t z t' z', @shape _ sh_cexp (Var t z) (Var t' z').
Proof. intros. apply svar_Var. Qed.
Lemma sh_slen : forall a b, slen a b -> @shape _ sh_l1 a b.
Proof. auto. Qed.
Lemma sh_slen2 : forall a b, Forall2 slen a b -> @shape _ sh_l2 a b.
Proof. auto. Qed.
Lemma sh_slen3 : forall a b, Forall2 (Forall2 slen) a b -> @shape _ sh_l3 a b.
Proof. auto. Qed.
Lemma sh_pair : forall A B `{Shape A} `{Shape B} (a a' : A) (b b' : B), shape a a' -> shape b b' -> shape (a, b) (a', b').
Proof. intros. split; auto. Qed.
Ltac leaf := repeat first [apply sh_pair | apply sh_Var | apply sh_slen | apply sh_slen2 | apply sh_slen3 | exact I];
  try (hnf; cbn [fst snd k_rf k_d01 k_d0123 k_d23 k_rd e1 e2 e3 e4 e5 e6 e7]; repeat match goal with |- _ /\ _ => split end); auto with ct.

Ltac ct_step :=
  lazymatch goal with
  | |- ct _ (bind _ _) (bind _ _) => eapply ct_bind_sh; [|intros; open_shapes]
  | |- ct _ (for_ _ _ _ _) (for_ _ _ _ _) => apply ct_for_sh; [try solve [leaf]|intros; open_shapes]
  | |- ct _ (ite _ _ _) (ite _ _ _) => apply ct_ite_sh
  | |- ct _ (ret _) (ret _) => apply ct_ret; try solve [leaf]
  | |- ct _ (asg _ _) (asg _ _) => apply ct_asg; solve [sim_tac]
  | |- ct _ (st _ _ _ _) (st _ _ _ _) => apply ct_st; [solve [sim_tac]|auto with ct]
  | |- ct _ (sts _ _ _ _) (sts _ _ _ _) => apply ct_sts; [solve [sim_tac]|auto with ct]
  | |- ct _ (add_st _ _ _) (add_st _ _ _) => unfold add_st
  | |- ct _ (ptr _ _) (ptr _ _) => apply ct_ptr; auto with ct
  | |- ct _ (at_ _ _ _) (at_ _ _ _) => apply ct_at_sh; [auto with ct|intros; open_shapes]
  | |- ct _ (memset _ _ _) (memset _ _ _) => apply ct_memset; auto with ct
  | |- ct _ (memcpy _ _ _) (memcpy _ _ _) => apply ct_memcpy; auto with ct
  | |- ct _ (row _ _) (row _ _) => first [apply row_Z; solve [auto with ct] | apply row_ZZ; solve [auto with ct]]
  | |- ct _ (setrow _ _ _) (setrow _ _ _) => first [apply setrow_Z; solve [auto with ct] | apply setrow_ZZ; solve [auto with ct]]
  | |- ct _ _ _ => solve [eauto with ctf ct]
  end.
Ltac ctt := repeat ct_step.

(** ** verify.c *)
Lemma ct_verify : forall a a' b b' n, ct shape (verify a b n) (verify a' b' n).
Proof. intros. unfold verify. ctt. Qed.
Lemma ct_cmov : forall r r' x x' n b b', slen r r' -> svar b b' -> ct shape (cmov r x n b) (cmov r' x' n b').
Proof. intros. unfold cmov. open_shapes. ctt. Qed.

(** ** pack_unpack.c *)
Lemma ct_POLT2BS : forall c b b' d d', slen b b' -> ct shape (POLT2BS c b d) (POLT2BS c b' d').
Proof. intros. unfold POLT2BS, POLT2BS_3, POLT2BS_4, POLT2BS_6. destruct (lvl c); ctt. Qed.
Lemma ct_BS2POLT : forall c b b' d d', slen d d' -> ct shape (BS2POLT c b d) (BS2POLT c b' d').
Proof. intros. unfold BS2POLT, BS2POLT_3, BS2POLT_4, BS2POLT_6. destruct (lvl c); ctt. Qed.
Lemma ct_POLq2BS : forall c b b' d d', slen b b' -> ct shape (POLq2BS c b d) (POLq2BS c b' d').
Proof. intros. unfold POLq2BS, POLq2BS_12, POLq2BS_13. destruct (usaber c); ctt. Qed.
Lemma ct_BS2POLq : forall c b b' d d', slen d d' -> ct shape (BS2POLq c b d) (BS2POLq c b' d').
Proof. intros. unfold BS2POLq, BS2POLq_12, BS2POLq_13. destruct (usaber c); ctt. Qed.
Lemma ct_POLp2BS : forall b b' d d', slen b b' -> ct shape (POLp2BS b d) (POLp2BS b' d').
Proof. intros. unfold POLp2BS. ctt. Qed.
Lemma ct_BS2POLp : forall b b' d d', slen d d' -> ct shape (BS2POLp b d) (BS2POLp b' d').
Proof. intros. unfold BS2POLp. ctt. Qed.
#[export] Hint Resolve ct_verify ct_cmov ct_POLT2BS ct_BS2POLT ct_POLq2BS ct_BS2POLq ct_POLp2BS ct_BS2POLp : ctf.
Lemma ct_POLVECq2BS : forall c b b' d d', slen b b' -> Forall2 slen d d' -> ct shape (POLVECq2BS c b d) (POLVECq2BS c b' d').
Proof. intros. unfold POLVECq2BS. ctt. Qed.
Lemma ct_BS2POLVECq : forall c b b' d d', slen b b' -> Forall2 slen d d' -> ct shape (BS2POLVECq c b d) (BS2POLVECq c b' d').
Proof. intros. unfold BS2POLVECq. ctt. Qed.
Lemma ct_POLVECp2BS : forall c b b' d d', slen b b' -> Forall2 slen d d' -> ct shape (POLVECp2BS c b d) (POLVECp2BS c b' d').
Proof. intros. unfold POLVECp2BS. ctt. Qed.
Lemma ct_BS2POLVECp : forall c b b' d d', slen b b' -> Forall2 slen d d' -> ct shape (BS2POLVECp c b d) (BS2POLVECp c b' d').
Proof. intros. unfold BS2POLVECp. ctt. Qed.
Lemma ct_BS2POLmsg : forall b b' d d', slen d d' -> ct shape (BS2POLmsg b d) (BS2POLmsg b' d').
Proof. intros. unfold BS2POLmsg. ctt. Qed.
Lemma ct_POLmsg2BS : forall b b' d d', slen b b' -> ct shape (POLmsg2BS b d) (POLmsg2BS b' d').
Proof. intros. unfold POLmsg2BS. ctt. Qed.
#[export] Hint Resolve ct_POLVECq2BS ct_BS2POLVECq ct_POLVECp2BS ct_BS2POLVECp ct_BS2POLmsg ct_POLmsg2BS : ctf.

(** ** cbd.c *)
Lemma ct_load : forall x x' n, ct shape (load_littleendian x n) (load_littleendian x' n).
Proof. intros. unfold load_littleendian. ctt. Qed.
#[export] Hint Resolve ct_load : ctf.
Lemma ct_cbd : forall c s s' b b', slen s s' -> slen b b' -> ct shape (cbd c s b) (cbd c s' b').
Proof. intros. unfold cbd, cbd_6, cbd_8, cbd_10. destruct (lvl c); ctt. Qed.
Lemma ct_uni : forall s s' b b', slen s s' -> ct shape (uni s b) (uni s' b').
Proof. intros. unfold uni. ctt. Qed.

(** ** poly_mul.c *)
Lemma ct_karatsuba : forall j j' a a' b b' r r', slen r r' ->
  ct shape (karatsuba_simple j a b r) (karatsuba_simple j' a' b' r').
Proof. intros. unfold karatsuba_simple, kara_outer, kara_inner, OVERFLOWING_MUL. ctt. Qed.
#[export] Hint Resolve ct_cbd ct_uni ct_karatsuba : ctf.
Lemma ct_toom : forall j j' a a' b b' r r', slen a a' -> slen b b' -> slen r r' ->
  ct shape (toom_cook_4way j a b r) (toom_cook_4way j' a' b' r').
Proof. intros. unfold toom_cook_4way, toom_eval, toom_interp. cbn zeta. ctt. Qed.
#[export] Hint Resolve ct_toom : ctf.
Lemma ct_poly_mul_acc : forall j j' a a' b b' r r', slen a a' -> slen b b' -> slen r r' ->
  ct shape (poly_mul_acc j a b r) (poly_mul_acc j' a' b' r').
Proof. intros. unfold poly_mul_acc. ctt. Qed.
#[export] Hint Resolve ct_poly_mul_acc : ctf.

(** ** poly.c *)
Lemma ct_MatrixVectorMul : forall j j' c A A' s s' r r' t, Forall2 (Forall2 slen) A A' -> Forall2 slen s s' -> Forall2 slen r r' ->
  ct shape (MatrixVectorMul j c A s r t) (MatrixVectorMul j' c A' s' r' t).
Proof. intros. unfold MatrixVectorMul. ctt. Qed.
Lemma ct_InnerProd : forall j j' c b b' s s' r r', Forall2 slen b b' -> Forall2 slen s s' -> slen r r' ->
  ct shape (InnerProd j c b s r) (InnerProd j' c b' s' r').
Proof. intros. unfold InnerProd. ctt. Qed.
#[export] Hint Resolve ct_MatrixVectorMul ct_InnerProd : ctf.

Definition ct_prf (prf : mem -> list Z -> Z -> list Z -> Z -> M (list Z)) : Prop :=
  forall j j' out out' n inp inp' m, slen out out' -> slen inp inp' -> ct slen (prf j out n inp m) (prf j' out' n inp' m).
Definition ct_hash (h : mem -> list Z -> list Z -> Z -> M (list Z)) : Prop :=
  forall j j' out out' inp inp' n, slen out out' -> slen inp inp' -> ct slen (h j out inp n) (h j' out' inp' n).

Section Gen.
  Variable prf : mem -> list Z -> Z -> list Z -> Z -> M (list Z).
  Hypothesis Hp : ct_prf prf.
  Lemma prf_sh : forall j j' out out' n inp inp' m, slen out out' -> slen inp inp' ->
    ct shape (prf j out n inp m) (prf j' out' n inp' m).
  Proof. exact Hp. Qed.
  Hint Resolve prf_sh : ctf.

  Lemma ct_GenMatrix : forall j j' c A A' s s', Forall2 (Forall2 slen) A A' -> slen s s' ->
    ct shape (GenMatrix prf j c A s) (GenMatrix prf j' c A' s').
  Proof. intros. unfold GenMatrix. ctt. Qed.
  Lemma ct_GenSecret : forall j j' c s s' x x', Forall2 slen s s' -> slen x x' ->
    ct shape (GenSecret prf j c s x) (GenSecret prf j' c s' x').
  Proof. intros. unfold GenSecret. destruct (usaber c); ctt. Qed.
  Hint Resolve ct_GenMatrix ct_GenSecret : ctf.

  Context {S : Type}.
  Variable rb : S -> Z -> list Z * S.
  Hypothesis Hrb : forall st n, 0 <= n -> arr U8 n (fst (rb st n)).
  Instance sh_S : Shape S := fun _ _ => True.

  Lemma ct_randombytes : forall st st' o o' n, slen o o' -> ct shape (randombytes rb st o n) (randombytes rb st' o' n).
  Proof.
    intros. unfold randombytes. unfold len. rewrite H. destruct ((0 <=? n) && (n <=? _)) eqn:E; [|apply ct_undef_l]. assert (0 <= n) by lia. apply ct_ret. split; [|exact I].
    hnf. cbn [fst]. rewrite !app_length. destruct (Hrb st n) as (L1 & _), (Hrb st' n) as (L2 & _); auto. unfold len in *.
    unfold zskip. rewrite !skipn_length, H. lia.
  Qed.
  Hint Resolve ct_randombytes : ctf.
  Hint Extern 1 (shape _ _) => exact I : ct.

  Lemma ct_round_loop : forall c b b', Forall2 slen b b' -> ct shape (round_loop c b) (round_loop c b').
  Proof. intros. unfold round_loop. ctt. Qed.
  Hint Resolve ct_round_loop : ctf.

  Lemma ct_indcpa_keypair : forall j j' c st st' pk pk' sk sk', slen pk pk' -> slen sk sk' ->
    ct shape (indcpa_kem_keypair prf rb j c st pk sk) (indcpa_kem_keypair prf rb j' c st' pk' sk').
  Proof.
    intros. unfold indcpa_kem_keypair. ctt.
  Qed.
  Lemma ct_indcpa_enc : forall j j' c m m' r r' pk pk' ct0 ct0', slen m m' -> slen r r' -> slen pk pk' -> slen ct0 ct0' ->
    ct shape (indcpa_kem_enc prf j c m r pk ct0) (indcpa_kem_enc prf j' c m' r' pk' ct0').
  Proof. intros. unfold indcpa_kem_enc. ctt. Qed.
  Lemma ct_indcpa_dec : forall j j' c sk sk' ct0 ct0' m m', slen sk sk' -> slen ct0 ct0' -> slen m m' ->
    ct shape (indcpa_kem_dec j c sk ct0 m) (indcpa_kem_dec j' c sk' ct0' m').
  Proof. intros. unfold indcpa_kem_dec. ctt. Qed.
  Hint Resolve ct_indcpa_keypair ct_indcpa_enc ct_indcpa_dec : ctf.

  Variable hash_h hash_g : mem -> list Z -> list Z -> Z -> M (list Z).
  Hypothesis Hh : ct_hash hash_h.
  Hypothesis Hg : ct_hash hash_g.
  Lemma hash_h_sh : forall j j' out out' inp inp' n, slen out out' -> slen inp inp' ->
    ct shape (hash_h j out inp n) (hash_h j' out' inp' n).
  Proof. exact Hh. Qed.
  Lemma hash_g_sh : forall j j' out out' inp inp' n, slen out out' -> slen inp inp' ->
    ct shape (hash_g j out inp n) (hash_g j' out' inp' n).
  Proof. exact Hg. Qed.
  Hint Resolve hash_h_sh hash_g_sh : ctf.

  Lemma ct_kem_keypair : forall j j' c st st' pk pk' sk sk', slen pk pk' -> slen sk sk' ->
    ct shape (crypto_kem_keypair hash_h prf rb j c st pk sk) (crypto_kem_keypair hash_h prf rb j' c st' pk' sk').
  Proof. intros. unfold crypto_kem_keypair. ctt. Qed.
  Lemma ct_kem_enc : forall j j' cf st st' c c' k k' pk pk', slen c c' -> slen k k' -> slen pk pk' ->
    ct shape (crypto_kem_enc hash_h hash_g prf rb j cf st c k pk) (crypto_kem_enc hash_h hash_g prf rb j' cf st' c' k' pk').
  Proof. intros. unfold crypto_kem_enc. ctt. Qed.
  Lemma ct_kem_dec : forall j j' cf k k' c c' sk sk', slen k k' -> slen c c' -> slen sk sk' ->
    ct shape (crypto_kem_dec hash_h hash_g prf j cf k c sk) (crypto_kem_dec hash_h hash_g prf j' cf k' c' sk').
  Proof. intros. unfold crypto_kem_dec. ctt. Qed.
End Gen.
