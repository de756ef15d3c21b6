(** Traces of the Cortex-M4 code: two runs on inputs of the same shape have the same trace. *)
From Coq Require Import ZArith List Bool Lia.
From Verif Require Import Model.Arm Model.ArmCode Lib.Arr Lib.CInt Lib.CMon Model.Params Model.Verify Model.Cbd Model.Indcpa Model.M4 Model.M4Mul Model.ArmTrace Proof.CtP Proof.M4MulP Proof.ArmTrThm.
Import ListNotations.
Local Open Scope Z_scope.

Create HintDb mctf discriminated.
#[export] Hint Constants Opaque : mctf.

(** A context of shake128: the position is the same in both runs. *)
Definition sctx (p q : list Z * Z) : Prop := slen (fst p) (fst q) /\ snd p = snd q /\ 0 <= snd p.
#[export] Instance sh_ctx : Shape (list Z * Z) | 0 := sctx.
Lemma sh_sctx : forall a b p, slen a b -> 0 <= p -> @shape _ sh_ctx (a, p) (b, p).
Proof. intros. split; [assumption|split; [reflexivity|assumption]]. Qed.
Lemma sh_sctx0 : forall p q, sctx p q -> @shape _ sh_ctx p q.
Proof. auto. Qed.

Ltac munsh := unfold shape, sh_ctx, sh_Z, sh_cexp, sh_l1, sh_l2, sh_l3, sh_prod, shape in * |-.
Ltac mopen :=
  munsh;
  repeat match goal with
  | H : _ /\ _ |- _ => destruct H
  | x : _ * _ |- _ => destruct x
  | x : shakectx |- _ => destruct x
  end;
  cbn [fst snd] in *; unfold sctx in * |-; cbn [fst snd] in *;
  repeat match goal with
  | H : svar _ _ |- _ => destruct H as (? & ? & ? & ? & -> & ->)
  | H : _ /\ _ |- _ => destruct H
  | H : @eq Z ?x ?y |- _ => is_var y; subst y
  end.
Ltac mleaf := repeat first [apply sh_sctx; [|first [assumption|lia]] | apply sh_pair | apply sh_Var | apply sh_slen | apply sh_slen2 | apply sh_slen3 | exact Logic.I]; auto with ct.
Ltac mstep :=
  lazymatch goal with
  | |- ct _ (let _ := _ in _) _ => cbn zeta
  | |- ct _ (bind _ _) (bind _ _) => eapply ct_bind_sh; [|intros; mopen]
  | |- ct _ (for_ _ _ _ _) (for_ _ _ _ _) => apply ct_for_sh; [try solve [mleaf]|intros; mopen]
  | |- ct _ (ret _) (ret _) => apply ct_ret; try solve [mleaf]
  | |- ct _ (row _ _) (row _ _) => first [apply row_Z; solve [auto with ct] | apply row_ZZ; solve [auto with ct]]
  | |- ct _ (setrow _ _ _) (setrow _ _ _) => first [apply setrow_Z; solve [auto with ct] | apply setrow_ZZ; solve [auto with ct]]
  | |- ct _ (ite _ _ _) (ite _ _ _) => apply ct_ite_sh
  | |- ct _ (asg _ _) (asg _ _) => apply ct_asg; solve [sim_tac]
  | |- ct _ (st _ _ _ _) (st _ _ _ _) => ct_step
  | |- ct _ (sts _ _ _ _) (sts _ _ _ _) => ct_step
  | |- ct _ (ptr _ _) (ptr _ _) => ct_step
  | |- ct _ (at_ _ _ _) (at_ _ _ _) => apply ct_at_sh; [auto with ct|intros; mopen]
  | |- ct _ (memset _ _ _) (memset _ _ _) => ct_step
  | |- ct _ (memcpy _ _ _) (memcpy _ _ _) => ct_step
  | |- ct _ _ _ => solve [eauto with mctf ct|eauto 16 with mctf ct]
  end.
Ltac mtt := repeat mstep.

(** ** pack_unpack.c, cbd.c, verify.c *)
Lemma ct_cmps : forall es es', sims es es' -> forall f f' b b' i, svar f f' -> ct (@shape _ sh_cexp) (cmps f b i es) (cmps f' b' i es').
Proof.
  induction 1; intros f f' b b' i Hf; cbn [cmps]; [now apply ct_ret|].
  eapply ct_bind_sh; [|intros; apply IHsims; assumption]. destruct Hf as (? & ? & ? & ? & -> & ->). apply ct_asg. repeat constructor; auto.
Qed.
Ltac pk := intros; mtt; apply ct_cmps; [solve [sim_tac]|apply svar_Var].
Lemma ct_m4_POLmsg2BS : forall b b' d d', slen b b' -> ct (@shape _ sh_l1) (m4_POLmsg2BS b d) (m4_POLmsg2BS b' d').
Proof. intros. unfold m4_POLmsg2BS. mtt. Qed.
Lemma ct_m4_POLp2BS : forall b b' d d', slen b b' -> ct (@shape _ sh_l1) (m4_POLp2BS b d) (m4_POLp2BS b' d').
Proof. intros. unfold m4_POLp2BS. mtt. Qed.
Lemma ct_m4_POLp2BS_cmp : forall b b' d d', ct (@shape _ sh_cexp) (m4_POLp2BS_cmp b d) (m4_POLp2BS_cmp b' d').
Proof. unfold m4_POLp2BS_cmp. pk. Qed.
Lemma ct_m4_POLq2BS : forall b b' d d', slen b b' -> ct (@shape _ sh_l1) (m4_POLq2BS b d) (m4_POLq2BS b' d').
Proof. intros. unfold m4_POLq2BS. mtt. Qed.
Lemma ct_m4_POLT2BS : forall l b b' d d', slen b b' -> ct (@shape _ sh_l1) (m4_POLT2BS l b d) (m4_POLT2BS l b' d').
Proof. intros. unfold m4_POLT2BS, m4_POLT2BS_3, m4_POLT2BS_4, m4_POLT2BS_6. destruct l; mtt. Qed.
Lemma ct_m4_POLT2BS_cmp : forall l b b' d d', ct (@shape _ sh_cexp) (m4_POLT2BS_cmp l b d) (m4_POLT2BS_cmp l b' d').
Proof. intros. unfold m4_POLT2BS_cmp, m4_POLT2BS_cmp_3, m4_POLT2BS_cmp_4, m4_POLT2BS_cmp_6. destruct l; pk. Qed.
Lemma ct_m4_BS2POLmsg : forall b b' d d', slen d d' -> ct (@shape _ sh_l1) (m4_BS2POLmsg b d) (m4_BS2POLmsg b' d').
Proof. intros. unfold m4_BS2POLmsg. mtt. Qed.
Lemma ct_m4_BS2POLp : forall b b' d d', slen d d' -> ct (@shape _ sh_l1) (m4_BS2POLp b d) (m4_BS2POLp b' d').
Proof. intros. unfold m4_BS2POLp. mtt. Qed.
Lemma ct_m4_BS2POLq : forall b b' d d', slen d d' -> ct (@shape _ sh_l1) (m4_BS2POLq b d) (m4_BS2POLq b' d').
Proof. intros. unfold m4_BS2POLq. mtt. Qed.
Lemma ct_m4_BS2POLT : forall l b b' d d', slen d d' -> ct (@shape _ sh_l1) (m4_BS2POLT l b d) (m4_BS2POLT l b' d').
Proof. intros. unfold m4_BS2POLT, m4_BS2POLT_3, m4_BS2POLT_4, m4_BS2POLT_6. destruct l; mtt. Qed.
Lemma ct_m4_POLmu2BS : forall cs b b' d d', slen b b' -> ct (@shape _ sh_l1) (m4_POLmu2BS cs b d) (m4_POLmu2BS cs b' d').
Proof. intros. unfold m4_POLmu2BS, m4_POLmu2BS_4. destruct cs; [mtt|now apply ct_m4_POLq2BS]. Qed.
Lemma ct_asg4 : forall e e', sim e e' -> ct sim (asg4 e) (asg4 e').
Proof. intros. unfold asg4. eapply ct_bind; [apply ct_ev; eassumption|]. intros. apply ct_ret. constructor. Qed.
Lemma ct_m4_BS2POLmu : forall cs b b' d d', slen d d' -> ct (@shape _ sh_l1) (m4_BS2POLmu cs b d) (m4_BS2POLmu cs b' d').
Proof.
  intros. unfold m4_BS2POLmu, m4_BS2POLmu_4. destruct cs; [|now apply ct_m4_BS2POLq]. mstep.
  eapply ct_bind; [apply ct_asg4; solve [sim_tac]|]. intros. eapply ct_bind; [apply ct_asg4; solve [sim_tac]|]. intros.
  apply ct_sts; [repeat constructor; auto|assumption].
Qed.
Lemma ct_m4_load32 : forall x x' n, ct (@shape _ sh_cexp) (m4_load32 x n) (m4_load32 x' n).
Proof. intros. unfold m4_load32. mtt. Qed.
#[export] Hint Resolve ct_m4_POLmsg2BS ct_m4_POLp2BS ct_m4_POLp2BS_cmp ct_m4_POLq2BS ct_m4_POLT2BS ct_m4_POLT2BS_cmp ct_m4_BS2POLmsg
  ct_m4_BS2POLp ct_m4_BS2POLq ct_m4_BS2POLT ct_m4_POLmu2BS ct_m4_BS2POLmu ct_m4_load32 ct_load ct_cmov : mctf.
Lemma ct_m4_cbd : forall l s s' b b', slen s s' -> slen b b' -> ct (@shape _ sh_l1) (m4_cbd l s b) (m4_cbd l s' b').
Proof. intros. unfold m4_cbd, cbd_10, m4_cbd_8, m4_cbd_6. destruct l; mtt. Qed.
#[export] Hint Resolve ct_m4_cbd : mctf.

Definition ct_mul (mul mul' : mem -> list Z -> list Z -> list Z -> M (list Z * list Z)) : Prop :=
  forall j j' a a' b b' r r', slen a a' -> slen b b' -> slen r r' -> ct (fun p q => slen (fst p) (fst q) /\ slen (snd p) (snd q)) (mul j a b r) (mul' j' a' b' r').

Section M4.
  Variable l : level.
  Variable cs : bool.
  Variable X : Z -> list Z -> list Z.
  Hypothesis LX : forall n x, 0 <= n -> len (X n x) = n.
  Variable prf : mem -> list Z -> Z -> list Z -> Z -> M (list Z).
  Hypothesis Hp : ct_prf prf.
  Variable mul mul' mul_acc mul_acc' : mem -> list Z -> list Z -> list Z -> M (list Z * list Z).
  Hypothesis Hm : ct_mul mul mul'.
  Hypothesis Ha : ct_mul mul_acc mul_acc'.
  Lemma mprf_sh : forall j j' out out' n inp inp' m, slen out out' -> slen inp inp' ->
    ct (@shape _ sh_l1) (prf j out n inp m) (prf j' out' n inp' m).
  Proof. exact Hp. Qed.
  Lemma mul_sh : forall j j' a a' b b' r r', slen a a' -> slen b b' -> slen r r' -> ct (@shape _ (@sh_prod _ _ sh_l1 sh_l1)) (mul j a b r) (mul' j' a' b' r').
  Proof. exact Hm. Qed.
  Lemma mul_acc_sh : forall j j' a a' b b' r r', slen a a' -> slen b b' -> slen r r' -> ct (@shape _ (@sh_prod _ _ sh_l1 sh_l1)) (mul_acc j a b r) (mul_acc' j' a' b' r').
  Proof. exact Ha. Qed.
  Hint Resolve mprf_sh mul_sh mul_acc_sh : mctf.

  Lemma ct_absorb : forall s s', slen s s' -> ct (@shape _ sh_ctx) (shake128_absorb_seed s) (shake128_absorb_seed s').
  Proof.
    intros s s' H. unfold shake128_absorb_seed, len. rewrite H. destruct (_ <=? _); [|apply ct_undef_l]. apply ct_ret. apply sh_sctx; [|lia].
    unfold slen, zfirst in *. rewrite !firstn_length. lia.
  Qed.
  Lemma ct_inc_squeeze : forall o o' n c c' p, slen o o' -> 0 <= n -> 0 <= p -> slen c c' ->
    ct (@shape _ (@sh_prod _ _ sh_l1 sh_ctx)) (inc_squeeze X o n (c, p)) (inc_squeeze X o' n (c', p)).
  Proof.
    intros o o' n c c' p Ho Hn Hp0 Hc. unfold inc_squeeze, len. rewrite Ho. destruct (_ <=? _); [|apply ct_undef_l]. apply ct_ret. cbn [fst snd].
    apply sh_pair; [|apply sh_sctx; [assumption|lia]]. apply sh_slen. pose proof (LX (p + n) c ltac:(lia)). pose proof (LX (p + n) c' ltac:(lia)).
    unfold slen, zskip, len in *. rewrite !app_length, !skipn_length. lia.
  Qed.
  Lemma ct_squeeze_poly : forall j j' a a' c c' p, slen a a' -> 0 <= p -> slen c c' ->
    ct (@shape _ (@sh_prod _ _ sh_l1 sh_ctx)) (shake128_squeeze_poly l X j a (c, p)) (shake128_squeeze_poly l X j' a' (c', p)).
  Proof.
    intros. unfold shake128_squeeze_poly. cbn zeta. eapply ct_bind_sh; [apply ct_inc_squeeze; auto with ct; destruct l; discriminate|]. intros; mopen. mtt.
  Qed.
  Lemma ct_squeeze_secret : forall j j' a a' c c' p, slen a a' -> 0 <= p -> slen c c' ->
    ct (@shape _ (@sh_prod _ _ sh_l1 sh_ctx)) (shake128_squeeze_secret l X j a (c, p)) (shake128_squeeze_secret l X j' a' (c', p)).
  Proof.
    intros. unfold shake128_squeeze_secret. cbn zeta. eapply ct_bind_sh; [apply ct_inc_squeeze; auto with ct; destruct l; discriminate|]. intros; mopen. mtt.
  Qed.
  Hint Extern 1 (ct _ (shake128_absorb_seed _) _) => apply ct_absorb : mctf.
  Hint Extern 1 (ct _ (shake128_squeeze_poly _ _ _ _ _) _) => apply ct_squeeze_poly : mctf.
  Hint Extern 1 (ct _ (shake128_squeeze_secret _ _ _ _ _) _) => apply ct_squeeze_secret : mctf.
  Lemma ct_POLVECmu : forall b b' d d', slen b b' -> Forall2 slen d d' -> ct (@shape _ sh_l1) (m4_POLVECmu2BS l cs b d) (m4_POLVECmu2BS l cs b' d').
  Proof. intros. unfold m4_POLVECmu2BS. mtt. Qed.
  Hint Resolve ct_POLVECmu : mctf.
  Lemma ct_m4_GenSecret : forall j j' s s' x x' kp, Forall2 slen s s' -> slen x x' ->
    ct (@shape _ (@sh_prod _ _ sh_l2 sh_l1)) (m4_GenSecret l cs prf j s x kp) (m4_GenSecret l cs prf j' s' x' kp).
  Proof. intros. unfold m4_GenSecret. cbn zeta. mtt. Qed.
  Lemma ct_m4_round : forall b b', slen b b' -> ct (@shape _ sh_l1) (m4_round l b) (m4_round l b').
  Proof. intros. unfold m4_round. mtt. Qed.
  Hint Resolve ct_m4_GenSecret ct_m4_round : mctf.
  Lemma ct_MVKeyPair : forall j j' pk pk' sk sk', slen pk pk' -> slen sk sk' ->
    ct (@shape _ (@sh_prod _ _ sh_l1 sh_l1)) (MatrixVectorMulKeyPair l cs X mul mul_acc j pk sk) (MatrixVectorMulKeyPair l cs X mul' mul_acc' j' pk' sk').
  Proof. intros. unfold MatrixVectorMulKeyPair. cbn zeta. mtt. Qed.
  Lemma ct_MVEnc : forall j j' c c' x x' s s' cmp, slen c c' -> slen x x' -> Forall2 slen s s' ->
    ct (@shape _ (@sh_prod _ _ sh_l1 sh_cexp)) (MatrixVectorMulEnc l X mul mul_acc j c x s cmp) (MatrixVectorMulEnc l X mul' mul_acc' j' c' x' s' cmp).
  Proof. intros. unfold MatrixVectorMulEnc. cbn zeta. mtt. Qed.
  Lemma ct_IPEnc : forall j j' c c' pk pk' s s' m m' cmp, slen c c' -> slen pk pk' -> Forall2 slen s s' -> slen m m' ->
    ct (@shape _ (@sh_prod _ _ sh_l1 sh_cexp)) (InnerProdEnc l mul mul_acc j c pk s m cmp) (InnerProdEnc l mul' mul_acc' j' c' pk' s' m' cmp).
  Proof. intros. unfold InnerProdEnc. cbn zeta. mtt. Qed.
  Lemma ct_IPDec : forall j j' m m' c c' sk sk', slen m m' -> slen c c' -> slen sk sk' ->
    ct (@shape _ sh_l1) (InnerProdDec l cs mul mul_acc j m c sk) (InnerProdDec l cs mul' mul_acc' j' m' c' sk').
  Proof. intros. unfold InnerProdDec. cbn zeta. mtt. Qed.
  Hint Resolve ct_MVKeyPair ct_MVEnc ct_IPEnc ct_IPDec : mctf.

  Context {S : Type}.
  Variable rb : S -> Z -> list Z * S.
  Hypothesis Hrb : forall st n, 0 <= n -> arr U8 n (fst (rb st n)).
  Instance msh_S : Shape S := fun _ _ => True.
  Lemma mct_randombytes : forall st st' o o' n, slen o o' -> ct (@shape _ (@sh_prod _ _ sh_l1 msh_S)) (randombytes rb st o n) (randombytes rb st' o' n).
  Proof. intros. now apply ct_randombytes. Qed.
  Hint Resolve mct_randombytes : mctf.
  Hint Extern 1 (shape _ _) => exact Logic.I : ct.
  Variable hash_h hash_g : mem -> list Z -> list Z -> Z -> M (list Z).
  Hypothesis Hh : ct_hash hash_h.
  Hypothesis Hg : ct_hash hash_g.
  Lemma mhash_h_sh : forall j j' out out' inp inp' n, slen out out' -> slen inp inp' ->
    ct (@shape _ sh_l1) (hash_h j out inp n) (hash_h j' out' inp' n).
  Proof. exact Hh. Qed.
  Lemma mhash_g_sh : forall j j' out out' inp inp' n, slen out out' -> slen inp inp' ->
    ct (@shape _ sh_l1) (hash_g j out inp n) (hash_g j' out' inp' n).
  Proof. exact Hg. Qed.
  Hint Resolve mhash_h_sh mhash_g_sh : mctf.

  Lemma ct_m4_indcpa_keypair : forall j j' st st' pk pk' sk sk', slen pk pk' -> slen sk sk' ->
    ct shape (m4_indcpa_keypair l cs X prf mul mul_acc rb j st pk sk) (m4_indcpa_keypair l cs X prf mul' mul_acc' rb j' st' pk' sk').
  Proof. intros. unfold m4_indcpa_keypair. cbn zeta. mtt. Qed.
  Lemma ct_m4_indcpa_enc : forall j j' m m' s s' pk pk' c c', slen m m' -> slen s s' -> slen pk pk' -> slen c c' ->
    ct (@shape _ sh_l1) (m4_indcpa_enc l cs X prf mul mul_acc j m s pk c) (m4_indcpa_enc l cs X prf mul' mul_acc' j' m' s' pk' c').
  Proof. intros. unfold m4_indcpa_enc. cbn zeta. mtt. Qed.
  Lemma ct_m4_indcpa_enc_cmp : forall j j' m m' s s' pk pk' c c', slen m m' -> slen s s' -> slen pk pk' -> slen c c' ->
    ct (@shape _ sh_cexp) (m4_indcpa_enc_cmp l cs X prf mul mul_acc j m s pk c) (m4_indcpa_enc_cmp l cs X prf mul' mul_acc' j' m' s' pk' c').
  Proof. intros. unfold m4_indcpa_enc_cmp. cbn zeta. mtt. Qed.
  Lemma ct_m4_indcpa_dec : forall j j' sk sk' c c' m m', slen sk sk' -> slen c c' -> slen m m' ->
    ct (@shape _ sh_l1) (m4_indcpa_dec l cs mul mul_acc j sk c m) (m4_indcpa_dec l cs mul' mul_acc' j' sk' c' m').
  Proof. intros. unfold m4_indcpa_dec. mtt. Qed.
  Hint Resolve ct_m4_indcpa_keypair ct_m4_indcpa_enc ct_m4_indcpa_enc_cmp ct_m4_indcpa_dec : mctf.
  Lemma ct_m4_keypair : forall j j' st st' pk pk' sk sk', slen pk pk' -> slen sk sk' ->
    ct shape (m4_kem_keypair l cs X hash_h prf mul mul_acc rb j st pk sk) (m4_kem_keypair l cs X hash_h prf mul' mul_acc' rb j' st' pk' sk').
  Proof. intros. unfold m4_kem_keypair. cbn zeta. mtt. Qed.
  Lemma ct_m4_enc : forall j j' st st' c c' k k' pk pk', slen c c' -> slen k k' -> slen pk pk' ->
    ct shape (m4_kem_enc l cs X hash_h hash_g prf mul mul_acc rb j st c k pk) (m4_kem_enc l cs X hash_h hash_g prf mul' mul_acc' rb j' st' c' k' pk').
  Proof. intros. unfold m4_kem_enc. cbn zeta. mtt. Qed.
  Lemma ct_m4_dec : forall j j' k k' c c' sk sk', slen k k' -> slen c c' -> slen sk sk' ->
    ct shape (m4_kem_dec l cs X hash_h hash_g prf mul mul_acc j k c sk) (m4_kem_dec l cs X hash_h hash_g prf mul' mul_acc' j' k' c' sk').
  Proof. intros. unfold m4_kem_dec. cbn zeta. mtt. Qed.
End M4.

(** ** The multipliers.  The calls may find anything in the registers, in the two runs. *)
Lemma asm_array_len : forall s p n l, asm_array s p n = Some l -> length l = Z.to_nat n.
Proof.
  intros s p n l H. rewrite <- (seq_length (Z.to_nat n) 0). unfold asm_array in H. revert l H. generalize (seq 0 (Z.to_nat n)). clear n.
  induction l as [|i is IH]; cbn [fold_right length]; intros l H; [now inversion H|].
  unfold Arm.bind in H at 1. destruct (fold_right _ _ is) as [r|]; [|discriminate]. destruct (mm s p _); [|discriminate].
  inversion H; subst; cbn [length]. now rewrite (IH r).
Qed.
Lemma fold_arrays : forall s arrs l,
  fold_right (fun '(p, a) l => Arm.bind l (fun l => Arm.bind (asm_array s p (len a)) (fun x => Some (x :: l)))) (Some []) arrs = Some l ->
  Forall2 (fun p x => length (@snd positive (list Z) p) = length x) arrs l.
Proof.
  intros s. induction arrs as [|[p a] arrs IH]; cbn [fold_right]; intros l H; [inversion H; constructor|].
  unfold Arm.bind in H at 1. destruct (fold_right _ _ arrs) as [r|]; [|discriminate]. unfold Arm.bind in H.
  destruct (asm_array s p (len a)) eqn:E; [|discriminate]. inversion H; subst. constructor; [|now apply IH].
  apply asm_array_len in E. cbn [snd]. rewrite E. unfold len. now rewrite Nat2Z.id.
Qed.
Lemma ct_asm_call : forall env env' sc sc' stk n d code r0 r1 r2 r3 r0' r1' r2' r3' arrs arrs',
  Forall2 (fun p q => length (@snd positive (list Z) p) = length (@snd positive (list Z) q)) arrs arrs' ->
  (Forall (fun p => arr U16 n (snd p)) arrs -> Forall (fun p => arr U16 n (snd p)) arrs' ->
   asm_trace env sc stk d code r0 r1 r2 r3 arrs = asm_trace env' sc' stk d code r0' r1' r2' r3' arrs') ->
  ct (fun l l' => Forall2 slen l l' /\ Forall2 (fun p x => length (@snd positive (list Z) p) = length x) arrs l)
    (asm_call env sc stk n d code r0 r1 r2 r3 arrs) (asm_call env' sc' stk n d code r0' r1' r2' r3' arrs').
Proof.
  intros * H T. unfold asm_call. cbn zeta.
  assert (U : forall A B (R : A -> B -> Prop) m, ct R m undef) by (intros A B R m t; destruct (m t); exact Logic.I).
  assert (F : forall l, forallb (fun p => u16_array n (snd p)) l = true -> Forall (fun p => arr U16 n (@snd positive (list Z) p)) l).
  { intros l E. apply Forall_forall. intros p Hp. rewrite forallb_forall in E. apply u16_array_ok. now apply E. }
  destruct (forallb _ arrs) eqn:C; cbn [negb]; [|apply ct_undef_l]. destruct (forallb _ arrs') eqn:C'; cbn [negb]; [|apply U].
  specialize (T (F _ C) (F _ C')). clear F C C'.
  destruct (exec _ sc d code _) as [s|]; [|apply ct_undef_l]. destruct (asm_returned _ _ s); [|apply ct_undef_l].
  destruct (fold_right _ _ arrs) as [x|] eqn:E; [|apply ct_undef_l]. apply fold_arrays in E.
  destruct (exec _ sc' d code _) as [s'|]; [|apply U]. destruct (asm_returned _ _ s'); [|apply U].
  destruct (fold_right _ _ arrs') as [x'|] eqn:E'; [|apply U]. apply fold_arrays in E'.
  apply (ct_bind _ _ _ _ (fun _ _ => True)).
  { rewrite T. intros t. cbn. auto. }
  intros _ _ _. apply ct_ret. split; [|assumption].
  clear - H E E'. revert x x' E E'. induction H; intros x0 x0' E E'; inversion E; subst; inversion E'; subst; constructor; auto. unfold slen. congruence.
Qed.
Ltac allarr := repeat match goal with H : Forall _ (_ :: _) |- _ => inversion H; clear H; subst end; cbn [snd] in *.
Ltac unwind := repeat match goal with
  | H : Forall2 _ (_ :: _) _ |- _ => inversion H; clear H; subst
  | H : Forall2 _ [] _ |- _ => inversion H; clear H; subst
  end.
Lemma ct_kara : forall env env' sc sc', regs_ok env -> regs_ok env' -> forall a a' b b' r r' e e', slen a a' -> slen b b' -> slen r r' -> slen e e' ->
  ct (fun p q => let '(a1, b1, r1, e1) := p in let '(a2, b2, r2, e2) := q in slen a1 a2 /\ slen b1 b2 /\ slen r1 r2 /\ slen e1 e2)
    (kara_strd_mem env sc a b r e) (kara_strd_mem env' sc' a' b' r' e').
Proof.
  intros env env' sc sc' He He'. intros. unfold kara_strd_mem. eapply ct_bind; [apply ct_asm_call; [repeat constructor; assumption|]|].
  { intros A A'. allarr. now apply strd_trace. }
  intros l l' (F & G). unwind.
  apply ct_ret. auto.
Qed.
Lemma ct_toom_mem : forall env env' sc sc', regs_ok env -> regs_ok env' -> forall a a' b b' r r', slen a a' -> slen b b' -> slen r r' ->
  ct (fun p q => slen (fst p) (fst q) /\ slen (snd p) (snd q)) (toom_cook_4way_mem env sc a b r) (toom_cook_4way_mem env' sc' a' b' r').
Proof.
  intros env env' sc sc' He He'. intros. unfold toom_cook_4way_mem. eapply ct_bind; [apply ct_asm_call; [repeat constructor; assumption|]|].
  { intros A A'. allarr. now apply tc4_trace. }
  intros l l' (F & G). unwind.
  destruct (list_eq_dec _ a _); [|apply ct_undef_l]. destruct (list_eq_dec _ a' _); [|intros t; exact Logic.I].
  apply ct_ret. auto.
Qed.
Lemma ct_tc4 : forall env env' sc sc', regs_ok env -> regs_ok env' -> ct_mul (tc4kara_poly_mul env sc) (tc4kara_poly_mul env' sc').
Proof.
  intros env env' sc sc' He He' j j' a a' b b' r r' Ha Hb Hr. unfold tc4kara_poly_mul.
  eapply (@ct_bind_sh _ _ sh_l1); [mstep|]. intros. apply ct_toom_mem; assumption.
Qed.
Lemma ct_tc4_acc : forall env env' sc sc', regs_ok env -> regs_ok env' -> ct_mul (tc4kara_poly_mul_acc env sc) (tc4kara_poly_mul_acc env' sc').
Proof. intros env env' sc sc' He He' j j' a a' b b' r r' Ha Hb Hr. now apply ct_toom_mem. Qed.

Lemma sl_window : forall a a' o, slen a a' -> slen (window a o) (window a' o).
Proof. intros. unfold window, slen, zfirst, zskip in *. rewrite !firstn_length, !skipn_length. lia. Qed.
Lemma sl_put : forall a a' o x x', slen a a' -> slen x x' -> slen (put a o x) (put a' o x').
Proof. intros. unfold put, slen, zfirst, zskip in *. rewrite !app_length, !firstn_length, !skipn_length. lia. Qed.
Lemma ct_kara_sh : forall env env' sc sc', regs_ok env -> regs_ok env' -> forall a a' b b' r r' e e', slen a a' -> slen b b' -> slen r r' -> slen e e' ->
  ct (@shape _ (@sh_prod _ _ (@sh_prod _ _ (@sh_prod _ _ sh_l1 sh_l1) sh_l1) sh_l1)) (kara_strd_mem env sc a b r e) (kara_strd_mem env' sc' a' b' r' e').
Proof.
  intros. eapply ct_mono; [apply ct_kara; assumption|]. intros (((?, ?), ?), ?) (((?, ?), ?), ?) (? & ? & ? & ?).
  repeat apply sh_pair; assumption.
Qed.
#[export] Hint Resolve sl_window sl_put : ct.
#[export] Hint Resolve ct_kara_sh : mctf.
Lemma ct_strd_eval_a : forall a a' j s s', slen s s' -> ct (@shape _ sh_l1) (strd_eval_a a j s) (strd_eval_a a' j s').
Proof. intros. unfold strd_eval_a. mtt. Qed.
Lemma ct_strd_eval_b : forall j s s' b b', slen s s' -> slen b b' -> ct (@shape _ (@sh_prod _ _ sh_l1 sh_l1)) (strd_eval_b j (s, b)) (strd_eval_b j (s', b')).
Proof. intros. unfold strd_eval_b. mtt. Qed.
#[export] Hint Resolve ct_strd_eval_a ct_strd_eval_b : mctf.
Lemma ct_strd_more : forall env env' sc sc', regs_ok env -> regs_ok env' -> forall n s s' b b', slen s s' -> slen b b' ->
  ct (@shape _ (@sh_prod _ _ sh_l1 sh_l1)) (strd_more env sc n s b) (strd_more env' sc' n s' b').
Proof. intros. unfold strd_more. mtt. Qed.
#[export] Hint Resolve ct_strd_more : mctf.
Lemma ct_strd_mult : forall env env' sc sc', regs_ok env -> regs_ok env' -> forall s s' b b', slen s s' -> slen b b' ->
  ct (@shape _ (@sh_prod _ _ sh_l1 sh_l1)) (strd_mult env sc s b) (strd_mult env' sc' s' b').
Proof. intros. unfold strd_mult. mtt. Qed.
#[export] Hint Resolve ct_strd_mult : mctf.
Lemma ct_strd_interp : forall w st st' b b' i s s',
  @shape _ (@sh_prod _ _ sh_l1 (@sh_prod _ _ (@sh_prod _ _ sh_cexp sh_cexp) sh_cexp)) s s' ->
  ct (@shape _ (@sh_prod _ _ sh_l1 (@sh_prod _ _ (@sh_prod _ _ sh_cexp sh_cexp) sh_cexp))) (strd_interp w st b i s) (strd_interp w st' b' i s').
Proof. intros. mopen. unfold strd_interp, imul. destruct w; mtt. Qed.
Lemma ct_strd : forall w env env' sc sc', regs_ok env -> regs_ok env' -> forall j j' a a' b b' r r', slen b b' -> slen r r' ->
  ct (@shape _ (@sh_prod _ _ sh_l1 sh_l1)) (toom_cook_4way_striding w env sc j a b r) (toom_cook_4way_striding w env' sc' j' a' b' r').
Proof.
  intros. unfold toom_cook_4way_striding. cbn zeta.
  eapply ct_bind_sh; [apply ct_for_sh; [apply sh_slen; unfold slen, ztab; now rewrite !map_length|intros; mopen; mtt]|]. intros; mopen.
  eapply ct_bind_sh; [mtt|]. intros; mopen.
  eapply ct_bind_sh; [mtt|]. intros; mopen.
  eapply ct_bind_sh; [apply ct_for_sh; [mleaf|intros; apply ct_strd_interp; assumption]|]. intros; mopen.
  mtt.
Qed.
Lemma ct_striding : forall w env env' sc sc', regs_ok env -> regs_ok env' -> ct_mul (striding_poly_mul w env sc) (striding_poly_mul w env' sc').
Proof.
  intros w env env' sc sc' He He' j j' a a' b b' r r' Ha Hb Hr. unfold striding_poly_mul.
  eapply (@ct_bind_sh _ _ sh_l1); [mstep|]. intros. eapply ct_mono; [apply ct_strd; assumption|]. intros (?, ?) (?, ?) (? & ?). now split.
Qed.
Lemma ct_striding_acc : forall w env env' sc sc', regs_ok env -> regs_ok env' -> ct_mul (striding_poly_mul_acc w env sc) (striding_poly_mul_acc w env' sc').
Proof.
  intros w env env' sc sc' He He' j j' a a' b b' r r' Ha Hb Hr. unfold striding_poly_mul_acc.
  eapply ct_mono; [apply ct_strd; assumption|]. intros (?, ?) (?, ?) (? & ?). now split.
Qed.
