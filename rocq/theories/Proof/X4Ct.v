(** Traces of the four-fold implementation: two runs on inputs of the same shape have the same trace. *)
From Coq Require Import ZArith List Bool Lia.
From Verif Require Import Lib.Arr Lib.CInt Lib.CMon Model.Params Model.Verify Model.Pack Model.Indcpa Model.Fips202 Model.Fips202x4 Model.Vec Model.AvxMul Model.AvxKem
  Model.X4Pack Model.X4Kem Proof.CtP Proof.SpongeCt Proof.AvxCt.
Import ListNotations.
Local Open Scope Z_scope.

(** ** Four of something *)
#[export] Instance sh_unit : Shape unit := fun _ _ => True.
#[export] Instance sh_quad {A} `{Shape A} : Shape (quad A) := fun p q => forall k, shape (sel p k) (sel q k).

Lemma quad_sh : forall A `{Shape A} (a0 a1 a2 a3 b0 b1 b2 b3 : A), shape a0 b0 -> shape a1 b1 -> shape a2 b2 -> shape a3 b3 ->
  @shape (quad A) sh_quad (a0, a1, a2, a3) (b0, b1, b2, b3).
Proof. intros. intros k. unfold sel. destruct (k =? 0), (k =? 1), (k =? 2); assumption. Qed.
Lemma tab4_sh : forall A `{Shape A} (f g : Z -> A), (forall k, shape (f k) (g k)) -> @shape (quad A) sh_quad (tab4 f) (tab4 g).
Proof. intros. apply quad_sh; auto. Qed.
Lemma for4_sh : forall A B `{Shape A} `{Shape B} (f g : Z -> A -> M B) (p q : quad A), @shape (quad A) sh_quad p q ->
  (forall k a b, shape a b -> ct shape (f k a) (g k b)) -> ct (@shape (quad B) sh_quad) (for4 f p) (for4 g q).
Proof.
  intros A B SA SB f g (((a0, a1), a2), a3) (((b0, b1), b2), b3) H Hf. unfold for4.
  eapply ct_bind; [exact (Hf 0 a0 b0 (H 0))|]. intros x0 y0 H0. eapply ct_bind; [exact (Hf 1 a1 b1 (H 1))|]. intros x1 y1 H1.
  eapply ct_bind; [exact (Hf 2 a2 b2 (H 2))|]. intros x2 y2 H2. eapply ct_bind; [exact (Hf 3 a3 b3 (H 3))|]. intros x3 y3 H3.
  apply ct_ret. now apply quad_sh.
Qed.

Ltac qopen := unfold shape, sh_quad, sh_unit, shape in * |-; vopen;
  repeat match goal with H : forall k : Z, _ /\ _ |- _ => pose proof (fun k => proj1 (H k)); pose proof (fun k => proj2 (H k)); clear H end; cbv beta in * |-.
Ltac qleaf := repeat first [apply quad_sh | apply (@tab4_sh _ _); intro | apply sh_pair | apply sh_Var | apply sh_slen | apply sh_slen2 | apply sh_slen3 | apply sh_slen4 | exact Logic.I
  | solve [intro; first [apply sh_slen | apply sh_slen2 | apply sh_slen3 | apply sh_slen4]; auto with ct] | progress (cbn beta)]; vlist.
Create HintDb qctf discriminated.
#[export] Hint Constants Opaque : qctf.
(** ** fips202x4.c *)
Lemma ct_load256 : forall s s' i, ct (@shape _ sh_l1) (load256 s i) (load256 s' i).
Proof. intros. unfold load256. do 4 (eapply ct_bind_sh; [apply rd_sh|intros ? ? _]). apply ct_ret. reflexivity. Qed.
Lemma ct_store256 : forall s s' i v w, slen s s' -> ct (@shape _ sh_l1) (store256 s i v) (store256 s' i w).
Proof. intros. unfold store256. do 3 (eapply ct_bind_sh; [apply wr_sh; eassumption|]; intros; unsh). now apply wr_sh. Qed.
Ltac qstep :=
  lazymatch goal with
  | |- ct _ (@for4 ?A ?B _ _) (for4 _ _) => apply (for4_sh A B); [try solve [qleaf]|intros; qopen]
  | |- ct _ (bind _ _) (bind _ _) => eapply ct_bind_sh; [|intros; qopen]
  | |- ct _ (for_ _ _ _ _) (for_ _ _ _ _) => apply ct_for_sh; [try solve [qleaf]|intros; qopen]
  | |- ct _ (ret _) (ret _) => apply ct_ret; try solve [qleaf]
  | |- ct _ (set2 _ _ _ _) (set2 _ _ _ _) => unfold set2
  | |- ct _ (rd _ _) (rd _ _) => apply rd_sh
  | |- ct _ (at_ _ _ _) (at_ _ _ _) => apply ct_at_sh; [auto with ct|intros; qopen]
  | |- ct _ (ite _ _ _) (ite _ _ _) => apply ct_ite_sh
  | |- ct _ (load256 _ _) (load256 _ _) => apply ct_load256
  | |- _ => first [vstep | solve [eauto with qctf vctf ct]]
  end.
Ltac qtt := repeat qstep.

Lemma ct_permute4 : forall s s', slen s s' -> ct (@shape _ sh_l1) (KeccakP1600times4_PermuteAll_24rounds s) (KeccakP1600times4_PermuteAll_24rounds s').
Proof.
  intros. unfold KeccakP1600times4_PermuteAll_24rounds. do 25 (eapply ct_bind_sh; [apply ct_load256|intros ? ? _]). cbn zeta.
  eapply (ct_bind _ _ _ _ (fun _ _ => True)).
  - apply ct_for; [exact Logic.I|]. intros i (A, C) (A', C') _. eapply ct_bind; [apply ct_rd|]. intros ? ? _. apply ct_ret. exact Logic.I.
  - intros (A, C) (A', C') _. eapply ct_bind; [apply ct_rd|]. intros rc rc' _. cbv beta.
    destruct (thetaRhoPiChiIota rc A C), (thetaRhoPiChiIota rc' A' C').
    do 25 (eapply ct_bind_sh; [apply ct_store256; eassumption|]; intros; unsh). now apply ct_ret.
Qed.
#[export] Hint Resolve ct_load256 ct_store256 ct_permute4 ct_load64 ct_store64 : qctf.
Definition sq (p q : quad (list Z)) : Prop := forall k, slen (sel p k) (sel q k).
Lemma ct_xor_lanes4x : forall s s' r m m', slen s s' -> sq m m' -> ct (@shape _ sh_l1) (xor_lanes4x s r m) (xor_lanes4x s' r m').
Proof. intros. unfold xor_lanes4x, sq in *. qtt. Qed.
Lemma ct_absorb4x : forall j j' s s' r m m' l p, slen s s' -> sq m m' ->
  ct (@shape _ sh_l1) (keccak_absorb4x j s r m l p) (keccak_absorb4x j' s' r m' l p).
Proof.
  intros. unfold keccak_absorb4x. cbn zeta.
  eapply ct_bind with (R := fun '(s, m, l) '(s', m', l') => slen s s' /\ sq m m' /\ l = l').
  - apply ct_while.
    + auto.
    + intros ((?, ?), ?) ((?, ?), ?) (? & ? & ->). auto.
    + intros ((?, ?), ?) ((?, ?), ?) (? & ? & ->).
      eapply ct_bind; [apply ct_xor_lanes4x; assumption|]. intros. eapply ct_bind; [apply ct_permute4; assumption|]. intros.
      eapply (ct_bind _ _ _ _ (@shape (quad (list Z)) (@sh_quad _ sh_l1))); [apply (for4_sh (list Z) (list Z)); [assumption|intros; now apply ct_ptr]|]. intros. apply ct_ret. auto.
  - intros ((?, ?), ?) ((?, ?), ?) (? & ? & ->). unfold sq in *. qtt.
    apply ct_xor_lanes4x; assumption.
Qed.
#[export] Hint Resolve ct_xor_lanes4x ct_absorb4x : qctf.

Lemma ct_squeeze4x : forall h h' n s s' r, sq h h' -> slen s s' ->
  ct shape (keccak_squeezeblocks4x h n s r) (keccak_squeezeblocks4x h' n s' r).
Proof. intros. unfold keccak_squeezeblocks4x, sq in *. qtt. Qed.
Lemma ct_zero_state4x : forall s s', slen s s' -> ct (@shape _ sh_l1) (zero_state4x s) (zero_state4x s').
Proof. intros. unfold zero_state4x. qtt. Qed.
#[export] Hint Resolve ct_squeeze4x ct_zero_state4x : qctf.
Lemma sq_tab4 : forall f g : Z -> list Z, (forall k, slen (f k) (g k)) -> sq (tab4 f) (tab4 g).
Proof. intros. exact (tab4_sh (list Z) f g H). Qed.
Lemma sq_quad : forall a0 a1 a2 a3 b0 b1 b2 b3, slen a0 b0 -> slen a1 b1 -> slen a2 b2 -> slen a3 b3 -> sq (a0, a1, a2, a3) (b0, b1, b2, b3).
Proof. intros. exact (quad_sh (list Z) _ _ _ _ _ _ _ _ H H0 H1 H2). Qed.
#[export] Hint Resolve sq_tab4 sq_quad : ct.
#[export] Hint Extern 2 (sq _ _) => unfold sq : ct.
Notation shq := (@shape (quad (list Z)) (@sh_quad _ sh_l1)).
Lemma ct_shakex4 : forall r tl j j' o o' n i i' l, sq o o' -> sq i i' -> ct shq (shakex4 r tl j o n i l) (shakex4 r tl j' o' n i' l).
Proof. intros. unfold shakex4. cbn zeta. qtt. Qed.
Lemma ct_sha3_256x4 : forall j j' o o' i i' l, sq o o' -> sq i i' -> ct shq (sha3_256x4 j o i l) (sha3_256x4 j' o' i' l).
Proof. intros. unfold sha3_256x4. cbn zeta. qtt. Qed.
Lemma ct_sha3_512x4 : forall j j' o o' i i' l, sq o o' -> sq i i' -> ct shq (sha3_512x4 j o i l) (sha3_512x4 j' o' i' l).
Proof. intros. unfold sha3_512x4. cbn zeta. qtt. Qed.
#[export] Hint Resolve ct_shakex4 ct_sha3_256x4 ct_sha3_512x4 : qctf.

(** ** pack_unpack.c *)
Lemma slen_ztab : forall n f g, slen (ztab n f : list Z) (ztab n g : list Z).
Proof. intros. unfold slen, ztab. now rewrite !map_length. Qed.
Lemma slen_app4 : forall (a b c d : list Z), slen a c -> slen b d -> slen (a ++ b) (c ++ d).
Proof. intros. unfold slen in *. rewrite !app_length. lia. Qed.
Lemma slen_trans : forall x y h g j, slen (sel (trans x h g) j) (sel (trans y h g) j).
Proof. intros. unfold trans, TRANSPOSE4. apply sq_tab4. intros. apply slen_ztab. Qed.
Lemma slen_sixteen : forall x y h j, slen (sixteen x h j) (sixteen y h j).
Proof.
  intros. unfold sixteen, insertf128, packs_epi32. apply slen_app4; unfold slen; rewrite !map_length; apply slen_app4; apply slen_trans.
Qed.
Lemma slen_packus : forall a b c d, slen a c -> slen b d -> slen (packus_epi32 a b) (packus_epi32 c d).
Proof. intros. unfold packus_epi32, slen. rewrite !map_length. now apply slen_app4. Qed.
Lemma slen_packus16 : forall a b c d, slen a c -> slen b d -> slen (packus_epi16 a b) (packus_epi16 c d).
Proof. intros. unfold packus_epi16, slen. rewrite !map_length. now apply slen_app4. Qed.
Lemma slen_concat : forall a b : list (list Z), Forall2 slen a b -> slen (concat a) (concat b).
Proof. induction 1; [reflexivity|]. cbn [concat]. now apply slen_app4. Qed.
Lemma shape_xuninit : forall j j' t t' n, Forall2 slen (xuninit j t n) (xuninit j' t' n).
Proof. intros. apply Forall2_ztab. intros. apply slen_ztab. Qed.
#[export] Hint Resolve slen_ztab slen_trans slen_sixteen slen_packus slen_packus16 slen_concat shape_xuninit : ct.
Lemma ct_load_ps8 : forall a b o, slen a b -> ct (@shape _ sh_l1) (load_ps8 a o) (load_ps8 b o).
Proof.
  intros a b o H. unfold load_ps8, len. rewrite H. destruct (_ && _); [|apply ct_undef_l].
  eapply ct_bind; [apply ct_emit with (R := fun _ _ => True); auto|]. intros _ _ _. apply ct_ret. apply slen_ztab.
Qed.
Lemma ct_load_ps16 : forall a b o, slen a b -> ct (@shape _ sh_l1) (load_ps16 a o) (load_ps16 b o).
Proof.
  intros a b o H. unfold load_ps16, len. rewrite H. destruct (_ && _); [|apply ct_undef_l].
  eapply ct_bind; [apply ct_emit with (R := fun _ _ => True); auto|]. intros _ _ _. apply ct_ret. apply slen_ztab.
Qed.
Lemma ct_store_si128 : forall a b o v w, slen a b -> slen v w -> ct (@shape _ sh_l1) (store_si128 a o v) (store_si128 b o w).
Proof.
  intros a b o v w H Hv. unfold store_si128, len. rewrite H. destruct (_ && _); [|apply ct_undef_l].
  eapply ct_bind; [apply ct_emit with (R := fun _ _ => True); auto|]. intros _ _ _. apply ct_ret. apply sh_slen. unfold slen in *.
  unfold zfirst, zskip. rewrite !app_length, !firstn_length, !skipn_length. lia.
Qed.
Lemma ct_setrows : forall vs ws, Forall2 slen vs ws -> forall (a b : list (list Z)) i, Forall2 slen a b -> ct (@shape _ sh_l2) (setrows a i vs) (setrows b i ws).
Proof.
  induction 1 as [|v w vs ws Hv _ IH]; intros; cbn [setrows].
  - now apply ct_ret.
  - eapply ct_bind; [now apply setrow_Z|]. intros. now apply IH.
Qed.
Lemma ct_rows16 : forall (a b : list (list Z)) o, Forall2 slen a b -> ct (@shape _ sh_l2) (rows16 a o) (rows16 b o).
Proof.
  intros a b o H. unfold rows16. rewrite (F2_len _ _ _ _ _ H). destruct (_ && _); [|apply ct_undef_l].
  eapply ct_bind; [apply ct_emit with (R := fun _ _ => True); auto|]. intros _ _ _. apply ct_ret. apply Forall2_ztab. intros i.
  unfold znth. destruct (o + i <? 0); [reflexivity|]. generalize (Z.to_nat (o + i)). clear i o. induction H; intros [|k]; cbn; try reflexivity; auto.
Qed.
Lemma ct_xeval : forall e a b, Forall2 slen a b -> ct (@shape _ sh_l1) (xeval a e) (xeval b e).
Proof.
  induction e; intros; cbn [xeval].
  - now apply row_Z.
  - eapply ct_bind; [now apply IHe|]. intros. apply ct_ret. apply slen_ztab.
  - eapply ct_bind; [now apply IHe1|]. intros. eapply ct_bind; [now apply IHe2|]. intros. apply ct_ret. apply slen_ztab.
  - eapply ct_bind; [now apply IHe|]. intros. apply ct_ret. apply slen_ztab.
  - eapply ct_bind; [now apply IHe|]. intros. apply ct_ret. apply slen_ztab.
Qed.
Lemma ct_xsts : forall es a b o o' i, Forall2 slen a b -> Forall2 slen o o' -> ct (@shape _ sh_l2) (xsts a o i es) (xsts b o' i es).
Proof.
  induction es; intros; cbn [xsts].
  - now apply ct_ret.
  - eapply ct_bind; [now apply ct_xeval|]. intros. eapply ct_bind; [now apply setrow_Z|]. intros. now apply IHes.
Qed.
#[export] Hint Resolve ct_load_ps8 ct_load_ps16 ct_store_si128 ct_setrows ct_rows16 ct_xsts : qctf.
Lemma slen_merge4 : forall l h l' h' k, slen (sel (merge4 l h) k) (sel (merge4 l' h') k).
Proof.
  intros. unfold merge4. apply sq_tab4. intros. apply slen_app4; unfold TRANSPOSE4; apply sq_tab4; intros; apply slen_ztab.
Qed.
Notation shq2 := (@shape (quad (list (list Z))) (@sh_quad _ sh_l2)).
Notation shq3 := (@shape (quad (list (list (list Z)))) (@sh_quad _ sh_l3)).
Definition sq2 (p q : quad (list (list Z))) : Prop := forall k, Forall2 slen (sel p k) (sel q k).
Definition sq3 (p q : quad (list (list (list Z)))) : Prop := forall k, Forall2 (Forall2 slen) (sel p k) (sel q k).
Definition sq4 (p q : quad (list (list (list (list Z))))) : Prop := forall k, Forall2 (Forall2 (Forall2 slen)) (sel p k) (sel q k).
Notation shq4 := (@shape (quad (list (list (list (list Z))))) (@sh_quad _ sh_l4)).
#[export] Hint Extern 2 (sq2 _ _) => unfold sq2 : ct.
#[export] Hint Extern 2 (sq3 _ _) => unfold sq3 : ct.
#[export] Hint Extern 2 (sq4 _ _) => unfold sq4 : ct.
Lemma sq2_tab4 : forall f g : Z -> list (list Z), (forall k, Forall2 slen (f k) (g k)) -> sq2 (tab4 f) (tab4 g).
Proof. intros. exact (tab4_sh _ f g H). Qed.
Lemma sq3_tab4 : forall f g : Z -> list (list (list Z)), (forall k, Forall2 (Forall2 slen) (f k) (g k)) -> sq3 (tab4 f) (tab4 g).
Proof. intros. exact (tab4_sh _ f g H). Qed.
Lemma sq4_tab4 : forall f g : Z -> list (list (list (list Z))), (forall k, Forall2 (Forall2 (Forall2 slen)) (f k) (g k)) -> sq4 (tab4 f) (tab4 g).
Proof. intros. exact (tab4_sh _ f g H). Qed.
#[export] Hint Resolve sq2_tab4 sq3_tab4 sq4_tab4 : ct.
Lemma ct_avx_load_16bit : forall f f' b b' d d', sq f f' -> sq b b' -> Forall2 slen d d' ->
  ct (@shape _ sh_l2) (avx_load_16bit_8bit f b d) (avx_load_16bit_8bit f' b' d').
Proof. intros. unfold avx_load_16bit_8bit, sq in *. cbn zeta. qtt. apply ct_setrows; [|assumption]. cbn [app]. repeat constructor; apply slen_ztab. Qed.
Lemma ct_avx_load_8bit : forall f f' d d' n, sq f f' -> Forall2 slen d d' ->
  ct (@shape _ sh_l2) (avx_load_8bit_16bit f d n) (avx_load_8bit_16bit f' d' n).
Proof. intros. unfold avx_load_8bit_16bit, sq in *. cbn zeta. qtt. apply ct_setrows; [|assumption]. cbn [app]. repeat constructor; apply slen_ztab. Qed.
Lemma ct_avx_store_8bit : forall d d' n b b' m, Forall2 slen d d' -> sq b b' -> ct shq (avx_store_8bit_bs d n b m) (avx_store_8bit_bs d' n b' m).
Proof. intros. unfold avx_store_8bit_bs, sq in *. cbn zeta. qtt. Qed.
Lemma ct_avx_store_16bit : forall d d' b b', Forall2 slen d d' -> sq3 b b' -> ct shq3 (avx_store_16bit_KN d b) (avx_store_16bit_KN d' b').
Proof. intros. unfold avx_store_16bit_KN, sq3 in *. cbn zeta. qtt. Qed.
#[export] Hint Resolve ct_avx_load_16bit ct_avx_load_8bit ct_avx_store_8bit ct_avx_store_16bit : qctf.
Lemma ct_p2BSX4 : forall j j' b b' d d', sq b b' -> sq2 d d' -> ct shq (POLVECp2BSX4 j b d) (POLVECp2BSX4 j' b' d').
Proof. intros. unfold POLVECp2BSX4, sq2 in *. cbn zeta. qtt. Qed.
Lemma ct_q2BSX4 : forall j j' b b' d d', sq b b' -> sq2 d d' -> ct shq (POLVECq2BSX4 j b d) (POLVECq2BSX4 j' b' d').
Proof. intros. unfold POLVECq2BSX4, sq2 in *. cbn zeta. qtt. Qed.
Lemma ct_BS2pX4 : forall j j' b b' d d', sq b b' -> sq3 d d' -> ct shq3 (BS2POLVECpX4 j b d) (BS2POLVECpX4 j' b' d').
Proof. intros. unfold BS2POLVECpX4. cbn zeta. qtt. Qed.
Lemma ct_BS2qX4 : forall j j' b b' d d', sq b b' -> sq3 d d' -> ct shq3 (BS2POLVECqX4 j b d) (BS2POLVECqX4 j' b' d').
Proof. intros. unfold BS2POLVECqX4. cbn zeta. qtt. Qed.
Lemma ct_BS2q4x : forall j j' b b' d d', sq b b' -> sq2 d d' -> ct shq2 (BS2POLq4x j b d) (BS2POLq4x j' b' d').
Proof. intros. unfold BS2POLq4x, sq2 in *. cbn zeta. qtt. Qed.
#[export] Hint Resolve ct_p2BSX4 ct_q2BSX4 ct_BS2pX4 ct_BS2qX4 ct_BS2q4x : qctf.

(** ** SABER_indcpa.c *)
Lemma sq_of : forall p q, shq p q -> sq p q.
Proof. auto. Qed.
Lemma ct_GenMatrix4x : forall tl j j' a a' s s', sq4 a a' -> sq s s' -> ct shq4 (GenMatrix4x tl j a s) (GenMatrix4x tl j' a' s').
Proof. intros. unfold GenMatrix4x, shake128x4, sq4, sq in *. cbn zeta. qtt. Qed.
Lemma ct_GenSecret4x : forall tl j j' a a' s s', sq2 a a' -> sq s s' -> ct shq2 (GenSecret4x tl j a s) (GenSecret4x tl j' a' s').
Proof. intros. unfold GenSecret4x, shake128x4, sq2, sq in *. cbn zeta. qtt. Qed.
Lemma ct_copy_matrix : forall a a' b b', Forall2 (Forall2 (Forall2 slen)) a a' -> Forall2 (Forall2 (Forall2 slen)) b b' ->
  ct (@shape _ sh_l4) (copy_matrix a b) (copy_matrix a' b').
Proof. intros. unfold copy_matrix. qtt. Qed.
Lemma ct_clear : forall v v', Forall2 slen v v' -> ct (@shape _ sh_l2) (clear v) (clear v').
Proof. intros. unfold clear. qtt. Qed.
#[export] Hint Resolve ct_GenMatrix4x ct_GenSecret4x ct_copy_matrix ct_clear : qctf.
Lemma ct_clear3 : forall v v', Forall2 (Forall2 slen) v v' -> ct (@shape _ sh_l3) (clear3 v) (clear3 v').
Proof. intros. unfold clear3. qtt. Qed.
Lemma ct_x4_round : forall v v', Forall2 (Forall2 slen) v v' -> ct (@shape _ sh_l3) (x4_round v) (x4_round v').
Proof. intros. unfold x4_round. cbn zeta. qtt. Qed.
#[export] Hint Resolve ct_clear3 ct_x4_round : qctf.
Lemma ct_x4_product : forall j j' g g' t a a' s s', Forall2 slen g g' -> Forall2 (Forall2 (Forall2 slen)) a a' -> Forall2 slen s s' ->
  ct shape (x4_product j g t a s) (x4_product j' g' t a' s').
Proof. intros. unfold x4_product. cbn zeta. qtt. Qed.
#[export] Hint Resolve ct_x4_product : qctf.
Lemma ct_x4_keypair : forall tl j j' p p' s s' x x' y y', sq p p' -> sq s s' -> sq x x' -> sq y y' ->
  ct shape (x4_indcpa_keypair tl j p s x y) (x4_indcpa_keypair tl j' p' s' x' y').
Proof. intros. unfold x4_indcpa_keypair, shake128x4, sq in *. cbn zeta. qtt. Qed.
Lemma ct_BS2POLT4 : forall b b' d d', slen d d' -> ct (@shape _ sh_l1) (BS2POLT_4 b d) (BS2POLT_4 b' d').
Proof. intros. unfold BS2POLT_4. qtt. Qed.
Lemma ct_POLT2BS4 : forall b b' d d', slen b b' -> ct (@shape _ sh_l1) (POLT2BS_4 b d) (POLT2BS_4 b' d').
Proof. intros. unfold POLT2BS_4. qtt. Qed.
#[export] Hint Resolve ct_x4_keypair ct_BS2POLT4 ct_POLT2BS4 : qctf.
Lemma ct_x4_cm : forall j j' g g' p p' b b' m m' t t' c c', Forall2 slen g g' -> Forall2 (Forall2 slen) p p' -> Forall2 (Forall2 slen) b b' -> slen m m' -> Forall2 slen t t' ->
  slen c c' -> ct (@shape _ sh_l1) (x4_cm j g p b m t c) (x4_cm j' g' p' b' m' t' c').
Proof. intros. unfold x4_cm. cbn zeta. qtt. Qed.
Lemma ct_x4_dec_msg : forall j j' g g' p p' b b' c c' m m', Forall2 slen g g' -> Forall2 (Forall2 slen) p p' -> Forall2 (Forall2 slen) b b' -> slen c c' -> slen m m' ->
  ct (@shape _ sh_l1) (x4_dec_msg j g p b c m) (x4_dec_msg j' g' p' b' c' m').
Proof. intros. unfold x4_dec_msg. cbn zeta. qtt. Qed.
#[export] Hint Resolve ct_x4_cm ct_x4_dec_msg : qctf.
Lemma ct_x4_enc : forall tl j j' m m' n n' p p' c c', sq m m' -> sq n n' -> sq p p' -> sq c c' ->
  ct shq (x4_indcpa_enc tl j m n p c) (x4_indcpa_enc tl j' m' n' p' c').
Proof. intros. unfold x4_indcpa_enc, sq in *. cbn zeta. qtt. Qed.
Lemma ct_x4_dec : forall j j' s s' c c' m m', sq s s' -> sq c c' -> sq m m' -> ct shq (x4_indcpa_dec j s c m) (x4_indcpa_dec j' s' c' m').
Proof. intros. unfold x4_indcpa_dec, sq in *. cbn zeta. qtt. Qed.
#[export] Hint Resolve ct_x4_enc ct_x4_dec : qctf.

(** ** kem4x.c, kem.c *)
Lemma ct_at4 : forall p q o f g, sq p q -> (forall a b, sq a b -> ct shq (f a) (g b)) -> ct shq (at4 p o f) (at4 q o g).
Proof.
  intros p q o f g H Hf. unfold at4. eapply (ct_bind _ _ _ _ shq); [apply (for4_sh (list Z) (list Z)); [exact H|intros; now apply ct_ptr]|].
  intros a b Ha. eapply (ct_bind _ _ _ _ shq); [now apply Hf|]. intros c d Hc.
  apply (for4_sh (list Z) (list Z)); [exact H|]. intros k x y Hx. apply ct_at_sh; [exact Hx|]. intros. apply ct_ret. apply Hc.
Qed.
Lemma asg_svar : forall t a b, svar a b -> ct (@shape _ sh_cexp) (asg t a) (asg t b).
Proof. intros t a b (? & ? & ? & ? & -> & ->). apply ct_asg. sim_tac. Qed.
Ltac qq := repeat first [qstep | apply asg_svar; solve [auto]
  | lazymatch goal with |- ct _ (at4 _ _ _) (at4 _ _ _) => apply ct_at4; [solve [auto with ct]|intros; qopen] end].
Lemma ct_quarters : forall n x y, slen x y -> ct shq (quarters n x) (quarters n y).
Proof.
  intros. unfold quarters. apply (for4_sh unit (list Z)); [intro; exact Logic.I|]. intros k _ _ _.
  eapply ct_bind; [now apply ct_ptr|]. intros a b Hab. unfold len. rewrite Hab. destruct (_ <=? _); [|apply ct_undef_l].
  apply ct_ret. apply sh_slen. unfold slen, zfirst in *. now rewrite !firstn_length, Hab.
Qed.
#[export] Hint Resolve ct_quarters : qctf.
Lemma slen_join : forall p q, sq p q -> slen (join p) (join q).
Proof. intros. unfold join. repeat apply slen_app4; apply H. Qed.
Lemma slen_skip : forall n (a b : list Z), slen a b -> slen (zskip n a) (zskip n b).
Proof. intros. unfold slen, zskip in *. now rewrite !skipn_length, H. Qed.
#[export] Hint Resolve slen_join slen_skip slen_app4 : ct.

Lemma ct_dec4x : forall tl j j' k k' c c' s s', sq k k' -> sq c c' -> sq s s' -> ct shq (dec4x tl j k c s) (dec4x tl j' k' c' s').
Proof. intros. unfold dec4x, sq in *. cbn zeta. qq. Qed.
#[export] Hint Resolve ct_dec4x : qctf.
Lemma ct_x4_kem_dec : forall tl j j' k k' c c' s s', slen k k' -> slen c c' -> slen s s' -> ct shape (x4_kem_dec tl j k c s) (x4_kem_dec tl j' k' c' s').
Proof. intros. unfold x4_kem_dec. qq. Qed.

Section Kem.
  Context {S : Type}.
  Variable rb : S -> Z -> list Z * S.
  Hypothesis Hrb : forall st n, 0 <= n -> arr U8 n (fst (rb st n)).
  Instance qsh_S : Shape S := fun _ _ => True.
  Lemma qct_randombytes : forall st st' o o' n, slen o o' -> ct shape (randombytes rb st o n) (randombytes rb st' o' n).
  Proof. intros. now apply ct_randombytes. Qed.
  Hint Resolve qct_randombytes : qctf.
  Hint Extern 1 (shape _ _) => exact Logic.I : ct.
  Lemma ct_draw3 : forall j j' s s' m, ct shape (draw3 rb j s m) (draw3 rb j' s' m).
  Proof. intros. unfold draw3. qq. Qed.
  Hint Resolve ct_draw3 : qctf.
  Lemma ct_keypair4x : forall tl j j' x x' p p' s s', sq p p' -> sq s s' -> ct shape (keypair4x rb tl j x p s) (keypair4x rb tl j' x' p' s').
  Proof. intros. unfold keypair4x, sq in *. cbn zeta. qq. Qed.
  Lemma ct_enc4x : forall tl j j' x x' c c' k k' p p', sq c c' -> sq k k' -> sq p p' -> ct shape (enc4x rb tl j x c k p) (enc4x rb tl j' x' c' k' p').
  Proof. intros. unfold enc4x, sq in *. cbn zeta. qq. Qed.
  Hint Resolve ct_keypair4x ct_enc4x : qctf.
  Lemma ct_x4_kem_keypair : forall tl j j' x x' p p' s s', slen p p' -> slen s s' -> ct shape (x4_kem_keypair rb tl j x p s) (x4_kem_keypair rb tl j' x' p' s').
  Proof. intros. unfold x4_kem_keypair. qq. Qed.
  Lemma ct_x4_kem_enc : forall tl j j' x x' c c' k k' p p', slen c c' -> slen k k' -> slen p p' ->
    ct shape (x4_kem_enc rb tl j x c k p) (x4_kem_enc rb tl j' x' c' k' p').
  Proof. intros. unfold x4_kem_enc. qq. Qed.
End Kem.
