(** Traces of aes256ctr.c depend on the lengths only. *)
From Coq Require Import ZArith List Bool Lia.
From Verif Require Import Lib.Arr Lib.CInt Lib.CMon Lib.Gate Model.Params Model.Sha2 Model.Aes Proof.CtP Proof.SpongeCt Proof.Sha2Ct.
Import ListNotations.
Local Open Scope Z_scope.

Lemma slen_uninit_ : forall t j j' k k' n, slen (uninit_ t j k n) (uninit_ t j' k' n).
Proof. intros. unfold slen, uninit_, ztab. now rewrite !map_length. Qed.
#[export] Hint Resolve slen_uninit_ : ct.

Lemma toC_sim : forall t q q' l l' e c c', toC t q l e = Some c -> toC t q' l' e = Some c' -> sim c c'.
Proof.
  intros t q q' l l'. induction e as [r|a IHa b IHb|a IHa b IHb|a IHa b IHb|a IHa|a IHa z|a IHa z|a IHa z|a IHa|a IHa]; cbn [toC]; intros c c' H H'.
  - destruct r; [apply some_inj in H, H'; subst; constructor| | | | |]; destruct (l _), (l' _); try discriminate; apply some_inj in H, H'; subst; constructor.
  - destruct (toC t q l a), (toC t q l b), (toC t q' l' a), (toC t q' l' b); try discriminate. apply some_inj in H, H'; subst. constructor; auto.
  - destruct (toC t q l a), (toC t q l b), (toC t q' l' a), (toC t q' l' b); try discriminate. apply some_inj in H, H'; subst. constructor; auto.
  - destruct (toC t q l a), (toC t q l b), (toC t q' l' a), (toC t q' l' b); try discriminate. apply some_inj in H, H'; subst. constructor; auto.
  - destruct (toC t q l a), (toC t q' l' a); try discriminate. apply some_inj in H, H'; subst. constructor; auto.
  - destruct (toC t q l a), (toC t q' l' a); try discriminate. apply some_inj in H, H'; subst. repeat constructor; auto.
  - destruct (toC t q l a), (toC t q' l' a); try discriminate. apply some_inj in H, H'; subst. repeat constructor; auto.
  - destruct (toC t q l a), (toC t q' l' a); try discriminate. apply some_inj in H, H'; subst. repeat constructor; auto.
  - destruct (toC t q l a), (toC t q' l' a); try discriminate. apply some_inj in H, H'; subst. repeat constructor; auto.
  - destruct (toC t q l a), (toC t q' l' a); try discriminate. apply some_inj in H, H'; subst. repeat constructor; auto.
Qed.

Definition gR (a b : list Z * locals) : Prop := slen (fst a) (fst b).
Lemma ct_gates : forall t p q q' l l', slen q q' -> ct gR (gates t p q l) (gates t p q' l').
Proof.
  intros t. induction p as [|(r, e) p IH]; intros q q' l l' Hq; cbn [gates]; [now apply ct_ret|].
  destruct (toC t q l e) as [c|] eqn:E; [|apply ct_undef_l]. destruct (toC t q' l' e) as [c'|] eqn:E'; [|apply ct_undef_r].
  pose proof (toC_sim _ _ _ _ _ _ _ _ E E') as S.
  eapply ct_bind with (R := fun a b => a = c /\ b = c'); [apply ct_ret; auto|]. intros a b (-> & ->).
  destruct r; [eapply ct_bind; [apply ct_st; eauto|intros; apply IH; auto]|..]; (eapply ct_bind; [apply ct_evR; eauto|intros; apply IH; auto]).
Qed.
Lemma ct_gates_q : forall t p q q' l l', slen q q' -> ct (@shape _ sh_l1) ('(q, _) <- gates t p q l ;; ret q) ('(q, _) <- gates t p q' l' ;; ret q).
Proof. intros. eapply ct_bind; [apply ct_gates; eauto|]. intros (?, ?) (?, ?) ?. now apply ct_ret. Qed.
Lemma ct_liftR : forall A B (x : option A) (y : option B), ct anyR (lift x) (lift y).
Proof. intros A B [|] [|]; try apply ct_undef_l; try apply ct_undef_r. now apply ct_ret. Qed.
Lemma ct_rd_sh : forall a b i, ct (@shape _ sh_Z) (rd a i) (rd b i).
Proof. exact ct_rd. Qed.
#[export] Hint Resolve ct_rd_sh : ctf.

Local Opaque gates Sbox_gates ortho_gates interleave_in_gates interleave_out_gates mix_columns_gates shift_rows_gates comp_gates0 comp_gates1 expand_gates.
Lemma ct_Sbox : forall q q', slen q q' -> ct shape (bitslice_Sbox q) (bitslice_Sbox q').
Proof. intros. now apply ct_gates_q. Qed.
Lemma ct_ortho : forall q q', slen q q' -> ct shape (ortho q) (ortho q').
Proof. intros. now apply ct_gates_q. Qed.
Lemma ct_interleave_in : forall q q' i j w w', slen q q' -> slen w w' -> ct shape (interleave_in q i j w) (interleave_in q' i j w').
Proof.
  intros q q' i j w w' Hq Hw. unfold interleave_in. eapply ct_bind; [apply ct_gates; eauto|]. intros (?, ?) (?, ?) _.
  eapply ct_bind; [apply ct_liftR|]. intros. eapply ct_bind; [apply ct_st; [simt|eauto]|]. intros.
  eapply ct_bind; [apply ct_liftR|]. intros. apply ct_st; [simt|auto].
Qed.
Lemma ct_interleave_out : forall w w' a a' b b', slen w w' -> ct shape (interleave_out w a b) (interleave_out w' a' b').
Proof. intros. now apply ct_gates_q. Qed.
Lemma ct_shift_rows : forall q q', slen q q' -> ct shape (shift_rows q) (shift_rows q').
Proof. intros. unfold shift_rows. apply ct_for_sh; auto. intros. now apply ct_gates_q. Qed.
Lemma ct_mix_columns : forall q q', slen q q' -> ct shape (mix_columns q) (mix_columns q').
Proof. intros. now apply ct_gates_q. Qed.
Lemma ct_ark : forall q q' k k', slen q q' -> ct shape (add_round_key q k) (add_round_key q' k').
Proof. intros. unfold add_round_key. apply ct_each; auto. intros. apply ct_st; [simt|auto]. Qed.
Local Opaque bitslice_Sbox ortho interleave_in interleave_out shift_rows mix_columns add_round_key.
#[export] Hint Resolve ct_Sbox ct_ortho ct_interleave_in ct_interleave_out ct_shift_rows ct_mix_columns ct_ark : ctf.

Lemma ct_range_dec : forall v v' n s s', slen v v' -> slen s s' -> ct shape (br_range_dec32le v n s) (br_range_dec32le v' n s').
Proof. intros. unfold br_range_dec32le, br_dec32le. ctt. Qed.
Lemma ct_swap32 : forall e e', sim e e' -> ct shape (br_swap32 e) (br_swap32 e').
Proof. intros. unfold br_swap32. eapply ct_bind_sh; [apply ct_asg; auto|]. intros; open_shapes. ctt. Qed.
Lemma ct_range_enc : forall d d' v v' n, slen d d' -> ct shape (br_range_enc32le d v n) (br_range_enc32le d' v' n).
Proof. intros. unfold br_range_enc32le, br_enc32le. ctt. Qed.
Lemma ct_sub_word : forall j j' e e', sim e e' -> ct shape (sub_word j e) (sub_word j' e').
Proof.
  intros. unfold sub_word. eapply ct_bind_sh; [apply ct_memset; auto with ct|]. intros; open_shapes.
  eapply ct_bind_sh; [apply ct_st; auto|]. intros; open_shapes.
  eapply ct_bind_sh; [apply ct_ortho; auto|]. intros; open_shapes.
  eapply ct_bind_sh; [apply ct_Sbox; auto|]. intros; open_shapes.
  eapply ct_bind_sh; [apply ct_ortho; auto|]. intros; open_shapes.
  apply ct_asg. simt.
Qed.
#[export] Hint Resolve ct_range_dec ct_swap32 ct_range_enc ct_sub_word : ctf.

Lemma ct_keysched_words : forall j j' s s' e e' nk nkf, slen s s' -> svar e e' ->
  ct (fun a b => slen (fst (fst (fst a))) (fst (fst (fst b)))) (keysched_words j s e nk nkf) (keysched_words j' s' e' nk nkf).
Proof.
  intros j j' s s' e e' nk nkf Hs He. unfold keysched_words.
  eapply ct_mono; [apply (ct_for _ _ (fun '(s, e, j, k) '(s', e', j', k') => slen s s' /\ svar e e' /\ j = j' /\ k = k'))|].
  - auto.
  - intros i (((s1 & e1) & j1) & k1) (((s2 & e2) & j2) & k2) (H1 & H2 & -> & ->).
    eapply ct_bind with (R := svar).
    + apply ct_ite; intros _.
      * eapply ct_bind; [apply ct_asg; repeat constructor; now apply svar_sim|]. intros. eapply ct_bind; [apply ct_sub_word; now apply svar_sim|]. intros.
        apply ct_asg. repeat constructor. now apply svar_sim.
      * apply ct_ite; intros _; [apply ct_sub_word; now apply svar_sim|now apply ct_ret].
    + intros a b Hab. eapply ct_bind; [apply ct_asg; repeat constructor; now apply svar_sim|]. intros a' b' Hab'.
      eapply ct_bind; [apply ct_st; [now apply svar_sim|exact H1]|]. intros. apply ct_ite; intros _; apply ct_ret; auto.
  - intros (((? & ?) & ?) & ?) (((? & ?) & ?) & ?) (H & _). exact H.
Qed.

Lemma ct_keysched : forall j j' c c' k k', slen c c' -> slen k k' -> ct shape (keysched j c k) (keysched j' c' k').
Proof.
  intros. unfold keysched. eapply ct_bind_sh; [eauto with ctf ct|]. intros; open_shapes. eapply ct_bind; [apply ct_asg; simt|]. intros.
  eapply ct_bind; [apply ct_keysched_words; eauto|]. intros (((? & ?) & ?) & ?) (((? & ?) & ?) & ?) Hs. cbn [fst] in Hs.
  apply ct_for_sh; auto. intros. do 9 (eapply ct_bind_sh; [ct_step|intros; open_shapes]).
  eapply ct_bind; [apply ct_gates; eauto|]. intros (?, ?) (?, ?) ?. eapply ct_bind; [apply ct_liftR|]. intros.
  eapply ct_bind; [apply ct_st; [simt|eauto]|]. intros.
  eapply ct_bind; [apply ct_gates; eauto|]. intros (?, ?) (?, ?) ?. eapply ct_bind; [apply ct_liftR|]. intros.
  apply ct_st; [simt|auto].
Qed.
Lemma ct_skey_expand : forall s s' c c', slen s s' -> ct shape (skey_expand s c) (skey_expand s' c').
Proof.
  intros. unfold skey_expand. apply ct_for_sh; auto. intros. eapply ct_bind; [apply ct_rd|]. intros. apply ct_at_sh; auto. intros. now apply ct_gates_q.
Qed.
#[export] Hint Resolve ct_keysched ct_skey_expand : ctf.
Lemma ct_ctr_init : forall j j' s s' k k', slen s s' -> slen k k' -> ct shape (ctr_init j s k) (ctr_init j' s' k').
Proof. intros. unfold ctr_init. ctt. Qed.

Lemma ct_inc4 : forall x x', slen x x' -> ct shape (inc4_be x) (inc4_be x').
Proof.
  intros. unfold inc4_be. eapply ct_bind_sh; [apply ct_swap32; simt|]. intros; open_shapes. eapply ct_bind_sh; [apply ct_st; [simt|auto]|]. intros; open_shapes.
  eapply ct_bind_sh; [apply ct_swap32; simt|]. intros; open_shapes. apply ct_st; [simt|auto].
Qed.
#[export] Hint Resolve ct_ctr_init ct_inc4 : ctf.
Lemma ct_ctr4x : forall j j' o o' w w' k k', slen o o' -> slen w w' -> slen k k' -> ct shape (aes_ctr4x j o w k) (aes_ctr4x j' o' w' k').
Proof.
  intros j j' o o' w w' k k' Ho Hw Hk. unfold aes_ctr4x.
  eapply ct_bind_sh; [apply ct_memcpy; auto with ct|]. intros w1 w1' Hw1.
  eapply ct_bind_sh; [apply ct_for_sh; [apply slen_uninit_|]|].
  { intros i q q' Hq. eapply ct_bind_sh; [apply ct_ptr; exact Hw1|]. intros p p' Hp. apply ct_interleave_in; auto. }
  intros q1 q1' H1. eapply ct_bind_sh; [apply ct_ortho; exact H1|]. intros q2 q2' H2. eapply ct_bind_sh; [apply ct_ark; exact H2|]. intros q3 q3' H3.
  eapply ct_bind_sh; [apply ct_for_sh; [exact H3|]|].
  { intros i a a' Ha. eapply ct_bind_sh; [apply ct_Sbox; exact Ha|]. intros b b' Hb. eapply ct_bind_sh; [apply ct_shift_rows; exact Hb|]. intros c c' Hc.
    eapply ct_bind_sh; [apply ct_mix_columns; exact Hc|]. intros d d' Hd. eapply ct_bind_sh; [apply ct_ptr; exact Hk|]. intros p p' Hp. apply ct_ark; exact Hd. }
  intros q4 q4' H4. eapply ct_bind_sh; [apply ct_Sbox; exact H4|]. intros q5 q5' H5. eapply ct_bind_sh; [apply ct_shift_rows; exact H5|]. intros q6 q6' H6.
  eapply ct_bind_sh; [apply ct_ptr; exact Hk|]. intros p p' Hp. eapply ct_bind_sh; [apply ct_ark; exact H6|]. intros q7 q7' H7.
  eapply ct_bind_sh; [apply ct_ortho; exact H7|]. intros q8 q8' H8.
  eapply ct_bind_sh; [apply ct_for_sh; [exact Hw1|]|].
  { intros i a a' Ha. eapply ct_bind; [apply ct_rd|]. intros. eapply ct_bind; [apply ct_rd|]. intros. apply ct_at_sh; [exact Ha|]. intros. apply ct_interleave_out; auto. }
  intros w2 w2' Hw2. eapply ct_bind_sh; [apply ct_range_enc; exact Ho|]. intros o1 o1' Ho1.
  eapply ct_bind_sh; [apply ct_at_sh; [exact Hw|intros; apply ct_inc4; auto]|]. intros v1 v1' V1.
  eapply ct_bind_sh; [apply ct_at_sh; [exact V1|intros; apply ct_inc4; auto]|]. intros v2 v2' V2.
  eapply ct_bind_sh; [apply ct_at_sh; [exact V2|intros; apply ct_inc4; auto]|]. intros v3 v3' V3.
  eapply ct_bind_sh; [apply ct_at_sh; [exact V3|intros; apply ct_inc4; auto]|]. intros v4 v4' V4.
  apply ct_ret. split; auto.
Qed.
Local Opaque aes_ctr4x.
#[export] Hint Resolve ct_ctr4x : ctf.
Lemma ct_fill_ivw : forall w w' v v' c0 c1 c2 c3, slen w w' -> slen v v' -> ct shape (fill_ivw w v c0 c1 c2 c3) (fill_ivw w' v' c0 c1 c2 c3).
Proof.
  intros. unfold fill_ivw. do 4 (eapply ct_bind_sh; [ct_step; ct_step|intros; open_shapes]).
  do 3 (eapply ct_bind_sh; [apply ct_swap32, sim_refl|intros; open_shapes]; eapply ct_bind_sh; [ct_step|intros; open_shapes]).
  eapply ct_bind_sh; [apply ct_swap32, sim_refl|intros; open_shapes]. ct_step.
Qed.
#[export] Hint Resolve ct_fill_ivw : ctf.

Lemma ct_at2 : forall (a b : list Z) off f g, slen a b -> (forall v w, slen v w -> ct (@shape (list Z * list Z) _) (f v) (g w)) -> ct (@shape (list Z * list Z) _) (at2 a off f) (at2 b off g).
Proof.
  intros a b off f g H Hf. unfold at2. eapply ct_bind; [apply ct_ptr; eauto|]. intros v w Hvw. eapply ct_bind; [apply Hf; auto|]. intros (?, ?) (?, ?) (H1 & H2). apply ct_ret.
  split; auto. hnf in *. cbn [fst snd] in *. rewrite !app_length. unfold zfirst. rewrite !firstn_length. unfold slen in *. rewrite H, H1. reflexivity.
Qed.

Definition lR (a b : list Z * list Z * Z * Z) : Prop := let '(d, w, o, l) := a in let '(d', w', o', l') := b in slen d d' /\ slen w w' /\ o = o' /\ l = l'.
Lemma ct_ctr_run : forall j j' k k' v v' c d d' n, slen k k' -> slen v v' -> slen d d' -> ct shape (ctr_run j k v c d n) (ctr_run j' k' v' c d' n).
Proof.
  intros j j' k k' v v' c d d' n Hk Hv Hd. unfold ctr_run. eapply ct_bind; [apply ct_fill_ivw; auto with ct|]. intros w w' Hw.
  eapply ct_bind with (R := lR).
  { apply ct_while.
    - repeat split; auto.
    - intros (((? & ?) & ?) & ?) (((? & ?) & ?) & ?) (_ & _ & -> & ->). reflexivity.
    - intros (((? & ?) & ?) & ?) (((? & ?) & ?) & ?) (H1 & H2 & -> & ->).
      eapply ct_bind; [apply ct_at2; [exact H1|intros; apply ct_ctr4x; auto]|]. intros (?, ?) (?, ?) (H3 & H4). apply ct_ret. repeat split; auto. }
  intros (((? & ?) & ?) & ?) (((? & ?) & ?) & ?) (H1 & H2 & -> & ->). ctt.
Qed.
#[export] Hint Resolve ct_ctr_run : ctf.

Lemma ct_aes256ctr_prf : forall j j' o o' n k k' v v', slen o o' -> slen k k' -> slen v v' -> ct shape (aes256ctr_prf j o n k v) (aes256ctr_prf j' o' n k' v').
Proof. intros. unfold aes256ctr_prf. ctt. Qed.

Lemma ct_aes256ctr_init : forall j j' s s' k k' v v', slen (c_sk s) (c_sk s') -> slen (c_ivw s) (c_ivw s') -> slen k k' -> slen v v' ->
  ct (fun a b => slen (c_sk a) (c_sk b) /\ slen (c_ivw a) (c_ivw b)) (aes256ctr_init j s k v) (aes256ctr_init j' s' k' v').
Proof.
  intros. unfold aes256ctr_init. eapply ct_bind; [apply ct_ctr_init; eauto|]. intros. eapply ct_bind; [apply ct_fill_ivw; eauto|]. intros. apply ct_ret. auto.
Qed.
Lemma ct_squeeze : forall j j' o o' n s s', slen o o' -> slen (c_sk s) (c_sk s') -> slen (c_ivw s) (c_ivw s') ->
  ct (fun a b => slen (fst a) (fst b) /\ slen (c_sk (snd a)) (c_sk (snd b)) /\ slen (c_ivw (snd a)) (c_ivw (snd b))) (aes256ctr_squeezeblocks j o n s) (aes256ctr_squeezeblocks j' o' n s').
Proof.
  intros j j' o o' n s s' Ho Hk Hw. unfold aes256ctr_squeezeblocks. eapply ct_bind with (R := lR).
  { apply ct_while.
    - repeat split; auto.
    - intros (((? & ?) & ?) & ?) (((? & ?) & ?) & ?) (_ & _ & -> & ->). reflexivity.
    - intros (((? & ?) & ?) & ?) (((? & ?) & ?) & ?) (H1 & H2 & -> & ->).
      eapply ct_bind; [apply ct_at2; [exact H1|intros; apply ct_ctr4x; auto]|]. intros (?, ?) (?, ?) (H3 & H4). apply ct_ret. repeat split; auto. }
  intros (((? & ?) & ?) & ?) (((? & ?) & ?) & ?) (H1 & H2 & -> & ->). apply ct_ret. cbn [fst snd c_sk c_ivw]. auto.
Qed.

Lemma ct_saber_prf : forall j j' o o' n k k', slen o o' -> slen k k' -> ct slen (saber_aes256ctr_prf j o n k) (saber_aes256ctr_prf j' o' n k').
Proof. intros. apply ct_aes256ctr_prf; auto with ct. Qed.
