(** 32-bit words as four bytes: loads, stores, byte swaps, and the word substitution of aes256ctr.c. *)
From Coq Require Import ZArith List Bool Lia.
From Verif Require Import Lib.Arr Lib.CInt Lib.CMon Lib.Gate Spec.Aes Model.Params Model.Sha2 Model.Aes Proof.BytesP Proof.Sha2P Proof.GateP Proof.AesGate.
Import ListNotations.
Local Open Scope Z_scope.

Lemma uninit__arr : forall t junk k n, 0 <= n -> arr t n (uninit_ t junk k n).
Proof. intros. split; [now apply len_ztab|]. apply Forall_ztab. intros. apply wrap_range. Qed.

(** ** Bytes *)
Lemma byte_0 : forall x, byte x 0 = x mod 256.
Proof. intros. unfold byte. now rewrite Z.div_1_r. Qed.
Lemma byte_1 : forall x, byte x 1 = (x / 256) mod 256.
Proof. reflexivity. Qed.
Lemma byte_2 : forall x, byte x 2 = (x / 65536) mod 256.
Proof. reflexivity. Qed.
Lemma byte_3 : forall x, byte x 3 = (x / 16777216) mod 256.
Proof. reflexivity. Qed.

Lemma ind4 : forall P : Z -> Prop, P 0 -> P 1 -> P 2 -> P 3 -> forall j, 0 <= j < 4 -> P j.
Proof. intros P H0 H1 H2 H3 j Hj. assert (j = 0 \/ j = 1 \/ j = 2 \/ j = 3) as [-> | [-> | [-> | ->]]] by lia; auto. Qed.

Lemma word_ext : forall x y, 0 <= x < 2 ^ 32 -> 0 <= y < 2 ^ 32 -> (forall j, 0 <= j < 4 -> byte x j = byte y j) -> x = y.
Proof.
  intros x y Hx Hy H. pose proof (H 0 ltac:(lia)) as H0. pose proof (H 1 ltac:(lia)) as H1. pose proof (H 2 ltac:(lia)) as H2. pose proof (H 3 ltac:(lia)) as H3.
  rewrite !byte_0 in H0. rewrite !byte_1 in H1. rewrite !byte_2 in H2. rewrite !byte_3 in H3. dlia.
Qed.

Lemma byte_lxor : forall a b j, 0 <= j -> byte (Z.lxor a b) j = Z.lxor (byte a j) (byte b j).
Proof.
  intros a b j Hj. apply byte_ext; [apply byte_range| |].
  - pose proof (byte_range a j). pose proof (byte_range b j). pose proof (lxor_full U8 (byte a j) (byte b j)). cbn [tmin tmax] in *. lia.
  - intros k Hk. rewrite Z.lxor_spec, !testbit_byte, Z.lxor_spec by lia. reflexivity.
Qed.

Lemma byte_small : forall x j, 0 <= x < 256 -> 0 <= j < 4 -> byte x j = if j =? 0 then x else 0.
Proof.
  intros x j Hx. revert j. apply ind4; cbn [Z.eqb Pos.eqb].
  - rewrite byte_0. apply Z.mod_small. lia.
  - rewrite byte_1, Z.div_small by lia. reflexivity.
  - rewrite byte_2, Z.div_small by lia. reflexivity.
  - rewrite byte_3, Z.div_small by lia. reflexivity.
Qed.

(** [x] is the little-endian value of the four bytes [w]. *)
Definition bytes_of (x : Z) (w : list Z) : Prop := 0 <= x < 2 ^ 32 /\ arr U8 4 w /\ forall j, 0 <= j < 4 -> byte x j = get w j.

Lemma wp_dec32le : forall x (Q : Z -> Prop), 4 <= len x -> typed U8 x ->
  (forall v, 0 <= v < 2 ^ 32 -> (forall j, 0 <= j < 4 -> byte v j = get x j) -> Q v) -> wp (ev (br_dec32le x)) Q.
Proof.
  intros x Q L T HQ. apply wp_ev; [reflexivity|cbn [lok br_dec32le tmin tmax]; repeat split; auto; lia|].
  pose proof (typed_get U8 x 0 T ltac:(lia)) as B0. pose proof (typed_get U8 x 1 T ltac:(lia)) as B1.
  pose proof (typed_get U8 x 2 T ltac:(lia)) as B2. pose proof (typed_get U8 x 3 T ltac:(lia)) as B3. cbn [tmin tmax] in *.
  unfold br_dec32le. cbn [val val_bin ty promote common]. unfold cv, uw. cbn [subr signed]. unfold wrap.
  set (a := get x 0) in *. set (b := get x 1) in *. set (c := get x 2) in *. set (d := get x 3) in *.
  rewrite (Z.mod_small (b * 2 ^ 8)), (Z.mod_small (c * 2 ^ 16)), (Z.mod_small (d * 2 ^ 24)) by (cbn [width]; lia).
  rewrite (lor_add a b 8), (lor_add _ c 16), (lor_add _ d 24) by lia.
  apply HQ; [lia|]. apply ind4; rewrite ?byte_0, ?byte_1, ?byte_2, ?byte_3; fold a b c d; dlia.
Qed.

Lemma range_dec32le_ok : forall v num src, 0 <= num <= len v -> 4 * num <= len src -> typed U8 src ->
  wp (br_range_dec32le v num src) (fun v' => len v' = len v /\ (forall i, num <= i < len v -> get v' i = get v i) /\
    forall i, 0 <= i < num -> 0 <= get v' i < 2 ^ 32 /\ forall j, 0 <= j < 4 -> byte (get v' i) j = get src (4 * i + j)).
Proof.
  intros v num src Hn Hs T. unfold br_range_dec32le.
  apply wp_for with (I := fun m v' => len v' = len v /\ (forall i, m <= i < len v -> get v' i = get v i) /\
    forall i, 0 <= i < m -> 0 <= get v' i < 2 ^ 32 /\ forall j, 0 <= j < 4 -> byte (get v' i) j = get src (4 * i + j)).
  - lia.
  - repeat split; auto; lia.
  - intros m v1 Hm (L1 & F1 & H1). apply wp_bind, wp_ptr; [lia|]. unfold st. apply wp_bind.
    apply wp_dec32le; [rewrite len_zskip by lia; lia|now apply Forall_zskip|]. intros x Bx Hx. rewrite wrap_id by (cbn [tmin tmax]; lia).
    apply wp_wr; [lia|]. split; [now rewrite len_upd|]. unfold get in *. split.
    + intros i Hi. rewrite znth_upd_diff by lia. apply F1. lia.
    + intros i Hi. rewrite znth_upd by lia. destruct (i =? m) eqn:D; [|apply H1; lia]. assert (i = m) as -> by lia. split; auto.
      intros j Hj. rewrite Hx by auto. unfold get. rewrite znth_zskip by lia. reflexivity.
  - intros v' H. exact H.
Qed.

Lemma val_enc : forall x j, 0 <= j < 4 ->
  wrap U8 (val (znth (Cst I32 0) [Cast U8 (Var U32 x); Cast U8 (Var U32 x .>> #8); Cast U8 (Var U32 x .>> #16); Cast U8 (Var U32 x .>> #24)]%C j)) = byte x j.
Proof.
  intros x. apply ind4.
  - change (wrap U8 (wrap U8 x) = byte x 0). rewrite byte_0. apply Z.mod_mod. cbn; lia.
  - change (wrap U8 (wrap U8 (Z.shiftr x 8)) = byte x 1). rewrite Z.shiftr_div_pow2 by lia. apply Z.mod_mod. cbn; lia.
  - change (wrap U8 (wrap U8 (Z.shiftr x 16)) = byte x 2). rewrite Z.shiftr_div_pow2 by lia. apply Z.mod_mod. cbn; lia.
  - change (wrap U8 (wrap U8 (Z.shiftr x 24)) = byte x 3). rewrite Z.shiftr_div_pow2 by lia. apply Z.mod_mod. cbn; lia.
Qed.

Lemma range_enc32le_ok : forall dst v num (Q : list Z -> Prop), 0 <= num <= len v -> 4 * num <= len dst -> typed U32 v ->
  Q (ztab (4 * num) (fun i => byte (get v (i / 4)) (i mod 4)) ++ zskip (4 * num) dst) -> wp (br_range_enc32le dst v num) Q.
Proof.
  intros dst v num Q Hn Hd T HQ. unfold br_range_enc32le.
  apply wp_for with (I := fun m d => len d = len dst /\ forall i, 0 <= i < len dst -> get d i = if i <? 4 * m then byte (get v (i / 4)) (i mod 4) else get dst i).
  - lia.
  - split; auto. intros i Hi. now replace (i <? 4 * 0) with false by lia.
  - intros m d Hm (L & H). apply wp_bind, wp_rd; [lia|]. apply wp_at; [lia|]. unfold br_enc32le.
    pose proof (typed_get U32 v m T ltac:(lia)) as B. set (x := get v m) in *.
    apply wp_sts.
    + intros e He. cbn [In] in He. destruct He as [<- | [<- | [<- | [<- | []]]]]; (split; [reflexivity|]); cbn [lok tmin tmax] in *; lia.
    + lia.
    + rewrite len_zskip by lia. change (len [Cast U8 (Var U32 x); Cast U8 (Var U32 x .>> #8); Cast U8 (Var U32 x .>> #16); Cast U8 (Var U32 x .>> #24)]%C) with 4. lia.
    + intros p Lp Hp. rewrite len_zskip in Lp by lia. split; [rewrite len_app, len_zfirst by lia; lia|].
      intros i Hi. unfold get at 1. destruct (Z_lt_le_dec i (4 * m)).
      * rewrite znth_app1 by (rewrite len_zfirst by lia; lia). rewrite znth_zfirst by lia. fold (get d i). rewrite H by lia.
        replace (i <? 4 * m) with true by lia. now replace (i <? 4 * (m + 1)) with true by lia.
      * rewrite znth_app2 by (rewrite len_zfirst by lia; lia). rewrite len_zfirst by lia. fold (get p (i - 4 * m)). rewrite Hp by (rewrite len_zskip; lia).
        change (len [Cast U8 (Var U32 x); Cast U8 (Var U32 x .>> #8); Cast U8 (Var U32 x .>> #16); Cast U8 (Var U32 x .>> #24)]%C) with 4.
        destruct (i <? 4 * (m + 1)) eqn:D.
        -- replace ((0 <=? i - 4 * m) && (i - 4 * m <? 0 + 4)) with true by lia.
           replace (i / 4) with m by dlia. replace (i mod 4) with (i - 4 * m) by dlia. fold x. rewrite Z.sub_0_r.
           cbn [tmin tmax] in B. generalize (i - 4 * m) (ltac:(lia) : 0 <= i - 4 * m < 4). apply (val_enc x).
        -- replace ((0 <=? i - 4 * m) && (i - 4 * m <? 0 + 4)) with false by lia. unfold get. rewrite znth_zskip by lia.
           replace (4 * m + (i - 4 * m)) with i by lia. fold (get d i). rewrite H by lia. now replace (i <? 4 * m) with false by lia.
  - intros d (L & H). replace d with (ztab (4 * num) (fun i => byte (get v (i / 4)) (i mod 4)) ++ zskip (4 * num) dst); [exact HQ|].
    apply znth_ext with (d := 0); [rewrite len_app, len_ztab, len_zskip by lia; lia|]. intros i Hi. rewrite len_app, len_ztab, len_zskip in Hi by lia.
    fold (get d i). rewrite H by lia. destruct (i <? 4 * num) eqn:D.
    + rewrite znth_app1 by (rewrite len_ztab; lia). now rewrite znth_ztab by lia.
    + rewrite znth_app2 by (rewrite len_ztab; lia). rewrite len_ztab, znth_zskip by lia. unfold get. f_equal. lia.
Qed.

(** ** Byte swap *)
Definition swap_gates : list (reg * gexp) :=
  [X 1 <== ((Q 0 .&# 0x00FF00FF) .<< 8) .| ((Q 0 .>> 8) .&# 0x00FF00FF); S_ 0 <== ((X 1 .<< 16) .&# 0xFFFFFFFF) .| (X 1 .>> 16)]%G.
Definition swap_ex (k : Z) : list Z := if k <? 32 then [8 * (3 - k / 8) + k mod 8] else [].
Definition swap_check : bool := match gprog sdom swap_gates (senv 32 1) with Some env => sresult env (S_ 0) swap_ex | None => false end.
Lemma swap_sym : swap_check = true.
Proof. vm_compute. reflexivity. Qed.

Definition swap1 (x : Z) : Z := Z.lor ((Z.land x 0x00FF00FF * 2 ^ 8) mod 2 ^ 64) (Z.land (Z.shiftr x 8) 0x00FF00FF).
Definition swap2 (x : Z) : Z := Z.lor (Z.land ((x * 2 ^ 16) mod 2 ^ 64) 0xFFFFFFFF) (Z.shiftr x 16).

Lemma swap_bits : forall x, 0 <= x < 2 ^ 32 -> 0 <= swap2 (swap1 x) < 2 ^ 32 /\ forall j, 0 <= j < 4 -> byte (swap2 (swap1 x)) j = byte x (3 - j).
Proof.
  intros x Hx. pose proof swap_sym as S. unfold swap_check in S. destruct (gprog sdom swap_gates (senv 32 1)) as [env|] eqn:G; [|discriminate].
  assert (typed U32 [x]) as T by (constructor; [cbn [tmin tmax]; lia|constructor]).
  destruct (gprog_rel sdom zdom (srel (srho [x])) (sdom_rel _) U64 swap_gates eq_refl (senv 32 1) (envof [x] noloc) env) as (env' & G' & E'); auto.
  { eapply senv_rel; eauto. cbn; lia. }
  destruct (sresult_ok _ _ _ _ _ S E') as (v & Ev & Bv & Hv).
  assert (v = swap2 (swap1 x)) as <-.
  { cbn [gprog swap_gates gev ob envof is_q] in G'. change (lookup [x] 0) with (Some x) in G'. cbn [ob d_shl d_shr d_or d_and d_andc zdom] in G'. 
    unfold set at 1 2 in G'. cbn [reg_eqb Z.eqb Pos.eqb ob] in G'. apply some_inj in G'. subst env'. unfold set in Ev. cbn [reg_eqb Z.eqb] in Ev. now apply some_inj in Ev. }
  assert (0 <= v < 2 ^ 32) as B32.
  { split; [lia|]. destruct (Z_lt_le_dec v (2 ^ 32)); auto. assert (v <> 0) by lia.
    assert (32 <= Z.log2 v) by (apply Z.log2_le_pow2; lia). assert (Z.log2 v < 64) by (apply Z.log2_lt_pow2; lia).
    pose proof (Z.bit_log2 v ltac:(lia)) as X1. rewrite Hv in X1 by lia. unfold swap_ex in X1. replace (Z.log2 v <? 32) with false in X1 by lia. discriminate. }
  split; auto. intros j Hj. apply byte_ext; try apply byte_range. intros k Hk. rewrite !testbit_byte by lia. rewrite Hv by lia.
  unfold swap_ex. replace (8 * j + k <? 32) with true by lia. rewrite xorl_1.
  replace ((8 * j + k) / 8) with j by dlia. replace ((8 * j + k) mod 8) with k by dlia.
  replace (8 * (3 - j) + k) with (64 * 0 + (8 * (3 - j) + k)) at 1 by lia. apply srho_id. lia.
Qed.

Lemma swap32_ok : forall e (Q : cexp -> Prop), safe e = true -> lok e ->
  (forall v, 0 <= v < 2 ^ 32 -> (forall j, 0 <= j < 4 -> byte v j = byte (wrap U32 (val e)) (3 - j)) -> Q (Var U32 v)) -> wp (br_swap32 e) Q.
Proof.
  intros e Q Se Le HQ. unfold br_swap32. apply wp_bind, wp_asg; auto. pose proof (wrap_range U32 (val e)) as B. set (x := wrap U32 (val e)) in *.
  destruct (swap_bits x) as (B1 & H1); [cbn [tmin tmax] in B; lia|].
  cbn [tmin tmax] in B.
  apply wp_bind, wp_asg; [reflexivity|cbn [lok tmin tmax]; repeat split; lia|].
  assert (0 <= Z.land x 0x00FF00FF <= 0x00FF00FF) as B2 by (rewrite Z.land_comm; apply land_nonneg_le; lia).
  assert (wrap U32 (val (((Var U32 x .& Cst U32 0x00FF00FF) .<< #8) .| ((Var U32 x .>> #8) .& Cst U32 0x00FF00FF))%C) = swap1 x) as E1.
  { cbn [val val_bin ty promote common]. unfold cv, uw. cbn [subr signed]. fold (wrap U32 (Z.land x 0x00FF00FF * 2 ^ 8)).
    rewrite (wrap_id U32 (Z.land x 0x00FF00FF * 2 ^ 8)) by (cbn [tmin tmax]; lia). unfold swap1. rewrite (Z.mod_small _ (2 ^ 64)) by lia.
    apply wrap_id. cbn [tmin tmax].
    pose proof (lor_full U32 (Z.land x 0x00FF00FF * 2 ^ 8) (Z.land (Z.shiftr x 8) 0x00FF00FF)) as L. cbn [tmin tmax] in L. apply L; [lia|].
    rewrite Z.land_comm. pose proof (land_nonneg_le 0x00FF00FF (Z.shiftr x 8)). lia. }
  rewrite E1. clear E1. 
  assert (0 <= swap1 x < 2 ^ 32) as B3.
  { unfold swap1. rewrite (Z.mod_small _ (2 ^ 64)) by lia.
    pose proof (lor_full U32 (Z.land x 0x00FF00FF * 2 ^ 8) (Z.land (Z.shiftr x 8) 0x00FF00FF)) as L. cbn [tmin tmax] in L.
    pose proof (land_nonneg_le 0x00FF00FF (Z.shiftr x 8)). rewrite Z.land_comm in H. lia. }
  set (y := swap1 x) in *. apply wp_asg; [reflexivity|cbn [lok tmin tmax]; repeat split; lia|].
  assert (wrap U32 (val ((Var U32 y .<< #16) .| (Var U32 y .>> #16))%C) = swap2 y) as ->; [|apply HQ; auto].
  cbn [val val_bin ty promote common]. unfold cv, uw. cbn [subr signed].
  assert (wrap U32 (y * 2 ^ 16) = Z.land ((y * 2 ^ 16) mod 2 ^ 64) 0xFFFFFFFF) as ->.
  { rewrite Z.mod_small by lia. change 0xFFFFFFFF with (Z.ones 32). rewrite Z.land_ones by lia. reflexivity. }
  fold (swap2 y). apply wrap_id. cbn [tmin tmax]. lia.
Qed.

(** ** Word substitution *)
Lemma sbox_range : forall x, 0 <= x < 256 -> 0 <= sbox x < 256.
Proof.
  assert (forallb (fun x => let y := sbox x in (0 <=? y) && (y <? 256)) (ztab 256 (fun x => x)) = true) as H by (vm_compute; reflexivity).
  intros x Hx. pose proof (forallb_tab _ _ H x Hx) as H1. cbv zeta in H1. lia.
Qed.

Lemma sub_word_ok : forall junk e (Q : cexp -> Prop), safe e = true -> lok e -> 0 <= val e < 2 ^ 32 ->
  (forall v, 0 <= v < 2 ^ 32 -> (forall j, 0 <= j < 4 -> byte v j = sbox (byte (val e) j)) -> Q (Var U32 v)) -> wp (sub_word junk e) Q.
Proof.
  intros junk e Q Se Le Be HQ. unfold sub_word. pose proof (uninit__arr U64 junk 0 8 ltac:(lia)) as (L0 & _).
  apply wp_bind, wp_memset; [lia|]. set (z := repeat 0 _ ++ _).
  assert (z = zeros 8) as ->. { unfold z. unfold zskip. rewrite skipn_all2 by (unfold len in L0; lia). apply app_nil_r. }
  apply wp_bind, wp_st; auto; [rewrite len_zeros; lia|]. set (x := val e) in *. rewrite wrap_id by (cbn [tmin tmax]; lia).
  assert (forall i, get (upd (zeros 8) 0 x) i = if i =? 0 then x else 0) as G1.
  { intros i. unfold get. destruct (i =? 0) eqn:D.
    - assert (i = 0) as -> by lia. apply znth_upd_same. rewrite len_zeros; lia.
    - rewrite znth_upd_diff by lia. apply (get_zeros 8 i). }
  apply wp_bind. eapply wp_mono; [apply ortho_ok|].
  { split; [rewrite len_upd; apply len_zeros; lia|]. apply typed_upd; [|cbn [tmin tmax]; lia]. apply Forall_repeat. cbn; lia. }
  intros q1 (A1 & H1). apply wp_bind.
  eapply wp_mono; [apply (Sbox_ok q1 (fun k => byte (get (upd (zeros 8) 0 x) (k mod 8)) (k / 8)) A1)|].
  { intros. apply byte_range. }
  { intros i k Hi Hk. rewrite testbit_byte by (auto; dlia). apply H1; auto. }
  intros q2 (A2 & H2). apply wp_bind. eapply wp_mono; [apply (ortho_ok q2 A2)|]. intros q3 ((L3 & T3) & H3).
  pose proof (typed_get U64 q3 0 T3 ltac:(lia)) as B3. cbn [tmin tmax] in B3.
  apply wp_asg; [reflexivity|cbn [lok]; repeat split; auto; lia|]. cbn [val ty]. change (cv U64 U32 (get q3 0)) with (wrap U32 (get q3 0)).
  rewrite (wrap_id U32 (wrap U32 _)) by apply wrap_range. pose proof (wrap_range U32 (get q3 0)) as BW. cbn [tmin tmax] in BW.
  apply HQ; [lia|]. intros j Hj. apply byte_ext; [apply byte_range|apply sbox_range, byte_range|]. intros k Hk.
  rewrite testbit_byte by lia. unfold wrap. cbn [signed width]. rewrite Z.mod_pow2_bits_low by lia. rewrite H3 by lia.
  replace (8 * ((8 * j + k) / 8) + 0) with (8 * j) by dlia. replace ((8 * j + k) mod 8) with k by dlia. rewrite H2 by lia.
  replace ((8 * j) mod 8) with 0 by dlia. replace (8 * j / 8) with j by dlia. rewrite G1. reflexivity.
Qed.
