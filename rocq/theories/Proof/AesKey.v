(** The key schedule of aes256ctr.c computes KeyExpansion, in bit-sliced form. *)
From Coq Require Import ZArith List Bool Lia.
From Verif Require Import Lib.Arr Lib.CInt Lib.CMon Lib.Gate Spec.Aes Model.Params Model.Sha2 Model.Aes Proof.BytesP Proof.Sha2P Proof.GateP Proof.AesGate Proof.AesWord.
Import ListNotations.
Local Open Scope Z_scope.

(** [dlia] with only the arithmetic hypotheses. *)
Ltac keepz := repeat match goal with H : ?T |- _ =>
  lazymatch T with Z => fail | @eq Z _ (get _ _) => clear H | @eq Z _ _ => fail | @eq bool _ _ => fail | Z.lt _ _ => fail | Z.le _ _ => fail | Z.le _ _ /\ Z.lt _ _ => fail | _ => clear H end end.
Ltac zlia := keepz; dlia.

(** ** Recurrence for the words of KeyExpansion *)
Definition nxt (f : Z -> list Z) (i : Z) : list Z :=
  let temp := f (i - 1) in
  let temp := if i mod 8 =? 0 then xorw (SubWord (RotWord temp)) (Rcon (i / 8)) else if i mod 8 =? 4 then SubWord temp else temp in
  xorw (f (i - 8)) temp.

Lemma nxt_ext : forall f g i, f (i - 1) = g (i - 1) -> f (i - 8) = g (i - 8) -> nxt f i = nxt g i.
Proof. intros f g i H1 H8. unfold nxt. now rewrite H1, H8. Qed.

Lemma expand_spec : forall n w, 8 <= len w -> len (expand n w) = len w + Z.of_nat n /\
  (forall i, i < len w -> getr (expand n w) i = getr w i) /\
  (forall i, len w <= i < len w + Z.of_nat n -> getr (expand n w) i = nxt (getr (expand n w)) i).
Proof.
  induction n as [|n IH]; intros w L; cbn [expand].
  - repeat split; auto; lia.
  - assert (len (w ++ [next_word w]) = len w + 1) as L1 by (rewrite len_app; reflexivity).
    destruct (IH (w ++ [next_word w]) ltac:(lia)) as (A & B & C). rewrite L1 in *.
    assert (forall i, i < len w -> getr (w ++ [next_word w]) i = getr w i) as D by (intros i Hi; unfold getr; now apply znth_app1).
    split; [lia|]. split; [intros i Hi; rewrite B by lia; auto|].
    intros i Hi. destruct (Z.eq_dec i (len w)) as [->|].
    + rewrite B by lia. unfold getr at 1. rewrite znth_app2 by lia. replace (len w - len w) with 0 by lia. rewrite znth_0.
      change (next_word w) with (nxt (getr w) (len w)). apply nxt_ext; rewrite B, D by lia; reflexivity.
    + apply C. lia.
Qed.

Section Key.
  Variable key : list Z.
  Hypothesis Hkey : arr U8 32 key.
  Let ks := KeyExpansion key.

  Lemma KE_len : len ks = 60.
  Proof.
    destruct (expand_spec 52 (ztab 8 (fun i => ztab 4 (fun j => get key (4 * i + j)))) ltac:(rewrite len_ztab; lia)) as (A & _).
    unfold ks, KeyExpansion. rewrite A, len_ztab by lia. reflexivity.
  Qed.
  Lemma KE_init : forall i, 0 <= i < 8 -> getr ks i = ztab 4 (fun j => get key (4 * i + j)).
  Proof.
    intros i Hi. destruct (expand_spec 52 (ztab 8 (fun i => ztab 4 (fun j => get key (4 * i + j)))) ltac:(rewrite len_ztab; lia)) as (_ & B & _).
    unfold ks, KeyExpansion. rewrite B by (rewrite len_ztab; lia). unfold getr. now rewrite znth_ztab by lia.
  Qed.
  Lemma KE_rec : forall i, 8 <= i < 60 -> getr ks i = nxt (getr ks) i.
  Proof.
    intros i Hi. destruct (expand_spec 52 (ztab 8 (fun i => ztab 4 (fun j => get key (4 * i + j)))) ltac:(rewrite len_ztab; lia)) as (_ & _ & C).
    unfold ks, KeyExpansion. apply C. rewrite len_ztab by lia. lia.
  Qed.
End Key.

(** ** Words *)
Lemma arr_tab : forall n f, 0 <= n -> (forall i, 0 <= i < n -> 0 <= f i < 256) -> arr U8 n (ztab n f).
Proof. intros n f Hn H. split; [now apply len_ztab|]. apply Forall_ztab. intros i Hi. specialize (H i Hi). cbn [tmin tmax]. lia. Qed.
Lemma arr_get : forall n l i, arr U8 n l -> 0 <= i < n -> 0 <= get l i < 256.
Proof. intros n l i (L & T) Hi. pose proof (typed_get U8 l i T ltac:(lia)) as B. cbn [tmin tmax] in B. lia. Qed.
Lemma lxor_byte : forall a b, 0 <= a < 256 -> 0 <= b < 256 -> 0 <= Z.lxor a b < 256.
Proof. intros a b Ha Hb. pose proof (lxor_full U8 a b). cbn [tmin tmax] in *. lia. Qed.
Lemma get_tab : forall n (f : Z -> Z) i, 0 <= i < n -> get (ztab n f) i = f i.
Proof. intros. unfold get. now apply znth_ztab. Qed.

Lemma bytes_xor : forall x a y b, bytes_of x a -> bytes_of y b -> bytes_of (Z.lxor x y) (xorw b a).
Proof.
  intros x a y b (X1 & X2 & X3) (Y1 & Y2 & Y3). split; [pose proof (lxor_full U32 x y); cbn [tmin tmax] in *; lia|]. split.
  - apply arr_tab; [lia|]. intros i Hi. apply lxor_byte; eapply arr_get; eauto.
  - intros j Hj. rewrite byte_lxor by lia. unfold xorw. rewrite get_tab, X3, Y3 by lia. apply Z.lxor_comm.
Qed.
Lemma bytes_sub : forall x w v, bytes_of x w -> 0 <= v < 2 ^ 32 -> (forall j, 0 <= j < 4 -> byte v j = sbox (byte x j)) -> bytes_of v (SubWord w).
Proof.
  intros x w v (X1 & X2 & X3) Bv Hv. split; auto. split.
  - apply arr_tab; [lia|]. intros i Hi. apply sbox_range. eapply arr_get; eauto.
  - intros j Hj. unfold SubWord. rewrite get_tab, Hv, X3 by lia. reflexivity.
Qed.
Lemma bytes_rot : forall x w, bytes_of x w -> bytes_of (Z.lor ((x * 2 ^ 24) mod 2 ^ 32) (Z.shiftr x 8)) (RotWord w).
Proof.
  intros x w (X1 & X2 & X3).
  assert (Z.lor ((x * 2 ^ 24) mod 2 ^ 32) (Z.shiftr x 8) = x / 2 ^ 8 + (x mod 2 ^ 8) * 2 ^ 24) as ->.
  { rewrite Z.lor_comm, Z.shiftr_div_pow2 by lia. change (2 ^ 32) with (2 ^ 8 * 2 ^ 24). rewrite Z.mul_mod_distr_r by lia. apply lor_add; [lia|]. clear - X1; zlia. }
  split; [clear - X1; zlia|]. split.
  - apply arr_tab; [lia|]. intros i Hi. eapply arr_get; eauto. zlia.
  - intros j Hj. unfold RotWord. rewrite get_tab, <- X3 by zlia. revert j Hj. apply ind4.
    + change ((0 + 1) mod 4) with 1. rewrite byte_0, byte_1. clear - X1; zlia.
    + change ((1 + 1) mod 4) with 2. rewrite byte_1, byte_2. clear - X1; zlia.
    + change ((2 + 1) mod 4) with 3. rewrite byte_2, byte_3. clear - X1; zlia.
    + change ((3 + 1) mod 4) with 0. rewrite byte_3, byte_0. clear - X1; zlia.
Qed.
Lemma bytes_rcon : forall k, 0 <= k < 7 -> bytes_of (get Rcon_tab k) (Rcon (k + 1)).
Proof.
  intros k Hk. assert (0 <= get Rcon_tab k < 256 /\ Rcon (k + 1) = [get Rcon_tab k; 0; 0; 0]) as (B & ->).
  { assert (k = 0 \/ k = 1 \/ k = 2 \/ k = 3 \/ k = 4 \/ k = 5 \/ k = 6) as [-> | [-> | [-> | [-> | [-> | [-> | ->]]]]]] by lia; vm_compute; (split; [split; [discriminate|reflexivity]|reflexivity]). }
  split; [lia|]. split.
  - split; [reflexivity|]. repeat (apply Forall_cons; [cbn [tmin tmax]; lia|]). constructor.
  - intros j Hj. rewrite byte_small by auto. revert j Hj. apply ind4; reflexivity.
Qed.

(** ** The first loop *)
Lemma keysched_words_ok : forall junk key skey, arr U8 32 key -> len skey = 60 ->
  (forall m, 0 <= m < 8 -> bytes_of (get skey m) (getr (KeyExpansion key) m)) ->
  wp (keysched_words junk skey (Var U32 (get skey 7)) 8 60)
     (fun r => let '(skey', _, _, _) := r in len skey' = 60 /\ forall m, 0 <= m < 60 -> bytes_of (get skey' m) (getr (KeyExpansion key) m)).
Proof.
  intros junk key skey Hkey L0 H0. pose proof (KE_rec key) as REC. set (ks := KeyExpansion key) in *. clearbody ks. unfold keysched_words.
  apply wp_for with (I := fun i (r : list Z * cexp * Z * Z) => exists sk, r = (sk, Var U32 (get sk (i - 1)), i mod 8, i / 8 - 1) /\ len sk = 60 /\
    forall m, 0 <= m < i -> bytes_of (get sk m) (getr ks m)).
  - lia.
  - exists skey. split; [reflexivity|]. split; auto.
  - intros i r Hi (sk & -> & L & H). set (t := get sk (i - 1)) in *.
    pose proof (H (i - 1) ltac:(lia)) as Ht. fold t in Ht. pose proof (H (i - 8) ltac:(lia)) as H8. pose proof Ht as (Bt & _).
    set (temp := if i mod 8 =? 0 then xorw (SubWord (RotWord (getr ks (i - 1)))) (Rcon (i / 8)) else if i mod 8 =? 4 then SubWord (getr ks (i - 1)) else getr ks (i - 1)).
    assert (getr ks i = xorw (getr ks (i - 8)) temp) as Er by (apply REC; lia). clearbody t.
    apply wp_bind. apply wp_mono with (P := fun c => exists y, c = Var U32 y /\ bytes_of y temp).
    + apply wp_ite. unfold temp. destruct (i mod 8 =? 0) eqn:D0.
      * apply wp_bind, wp_asg; [reflexivity|cbn [lok tmin tmax]; repeat split; lia|].
        assert (wrap U32 (val ((Var U32 t .<< #24) .| (Var U32 t .>> #8))%C) = Z.lor ((t * 2 ^ 24) mod 2 ^ 32) (Z.shiftr t 8)) as ->.
        { pose proof (bytes_rot t _ Ht) as (B & _). cbn [val val_bin ty promote common]. unfold cv, uw. cbn [subr signed]. unfold wrap at 2. cbn [signed width].
          apply wrap_id. cbn [tmin tmax]. lia. }
        pose proof (bytes_rot t _ Ht) as HR. set (y := Z.lor _ _) in *. clearbody y.
        apply wp_bind, sub_word_ok; [reflexivity|destruct HR as (B & _); cbn [lok tmin tmax]; lia|apply HR|]. intros v Bv Hv. cbn [val] in Hv.
        pose proof (bytes_sub y _ v HR Bv Hv) as HS.
        assert (0 <= i / 8 - 1 < 7) as Bk by zlia. pose proof (bytes_rcon (i / 8 - 1) Bk) as HC. replace (i / 8 - 1 + 1) with (i / 8) in HC by lia.
        apply wp_asg; [reflexivity|cbn [lok tmin tmax]; repeat split; try lia|].
        all: try (change (len Rcon_tab) with 10; lia).
        { apply (arrb_ok U8 10). reflexivity. }
        pose proof (bytes_xor _ _ _ _ HC HS) as (BX & HX). pose proof HC as (BC & _). eexists. split; [reflexivity|].
        assert (wrap U32 (val (Var U32 v .^ Idx U8 Rcon_tab (i / 8 - 1))%C) = Z.lxor (get Rcon_tab (i / 8 - 1)) v) as ->.
        { cbn [val val_bin ty promote common]. unfold cv. cbn [subr]. rewrite (Z.lxor_comm v). apply wrap_id. cbn [tmin tmax]; lia. }
        split; [exact BX|]. exact HX.
      * apply wp_ite. change (6 <? 8) with true. cbn [andb]. destruct (i mod 8 =? 4).
        -- apply sub_word_ok; [reflexivity|cbn [lok tmin tmax]; lia|exact Bt|]. intros v Bv Hv. exists v. split; auto. eapply bytes_sub; eauto.
        -- apply wp_ret. eauto.
    + intros c (y & -> & Hy). pose proof (bytes_xor _ _ _ _ Hy H8) as HX. rewrite <- Er in HX.
      pose proof Hy as (By & _). pose proof H8 as (B8 & _). pose proof HX as (BX & _).
      assert (typed U32 [get sk (i - 8)]) as T8 by (constructor; [cbn [tmin tmax]; lia|constructor]).
      apply wp_bind. unfold asg. apply wp_bind. cbn [ev]. apply wp_bind, wp_ret, wp_bind, wp_rd; [lia|]. eapply wp_lift; [reflexivity|]. apply wp_ret.
      cbn [ty promote common]. rewrite !(wrap_id U32 y), !(wrap_id U32 (get sk (i - 8))) by (cbn [tmin tmax]; lia).
      rewrite (wrap_id U32 (Z.lxor y _)) by (cbn [tmin tmax]; lia). set (z := Z.lxor y (get sk (i - 8))) in *.
      apply wp_bind, wp_st; [reflexivity|cbn [lok tmin tmax]; lia|lia|]. cbn [val]. rewrite wrap_id by (cbn [tmin tmax]; lia).
      assert (exists sk', (upd sk i z, Var U32 z, (i + 1) mod 8, (i + 1) / 8 - 1) = (sk', Var U32 (get sk' (i + 1 - 1)), (i + 1) mod 8, (i + 1) / 8 - 1) /\ len sk' = 60 /\
        forall m, 0 <= m < i + 1 -> bytes_of (get sk' m) (getr ks m)) as FIN.
      { exists (upd sk i z). split; [|split].
        - replace (i + 1 - 1) with i by lia. unfold get. now rewrite znth_upd_same by lia.
        - now rewrite len_upd.
        - intros m Hm. unfold get. rewrite znth_upd by lia. destruct (m =? i) eqn:D; [assert (m = i) as -> by lia; exact HX|]. apply H. lia. }
      apply wp_ite. destruct (i mod 8 + 1 =? 8) eqn:D; apply wp_ret.
      * replace ((i + 1) mod 8) with 0 in FIN by zlia. replace ((i + 1) / 8 - 1) with (i / 8 - 1 + 1) in FIN by zlia.
        replace ((i + 1) mod 8) with 0 by zlia. replace ((i + 1) / 8 - 1) with (i / 8 - 1 + 1) by zlia. exact FIN.
      * replace ((i + 1) mod 8) with (i mod 8 + 1) in FIN by zlia. replace ((i + 1) / 8 - 1) with (i / 8 - 1) in FIN by zlia.
        replace ((i + 1) mod 8) with (i mod 8 + 1) by zlia. replace ((i + 1) / 8 - 1) with (i / 8 - 1) by zlia. exact FIN.
  - intros r (sk & -> & L & H). auto.
Qed.

(** ** The second loop: the compressed form *)
Definition rkb (ks : list (list Z)) (m k : Z) : Z := get (getr ks (4 * m + (k / 4) mod 4)) (k / 16).

Lemma load_bits : forall q (W : Z -> Z), arr U64 8 q ->
  (forall b, 0 <= b < 4 -> mixed (get q b) (W (4 * b)) (W (4 * b + 2)) /\ mixed (get q (b + 4)) (W (4 * b + 1)) (W (4 * b + 3))) ->
  wp (ortho q) (fun q' => arr U64 8 q' /\ forall i k, 0 <= i < 8 -> 0 <= k < 64 -> Z.testbit (get q' i) k = Z.testbit (byte (W (4 * (k mod 4) + (k / 4) mod 4)) (k / 16)) i).
Proof.
  intros q W Hq H. eapply wp_mono; [apply ortho_ok; auto|]. intros q' (A & B). split; auto. intros i k Hi Hk. rewrite B by auto. clear B A q'.
  rewrite testbit_byte by zlia. destruct (H (k mod 4) ltac:(zlia)) as ((_ & M1) & (_ & M2)).
  assert (k mod 8 = k mod 4 \/ k mod 8 = k mod 4 + 4) as [E|E] by zlia; rewrite E.
  - rewrite M1 by zlia. replace ((8 * (k / 8) + i) mod 8) with i by zlia. replace ((8 * (k / 8) + i) / 16) with (k / 16) by zlia.
    destruct (_ <? 8) eqn:D.
    + replace ((k / 4) mod 4) with 0 by zlia. f_equal. f_equal. lia.
    + replace ((k / 4) mod 4) with 2 by zlia. reflexivity.
  - rewrite M2 by zlia. replace ((8 * (k / 8) + i) mod 8) with i by zlia. replace ((8 * (k / 8) + i) / 16) with (k / 16) by zlia.
    destruct (_ <? 8) eqn:D.
    + replace ((k / 4) mod 4) with 1 by zlia. reflexivity.
    + replace ((k / 4) mod 4) with 3 by zlia. reflexivity.
Qed.

Lemma list8 : forall (q : list Z), len q = 8 -> exists a b c d e f g h, q = [a; b; c; d; e; f; g; h].
Proof. intros q L. unfold len in L. do 9 (destruct q as [|? q]; cbn [length] in L; try lia). repeat eexists. Qed.

Lemma keysched_ok : forall junk comp inp key, arr U64 30 comp -> 32 <= len inp -> typed U8 inp -> key = zfirst 32 inp ->
  wp (keysched junk comp inp) (fun comp' => arr U64 30 comp' /\ forall m k, 0 <= m < 15 -> 0 <= k < 64 ->
    Z.testbit (get comp' (2 * m)) k = Z.testbit (rkb (KeyExpansion key) m k) (k mod 4) /\
    Z.testbit (get comp' (2 * m + 1)) k = Z.testbit (rkb (KeyExpansion key) m k) (4 + k mod 4)).
Proof.
  intros junk comp inp key (Lc & Tc) Li Ti Ek. unfold keysched.
  assert (arr U8 32 key) as Hkey by (subst key; split; [apply len_zfirst; lia|now apply Forall_zfirst]).
  assert (forall i, 0 <= i < 32 -> get inp i = get key i) as Gk by (intros i Hi; subst key; unfold get; now rewrite znth_zfirst by lia). pose proof (uninit__arr U32 junk 0 60 ltac:(lia)) as (Lu & _).
  apply wp_bind. eapply wp_mono; [apply range_dec32le_ok; [lia|lia|exact Ti]|]. intros skey (L1 & _ & H1). rewrite Lu in L1.
  assert (forall m, 0 <= m < 8 -> bytes_of (get skey m) (getr (KeyExpansion key) m)) as H0.
  { intros m Hm. destruct (H1 m Hm) as (B & E). split; auto. rewrite KE_init by auto. split.
    - apply arr_tab; [lia|]. intros j Hj. eapply arr_get; eauto. lia.
    - intros j Hj. rewrite get_tab, <- Gk by lia. auto. }
  destruct (H1 7 ltac:(lia)) as (B7 & _).
  apply wp_bind. unfold asg. cbn [ev]. apply wp_bind, wp_rd; [lia|]. apply wp_ret.
  rewrite wrap_id by (cbn [tmin tmax]; lia). apply wp_bind. eapply wp_mono; [apply (keysched_words_ok _ key); auto|].
  intros (((sk & x1) & x2) & x3) (Ls & Hs). clear x1 x2 x3 H1 H0 L1 B7 skey.
  set (ks := KeyExpansion key) in *. clearbody ks. clear Ek Gk Li Ti inp Hkey key.
  assert (typed U32 sk) as Tsk.
  { apply (Forall_znth_iff _ 0). intros m Hm. destruct (Hs m ltac:(lia)) as (B & _). cbn [tmin tmax]. unfold get in B. lia. }
  apply wp_for with (I := fun n c => arr U64 30 c /\ forall m k, 0 <= m < n -> 0 <= k < 64 ->
    Z.testbit (get c (2 * m)) k = Z.testbit (rkb ks m k) (k mod 4) /\ Z.testbit (get c (2 * m + 1)) k = Z.testbit (rkb ks m k) (4 + k mod 4)); [lia| | |auto].
  - split; [split; auto|]. lia.
  - intros m c Hm ((L & T) & H). apply wp_bind, wp_ptr; [lia|]. set (p := zskip (4 * m) sk).
    assert (typed U32 p) as Tp by now apply Forall_zskip. assert (4 <= len p) as Lp by (unfold p; rewrite len_zskip; lia).
    assert (forall j, 0 <= j < 4 -> get p j = get sk (4 * m + j)) as Gp by (intros j Hj; unfold p, get; rewrite znth_zskip by lia; f_equal; lia).
    clearbody p. pose proof (uninit__arr U64 (sub junk 2) m 8 ltac:(lia)) as (Lq & _).
    apply wp_bind. eapply wp_mono; [apply interleave_in_ok; auto; lia|]. intros q (a & b & -> & Ma & Mb).
    destruct (list8 _ Lq) as (q0 & q1 & q2 & q3 & q4 & q5 & q6 & q7 & ->). clear Lq.
    change (upd (upd [q0; q1; q2; q3; q4; q5; q6; q7] 0 a) 4 b) with [a; q1; q2; q3; b; q5; q6; q7].
    destruct Ma as (Ba & Ma), Mb as (Bb & Mb).
    assert (forall l i j v (Q : list Z -> Prop), 0 <= i < len l -> 0 <= j < len l -> get l j = v -> 0 <= v < 2 ^ 64 -> Q (upd l i v) -> wp (st U64 l i (Idx U64 l j)) Q) as CP.
    { intros l i j v Q Hi Hj Ev Bv HQ. unfold st. cbn [ev]. apply wp_bind, wp_rd; [lia|]. rewrite Ev, wrap_id by (cbn [tmin tmax]; lia). apply wp_wr; auto. }
    apply wp_bind, (CP _ 1 0 a); [split; [discriminate|reflexivity]|split; [discriminate|reflexivity]|reflexivity|auto|].
    apply wp_bind, (CP _ 2 0 a); [split; [discriminate|reflexivity]|split; [discriminate|reflexivity]|reflexivity|auto|].
    apply wp_bind, (CP _ 3 0 a); [split; [discriminate|reflexivity]|split; [discriminate|reflexivity]|reflexivity|auto|].
    apply wp_bind, (CP _ 5 4 b); [split; [discriminate|reflexivity]|split; [discriminate|reflexivity]|reflexivity|auto|].
    apply wp_bind, (CP _ 6 4 b); [split; [discriminate|reflexivity]|split; [discriminate|reflexivity]|reflexivity|auto|].
    apply wp_bind, (CP _ 7 4 b); [split; [discriminate|reflexivity]|split; [discriminate|reflexivity]|reflexivity|auto|]. clear CP.
    change (upd _ 7 b) with [a; a; a; a; b; b; b; b].
    apply wp_bind. eapply wp_mono; [apply (load_bits [a; a; a; a; b; b; b; b] (fun i => get p (i mod 4)))|].
    { split; [reflexivity|]. repeat (apply Forall_cons; [cbn [tmin tmax]; lia|]). constructor. }
    { intros i Hi. replace ((4 * i) mod 4) with 0 by zlia. replace ((4 * i + 1) mod 4) with 1 by zlia. replace ((4 * i + 2) mod 4) with 2 by zlia. replace ((4 * i + 3) mod 4) with 3 by zlia.
      assert (i = 0 \/ i = 1 \/ i = 2 \/ i = 3) as [-> | [-> | [-> | ->]]] by lia; (split; split; auto). }
    intros q (Aq & Hq). cbv beta in Hq.
    assert (forall i k, 0 <= i < 8 -> 0 <= k < 64 -> Z.testbit (get q i) k = Z.testbit (rkb ks m k) i) as Hq'.
    { intros i k Hi Hk. rewrite Hq by auto. unfold rkb. replace ((4 * (k mod 4) + (k / 4) mod 4) mod 4) with ((k / 4) mod 4) by zlia. rewrite Gp by zlia.
      destruct (Hs (4 * m + (k / 4) mod 4) ltac:(zlia)) as (_ & _ & E). rewrite E by zlia. reflexivity. }
    clear Hq Ma Mb Ba Bb Gp.
    apply wp_bind. eapply wp_mono; [apply comp0_ok; auto|]. intros (q' & l0) (E & c0 & S0 & B0 & H0). cbn [fst snd] in E, S0. subst q'.
    apply wp_bind. eapply wp_lift; [exact S0|]. apply wp_bind, wp_st; [reflexivity|cbn [lok tmin tmax]; lia|lia|]. cbn [val]. rewrite wrap_id by (cbn [tmin tmax]; lia).
    apply wp_bind. eapply wp_mono; [apply comp1_ok; auto|]. intros (q' & l1) (E & c1 & S1 & B1 & H1). cbn [fst snd] in E, S1. subst q'.
    apply wp_bind. eapply wp_lift; [exact S1|]. apply wp_st; [reflexivity|cbn [lok tmin tmax]; lia|rewrite len_upd; lia|]. cbn [val]. rewrite wrap_id by (cbn [tmin tmax]; lia).
    split.
    + split; [now rewrite !len_upd|]. apply typed_upd; [apply typed_upd; auto|]; cbn [tmin tmax]; lia.
    + intros m' k Hm' Hk. unfold get. destruct (Z.eq_dec m' m) as [->|].
      * rewrite znth_upd_diff by lia. rewrite !znth_upd_same by (rewrite ?len_upd; lia). rewrite H0, H1, !Hq' by zlia. auto.
      * rewrite !znth_upd_diff by lia. apply H; lia.
Qed.

(** ** The expanded form *)
Definition ksliced (sk : list Z) (ks : list (list Z)) : Prop :=
  arr U64 120 sk /\ forall m b k, 0 <= m < 15 -> 0 <= b < 8 -> 0 <= k < 64 -> Z.testbit (get sk (8 * m + b)) k = Z.testbit (rkb ks m k) b.

Lemma skey_expand_ok : forall sk comp ks, arr U64 120 sk -> arr U64 30 comp ->
  (forall m k, 0 <= m < 15 -> 0 <= k < 64 -> Z.testbit (get comp (2 * m)) k = Z.testbit (rkb ks m k) (k mod 4) /\ Z.testbit (get comp (2 * m + 1)) k = Z.testbit (rkb ks m k) (4 + k mod 4)) ->
  wp (skey_expand sk comp) (fun sk' => ksliced sk' ks).
Proof.
  intros sk comp ks (L0 & T0) (Lc & Tc) Hc. unfold skey_expand.
  apply wp_for with (I := fun u s => arr U64 120 s /\ forall n k, 0 <= n < 4 * u -> 0 <= k < 64 -> Z.testbit (get s n) k = Z.testbit (rkb ks (n / 8) k) (n mod 8)); [lia| | |].
  - split; [split; auto|]. lia.
  - intros u s Hu ((L & T) & H). apply wp_bind, wp_rd; [lia|]. set (c := get comp u).
    assert (0 <= c < 2 ^ 64) as Bc by (pose proof (typed_get U64 comp u Tc ltac:(lia)) as B; cbn [tmin tmax] in B; unfold c; lia).
    apply wp_at; [lia|]. eapply wp_mono; [apply expand_ok; auto; [now apply Forall_zskip|rewrite len_zskip; lia]|].
    rewrite len_zskip by lia. intros p' (Lp & Tp & Fp & Hp). split.
    + split; [rewrite len_app, len_zfirst by lia; lia|]. apply Forall_app. split; auto. now apply Forall_zfirst.
    + intros n k Hn Hk. unfold get. destruct (Z_lt_le_dec n (4 * u)) as [D|D].
      * rewrite znth_app1 by (rewrite len_zfirst; lia). rewrite znth_zfirst by lia. apply H; lia.
      * rewrite znth_app2, len_zfirst by (rewrite ?len_zfirst; lia). fold (get p' (n - 4 * u)). rewrite Hp by lia. unfold c.
        destruct (Hc (u / 2) (4 * (k / 4) + (n - 4 * u)) ltac:(zlia) ltac:(zlia)) as (C0 & C1).
        replace (n / 8) with (u / 2) by zlia.
        assert (rkb ks (u / 2) (4 * (k / 4) + (n - 4 * u)) = rkb ks (u / 2) k) as E.
        { unfold rkb. replace ((4 * (k / 4) + (n - 4 * u)) / 4) with (k / 4) by zlia. replace ((4 * (k / 4) + (n - 4 * u)) / 16) with (k / 16) by zlia. reflexivity. }
        rewrite E in C0, C1. replace ((4 * (k / 4) + (n - 4 * u)) mod 4) with (n - 4 * u) in C0, C1 by zlia.
        assert (u = 2 * (u / 2) \/ u = 2 * (u / 2) + 1) as [D2|D2] by zlia.
        -- replace (n mod 8) with (n - 4 * u) by zlia. rewrite D2 at 1. rewrite C0. reflexivity.
        -- replace (n mod 8) with (4 + (n - 4 * u)) by zlia. rewrite D2 at 1. rewrite C1. reflexivity.
  - intros s (A & H). split; auto. intros m b k Hm Hb Hk. rewrite H by lia. f_equal; [f_equal|]; zlia.
Qed.
