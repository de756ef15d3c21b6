(** Four blocks at a time: aes_ctr4x computes Cipher on each of the four counter blocks. *)
From Coq Require Import ZArith List Bool Lia.
From Verif Require Import Lib.Arr Lib.CInt Lib.CMon Lib.Gate Spec.Aes Model.Params Model.Sha2 Model.Aes Proof.BytesP Proof.Sha2P Proof.GateP Proof.AesGate Proof.AesWord Proof.AesKey.
Import ListNotations.
Local Open Scope Z_scope.

(** ** Round keys are bytes *)
Lemma xorw_arr : forall a b, arr U8 4 a -> arr U8 4 b -> arr U8 4 (xorw a b).
Proof. intros a b Ha Hb. apply arr_tab; [lia|]. intros i Hi. apply lxor_byte; eapply arr_get; eauto. Qed.
Lemma KE_arr : forall key, arr U8 32 key -> forall i, 0 <= i < 60 -> arr U8 4 (getr (KeyExpansion key) i).
Proof.
  intros key Hkey. pose proof (KE_rec key) as REC. pose proof (KE_init key) as INI. set (ks := KeyExpansion key) in *. clearbody ks.
  assert (forall n i, 0 <= i < 60 -> i < Z.of_nat n -> arr U8 4 (getr ks i)) as G.
  { induction n as [|n IH]; intros i Hi Hn; [lia|]. destruct (Z_lt_le_dec i 8).
    - rewrite INI by lia. apply arr_tab; [lia|]. intros j Hj. eapply arr_get; eauto. lia.
    - rewrite REC by lia. unfold nxt. pose proof (IH (i - 1) ltac:(lia) ltac:(lia)) as H1. pose proof (IH (i - 8) ltac:(lia) ltac:(lia)) as H8.
      assert (forall w, arr U8 4 w -> arr U8 4 (SubWord w)) as SW by (intros w Hw; apply arr_tab; [lia|]; intros j Hj; apply sbox_range; eapply arr_get; eauto).
      assert (forall w, arr U8 4 w -> arr U8 4 (RotWord w)) as RW by (intros w Hw; apply arr_tab; [lia|]; intros j Hj; eapply arr_get; eauto; zlia).
      apply xorw_arr; auto. destruct (i mod 8 =? 0); [|destruct (i mod 8 =? 4); auto].
      apply xorw_arr; auto. replace (i / 8) with (i / 8 - 1 + 1) by lia. apply bytes_rcon. zlia. }
  intros i Hi. apply (G 60%nat); lia.
Qed.
Lemma rk_arr : forall ks m, (forall i, 0 <= i < 60 -> arr U8 4 (getr ks i)) -> 0 <= m < 15 -> arr U8 16 (round_key ks m).
Proof. intros ks m H Hm. apply arr_tab; [lia|]. intros i Hi. eapply arr_get; [apply H|]; zlia. Qed.

(** ** Bit-sliced states *)
Definition byte_at (S : Z -> list Z) (k : Z) : Z := get (S (k mod 4)) (k / 16 + 4 * ((k / 4) mod 4)).
Definition states (S : Z -> list Z) : Prop := forall b, 0 <= b < 4 -> arr U8 16 (S b).
Definition sliced (q : list Z) (S : Z -> list Z) : Prop :=
  arr U64 8 q /\ states S /\ forall i k, 0 <= i < 8 -> 0 <= k < 64 -> Z.testbit (get q i) k = Z.testbit (byte_at S k) i.

Lemma idx_range : forall k, 0 <= k < 64 -> 0 <= k / 16 + 4 * ((k / 4) mod 4) < 16.
Proof. intros. dlia. Qed.
Lemma byte_at_range : forall S k, states S -> 0 <= k < 64 -> 0 <= byte_at S k < 256.
Proof. intros S k H Hk. eapply arr_get; [apply H; zlia|now apply idx_range]. Qed.
Lemma idx_mod : forall k, 0 <= k < 64 -> (k / 16 + 4 * ((k / 4) mod 4)) mod 4 = k / 16.
Proof. intros. dlia. Qed.
Lemma idx_div : forall k, 0 <= k < 64 -> (k / 16 + 4 * ((k / 4) mod 4)) / 4 = (k / 4) mod 4.
Proof. intros. dlia. Qed.

Lemma rkb_round_key : forall ks m k, 0 <= k < 64 -> rkb ks m k = get (round_key ks m) (k / 16 + 4 * ((k / 4) mod 4)).
Proof. intros ks m k Hk. unfold rkb, round_key. rewrite get_tab by now apply idx_range. now rewrite idx_mod, idx_div. Qed.

Lemma sub_sliced : forall q S, sliced q S -> wp (bitslice_Sbox q) (fun q' => sliced q' (fun b => SubBytes (S b))).
Proof.
  intros q S (A & HS & H). eapply wp_mono; [apply (Sbox_ok q (byte_at S)); auto; intros; now apply byte_at_range|].
  intros q' (A' & H'). split; [exact A'|]. split.
  - intros b Hb. apply arr_tab; [lia|]. intros i Hi. apply sbox_range. eapply arr_get; eauto.
  - intros i k Hi Hk. rewrite H' by auto. unfold byte_at, SubBytes. now rewrite get_tab by now apply idx_range.
Qed.

Lemma shift_sliced : forall q S, sliced q S -> wp (shift_rows q) (fun q' => sliced q' (fun b => ShiftRows (S b))).
Proof.
  intros q S (A & HS & H). eapply wp_mono; [apply shift_rows_ok; auto|]. intros q' (A' & H'). split; [exact A'|]. split.
  - intros b Hb. apply arr_tab; [lia|]. intros i Hi. cbv zeta. eapply arr_get; eauto. zlia.
  - intros i k Hi Hk. pose proof (shift_pos_range k Hk). rewrite H', H by auto. f_equal. unfold byte_at, ShiftRows. rewrite get_tab by now apply idx_range. cbv zeta.
    rewrite idx_mod, idx_div by auto. unfold shift_pos. f_equal; [f_equal|]; zlia.
Qed.

Lemma xtime_bits : forall a i, 0 <= a < 256 -> 0 <= i < 8 ->
  Z.testbit (xtime a) i = xorb (if 0 <? i then Z.testbit a (i - 1) else false) (if Z.testbit 0x1b i then Z.testbit a 7 else false).
Proof.
  assert (forallb (fun a => let x := xtime a in forallb (fun i => Bool.eqb (Z.testbit x i) (xorb (if 0 <? i then Z.testbit a (i - 1) else false) (if Z.testbit 0x1b i then Z.testbit a 7 else false)))
    (ztab 8 (fun i => i))) (ztab 256 (fun a => a)) = true) as H by (vm_compute; reflexivity).
  intros a i Ha Hi. pose proof (forallb_tab _ _ H a Ha) as H1. cbv beta zeta in H1. pose proof (forallb_tab _ _ H1 i Hi) as H2. now apply Bool.eqb_prop.
Qed.
Lemma gmul_small : forall a, 0 <= a < 256 -> gmul a 2 = xtime a /\ gmul a 3 = Z.lxor (xtime a) a /\ 0 <= xtime a < 256.
Proof.
  assert (forallb (fun a => let x := xtime a in (gmul a 2 =? x) && (gmul a 3 =? Z.lxor x a) && (0 <=? x) && (x <? 256)) (ztab 256 (fun a => a)) = true) as H by (vm_compute; reflexivity).
  intros a Ha. pose proof (forallb_tab _ _ H a Ha) as H1. cbv beta zeta in H1. clear H.
  set (g2 := gmul a 2) in *. set (g3 := gmul a 3) in *. set (x := xtime a) in *. set (y := Z.lxor x a) in *. clearbody g2 g3 x y. lia.
Qed.

Lemma xt_bits : forall q S i k, sliced q S -> 0 <= i < 8 -> 0 <= k < 64 -> xorl (srho q) (xt_ids i k) = Z.testbit (xtime (byte_at S k)) i.
Proof.
  intros q S i k (A & HS & H) Hi Hk. rewrite xtime_bits by (auto; now apply byte_at_range). unfold xt_ids. rewrite xorl_app. f_equal.
  - destruct (0 <? i) eqn:D; [|reflexivity]. rewrite xorl_1, srho_id by auto. apply H; lia.
  - destruct (Z.testbit 27 i); [|reflexivity]. rewrite xorl_1, srho_id by auto. apply H; lia.
Qed.
Lemma down_range : forall d k, 0 <= down d k < 64.
Proof. intros. apply Z.mod_pos_bound. lia. Qed.
Lemma byte_at_down : forall S d k, 0 <= d < 4 -> 0 <= k < 64 -> byte_at S (down d k) = get (S (k mod 4)) ((k / 16 + d) mod 4 + 4 * ((k / 4) mod 4)).
Proof. intros S d k Hd Hk. unfold byte_at, down. f_equal; [f_equal|]; zlia. Qed.

Lemma mix_sliced : forall q S, sliced q S -> wp (mix_columns q) (fun q' => sliced q' (fun b => MixColumns (S b))).
Proof.
  intros q S HS. pose proof HS as (A & St & H). eapply wp_mono; [apply mix_columns_ok; auto|]. intros q' (A' & H'). split; [exact A'|]. split.
  - intros b Hb. apply arr_tab; [lia|]. intros i Hi. cbv zeta.
    assert (forall d, 0 <= get (S b) ((i mod 4 + d) mod 4 + 4 * (i / 4)) < 256) as G by (intros d; eapply arr_get; [apply St; auto|]; zlia).
    destruct (gmul_small _ (G 0)) as (-> & _ & X0). destruct (gmul_small _ (G 1)) as (_ & -> & X1). specialize (G 0) as G0; specialize (G 1) as G1; specialize (G 2) as G2; specialize (G 3) as G3.
    repeat apply lxor_byte; auto.
  - intros i k Hi Hk. rewrite H' by auto. unfold mix_ex. rewrite !xorl_app, !xorl_1, !srho_id by apply down_range.
    rewrite !(xt_bits q S) by (auto; apply down_range). rewrite !H by (auto; apply down_range).
    change (byte_at (fun b => MixColumns (S b)) k) with (get (MixColumns (S (k mod 4))) (k / 16 + 4 * ((k / 4) mod 4))). unfold MixColumns. rewrite get_tab by now apply idx_range. cbv zeta. rewrite idx_mod, idx_div by auto.
    rewrite !byte_at_down by lia.
    replace (byte_at S k) with (get (S (k mod 4)) ((k / 16 + 0) mod 4 + 4 * ((k / 4) mod 4))) by (unfold byte_at; f_equal; zlia).
    assert (forall d, 0 <= get (S (k mod 4)) ((k / 16 + d) mod 4 + 4 * ((k / 4) mod 4)) < 256) as G by (intros d; eapply arr_get; [apply St; zlia|]; zlia).
    destruct (gmul_small _ (G 0)) as (-> & _ & _). destruct (gmul_small _ (G 1)) as (_ & -> & _).
    rewrite !Z.lxor_spec. rewrite !xorb_assoc. reflexivity.
Qed.

Lemma ark_sliced : forall q sk S ks m, sliced q S -> typed U64 sk -> 8 <= len sk -> 0 <= m < 15 -> (forall i, 0 <= i < 60 -> arr U8 4 (getr ks i)) ->
  (forall b k, 0 <= b < 8 -> 0 <= k < 64 -> Z.testbit (get sk b) k = Z.testbit (rkb ks m k) b) ->
  wp (add_round_key q sk) (fun q' => sliced q' (fun b => AddRoundKey (S b) (round_key ks m))).
Proof.
  intros q sk S ks m ((L & T) & St & H) Tk Lk Hm Hks Hk. unfold add_round_key.
  apply (wp_each _ _ 0 (fun n q' => arr U64 8 q' /\ forall i, 0 <= i < 8 -> get q' i = if i <? n then Z.lxor (get q i) (get sk i) else get q i)).
  - split; [split; auto|]. intros i Hi. now replace (i <? 0) with false by lia.
  - intros n q1 Hn ((L1 & T1) & H1). change (len [0; 1; 2; 3; 4; 5; 6; 7]) with 8 in Hn.
    replace (znth 0 [0; 1; 2; 3; 4; 5; 6; 7] n) with n.
    2: { assert (n = 0 \/ n = 1 \/ n = 2 \/ n = 3 \/ n = 4 \/ n = 5 \/ n = 6 \/ n = 7) as [-> | [-> | [-> | [-> | [-> | [-> | [-> | ->]]]]]]] by lia; reflexivity. }
    apply wp_st; [reflexivity|cbn [lok]; repeat split; auto; lia|lia|].
    pose proof (typed_get U64 q1 n T1 ltac:(lia)) as B1. pose proof (typed_get U64 sk n Tk ltac:(lia)) as B2.
    assert (wrap U64 (val (Idx U64 q1 n .^ Idx U64 sk n)%C) = Z.lxor (get q1 n) (get sk n)) as ->.
    { pose proof (lxor_full U64 (get q1 n) (get sk n)). cbn [tmin tmax] in *. cbn [val val_bin ty promote common]. unfold cv. cbn [subr]. apply wrap_id. cbn [tmin tmax]. lia. }
    assert (tmin U64 <= Z.lxor (get q1 n) (get sk n) <= tmax U64) as BX by (pose proof (lxor_full U64 (get q1 n) (get sk n)); cbn [tmin tmax] in *; lia).
    split; [split; [now rewrite len_upd|now apply typed_upd]|]. intros i Hi. unfold get at 1. rewrite znth_upd by lia. destruct (i =? n) eqn:D.
    + assert (i = n) as -> by lia. rewrite H1 by lia. replace (n <? n) with false by lia. now replace (n <? n + 1) with true by lia.
    + fold (get q1 i). rewrite H1 by lia. now replace (i <? n + 1) with (i <? n) by lia.
  - intros q' (A' & H'). change (len [0; 1; 2; 3; 4; 5; 6; 7]) with 8 in H'. split; [exact A'|]. pose proof (rk_arr ks m Hks Hm) as HR. split.
    + intros b Hb. apply arr_tab; [lia|]. intros i Hi. apply lxor_byte; eapply arr_get; eauto.
    + intros i k Hi Hk'. rewrite H' by auto. replace (i <? 8) with true by lia. rewrite Z.lxor_spec, H, Hk, rkb_round_key by auto.
      unfold byte_at, AddRoundKey. rewrite get_tab by now apply idx_range. now rewrite Z.lxor_spec.
Qed.

(** ** Loading and storing *)
Definition wst (w : list Z) (b : Z) : list Z := ztab 16 (fun i => byte (get w (4 * b + i / 4)) (i mod 4)).

Lemma load_ok : forall q w A (K : list Z -> M A) Q, len q = 8 -> arr U32 16 w -> (forall q', sliced q' (wst w) -> wp (K q') Q) ->
  wp (q <- for_ 0 4 (fun i q => p <- ptr w (4 * i) ;; interleave_in q i (i + 4) p) q ;; q <- ortho q ;; K q) Q.
Proof.
  intros q w A0 K Q Lq (Lw & Tw) HK. apply wp_bind.
  apply wp_for with (I := fun n q => len q = 8 /\ forall b, 0 <= b < n -> mixed (get q b) (get w (4 * b)) (get w (4 * b + 2)) /\ mixed (get q (b + 4)) (get w (4 * b + 1)) (get w (4 * b + 3))).
  - lia.
  - split; auto. lia.
  - intros n q1 Hn (L & H). apply wp_bind, wp_ptr; [lia|]. eapply wp_mono; [apply interleave_in_ok; [now apply Forall_zskip|rewrite len_zskip; lia|lia|lia]|].
    intros q2 (a & b & -> & Ma & Mb). split; [now rewrite !len_upd|]. intros i Hi. unfold get in *. rewrite !znth_zskip in Ma, Mb by lia. rewrite Z.add_0_r in Ma.
    destruct (Z.eq_dec i n) as [->|].
    + rewrite znth_upd_diff by lia. rewrite !znth_upd_same by (rewrite ?len_upd; lia). auto.
    + rewrite !znth_upd_diff by lia. apply H. lia.
  - intros q1 (L & H). assert (arr U64 8 q1) as A.
    { split; auto. apply (Forall_znth_iff _ 0). intros i Hi. rewrite L in Hi. fold (get q1 i). cbn [tmin tmax].
      destruct (Z_lt_le_dec i 4); [destruct (H i ltac:(lia)) as ((B & _) & _); lia|]. destruct (H (i - 4) ltac:(lia)) as (_ & (B & _)). replace (i - 4 + 4) with i in B by lia. lia. }
    apply wp_bind. eapply wp_mono; [apply (load_bits q1 (get w) A H)|]. intros q' (A' & H'). apply HK. split; [exact A'|]. split.
    + intros b Hb. apply arr_tab; [lia|]. intros. apply byte_range.
    + intros i k Hi Hk. rewrite H' by auto. unfold byte_at, wst. rewrite get_tab by now apply idx_range. now rewrite idx_mod, idx_div.
Qed.

Lemma store_ok : forall q S w B (K : list Z -> M B) Q, sliced q S -> arr U32 16 w ->
  (forall w', arr U32 16 w' -> (forall n, 0 <= n < 64 -> byte (get w' (n / 4)) (n mod 4) = get (S (n / 16)) (n mod 16)) -> wp (K w') Q) ->
  wp (q <- ortho q ;; w <- for_ 0 4 (fun i w => q0 <- rd q i ;; q1 <- rd q (i + 4) ;; at_ w (4 * i) (fun p => interleave_out p q0 q1)) w ;; K w) Q.
Proof.
  intros q S w B K Q (A & St & H) (Lw & Tw) HK. apply wp_bind. eapply wp_mono; [apply ortho_ok; auto|]. intros q' ((L' & T') & H'). apply wp_bind.
  apply wp_for with (I := fun i w => arr U32 16 w /\ forall n, 0 <= n < 16 * i -> byte (get w (n / 4)) (n mod 4) = get (S (n / 16)) (n mod 16)).
  - lia.
  - split; [split; auto|]. lia.
  - intros i w1 Hi ((L1 & T1) & H1). apply wp_bind, wp_rd; [lia|]. apply wp_bind, wp_rd; [lia|].
    pose proof (typed_get U64 q' i T' ltac:(lia)) as B0. pose proof (typed_get U64 q' (i + 4) T' ltac:(lia)) as B1. cbn [tmin tmax] in B0, B1.
    apply wp_at; [lia|]. eapply wp_mono; [apply interleave_out_ok; [now apply Forall_zskip|rewrite len_zskip; lia|lia|lia]|].
    rewrite len_zskip by lia. intros p (Lp & Tp & Fp & Hp). split.
    + split; [rewrite len_app, len_zfirst by lia; lia|]. apply Forall_app. split; auto. now apply Forall_zfirst.
    + intros n Hn. unfold get at 1. destruct (Z_lt_le_dec n (16 * i)).
      * rewrite znth_app1 by (rewrite len_zfirst by lia; zlia). rewrite znth_zfirst by zlia. apply H1. lia.
      * rewrite znth_app2, len_zfirst by (rewrite ?len_zfirst by lia; zlia). fold (get p (n / 4 - 4 * i)).
        assert (n / 16 = i) as Ei by zlia. rewrite Ei. set (c := n / 4 - 4 * i). set (r := n mod 4). assert (0 <= c < 4) as Hc by (unfold c; zlia). assert (0 <= r < 4) as Hr by (unfold r; zlia).
        assert (n mod 16 = r + 4 * c) as -> by (unfold r, c; clear - Ei; zlia). clearbody c r.
        apply byte_ext; [apply byte_range|eapply arr_get; [apply St; lia|lia]|]. intros k Hk. rewrite testbit_byte by lia. rewrite Hp by lia.
        set (K1 := 16 * ((8 * r + k) / 8) + 8 * (c / 2) + (8 * r + k) mod 8). assert (0 <= K1 < 64) as HK1 by (unfold K1; clear - Hr Hc Hk; zlia).
        assert (K1 mod 8 = k) as E1 by (unfold K1; clear - Hr Hc Hk; zlia). assert (8 * (K1 / 8) = 16 * r + 8 * (c / 2)) as E2 by (unfold K1; clear - Hr Hc Hk; zlia). clearbody K1.
        set (i' := if c mod 2 =? 0 then i else i + 4).
        assert (Z.testbit (if c mod 2 =? 0 then get q' i else get q' (i + 4)) K1 = Z.testbit (get q' i') K1) as -> by (unfold i'; destruct (c mod 2 =? 0); reflexivity).
        assert (8 * (K1 / 8) + i' = 16 * r + 4 * c + i) as E3 by (rewrite E2; unfold i'; clear - Hc; destruct (c mod 2 =? 0) eqn:D; zlia).
        rewrite H' by (auto; unfold i'; destruct (c mod 2 =? 0); lia). rewrite E1, E3, H by lia. f_equal. unfold byte_at. f_equal; [f_equal|]; clear - Hi Hr Hc; zlia.
  - intros w' (A' & Hw). auto.
Qed.

(** ** Rounds *)
Lemma rounds_ok : forall q sk S ks A (K : list Z -> M A) Q, sliced q S -> ksliced sk ks -> (forall i, 0 <= i < 60 -> arr U8 4 (getr ks i)) ->
  (forall q' S', sliced q' S' -> (forall b, S' b = Cipher ks (S b)) -> wp (K q') Q) ->
  wp (q <- add_round_key q sk ;;
      q <- for_ 1 14 (fun i q =>
        q <- bitslice_Sbox q ;; q <- shift_rows q ;; q <- mix_columns q ;; p <- ptr sk (8 * i) ;; add_round_key q p) q ;;
      q <- bitslice_Sbox q ;; q <- shift_rows q ;; p <- ptr sk 112 ;; q <- add_round_key q p ;; K q) Q.
Proof.
  intros q sk S ks A K Q HS ((Lk & Tk) & Hk) Hks HK.
  assert (forall i, 0 <= i < 15 -> typed U64 (zskip (8 * i) sk) /\ 8 <= len (zskip (8 * i) sk) /\
    forall b k, 0 <= b < 8 -> 0 <= k < 64 -> Z.testbit (get (zskip (8 * i) sk) b) k = Z.testbit (rkb ks i k) b) as HP.
  { intros i Hi. split; [now apply Forall_zskip|]. split; [rewrite len_zskip; lia|]. intros b k Hb Hk'. unfold get. rewrite znth_zskip by lia. apply Hk; auto. }
  apply wp_bind. eapply wp_mono; [apply (ark_sliced q sk S ks 0); auto; try lia; intros b k Hb Hk'; apply (Hk 0 b k); auto; lia|]. intros q1 H1. cbv beta in H1.
  apply wp_bind. apply wp_for with (I := fun i q => exists S', sliced q S' /\ forall b, rounds ks (Z.to_nat (14 - i)) i (S' b) = rounds ks 13 1 (AddRoundKey (S b) (round_key ks 0))).
  - lia.
  - eauto.
  - intros i q2 Hi (S2 & H2 & E2). apply wp_bind. eapply wp_mono; [apply (sub_sliced _ _ H2)|]. intros q3 H3.
    apply wp_bind. eapply wp_mono; [apply (shift_sliced _ _ H3)|]. intros q4 H4.
    apply wp_bind. eapply wp_mono; [apply (mix_sliced _ _ H4)|]. intros q5 H5. cbv beta in H5.
    apply wp_bind, wp_ptr; [lia|]. destruct (HP i ltac:(lia)) as (P1 & P2 & P3). eapply wp_mono; [eapply (ark_sliced _ _ _ ks i H5); auto; lia|].
    intros q6 H6. eexists. split; [exact H6|]. intros b. rewrite <- E2. replace (Z.to_nat (14 - i)) with (Datatypes.S (Z.to_nat (14 - (i + 1)))) by lia. reflexivity.
  - intros q2 (S2 & H2 & E2). apply wp_bind. eapply wp_mono; [apply (sub_sliced _ _ H2)|]. intros q3 H3.
    apply wp_bind. eapply wp_mono; [apply (shift_sliced _ _ H3)|]. intros q4 H4. cbv beta in H4.
    apply wp_bind, wp_ptr; [lia|]. destruct (HP 14 ltac:(lia)) as (P1 & P2 & P3). apply wp_bind. eapply wp_mono; [eapply (ark_sliced _ _ _ ks 14 H4); auto; lia|].
    intros q6 H6. eapply HK; [exact H6|]. intros b. unfold Cipher. rewrite <- E2. reflexivity.
Qed.

(** ** The counter *)
(** The four counter blocks for counter values j, ..., j + 3. *)
Definition ivw_ok (ivw nonce : list Z) (j : Z) : Prop :=
  arr U32 16 ivw /\ forall b, 0 <= b < 4 ->
    (forall c r, 0 <= c < 3 -> 0 <= r < 4 -> byte (get ivw (4 * b + c)) r = get nonce (4 * c + r)) /\
    (forall r, 0 <= r < 4 -> byte (get ivw (4 * b + 3)) r = byte ((j + b) mod 2 ^ 32) (3 - r)).

Lemma get_be4 : forall v r, 0 <= v < 2 ^ 32 -> 0 <= r < 4 -> get (be 4 v) r = byte v (3 - r).
Proof.
  intros v r Hv. revert r. change (be 4 v) with [v / 256 / 256 / 256 mod 256; v / 256 / 256 mod 256; v / 256 mod 256; v mod 256].
  rewrite !Z.div_div by lia. apply ind4; reflexivity || (symmetry; apply byte_0).
Qed.

Lemma ivw_block : forall ivw nonce j b, ivw_ok ivw nonce j -> 12 <= len nonce -> 0 <= b < 4 -> wst ivw b = zfirst 12 nonce ++ be 4 ((j + b) mod 2 ^ 32).
Proof.
  intros ivw nonce j b (A & H) Ln Hb. destruct (H b Hb) as (H1 & H2). unfold wst.
  apply znth_ext with (d := 0); [rewrite len_app, len_ztab, len_zfirst, len_be by lia; reflexivity|]. intros i Hi. rewrite len_ztab in Hi by lia. rewrite znth_ztab by lia.
  destruct (Z_lt_le_dec i 12).
  - rewrite znth_app1 by (rewrite len_zfirst; lia). rewrite znth_zfirst by lia. rewrite H1 by zlia. unfold get. f_equal. zlia.
  - rewrite znth_app2, len_zfirst by (rewrite ?len_zfirst; lia). replace (i / 4) with 3 by zlia. rewrite H2 by zlia.
    fold (get (be 4 ((j + b) mod 2 ^ 32)) (i - 12)). rewrite get_be4 by zlia. f_equal. zlia.
Qed.

Lemma wp_inc4 : forall x v (Q : list Z -> Prop), 1 <= len x -> typed U32 x -> 0 <= v < 2 ^ 32 -> (forall r, 0 <= r < 4 -> byte (get x 0) r = byte v (3 - r)) ->
  (forall y, 0 <= y < 2 ^ 32 -> (forall r, 0 <= r < 4 -> byte y r = byte ((v + 4) mod 2 ^ 32) (3 - r)) -> Q (upd x 0 y)) -> wp (inc4_be x) Q.
Proof.
  intros x v Q L T Bv H HQ. unfold inc4_be. pose proof (typed_get U32 x 0 T ltac:(lia)) as B0.
  apply wp_bind, swap32_ok; [reflexivity|cbn [lok]; repeat split; auto; lia|]. intros v' Bv' Hv'. cbn [val] in Hv'. rewrite wrap_id in Hv' by auto.
  assert (v' = v) as ->.
  { apply word_ext; auto. intros j Hj. rewrite Hv', H by lia. f_equal. lia. }
  apply wp_bind, wp_st; [reflexivity|cbn [lok tmin tmax]; repeat split; lia|lia|].
  assert (wrap U32 (val (Var U32 v + #4)%C) = (v + 4) mod 2 ^ 32) as ->.
  { change (val (Var U32 v + #4)%C) with ((v + 4) mod 2 ^ 32). apply wrap_id. pose proof (Z.mod_pos_bound (v + 4) (2 ^ 32)). cbn [tmin tmax]. lia. }
  pose proof (Z.mod_pos_bound (v + 4) (2 ^ 32) ltac:(lia)) as Bs. set (s := (v + 4) mod 2 ^ 32) in *. clearbody s.
  apply wp_bind, swap32_ok; [reflexivity|cbn [lok]; repeat split; rewrite ?len_upd; try lia; apply typed_upd; auto; cbn [tmin tmax]; lia|].
  intros y By Hy. cbn [val] in Hy. unfold get in Hy at 1. rewrite znth_upd_same in Hy by lia. rewrite wrap_id in Hy by (cbn [tmin tmax]; lia).
  apply wp_st; [reflexivity|cbn [lok tmin tmax]; lia|rewrite len_upd; lia|]. cbn [val]. rewrite wrap_id by (cbn [tmin tmax]; lia).
  replace (upd (upd x 0 s) 0 y) with (upd x 0 y) by (destruct x; reflexivity). apply HQ; auto.
Qed.

(** One of the four counters advances. *)
Lemma wp_inc_at : forall ivw o v (Q : list Z -> Prop), arr U32 16 ivw -> 0 <= o < 16 -> 0 <= v < 2 ^ 32 -> (forall r, 0 <= r < 4 -> byte (get ivw o) r = byte v (3 - r)) ->
  (forall y, 0 <= y < 2 ^ 32 -> (forall r, 0 <= r < 4 -> byte y r = byte ((v + 4) mod 2 ^ 32) (3 - r)) -> Q (upd ivw o y)) -> wp (at_ ivw o inc4_be) Q.
Proof.
  intros ivw o v Q (L & T) Ho Bv H HQ. apply wp_at; [lia|]. apply (wp_inc4 _ v); auto; [rewrite len_zskip; lia|now apply Forall_zskip| |].
  - intros r Hr. unfold get in *. rewrite znth_zskip, Z.add_0_r by lia. auto.
  - intros y By Hy. replace (zfirst o ivw ++ upd (zskip o ivw) 0 y) with (upd ivw o y); [auto|].
    apply znth_ext with (d := 0); [rewrite len_app, !len_upd, len_zfirst, len_zskip by lia; lia|]. intros i Hi. rewrite len_upd in Hi. rewrite znth_upd by lia.
    destruct (i =? o) eqn:D.
    + rewrite znth_app2, len_zfirst by (rewrite ?len_zfirst; lia). replace (i - o) with 0 by lia. rewrite znth_upd_same by (rewrite len_zskip; lia). reflexivity.
    + destruct (Z_lt_le_dec i o).
      * rewrite znth_app1 by (rewrite len_zfirst; lia). now rewrite znth_zfirst by lia.
      * rewrite znth_app2, len_zfirst by (rewrite ?len_zfirst; lia). rewrite znth_upd_diff by lia. rewrite znth_zskip by lia. f_equal. lia.
Qed.

Lemma inc_all : forall ivw nonce j A (K : list Z -> M A) Q, ivw_ok ivw nonce j -> (forall ivw', ivw_ok ivw' nonce (j + 4) -> wp (K ivw') Q) ->
  wp (ivw <- at_ ivw 3 inc4_be ;; ivw <- at_ ivw 7 inc4_be ;; ivw <- at_ ivw 11 inc4_be ;; ivw <- at_ ivw 15 inc4_be ;; K ivw) Q.
Proof.
  intros ivw nonce j A K Q ((L & T) & H) HQ.
  assert (forall b, 0 <= (j + b) mod 2 ^ 32 < 2 ^ 32) as BM by (intros b; apply Z.mod_pos_bound; lia).
  apply wp_bind. apply (wp_inc_at _ 3 ((j + 0) mod 2 ^ 32)); [split; auto|lia|auto|intros r Hr; apply (H 0); lia|]. intros y0 B0 Y0.
  apply wp_bind. apply (wp_inc_at _ 7 ((j + 1) mod 2 ^ 32)); [split; [now rewrite len_upd|apply typed_upd; auto; cbn [tmin tmax]; lia]|lia|auto| |].
  { intros r Hr. unfold get. rewrite znth_upd_diff by lia. apply (H 1); lia. } intros y1 B1 Y1.
  apply wp_bind. apply (wp_inc_at _ 11 ((j + 2) mod 2 ^ 32)); [split; [now rewrite !len_upd|repeat apply typed_upd; auto; cbn [tmin tmax]; lia]|lia|auto| |].
  { intros r Hr. unfold get. rewrite !znth_upd_diff by lia. apply (H 2); lia. } intros y2 B2 Y2.
  apply wp_bind. apply (wp_inc_at _ 15 ((j + 3) mod 2 ^ 32)); [split; [now rewrite !len_upd|repeat apply typed_upd; auto; cbn [tmin tmax]; lia]|lia|auto| |].
  { intros r Hr. unfold get. rewrite !znth_upd_diff by lia. apply (H 3); lia. } intros y3 B3 Y3.
  apply HQ. split; [split; [now rewrite !len_upd|repeat apply typed_upd; auto; cbn [tmin tmax]; lia]|].
  intros b Hb. split.
  - intros c r Hc Hr. unfold get at 1. rewrite !znth_upd_diff by lia. apply (H b); lia.
  - assert (forall d, (j + 4 + d) mod 2 ^ 32 = ((j + d) mod 2 ^ 32 + 4) mod 2 ^ 32) as E by (intros d; rewrite Zplus_mod_idemp_l; f_equal; lia). rewrite E. clear E.
    intros r Hr. assert (b = 0 \/ b = 1 \/ b = 2 \/ b = 3) as [-> | [-> | [-> | ->]]] by lia; unfold get.
    + rewrite !znth_upd_diff by lia. rewrite znth_upd_same by lia. auto.
    + rewrite (znth_upd_diff _ _ 15), (znth_upd_diff _ _ 11) by lia. rewrite znth_upd_same by (rewrite ?len_upd; lia). auto.
    + rewrite (znth_upd_diff _ _ 15) by lia. rewrite znth_upd_same by (rewrite ?len_upd; lia). auto.
    + rewrite znth_upd_same by (rewrite ?len_upd; lia). auto.
Qed.

(** ** The whole function *)
Lemma aes_ctr4x_ok : forall junk out ivw sk key nonce j (Q : list Z * list Z -> Prop),
  arr U8 32 key -> 12 <= len nonce -> 64 <= len out -> ksliced sk (KeyExpansion key) -> ivw_ok ivw nonce j -> 0 <= j ->
  (forall ivw', ivw_ok ivw' nonce (j + 4) -> Q (ctr_stream key nonce (16 * j) 64 ++ zskip 64 out, ivw')) ->
  wp (aes_ctr4x junk out ivw sk) Q.
Proof.
  intros junk out ivw sk key nonce j Q Hkey Ln Lo Hsk Hiv Hj HQ. unfold aes_ctr4x. pose proof Hiv as ((Li & Ti) & _).
  pose proof (uninit__arr U32 junk 0 16 ltac:(lia)) as (Lw & _). pose proof (uninit__arr U64 junk 1 8 ltac:(lia)) as (Lq & _).
  apply wp_bind, wp_memcpy; [lia|lia|]. replace (zfirst 16 ivw ++ zskip 16 (uninit_ U32 junk 0 16)) with ivw.
  2: { rewrite zfirst_ge by lia. unfold zskip. rewrite skipn_all2 by (unfold len in Lw; lia). now rewrite app_nil_r. }
  apply load_ok; [exact Lq|split; auto|]. intros q HS.
  apply (rounds_ok q sk (wst ivw) (KeyExpansion key)); auto; [now apply KE_arr|]. intros q' S' HS' ES.
  apply (store_ok q' S'); auto; [split; auto|]. intros w' (Lw' & Tw') Hw'.
  apply wp_bind. apply range_enc32le_ok; [lia|lia|auto|]. change (4 * 16) with 64.
  apply (inc_all ivw nonce j); auto. intros ivw' Hiv'. apply wp_ret.
  replace (ztab 64 (fun i => byte (get w' (i / 4)) (i mod 4))) with (ctr_stream key nonce (16 * j) 64); [auto|].
  unfold ctr_stream. apply ztab_ext. intros i Hi. rewrite Hw', ES by auto. unfold ctr_byte, ctr_block, AES256.
  rewrite (ivw_block _ nonce j) by (auto; zlia). replace ((16 * j + i) / 16) with (j + i / 16) by zlia. replace ((16 * j + i) mod 16) with (i mod 16) by zlia. reflexivity.
Qed.
