(** rng.c against the specification of the generators. *)
From Coq Require Import ZArith List Bool Lia.
From Verif Require Import Lib.Arr Lib.CInt Lib.CMon Spec.Drbg Model.Params Model.Rng Proof.PackThm Proof.VerifyP Proof.KemP.
From Verif Require Export Proof.BytesP.
Import ListNotations.
Local Open Scope Z_scope.

(** ** The increment loop *)

Lemma wp_incr : forall n pre v post (Q : list Z -> Prop), typed U8 pre -> typed U8 post ->
  Q (pre ++ ben n (v + 1) ++ post) -> wp (incr n (pre ++ ben n v ++ post) (len pre + Z.of_nat n - 1)) Q.
Proof.
  induction n; intros pre v post Q Tp Tq HQ; cbn [incr].
  - apply wp_bind, wp_emit, wp_ret. exact HQ.
  - apply wp_bind, wp_emit. set (V := pre ++ ben (S n) v ++ post). set (j := len pre + Z.of_nat (S n) - 1).
    assert (V = (pre ++ ben n (v / 256)) ++ (v mod 256) :: post) as EV.
    { unfold V. cbn [ben]. rewrite <- !app_assoc. reflexivity. }
    assert (len (pre ++ ben n (v / 256)) = j) as Lj by (rewrite len_app, len_ben; unfold j; lia).
    assert (0 <= j < len V) as Hj by (rewrite EV, len_app, len_cons; pose proof (len_nonneg post); pose proof (len_nonneg (pre ++ ben n (v / 256))); lia).
    assert (get V j = v mod 256) as Gj by (unfold get; rewrite EV, znth_app2, Lj, Z.sub_diag by lia; reflexivity).
    assert (forall x, upd V j x = (pre ++ ben n (v / 256)) ++ x :: post) as U.
    { intros x. assert (Hj' := Hj). rewrite EV in Hj' |- *. clear - Lj Hj'. set (A := pre ++ ben n (v / 256)) in *. clearbody A. apply znth_ext with 0; [rewrite len_upd, !len_app, !len_cons; lia|].
      intros k Hk. rewrite len_upd in Hk. rewrite znth_upd by lia. destruct (k =? j) eqn:Ek.
      - assert (k = j) by lia. subst k. rewrite znth_app2, Lj, Z.sub_diag by lia. reflexivity.
      - destruct (Z_lt_dec k j); [rewrite !znth_app1 by lia; reflexivity|]. rewrite !znth_app2 by lia. rewrite !znth_cons by lia. reflexivity. }
    assert (typed U8 V) as TV.
    { unfold V. apply Forall_app. split; auto. apply Forall_app. split; auto. apply typed_ben. }
    apply wp_bind, wp_rd; auto. rewrite Gj. apply wp_ite. destruct (v mod 256 =? 255) eqn:E.
    + apply wp_bind, wp_st; [reflexivity|cbn; lia|auto|]. rewrite U. change (wrap U8 (val #0)) with 0.
      replace (j - 1) with (len pre + Z.of_nat n - 1) by (unfold j; lia). rewrite <- app_assoc.
      apply IHn; auto; [constructor; [cbn; lia|auto]|]. cbn [ben] in HQ.
      replace ((v + 1) / 256) with (v / 256 + 1) in HQ; [|apply Z.div_unique with 0; pose proof (Z.div_mod v 256); lia].
      replace ((v + 1) mod 256) with 0 in HQ; [|apply Z.mod_unique with (v / 256 + 1); pose proof (Z.div_mod v 256); lia].
      rewrite <- app_assoc in HQ. exact HQ.
    + apply wp_st; [reflexivity|split; [split; auto|cbn; lia]|auto|]. rewrite U.
      cbn [val val_bin ty promote common]. unfold cv, uw. cbn [subr signed].
      rewrite Gj. pose proof (Z.mod_pos_bound v 256 ltac:(lia)).
      rewrite wrap_id by (cbn; lia). cbn [ben] in HQ.
      replace ((v + 1) / 256) with (v / 256) in HQ; [|apply Z.div_unique with (v mod 256 + 1); pose proof (Z.div_mod v 256); lia].
      replace ((v + 1) mod 256) with (v mod 256 + 1) in HQ; [|apply Z.mod_unique with (v / 256); pose proof (Z.div_mod v 256); lia].
      rewrite <- app_assoc in HQ. cbn [app] in HQ. rewrite <- app_assoc. exact HQ.
Qed.

Lemma wp_incr16 : forall v (Q : list Z -> Prop), Q (be 16 (v + 1)) -> wp (incr 16 (be 16 v) 15) Q.
Proof.
  intros v Q HQ. pose proof (wp_incr 16 [] v [] Q ltac:(constructor) ltac:(constructor)) as H.
  rewrite !app_nil_r in H. cbn [app] in H. apply H. exact HQ.
Qed.

Section Gen.
  Variable E : list Z -> list Z -> list Z.
  Hypothesis HE : forall k v, arr U8 16 (E k v).

  Lemma wp_ecb : forall key ctr buf (Q : list Z -> Prop), len key = 32 -> len ctr = 16 -> 16 <= len buf ->
    Q (E key ctr ++ zskip 16 buf) -> wp (AES256_ECB E key ctr buf) Q.
  Proof.
    intros key ctr buf Q H1 H2 H3 HQ. unfold AES256_ECB. destruct (_ && _) eqn:D; [|lia]. apply wp_ret.
    rewrite !zfirst_all_at by lia. exact HQ.
  Qed.

  Lemma blocks_S : forall K v m, 0 <= m -> blocks E K v (m + 1) = blocks E K v m ++ E K (be 16 (v + 1 + m)).
  Proof.
    intros. unfold blocks. rewrite ztab_split by lia. rewrite concat_app. f_equal. unfold ztab. change (Z.to_nat 1) with 1%nat.
    cbn [seq map concat]. rewrite app_nil_r, Z.add_0_r, be_mod. reflexivity.
  Qed.
  Lemma blocks_0 : forall K v, blocks E K v 0 = [].
  Proof. reflexivity. Qed.
  Lemma arr_blocks : forall K v m, 0 <= m -> arr U8 (16 * m) (blocks E K v m).
  Proof.
    intros K v m Hm. pattern m. apply natlike_ind; auto; clear m Hm.
    - split; [reflexivity|constructor].
    - intros m Hm (L & T). unfold Z.succ. rewrite blocks_S by lia. destruct (HE K (be 16 (v + 1 + m))) as (L' & T').
      split; [rewrite len_app; lia|]. apply Forall_app. auto.
  Qed.

  (** *** CTR_DRBG_Update *)

  Lemma lxor_byte : forall a b, 0 <= a <= 255 -> 0 <= b <= 255 -> 0 <= Z.lxor a b <= 255.
  Proof. intros a b Ha Hb. pose proof (lxor_bound a b 255 Ha Hb) as X. change (2 ^ (Z.log2 255 + 1) - 1) with 255 in X. exact X. Qed.

  Lemma wp_xor48 : forall B x (Q : list Z -> Prop), arr U8 48 B -> 48 <= len x -> typed U8 x ->
    Q (ztab 48 (fun i => Z.lxor (get B i) (get x i))) ->
    wp (for_ 0 48 (fun i temp => st U8 temp i (Idx U8 temp i .^ Idx U8 x i)%C) B) Q.
  Proof.
    intros B x Q (LB & TB) Lx Tx HQ.
    apply wp_for with (I := fun i r => len r = 48 /\ typed U8 r /\ forall k, 0 <= k < 48 -> get r k = if k <? i then Z.lxor (get B k) (get x k) else get B k).
    - lia.
    - repeat split; auto. intros k Hk. destruct (k <? 0) eqn:D; [lia|auto].
    - intros i r Hi (Lr & Tr & Hr). apply wp_st; [reflexivity|cbn [lok]; repeat split; auto; lia|lia|].
      rewrite len_upd. split; auto. split; [apply typed_upd; auto; apply wrap_range|]. intros k Hk.
      unfold get at 1. rewrite znth_upd by lia. destruct (k =? i) eqn:D.
      + assert (k = i) by lia. subst k. replace (i <? i + 1) with true by lia.
        cbn [val val_bin ty promote common]. unfold cv, uw. cbn [subr signed].
        rewrite Hr by lia. replace (i <? i) with false by lia.
        pose proof (lxor_byte (get B i) (get x i) (byte_get B i TB ltac:(lia)) (byte_get x i Tx ltac:(lia))).
        rewrite wrap_id by (cbn [tmin tmax]; lia). reflexivity.
      + change (znth 0 r k) with (get r k). rewrite Hr by lia. replace (k <? i + 1) with (k <? i) by lia. reflexivity.
    - intros r (Lr & Tr & Hr). rewrite <- (ztab_eq 0 r 48 (fun i => Z.lxor (get B i) (get x i))) in HQ; auto.
      intros k Hk. specialize (Hr k ltac:(lia)). replace (k <? 48) with true in Hr by lia. exact Hr.
  Qed.

  Lemma arr_xor48 : forall B x, arr U8 48 B -> 48 <= len x -> typed U8 x -> arr U8 48 (ztab 48 (fun i => Z.lxor (get B i) (get x i))).
  Proof.
    intros B x (LB & TB) Lx Tx. split; [now apply len_ztab|]. apply Forall_ztab. intros i Hi. cbn [tmin tmax].
    apply lxor_byte; apply byte_get; auto; lia.
  Qed.

  Definition xdata (d : option (list Z)) : list Z := match d with Some x => x | None => zeros 48 end.

  Lemma typed_zeros : forall n, typed U8 (zeros n).
  Proof. intros. apply Forall_forall. intros x Hx. unfold zeros in Hx. apply repeat_spec in Hx. subst. cbn; lia. Qed.

  Definition xbits (s : dstate) (d : list Z) : list Z := ztab 48 (fun i => Z.lxor (get (blocks E (fst s) (snd s) 3) i) (get d i)).
  Lemma update_eq : forall s d, update E s d = (zfirst 32 (xbits s d), be_val (zskip 32 (xbits s d))).
  Proof. reflexivity. Qed.
  Lemma fst_pair : forall A B (p : A * B) a b, p = (a, b) -> fst p = a.
  Proof. intros. now subst. Qed.
  Lemma snd_pair : forall A B (p : A * B) a b, p = (a, b) -> snd p = b.
  Proof. intros. now subst. Qed.

  Lemma arr_update : forall s d, 48 <= len d -> typed U8 d -> arr U8 32 (fst (update E s d)) /\ 0 <= snd (update E s d) < 2 ^ 128.
  Proof.
    intros s d Ld Td. rewrite (fst_pair _ _ _ _ _ (update_eq s d)), (snd_pair _ _ _ _ _ (update_eq s d)).
    destruct (arr_xor48 (blocks E (fst s) (snd s) 3) d (arr_blocks _ _ 3 ltac:(lia)) Ld Td) as (L & T).
    fold (xbits s d) in L, T. set (X := xbits s d) in *. clearbody X. split.
    - split; [rewrite len_zfirst by lia; lia|now apply Forall_zfirst].
    - rewrite <- (be_be_val 16 (zskip 32 X)) by (split; [rewrite len_zskip by lia; lia|now apply Forall_zskip]).
      rewrite be_val_be by lia. change (256 ^ 16) with (2 ^ 128). apply Z.mod_pos_bound. lia.
  Qed.

  Lemma wp_update : forall junk d K v (Q : list Z * list Z -> Prop), len K = 32 ->
    (match d with Some x => 48 <= len x /\ typed U8 x | None => True end) ->
    Q (fst (update E (K, v) (xdata d)), be 16 (snd (update E (K, v) (xdata d)))) ->
    wp (AES256_CTR_DRBG_Update E junk d K (be 16 v)) Q.
  Proof.
    intros junk d K v Q LK Hd HQ. unfold AES256_CTR_DRBG_Update.
    assert (len (uninit8 junk 0 48) = 48) as L0 by now apply uninit8_arr.
    apply wp_bind. apply wp_for with (I := fun i '(V, temp) => V = be 16 (v + i) /\ temp = blocks E K v i ++ zskip (16 * i) (uninit8 junk 0 48)).
    - lia.
    - split; [now rewrite Z.add_0_r|]. reflexivity.
    - intros i (V & temp) Hi (-> & ->). apply wp_bind, wp_incr16. destruct (arr_blocks K v i ltac:(lia)) as (Lb & Tb).
      apply wp_bind, wp_at; [rewrite len_app, len_zskip by lia; lia|]. rewrite zskip_app_at, zfirst_app_at by auto.
      apply wp_ecb; [auto|now apply len_be|rewrite len_zskip by lia; lia|]. apply wp_ret. split; [f_equal; lia|].
      rewrite blocks_S by lia. rewrite zskip_zskip by lia. rewrite <- app_assoc. f_equal. f_equal; [do 2 f_equal; lia|f_equal; lia].
    - intros (V & temp) (-> & ->). rewrite (zskip_all (16 * 3)) by lia. rewrite app_nil_r.
      pose proof (arr_blocks K v 3 ltac:(lia)) as AB. set (B := blocks E K v 3) in *.
      assert (48 <= len (xdata d) /\ typed U8 (xdata d)) as (Lx & Tx).
      { destruct d as [x|]; cbn [xdata]; [exact Hd|]. split; [rewrite len_zeros; lia|apply typed_zeros]. }
      pose proof (arr_xor48 B (xdata d) AB Lx Tx) as (LX & TX).
      set (X := ztab 48 _) in *.
      apply wp_bind. assert (wp (match d with
        | Some data => emit (Br true) ;; for_ 0 48 (fun i temp => st U8 temp i (Idx U8 temp i .^ Idx U8 data i)%C) B
        | None => emit (Br false) ;; ret B end)%M (fun r => r = X)) as W.
      { destruct d as [x|]; apply wp_bind, wp_emit.
        - destruct Hd. apply wp_xor48; auto.
        - apply wp_ret. unfold X. apply ztab_eq with 0; [apply AB|]. intros i Hi. cbn [xdata]. rewrite get_zeros, Z.lxor_0_r. reflexivity. }
      eapply wp_mono; [exact W|]. cbn beta. intros r ->.
      apply wp_bind, wp_memcpy; [lia|lia|]. apply wp_bind, wp_ptr; [lia|].
      apply wp_bind, wp_memcpy; [rewrite len_be by lia; lia|rewrite len_zskip by lia; lia|]. apply wp_ret.
      rewrite (zskip_all 32 K) by lia. rewrite (zskip_all 16 (be 16 (v + 3))) by (rewrite len_be; lia). rewrite !app_nil_r.
      rewrite (zfirst_all_at 16 (zskip 32 X)) by (rewrite len_zskip by lia; lia).
      rewrite (fst_pair _ _ _ _ _ (update_eq (K, v) (xdata d))), (snd_pair _ _ _ _ _ (update_eq (K, v) (xdata d))) in HQ.
      change (xbits (K, v) (xdata d)) with X in HQ.
      rewrite be_be_val in HQ; [exact HQ|]. split; [rewrite len_zskip by lia; lia|now apply Forall_zskip].
  Qed.

  (** *** randombytes_init *)

  Lemma wp_init : forall junk ctx entropy pers (Q : drbg -> Prop), len (d_Key ctx) = 32 -> len (d_V ctx) = 16 ->
    48 <= len entropy -> typed U8 entropy ->
    (match pers with Some x => 48 <= len x /\ typed U8 x | None => True end) ->
    (let s := instantiate E entropy (xdata pers) in Q (Drbg (fst s) (be 16 (snd s)) 1)) ->
    wp (randombytes_init E junk ctx entropy pers) Q.
  Proof.
    intros junk ctx ent pers Q LK LV Le Te Hp HQ. unfold randombytes_init.
    assert (len (uninit8 junk 0 48) = 48) as L0 by now apply uninit8_arr.
    apply wp_bind, wp_memcpy; [lia|lia|]. rewrite (zskip_all 48) by lia. rewrite app_nil_r.
    assert (arr U8 48 (zfirst 48 ent)) as AE by (split; [rewrite len_zfirst by lia; lia|now apply Forall_zfirst]).
    assert (48 <= len (xdata pers) /\ typed U8 (xdata pers)) as (Lx & Tx).
    { destruct pers as [x|]; cbn [xdata]; [exact Hp|]. split; [rewrite len_zeros; lia|apply typed_zeros]. }
    pose proof (arr_xor48 _ (xdata pers) AE Lx Tx) as (LX & TX). 
    assert (ztab 48 (fun i => Z.lxor (get (zfirst 48 ent) i) (get (xdata pers) i)) = ztab 48 (fun i => Z.lxor (get ent i) (get (xdata pers) i))) as EX.
    { apply ztab_ext. intros i Hi. unfold get. rewrite znth_zfirst by lia. reflexivity. }
    rewrite EX in *. set (X := ztab 48 _) in *.
    apply wp_bind. assert (wp (match pers with
        | Some ps => emit (Br true) ;; for_ 0 48 (fun i s => st U8 s i (Idx U8 s i .^ Idx U8 ps i)%C) (zfirst 48 ent)
        | None => emit (Br false) ;; ret (zfirst 48 ent) end)%M (fun r => r = X)) as W.
    { destruct pers as [x|]; apply wp_bind, wp_emit.
      - destruct Hp. apply wp_xor48; auto.
      - apply wp_ret. unfold X. apply ztab_eq with 0; [apply AE|]. intros i Hi. cbn [xdata]. rewrite get_zeros, Z.lxor_0_r.
        unfold get. rewrite znth_zfirst by lia. reflexivity. }
    eapply wp_mono; [exact W|]. cbn beta. intros r ->.
    apply wp_bind, wp_memset; [lia|]. apply wp_bind, wp_memset; [lia|].
    rewrite !zskip_all by lia. rewrite !app_nil_r. change (repeat 0 (Z.to_nat 16)) with (be 16 0). change (repeat 0 (Z.to_nat 32)) with (zeros 32).
    apply wp_bind, wp_update; [reflexivity|split; [lia|auto]|]. apply wp_ret. exact HQ.
  Qed.

  (** *** randombytes *)

  Lemma wp_add32 : forall a b (Q : Z -> Prop), - 2 ^ 31 <= a < 2 ^ 31 -> 0 <= b < 2 ^ 31 -> a + b < 2 ^ 31 -> Q (a + b) ->
    wp (ev (Var I32 a + Cst I32 b)%C) Q.
  Proof.
    intros a b Q Ha Hb Hab HQ. cbn [ev]. apply wp_bind, wp_ret, wp_bind, wp_ret.
    eapply wp_lift; [|exact HQ]. unfold eval_bin. cbn [ty promote common]. rewrite !wrap_id by (cbn [tmin tmax]; lia).
    unfold arith, inr. cbn [signed tmin tmax]. destruct (_ && _) eqn:D; [reflexivity|lia].
  Qed.

  Lemma wp_randombytes : forall junk K v rc x n (Q : drbg * list Z * Z -> Prop), len K = 32 -> - 2 ^ 31 <= rc < 2 ^ 31 - 1 ->
    0 <= n < 2 ^ 31 -> n <= len x ->
    (let '(out, s) := generate E (K, v) n in Q (Drbg (fst s) (be 16 (snd s)) (rc + 1), out ++ zskip n x, RNG_SUCCESS)) ->
    wp (randombytes E junk (Drbg K (be 16 v) rc) x n) Q.
  Proof.
    intros junk K v rc x0 n Q LK Hrc Hn Lx HQ. unfold randombytes. cbn [d_Key d_V d_rc].
    assert (len (uninit8 junk 0 16) = 16) as L0 by now apply uninit8_arr.
    set (m := (n + 15) / 16). assert (0 <= m) by (apply Z.div_pos; lia). assert (16 * m <= n + 15 < 16 * m + 16) as Hm.
    { pose proof (Z.div_mod (n + 15) 16 ltac:(lia)). pose proof (Z.mod_pos_bound (n + 15) 16 ltac:(lia)). fold m in H0. lia. }
    apply wp_bind. apply wp_while with (m := m) (I := fun k '(V, block, x, i, xlen) => V = be 16 (v + k) /\ len block = 16 /\
        x = zfirst n (blocks E K v k) ++ zskip (Z.min (16 * k) n) x0 /\ xlen = Z.max 0 (n - 16 * k) /\ (16 * k <= n -> i = 16 * k)).
    - lia.
    - rewrite Nat2Z.inj_succ, Z2Nat.id by lia. lia.
    - repeat split; auto; [now rewrite Z.add_0_r| |lia].
      rewrite blocks_0. replace (Z.min (16 * 0) n) with 0 by lia. unfold zfirst, zskip. rewrite firstn_nil. reflexivity.
    - intros k ((((V, block), x), i), xlen) Hk (-> & Lb & -> & -> & Hi). apply Bool.eq_iff_eq_true. lia.
    - intros k ((((V, block), x), i), xlen) Hk (-> & Lb & -> & -> & Hi). rewrite Hi in * by lia. clear Hi i.
      destruct (arr_blocks K v k ltac:(lia)) as (LB & TB). destruct (HE K (be 16 (v + k + 1))) as (LE & TE).
      apply wp_bind, wp_incr16. apply wp_bind, wp_ecb; [auto|now apply len_be|lia|]. rewrite (zskip_all 16 block), app_nil_r by lia.
      rewrite (zfirst_ge n (blocks E K v k)) by lia. rewrite Z.max_r, Z.min_l by lia.
      apply wp_ite. destruct (15 <? n - 16 * k) eqn:D.
      + apply wp_bind, wp_at; [rewrite len_app, len_zskip by lia; lia|]. rewrite zskip_app_at, zfirst_app_at by auto.
        apply wp_memcpy; [rewrite len_zskip by lia; lia|lia|]. rewrite zskip_zskip by lia. rewrite (zfirst_all_at 16) by lia.
        apply wp_bind, wp_add32; [lia|lia|lia|]. apply wp_ret. repeat split; [f_equal; lia|auto| |lia|lia].
        rewrite blocks_S by lia. replace (v + 1 + k) with (v + k + 1) by lia.
        rewrite (zfirst_ge n) by (rewrite len_app; lia). rewrite <- app_assoc. do 3 f_equal. lia.
      + apply wp_bind, wp_at; [rewrite len_app, len_zskip by lia; lia|]. rewrite zskip_app_at, zfirst_app_at by auto.
        apply wp_memcpy; [rewrite len_zskip by lia; lia|lia|]. rewrite zskip_zskip by lia.
        apply wp_ret. repeat split; [f_equal; lia|auto| |lia|lia].
        rewrite blocks_S by lia. replace (v + 1 + k) with (v + k + 1) by lia. rewrite app_assoc. f_equal; [|f_equal; lia].
        unfold zfirst. rewrite firstn_app. unfold len in LB. f_equal; [symmetry; apply firstn_all2; lia|]. f_equal. lia.
    - intros ((((V, block), x), i), xlen) (-> & Lb & -> & -> & Hi).
      apply wp_bind, wp_update; [auto|exact I|]. apply wp_bind, wp_add32; [lia|lia|lia|]. apply wp_ret.
      unfold generate in HQ. unfold cdiv in HQ. replace (n + 16 - 1) with (n + 15) in HQ by lia. fold m in HQ. cbn [fst snd] in HQ.
      replace (Z.min (16 * m) n) with n by lia. cbn [xdata]. exact HQ.
  Qed.
End Gen.
