(** The random bytes of the Cortex-M0 code. *)
From Coq Require Import ZArith List Bool Lia.
From Verif Require Import Lib.Arr Lib.CInt Lib.CMon Spec.M0Spec Model.Api Model.M0Kem Proof.CbdP Proof.VerifyP.
Import ListNotations.
Local Open Scope Z_scope.

Lemma wp_aschar : forall w h (Q : cexp -> Prop), 0 <= h <= 1 -> Q (Var U16 (half w h)) -> wp (aschar w h) Q.
Proof.
  intros w h Q Hh HQ. unfold aschar.
  assert (wrap U16 w = half w 0) as E0 by (unfold half; change (65536 ^ 0) with 1; now rewrite Z.div_1_r).
  assert (wrap U16 (Z.shiftr w 16) = half w 1) as E1 by (unfold half; rewrite Z.shiftr_div_pow2 by lia; reflexivity).
  destruct (h =? 0) eqn:E; [apply wp_ret; rewrite E0; now replace h with 0 in HQ by lia|].
  replace (h =? 1) with true by lia. apply wp_ret. rewrite E1. now replace h with 1 in HQ by lia.
Qed.

Lemma half_range : forall w h, 0 <= half w h <= 65535.
Proof. intros. unfold half. pose proof (Z.mod_pos_bound (w / 65536 ^ h) 65536). lia. Qed.

Lemma getu : forall l i v j, 0 <= i < len l -> 0 <= j < len l -> get (upd l i v) j = if j =? i then v else get l j.
Proof. intros l i v j Hi Hj. unfold get. destruct (j =? i) eqn:E; [replace j with i by lia; now apply znth_upd_same|apply znth_upd_diff; lia]. Qed.

Lemma wp_prng : forall word x n k (Q : list Z * Z -> Prop), 0 <= n <= len x ->
  Q (ztab n (prng_byte word k n) ++ zskip n x, k + (n + 1) / 2) -> wp (prng_randombytes word x n k) Q.
Proof.
  intros word x n k Q Hn HQ. unfold prng_randombytes.
  set (J := fun (j : Z) (y : list Z) => len y = len x /\ forall i, 0 <= i < len x -> get y i = if i <? j then prng_byte word k n i else get x i).
  set (m := Z.max 0 ((n - 1) / 2)).
  assert (m = 0 /\ n <= 2 \/ m = (n - 1) / 2 /\ 0 < m) as Hm by (unfold m; dlia).
  assert (2 * m <= n /\ n <= 2 * m + 2 /\ (0 < n -> 2 * m < n)) as Hp by (unfold m; dlia).
  apply wp_bind.
  apply wp_while with (m := m) (I := fun t '(y, i, l, k') => J (2 * t) y /\ i = 2 * t /\ l = n - 2 * t /\ k' = k + t).
  - lia.
  - lia.
  - split; [|lia]. split; [reflexivity|]. intros i Hi. now replace (i <? 2 * 0) with false by lia.
  - intros t (((y, i), l), k') Ht (_ & _ & -> & _). lia.
  - intros t (((y, i), l), k') Ht ((Ly & Gy) & -> & -> & ->).
    pose proof (half_range (word (k + t)) 0). pose proof (half_range (word (k + t)) 1).
    apply wp_bind, wp_aschar; [lia|]. apply wp_bind, wp_st; [reflexivity|cbn [lok tmin tmax]; lia|lia|].
    apply wp_bind, wp_aschar; [lia|]. apply wp_bind, wp_st; [reflexivity|cbn [lok tmin tmax]; lia|rewrite len_upd; lia|].
    apply wp_ret. split; [|lia]. split; [now rewrite !len_upd|]. intros j Hj. rewrite !getu by (rewrite ?len_upd; lia).
    unfold cv. cbn [val ty].
    destruct (j =? 2 * t + 1) eqn:E1; [|destruct (j =? 2 * t) eqn:E2].
    + replace (j <? 2 * (t + 1)) with true by lia. unfold prng_byte. cbv zeta.
      replace (j <? 2 * ((n - 1) / 2)) with true by lia. replace (j / 2) with t by dlia. replace (j mod 2) with 1 by dlia. reflexivity.
    + replace (j <? 2 * (t + 1)) with true by lia. unfold prng_byte. cbv zeta.
      replace (j <? 2 * ((n - 1) / 2)) with true by lia. replace (j / 2) with t by dlia. replace (j mod 2) with 0 by dlia. reflexivity.
    + rewrite Gy by auto. replace (j <? 2 * (t + 1)) with (j <? 2 * t) by lia. reflexivity.
  - intros (((y, i), l), k') ((Ly & Gy) & -> & -> & ->). cbn beta iota.
    assert (forall y', len y' = len x -> (forall i, 0 <= i < len x -> get y' i = if i <? n then prng_byte word k n i else get x i) ->
      y' = ztab n (prng_byte word k n) ++ zskip n x) as Fin.
    { intros y' L G. apply znth_ext with 0; [rewrite len_app, len_ztab, len_zskip by lia; lia|]. intros j Hj. fold (get y' j). rewrite G by lia.
      destruct (j <? n) eqn:E.
      - rewrite znth_app1 by (rewrite len_ztab; lia). now rewrite znth_ztab by lia.
      - rewrite znth_app2 by (rewrite len_ztab; lia). rewrite len_ztab by lia. rewrite znth_zskip by lia. unfold get. f_equal. lia. }
    apply wp_ite. destruct (0 <? n - 2 * m) eqn:E.
    + apply wp_bind.
      apply wp_while with (m := n - 2 * m) (I := fun t '(z, i, l) => J (2 * m + t) z /\ i = 2 * m + t /\ l = n - 2 * m - t).
      * lia.
      * lia.
      * split; [|lia]. split; [auto|]. intros j Hj. rewrite Gy by auto. now rewrite Z.add_0_r.
      * intros t ((z, i), l) Ht (_ & _ & ->). lia.
      * intros t ((z, i), l) Ht ((Lz & Gz) & -> & ->). pose proof (half_range (word (k + m)) (n - 2 * m - t - 1)).
        apply wp_bind, wp_aschar; [lia|]. apply wp_bind, wp_st; [reflexivity|cbn [lok tmin tmax]; lia|lia|].
        apply wp_ret. split; [|lia]. split; [now rewrite len_upd|]. intros j Hj. rewrite getu by lia. unfold cv. cbn [val ty].
        destruct (j =? 2 * m + t) eqn:E1.
        -- replace (j <? 2 * m + (t + 1)) with true by lia. unfold prng_byte. cbv zeta.
           replace (j <? 2 * ((n - 1) / 2)) with false by dlia. replace ((n - 1) / 2) with m by dlia. replace (n - 1 - j) with (n - 2 * m - t - 1) by lia. reflexivity.
        -- rewrite Gz by auto. replace (j <? 2 * m + (t + 1)) with (j <? 2 * m + t) by lia. reflexivity.
      * intros ((z, i), l) ((Lz & Gz) & _). cbn beta iota. apply wp_ret.
        rewrite (Fin z Lz); [|intros j Hj; rewrite Gz by auto; now replace (2 * m + (n - 2 * m)) with n by lia].
        replace (k + m + 1) with (k + (n + 1) / 2) by (clear - E Hm Hp; dlia). exact HQ.
    + apply wp_ret. rewrite (Fin y Ly); [|intros j Hj; rewrite Gy by auto; now replace (2 * m) with n by lia].
      replace (k + m) with (k + (n + 1) / 2) by (clear - E Hm Hp; dlia). exact HQ.
Qed.

Lemma prng_byte_range : forall word k n i, 0 <= prng_byte word k n i <= 255.
Proof.
  intros. unfold prng_byte. cbv zeta. destruct (_ <? _); match goal with |- 0 <= ?x mod 256 <= 255 => pose proof (Z.mod_pos_bound x 256); lia end.
Qed.

Lemma C57_source_lemma : forall word, source_ok (prng_source word).
Proof.
  intros word k n Hn. cbn [prng_source fst]. split; [now apply len_ztab|]. apply Forall_ztab. intros i Hi. cbn [tmin tmax]. apply prng_byte_range.
Qed.

Lemma C57_exact_lemma : forall word x n k, 0 <= n <= len x ->
  run (prng_randombytes word x n k) = Some (fst (prng_source word k n) ++ zskip n x, snd (prng_source word k n)).
Proof. intros. apply wp_run_eq. apply wp_prng; auto. Qed.

Lemma C57_zero_lemma : forall word x n k i r k', 0 <= n <= len x -> (forall j, 0 <= word j < 65536) ->
  0 <= i < n -> (i < 2 * ((n - 1) / 2) /\ i mod 2 = 1 \/ i = n - 2 /\ n mod 2 = 0) ->
  run (prng_randombytes word x n k) = Some (r, k') -> get r i = 0.
Proof.
  intros word x n k i r k' Hn Hw Hi Hc E. rewrite C57_exact_lemma in E by auto. cbn [prng_source fst snd] in E. assert (r = ztab n (prng_byte word k n) ++ zskip n x) as -> by congruence.
  unfold get. rewrite znth_app1 by (rewrite len_ztab; lia). rewrite znth_ztab by lia. unfold prng_byte. cbv zeta.
  assert (forall j, half (word j) 1 mod 256 = 0) as H1.
  { intros j. unfold half. change (65536 ^ 1) with 65536. rewrite Z.div_small by apply Hw. reflexivity. }
  destruct Hc as [(H & ->)|(-> & H)].
  - replace (i <? 2 * ((n - 1) / 2)) with true by lia. apply H1.
  - replace (n - 2 <? 2 * ((n - 1) / 2)) with false by dlia. replace (n - 1 - (n - 2)) with 1 by lia. apply H1.
Qed.

Lemma C57_refuted_lemma : exists n i, 0 <= i < n /\ forall word x k, n <= len x -> (forall j, 0 <= word j < 65536) ->
  exists r k', run (prng_randombytes word x n k) = Some (r, k') /\ get r i = 0.
Proof.
  exists 32, 1. split; [lia|]. intros word x k Hn Hw. do 2 eexists. split; [apply C57_exact_lemma; lia|].
  eapply (C57_zero_lemma word x 32 k 1); [lia|auto|lia|left; vm_compute; auto|apply C57_exact_lemma; lia].
Qed.

(** ** verify *)

Lemma wp_m0_verify : forall a b n (Q : cexp -> Prop), 0 <= n -> n <= len a -> n <= len b -> typed U8 a -> typed U8 b ->
  Q (Var I32 (if list_eqb (zfirst n a) (zfirst n b) then 0 else 1)) -> wp (m0_verify a b n) Q.
Proof.
  intros a b n Q Hn La Lb Ta Tb HQ. unfold m0_verify.
  apply wp_bind, wp_asgv with (v := 0); [reflexivity|cbn; lia|reflexivity|cbn; lia|].
  apply wp_bind, wp_for with (I := fun i r => exists z, r = Var U32 z /\ 0 <= z <= 255 /\
     (z = 0 <-> forall k, 0 <= k < i -> get a k = get b k)).
  - lia.
  - exists 0. repeat split; auto; try lia.
  - intros i r Hi (z & -> & Bz & Hz).
    pose proof (byte_get a i Ta ltac:(lia)). pose proof (byte_get b i Tb ltac:(lia)).
    pose proof (lxor_bound (get a i) (get b i) 255 ltac:(lia) ltac:(lia)) as X.
    change (2 ^ (Z.log2 255 + 1) - 1) with 255 in X.
    pose proof (lor_bound z (Z.lxor (get a i) (get b i)) 255 ltac:(lia) ltac:(lia)) as Y.
    change (2 ^ (Z.log2 255 + 1) - 1) with 255 in Y.
    assert (val (Var U32 z .| (Idx U8 a i .^ Idx U8 b i))%C = Z.lor z (Z.lxor (get a i) (get b i))) as V.
    { cbn [val val_bin ty promote common]. unfold cv, uw. cbn [subr signed wrap].
      rewrite Z.mod_small by lia. reflexivity. }
    apply wp_asgv with (v := Z.lor z (Z.lxor (get a i) (get b i))); [reflexivity| |exact V|cbn [tmin tmax]; lia|].
    + cbn [lok tmin tmax]. repeat split; auto; lia.
    + eexists. split; [reflexivity|]. split; [lia|].
      rewrite Z.lor_eq_0_iff, Z.lxor_eq_0_iff, Hz. split.
      * intros (H1 & H2) k Hk. destruct (Z.eq_dec k i); [subst; auto|apply H1; lia].
      * intros H1. split; [intros; apply H1; lia|apply H1; lia].
  - intros r (z & -> & Bz & Hz).
    assert (val (Neg (Var U32 z) .>> #31)%C = if z =? 0 then 0 else 1) as V.
    { cbn [val val_bin ty promote]. unfold cv, uw. cbn [subr signed wrap]. rewrite Z.shiftr_div_pow2 by lia.
      destruct (z =? 0) eqn:E; [assert (z = 0) by lia; subst; reflexivity|].
      replace (- z) with (2 ^ 32 - z + (-1) * 2 ^ 32) by lia. rewrite Z.mod_add by lia. rewrite Z.mod_small by lia.
      symmetry. apply Z.div_unique with (2 ^ 31 - z); lia. }
    apply wp_bind. apply wp_asgv with (v := if z =? 0 then 0 else 1);
      [reflexivity|cbn [lok tmin tmax]; split; lia|exact V|cbn [tmin tmax]; destruct (z =? 0); lia|].
    apply wp_asgv with (v := if z =? 0 then 0 else 1);
      [reflexivity|cbn [lok tmin tmax]; destruct (z =? 0); lia|reflexivity|cbn [tmin tmax]; destruct (z =? 0); lia|].
    replace (if z =? 0 then 0 else 1) with (if list_eqb (zfirst n a) (zfirst n b) then 0 else 1); auto.
    rewrite <- zfirst_eq_iff in Hz by lia. rewrite <- list_eqb_iff in Hz.
    destruct (list_eqb (zfirst n a) (zfirst n b)), (z =? 0) eqn:E; auto.
    + assert (z = 0) by tauto. lia.
    + assert (z = 0) by lia. apply Hz in H. discriminate.
Qed.

(** Result of [cmov]. *)
Definition sel (b n : Z) (r x : list Z) : list Z := if b =? 0 then r else zfirst n x ++ zskip n r.


Lemma C60_lemma : forall a b n, 0 <= n -> n <= len a -> n <= len b -> typed U8 a -> typed U8 b ->
  (zfirst n a = zfirst n b -> run (m0_verify a b n) = Some (Var I32 0)) /\
  (zfirst n a <> zfirst n b -> run (m0_verify a b n) = Some (Var I32 1)).
Proof.
  intros a b n H1 H2 H3 H4 H5.
  assert (run (m0_verify a b n) = Some (Var I32 (if list_eqb (zfirst n a) (zfirst n b) then 0 else 1))) as -> by (apply wp_run_eq; now apply wp_m0_verify).
  unfold list_eqb. destruct (list_eq_dec Z.eq_dec (zfirst n a) (zfirst n b)); split; intros; congruence.
Qed.
