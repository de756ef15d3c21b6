(** [verify] and [cmov]. *)
From Coq Require Import ZArith List Bool Lia.
From Verif Require Import Lib.Arr Lib.CInt Lib.CMon Model.Verify Proof.CbdP.
Import ListNotations.
Local Open Scope Z_scope.

(** Equality of byte strings, decided. *)
Definition list_eqb (a b : list Z) : bool := if list_eq_dec Z.eq_dec a b then true else false.

Lemma list_eqb_iff : forall a b, list_eqb a b = true <-> a = b.
Proof. intros. unfold list_eqb. destruct (list_eq_dec Z.eq_dec a b); split; congruence. Qed.

Lemma zfirst_eq_iff : forall (a b : list Z) n, 0 <= n -> n <= len a -> n <= len b ->
  zfirst n a = zfirst n b <-> (forall k, 0 <= k < n -> get a k = get b k).
Proof.
  intros a b n Hn Ha Hb. split.
  - intros E k Hk. unfold get. rewrite <- (znth_zfirst 0 n a k), <- (znth_zfirst 0 n b k) by lia. now rewrite E.
  - intros H. apply znth_ext with 0; rewrite !len_zfirst by lia; auto. intros k Hk.
    rewrite !znth_zfirst by lia. now apply H.
Qed.

Lemma byte_get : forall a i, typed U8 a -> 0 <= i < len a -> 0 <= get a i <= 255.
Proof. intros. pose proof (typed_get U8 a i H H0). cbn in *. lia. Qed.

Lemma wp_verify : forall a b n (Q : cexp -> Prop), 0 <= n -> n <= len a -> n <= len b -> typed U8 a -> typed U8 b ->
  Q (Var I32 (if list_eqb (zfirst n a) (zfirst n b) then 0 else 1)) -> wp (verify a b n) Q.
Proof.
  intros a b n Q Hn La Lb Ta Tb HQ. unfold verify.
  apply wp_bind, wp_asgv with (v := 0); [reflexivity|cbn; lia|reflexivity|cbn; lia|].
  apply wp_bind, wp_for with (I := fun i r => exists z, r = Var U64 z /\ 0 <= z <= 255 /\
     (z = 0 <-> forall k, 0 <= k < i -> get a k = get b k)).
  - lia.
  - exists 0. repeat split; auto; try lia.
  - intros i r Hi (z & -> & Bz & Hz).
    pose proof (byte_get a i Ta ltac:(lia)). pose proof (byte_get b i Tb ltac:(lia)).
    pose proof (lxor_bound (get a i) (get b i) 255 ltac:(lia) ltac:(lia)) as X.
    change (2 ^ (Z.log2 255 + 1) - 1) with 255 in X.
    pose proof (lor_bound z (Z.lxor (get a i) (get b i)) 255 ltac:(lia) ltac:(lia)) as Y.
    change (2 ^ (Z.log2 255 + 1) - 1) with 255 in Y.
    assert (val (Var U64 z .| (Idx U8 a i .^ Idx U8 b i))%C = Z.lor z (Z.lxor (get a i) (get b i))) as V.
    { cbn [val val_bin ty promote common]. unfold cv, uw. cbn [subr signed wrap].
      rewrite Z.mod_small by lia. reflexivity. }
    apply wp_asgv with (v := Z.lor z (Z.lxor (get a i) (get b i))); [reflexivity| |exact V|cbn [tmin tmax]; lia|].
    + cbn [lok tmin tmax]. repeat split; auto; lia.
    + eexists. split; [reflexivity|]. split; [lia|].
      rewrite Z.lor_eq_0_iff, Z.lxor_eq_0_iff, Hz. split.
      * intros (H1 & H2) k Hk. destruct (Z.eq_dec k i); [subst; auto|apply H1; lia].
      * intros H1. split; [intros; apply H1; lia|apply H1; lia].
  - intros r (z & -> & Bz & Hz).
    assert (val (Neg (Var U64 z) .>> #63)%C = if z =? 0 then 0 else 1) as V.
    { cbn [val val_bin ty promote]. unfold cv, uw. cbn [subr signed wrap]. rewrite Z.shiftr_div_pow2 by lia.
      destruct (z =? 0) eqn:E; [assert (z = 0) by lia; subst; reflexivity|].
      replace (- z) with (2 ^ 64 - z + (-1) * 2 ^ 64) by lia. rewrite Z.mod_add by lia. rewrite Z.mod_small by lia.
      symmetry. apply Z.div_unique with (2 ^ 63 - z); lia. }
    apply wp_bind. apply wp_asgv with (v := if z =? 0 then 0 else 1);
      [reflexivity|cbn [lok tmin tmax]; split; lia|exact V|cbn [tmin tmax]; destruct (z =? 0); lia|].
    apply wp_asgv with (v := if z =? 0 then 0 else 1);
      [reflexivity|cbn [lok tmin tmax]; destruct (z =? 0); lia|reflexivity|cbn [tmin tmax]; destruct (z =? 0); lia|].
    replace (if z =? 0 then 0 else 1) with (if list_eqb (zfirst n a) (zfirst n b) then 0 else 1); auto.
    rewrite <- zfirst_eq_iff in Hz by lia. rewrite <- list_eqb_iff in Hz.
    destruct (list_eqb (zfirst n a) (zfirst n b)), (z =? 0) eqn:E; auto.
    + assert (z = 0) by tauto. lia.
    + assert (z = 0) by lia. apply Hz in H. discriminate.
Qed.

(** Result of [cmov]. *)
Definition sel (b n : Z) (r x : list Z) : list Z := if b =? 0 then r else zfirst n x ++ zskip n r.

Lemma wp_cmov : forall r x n b (Q : list Z -> Prop), 0 <= n -> n <= len r -> n <= len x -> typed U8 r -> typed U8 x ->
  b = 0 \/ b = 1 -> Q (sel b n r x) -> wp (cmov r x n (Var U8 b)) Q.
Proof.
  intros r x n b Q Hn Lr Lx Tr Tx Hb HQ. unfold cmov.
  apply wp_bind. apply wp_asg; [reflexivity|cbn; lia|].
  replace (wrap U8 (val (Neg (Var U8 b)))) with (if b =? 0 then 0 else 255) by (destruct Hb; subst; reflexivity).
  apply wp_for with (I := fun i a => len a = len r /\ typed U8 a /\ forall k, 0 <= k < len r ->
    get a k = if (b =? 1) && (k <? i) then get x k else get r k).
  - lia.
  - repeat split; auto. intros k Hk. destruct ((b =? 1) && (k <? 0)) eqn:E; auto. lia.
  - intros i a Hi (La & Ta & Ha). apply wp_st.
    + reflexivity.
    + cbn [lok tmin tmax]. repeat split; auto; try lia; destruct (b =? 0); lia.
    + lia.
    + rewrite len_upd. split; auto. split; [apply typed_upd; auto; apply wrap_range|].
      intros k Hk. unfold get at 1. rewrite znth_upd by lia. destruct (k =? i) eqn:E.
      * assert (k = i) by lia. subst k.
        cbn [val val_bin ty promote common]. unfold cv, uw. cbn [subr signed].
        pose proof (byte_get a i Ta ltac:(lia)). pose proof (byte_get x i Tx ltac:(lia)).
        destruct Hb; subst b; cbn [Z.eqb andb].
        -- rewrite Z.land_0_l, Z.lxor_0_r. rewrite wrap_id by (cbn; lia). rewrite Ha by lia. reflexivity.
        -- replace (i <? i + 1) with true by lia.
           rewrite Z.land_comm. change 255 with (Z.ones 8).
           pose proof (lxor_bound (get x i) (get a i) 255 ltac:(lia) ltac:(lia)) as X.
           change (2 ^ (Z.log2 255 + 1) - 1) with 255 in X.
           rewrite Z.land_ones, Z.mod_small by (try change (2 ^ 8) with 256; lia).
           rewrite (Z.lxor_comm (get x i)), <- Z.lxor_assoc, Z.lxor_nilpotent, Z.lxor_0_l.
           rewrite wrap_id by (cbn; lia). reflexivity.
      * rewrite Ha by lia. replace (k <? i + 1) with (k <? i) by lia. reflexivity.
  - intros a (La & Ta & Ha). unfold sel in HQ.
    replace a with (if b =? 0 then r else zfirst n x ++ zskip n r); auto.
    symmetry. destruct Hb; subst b; cbn [Z.eqb].
    + apply znth_ext with 0; auto. intros k Hk. specialize (Ha k ltac:(lia)). cbn [Z.eqb andb] in Ha. exact Ha.
    + apply znth_ext with 0; [rewrite len_app, len_zfirst, len_zskip by lia; lia|]. intros k Hk.
      specialize (Ha k ltac:(lia)). cbn [Z.eqb andb] in Ha. unfold get in Ha. rewrite Ha. destruct (k <? n) eqn:E.
      * rewrite znth_app1 by (rewrite len_zfirst; lia). now rewrite znth_zfirst by lia.
      * rewrite znth_app2 by (rewrite len_zfirst; lia). rewrite len_zfirst, znth_zskip by lia. replace (n + (k - n)) with k by lia. reflexivity.
Qed.
