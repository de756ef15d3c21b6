(** Matrix and vector arithmetic, expansion of the matrix and of the secrets. *)
From Coq Require Import ZArith List Bool Lia.
From Verif Require Import Lib.Arr Lib.CInt Lib.CMon Spec.Bits Spec.Ring Spec.Sampling Spec.Saber Model.Params Model.Pack Model.Cbd
  Model.PolyMul Model.Poly Proof.PackP Proof.PackThm Proof.Conv Proof.KaraP Proof.ToomP Proof.CbdP.
Import ListNotations.
Local Open Scope Z_scope.

(** A square matrix of polynomials. *)
Definition mat (t : ity) (n : Z) (A : list (list (list Z))) : Prop := len A = n /\ Forall (vec t n) A.
Definition mat_mem (n : Z) (A : list (list (list Z))) : Prop := len A = n /\ Forall (vec_mem n) A.

Lemma mat_row : forall t n A i, mat t n A -> 0 <= i < n -> vec t n (znth [] A i).
Proof. intros t n A i (L & F) Hi. apply Forall_znth with (P := vec t n); auto. lia. Qed.
Lemma mat_mem_row : forall n A i, mat_mem n A -> 0 <= i < n -> vec_mem n (znth [] A i).
Proof. intros n A i (L & F) Hi. apply Forall_znth with (P := vec_mem n); auto. lia. Qed.

(** ** Inner product *)

Lemma len_inner : forall n a b, len (inner n a b) = 256.
Proof. intros [|n] a b; cbn [inner]; [now apply len_zeros|now apply len_ztab]. Qed.

Lemma get_inner_S : forall n a b k, 0 <= n -> 0 <= k < 256 ->
  get (inner (Z.to_nat (n + 1)) a b) k = get (inner (Z.to_nat n) a b) k + mul_coef (getr a n) (getr b n) k.
Proof.
  intros. replace (Z.to_nat (n + 1)) with (S (Z.to_nat n)) by lia. cbn [inner]. rewrite Z2Nat.id by lia.
  unfold padd, get at 1. rewrite znth_ztab by auto. f_equal. unfold pmul, get. now rewrite znth_ztab.
Qed.

Lemma get_inner_0 : forall a b k, get (inner (Z.to_nat 0) a b) k = 0.
Proof. intros. apply get_zeros. Qed.

(** Two lists of 256 coefficients congruent modulo [m]. *)
Definition peq (m : Z) (a b : list Z) : Prop := forall k, 0 <= k < 256 -> eqm m (get a k) (get b k).

Lemma acc_step : forall m x y z w d, eqm m x (y + z) -> eqm m y (w + d) -> eqm m x (w + (d + z)).
Proof. intros m x y z w d (p & ->) (q & ->). exists (p + q). ring. Qed.

Lemma wp_InnerProd : forall junk c b s res (Q : list Z -> Prop),
  vec U16 (SABER_L c) b -> vec U16 (SABER_L c) s -> arr U16 256 res ->
  (forall r, arr U16 256 r ->
     (forall k, 0 <= k < 256 -> eqm 8192 (get r k) (get res k + get (inner (Z.to_nat (SABER_L c)) b s) k)) -> Q r) ->
  wp (InnerProd junk c b s res) Q.
Proof.
  intros junk c b s res Q Hb Hs Hr HQ. unfold InnerProd. pose proof (cfg_L c).
  apply wp_for with (I := fun j r => arr U16 256 r /\
    forall k, 0 <= k < 256 -> eqm 8192 (get r k) (get res k + get (inner (Z.to_nat j) b s) k)).
  - lia.
  - split; auto. intros k Hk. rewrite get_inner_0, Z.add_0_r. apply eqm_refl.
  - intros j r Hj (Ar & R).
    destruct (vec_getr _ _ _ _ Hb Hj) as (Lb & Tb). destruct (vec_getr _ _ _ _ Hs Hj) as (Ls & Ts).
    apply wp_bind, wp_row with (d := []); [destruct Hb; lia|]. apply wp_bind, wp_row with (d := []); [destruct Hs; lia|].
    apply wp_poly_mul_acc; auto. intros r' Ar' R'. split; auto. intros k Hk. rewrite get_inner_S by lia.
    eapply acc_step; [apply R'; auto|apply R; auto].
  - intros r (Ar & R). auto.
Qed.

(** ** Matrix-vector product *)

Lemma len_mat_vec : forall n A s, 0 <= n -> len (mat_vec n A s) = n.
Proof. intros. now apply len_ztab. Qed.

Lemma getr_mat_vec : forall n A s i, 0 <= i < n -> getr (mat_vec n A s) i = inner (Z.to_nat n) (znth [] A i) s.
Proof. intros. unfold getr, mat_vec. now rewrite znth_ztab. Qed.

Lemma getr_transpose : forall n A i j, 0 <= i < n -> 0 <= j < n ->
  getr (znth [] (transpose n A) i) j = getr (znth [] A j) i.
Proof. intros. unfold transpose. rewrite znth_ztab by auto. unfold getr at 1. now rewrite znth_ztab. Qed.

Lemma vec_upd : forall t n v i r, vec t n v -> len r = 256 -> typed t r -> vec t n (upd v i r).
Proof. intros t n v i r (L & F) Hl Ht. split; [now rewrite len_upd|]. apply Forall_upd; auto. Qed.

Definition tmat (n : Z) (tr : Z) (A : list (list (list Z))) := if tr =? 1 then transpose n A else A.

Lemma wp_MatrixVectorMul : forall junk c A s res tr (Q : list (list Z) -> Prop),
  mat U16 (SABER_L c) A -> vec U16 (SABER_L c) s -> vec U16 (SABER_L c) res ->
  (forall r, vec U16 (SABER_L c) r ->
     (forall i k, 0 <= i < SABER_L c -> 0 <= k < 256 ->
        eqm 8192 (get (getr r i) k)
                 (get (getr res i) k + get (getr (mat_vec (SABER_L c) (tmat (SABER_L c) tr A) s) i) k)) -> Q r) ->
  wp (MatrixVectorMul junk c A s res tr) Q.
Proof.
  intros junk c A s res tr Q HA Hs Hr HQ. unfold MatrixVectorMul. pose proof (cfg_L c). set (n := SABER_L c) in *.
  set (B := tmat n tr A) in *.
  apply wp_for with (I := fun i r => vec U16 n r /\ forall p k, 0 <= p < n -> 0 <= k < 256 ->
     eqm 8192 (get (getr r p) k)
              (get (getr res p) k + if p <? i then get (inner (Z.to_nat n) (znth [] B p) s) k else 0)).
  - lia.
  - split; auto. intros p k Hp Hk. destruct (p <? 0) eqn:E; [lia|]. rewrite Z.add_0_r. apply eqm_refl.
  - intros i r0 Hi (V0 & R0).
    apply wp_for with (I := fun j r => vec U16 n r /\ forall p k, 0 <= p < n -> 0 <= k < 256 ->
     eqm 8192 (get (getr r p) k)
              (get (getr res p) k + if p <? i then get (inner (Z.to_nat n) (znth [] B p) s) k
                                   else if p =? i then get (inner (Z.to_nat j) (znth [] B p) s) k else 0)).
    + lia.
    + split; auto. intros p k Hp Hk. specialize (R0 p k Hp Hk). destruct (p <? i) eqn:E; auto.
      destruct (p =? i); auto. rewrite get_inner_0. auto.
    + intros j r Hj (V & R).
      apply wp_bind.
      assert (wp (ite (tr =? 1) (Aj <- row A j ;; row Aj i)%M (Ai <- row A i ;; row Ai j)%M)
                 (fun a => a = getr (znth [] B i) j)) as W.
      { apply wp_ite. unfold B, tmat. destruct (tr =? 1).
        - apply wp_bind, wp_row with (d := []); [destruct HA; lia|]. apply wp_row with (d := []).
          + destruct (mat_row _ _ _ _ HA Hj). lia.
          + rewrite getr_transpose by auto. reflexivity.
        - apply wp_bind, wp_row with (d := []); [destruct HA; lia|]. apply wp_row with (d := []).
          + destruct (mat_row _ _ _ _ HA Hi). lia.
          + reflexivity. }
      assert (len (getr (znth [] B i) j) = 256 /\ typed U16 (getr (znth [] B i) j)) as (La & Ta).
      { unfold B, tmat. destruct (tr =? 1).
        - rewrite getr_transpose by auto. apply (vec_getr U16 n); auto. now apply mat_row.
        - apply (vec_getr U16 n); auto. now apply mat_row. }
      eapply wp_mono; [exact W|]. cbn beta. intros a ->.
      destruct (vec_getr _ _ _ _ Hs Hj) as (Ls & Ts). destruct (vec_getr _ _ _ _ V Hi) as (Lr & Tr).
      apply wp_bind, wp_row with (d := []); [destruct Hs; lia|].
      apply wp_bind, wp_row with (d := []); [destruct V; lia|].
      apply wp_bind, wp_poly_mul_acc; auto; [split; auto|]. intros r' (Lr' & Tr') R'.
      assert (len r = n) as Hn by apply V.
      apply wp_setrow; [lia|]. split; [now apply vec_upd|].
      intros p k Hp Hk. unfold getr at 1. rewrite znth_upd by lia. destruct (p =? i) eqn:E.
      * assert (p = i) by lia. subst p. replace (i <? i) with false by lia.
        rewrite get_inner_S by lia. eapply acc_step; [apply R'; auto|].
        specialize (R i k Hi Hk). replace (i <? i) with false in R by lia. rewrite Z.eqb_refl in R. apply R.
      * specialize (R p k Hp Hk). rewrite E in R. exact R.
    + intros r (V & R). split; auto. intros p k Hp Hk. specialize (R p k Hp Hk).
      destruct (p <? i) eqn:E1, (p =? i) eqn:E2, (p <? i + 1) eqn:E3; auto; lia.
  - intros r (V & R). apply HQ; auto. intros i k Hi Hk. specialize (R i k Hi Hk).
    rewrite getr_mat_vec by auto. replace (i <? n) with true in R by lia. exact R.
Qed.

(** ** The two-bit sampler *)

Lemma byte_sweep : forall P : Z -> bool, forallb P (ztab 256 (fun i => i)) = true -> forall x, 0 <= x < 256 -> P x = true.
Proof.
  intros P H x Hx. rewrite forallb_forall in H. apply H.
  replace x with (znth 0 (ztab 256 (fun i => i)) x) by now rewrite znth_ztab.
  unfold znth. destruct (x <? 0) eqn:E; [lia|]. apply nth_In. unfold ztab. rewrite map_length, seq_length. lia.
Qed.

Lemma wp_uni : forall s buf (Q : list Z -> Prop), len s = 256 -> 64 <= len buf -> typed U8 buf ->
  Q (map (fun x => x mod 65536) (uni_poly buf)) -> wp (uni s buf) Q.
Proof.
  intros s buf Q Ls Lb Tb HQ. unfold uni. change (256 / 4) with 64.
  apply wp_fill with (k := 4) (t := U16); try lia.
  - intros j Hj. reflexivity.
  - intros j e Hj He. cbn [In] in He.
    repeat (destruct He as [<-|He]; [split; [reflexivity|cbn [lok tmin tmax]; repeat split; auto; lia]|]). contradiction.
  - rewrite (zskip_all (4 * 64)) by lia. rewrite app_nil_r. change (4 * 64) with 256.
    match goal with |- Q ?goal => replace goal with (map (fun x => x mod 65536) (uni_poly buf)); auto end.
    unfold uni_poly. rewrite map_ztab. apply ztab_ext. intros i Hi.
    assert (0 <= i / 4 < 64) by dlia. assert (0 <= i mod 4 < 4) by dlia.
    set (x := get buf (i / 4)).
    assert (0 <= x < 256) as Hx by (pose proof (typed_get U8 buf (i / 4) Tb ltac:(lia)) as T; cbn in T; unfold x; lia).
    assert (uni_coef buf i = Z.b2z (Z.testbit x (2 * (i mod 4))) - 2 * Z.b2z (Z.testbit x (2 * (i mod 4) + 1))) as ->.
    { unfold uni_coef. rewrite (Z.div_mod i 4) at 1 2 by lia. replace (2 * (4 * (i / 4) + i mod 4)) with (8 * (i / 4) + 2 * (i mod 4)) by lia.
      rewrite fbit_at by lia. rewrite <- Z.add_assoc, fbit_at by lia. reflexivity. }
    assert (forall r, 0 <= r < 4 -> r = 0 \/ r = 1 \/ r = 2 \/ r = 3) as C4 by lia.
    destruct (C4 (i mod 4) H0) as [E|[E|[E|E]]]; rewrite E;
    match goal with |- _ = wrap U16 (val ?e) => let e' := eval hnf in e in change e with e' end;
    cbn [val val_bin ty promote common]; unfold cv, uw; cbn [subr signed wrap]; fold x; clearbody x; revert x Hx;
    intros x Hx; match goal with |- ?l = ?r => cut ((l =? r) = true); [lia|] end; revert x Hx;
    match goal with |- forall x, _ -> @?P x = true => exact (byte_sweep P eq_refl) end.
Qed.

(** ** Expansion of the matrix and of the secrets *)

Definition mod16 (v : list (list Z)) : list (list Z) := map (map (fun x => x mod 65536)) v.

(** The stream generator called with a 32-byte seed writes exactly [P outlen seed]. *)
Definition prf_spec (prf : mem -> list Z -> Z -> list Z -> Z -> M (list Z)) (P : Z -> list Z -> list Z) : Prop :=
  forall junk out n inp (Q : list Z -> Prop),
    0 <= n <= len out -> n < 2 ^ 32 -> 32 <= len inp -> typed U8 inp ->
    Q (P n (zfirst 32 inp) ++ zskip n out) -> wp (prf junk out n inp 32) Q.
Definition bytes_fun (P : Z -> list Z -> list Z) : Prop := forall n x, 0 <= n -> arr U8 32 x -> arr U8 n (P n x).

Lemma vec_unpack : forall w n b, 0 <= w <= 16 -> 0 <= n -> vec U16 n (unpack_vec w n b).
Proof.
  intros. apply vec_ztab; auto. intros. split; [apply len_unpack|now apply unpack_typed].
Qed.

Lemma mat_gen : forall w n b, 0 <= w <= 16 -> 0 <= n -> mat U16 n (gen_mat w n b).
Proof.
  intros. split; [now apply len_ztab|]. apply Forall_ztab. intros. now apply vec_unpack.
Qed.

Section Gen.
  Variable prf : mem -> list Z -> Z -> list Z -> Z -> M (list Z).
  Variable P : Z -> list Z -> list Z.
  Hypothesis Hprf : prf_spec prf P.
  Hypothesis HP : bytes_fun P.

  Lemma wp_GenMatrix : forall junk c A seed (Q : list (list (list Z)) -> Prop),
    mat_mem (SABER_L c) A -> 32 <= len seed -> typed U8 seed ->
    Q (gen_mat (SABER_EQ c) (SABER_L c) (P (SABER_L c * SABER_POLYVECBYTES c) (zfirst 32 seed))) ->
    wp (GenMatrix prf junk c A seed) Q.
  Proof.
    intros junk c A seed Q HA Ls Ts HQ. unfold GenMatrix. pose proof (cfg_L c). pose proof (cfg_EQ c).
    rewrite cfg_POLYVECBYTES in *. set (n := SABER_L c) in *. set (w := SABER_EQ c) in *.
    assert (0 <= n * (n * (32 * w))) by nia.
    change SABER_SEEDBYTES with 32.
    apply wp_bind, Hprf; auto; [rewrite uninit_len by lia; lia|nia|].
    rewrite zskip_all by (rewrite uninit_len; lia). rewrite app_nil_r.
    set (buf := P _ _) in *. assert (arr U8 32 (zfirst 32 seed)) as As by (split; [apply len_zfirst; lia|now apply Forall_zfirst]).
    destruct (HP (n * (n * (32 * w))) (zfirst 32 seed) ltac:(lia) As) as (Lb & Tb). fold buf in Lb, Tb.
    apply wp_rows with (d0 := []) (g := fun i => unpack_vec w n (zskip (32 * w * n * i) buf)).
    - destruct HA. lia.
    - intros i a Hi La Ea. apply wp_bind, wp_ptr; [nia|].
      apply wp_bind, wp_row with (d := []); [destruct HA; lia|]. rewrite Ea.
      apply wp_bind, wp_BS2POLVECq.
      + rewrite cfg_POLYVECBYTES. fold n w. rewrite len_zskip by nia. nia.
      + now apply Forall_zskip.
      + now apply mat_mem_row.
      + fold n w. apply wp_setrow; [destruct HA; lia|]. do 3 f_equal. lia.
    - rewrite zskip_all by (destruct HA; lia). now rewrite app_nil_r.
  Qed.

  (** The secret vector as the code expands it. *)
  Definition sec_vec (c : cfg) (stream : list Z) : list (list Z) :=
    if usaber c then gen_vec_u (SABER_L c) stream else gen_vec (SABER_MU c) (SABER_L c) stream.

  Lemma wp_GenSecret : forall junk c s seed (Q : list (list Z) -> Prop),
    vec_mem (SABER_L c) s -> 32 <= len seed -> typed U8 seed ->
    Q (mod16 (sec_vec c (P (SABER_L c * SABER_POLYCOINBYTES c) (zfirst 32 seed)))) ->
    wp (GenSecret prf junk c s seed) Q.
  Proof.
    intros junk c s seed Q Hs Ls Ts HQ. unfold GenSecret. pose proof (cfg_L c).
    assert (SABER_POLYCOINBYTES c = if usaber c then 64 else 32 * SABER_MU c) as EC by (destruct c as [[] [] ?]; reflexivity).
    set (n := SABER_L c) in *. set (w := SABER_POLYCOINBYTES c) in *.
    assert (0 < w <= 320) by (unfold w; destruct c as [[] [] ?]; cbn; lia).
    change SABER_NOISE_SEEDBYTES with 32.
    apply wp_bind, Hprf; auto; [rewrite uninit_len by nia; nia|nia|].
    rewrite zskip_all by (rewrite uninit_len; nia). rewrite app_nil_r.
    set (buf := P _ _) in *. assert (arr U8 32 (zfirst 32 seed)) as As by (split; [apply len_zfirst; lia|now apply Forall_zfirst]).
    destruct (HP (n * w) (zfirst 32 seed) ltac:(nia) As) as (Lb & Tb). fold buf in Lb, Tb.
    apply wp_rows with (d0 := []) (g := fun i => map (fun x => x mod 65536)
      (if usaber c then uni_poly (zskip (64 * i) buf) else cbd_poly (SABER_MU c) (zskip (32 * SABER_MU c * i) buf))).
    - destruct Hs. lia.
    - intros i a Hi La Ea. apply wp_bind, wp_ptr; [nia|].
      apply wp_bind, wp_row with (d := []); [destruct Hs; lia|]. rewrite Ea.
      pose proof (vec_mem_getr _ _ _ Hs Hi) as Li. unfold getr in Li.
      apply wp_bind. destruct (usaber c).
      + apply wp_uni; auto; [rewrite len_zskip by nia; nia|now apply Forall_zskip|].
        apply wp_setrow; [destruct Hs; lia|]. do 4 f_equal. lia.
      + apply wp_cbd; auto; [rewrite len_zskip by nia; nia|now apply Forall_zskip|].
        apply wp_setrow; [destruct Hs; lia|]. do 4 f_equal. lia.
    - rewrite zskip_all by (destruct Hs; lia). rewrite app_nil_r.
      unfold sec_vec, gen_vec, gen_vec_u, mod16 in HQ. destruct (usaber c); rewrite map_ztab in HQ; apply HQ.
  Qed.
End Gen.

Lemma len_cbd_poly : forall mu b, len (cbd_poly mu b) = 256.
Proof. intros. now apply len_ztab. Qed.
Lemma len_uni_poly : forall b, len (uni_poly b) = 256.
Proof. intros. now apply len_ztab. Qed.

Lemma vec_mod16 : forall n v, vec_mem n v -> vec U16 n (mod16 v).
Proof.
  intros n v (L & F). split; [unfold mod16; now rewrite len_map|].
  unfold mod16. rewrite Forall_map. eapply Forall_impl; [|apply F]. cbn beta. intros l Hl.
  split; [now rewrite len_map|]. apply Forall_map, Forall_forall. intros x _. apply (wrap_range U16 x).
Qed.

Lemma sec_vec_mem : forall c b, vec_mem (SABER_L c) (sec_vec c b).
Proof.
  intros. unfold sec_vec, gen_vec, gen_vec_u. pose proof (cfg_L c).
  destruct (usaber c); (split; [apply len_ztab; lia|apply Forall_ztab; intros; now apply len_ztab]).
Qed.
