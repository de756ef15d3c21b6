(** Consequences for the polynomial multiplication, and its precision. *)
From Coq Require Import ZArith List Bool Lia.
From Verif Require Import Lib.Arr Lib.CInt Lib.CMon Spec.Ring Model.Params Model.PolyMul Model.Poly
  Proof.Conv Proof.KaraP Proof.ToomP Proof.PackP Proof.PackThm Proof.PolyP.
Import ListNotations.
Local Open Scope Z_scope.

Lemma eqm_mod0 : forall m a b, 0 < m -> eqm m a b -> (a - b) mod m = 0.
Proof. intros m a b Hm (q & ->). replace (b + m * q - b) with (q * m) by ring. now apply Z.mod_mul, Z.neq_sym, Z.lt_neq. Qed.

Lemma get_pmul : forall a b k, 0 <= k < 256 -> get (pmul a b) k = mul_coef a b k.
Proof. intros. unfold pmul, get. now rewrite znth_ztab. Qed.

Lemma poly_mul_acc_ok : forall junk a b res, arr U16 256 a -> arr U16 256 b -> arr U16 256 res ->
  exists r, run (poly_mul_acc junk a b res) = Some r /\ arr U16 256 r /\
    forall k, 0 <= k < 256 -> (get r k - (get res k + get (pmul a b) k)) mod 2 ^ 13 = 0.
Proof.
  intros junk a b res (La & Ta) (Lb & Tb) Hr. apply wp_run. apply wp_poly_mul_acc; auto. intros r Ar E. split; auto.
  intros k Hk. rewrite get_pmul by auto. apply eqm_mod0; [lia|]. now apply E.
Qed.

(** The product of the specification is the product of polynomials reduced by x^256 = -1. *)
Lemma pmul_spec : forall a b k, len a = 256 -> len b = 256 -> 0 <= k < 256 ->
  get (pmul a b) k = zsum 256 (fun i => get a i * get b (k - i)) - zsum 256 (fun i => get a i * get b (k + 256 - i)).
Proof. intros. rewrite get_pmul by auto. rewrite mul_coef_conv by auto. unfold conv. exact eq_refl. Qed.

Lemma InnerProd_ok : forall junk c b s res, vec U16 (SABER_L c) b -> vec U16 (SABER_L c) s -> arr U16 256 res ->
  exists r, run (InnerProd junk c b s res) = Some r /\ arr U16 256 r /\
    forall k, 0 <= k < 256 -> (get r k - (get res k + get (inner (Z.to_nat (SABER_L c)) b s) k)) mod 2 ^ 13 = 0.
Proof.
  intros. apply wp_run. apply wp_InnerProd; auto. intros r Ar E. split; auto. intros. apply eqm_mod0; [lia|]. now apply E.
Qed.

Lemma MatrixVectorMul_ok : forall junk c A s res tr, mat U16 (SABER_L c) A -> vec U16 (SABER_L c) s -> vec U16 (SABER_L c) res ->
  exists r, run (MatrixVectorMul junk c A s res tr) = Some r /\ vec U16 (SABER_L c) r /\
    forall i k, 0 <= i < SABER_L c -> 0 <= k < 256 ->
      (get (getr r i) k - (get (getr res i) k +
         get (getr (mat_vec (SABER_L c) (if tr =? 1 then transpose (SABER_L c) A else A) s) i) k)) mod 2 ^ 13 = 0.
Proof.
  intros. apply wp_run. apply wp_MatrixVectorMul; auto. intros r Ar E. split; auto. intros. apply eqm_mod0; [lia|]. now apply E.
Qed.

(** ** Bit 13 *)

Definition one_a : list Z := 1 :: zeros 255.
Definition one_b : list Z := zeros 128 ++ 8191 :: zeros 127.
Definition at0 (v n : Z) : list Z := v :: zeros (n - 1).

Lemma conv_delta : forall a b k, (forall i, 0 <= i < 64 -> i <> 0 -> a i = 0) -> (forall i, i <> 0 -> b i = 0) ->
  conv 64 a b k = if k =? 0 then a 0 * b 0 else 0.
Proof.
  intros a b k Ha Hb. unfold conv. change 64 with (1 + 63). rewrite zsum_app by lia. cbn [zsum].
  rewrite (zsum_zero 63) by (intros; rewrite Ha by lia; lia). change (zsum 1 ?f) with (0 + f 0). cbn beta.
  destruct (k =? 0) eqn:E; [replace (k - 0) with 0 by lia; lia|]. rewrite (Hb (k - 0)) by lia. lia.
Qed.

Lemma rep_at0 : forall w a b v, len w = 127 -> rep w (conv 64 a b) ->
  (forall i, 0 <= i < 64 -> i <> 0 -> a i = 0) -> (forall i, i <> 0 -> b i = 0) -> v = (a 0 * b 0) mod 65536 -> w = at0 v 127.
Proof.
  intros w a b v L (T & R) Ha Hb ->. apply znth_ext with 0; [exact L|]. intros k Hk. fold (get w k).
  pose proof (typed_get U16 w k T Hk) as G. cbn [tmin tmax] in G. specialize (R k Hk).
  rewrite conv_delta in R by auto. apply eqm_mod_eq in R; [|lia]. rewrite Z.mod_small in R by lia. rewrite R. unfold at0.
  destruct (k =? 0) eqn:E; [replace k with 0 by lia; reflexivity|]. rewrite znth_cons by lia. unfold zeros. rewrite znth_repeat. reflexivity.
Qed.

(** What is computed once the seven products are known. *)
Definition tail (w1 w2 w3 w4 w5 w6 w7 res : list Z) : M (list Z) :=
  (c <- for_ 0 127 (toom_interp w1 w2 w3 w4 w5 w6 w7) (zeros 512) ;;
   for_ 256 512 (fun i res => add_st res (i - 256) (Idx U16 c (i - 256) - Idx U16 c i)%C) res)%M.
Definition one_r : list Z := (65536 - 8192) :: zeros 127 ++ 65535 :: zeros 127.

Lemma tail_val : forall t, exists t',
  tail (at0 0 127) (at0 (4 * 8191) 127) (at0 8191 127) (at0 8191 127) (at0 (8 * 2 * 8191 mod 65536) 127) (at0 (8 * 2 * 8191 mod 65536) 127) (at0 0 127) (zeros 256) t = Ok one_r t'.
Proof. intros t. eexists. vm_compute. reflexivity. Qed.

Lemma bind_assoc : forall A B C (m : M A) (f : A -> M B) (g : B -> M C) (Q : C -> Prop),
  wp (bind m (fun x => bind (f x) g)) Q -> wp (bind (bind m f) g) Q.
Proof.
  intros A B C m f g Q H t. destruct (H t) as (a & t' & E & HQ). exists a, t'. split; auto. unfold bind in *.
  destruct (m t); auto.
Qed.

Lemma bits14 : forall junk, run (poly_mul_acc junk one_a one_b (zeros 256)) = Some one_r.
Proof.
  intros junk. apply wp_run_eq. unfold poly_mul_acc, toom_cook_4way.
  assert (len one_a = 256) as La by reflexivity. assert (len one_b = 256) as Lb by reflexivity.
  assert (typed U16 one_a) as Ta by (apply (arrb_ok U16 256); reflexivity).
  assert (typed U16 one_b) as Tb by (apply (arrb_ok U16 256); reflexivity).
  do 6 (apply bind_assoc, wp_bind, wp_ptr; [lia|]).
  apply bind_assoc, wp_bind, wp_for with (I := evinv (get one_a)); [lia|unfold evinv; do 6 (split; [apply pre_0|]); apply pre_0|intros; now apply toom_eval_ok|].
  intros aw (A1 & A2 & A3 & A4 & A5 & A6 & A7).
  apply bind_assoc, wp_bind, wp_for with (I := evinv (get one_b)); [lia|unfold evinv; do 6 (split; [apply pre_0|]); apply pre_0|intros; now apply toom_eval_ok|].
  intros bw (B1 & B2 & B3 & B4 & B5 & B6 & B7).
  assert (forall x0 x1 x2 x3 i, i <> 0 -> lin4 x0 x1 x2 x3 (get one_a) i = 0) as Za.
  { intros. unfold lin4, blk. destruct ((0 <=? i) && (i <? 64)) eqn:E; [|lia].
    assert (forall p, 0 <= p -> get one_a (64 * p + i) = 0) as G by (intros; unfold get, one_a; rewrite znth_cons by lia; unfold zeros; apply znth_repeat).
    rewrite !G by lia. lia. }
  assert (forall x0 x1 x2 x3 i, i <> 0 -> lin4 x0 x1 x2 x3 (get one_b) i = 0) as Zb.
  { intros. unfold lin4, blk. destruct ((0 <=? i) && (i <? 64)) eqn:E; [|lia].
    assert (forall p, 0 <= p < 4 -> get one_b (64 * p + i) = 0) as G.
    { intros. unfold get, one_b, zeros. destruct (Z_lt_dec (64 * p + i) 128); [rewrite znth_app1 by (rewrite len_repeat; lia); apply znth_repeat|].
      rewrite znth_app2 by (rewrite len_repeat; lia). rewrite len_repeat, znth_cons by lia. apply znth_repeat. }
    rewrite !G by lia. lia. }
  apply bind_assoc, wp_bind. eapply wp_kara_lin; [exact A1|exact B1|reflexivity|]. intros w1 L1 R1. apply rep_at0 with (v := 0) in R1; auto. subst w1.
  apply bind_assoc, wp_bind. eapply wp_kara_lin; [exact A2|exact B2|reflexivity|]. intros w2 L2 R2. apply rep_at0 with (v := 4 * 8191) in R2; auto. subst w2.
  apply bind_assoc, wp_bind. eapply wp_kara_lin; [exact A3|exact B3|reflexivity|]. intros w3 L3 R3. apply rep_at0 with (v := 8191) in R3; auto. subst w3.
  apply bind_assoc, wp_bind. eapply wp_kara_lin; [exact A4|exact B4|reflexivity|]. intros w4 L4 R4. apply rep_at0 with (v := 8191) in R4; auto. subst w4.
  apply bind_assoc, wp_bind. eapply wp_kara_lin; [exact A5|exact B5|reflexivity|]. intros w5 L5 R5. apply rep_at0 with (v := 8 * 2 * 8191 mod 65536) in R5; auto. subst w5.
  apply bind_assoc, wp_bind. eapply wp_kara_lin; [exact A6|exact B6|reflexivity|]. intros w6 L6 R6. apply rep_at0 with (v := 8 * 2 * 8191 mod 65536) in R6; auto. subst w6.
  apply bind_assoc, wp_bind. eapply wp_kara_lin; [exact A7|exact B7|reflexivity|]. intros w7 L7 R7. apply rep_at0 with (v := 0) in R7; auto. subst w7.
  intros t. destruct (tail_val t) as (t' & E). exists one_r, t'. split; [exact E|reflexivity].
Qed.

Lemma mul14_refuted : exists a b res, arr U16 256 a /\ arr U16 256 b /\ arr U16 256 res /\
  Forall (fun x => 0 <= x < 8192) a /\ Forall (fun x => 0 <= x < 8192) b /\
  exists r k, (forall junk, run (poly_mul_acc junk a b res) = Some r) /\ 0 <= k < 256 /\
    (get r k - (get res k + get (pmul a b) k)) mod 2 ^ 14 <> 0.
Proof.
  exists one_a, one_b, (zeros 256). do 3 (split; [apply arrb_ok; reflexivity|]).
  split; [|split]; [apply (Forall_forall (fun x => 0 <= x < 8192)); intros x Hx; cbn [In one_a zeros] in Hx|..].
  - destruct Hx as [<-|Hx]; [lia|]. apply repeat_spec in Hx. lia.
  - unfold one_b. apply Forall_app. split; [apply Forall_repeat; lia|]. constructor; [lia|apply Forall_repeat; lia].
  - exists one_r, 128. split; [exact bits14|]. split; [lia|]. rewrite get_pmul by lia. vm_compute. discriminate.
Qed.

Lemma get_inner : forall k v s j, 0 <= k < 256 -> get (inner j v s) k = zsum (Z.of_nat j) (fun j => get (pmul (getr v j) (getr s j)) k).
Proof.
  intros k v s j Hk. induction j; [apply get_zeros|]. cbn [inner]. unfold padd. unfold get at 1. rewrite znth_ztab by lia. rewrite IHj.
  unfold zsum. rewrite !Nat2Z.id. reflexivity.
Qed.

Lemma mat_vec_meaning : forall l A s i k, 0 <= i < l -> 0 <= k < 256 ->
  get (getr (mat_vec l A s) i) k = zsum l (fun j => get (pmul (getr (znth [] A i) j) (getr s j)) k) /\
  get (getr (mat_vec l (transpose l A) s) i) k = zsum l (fun j => get (pmul (getr (znth [] A j) i) (getr s j)) k).
Proof.
  intros l A s i k Hi Hk. unfold mat_vec, transpose, getr. rewrite !znth_ztab by lia. rewrite !get_inner by lia. rewrite Z2Nat.id by lia.
  split; [reflexivity|]. apply zsum_ext. intros j Hj. unfold getr. rewrite znth_ztab by lia. reflexivity.
Qed.

Lemma arith_case : mat U16 2 (repeat (repeat (zeros 256) 2) 2) /\ vec U16 2 [one_a; one_b].
Proof.
  assert (arr U16 256 (zeros 256)) as A0 by (apply arrb_ok; reflexivity).
  assert (arr U16 256 one_a) as A1 by (apply arrb_ok; reflexivity). assert (arr U16 256 one_b) as A2 by (apply arrb_ok; reflexivity).
  split; [split; [reflexivity|]; apply Forall_repeat; split; [reflexivity|]; apply Forall_repeat; exact A0|].
  split; [reflexivity|]. constructor; [exact A1|]. constructor; [exact A2|]. constructor.
Qed.
Lemma mul_case : arr U16 256 one_a /\ arr U16 256 (repeat 65535 256) /\ arr U16 256 (zeros 255 ++ [5]).
Proof. split; [apply arrb_ok; reflexivity|]. split; apply arrb_ok; reflexivity. Qed.
