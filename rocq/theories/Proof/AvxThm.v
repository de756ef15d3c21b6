(** The matrix-vector and vector-vector products of the AVX2 code. *)
From Coq Require Import ZArith List Bool Lia.
From Verif Require Import Lib.Arr Lib.CInt Lib.CMon Spec.Ring Spec.AvxSpec Proof.PackP Proof.Conv Proof.PolyP Proof.KaraP Proof.IndcpaP Model.Vec Model.AvxCode Model.AvxMul Proof.ArmSym Proof.ArmSymP Proof.ArmKaraP Proof.AvxSym Proof.AvxTab Proof.AvxMulP Proof.AvxConvP Proof.AvxIntP.
Import ListNotations.
Local Open Scope Z_scope.

(** ** Polynomials as arrays of vectors: the coefficients in order *)
Lemma concat_get : forall (l : list (list Z)) w i k, Forall (fun r => len r = w) l -> 0 <= i < len l -> 0 <= k < w ->
  get (concat l) (w * i + k) = get (znth [] l i) k.
Proof.
  induction l as [|r l IH]; intros w i k F Hi Hk; [unfold len in Hi; cbn in Hi; lia|].
  inversion F as [|? ? Lr Fl]; subst. cbn [concat]. rewrite len_cons in Hi. unfold get. destruct (Z.eq_dec i 0) as [->|N].
  - rewrite Z.mul_0_r, znth_app1 by lia. reflexivity.
  - rewrite znth_app2 by nia. rewrite (znth_cons [] r l i) by lia. fold (get (znth [] l (i - 1)) k).
    rewrite <- (IH (len r) (i - 1) k) by (auto; lia). unfold get. f_equal. ring.
Qed.
Lemma vok_concat : forall v k, vok 16 v -> 0 <= k < 256 -> get (concat v) k = vg v (k / 16) (k mod 16).
Proof.
  intros v k (L & F) Hk. rewrite (Z.div_mod k 16) at 1 by lia. apply concat_get; [|dlia|dlia].
  eapply Forall_impl; [|exact F]. intros r (Lr & _). exact Lr.
Qed.
Lemma len_concat : forall (l : list (list Z)) w, Forall (fun r => len r = w) l -> len (concat l) = w * len l.
Proof.
  intros l w F. induction F as [|r l Lr Fl IH]; [unfold len; cbn; lia|]. cbn [concat]. rewrite len_app, len_cons, IH, Lr. ring.
Qed.
Lemma vok_len : forall v, vok 16 v -> arr U16 256 (concat v).
Proof.
  intros v (L & F). split.
  - rewrite (len_concat v 16), L; [reflexivity|]. eapply Forall_impl; [|exact F]. intros r (Lr & _). exact Lr.
  - clear L. induction F as [|r l (_ & Tr) Fl IH]; [constructor|]. cbn [concat]. apply Forall_app. auto.
Qed.

(** ** The constants *)
Lemma load_values_ok : forall junk, wp (load_values junk) glob_ok.
Proof.
  intros junk. unfold load_values.
  set (C := fun (v i : Z) (a : list Z) => len a = 16 /\ forall k, 0 <= k < i -> get a k = wrap I16 v).
  assert (C0 : forall v t, C v 0 (uninit junk t 16)) by (intros v t; split; [apply uninit_len; lia|intros; lia]).
  assert (CS : forall T v i a (K : list Z -> M T) Q, lok (Var I64 v) -> C v i a -> 0 <= i < 16 -> (forall a', C v (i + 1) a' -> wp (K a') Q) ->
    wp (x <- st I16 a i (Var I64 v) ;; K x)%M Q).
  { intros T v i a K Q HL (L & G) Hi HK. apply wp_bind, wp_st; [reflexivity|exact HL|lia|]. apply HK. split; [now rewrite len_upd|].
    intros k Hk. unfold get. rewrite znth_upd by lia. destruct (k =? i) eqn:E; [reflexivity|]. apply G. lia. }
  assert (CL : forall v a (K : list Z -> M (list vec)) Q, C v 16 a -> wp (K (vset1 (wrap I16 v))) Q -> wp (x <- loadu a 0 ;; K x)%M Q).
  { intros v a K Q (L & G) HK. apply wp_bind. unfold loadu. replace ((0 <=? 0) && (0 + 16 <=? len a)) with true by lia.
    apply wp_bind, wp_emit, wp_ret. replace (lanes (fun k => wrap U16 (znth 0 a (0 + k)))) with (vset1 (wrap I16 v)); [exact HK|].
    unfold vset1, lanes. apply ztab_ext. intros k Hk. rewrite Z.add_0_l. fold (get a k). now rewrite G. }
  apply wp_bind.
  apply wp_for with (I := fun i '(a3, a9, a15, a45, a30, a0) => C 43691 i a3 /\ C 36409 i a9 /\ C 61167 i a15 /\ C 45 i a45 /\ C 30 i a30 /\ C 0 i a0).
  - lia.
  - auto 10.
  - intros i (((((a3 & a9) & a15) & a45) & a30) & a0) Hi (H3 & H9 & H15 & H45 & H30 & H0).
    eapply CS; [cbn; lia|exact H3|lia|intros ? ?]. eapply CS; [cbn; lia|exact H9|lia|intros ? ?]. eapply CS; [cbn; lia|exact H15|lia|intros ? ?].
    eapply CS; [cbn; lia|exact H45|lia|intros ? ?]. eapply CS; [cbn; lia|exact H30|lia|intros ? ?]. eapply CS; [cbn; lia|exact H0|lia|intros ? ?]. apply wp_ret. auto 10.
  - intros (((((a3 & a9) & a15) & a45) & a30) & a0) (H3 & H9 & H15 & H45 & H30 & H0).
    eapply CL; [exact H3|]. eapply CL; [exact H9|]. eapply CL; [exact H15|].
    eapply CL; [exact H45|]. eapply CL; [exact H30|]. eapply CL; [exact H0|]. apply wp_ret. vm_compute. reflexivity.
Qed.

(** ** Products *)
Lemma zsum_swap : forall n m f, 0 <= m -> zsum n (fun j => zsum m (fun u => f j u)) = zsum m (fun u => zsum n (fun j => f j u)).
Proof.
  intros n m f Hm. pattern m. apply natlike_ind; auto.
  - rewrite zsum_0. apply zsum_zero. auto.
  - intros x Hx IH. rewrite <- Z.add_1_r, zsum_S by lia. rewrite <- IH, <- zsum_add. apply zsum_ext. intros j Hj. now rewrite zsum_S.
Qed.
Lemma wsum_conv : forall n A B i k, (forall j, 0 <= j < n -> vok 16 (A j)) -> (forall j, 0 <= j < n -> vok 16 (B j)) -> 0 <= k < 16 ->
  wsum n (fun j => vg (A j)) (fun j => vg (B j)) i k = zsum n (fun j => conv 256 (get (concat (A j))) (get (concat (B j))) (16 * i + k)).
Proof.
  intros n A B i k HA HB Hk.
  assert (G : forall v u s, vok 16 v -> 0 <= u < 16 -> 0 <= s < 16 -> vg v u s = bk (get (concat v)) u s).
  { intros v u s Hv Hu Hs. unfold bk. rewrite vok_concat by (auto; lia). f_equal; dlia. }
  assert (PE : forall j u v k, 0 <= j < n -> 0 <= u < 16 -> 0 <= v < 16 -> P (vg (A j) u) (vg (B j) v) k = P (bk (get (concat (A j))) u) (bk (get (concat (B j))) v) k).
  { intros j u v k' Hj Hu Hv. unfold P, conv. apply zsum_ext. intros s Hs. rewrite G by auto. f_equal. unfold cut. destruct (_ && _) eqn:E; auto. apply G; auto. lia. }
  rewrite (zsum_ext n _ (fun j => wides (get (concat (A j))) (get (concat (B j))) i k)).
  2:{ intros j Hj. apply conv_wides; auto. apply get_supp. apply vok_len. auto. }
  unfold wsum, wides. rewrite zsum_add. f_equal.
  - rewrite zsum_swap by lia. apply zsum_ext. intros u Hu. destruct ((0 <=? i - u) && (i - u <? 16)) eqn:E.
    + apply zsum_ext. intros j Hj. apply PE; lia.
    + symmetry. apply zsum_zero. auto.
  - rewrite zsum_swap by lia. apply zsum_ext. intros u Hu. destruct ((0 <=? i - 1 - u) && (i - 1 - u <? 16)) eqn:E.
    + apply zsum_ext. intros j Hj. apply PE; lia.
    + symmetry. apply zsum_zero. auto.
Qed.

Lemma inner_zsum : forall n a b k, 0 <= n -> 0 <= k < 256 -> get (inner (Z.to_nat n) a b) k = zsum n (fun j => mul_coef (getr a j) (getr b j) k).
Proof.
  intros n a b k Hn Hk. pattern n. apply natlike_ind; auto.
  - apply get_inner_0.
  - intros x Hx IH. rewrite <- Z.add_1_r, zsum_S, get_inner_S, IH by lia. reflexivity.
Qed.

Lemma avec_row : forall n a i, avec n a -> 0 <= i < n -> vok 16 (znth [] a i).
Proof. intros n a i (L & F) Hi. apply (Forall_znth (vok 16)); auto. lia. Qed.
Lemma amat_row : forall n a i, amat n a -> 0 <= i < n -> avec n (znth [] a i).
Proof. intros n a i (L & F) Hi. apply (Forall_znth (avec n)); auto. lia. Qed.
Lemma getr_polys : forall n a j, avec n a -> 0 <= j < n -> getr (polys a) j = concat (znth [] a j).
Proof. intros n a j (L & _) Hj. unfold getr, polys. now rewrite znth_map with (d := []) by lia. Qed.

(** The buckets of a vector of polynomials. *)
Definition buckets (n : Z) (s bb : list (list vec)) : Prop :=
  avec n s /\ len bb = n /\ forall j, 0 <= j < n -> bucket (vg (znth [] s j)) (znth [] bb j).

Lemma eval_buckets_ok : forall junk n s bb, 0 <= n -> avec n s -> len bb = n -> Forall (vok 64) bb -> wp (eval_buckets junk n s bb) (buckets n s).
Proof.
  intros junk n s bb Hn Hs Lb Fb. unfold eval_buckets.
  apply wp_for with (I := fun j bb => len bb = n /\ Forall (vok 64) bb /\ forall i, 0 <= i < j -> bucket (vg (znth [] s i)) (znth [] bb i)); auto.
  - split; auto. split; auto. intros; lia.
  - intros j b Hj (L & F & G). apply wp_bind, wp_row with (d := []); [destruct Hs; lia|]. apply wp_bind, wp_row with (d := []); [lia|].
    apply wp_bind. eapply wp_mono; [apply TC_eval_ok|].
    + now apply avec_row with n.
    + apply (Forall_znth (vok 64)); auto. lia.
    + cbv beta. intros r Hr. apply wp_setrow; [lia|]. split; [now rewrite len_upd|]. split; [apply Forall_upd; auto; apply Hr|].
      intros i Hi. rewrite znth_upd by lia. destruct (i =? j) eqn:E; [replace i with j by lia; exact Hr|]. apply G. lia.
  - intros b (L & F & G). split; auto.
Qed.

(** One row of products: [A j] times the j-th bucket, added up. *)
Lemma mul_row : forall J body n A s bb c, 1 <= n -> (forall j, 0 <= j < n -> vok 16 (A j)) -> buckets n s bb -> vok 128 c ->
  (forall j c (Q : list vec -> Prop), 0 <= j < n -> wp (toom_cook_4way_avx_n1 (J j) (A j) (znth [] bb j) c j) Q -> wp (body j c) Q) ->
  wp (for_ 0 n body c) (fun c => products (sumprod n (fun j => vg (A j)) (fun j => vg (znth [] s j))) c).
Proof.
  intros J body n A s bb c Hn HA (Hs & Lb & Hb) Hc HB.
  apply wp_for with (I := fun j c => vok 128 c /\ (j <> 0 -> products (sumprod j (fun j => vg (A j)) (fun j => vg (znth [] s j))) c)); [lia| | |].
  - split; auto. lia.
  - intros j c1 Hj (V & G). apply HB; auto.
    eapply wp_mono; [eapply toom_cook_4way_avx_n1_ok with (X := sumprod j (fun j => vg (A j)) (fun j => vg (znth [] s j)))|].
    + auto.
    + apply Hb; auto.
    + exact V.
    + exact G.
    + intros q. unfold sumprod. apply zsum_zero. intros i _. unfold evprod. apply P_top. lia.
    + cbv beta. intros c2 (V2 & G2). split; auto. intros _. split; auto. intros q k Hq Hk. eapply eqm_trans; [apply G2; auto|].
      apply eqm_eq. unfold sumprod. rewrite zsum_S by lia. destruct (j =? 0) eqn:E; [|reflexivity]. replace j with 0 by lia. reflexivity.
  - intros c1 (_ & G). apply G. lia.
Qed.

Lemma interpol_row : forall junk n g A s c rs, 1 <= n -> glob_ok g -> (forall j, 0 <= j < n -> vok 16 (A j)) -> avec n s -> vok 16 rs ->
  products (sumprod n (fun j => vg (A j)) (fun j => vg (znth [] s j))) c ->
  wp (TC_interpol junk g c rs) (fun '(c', r) => vok 128 c' /\ vok 16 r /\
    forall k, 0 <= k < 256 -> eqm 8192 (get (concat r) k) (zsum n (fun j => mul_coef (concat (A j)) (concat (znth [] s j)) k))).
Proof.
  intros junk n g A s c rs Hn Hg HA Hs Hr Hc. eapply wp_mono; [eapply TC_interpol_ok; eauto|].
  intros (c' & r) (V & Vr & G). split; auto. split; auto. intros k Hk. rewrite vok_concat by auto.
  eapply eqm_trans; [apply G; dlia|]. apply eqm_eq.
  assert (HB : forall j, 0 <= j < n -> vok 16 (znth [] s j)) by (intros; now apply avec_row with n).
  rewrite (wsum_conv n A (fun j => znth [] s j)), (wsum_conv n A (fun j => znth [] s j)) by (auto; dlia).
  rewrite <- zsum_sub. apply zsum_ext. intros j Hj. rewrite mul_coef_conv by (auto; apply vok_len; auto).
  replace (16 * (k / 16) + k mod 16) with k by dlia. replace (16 * (k / 16 + 16) + k mod 16) with (k + 256) by dlia. reflexivity.
Qed.

Lemma vector_vector_mul_ok : forall junk n g a s bb rs, 1 <= n -> glob_ok g -> avec n a -> buckets n s bb -> vok 16 rs ->
  wp (vector_vector_mul junk n g a bb rs) (fun r => vok 16 r /\ peq 8192 (concat r) (inner (Z.to_nat n) (polys a) (polys s))).
Proof.
  intros junk n g a s bb rs Hn Hg Ha Hb Hr. unfold vector_vector_mul. cbv zeta. apply wp_bind.
  eapply wp_mono; [apply (mul_row (fun j => sub (sub junk 1) j)) with (A := fun j => znth [] a j) (s := s) (bb := bb)|]; auto.
  - intros j Hj. now apply avec_row with n.
  - apply vok_uninit. lia.
  - intros j c Q Hj HQ. apply wp_bind, wp_row with (d := []); [destruct Ha; lia|]. apply wp_bind, wp_row with (d := []); [destruct Hb as (_ & L & _); lia|]. exact HQ.
  - cbv beta. intros c Hc. apply wp_bind. eapply wp_mono; [eapply (interpol_row _ n g (fun j => znth [] a j) s); eauto|].
    + intros j Hj. now apply avec_row with n.
    + apply Hb.
    + intros (c' & r) (_ & Vr & G). apply wp_ret. split; auto. intros k Hk. rewrite inner_zsum by lia.
      eapply eqm_trans; [apply G; auto|]. apply eqm_eq, zsum_ext. intros j Hj. rewrite (getr_polys n a), (getr_polys n s) by (auto; apply Hb). reflexivity.
Qed.

Lemma getr_cmat : forall n tr a i j, amat n a -> 0 <= i < n -> 0 <= j < n ->
  getr (znth [] (cmat n tr a) i) j = concat (if tr =? 0 then znth [] (znth [] a i) j else znth [] (znth [] a j) i).
Proof.
  intros n tr a i j Ha Hi Hj. assert (La : len a = n) by apply Ha. unfold cmat. destruct (tr =? 0).
  - rewrite znth_map with (d := []) by lia. apply getr_polys with n; auto. now apply amat_row.
  - rewrite getr_transpose by auto. rewrite znth_map with (d := []) by lia. apply getr_polys with n; auto. now apply amat_row.
Qed.

Lemma matrix_vector_mul_ok : forall junk n g a s bb rs tr, 1 <= n -> glob_ok g -> amat n a -> buckets n s bb -> avec n rs ->
  wp (matrix_vector_mul junk n g a bb rs tr) (fun r => avec n r /\
    forall i, 0 <= i < n -> peq 8192 (concat (znth [] r i)) (getr (mat_vec n (cmat n tr a) (polys s)) i)).
Proof.
  intros junk n g a s bb rs tr Hn Hg Ha Hb (Lr & Fr). unfold matrix_vector_mul. cbv zeta. apply wp_bind.
  assert (La : len a = n) by apply Ha. assert (Lb : len bb = n) by apply Hb.
  apply wp_for with (I := fun i '(c, r) => vok 128 c /\ avec n r /\ forall p, 0 <= p < i -> peq 8192 (concat (znth [] r p)) (getr (mat_vec n (cmat n tr a) (polys s)) p)).
  - lia.
  - split; [apply vok_uninit; lia|]. split; [split; auto|]. intros; lia.
  - intros i (c & r) Hi (Vc & Hr & G). set (A := fun j => if tr =? 0 then znth [] (znth [] a i) j else znth [] (znth [] a j) i).
    assert (HA : forall j, 0 <= j < n -> vok 16 (A j)).
    { intros j Hj. unfold A. destruct (tr =? 0); apply avec_row with n; auto; now apply amat_row. }
    assert (Lr' : len r = n) by apply Hr.
    apply wp_bind. eapply wp_mono; [apply (mul_row (fun j => sub (sub (sub junk 1) i) j)) with (A := A) (s := s) (bb := bb)|]; auto.
    + intros j c1 Q Hj HQ. apply wp_ite. unfold A in HQ. destruct (tr =? 0).
      * apply wp_bind, wp_row with (d := []); [lia|]. apply wp_bind, wp_row with (d := []); [rewrite (proj1 (amat_row n a i Ha Hi)); lia|].
        apply wp_bind, wp_row with (d := []); [lia|]. exact HQ.
      * apply wp_bind, wp_row with (d := []); [lia|]. apply wp_bind, wp_row with (d := []); [rewrite (proj1 (amat_row n a j Ha Hj)); lia|].
        apply wp_bind, wp_row with (d := []); [lia|]. exact HQ.
    + cbv beta. intros c1 Hc. apply wp_bind, wp_row with (d := []); [lia|].
      apply wp_bind. eapply wp_mono; [eapply (interpol_row _ n g A s); eauto|].
      * apply Hb.
      * now apply avec_row with n.
      * intros (c' & x) (Vc' & Vx & Gx). apply wp_bind, wp_setrow; [lia|]. apply wp_ret. split; auto. split.
        { split; [now rewrite len_upd|]. apply Forall_upd; auto. apply Hr. }
        intros p Hp. rewrite znth_upd by lia. destruct (p =? i) eqn:E; [|apply G; lia]. replace p with i by lia.
        intros k Hk. rewrite getr_mat_vec, inner_zsum by lia. eapply eqm_trans; [apply Gx; auto|]. apply eqm_eq, zsum_ext. intros j Hj.
        rewrite (getr_cmat n) by auto. rewrite (getr_polys n s) by (auto; apply Hb). reflexivity.
  - intros (c & r) (_ & Hr & G). apply wp_ret. auto.
Qed.

(** ** Property C47 *)
Lemma C47_matrix_vector_lemma : forall junk junk' junk'' n a s bb rs tr, 1 <= n -> amat n a -> avec n s -> avec n rs -> len bb = n -> Forall (vok 64) bb ->
  exists r, run (g <- load_values junk ;; bb <- eval_buckets junk' n s bb ;; matrix_vector_mul junk'' n g a bb rs tr)%M = Some r /\ avec n r /\
    forall i k, 0 <= i < n -> 0 <= k < 256 -> get (getr (polys r) i) k mod 8192 = get (getr (mat_vec n (cmat n tr a) (polys s)) i) k mod 8192.
Proof.
  intros junk junk' junk'' n a s bb rs tr Hn Ha Hs Hr Lb Fb. apply wp_run.
  apply wp_bind. eapply wp_mono; [apply load_values_ok|]. cbv beta. intros g Hg.
  apply wp_bind. eapply wp_mono; [apply eval_buckets_ok; auto; lia|]. cbv beta. intros bb' Hb.
  eapply wp_mono; [apply matrix_vector_mul_ok; eauto|]. cbv beta. intros r (Vr & G). split; auto. intros i k Hi Hk.
  rewrite (getr_polys n) by auto. apply eqm_mod_eq; [lia|]. apply G; auto.
Qed.

Lemma C47_vector_vector_lemma : forall junk junk' junk'' n a s bb rs, 1 <= n -> avec n a -> avec n s -> vok 16 rs -> len bb = n -> Forall (vok 64) bb ->
  exists r, run (g <- load_values junk ;; bb <- eval_buckets junk' n s bb ;; vector_vector_mul junk'' n g a bb rs)%M = Some r /\ vok 16 r /\
    forall k, 0 <= k < 256 -> get (concat r) k mod 8192 = get (inner (Z.to_nat n) (polys a) (polys s)) k mod 8192.
Proof.
  intros junk junk' junk'' n a s bb rs Hn Ha Hs Hr Lb Fb. apply wp_run.
  apply wp_bind. eapply wp_mono; [apply load_values_ok|]. cbv beta. intros g Hg.
  apply wp_bind. eapply wp_mono; [apply eval_buckets_ok; auto; lia|]. cbv beta. intros bb' Hb.
  eapply wp_mono; [apply vector_vector_mul_ok; eauto|]. cbv beta. intros r (Vr & G). split; auto. intros k Hk.
  apply eqm_mod_eq; [lia|]. apply G; auto.
Qed.
