(** Interpolation in the AVX2 multiplier, and the products of polynomials that come out. *)
From Coq Require Import ZArith List Bool Lia.
From Verif Require Import Lib.Arr Lib.CInt Lib.CMon Spec.Ring Spec.AvxSpec Model.Vec Model.AvxCode Model.AvxMul Proof.Conv Proof.ArmSym Proof.ArmSymP Proof.ArmKaraP Proof.AvxSym Proof.AvxTab Proof.AvxMulP Proof.AvxConvP.
Import ListNotations.
Local Open Scope Z_scope.

(** ** Linear forms *)
Lemma lin_cons : forall x y c p f, lin_poly ((x, y, c) :: p) = true -> lin ((x, y, c) :: p) f = c * f (x - 1) + lin p f.
Proof.
  intros x y c p f H. unfold lin_poly in H. cbn [forallb] in H. unfold lin. cbn [peval]. unfold window at 1. replace (x =? 0) with false by lia. unfold one at 1. lia.
Qed.
Lemma lin_tl : forall t p, lin_poly (t :: p) = true -> lin_poly p = true.
Proof. intros t p H. unfold lin_poly in *. cbn [forallb] in H. now apply andb_true_iff in H. Qed.
Lemma lin_nil : forall f, lin [] f = 0. Proof. reflexivity. Qed.
Lemma lin_ext : forall p f g, lin_poly p = true -> (forall u, 0 <= u < 16 -> f u = g u) -> lin p f = lin p g.
Proof.
  induction p as [|[[x y] c] p IH]; intros f g H E; [reflexivity|]. rewrite !lin_cons by auto. rewrite (IH f g (lin_tl _ _ H) E). f_equal. f_equal.
  apply E. unfold lin_poly in H. cbn [forallb] in H. lia.
Qed.
Lemma lin_scale : forall p c f, lin_poly p = true -> lin p (fun u => c * f u) = c * lin p f.
Proof.
  induction p as [|[[x y] d] p IH]; intros c f H; [rewrite !lin_nil; lia|]. rewrite !lin_cons by auto. rewrite IH by exact (lin_tl _ _ H). lia.
Qed.
Lemma lin_zsum : forall p n f, lin_poly p = true -> zsum n (fun j => lin p (f j)) = lin p (fun u => zsum n (fun j => f j u)).
Proof.
  induction p as [|[[x y] c] p IH]; intros n f H; [rewrite lin_nil; apply zsum_zero; reflexivity|]. rewrite lin_cons by auto. rewrite <- IH by exact (lin_tl _ _ H).
  rewrite <- zsum_scale, <- zsum_add. apply zsum_ext. intros j Hj. now rewrite lin_cons.
Qed.
Lemma P_linl : forall p f g k, lin_poly p = true -> P (fun i => lin p (fun u => f u i)) g k = lin p (fun u => P (f u) g k).
Proof.
  induction p as [|[[x y] c] p IH]; intros f g k H.
  - rewrite lin_nil. apply zsum_zero. intros. unfold lin. cbn [peval]. lia.
  - rewrite lin_cons by auto. rewrite <- IH by exact (lin_tl _ _ H). unfold P. rewrite <- conv_scalel, <- conv_addl. apply conv_ext; auto.
    intros i Hi. now rewrite lin_cons.
Qed.
Lemma P_linr : forall p f g k, lin_poly p = true -> P f (fun i => lin p (fun u => g u i)) k = lin p (fun u => P f (g u) k).
Proof.
  induction p as [|[[x y] c] p IH]; intros f g k H.
  - rewrite lin_nil. apply zsum_zero. intros. unfold cut. destruct (_ && _); unfold lin; cbn [peval]; lia.
  - rewrite lin_cons by auto. rewrite <- IH by exact (lin_tl _ _ H). unfold P. rewrite <- conv_scaler, <- conv_addr. apply conv_ext; auto.
    intros i. unfold cut. destruct (_ && _); [now rewrite lin_cons|lia].
Qed.

Lemma pprod_ok : forall E off p q, 0 <= off -> lin_poly p = true -> lin_poly q = true ->
  peval (window E) one (pprod off p q) = lin p (fun u => lin q (fun v => E (off + 16 * u + v))).
Proof.
  intros E off p q Ho Hp Hq. induction p as [|[[x y] c] p IH]; [reflexivity|]. cbn [pprod]. rewrite peval_add, IH by exact (lin_tl _ _ Hp). rewrite lin_cons by auto.
  f_equal. unfold lin_poly in Hp. cbn [forallb] in Hp. assert (Hx : 1 <= x <= 16) by lia. clear IH Hp.
  unfold pprodt. induction q as [|[[z w] d] q IH]; [cbn [map peval]; rewrite lin_nil; lia|]. rewrite lin_cons by auto. cbn [map peval]. rewrite IH by exact (lin_tl _ _ Hq).
  unfold lin_poly in Hq. cbn [forallb] in Hq. rewrite window_1 by lia. unfold one at 1. lia.
Qed.
Lemma diag_ok : forall E off i n, 0 <= off -> peval (window E) one (diag n off i) =
  zsum (Z.of_nat n) (fun u => if (0 <=? i - u) && (i - u <? 16) then E (off + 16 * u + (i - u)) else 0).
Proof.
  intros E off i n Ho. induction n as [|n IH]; [reflexivity|]. cbn [diag]. rewrite peval_add, IH. rewrite Nat2Z.inj_succ, <- Z.add_1_r, zsum_S by lia.
  destruct ((0 <=? i - Z.of_nat n) && (i - Z.of_nat n <? 16)) eqn:B; cbn [peval]; [|lia]. rewrite window_1 by lia. unfold one. lia.
Qed.

(** ** Products of polynomials of sixteen blocks *)
Lemma zsum_grid : forall n m f, 0 <= n -> 0 <= m -> zsum (m * n) f = zsum n (fun u => zsum m (fun s => f (m * u + s))).
Proof.
  intros n m f Hn Hm. pattern n. apply natlike_ind; auto.
  - rewrite Z.mul_0_r. reflexivity.
  - intros x Hx IH. rewrite <- Z.add_1_r, zsum_S by lia. rewrite <- IH. replace (m * (x + 1)) with (m * x + m) by lia. rewrite zsum_app by lia. reflexivity.
Qed.
Definition bk (f : Z -> Z) (u i : Z) : Z := f (16 * u + i).
Definition wides (f g : Z -> Z) (i k : Z) : Z :=
  zsum 16 (fun u => if (0 <=? i - u) && (i - u <? 16) then P (bk f u) (bk g (i - u)) k else 0) +
  zsum 16 (fun u => if (0 <=? i - 1 - u) && (i - 1 - u <? 16) then P (bk f u) (bk g (i - 1 - u)) (16 + k) else 0).
Lemma zsum_if : forall (b : bool) n f g, zsum n (fun s => f s * (if b then g s else 0)) = if b then zsum n (fun s => f s * g s) else 0.
Proof. intros [|] n f g; [apply zsum_ext; intros; reflexivity|apply zsum_zero; intros; lia]. Qed.
Lemma conv_wides : forall f g i k, supp 256 g -> 0 <= k < 16 -> conv 256 f g (16 * i + k) = wides f g i k.
Proof.
  intros f g i k S Hk. unfold conv, wides. change 256 with (16 * 16). rewrite zsum_grid by lia. rewrite <- zsum_add. apply zsum_ext. intros u Hu.
  transitivity (zsum 16 (fun s => bk f u s * (if (0 <=? i - u) && (i - u <? 16) then cut (bk g (i - u)) (k - s) else 0)) +
                zsum 16 (fun s => bk f u s * (if (0 <=? i - 1 - u) && (i - 1 - u <? 16) then cut (bk g (i - 1 - u)) (16 + k - s) else 0))).
  - rewrite <- zsum_add. apply zsum_ext. intros s Hs. rewrite <- Z.mul_add_distr_l. fold (bk f u s). f_equal.
    destruct (k - s <? 0) eqn:E.
    + replace (if _ : bool then cut (bk g (i - u)) (k - s) else 0) with 0 by (unfold cut; replace (0 <=? k - s) with false by lia; destruct (_ && _); reflexivity).
      destruct ((0 <=? i - 1 - u) && (i - 1 - u <? 16)) eqn:B; [|rewrite S by lia; lia]. rewrite cut_in by lia. unfold bk. rewrite Z.add_0_l. f_equal. lia.
    + replace (if _ : bool then cut (bk g (i - 1 - u)) (16 + k - s) else 0) with 0 by (unfold cut; replace (16 + k - s <? 16) with false by lia; rewrite andb_false_r; destruct (_ && _); reflexivity).
      destruct ((0 <=? i - u) && (i - u <? 16)) eqn:B; [|rewrite S by lia; lia]. rewrite cut_in by lia. unfold bk. rewrite Z.add_0_r. f_equal. lia.
  - cbv beta. rewrite (zsum_if _ 16 (bk f u) (fun s => cut (bk g (i - u)) (k - s))), (zsum_if _ 16 (bk f u) (fun s => cut (bk g (i - 1 - u)) (16 + k - s))). unfold P, conv. reflexivity.
Qed.

(** ** Interpolation *)
Definition sumprod (n : Z) (A B : Z -> Z -> Z -> Z) (q k : Z) : Z := zsum n (fun j => evprod (A j) (B j) q k).
Lemma sumprod_lin : forall n A B q k, 0 <= q < 63 -> sumprod n A B q k = lin (evt q) (fun u => lin (evt q) (fun v => zsum n (fun j => P (A j u) (B j v) k))).
Proof.
  intros n A B q k Hq. pose proof (evt_lin q Hq) as L. unfold sumprod, evprod.
  rewrite (zsum_ext n _ (fun j => lin (evt q) (fun u => lin (evt q) (fun v => P (A j u) (B j v) k)))).
  - rewrite lin_zsum by auto. apply lin_ext; auto. intros u Hu. now rewrite lin_zsum.
  - intros j Hj. rewrite P_linl by auto. apply lin_ext; auto. intros u Hu. now rewrite P_linr.
Qed.

Definition glob_ok (g : list vec) : Prop := g = map vset1 glb.

Lemma trans8k : forall {A} a (K : list vec -> M A) (Q : A -> Prop), vok 128 a -> (forall a', transd 128 128 a a' -> wp (K a') Q) ->
  wp (a <- vat a 0 transpose_n1 ;; a <- vat a 16 transpose_n1 ;; a <- vat a 32 transpose_n1 ;; a <- vat a 48 transpose_n1 ;;
      a <- vat a 64 transpose_n1 ;; a <- vat a 80 transpose_n1 ;; a <- vat a 96 transpose_n1 ;; a <- vat a 112 transpose_n1 ;; K a)%M Q.
Proof.
  intros A a K Q Ha HQ. apply wp_bind. eapply wp_mono; [apply (transd_S 128 0 a a); [now apply transd_0|lia|reflexivity|lia]|]. intros a1 H1.
  apply wp_bind. eapply wp_mono; [apply (transd_S 128 16 a a1); [exact H1|lia|reflexivity|lia]|]. intros a2 H2.
  apply wp_bind. eapply wp_mono; [apply (transd_S 128 32 a a2); [exact H2|lia|reflexivity|lia]|]. intros a3 H3.
  apply wp_bind. eapply wp_mono; [apply (transd_S 128 48 a a3); [exact H3|lia|reflexivity|lia]|]. intros a4 H4.
  apply wp_bind. eapply wp_mono; [apply (transd_S 128 64 a a4); [exact H4|lia|reflexivity|lia]|]. intros a5 H5.
  apply wp_bind. eapply wp_mono; [apply (transd_S 128 80 a a5); [exact H5|lia|reflexivity|lia]|]. intros a6 H6.
  apply wp_bind. eapply wp_mono; [apply (transd_S 128 96 a a6); [exact H6|lia|reflexivity|lia]|]. intros a7 H7.
  apply wp_bind. eapply wp_mono; [apply (transd_S 128 112 a a7); [exact H7|lia|reflexivity|lia]|]. exact HQ.
Qed.

Lemma interpol_vec : forall vx c w0 w1 w2 w3 w4 w5 w6 out g rs, (forall k, vx k 0 = 1) -> Forall2 (vrel vx (fun _ => one)) cin c ->
  vok 8 w0 -> vok 8 w1 -> vok 8 w2 -> vok 8 w3 -> vok 8 w4 -> vok 8 w5 -> vok 8 w6 -> vok 32 out -> vok 16 rs -> glob_ok g ->
  exists r c' s out' t rs', vexec vecs KARA_interpol_code [] [c; w0; w1; w2; w3; w4; w5; w6] = Some r /\ lookup r 0 = Some c' /\ vok 128 c' /\
    vexecs vecs (map icode (seqz 8 0)) (zskip 1 r ++ [out; g]) = Some s /\ lookup s 7 = Some out' /\
    vexecs vecs (map TC_reduce_code (seqz 16 0)) [out'; rs] = Some t /\ lookup t 1 = Some rs' /\ vok 16 rs' /\
    forall i k, 0 <= i < 16 -> 0 <= k < 16 -> eqm 8192 (vg rs' i k) (peval (vx k) one (wide i) - peval (vx k) one (wide (i + 16))).
Proof.
  intros vx c w0 w1 w2 w3 w4 w5 w6 out g rs X0 Fc V0 V1 V2 V3 V4 V5 V6 Vo Vr ->. set (vy := fun _ : Z => one).
  assert (Y0 : forall k, vy k 0 = 1) by reflexivity.
  pose proof int_checked as C. unfold int_check in C. rewrite !andb_true_iff in C. destruct C as ((((((C1 & C2) & C3) & C4) & C5) & C6) & C7).
  apply isn_some in C1 as (s1 & E1 & L1). apply isn_some in C3 as (s2 & E2 & L2). apply isn_some in C5 as (s3 & E3 & L3).
  assert (F1 : Forall2 (Forall2 (vrel vx vy)) [cin; tops 8; tops 8; tops 8; tops 8; tops 8; tops 8; tops 8] [c; w0; w1; w2; w3; w4; w5; w6]).
  { constructor; [exact Fc|]. repeat (constructor; [apply tops_rel; [lia|assumption]|]). constructor. }
  destruct (ha_sim vx vy X0 Y0 _ _ _ _ F1 E1) as (r & Er & G1).
  destruct (res_lookup _ _ _ 0 G1 ltac:(lia)) as (c' & Ec & Fc').
  assert (F2 : Forall2 (Forall2 (vrel vx vy)) iin (zskip 1 r ++ [out; map vset1 glb])).
  { unfold iin. rewrite E1. apply Forall2_app.
    - destruct G1; [constructor|exact G1].
    - constructor; [apply tops_rel; [lia|auto]|]. constructor; [|constructor].
      assert (K : forall l, Forall2 (vrel vx vy) (map hconst l) (map vset1 l)); [|apply K].
      induction l as [|z l IH]; cbn [map]; constructor; auto. split; [apply lanes_arr; intros; apply wrap16_range|].
      intros k Hk. unfold vset1. rewrite get_lanes by auto. destruct (hal_const (vx k) (vy k) (X0 k) (Y0 k) z) as (B & H). split; auto.
      eapply eqm_trans; [|exact H]. apply wrap16_eqm. }
  destruct (ha_sims vx vy X0 Y0 _ _ _ _ F2 E2) as (s & Es & G2).
  destruct (res_lookup _ _ _ 7 G2 ltac:(lia)) as (out' & Eo & Fo).
  assert (F3 : Forall2 (Forall2 (vrel vx vy)) [res iout 7; tops 16] [out'; rs]).
  { constructor; [rewrite E2; exact Fo|]. constructor; [apply tops_rel; [lia|auto]|constructor]. }
  destruct (ha_sims vx vy X0 Y0 _ _ _ _ F3 E3) as (t & Et & G3).
  destruct (res_lookup _ _ _ 1 G3 ltac:(lia)) as (rs' & Ers & Frs). rewrite <- E1 in Fc'. rewrite <- E3 in Frs.
  exists r, c', s, out', t, rs'. do 2 (split; [assumption|]). split; [eapply rel_vok; [exact Fc'|lia]|]. do 4 (split; [assumption|]).
  split; [eapply rel_vok; [exact Frs|lia]|]. intros i k Hi Hk.
  apply (upto_ok _ _ i) in C7; [|lia]. cbv beta in C7. apply andb_true_iff in C7 as (C7 & C8).
  destruct (znth_sim _ htop [] _ _ i Frs ltac:(lia)) as (_ & H). destruct (H k Hk) as (B & H'). unfold vg.
  apply eqm_trans with (peval (vx k) (vy k) (snd (znth htop (res rout 1) i))).
  - apply (eqm_le _ 13) in H'; [exact H'|lia].
  - apply (peqb_ok (vx k) (vy k) 13) in C8; [|lia]. eapply eqm_trans; [exact C8|]. apply eqm_eq. rewrite peval_add, peval_scale. change (vy k) with one. lia.
Qed.

(** The variables: sums of the halves of the products of blocks. *)
Definition env (n : Z) (A B : Z -> Z -> Z -> Z) (k : Z) (e : Z) : Z :=
  if e <? 256 then zsum n (fun j => P (A j (e / 16)) (B j (e mod 16)) k) else zsum n (fun j => P (A j ((e - 256) / 16)) (B j (e mod 16)) (16 + k)).
Lemma env_at : forall n A B k h u v, 0 <= h < 2 -> 0 <= u < 16 -> 0 <= v < 16 -> env n A B k (256 * h + 16 * u + v) = zsum n (fun j => P (A j u) (B j v) (16 * h + k)).
Proof.
  intros n A B k h u v Hh Hu Hv. unfold env. destruct (_ <? 256) eqn:E.
  - assert (h = 0) by lia. subst. replace ((256 * 0 + 16 * u + v) / 16) with u by dlia. replace ((256 * 0 + 16 * u + v) mod 16) with v by dlia. reflexivity.
  - assert (h = 1) by lia. subst. replace ((256 * 1 + 16 * u + v - 256) / 16) with u by dlia. replace ((256 * 1 + 16 * u + v) mod 16) with v by dlia. reflexivity.
Qed.

Definition wsum (n : Z) (A B : Z -> Z -> Z -> Z) (i k : Z) : Z :=
  zsum 16 (fun u => if (0 <=? i - u) && (i - u <? 16) then zsum n (fun j => P (A j u) (B j (i - u)) k) else 0) +
  zsum 16 (fun u => if (0 <=? i - 1 - u) && (i - 1 - u <? 16) then zsum n (fun j => P (A j u) (B j (i - 1 - u)) (16 + k)) else 0).
Lemma wide_ok : forall n A B i k, peval (window (env n A B k)) one (wide i) = wsum n A B i k.
Proof.
  intros n A B i k. unfold wide, wsum. rewrite peval_add, !diag_ok by lia. change (Z.of_nat 16) with 16. f_equal; apply zsum_ext; intros u Hu; destruct (_ && _) eqn:B'; auto.
  - apply (env_at n A B k 0 u (i - u)); lia.
  - apply (env_at n A B k 1 u (i - 1 - u)); lia.
Qed.

Lemma TC_interpol_ok : forall junk g c rs n A B, glob_ok g -> products (sumprod n A B) c -> vok 16 rs ->
  wp (TC_interpol junk g c rs) (fun '(c', rs') => vok 128 c' /\ vok 16 rs' /\
    forall i k, 0 <= i < 16 -> 0 <= k < 16 -> eqm 8192 (vg rs' i k) (wsum n A B i k - wsum n A B (i + 16) k)).
Proof.
  intros junk g c rs n A B Hg (Vc & Hc) Vr. unfold TC_interpol. cbv zeta. apply trans8k; auto. intros c1 (V1 & T1).
  set (vx := fun k => window (env n A B k)).
  assert (F : Forall2 (vrel vx (fun _ => one)) cin c1).
  { apply Forall2_ztab with []; [lia|apply V1|]. intros m Hm. cbv zeta. destruct (_ <? 63) eqn:E; [|apply vrel_top; now apply vok_row with 128].
    split; [now apply vok_row with 128|]. intros k Hk. split; cbn [fst snd]; [lia|]. change (2 ^ 16) with 65536. fold (vg c1 m k).
    rewrite T1 by auto. replace (m <? 128) with true by lia.
    remember (16 * (m / 32) + m mod 16) as q eqn:Eq. assert (Hq : 0 <= q < 63) by dlia. remember (m / 16 mod 2) as h eqn:Eh.
    replace (16 * (m / 16) + k) with (32 * (q / 16) + (16 * h + k)) by dlia. replace (m mod 16) with (q mod 16) by dlia.
    eapply eqm_trans; [apply Hc; auto; dlia|]. apply eqm_eq. rewrite sumprod_lin by auto. unfold vx. pose proof (evt_lin q Hq) as L.
    rewrite pprod_ok by (auto; dlia). apply lin_ext; auto. intros u Hu. apply lin_ext; auto. intros v Hv. symmetry. apply env_at; dlia. }
  destruct (interpol_vec vx c1 (vuninit junk 0 8) (vuninit junk 1 8) (vuninit junk 2 8) (vuninit junk 3 8) (vuninit junk 4 8) (vuninit junk 5 8) (vuninit junk 6 8) (vuninit junk 7 32) g rs)
    as (r & c' & s & out' & t & rs' & Er & Ec & Vc' & Es & Eo & Et & Ers & Vrs & H); auto; try (apply vok_uninit; lia).
  apply wp_bind. eapply wp_vrun; [exact Er|]. apply wp_bind. eapply wp_arr_of; [exact Ec|].
  apply wp_bind. unfold for_ at 1. change (Z.to_nat (8 - 0)) with 8%nat. eapply wp_forv with (code := icode); [|exact Es|].
  { intros i x y Ex. apply wp_ite. unfold icode in Ex. destruct (i <? 4); (eapply wp_vrun; [exact Ex|reflexivity]). }
  apply wp_bind. eapply wp_arr_of; [exact Eo|]. apply wp_bind. eapply forv; [exact Et|]. apply wp_bind. eapply wp_arr_of; [exact Ers|]. apply wp_ret.
  split; auto. split; auto. intros i k Hi Hk. rewrite <- !wide_ok. apply H; auto.
Qed.
