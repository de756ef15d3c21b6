(** The multiplier of m4-tc4kara meets its contract. *)
From Coq Require Import ZArith List Bool Lia.
From Verif Require Import Lib.Arr Lib.CInt Lib.CMon Spec.Ring Spec.M4Spec Model.Arm Model.ArmCode Model.M4Mul Proof.Conv Proof.PackThm Proof.ArmToomP.
Import ListNotations.
Local Open Scope Z_scope.

Lemma asm_array_ok : forall s p n f, 0 <= n -> (forall i, 0 <= i < n -> mm s p i = Half (f i)) -> asm_array s p n = Some (ztab n f).
Proof.
  intros s p n f Hn H. unfold asm_array, ztab. assert (G : forall k, (forall i, (i < k)%nat -> mm s p (Z.of_nat i) = Half (f (Z.of_nat i))) ->
    forall l, fold_right (fun i l => l <-? l ;; match mm s p (Z.of_nat i) with Half z => Some (z :: l) | _ => None end) (Some l) (seq 0 k) =
      Some (map (fun i => f (Z.of_nat i)) (seq 0 k) ++ l)).
  { induction k as [|k IH]; intros Hk l; [reflexivity|]. rewrite seq_S, fold_right_app, map_app. cbn [fold_right bind Nat.add].
    rewrite Hk by lia. rewrite IH by (intros; apply Hk; lia). cbn [map]. now rewrite <- app_assoc. }
  rewrite G by (intros; apply H; lia). now rewrite app_nil_r.
Qed.

Lemma half_choice : forall s p n (Q : Z -> Z -> Prop), (forall i, 0 <= i < n -> exists z, mm s p i = Half z /\ Q i z) ->
  exists f, forall i, 0 <= i < n -> mm s p i = Half (f i) /\ Q i (f i).
Proof.
  intros s p n Q H. exists (fun i => match mm s p i with Half z => z | _ => 0 end). intros i Hi. destruct (H i Hi) as (z & E & Hz). rewrite E. auto.
Qed.

Lemma wp_asm_emit : forall l (Q : unit -> Prop), Q tt -> wp (asm_emit l) Q.
Proof. intros l Q H t. eexists tt, _. split; [reflexivity|exact H]. Qed.
Lemma u16_array_ok : forall n a, arr U16 n a <-> u16_array n a = true.
Proof.
  intros n a. unfold u16_array. rewrite andb_true_iff, forallb_forall, Z.eqb_eq. unfold arr, typed. rewrite Forall_forall.
  split; intros (A & B); (split; [exact A|]); intros x Hx; specialize (B x Hx); change (tmin U16) with 0 in *; change (tmax U16) with 65535 in *; lia.
Qed.
Lemma toom_mem_ok : forall env scratch, regs_ok env -> forall a b res, arr U16 256 a -> arr U16 256 b -> arr U16 256 res ->
  wp (toom_cook_4way_mem env scratch a b res) (fun '(b', r) => b' = b /\ arr U16 256 r /\
    forall k, 0 <= k < 256 -> eqm 8192 (get r k) (get res k + mul_coef a b k)).
Proof.
  intros env scratch He a b res (La & Ta) (Lb & Tb) (Lr & Tr). unfold toom_cook_4way_mem. set (arrs := [(1%positive, a); (2%positive, b); (3%positive, res)]).
  set (s := asm_entry env 1776 3 (Ptr 1 0) (Ptr 2 0) (Ptr 3 0) (rg env R3) arrs).
  assert (Hs : regs_ok s).
  { intros r z. unfold s, asm_entry. cbn [rg]. destruct r; try discriminate; apply He. }
  assert (Hc : forall p, asm_size 1776 arrs p = tsize p).
  { intros p. unfold asm_size, arrs. cbn [array]. destruct p as [[[]|[]|]|[[]|[]|]|]; cbn [Pos.eqb]; auto. }
  destruct (toom_ok a b res La Lb s scratch Hs (asm_size 1776 arrs) Hc) as (t' & Ex & Ep & Er & Ei & Eo); auto.
  { intros i Hi. pose proof (typed_get U16 a i Ta ltac:(lia)). pose proof (typed_get U16 b i Tb ltac:(lia)). pose proof (typed_get U16 res i Tr ltac:(lia)).
    change (tmin U16) with 0 in *. change (tmax U16) with 65535 in *. lia. }
  apply half_choice in Eo as (f & Hf).
  apply wp_bind. unfold asm_call.
  replace (forallb (fun p => u16_array 256 (snd p)) arrs) with true
    by (symmetry; apply forallb_forall; intros p [<-|[<-|[<-|[]]]]; apply u16_array_ok; split; assumption).
  cbn [negb]. change (Z.of_nat 3) with 3. fold s. rewrite Ex.
  assert (asm_returned 3 s t' = true) as ->.
  { unfold asm_returned. apply andb_true_iff. split; [destruct (val_eq_dec _ _); congruence|]. apply forallb_forall. intros r Hin. rewrite (Er r Hin).
    destruct (val_eq_dec _ _); congruence. }
  unfold arrs. cbn [fold_right bind]. rewrite La, Lb, Lr.
  rewrite (asm_array_ok t' 3 256 f) by (try lia; intros; now apply Hf). cbn [bind].
  rewrite (asm_array_ok t' 2 256 (get b)) by (try lia; intros; now apply Ei). cbn [bind].
  rewrite (asm_array_ok t' 1 256 (get a)) by (try lia; intros; now apply Ei). cbn [bind].
  apply wp_bind, wp_asm_emit, wp_ret.
  assert (TG : forall l, len l = 256 -> ztab 256 (get l) = l).
  { intros l Hl. apply znth_ext with 0; [rewrite len_ztab by lia; auto|]. intros i Hi. rewrite len_ztab in Hi by lia. rewrite znth_ztab by lia. reflexivity. }
  rewrite !TG by auto. destruct (list_eq_dec Z.eq_dec a a); [|congruence]. apply wp_ret. split; auto. split.
  - split; [apply len_ztab; lia|]. apply Forall_forall. intros z Hz. apply in_map_iff in Hz as (i & <- & Hi). apply in_seq in Hi.
    destruct (Hf (Z.of_nat i) ltac:(lia)) as (_ & R & _). cbn. lia.
  - intros k Hk. unfold get at 1. rewrite znth_ztab by lia. apply Hf. auto.
Qed.

Lemma tc4kara_mul_acc_ok : forall env scratch, regs_ok env -> mul_acc_ok (tc4kara_poly_mul_acc env scratch).
Proof.
  intros env scratch He junk a b res Ha Hb Hr. unfold tc4kara_poly_mul_acc. eapply wp_mono; [apply (toom_mem_ok env scratch He a b res); auto|].
  intros (b', r) (-> & Ar & H). split; auto. split; auto. intros k Hk. apply eqm_mod_eq; [lia|]. now apply H.
Qed.
Lemma tc4kara_mul_ok : forall env scratch, regs_ok env -> mul_ok (tc4kara_poly_mul env scratch).
Proof.
  intros env scratch He junk a b res Ha Hb Hr. unfold tc4kara_poly_mul. apply wp_bind, wp_memset; [lia|].
  rewrite zskip_all by lia. rewrite app_nil_r. change (repeat 0 (Z.to_nat 256)) with (zeros 256).
  eapply wp_mono; [apply (toom_mem_ok env scratch He a b (zeros 256)); auto|].
  - split; [reflexivity|]. apply Forall_repeat. cbn. lia.
  - intros (b', r) (-> & Ar & H). split; auto. split; auto. intros k Hk. apply eqm_mod_eq; [lia|]. specialize (H k Hk).
    now rewrite get_zeros, Z.add_0_l in H.
Qed.

(** ** C44 *)

Lemma C44_mul_lemma : forall env scratch, regs_ok env -> forall junk a b res, arr U16 256 a -> arr U16 256 b -> len res = 256 ->
  exists r, run (tc4kara_poly_mul env scratch junk a b res) = Some (b, r) /\ arr U16 256 r /\
    forall k, 0 <= k < 256 -> get r k mod 8192 = mul_coef a b k mod 8192.
Proof.
  intros env scratch He junk a b res Ha Hb Hr.
  assert (W : wp (tc4kara_poly_mul env scratch junk a b res) (fun '(b', r) => b' = b /\ arr U16 256 r /\ forall k, 0 <= k < 256 -> get r k mod 8192 = mul_coef a b k mod 8192)).
  { unfold tc4kara_poly_mul. apply wp_bind, wp_memset; [lia|].
    rewrite zskip_all by lia. rewrite app_nil_r. change (repeat 0 (Z.to_nat 256)) with (zeros 256).
    eapply wp_mono; [apply (toom_mem_ok env scratch He a b (zeros 256)); auto|].
    - split; [reflexivity|]. apply Forall_repeat. cbn. lia.
    - intros (b', r) (-> & Ar & H). split; auto. split; auto. intros k Hk. apply eqm_mod_eq; [lia|]. specialize (H k Hk).
      now rewrite get_zeros, Z.add_0_l in H. }
  apply wp_run in W as ((b', r) & E & -> & Ar & H). exists r. auto.
Qed.
Lemma C44_mul_acc_lemma : forall env scratch, regs_ok env -> forall junk a b res, arr U16 256 a -> arr U16 256 b -> arr U16 256 res ->
  exists r, run (tc4kara_poly_mul_acc env scratch junk a b res) = Some (b, r) /\ arr U16 256 r /\
    forall k, 0 <= k < 256 -> get r k mod 8192 = (get res k + mul_coef a b k) mod 8192.
Proof.
  intros env scratch He junk a b res Ha Hb Hr. pose proof (toom_mem_ok env scratch He a b res Ha Hb Hr) as W.
  apply wp_run in W as ((b', r) & E & -> & Ar & H). exists r. split; [exact E|]. split; auto. intros k Hk. apply eqm_mod_eq; [lia|]. now apply H.
Qed.
Lemma C44_asm_lemma : forall a b res, arr U16 256 a -> arr U16 256 b -> arr U16 256 res ->
  forall env scratch, regs_ok env ->
  let arrs := [(1%positive, a); (2%positive, b); (3%positive, res)] in
  let s := asm_entry env 1776 3 (Ptr 1 0) (Ptr 2 0) (Ptr 3 0) (rg env R3) arrs in
  exists s', exec (asm_size 1776 arrs) scratch 3 toom_cook_4way_mem_asm s = Some s' /\ rg s' PC = Ret 3 /\ rg s' SP = Ptr 4 3552 /\
    (forall r, In r [R4; R5; R6; R7; R8; R9; R10; R11] -> rg s' r = rg env r) /\
    (forall k, 0 <= k < 256 -> mm s' 1 k = Half (get a k) /\ mm s' 2 k = Half (get b k) /\
      exists z, mm s' 3 k = Half z /\ z mod 8192 = (get res k + mul_coef a b k) mod 8192).
Proof.
  intros a b res (La & Ta) (Lb & Tb) (Lr & Tr) env scratch He arrs s.
  assert (Hs : regs_ok s).
  { intros r z. unfold s, asm_entry. cbn [rg]. destruct r; try discriminate; apply He. }
  assert (Hc : forall p, asm_size 1776 arrs p = tsize p).
  { intros p. unfold asm_size, arrs. cbn [array]. destruct p as [[[]|[]|]|[[]|[]|]|]; cbn [Pos.eqb]; auto. }
  destruct (toom_ok a b res La Lb s scratch Hs (asm_size 1776 arrs) Hc) as (t' & Ex & Ep & Er & Ei & Eo); auto.
  { intros i Hi. pose proof (typed_get U16 a i Ta ltac:(lia)). pose proof (typed_get U16 b i Tb ltac:(lia)). pose proof (typed_get U16 res i Tr ltac:(lia)).
    change (tmin U16) with 0 in *. change (tmax U16) with 65535 in *. lia. }
  exists t'. split; [exact Ex|]. split; [exact Ep|]. split; [rewrite Er by (cbn; tauto); reflexivity|]. split.
  - intros r Hr. clear Ex Hc. cbn in Hr. rewrite Er by (cbn; tauto). unfold s, asm_entry. cbn [rg]. decompose [or] Hr; subst; easy.
  - intros k Hk. destruct (Ei k Hk), (Eo k Hk) as (z & Ez & _ & Q). split; auto. split; auto. exists z. split; auto. apply eqm_mod_eq; [lia|exact Q].
Qed.
