(** Symbolic execution of vector code. *)
From Coq Require Import ZArith List Bool Lia.
From Verif Require Import Lib.Arr Lib.CInt Lib.CMon Model.Vec Proof.Conv Proof.ArmSym Proof.ArmSymP.
Import ListNotations.
Local Open Scope Z_scope.

(** ** Simulation *)
Section Sim.
  Context {V W : Type}.
  Variable O : vops V.
  Variable P : vops W.
  Variable R : V -> W -> Prop.
  Hypothesis Hbin : forall o x y x' y' z, R x x' -> R y y' -> o_bin O o x y = Some z -> exists z', o_bin P o x' y' = Some z' /\ R z z'.
  Hypothesis Hsll : forall x x' n z, R x x' -> o_sll O x n = Some z -> exists z', o_sll P x' n = Some z' /\ R z z'.
  Hypothesis Hsrl : forall x x' n z, R x x' -> o_srl O x n = Some z -> exists z', o_srl P x' n = Some z' /\ R z z'.
  Hypothesis Hzero : forall z, o_zero O = Some z -> exists z', o_zero P = Some z' /\ R z z'.

  Definition rrel (a : Z * V) (b : Z * W) : Prop := fst a = fst b /\ R (snd a) (snd b).
  Lemma rget_sim : forall rs rs' r v, Forall2 rrel rs rs' -> rget rs r = Some v -> exists v', rget rs' r = Some v' /\ R v v'.
  Proof.
    intros rs rs' r v H. induction H as [|[q a] [q' b] rs rs' (E & H) F IH]; cbn [rget]; [discriminate|].
    cbn [fst snd] in *. subst q'. destruct (q =? r); auto. intros E. injection E as <-. eauto.
  Qed.
  Lemma lookup_sim : forall {A B} (S : A -> B -> Prop) l l' i v, Forall2 S l l' -> lookup l i = Some v -> exists v', lookup l' i = Some v' /\ S v v'.
  Proof.
    intros A B S l l' i v H. unfold lookup. destruct (i <? 0); [discriminate|]. generalize (Z.to_nat i) as n. clear i.
    induction H as [|x y l l' Hx F IH]; intros [|n]; cbn [nth_error]; try discriminate; auto. intros E. injection E as <-. eauto.
  Qed.
  Lemma update_sim : forall {A B} (S : A -> B -> Prop) l l' i v v' r, Forall2 S l l' -> S v v' -> update l i v = Some r ->
    exists r', update l' i v' = Some r' /\ Forall2 S r r'.
  Proof.
    intros A B S l l' i v v' r H Hv. unfold update. destruct (i <? 0); [discriminate|]. generalize (Z.to_nat i) as n. clear i. revert r.
    induction H as [|x y l l' Hx F IH]; intros r [|n]; cbn [updn_opt]; try discriminate.
    - intros E. injection E as <-. exists (v' :: l'). auto.
    - intros E. destruct (updn_opt l n v) as [q|] eqn:Eq; [|discriminate]. injection E as <-.
      destruct (IH _ _ Eq) as (q' & E' & F'). rewrite E'. eauto.
  Qed.

  Lemma veval_sim : forall rs rs' l l' e v, Forall2 rrel rs rs' -> Forall2 (Forall2 R) l l' -> veval O rs l e = Some v ->
    exists v', veval P rs' l' e = Some v' /\ R v v'.
  Proof.
    intros rs rs' l l' e v Hr Hl. revert v. induction e; intros v; cbn [veval].
    - now apply rget_sim.
    - intros E. destruct (lookup l a) as [x|] eqn:Ea; [|discriminate]. cbn [obind] in E.
      destruct (lookup_sim _ _ _ _ _ Hl Ea) as (y & E' & F). rewrite E'. cbn [obind]. eapply lookup_sim; eauto.
    - destruct (veval O rs l e1) as [a|]; [|discriminate]. destruct (veval O rs l e2) as [b|]; [|discriminate]. cbn [obind]. intros E.
      destruct (IHe1 _ eq_refl) as (a' & -> & Ra). destruct (IHe2 _ eq_refl) as (b' & -> & Rb). cbn [obind]. eapply Hbin; eauto.
    - destruct (veval O rs l e) as [a|]; [|discriminate]. cbn [obind]. intros E. destruct (IHe _ eq_refl) as (a' & -> & Ra). cbn [obind]. eapply Hsll; eauto.
    - destruct (veval O rs l e) as [a|]; [|discriminate]. cbn [obind]. intros E. destruct (IHe _ eq_refl) as (a' & -> & Ra). cbn [obind]. eapply Hsrl; eauto.
    - apply Hzero.
  Qed.
  Lemma vexec_sim : forall c rs rs' l l' r, Forall2 rrel rs rs' -> Forall2 (Forall2 R) l l' -> vexec O c rs l = Some r ->
    exists r', vexec P c rs' l' = Some r' /\ Forall2 (Forall2 R) r r'.
  Proof.
    induction c as [|[q e|a i e] c IH]; intros rs rs' l l' r Hr Hl; cbn [vexec]; intros E.
    - injection E as <-. eauto.
    - destruct (veval O rs l e) as [v|] eqn:Ev; [|discriminate]. destruct (veval_sim _ _ _ _ _ _ Hr Hl Ev) as (v' & -> & Rv). cbn [obind] in *.
      eapply IH; [|exact Hl|exact E]. constructor; auto. split; auto.
    - destruct (veval O rs l e) as [v|] eqn:Ev; [|discriminate]. destruct (veval_sim _ _ _ _ _ _ Hr Hl Ev) as (v' & -> & Rv). cbn [obind] in *.
      destruct (lookup l a) as [x|] eqn:Ex; [|discriminate]. destruct (lookup_sim _ _ _ _ _ Hl Ex) as (x' & -> & Rx). cbn [obind] in *.
      destruct (update x i v) as [y|] eqn:Ey; [|discriminate]. destruct (update_sim _ _ _ _ _ _ _ Rx Rv Ey) as (y' & -> & Ry). cbn [obind] in *.
      destruct (update l a y) as [m|] eqn:Em; [|discriminate]. destruct (update_sim _ _ _ _ _ _ _ Hl Ry Em) as (m' & -> & Rm). cbn [obind] in *.
      eauto.
  Qed.
End Sim.

(** A sequence of pieces of code, each starting with no register set. *)
Fixpoint vexecs {V} (O : vops V) (cs : list (list vstmt)) (l : list (list V)) : option (list (list V)) :=
  match cs with [] => Some l | c :: cs => obind (vexec O c [] l) (vexecs O cs) end.
Fixpoint seqz (n : nat) (lo : Z) : list Z := match n with O => [] | S n => lo :: seqz n (lo + 1) end.

Lemma wp_vrun : forall c s r (Q : list (list vec) -> Prop), vexec vecs c [] s = Some r -> Q r -> wp (vrun c s) Q.
Proof. intros c s r Q E H t. unfold vrun. rewrite E. exists r, t. auto. Qed.
Lemma wp_emit : forall e (Q : unit -> Prop), Q tt -> wp (emit e) Q.
Proof. intros e Q H t. exists tt, (e :: t). auto. Qed.
Lemma wp_forv : forall n lo body code (Q : list (list vec) -> Prop) s r,
  (forall i s r, vexec vecs (code i) [] s = Some r -> wp (body i s) (fun x => x = r)) ->
  vexecs vecs (map code (seqz n lo)) s = Some r -> Q r -> wp (forn n lo body s) Q.
Proof.
  induction n as [|n IH]; intros lo body code Q s r Hb E H; cbn [forn].
  - cbn in E. injection E as <-. apply wp_bind, wp_emit, wp_ret, H.
  - cbn [seqz map vexecs] in E. destruct (vexec vecs (code lo) [] s) as [q|] eqn:Eq; [|discriminate]. cbn [obind] in E.
    apply wp_bind, wp_emit, wp_bind. eapply wp_mono; [apply (Hb lo s q Eq)|]. intros ? ->. eapply IH; eauto.
Qed.

(** ** Lanes as polynomials *)
Definition haops : vops ah := VOps
  (fun o x y => match o with Add => Some (hadd x y) | Sub => Some (hsub x y) | Mul => Some (hmul x y) | _ => None end)
  (fun x n => if (0 <=? n) && (n <=? 15) then Some (hscale (2 ^ n) x) else None)
  (fun x n => if (0 <=? n) && (n <=? 15) then Some (hshr n x) else None)
  (Some (hconst 0)).

Section Lane.
  (** The values of the variables in each lane. *)
  Variable vx vy : Z -> Z -> Z.
  Hypothesis vx0 : forall k, vx k 0 = 1.
  Hypothesis vy0 : forall k, vy k 0 = 1.

  Definition vrel (a : ah) (v : vec) : Prop := arr U16 16 v /\ forall k, 0 <= k < 16 -> hal (vx k) (vy k) a (get v k).

  Lemma lanes_arr : forall f, (forall k, 0 <= k < 16 -> 0 <= f k < 65536) -> arr U16 16 (lanes f).
  Proof. intros f H. split; [now apply len_ztab|]. apply Forall_ztab. intros i Hi. specialize (H i Hi). cbn. lia. Qed.
  Lemma wrap16_range : forall z, 0 <= wrap U16 z < 65536.
  Proof. intros. cbn. pose proof (Z.mod_pos_bound z 65536 ltac:(lia)). lia. Qed.
  Lemma wrap16_eqm : forall z, eqm 65536 (wrap U16 z) z.
  Proof. intros. apply (eqm_mod 65536). lia. Qed.
  Lemma get_lanes : forall f k, 0 <= k < 16 -> get (lanes f) k = f k.
  Proof. intros. unfold get, lanes. now rewrite znth_ztab. Qed.

  Lemma vrel_lane2 : forall f h a b x y, (forall vx vy, vx 0 = 1 -> vy 0 = 1 -> forall a b x y, hal vx vy a x -> hal vx vy b y -> hal vx vy (h a b) (f x y)) ->
    vrel a x -> vrel b y -> vrel (h a b) (lane2 f x y).
  Proof.
    intros f h a b x y H (A & Ha) (B & Hb). split; [apply lanes_arr; intros; apply wrap16_range|].
    intros k Hk. unfold lane2. rewrite get_lanes by auto. eapply hal_eqm; [apply wrap16_eqm|]. apply H; auto.
  Qed.
  Lemma ha_sim : forall c l l' r, Forall2 (Forall2 vrel) l l' -> vexec haops c [] l = Some r ->
    exists r', vexec vecs c [] l' = Some r' /\ Forall2 (Forall2 vrel) r r'.
  Proof.
    intros c l l' r. apply vexec_sim; [| | | |constructor].
    - intros o x y x' y' z Hx Hy E. destruct o; try discriminate; injection E as <-; eexists; (split; [reflexivity|]).
      + apply (vrel_lane2 Z.add hadd); auto. intros. now apply hal_add.
      + apply (vrel_lane2 Z.sub hsub); auto. intros. now apply hal_sub.
      + apply (vrel_lane2 Z.mul hmul); auto. intros. now apply hal_mul.
    - intros x x' n z (Ax & Hx) E. cbn [o_sll haops vecs] in *. destruct (_ && _) eqn:C; [|discriminate]. injection E as <-. eexists. split; [reflexivity|].
      split; [|intros k Hk]; unfold vsll; destruct (n <=? 15) eqn:C'; try lia.
      + apply lanes_arr. intros. apply wrap16_range.
      + rewrite get_lanes by auto. eapply hal_eqm; [apply wrap16_eqm|]. rewrite Z.shiftl_mul_pow2 by lia. apply hal_scale. now apply Hx.
    - intros x x' n z (Ax & Hx) E. cbn [o_srl haops vecs] in *. destruct (_ && _) eqn:C; [|discriminate]. injection E as <-. eexists. split; [reflexivity|].
      split; [|intros k Hk]; unfold vsrl; destruct (n <=? 15) eqn:C'; try lia.
      + apply lanes_arr. intros k Hk. rewrite Z.shiftr_div_pow2 by lia. destruct Ax as (L & T). pose proof (typed_get U16 x' k T ltac:(lia)) as B.
        change (tmin U16) with 0 in B. change (tmax U16) with 65535 in B. unfold get in B.
        assert (0 < 2 ^ n) by lia. split; [apply Z.div_pos; lia|]. apply Z.div_lt_upper_bound; [lia|]. nia.
      + rewrite get_lanes by auto. rewrite Z.shiftr_div_pow2 by lia. apply hal_shr; [lia|]. now apply Hx.
    - intros z E. injection E as <-. eexists. split; [reflexivity|]. split.
      + apply lanes_arr. intros. apply wrap16_range.
      + intros k Hk. unfold vset1. rewrite get_lanes by auto. apply hal_const; auto.
  Qed.
  Lemma ha_sims : forall cs l l' r, Forall2 (Forall2 vrel) l l' -> vexecs haops cs l = Some r ->
    exists r', vexecs vecs cs l' = Some r' /\ Forall2 (Forall2 vrel) r r'.
  Proof.
    induction cs as [|c cs IH]; intros l l' r H; cbn [vexecs]; intros E.
    - injection E as <-. eauto.
    - destruct (vexec haops c [] l) as [q|] eqn:Eq; [|discriminate]. destruct (ha_sim _ _ _ _ H Eq) as (q' & -> & F). cbn [obind] in *. eauto.
  Qed.
End Lane.

(** ** Lanes as labels: shuffles *)
Definition labops : vops (list Z) := VOps
  (fun o x y => match o with
   | UnpackLo w => Some (shuffle (-1) (unpack_src false w) x y)
   | UnpackHi w => Some (shuffle (-1) (unpack_src true w) x y)
   | Perm imm => Some (shuffle (-1) (perm_src imm) x y)
   | _ => None end)
  (fun _ _ => None) (fun _ _ => None) None.
Section Lab.
  Variable val : Z -> Z.
  Hypothesis val0 : val (-1) = 0.
  Definition lrel (a : list Z) (v : vec) : Prop := v = map val a.
  Lemma znth_map0 : forall l k, znth 0 (map val l) k = val (znth (-1) l k).
  Proof. intros l k. unfold znth. destruct (k <? 0); [now rewrite val0|]. rewrite <- val0. apply map_nth. Qed.
  Lemma shuffle_map : forall src x y, shuffle 0 src (map val x) (map val y) = map val (shuffle (-1) src x y).
  Proof.
    intros. unfold shuffle. rewrite map_map. apply map_ext. intros [s k]. destruct s; apply znth_map0.
  Qed.
  Lemma lab_sim : forall c l l' r, Forall2 (Forall2 lrel) l l' -> vexec labops c [] l = Some r ->
    exists r', vexec vecs c [] l' = Some r' /\ Forall2 (Forall2 lrel) r r'.
  Proof.
    intros c l l' r. apply vexec_sim; [| | | |constructor]; try discriminate.
    intros o x y x' y' z -> -> E. destruct o; try discriminate; injection E as <-; eexists; (split; [reflexivity|]); apply shuffle_map.
  Qed.
End Lab.
