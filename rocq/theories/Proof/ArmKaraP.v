(** The product of 64 by 64 coefficients in assembly: karatsuba_64x64 of the Cortex-M4 code. *)
From Coq Require Import ZArith List Bool Lia FMapPositive.
From Verif Require Import Lib.Arr Spec.Ring Model.Arm Model.ArmCode Proof.Conv Proof.ArmSym Proof.ArmSymP.
Import ListNotations.
Local Open Scope Z_scope.

Definition aempty : astate := AState (PositiveMap.empty _) (PositiveMap.empty _) None.

(** Sum of the terms x_(k-i+1) y_(i+1). *)
Fixpoint kprod (n : nat) (k : Z) : poly :=
  match n with
  | O => []
  | S n => let i := Z.of_nat n in
    padd (if (0 <=? k - i) && (k - i <? 64) then [(k - i + 1, i + 1, 1)] else []) (kprod n k)
  end.

Definition ksize (p : positive) : Z := match p with 1%positive | 2%positive => 64 | 3%positive => 127 | 4%positive => 208 | _ => 0 end.
Definition kx (i : Z) : acell := CH (16, [(i + 1, 0, 1)]).
Definition ky (i : Z) : acell := CH (16, [(0, i + 1, 1)]).
Definition kinit : astate :=
  let s := afill 64 1 0 kx (afill 64 2 0 ky aempty) in
  aset (aset (aset (aset (aset s R0 (AP 3 0)) R1 (AP 1 0)) R2 (AP 2 0)) SP (AP 4 416)) LR (AR 2).

Definition is_half (c : option acell) (k : Z) (p : poly) : bool :=
  match c with Some (CH (k', q)) => (k <=? k') && (k' <=? 16) && peqb k q p | _ => false end.
Definition upto (n : nat) (f : Z -> bool) : bool := forallb (fun i => f (Z.of_nat i)) (seq 0 n).
Lemma upto_ok : forall n f i, upto n f = true -> 0 <= i < Z.of_nat n -> f i = true.
Proof.
  intros n f i H Hi. unfold upto in H. rewrite forallb_forall in H. specialize (H (Z.to_nat i)).
  rewrite Z2Nat.id in H by lia. apply H. apply in_seq. lia.
Qed.

Definition kfinal (s : astate) : bool :=
  aval_eqb (aget s PC) (AR 2) && aval_eqb (aget s SP) (AP 4 416) &&
  upto 64 (fun i => is_half (mget s 1 i) 16 [(i + 1, 0, 1)]) && upto 64 (fun i => is_half (mget s 2 i) 16 [(0, i + 1, 1)]) &&
  upto 127 (fun k => is_half (mget s 3 k) 16 (kprod 64 k)).
Lemma run_some : forall (m : option astate) f, match m with Some s => f s | None => false end = true -> exists s, m = Some s /\ f s = true.
Proof. intros [s|] f H; [eauto|discriminate]. Qed.
Lemma kara_run : exists s, aexec ksize 2 karatsuba_64x64 kinit = Some s /\ kfinal s = true.
Proof. apply (run_some (aexec ksize 2 karatsuba_64x64 kinit) kfinal). vm_cast_no_check (eq_refl true). Qed.
Local Opaque aexec karatsuba_64x64.

Lemma aval_eqb_ok : forall a b, aval_eqb a b = true -> a = b.
Proof.
  intros [] [] H; cbn [aval_eqb] in H; try discriminate.
  - apply andb_true_iff in H as (A & B). apply Pos.eqb_eq in A. apply Z.eqb_eq in B. congruence.
  - apply Z.eqb_eq in H. congruence.
  - destruct (reg_eq_dec _ _); congruence.
Qed.

Lemma is_half_ok : forall vx vy size pr hb ini r i c k p x, 0 <= k -> is_half c k p = true -> mcell vx vy pr hb ini r i c x ->
  inw size r i -> exists z, x = Half z /\ 0 <= z < 65536 /\ eqm (2 ^ k) z (peval vx vy p).
Proof.
  intros vx vy size pr hb ini r i c k p x Hk H M _. unfold is_half in H. destruct c as [[[k' q]| |]|]; try discriminate. cbn [mcell] in M.
  destruct M as (z & -> & R & _ & Hz). cbn [fst snd] in Hz. exists z. split; auto. split; auto.
  rewrite !andb_true_iff in H. destruct H as ((A & B) & C). eapply eqm_trans; [apply (eqm_le k'); [lia|exact Hz]|]. now apply peqb_ok.
Qed.

Definition window (x : Z -> Z) (i : Z) : Z := if i =? 0 then 1 else x (i - 1).
Lemma window_0 : forall x, window x 0 = 1. Proof. reflexivity. Qed.
Lemma window_1 : forall x i, 0 <= i -> window x (i + 1) = x i.
Proof. intros. unfold window. destruct (Z.eqb_spec (i + 1) 0); [lia|]. f_equal. lia. Qed.

Lemma kprod_ok : forall x y k n, supp 64 x -> peval (window x) (window y) (kprod n k) = zsum (Z.of_nat n) (fun i => y i * x (k - i)).
Proof.
  intros x y k n Hx. unfold zsum. rewrite Nat2Z.id. induction n as [|n IH]; cbn [kprod zsumn]; [reflexivity|].
  rewrite peval_add, IH. destruct (_ && _) eqn:E.
  - cbn [peval]. rewrite !window_1 by lia. lia.
  - cbn [peval]. rewrite (Hx (k - Z.of_nat n)) by lia. lia.
Qed.

Lemma half_eq : forall a b, 0 <= a < 65536 -> 0 <= b < 65536 -> eqm 65536 a b -> a = b.
Proof. intros a b A B (q & H). lia. Qed.
Lemma in_or_out : forall (p q : positive) a b j, p = q /\ a <= j < b \/ ~ (p = q /\ a <= j < b).
Proof. intros. destruct (Pos.eq_dec p q); lia. Qed.

Lemma inw_cases : forall r i, inw ksize r i ->
  (r = 1%positive /\ 0 <= i < 64) \/ (r = 2%positive /\ 0 <= i < 64) \/ (r = 3%positive /\ 0 <= i < 127) \/ (r = 4%positive /\ 0 <= i < 208).
Proof. intros r i (A & B). destruct r as [[[]|[]|]|[[]|[]|]|]; cbn [ksize] in B; try lia; auto. Qed.

Section Kara.
  Variable csize : positive -> Z.
  Variable scratch t : state.
  Variable p0 p1 p2 p4 : positive.
  Variable h0 h1 h2 h4 : Z.
  Variable x y : Z -> Z.
  Hypothesis E0 : rg t R0 = Ptr p0 (2 * h0).
  Hypothesis E1 : rg t R1 = Ptr p1 (2 * h1).
  Hypothesis E2 : rg t R2 = Ptr p2 (2 * h2).
  Hypothesis E4 : rg t SP = Ptr p4 (2 * h4).
  Hypothesis B0 : 0 <= h0 /\ h0 + 127 <= csize p0.
  Hypothesis B1 : 0 <= h1 /\ h1 + 64 <= csize p1.
  Hypothesis B2 : 0 <= h2 /\ h2 + 64 <= csize p2.
  Hypothesis B4 : 208 <= h4 <= csize p4.
  Hypothesis D01 : p0 = p1 -> h0 + 127 <= h1 \/ h1 + 64 <= h0.
  Hypothesis D02 : p0 = p2 -> h0 + 127 <= h2 \/ h2 + 64 <= h0.
  Hypothesis D12 : p1 = p2 -> h1 + 64 <= h2 \/ h2 + 64 <= h1.
  Hypothesis D40 : p4 = p0 -> h4 <= h0.
  Hypothesis D41 : p4 = p1 -> h4 <= h1.
  Hypothesis D42 : p4 = p2 -> h4 <= h2.
  Hypothesis Hx : forall i, 0 <= i < 64 -> mm t p1 (h1 + i) = Half (x i) /\ 0 <= x i < 65536.
  Hypothesis Hy : forall i, 0 <= i < 64 -> mm t p2 (h2 + i) = Half (y i) /\ 0 <= y i < 65536.
  Hypothesis Sx : supp 64 x.

  Let pr (r : positive) : positive := match r with 1%positive => p1 | 2%positive => p2 | 3%positive => p0 | _ => p4 end.
  Let hb (r : positive) : Z := match r with 1%positive => h1 | 2%positive => h2 | 3%positive => h0 | _ => h4 - 208 end.
  Let ini : state := State (fun _ => Int 0) (mm t) false false.

  Lemma kplaced : placed ksize csize pr hb.
  Proof.
    split; [|split].
    - intros r A B. destruct (inw_cases r 0) as [(-> & _)|[(-> & _)|[(-> & _)|(-> & _)]]]; [split; lia|..]; cbn [pr hb ksize]; lia.
    - intros r q i j A B. destruct (inw_cases _ _ A) as [(-> & _)|[(-> & _)|[(-> & _)|(-> & _)]]], (inw_cases _ _ B) as [(-> & _)|[(-> & _)|[(-> & _)|(-> & _)]]];
        auto; cbn [pr hb]; destruct A as (_ & A), B as (_ & B); cbn [ksize] in A, B; intros E E'; exfalso;
        first [specialize (D01 E)|specialize (D01 (eq_sym E))|specialize (D02 E)|specialize (D02 (eq_sym E))|specialize (D12 E)|specialize (D12 (eq_sym E))
              |specialize (D40 E)|specialize (D40 (eq_sym E))|specialize (D41 E)|specialize (D41 (eq_sym E))|specialize (D42 E)|specialize (D42 (eq_sym E))]; lia.
    - intros r i j A N E J. cbn [ksize hb] in *. destruct (inw_cases _ _ A) as [(-> & ?)|[(-> & ?)|[(-> & ?)|(-> & ?)]]]; cbn [pr hb] in *; try congruence;
        symmetry in E; [specialize (D41 E)|specialize (D42 E)|specialize (D40 E)]; lia.
  Qed.

  Lemma kara_mst : mst (window x) (window y) ksize pr hb ini kinit (setr t LR (Ret 2)).
  Proof.
    split; [|split; [|split]].
    - intros r. unfold kinit. rewrite !aget_aset, !aget_afill. cbn [rg setr].
      destruct r; cbn [reg_eq_dec]; try exact Logic.I.
      + cbn -[Z.mul Z.add]. rewrite E0. f_equal. lia.
      + cbn -[Z.mul Z.add]. rewrite E1. f_equal. lia.
      + cbn -[Z.mul Z.add]. rewrite E2. f_equal. lia.
      + cbn -[Z.mul Z.add Z.sub]. rewrite E4. f_equal. lia.
      + reflexivity.
    - intros r i W. change (mget kinit r i) with (mget (afill 64 1 0 kx (afill 64 2 0 ky aempty)) r i).
      assert (forall k, 0 <= k < Z.of_nat 64 -> inw ksize 1 (0 + k)) by (intros; split; cbn [ksize]; lia).
      assert (forall k, 0 <= k < Z.of_nat 64 -> inw ksize 2 (0 + k)) by (intros; split; cbn [ksize]; lia).
      rewrite !(mget_afill ksize) by auto. cbn [mm setr].
      destruct (inw_cases _ _ W) as [(-> & Hi)|[(-> & Hi)|[(-> & Hi)|(-> & Hi)]]]; cbn [Pos.eqb andb pr hb].
      + replace (_ && _)%bool with true by lia. cbn [mcell kx]. destruct (Hx i Hi) as (-> & R). exists (x i). split; auto. split; auto.
        split; cbn [fst snd peval]; [lia|]. rewrite window_1, window_0 by lia. apply eqm_eq. lia.
      + replace (_ && _)%bool with true by lia. cbn [mcell ky]. destruct (Hy i Hi) as (-> & R). exists (y i). split; auto. split; auto.
        split; cbn [fst snd peval]; [lia|]. rewrite window_1, window_0 by lia. apply eqm_eq. lia.
      + unfold mget, aempty. cbn [am]. rewrite PositiveMap.gempty. reflexivity.
      + unfold mget, aempty. cbn [am]. rewrite PositiveMap.gempty. reflexivity.
    - reflexivity.
    - discriminate.
  Qed.

  Lemma kara_ok : exists t', ccall csize scratch 2 karatsuba_64x64 t = Some t' /\ rg t' SP = rg t SP /\
    (forall k, 0 <= k < 127 -> exists z, mm t' p0 (h0 + k) = Half z /\ 0 <= z < 65536 /\ eqm 65536 z (conv 64 y x k)) /\
    (forall p j, ~ (p = p0 /\ h0 <= j < h0 + 127) -> ~ (p = p4 /\ h4 - 208 <= j < h4) -> mm t' p j = mm t p j).
  Proof.
    pose proof kara_mst as M.
    destruct kara_run as (s & E & K). assert (RI : regs_ok ini) by (intros r z Er; cbn [ini rg] in Er; injection Er as <-; lia).
    destruct (mst_exec (window x) (window y) eq_refl eq_refl ksize csize pr hb ini scratch kplaced RI 2 karatsuba_64x64 kinit _ s M E) as (t' & Ex & M').
    unfold kfinal in K. rewrite !andb_true_iff in K. destruct K as ((((K1 & K2) & K3) & K4) & K5).
    apply aval_eqb_ok in K1, K2. destruct M' as (Hr & Hm & Ho & _).
    pose proof (Hr PC) as Hp. rewrite K1 in Hp. cbn [mval conc] in Hp. pose proof (Hr SP) as Hs. rewrite K2 in Hs. cbn [mval conc] in Hs.
    exists t'. split; [|split; [|split]].
    - unfold ccall. change (Z.of_nat 2) with 2. rewrite Ex. cbn [bind]. rewrite Hp. destruct (val_eq_dec _ _); congruence.
    - rewrite Hs, E4. cbn [pr hb]. f_equal. lia.
    - intros k Hk. assert (W : inw ksize 3 k) by (split; cbn [ksize]; lia).
      apply (upto_ok _ _ k) in K5; [|lia]. destruct (is_half_ok _ _ ksize _ _ _ _ _ _ 16 _ _ ltac:(lia) K5 (Hm 3%positive k W) W) as (z & Ez & R & Hz).
      exists z. split; auto. split; auto. rewrite kprod_ok in Hz by auto. exact Hz.
    - intros p j N0 N4.
      assert (KX : forall i, 0 <= i < 64 -> mm t' p1 (h1 + i) = mm t p1 (h1 + i)).
      { intros i Hi. assert (W : inw ksize 1 i) by (clear - Hi; split; cbn [ksize]; lia).
        apply (upto_ok _ _ i) in K3; [|lia]. destruct (is_half_ok _ _ ksize _ _ _ _ _ _ 16 _ _ ltac:(lia) K3 (Hm 1%positive _ W) W) as (z & Ez & R & Hz).
        cbn [pr hb] in Ez. rewrite Ez. destruct (Hx i Hi) as (Hc & Rx). rewrite Hc. f_equal. cbn [peval] in Hz. rewrite window_1, window_0 in Hz by (clear - Hi; lia).
        change (2 ^ 16) with 65536 in Hz. apply half_eq; [exact R|exact Rx|]. eapply eqm_trans; [exact Hz|]. apply eqm_eq. clear. ring. }
      assert (KY : forall i, 0 <= i < 64 -> mm t' p2 (h2 + i) = mm t p2 (h2 + i)).
      { intros i Hi. assert (W : inw ksize 2 i) by (clear - Hi; split; cbn [ksize]; lia).
        apply (upto_ok _ _ i) in K4; [|lia]. destruct (is_half_ok _ _ ksize _ _ _ _ _ _ 16 _ _ ltac:(lia) K4 (Hm 2%positive _ W) W) as (z & Ez & R & Hz).
        cbn [pr hb] in Ez. rewrite Ez. destruct (Hy i Hi) as (Hc & Rx). rewrite Hc. f_equal. cbn [peval] in Hz. rewrite window_1, window_0 in Hz by (clear - Hi; lia).
        change (2 ^ 16) with 65536 in Hz. apply half_eq; [exact R|exact Rx|]. eapply eqm_trans; [exact Hz|]. apply eqm_eq. clear. ring. }
      clear E K1 K2 K3 K4 K5 M Hm Ex Hp Hs Hr RI D01 D02 D12 D40 D41 D42 B0 B1 B2 B4 Hx Hy.
      assert (G1 : p = p1 /\ h1 <= j < h1 + 64 \/ ~ (p = p1 /\ h1 <= j < h1 + 64)) by apply in_or_out.
      assert (G2 : p = p2 /\ h2 <= j < h2 + 64 \/ ~ (p = p2 /\ h2 <= j < h2 + 64)) by apply in_or_out.
      destruct G1 as [(-> & G)|G1]; [specialize (KX (j - h1) ltac:(lia)); now replace (h1 + (j - h1)) with j in KX by lia|].
      destruct G2 as [(-> & G)|G2]; [specialize (KY (j - h2) ltac:(lia)); now replace (h2 + (j - h2)) with j in KY by lia|].
      apply Ho. intros r i W (A & B). destruct (inw_cases _ _ W) as [(-> & Hi)|[(-> & Hi)|[(-> & Hi)|(-> & Hi)]]]; cbn [pr hb] in A, B.
      + apply G1. split; [exact A|lia].
      + apply G2. split; [exact A|lia].
      + apply N0. split; [exact A|lia].
      + apply N4. split; [exact A|lia].
  Qed.
End Kara.
