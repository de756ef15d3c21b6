(** kara_strd_mem_asm of the Cortex-M4 code computes the product of 64 by 64 coefficients modulo y^64 + 1. *)
From Coq Require Import ZArith List Bool Lia FMapPositive.
From Verif Require Import Lib.Arr Lib.CInt Lib.CMon Spec.Ring Proof.Conv Model.Arm Model.ArmCode Model.M4Mul Proof.ArmSym Proof.ArmSymP Proof.ArmKaraP Proof.M4MulP.
Import ListNotations.
Local Open Scope Z_scope.

Definition ssize (p : positive) : Z := match p with 1%positive | 2%positive | 3%positive | 5%positive => 64 | 4%positive => 30 | _ => 0 end.
Definition sinit : astate :=
  let s := afill 64 1 0 ky (afill 64 2 0 kx aempty) in
  let s := aset (aset (aset (aset (aset (aset s R0 (AP 1 0)) R1 (AP 2 0)) R2 (AP 3 0)) R3 (AP 5 0)) SP (AP 4 60)) LR (AR 2) in
  fold_left (fun s r => aset s r (AO r)) [R4; R5; R6; R7; R8; R9; R10; R11; R12] s.

(** Sum of the terms x_((k-i) mod 64 + 1) y_(i+1), negative for i > k. *)
Fixpoint sprod (n : nat) (k : Z) : poly :=
  match n with
  | O => []
  | S n => let i := Z.of_nat n in padd [if i <=? k then (k - i + 1, i + 1, 1) else (k - i + 65, i + 1, -1)] (sprod n k)
  end.
Definition is_num (c : option acell) : bool := match c with Some (CH _) => true | _ => false end.
Definition sfinal (s : astate) : bool :=
  aval_eqb (aget s PC) (AR 2) && aval_eqb (aget s SP) (AP 4 60) &&
  forallb (fun r => aval_eqb (aget s r) (AO r)) [R4; R5; R6; R7; R8; R9; R10; R11] &&
  upto 64 (fun k => is_num (mget s 1 k)) && upto 64 (fun k => is_num (mget s 2 k)) && upto 64 (fun k => is_num (mget s 5 k)) &&
  upto 64 (fun k => is_half (mget s 3 k) 16 (sprod 64 k)).
Lemma strd_run : exists s, aexec ssize 2 kara_strd_mem_asm sinit = Some s /\ sfinal s = true.
Proof. apply (run_some (aexec ssize 2 kara_strd_mem_asm sinit) sfinal). vm_cast_no_check (eq_refl true). Qed.
Local Opaque aexec kara_strd_mem_asm.

(** The negacyclic product of length 64. *)
Definition nconv (f g : Z -> Z) (k : Z) : Z := conv 64 f g k - conv 64 f g (k + 64).

Lemma sprod_ok : forall x y k, supp 64 x -> 0 <= k < 64 -> peval (ArmKaraP.window x) (ArmKaraP.window y) (sprod 64 k) = nconv y x k.
Proof.
  intros x y k Hx Hk. assert (G : forall n, (n <= 64)%nat -> peval (ArmKaraP.window x) (ArmKaraP.window y) (sprod n k) =
    zsum (Z.of_nat n) (fun i => y i * x (k - i)) - zsum (Z.of_nat n) (fun i => y i * x (k + 64 - i))).
  { unfold zsum. intros n. rewrite Nat2Z.id. induction n as [|n IH]; intros Hn; cbn [sprod zsumn]; [reflexivity|].
    rewrite peval_add, IH by lia. destruct (Z.of_nat n <=? k) eqn:E; cbn [peval]; rewrite !window_1 by lia.
    - rewrite (Hx (k + 64 - Z.of_nat n)) by lia. lia.
    - replace (k - Z.of_nat n + 65) with (k + 64 - Z.of_nat n + 1) by lia. rewrite window_1 by lia. rewrite (Hx (k - Z.of_nat n)) by lia. lia. }
  apply (G 64%nat). lia.
Qed.

Lemma splaced : forall csize, (forall p, csize p = ssize p) -> placed ssize csize (fun r => r) (fun _ => 0).
Proof.
  intros csize H. split; [|split].
  - intros r _ _. rewrite H. lia.
  - intros r q i j _ _ E _. exact E.
  - intros r i j _ N E _. congruence.
Qed.

Definition strd_arrs (a b res ext : list Z) : list (positive * list Z) := [(1%positive, a); (2%positive, b); (3%positive, res); (5%positive, ext)].
Definition strd_entry (env : state) (a b res ext : list Z) : state := asm_entry env 30 2 (Ptr 1 0) (Ptr 2 0) (Ptr 3 0) (Ptr 5 0) (strd_arrs a b res ext).
Lemma strd_mst : forall env a b res ext, arr U16 64 a -> arr U16 64 b ->
  mst (ArmKaraP.window (get b)) (ArmKaraP.window (get a)) ssize (fun r => r) (fun _ => 0) (strd_entry env a b res ext) sinit (strd_entry env a b res ext).
Proof.
  intros env a b res ext (La & Ta) (Lb & Tb). unfold strd_entry, strd_arrs.
  set (arrs := [(1%positive, a); (2%positive, b); (3%positive, res); (5%positive, ext)]).
  set (ini := asm_entry env 30 2 (Ptr 1 0) (Ptr 2 0) (Ptr 3 0) (Ptr 5 0) arrs).
  assert (RA : forall l i, len l = 64 -> typed U16 l -> 0 <= i < 64 -> 0 <= get l i < 65536).
  { intros l i Hl Tl Hi. pose proof (typed_get U16 l i Tl ltac:(lia)). change (tmin U16) with 0 in *. change (tmax U16) with 65535 in *. lia. }
  set (vx := ArmKaraP.window (get b)). set (vy := ArmKaraP.window (get a)).
  change (mst vx vy ssize (fun r => r) (fun _ => 0) ini sinit ini).
  split; [|split; [|split]].
  - intros r. unfold sinit. cbn [fold_left]. rewrite !aget_aset, !aget_afill.
    destruct r; cbn -[Z.mul Z.add afill]; try exact Logic.I; reflexivity.
  - intros r i W. change (mget sinit r i) with (mget (afill 64 1 0 ky (afill 64 2 0 kx aempty)) r i).
    assert (W1 : forall k, 0 <= k < Z.of_nat 64 -> inw ssize 1 (0 + k)) by (intros; split; cbn [ssize]; lia).
    assert (W2 : forall k, 0 <= k < Z.of_nat 64 -> inw ssize 2 (0 + k)) by (intros; split; cbn [ssize]; lia).
    rewrite !(mget_afill ssize) by auto. change (Z.of_nat 64) with 64. clear W1 W2. rewrite !Z.add_0_l.
    assert (EM : mget aempty r i = None) by (unfold mget, aempty; cbn [am]; apply PositiveMap.gempty).
    destruct W as (W & W'). destruct r as [[[]|[]|]|[[]|[]|]|]; cbn [ssize] in W'; try lia; cbn [Pos.eqb andb]; cbv beta;
      try (rewrite EM; reflexivity).
    + replace (_ && _)%bool with true by lia. unfold ini, asm_entry, arrs. cbn [mm array Pos.eqb mcell kx]. exists (get b i). split; auto. split; [now apply RA|].
      split; cbn [fst snd peval]; [lia|]. unfold vx, vy. rewrite window_1, window_0 by lia. apply eqm_eq. lia.
    + replace (_ && _)%bool with true by lia. unfold ini, asm_entry, arrs. cbn [mm array Pos.eqb mcell ky]. exists (get a i). split; auto. split; [now apply RA|].
      split; cbn [fst snd peval]; [lia|]. unfold vx, vy. rewrite window_1, window_0 by lia. apply eqm_eq. lia.
  - reflexivity.
  - discriminate.
Qed.

Lemma kara_strd_ok : forall env scratch, regs_ok env -> forall a b res ext, arr U16 64 a -> arr U16 64 b -> arr U16 64 res -> arr U16 64 ext ->
  wp (kara_strd_mem env scratch a b res ext) (fun '(a', b', r, e) => arr U16 64 a' /\ arr U16 64 b' /\ arr U16 64 r /\ arr U16 64 e /\
    forall k, 0 <= k < 64 -> eqm 65536 (get r k) (nconv (get a) (get b) k)).
Proof.
  intros env scratch He a b res ext (La & Ta) (Lb & Tb) (Lr & Tr) (Le & Te). unfold kara_strd_mem.
  set (arrs := [(1%positive, a); (2%positive, b); (3%positive, res); (5%positive, ext)]).
  set (ini := asm_entry env 30 2 (Ptr 1 0) (Ptr 2 0) (Ptr 3 0) (Ptr 5 0) arrs).
  assert (Hs : regs_ok ini).
  { intros r z. unfold ini, asm_entry. cbn [rg]. destruct r; try discriminate; apply He. }
  assert (Hc : forall p, asm_size 30 arrs p = ssize p).
  { intros p. unfold asm_size, arrs. cbn [array]. destruct p as [[[]|[]|]|[[]|[]|]|]; cbn [Pos.eqb]; auto. }
  assert (RA : forall l i, len l = 64 -> typed U16 l -> 0 <= i < 64 -> 0 <= get l i < 65536).
  { intros l i Hl Tl Hi. pose proof (typed_get U16 l i Tl ltac:(lia)). change (tmin U16) with 0 in *. change (tmax U16) with 65535 in *. lia. }
  set (vx := ArmKaraP.window (get b)). set (vy := ArmKaraP.window (get a)).
  pose proof (strd_mst env a b res ext (conj La Ta) (conj Lb Tb)) as M. change (mst vx vy ssize (fun r => r) (fun _ => 0) ini sinit ini) in M.
  destruct strd_run as (s & E & K).
  destruct (mst_exec vx vy eq_refl eq_refl ssize (asm_size 30 arrs) (fun r => r) (fun _ => 0) ini scratch (splaced _ Hc) Hs 2 kara_strd_mem_asm sinit ini s M E) as (t' & Ex & M').
  clear E M. unfold sfinal in K. rewrite !andb_true_iff in K. destruct K as ((((((K1 & K2) & K3) & K4) & K5) & K6) & K7).
  apply aval_eqb_ok in K1, K2. rewrite forallb_forall in K3. destruct M' as (Hr & Hm & _ & _).
  assert (N : forall p, ssize p = 64 -> Zpos p < 8 -> upto 64 (fun k => is_num (mget s p k)) = true ->
    exists f, forall i, 0 <= i < 64 -> mm t' p i = Half (f i) /\ 0 <= f i < 65536).
  { intros p Sp P8 K. apply half_choice with (Q := fun _ z => 0 <= z < 65536). intros i Hi. assert (W : inw ssize p i) by (split; lia). apply (upto_ok _ _ i) in K; [|lia].
    specialize (Hm p i W). rewrite Z.add_0_l in Hm. cbv beta in K. destruct (mget s p i) as [[h| |]|]; try discriminate. cbn [mcell] in Hm.
    destruct Hm as (z & Ez & Rz & _). exists z. auto. }
  destruct (N 1%positive eq_refl eq_refl K4) as (fa & Fa). destruct (N 2%positive eq_refl eq_refl K5) as (fb & Fb). destruct (N 5%positive eq_refl eq_refl K6) as (fe & Fe).
  assert (H3 : forall i, 0 <= i < 64 -> exists z, mm t' 3 i = Half z /\ 0 <= z < 65536 /\ eqm 65536 z (nconv (get a) (get b) i)).
  { intros i Hi. assert (W : inw ssize 3 i) by (split; cbn [ssize]; lia). apply (upto_ok _ _ i) in K7; [|lia].
    destruct (is_half_ok _ _ ssize _ _ _ _ _ _ 16 _ _ ltac:(lia) K7 (Hm 3%positive i W) W) as (z & Ez & R & Hz).
    unfold vx, vy in Hz. rewrite sprod_ok in Hz by (auto; now apply get_supp). rewrite Z.add_0_l in Ez. exists z. auto. }
  apply half_choice in H3 as (fr & Fr).
  apply wp_bind. unfold asm_call.
  replace (forallb (fun p => u16_array 64 (snd p)) arrs) with true
    by (symmetry; apply forallb_forall; intros p [<-|[<-|[<-|[<-|[]]]]]; apply u16_array_ok; split; assumption).
  cbn [negb]. change (Z.of_nat 2) with 2. fold ini. rewrite Ex. clear Ex.
  assert (asm_returned 2 ini t' = true) as ->.
  { unfold asm_returned. apply andb_true_iff. split.
    - specialize (Hr PC). rewrite K1 in Hr. cbn [mval conc] in Hr. rewrite Hr. destruct (val_eq_dec _ _); congruence.
    - apply forallb_forall. intros r Hin. apply in_app_or with (l := [R4; R5; R6; R7; R8; R9; R10; R11]) (m := [SP]) in Hin. destruct Hin as [Hin|[<-|[]]].
      + specialize (K3 r Hin). apply aval_eqb_ok in K3. specialize (Hr r). rewrite K3 in Hr. cbn [mval conc] in Hr. rewrite Hr. destruct (val_eq_dec _ _); congruence.
      + specialize (Hr SP). rewrite K2 in Hr. cbn [mval conc] in Hr. rewrite Hr. reflexivity. }
  unfold arrs. cbn [fold_right bind]. rewrite La, Lb, Lr, Le.
  rewrite (asm_array_ok t' 5 64 fe) by (try lia; intros; now apply Fe). cbn [bind].
  rewrite (asm_array_ok t' 3 64 fr) by (try lia; intros; now apply Fr). cbn [bind].
  rewrite (asm_array_ok t' 2 64 fb) by (try lia; intros; now apply Fb). cbn [bind].
  rewrite (asm_array_ok t' 1 64 fa) by (try lia; intros; now apply Fa). cbn [bind].
  assert (T : forall f, (forall i, 0 <= i < 64 -> 0 <= f i < 65536) -> arr U16 64 (ztab 64 f)).
  { intros f Hf. split; [apply len_ztab; lia|]. apply Forall_ztab. intros i Hi. specialize (Hf i Hi). cbn. lia. }
  apply wp_bind, wp_asm_emit, wp_ret, wp_ret. split; [|split; [|split; [|split]]].
  - apply T. intros. now apply Fa.
  - apply T. intros. now apply Fb.
  - apply T. intros. now apply Fr.
  - apply T. intros. now apply Fe.
  - intros k Hk. unfold get at 1. rewrite znth_ztab by lia. now apply Fr.
Qed.
