(** Straight-line code over 64-bit words, as data.

    A program is a list of assignments [x = e;].  The destination and the operands are local variables
    or elements, at constant indices, of one array.  [gates] executes a program with the expression evaluator and the
    array accesses of [CMon], so the trace has each access to the array.  Reading a local variable that
    has not been assigned is undefined behaviour. *)
From Coq Require Import ZArith List Bool Lia.
From Verif Require Import Lib.Arr Lib.CInt Lib.CMon.
Import ListNotations.
Local Open Scope Z_scope.

Inductive reg := Q (i : Z) (* array element *) | X (i : Z) | Y (i : Z) | Zz (i : Z) | T (i : Z) | S_ (i : Z).

Inductive gexp :=
| R (r : reg)
| GXor (a b : gexp)
| GAnd (a b : gexp)
| GOr (a b : gexp)
| GNot (a : gexp)
| GAndC (a : gexp) (c : Z)          (* a & (uint64_t)c *)
| GShl (a : gexp) (n : Z)
| GShr (a : gexp) (n : Z)
| GLow (a : gexp)                   (* (uint32_t)a *)
| GSpread (a : gexp).               (* (a << 4) - a *)
Coercion R : reg >-> gexp.

Declare Scope G_scope.
Delimit Scope G_scope with G.
Bind Scope G_scope with gexp.
Notation "x .<< n" := (GShl x n%Z) (at level 53, left associativity) : G_scope.
Notation "x .>> n" := (GShr x n%Z) (at level 53, left associativity) : G_scope.
Notation "x .& y" := (GAnd x y) (at level 54, left associativity) : G_scope.
Notation "x .&# c" := (GAndC x c%Z) (at level 54, left associativity) : G_scope.
Notation "x .^ y" := (GXor x y) (at level 55, left associativity) : G_scope.
Notation "x .| y" := (GOr x y) (at level 56, left associativity) : G_scope.
Notation "~ x" := (GNot x) : G_scope.
Notation "r <== e" := (@pair reg gexp r e%G) (at level 90) : G_scope.

Definition reg_eqb (a b : reg) : bool :=
  match a, b with
  | Q i, Q j | X i, X j | Y i, Y j | Zz i, Zz j | T i, T j | S_ i, S_ j => i =? j
  | _, _ => false
  end.

Definition locals := reg -> option Z.
Definition noloc : locals := fun _ => None.
Definition set {A} (l : reg -> option A) (r : reg) (v : A) : reg -> option A := fun r' => if reg_eqb r' r then Some v else l r'.

(** The expression, with the values of the local variables filled in; [t] is the element type of the array [q]. *)
Fixpoint toC (t : ity) (q : list Z) (l : locals) (e : gexp) : option cexp :=
  let bin o a b := match toC t q l a, toC t q l b with Some a', Some b' => Some (Bin o a' b') | _, _ => None end in
  match e with
  | R (Q i) => Some (Idx t q i)
  | R r => match l r with Some v => Some (Var U64 v) | None => None end
  | GXor a b => bin Xor a b
  | GAnd a b => bin And a b
  | GOr a b => bin Or a b
  | GNot a => match toC t q l a with Some a' => Some (Not a') | None => None end
  | GAndC a c => match toC t q l a with Some a' => Some (Bin And a' (Cst U64 c)) | None => None end
  | GShl a n => match toC t q l a with Some a' => Some (Bin Shl a' (Cst I32 n)) | None => None end
  | GShr a n => match toC t q l a with Some a' => Some (Bin Shr a' (Cst I32 n)) | None => None end
  | GLow a => match toC t q l a with Some a' => Some (Cast U32 a') | None => None end
  | GSpread a => match toC t q l a with Some a' => Some (Bin Sub (Bin Shl a' (Cst I32 4)) a') | None => None end
  end.

Fixpoint gates (t : ity) (p : list (reg * gexp)) (q : list Z) (l : locals) : M (list Z * locals) :=
  match p with
  | [] => ret (q, l)
  | (r, e) :: p' =>
      c <- lift (toC t q l e) ;;
      match r with
      | Q i => q' <- st t q i c ;; gates t p' q' l
      | _ => v <- ev c ;; gates t p' q (set l r (wrap U64 v))
      end
  end.

(** ** Evaluation over an arbitrary domain *)

Record dom (A : Type) := Dom {
  d_xor : A -> A -> option A; d_and : A -> A -> option A; d_or : A -> A -> option A; d_not : A -> option A;
  d_andc : A -> Z -> option A; d_shl : A -> Z -> option A; d_shr : A -> Z -> option A; d_low : A -> option A; d_spread : A -> option A }.
Arguments d_xor {A}. Arguments d_and {A}. Arguments d_or {A}. Arguments d_not {A}. Arguments d_andc {A}.
Arguments d_shl {A}. Arguments d_shr {A}. Arguments d_low {A}. Arguments d_spread {A}.

Definition ob {A B} (o : option A) (f : A -> option B) : option B := match o with Some a => f a | None => None end.

Fixpoint gev {A} (D : dom A) (env : reg -> option A) (e : gexp) : option A :=
  match e with
  | R r => env r
  | GXor a b => ob (gev D env a) (fun x => ob (gev D env b) (fun y => d_xor D x y))
  | GAnd a b => ob (gev D env a) (fun x => ob (gev D env b) (fun y => d_and D x y))
  | GOr a b => ob (gev D env a) (fun x => ob (gev D env b) (fun y => d_or D x y))
  | GNot a => ob (gev D env a) (d_not D)
  | GAndC a c => ob (gev D env a) (fun x => d_andc D x c)
  | GShl a n => ob (gev D env a) (fun x => d_shl D x n)
  | GShr a n => ob (gev D env a) (fun x => d_shr D x n)
  | GLow a => ob (gev D env a) (d_low D)
  | GSpread a => ob (gev D env a) (d_spread D)
  end.

Definition is_q (r : reg) : bool := match r with Q _ => true | _ => false end.

Fixpoint gprog {A} (D : dom A) (p : list (reg * gexp)) (env : reg -> option A) : option (reg -> option A) :=
  match p with
  | [] => Some env
  | (r, e) :: p' => ob (gev D env e) (fun v =>
      if is_q r then ob (env r) (fun _ => gprog D p' (set env r v)) else gprog D p' (set env r v))
  end.

Definition zdom : dom Z := Dom Z (fun x y => Some (Z.lxor x y)) (fun x y => Some (Z.land x y)) (fun x y => Some (Z.lor x y))
  (fun x => Some (2 ^ 64 - 1 - x)) (fun x c => Some (Z.land x c)) (fun x n => Some ((x * 2 ^ n) mod 2 ^ 64))
  (fun x n => Some (Z.shiftr x n)) (fun x => Some (x mod 2 ^ 32)) (fun x => Some ((15 * x) mod 2 ^ 64)).

(** Type of the expression, if it uses only operations for which [zdom] is the C meaning. *)
Fixpoint gty (t : ity) (e : gexp) : option ity :=
  match e with
  | R (Q _) => Some t
  | R _ => Some U64
  | GXor a b | GAnd a b | GOr a b =>
      match gty t a, gty t b with Some U32, Some U32 => Some U32 | Some U64, Some U64 => Some U64 | _, _ => None end
  | GNot a | GSpread a => match gty t a with Some U64 => Some U64 | _ => None end
  | GAndC a c => match gty t a with Some U64 => if (0 <=? c) && (c <? 2 ^ 64) then Some U64 else None | _ => None end
  | GShl a n | GShr a n => match gty t a with Some U64 => if (0 <=? n) && (n <? 64) then Some U64 else None | _ => None end
  | GLow a => match gty t a with Some U64 => Some U32 | _ => None end
  end.
Definition ity_eqb (a b : ity) : bool := match a, b with U32, U32 | U64, U64 => true | _, _ => false end.
Definition gwf (t : ity) (p : list (reg * gexp)) : bool :=
  forallb (fun '(r, e) => match gty t e with Some t' => if is_q r then ity_eqb t' t else true | None => false end) p.

(** ** Execution computes the [zdom] meaning *)

Definition envof (q : list Z) (l : locals) : reg -> option Z := fun r => match r with Q i => lookup q i | _ => l r end.
Definition ltyped (l : locals) : Prop := forall r v, l r = Some v -> 0 <= v < 2 ^ 64.

Lemma reg_eqb_eq : forall a b, reg_eqb a b = true <-> a = b.
Proof. intros [] []; cbn; split; intros H; try discriminate; try (f_equal; lia); inversion H; lia. Qed.

Lemma bits_mod : forall z k n, 0 <= z < 2 ^ n -> n <= k -> Z.testbit z k = false.
Proof.
  intros z k n Hz Hk. destruct (Z.eq_dec z 0) as [->|]; [apply Z.bits_0|]. apply Z.bits_above_log2; [lia|].
  assert (0 <= n) by (destruct (Z_lt_le_dec n 0); [rewrite Z.pow_neg_r in Hz by lia; lia|lia]).
  assert (Z.log2 z < n) by (apply Z.log2_lt_pow2; lia). lia.
Qed.

Lemma some_inj : forall A (a b : A), Some a = Some b -> a = b.
Proof. intros A a b H. now inversion H. Qed.

Lemma toC_ok : forall t q l, t = U32 \/ t = U64 -> typed t q -> ltyped l -> forall e t' z,
  gty t e = Some t' -> gev zdom (envof q l) e = Some z ->
  exists c, toC t q l e = Some c /\ ty c = t' /\ (t' = U32 \/ t' = U64) /\ 0 <= z <= tmax t' /\ wp (ev c) (fun v => v = z).
Proof.
  intros t q l Ht Tq Tl.
  assert (forall a b (o : bop) (f : Z -> Z -> Z) t' z,
    (forall t1 v1 v2, 0 <= v1 <= tmax t1 -> 0 <= v2 <= tmax t1 -> t1 = U32 \/ t1 = U64 ->
       eval_bin o t1 v1 t1 v2 = Some (f v1 v2) /\ 0 <= f v1 v2 <= tmax t1) ->
    (o = Xor \/ o = And \/ o = Or) ->
    (forall t' z, gty t a = Some t' -> gev zdom (envof q l) a = Some z -> exists c, toC t q l a = Some c /\ ty c = t' /\ (t' = U32 \/ t' = U64) /\ 0 <= z <= tmax t' /\ wp (ev c) (fun v => v = z)) ->
    (forall t' z, gty t b = Some t' -> gev zdom (envof q l) b = Some z -> exists c, toC t q l b = Some c /\ ty c = t' /\ (t' = U32 \/ t' = U64) /\ 0 <= z <= tmax t' /\ wp (ev c) (fun v => v = z)) ->
    match gty t a, gty t b with Some U32, Some U32 => Some U32 | Some U64, Some U64 => Some U64 | _, _ => None end = Some t' ->
    ob (gev zdom (envof q l) a) (fun x => ob (gev zdom (envof q l) b) (fun y => Some (f x y))) = Some z ->
    exists c, match toC t q l a, toC t q l b with Some a', Some b' => Some (Bin o a' b') | _, _ => None end = Some c /\
      ty c = t' /\ (t' = U32 \/ t' = U64) /\ 0 <= z <= tmax t' /\ wp (ev c) (fun v => v = z)) as BIN.
  { intros a b o f t' z Hf Ho IHa IHb G E.
    destruct (gty t a) as [ta|]; [|discriminate]. destruct (gty t b) as [tb|]; [|destruct ta; discriminate].
    destruct (gev zdom (envof q l) a) as [x|]; [|discriminate]. destruct (gev zdom (envof q l) b) as [y|]; [|discriminate].
    destruct (IHa ta x eq_refl eq_refl) as (ca & -> & Tca & Ta & Rx & Wa). destruct (IHb tb y eq_refl eq_refl) as (cb & -> & Tcb & Tb & Ry & Wb).
    assert (ta = t' /\ tb = t') as (-> & ->) by (clear - Ta Tb G; destruct Ta as [-> | ->], Tb as [-> | ->]; inversion G; auto).
    cbn [ob] in E. apply some_inj in E; subst z. destruct (Hf t' x y Rx Ry Ta) as (E1 & E2).
    eexists. split; [reflexivity|]. split.
    { destruct Ho as [-> | [-> | ->]]; cbn [ty]; rewrite Tca, Tcb; clear - Ta; destruct Ta as [-> | ->]; reflexivity. }
    split; auto. split; auto. cbn [ev]. rewrite Tca, Tcb. apply wp_bind. eapply wp_mono; [apply Wa|]. intros ? ->.
    apply wp_bind. eapply wp_mono; [apply Wb|]. intros ? ->. eapply wp_lift; [apply E1|reflexivity]. }
  assert (forall t1 v, t1 = U32 \/ t1 = U64 -> 0 <= v <= tmax t1 -> wrap t1 v = v) as WR by (intros t1 v [-> | ->] H; apply wrap_id; cbn [tmin]; lia).
  induction e; intros t' z G E.
  - cbn [gty toC gev] in *. destruct r; cbn [envof] in E.
    1: { inversion G; subst t'. assert (0 <= i < len q) as Hi.
         { unfold lookup in E. destruct (i <? 0) eqn:D; [discriminate|]. assert (Z.to_nat i < length q)%nat by (apply nth_error_Some; congruence). unfold len. lia. }
         rewrite lookup_in with (d := 0) in E by auto. apply some_inj in E; subst z. eexists. split; [reflexivity|]. split; [reflexivity|]. split; auto.
         pose proof (typed_get _ _ _ Tq Hi) as B. unfold get in *. split; [destruct Ht; subst t; cbn [tmin] in B; lia|].
         cbn [ev]. now apply wp_rd. }
    all: inversion G; subst t'; rewrite E; eexists; (split; [reflexivity|]); split; [reflexivity|]; split; auto; apply Tl in E; split; [cbn [tmax]; lia|]; now apply wp_ret.
  - cbn [gty toC gev] in *. eapply (BIN e1 e2 Xor Z.lxor); eauto. intros t1 v1 v2 R1 R2 H1. cbn [eval_bin].
    pose proof (lxor_full t1 v1 v2) as B. destruct H1; subst t1; cbn [promote common]; rewrite !WR by auto; split; auto; cbn [tmin] in B; apply B; lia.
  - cbn [gty toC gev] in *. eapply (BIN e1 e2 And Z.land); eauto. intros t1 v1 v2 R1 R2 H1. cbn [eval_bin].
    pose proof (land_full t1 v1 v2) as B. destruct H1; subst t1; cbn [promote common]; rewrite !WR by auto; split; auto; cbn [tmin] in B; apply B; lia.
  - cbn [gty toC gev] in *. eapply (BIN e1 e2 Or Z.lor); eauto. intros t1 v1 v2 R1 R2 H1. cbn [eval_bin].
    pose proof (lor_full t1 v1 v2) as B. destruct H1; subst t1; cbn [promote common]; rewrite !WR by auto; split; auto; cbn [tmin] in B; apply B; lia.
  - cbn [gty toC gev] in *. destruct (gty t e) as [[]|]; try discriminate. inversion G; subst t'.
    destruct (gev zdom (envof q l) e) as [x|]; [|discriminate]. destruct (IHe U64 x eq_refl eq_refl) as (c & -> & Tc & Tt & Rx & W).
    cbn [ob zdom d_not] in E. apply some_inj in E; subst z. eexists. split; [reflexivity|]. cbn [ty]. rewrite Tc. split; [reflexivity|]. split; auto.
    split; [cbn [tmax] in *; lia|]. cbn [ev]. rewrite Tc. apply wp_bind. eapply wp_mono; [apply W|]. intros ? ->.
    eapply wp_lift; [reflexivity|]. cbn [promote signed]. unfold Z.lnot, wrap. symmetry. apply Z.mod_unique_pos with (q := -1); cbn [tmax] in *; lia.
  - cbn [gty toC gev] in *. destruct (gty t e) as [[]|]; try discriminate. destruct (_ && _) eqn:D in G; [|discriminate]. inversion G; subst t'.
    destruct (gev zdom (envof q l) e) as [x|]; [|discriminate]. destruct (IHe U64 x eq_refl eq_refl) as (c0 & -> & Tc & Tt & Rx & W).
    cbn [ob zdom d_andc] in E. apply some_inj in E; subst z. eexists. split; [reflexivity|]. cbn [ty]. rewrite Tc. split; [reflexivity|]. split; auto.
    split; [cbn [tmax] in *; pose proof (land_full U64 x c); cbn [tmin tmax] in *; lia|]. cbn [ev]. rewrite Tc. apply wp_bind. eapply wp_mono; [apply W|]. intros ? ->.
    apply wp_bind, wp_ret. cbn [ty eval_bin promote common]. eapply wp_lift; [reflexivity|]. rewrite !WR; auto; cbn [tmax] in *; lia.
  - cbn [gty toC gev] in *. destruct (gty t e) as [[]|]; try discriminate. destruct (_ && _) eqn:D in G; [|discriminate]. inversion G; subst t'.
    destruct (gev zdom (envof q l) e) as [x|]; [|discriminate]. destruct (IHe U64 x eq_refl eq_refl) as (c0 & -> & Tc & Tt & Rx & W).
    cbn [ob zdom d_shl] in E. apply some_inj in E; subst z. eexists. split; [reflexivity|]. cbn [ty]. rewrite Tc. split; [reflexivity|]. split; auto.
    split; [cbn [tmax]; pose proof (Z.mod_pos_bound (x * 2 ^ n) (2 ^ 64) ltac:(lia)); lia|]. cbn [ev]. rewrite Tc. apply wp_bind. eapply wp_mono; [apply W|]. intros ? ->.
    apply wp_bind, wp_ret. cbn [ty eval_bin promote common width signed]. rewrite D. eapply wp_lift; reflexivity.
  - cbn [gty toC gev] in *. destruct (gty t e) as [[]|]; try discriminate. destruct (_ && _) eqn:D in G; [|discriminate]. inversion G; subst t'.
    destruct (gev zdom (envof q l) e) as [x|]; [|discriminate]. destruct (IHe U64 x eq_refl eq_refl) as (c0 & -> & Tc & Tt & Rx & W).
    cbn [ob zdom d_shr] in E. apply some_inj in E; subst z. eexists. split; [reflexivity|]. cbn [ty]. rewrite Tc. split; [reflexivity|]. split; auto.
    split. { rewrite Z.shiftr_div_pow2 by lia. assert (0 < 2 ^ n) by (apply Z.pow_pos_nonneg; lia). split; [apply Z.div_pos; lia|]. apply Z.div_le_upper_bound; nia. }
    cbn [ev]. rewrite Tc. apply wp_bind. eapply wp_mono; [apply W|]. intros ? ->.
    apply wp_bind, wp_ret. cbn [ty eval_bin promote common width signed]. rewrite D. eapply wp_lift; reflexivity.
  - cbn [gty toC gev] in *. destruct (gty t e) as [[]|]; try discriminate. inversion G; subst t'.
    destruct (gev zdom (envof q l) e) as [x|]; [|discriminate]. destruct (IHe U64 x eq_refl eq_refl) as (c0 & -> & Tc & Tt & Rx & W).
    cbn [ob zdom d_low] in E. apply some_inj in E; subst z. eexists. split; [reflexivity|]. split; [reflexivity|]. split; auto.
    split; [cbn [tmax]; pose proof (Z.mod_pos_bound x (2 ^ 32) ltac:(lia)); lia|]. cbn [ev]. apply wp_bind. eapply wp_mono; [apply W|]. intros ? ->. now apply wp_ret.
  - cbn [gty toC gev] in *. destruct (gty t e) as [[]|]; try discriminate. inversion G; subst t'.
    destruct (gev zdom (envof q l) e) as [x|]; [|discriminate]. destruct (IHe U64 x eq_refl eq_refl) as (c0 & -> & Tc & Tt & Rx & W).
    cbn [ob zdom d_spread] in E. apply some_inj in E; subst z. eexists. split; [reflexivity|]. cbn [ty]. rewrite Tc. split; [reflexivity|]. split; auto.
    split; [cbn [tmax]; pose proof (Z.mod_pos_bound (15 * x) (2 ^ 64) ltac:(lia)); lia|].
    cbn [ev]. apply wp_bind, wp_bind. eapply wp_mono; [apply W|]. intros ? ->. apply wp_bind, wp_ret. rewrite Tc. cbn [ty eval_bin promote common width signed Z.leb Z.ltb Z.compare andb].
    eapply wp_lift; [reflexivity|]. apply wp_bind. eapply wp_mono; [apply W|]. intros ? ->. rewrite Tc. cbn [promote common]. unfold arith. cbn [signed]. eapply wp_lift; [reflexivity|].
    rewrite (WR U64 x) by auto. unfold wrap. rewrite Z.mod_mod by lia. rewrite Zminus_mod_idemp_l. f_equal. lia.
Qed.

Definition env_eq {A} (e e' : reg -> option A) : Prop := forall r, e r = e' r.

Lemma gev_ext : forall A (D : dom A) e env env', env_eq env env' -> gev D env e = gev D env' e.
Proof. intros A D e env env' H. induction e; cbn [gev]; rewrite ?IHe, ?IHe1, ?IHe2; auto. Qed.
Lemma set_ext : forall A (e e' : reg -> option A) r v, env_eq e e' -> env_eq (set e r v) (set e' r v).
Proof. intros A e e' r v H r'. unfold set. destruct (reg_eqb r' r); auto. Qed.
Lemma gprog_ext : forall A (D : dom A) p env env', env_eq env env' ->
  match gprog D p env, gprog D p env' with Some e, Some e' => env_eq e e' | None, None => True | _, _ => False end.
Proof.
  intros A D p. induction p as [|(r, e) p IH]; intros env env' H; cbn [gprog]; auto.
  rewrite (gev_ext _ _ _ _ _ H), (H r). destruct (gev D env' e) as [v|]; cbn [ob]; auto.
  destruct (is_q r); [destruct (env' r); cbn [ob]; auto|]; apply IH, set_ext; auto.
Qed.

Lemma lookup_upd : forall (q : list Z) i j v, 0 <= i < len q -> lookup (upd q i v) j = if j =? i then Some v else lookup q j.
Proof.
  intros q i j v Hi. destruct (Z_lt_le_dec j 0) as [H|H].
  - assert (j =? i = false) as -> by lia. unfold lookup. replace (j <? 0) with true by lia. reflexivity.
  - destruct (Z_lt_le_dec j (len q)) as [H'|H'].
    + rewrite (lookup_in 0 (upd q i v)) by (rewrite len_upd; lia). rewrite (lookup_in 0 q) by lia. rewrite znth_upd by lia. now destruct (j =? i).
    + assert (j =? i = false) as -> by lia. unfold lookup. replace (j <? 0) with false by lia.
      rewrite !(proj2 (nth_error_None _ _)); auto; [unfold len in *; lia|]. pose proof (len_upd q i v). unfold len in *. lia.
Qed.

Lemma wp_gates : forall t p, t = U32 \/ t = U64 -> gwf t p = true -> forall q l env' (Post : list Z * locals -> Prop),
  typed t q -> ltyped l -> gprog zdom p (envof q l) = Some env' ->
  (forall q' l', env_eq (envof q' l') env' -> len q' = len q -> typed t q' -> ltyped l' -> Post (q', l')) ->
  wp (gates t p q l) Post.
Proof.
  intros t p Ht. induction p as [|(r, e) p IH]; intros W q l env' Post Tq Tl G HP.
  - cbn [gates gprog] in *. inversion G; subst. apply wp_ret, HP; auto. intros r. reflexivity.
  - cbn [gwf forallb] in W. apply andb_prop in W as (W1 & W2). fold (gwf t p) in W2. cbn [gprog] in G.
    destruct (gty t e) as [t'|] eqn:Gt; [|discriminate]. destruct (gev zdom (envof q l) e) as [z|] eqn:Ge; [|discriminate]. cbn [ob] in G.
    destruct (toC_ok t q l Ht Tq Tl e t' z Gt Ge) as (c & Ec & Tc & Tt & Rz & Wc).
    cbn [gates]. apply wp_bind. eapply wp_lift; [apply Ec|].
    assert (forall r, is_q r = false -> gprog zdom p (set (envof q l) r z) = Some env' -> wp (v <- ev c ;; gates t p q (set l r (wrap U64 v))) Post) as LOC.
    { intros r0 Hr Gr. apply wp_bind. eapply wp_mono; [apply Wc|]. intros ? ->.
      rewrite (wrap_id U64 z) by (clear - Tt Rz; destruct Tt; subst t'; cbn [tmin tmax] in *; lia).
      pose proof (gprog_ext _ zdom p (set (envof q l) r0 z) (envof q (set l r0 z))) as X0.
      rewrite Gr in X0. destruct (gprog zdom p (envof q (set l r0 z))) as [env2|] eqn:G2.
      - eapply IH; eauto.
        + intros r1 v1. unfold set. destruct (reg_eqb r1 r0); [intros Z1; apply some_inj in Z1; subst v1; clear - Tt Rz; destruct Tt; subst t'; cbn [tmax] in Rz; lia|apply Tl].
        + intros q' l' E1 L1 T1 T2. apply HP; auto. intros r1. rewrite E1. symmetry. apply X0. intros r2. unfold set, envof. destruct r2, r0; try reflexivity; discriminate.
      - exfalso. apply X0. intros r2. unfold set, envof. destruct r2, r0; try reflexivity; discriminate. }
    destruct r; cbn [is_q] in *.
    1: { destruct (envof q l (Q i)) as [old|] eqn:Eo; [|discriminate]. cbn [ob envof] in *.
         assert (0 <= i < len q) as Hi.
         { unfold lookup in Eo. destruct (i <? 0) eqn:D; [discriminate|]. assert (Z.to_nat i < length q)%nat by (apply nth_error_Some; congruence). unfold len. lia. }
         assert (t' = t) by (clear - W1; destruct t', t; try discriminate; auto). clear Tc. subst t'.
         unfold st. apply wp_bind, wp_bind. eapply wp_mono; [apply Wc|]. intros ? ->. rewrite wrap_id by (clear - Tt Rz; destruct Tt; subst t; cbn [tmin]; lia).
         apply wp_wr; auto.
         pose proof (gprog_ext _ zdom p (set (envof q l) (Q i) z) (envof (upd q i z) l)) as X0.
         assert (env_eq (set (envof q l) (Q i) z) (envof (upd q i z) l)) as EE.
         { intros r2. unfold set, envof. destruct r2; cbn [reg_eqb]; try reflexivity. rewrite lookup_upd by auto. reflexivity. }
         specialize (X0 EE). rewrite G in X0. destruct (gprog zdom p (envof (upd q i z) l)) as [env2|] eqn:G2; [|contradiction].
         eapply IH; eauto.
         - apply typed_upd; auto. clear - Tt Rz; destruct Tt; subst t; cbn [tmin]; lia.
         - intros q' l' E1 L1 T1 T2. apply HP; auto; [intros r1; rewrite E1; symmetry; apply X0|]. now rewrite L1, len_upd. }
    all: apply LOC; auto.
Qed.

(** ** Relating two domains *)
Section Rel.
  Context {A B : Type} (DA : dom A) (DB : dom B) (Rl : A -> B -> Prop).
  Definition rel1 (f : A -> option A) (g : B -> option B) : Prop := forall a b x, Rl a b -> f a = Some x -> exists y, g b = Some y /\ Rl x y.
  Definition rel2 (f : A -> A -> option A) (g : B -> B -> option B) : Prop :=
    forall a a' b b' x, Rl a b -> Rl a' b' -> f a a' = Some x -> exists y, g b b' = Some y /\ Rl x y.
  Record drel : Prop := {
    r_xor : rel2 (d_xor DA) (d_xor DB); r_and : rel2 (d_and DA) (d_and DB); r_or : rel2 (d_or DA) (d_or DB);
    r_not : rel1 (d_not DA) (d_not DB);
    r_andc : forall c, 0 <= c < 2 ^ 64 -> rel1 (fun a => d_andc DA a c) (fun b => d_andc DB b c);
    r_shl : forall n, 0 <= n < 64 -> rel1 (fun a => d_shl DA a n) (fun b => d_shl DB b n);
    r_shr : forall n, 0 <= n < 64 -> rel1 (fun a => d_shr DA a n) (fun b => d_shr DB b n);
    r_low : rel1 (d_low DA) (d_low DB); r_spread : rel1 (d_spread DA) (d_spread DB) }.
  Hypothesis HR : drel.
  Definition erel (ea : reg -> option A) (eb : reg -> option B) : Prop := forall r a, ea r = Some a -> exists b, eb r = Some b /\ Rl a b.

  Lemma gev_rel : forall t ea eb, erel ea eb -> forall e t' a, gty t e = Some t' -> gev DA ea e = Some a -> exists b, gev DB eb e = Some b /\ Rl a b.
  Proof.
    intros t ea eb H. induction e; intros t' x G; cbn [gev]; intros E.
    - now apply H.
    - cbn [gty] in G. destruct (gty t e1) as [t1|]; [|discriminate]. destruct (gty t e2) as [t2|]; [|destruct t1; discriminate].
      destruct (gev DA ea e1) as [v1|]; [|discriminate]. destruct (gev DA ea e2) as [v2|]; [|discriminate].
      destruct (IHe1 t1 v1 eq_refl eq_refl) as (b1 & -> & R1). destruct (IHe2 t2 v2 eq_refl eq_refl) as (b2 & -> & R2). cbn [ob] in *. eapply (r_xor HR); eauto.
    - cbn [gty] in G. destruct (gty t e1) as [t1|]; [|discriminate]. destruct (gty t e2) as [t2|]; [|destruct t1; discriminate].
      destruct (gev DA ea e1) as [v1|]; [|discriminate]. destruct (gev DA ea e2) as [v2|]; [|discriminate].
      destruct (IHe1 t1 v1 eq_refl eq_refl) as (b1 & -> & R1). destruct (IHe2 t2 v2 eq_refl eq_refl) as (b2 & -> & R2). cbn [ob] in *. eapply (r_and HR); eauto.
    - cbn [gty] in G. destruct (gty t e1) as [t1|]; [|discriminate]. destruct (gty t e2) as [t2|]; [|destruct t1; discriminate].
      destruct (gev DA ea e1) as [v1|]; [|discriminate]. destruct (gev DA ea e2) as [v2|]; [|discriminate].
      destruct (IHe1 t1 v1 eq_refl eq_refl) as (b1 & -> & R1). destruct (IHe2 t2 v2 eq_refl eq_refl) as (b2 & -> & R2). cbn [ob] in *. eapply (r_or HR); eauto.
    - cbn [gty] in G. destruct (gty t e) as [t1|]; [|discriminate]. destruct (gev DA ea e) as [v|]; [|discriminate].
      destruct (IHe t1 v eq_refl eq_refl) as (b1 & -> & R1). cbn [ob] in *. eapply (r_not HR); eauto.
    - cbn [gty] in G. destruct (gty t e) as [t1|]; [|discriminate]. destruct (gev DA ea e) as [v|]; [|discriminate].
      destruct (IHe t1 v eq_refl eq_refl) as (b1 & -> & R1). cbn [ob] in *. destruct t1; try discriminate. destruct (_ && _) eqn:D in G; [|discriminate].
      eapply (r_andc HR c); eauto. lia.
    - cbn [gty] in G. destruct (gty t e) as [t1|]; [|discriminate]. destruct (gev DA ea e) as [v|]; [|discriminate].
      destruct (IHe t1 v eq_refl eq_refl) as (b1 & -> & R1). cbn [ob] in *. destruct t1; try discriminate. destruct (_ && _) eqn:D in G; [|discriminate].
      eapply (r_shl HR n); eauto. lia.
    - cbn [gty] in G. destruct (gty t e) as [t1|]; [|discriminate]. destruct (gev DA ea e) as [v|]; [|discriminate].
      destruct (IHe t1 v eq_refl eq_refl) as (b1 & -> & R1). cbn [ob] in *. destruct t1; try discriminate. destruct (_ && _) eqn:D in G; [|discriminate].
      eapply (r_shr HR n); eauto. lia.
    - cbn [gty] in G. destruct (gty t e) as [t1|]; [|discriminate]. destruct (gev DA ea e) as [v|]; [|discriminate].
      destruct (IHe t1 v eq_refl eq_refl) as (b1 & -> & R1). cbn [ob] in *. eapply (r_low HR); eauto.
    - cbn [gty] in G. destruct (gty t e) as [t1|]; [|discriminate]. destruct (gev DA ea e) as [v|]; [|discriminate].
      destruct (IHe t1 v eq_refl eq_refl) as (b1 & -> & R1). cbn [ob] in *. eapply (r_spread HR); eauto.
  Qed.

  Lemma gprog_rel : forall t p, gwf t p = true -> forall ea eb ea', erel ea eb -> gprog DA p ea = Some ea' -> exists eb', gprog DB p eb = Some eb' /\ erel ea' eb'.
  Proof.
    intros t p. induction p as [|(r, e) p IH]; intros W ea eb ea' H G; cbn [gprog] in *.
    - inversion G; subst. eauto.
    - cbn [gwf forallb] in W. apply andb_prop in W as (W1 & W2). fold (gwf t p) in W2. destruct (gty t e) as [t'|] eqn:Gt; [|discriminate].
      destruct (gev DA ea e) as [a|] eqn:Ga; [|discriminate]. destruct (gev_rel t ea eb H e t' a Gt Ga) as (b & -> & Rab). cbn [ob] in *.
      assert (erel (set ea r a) (set eb r b)) as HS.
      { intros r' a'. unfold set. destruct (reg_eqb r' r); [intros Z1; inversion Z1; subst; eauto|apply H]. }
      destruct (is_q r).
      + destruct (ea r) as [o|] eqn:Eo; [|discriminate]. destruct (H r o Eo) as (o' & -> & _). cbn [ob] in *. eapply IH; eauto.
      + eapply IH; eauto.
  Qed.
End Rel.
