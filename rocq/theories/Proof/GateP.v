(** Two domains for evaluating straight-line code: truth tables and symbolic xor-sets. *)
From Coq Require Import ZArith List Bool Lia.
From Verif Require Import Lib.Arr Lib.CInt Lib.CMon Lib.Gate.
Import ListNotations.
Local Open Scope Z_scope.

Lemma testbit_not64 : forall x k, 0 <= k < 64 -> Z.testbit (2 ^ 64 - 1 - x) k = negb (Z.testbit x k).
Proof.
  intros x k Hk. replace (2 ^ 64 - 1 - x) with (Z.lnot x + 1 * 2 ^ 64) by (unfold Z.lnot; lia).
  rewrite <- (Z.mod_pow2_bits_low (Z.lnot x + 1 * 2 ^ 64) 64 k) by lia. rewrite Z_mod_plus_full.
  rewrite Z.mod_pow2_bits_low by lia. apply Z.lnot_spec. lia.
Qed.

Lemma in64_not : forall x, 0 <= x < 2 ^ 64 -> 0 <= 2 ^ 64 - 1 - x < 2 ^ 64.
Proof. intros. lia. Qed.
Lemma in64_lxor : forall a b, 0 <= a < 2 ^ 64 -> 0 <= b < 2 ^ 64 -> 0 <= Z.lxor a b < 2 ^ 64.
Proof. intros a b Ha Hb. pose proof (lxor_full U64 a b). cbn [tmin tmax] in *. lia. Qed.
Lemma in64_land : forall a b, 0 <= a < 2 ^ 64 -> 0 <= b < 2 ^ 64 -> 0 <= Z.land a b < 2 ^ 64.
Proof. intros a b Ha Hb. pose proof (land_full U64 a b). cbn [tmin tmax] in *. lia. Qed.
Lemma in64_lor : forall a b, 0 <= a < 2 ^ 64 -> 0 <= b < 2 ^ 64 -> 0 <= Z.lor a b < 2 ^ 64.
Proof. intros a b Ha Hb. pose proof (lor_full U64 a b). cbn [tmin tmax] in *. lia. Qed.
Lemma in64_shr : forall a n, 0 <= a < 2 ^ 64 -> 0 <= n -> 0 <= Z.shiftr a n < 2 ^ 64.
Proof.
  intros a n Ha Hn. rewrite Z.shiftr_div_pow2 by lia. assert (0 < 2 ^ n) by (apply Z.pow_pos_nonneg; lia).
  split; [apply Z.div_pos; lia|]. apply Z.div_lt_upper_bound; nia.
Qed.

(** ** Truth tables *)
Definition tdom : dom Z := Dom Z (fun x y => Some (Z.lxor x y)) (fun x y => Some (Z.land x y)) (fun x y => Some (Z.lor x y))
  (fun x => Some (Z.lxor x (2 ^ 256 - 1))) (fun _ _ => None) (fun _ _ => None) (fun _ _ => None) (fun _ => None) (fun _ => None).

(** [n k] is the entry of the truth table for bit [k] of the word. *)
Definition trel (n : Z -> Z) (T z : Z) : Prop := 0 <= z < 2 ^ 64 /\ forall k, 0 <= k < 64 -> Z.testbit z k = Z.testbit T (n k).

Lemma tdom_rel : forall n, (forall k, 0 <= k < 64 -> 0 <= n k < 256) -> drel tdom zdom (trel n).
Proof.
  intros n Hn. constructor; cbn [d_xor d_and d_or d_not d_andc d_shl d_shr d_low d_spread tdom zdom].
  - intros a a' b b' x (B1 & H1) (B2 & H2) E. apply some_inj in E; subst x. eexists; split; [reflexivity|]. split; [now apply in64_lxor|].
    intros k Hk. now rewrite !Z.lxor_spec, H1, H2.
  - intros a a' b b' x (B1 & H1) (B2 & H2) E. apply some_inj in E; subst x. eexists; split; [reflexivity|]. split; [now apply in64_land|].
    intros k Hk. now rewrite !Z.land_spec, H1, H2.
  - intros a a' b b' x (B1 & H1) (B2 & H2) E. apply some_inj in E; subst x. eexists; split; [reflexivity|]. split; [now apply in64_lor|].
    intros k Hk. now rewrite !Z.lor_spec, H1, H2.
  - intros a b x (B1 & H1) E. apply some_inj in E; subst x. eexists; split; [reflexivity|]. split; [now apply in64_not|].
    intros k Hk. rewrite testbit_not64, Z.lxor_spec, H1 by auto. replace (Z.testbit (2 ^ 256 - 1) (n k)) with true; [now destruct (Z.testbit a (n k))|].
    symmetry. replace (2 ^ 256 - 1) with (Z.ones 256) by reflexivity. apply Z.ones_spec_low. auto.
  - intros c Hc a b x _ E. discriminate.
  - intros c Hc a b x _ E. discriminate.
  - intros c Hc a b x _ E. discriminate.
  - intros a b x _ E. discriminate.
  - intros a b x _ E. discriminate.
Qed.

(** ** Xor-sets: a word is a list of 64 lists of names of bits; a bit is the exclusive or of the bits named, or unknown *)
Definition xorl (rho : Z -> bool) (l : list Z) : bool := fold_right (fun i b => xorb (rho i) b) false l.
Definition nilb (l : list Z) : bool := match l with [] => true | _ => false end.
Definition sbits := list (option (list Z)).
Definition gb (a : sbits) (k : Z) : option (list Z) := znth (Some []) a k.
Definition oxor (a b : option (list Z)) : option (list Z) := match a, b with Some x, Some y => Some (x ++ y) | _, _ => None end.
Definition oor (a b : option (list Z)) : option (list Z) := match a, b with Some [], _ => b | _, Some [] => a | _, _ => None end.
Definition sdom : dom sbits := Dom _
  (fun a b => Some (ztab 64 (fun k => oxor (gb a k) (gb b k))))
  (fun _ _ => None)
  (fun a b => Some (ztab 64 (fun k => oor (gb a k) (gb b k))))
  (fun _ => None)
  (fun a c => Some (ztab 64 (fun k => if Z.testbit c k then gb a k else Some [])))
  (fun a n => Some (ztab 64 (fun k => if k <? n then Some [] else gb a (k - n))))
  (fun a n => Some (ztab 64 (fun k => gb a (k + n))))
  (fun a => Some (ztab 64 (fun k => if k <? 32 then gb a k else Some [])))
  (fun a => if forallb (fun k => (k mod 4 =? 0) || match gb a k with Some [] => true | _ => false end) (ztab 64 (fun k => k))
            then Some (ztab 64 (fun k => gb a (4 * (k / 4)))) else None).

Definition srel (rho : Z -> bool) (w : sbits) (z : Z) : Prop :=
  len w = 64 /\ 0 <= z < 2 ^ 64 /\ forall k s, 0 <= k < 64 -> gb w k = Some s -> Z.testbit z k = xorl rho s.

Lemma xorl_app : forall rho a b, xorl rho (a ++ b) = xorb (xorl rho a) (xorl rho b).
Proof. intros rho a b. unfold xorl. induction a as [|x a IH]; cbn [app fold_right]; [now destruct (fold_right _ _ b)|]. rewrite IH. now rewrite xorb_assoc. Qed.

Lemma gb_tab : forall n f k, 0 <= k < n -> gb (ztab n f) k = f k.
Proof. intros. unfold gb. now apply znth_ztab. Qed.

Lemma forallb_tab : forall (P : Z -> bool) n, forallb P (ztab n (fun k => k)) = true -> forall k, 0 <= k < n -> P k = true.
Proof.
  intros P n H k Hk. rewrite forallb_forall in H. apply H. unfold ztab. apply in_map_iff. exists (Z.to_nat k). split; [lia|]. apply in_seq. lia.
Qed.

Lemma testbit_mul_pow : forall x n k, 0 <= n -> 0 <= k -> Z.testbit (x * 2 ^ n) k = if k <? n then false else Z.testbit x (k - n).
Proof.
  intros x n k Hn Hk. destruct (k <? n) eqn:D; [apply Z.mul_pow2_bits_low; lia|]. apply Z.mul_pow2_bits; lia.
Qed.

Lemma testbit_spread : forall x k, 0 <= x -> (forall j, 0 <= j -> j mod 4 <> 0 -> Z.testbit x j = false) -> 0 <= k ->
  Z.testbit (15 * x) k = Z.testbit x (4 * (k / 4)).
Proof.
  intros x k Hx H Hk.
  assert (forall j, j mod 4 <> 0 -> Z.testbit x j = false) as H' by (intros j Hj; destruct (Z_lt_le_dec j 0); [now apply Z.testbit_neg_r|auto]).
  assert (forall j n, 0 <= j -> 0 <= n -> Z.testbit (x * 2 ^ n) j = Z.testbit x (j - n)) as SH.
  { intros j n Hj Hn. rewrite testbit_mul_pow by lia. destruct (j <? n) eqn:D; [|reflexivity]. symmetry. apply Z.testbit_neg_r. lia. }
  assert (forall a b, (forall j, 0 <= j -> Z.testbit a j && Z.testbit b j = false) -> a + b = Z.lxor a b) as ADD.
  { intros a b D. apply Z.add_nocarry_lxor. apply Z.bits_inj'. intros j Hj. now rewrite Z.land_spec, Z.bits_0, D. }
  replace (15 * x) with (x + (x * 2 ^ 1 + (x * 2 ^ 2 + x * 2 ^ 3))) by lia.
  assert (forall i j, i <> j -> -4 < i - j < 4 -> Z.testbit x i && Z.testbit x j = false) as DJ.
  { intros i j Hij B. destruct (Z.eq_dec (i mod 4) 0); [|now rewrite (H' i)]. rewrite (H' j); [apply andb_false_r|]. clear - e Hij B. dlia. }
  rewrite (ADD (x * 2 ^ 2) (x * 2 ^ 3)) by (intros j Hj; rewrite !SH by lia; apply DJ; lia).
  rewrite (ADD (x * 2 ^ 1)).
  2: { intros j Hj. rewrite Z.lxor_spec, !SH by lia. pose proof (DJ (j - 1) (j - 2)). pose proof (DJ (j - 1) (j - 3)).
       destruct (Z.testbit x (j - 1)); cbn [andb] in *; auto. rewrite H0, H1 by lia. reflexivity. }
  rewrite (ADD x).
  2: { intros j Hj. rewrite !Z.lxor_spec, !SH by lia. pose proof (DJ j (j - 1)). pose proof (DJ j (j - 2)). pose proof (DJ j (j - 3)).
       destruct (Z.testbit x j); cbn [andb] in *; auto. rewrite H0, H1, H2 by lia. reflexivity. }
  rewrite !Z.lxor_spec, !SH by lia.
  clear - H' Hk.
  assert (k mod 4 = 0 \/ k mod 4 = 1 \/ k mod 4 = 2 \/ k mod 4 = 3) as [C|[C|[C|C]]] by dlia.
  - rewrite (H' (k - 1)), (H' (k - 2)), (H' (k - 3)) by dlia. replace (4 * (k / 4)) with k by dlia. now rewrite !xorb_false_r.
  - rewrite (H' k), (H' (k - 2)), (H' (k - 3)) by dlia. replace (4 * (k / 4)) with (k - 1) by dlia. now rewrite !xorb_false_r, xorb_false_l.
  - rewrite (H' k), (H' (k - 1)), (H' (k - 3)) by dlia. replace (4 * (k / 4)) with (k - 2) by dlia. now rewrite !xorb_false_r, !xorb_false_l.
  - rewrite (H' k), (H' (k - 1)), (H' (k - 2)) by dlia. replace (4 * (k / 4)) with (k - 3) by dlia. now rewrite !xorb_false_l.
Qed.

Lemma sdom_rel : forall rho, drel sdom zdom (srel rho).
Proof.
  intros rho. constructor; cbn [d_xor d_and d_or d_not d_andc d_shl d_shr d_low d_spread sdom zdom].
  - intros a a' b b' x (L1 & B1 & H1) (L2 & B2 & H2) E. apply some_inj in E; subst x. eexists; split; [reflexivity|].
    split; [apply len_ztab; lia|]. split; [now apply in64_lxor|]. intros k s Hk. rewrite gb_tab by auto. specialize (H1 k). specialize (H2 k).
    destruct (gb a k) as [u|], (gb a' k) as [v|]; try discriminate. intros E. apply some_inj in E; subst s. rewrite xorl_app, Z.lxor_spec. f_equal; auto.
  - intros a a' b b' x _ _ E. discriminate.
  - intros a a' b b' x (L1 & B1 & H1) (L2 & B2 & H2) E. apply some_inj in E; subst x. eexists; split; [reflexivity|].
    split; [apply len_ztab; lia|]. split; [now apply in64_lor|]. intros k s Hk. rewrite gb_tab, Z.lor_spec by auto. specialize (H1 k). specialize (H2 k).
    destruct (gb a k) as [[|u0 u]|], (gb a' k) as [[|v0 v]|]; try discriminate; cbn [oor]; intros E; apply some_inj in E; subst s.
    + rewrite (H1 []), (H2 []); auto.
    + rewrite (H1 []), (H2 (v0 :: v)); auto.
    + rewrite (H1 (u0 :: u)), (H2 []); auto. apply orb_false_r.
  - intros a b x _ E. discriminate.
  - intros c Hc a b x (L1 & B1 & H1) E. apply some_inj in E; subst x. eexists; split; [reflexivity|].
    split; [apply len_ztab; lia|]. split; [now apply in64_land|]. intros k s Hk. rewrite gb_tab, Z.land_spec by auto.
    destruct (Z.testbit c k); intros E; [rewrite andb_true_r; auto|]. apply some_inj in E; subst s. apply andb_false_r.
  - intros n Hn a b x (L1 & B1 & H1) E. apply some_inj in E; subst x. eexists; split; [reflexivity|].
    split; [apply len_ztab; lia|]. split; [apply Z.mod_pos_bound; lia|]. intros k s Hk. rewrite gb_tab, Z.mod_pow2_bits_low, testbit_mul_pow by lia.
    destruct (k <? n) eqn:D; intros E; [apply some_inj in E; subst s; reflexivity|]. apply H1; auto. lia.
  - intros n Hn a b x (L1 & B1 & H1) E. apply some_inj in E; subst x. eexists; split; [reflexivity|].
    split; [apply len_ztab; lia|]. split; [apply in64_shr; lia|]. intros k s Hk. rewrite gb_tab, Z.shiftr_spec by lia. intros E.
    destruct (Z_lt_le_dec (k + n) 64); [apply H1; auto; lia|]. rewrite (bits_mod b (k + n) 64) by lia.
    unfold gb in E. rewrite znth_default in E by lia. apply some_inj in E; subst s. reflexivity.
  - intros a b x (L1 & B1 & H1) E. apply some_inj in E; subst x. eexists; split; [reflexivity|].
    split; [apply len_ztab; lia|]. split; [pose proof (Z.mod_pos_bound b (2 ^ 32)); lia|]. intros k s Hk. rewrite gb_tab by lia.
    destruct (k <? 32) eqn:D; intros E; [rewrite Z.mod_pow2_bits_low by lia; apply H1; auto|]. apply some_inj in E; subst s. rewrite Z.mod_pow2_bits_high by lia. reflexivity.
  - intros a b x (L1 & B1 & H1) E. destruct (forallb _ _) eqn:F in E; [|discriminate]. apply some_inj in E; subst x. eexists; split; [reflexivity|].
    split; [apply len_ztab; lia|]. split; [apply Z.mod_pos_bound; lia|]. intros k s Hk. rewrite gb_tab, Z.mod_pow2_bits_low by lia. intros E.
    rewrite testbit_spread; try lia; [apply H1; auto; dlia|]. intros j Hj Nj. destruct (Z_lt_le_dec j 64); [|apply (bits_mod b j 64); lia].
    pose proof (forallb_tab _ _ F j ltac:(lia)) as N. cbv beta in N. destruct (j mod 4 =? 0) eqn:D; [lia|]. cbn [orb] in N. specialize (H1 j). destruct (gb a j) as [[|]|]; try discriminate. now rewrite (H1 []) by (auto; lia).
Qed.

(** Equality of xor-sets. *)
Fixpoint toggle (x : Z) (l : list Z) : list Z := match l with [] => [x] | y :: r => if x =? y then r else y :: toggle x r end.
Definition reduce (l : list Z) : list Z := fold_right toggle [] l.
Definition xeq (a b : list Z) : bool := nilb (reduce (a ++ b)).

Lemma xorl_toggle : forall rho x l, xorl rho (toggle x l) = xorb (rho x) (xorl rho l).
Proof.
  intros rho x l. unfold xorl. induction l as [|y l IH]; cbn [toggle fold_right]; auto.
  destruct (x =? y) eqn:E.
  - apply Z.eqb_eq in E as ->. destruct (rho y), (fold_right _ _ l); reflexivity.
  - cbn [fold_right]. rewrite IH. destruct (rho x), (rho y), (fold_right _ _ l); reflexivity.
Qed.
Lemma xorl_reduce : forall rho l, xorl rho (reduce l) = xorl rho l.
Proof. intros rho l. unfold reduce. induction l as [|x l IH]; cbn [fold_right]; auto. rewrite xorl_toggle, IH. reflexivity. Qed.
Lemma xeq_ok : forall rho a b, xeq a b = true -> xorl rho a = xorl rho b.
Proof.
  intros rho a b H. unfold xeq in H. assert (xorl rho (a ++ b) = false) as E.
  { rewrite <- xorl_reduce. destruct (reduce (a ++ b)); [reflexivity|discriminate]. }
  rewrite xorl_app in E. destruct (xorl rho a), (xorl rho b); auto; discriminate.
Qed.

(** ** Frame: what a program does not assign it does not change *)
Definition targets (p : list (reg * gexp)) (r : reg) : bool := existsb (fun x => reg_eqb r (fst x)) p.
Lemma gprog_frame : forall A (D : dom A) p env env' r, gprog D p env = Some env' -> targets p r = false -> env' r = env r.
Proof.
  intros A D p. induction p as [|(r0, e) p IH]; intros env env' r G N; cbn [gprog] in G.
  - now apply some_inj in G as ->.
  - cbn [targets existsb fst] in N. apply orb_false_elim in N as (N1 & N2). fold (targets p r) in N2.
    destruct (gev D env e) as [v|]; [|discriminate]. cbn [ob] in G.
    assert (forall env1, gprog D p (set env r0 v) = Some env1 -> env1 r = env r) as X0 by (intros env1 G1; rewrite (IH _ _ _ G1 N2); unfold set; now rewrite N1).
    destruct (is_q r0); [destruct (env r0); [|discriminate]|]; cbn [ob] in G; now apply X0.
Qed.

(** ** Execution of a program evaluated symbolically *)
Lemma wp_gates_rel : forall A (D : dom A) (Rl : A -> Z -> Prop) t p env0 env1, drel D zdom Rl -> t = U32 \/ t = U64 -> gwf t p = true ->
  gprog D p env0 = Some env1 -> forall q l (Post : list Z * locals -> Prop), typed t q -> ltyped l -> erel Rl env0 (envof q l) ->
  (forall q' l', len q' = len q -> typed t q' -> ltyped l' -> erel Rl env1 (envof q' l') ->
     (forall r, targets p r = false -> envof q' l' r = envof q l r) -> Post (q', l')) ->
  wp (gates t p q l) Post.
Proof.
  intros A D Rl t p env0 env1 HD Ht W G q l Post Tq Tl E HP.
  destruct (gprog_rel D zdom Rl HD t p W env0 (envof q l) env1 E G) as (env2 & G2 & E2).
  eapply wp_gates; eauto. intros q' l' EE L1 T1 T2. apply HP; auto.
  - intros r a Ha. rewrite EE. now apply E2.
  - intros r Nr. rewrite EE. eapply gprog_frame; eauto.
Qed.

(** The words [q_0, ..., q_(n-1)] of [w] bits; bit [k] of [q_i] has the name [64 i + k]. *)
Definition sword (w i : Z) : sbits := ztab 64 (fun k => Some (if k <? w then [64 * i + k] else [])).
Definition senv (w n : Z) : reg -> option sbits := fun r => match r with Q i => if (0 <=? i) && (i <? n) then Some (sword w i) else None | _ => None end.
Definition srho (q : list Z) (id : Z) : bool := Z.testbit (get q (id / 64)) (id mod 64).

Lemma srho_id : forall q i k, 0 <= k < 64 -> srho q (64 * i + k) = Z.testbit (get q i) k.
Proof. intros q i k Hk. unfold srho. f_equal; [f_equal|]; dlia. Qed.

Lemma sword_rel : forall rho w i z, 0 <= w <= 64 -> 0 <= z < 2 ^ w -> (forall k, 0 <= k < w -> rho (64 * i + k) = Z.testbit z k) -> srel rho (sword w i) z.
Proof.
  intros rho w i z Hw Hz H. split; [apply len_ztab; lia|]. split; [pose proof (Z.pow_le_mono_r 2 w 64); lia|].
  intros k s Hk. unfold sword. rewrite gb_tab by lia. intros E. apply some_inj in E; subst s. destruct (k <? w) eqn:D.
  - cbn [xorl fold_right]. rewrite H by lia. now rewrite xorb_false_r.
  - cbn. apply (bits_mod z k w); lia.
Qed.

Lemma lookup_get : forall (q : list Z) i v, lookup q i = Some v -> 0 <= i < len q /\ get q i = v.
Proof.
  intros q i v H. assert (0 <= i < len q) as Hi.
  { destruct (Z_lt_le_dec i 0); [rewrite lookup_out in H by lia; discriminate|]. destruct (Z_lt_le_dec i (len q)); [lia|]. rewrite lookup_out in H by lia. discriminate. }
  split; auto. rewrite lookup_in with (d := 0) in H by auto. now apply some_inj in H.
Qed.

Lemma senv_rel : forall t w n q l, (t = U32 /\ w = 32) \/ (t = U64 /\ w = 64) -> typed t q -> n <= len q -> erel (srel (srho q)) (senv w n) (envof q l).
Proof.
  intros t w n q l Ht Tq L r a Ha. destruct r; try discriminate. cbn [senv] in Ha. destruct (_ && _) eqn:D in Ha; [|discriminate]. apply some_inj in Ha; subst a.
  exists (get q i). cbn [envof]. rewrite lookup_in with (d := 0) by lia. split; [reflexivity|].
  pose proof (typed_get t q i Tq ltac:(lia)) as B. assert (0 <= get q i < 2 ^ w) as B' by (destruct Ht as [(-> & ->)|(-> & ->)]; cbn [tmin tmax] in B; lia).
  apply sword_rel; auto; [destruct Ht as [(_ & ->)|(_ & ->)]; lia|]. intros k Hk. apply srho_id. destruct Ht as [(_ & ->)|(_ & ->)]; lia.
Qed.

(** [result env r ex]: bit [k] of [r] is the exclusive or of the bits [ex k]. *)
Definition sresult (env : reg -> option sbits) (r : reg) (ex : Z -> list Z) : bool :=
  match env r with Some w => forallb (fun k => match gb w k with Some s => xeq s (ex k) | None => false end) (ztab 64 (fun k => k)) | None => false end.

Lemma sresult_ok : forall rho env env' r ex, sresult env r ex = true -> erel (srel rho) env env' ->
  exists v, env' r = Some v /\ 0 <= v < 2 ^ 64 /\ forall k, 0 <= k < 64 -> Z.testbit v k = xorl rho (ex k).
Proof.
  intros rho env env' r ex S E. unfold sresult in S. destruct (env r) as [w|] eqn:Ew; [|discriminate].
  destruct (E r w Ew) as (v & Ev & _ & B & H). exists v. split; auto. split; auto. intros k Hk.
  pose proof (forallb_tab _ _ S k Hk) as Sk. cbv beta in Sk. specialize (H k). destruct (gb w k) as [s|]; [|discriminate]. rewrite (H s) by auto. now apply xeq_ok.
Qed.
