(** Bits of shift-and-mask expressions by computation. *)
From Coq Require Import ZArith List Bool Lia.
From Verif Require Import Lib.Arr Lib.CInt.
Import ListNotations.
Local Open Scope Z_scope.

(** A bit is constant, one bit of a leaf, or unknown. *)
Inductive wire := W0 | W1 | WB (x k : Z) | WX.

Definition den (w : wire) : bool :=
  match w with W0 => false | W1 => true | WB x k => Z.testbit x k | WX => false end.

Definition wand (a b : wire) : wire :=
  match a, b with
  | WX, _ | _, WX => WX
  | W0, _ | _, W0 => W0
  | W1, x | x, W1 => x
  | _, _ => WX
  end.

Definition wor (a b : wire) : wire :=
  match a, b with
  | WX, _ | _, WX => WX
  | W1, _ | _, W1 => W1
  | W0, x | x, W0 => x
  | _, _ => WX
  end.

Definition wleaf (t : ity) (x m : Z) : wire :=
  if signed t then WB x m else if m <? width t then WB x m else W0.

Definition wconv (t1 t : ity) (m : Z) (w : wire) : wire :=
  if subr t1 t then w
  else if signed t then (if m <? width t then w else WX)
  else if m <? width t then w else W0.

(** Bit [m] of the value of [e]. *)
Fixpoint bw (e : cexp) (m : Z) : wire :=
  match e with
  | Cst _ z => if Z.testbit z m then W1 else W0
  | Var t z => wleaf t z m
  | Bnd _ _ _ _ => WX
  | Idx t a i => wleaf t (get a i) m
  | Cast t e => wconv (ty e) t m (bw e m)
  | Bin And e1 e2 =>
      let t := common (promote (ty e1)) (promote (ty e2)) in
      wand (wconv (ty e1) t m (bw e1 m)) (wconv (ty e2) t m (bw e2 m))
  | Bin Or e1 e2 =>
      let t := common (promote (ty e1)) (promote (ty e2)) in
      wor (wconv (ty e1) t m (bw e1 m)) (wconv (ty e2) t m (bw e2 m))
  | Bin Shl e (Cst _ s) =>
      let t := promote (ty e) in
      if s <? 0 then WX else
      if signed t then (if m <? s then W0 else bw e (m - s))
      else if m <? width t then (if m <? s then W0 else bw e (m - s)) else W0
  | Bin Shr e (Cst _ s) => if s <? 0 then WX else bw e (m + s)
  | _ => WX
  end.

Lemma unsigned_width : forall t, signed t = false -> tmin t = 0 /\ tmax t = 2 ^ width t - 1 /\ 0 < width t.
Proof. destruct t; cbn; intros; try discriminate; repeat split; lia. Qed.

Lemma wrap_unsigned : forall t z, signed t = false -> wrap t z = z mod 2 ^ width t.
Proof. destruct t; cbn; intros; try discriminate; auto. Qed.

Lemma wrap_low : forall t z, wrap t z mod 2 ^ width t = z mod 2 ^ width t.
Proof.
  assert (forall z p q, 0 < q -> ((z + p) mod q - p) mod q = z mod q) as G.
  { intros z p q Hq. rewrite Zminus_mod, Z.mod_mod, <- Zminus_mod by lia. f_equal. lia. }
  destruct t; intros z; cbn [wrap width]; try apply G; try lia; apply Z.mod_mod; lia.
Qed.
Lemma wrap_bit : forall t z m, 0 <= m < width t -> Z.testbit (wrap t z) m = Z.testbit z m.
Proof.
  intros t z m Hm. rewrite <- (Z.mod_pow2_bits_low (wrap t z) (width t)) by lia.
  rewrite wrap_low. apply Z.mod_pow2_bits_low. lia.
Qed.

Lemma testbit_high : forall n z m, 0 <= z < 2 ^ n -> n <= m -> Z.testbit z m = false.
Proof.
  intros. destruct (Z.eq_dec z 0) as [->|]; [apply Z.bits_0|].
  destruct (Z_lt_dec n 0); [rewrite Z.pow_neg_r in H by lia; lia|].
  apply Z.bits_above_log2; [lia|]. assert (Z.log2 z < n) by (apply Z.log2_lt_pow2; lia). lia.
Qed.

Lemma wleaf_ok : forall t x m, tmin t <= x <= tmax t -> Z.testbit x m = den (wleaf t x m).
Proof.
  intros. unfold wleaf. destruct (signed t) eqn:S; auto.
  destruct (m <? width t) eqn:E; auto. cbn [den].
  destruct (unsigned_width t S) as (A & B & C). apply testbit_high with (width t); lia.
Qed.

Lemma wconv_ok : forall t1 t m w x, 0 <= m -> Z.testbit x m = den w -> w <> WX ->
  wconv t1 t m w <> WX -> Z.testbit (cv t1 t x) m = den (wconv t1 t m w).
Proof.
  intros t1 t m w x Hm H Hw Hc. unfold wconv, cv in *. destruct (subr t1 t); auto.
  destruct (signed t) eqn:S.
  { destruct (m <? width t) eqn:E; [|congruence]. rewrite wrap_bit by lia. auto. }
  rewrite wrap_unsigned by auto.
  destruct (unsigned_width t S) as (A & B & C).
  destruct (m <? width t) eqn:E.
  - rewrite Z.mod_pow2_bits_low by lia. auto.
  - cbn [den]. rewrite Z.mod_pow2_bits_high by lia. auto.
Qed.

Lemma wconv_wx : forall t1 t m w, wconv t1 t m w <> WX -> w <> WX \/ wconv t1 t m w = W0.
Proof.
  intros. unfold wconv in *. destruct (subr t1 t); auto. destruct (signed t); destruct (m <? width t); auto; congruence.
Qed.

Lemma wconv_ok' : forall t1 t m w x, 0 <= m -> (w <> WX -> Z.testbit x m = den w) ->
  wconv t1 t m w <> WX -> Z.testbit (cv t1 t x) m = den (wconv t1 t m w).
Proof.
  intros t1 t m w x Hm H Hc. unfold wconv, cv in *. destruct (subr t1 t); auto.
  destruct (signed t) eqn:S.
  { destruct (m <? width t) eqn:E; [|congruence]. rewrite wrap_bit by lia. auto. }
  rewrite wrap_unsigned by auto.
  destruct (unsigned_width t S) as (A & B & C).
  destruct (m <? width t) eqn:E.
  - rewrite Z.mod_pow2_bits_low by lia. auto.
  - cbn [den]. rewrite Z.mod_pow2_bits_high by lia. auto.
Qed.

Lemma wand_ok : forall a b, wand a b <> WX -> a <> WX /\ b <> WX /\ den (wand a b) = den a && den b.
Proof.
  destruct a, b; cbn; intros; try congruence; repeat split; try congruence;
  try (now rewrite andb_false_r); now rewrite andb_true_r.
Qed.

Lemma wor_ok : forall a b, wor a b <> WX -> a <> WX /\ b <> WX /\ den (wor a b) = den a || den b.
Proof.
  destruct a, b; cbn; intros; try congruence; repeat split; try congruence;
  try (now rewrite orb_true_r); now rewrite orb_false_r.
Qed.

Lemma bw_ok : forall e m, 0 <= m -> lok e -> bw e m <> WX -> Z.testbit (val e) m = den (bw e m).
Proof.
  induction e; cbn [bw lok val]; intros m Hm Hl Hx.
  - destruct (Z.testbit z m); auto.
  - now apply wleaf_ok.
  - congruence.
  - apply wleaf_ok. destruct Hl. now apply typed_get.
  - apply wconv_ok'; auto.
  - destruct Hl as [L1 L2]. destruct o; try congruence.
    + apply wand_ok in Hx. destruct Hx as (A & B & ->). unfold val_bin. rewrite Z.land_spec.
      f_equal; apply wconv_ok'; auto.
    + apply wor_ok in Hx. destruct Hx as (A & B & ->). unfold val_bin. rewrite Z.lor_spec.
      f_equal; apply wconv_ok'; auto.
    + destruct e2; try congruence. cbn [val_bin val] in *. destruct (z <? 0) eqn:Z0; [congruence|].
      assert (forall x, (m <? z = false -> Z.testbit x (m - z) = den (bw e1 (m - z))) ->
         Z.testbit (x * 2 ^ z) m = den (if m <? z then W0 else bw e1 (m - z))) as G.
      { intros x Hxx. destruct (m <? z) eqn:E.
        - rewrite Z.mul_pow2_bits_low by lia. auto.
        - rewrite Z.mul_pow2_bits by lia. auto. }
      unfold uw. destruct (signed (promote (ty e1))) eqn:S.
      * apply G. intros. apply IHe1; auto; [lia|]. intro E. rewrite H, E in Hx. congruence.
      * rewrite wrap_unsigned by auto. destruct (unsigned_width _ S) as (A & B & C).
        destruct (m <? width (promote (ty e1))) eqn:E.
        -- rewrite Z.mod_pow2_bits_low by lia. apply G. intros. apply IHe1; auto; [lia|].
           intro E'. rewrite H, E' in Hx. congruence.
        -- rewrite Z.mod_pow2_bits_high by lia. auto.
    + destruct e2; try congruence. cbn [val_bin val] in *. destruct (z <? 0) eqn:Z0; [congruence|].
      rewrite Z.shiftr_spec by lia. apply IHe1; auto. lia.
  - congruence.
  - congruence.
Qed.

(** Version with the expected result as an argument, checked by conversion. *)
Lemma bw_wrap : forall t e m w, signed t = false -> 0 <= m < width t -> lok e -> bw e m = w -> w <> WX ->
  Z.testbit (wrap t (val e)) m = den w.
Proof.
  intros. subst w. rewrite wrap_unsigned by auto. rewrite Z.mod_pow2_bits_low by lia.
  apply bw_ok; auto. lia.
Qed.

(** Case analysis on an integer with constant bounds. *)
Lemma zcase : forall (P : Z -> Prop) n, (forall k, (k < n)%nat -> P (Z.of_nat k)) ->
  forall z, 0 <= z < Z.of_nat n -> P z.
Proof. intros. rewrite <- (Z2Nat.id z) by lia. apply H. lia. Qed.

Fixpoint all_below (n : nat) (P : Z -> Prop) : Prop :=
  match n with O => True | S m => all_below m P /\ P (Z.of_nat m) end.

Lemma all_below_ok : forall n P, all_below n P -> forall z, 0 <= z < Z.of_nat n -> P z.
Proof.
  induction n; cbn [all_below]; intros P H z Hz; [lia|]. destruct H.
  destruct (Z.eq_dec z (Z.of_nat n)); [subst; auto|]. apply IHn; auto. lia.
Qed.
