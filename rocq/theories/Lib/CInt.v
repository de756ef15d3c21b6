(** C integer types and expressions.

    The evaluator follows C11: integer promotions (6.3.1.1), usual arithmetic
    conversions (6.3.1.8), undefined behaviour on signed overflow (6.5p5) and on
    out of range or negative left shifts (6.5.7).  Two implementation-defined
    choices are fixed to what gcc and clang document: conversion to a signed type
    wraps (6.3.1.3p3) and [>>] of a negative value is arithmetic (6.5.7p5).
    [int] has 32 bits, [long], [long long] and [size_t] have 64. *)
From Coq Require Import ZArith List Bool Lia.
From Verif Require Import Lib.Arr.
Import ListNotations.
Local Open Scope Z_scope.

Inductive ity := U8 | U16 | U32 | U64 | I16 | I32 | I64.

Definition width (t : ity) : Z :=
  match t with U8 => 8 | U16 => 16 | I16 => 16 | U32 => 32 | I32 => 32 | U64 => 64 | I64 => 64 end.

Definition signed (t : ity) : bool :=
  match t with I16 | I32 | I64 => true | _ => false end.

Definition tmin (t : ity) : Z :=
  match t with I16 => -2^15 | I32 => -2^31 | I64 => -2^63 | _ => 0 end.

Definition tmax (t : ity) : Z :=
  match t with
  | U8 => 2^8 - 1 | U16 => 2^16 - 1 | U32 => 2^32 - 1 | U64 => 2^64 - 1
  | I16 => 2^15 - 1 | I32 => 2^31 - 1 | I64 => 2^63 - 1
  end.

Definition inr (t : ity) (z : Z) : bool := (tmin t <=? z) && (z <=? tmax t).

(** Conversion to type [t]. *)
Definition wrap (t : ity) (z : Z) : Z :=
  match t with
  | U8 => z mod 2^8 | U16 => z mod 2^16 | U32 => z mod 2^32 | U64 => z mod 2^64
  | I16 => (z + 2^15) mod 2^16 - 2^15
  | I32 => (z + 2^31) mod 2^32 - 2^31
  | I64 => (z + 2^63) mod 2^64 - 2^63
  end.

(** Integer promotion. *)
Definition promote (t : ity) : ity :=
  match t with U8 | U16 | I16 => I32 | _ => t end.

(** Common type of two promoted types. *)
Definition common (t1 t2 : ity) : ity :=
  match t1, t2 with
  | U64, _ | _, U64 => U64
  | I64, _ | _, I64 => I64
  | U32, _ | _, U32 => U32
  | _, _ => I32
  end.

Inductive bop := Add | Sub | Mul | And | Or | Xor | Shl | Shr.

Inductive cexp :=
| Cst (t : ity) (z : Z)                      (* literal *)
| Var (t : ity) (z : Z)                      (* value of a variable of type [t] *)
| Bnd (t : ity) (lo hi z : Z)                (* loop variable, between [lo] and [hi] *)
| Idx (t : ity) (a : list Z) (i : Z)         (* a[i], elements of type [t] *)
| Cast (t : ity) (e : cexp)
| Bin (o : bop) (e1 e2 : cexp)
| Neg (e : cexp)
| Not (e : cexp).

Fixpoint ty (e : cexp) : ity :=
  match e with
  | Cst t _ | Var t _ | Bnd t _ _ _ | Idx t _ _ | Cast t _ => t
  | Bin (Shl | Shr) e1 _ => promote (ty e1)
  | Bin _ e1 e2 => common (promote (ty e1)) (promote (ty e2))
  | Neg e | Not e => promote (ty e)
  end.

(** Result of an arithmetic operation of type [t] whose exact value is [r];
    [None] is undefined behaviour. *)
Definition arith (t : ity) (r : Z) : option Z :=
  if signed t then (if inr t r then Some r else None) else Some (wrap t r).

Definition eval_bin (o : bop) (t1 : ity) (v1 : Z) (t2 : ity) (v2 : Z) : option Z :=
  let t := common (promote t1) (promote t2) in
  let ts := promote t1 in
  match o with
  | Add => arith t (wrap t v1 + wrap t v2)
  | Sub => arith t (wrap t v1 - wrap t v2)
  | Mul => arith t (wrap t v1 * wrap t v2)
  | And => Some (Z.land (wrap t v1) (wrap t v2))
  | Or => Some (Z.lor (wrap t v1) (wrap t v2))
  | Xor => Some (Z.lxor (wrap t v1) (wrap t v2))
  | Shl =>
      if (0 <=? v2) && (v2 <? width ts) then
        if signed ts then (if 0 <=? v1 then arith ts (v1 * 2 ^ v2) else None)
        else Some (wrap ts (v1 * 2 ^ v2))
      else None
  | Shr => if (0 <=? v2) && (v2 <? width ts) then Some (Z.shiftr v1 v2) else None
  end.

Definition eval_neg (t : ity) (v : Z) : option Z := arith (promote t) (- v).
Definition eval_not (t : ity) (v : Z) : option Z :=
  Some (if signed (promote t) then Z.lnot v else wrap (promote t) (Z.lnot v)).

(** ** Value of an expression that has no undefined behaviour *)

Definition subr (t t' : ity) : bool :=
  match t, t' with
  | U8, _ => true
  | U16, (U16 | U32 | U64 | I32 | I64) => true
  | U32, (U32 | U64 | I64) => true
  | U64, U64 => true
  | I16, (I16 | I32 | I64) => true
  | I32, (I32 | I64) => true
  | I64, I64 => true
  | _, _ => false
  end.

Definition cv (t t' : ity) (x : Z) : Z := if subr t t' then x else wrap t' x.

Definition uw (t : ity) (x : Z) : Z := if signed t then x else wrap t x.

Definition val_bin (o : bop) (t1 : ity) (v1 : Z) (t2 : ity) (v2 : Z) : Z :=
  let t := common (promote t1) (promote t2) in
  match o with
  | Add => uw t (cv t1 t v1 + cv t2 t v2)
  | Sub => uw t (cv t1 t v1 - cv t2 t v2)
  | Mul => uw t (cv t1 t v1 * cv t2 t v2)
  | And => Z.land (cv t1 t v1) (cv t2 t v2)
  | Or => Z.lor (cv t1 t v1) (cv t2 t v2)
  | Xor => Z.lxor (cv t1 t v1) (cv t2 t v2)
  | Shl => uw (promote t1) (v1 * 2 ^ v2)
  | Shr => Z.shiftr v1 v2
  end.

Fixpoint val (e : cexp) : Z :=
  match e with
  | Cst _ z | Var _ z | Bnd _ _ _ z => z
  | Idx _ a i => get a i
  | Cast t e => cv (ty e) t (val e)
  | Bin o e1 e2 => val_bin o (ty e1) (val e1) (ty e2) (val e2)
  | Neg e => uw (promote (ty e)) (- val e)
  | Not e => uw (promote (ty e)) (Z.lnot (val e))
  end.

(** ** Interval analysis: [an e = Some (lo,hi)] bounds the value and excludes
    undefined behaviour, using only the types of variables and array elements. *)

Definition full (t : ity) : Z * Z := (tmin t, tmax t).

Definition an_conv (t : ity) (r : Z * Z) : Z * Z :=
  if (tmin t <=? fst r) && (snd r <=? tmax t) then r else full t.

Definition an_arith (t : ity) (lo hi : Z) : option (Z * Z) :=
  if (tmin t <=? lo) && (hi <=? tmax t) then Some (lo, hi)
  else if signed t then None else Some (full t).

Definition an_bin (o : bop) (t1 : ity) (r1 : Z * Z) (t2 : ity) (r2 : Z * Z) : option (Z * Z) :=
  let t := common (promote t1) (promote t2) in
  let ts := promote t1 in
  let '(a1, b1) := an_conv t r1 in
  let '(a2, b2) := an_conv t r2 in
  let '(l1, h1) := r1 in
  let '(l2, h2) := r2 in
  match o with
  | Add => an_arith t (a1 + a2) (b1 + b2)
  | Sub => an_arith t (a1 - b2) (b1 - a2)
  | Mul => an_arith t (Z.min (Z.min (a1 * a2) (a1 * b2)) (Z.min (b1 * a2) (b1 * b2)))
                      (Z.max (Z.max (a1 * a2) (a1 * b2)) (Z.max (b1 * a2) (b1 * b2)))
  | And =>
      if 0 <=? a1 then Some (0, if 0 <=? a2 then Z.min b1 b2 else b1)
      else if 0 <=? a2 then Some (0, b2) else Some (full t)
  | Or | Xor =>
      if (0 <=? a1) && (0 <=? a2) then Some (0, 2 ^ (Z.log2 (Z.max b1 b2) + 1) - 1)
      else Some (full t)
  | Shl =>
      if (0 <=? l2) && (h2 <? width ts) && (0 <=? l1)
      then an_arith ts (l1 * 2 ^ l2) (h1 * 2 ^ h2) else None
  | Shr =>
      if (0 <=? l2) && (h2 <? width ts)
      then Some (if 0 <=? l1 then Z.shiftr l1 h2 else Z.shiftr l1 l2,
                 if 0 <=? h1 then Z.shiftr h1 l2 else Z.shiftr h1 h2)
      else None
  end.

Fixpoint an (e : cexp) : option (Z * Z) :=
  match e with
  | Cst _ z => Some (z, z)
  | Var t _ | Idx t _ _ => Some (full t)
  | Bnd t lo hi _ => if (tmin t <=? lo) && (hi <=? tmax t) then Some (lo, hi) else None
  | Cast t e => match an e with Some r => Some (an_conv t r) | None => None end
  | Bin o e1 e2 =>
      match an e1, an e2 with
      | Some r1, Some r2 => an_bin o (ty e1) r1 (ty e2) r2
      | _, _ => None
      end
  | Neg e =>
      match an e with
      | Some (l, h) => an_arith (promote (ty e)) (- h) (- l)
      | None => None
      end
  | Not e =>
      match an e with
      | Some (l, h) => if signed (promote (ty e)) then Some (- h - 1, - l - 1)
                       else Some (full (promote (ty e)))
      | None => None
      end
  end.

Definition safe (e : cexp) : bool := match an e with Some _ => true | None => false end.

(** Elements of an array of type [t]. *)
Definition typed (t : ity) (l : list Z) : Prop := Forall (fun z => tmin t <= z <= tmax t) l.

(** Leaves of the expression are in range and reads are inside the arrays. *)
Fixpoint lok (e : cexp) : Prop :=
  match e with
  | Cst t z | Var t z => tmin t <= z <= tmax t
  | Bnd t lo hi z => lo <= z <= hi
  | Idx t a i => 0 <= i < len a /\ typed t a
  | Cast _ e | Neg e | Not e => lok e
  | Bin _ e1 e2 => lok e1 /\ lok e2
  end.

(** ** Lemmas *)

Lemma wrap_range : forall t z, tmin t <= wrap t z <= tmax t.
Proof.
  intros t z; destruct t; cbn [wrap tmin tmax];
  match goal with |- context [?a mod ?b] => pose proof (Z.mod_pos_bound a b eq_refl) end; lia.
Qed.

Lemma wrap_id : forall t z, tmin t <= z <= tmax t -> wrap t z = z.
Proof.
  intros t z H; destruct t; cbn [wrap tmin tmax] in *; rewrite Z.mod_small by lia; lia.
Qed.

Lemma subr_ok : forall t t', subr t t' = true -> tmin t' <= tmin t /\ tmax t <= tmax t'.
Proof. intros t t'; destruct t, t'; cbn; intros; (discriminate || lia). Qed.

Lemma cv_wrap : forall t t' z, tmin t <= z <= tmax t -> cv t t' z = wrap t' z.
Proof.
  intros. unfold cv. destruct (subr t t') eqn:E; auto. apply subr_ok in E.
  symmetry. apply wrap_id. lia.
Qed.

Lemma inr_spec : forall t z, inr t z = true <-> tmin t <= z <= tmax t.
Proof. intros. unfold inr. lia. Qed.

Lemma typed_get : forall t l i, typed t l -> 0 <= i < len l -> tmin t <= get l i <= tmax t.
Proof. intros. unfold get. now apply Forall_znth with (P := fun z => tmin t <= z <= tmax t). Qed.

Lemma typed_upd : forall t l i v, typed t l -> tmin t <= v <= tmax t -> typed t (upd l i v).
Proof. intros. now apply Forall_upd. Qed.

Lemma land_nonneg_le : forall a b, 0 <= a -> 0 <= Z.land a b <= a.
Proof.
  intros a b H. split; [apply Z.land_nonneg; auto|].
  assert (Z.land a b = a - Z.ldiff a b) as ->.
  { rewrite Z.sub_nocarry_ldiff.
    - apply Z.bits_inj'. intros n Hn. rewrite !Z.land_spec, !Z.ldiff_spec.
      destruct (Z.testbit a n), (Z.testbit b n); auto.
    - apply Z.bits_inj'. intros n Hn. rewrite !Z.ldiff_spec, Z.bits_0.
      destruct (Z.testbit a n), (Z.testbit b n); auto. }
  assert (0 <= Z.ldiff a b) by (apply Z.ldiff_nonneg; auto). lia.
Qed.

Lemma lor_bound : forall a b m, 0 <= a <= m -> 0 <= b <= m ->
  0 <= Z.lor a b <= 2 ^ (Z.log2 m + 1) - 1.
Proof.
  intros. split; [apply Z.lor_nonneg; lia|].
  assert (Z.lor a b < 2 ^ (Z.log2 m + 1)); [|lia].
  destruct (Z.eq_dec (Z.lor a b) 0) as [->|]; [apply Z.pow_pos_nonneg; pose proof (Z.log2_nonneg m); lia|].
  assert (0 <= Z.lor a b) by (apply Z.lor_nonneg; lia).
  apply Z.log2_lt_pow2; [lia|]. rewrite Z.log2_lor by lia.
  assert (Z.log2 a <= Z.log2 m) by (apply Z.log2_le_mono; lia).
  assert (Z.log2 b <= Z.log2 m) by (apply Z.log2_le_mono; lia). lia.
Qed.

Lemma lxor_bound : forall a b m, 0 <= a <= m -> 0 <= b <= m ->
  0 <= Z.lxor a b <= 2 ^ (Z.log2 m + 1) - 1.
Proof.
  intros. split; [apply Z.lxor_nonneg; lia|].
  assert (Z.lxor a b < 2 ^ (Z.log2 m + 1)); [|lia].
  destruct (Z.eq_dec (Z.lxor a b) 0) as [->|]; [apply Z.pow_pos_nonneg; pose proof (Z.log2_nonneg m); lia|].
  assert (0 <= Z.lxor a b) by (apply Z.lxor_nonneg; lia).
  apply Z.log2_lt_pow2; [lia|].
  assert (Z.log2 (Z.lxor a b) <= Z.max (Z.log2 a) (Z.log2 b)) by (apply Z.log2_lxor; lia).
  assert (Z.log2 a <= Z.log2 m) by (apply Z.log2_le_mono; lia).
  assert (Z.log2 b <= Z.log2 m) by (apply Z.log2_le_mono; lia). lia.
Qed.

(** Bitwise operations keep values in a signed range. *)
Lemma signed_bits : forall n z, 0 <= n ->
  (- 2 ^ n <= z <= 2 ^ n - 1) <-> (forall k, n <= k -> Z.testbit z k = Z.testbit z n).
Proof.
  intros n z Hn. assert (0 < 2 ^ n) by (apply Z.pow_pos_nonneg; lia). split.
  - intros Hz k Hk. destruct (Z.leb_spec 0 z).
    + assert (forall j, n <= j -> Z.testbit z j = false) as E.
      { intros. destruct (Z.eq_dec z 0) as [->|]; [apply Z.bits_0|].
        apply Z.bits_above_log2; [lia|].
        assert (Z.log2 z < n) by (apply Z.log2_lt_pow2; lia). lia. }
      rewrite !E by lia. auto.
    + assert (forall j, n <= j -> Z.testbit z j = true) as E.
      { intros. rewrite <- (Z.lnot_involutive z). rewrite Z.lnot_spec by lia.
        apply negb_true_iff. unfold Z.lnot.
        destruct (Z.eq_dec (Z.pred (- z)) 0) as [->|]; [apply Z.bits_0|].
        apply Z.bits_above_log2; [lia|].
        assert (Z.log2 (Z.pred (- z)) < n) by (apply Z.log2_lt_pow2; lia). lia. }
      rewrite !E by lia. auto.
  - intros Hb. destruct (Z.testbit z n) eqn:E.
    + assert (Z.lnot z = Z.lnot z mod 2 ^ n) as E1.
      { apply Z.bits_inj'. intros k Hk. rewrite Z.lnot_spec by lia.
        destruct (Z.ltb_spec k n).
        - rewrite Z.mod_pow2_bits_low by lia. now rewrite Z.lnot_spec by lia.
        - rewrite Z.mod_pow2_bits_high by lia. rewrite Hb by lia. auto. }
      assert (0 <= Z.lnot z mod 2 ^ n < 2 ^ n) by (apply Z.mod_pos_bound; lia).
      unfold Z.lnot in *. lia.
    + assert (z = z mod 2 ^ n) as E1.
      { apply Z.bits_inj'. intros k Hk. destruct (Z.ltb_spec k n).
        - now rewrite Z.mod_pow2_bits_low by lia.
        - rewrite Z.mod_pow2_bits_high by lia. rewrite Hb by lia. auto. }
      assert (0 <= z mod 2 ^ n < 2 ^ n) by (apply Z.mod_pos_bound; lia). lia.
Qed.

Lemma shiftr_bound : forall v l h s sl sh, l <= v <= h -> 0 <= sl <= s -> s <= sh ->
  (if 0 <=? l then Z.shiftr l sh else Z.shiftr l sl) <= Z.shiftr v s <=
  (if 0 <=? h then Z.shiftr h sl else Z.shiftr h sh).
Proof.
  intros. rewrite !Z.shiftr_div_pow2 by lia.
  assert (forall k, 0 <= k -> 0 < 2 ^ k) as P by (intros; apply Z.pow_pos_nonneg; lia).
  assert (2 ^ sl <= 2 ^ s) by (apply Z.pow_le_mono_r; lia).
  assert (2 ^ s <= 2 ^ sh) by (apply Z.pow_le_mono_r; lia).
  assert (forall a b c, 0 <= a -> 0 < b -> b <= c -> a / c <= a / b) as D1
    by (intros; apply Z.div_le_compat_l; lia).
  assert (forall a b c, a <= 0 -> 0 < b -> b <= c -> a / b <= a / c) as D2.
  { intros a b c Ha Hb Hc.
    pose proof (Z.div_mod a b ltac:(lia)). pose proof (Z.mod_pos_bound a b Hb).
    pose proof (Z.div_mod a c ltac:(lia)). pose proof (Z.mod_pos_bound a c ltac:(lia)).
    assert (a / b <= 0) by nia. nia. }
  pose proof (P s ltac:(lia)). pose proof (P sl ltac:(lia)). pose proof (P sh ltac:(lia)).
  split.
  - assert (l / 2 ^ s <= v / 2 ^ s) by (apply Z.div_le_mono; lia).
    destruct (0 <=? l) eqn:E.
    + specialize (D1 l (2^s) (2^sh)). lia.
    + specialize (D2 l (2^sl) (2^s)). lia.
  - assert (v / 2 ^ s <= h / 2 ^ s) by (apply Z.div_le_mono; lia).
    destruct (0 <=? h) eqn:E.
    + specialize (D1 h (2^sl) (2^s)). lia.
    + specialize (D2 h (2^s) (2^sh)). lia.
Qed.

Lemma an_conv_ok : forall t r v, fst r <= v <= snd r ->
  fst (an_conv t r) <= wrap t v <= snd (an_conv t r) /\
  tmin t <= fst (an_conv t r) /\ snd (an_conv t r) <= tmax t.
Proof.
  intros. unfold an_conv. destruct (_ && _) eqn:E.
  - rewrite wrap_id by lia. lia.
  - cbn. pose proof (wrap_range t v). lia.
Qed.

Lemma an_arith_ok : forall t lo hi r v, an_arith t lo hi = Some r -> lo <= v <= hi ->
  arith t v = Some (uw t v) /\ fst r <= uw t v <= snd r /\ tmin t <= fst r /\ snd r <= tmax t.
Proof.
  unfold an_arith, arith, uw; intros t lo hi r v H Hv.
  destruct (_ && _) eqn:E.
  - inversion H; subst; cbn. destruct (signed t) eqn:S.
    + destruct (inr t v) eqn:I; unfold inr in I; [|lia]. repeat split; lia.
    + rewrite wrap_id by lia. repeat split; lia.
  - destruct (signed t) eqn:S; [discriminate|]. inversion H; subst; cbn.
    pose proof (wrap_range t v). repeat split; lia.
Qed.

Lemma tlog : forall t, 2 ^ (Z.log2 (tmax t) + 1) - 1 = tmax t.
Proof. destruct t; reflexivity. Qed.

Lemma or_range_tight : forall t m, 0 <= m <= tmax t -> 2 ^ (Z.log2 m + 1) - 1 <= tmax t.
Proof.
  intros. rewrite <- (tlog t). assert (Z.log2 m <= Z.log2 (tmax t)) by (apply Z.log2_le_mono; lia).
  assert (2 ^ (Z.log2 m + 1) <= 2 ^ (Z.log2 (tmax t) + 1)) by (apply Z.pow_le_mono_r; lia). lia.
Qed.

Lemma tmin_neg_pow : forall t, signed t = true -> tmin t = - 2 ^ (width t - 1) /\ tmax t = 2 ^ (width t - 1) - 1.
Proof. destruct t; cbn; intros; try discriminate; split; reflexivity. Qed.

Lemma land_full : forall t a b, tmin t <= a <= tmax t -> tmin t <= b <= tmax t ->
  tmin t <= Z.land a b <= tmax t.
Proof.
  intros t a b Ha Hb. destruct (signed t) eqn:S.
  - destruct (tmin_neg_pow t S) as [E1 E2]. rewrite E1, E2 in *.
    assert (0 <= width t - 1) by (destruct t; cbn; lia).
    apply signed_bits; [lia|]. intros k Hk.
    rewrite signed_bits in Ha, Hb by lia. rewrite !Z.land_spec, Ha, Hb by lia. auto.
  - assert (tmin t = 0) as E by (destruct t; auto; discriminate). rewrite E in *.
    pose proof (land_nonneg_le a b). lia.
Qed.

Lemma lor_full : forall t a b, tmin t <= a <= tmax t -> tmin t <= b <= tmax t ->
  tmin t <= Z.lor a b <= tmax t.
Proof.
  intros t a b Ha Hb. destruct (signed t) eqn:S.
  - destruct (tmin_neg_pow t S) as [E1 E2]. rewrite E1, E2 in *.
    assert (0 <= width t - 1) by (destruct t; cbn; lia).
    apply signed_bits; [lia|]. intros k Hk.
    rewrite signed_bits in Ha, Hb by lia. rewrite !Z.lor_spec, Ha, Hb by lia. auto.
  - assert (tmin t = 0) as E by (destruct t; auto; discriminate). rewrite E in *.
    pose proof (lor_bound a b (tmax t) Ha Hb). rewrite tlog in H. lia.
Qed.

Lemma lxor_full : forall t a b, tmin t <= a <= tmax t -> tmin t <= b <= tmax t ->
  tmin t <= Z.lxor a b <= tmax t.
Proof.
  intros t a b Ha Hb. destruct (signed t) eqn:S.
  - destruct (tmin_neg_pow t S) as [E1 E2]. rewrite E1, E2 in *.
    assert (0 <= width t - 1) by (destruct t; cbn; lia).
    apply signed_bits; [lia|]. intros k Hk.
    rewrite signed_bits in Ha, Hb by lia. rewrite !Z.lxor_spec, Ha, Hb by lia. auto.
  - assert (tmin t = 0) as E by (destruct t; auto; discriminate). rewrite E in *.
    pose proof (lxor_bound a b (tmax t) Ha Hb). rewrite tlog in H. lia.
Qed.

Lemma mul_bounds : forall a b a1 b1 a2 b2, a1 <= a <= b1 -> a2 <= b <= b2 ->
  Z.min (Z.min (a1 * a2) (a1 * b2)) (Z.min (b1 * a2) (b1 * b2)) <= a * b <=
  Z.max (Z.max (a1 * a2) (a1 * b2)) (Z.max (b1 * a2) (b1 * b2)).
Proof.
  intros a b a1 b1 a2 b2 H1 H2.
  assert (forall x y z, y <= z -> Z.min (x * y) (x * z) <= x * y /\ x * y <= Z.max (x*y) (x*z)) by (intros; lia).
  assert (forall l u x c, l <= x <= u -> Z.min (l * c) (u * c) <= x * c <= Z.max (l * c) (u * c)) as L.
  { intros l u x c Hx. destruct (Z.le_ge_cases 0 c).
    - assert (l * c <= x * c) by (apply Z.mul_le_mono_nonneg_r; lia).
      assert (x * c <= u * c) by (apply Z.mul_le_mono_nonneg_r; lia). lia.
    - assert (x * c <= l * c) by (apply Z.mul_le_mono_nonpos_r; lia).
      assert (u * c <= x * c) by (apply Z.mul_le_mono_nonpos_r; lia). lia. }
  pose proof (L a1 b1 a b H1).
  pose proof (L a2 b2 b a1 H2). pose proof (L a2 b2 b b1 H2).
  rewrite ?(Z.mul_comm a2), ?(Z.mul_comm b2), ?(Z.mul_comm b) in *. rewrite ?(Z.mul_comm a1), ?(Z.mul_comm b1), ?(Z.mul_comm a) in *. lia.
Qed.

(** The analysis is sound for one binary operation. *)
Lemma an_bin_ok : forall o t1 r1 t2 r2 r v1 v2,
  an_bin o t1 r1 t2 r2 = Some r ->
  tmin t1 <= v1 <= tmax t1 -> tmin t2 <= v2 <= tmax t2 ->
  fst r1 <= v1 <= snd r1 -> fst r2 <= v2 <= snd r2 ->
  eval_bin o t1 v1 t2 v2 = Some (val_bin o t1 v1 t2 v2) /\
  fst r <= val_bin o t1 v1 t2 v2 <= snd r /\
  tmin (match o with Shl | Shr => promote t1 | _ => common (promote t1) (promote t2) end)
    <= val_bin o t1 v1 t2 v2 <=
  tmax (match o with Shl | Shr => promote t1 | _ => common (promote t1) (promote t2) end).
Proof.
  intros o t1 r1 t2 r2 r v1 v2 H T1 T2 R1 R2.
  unfold an_bin in H. set (t := common (promote t1) (promote t2)) in *.
  destruct (an_conv t r1) as [a1 b1] eqn:E1. destruct (an_conv t r2) as [a2 b2] eqn:E2.
  destruct r1 as [l1 h1], r2 as [l2 h2].
  pose proof (an_conv_ok t (l1,h1) v1 R1) as (C1 & C1' & C1''). rewrite E1 in *.
  pose proof (an_conv_ok t (l2,h2) v2 R2) as (C2 & C2' & C2''). rewrite E2 in *.
  cbn [fst snd] in *.
  unfold eval_bin, val_bin. fold t. rewrite !(cv_wrap t1 t v1 T1), !(cv_wrap t2 t v2 T2).
  set (w1 := wrap t v1) in *. set (w2 := wrap t v2) in *.
  assert (tmin (promote t1) <= v1 <= tmax (promote t1)) as T1p by (destruct t1; cbn in *; lia).
  destruct o.
  - destruct (an_arith_ok _ _ _ _ (w1 + w2) H) as (A & B & C); [lia|]. rewrite A. repeat split; auto; lia.
  - destruct (an_arith_ok _ _ _ _ (w1 - w2) H) as (A & B & C); [lia|]. rewrite A. repeat split; auto; lia.
  - destruct (an_arith_ok _ _ _ _ (w1 * w2) H) as (A & B & C); [apply mul_bounds; lia|].
    rewrite A. repeat split; auto; lia.
  - pose proof (land_full t w1 w2). split; auto. split; [|lia].
    destruct (0 <=? a1) eqn:A1.
    + inversion H; subst; cbn. pose proof (land_nonneg_le w1 w2). destruct (0 <=? a2) eqn:A2; [|lia].
      pose proof (land_nonneg_le w2 w1). rewrite (Z.land_comm w2) in *. lia.
    + destruct (0 <=? a2) eqn:A2.
      * inversion H; subst; cbn. pose proof (land_nonneg_le w2 w1). rewrite (Z.land_comm w2) in *. lia.
      * inversion H; subst; cbn. lia.
  - pose proof (lor_full t w1 w2). split; auto. split; [|lia].
    destruct (_ && _) eqn:A; inversion H; subst; cbn [fst snd]; [apply lor_bound; lia|cbn; lia].
  - pose proof (lxor_full t w1 w2). split; auto. split; [|lia].
    destruct (_ && _) eqn:A; inversion H; subst; cbn [fst snd]; [apply lxor_bound; lia|cbn; lia].
  - destruct (_ && _ && _) eqn:G; [|discriminate].
    assert ((0 <=? v2) && (v2 <? width (promote t1)) = true) as -> by lia.
    assert (0 <=? v1 = true) as -> by lia.
    assert (0 < 2 ^ l2) by (apply Z.pow_pos_nonneg; lia).
    assert (2 ^ l2 <= 2 ^ v2) by (apply Z.pow_le_mono_r; lia).
    assert (2 ^ v2 <= 2 ^ h2) by (apply Z.pow_le_mono_r; lia).
    assert (l1 * 2 ^ l2 <= v1 * 2 ^ v2 <= h1 * 2 ^ h2) by nia.
    destruct (an_arith_ok _ _ _ _ (v1 * 2 ^ v2) H) as (A & B & C); [lia|].
    unfold uw in *. unfold arith in A. destruct (signed (promote t1)) eqn:S.
    + unfold arith; rewrite S. rewrite A. repeat split; auto; lia.
    + repeat split; auto; lia.
  - destruct (_ && _) eqn:G; [|discriminate].
    assert ((0 <=? v2) && (v2 <? width (promote t1)) = true) as -> by lia.
    inversion H; subst; cbn [fst snd].
    pose proof (shiftr_bound v1 l1 h1 v2 l2 h2 ltac:(lia) ltac:(lia) ltac:(lia)).
    split; auto. split; [lia|].
    pose proof (shiftr_bound v1 (tmin (promote t1)) (tmax (promote t1)) v2 0 v2 ltac:(lia) ltac:(lia) ltac:(lia)) as B.
    rewrite !Z.shiftr_0_r in B.
    assert (0 <=? tmax (promote t1) = true) as E by (destruct t1; auto). rewrite E in B.
    destruct (0 <=? tmin (promote t1)) eqn:E'; [|lia].
    assert (tmin (promote t1) = 0) as E'' by (destruct t1; cbn in *; auto; discriminate).
    rewrite E'', Z.shiftr_0_l in B. lia.
Qed.

(** Notations for expressions. *)
Declare Scope C_scope.
Delimit Scope C_scope with C.
Bind Scope C_scope with cexp.
Infix "+" := (Bin Add) : C_scope.
Infix "-" := (Bin Sub) : C_scope.
Infix "*" := (Bin Mul) : C_scope.
Notation "- x" := (Neg x) : C_scope.
Notation "x .<< y" := (Bin Shl x y) (at level 53, left associativity) : C_scope.
Notation "x .>> y" := (Bin Shr x y) (at level 53, left associativity) : C_scope.
Notation "x .& y" := (Bin And x y) (at level 54, left associativity) : C_scope.
Notation "x .^ y" := (Bin Xor x y) (at level 55, left associativity) : C_scope.
Notation "x .| y" := (Bin Or x y) (at level 56, left associativity) : C_scope.
Notation "# n" := (Cst I32 n%Z) (at level 1, n at level 0, format "# n") : C_scope.

(** An array of [n] elements of type [t]. *)
Definition arr (t : ity) (n : Z) (l : list Z) : Prop := len l = n /\ typed t l.

Lemma typed_range : forall t w l, tmin t <= 0 -> 2 ^ w - 1 <= tmax t ->
  Forall (fun z => 0 <= z < 2 ^ w) l -> typed t l.
Proof. intros. eapply Forall_impl; [|eassumption]. cbn beta. intros. lia. Qed.

(** Decision procedure, for concrete examples. *)
Definition arrb (t : ity) (n : Z) (l : list Z) : bool := (len l =? n) && forallb (inr t) l.

Lemma arrb_ok : forall t n l, arrb t n l = true -> arr t n l.
Proof.
  intros t n l H. apply andb_true_iff in H. destruct H as (A & B). split; [lia|].
  apply Forall_forall. intros x Hx. rewrite forallb_forall in B. apply inr_spec, B, Hx.
Qed.
