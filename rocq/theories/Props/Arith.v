(** C13, C14, C15: polynomial arithmetic. *)
From Coq Require Import ZArith List.
From Verif Require Import Lib.Arr Lib.CInt Lib.CMon Spec.Ring Model.Params Model.PolyMul Model.Poly
  Proof.PackP Proof.PolyP Proof.MulThm.
Import ListNotations.
Local Open Scope Z_scope.

(** ** C13: the product in Z_8192[x]/(x^256+1), added to the accumulator. *)
Theorem C13_poly_mul_acc : forall junk a b res, arr U16 256 a -> arr U16 256 b -> arr U16 256 res ->
  exists r, run (poly_mul_acc junk a b res) = Some r /\ arr U16 256 r /\
    forall k, 0 <= k < 256 -> (get r k - (get res k + get (pmul a b) k)) mod 2 ^ 13 = 0.
Proof. exact poly_mul_acc_ok. Qed.
Print Assumptions C13_poly_mul_acc.

(** [pmul] is the full product folded by x^256 = -1. *)
Theorem C13_pmul : forall a b k, len a = 256 -> len b = 256 -> 0 <= k < 256 ->
  get (pmul a b) k = zsum 256 (fun i => get a i * get b (k - i)) - zsum 256 (fun i => get a i * get b (k + 256 - i)).
Proof. exact pmul_spec. Qed.
Print Assumptions C13_pmul.

Example C13_case : arr U16 256 one_a /\ arr U16 256 (repeat 65535 256) /\ arr U16 256 (zeros 255 ++ [5]).
Proof. exact mul_case. Qed.

(** x^128 * x^200 = - x^72. *)
Example C13_value : get (pmul (zeros 128 ++ 1 :: zeros 127) (zeros 200 ++ 1 :: zeros 55)) 72 = -1.
Proof. vm_compute. reflexivity. Qed.

(** ** C14: thirteen bits, and no more. *)
Theorem C14_bit_13_refuted : exists a b res, arr U16 256 a /\ arr U16 256 b /\ arr U16 256 res /\
  Forall (fun x => 0 <= x < 8192) a /\ Forall (fun x => 0 <= x < 8192) b /\
  exists r k, (forall junk, run (poly_mul_acc junk a b res) = Some r) /\ 0 <= k < 256 /\
    (get r k - (get res k + get (pmul a b) k)) mod 2 ^ 14 <> 0.
Proof. exact mul14_refuted. Qed.
Print Assumptions C14_bit_13_refuted.

(** ** C15: inner product and matrix-vector product. *)
Theorem C15_InnerProd : forall junk c b s res, vec U16 (SABER_L c) b -> vec U16 (SABER_L c) s -> arr U16 256 res ->
  exists r, run (InnerProd junk c b s res) = Some r /\ arr U16 256 r /\
    forall k, 0 <= k < 256 -> (get r k - (get res k + get (inner (Z.to_nat (SABER_L c)) b s) k)) mod 2 ^ 13 = 0.
Proof. exact InnerProd_ok. Qed.
Print Assumptions C15_InnerProd.

Theorem C15_MatrixVectorMul : forall junk c A s res tr, mat U16 (SABER_L c) A -> vec U16 (SABER_L c) s -> vec U16 (SABER_L c) res ->
  exists r, run (MatrixVectorMul junk c A s res tr) = Some r /\ vec U16 (SABER_L c) r /\
    forall i k, 0 <= i < SABER_L c -> 0 <= k < 256 ->
      (get (getr r i) k - (get (getr res i) k +
         get (getr (mat_vec (SABER_L c) (if tr =? 1 then transpose (SABER_L c) A else A) s) i) k)) mod 2 ^ 13 = 0.
Proof. exact MatrixVectorMul_ok. Qed.
Print Assumptions C15_MatrixVectorMul.

(** The two products written out. *)
Theorem C15_meaning : forall l A s i k, 0 <= i < l -> 0 <= k < 256 ->
  get (getr (mat_vec l A s) i) k = zsum l (fun j => get (pmul (getr (znth [] A i) j) (getr s j)) k) /\
  get (getr (mat_vec l (transpose l A) s) i) k = zsum l (fun j => get (pmul (getr (znth [] A j) i) (getr s j)) k).
Proof. exact mat_vec_meaning. Qed.
Print Assumptions C15_meaning.

Example C15_case : mat U16 2 (repeat (repeat (zeros 256) 2) 2) /\ vec U16 2 [one_a; one_b].
Proof. exact arith_case. Qed.
