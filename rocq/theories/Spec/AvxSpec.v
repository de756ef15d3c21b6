(** Polynomials as the AVX2 code keeps them: 256 coefficients in sixteen vectors of sixteen 16-bit lanes. *)
From Coq Require Import ZArith List.
From Verif Require Import Lib.Arr Lib.CInt Lib.CMon Spec.Ring.
Import ListNotations.
Local Open Scope Z_scope.

(** [n] vectors of sixteen lanes. *)
Definition vok (n : Z) (l : list (list Z)) : Prop := len l = n /\ Forall (arr U16 16) l.
(** A vector and a square matrix of polynomials. *)
Definition avec (n : Z) (a : list (list (list Z))) : Prop := len a = n /\ Forall (vok 16) a.
Definition amat (n : Z) (a : list (list (list (list Z)))) : Prop := len a = n /\ Forall (avec n) a.
(** Their coefficients. *)
Definition polys (a : list (list (list Z))) : list (list Z) := map (@concat Z) a.
(** The matrix, transposed unless [tr] is 0. *)
Definition cmat (n tr : Z) (a : list (list (list (list Z)))) : list (list (list Z)) :=
  if tr =? 0 then map polys a else transpose n (map polys a).
