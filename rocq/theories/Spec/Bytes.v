(** Big-endian encodings of numbers. *)
From Coq Require Import ZArith List.
From Verif Require Import Lib.Arr.
Import ListNotations.
Local Open Scope Z_scope.

(** [be n v]: the [n] low bytes of [v], most significant first. *)
Fixpoint ben (n : nat) (v : Z) : list Z :=
  match n with O => [] | S k => ben k (v / 256) ++ [v mod 256] end.
Definition be (n v : Z) : list Z := ben (Z.to_nat n) v.
(** The number a byte string represents. *)
Definition be_val (l : list Z) : Z := fold_left (fun a x => a * 256 + x) l 0.
