(** The buffers of the four-fold interface: four buffers of the ordinary interface one after the other. *)
From Coq Require Import ZArith List.
From Verif Require Import Lib.Arr.
Local Open Scope Z_scope.

(** The m-th buffer of n bytes. *)
Definition part (n m : Z) (x : list Z) : list Z := zfirst n (zskip (m * n) x).
