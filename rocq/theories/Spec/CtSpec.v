(** What the constant-time properties of the AVX2 and Cortex-M4 code ask of the hash functions that it takes from outside: the
    trace depends on the lengths only. *)
From Coq Require Import ZArith List.
From Verif Require Import Lib.Arr Lib.CMon.
Local Open Scope Z_scope.

Definition hash_quiet (h : mem -> list Z -> list Z -> Z -> M (list Z)) : Prop :=
  forall junk junk' out out' inp inp' n, len out = len out' -> len inp = len inp' ->
    ct (fun r r' => len r = len r') (h junk out inp n) (h junk' out' inp' n).
(** The same for an extendable-output function. *)
Definition stream_quiet (h : mem -> list Z -> Z -> list Z -> Z -> M (list Z)) : Prop :=
  forall junk junk' out out' n inp inp' m, len out = len out' -> len inp = len inp' ->
    ct (fun r r' => len r = len r') (h junk out n inp m) (h junk' out' n inp' m).
