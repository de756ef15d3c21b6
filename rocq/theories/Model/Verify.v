(** Model of verify.c. *)
From Coq Require Import ZArith List.
From Verif Require Import Lib.Arr Lib.CInt Lib.CMon.
Import ListNotations.
Local Open Scope Z_scope.
Local Open Scope M_scope.

(** verify.c:13-24.  [len] is a [size_t]; the result is the [int] returned. *)
Definition verify (a b : list Z) (n : Z) : M cexp :=
  r <- asg U64 #0 ;;
  r <- for_ 0 n (fun i r => asg U64 (r .| (Idx U8 a i .^ Idx U8 b i))%C) r ;;
  r <- asg U64 (Neg r .>> #63)%C ;;
  asg I32 r.

(** verify.c:27-34.  Returns the new contents of [r]. *)
Definition cmov (r x : list Z) (n : Z) (b : cexp) : M (list Z) :=
  b <- asg U8 (Neg b) ;;
  for_ 0 n (fun i r => st U8 r i (Idx U8 r i .^ (b .& (Idx U8 x i .^ Idx U8 r i)))%C) r.
