(** Vocabulary for histories of several generators. *)
From Coq Require Import ZArith List.
Import ListNotations.
Local Open Scope Z_scope.

(** The entries of generator [g]. *)
Definition of {A} (g : Z) (l : list (Z * A)) : list A := map snd (filter (fun q => fst q =? g) l).
