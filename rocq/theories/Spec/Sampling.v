(** Specification of the secret samplers: centred binomial, and uniform two-bit. *)
From Coq Require Import ZArith List.
From Verif Require Import Lib.Arr Spec.Bits Spec.Ring.
Local Open Scope Z_scope.

(** Number of [true] among f 0, ..., f (n-1). *)
Definition hw (n : Z) (f : Z -> bool) : Z := zsum n (fun k => Z.b2z (f k)).

(** Coefficient [i]: HW of the first [mu/2] bits of its field minus HW of the others. *)
Definition cbd_coef (mu : Z) (buf : list Z) (i : Z) : Z :=
  hw (mu / 2) (fun t => fbit 8 buf (mu * i + t)) - hw (mu / 2) (fun t => fbit 8 buf (mu * i + mu / 2 + t)).

Definition cbd_poly (mu : Z) (buf : list Z) : list Z := ztab 256 (cbd_coef mu buf).

(** Two-bit two's complement field. *)
Definition uni_coef (buf : list Z) (i : Z) : Z :=
  Z.b2z (fbit 8 buf (2 * i)) - 2 * Z.b2z (fbit 8 buf (2 * i + 1)).

Definition uni_poly (buf : list Z) : list Z := ztab 256 (uni_coef buf).
