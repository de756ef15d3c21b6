(** FIPS 202: KECCAK-p[1600,24], the sponge construction, SHA3-256, SHA3-512, SHAKE128.

    A state is a list of 25 lanes; bit A[x,y,z] is bit [z] of lane [5*y+x].  As a bit
    string (FIPS 202, 3.1.2) bit [64*l+z] is bit [z] of lane [l].  Strings are lists of
    bits; bytes are converted least significant bit first (B.1). *)
From Coq Require Import ZArith List Bool.
From Verif Require Import Lib.Arr Spec.Bits.
Import ListNotations.
Local Open Scope Z_scope.

Definition bitA (A : list Z) (x y z : Z) : bool := Z.testbit (get A (5 * y + x)) z.
(** The state with given bits. *)
Definition mkA (f : Z -> Z -> Z -> bool) : list Z :=
  ztab 25 (fun i => bits_val 64 (fun z => f (i mod 5) (i / 5) z)).

(** 3.2.1 *)
Definition parity (A : list Z) (x z : Z) : bool :=
  xorb (xorb (xorb (xorb (bitA A x 0 z) (bitA A x 1 z)) (bitA A x 2 z)) (bitA A x 3 z)) (bitA A x 4 z).
Definition theta (A : list Z) : list Z :=
  mkA (fun x y z => xorb (bitA A x y z)
    (xorb (parity A ((x - 1) mod 5) z) (parity A ((x + 1) mod 5) ((z - 1) mod 64)))).

(** 3.2.2: the walk (x,y) := (y, 2x+3y) from (1,0). *)
Fixpoint rho_walk (fuel : nat) (t x y tx ty : Z) : Z :=
  match fuel with
  | O => 0
  | S n => if (x =? tx) && (y =? ty) then (t + 1) * (t + 2) / 2 else rho_walk n (t + 1) y ((2 * x + 3 * y) mod 5) tx ty
  end.
Definition rho_off (x y : Z) : Z := rho_walk 24 0 1 0 x y.
Definition rho (A : list Z) : list Z := mkA (fun x y z => bitA A x y ((z - rho_off x y) mod 64)).

(** 3.2.3 *)
Definition pi_ (A : list Z) : list Z := mkA (fun x y z => bitA A ((x + 3 * y) mod 5) x z).

(** 3.2.4 *)
Definition chi (A : list Z) : list Z :=
  mkA (fun x y z => xorb (bitA A x y z) (andb (negb (bitA A ((x + 1) mod 5) y z)) (bitA A ((x + 2) mod 5) y z))).

(** 3.2.5: the linear feedback shift register. *)
Definition lfsr_step (R : list bool) : list bool :=
  match R with
  | [r0; r1; r2; r3; r4; r5; r6; r7] => [r7; r0; r1; r2; xorb r3 r7; xorb r4 r7; xorb r5 r7; r6]
  | _ => R
  end.
Definition rc_bit (t : Z) : bool :=
  hd false (Nat.iter (Z.to_nat (t mod 255)) lfsr_step [true; false; false; false; false; false; false; false]).
(** Bit [2^j - 1] of the round constant is rc(j + 7 ir). *)
Definition RC_bit (ir z : Z) : bool :=
  existsb (fun j => (z =? 2 ^ j - 1) && rc_bit (j + 7 * ir)) [0; 1; 2; 3; 4; 5; 6].
Definition iota (ir : Z) (A : list Z) : list Z :=
  mkA (fun x y z => if (x =? 0) && (y =? 0) then xorb (bitA A x y z) (RC_bit ir z) else bitA A x y z).

(** 3.3 *)
Definition Rnd (ir : Z) (A : list Z) : list Z := iota ir (chi (pi_ (rho (theta A)))).
Fixpoint keccak_rounds (n : nat) (A : list Z) : list Z :=
  match n with O => A | S m => Rnd (Z.of_nat m) (keccak_rounds m A) end.
Definition keccak_f (A : list Z) : list Z := keccak_rounds 24 A.

(** ** Strings *)
Definition bits_of_bytes (l : list Z) : list bool := ztab (8 * len l) (fbit 8 l).
Definition bytes_of_bits (b : list bool) : list Z :=
  ztab (len b / 8) (fun i => bits_val 8 (fun m => znth false b (8 * i + m))).

(** 5.1: pad10*1(r, m). *)
Definition pad101 (r m : Z) : list bool := [true] ++ repeat false (Z.to_nat ((- m - 2) mod r)) ++ [true].

(** 4: the sponge.  Absorb the first [n] blocks of [P]. *)
Definition xor_block (r : Z) (A : list Z) (P : list bool) (i : Z) : list Z :=
  ztab 25 (fun l => bits_val 64 (fun z =>
    xorb (Z.testbit (get A l) z) (if 64 * l + z <? r then znth false P (r * i + (64 * l + z)) else false))).
Fixpoint absorb (n : nat) (r : Z) (P : list bool) : list Z :=
  match n with
  | O => repeat 0 25
  | S m => keccak_f (xor_block r (absorb m r P) P (Z.of_nat m))
  end.
(** Trunc_r(S) || Trunc_r(f(S)) || ..., [n] blocks. *)
Definition trunc (r : Z) (A : list Z) : list bool := ztab r (fbit 64 A).
Fixpoint squeeze (n : nat) (r : Z) (A : list Z) : list bool :=
  match n with O => [] | S m => trunc r A ++ squeeze m r (keccak_f A) end.

Definition sponge (r : Z) (N : list bool) (d : Z) : list bool :=
  let P := N ++ pad101 r (len N) in
  zfirst d (squeeze (Z.to_nat (d / r + 1)) r (absorb (Z.to_nat (len P / r)) r P)).
Definition KECCAK (c : Z) (N : list bool) (d : Z) : list bool := sponge (1600 - c) N d.

(** 6.1, 6.2, on byte strings; SHAKE128 with an output of [n] bytes. *)
Definition SHA3_256 (M : list Z) : list Z := bytes_of_bits (KECCAK 512 (bits_of_bytes M ++ [false; true]) 256).
Definition SHA3_512 (M : list Z) : list Z := bytes_of_bits (KECCAK 1024 (bits_of_bytes M ++ [false; true]) 512).
Definition SHAKE128 (n : Z) (M : list Z) : list Z :=
  bytes_of_bits (KECCAK 256 (bits_of_bytes M ++ [true; true; true; true]) (8 * n)).
