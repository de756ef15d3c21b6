(** AVX2 vectors of sixteen 16-bit lanes, and straight-line code on them.

    A [__m256i] is the list of its 16-bit lanes, lane 0 first, each as an unsigned number.  The operations below are
    those of the Intel intrinsics named beside them (Intel Intrinsics Guide). *)
From Coq Require Import ZArith List Bool.
From Verif Require Import Lib.Arr Lib.CInt Lib.CMon.
Import ListNotations.
Local Open Scope Z_scope.

Notation vec := (list Z).
Definition lanes (f : Z -> Z) : vec := ztab 16 f.
Definition lane2 (f : Z -> Z -> Z) (x y : vec) : vec := lanes (fun k => wrap U16 (f (znth 0 x k) (znth 0 y k))).

(** _mm256_add_epi16, _mm256_sub_epi16, _mm256_mullo_epi16, _mm256_and_si256, _mm256_xor_si256. *)
Definition vadd : vec -> vec -> vec := lane2 Z.add.
Definition vsub : vec -> vec -> vec := lane2 Z.sub.
Definition vmul : vec -> vec -> vec := lane2 Z.mul.
Definition vand : vec -> vec -> vec := lane2 Z.land.
Definition vxor : vec -> vec -> vec := lane2 Z.lxor.
(** _mm256_slli_epi16, _mm256_srli_epi16: shift counts above 15 give 0. *)
Definition vsll (x : vec) (n : Z) : vec := lanes (fun k => if n <=? 15 then wrap U16 (Z.shiftl (znth 0 x k) n) else 0).
Definition vsrl (x : vec) (n : Z) : vec := lanes (fun k => if n <=? 15 then Z.shiftr (znth 0 x k) n else 0).
(** _mm256_set1_epi16, _mm256_set_epi64x(0, 0, 0, 0). *)
Definition vset1 (z : Z) : vec := lanes (fun _ => wrap U16 z).

(** Shuffles of two vectors, given by the source of each lane: operand and lane. *)
Definition shuffle {A} (d : A) (src : list (bool * Z)) (x y : list A) : list A :=
  map (fun '(second, k) => znth d (if second : bool then y else x) k) src.
(** _mm256_unpacklo_epi16, _epi32, _epi64 and _mm256_unpackhi_*, for elements of [w] = 1, 2, 4 lanes: in each 128-bit
    half, the elements of the low (high) 64 bits of the operands alternate. *)
Definition unpack_src (hi : bool) (w : Z) : list (bool * Z) :=
  ztab 16 (fun k =>
    let half := k / 8 in let p := k mod 8 in let e := p / w in
    (Z.odd e, 8 * half + (if hi then 4 else 0) + (e / 2) * w + p mod w)).
(** _mm256_permute2f128_si256(x, y, imm): two bits of [imm] choose each 128-bit half among x.low, x.high, y.low, y.high
    (the bits that would zero a half are not used). *)
Definition perm_src (imm : Z) : list (bool * Z) :=
  ztab 16 (fun k => let sel := if k <? 8 then imm mod 4 else imm / 16 mod 4 in (2 <=? sel, 8 * (sel mod 2) + k mod 8)).

(** ** Straight-line code

    Registers are local variables of type [__m256i]; arrays are the array variables and pointer parameters, numbered in
    the order in which [vrun] is given their contents.  All indices are constants. *)
Inductive vbin := Add | Sub | Mul | UnpackLo (w : Z) | UnpackHi (w : Z) | Perm (imm : Z).
Inductive vexp := Reg (r : Z) | El (a i : Z) | Bin2 (o : vbin) (x y : vexp) | Sll (x : vexp) (n : Z) | Srl (x : vexp) (n : Z) | Zero.
Inductive vstmt := SetR (r : Z) (e : vexp) | SetE (a i : Z) (e : vexp).

(** The meaning of the operations, for any representation of vectors. *)
Record vops (V : Type) := VOps {
  o_bin : vbin -> V -> V -> option V;
  o_sll : V -> Z -> option V;
  o_srl : V -> Z -> option V;
  o_zero : option V }.
Arguments VOps {V}. Arguments o_bin {V}. Arguments o_sll {V}. Arguments o_srl {V}. Arguments o_zero {V}.

Section Exec.
  Context {V : Type}.
  Variable O : vops V.
  (** Registers, newest value first; arrays. *)
  Definition vregs : Type := list (Z * V).
  Fixpoint rget (rs : vregs) (r : Z) : option V :=
    match rs with [] => None | (q, v) :: rs => if q =? r then Some v else rget rs r end.
  Definition obind {A B} (o : option A) (f : A -> option B) : option B := match o with Some a => f a | None => None end.

  (** Reading a register that has no value, or an array element that does not exist, is undefined ([None]). *)
  Fixpoint veval (rs : vregs) (arrs : list (list V)) (e : vexp) : option V :=
    match e with
    | Reg r => rget rs r
    | El a i => obind (lookup arrs a) (fun l => lookup l i)
    | Bin2 o x y => obind (veval rs arrs x) (fun x => obind (veval rs arrs y) (fun y => o_bin O o x y))
    | Sll x n => obind (veval rs arrs x) (fun x => o_sll O x n)
    | Srl x n => obind (veval rs arrs x) (fun x => o_srl O x n)
    | Zero => o_zero O
    end.
  Fixpoint vexec (c : list vstmt) (rs : vregs) (arrs : list (list V)) : option (list (list V)) :=
    match c with
    | [] => Some arrs
    | SetR r e :: c => obind (veval rs arrs e) (fun v => vexec c ((r, v) :: rs) arrs)
    | SetE a i e :: c =>
        obind (veval rs arrs e) (fun v => obind (lookup arrs a) (fun l => obind (update l i v) (fun l =>
        obind (update arrs a l) (vexec c rs))))
    end.
End Exec.

(** The meaning on vectors. *)
Definition vecs : vops vec := VOps
  (fun o x y => match o with
   | Add => Some (vadd x y) | Sub => Some (vsub x y) | Mul => Some (vmul x y)
   | UnpackLo w => Some (shuffle 0 (unpack_src false w) x y)
   | UnpackHi w => Some (shuffle 0 (unpack_src true w) x y)
   | Perm imm => Some (shuffle 0 (perm_src imm) x y)
   end)
  (fun x n => Some (vsll x n)) (fun x n => Some (vsrl x n)) (Some (vset1 0)).

(** Run code with no register set; the result is the new contents of the arrays.  As the indices are constants and
    there are no branches, nothing is added to the trace. *)
Definition vrun (c : list vstmt) (arrs : list (list vec)) : M (list (list vec)) := lift (vexec vecs c [] arrs).
(** The contents of array [a] afterwards. *)
Definition arr_of (arrs : list (list vec)) (a : Z) : M (list vec) := lift (lookup arrs a).

(** [f (a + off)] where [f] writes through its pointer argument, for arrays of vectors; [a + off] used for reading. *)
Definition vat (a : list vec) (off : Z) (f : list vec -> M (list vec)) : M (list vec) :=
  if (0 <=? off) && (off <=? len a)
  then (emit (Ad off) ;; v <- f (zskip off a) ;; ret (zfirst off a ++ v))%M else undef.
Definition vptr (a : list vec) (off : Z) : M (list vec) :=
  if (0 <=? off) && (off <=? len a) then (emit (Ad off) ;; ret (zskip off a))%M else undef.

(** [__m256i x[n];]: arbitrary contents. *)
Definition vuninit (junk : mem) (tag n : Z) : list vec := ztab n (fun i => lanes (fun k => wrap U16 (junk [tag; i] k))).

(** _mm256_loadu_si256((__m256i const * )(p + off)) for [uint16_t *p]. *)
Definition loadu (a : list Z) (off : Z) : M vec :=
  if (0 <=? off) && (off + 16 <=? len a) then (emit (Rd off) ;; ret (lanes (fun k => wrap U16 (znth 0 a (off + k)))))%M else undef.
(** _mm256_maskstore_epi32((int * )(p + off), m, v) for [uint16_t *p] and a mask [m] of all ones. *)
Definition storeu (a : list Z) (off : Z) (v : vec) : M (list Z) :=
  if (0 <=? off) && (off + 16 <=? len a) then (emit (Wr off) ;; ret (zfirst off a ++ v ++ zskip (off + 16) a))%M else undef.
