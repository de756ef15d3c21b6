(** The polynomial multipliers of the Cortex-M4 implementations: poly_mul.c and the assembly code it calls,
    Cortex-M_Implementation_KEM/Cortex-M4/src/{lightsaber,saber,firesaber}/{m4-tc4kara,m4-striding}; each file is the same text
    for the three parameter sets. *)
From Coq Require Import ZArith List Bool.
From Verif Require Import Lib.Arr Lib.CInt Lib.CMon Model.Params Model.Arm Model.ArmCode Model.ArmTrace.
Import ListNotations.
Local Open Scope Z_scope.

(** ** Calls of assembly functions from C *)

(** Arrays in memory: pairs of a region and an array of 16-bit elements. *)
Fixpoint array (arrs : list (positive * list Z)) (p : positive) : option (list Z) :=
  match arrs with [] => None | (q, a) :: arrs => if Pos.eqb p q then Some a else array arrs p end.
(** Region 4 is the stack. *)
Definition asm_size (stk : Z) (arrs : list (positive * list Z)) (p : positive) : Z :=
  if Pos.eqb p 4 then stk else match array arrs p with Some a => len a | None => 0 end.

(** The state on entry: the arguments in r0 to r3, the stack pointer at the end of a stack with room for [stk] halfwords, the
    return address in lr.  All else (other registers, the contents of the stack) is that of [env]. *)
Definition asm_entry (env : state) (stk : Z) (ret : Z) (r0 r1 r2 r3 : val) (arrs : list (positive * list Z)) : state :=
  State (fun r => match r with R0 => r0 | R1 => r1 | R2 => r2 | R3 => r3 | SP => Ptr 4 (2 * stk) | LR => Ret ret | _ => rg env r end)
    (fun p i => if Pos.eqb p 4 then mm env p i else match array arrs p with Some a => Half (get a i) | None => mm env p i end) (fz env) (fc env).

(** On return: the program counter is the return address; sp and r4 to r11 are what they were. *)
Definition asm_returned (ret : Z) (s s' : state) : bool :=
  (if val_eq_dec (rg s' PC) (Ret ret) then true else false) &&
  forallb (fun r => if val_eq_dec (rg s' r) (rg s r) then true else false) [R4; R5; R6; R7; R8; R9; R10; R11; SP].

(** The contents of an array. *)
Definition asm_array (s : state) (p : positive) (n : Z) : option (list Z) :=
  fold_right (fun i l => l <-? l ;; match mm s p (Z.of_nat i) with Half z => Some (z :: l) | _ => None end) (Some []) (seq 0 (Z.to_nat n)).

(** What the code accesses and where it branches. *)
Definition asm_trace (env scratch : state) (stk : Z) (depth : nat) (code : list stmt) (r0 r1 r2 r3 : val) (arrs : list (positive * list Z)) : list aev :=
  tr_exec (asm_size stk arrs) scratch depth code (asm_entry env stk (Z.of_nat depth) r0 r1 r2 r3 arrs).
(** The same as part of the trace of the C program. *)
Definition asm_event (e : aev) : list event :=
  match e with
  | Access r o n => [Ad (Zpos r); Ad o; Ad n]
  | Branch b => [Br b]
  | Jump (Ret k) => [Ad k]
  | Jump (Int z) => [Ad z]
  | Jump (Ptr r o) => [Ad (Zpos r); Ad o]
  end.
Definition asm_emit (l : list aev) : M unit := fun t => Ok tt (rev (flat_map asm_event l) ++ t).

(** An array of [n] elements of type uint16_t. *)
Definition u16_array (n : Z) (a : list Z) : bool := (len a =? n) && forallb (fun x => (0 <=? x) && (x <? 65536)) a.

(** The call of an assembly function; [depth] is the depth of its calls.  Returns the new contents of the arrays.  Undefined
    if the arrays are not of type uint16_t and of length [n], or if the code faults, does not return to its caller, or does not preserve the
    registers it has to. *)
Definition asm_call (env scratch : state) (stk n : Z) (depth : nat) (code : list stmt) (r0 r1 r2 r3 : val) (arrs : list (positive * list Z))
  : M (list (list Z)) :=
  if negb (forallb (fun p => u16_array n (snd p)) arrs) then undef else
  let s := asm_entry env stk (Z.of_nat depth) r0 r1 r2 r3 arrs in
  match exec (asm_size stk arrs) scratch depth code s with
  | Some s' =>
    if asm_returned (Z.of_nat depth) s s' then
      match fold_right (fun '(p, a) l => l <-? l ;; x <-? asm_array s' p (len a) ;; Some (x :: l)) (Some []) arrs with
      | Some l => CMon.bind (asm_emit (asm_trace env scratch stk depth code r0 r1 r2 r3 arrs)) (fun _ => ret l)
      | None => undef
      end
    else undef
  | None => undef
  end.

Local Open Scope M_scope.

(** ** m4-tc4kara *)

(** The prototype of toom_cook_4way_mem_asm, m4-tc4kara/poly_mul.h; the code is m4-tc4kara/asm_funcs.S:12-350.  The array [a] must come back
    unchanged (callers of poly_mul use it again). *)
Definition toom_cook_4way_mem (env scratch : state) (a b res : list Z) : M (list Z * list Z) :=
  l <- asm_call env scratch 1776 256 3 toom_cook_4way_mem_asm (Ptr 1 0) (Ptr 2 0) (Ptr 3 0) (rg env R3) [(1%positive, a); (2%positive, b); (3%positive, res)] ;;
  match l with
  | [a'; b'; res'] => if list_eq_dec Z.eq_dec a a' then ret (b', res') else undef
  | _ => undef
  end.

(** m4-tc4kara/poly_mul.c:5-19. *)
Definition tc4kara_poly_mul (env scratch : state) (junk : mem) (a b res : list Z) : M (list Z * list Z) :=
  res <- memset res 0 256 ;;
  toom_cook_4way_mem env scratch a b res.

(** m4-tc4kara/poly_mul.c:21-34. *)
Definition tc4kara_poly_mul_acc (env scratch : state) (junk : mem) (a b res : list Z) : M (list Z * list Z) :=
  toom_cook_4way_mem env scratch a b res.

(** ** m4-striding *)

(** The prototype of kara_strd_mem_asm, m4-striding/poly_mul.h:7; the code is m4-striding/kara.s:310-1440. *)
Definition kara_strd_mem (env scratch : state) (a b res extra : list Z) : M (list Z * list Z * list Z * list Z) :=
  l <- asm_call env scratch 30 64 2 kara_strd_mem_asm (Ptr 1 0) (Ptr 2 0) (Ptr 3 0) (Ptr 5 0)
         [(1%positive, a); (2%positive, b); (3%positive, res); (5%positive, extra)] ;;
  match l with
  | [a'; b'; res'; extra'] => ret (a', b', res', extra')
  | _ => undef
  end.

(** The 64 elements at [&a[o]], which an assembly function gets as one of its arrays, and their replacement after the call. *)
Definition window (a : list Z) (o : Z) : list Z := zfirst 64 (zskip o a).
Definition put (a : list Z) (o : Z) (x : list Z) : list Z := zfirst o a ++ x ++ zskip (o + 64) a.

(** Multiplication of type int, which is undefined behaviour on overflow; with [w] it wraps around (as with gcc -fwrapv). *)
Definition imul (w : bool) (x y : cexp) : cexp := if w then Cast I32 (Cast U32 x * Cast U32 y)%C else (x * y)%C.

(** m4-striding/poly_mul.c:60-78, body of the loop. *)
Definition strd_eval_a (a : list Z) (j : Z) (stack : list Z) : M (list Z) :=
  r0 <- asg U16 (Idx U16 a (4 * j)) ;;
  r1 <- asg U16 (Idx U16 a (4 * j + 1)) ;;
  r2 <- asg U16 (Idx U16 a (4 * j + 2)) ;;
  r3 <- asg U16 (Idx U16 a (4 * j + 3)) ;;
  r4 <- asg U16 (r0 + r2)%C ;;
  r5 <- asg U16 (r1 + r3)%C ;;
  r6 <- asg U16 (r4 + r5)%C ;;
  r7 <- asg U16 (r4 - r5)%C ;;
  stack <- st U16 stack (2 * 64 + j) r6 ;;
  stack <- st U16 stack (3 * 64 + j) r7 ;;
  r4 <- asg U16 (((r0 .<< #2) + r2) .<< #1)%C ;;
  r5 <- asg U16 ((r1 .<< #2) + r3)%C ;;
  r6 <- asg U16 (r4 + r5)%C ;;
  r7 <- asg U16 (r4 - r5)%C ;;
  stack <- st U16 stack (4 * 64 + j) r6 ;;
  stack <- st U16 stack (5 * 64 + j) r7 ;;
  r4 <- asg U16 ((r3 .<< #3) + (r2 .<< #2) + (r1 .<< #1) + r0)%C ;;
  stack <- st U16 stack (64 + j) r4 ;;
  stack <- st U16 stack (6 * 64 + j) r0 ;;
  st U16 stack j r3.

(** m4-striding/poly_mul.c:79-97, body of the loop. *)
Definition strd_eval_b (j : Z) (s : list Z * list Z) : M (list Z * list Z) :=
  let '(stack, b) := s in
  r0 <- asg U16 (Idx U16 b (4 * j)) ;;
  r1 <- asg U16 (Idx U16 b (4 * j + 1)) ;;
  r2 <- asg U16 (Idx U16 b (4 * j + 2)) ;;
  r3 <- asg U16 (Idx U16 b (4 * j + 3)) ;;
  r4 <- asg U16 (r0 + r2)%C ;;
  r5 <- asg U16 (r1 + r3)%C ;;
  r6 <- asg U16 (r4 + r5)%C ;;
  r7 <- asg U16 (r4 - r5)%C ;;
  stack <- st U16 stack (8 * 64 + j) r6 ;;
  stack <- st U16 stack (9 * 64 + j) r7 ;;
  r4 <- asg U16 (((r0 .<< #2) + r2) .<< #1)%C ;;
  r5 <- asg U16 ((r1 .<< #2) + r3)%C ;;
  r6 <- asg U16 (r4 + r5)%C ;;
  r7 <- asg U16 (r4 - r5)%C ;;
  stack <- st U16 stack (10 * 64 + j) r6 ;;
  stack <- st U16 stack (11 * 64 + j) r7 ;;
  r4 <- asg U16 ((r3 .<< #3) + (r2 .<< #2) + (r1 .<< #1) + r0)%C ;;
  stack <- st U16 stack (7 * 64 + j) r4 ;;
  stack <- st U16 stack (12 * 64 + j) r0 ;;
  b <- st U16 b j r3 ;;
  ret (stack, b).

(** m4-striding/poly_mul.c:102-106, call [n] of [kara_strd_mem_asm] from the third on. *)
Definition strd_more (env scratch : state) (n : Z) (stack b : list Z) : M (list Z * list Z) :=
  ' (x, y, r, e) <- kara_strd_mem env scratch (window stack (n * 64)) (window stack ((n + 6) * 64)) (window stack ((n + 5) * 64)) (window b 128) ;;
  ret (put (put (put stack (n * 64) x) ((n + 6) * 64) y) ((n + 5) * 64) r, put b 128 e).

(** m4-striding/poly_mul.c:99-106. *)
Definition strd_mult (env scratch : state) (stack b : list Z) : M (list Z * list Z) :=
  ' (x, y, r, e) <- kara_strd_mem env scratch (window stack 0) (window b 0) (window b 64) (window b 128) ;;
  let stack := put stack 0 x in let b := put (put (put b 0 y) 64 r) 128 e in
  ' (x, y, r, e) <- kara_strd_mem env scratch (window stack 64) (window stack (7 * 64)) (window b 0) (window b 128) ;;
  let stack := put (put stack 64 x) (7 * 64) y in let b := put (put b 0 r) 128 e in
  ' (stack, b) <- strd_more env scratch 2 stack b ;;
  ' (stack, b) <- strd_more env scratch 3 stack b ;;
  ' (stack, b) <- strd_more env scratch 4 stack b ;;
  ' (stack, b) <- strd_more env scratch 5 stack b ;;
  strd_more env scratch 6 stack b.

(** m4-striding/poly_mul.c:109-152, body of the loop. *)
Definition strd_interp (w : bool) (stack b : list Z) (i : Z) (s : list Z * (cexp * cexp * cexp)) : M (list Z * (cexp * cexp * cexp)) :=
  let '(res, (r0, r1, r2)) := s in
  r7 <- asg U16 r0 ;;
  r8 <- asg U16 r1 ;;
  r9 <- asg U16 r2 ;;
  r0 <- asg U16 (Idx U16 b (64 + i)) ;;
  r1 <- asg U16 (Idx U16 b i) ;;
  r2 <- asg U16 (Idx U16 stack (7 * 64 + i)) ;;
  r3 <- asg U16 (Idx U16 stack (8 * 64 + i)) ;;
  r4 <- asg U16 (Idx U16 stack (9 * 64 + i)) ;;
  r5 <- asg U16 (Idx U16 stack (10 * 64 + i)) ;;
  r6 <- asg U16 (Idx U16 stack (11 * 64 + i)) ;;
  r1 <- asg U16 (r1 + r4)%C ;;
  r5 <- asg U16 (r5 - r4)%C ;;
  r3 <- asg U16 ((r3 - r2) .>> #1)%C ;;
  r4 <- asg U16 (r4 - r0)%C ;;
  r4 <- asg U16 (r4 - (r6 .<< #6))%C ;;
  r4 <- asg U16 ((r4 .<< #1) + r5)%C ;;
  r2 <- asg U16 (r2 + r3)%C ;;
  r1 <- asg U16 (r1 - (r2 .<< #6) - r2)%C ;;
  r2 <- asg U16 (r2 - r6)%C ;;
  r2 <- asg U16 (r2 - r0)%C ;;
  r1 <- asg U16 (r1 + #45 * r2)%C ;;
  r4 <- asg U16 (imul w (r4 - (r2 .<< #3))%C #43691 .>> #3)%C ;;
  r5 <- asg U16 (r5 + r1)%C ;;
  r1 <- asg U16 (imul w (r1 + (r3 .<< #4))%C #36409 .>> #1)%C ;;
  r3 <- asg U16 (Neg (r3 + r1))%C ;;
  r5 <- asg U16 (imul w (#30 * r1 - r5)%C #61167 .>> #2)%C ;;
  r2 <- asg U16 (r2 - r4)%C ;;
  r1 <- asg U16 (r1 - r5)%C ;;
  res <- st U16 res (3 + 4 * i) (Idx U16 res (3 + 4 * i) + r3)%C ;;
  res <- ite (i =? 0)
    (res <- st U16 res (0 + 4 * i) (Idx U16 res (0 + 4 * i) + r6)%C ;;
     res <- st U16 res (1 + 4 * i) (Idx U16 res (1 + 4 * i) + r5)%C ;;
     st U16 res (2 + 4 * i) (Idx U16 res (2 + 4 * i) + r4)%C)
    (res <- st U16 res (0 + 4 * i) (Idx U16 res (0 + 4 * i) + (r6 + r9))%C ;;
     res <- st U16 res (1 + 4 * i) (Idx U16 res (1 + 4 * i) + (r5 + r8))%C ;;
     st U16 res (2 + 4 * i) (Idx U16 res (2 + 4 * i) + (r4 + r7))%C) ;;
  ret (res, (r0, r1, r2)).

(** m4-striding/poly_mul.c:47-156.  Before the last loop r0 to r2 have values of the second loop, which are not used: they are arbitrary here. *)
Definition toom_cook_4way_striding (w : bool) (env scratch : state) (junk : mem) (a b res : list Z) : M (list Z * list Z) :=
  let stack := ztab (13 * 64) (fun i => wrap U16 (junk [1] i)) in
  let r k := Var U16 (wrap U16 (junk [2] k)) in
  stack <- for_ 0 64 (strd_eval_a a) stack ;;
  ' (stack, b) <- for_ 0 64 strd_eval_b (stack, b) ;;
  ' (stack, b) <- strd_mult env scratch stack b ;;
  ' (res, (r0, r1, r2)) <- for_ 0 64 (strd_interp w stack b) (res, (r 0, r 1, r 2)) ;;
  res <- st U16 res 0 (Idx U16 res 0 - r2)%C ;;
  res <- st U16 res 1 (Idx U16 res 1 - r1)%C ;;
  res <- st U16 res 2 (Idx U16 res 2 - r0)%C ;;
  ret (b, res).

(** m4-striding/poly_mul.c:12-29. *)
Definition striding_poly_mul (w : bool) (env scratch : state) (junk : mem) (a b res : list Z) : M (list Z * list Z) :=
  res <- memset res 0 256 ;;
  toom_cook_4way_striding w env scratch junk a b res.

(** m4-striding/poly_mul.c:31-45. *)
Definition striding_poly_mul_acc (w : bool) (env scratch : state) (junk : mem) (a b res : list Z) : M (list Z * list Z) :=
  toom_cook_4way_striding w env scratch junk a b res.
