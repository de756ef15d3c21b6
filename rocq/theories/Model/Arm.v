(** The instructions of ARMv7E-M used by the assembly multipliers of the Cortex-M4 code.

    Simplifications.  Memory is a set of regions (the arrays of the caller and the stack), each an array of halfwords; a
    pointer is a region and a byte offset.  Accesses must be at even offsets inside the region; the processor also
    supports word accesses at offsets that are not a multiple of four.  The stack below the stack pointer must not be accessed.  A word that is not a number (a pointer or a return
    address) can be stored and loaded back as a whole only.  Control flow is structured: a label with a conditional
    branch back to it is a [Loop], a branch with link is a [Call] of the callee's code, which must end with the return address in
    the program counter.  Of the flags only Z and C are kept, as [CMP] is the only instruction that sets flags. *)
From Coq Require Import ZArith List Bool.
Import ListNotations.
Local Open Scope Z_scope.

Inductive reg := R0 | R1 | R2 | R3 | R4 | R5 | R6 | R7 | R8 | R9 | R10 | R11 | R12 | SP | LR | PC.
Definition reg_eq_dec (a b : reg) : {a = b} + {a <> b}. Proof. decide equality. Defined.

(** The contents of a register: a 32-bit number, a pointer, or the return address of a call. *)
Inductive val := Int (z : Z) | Ptr (r : positive) (o : Z) | Ret (k : Z).
Definition val_eq_dec (a b : val) : {a = b} + {a <> b}.
Proof. decide equality; first [apply Z.eq_dec | apply Pos.eq_dec]. Defined.
(** The contents of a halfword of memory: a number or one half of a word that is not a number. *)
Inductive cell := Half (z : Z) | Part (v : val) (top : bool).

Record state := State { rg : reg -> val; mm : positive -> Z -> cell; fz : bool; fc : bool }.

(** Registers are 32 bits wide. *)
Definition regs_ok (s : state) : Prop := forall r z, rg s r = Int z -> 0 <= z < 4294967296.

Definition lo (z : Z) : Z := z mod 65536.
Definition hi (z : Z) : Z := z / 65536 mod 65536.
Definition pk (l h : Z) : Z := l + 65536 * h.
Definition u32 (z : Z) : Z := z mod 4294967296.
Definition s32 (z : Z) : Z := if z <? 2147483648 then z else z - 4294967296.
Definition s16 (z : Z) : Z := if z <? 32768 then z else z - 65536.

Definition setr (s : state) (r : reg) (v : val) : state :=
  State (fun x => if reg_eq_dec x r then v else rg s x) (mm s) (fz s) (fc s).
Definition setm (s : state) (r : positive) (i : Z) (c : cell) : state :=
  State (rg s) (fun x j => if (Pos.eqb x r && (j =? i))%bool then c else mm s x j) (fz s) (fc s).

Definition split (v : val) (top : bool) : cell :=
  match v with Int z => Half (if top then hi z else lo z) | _ => Part v top end.
Definition join (c0 c1 : cell) : option val :=
  match c0, c1 with
  | Half a, Half b => Some (Int (pk a b))
  | Part v false, Part w true => if val_eq_dec v w then Some v else None
  | _, _ => None
  end.

(** The second operand of data-processing instructions. *)
Inductive op2 := Imm (z : Z) | Rg (r : reg) | Lsl (r : reg) (n : Z) | Lsr (r : reg) (n : Z) | Asr (r : reg) (n : Z).
(** Addressing modes [rn, #n], [rn, #n]! and [rn], #n. *)
Inductive adr := Off (r : reg) (n : Z) | Pre (r : reg) (n : Z) | Post (r : reg) (n : Z).

Inductive instr :=
| LDR (t : reg) (a : adr) | LDRH (t : reg) (a : adr) | STR (t : reg) (a : adr) | STRH (t : reg) (a : adr)
| PUSH (l : list reg) | POP (l : list reg)
| MOV (d : reg) (x : op2) | MOVT (d : reg) (n : Z)
| ADD (d n : reg) (x : op2) | SUB (d n : reg) (x : op2) | AND (d n : reg) (x : op2)
| UBFX (d n : reg) (lsb w : Z)
| UADD16 (d n m : reg) | USUB16 (d n m : reg)
| PKHBT (d n m : reg) (s : Z) | PKHTB (d n m : reg) (s : Z)
| SMUL (tn tm : bool) (d n m : reg) | SMLA (tn tm : bool) (d n m a : reg)
| SMUAD (x : bool) (d n m : reg) | SMLAD (x : bool) (d n m a : reg)
| CMP (n : reg) (x : op2)
| ITLS (i : instr)
| BX (r : reg).

Definition bind {A B} (m : option A) (f : A -> option B) : option B := match m with Some a => f a | None => None end.
Notation "x <-? m ;; f" := (bind m (fun x => f)) (at level 61, m at next level, right associativity).
Notation "' p <-? m ;; f" := (bind m (fun x => match x with p => f end))
  (at level 61, p pattern, m at next level, right associativity).

Definition int_of (v : val) : option Z := match v with Int z => Some z | _ => None end.
(** A register holding a number. *)
Definition num (s : state) (r : reg) : option Z := int_of (rg s r).

Definition shift (x : op2) (z : Z) : Z :=
  match x with
  | Imm n => n
  | Rg _ => z
  | Lsl _ n => u32 (z * 2 ^ n)
  | Lsr _ n => z / 2 ^ n
  | Asr _ n => u32 (s32 z / 2 ^ n)
  end.
Definition ev_op2 (s : state) (x : op2) : option val :=
  match x with
  | Imm n => Some (Int (u32 n))
  | Rg r => Some (rg s r)
  | Lsl r _ | Lsr r _ | Asr r _ => z <-? num s r ;; Some (Int (shift x z))
  end.
Definition num2 (s : state) (x : op2) : option Z := v <-? ev_op2 s x ;; int_of v.

(** Sum and difference: of numbers, or of a pointer and a number. *)
Definition add_val (v w : val) : option val :=
  match v, w with
  | Int a, Int b => Some (Int (u32 (a + b)))
  | Ptr r o, Int b => Some (Ptr r (o + b))
  | _, _ => None
  end.
Definition sub_val (v w : val) : option val :=
  match v, w with
  | Int a, Int b => Some (Int (u32 (a - b)))
  | Ptr r o, Int b => Some (Ptr r (o - b))
  | _, _ => None
  end.
(** The flags Z and C of a comparison: of numbers, or of pointers into one region. *)
Definition cmp_val (v w : val) : option (bool * bool) :=
  match v, w with
  | Int a, Int b => Some (a =? b, b <=? a)
  | Ptr r a, Ptr r' b => if Pos.eqb r r' then Some (a =? b, b <=? a) else None
  | _, _ => None
  end.

Definition half (top : bool) (z : Z) : Z := if top then hi z else lo z.

Section Arm.
  (** The number of halfwords of each region. *)
  Variable size : positive -> Z.

  (** The index of the first of [n] halfwords at byte offset [o]. *)
  Definition index (s : state) (r : positive) (o n : Z) : option Z :=
    if ((0 <=? o) && (o mod 2 =? 0) && (o / 2 + n <=? size r) &&
        match rg s SP with Ptr q b => negb (Pos.eqb r q) || (b <=? o) | _ => false end)%bool
    then Some (o / 2) else None.

  (** The address of an access and the state after the change of the base register. *)
  Definition address (s : state) (a : adr) : option (positive * Z * state) :=
    match a with
    | Off r n => match rg s r with Ptr p o => Some (p, o + n, s) | _ => None end
    | Pre r n => match rg s r with Ptr p o => Some (p, o + n, setr s r (Ptr p (o + n))) | _ => None end
    | Post r n => match rg s r with Ptr p o => Some (p, o, setr s r (Ptr p (o + n))) | _ => None end
    end.

  Definition load (s : state) (p : positive) (o : Z) : option val :=
    i <-? index s p o 2 ;; join (mm s p i) (mm s p (i + 1)).
  Definition store (s : state) (p : positive) (o : Z) (v : val) : option state :=
    i <-? index s p o 2 ;; Some (setm (setm s p i (split v false)) p (i + 1) (split v true)).

  Fixpoint push (s : state) (p : positive) (o : Z) (l : list reg) : option state :=
    match l with
    | [] => Some s
    | r :: l => s' <-? store s p o (rg s r) ;; push s' p (o + 4) l
    end.
  Fixpoint pop (s : state) (p : positive) (o : Z) (l : list reg) : option state :=
    match l with
    | [] => Some s
    | r :: l => v <-? load s p o ;; pop (setr s r v) p (o + 4) l
    end.

  Fixpoint step (i : instr) (s : state) : option state :=
    match i with
    | LDR t a => '(p, o, s') <-? address s a ;; v <-? load s p o ;; Some (setr s' t v)
    | LDRH t a => '(p, o, s') <-? address s a ;; i <-? index s p o 1 ;;
        match mm s p i with Half z => Some (setr s' t (Int z)) | _ => None end
    | STR t a => '(p, o, s') <-? address s a ;; store s' p o (rg s t)
    | STRH t a => '(p, o, s') <-? address s a ;; i <-? index s' p o 1 ;; z <-? num s t ;; Some (setm s' p i (Half (lo z)))
    | PUSH l => match rg s SP with
        | Ptr p o => let o' := o - 4 * Z.of_nat (length l) in push (setr s SP (Ptr p o')) p o' l
        | _ => None end
    | POP l => match rg s SP with
        | Ptr p o => s' <-? pop s p o l ;; Some (setr s' SP (Ptr p (o + 4 * Z.of_nat (length l))))
        | _ => None end
    | MOV d x => v <-? ev_op2 s x ;; Some (setr s d v)
    | MOVT d n => z <-? num s d ;; Some (setr s d (Int (pk (lo z) n)))
    | ADD d n x => w <-? ev_op2 s x ;; v <-? add_val (rg s n) w ;; Some (setr s d v)
    | SUB d n x => w <-? ev_op2 s x ;; v <-? sub_val (rg s n) w ;; Some (setr s d v)
    | AND d n x => a <-? num s n ;; b <-? num2 s x ;; Some (setr s d (Int (Z.land a b)))
    | UBFX d n lsb w => a <-? num s n ;; Some (setr s d (Int (a / 2 ^ lsb mod 2 ^ w)))
    | UADD16 d n m => a <-? num s n ;; b <-? num s m ;;
        Some (setr s d (Int (pk (lo (lo a + lo b)) (lo (hi a + hi b)))))
    | USUB16 d n m => a <-? num s n ;; b <-? num s m ;;
        Some (setr s d (Int (pk (lo (lo a - lo b)) (lo (hi a - hi b)))))
    | PKHBT d n m k => a <-? num s n ;; b <-? num s m ;;
        Some (setr s d (Int (pk (lo a) (hi (shift (Lsl m k) b)))))
    | PKHTB d n m k => a <-? num s n ;; b <-? num s m ;;
        Some (setr s d (Int (pk (lo (shift (Asr m k) b)) (hi a))))
    | SMUL tn tm d n m => a <-? num s n ;; b <-? num s m ;;
        Some (setr s d (Int (u32 (s16 (half tn a) * s16 (half tm b)))))
    | SMLA tn tm d n m r => a <-? num s n ;; b <-? num s m ;; c <-? num s r ;;
        Some (setr s d (Int (u32 (s16 (half tn a) * s16 (half tm b) + c))))
    | SMUAD x d n m => a <-? num s n ;; b <-? num s m ;;
        Some (setr s d (Int (u32 (s16 (lo a) * s16 (half x b) + s16 (hi a) * s16 (half (negb x) b)))))
    | SMLAD x d n m r => a <-? num s n ;; b <-? num s m ;; c <-? num s r ;;
        Some (setr s d (Int (u32 (s16 (lo a) * s16 (half x b) + s16 (hi a) * s16 (half (negb x) b) + c))))
    | CMP n x => w <-? ev_op2 s x ;; '(z, c) <-? cmp_val (rg s n) w ;; Some (State (rg s) (mm s) z c)
    | ITLS i => if (negb (fc s) || fz s)%bool then step i s else Some s
    | BX r => match rg s r with Ret k => Some (setr s PC (Ret k)) | _ => None end
    end.

  Fixpoint steps (l : list instr) (s : state) : option state :=
    match l with [] => Some s | i :: l => s <-? step i s ;; steps l s end.

  (** [lbl: body; bne lbl], at most [n] times. *)
  Fixpoint loop (n : nat) (body : list instr) (s : state) : option state :=
    match n with
    | O => None
    | S n => s <-? steps body s ;; if fz s then Some s else loop n body s
    end.
End Arm.

(** [Memset]: the call of the C function memset(r0, r1, r2). *)
Inductive stmt := I (i : instr) | Loop (body : list instr) | Call (f : list stmt) | Memset.

Section Exec.
  Variable size : positive -> Z.
  (** What a call of a C function leaves in the registers and flags it need not preserve. *)
  Variable scratch : state.

  (** memset with an even number of bytes and value 0, assumed not to use the stack. *)
  Definition memset0 (s : state) : option state :=
    match rg s R0, rg s R1, rg s R2 with
    | Ptr p o, Int 0, Int n =>
        if (n mod 2 =? 0)%bool then
          i <-? index size s p o (n / 2) ;;
          Some (State (fun r => match r with R1 | R2 | R3 | R12 | LR | PC => rg scratch r | _ => rg s r end)
                  (fun x j => if (Pos.eqb x p && (i <=? j) && (j <? i + n / 2))%bool then Half 0 else mm s x j) (fz scratch) (fc scratch))
        else None
    | _, _, _ => None
    end.

  (** [n] bounds the depth of calls; no loop of the code goes around more than 64 times. *)
  Fixpoint exec (n : nat) (c : list stmt) (s : state) : option state :=
    match n with
    | O => None
    | S n =>
      (fix go (c : list stmt) (s : state) : option state :=
         match c with
         | [] => Some s
         | x :: c =>
           s <-? match x with
                 | I i => step size i s
                 | Loop b => loop size 64 b s
                 | Memset => memset0 s
                 | Call f => s <-? exec n f (setr s LR (Ret (Z.of_nat n))) ;;
                             if val_eq_dec (rg s PC) (Ret (Z.of_nat n)) then Some s else None
                 end ;;
           go c s
         end) c s
    end.
End Exec.
