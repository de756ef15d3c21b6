(** What an observer of the assembly code sees: the addresses of memory accesses and the outcomes of branches, in order.  The
    functions follow those of Model/Arm.v, which say what the code computes. *)
From Coq Require Import ZArith List Bool.
From Verif Require Import Model.Arm.
Import ListNotations.
Local Open Scope Z_scope.

(** [Access r o n]: an access to [n] bytes at byte offset [o] of region [r]; [Branch b]: a branch taken or not; [Jump k]: a return. *)
Inductive aev := Access (r : positive) (o n : Z) | Branch (b : bool) | Jump (v : val).

Definition tr_at (s : state) (a : adr) (n : Z) : list aev :=
  match address s a with Some (p, o, _) => [Access p o n] | None => [] end.
Fixpoint tr_step (i : instr) (s : state) : list aev :=
  match i with
  | LDR _ a | STR _ a => tr_at s a 4
  | LDRH _ a | STRH _ a => tr_at s a 2
  | PUSH l => match rg s SP with Ptr p o => let n := 4 * Z.of_nat (length l) in [Access p (o - n) n] | _ => [] end
  | POP l => match rg s SP with Ptr p o => [Access p o (4 * Z.of_nat (length l))] | _ => [] end
  | ITLS i => let b := (negb (fc s) || fz s)%bool in Branch b :: if b then tr_step i s else []
  | BX r => [Jump (rg s r)]
  | _ => []
  end.

Section Trace.
  Variable size : positive -> Z.
  Definition tr_then (f : option state) (k : state -> list aev) : list aev := match f with Some s => k s | None => [] end.
  Fixpoint tr_steps (l : list instr) (s : state) : list aev :=
    match l with [] => [] | i :: l => tr_step i s ++ tr_then (step size i s) (tr_steps l) end.
  Fixpoint tr_loop (n : nat) (body : list instr) (s : state) : list aev :=
    match n with
    | O => []
    | S n => tr_steps body s ++ tr_then (steps size body s) (fun s => Branch (negb (fz s)) :: if fz s then [] else tr_loop n body s)
    end.
  Variable scratch : state.
  (** memset reads no memory and writes what it is told to. *)
  Definition tr_memset0 (s : state) : list aev :=
    match rg s R0, rg s R2 with Ptr p o, Int n => [Access p o n] | _, _ => [] end.
  Fixpoint tr_exec (n : nat) (c : list stmt) (s : state) : list aev :=
    match n with
    | O => []
    | S n =>
      (fix go (c : list stmt) (s : state) : list aev :=
         match c with
         | [] => []
         | x :: c =>
           match x with
           | I i => tr_step i s ++ tr_then (step size i s) (go c)
           | Loop b => tr_loop 64 b s ++ tr_then (loop size 64 b s) (go c)
           | Memset => tr_memset0 s ++ tr_then (memset0 size scratch s) (go c)
           | Call f => tr_exec n f (setr s LR (Ret (Z.of_nat n))) ++ tr_then (exec size scratch n f (setr s LR (Ret (Z.of_nat n)))) (go c)
           end
         end) c s
    end.
End Trace.
