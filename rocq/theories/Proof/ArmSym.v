(** Symbolic execution of assembly code.  Halfwords are polynomials in the inputs with a number of bits up to which they
    are known; the polynomials are sums of terms [c * x_i * y_j] (at most one factor of each of two families of variables). *)
From Coq Require Import ZArith List Bool FMapPositive.
From Verif Require Import Model.Arm.
Import ListNotations.
Local Open Scope Z_scope.

(** ** Polynomials *)
Definition poly := list (Z * Z * Z).

Definition kcmp (x y x' y' : Z) : comparison := match x ?= x' with Eq => y ?= y' | o => o end.

Fixpoint padd (p q : poly) : poly :=
  match p with
  | [] => q
  | (x, y, c) :: p' =>
    (fix aux (q : poly) : poly :=
       match q with
       | [] => p
       | (x', y', c') :: q' =>
         match kcmp x y x' y' with
         | Lt => (x, y, c) :: padd p' q
         | Eq => let s := c + c' in if s =? 0 then padd p' q' else (x, y, s) :: padd p' q'
         | Gt => (x', y', c') :: aux q'
         end
       end) q
  end.

Fixpoint pscale (c : Z) (p : poly) : poly :=
  match p with [] => [] | (x, y, d) :: p => (x, y, c * d) :: pscale c p end.

(** The product with one term; [None] if a variable family would occur twice. *)
Fixpoint pterm (x y c : Z) (p : poly) : option poly :=
  match p with
  | [] => Some []
  | (x', y', c') :: p =>
    if (((x =? 0) || (x' =? 0)) && ((y =? 0) || (y' =? 0)))%bool
    then q <-? pterm x y c p ;; Some ((x + x', y + y', c * c') :: q) else None
  end.
Fixpoint pmul (p q : poly) : option poly :=
  match p with
  | [] => Some []
  | (x, y, c) :: p => a <-? pterm x y c q ;; b <-? pmul p q ;; Some (padd a b)
  end.

Definition pconst (c : Z) : poly := if c =? 0 then [] else [(0, 0, c)].

Fixpoint pdivs (n : Z) (p : poly) : bool :=
  match p with [] => true | (_, _, c) :: p => if c mod n =? 0 then pdivs n p else false end.
Fixpoint pdiv (n : Z) (p : poly) : poly :=
  match p with [] => [] | (x, y, c) :: p => (x, y, c / n) :: pdiv n p end.
(** Coefficients reduced modulo [n]. *)
Fixpoint pnorm (n : Z) (p : poly) : poly :=
  match p with [] => [] | (x, y, c) :: p => let c := c mod n in if c =? 0 then pnorm n p else (x, y, c) :: pnorm n p end.
Definition peqb (k : Z) (p q : poly) : bool := pdivs (2 ^ k) (padd p (pscale (-1) q)).

(** ** Halfwords, values, states *)
Definition ah := (Z * poly)%type.
Definition htop : ah := (0, []).
Definition hconst (c : Z) : ah := (16, pconst c).
Definition hlift (f : poly -> poly -> option poly) (a b : ah) : ah :=
  let '(k, p) := a in let '(k', q) := b in
  if (k =? 0) || (k' =? 0) then htop else match f p q with Some r => (Z.min k k', r) | None => htop end.
Definition hadd := hlift (fun p q => Some (padd p q)).
Definition hsub := hlift (fun p q => Some (padd p (pscale (-1) q))).
(** The largest k <= n with 2^k dividing c. *)
Fixpoint v2 (n : nat) (c : Z) : Z := match n with O => 0 | S n => if c mod 2 =? 0 then 1 + v2 n (c / 2) else 0 end.
Definition hscale (c : Z) (a : ah) : ah := (Z.min 16 (fst a + v2 16 c), pscale c (snd a)).
Definition hmul (a b : ah) : ah :=
  match a, b with
  | a, (16, [(0, 0, c)]) | (16, [(0, 0, c)]), a => hscale c a
  | a, b => hlift pmul a b
  end.
Definition hshr (n : Z) (a : ah) : ah :=
  let '(k, p) := a in
  if n <=? k then if pdivs (2 ^ n) p then (k - n, pnorm (2 ^ (k - n)) (pdiv (2 ^ n) p)) else htop else htop.
Definition hmask (w : Z) (a : ah) : ah := (Z.min (fst a) w, snd a).

Inductive aval := AH (l h : ah) | AC (z : Z) | AP (r : positive) (o : Z) | AR (k : Z) | AO (r : reg) | AT.
Inductive acell := CH (h : ah) | CP (a : aval) (top : bool) | CT.

Record astate := AState { ar : PositiveMap.t aval; am : PositiveMap.t acell; af : option (bool * bool) }.

Definition rkey (r : reg) : positive :=
  match r with R0 => 1 | R1 => 2 | R2 => 3 | R3 => 4 | R4 => 5 | R5 => 6 | R6 => 7 | R7 => 8 | R8 => 9 | R9 => 10 | R10 => 11
  | R11 => 12 | R12 => 13 | SP => 14 | LR => 15 | PC => 16 end.
Definition aget (s : astate) (r : reg) : aval := match PositiveMap.find (rkey r) (ar s) with Some a => a | None => AT end.
Definition aset (s : astate) (r : reg) (a : aval) : astate := AState (PositiveMap.add (rkey r) a (ar s)) (am s) (af s).
Definition mkey (r : positive) (i : Z) : positive := Z.to_pos (8 * i + Zpos r).
Definition mget (s : astate) (r : positive) (i : Z) : option acell := PositiveMap.find (mkey r i) (am s).
Definition mset (s : astate) (r : positive) (i : Z) (c : acell) : astate := AState (ar s) (PositiveMap.add (mkey r i) c (am s)) (af s).

Definition halves (a : aval) : option (ah * ah) :=
  match a with AH l h => Some (l, h) | AC z => Some (hconst (lo z), hconst (hi z)) | _ => None end.

Definition a_op2 (s : astate) (x : op2) : option aval :=
  match x with
  | Imm n => Some (AC (u32 n))
  | Rg r => Some (aget s r)
  | Lsl r n =>
    match aget s r with
    | AC z => if 0 <=? n then Some (AC (shift x z)) else None
    | a => '(l, h) <-? halves a ;;
           if n =? 16 then Some (AH (hconst 0) l) else if (0 <=? n) && (n <? 16) then Some (AH (hscale (2 ^ n) l) htop) else None
    end
  | Lsr r n =>
    '(l, h) <-? halves (aget s r) ;;
    if n =? 16 then Some (AH h (hconst 0)) else if (0 <=? n) && (n <? 16) then Some (AH (hshr n l) (hshr n h)) else None
  | Asr r n =>
    '(l, h) <-? halves (aget s r) ;;
    if 16 <=? n then Some (AH (hshr (n - 16) h) htop) else None
  end.

Definition a_add (a b : aval) : option aval :=
  match a, b with
  | AC x, AC y => Some (AC (u32 (x + y)))
  | AP r o, AC y => Some (AP r (o + y))
  | _, _ => '(l, _) <-? halves a ;; '(l', _) <-? halves b ;; Some (AH (hadd l l') htop)
  end.
Definition a_sub (a b : aval) : option aval :=
  match a, b with
  | AC x, AC y => Some (AC (u32 (x - y)))
  | AP r o, AC y => Some (AP r (o - y))
  | _, _ => '(l, _) <-? halves a ;; '(l', _) <-? halves b ;; Some (AH (hsub l l') htop)
  end.
Definition a_cmp (a b : aval) : option (bool * bool) :=
  match a, b with
  | AC x, AC y => Some (x =? y, y <=? x)
  | AP r x, AP r' y => if Pos.eqb r r' then Some (x =? y, y <=? x) else None
  | _, _ => None
  end.

Definition aval_eqb (a b : aval) : bool :=
  match a, b with
  | AP r o, AP r' o' => Pos.eqb r r' && (o =? o')
  | AR k, AR k' => k =? k'
  | AO r, AO r' => if reg_eq_dec r r' then true else false
  | _, _ => false
  end.
Definition a_split (a : aval) (top : bool) : acell :=
  match a with
  | AH l h => CH (if top then h else l)
  | AC z => CH (hconst (if top then hi z else lo z))
  | AT => CT
  | a => CP a top
  end.
Definition a_join (c0 c1 : option acell) : option aval :=
  match c0, c1 with
  | Some (CH l), Some (CH h) => Some (AH l h)
  | Some (CP a false), Some (CP b true) => if aval_eqb a b then Some a else None
  | _, _ => None
  end.

Definition hsel (top : bool) (h : ah * ah) : ah := if top then snd h else fst h.

Section Sym.
  Variable size : positive -> Z.

  Definition aindex (s : astate) (r : positive) (o n : Z) : option Z :=
    if ((0 <=? o) && (o mod 2 =? 0) && (o / 2 + n <=? size r) && (Zpos r <? 8) &&
        match aget s SP with AP q b => Pos.eqb q 4 && (0 <=? b) && (b <=? 2 * size 4) && (negb (Pos.eqb r 4) || (b <=? o)) | _ => false end)%bool
    then Some (o / 2) else None.
  Definition aaddress (s : astate) (a : adr) : option (positive * Z * astate) :=
    match a with
    | Off r n => match aget s r with AP p o => Some (p, o + n, s) | _ => None end
    | Pre r n => match aget s r with AP p o => Some (p, o + n, aset s r (AP p (o + n))) | _ => None end
    | Post r n => match aget s r with AP p o => Some (p, o, aset s r (AP p (o + n))) | _ => None end
    end.
  Definition aload (s : astate) (p : positive) (o : Z) : option aval :=
    i <-? aindex s p o 2 ;; a_join (mget s p i) (mget s p (i + 1)).
  Definition astore (s : astate) (p : positive) (o : Z) (v : aval) : option astate :=
    i <-? aindex s p o 2 ;; Some (mset (mset s p i (a_split v false)) p (i + 1) (a_split v true)).
  Fixpoint apush (s : astate) (p : positive) (o : Z) (l : list reg) : option astate :=
    match l with
    | [] => Some s
    | r :: l => s' <-? astore s p o (aget s r) ;; apush s' p (o + 4) l
    end.
  Fixpoint apop (s : astate) (p : positive) (o : Z) (l : list reg) : option astate :=
    match l with
    | [] => Some s
    | r :: l => v <-? aload s p o ;; apop (aset s r v) p (o + 4) l
    end.

  Fixpoint astep (i : instr) (s : astate) : option astate :=
    match i with
    | LDR t a => '(p, o, s') <-? aaddress s a ;; v <-? aload s p o ;; Some (aset s' t v)
    | LDRH t a => '(p, o, s') <-? aaddress s a ;; i <-? aindex s p o 1 ;;
        match mget s p i with Some (CH h) => Some (aset s' t (AH h (hconst 0))) | _ => None end
    | STR t a => '(p, o, s') <-? aaddress s a ;; astore s' p o (aget s t)
    | STRH t a => '(p, o, s') <-? aaddress s a ;; i <-? aindex s' p o 1 ;; '(l, _) <-? halves (aget s t) ;; Some (mset s' p i (CH l))
    | PUSH l => match aget s SP with
        | AP p o => let o' := o - 4 * Z.of_nat (length l) in apush (aset s SP (AP p o')) p o' l
        | _ => None end
    | POP l => match aget s SP with
        | AP p o => s' <-? apop s p o l ;; Some (aset s' SP (AP p (o + 4 * Z.of_nat (length l))))
        | _ => None end
    | MOV d x => v <-? a_op2 s x ;; Some (aset s d v)
    | MOVT d n => '(l, _) <-? halves (aget s d) ;; if (0 <=? n) && (n <? 65536) then Some (aset s d (AH l (hconst n))) else None
    | ADD d n x => w <-? a_op2 s x ;; v <-? a_add (aget s n) w ;; Some (aset s d v)
    | SUB d n x => w <-? a_op2 s x ;; v <-? a_sub (aget s n) w ;; Some (aset s d v)
    | AND d n x => '(l, h) <-? halves (aget s n) ;;
        match a_op2 s x with Some (AC z) => if z =? 8191 * 65537 then Some (aset s d (AH (hmask 13 l) (hmask 13 h))) else None | _ => None end
    | UBFX d n lsb w => '(l, _) <-? halves (aget s n) ;;
        if (lsb =? 0) && (w =? 13) then Some (aset s d (AH (hmask 13 l) (hconst 0))) else None
    | UADD16 d n m => '(l, h) <-? halves (aget s n) ;; '(l', h') <-? halves (aget s m) ;; Some (aset s d (AH (hadd l l') (hadd h h')))
    | USUB16 d n m => '(l, h) <-? halves (aget s n) ;; '(l', h') <-? halves (aget s m) ;; Some (aset s d (AH (hsub l l') (hsub h h')))
    | PKHBT d n m k => '(l, h) <-? halves (aget s n) ;; '(l', h') <-? halves (aget s m) ;;
        if k =? 0 then Some (aset s d (AH l h'))
        else if (16 <=? k) && (k <? 32) then Some (aset s d (AH l (hscale (2 ^ (k - 16)) l'))) else None
    | PKHTB d n m k => '(l, h) <-? halves (aget s n) ;; '(l', h') <-? halves (aget s m) ;;
        if k =? 0 then Some (aset s d (AH l' h)) else if 16 <=? k then Some (aset s d (AH (hshr (k - 16) h') h)) else None
    | SMUL tn tm d n m => a <-? halves (aget s n) ;; b <-? halves (aget s m) ;;
        Some (aset s d (AH (hmul (hsel tn a) (hsel tm b)) htop))
    | SMLA tn tm d n m r => a <-? halves (aget s n) ;; b <-? halves (aget s m) ;; c <-? halves (aget s r) ;;
        Some (aset s d (AH (hadd (hmul (hsel tn a) (hsel tm b)) (fst c)) htop))
    | SMUAD x d n m => a <-? halves (aget s n) ;; b <-? halves (aget s m) ;;
        Some (aset s d (AH (hadd (hmul (fst a) (hsel x b)) (hmul (snd a) (hsel (negb x) b))) htop))
    | SMLAD x d n m r => a <-? halves (aget s n) ;; b <-? halves (aget s m) ;; c <-? halves (aget s r) ;;
        Some (aset s d (AH (hadd (hadd (hmul (fst a) (hsel x b)) (hmul (snd a) (hsel (negb x) b))) (fst c)) htop))
    | CMP n x => w <-? a_op2 s x ;; f <-? a_cmp (aget s n) w ;; Some (AState (ar s) (am s) (Some f))
    | ITLS i => match af s with Some (z, c) => if negb c || z then astep i s else Some s | None => None end
    | BX r => match aget s r with AR k => Some (aset s PC (AR k)) | _ => None end
    end.

  Fixpoint asteps (l : list instr) (s : astate) : option astate :=
    match l with [] => Some s | i :: l => s <-? astep i s ;; asteps l s end.
  Fixpoint aloop (n : nat) (body : list instr) (s : astate) : option astate :=
    match n with
    | O => None
    | S n => s <-? asteps body s ;; match af s with Some (z, _) => if z then Some s else aloop n body s | None => None end
    end.

  Fixpoint afill (n : nat) (p : positive) (i : Z) (c : Z -> acell) (s : astate) : astate :=
    match n with O => s | S n => afill n p (i + 1) c (mset s p i (c i)) end.
  Definition amemset0 (s : astate) : option astate :=
    match aget s R0, aget s R1, aget s R2 with
    | AP p o, AC 0, AC n =>
      if (n mod 2 =? 0) && (0 <? n) then
        i <-? aindex s p o (n / 2) ;;
        let s := afill (Z.to_nat (n / 2)) p i (fun _ => CH (hconst 0)) s in
        let s := aset (aset (aset (aset (aset (aset s R1 AT) R2 AT) R3 AT) R12 AT) LR AT) PC AT in
        Some (AState (ar s) (am s) None)
      else None
    | _, _, _ => None
    end.

  (** Code, given what its calls do. *)
  Fixpoint arun (call : list stmt -> astate -> option astate) (c : list stmt) (s : astate) : option astate :=
    match c with
    | [] => Some s
    | x :: c =>
      s <-? match x with I i => astep i s | Loop b => aloop 64 b s | Memset => amemset0 s | Call f => call f s end ;;
      arun call c s
    end.
  Definition acall (exec : list stmt -> astate -> option astate) (n : nat) (f : list stmt) (s : astate) : option astate :=
    s <-? exec f (aset s LR (AR (Z.of_nat n))) ;;
    match aget s PC with AR k => if k =? Z.of_nat n then Some s else None | _ => None end.
  Fixpoint aexec (n : nat) : list stmt -> astate -> option astate :=
    match n with O => fun _ _ => None | S n => arun (acall (aexec n) n) end.
End Sym.
