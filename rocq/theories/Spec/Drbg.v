(** Specification of the deterministic generators: CTR_DRBG of NIST SP 800-90A (AES-256, no derivation
    function, no additional input), and the counter-mode seed expander.  The block cipher is a parameter. *)
From Coq Require Import ZArith List Lia.
From Verif Require Import Lib.Arr.
From Verif Require Export Spec.Bytes.
Import ListNotations.
Local Open Scope Z_scope.

Definition cdiv (a b : Z) : Z := (a + b - 1) / b.

Section Generators.
  (** [E key block] *)
  Variable E : list Z -> list Z -> list Z.

  (** A state: the key and the counter, a number modulo 2^128. *)
  Definition dstate := (list Z * Z)%type.

  (** Output blocks for counters v+1, v+2, ..., v+m. *)
  Definition blocks (K : list Z) (v m : Z) : list Z := concat (ztab m (fun i => E K (be 16 ((v + 1 + i) mod 2 ^ 128)))).

  (** CTR_DRBG_Update, SP 800-90A 10.2.1.2. *)
  Definition update (s : dstate) (data : list Z) : dstate :=
    let t := blocks (fst s) (snd s) 3 in
    let t := ztab 48 (fun i => Z.lxor (get t i) (get data i)) in
    (zfirst 32 t, be_val (zskip 32 t)).

  (** CTR_DRBG_Generate, 10.2.1.5.1: output and new state. *)
  Definition generate (s : dstate) (n : Z) : list Z * dstate :=
    (zfirst n (blocks (fst s) (snd s) (cdiv n 16)), update (fst s, snd s + cdiv n 16) (zeros 48)).

  (** CTR_DRBG_Instantiate, 10.2.1.3.1, from 48 bytes of entropy and a personalisation string. *)
  Definition instantiate (entropy pers : list Z) : dstate :=
    update (zeros 32, 0) (ztab 48 (fun i => Z.lxor (get entropy i) (get pers i))).

  (** Outputs of a sequence of requests. *)
  Fixpoint generates (s : dstate) (ns : list Z) : list (list Z) * dstate :=
    match ns with
    | [] => ([], s)
    | n :: r => let (o, s1) := generate s n in let (os, s2) := generates s1 r in (o :: os, s2)
    end.

  (** Seed expander: byte [i] of the stream for a seed, a diversifier and the declared maximal length. *)
  Definition xblock (seed div : list Z) (maxlen j : Z) : list Z := E seed (div ++ be 4 maxlen ++ be 4 j).
  Definition xbyte (seed div : list Z) (maxlen i : Z) : Z := get (xblock seed div maxlen (i / 16)) (i mod 16).
  (** Bytes [o], ..., [o+n-1]. *)
  Definition xstream (seed div : list Z) (maxlen o n : Z) : list Z := ztab n (fun i => xbyte seed div maxlen (o + i)).

  (** A sequence of requests [(buffer, length)], a null buffer being [None], when [d] bytes have been delivered: answers
      (buffer and code: 0 served, -2 null buffer, -3 too much) and the number of bytes delivered in the end. *)
  Fixpoint xserve (seed div : list Z) (maxlen d : Z) (reqs : list (option (list Z) * Z)) : list (option (list Z) * Z) * Z :=
    match reqs with
    | [] => ([], d)
    | (None, _) :: r => let (a, e) := xserve seed div maxlen d r in ((None, -2) :: a, e)
    | (Some x, n) :: r =>
        if maxlen - d <=? n then let (a, e) := xserve seed div maxlen d r in ((Some x, -3) :: a, e)
        else let (a, e) := xserve seed div maxlen (d + n) r in ((Some (xstream seed div maxlen d n ++ zskip n x), 0) :: a, e)
    end.
End Generators.

(** ** Vocabulary for histories *)

(** Buffers after a sequence of served requests [(buffer, length)] with outputs [os]. *)
Fixpoint answers (os : list (list Z)) (reqs : list (list Z * Z)) : list (list Z * Z) :=
  match os, reqs with o :: os, (x, n) :: r => (o ++ zskip n x, 0) :: answers os r | _, _ => [] end.
Fixpoint total (ns : list Z) : Z := match ns with [] => 0 | n :: r => n + total r end.
(** Number of bytes served: the lengths of the requests with return value 0. *)
Fixpoint served (ns codes : list Z) : Z :=
  match ns, codes with n :: ns, c :: cs => (if c =? 0 then n else 0) + served ns cs | _, _ => 0 end.
Definition exact_bufs (ns : list Z) : list (option (list Z) * Z) := map (fun n => (Some (zeros n), n)) ns.
Definition payload (r : option (list Z) * Z) : list Z := match fst r with Some x => x | None => [] end.
