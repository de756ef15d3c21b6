(** Specification of AES-256 (FIPS 197) and of its counter-mode key stream.
    A state is a list of 16 bytes: s[r,c] of the standard is element r + 4c. *)
From Coq Require Import ZArith List.
From Verif Require Import Lib.Arr.
From Verif Require Export Spec.Bytes.
Import ListNotations.
Local Open Scope Z_scope.

(** ** GF(2^8) modulo x^8 + x^4 + x^3 + x + 1 (section 4) *)
Definition xtime (a : Z) : Z := let b := 2 * a in if b <? 256 then b else Z.lxor b 0x11b.
Fixpoint gmuln (n : nat) (a b : Z) : Z :=
  match n with O => 0 | S k => Z.lxor (if Z.odd b then a else 0) (gmuln k (xtime a) (b / 2)) end.
Definition gmul (a b : Z) : Z := gmuln 8 a b.
(** a^254 = a^2 a^4 a^8 ... a^128: the inverse of a, and 0 for 0. *)
Fixpoint gsqs (n : nat) (a : Z) : Z := match n with O => 1 | S k => let s := gmul a a in gmul s (gsqs k s) end.
Definition ginv (a : Z) : Z := gsqs 7 a.

(** ** S-box (5.1.1): the inverse followed by the affine map *)
Definition of_bits (n : Z) (f : Z -> bool) : Z := fold_right (fun i acc => acc + Z.b2z (f i) * 2 ^ i) 0 (ztab n (fun i => i)).
Definition affine (b : Z) : Z :=
  let B i := Z.testbit b (i mod 8) in
  of_bits 8 (fun i => xorb (B i) (xorb (B (i + 4)) (xorb (B (i + 5)) (xorb (B (i + 6)) (xorb (B (i + 7)) (Z.testbit 0x63 i)))))).
Definition sbox (a : Z) : Z := affine (ginv a).

(** ** Transformations of the state (5.1) *)
Definition SubBytes (s : list Z) : list Z := ztab 16 (fun i => sbox (get s i)).
Definition ShiftRows (s : list Z) : list Z := ztab 16 (fun i => let r := i mod 4 in let c := i / 4 in get s (r + 4 * ((c + r) mod 4))).
Definition MixColumns (s : list Z) : list Z := ztab 16 (fun i =>
  let r := i mod 4 in let c := i / 4 in
  let S k := get s ((r + k) mod 4 + 4 * c) in
  Z.lxor (gmul (S 0) 2) (Z.lxor (gmul (S 1) 3) (Z.lxor (S 2) (S 3)))).
Definition AddRoundKey (s k : list Z) : list Z := ztab 16 (fun i => Z.lxor (get s i) (get k i)).

(** ** Key expansion (5.2) with Nk = 8, Nr = 14: 60 words of four bytes *)
Definition RotWord (w : list Z) : list Z := ztab 4 (fun i => get w ((i + 1) mod 4)).
Definition SubWord (w : list Z) : list Z := ztab 4 (fun i => sbox (get w i)).
Definition Rcon (j : Z) : list Z := [Nat.iter (Z.to_nat (j - 1)) xtime 1; 0; 0; 0].
Definition xorw (a b : list Z) : list Z := ztab 4 (fun i => Z.lxor (get a i) (get b i)).
(** The word after the words [w]. *)
Definition next_word (w : list (list Z)) : list Z :=
  let i := len w in
  let temp := getr w (i - 1) in
  let temp := if i mod 8 =? 0 then xorw (SubWord (RotWord temp)) (Rcon (i / 8)) else if i mod 8 =? 4 then SubWord temp else temp in
  xorw (getr w (i - 8)) temp.
Fixpoint expand (n : nat) (w : list (list Z)) : list (list Z) := match n with O => w | S k => expand k (w ++ [next_word w]) end.
Definition KeyExpansion (key : list Z) : list (list Z) := expand 52 (ztab 8 (fun i => ztab 4 (fun j => get key (4 * i + j)))).
Definition round_key (w : list (list Z)) (r : Z) : list Z := ztab 16 (fun i => get (getr w (4 * r + i / 4)) (i mod 4)).

(** ** Cipher (5.1) *)
Definition cipher_round (w : list (list Z)) (r : Z) (s : list Z) : list Z := AddRoundKey (MixColumns (ShiftRows (SubBytes s))) (round_key w r).
Fixpoint rounds (w : list (list Z)) (n : nat) (r : Z) (s : list Z) : list Z :=
  match n with O => s | S k => rounds w k (r + 1) (cipher_round w r s) end.
Definition Cipher (w : list (list Z)) (inp : list Z) : list Z :=
  let s := AddRoundKey inp (round_key w 0) in
  let s := rounds w 13 1 s in
  AddRoundKey (ShiftRows (SubBytes s)) (round_key w 14).
Definition AES256 (key inp : list Z) : list Z := Cipher (KeyExpansion key) inp.

(** ** Counter mode: block [j] of the key stream encrypts the 12-byte nonce followed by the 32-bit counter. *)
Definition ctr_block (key nonce : list Z) (j : Z) : list Z := AES256 key (zfirst 12 nonce ++ be 4 (j mod 2 ^ 32)).
(** Byte [i] of the stream, and the [n] bytes from byte [o] on. *)
Definition ctr_byte (key nonce : list Z) (i : Z) : Z := get (ctr_block key nonce (i / 16)) (i mod 16).
Definition ctr_stream (key nonce : list Z) (o n : Z) : list Z := ztab n (fun i => ctr_byte key nonce (o + i)).
(** Buffers filled one after the other with [64 n] bytes each: every one continues the stream where the
    previous one stopped. *)
Fixpoint pieces (key nonce : list Z) (o : Z) (outs : list (list Z * Z)) : list (list Z) :=
  match outs with [] => [] | (out, n) :: r => (ctr_stream key nonce o (64 * n) ++ zskip (64 * n) out) :: pieces key nonce (o + 64 * n) r end.
