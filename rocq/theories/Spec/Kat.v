(** Specification of the known-answer tests: what is derived from a 48-byte seed. *)
From Coq Require Import ZArith List Bool.
From Verif Require Import Lib.Arr Spec.Aes Spec.Drbg Spec.Saber Spec.Sym.
Import ListNotations.
Local Open Scope Z_scope.

(** AES-256 as a function on all pairs of lists: zero outside its domain. *)
Definition bytes_of (n : Z) (l : list Z) : bool := (len l =? n) && forallb (fun x => (0 <=? x) && (x <=? 255)) l.
Definition AES256_total (key blk : list Z) : list Z :=
  if bytes_of 32 key && bytes_of 16 blk then AES256 key blk else zeros 16.

Record answer := Answer { a_pk : list Z; a_sk : list Z; a_ct : list Z; a_ss : list Z; a_code : Z }.

(** The answer to a seed: key pair, ciphertext, shared key; the code is 0 if decapsulation returns the shared key and -4 if not. *)
Definition known_answer (ninety : bool) (p : params) (seed : list Z) : answer :=
  let H := HashH ninety in let G := HashG ninety in let X := PRF ninety in
  let s0 := instantiate AES256_total seed (zeros 48) in
  let '(r1, s1) := generate AES256_total s0 32 in
  let '(r2, s2) := generate AES256_total s1 32 in
  let '(z, s3) := generate AES256_total s2 32 in
  let '(r, _) := generate AES256_total s3 32 in
  let pk := kem_pk X p r1 r2 in
  let sk := kem_sk H X p r1 r2 z in
  let '(ct, ss) := kem_enc H G X p pk r in
  Answer pk sk ct ss (if list_eq_dec Z.eq_dec (kem_dec H G X p sk ct) ss then 0 else -4).

(** The seeds of the first [n] tests: outputs of the generator instantiated with the bytes 0, ..., 47. *)
Definition seeds (n : nat) : list (list Z) :=
  fst (generates AES256_total (instantiate AES256_total (ztab 48 (fun i => i)) (zeros 48)) (repeat 48 n)).
