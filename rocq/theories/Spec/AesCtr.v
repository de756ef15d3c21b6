(** Counter mode of NIST SP 800-38A for AES-256 with a 128-bit counter: block [j] of the key stream encrypts the initial
    counter block plus [j], modulo 2^128. *)
From Coq Require Import ZArith List.
From Verif Require Import Lib.Arr Spec.Aes.
Local Open Scope Z_scope.

Definition ctr128_block (key iv : list Z) (j : Z) : list Z := AES256 key (be 16 ((be_val iv + j) mod 2 ^ 128)).
Definition ctr128_stream (key iv : list Z) (n : Z) : list Z := ztab n (fun i => get (ctr128_block key iv (i / 16)) (i mod 16)).
