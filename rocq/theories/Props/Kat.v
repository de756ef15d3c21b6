(** C40: the known-answer test driver, with rng.c and AES-256 below it.  The values themselves are compared with the
    response files of the repository when the files of [theories/Kat] are compiled. *)
From Coq Require Import ZArith List String.
From Verif Require Import Lib.Arr Lib.CInt Lib.CMon Spec.Kat Model.Params Model.Rng Model.Api Model.Driver Proof.IndcpaP Proof.KatThm Proof.KatF.
Import ListNotations.
Local Open Scope Z_scope.

Theorem C40_answers : forall junk c ctx seed pk sk ct ss ss1,
  len (d_Key ctx) = 32 -> len (d_V ctx) = 16 -> arr U8 48 seed ->
  pk_buf c pk -> sk_buf c sk -> ct_buf c ct -> ss_buf ss -> ss_buf ss1 ->
  exists ctx', run (kat_pass AES256_total junk c ctx seed pk sk ct ss ss1) =
    let a := known_answer (s90 c) (par c) seed in
    Some (Some (a_pk a, a_sk a), Some (a_ct a, a_ss a), a_code a, ctx').
Proof. exact kat_pass_ok. Qed.
Print Assumptions C40_answers.

Theorem C40_requests : forall junk n ctx e buf, len (d_Key ctx) = 32 -> len (d_V ctx) = 16 -> len e = 48 -> len buf = 48 ->
  Z.of_nat n < 2 ^ 31 - 1 ->
  run (kat_requests AES256_total junk n ctx e buf) = Some (seeds n).
Proof. exact kat_requests_ok. Qed.
Print Assumptions C40_requests.

(** The seed of the first test in every request file, and of the second. *)
Example C40_case : seeds 2 = map unhex
  ["061550234D158C5EC95595FE04EF7A25767F2E24CC2BC479D09D86DC9ABCFDE7056A8C266F9EF97ED08541DBD2E1FFA1"%string;
   "D81C4D8D734FCBFBEADE3D3F8A039FAA2A2C9957E835AD55B22E75BF57BB556AC81ADDE6AEEB4A5A875C3BFCADFA958F"%string].
Proof. rewrite seeds_fast. vm_cast_no_check (eq_refl (seeds_f 2)). Qed.

Example C40_buffers : let c := Cfg Fire true true in
  len (d_Key (Drbg (repeat 9 32) (repeat 300 16) 77)) = 32 /\ arr U8 48 (repeat 255 48) /\
  pk_buf c (repeat (-1) 1312) /\ sk_buf c (repeat 3 2912) /\ ct_buf c (repeat 0 1472) /\ ss_buf (zeros 32).
Proof. split; [reflexivity|]. split; [apply arrb_ok; reflexivity|]. repeat (split; [reflexivity|]). reflexivity. Qed.
