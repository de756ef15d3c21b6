(** C22, C23, C24: the hash functions. *)
From Coq Require Import ZArith List.
From Verif Require Import Lib.Arr Lib.CInt Lib.CMon Spec.Keccak Model.Fips202 Proof.KeccakF Proof.HashThm.
Import ListNotations.
Local Open Scope Z_scope.

(** ** C22: SHA3-256 and SHA3-512, for every input length. *)
Theorem C22_sha3_256 : forall junk out inp n, 32 <= len out -> 0 <= n <= len inp -> typed U8 inp ->
  run (sha3_256 junk out inp n) = Some (SHA3_256 (zfirst n inp) ++ zskip 32 out).
Proof. exact sha3_256_run. Qed.
Print Assumptions C22_sha3_256.

Theorem C22_sha3_512 : forall junk out inp n, 64 <= len out -> 0 <= n <= len inp -> typed U8 inp ->
  run (sha3_512 junk out inp n) = Some (SHA3_512 (zfirst n inp) ++ zskip 64 out).
Proof. exact sha3_512_run. Qed.
Print Assumptions C22_sha3_512.

Example C22_case : 32 <= len (repeat (-7) 40) /\ 0 <= 136 <= len (zeros 200) /\ typed U8 (zeros 200).
Proof. repeat split; try discriminate. apply Forall_repeat. split; discriminate. Qed.

Example C22_256_value : SHA3_256 [97; 98; 99] = [58; 152; 93; 167; 79; 226; 37; 178; 4; 92; 23; 45; 107; 211; 144; 189; 133; 95; 8; 110; 62; 157; 82; 91; 70; 191; 226; 69; 17; 67; 21; 50].
Proof. rewrite sha3_256_fast. vm_compute. reflexivity. Qed.
Example C22_512_value : SHA3_512 [] = [166; 159; 115; 204; 162; 58; 154; 197; 200; 181; 103; 220; 24; 90; 117; 110; 151; 201; 130; 22; 79; 226; 88; 89; 224; 209; 220; 193; 71; 92; 128; 166; 21; 178; 18; 58; 241; 245; 249; 76; 17; 227; 233; 64; 44; 58; 197; 88; 245; 0; 25; 157; 149; 182; 211; 227; 1; 117; 133; 134; 40; 29; 205; 38].
Proof. rewrite sha3_512_fast. vm_compute. reflexivity. Qed.

(** ** C23: SHAKE128, for every input and output length. *)
Theorem C23_shake128 : forall junk out n inp k, 0 <= n <= len out -> 0 <= k <= len inp -> typed U8 inp ->
  run (shake128 junk out n inp k) = Some (SHAKE128 n (zfirst k inp) ++ zskip n out).
Proof. exact shake128_run. Qed.
Print Assumptions C23_shake128.

Example C23_case : 0 <= 169 <= len (zeros 170) /\ 0 <= 0 <= len (zeros 0) /\ typed U8 (zeros 0).
Proof. repeat split; try discriminate. apply Forall_nil. Qed.

Example C23_value : SHAKE128 40 [97; 98; 99] = [88; 129; 9; 45; 216; 24; 191; 92; 248; 163; 221; 183; 147; 251; 203; 167; 64; 151; 213; 197; 38; 166; 211; 95; 151; 184; 51; 81; 148; 15; 44; 200; 68; 197; 10; 243; 42; 205; 63; 44].
Proof. rewrite shake128_fast. vm_compute. reflexivity. Qed.

(** ** C24: prefixes, incremental squeezing, one buffer for input and output. *)
Theorem C24_prefix : forall n m M, 0 <= n <= m -> SHAKE128 n M = zfirst n (SHAKE128 m M).
Proof. exact SHAKE128_prefix. Qed.
Print Assumptions C24_prefix.

Theorem C24_prefix_code : forall junk junk' out out' n m inp k, 0 <= n <= m -> n <= len out -> m <= len out' -> 0 <= k <= len inp -> typed U8 inp ->
  exists r r', run (shake128 junk out n inp k) = Some r /\ run (shake128 junk' out' m inp k) = Some r' /\ zfirst n r = zfirst n r'.
Proof. exact shake128_prefix. Qed.
Print Assumptions C24_prefix_code.

(** Absorb, then any sequence of squeezing calls: the outputs are consecutive pieces of one stream. *)
Theorem C24_incremental : forall junk inp k calls, 0 <= k <= len inp -> typed U8 inp ->
  Forall (fun '(h, n) => 0 <= n /\ len h = 168 * n) calls ->
  exists outs, run (absorb_squeeze junk inp k calls) = Some outs /\
    map len outs = map (fun '(_, n) => 168 * n) calls /\
    concat outs = SHAKE128 (168 * fold_right Z.add 0 (map snd calls)) (zfirst k inp).
Proof. exact incremental. Qed.
Print Assumptions C24_incremental.

Example C24_case : Forall (fun '(h, n) => 0 <= n /\ len h = 168 * n) [(zeros 336, 2); ([], 0); (repeat 5 168, 1)].
Proof. repeat constructor; discriminate. Qed.

(** Input and output in one buffer [buf]: the model reads all input before the first write to the output, as the code does. *)
Theorem C24_sha3_256_in_place : forall junk buf n, 32 <= len buf -> 0 <= n <= len buf -> typed U8 buf ->
  run (sha3_256 junk buf buf n) = Some (SHA3_256 (zfirst n buf) ++ zskip 32 buf).
Proof. exact sha3_256_in_place. Qed.
Print Assumptions C24_sha3_256_in_place.

Theorem C24_shake128_in_place : forall junk buf n k, 0 <= n <= len buf -> 0 <= k <= len buf -> typed U8 buf ->
  run (shake128 junk buf n buf k) = Some (SHAKE128 n (zfirst k buf) ++ zskip n buf).
Proof. exact shake128_in_place. Qed.
Print Assumptions C24_shake128_in_place.
