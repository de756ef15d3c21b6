(** C33: SHA-256 and SHA-512 of the 90s variants. *)
From Coq Require Import ZArith List.
From Verif Require Import Lib.Arr Lib.CInt Lib.CMon Spec.Sha2 Model.Sha2 Proof.Sha2Thm Proof.Sha2Ct Proof.Sha2Const.
Import ListNotations.
Local Open Scope Z_scope.

(** ** C33: the digests of FIPS 180-4, for every input length; bytes after the digest keep their value. *)
Theorem C33_sha256 : forall junk out inp n, 32 <= len out -> 0 <= n <= len inp -> n < 2 ^ 61 -> typed U8 inp ->
  run (sha256 junk out inp n) = Some (SHA256 (zfirst n inp) ++ zskip 32 out).
Proof. exact sha256_run. Qed.
Print Assumptions C33_sha256.

Theorem C33_sha512 : forall junk out inp n, 64 <= len out -> 0 <= n <= len inp -> n < 2 ^ 64 -> typed U8 inp ->
  run (sha512 junk out inp n) = Some (SHA512 (zfirst n inp) ++ zskip 64 out).
Proof. exact sha512_run. Qed.
Print Assumptions C33_sha512.

(** 56 bytes is the first length whose padding needs a second block. *)
Example C33_case : 32 <= len (repeat (-7) 40) /\ 0 <= 56 <= len (zeros 60) /\ 56 < 2 ^ 61 /\ typed U8 (zeros 60).
Proof. repeat split; try discriminate. apply Forall_repeat. split; discriminate. Qed.
Example C33_case_512 : 64 <= len (repeat (-7) 70) /\ 0 <= 112 <= len (zeros 112) /\ 112 < 2 ^ 64 /\ typed U8 (zeros 112).
Proof. repeat split; try discriminate. apply Forall_repeat. split; discriminate. Qed.

Theorem C33_length : forall x, arr U8 32 (SHA256 x) /\ arr U8 64 (SHA512 x).
Proof. exact (fun x => conj (SHA256_arr x) (SHA512_arr x)). Qed.
Print Assumptions C33_length.

(** The constants of the specification are the ones the standard defines. *)
Theorem C33_constants : exists ps, len ps = 80 /\ first_primes ps /\
  Forall2 (root_frac 3 64) ps K512 /\ Forall2 (root_frac 3 32) (zfirst 64 ps) K256 /\
  Forall2 (root_frac 2 64) (zfirst 8 ps) H512 /\ Forall2 (root_frac 2 32) (zfirst 8 ps) H256.
Proof. exact constants. Qed.
Print Assumptions C33_constants.

(** The trace depends on the input length, not on the input. *)
Theorem C33_sha256_trace : forall j j' out out' inp inp' n r r', len out = len out' -> len inp = len inp' ->
  run (sha256 j out inp n) = Some r -> run (sha256 j' out' inp' n) = Some r' -> leak (sha256 j out inp n) = leak (sha256 j' out' inp' n).
Proof. exact sha256_leak. Qed.
Print Assumptions C33_sha256_trace.

Theorem C33_sha512_trace : forall j j' out out' inp inp' n r r', len out = len out' -> len inp = len inp' ->
  run (sha512 j out inp n) = Some r -> run (sha512 j' out' inp' n) = Some r' -> leak (sha512 j out inp n) = leak (sha512 j' out' inp' n).
Proof. exact sha512_leak. Qed.
Print Assumptions C33_sha512_trace.

Example C33_trace_case : exists r r', run (sha256 (fun _ _ => 0) (zeros 32) (zeros 60) 56) = Some r /\
  run (sha256 (fun _ _ => 0) (zeros 32) (repeat 1 60) 56) = Some r' /\ zeros 60 <> repeat 1 60.
Proof.
  assert (typed U8 (zeros 60)) by (apply Forall_repeat; split; discriminate).
  assert (typed U8 (repeat 1 60)) by (apply Forall_repeat; split; discriminate).
  do 2 eexists. split; [apply sha256_run|split; [apply sha256_run|discriminate]]; auto; try split; discriminate.
Qed.

Example C33_256_value : SHA256 [97; 98; 99] = [186; 120; 22; 191; 143; 1; 207; 234; 65; 65; 64; 222; 93; 174; 34; 35; 176; 3; 97; 163; 150; 23; 122; 156; 180; 16; 255; 97; 242; 0; 21; 173].
Proof. vm_compute. reflexivity. Qed.
Example C33_256_value_2 : SHA256 (zeros 56) = [212; 129; 122; 165; 73; 118; 40; 231; 199; 126; 107; 96; 97; 7; 4; 43; 187; 163; 19; 8; 136; 197; 244; 122; 55; 94; 97; 121; 190; 120; 159; 187].
Proof. vm_compute. reflexivity. Qed.
Example C33_512_value : SHA512 [97; 98; 99] = [221; 175; 53; 161; 147; 97; 122; 186; 204; 65; 115; 73; 174; 32; 65; 49; 18; 230; 250; 78; 137; 169; 126; 162; 10; 158; 238; 230; 75; 85; 211; 154; 33; 146; 153; 42; 39; 79; 193; 168; 54; 186; 60; 35; 163; 254; 235; 189; 69; 77; 68; 35; 100; 60; 232; 14; 42; 154; 201; 79; 165; 76; 164; 159].
Proof. vm_compute. reflexivity. Qed.
