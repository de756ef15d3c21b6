(** Properties of the four-fold hash functions of Variants/SaberX4_avx2. *)
From Coq Require Import ZArith List Lia.
From Verif Require Import Lib.Arr Lib.CInt Lib.CMon Spec.Keccak Spec.Shake256 Model.Fips202x4 Proof.Keccak4P Proof.Sponge4P Proof.X4Ub.
Import ListNotations.
Local Open Scope Z_scope.

(** ** C51 *)

(** The call of [indcpa_kem_keypair]: 32 bytes of output from 32 bytes of input. *)
Theorem C51_shake128x4_refuted : exists junk out inp,
  (forall k, 0 <= k < 4 -> arr U8 32 (sel out k)) /\ (forall k, 0 <= k < 4 -> arr U8 32 (sel inp k)) /\
  run (shake128x4_code junk out 32 inp 32) = None.
Proof. exact shake128x4_refuted. Qed.
Print Assumptions C51_shake128x4_refuted.

(** Whenever the output is not a whole number of blocks. *)
Theorem C51_shake128x4_undefined : forall junk out outlen inp inlen, outlen mod 168 <> 0 ->
  run (shake128x4_code junk out outlen inp inlen) = None.
Proof. exact shake128x4_code_undefined. Qed.
Print Assumptions C51_shake128x4_undefined.

(** All lengths that the code asks for. *)
Example C51_case : 32 mod 168 <> 0 /\ 3744 mod 168 <> 0 /\ 768 mod 168 <> 0.
Proof. repeat split; discriminate. Qed.

(** ** C52 *)

Theorem C52_sha3_256x4 : forall junk out inp n, 0 <= n -> room4 32 out -> bytes4 n inp ->
  exists r, run (sha3_256x4 junk out inp n) = Some r /\
  forall k, 0 <= k < 4 -> sel r k = SHA3_256 (zfirst n (sel inp k)) ++ zskip 32 (sel out k).
Proof. exact sha3_256x4_run. Qed.
Print Assumptions C52_sha3_256x4.

Theorem C52_sha3_512x4 : forall junk out inp n, 0 <= n -> room4 64 out -> bytes4 n inp ->
  exists r, run (sha3_512x4 junk out inp n) = Some r /\
  forall k, 0 <= k < 4 -> sel r k = SHA3_512 (zfirst n (sel inp k)) ++ zskip 64 (sel out k).
Proof. exact sha3_512x4_run. Qed.
Print Assumptions C52_sha3_512x4.

Theorem C52_shake256x4 : forall junk out n inp l, 0 <= n -> room4 n out -> 0 <= l -> bytes4 l inp ->
  exists r, run (shake256x4 junk out n inp l) = Some r /\
  forall k, 0 <= k < 4 -> sel r k = SHAKE256 n (zfirst l (sel inp k)) ++ zskip n (sel out k).
Proof. exact shake256x4_run. Qed.
Print Assumptions C52_shake256x4.

(** shake128x4 with t0, ..., t3 of one block (168 bytes) each. *)
Theorem C52_shake128x4 : forall junk out n inp l, 0 <= n -> room4 n out -> 0 <= l -> bytes4 l inp ->
  exists r, run (shake128x4 168 junk out n inp l) = Some r /\
  forall k, 0 <= k < 4 -> sel r k = SHAKE128 n (zfirst l (sel inp k)) ++ zskip n (sel out k).
Proof. exact shake128x4_run. Qed.
Print Assumptions C52_shake128x4.

(** Four different messages; and two known values of SHAKE256. *)
Example C52_case : room4 32 (tab4 (fun k => repeat k 40)) /\ bytes4 137 (tab4 (fun k => repeat (7 + k) 150)) /\
  SHAKE256 16 [] = [70; 185; 221; 43; 11; 168; 141; 19; 35; 59; 63; 235; 116; 62; 235; 36] /\
  SHAKE256 8 [97; 98; 99] = [72; 51; 102; 96; 19; 96; 168; 119].
Proof.
  split; [|split].
  - intros k Hk. rewrite sel_tab4 by auto. unfold len. rewrite repeat_length. lia.
  - intros k Hk. rewrite sel_tab4 by auto. split; [unfold len; rewrite repeat_length; lia|].
    apply Forall_forall. intros x Hx. apply repeat_spec in Hx. subst x. cbn [tmin tmax]. lia.
  - split; rewrite shake256_fast; vm_compute; reflexivity.
Qed.
