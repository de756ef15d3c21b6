(** Model of decapsulation in Cortex-M_Implementation_KEM/Cortex-M0/saber-ref-mem/src, complete: [Model.M0] has decryption,
    [Model.M0Kem] encryption and the comparison. *)
From Coq Require Import ZArith List.
From Verif Require Import Lib.Arr Lib.CInt Lib.CMon Model.Params Model.Verify Model.Pack Model.Indcpa Model.Fips202 Model.M0 Model.M0Kem.
Import ListNotations.
Local Open Scope Z_scope.
Local Open Scope M_scope.

(** SABER_indcpa.c:357-369 (POL2MSG). *)
Definition m0_POL2MSG (message_dec_unpacked message_dec : list Z) : M (list Z) :=
  for_ 0 32 (fun j message_dec =>
    message_dec <- st U8 message_dec j #0 ;;
    for_ 0 8 (fun i message_dec =>
      st U8 message_dec j (Idx U8 message_dec j .| (Idx U16 message_dec_unpacked (j * 8 + i) .<< Bnd I32 0 7 i))%C) message_dec) message_dec.

(** encode.c:84-97, for an array of the declared element type [uint16_t]. *)
Definition ExtractKeyBits16 (junk : mem) (scale_data scale_ar message : list Z) : M (list Z) :=
  op <- SABER_un_pack4bit scale_ar (uninit junk 0 256) ;;
  for_ 0 256 (fun i message =>
    v <- extract (Idx U16 scale_data i) (Idx U16 op i) ;;
    st U16 message i v) message.

(** verify.c:28-35: the text of the reference ([Model.Verify.cmov]). *)

Section Dec.
  (** The multiplier: [pol_mul junk] in the code. *)
  Variable pol_mul : list Z -> list Z -> list Z -> M (list Z).

  (** kem.c:62-79; [g] holds the static variables of GenMatrix_poly.  Returns [k] and the return value. *)
  Definition m0_dec_rest (junk : mem) (g : gmstate) (k c sk pk buf : list Z) : M (list Z * Z) :=
    buf <- for_ 0 32 (fun i buf => st U8 buf (32 + i) (Idx U8 sk (2304 - 64 + i))) buf ;;
    kr <- sha3_512 (sub junk 4) (uninit junk 2 64) buf 64 ;;
    r <- ptr kr 32 ;;
    cmp <- m0_indcpa_enc pol_mul (sub junk 5) g buf r pk (uninit junk 3 1088) ;;
    fail <- m0_verify c cmp 1088 ;;
    kr <- at_ kr 32 (fun p => sha3_256 (sub junk 6) p c 1088) ;;
    z <- ptr sk (2304 - 32) ;;
    b <- asg U8 fail ;;
    kr <- cmov kr z 32 b ;;
    k <- sha3_256 (sub junk 7) k kr 64 ;;
    ret (k, 0).

  (** kem.c:51-80.  The length [n] of [buf] is a parameter; the code has 64 ([m0_kem_dec]). *)
  Definition m0_kem_dec_n (n : Z) (junk : mem) (g : gmstate) (k c sk : list Z) : M (list Z * Z) :=
    pk <- ptr sk 1248 ;;
    buf <- indcpa_kem_dec pol_mul (sub junk 1) sk c (uninit8 junk 0 n) ;;
    m0_dec_rest junk g k c sk pk buf.
  Definition m0_kem_dec := m0_kem_dec_n 64.

  (** SABER_indcpa.c:325-354 with the call of POL2MSG in line 353, a comment in the repository, and an array for the unpacked
      message.  This is not the code of the repository. *)
  Definition indcpa_kem_dec_packed (junk : mem) (sk ciphertext message_dec : list Z) : M (list Z) :=
    sksv <- BS2POLVECq13 sk (uninit2 junk 0 3) ;;
    v <- for_ 0 256 (fun i v => st U16 v i #0) (uninit junk 1 256) ;;
    sksv <- for_ 0 3 (fun i sksv => for_ 0 256 (fun j sksv =>
      r <- row sksv i ;; r <- st U16 r j (Idx U16 r j .& #1023)%C ;; setrow sksv i r) sksv) sksv ;;
    v <- VectorMul pol_mul (sub junk 2) ciphertext sksv v ;;
    p <- ptr ciphertext 960 ;;
    u <- ExtractKeyBits16 (sub junk 3) v p (uninit junk 4 256) ;;
    m0_POL2MSG u message_dec.

  (** kem.c:51-80 with that function. *)
  Definition m0_kem_dec_packed (junk : mem) (g : gmstate) (k c sk : list Z) : M (list Z * Z) :=
    pk <- ptr sk 1248 ;;
    buf <- indcpa_kem_dec_packed (sub junk 1) sk c (uninit8 junk 0 64) ;;
    m0_dec_rest junk g k c sk pk buf.
End Dec.
