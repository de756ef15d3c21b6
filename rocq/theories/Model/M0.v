(** Model of parts of Cortex-M_Implementation_KEM/Cortex-M0/saber-ref-mem/src
    (SABER_K = 3, SABER_N = 256, SABER_Q = 8192, SABER_P = 1024). *)
From Coq Require Import ZArith List.
From Verif Require Import Lib.Arr Lib.CInt Lib.CMon Model.Params Model.Pack Model.Indcpa Model.Fips202.
Import ListNotations.
Local Open Scope Z_scope.
Local Open Scope M_scope.

(** ** pack_unpack.c *)

(** pack_unpack.c:3-16. *)
Definition SABER_pack_3bit (bytes data : list Z) : M (list Z) :=
  for_ 0 (256 / 8) (fun j bytes =>
    let D k := Idx U16 data (8 * j + k) in
    sts U8 bytes (3 * j) [
      (D 0 .& #0x7) .| ((D 1 .& #0x7) .<< #3) .| ((D 2 .& #0x3) .<< #6);
      ((D 2 .>> #2) .& #0x01) .| ((D 3 .& #0x7) .<< #1) .| ((D 4 .& #0x7) .<< #4) .| (((D 5 .>> #2) .& #0x01) .<< #7);
      ((D 5 .>> #1) .& #0x03) .| ((D 6 .& #0x7) .<< #2) .| ((D 7 .& #0x7) .<< #5)
    ]%C) bytes.

(** pack_unpack.c:18-37. *)
Definition SABER_un_pack3bit (bytes data : list Z) : M (list Z) :=
  for_ 0 (256 / 8) (fun j data =>
    let B k := Idx U8 bytes (3 * j + k) in
    sts U16 data (8 * j) [
      B 0 .& #0x07;
      (B 0 .>> #3) .& #0x07;
      ((B 0 .>> #6) .& #0x03) .| ((B 1 .& #0x01) .<< #2);
      (B 1 .>> #1) .& #0x07;
      (B 1 .>> #4) .& #0x07;
      ((B 1 .>> #7) .& #0x01) .| ((B 2 .& #0x03) .<< #1);
      (B 2 .>> #2) .& #0x07;
      (B 2 .>> #5) .& #0x07
    ]%C) data.

(** pack_unpack.c:40-50. *)
Definition SABER_pack_4bit (bytes data : list Z) : M (list Z) :=
  for_ 0 (256 / 2) (fun j bytes =>
    let D k := Idx U16 data (2 * j + k) in
    sts U8 bytes (1 * j) [(D 0 .& #0x0f) .| ((D 1 .& #0x0f) .<< #4)]%C) bytes.

(** pack_unpack.c:52-67. *)
Definition SABER_un_pack4bit (bytes data : list Z) : M (list Z) :=
  for_ 0 (256 / 2) (fun j data =>
    let B := Idx U8 bytes (1 * j + 0) in
    sts U16 data (2 * j) [B .& #0x0f; (B .>> #4) .& #0x0f]%C) data.

(** pack_unpack.c:69-82. *)
Definition SABER_pack_6bit (bytes data : list Z) : M (list Z) :=
  for_ 0 (256 / 4) (fun j bytes =>
    let D k := Idx U16 data (4 * j + k) in
    sts U8 bytes (3 * j) [
      (D 0 .& #0x3f) .| ((D 1 .& #0x03) .<< #6);
      ((D 1 .& #0x3f) .>> #2) .| ((D 2 .& #0x0f) .<< #4);
      ((D 2 .& #0x3f) .>> #4) .| ((D 3 .& #0x3f) .<< #2)
    ]%C) bytes.

(** pack_unpack.c:84-99. *)
Definition SABER_un_pack6bit (bytes data : list Z) : M (list Z) :=
  for_ 0 (256 / 4) (fun j data =>
    let B k := Idx U8 bytes (3 * j + k) in
    sts U16 data (4 * j) [
      B 0 .& #0x3f;
      ((B 0 .>> #6) .& #0x03) .| ((B 1 .& #0x0f) .<< #2);
      ((B 1 .& #0xff) .>> #4) .| ((B 2 .& #0x03) .<< #4);
      (B 2 .& #0xff) .>> #2
    ]%C) data.

(** pack_unpack.c:150-166: the same text as [BS2POLp] of the reference, at [bytes + 320 * pol_index]. *)
Definition BS2POLp_at (pol_index : Z) (bytes pol : list Z) : M (list Z) :=
  p <- ptr bytes (pol_index * (256 * 10) / 8) ;; BS2POLp p pol.

(** pack_unpack.c:212-235: the same text as [BS2POLq] of the reference for each row, with 13 bits. *)
Definition BS2POLVECq13 (bytes : list Z) (data : list (list Z)) : M (list (list Z)) :=
  for_ 0 3 (fun i data =>
    p <- ptr bytes (i * (256 * 13) / 8) ;;
    d <- row data i ;;
    d <- BS2POLq_13 p d ;;
    setrow data i d) data.

(** ** encode.c *)

(** encode.c:11-47; [sign] is an [int], [abs], [sign2] and [temp] are [int16_t]. *)
Definition floor_special (a : cexp) : M cexp :=
  sign <- asg I32 ((a .>> #15) .& #0x01)%C ;;
  abs <- asg I16 (sign * (#0 - a) + (#1 - sign) * a)%C ;;
  b <- asg U16 abs ;;
  temp <- asg I16 (abs .& #0x01ff)%C ;;
  temp <- asg I16 (Neg temp) ;;
  sign2 <- asg I16 ((temp .>> #15) .& #0x01)%C ;;
  abs <- asg I16 (abs + sign * sign2)%C ;;
  b <- asg U16 (sign * (#0 - abs) + (#1 - sign) * b)%C ;;
  asg U16 ((b .>> #9) .& #0x01)%C.

(** encode.c:51-59 without the store: P_1 - SCALE_SIZE is 10-1-3 and H2 is (1<<8) - (1<<5). *)
Definition extract (a scale_data : cexp) : M cexp :=
  temp <- asg U16 (a - (scale_data .<< #6) + #224)%C ;;
  floor_special temp.

(** encode.c:69-82; [ciphertext_gen] (62-67) is [b >> 6]. *)
Definition GenCipherText (junk : mem) (vprime scl_c : list Z) : M (list Z) :=
  t <- for_ 0 256 (fun i t => st U16 t i (Idx U16 vprime i .>> #6)%C) (uninit junk 0 256) ;;
  SABER_pack_4bit scl_c t.

(** The store [message_dec_unpacked[i] = v] of a [uint16_t] into an array of bytes (little-endian). *)
Definition st16 (buf : list Z) (i : Z) (v : cexp) : M (list Z) :=
  buf <- st U8 buf (2 * i) v ;; st U8 buf (2 * i + 1) (v .>> #8)%C.

(** encode.c:84-97.  [message] is the object the third argument points to, in bytes: the caller
    passes an [unsigned char *] where a [uint16_t *] is declared. *)
Definition ExtractKeyBits (junk : mem) (scale_data scale_ar message : list Z) : M (list Z) :=
  op <- SABER_un_pack4bit scale_ar (uninit junk 0 256) ;;
  for_ 0 256 (fun i message =>
    v <- extract (Idx U16 scale_data i) (Idx U16 op i) ;;
    st16 message i v) message.

(** ** SABER_indcpa.c and kem.c; the multiplication [pol_mul a b res] is a parameter here. *)
Section Dec.
Variable pol_mul : list Z -> list Z -> list Z -> M (list Z).

(** SABER_indcpa.c:464-476. *)
Definition VectorMul (junk : mem) (byte_array : list Z) (skpv : list (list Z)) (res : list Z) : M (list Z) :=
  '(pkcl, res) <- for_ 0 3 (fun j '(pkcl, res) =>
    pkcl <- BS2POLp_at j byte_array pkcl ;;
    s <- row skpv j ;;
    res <- pol_mul pkcl s res ;;
    ret (pkcl, res)) (uninit junk 0 256, res) ;;
  for_ 0 256 (fun j res => st U16 res j (Idx U16 res j .& #1023)%C) res.

(** SABER_indcpa.c:325-354; SABER_POLYVECCOMPRESSEDBYTES = 960. *)
Definition indcpa_kem_dec (junk : mem) (sk ciphertext message_dec : list Z) : M (list Z) :=
  sksv <- BS2POLVECq13 sk (uninit2 junk 0 3) ;;
  v <- for_ 0 256 (fun i v => st U16 v i #0) (uninit junk 1 256) ;;
  sksv <- for_ 0 3 (fun i sksv => for_ 0 256 (fun j sksv =>
    r <- row sksv i ;; r <- st U16 r j (Idx U16 r j .& #1023)%C ;; setrow sksv i r) sksv) sksv ;;
  v <- VectorMul (sub junk 2) ciphertext sksv v ;;
  p <- ptr ciphertext 960 ;;
  ExtractKeyBits (sub junk 3) v p message_dec.

(** kem.c:51-80.  [buf] is an array of 64 bytes; [rest] stands for lines 62-79. *)
Definition crypto_kem_dec (rest : list Z -> M (list Z)) (junk : mem) (c sk : list Z) : M (list Z) :=
  buf <- indcpa_kem_dec (sub junk 1) sk c (uninit8 junk 0 64) ;; rest buf.
End Dec.

(** ** poly_mul.c *)

(** poly_mul.c:339-347. *)
Definition school_book_mul2_16 (a b c : list Z) : M (list Z) :=
  for_ 0 16 (fun i c => for_ 0 16 (fun j c =>
    st U16 c (i + j) (Idx U16 c (i + j) + Idx U16 a i * Idx U16 b j)%C) c) c.

(** poly_mul.c:44-189 with K = KARA_TOP_K and, the same text, 191-336 with K = KARA_BOTTOM_K; h is K/2, [tmp] the
    global array kara_tmp_top or kara_tmp (every element is written before it is read) and [inner] the function called.
    The calls read their second argument from [d] itself, from positions that the call does not write. *)
Definition unrolled_kara (K h : Z) (inner : list Z -> list Z -> list Z -> M (list Z)) (tmp a c d : list Z) : M (list Z) :=
  ' (tmp, d) <- for_ 0 h (fun i '(tmp, d) =>
    d <- st U16 d (K + i) (Idx U16 d i + Idx U16 d (K + i))%C ;;
    d <- st U16 d (K + h + i) (Idx U16 d (h + i) + Idx U16 d (K + h + i) + Idx U16 d (K + i))%C ;;
    d <- st U16 d (3 * K - 1 + i) (Idx U16 a i + Idx U16 a (K + i))%C ;;
    d <- st U16 d (3 * K + h - 1 + i) (Idx U16 a (h + i) + Idx U16 a (K + h + i))%C ;;
    tmp <- st U16 tmp i (Idx U16 d (3 * K - 1 + i) + Idx U16 d (3 * K + h - 1 + i))%C ;;
    d <- st U16 d (2 * K + i) #0 ;;
    ret (tmp, d)) (tmp, d) ;;
  ' (tmp, d) <- for_ 0 h (fun i '(tmp, d) =>
    d <- st U16 d (2 * K + h - 1 + i) (Idx U16 c i + Idx U16 c (h + i) + Idx U16 c (K + i) + Idx U16 c (K + h + i))%C ;;
    ret (tmp, d)) (tmp, d) ;;
  y <- ptr d (2 * K + h - 1) ;; d <- at_ d (K + h) (inner tmp y) ;;
  ' (tmp, d) <- for_ 0 (h - 1) (fun i '(tmp, d) =>
    d <- st U16 d (2 * K + h - 1 + i) (Idx U16 d (K + h + i) + Idx U16 d (2 * K + i))%C ;;
    d <- st U16 d (K + h + i) #0 ;;
    tmp <- st U16 tmp i (Idx U16 c i + Idx U16 c (K + i))%C ;;
    ret (tmp, d)) (tmp, d) ;;
  let i := h - 1 in
  d <- st U16 d (2 * K + h - 1 + i) (Idx U16 d (K + h + i))%C ;;
  d <- st U16 d (K + h + i) #0 ;;
  tmp <- st U16 tmp i (Idx U16 c i + Idx U16 c (K + i))%C ;;
  y <- ptr d (3 * K - 1) ;; d <- at_ d K (inner tmp y) ;;
  ' (tmp, d) <- for_ 0 (h - 1) (fun i '(tmp, d) =>
    d <- st U16 d (2 * K + i) (Idx U16 d (2 * K + i) - Idx U16 d (K + h + i))%C ;;
    d <- st U16 d (K + h + i) (Idx U16 d (2 * K + h - 1 + i) - Idx U16 d (K + i))%C ;;
    d <- st U16 d (2 * K + h - 1 + i) #0 ;;
    tmp <- st U16 tmp i (Idx U16 c (h + i) + Idx U16 c (K + h + i))%C ;;
    ret (tmp, d)) (tmp, d) ;;
  let i := h - 1 in
  d <- st U16 d (K + h + i) (Idx U16 d (2 * K + h - 1 + i) - Idx U16 d (K + i))%C ;;
  d <- st U16 d (2 * K + h - 1 + i) #0 ;;
  tmp <- st U16 tmp i (Idx U16 c (h + i) + Idx U16 c (K + h + i))%C ;;
  y <- ptr d (h + 3 * K - 1) ;; d <- at_ d (2 * K) (inner tmp y) ;;
  ' (tmp, d) <- for_ 0 (h - 1) (fun i '(tmp, d) =>
    d <- st U16 d (h + i) (Idx U16 d i + Idx U16 d (h + i))%C ;;
    d <- st U16 d (2 * K + i) (Idx U16 d (2 * K + i) - Idx U16 d (2 * K + h + i))%C ;;
    d <- st U16 d (3 * K - 1 + i) (Idx U16 d (2 * K + i) + Idx U16 d (K + i))%C ;;
    d <- st U16 d (3 * K + h - 1 + i) (Idx U16 d (K + h + i) - Idx U16 d (2 * K + i))%C ;;
    d <- st U16 d (K + i) #0 ;;
    ret (tmp, d)) (tmp, d) ;;
  let i := h - 1 in
  d <- st U16 d (h + i) (Idx U16 d i + Idx U16 d (h + i))%C ;;
  d <- st U16 d (3 * K - 1 + i) (Idx U16 d (2 * K + i) + Idx U16 d (K + i))%C ;;
  d <- st U16 d (3 * K + h - 1 + i) (Idx U16 d (K + h + i) - Idx U16 d (2 * K + i))%C ;;
  ' (tmp, d) <- for_ 0 h (fun i '(tmp, d) =>
    d <- st U16 d (K + h - 1 + i) (Idx U16 a i + Idx U16 a (h + i))%C ;;
    tmp <- st U16 tmp i (Idx U16 c i + Idx U16 c (h + i))%C ;;
    ret (tmp, d)) (tmp, d) ;;
  y <- ptr d (K + h - 1) ;; d <- at_ d h (inner tmp y) ;;
  ' (tmp, d) <- for_ 0 (h - 1) (fun i '(tmp, d) =>
    d <- st U16 d (K + h - 1 + i) (Idx U16 d (h + i) + Idx U16 d (K + i))%C ;;
    d <- st U16 d (h + i) #0 ;;
    ret (tmp, d)) (tmp, d) ;;
  let i := h - 1 in
  d <- st U16 d (K + h - 1 + i) (Idx U16 d (h + i))%C ;;
  d <- st U16 d (h + i) #0 ;;
  d <- at_ d 0 (inner a c) ;;
  ' (tmp, d) <- for_ 0 (h - 1) (fun i '(tmp, d) =>
    d <- st U16 d (K + i) (Idx U16 d (K + i) - Idx U16 d (h + i))%C ;;
    d <- st U16 d (h + i) (Idx U16 d (K + h - 1 + i) - Idx U16 d i)%C ;;
    d <- st U16 d (K + h - 1 + i) #0 ;;
    ret (tmp, d)) (tmp, d) ;;
  let i := h - 1 in
  d <- st U16 d (h + i) (Idx U16 d (K + h - 1 + i) - Idx U16 d i)%C ;;
  d <- st U16 d (K + h - 1 + i) #0 ;;
  x <- ptr a h ;; y <- ptr c h ;; d <- at_ d K (inner x y) ;;
  ' (tmp, d) <- for_ 0 (h - 1) (fun i '(tmp, d) =>
    d <- st U16 d (h + i) (Idx U16 d (h + i) - Idx U16 d (K + i))%C ;;
    d <- st U16 d (2 * K + i) (Idx U16 d (2 * K + i) - Idx U16 d (K + i) + Idx U16 d (K + h + i))%C ;;
    d <- st U16 d (K + i) (Idx U16 d (3 * K - 1 + i) - Idx U16 d i)%C ;;
    d <- st U16 d (3 * K - 1 + i) #0 ;;
    d <- st U16 d (2 * K + h + i) (Idx U16 d (2 * K + i) + Idx U16 d (2 * K + h + i) - Idx U16 d (K + h + i))%C ;;
    d <- st U16 d (K + h + i) (Idx U16 d (3 * K + h - 1 + i) - Idx U16 d (h + i))%C ;;
    tmp <- st U16 tmp i (Idx U16 c (K + i) + Idx U16 c (K + h + i))%C ;;
    d <- st U16 d (3 * K + h - 1 + i) (Idx U16 a (K + i) + Idx U16 a (K + h + i))%C ;;
    ret (tmp, d)) (tmp, d) ;;
  let i := h - 1 in
  d <- st U16 d (h + i) (Idx U16 d (h + i) - Idx U16 d (K + i))%C ;;
  d <- st U16 d (2 * K + i) (Idx U16 d (2 * K + i) - Idx U16 d (K + i))%C ;;
  d <- st U16 d (K + i) (Idx U16 d (3 * K - 1 + i) - Idx U16 d i)%C ;;
  d <- st U16 d (3 * K - 1 + i) #0 ;;
  d <- st U16 d (K + h + i) (Idx U16 d (3 * K + h - 1 + i) - Idx U16 d (h + i))%C ;;
  d <- st U16 d (2 * K + h + i) (Idx U16 d (2 * K + i) + Idx U16 d (2 * K + h + i))%C ;;
  tmp <- st U16 tmp i (Idx U16 c (K + i) + Idx U16 c (K + h + i))%C ;;
  d <- st U16 d (3 * K + h - 1 + i) (Idx U16 a (K + i) + Idx U16 a (K + h + i))%C ;;
  y <- ptr d (3 * K + h - 1) ;; d <- at_ d (2 * K + h) (inner tmp y) ;;
  ' (tmp, d) <- for_ 0 (h - 1) (fun i '(tmp, d) =>
    d <- st U16 d (3 * K + h - 1 + i) (Idx U16 d (2 * K + h + i) + Idx U16 d (3 * K + i))%C ;;
    d <- st U16 d (2 * K + h + i) #0 ;;
    ret (tmp, d)) (tmp, d) ;;
  let i := h - 1 in
  d <- st U16 d (3 * K + h - 1 + i) (Idx U16 d (2 * K + h + i))%C ;;
  d <- st U16 d (2 * K + h + i) #0 ;;
  x <- ptr a K ;; y <- ptr c K ;; d <- at_ d (2 * K) (inner x y) ;;
  ' (tmp, d) <- for_ 0 (h - 1) (fun i '(tmp, d) =>
    d <- st U16 d (3 * K + i) (Idx U16 d (3 * K + i) - Idx U16 d (2 * K + h + i))%C ;;
    d <- st U16 d (2 * K + h + i) (Idx U16 d (3 * K + h - 1 + i) - Idx U16 d (2 * K + i))%C ;;
    d <- st U16 d (3 * K + h - 1 + i) #0 ;;
    ret (tmp, d)) (tmp, d) ;;
  let i := h - 1 in
  d <- st U16 d (2 * K + h + i) (Idx U16 d (3 * K + h - 1 + i) - Idx U16 d (2 * K + i))%C ;;
  d <- st U16 d (3 * K + h - 1 + i) #0 ;;
  x <- ptr a (K + h) ;; y <- ptr c (K + h) ;; d <- at_ d (3 * K) (inner x y) ;;
  ' (tmp, d) <- for_ 0 (h - 1) (fun i '(tmp, d) =>
    d <- st U16 d (2 * K + h + i) (Idx U16 d (2 * K + h + i) - Idx U16 d (3 * K + i))%C ;;
    d <- st U16 d (3 * K + i) (Idx U16 d (3 * K + i) - Idx U16 d (3 * K + h + i))%C ;;
    d <- st U16 d (K + i) (Idx U16 d (K + i) - Idx U16 d (2 * K + i))%C ;;
    d <- st U16 d (2 * K + i) (Idx U16 d (2 * K + i) - Idx U16 d (3 * K + i))%C ;;
    d <- st U16 d (K + h + i) (Idx U16 d (K + h + i) - Idx U16 d (2 * K + h + i))%C ;;
    d <- st U16 d (2 * K + h + i) (Idx U16 d (2 * K + h + i) - Idx U16 d (3 * K + h + i))%C ;;
    ret (tmp, d)) (tmp, d) ;;
  let i := h - 1 in
  d <- st U16 d (2 * K + h + i) (Idx U16 d (2 * K + h + i) - Idx U16 d (3 * K + i))%C ;;
  d <- st U16 d (K + i) (Idx U16 d (K + i) - Idx U16 d (2 * K + i))%C ;;
  d <- st U16 d (2 * K + i) (Idx U16 d (2 * K + i) - Idx U16 d (3 * K + i))%C ;;
  d <- st U16 d (K + h + i) (Idx U16 d (K + h + i) - Idx U16 d (2 * K + h + i))%C ;;
  ret d.

(** The same with the product computed in [uint32_t], that is, without the signed overflow of poly_mul.c:344.  This is not
    the code of the repository; it is what a compiler that wraps signed arithmetic makes of it. *)
Definition school_book_mul2_16_wrap (a b c : list Z) : M (list Z) :=
  for_ 0 16 (fun i c => for_ 0 16 (fun j c =>
    st U16 c (i + j) (Idx U16 c (i + j) + Cast U32 (Idx U16 a i) * Idx U16 b j)%C) c) c.

(** The schoolbook product is a parameter [sb]: the code has [school_book_mul2_16]. *)
Section Mul.
Variable sb : list Z -> list Z -> list Z -> M (list Z).
(** poly_mul.c:191-336. *)
Definition kara_bottom (junk : mem) : list Z -> list Z -> list Z -> M (list Z) :=
  unrolled_kara 32 16 sb (uninit junk 0 16).
(** poly_mul.c:44-189. *)
Definition kara_top (junk : mem) : list Z -> list Z -> list Z -> M (list Z) :=
  unrolled_kara 128 64 (kara_bottom (sub junk 1)) (uninit junk 0 64).

(** poly_mul.c:22-42. *)
Definition pol_mul_with (junk : mem) (a b res : list Z) : M (list Z) :=
  c <- for_ 0 512 (fun i c => st U16 c i #0) (uninit junk 0 512) ;;
  c <- kara_top (sub junk 1) a b c ;;
  c <- for_ 256 511 (fun i c => st U16 c (i - 256) (Idx U16 c (i - 256) - Idx U16 c i)%C) c ;;
  for_ 0 256 (fun i res => st U16 res i (Idx U16 res i + Idx U16 c i)%C) res.
End Mul.
Definition unrolled_kara_mem_bottom := kara_bottom school_book_mul2_16.
Definition unrolled_kara_mem_top := kara_top school_book_mul2_16.
Definition pol_mul := pol_mul_with school_book_mul2_16.
Definition pol_mul_wrap := pol_mul_with school_book_mul2_16_wrap.

(** ** fips202.c.  [KeccakF1600_StatePermute] is assembly; the C permutation of the reference stands for it. *)

(** fips202.c:68-98: as in the reference, but the function first zeroes the state (76-78). *)
Definition keccak_absorb0 (junk : mem) (s : list Z) (r : Z) (m : list Z) (mlen p : Z) : M (list Z) :=
  s <- zero_state s ;; keccak_absorb junk s r m mlen p.

(** [((unsigned char * )s)[k] = b] (little-endian). *)
Definition setbyte (s : list Z) (k b : Z) : M (list Z) :=
  w <- rd s (k / 8) ;;
  wr s (k / 8) (wrap U64 (w - (w / 2 ^ (8 * (k mod 8))) mod 256 * 2 ^ (8 * (k mod 8)) + b mod 256 * 2 ^ (8 * (k mod 8)))).

(** fips202.c:132-154 ([r] = SHAKE128_RATE = 168) and 339-361 ([r] = SHAKE256_RATE = 136); the text
    differs only in the rate and in the second byte, which is the rate. *)
Definition cshake_simple_absorb (junk : mem) (r : Z) (s : list Z) (cstm : Z) (input : list Z) (inlen : Z) : M (list Z) :=
  s <- zero_state s ;;
  s <- setbyte s 0 0x01 ;;
  s <- setbyte s 1 r ;;
  s <- setbyte s 2 0x01 ;;
  s <- setbyte s 3 0x00 ;;
  s <- setbyte s 4 0x01 ;;
  s <- setbyte s 5 16 ;;
  s <- setbyte s 6 (Z.land cstm 0xff) ;;
  s <- setbyte s 7 (Z.shiftr cstm 8) ;;
  s <- KeccakF1600_StatePermute s ;;
  keccak_absorb0 junk s r input inlen 0x04.

(** fips202.c:163-181 and 370-388. *)
Definition cshake_simple (junk : mem) (r : Z) (output : list Z) (outlen cstm : Z) (input : list Z) (inlen : Z) : M (list Z) :=
  s <- cshake_simple_absorb (sub junk 2) r (uninit junk 0 25) cstm input inlen ;;
  '(output, s) <- keccak_squeezeblocks output (outlen / r) s r ;;
  at_ output (outlen / r * r) (fun output =>
    ite (negb (outlen mod r =? 0))
      ('(t, s) <- keccak_squeezeblocks (uninit junk 1 r) 1 s r ;;
       for_ 0 (outlen mod r) (fun i output => st U8 output i (Idx U8 t i)) output)
      (ret output)).
Definition cshake128_simple (junk : mem) := cshake_simple junk 168.
Definition cshake256_simple (junk : mem) := cshake_simple junk 136.
