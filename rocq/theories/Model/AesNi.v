(** Model of Variants/uSaber-90s/avx2/crypto_stream_aes256ctr.c and symmetric-aes.c: AES-256 in counter mode with the AES
    instructions.

    A 128-bit vector is the list of its 16 bytes, in the order of memory; a 64-bit lane is little-endian.  The meaning of the
    intrinsics follows Intel's documentation, which refers to the transformations of FIPS 197 (Spec/Aes.v).  Not modelled:
    alignment (the arrays that need it have the attribute), and that [n2] is accessed both as unsigned char and as long long. *)
From Coq Require Import ZArith List Bool.
From Verif Require Import Lib.Arr Lib.CInt Lib.CMon Spec.Aes.
Import ListNotations.
Local Open Scope Z_scope.
Local Open Scope M_scope.

(** ** Intrinsics *)

(** 32-bit element [k]. *)
Definition elt (v : list Z) (k : Z) : list Z := ztab 4 (fun j => get v (4 * k + j)).
(** 64-bit element [k] as a number, and the bytes of a number. *)
Definition qw (v : list Z) (k : Z) : Z := fold_right (fun j acc => get v (8 * k + j) + 256 * acc) 0 (ztab 8 (fun j => j)).
Definition le64 (x : Z) : list Z := ztab 8 (fun j => (x / 2 ^ (8 * j)) mod 256).

Definition mm_xor (a b : list Z) : list Z := ztab 16 (fun i => Z.lxor (get a i) (get b i)).
(** AESENC: ShiftRows, SubBytes, MixColumns, then xor with the round key.  AESENCLAST: without MixColumns. *)
Definition mm_aesenc (s k : list Z) : list Z := mm_xor (MixColumns (SubBytes (ShiftRows s))) k.
Definition mm_aesenclast (s k : list Z) : list Z := mm_xor (SubBytes (ShiftRows s)) k.
(** AESKEYGENASSIST: from elements 1 and 3. *)
Definition mm_aeskeygenassist (a : list Z) (imm : Z) : list Z :=
  SubWord (elt a 1) ++ xorw (RotWord (SubWord (elt a 1))) [imm; 0; 0; 0] ++
  SubWord (elt a 3) ++ xorw (RotWord (SubWord (elt a 3))) [imm; 0; 0; 0].
(** SHUFPS: two elements of [a], then two of [b], chosen by the four 2-bit fields of [imm]. *)
Definition mm_shuffle_ps (a b : list Z) (imm : Z) : list Z :=
  elt a (imm mod 4) ++ elt a ((imm / 4) mod 4) ++ elt b ((imm / 16) mod 4) ++ elt b ((imm / 64) mod 4).
(** PSHUFB: a byte of the mask with bit 7 set gives 0. *)
Definition mm_shuffle_epi8 (a m : list Z) : list Z := ztab 16 (fun i => if 128 <=? get m i then 0 else get a (get m i mod 16)).
Definition mm_add_epi64 (a b : list Z) : list Z := le64 (qw a 0 + qw b 0) ++ le64 (qw a 1 + qw b 1).
(** The arguments of the set intrinsics begin with the highest element. *)
Definition mm_set_epi64x (hi lo : Z) : list Z := le64 lo ++ le64 hi.
Definition mm_set_epi8 (l : list Z) : list Z := rev l.
(** 16 bytes from and to memory. *)
Definition mm_load (p : list Z) : M (list Z) := memcpy (zeros 16) p 16.
Definition mm_store (p v : list Z) : M (list Z) := memcpy p v 16.

(** ** crypto_stream_aes256ctr.c *)

(** Lines 47-55 and 57-65.  The state: temp0, temp2, temp4, rkeys, idx. *)
Definition BLOCK1 (imm : Z) : list Z * list Z * list Z * list (list Z) * Z -> M (list Z * list Z * list Z * list (list Z) * Z) :=
  fun '(temp0, temp2, temp4, rkeys, idx) =>
    let temp1 := mm_aeskeygenassist temp2 imm in
    rkeys <- setrow rkeys idx temp2 ;;
    let temp4 := mm_shuffle_ps temp4 temp0 0x10 in
    let temp0 := mm_xor temp0 temp4 in
    let temp4 := mm_shuffle_ps temp4 temp0 0x8c in
    let temp0 := mm_xor temp0 temp4 in
    let temp1 := mm_shuffle_ps temp1 temp1 0xff in
    let temp0 := mm_xor temp0 temp1 in
    ret (temp0, temp2, temp4, rkeys, idx + 1).
Definition BLOCK2 (imm : Z) : list Z * list Z * list Z * list (list Z) * Z -> M (list Z * list Z * list Z * list (list Z) * Z) :=
  fun '(temp0, temp2, temp4, rkeys, idx) =>
    let temp1 := mm_aeskeygenassist temp0 imm in
    rkeys <- setrow rkeys idx temp0 ;;
    let temp4 := mm_shuffle_ps temp4 temp2 0x10 in
    let temp2 := mm_xor temp2 temp4 in
    let temp4 := mm_shuffle_ps temp4 temp2 0x8c in
    let temp2 := mm_xor temp2 temp4 in
    let temp1 := mm_shuffle_ps temp1 temp1 0xaa in
    let temp2 := mm_xor temp2 temp1 in
    ret (temp0, temp2, temp4, rkeys, idx + 1).

(** Lines 26-87. *)
Definition aesni_key256_expand (key : list Z) (rkeys : list (list Z)) : M (list (list Z)) :=
  key0 <- mm_load key ;;
  p <- ptr key 16 ;;
  key1 <- mm_load p ;;
  rkeys <- setrow rkeys 0 key0 ;;
  s <- BLOCK1 0x01 (key0, key1, zeros 16, rkeys, 1) ;; s <- BLOCK2 0x01 s ;;
  s <- BLOCK1 0x02 s ;; s <- BLOCK2 0x02 s ;;
  s <- BLOCK1 0x04 s ;; s <- BLOCK2 0x04 s ;;
  s <- BLOCK1 0x08 s ;; s <- BLOCK2 0x08 s ;;
  s <- BLOCK1 0x10 s ;; s <- BLOCK2 0x10 s ;;
  s <- BLOCK1 0x20 s ;; s <- BLOCK2 0x20 s ;;
  '(temp0, _, _, rkeys, idx) <- BLOCK1 0x40 s ;;
  setrow rkeys idx temp0.

(** The mask of lines 131 and 134. *)
Definition bswap_mask : list Z := mm_set_epi8 [8; 9; 10; 11; 12; 13; 14; 15; 0; 1; 2; 3; 4; 5; 6; 7].

(** Lines 136-151 and 194-200: the blocks nv0, ..., nv(N-1) are encrypted together.  rkeys[i] is read once for all blocks. *)
Definition aesni_blocks (N : Z) (out : list Z) (nv : list (list Z)) (rkeys : list (list Z)) : M (list Z) :=
  k <- row rkeys 0 ;;
  let temp := map (fun v => mm_xor v k) nv in
  temp <- for_ 1 14 (fun i temp => k <- row rkeys i ;; ret (map (fun t => mm_aesenc t k) temp)) temp ;;
  k <- row rkeys 14 ;;
  let temp := map (fun t => mm_aesenclast t k) temp in
  for_ 0 N (fun a out => t <- row temp a ;; at_ out (a * 16) (fun p => mm_store p t)) out.

(** Lines 180-201, FUNC(N, MAKEN).  Returns [out] and [n]. *)
Definition aesni_encrypt (N : Z) (out n : list Z) (rkeys : list (list Z)) : M (list Z * list Z) :=
  nv0i <- mm_load n ;;
  p <- ptr n 8 ;;
  nl <- memcpy (zeros 8) p 8 ;;
  let nl := wrap I64 (qw nl 0) in
  '(nv, n) <- ite ((nl <? 0) && (0 <=? nl + (N - 1)))
    (let wrapnumber := wrap I32 (N - (nl + N)) in
     let nv := ztab N (fun a => mm_shuffle_epi8 (mm_add_epi64 nv0i (mm_set_epi64x a (if wrapnumber <=? a then 1 else 0))) bswap_mask) in
     n <- mm_store n (mm_add_epi64 nv0i (mm_set_epi64x N 1)) ;; ret (nv, n))
    (let nv := ztab N (fun a => mm_shuffle_epi8 (mm_add_epi64 nv0i (mm_set_epi64x a 0)) bswap_mask) in
     n <- mm_store n (mm_add_epi64 nv0i (mm_set_epi64x N 0)) ;; ret (nv, n)) ;;
  out <- aesni_blocks N out nv rkeys ;;
  ret (out, n).

(** Lines 211-250, with the macro LOOP of lines 235-245.  [iter] is 8 in line 247.  Returns the contents of [out] and the result. *)
Definition crypto_stream_aes256ctr_iter (iter : Z) (junk : mem) (out : list Z) (outlen : Z) (n k : list Z) : M (list Z * Z) :=
  let rkeys := ztab 16 (fun i => uninit (sub junk 0) i 16) in
  let n2 := uninit8 junk 1 16 in
  rkeys <- aesni_key256_expand k rkeys ;;
  n2 <- for_ 0 8 (fun i n2 => st U8 n2 i (Idx U8 n (7 - i))) n2 ;;
  n2 <- for_ 8 16 (fun i n2 => st U8 n2 i (Idx U8 n (23 - i))) n2 ;;
  let lb := iter * 16 in
  '(out, _, _) <- while_ (S (S (Z.to_nat (outlen / lb)))) (fun '(_, _, i) => i <? outlen)
    (fun '(out, n2, i) =>
      let outni := uninit (sub junk 2) i lb in
      '(outni, n2) <- aesni_encrypt iter outni n2 rkeys ;;
      mj <- ite (outlen <=? i + lb) (ret (outlen - i)) (ret lb) ;;
      out <- for_ 0 mj (fun j out => st U8 out (i + j) (Idx U8 outni j)) out ;;
      ret (out, n2, i + lb)) (out, n2, 0) ;;
  ret (out, 0).
Definition crypto_stream_aes256ctr : mem -> list Z -> Z -> list Z -> list Z -> M (list Z * Z) := crypto_stream_aes256ctr_iter 8.

(** symmetric-aes.c:7-11, called by the macro prf (symmetric.h:15), which drops the last argument. *)
Definition avx_aes256ctr_prf (junk : mem) (output : list Z) (outlen : Z) (input : list Z) (_ : Z) : M (list Z) :=
  '(output, _) <- crypto_stream_aes256ctr junk output outlen (zeros 16) input ;;
  ret output.
