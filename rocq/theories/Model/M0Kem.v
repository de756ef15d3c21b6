(** Model of key generation and encapsulation in Cortex-M_Implementation_KEM/Cortex-M0/saber-ref-mem/src
    (SABER_K = 3, SABER_N = 256, SABER_Q = 8192, SABER_P = 1024, SHAKE128_RATE = 168).  The hash functions of fips202.c are
    those of the reference ([zero_state] followed by [keccak_absorb] is the [keccak_absorb] of this directory). *)
From Coq Require Import ZArith List.
From Verif Require Import Lib.Arr Lib.CInt Lib.CMon Model.Params Model.Pack Model.Indcpa Model.Fips202 Model.M0.
Import ListNotations.
Local Open Scope Z_scope.
Local Open Scope M_scope.

Definition m0_cfg : cfg := Cfg Saber false false.

(** ** prng.c *)

(** prng.c:36-58.  [word k] is what the [k]-th read of the register PRNG_WORD returns (a [uint32_t]) and [k] counts the reads;
    the union [random] gives [aschar[0]] = the low and [aschar[1]] = the high half word (little-endian).  [i] is the position
    of [x].  Returns [x] and the number of reads. *)
Section Prng.
  Variable word : Z -> Z.
  Definition aschar (w h : Z) : M cexp :=
    if h =? 0 then ret (Var U16 (wrap U16 w)) else if h =? 1 then ret (Var U16 (wrap U16 (Z.shiftr w 16))) else undef.
  Definition prng_randombytes (x : list Z) (xlen k : Z) : M (list Z * Z) :=
    '(x, i, xlen, k) <- while_ (S (Z.to_nat xlen)) (fun '(_, _, xlen, _) => 2 <? xlen) (fun '(x, i, xlen, k) =>
      let w := word k in
      c <- aschar w 0 ;;
      x <- st U8 x i c ;;
      c <- aschar w 1 ;;
      x <- st U8 x (i + 1) c ;;
      ret (x, i + 2, xlen - 2, k + 1)) (x, 0, xlen, k) ;;
    ite (0 <? xlen)
      (let w := word k in
       '(x, i, xlen) <- while_ (S (Z.to_nat xlen)) (fun '(_, _, xlen) => 0 <? xlen) (fun '(x, i, xlen) =>
         c <- aschar w (xlen - 1) ;;
         x <- st U8 x i c ;;
         ret (x, i + 1, xlen - 1)) (x, i, xlen) ;;
       ret (x, k + 1))
      (ret (x, k)).
End Prng.

(** ** Sampling *)

(** [keccak_squeezeblocks(buf + off, 1, s, SHAKE128_RATE)].  Returns [buf] and [s]. *)
Definition squeeze1 (buf : list Z) (off : Z) (s : list Z) : M (list Z * list Z) :=
  p <- ptr buf off ;;
  '(p, s) <- keccak_squeezeblocks p 1 s SHAKE128_RATE ;;
  buf <- at_ buf off (fun _ => ret p) ;;
  ret (buf, s).

(** SABER_indcpa.c:29-49.  The stores are at [pol_part + pol_part_start_index]. *)
Definition byte_bank2pol_part (bytes pol_part : list Z) (pol_part_start_index num_8coeff : Z) : M (list Z) :=
  at_ pol_part pol_part_start_index (fun p =>
    for_ 0 num_8coeff (fun j p =>
      let B k := Idx U8 bytes (13 * j + k) in
      sts U16 p (8 * j) [
        (B 0 .& #0xff) .| ((B 1 .& #0x1f) .<< #8);
        (B 1 .>> #5 .& #0x07) .| ((B 2 .& #0xff) .<< #3) .| ((B 3 .& #0x03) .<< #11);
        (B 3 .>> #2 .& #0x3f) .| ((B 4 .& #0x7f) .<< #6);
        (B 4 .>> #7 .& #0x01) .| ((B 5 .& #0xff) .<< #1) .| ((B 6 .& #0x0f) .<< #9);
        (B 6 .>> #4 .& #0x0f) .| ((B 7 .& #0xff) .<< #4) .| ((B 8 .& #0x01) .<< #12);
        (B 8 .>> #1 .& #0x7f) .| ((B 9 .& #0x3f) .<< #7);
        (B 9 .>> #6 .& #0x03) .| ((B 10 .& #0xff) .<< #2) .| ((B 11 .& #0x07) .<< #10);
        (B 11 .>> #3 .& #0x1f) .| ((B 12 .& #0xff) .<< #5)
      ]%C) p).

(** The static variables of [GenMatrix_poly] (118-125) that keep their values from one call to the next: [shake_op_buf]
    (280 bytes), [s] (25 words), [pol_part_start_index] and [left_over_bytes] ([uint16_t]). *)
Record gmstate := Gm { g_buf : list Z; g_s : list Z; g_start : Z; g_left : Z }.

(** SABER_indcpa.c:116-175.  Returns the static variables and [temp_ar].  The state is zeroed in 132-133 and once more in
    [keccak_absorb].  The [while] loop makes at most three
    passes, since each fills at least 12 groups of eight coefficients or completes the polynomial. *)
Definition GenMatrix_poly (junk : mem) (g : gmstate) (temp_ar seed : list Z) (poly_number : Z) : M (gmstate * list Z) :=
  g <- ite (poly_number =? 0)
    (s <- zero_state (g_s g) ;;
     s <- keccak_absorb0 junk s SHAKE128_RATE seed 32 0x1F ;;
     ret (Gm (g_buf g) s 0 0))
    (ret g) ;;
  '(g, temp_ar, _) <- while_ 4 (fun '(_, _, poly_complete) => negb (poly_complete =? 1)) (fun '(g, temp_ar, poly_complete) =>
    '(buf, s) <- squeeze1 (g_buf g) (g_left g) (g_s g) ;;
    let total_bytes := wrap U16 (g_left g + SHAKE128_RATE) in
    let num_8coeff := total_bytes / 13 in
    num_8coeff_final <- ite (255 <? num_8coeff * 8 + g_start g) (ret (wrap U16 (32 - g_start g / 8))) (ret num_8coeff) ;;
    temp_ar <- byte_bank2pol_part buf temp_ar (g_start g) num_8coeff_final ;;
    let left_over_bytes := wrap U16 (total_bytes - num_8coeff_final * 13) in
    buf <- for_ 0 left_over_bytes (fun j buf => st U8 buf j (Idx U8 buf (num_8coeff_final * 13 + j))) buf ;;
    let start := wrap U16 (g_start g + num_8coeff_final * 8) in
    ite (255 <? start)
      (ret (Gm buf s 0 left_over_bytes, temp_ar, wrap U16 (poly_complete + 1)))
      (ret (Gm buf s start left_over_bytes, temp_ar, poly_complete))) (g, temp_ar, 0) ;;
  ret (g, temp_ar).

(** cbd.c:15-22. *)
Definition m0_load_littleendian (x : list Z) (bytes : Z) : M cexp :=
  r <- asg U32 (Idx U8 x 0) ;;
  for_ 1 bytes (fun i r => asg U32 (r .| (Cast U32 (Idx U8 x i) .<< (#8 * Bnd I32 1 3 i)))%C) r.

(** cbd.c:57-87.  The stores are at [r + poly_start_index]; [a], [b] as in the reference. *)
Definition m0_cbd (poly_start_index : Z) (r : list Z) (use_bytes : Z) (buf : list Z) : M (list Z) :=
  let Qm := Var U16 8191 in
  at_ r poly_start_index (fun r =>
    for_ 0 (use_bytes / 4) (fun i r =>
      p <- ptr buf (4 * i) ;;
      t <- m0_load_littleendian p 4 ;;
      t <- asg U32 t ;;
      d <- asg U32 #0 ;;
      d <- for_ 0 4 (fun j d => asg U32 (d + ((t .>> Bnd I32 0 3 j) .& #0x11111111))%C) d ;;
      a0 <- asg U32 (d .& #0xf)%C ;;
      b0 <- asg U32 ((d .>> #4) .& #0xf)%C ;;
      a1 <- asg U32 ((d .>> #8) .& #0xf)%C ;;
      b1 <- asg U32 ((d .>> #12) .& #0xf)%C ;;
      a2 <- asg U32 ((d .>> #16) .& #0xf)%C ;;
      b2 <- asg U32 ((d .>> #20) .& #0xf)%C ;;
      a3 <- asg U32 ((d .>> #24) .& #0xf)%C ;;
      b3 <- asg U32 (d .>> #28)%C ;;
      sts U16 r (4 * i) [Cast U16 (a0 - b0) .& Qm; Cast U16 (a1 - b1) .& Qm; Cast U16 (a2 - b2) .& Qm; Cast U16 (a3 - b3) .& Qm]%C) r).

(** [cbd(start, r[i], use_bytes, buf);] *)
Definition cbd_row (r : list (list Z)) (i start use_bytes : Z) (buf : list Z) : M (list (list Z)) :=
  ri <- row r i ;; ri <- m0_cbd start ri use_bytes buf ;; setrow r i ri.

(** poly.c:32-82. *)
Definition m0_GenSecret (junk : mem) (r : list (list Z)) (seed : list Z) : M (list (list Z)) :=
  let buf := uninit8 junk 0 248 in
  s <- zero_state (uninit junk 1 25) ;;
  s <- keccak_absorb0 (sub junk 2) s SHAKE128_RATE seed 32 0x1F ;;
  '(buf, s) <- squeeze1 buf 0 s ;;
  r <- cbd_row r 0 0 168 buf ;;
  '(buf, s) <- squeeze1 buf 0 s ;;
  r <- cbd_row r 0 168 88 buf ;;
  buf <- for_ 88 168 (fun i buf => st U8 buf (i - 88) (Idx U8 buf i)) buf ;;
  '(buf, s) <- squeeze1 buf 80 s ;;
  r <- cbd_row r 1 0 248 buf ;;
  '(buf, s) <- squeeze1 buf 0 s ;;
  r <- cbd_row r 1 248 8 buf ;;
  buf <- for_ 8 168 (fun i buf => st U8 buf (i - 8) (Idx U8 buf i)) buf ;;
  r <- cbd_row r 2 0 160 buf ;;
  '(buf, s) <- squeeze1 buf 0 s ;;
  cbd_row r 2 160 96 buf.

(** [res[k] = res[k] + 4; res[k] = res[k] >> 3;] for one row: SABER_indcpa.c:208-213, 421-425. *)
Definition m0_round (r : list Z) : M (list Z) :=
  for_ 0 256 (fun j r =>
    r <- st U16 r j (Idx U16 r j + #4)%C ;;
    st U16 r j (Idx U16 r j .>> #3)%C) r.

(** ** SABER_indcpa.c; the multiplication [pol_mul a b res] is a parameter. *)
Section Kem.
  Variable pol_mul : list Z -> list Z -> list Z -> M (list Z).
  Context {S : Type}.
  Variable rb : S -> Z -> list Z * S.

  (** SABER_indcpa.c:370-390.  [g]: the static variables of [GenMatrix_poly] at entry; their last values are dropped, since
      the next use of [GenMatrix_poly] starts with [poly_number = 0].  The argument [mod] is not used. *)
  Definition MatrixVectorMul_keypair (junk : mem) (g : gmstate) (seed : list Z) (skpv res : list (list Z)) : M (list (list Z)) :=
    '(g, temp_ar, res) <- for_ 0 3 (fun i '(g, temp_ar, res) =>
      for_ 0 3 (fun j '(g, temp_ar, res) =>
        '(g, temp_ar) <- GenMatrix_poly (sub (sub junk i) j) g temp_ar seed (i + j) ;;
        s <- row skpv i ;;
        r <- row res j ;;
        r <- pol_mul temp_ar s r ;;
        res <- setrow res j r ;;
        ret (g, temp_ar, res)) (g, temp_ar, res)) (g, uninit junk 3 256, res) ;;
    ret res.

  (** SABER_indcpa.c:392-431; [POLp2BS] is pack_unpack.c:261-283, the same text as in the reference at [bytes + 320 * i]. *)
  Definition MatrixVectorMul_encryption (junk : mem) (g : gmstate) (seed : list Z) (skpv : list (list Z)) (ciphertext : list Z) : M (list Z) :=
    '(g, acc, res, ciphertext) <- for_ 0 3 (fun i '(g, acc, res, ciphertext) =>
      '(acc, res) <- for_ 0 256 (fun j '(acc, res) =>
        res <- st U16 res j #0 ;; acc <- st U16 acc j #0 ;; ret (acc, res)) (acc, res) ;;
      '(g, acc, res) <- for_ 0 3 (fun j '(g, acc, res) =>
        '(g, acc) <- GenMatrix_poly (sub (sub junk i) j) g acc seed (i + j) ;;
        s <- row skpv j ;;
        res <- pol_mul acc s res ;;
        ret (g, acc, res)) (g, acc, res) ;;
      res <- m0_round res ;;
      ciphertext <- at_ ciphertext (i * (256 * 10) / 8) (fun p => POLp2BS p res) ;;
      ret (g, acc, res, ciphertext)) (g, uninit junk 3 256, uninit junk 4 256, ciphertext) ;;
    ret ciphertext.

  (** SABER_indcpa.c:178-235.  [POLVECq2BS] and [POLVECp2BS] (pack_unpack.c:169-210, 102-126) are the text of the reference
      written out for each row.  Returns [pk], [sk] and the state of the random source. *)
  Definition m0_indcpa_keypair (junk : mem) (g : gmstate) (st : S) (pk sk : list Z) : M (list Z * list Z * S) :=
    '(seed, st) <- randombytes rb st (uninit junk 0 32) 32 ;;
    seed <- shake128 (sub junk 1) seed 32 seed 32 ;;
    '(noiseseed, st) <- randombytes rb st (uninit junk 2 32) 32 ;;
    skpv <- m0_GenSecret (sub junk 3) (uninit2 junk 4 3) noiseseed ;;
    res <- for_ 0 3 (fun i res => for_ 0 256 (fun j res =>
      r <- row res i ;; r <- CMon.st U16 r j #0 ;; setrow res i r) res) (uninit2 junk 5 3) ;;
    res <- MatrixVectorMul_keypair (sub junk 6) g seed skpv res ;;
    res <- for_ 0 3 (fun i res => r <- row res i ;; r <- m0_round r ;; setrow res i r) res ;;
    sk <- POLVECq2BS m0_cfg sk skpv ;;
    pk <- POLVECp2BS m0_cfg pk res ;;
    pk <- for_ 0 32 (fun i pk => CMon.st U8 pk (960 + i) (Idx U8 seed i)) pk ;;
    ret (pk, sk, st).

  (** SABER_indcpa.c:238-322. *)
  Definition m0_indcpa_enc (junk : mem) (g : gmstate) (message_received noiseseed pk ciphertext : list Z) : M (list Z) :=
    seed <- for_ 0 32 (fun i seed => st U8 seed i (Idx U8 pk (960 + i))) (uninit8 junk 0 32) ;;
    skpv1 <- m0_GenSecret (sub junk 1) (uninit2 junk 2 3) noiseseed ;;
    ciphertext <- MatrixVectorMul_encryption (sub junk 3) g seed skpv1 ciphertext ;;
    vprime <- for_ 0 256 (fun i v => st U16 v i #0) (uninit junk 4 256) ;;
    skpv1 <- for_ 0 3 (fun i skpv1 => for_ 0 256 (fun j skpv1 =>
      r <- row skpv1 i ;; r <- st U16 r j (Idx U16 r j .& #1023)%C ;; setrow skpv1 i r) skpv1) skpv1 ;;
    vprime <- VectorMul pol_mul (sub junk 5) pk skpv1 vprime ;;
    vprime <- for_ 0 32 (fun j vprime => for_ 0 8 (fun i vprime =>
      message_bit <- asg U16 ((Idx U8 message_received j .>> Bnd U32 0 7 i) .& #0x01)%C ;;
      message_bit <- asg U16 (message_bit .<< #9)%C ;;
      st U16 vprime (j * 8 + i) (Idx U16 vprime (j * 8 + i) + message_bit)%C) vprime) vprime ;;
    msk_c <- GenCipherText (sub junk 6) vprime (uninit8 junk 7 128) ;;
    for_ 0 128 (fun j ciphertext => st U8 ciphertext (960 + j) (Idx U8 msk_c j)) ciphertext.

  (** kem.c:12-25.  Returns [pk], [sk], the state of the random source and the return value. *)
  Definition m0_kem_keypair (junk : mem) (g : gmstate) (st : S) (pk sk : list Z) : M (list Z * list Z * S * Z) :=
    '(pk, sk, st) <- m0_indcpa_keypair (sub junk 0) g st pk sk ;;
    sk <- for_ 0 992 (fun i sk => CMon.st U8 sk (i + 1248) (Idx U8 pk i)) sk ;;
    sk <- at_ sk (2304 - 64) (fun p => sha3_256 (sub junk 1) p pk 992) ;;
    p <- ptr sk (2304 - 32) ;;
    '(p, st) <- randombytes rb st p 32 ;;
    sk <- at_ sk (2304 - 32) (fun _ => ret p) ;;
    ret (pk, sk, st, 0).

  (** kem.c:27-48.  Returns [c], [k], the state of the random source and the return value. *)
  Definition m0_kem_enc (junk : mem) (g : gmstate) (st : S) (c k pk : list Z) : M (list Z * list Z * S * Z) :=
    '(buf, st) <- randombytes rb st (uninit8 junk 1 64) 32 ;;
    buf <- sha3_256 (sub junk 2) buf buf 32 ;;
    buf <- at_ buf 32 (fun p => sha3_256 (sub junk 3) p pk 992) ;;
    kr <- sha3_512 (sub junk 4) (uninit junk 0 64) buf 64 ;;
    r <- ptr kr 32 ;;
    c <- m0_indcpa_enc (sub junk 5) g buf r pk c ;;
    kr <- at_ kr 32 (fun p => sha3_256 (sub junk 6) p c 1088) ;;
    k <- sha3_256 (sub junk 7) k kr 64 ;;
    ret (c, k, st, 0).
End Kem.

(** ** verify.c *)

(** verify.c:14-25; [r] is a [uint32_t]. *)
Definition m0_verify (a b : list Z) (n : Z) : M cexp :=
  r <- asg U32 #0 ;;
  r <- for_ 0 n (fun i r => asg U32 (r .| (Idx U8 a i .^ Idx U8 b i))%C) r ;;
  r <- asg U32 (Neg r .>> #31)%C ;;
  asg I32 r.
