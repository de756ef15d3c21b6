(** Model of the AVX2 implementation: AVX_Implementation_KEM/{SABER_indcpa.c,cbd.c,pack_unpack.c,kem.c}.
    Variants/uSaber-90s/avx2 has the same text up to the names of hash_h, hash_g and prf.

    The configuration [c] has [usaber c = false]: this code implements LightSaber, Saber and FireSaber only.  pack_unpack.c has
    POLVECp2BS (121-143), POLVECq2BS (145-186), BS2POLVECp (188-206), BS2POLVECq (208-233), SABER_pack_3bit, _4bit, _6bit and
    SABER_un_pack3bit, 4bit, 6bit (3-95) with the same loops and expressions as the reference, whose models are used here
    (the reference names the last six POLT2BS and BS2POLT); POLVEC2BS and BS2POLVEC (481-495) choose between them by the
    modulus, which is a constant in each call.  verify.c and fips202.c are those of the reference.  Reading the cycle counter and
    adding to the clock_* variables is left out. *)
From Coq Require Import ZArith List Bool.
From Verif Require Import Lib.Arr Lib.CInt Lib.CMon Model.Params Model.Verify Model.Pack Model.Cbd Model.Indcpa Model.Vec Model.AvxMul.
Import ListNotations.
Local Open Scope Z_scope.
Local Open Scope M_scope.

(** SABER_indcpa.c:15-17. *)
Definition avx_h1 : Z := 4.
Definition avx_h2 (c : cfg) : Z := 2 ^ (SABER_EP - 2) - 2 ^ (SABER_EP - SABER_ET c - 1) + 2 ^ (13 - SABER_EP - 1).

(** cbd.c:23-110.  As in the reference, except that each coefficient is reduced: [(uint16_t)(a[j] - b[j]) & Qmod_minus1]. *)
Notation redq a b := (Cast U16 (a - b)%C .& Var U16 8191)%C.
(** Lines 27-51 (Saber_type == 3). *)
Definition avx_cbd_6 (s buf : list Z) : M (list Z) :=
  for_ 0 (256 / 4) (fun i s =>
    p <- ptr buf (3 * i) ;;
    l <- load_littleendian p 3 ;;
    t <- asg U32 l ;;
    d <- asg U32 #0 ;;
    d <- for_ 0 3 (fun j d => asg U32 (d + ((t .>> Bnd I32 0 2 j) .& #0x249249))%C) d ;;
    a0 <- asg U32 (d .& #0x7)%C ;;
    b0 <- asg U32 ((d .>> #3) .& #0x7)%C ;;
    a1 <- asg U32 ((d .>> #6) .& #0x7)%C ;;
    b1 <- asg U32 ((d .>> #9) .& #0x7)%C ;;
    a2 <- asg U32 ((d .>> #12) .& #0x7)%C ;;
    b2 <- asg U32 ((d .>> #15) .& #0x7)%C ;;
    a3 <- asg U32 ((d .>> #18) .& #0x7)%C ;;
    b3 <- asg U32 (d .>> #21)%C ;;
    sts U16 s (4 * i) [redq a0 b0; redq a1 b1; redq a2 b2; redq a3 b3]) s.

(** Lines 52-78 (Saber_type == 2). *)
Definition avx_cbd_8 (s buf : list Z) : M (list Z) :=
  for_ 0 (256 / 4) (fun i s =>
    p <- ptr buf (4 * i) ;;
    l <- load_littleendian p 4 ;;
    t <- asg U32 l ;;
    d <- asg U32 #0 ;;
    d <- for_ 0 4 (fun j d => asg U32 (d + ((t .>> Bnd I32 0 3 j) .& #0x11111111))%C) d ;;
    a0 <- asg U32 (d .& #0xf)%C ;;
    b0 <- asg U32 ((d .>> #4) .& #0xf)%C ;;
    a1 <- asg U32 ((d .>> #8) .& #0xf)%C ;;
    b1 <- asg U32 ((d .>> #12) .& #0xf)%C ;;
    a2 <- asg U32 ((d .>> #16) .& #0xf)%C ;;
    b2 <- asg U32 ((d .>> #20) .& #0xf)%C ;;
    a3 <- asg U32 ((d .>> #24) .& #0xf)%C ;;
    b3 <- asg U32 (d .>> #28)%C ;;
    sts U16 s (4 * i) [redq a0 b0; redq a1 b1; redq a2 b2; redq a3 b3]) s.

(** Lines 79-105 (Saber_type == 1). *)
Definition avx_cbd_10 (s buf : list Z) : M (list Z) :=
  for_ 0 (256 / 4) (fun i s =>
    p <- ptr buf (5 * i) ;;
    l <- load_littleendian p 5 ;;
    t <- asg U64 l ;;
    d <- asg U64 #0 ;;
    d <- for_ 0 5 (fun j d => asg U64 (d + ((t .>> Bnd I32 0 4 j) .& Cst U64 0x0842108421))%C) d ;;
    a0 <- asg U64 (d .& #0x1f)%C ;;
    b0 <- asg U64 ((d .>> #5) .& #0x1f)%C ;;
    a1 <- asg U64 ((d .>> #10) .& #0x1f)%C ;;
    b1 <- asg U64 ((d .>> #15) .& #0x1f)%C ;;
    a2 <- asg U64 ((d .>> #20) .& #0x1f)%C ;;
    b2 <- asg U64 ((d .>> #25) .& #0x1f)%C ;;
    a3 <- asg U64 ((d .>> #30) .& #0x1f)%C ;;
    b3 <- asg U64 (d .>> #35)%C ;;
    sts U16 s (4 * i) [redq a0 b0; redq a1 b1; redq a2 b2; redq a3 b3]) s.

Definition avx_cbd (c : cfg) : list Z -> list Z -> M (list Z) :=
  match lvl c with Light => avx_cbd_10 | Saber => avx_cbd_8 | Fire => avx_cbd_6 end.

(** [__m256i x[n][16];], [__m256i x[n][n][16];] and [__m256i x[n][64];] *)
Definition vuninit2 (junk : mem) (tag n m : Z) : list (list vec) := ztab n (fun i => vuninit (sub junk tag) i m).
Definition vuninit3 (junk : mem) (tag n m : Z) : list (list (list vec)) := ztab n (fun i => vuninit2 (sub junk tag) i n m).

(** SABER_indcpa.c:203-209, 325-329, 377-381, 488-493: one polynomial, and [n] polynomials, are loaded into vectors. *)
Definition load_poly (s : list Z) (v : list vec) : M (list vec) :=
  for_ 0 16 (fun j v => x <- loadu s (j * 16) ;; setrow v j x) v.
Definition load_polys (n : Z) (s : list (list Z)) (v : list (list vec)) : M (list (list vec)) :=
  for_ 0 n (fun i v => si <- row s i ;; vi <- row v i ;; vi <- load_poly si vi ;; setrow v i vi) v.
(** SABER_indcpa.c:212-218, 332-338. *)
Definition load_matrix (n : Z) (a : list (list (list Z))) (v : list (list (list vec))) : M (list (list (list vec))) :=
  for_ 0 n (fun i v => ai <- row a i ;; vi <- row v i ;; vi <- load_polys n ai vi ;; setrow v i vi) v.
(** SABER_indcpa.c:246-250, 362-366, 426-429, 514-516: vectors are stored. *)
Definition store_poly (v : list vec) (s : list Z) : M (list Z) :=
  for_ 0 16 (fun j s => x <- row v j ;; storeu s (j * 16) x) s.
Definition store_polys (n : Z) (v : list (list vec)) (s : list (list Z)) : M (list (list Z)) :=
  for_ 0 n (fun i s => vi <- row v i ;; si <- row s i ;; si <- store_poly vi si ;; setrow s i si) s.

(** SABER_indcpa.c:232-238, 351-358. *)
Definition avx_round (n : Z) (res_avx : list (list vec)) : M (list (list vec)) :=
  for_ 0 n (fun i res_avx =>
    for_ 0 16 (fun j res_avx =>
      r <- row res_avx i ;; x <- row r j ;;
      let x := vadd x (vset1 avx_h1) in
      let x := vsrl x (13 - SABER_EP) in
      let x := vand x (vset1 8191) in
      r <- setrow r j x ;; setrow res_avx i r) res_avx) res_avx.

Section Avx.
  Variable prf : mem -> list Z -> Z -> list Z -> Z -> M (list Z).
  Context {S : Type}.
  Variable rb : S -> Z -> list Z * S.

  (** SABER_indcpa.c:105-128; BS2POLq is lines 81-102. *)
  Definition avx_GenMatrix (junk : mem) (c : cfg) (a : list (list (list Z))) (seed : list Z) : M (list (list (list Z))) :=
    let K := SABER_L c in
    let one_vector := 13 * SABER_N / 8 in
    let byte_bank_length := K * K * one_vector in
    let buf := uninit junk 0 byte_bank_length in
    let temp_ar := uninit junk 1 256 in
    buf <- prf (sub junk 2) buf byte_bank_length seed SABER_SEEDBYTES ;;
    '(a, _) <- for_ 0 K (fun i s =>
      for_ 0 K (fun j '(a, temp_ar) =>
        p <- ptr buf ((i * K + j) * one_vector) ;;
        temp_ar <- BS2POLq_13 p temp_ar ;;
        a <- for_ 0 256 (fun k a =>
          ai <- row a i ;; aij <- row ai j ;;
          aij <- st U16 aij k (Idx U16 temp_ar k .& Var U16 8191)%C ;;
          ai <- setrow ai j aij ;; setrow a i ai) a ;;
        ret (a, temp_ar)) s) (a, temp_ar) ;;
    ret a.

  (** SABER_indcpa.c:130-145. *)
  Definition avx_GenSecret (junk : mem) (c : cfg) (r : list (list Z)) (seed : list Z) : M (list (list Z)) :=
    let buf_size := SABER_MU c * SABER_N * SABER_L c / 8 in
    let buf := uninit junk 0 buf_size in
    buf <- prf (sub junk 1) buf buf_size seed SABER_NOISE_SEEDBYTES ;;
    for_ 0 (SABER_L c) (fun i r =>
      p <- ptr buf (i * SABER_MU c * SABER_N / 8) ;;
      ri <- row r i ;; ri <- avx_cbd c ri p ;; setrow r i ri) r.

  (** SABER_indcpa.c:153-258.  Returns the new contents of [pk] and [sk]. *)
  Definition avx_indcpa_kem_keypair (junk : mem) (c : cfg) (st : S) (pk sk : list Z) : M (list Z * list Z * S) :=
    let K := SABER_L c in
    let a := uninit3 junk 0 K in
    let skpv1 := uninit2 junk 1 K in
    let seed := uninit junk 2 SABER_SEEDBYTES in
    let noiseseed := uninit junk 3 32 in
    let sk_avx := vuninit2 junk 4 K 16 in
    let res_avx := vuninit2 junk 5 K 16 in
    let a_avx := vuninit3 junk 6 K 16 in
    let b_bucket := vuninit2 junk 7 K 64 in
    g <- load_values (sub junk 8) ;;
    '(seed, st) <- randombytes rb st seed SABER_SEEDBYTES ;;
    seed <- prf (sub junk 9) seed SABER_SEEDBYTES seed SABER_SEEDBYTES ;;
    '(noiseseed, st) <- randombytes rb st noiseseed 32 ;;
    a <- avx_GenMatrix (sub junk 10) c a seed ;;
    skpv1 <- avx_GenSecret (sub junk 11) c skpv1 noiseseed ;;
    sk_avx <- load_polys K skpv1 sk_avx ;;
    a_avx <- load_matrix K a a_avx ;;
    b_bucket <- eval_buckets (sub junk 12) K sk_avx b_bucket ;;
    res_avx <- matrix_vector_mul (sub junk 13) K g a_avx b_bucket res_avx 1 ;;
    res_avx <- avx_round K res_avx ;;
    sk <- POLVECq2BS c sk skpv1 ;;
    skpv1 <- store_polys K res_avx skpv1 ;;
    pk <- POLVECp2BS c pk skpv1 ;;
    pk <- for_ 0 SABER_SEEDBYTES (fun i pk => CMon.st U8 pk (SABER_POLYVECCOMPRESSEDBYTES c + i) (Idx U8 seed i)) pk ;;
    ret (pk, sk, st).

  (** SABER_indcpa.c:261-444.  Returns the new contents of [ciphertext]. *)
  Definition avx_indcpa_kem_enc (junk : mem) (c : cfg) (message_received noiseseed pk ciphertext : list Z) : M (list Z) :=
    let K := SABER_L c in
    let a := uninit3 junk 0 K in
    let seed := uninit junk 1 SABER_SEEDBYTES in
    let pkcl := uninit2 junk 2 K in
    let skpv1 := uninit2 junk 3 K in
    let temp := uninit2 junk 4 K in
    let message := uninit junk 5 256 in
    let msk_c := uninit junk 6 (SABER_SCALEBYTES_KEM c) in
    let sk_avx := vuninit2 junk 7 K 16 in
    let res_avx := vuninit2 junk 8 K 16 in
    let vprime_avx := vuninit junk 9 16 in
    let a_avx := vuninit3 junk 10 K 16 in
    let pkcl_avx := vuninit2 junk 11 K 16 in
    let message_avx := vuninit junk 12 16 in
    let b_bucket := vuninit2 junk 13 K 64 in
    g <- load_values (sub junk 14) ;;
    seed <- for_ 0 SABER_SEEDBYTES (fun i seed => CMon.st U8 seed i (Idx U8 pk (SABER_POLYVECCOMPRESSEDBYTES c + i))) seed ;;
    a <- avx_GenMatrix (sub junk 15) c a seed ;;
    skpv1 <- avx_GenSecret (sub junk 16) c skpv1 noiseseed ;;
    sk_avx <- load_polys K skpv1 sk_avx ;;
    a_avx <- load_matrix K a a_avx ;;
    b_bucket <- eval_buckets (sub junk 17) K sk_avx b_bucket ;;
    res_avx <- matrix_vector_mul (sub junk 18) K g a_avx b_bucket res_avx 0 ;;
    res_avx <- avx_round K res_avx ;;
    temp <- store_polys K res_avx temp ;;
    ciphertext <- POLVECp2BS c ciphertext temp ;;
    pkcl <- BS2POLVECp c pk pkcl ;;
    pkcl_avx <- load_polys K pkcl pkcl_avx ;;
    vprime_avx <- vector_vector_mul (sub junk 19) K g pkcl_avx b_bucket vprime_avx ;;
    vprime_avx <- for_ 0 16 (fun i v => x <- row v i ;; setrow v i (vadd x (vset1 avx_h1))) vprime_avx ;;
    message <- for_ 0 SABER_KEYBYTES (fun j message => for_ 0 8 (fun i message =>
      CMon.st U16 message (8 * j + i) ((Idx U8 message_received j .>> Bnd U32 0 7 i) .& #1)%C) message) message ;;
    message_avx <- for_ 0 16 (fun i m =>
      x <- loadu message (i * 16) ;; m <- setrow m i x ;; x <- row m i ;; setrow m i (vsll x (SABER_EP - 1))) message_avx ;;
    vprime_avx <- for_ 0 16 (fun k v =>
      x <- row v k ;; y <- row message_avx k ;;
      let x := vsub x y in
      let x := vand x (vset1 1023) in
      let x := vsrl x (SABER_EP - SABER_ET c) in
      setrow v k x) vprime_avx ;;
    t <- row temp 0 ;; t <- store_poly vprime_avx t ;;
    msk_c <- POLT2BS c msk_c t ;;
    for_ 0 (SABER_SCALEBYTES_KEM c) (fun j ciphertext =>
      CMon.st U8 ciphertext (SABER_POLYVECCOMPRESSEDBYTES c + j) (Idx U8 msk_c j)) ciphertext.

  (** SABER_indcpa.c:541-552. *)
  Definition POL2MSG (message_dec_unpacked message_dec : list Z) : M (list Z) :=
    for_ 0 SABER_KEYBYTES (fun j m =>
      m <- CMon.st U8 m j #0 ;;
      for_ 0 8 (fun i m => CMon.st U8 m j (Idx U8 m j .| (Idx U16 message_dec_unpacked (j * 8 + i) .<< Bnd I32 0 7 i))%C) m) message_dec.

  (** SABER_indcpa.c:447-539.  Returns the new contents of [message_dec]. *)
  Definition avx_indcpa_kem_dec (junk : mem) (c : cfg) (sk ciphertext message_dec : list Z) : M (list Z) :=
    let K := SABER_L c in
    let sksv := uninit2 junk 0 K in
    let pksv := uninit2 junk 1 K in
    let message_dec_unpacked := uninit junk 2 256 in
    let scale_ar := uninit junk 3 (SABER_SCALEBYTES_KEM c) in
    let op := uninit junk 4 256 in
    let v_avx := vuninit junk 5 16 in
    let sksv_avx := vuninit2 junk 6 K 16 in
    let pksv_avx := vuninit2 junk 7 K 16 in
    let b_bucket := vuninit2 junk 8 K 64 in
    g <- load_values (sub junk 9) ;;
    sksv <- BS2POLVECq c sk sksv ;;
    pksv <- BS2POLVECp c ciphertext pksv ;;
    (* lines 488-493 load sksv and pksv in one loop *)
    sksv_avx <- load_polys K sksv sksv_avx ;;
    pksv_avx <- load_polys K pksv pksv_avx ;;
    v_avx <- for_ 0 16 (fun i v => x <- row v i ;; setrow v i (vxor x x)) v_avx ;;
    b_bucket <- eval_buckets (sub junk 10) K sksv_avx b_bucket ;;
    v_avx <- vector_vector_mul (sub junk 11) K g pksv_avx b_bucket v_avx ;;
    message_dec_unpacked <- store_poly v_avx message_dec_unpacked ;;
    scale_ar <- for_ 0 (SABER_SCALEBYTES_KEM c) (fun i s =>
      CMon.st U8 s i (Idx U8 ciphertext (SABER_POLYVECCOMPRESSEDBYTES c + i))) scale_ar ;;
    op <- BS2POLT c scale_ar op ;;
    message_dec_unpacked <- for_ 0 256 (fun i m =>
      CMon.st U16 m i
        (((Idx U16 m i + Cst I32 (avx_h2 c) - (Idx U16 op i .<< Cst I32 (SABER_EP - SABER_ET c))) .& #1023) .>> Cst I32 (SABER_EP - 1))%C) message_dec_unpacked ;;
    POL2MSG message_dec_unpacked message_dec.

  (** kem.c, with the statements of the reference (kem.c:18-111). *)
  Variable hash_h hash_g : mem -> list Z -> list Z -> Z -> M (list Z).

  (** kem.c:19-42. *)
  Definition avx_kem_keypair (junk : mem) (c : cfg) (st : S) (pk sk : list Z) : M (list Z * list Z * S * Z) :=
    '(pk, sk, st) <- avx_indcpa_kem_keypair (sub junk 0) c st pk sk ;;
    sk <- for_ 0 (SABER_INDCPA_PUBLICKEYBYTES c) (fun i sk =>
      CMon.st U8 sk (i + SABER_INDCPA_SECRETKEYBYTES c) (Idx U8 pk i)) sk ;;
    sk <- at_ sk (SABER_SECRETKEYBYTES c - 64) (fun p => hash_h (sub junk 1) p pk (SABER_INDCPA_PUBLICKEYBYTES c)) ;;
    p <- ptr sk (SABER_SECRETKEYBYTES c - SABER_KEYBYTES) ;;
    '(p, st) <- randombytes rb st p SABER_KEYBYTES ;;
    sk <- at_ sk (SABER_SECRETKEYBYTES c - SABER_KEYBYTES) (fun _ => ret p) ;;
    ret (pk, sk, st, 0).

  (** kem.c:44-69. *)
  Definition avx_kem_enc (junk : mem) (cf : cfg) (st : S) (c k pk : list Z) : M (list Z * list Z * S * Z) :=
    let kr := uninit junk 0 64 in
    let buf := uninit8 junk 1 64 in
    '(buf, st) <- randombytes rb st buf 32 ;;
    buf <- hash_h (sub junk 2) buf buf 32 ;;
    buf <- at_ buf 32 (fun p => hash_h (sub junk 3) p pk (SABER_INDCPA_PUBLICKEYBYTES cf)) ;;
    kr <- hash_g (sub junk 4) kr buf 64 ;;
    r <- ptr kr 32 ;;
    c <- avx_indcpa_kem_enc (sub junk 5) cf buf r pk c ;;
    kr <- at_ kr 32 (fun p => hash_h (sub junk 6) p c (SABER_BYTES_CCA_DEC cf)) ;;
    k <- hash_h (sub junk 7) k kr 64 ;;
    ret (c, k, st, 0).

  (** kem.c:72-101. *)
  Definition avx_kem_dec (junk : mem) (cf : cfg) (k c sk : list Z) : M (list Z * Z) :=
    let cmp := uninit junk 0 (SABER_BYTES_CCA_DEC cf) in
    let buf := uninit junk 1 64 in
    let kr := uninit junk 2 64 in
    pk <- ptr sk (SABER_INDCPA_SECRETKEYBYTES cf) ;;
    buf <- avx_indcpa_kem_dec (sub junk 3) cf sk c buf ;;
    buf <- for_ 0 32 (fun i buf =>
      CMon.st U8 buf (32 + i) (Idx U8 sk (SABER_SECRETKEYBYTES cf - 64 + i))) buf ;;
    kr <- hash_g (sub junk 4) kr buf 64 ;;
    r <- ptr kr 32 ;;
    cmp <- avx_indcpa_kem_enc (sub junk 5) cf buf r pk cmp ;;
    fail <- verify c cmp (SABER_BYTES_CCA_DEC cf) ;;
    kr <- at_ kr 32 (fun p => hash_h (sub junk 6) p c (SABER_BYTES_CCA_DEC cf)) ;;
    z <- ptr sk (SABER_SECRETKEYBYTES cf - SABER_KEYBYTES) ;;
    b <- asg U8 fail ;;
    kr <- cmov kr z SABER_KEYBYTES b ;;
    k <- hash_h (sub junk 7) k kr 64 ;;
    ret (k, 0).
End Avx.
