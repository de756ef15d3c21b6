(** Model of the key encapsulation of Variants/SaberX4_avx2: four key pairs, encapsulations or decapsulations at a time.
    SABER_indcpa.c, kem4x.c and kem.c; the parameters are those of Saber (SABER_params.h, K = 3).

    The four instances work on separate arrays.  Where the C code interleaves them statement by statement, the
    model runs the statements between two four-fold calls for one instance after the other.  The parts shared with the AVX2
    implementation are taken from there: load_values, TC_eval, matrix_vector_mul and vector_vector_mul (SABER_indcpa.c:57-88, 950-984 and polymul/),
    cbd (cbd.c), POL2MSG (SABER_indcpa.c:937-948), verify and cmov (verify.c); they are the same text.

    [tlen] is the size of the buffers t0, ..., t3 of shake128x4, SHAKE256_RATE = 136 in the code (fips202x4.c:155-158). *)
From Coq Require Import ZArith List.
From Verif Require Import Lib.Arr Lib.CInt Lib.CMon Model.Params Model.Pack Model.Indcpa Model.Verify Model.Fips202x4 Model.Vec Model.AvxMul Model.AvxKem Model.X4Pack.
Import ListNotations.
Local Open Scope Z_scope.
Local Open Scope M_scope.

(** SABER_params.h:17-58. *)
Definition x4 : cfg := Cfg Saber false false.

(** SABER_indcpa.c:376-398. *)
Definition GenMatrix4x (tlen : Z) (junk : mem) (a : quad (list (list (list vec)))) (seed : quad (list Z)) : M (quad (list (list (list vec)))) :=
  let one_vector := 13 * SABER_N / 8 in
  let byte_bank_length := 3 * 3 * one_vector in
  let buf := tab4 (fun m => uninit junk m byte_bank_length) in
  buf <- shake128x4 tlen (sub junk 4) buf byte_bank_length seed SABER_SEEDBYTES ;;
  for_ 0 3 (fun i => for_ 0 3 (fun j a =>
    p <- for4 (fun _ b => ptr b ((i * 3 + j) * one_vector)) buf ;;
    d <- for4 (fun _ am => r <- row am i ;; row r j) a ;;
    d <- BS2POLq4x (sub junk (5 + (i * 3 + j))) p d ;;
    for4 (fun m am => set2 am i j (sel d m)) a)) a.

(** SABER_indcpa.c:419-440. *)
Definition GenSecret4x (tlen : Z) (junk : mem) (r : quad (list (list Z))) (seed : quad (list Z)) : M (quad (list (list Z))) :=
  let buf_size := SABER_MU x4 * SABER_N * 3 / 8 in
  let buf := tab4 (fun m => uninit junk m buf_size) in
  buf <- shake128x4 tlen (sub junk 4) buf buf_size seed SABER_SEEDBYTES ;;
  for_ 0 3 (fun i => for4 (fun m r =>
    p <- ptr (sel buf m) (i * SABER_MU x4 * SABER_N / 8) ;;
    ri <- row r i ;; ri <- avx_cbd x4 ri p ;; setrow r i ri)) r.

(** SABER_indcpa.c:510-520, 671-682, for one instance. *)
Definition copy_matrix (a a_avx : list (list (list vec))) : M (list (list (list vec))) :=
  for_ 0 3 (fun i v => for_ 0 3 (fun j v => for_ 0 16 (fun k v =>
    ai <- row a i ;; aij <- row ai j ;; x <- row aij k ;;
    vi <- row v i ;; vij <- row vi j ;; vij <- setrow vij k x ;; set2 v i j vij) v) v) a_avx.

(** SABER_indcpa.c:751-756 and 878-884, for one instance; SABER_indcpa.c:522-529, 685-692 are three of them. *)
Definition clear (v : list vec) : M (list vec) := for_ 0 16 (fun i v => x <- row v i ;; setrow v i (vxor x x)) v.
Definition clear3 (res_avx : list (list vec)) : M (list (list vec)) :=
  for_ 0 3 (fun i res_avx => r <- row res_avx i ;; r <- clear r ;; setrow res_avx i r) res_avx.

(** SABER_indcpa.c:544-558, 710-726, for one instance.  Unlike the AVX2 code there is no mask. *)
Definition x4_round (res_avx : list (list vec)) : M (list (list vec)) :=
  for_ 0 3 (fun i res_avx =>
    r <- row res_avx i ;;
    r <- for_ 0 16 (fun j r =>
      x <- row r j ;;
      let x := vadd x (vset1 avx_h1) in
      let x := vsrl x (13 - SABER_EP) in
      setrow r j x) r ;;
    setrow res_avx i r) res_avx.

(** SABER_indcpa.c:499-558 and 660-726, for one instance: the vectors of the secret, the buckets, the rounded product.  Returns [b_bucket] and [res_avx]. *)
Definition x4_product (junk : mem) (g : list vec) (tr : Z) (a : list (list (list vec))) (skpv1 : list (list Z)) : M (list (list vec) * list (list vec)) :=
  let sk_avx := vuninit2 junk 0 3 16 in
  let res_avx := vuninit2 junk 1 3 16 in
  let a_avx := vuninit3 junk 2 3 16 in
  let b_bucket := vuninit2 junk 3 3 64 in
  sk_avx <- load_polys 3 skpv1 sk_avx ;;
  a_avx <- copy_matrix a a_avx ;;
  res_avx <- clear3 res_avx ;;
  b_bucket <- eval_buckets (sub junk 4) 3 sk_avx b_bucket ;;
  res_avx <- matrix_vector_mul (sub junk 5) 3 g a_avx b_bucket res_avx tr ;;
  res_avx <- x4_round res_avx ;;
  ret (b_bucket, res_avx).

(** SABER_indcpa.c:448-583; POLVEC2BSX4 (pack_unpack.c:1692-1702) selects the function by its last argument.
    Returns the new contents of [pk] and [sk] ([seed_arr] is a local array of the caller, not used afterwards). *)
Definition x4_indcpa_keypair (tlen : Z) (junk : mem) (pk sk seed_arr noiseseed_arr : quad (list Z)) : M (quad (list Z) * quad (list Z)) :=
  let a := tab4 (fun m => vuninit3 (sub junk 0) m 3 16) in
  let skpv1 := tab4 (fun m => uninit2 (sub junk 1) m 3) in
  g <- load_values (sub junk 2) ;;
  seed_arr <- shake128x4 tlen (sub junk 3) seed_arr SABER_SEEDBYTES seed_arr SABER_SEEDBYTES ;;
  a <- GenMatrix4x tlen (sub junk 4) a seed_arr ;;
  skpv1 <- GenSecret4x tlen (sub junk 5) skpv1 noiseseed_arr ;;
  br <- for4 (fun m am => x4_product (sub (sub junk 6) m) g 1 am (sel skpv1 m)) a ;;
  sk <- POLVECq2BSX4 (sub junk 7) sk skpv1 ;;
  skpv1 <- for4 (fun m s => store_polys 3 (snd (sel br m)) s) skpv1 ;;
  pk <- POLVECp2BSX4 (sub junk 8) pk skpv1 ;;
  pk <- for_ 0 SABER_SEEDBYTES (fun i => for4 (fun m pk =>
    st U8 pk (SABER_POLYVECCOMPRESSEDBYTES x4 + i) (Idx U8 (sel seed_arr m) i))) pk ;;
  ret (pk, sk).

(** SABER_indcpa.c:751-834, for one instance: v', the message, and the last 128 bytes of the ciphertext; SABER_pack_4bit (pack_unpack.c:408-419)
    is the reference's POLT2BS. *)
Definition x4_cm (junk : mem) (g : list vec) (pkcl_avx b_bucket : list (list vec)) (message_received : list Z) (temp : list (list Z)) (ciphertext : list Z) : M (list Z) :=
  let vprime_avx := vuninit junk 0 16 in
  let message := uninit junk 1 256 in
  let message_avx := vuninit junk 2 16 in
  vprime_avx <- clear vprime_avx ;;
  vprime_avx <- vector_vector_mul (sub junk 3) 3 g pkcl_avx b_bucket vprime_avx ;;
  vprime_avx <- for_ 0 16 (fun i v => x <- row v i ;; setrow v i (vadd x (vset1 avx_h1))) vprime_avx ;;
  message <- for_ 0 SABER_KEYBYTES (fun j message => for_ 0 8 (fun i message =>
    st U16 message (8 * j + i) ((Idx U8 message_received j .>> Bnd U32 0 7 i) .& #1)%C) message) message ;;
  message_avx <- for_ 0 16 (fun i m =>
    x <- loadu message (i * 16) ;; m <- setrow m i x ;; x <- row m i ;; setrow m i (vsll x (SABER_EP - 1))) message_avx ;;
  vprime_avx <- for_ 0 16 (fun k v =>
    x <- row v k ;; y <- row message_avx k ;;
    let x := vsub x y in
    let x := vand x (vset1 1023) in
    let x := vsrl x (SABER_EP - SABER_ET x4) in
    setrow v k x) vprime_avx ;;
  t <- row temp 0 ;; t <- store_poly vprime_avx t ;;
  at_ ciphertext (SABER_POLYVECCOMPRESSEDBYTES x4) (fun p => POLT2BS_4 p t).

(** SABER_indcpa.c:587-836.  Returns the new contents of [ciphertext]. *)
Definition x4_indcpa_enc (tlen : Z) (junk : mem) (message_received noiseseed pk ciphertext : quad (list Z)) : M (quad (list Z)) :=
  let a := tab4 (fun m => vuninit3 (sub junk 0) m 3 16) in
  let seed := tab4 (fun m => uninit (sub junk 1) m SABER_SEEDBYTES) in
  let skpv1 := tab4 (fun m => uninit2 (sub junk 2) m 3) in
  let temp := tab4 (fun m => uninit2 (sub junk 3) m 3) in
  let pkcl_avx := tab4 (fun m => vuninit2 (sub junk 4) m 3 16) in
  g <- load_values (sub junk 5) ;;
  seed <- for_ 0 SABER_SEEDBYTES (fun i => for4 (fun m seed =>
    st U8 seed i (Idx U8 (sel pk m) (SABER_POLYVECCOMPRESSEDBYTES x4 + i)))) seed ;;
  a <- GenMatrix4x tlen (sub junk 6) a seed ;;
  skpv1 <- GenSecret4x tlen (sub junk 7) skpv1 noiseseed ;;
  br <- for4 (fun m am => x4_product (sub (sub junk 8) m) g 0 am (sel skpv1 m)) a ;;
  temp <- for4 (fun m s => store_polys 3 (snd (sel br m)) s) temp ;;
  ciphertext <- POLVECp2BSX4 (sub junk 9) ciphertext temp ;;
  pkcl_avx <- BS2POLVECpX4 (sub junk 10) pk pkcl_avx ;;
  for4 (fun m ct => x4_cm (sub (sub junk 11) m) g (sel pkcl_avx m) (fst (sel br m)) (sel message_received m) (sel temp m) ct) ciphertext.

(** SABER_indcpa.c:878-929, for one instance; SABER_un_pack4bitX4 (pack_unpack.c:515-537) is four times the reference's BS2POLT. *)
Definition x4_dec_msg (junk : mem) (g : list vec) (sksv_avx pksv_avx : list (list vec)) (ciphertext message_dec : list Z) : M (list Z) :=
  let op := uninit junk 0 256 in
  let message_dec_unpacked := uninit junk 1 256 in
  let v_avx := vuninit junk 2 16 in
  let b_bucket := vuninit2 junk 3 3 64 in
  v_avx <- clear v_avx ;;
  b_bucket <- eval_buckets (sub junk 4) 3 sksv_avx b_bucket ;;
  v_avx <- vector_vector_mul (sub junk 5) 3 g pksv_avx b_bucket v_avx ;;
  message_dec_unpacked <- store_poly v_avx message_dec_unpacked ;;
  p <- ptr ciphertext (SABER_POLYVECCOMPRESSEDBYTES x4) ;;
  op <- BS2POLT_4 p op ;;
  message_dec_unpacked <- for_ 0 256 (fun i m =>
    st U16 m i
      (((Idx U16 m i + Cst I32 (avx_h2 x4) - (Idx U16 op i .<< Cst I32 (SABER_EP - SABER_ET x4))) .& #1023) .>> Cst I32 (SABER_EP - 1))%C) message_dec_unpacked ;;
  POL2MSG message_dec_unpacked message_dec.

(** SABER_indcpa.c:839-934.  Returns the new contents of [message_dec]. *)
Definition x4_indcpa_dec (junk : mem) (sk ciphertext message_dec : quad (list Z)) : M (quad (list Z)) :=
  let sksv_avx := tab4 (fun m => vuninit2 (sub junk 0) m 3 16) in
  let pksv_avx := tab4 (fun m => vuninit2 (sub junk 1) m 3 16) in
  g <- load_values (sub junk 2) ;;
  sksv_avx <- BS2POLVECqX4 (sub junk 3) sk sksv_avx ;;
  pksv_avx <- BS2POLVECpX4 (sub junk 4) ciphertext pksv_avx ;;
  for4 (fun m md => x4_dec_msg (sub (sub junk 5) m) g (sel sksv_avx m) (sel pksv_avx m) (sel ciphertext m) md) message_dec.

(** ** kem4x.c *)

(** Calls of a four-fold function with [x0 + off, x1 + off, ...]. *)
Definition at4 (q : quad (list Z)) (off : Z) (f : quad (list Z) -> M (quad (list Z))) : M (quad (list Z)) :=
  p <- for4 (fun _ x => ptr x off) q ;;
  p <- f p ;;
  for4 (fun m x => at_ x off (fun _ => ret (sel p m))) q.

Section Kem4x.
  Context {S : Type}.
  Variable rb : S -> Z -> list Z * S.

  (** kem4x.c:19-24, one round of the loop. *)
  Definition draw3 (junk : mem) (st : S) (m : Z) : M (list Z * list Z * list Z * S) :=
    '(seed, st) <- randombytes rb st (uninit (sub junk 0) m SABER_SEEDBYTES) SABER_SEEDBYTES ;;
    '(noise, st) <- randombytes rb st (uninit (sub junk 1) m 32) 32 ;;
    '(key, st) <- randombytes rb st (uninit (sub junk 2) m SABER_KEYBYTES) SABER_KEYBYTES ;;
    ret (seed, noise, key, st).

  (** kem4x.c:6-53. *)
  Definition keypair4x (tlen : Z) (junk : mem) (s : S) (pk sk : quad (list Z)) : M (quad (list Z) * quad (list Z) * S) :=
    '(s0, n0, k0, s) <- draw3 junk s 0 ;;
    '(s1, n1, k1, s) <- draw3 junk s 1 ;;
    '(s2, n2, k2, s) <- draw3 junk s 2 ;;
    '(s3, n3, k3, s) <- draw3 junk s 3 ;;
    let key : quad (list Z) := (k0, k1, k2, k3) in
    '(pk, sk) <- x4_indcpa_keypair tlen (sub junk 3) pk sk (s0, s1, s2, s3) (n0, n1, n2, n3) ;;
    sk <- for_ 0 (SABER_INDCPA_PUBLICKEYBYTES x4) (fun i => for4 (fun m sk =>
      st U8 sk (i + SABER_INDCPA_SECRETKEYBYTES x4) (Idx U8 (sel pk m) i))) sk ;;
    sk <- at4 sk (SABER_SECRETKEYBYTES x4 - 64) (fun p => sha3_256x4 (sub junk 4) p pk (SABER_INDCPA_PUBLICKEYBYTES x4)) ;;
    sk <- for_ 0 SABER_KEYBYTES (fun i => for4 (fun m sk =>
      st U8 sk (i + SABER_SECRETKEYBYTES x4 - SABER_KEYBYTES) (Idx U8 (sel key m) i))) sk ;;
    ret (pk, sk, s).

  (** kem4x.c:55-95. *)
  Definition enc4x (tlen : Z) (junk : mem) (s : S) (c k pk : quad (list Z)) : M (quad (list Z) * quad (list Z) * S) :=
    let kr := tab4 (fun m => uninit (sub junk 0) m 64) in
    '(b0, s) <- randombytes rb s (uninit8 (sub junk 1) 0 64) 32 ;;
    '(b1, s) <- randombytes rb s (uninit8 (sub junk 1) 1 64) 32 ;;
    '(b2, s) <- randombytes rb s (uninit8 (sub junk 1) 2 64) 32 ;;
    '(b3, s) <- randombytes rb s (uninit8 (sub junk 1) 3 64) 32 ;;
    let buf : quad (list Z) := (b0, b1, b2, b3) in
    buf <- sha3_256x4 (sub junk 2) buf buf 32 ;;
    buf <- at4 buf 32 (fun p => sha3_256x4 (sub junk 3) p pk (SABER_INDCPA_PUBLICKEYBYTES x4)) ;;
    kr <- sha3_512x4 (sub junk 4) kr buf 64 ;;
    r <- for4 (fun _ x => ptr x 32) kr ;;
    c <- x4_indcpa_enc tlen (sub junk 5) buf r pk c ;;
    kr <- at4 kr 32 (fun p => sha3_256x4 (sub junk 6) p c (SABER_BYTES_CCA_DEC x4)) ;;
    k <- sha3_256x4 (sub junk 7) k kr 64 ;;
    ret (c, k, s).

  (** kem4x.c:98-161. *)
  Definition dec4x (tlen : Z) (junk : mem) (k c sk : quad (list Z)) : M (quad (list Z)) :=
    let cmp := tab4 (fun m => uninit (sub junk 0) m (SABER_BYTES_CCA_DEC x4)) in
    let buf := tab4 (fun m => uninit (sub junk 1) m 64) in
    let kr := tab4 (fun m => uninit (sub junk 2) m 64) in
    pk <- for4 (fun _ x => ptr x (SABER_INDCPA_SECRETKEYBYTES x4)) sk ;;
    buf <- x4_indcpa_dec (sub junk 3) sk c buf ;;
    buf <- for_ 0 32 (fun i => for4 (fun m buf =>
      st U8 buf (32 + i) (Idx U8 (sel sk m) (SABER_SECRETKEYBYTES x4 - 64 + i)))) buf ;;
    kr <- sha3_512x4 (sub junk 4) kr buf 64 ;;
    r <- for4 (fun _ x => ptr x 32) kr ;;
    cmp <- x4_indcpa_enc tlen (sub junk 5) buf r pk cmp ;;
    fail <- for4 (fun m cm => verify cm (sel cmp m) (SABER_BYTES_CCA_DEC x4)) c ;;
    kr <- at4 kr 32 (fun p => sha3_256x4 (sub junk 6) p c (SABER_BYTES_CCA_DEC x4)) ;;
    kr <- for4 (fun m kr =>
      z <- ptr (sel sk m) (SABER_SECRETKEYBYTES x4 - SABER_KEYBYTES) ;;
      b <- asg U8 (sel fail m) ;;
      cmov kr z SABER_KEYBYTES b) kr ;;
    sha3_256x4 (sub junk 7) k kr 64.

  (** ** kem.c *)

  (** The pointers [x + m * n] for m = 0, ..., 3.  The model gives each instance its own quarter; an access past it, even within the whole
      buffer, is undefined in the model. *)
  Definition quarters (n : Z) (x : list Z) : M (quad (list Z)) :=
    for4 (fun m _ => p <- ptr x (m * n) ;; if n <=? len p then ret (zfirst n p) else undef) (tt, tt, tt, tt).
  Definition join (q : quad (list Z)) : list Z := sel q 0 ++ sel q 1 ++ sel q 2 ++ sel q 3.

  (** kem.c:18-32; the sizes are those of api.h:3-6 divided by 4. *)
  Definition x4_kem_keypair (tlen : Z) (junk : mem) (s : S) (pk sk : list Z) : M (list Z * list Z * S * Z) :=
    pkq <- quarters (SABER_PUBLICKEYBYTES x4) pk ;;
    skq <- quarters (SABER_SECRETKEYBYTES x4) sk ;;
    '(pkq, skq, s) <- keypair4x tlen junk s pkq skq ;;
    ret (join pkq ++ zskip (4 * SABER_PUBLICKEYBYTES x4) pk, join skq ++ zskip (4 * SABER_SECRETKEYBYTES x4) sk, s, 0).

  (** kem.c:35-56. *)
  Definition x4_kem_enc (tlen : Z) (junk : mem) (s : S) (c k pk : list Z) : M (list Z * list Z * S * Z) :=
    cq <- quarters (SABER_BYTES_CCA_DEC x4) c ;;
    kq <- quarters SABER_KEYBYTES k ;;
    pkq <- quarters (SABER_PUBLICKEYBYTES x4) pk ;;
    '(cq, kq, s) <- enc4x tlen junk s cq kq pkq ;;
    ret (join cq ++ zskip (4 * SABER_BYTES_CCA_DEC x4) c, join kq ++ zskip (4 * SABER_KEYBYTES) k, s, 0).

  (** kem.c:59-80. *)
  Definition x4_kem_dec (tlen : Z) (junk : mem) (k c sk : list Z) : M (list Z * Z) :=
    kq <- quarters SABER_KEYBYTES k ;;
    cq <- quarters (SABER_BYTES_CCA_DEC x4) c ;;
    skq <- quarters (SABER_SECRETKEYBYTES x4) sk ;;
    kq <- dec4x tlen junk kq cq skq ;;
    ret (join kq ++ zskip (4 * SABER_KEYBYTES) k, 0).
End Kem4x.
