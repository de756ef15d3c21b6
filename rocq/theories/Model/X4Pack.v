(** Model of the four-fold packing of Variants/SaberX4_avx2: pack_unpack.c:9-369, 623-688, 834-918, 1063-1107, 1206-1252 and
    BS2POLq4x of SABER_indcpa.c:124-345.

    A [__m256i] is here the list of its eight 32-bit lanes, a [__m128] or [__m128i] the list of its 32-, 16- or 8-bit elements, low
    element first.  Lane l < 4 belongs to instance l and holds an element of the first half of its data, lane 4 + l the corresponding
    element of the second half.  The code reads [uint16_t] and [unsigned char] arrays through [const float *] and writes bytes through
    [__m128i *]; type-based aliasing and the alignment that _mm_load_ps and _mm_store_si128 ask for are not modelled. *)
From Coq Require Import ZArith List Bool.
From Verif Require Import Lib.Arr Lib.CInt Lib.CMon Model.Fips202x4.
Import ListNotations.
Local Open Scope Z_scope.
Local Open Scope M_scope.

(** ** Instructions *)

Notation w8 := (list Z).
(** _mm256_srli_epi32, _mm256_slli_epi32, _mm256_and_si256, _mm256_or_si256, _mm256_set1_epi32; shift counts are below 32. *)
Definition srli32 (v : w8) (n : Z) : w8 := ztab 8 (fun l => Z.shiftr (get v l) n).
Definition slli32 (v : w8) (n : Z) : w8 := ztab 8 (fun l => wrap U32 (Z.shiftl (get v l) n)).
Definition and32 (v w : w8) : w8 := ztab 8 (fun l => Z.land (get v l) (get w l)).
Definition or32 (v w : w8) : w8 := ztab 8 (fun l => Z.lor (get v l) (get w l)).
Definition set1_32 (z : Z) : w8 := ztab 8 (fun _ => z).

(** _mm_load_ps(p + off) where [p] points to bytes and where it points to [uint16_t]; [off] counts elements of the array. *)
Definition load_ps8 (a : list Z) (off : Z) : M (list Z) :=
  if (0 <=? off) && (off + 16 <=? len a)
  then emit (Rd off) ;;
       ret (ztab 4 (fun t => get a (off + 4 * t) + 256 * get a (off + 4 * t + 1) + 65536 * get a (off + 4 * t + 2) + 16777216 * get a (off + 4 * t + 3)))
  else undef.
Definition load_ps16 (a : list Z) (off : Z) : M (list Z) :=
  if (0 <=? off) && (off + 8 <=? len a)
  then emit (Rd off) ;; ret (ztab 4 (fun t => get a (off + 2 * t) + 65536 * get a (off + 2 * t + 1)))
  else undef.
(** _mm_store_si128((__m128i * )(a + off), v) for bytes. *)
Definition store_si128 (a : list Z) (off : Z) (v : list Z) : M (list Z) :=
  if (0 <=? off) && (off + 16 <=? len a) then emit (Wr off) ;; ret (zfirst off a ++ v ++ zskip (off + 16) a) else undef.

(** _MM_TRANSPOSE4_PS. *)
Definition TRANSPOSE4 (q : quad (list Z)) : quad (list Z) := tab4 (fun t => ztab 4 (fun k => get (sel q k) t)).
(** _mm256_insertf128_si256(_mm256_castsi128_si256(a), b, 1). *)
Definition insertf128 (a b : list Z) : list Z := a ++ b.
(** _mm256_extractf128_ps(v, h). *)
Definition extractf128 (v : w8) (h : Z) : list Z := ztab 4 (fun t => get v (4 * h + t)).

(** _mm_packus_epi32, _mm_packus_epi16, _mm_packs_epi32: the elements, taken as signed, with saturation. *)
Definition sat (lo hi x : Z) : Z := Z.max lo (Z.min hi x).
Definition packus_epi32 (a b : list Z) : list Z := map (fun x => sat 0 65535 (wrap I32 x)) (a ++ b).
Definition packus_epi16 (a b : list Z) : list Z := map (fun x => sat 0 255 (wrap I16 x)) (a ++ b).
Definition packs_epi32 (a b : list Z) : list Z := map (fun x => wrap U16 (sat (-32768) 32767 (wrap I32 x))) (a ++ b).

(** ** Loading and storing *)

(** [a[i] = v0; a[i + 1] = v1; ...] *)
Fixpoint setrows {A} (a : list A) (i : Z) (vs : list A) : M (list A) :=
  match vs with [] => ret a | v :: vs => a <- setrow a i v ;; setrows a (i + 1) vs end.
(** [a[off]], ..., [a[off + 15]] *)
Definition rows16 (a : list w8) (off : Z) : M (list w8) :=
  if (0 <=? off) && (off + 16 <=? len a) then emit (Rd off) ;; ret (ztab 16 (fun i => znth [] a (off + i))) else undef.

(** The four vectors of lines 36-45, 217-226: front and back halves transposed and merged. *)
Definition merge4 (l h : quad (list Z)) : quad w8 :=
  tab4 (fun t => insertf128 (sel (TRANSPOSE4 l) t) (sel (TRANSPOSE4 h) t)).

(** pack_unpack.c:9-60; cfbs0, ..., cfbs3 are [front] and cfbs4, ..., cfbs7 [back]. *)
Definition avx_load_16bit_8bit (front back : quad (list Z)) (avx_data : list w8) : M (list w8) :=
  for_ 0 (3 * 256 * 16 / (128 * 2)) (fun i avx_data =>
    l <- for4 (fun _ p => load_ps16 p (8 * i)) front ;;
    h <- for4 (fun _ p => load_ps16 p (8 * i)) back ;;
    let v := merge4 l h in
    let two x := [srli32 (slli32 x 16) 16; srli32 x 16] in
    setrows avx_data (i * 8) (two (sel v 0) ++ two (sel v 1) ++ two (sel v 2) ++ two (sel v 3))) avx_data.

(** pack_unpack.c:186-252; each group of four stores is in the order 3, 2, 1, 0 there.  [size * 8 / (32 * 2)] counts floats. *)
Definition avx_load_8bit_16bit (front : quad (list Z)) (avx_bytes : list w8) (size : Z) : M (list w8) :=
  back <- for4 (fun _ p => ptr p (4 * (size * 8 / (32 * 2)))) front ;;
  for_ 0 (size / 32) (fun i avx_bytes =>
    l <- for4 (fun _ p => load_ps8 p (16 * i)) front ;;
    h <- for4 (fun _ p => load_ps8 p (16 * i)) back ;;
    let v := merge4 l h in
    let four x := [srli32 (slli32 x 24) 24; srli32 (slli32 x 16) 24; srli32 (slli32 x 8) 24; srli32 x 24] in
    setrows avx_bytes (i * 16) (four (sel v 0) ++ four (sel v 1) ++ four (sel v 2) ++ four (sel v 3))) avx_bytes.

(** Half [h] of the vectors 4 g, ..., 4 g + 3 of [x], transposed (lines 76-101, 128-153). *)
Definition trans (x : list w8) (h g : Z) : quad (list Z) := TRANSPOSE4 (tab4 (fun i => extractf128 (znth [] x (4 * g + i)) h)).

(** pack_unpack.c:62-184; bs0, ..., bs3 are [bs] and bs4, ..., bs7 are [bs + mid]. *)
Definition avx_store_8bit_bs (avx_bytes : list w8) (size : Z) (bs : quad (list Z)) (mid : Z) : M (quad (list Z)) :=
  for_ 0 (size / 16) (fun k bs =>
    x <- rows16 avx_bytes (16 * k) ;;
    let ph h j := packus_epi16 (packus_epi32 (sel (trans x h 0) j) (sel (trans x h 1) j)) (packus_epi32 (sel (trans x h 2) j) (sel (trans x h 3) j)) in
    bs <- for4 (fun j b => store_si128 b (16 * k) (ph 0 j)) bs ;;
    for4 (fun j b => at_ b mid (fun b => store_si128 b (16 * k) (ph 1 j))) bs) bs.

(** The vector of sixteen coefficients of instance [j] that lines 298-318, 348-367 make. *)
Definition sixteen (x : list w8) (h j : Z) : list Z :=
  insertf128 (packs_epi32 (sel (trans x h 0) j) (sel (trans x h 1) j)) (packs_epi32 (sel (trans x h 2) j) (sel (trans x h 3) j)).

(** [d[n][m] = v;] *)
Definition set2 {A} (d : list (list A)) (n m : Z) (v : A) : M (list (list A)) := r <- row d n ;; r <- setrow r m v ;; setrow d n r.

(** pack_unpack.c:254-373. *)
Definition avx_store_16bit_KN (avx_data : list w8) (data : quad (list (list (list Z)))) : M (quad (list (list (list Z)))) :=
  for_ 0 (3 * (256 / 16) / 2) (fun k data =>
    x <- rows16 avx_data (16 * k) ;;
    data <- for4 (fun j d => set2 d (k / 16) (k mod 16) (sixteen x 0 j)) data ;;
    let k' := 3 * (256 / 16) / 2 + k in
    for4 (fun j d => set2 d (k' / 16) (k' mod 16) (sixteen x 1 j)) data) data.

(** ** The shifts *)

(** Expressions on an array of vectors: an element, and the instructions above; masks are the vectors avx_epi32_01, ..., avx_epi32_ff of
    init_aux_avx (SABER_indcpa.c:33-51), which load_values calls first. *)
Inductive xexp := El (i : Z) | XAnd (e : xexp) (m : Z) | XOr (e f : xexp) | XSrl (e : xexp) (n : Z) | XSll (e : xexp) (n : Z).
Fixpoint xeval (a : list w8) (e : xexp) : M w8 :=
  match e with
  | El i => row a i
  | XAnd e m => v <- xeval a e ;; ret (and32 v (set1_32 m))
  | XOr e f => v <- xeval a e ;; w <- xeval a f ;; ret (or32 v w)
  | XSrl e n => v <- xeval a e ;; ret (srli32 v n)
  | XSll e n => v <- xeval a e ;; ret (slli32 v n)
  end.
(** [out[o] = e0; out[o + 1] = e1; ...] *)
Fixpoint xsts (a out : list w8) (o : Z) (es : list xexp) : M (list w8) :=
  match es with [] => ret out | e :: es => v <- xeval a e ;; out <- setrow out o v ;; xsts a out (o + 1) es end.

(** pack_unpack.c:660-668, for one [j]; [d] is [SABER_N * i / 2 + offset_data]. *)
Definition p_bytes (d : Z) : list xexp :=
  [XAnd (El (d + 0)) 0xff;
   XOr (XAnd (XSrl (El (d + 0)) 8) 0x03) (XSll (XAnd (El (d + 1)) 0x3f) 2);
   XOr (XAnd (XSrl (El (d + 1)) 6) 0x0f) (XSll (XAnd (El (d + 2)) 0x0f) 4);
   XOr (XAnd (XSrl (El (d + 2)) 4) 0x3f) (XSll (XAnd (El (d + 3)) 0x03) 6);
   XAnd (XSrl (El (d + 3)) 2) 0xff].
(** pack_unpack.c:874-898. *)
Definition q_bytes (d : Z) : list xexp :=
  [XAnd (El (d + 0)) 0xff;
   XOr (XAnd (XSrl (El (d + 0)) 8) 0x1f) (XSll (XAnd (El (d + 1)) 0x07) 5);
   XAnd (XSrl (El (d + 1)) 3) 0xff;
   XOr (XAnd (XSrl (El (d + 1)) 11) 0x03) (XSll (XAnd (El (d + 2)) 0x3f) 2);
   XOr (XAnd (XSrl (El (d + 2)) 6) 0x7f) (XSll (XAnd (El (d + 3)) 0x01) 7);
   XAnd (XSrl (El (d + 3)) 1) 0xff;
   XOr (XAnd (XSrl (El (d + 3)) 9) 0x0f) (XSll (XAnd (El (d + 4)) 0x0f) 4);
   XAnd (XSrl (El (d + 4)) 4) 0xff;
   XOr (XAnd (XSrl (El (d + 4)) 12) 0x01) (XSll (XAnd (El (d + 5)) 0x7f) 1);
   XOr (XAnd (XSrl (El (d + 5)) 7) 0x3f) (XSll (XAnd (El (d + 6)) 0x03) 6);
   XAnd (XSrl (El (d + 6)) 2) 0xff;
   XOr (XAnd (XSrl (El (d + 6)) 10) 0x07) (XSll (XAnd (El (d + 7)) 0x1f) 3);
   XAnd (XSrl (El (d + 7)) 5) 0xff].
(** pack_unpack.c:1094-1097; [b] is [offset_byte]. *)
Definition p_coeffs (b : Z) : list xexp :=
  [XOr (XAnd (El (b + 0)) 0xff) (XSll (XAnd (El (b + 1)) 0x03) 8);
   XOr (XAnd (XSrl (El (b + 1)) 2) 0x3f) (XSll (XAnd (El (b + 2)) 0x0f) 6);
   XOr (XAnd (XSrl (El (b + 2)) 4) 0x0f) (XSll (XAnd (El (b + 3)) 0x3f) 4);
   XOr (XAnd (XSrl (El (b + 3)) 6) 0x03) (XSll (XAnd (El (b + 4)) 0xff) 2)].
(** pack_unpack.c:1235-1242. *)
Definition q_coeffs (b : Z) : list xexp :=
  [XOr (XAnd (El (b + 0)) 0xff) (XSll (XAnd (El (b + 1)) 0x1f) 8);
   XOr (XOr (XAnd (XSrl (El (b + 1)) 5) 0x07) (XSll (XAnd (El (b + 2)) 0xff) 3)) (XSll (XAnd (El (b + 3)) 0x03) 11);
   XOr (XAnd (XSrl (El (b + 3)) 2) 0x3f) (XSll (XAnd (El (b + 4)) 0x7f) 6);
   XOr (XOr (XAnd (XSrl (El (b + 4)) 7) 0x01) (XSll (XAnd (El (b + 5)) 0xff) 1)) (XSll (XAnd (El (b + 6)) 0x0f) 9);
   XOr (XOr (XAnd (XSrl (El (b + 6)) 4) 0x0f) (XSll (XAnd (El (b + 7)) 0xff) 4)) (XSll (XAnd (El (b + 8)) 0x01) 12);
   XOr (XAnd (XSrl (El (b + 8)) 1) 0x7f) (XSll (XAnd (El (b + 9)) 0x3f) 7);
   XOr (XOr (XAnd (XSrl (El (b + 9)) 6) 0x03) (XSll (XAnd (El (b + 10)) 0xff) 2)) (XSll (XAnd (El (b + 11)) 0x07) 10);
   XOr (XAnd (XSrl (El (b + 11)) 3) 0x1f) (XSll (XAnd (El (b + 12)) 0xff) 5)].
(** SABER_indcpa.c:218-238. *)
Definition q4x_coeffs (b : Z) : list xexp :=
  [XOr (XAnd (El (b + 0)) 0xff) (XSll (XAnd (El (b + 1)) 0x1f) 8);
   XOr (XSrl (El (b + 1)) 5) (XOr (XSll (El (b + 2)) 3) (XSll (XAnd (El (b + 3)) 0x03) 11));
   XOr (XSrl (El (b + 3)) 2) (XSll (XAnd (El (b + 4)) 0x7f) 6);
   XOr (XAnd (XSrl (El (b + 4)) 7) 0x01) (XOr (XSll (El (b + 5)) 1) (XSll (XAnd (El (b + 6)) 0x0f) 9));
   XOr (XAnd (XSrl (El (b + 6)) 4) 0x0f) (XOr (XSll (XAnd (El (b + 7)) 0xff) 4) (XSll (XAnd (El (b + 8)) 0x01) 12));
   XOr (XAnd (XSrl (El (b + 8)) 1) 0x7f) (XSll (XAnd (El (b + 9)) 0x3f) 7);
   XOr (XAnd (XSrl (El (b + 9)) 6) 0x03) (XOr (XSll (XAnd (El (b + 10)) 0xff) 2) (XSll (XAnd (El (b + 11)) 0x07) 10));
   XOr (XAnd (XSrl (El (b + 11)) 3) 0x1f) (XSll (XAnd (El (b + 12)) 0xff) 5)].

(** ** The functions *)

(** [__m256i x[n];] *)
Definition xuninit (junk : mem) (tag n : Z) : list w8 := ztab n (fun i => ztab 8 (junk [tag; i])).

(** pack_unpack.c:623-688.  [uint16_t data0[3][256]] is read as one array of 768 elements. *)
Definition POLVECp2BSX4 (junk : mem) (bytes : quad (list Z)) (data : quad (list (list Z))) : M (quad (list Z)) :=
  let size := 960 in
  let avx_data := xuninit junk 0 (3 * 256 / 2) in
  let avx_bytes := xuninit junk 1 480 in
  let flat := tab4 (fun k => concat (sel data k)) in
  front <- for4 (fun _ d => ptr d 0) flat ;;
  back <- for4 (fun _ d => ptr d (256 * (3 / 2) + 256 / 2)) flat ;;
  avx_data <- avx_load_16bit_8bit front back avx_data ;;
  avx_bytes <- for_ 0 3 (fun i avx_bytes =>
    for_ 0 (256 / (4 * 2)) (fun j avx_bytes =>
      xsts avx_data avx_bytes (i * (256 * 10) / 8 / 2 + 5 * j) (p_bytes (256 * i / 2 + 4 * j))) avx_bytes) avx_bytes ;;
  avx_store_8bit_bs avx_bytes (size / 2) bytes (960 / 2).

(** pack_unpack.c:834-918. *)
Definition POLVECq2BSX4 (junk : mem) (bytes : quad (list Z)) (data : quad (list (list Z))) : M (quad (list Z)) :=
  let size := 1248 in
  let avx_data := xuninit junk 0 (3 * 256 / 2) in
  let avx_bytes := xuninit junk 1 624 in
  let flat := tab4 (fun k => concat (sel data k)) in
  front <- for4 (fun _ d => ptr d 0) flat ;;
  back <- for4 (fun _ d => ptr d (256 * (3 / 2) + 256 / 2)) flat ;;
  avx_data <- avx_load_16bit_8bit front back avx_data ;;
  avx_bytes <- for_ 0 3 (fun i avx_bytes =>
    for_ 0 (256 / (8 * 2)) (fun j avx_bytes =>
      xsts avx_data avx_bytes (i * (256 * 13) / 8 / 2 + 13 * j) (q_bytes (256 * i / 2 + 8 * j))) avx_bytes) avx_bytes ;;
  avx_store_8bit_bs avx_bytes (size / 2) bytes (size / 2).

(** pack_unpack.c:1063-1107.  The results are vectors of sixteen 16-bit lanes. *)
Definition BS2POLVECpX4 (junk : mem) (bs : quad (list Z)) (data : quad (list (list (list Z)))) : M (quad (list (list (list Z)))) :=
  let avx_bytes := xuninit junk 0 (960 / 2) in
  let avx_data := xuninit junk 1 (3 * 256 / 2) in
  avx_bytes <- avx_load_8bit_16bit bs avx_bytes 960 ;;
  avx_data <- for_ 0 3 (fun i avx_data =>
    for_ 0 (256 / 4 / 2) (fun j avx_data =>
      xsts avx_bytes avx_data (i * 256 / 2 + 4 * j) (p_coeffs (i * (256 * 10) / 8 / 2 + 5 * j))) avx_data) avx_data ;;
  avx_store_16bit_KN avx_data data.

(** pack_unpack.c:1206-1252. *)
Definition BS2POLVECqX4 (junk : mem) (bs : quad (list Z)) (data : quad (list (list (list Z)))) : M (quad (list (list (list Z)))) :=
  let avx_bytes := xuninit junk 0 (1248 / 2) in
  let avx_data := xuninit junk 1 (3 * 256 / 2) in
  avx_bytes <- avx_load_8bit_16bit bs avx_bytes 1248 ;;
  avx_data <- for_ 0 3 (fun i avx_data =>
    for_ 0 (256 / (8 * 2)) (fun j avx_data =>
      xsts avx_bytes avx_data (i * 256 / 2 + 8 * j) (q_coeffs (i * (256 * 13) / 8 / 2 + 13 * j))) avx_data) avx_data ;;
  avx_store_16bit_KN avx_data data.

(** SABER_indcpa.c:124-345.  Lines 143-204 are the statements of avx_load_8bit_16bit with 416 for [size]. *)
Definition BS2POLq4x (junk : mem) (bs : quad (list Z)) (data : quad (list (list Z))) : M (quad (list (list Z))) :=
  let avx_bytes := xuninit junk 0 (32 * 13 / 2) in
  let avx_data := xuninit junk 1 (256 / 2) in
  avx_bytes <- avx_load_8bit_16bit bs avx_bytes 416 ;;
  avx_data <- for_ 0 (256 / 8 / 2) (fun j avx_data => xsts avx_bytes avx_data (8 * j) (q4x_coeffs (13 * j))) avx_data ;;
  for_ 0 8 (fun k data =>
    x <- rows16 avx_data (16 * k) ;;
    data <- for4 (fun j d => setrow d k (sixteen x 0 j)) data ;;
    for4 (fun j d => setrow d (k + 8) (sixteen x 1 j)) data) data.
