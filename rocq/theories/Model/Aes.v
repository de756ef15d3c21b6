(** Model of aes256ctr.c and symmetric-aes.c (Variants/uSaber-90s/ref).

    The straight-line parts on 64-bit words are programs of [Lib.Gate].  In these, the C variables x0, x1, ... are
    [X 0], [X 1], ..., likewise y, z, t, s ([Y], [Zz], [T], [S_]), and [Q i] is element [i] of the array.
    Loops that move a pointer through an array use the offset of that pointer from the start of the array. *)
From Coq Require Import ZArith List Bool.
From Verif Require Import Lib.Arr Lib.CInt Lib.CMon Lib.Gate Model.Params Model.Sha2.
Import ListNotations.
Local Open Scope Z_scope.
Local Open Scope M_scope.

(** [f (a + off)] where [f] writes through its pointer argument and has a further result. *)
Definition at2 {B} (a : list Z) (off : Z) (f : list Z -> M (list Z * B)) : M (list Z * B) :=
  p <- ptr a off ;; '(v, b) <- f p ;; ret (zfirst off a ++ v, b).

(** Uninitialised array of [n] elements of type [t]: arbitrary values of that type. *)
Definition uninit_ (t : ity) (junk : mem) (tag n : Z) : list Z := ztab n (fun i => wrap t (junk [tag] i)).

(** aes256ctr.c:29-35, the returned expression. *)
Definition br_dec32le (src : list Z) : cexp :=
  (Cast U32 (Idx U8 src 0) .| (Cast U32 (Idx U8 src 1) .<< #8) .| (Cast U32 (Idx U8 src 2) .<< #16) .| (Cast U32 (Idx U8 src 3) .<< #24))%C.

(** aes256ctr.c:37-43. *)
Definition br_range_dec32le (v : list Z) (num : Z) (src : list Z) : M (list Z) :=
  for_ 0 num (fun i v => p <- ptr src (4 * i) ;; st U32 v i (br_dec32le p)) v.

(** aes256ctr.c:45-50. *)
Definition br_swap32 (x : cexp) : M cexp :=
  x <- asg U32 x ;;
  x <- asg U32 (((x .& Cst U32 0x00FF00FF) .<< #8) .| ((x .>> #8) .& Cst U32 0x00FF00FF))%C ;;
  asg U32 ((x .<< #16) .| (x .>> #16))%C.

(** aes256ctr.c:52-58. *)
Definition br_enc32le (dst : list Z) (x : cexp) : M (list Z) :=
  sts U8 dst 0 [Cast U8 x; Cast U8 (x .>> #8); Cast U8 (x .>> #16); Cast U8 (x .>> #24)]%C.

(** aes256ctr.c:60-66. *)
Definition br_range_enc32le (dst v : list Z) (num : Z) : M (list Z) :=
  for_ 0 num (fun i dst => x <- rd v i ;; at_ dst (4 * i) (fun p => br_enc32le p (Var U32 x))) dst.

(** aes256ctr.c:68-241. *)
Definition Sbox_gates : list (reg * gexp) :=
  [X 0 <== Q 7; X 1 <== Q 6; X 2 <== Q 5; X 3 <== Q 4; X 4 <== Q 3; X 5 <== Q 2; X 6 <== Q 1; X 7 <== Q 0; Y 14 <== X 3 .^ X 5; Y 13 <== X 0 .^ X 6; 
   Y 9 <== X 0 .^ X 3; Y 8 <== X 0 .^ X 5; T 0 <== X 1 .^ X 2; Y 1 <== T 0 .^ X 7; Y 4 <== Y 1 .^ X 3; Y 12 <== Y 13 .^ Y 14; Y 2 <== Y 1 .^ X 0; 
   Y 5 <== Y 1 .^ X 6; Y 3 <== Y 5 .^ Y 8; T 1 <== X 4 .^ Y 12; Y 15 <== T 1 .^ X 5; Y 20 <== T 1 .^ X 1; Y 6 <== Y 15 .^ X 7; Y 10 <== Y 15 .^ T 0; 
   Y 11 <== Y 20 .^ Y 9; Y 7 <== X 7 .^ Y 11; Y 17 <== Y 10 .^ Y 11; Y 19 <== Y 10 .^ Y 8; Y 16 <== T 0 .^ Y 11; Y 21 <== Y 13 .^ Y 16; 
   Y 18 <== X 0 .^ Y 16; T 2 <== Y 12 .& Y 15; T 3 <== Y 3 .& Y 6; T 4 <== T 3 .^ T 2; T 5 <== Y 4 .& X 7; T 6 <== T 5 .^ T 2; T 7 <== Y 13 .& Y 16; 
   T 8 <== Y 5 .& Y 1; T 9 <== T 8 .^ T 7; T 10 <== Y 2 .& Y 7; T 11 <== T 10 .^ T 7; T 12 <== Y 9 .& Y 11; T 13 <== Y 14 .& Y 17; T 14 <== T 13 .^ T 12; 
   T 15 <== Y 8 .& Y 10; T 16 <== T 15 .^ T 12; T 17 <== T 4 .^ T 14; T 18 <== T 6 .^ T 16; T 19 <== T 9 .^ T 14; T 20 <== T 11 .^ T 16; 
   T 21 <== T 17 .^ Y 20; T 22 <== T 18 .^ Y 19; T 23 <== T 19 .^ Y 21; T 24 <== T 20 .^ Y 18; T 25 <== T 21 .^ T 22; T 26 <== T 21 .& T 23; 
   T 27 <== T 24 .^ T 26; T 28 <== T 25 .& T 27; T 29 <== T 28 .^ T 22; T 30 <== T 23 .^ T 24; T 31 <== T 22 .^ T 26; T 32 <== T 31 .& T 30; 
   T 33 <== T 32 .^ T 24; T 34 <== T 23 .^ T 33; T 35 <== T 27 .^ T 33; T 36 <== T 24 .& T 35; T 37 <== T 36 .^ T 34; T 38 <== T 27 .^ T 36; 
   T 39 <== T 29 .& T 38; T 40 <== T 25 .^ T 39; T 41 <== T 40 .^ T 37; T 42 <== T 29 .^ T 33; T 43 <== T 29 .^ T 40; T 44 <== T 33 .^ T 37; 
   T 45 <== T 42 .^ T 41; Zz 0 <== T 44 .& Y 15; Zz 1 <== T 37 .& Y 6; Zz 2 <== T 33 .& X 7; Zz 3 <== T 43 .& Y 16; Zz 4 <== T 40 .& Y 1; 
   Zz 5 <== T 29 .& Y 7; Zz 6 <== T 42 .& Y 11; Zz 7 <== T 45 .& Y 17; Zz 8 <== T 41 .& Y 10; Zz 9 <== T 44 .& Y 12; Zz 10 <== T 37 .& Y 3; 
   Zz 11 <== T 33 .& Y 4; Zz 12 <== T 43 .& Y 13; Zz 13 <== T 40 .& Y 5; Zz 14 <== T 29 .& Y 2; Zz 15 <== T 42 .& Y 9; Zz 16 <== T 45 .& Y 14; 
   Zz 17 <== T 41 .& Y 8; T 46 <== Zz 15 .^ Zz 16; T 47 <== Zz 10 .^ Zz 11; T 48 <== Zz 5 .^ Zz 13; T 49 <== Zz 9 .^ Zz 10; T 50 <== Zz 2 .^ Zz 12; 
   T 51 <== Zz 2 .^ Zz 5; T 52 <== Zz 7 .^ Zz 8; T 53 <== Zz 0 .^ Zz 3; T 54 <== Zz 6 .^ Zz 7; T 55 <== Zz 16 .^ Zz 17; T 56 <== Zz 12 .^ T 48; 
   T 57 <== T 50 .^ T 53; T 58 <== Zz 4 .^ T 46; T 59 <== Zz 3 .^ T 54; T 60 <== T 46 .^ T 57; T 61 <== Zz 14 .^ T 57; T 62 <== T 52 .^ T 58; 
   T 63 <== T 49 .^ T 58; T 64 <== Zz 4 .^ T 59; T 65 <== T 61 .^ T 62; T 66 <== Zz 1 .^ T 63; S_ 0 <== T 59 .^ T 63; S_ 6 <== T 56 .^ ~ T 62; 
   S_ 7 <== T 48 .^ ~ T 60; T 67 <== T 64 .^ T 65; S_ 3 <== T 53 .^ T 66; S_ 4 <== T 51 .^ T 66; S_ 5 <== T 47 .^ T 65; S_ 1 <== T 64 .^ ~ S_ 3; 
   S_ 2 <== T 55 .^ ~ T 67; Q 7 <== S_ 0; Q 6 <== S_ 1; Q 5 <== S_ 2; Q 4 <== S_ 3; Q 3 <== S_ 4; Q 2 <== S_ 5; Q 1 <== S_ 6; Q 0 <== S_ 7]%G.
Definition bitslice_Sbox (q : list Z) : M (list Z) := '(q, _) <- gates U64 Sbox_gates q noloc ;; ret q.

(** aes256ctr.c:245-255: the macros; [X 0] and [X 1] are a and b. *)
Definition SWAPN (cl ch s x y : Z) : list (reg * gexp) :=
  [X 0 <== Q x; X 1 <== Q y; Q x <== (X 0 .&# cl) .| ((X 1 .&# cl) .<< s); Q y <== ((X 0 .&# ch) .>> s) .| (X 1 .&# ch)]%G.
Definition SWAP2 := SWAPN 0x5555555555555555 0xAAAAAAAAAAAAAAAA 1.
Definition SWAP4 := SWAPN 0x3333333333333333 0xCCCCCCCCCCCCCCCC 2.
Definition SWAP8 := SWAPN 0x0F0F0F0F0F0F0F0F 0xF0F0F0F0F0F0F0F0 4.
(** aes256ctr.c:243-271. *)
Definition ortho_gates : list (reg * gexp) :=
  SWAP2 0 1 ++ SWAP2 2 3 ++ SWAP2 4 5 ++ SWAP2 6 7 ++
  SWAP4 0 2 ++ SWAP4 1 3 ++ SWAP4 4 6 ++ SWAP4 5 7 ++
  SWAP8 0 4 ++ SWAP8 1 5 ++ SWAP8 2 6 ++ SWAP8 3 7.
Definition ortho (q : list Z) : M (list Z) := '(q, _) <- gates U64 ortho_gates q noloc ;; ret q.

(** aes256ctr.c:273-299; [q0] and [q1] are the elements [i0] and [i1] of [q].  [S_ 0] and [S_ 1] are the values stored. *)
Definition interleave_in_gates : list (reg * gexp) :=
  [X 0 <== Q 0; X 1 <== Q 1; X 2 <== Q 2; X 3 <== Q 3;
   X 0 <== X 0 .| (X 0 .<< 16); X 1 <== X 1 .| (X 1 .<< 16); X 2 <== X 2 .| (X 2 .<< 16); X 3 <== X 3 .| (X 3 .<< 16);
   X 0 <== X 0 .&# 0x0000FFFF0000FFFF; X 1 <== X 1 .&# 0x0000FFFF0000FFFF; X 2 <== X 2 .&# 0x0000FFFF0000FFFF; X 3 <== X 3 .&# 0x0000FFFF0000FFFF;
   X 0 <== X 0 .| (X 0 .<< 8); X 1 <== X 1 .| (X 1 .<< 8); X 2 <== X 2 .| (X 2 .<< 8); X 3 <== X 3 .| (X 3 .<< 8);
   X 0 <== X 0 .&# 0x00FF00FF00FF00FF; X 1 <== X 1 .&# 0x00FF00FF00FF00FF; X 2 <== X 2 .&# 0x00FF00FF00FF00FF; X 3 <== X 3 .&# 0x00FF00FF00FF00FF;
   S_ 0 <== X 0 .| (X 2 .<< 8); S_ 1 <== X 1 .| (X 3 .<< 8)]%G.
Definition interleave_in (q : list Z) (i0 i1 : Z) (w : list Z) : M (list Z) :=
  '(_, l) <- gates U32 interleave_in_gates w noloc ;;
  s0 <- lift (l (S_ 0)) ;; q <- st U64 q i0 (Var U64 s0) ;;
  s1 <- lift (l (S_ 1)) ;; st U64 q i1 (Var U64 s1).

(** aes256ctr.c:301-321; [Y 0] and [Y 1] are the parameters q0 and q1. *)
Definition interleave_out_gates : list (reg * gexp) :=
  [X 0 <== Y 0 .&# 0x00FF00FF00FF00FF; X 1 <== Y 1 .&# 0x00FF00FF00FF00FF;
   X 2 <== (Y 0 .>> 8) .&# 0x00FF00FF00FF00FF; X 3 <== (Y 1 .>> 8) .&# 0x00FF00FF00FF00FF;
   X 0 <== X 0 .| (X 0 .>> 8); X 1 <== X 1 .| (X 1 .>> 8); X 2 <== X 2 .| (X 2 .>> 8); X 3 <== X 3 .| (X 3 .>> 8);
   X 0 <== X 0 .&# 0x0000FFFF0000FFFF; X 1 <== X 1 .&# 0x0000FFFF0000FFFF; X 2 <== X 2 .&# 0x0000FFFF0000FFFF; X 3 <== X 3 .&# 0x0000FFFF0000FFFF;
   Q 0 <== GLow (X 0) .| GLow (X 0 .>> 16); Q 1 <== GLow (X 1) .| GLow (X 1 .>> 16); Q 2 <== GLow (X 2) .| GLow (X 2 .>> 16); Q 3 <== GLow (X 3) .| GLow (X 3 .>> 16)]%G.
Definition interleave_out (w : list Z) (q0 q1 : Z) : M (list Z) :=
  '(w, _) <- gates U32 interleave_out_gates w (set (set noloc (Y 0) q0) (Y 1) q1) ;; ret w.

(** aes256ctr.c:323-325. *)
Definition Rcon_tab : list Z := [0x01; 0x02; 0x04; 0x08; 0x10; 0x20; 0x40; 0x80; 0x1B; 0x36].

(** aes256ctr.c:327-337. *)
Definition sub_word (junk : mem) (x : cexp) : M cexp :=
  let q := uninit_ U64 junk 0 8 in
  q <- memset q 0 8 ;;
  q <- st U64 q 0 x ;;
  q <- ortho q ;;
  q <- bitslice_Sbox q ;;
  q <- ortho q ;;
  asg U32 (Cast U32 (Idx U64 q 0)).

(** aes256ctr.c:371-386: the values of comp_skey[j] and comp_skey[j+1]. *)
Definition comp_gates0 : list (reg * gexp) := [S_ 0 <== (Q 0 .&# 0x1111111111111111) .| (Q 1 .&# 0x2222222222222222) .| (Q 2 .&# 0x4444444444444444) .| (Q 3 .&# 0x8888888888888888)]%G.
Definition comp_gates1 : list (reg * gexp) := [S_ 0 <== (Q 4 .&# 0x1111111111111111) .| (Q 5 .&# 0x2222222222222222) .| (Q 6 .&# 0x4444444444444444) .| (Q 7 .&# 0x8888888888888888)]%G.

(** aes256ctr.c:351-366: the loop that computes the words of the key schedule. *)
Definition keysched_words (junk : mem) (skey : list Z) (tmp : cexp) (nk nkf : Z) : M (list Z * cexp * Z * Z) :=
  for_ nk nkf (fun i '(skey, tmp, j, k) =>
    tmp <- ite (j =? 0)
      (tmp <- asg U32 ((tmp .<< #24) .| (tmp .>> #8))%C ;;
       s <- sub_word (sub junk 0) tmp ;;
       asg U32 (s .^ Idx U8 Rcon_tab k)%C)
      (ite ((6 <? nk) && (j =? 4)) (sub_word (sub junk 1) tmp) (ret tmp)) ;;
    tmp <- asg U32 (tmp .^ Idx U32 skey (i - nk))%C ;;
    skey <- st U32 skey i tmp ;;
    ite (j + 1 =? nk) (ret (skey, tmp, 0, k + 1)) (ret (skey, tmp, j + 1, k))) (skey, tmp, 0, 0).

(** aes256ctr.c:339-388.  The index [i] of the second loop is 4 * [m], and [j] is 2 * [m]. *)
Definition keysched (junk : mem) (comp_skey key : list Z) : M (list Z) :=
  let skey := uninit_ U32 junk 0 60 in
  let nk := 8 in let nkf := 60 in
  skey <- br_range_dec32le skey 8 key ;;
  tmp <- asg U32 (Idx U32 skey 7) ;;
  '(skey, _, _, _) <- keysched_words (sub junk 1) skey tmp nk nkf ;;
  for_ 0 15 (fun m comp_skey =>
    let q := uninit_ U64 (sub junk 2) m 8 in
    p <- ptr skey (4 * m) ;;
    q <- interleave_in q 0 4 p ;;
    q <- st U64 q 1 (Idx U64 q 0) ;;
    q <- st U64 q 2 (Idx U64 q 0) ;;
    q <- st U64 q 3 (Idx U64 q 0) ;;
    q <- st U64 q 5 (Idx U64 q 4) ;;
    q <- st U64 q 6 (Idx U64 q 4) ;;
    q <- st U64 q 7 (Idx U64 q 4) ;;
    q <- ortho q ;;
    '(q, l) <- gates U64 comp_gates0 q noloc ;;
    c0 <- lift (l (S_ 0)) ;; comp_skey <- st U64 comp_skey (2 * m) (Var U64 c0) ;;
    '(q, l) <- gates U64 comp_gates1 q noloc ;;
    c1 <- lift (l (S_ 0)) ;; st U64 comp_skey (2 * m + 1) (Var U64 c1)) comp_skey.

(** aes256ctr.c:397-409: the body of the loop, on the four elements of skey from [v] on; [Y 0] is comp_skey[u]. *)
Definition expand_gates : list (reg * gexp) :=
  [X 3 <== Y 0; X 2 <== X 3; X 1 <== X 2; X 0 <== X 1;
   X 0 <== X 0 .&# 0x1111111111111111; X 1 <== X 1 .&# 0x2222222222222222; X 2 <== X 2 .&# 0x4444444444444444; X 3 <== X 3 .&# 0x8888888888888888;
   X 1 <== X 1 .>> 1; X 2 <== X 2 .>> 2; X 3 <== X 3 .>> 3;
   Q 0 <== GSpread (X 0); Q 1 <== GSpread (X 1); Q 2 <== GSpread (X 2); Q 3 <== GSpread (X 3)]%G.
(** aes256ctr.c:390-411. *)
Definition skey_expand (skey comp_skey : list Z) : M (list Z) :=
  for_ 0 30 (fun u skey =>
    c <- rd comp_skey u ;;
    at_ skey (4 * u) (fun p => '(p, _) <- gates U64 expand_gates p (set noloc (Y 0) c) ;; ret p)) skey.

(** aes256ctr.c:413-423. *)
Definition add_round_key (q sk : list Z) : M (list Z) :=
  each [0; 1; 2; 3; 4; 5; 6; 7] (fun i q => st U64 q i (Idx U64 q i .^ Idx U64 sk i)%C) q.

(** aes256ctr.c:425-441; [X 0] is x. *)
Definition shift_rows_gates (i : Z) : list (reg * gexp) :=
  [X 0 <== Q i;
   Q i <== (X 0 .&# 0x000000000000FFFF)
     .| ((X 0 .&# 0x00000000FFF00000) .>> 4)
     .| ((X 0 .&# 0x00000000000F0000) .<< 12)
     .| ((X 0 .&# 0x0000FF0000000000) .>> 8)
     .| ((X 0 .&# 0x000000FF00000000) .<< 8)
     .| ((X 0 .&# 0xF000000000000000) .>> 12)
     .| ((X 0 .&# 0x0FFF000000000000) .<< 4)]%G.
Definition shift_rows (q : list Z) : M (list Z) :=
  for_ 0 8 (fun i q => '(q, _) <- gates U64 (shift_rows_gates i) q noloc ;; ret q) q.

(** aes256ctr.c:443-446. *)
Definition rotr32 (x : gexp) : gexp := ((x .<< 32) .| (x .>> 32))%G.

(** aes256ctr.c:448-478; [X i] and [Y i] are qi and ri. *)
Definition mix_columns_gates : list (reg * gexp) :=
  [X 0 <== Q 0; X 1 <== Q 1; X 2 <== Q 2; X 3 <== Q 3; X 4 <== Q 4; X 5 <== Q 5; X 6 <== Q 6; X 7 <== Q 7;
   Y 0 <== (X 0 .>> 16) .| (X 0 .<< 48); Y 1 <== (X 1 .>> 16) .| (X 1 .<< 48); Y 2 <== (X 2 .>> 16) .| (X 2 .<< 48); Y 3 <== (X 3 .>> 16) .| (X 3 .<< 48); Y 4 <== (X 4 .>> 16) .| (X 4 .<< 48); Y 5 <== (X 5 .>> 16) .| (X 5 .<< 48); Y 6 <== (X 6 .>> 16) .| (X 6 .<< 48); Y 7 <== (X 7 .>> 16) .| (X 7 .<< 48);
   Q 0 <== X 7 .^ Y 7 .^ Y 0 .^ rotr32 (X 0 .^ Y 0);
   Q 1 <== X 0 .^ Y 0 .^ X 7 .^ Y 7 .^ Y 1 .^ rotr32 (X 1 .^ Y 1);
   Q 2 <== X 1 .^ Y 1 .^ Y 2 .^ rotr32 (X 2 .^ Y 2);
   Q 3 <== X 2 .^ Y 2 .^ X 7 .^ Y 7 .^ Y 3 .^ rotr32 (X 3 .^ Y 3);
   Q 4 <== X 3 .^ Y 3 .^ X 7 .^ Y 7 .^ Y 4 .^ rotr32 (X 4 .^ Y 4);
   Q 5 <== X 4 .^ Y 4 .^ Y 5 .^ rotr32 (X 5 .^ Y 5);
   Q 6 <== X 5 .^ Y 5 .^ Y 6 .^ rotr32 (X 6 .^ Y 6);
   Q 7 <== X 6 .^ Y 6 .^ Y 7 .^ rotr32 (X 7 .^ Y 7)]%G.
Definition mix_columns (q : list Z) : M (list Z) := '(q, _) <- gates U64 mix_columns_gates q noloc ;; ret q.

(** aes256ctr.c:480-484. *)
Definition inc4_be (x : list Z) : M (list Z) :=
  s <- br_swap32 (Idx U32 x 0) ;; x <- st U32 x 0 (s + #4)%C ;;
  s <- br_swap32 (Idx U32 x 0) ;; st U32 x 0 s.

(** aes256ctr.c:486-520.  Returns [out] and [ivw]. *)
Definition aes_ctr4x (junk : mem) (out ivw sk_exp : list Z) : M (list Z * list Z) :=
  let w := uninit_ U32 junk 0 16 in
  let q := uninit_ U64 junk 1 8 in
  w <- memcpy w ivw 16 ;;
  q <- for_ 0 4 (fun i q => p <- ptr w (4 * i) ;; interleave_in q i (i + 4) p) q ;;
  q <- ortho q ;;
  q <- add_round_key q sk_exp ;;
  q <- for_ 1 14 (fun i q =>
    q <- bitslice_Sbox q ;;
    q <- shift_rows q ;;
    q <- mix_columns q ;;
    p <- ptr sk_exp (8 * i) ;;
    add_round_key q p) q ;;
  q <- bitslice_Sbox q ;;
  q <- shift_rows q ;;
  p <- ptr sk_exp 112 ;;
  q <- add_round_key q p ;;
  q <- ortho q ;;
  w <- for_ 0 4 (fun i w => q0 <- rd q i ;; q1 <- rd q (i + 4) ;; at_ w (4 * i) (fun p => interleave_out p q0 q1)) w ;;
  out <- br_range_enc32le out w 16 ;;
  ivw <- at_ ivw 3 inc4_be ;;
  ivw <- at_ ivw 7 inc4_be ;;
  ivw <- at_ ivw 11 inc4_be ;;
  ivw <- at_ ivw 15 inc4_be ;;
  ret (out, ivw).

(** aes256ctr.c:522-528. *)
Definition ctr_init (junk : mem) (sk_exp key : list Z) : M (list Z) :=
  let skey := uninit_ U64 junk 0 30 in
  skey <- keysched (sub junk 1) skey key ;;
  skey_expand sk_exp skey.

(** aes256ctr.c:535-542 and 569-576: the counter blocks; [c0], ..., [c3] are the arguments of br_swap32. *)
Definition fill_ivw (ivw iv : list Z) (c0 c1 c2 c3 : cexp) : M (list Z) :=
  ivw <- br_range_dec32le ivw 3 iv ;;
  ivw <- at_ ivw 4 (fun p => memcpy p ivw 3) ;;
  ivw <- at_ ivw 8 (fun p => memcpy p ivw 3) ;;
  ivw <- at_ ivw 12 (fun p => memcpy p ivw 3) ;;
  s <- br_swap32 c0 ;; ivw <- st U32 ivw 3 s ;;
  s <- br_swap32 c1 ;; ivw <- st U32 ivw 7 s ;;
  s <- br_swap32 c2 ;; ivw <- st U32 ivw 11 s ;;
  s <- br_swap32 c3 ;; st U32 ivw 15 s.

(** aes256ctr.c:530-555.  [o] is the offset of the pointer [data]. *)
Definition ctr_run (junk : mem) (sk_exp iv : list Z) (cc : cexp) (data : list Z) (ln : Z) : M (list Z) :=
  let ivw := uninit_ U32 junk 0 16 in
  ivw <- fill_ivw ivw iv cc (cc + #1)%C (cc + #2)%C (cc + #3)%C ;;
  '(data, ivw, o, ln) <- while_ (S (Z.to_nat (ln / 64))) (fun '(_, _, _, ln) => 64 <? ln)
    (fun '(data, ivw, o, ln) =>
      '(data, ivw) <- at2 data o (fun p => aes_ctr4x (sub junk 1) p ivw sk_exp) ;;
      ret (data, ivw, o + 64, ln - 64)) (data, ivw, 0, ln) ;;
  ite (0 <? ln)
    (let tmp := uninit8 junk 2 64 in
     '(tmp, ivw) <- aes_ctr4x (sub junk 3) tmp ivw sk_exp ;;
     at_ data o (fun p => for_ 0 ln (fun i p => st U8 p i (Idx U8 tmp i)) p))
    (ret data).

(** aes256ctr.c:557-563. *)
Definition aes256ctr_prf (junk : mem) (out : list Z) (outlen : Z) (key nonce : list Z) : M (list Z) :=
  let sk_exp := uninit_ U64 junk 0 120 in
  sk_exp <- ctr_init (sub junk 1) sk_exp key ;;
  ctr_run (sub junk 2) sk_exp nonce (Cst U32 0) out outlen.

(** aes256ctr.h:6-9. *)
Record aes256ctr_ctx := Ctx { c_sk : list Z; c_ivw : list Z }.
(** Contexts with arrays of the declared sizes. *)
Definition aes_ctx_ok (s : aes256ctr_ctx) : Prop := arr U64 120 (c_sk s) /\ arr U32 16 (c_ivw s).

(** aes256ctr.c:565-577. *)
Definition aes256ctr_init (junk : mem) (s : aes256ctr_ctx) (key nonce : list Z) : M aes256ctr_ctx :=
  sk <- ctr_init (sub junk 0) (c_sk s) key ;;
  ivw <- fill_ivw (c_ivw s) nonce #0 #1 #2 #3 ;;
  ret (Ctx sk ivw).

(** aes256ctr.c:579-586.  [o] is the offset of the pointer [out]. *)
Definition aes256ctr_squeezeblocks (junk : mem) (out : list Z) (nblocks : Z) (s : aes256ctr_ctx) : M (list Z * aes256ctr_ctx) :=
  '(out, ivw, _, _) <- while_ (S (Z.to_nat nblocks)) (fun '(_, _, _, nblocks) => 0 <? nblocks)
    (fun '(out, ivw, o, nblocks) =>
      '(out, ivw) <- at2 out o (fun p => aes_ctr4x junk p ivw (c_sk s)) ;;
      ret (out, ivw, o + 64, nblocks - 1)) (out, c_ivw s, 0, nblocks) ;;
  ret (out, Ctx (c_sk s) ivw).

(** symmetric-aes.c:7-11. *)
Definition saber_aes256ctr_prf (junk : mem) (output : list Z) (outlen : Z) (input : list Z) : M (list Z) :=
  aes256ctr_prf junk output outlen input (zeros 12).

(** A caller's sequence of calls of aes256ctr_squeezeblocks (aes256ctr.c:579-586) on one context. *)
Fixpoint squeezes (junk : mem) (outs : list (list Z * Z)) (s : aes256ctr_ctx) : M (list (list Z)) :=
  match outs with
  | [] => ret []
  | (out, n) :: r => ('(o, s) <- aes256ctr_squeezeblocks junk out n s ;; rs <- squeezes junk r s ;; ret (o :: rs))%M
  end.
