(** Model of sha256.c and sha512.c (Variants/uSaber-90s/ref).

    Lines 25-214 of sha256.c and 35-243 of sha512.c have the same text up to the word type and the constants
    (and the number of EXPAND groups, 4 and 5); the definitions below are generic in a record of these.
    The local variables a, ..., h and w0, ..., w15 are lists of values: they are not memory accesses in the trace.
    The value returned by crypto_hashblocks is not used by the callers and is left out. *)
From Coq Require Import ZArith List.
From Verif Require Import Lib.Arr Lib.CInt Lib.CMon Model.Params.
Import ListNotations.
Local Open Scope Z_scope.
Local Open Scope M_scope.

(** Straight-line repetition of a piece of code for the elements of a list. *)
Fixpoint each {A S} (l : list A) (f : A -> S -> M S) (s : S) : M S :=
  match l with [] => ret s | x :: r => s <- f x s ;; each r f s end.

Record alg := Alg {
  a_t : ity;                                  (* uint32_t or uint64_t *)
  a_bytes : Z;                                (* its size *)
  a_load : list Z -> cexp;
  a_store : list Z -> cexp -> M (list Z);
  a_S0 : Z * Z * Z; a_S1 : Z * Z * Z; a_s0 : Z * Z * Z; a_s1 : Z * Z * Z;
  a_K : list (list Z) }.                      (* groups of constants, separated by EXPAND *)

(** sha256.c:7-15, the returned expression. *)
Definition load_bigendian32 (x : list Z) : cexp :=
  (Cast U32 (Idx U8 x 3) .| (Cast U32 (Idx U8 x 2) .<< #8) .| (Cast U32 (Idx U8 x 1) .<< #16) .| (Cast U32 (Idx U8 x 0) .<< #24))%C.

(** sha256.c:17-23. *)
Definition store_bigendian32 (x : list Z) (u : cexp) : M (list Z) :=
  x <- st U8 x 3 u ;; u <- asg U32 (u .>> #8)%C ;;
  x <- st U8 x 2 u ;; u <- asg U32 (u .>> #8)%C ;;
  x <- st U8 x 1 u ;; u <- asg U32 (u .>> #8)%C ;;
  st U8 x 0 u.

(** sha512.c:9-21. *)
Definition load_bigendian64 (x : list Z) : cexp :=
  (Cast U64 (Idx U8 x 7) .| (Cast U64 (Idx U8 x 6) .<< #8) .| (Cast U64 (Idx U8 x 5) .<< #16) .| (Cast U64 (Idx U8 x 4) .<< #24)
   .| (Cast U64 (Idx U8 x 3) .<< #32) .| (Cast U64 (Idx U8 x 2) .<< #40) .| (Cast U64 (Idx U8 x 1) .<< #48)
   .| (Cast U64 (Idx U8 x 0) .<< #56))%C.

(** sha512.c:23-33. *)
Definition store_bigendian64 (x : list Z) (u : cexp) : M (list Z) :=
  x <- st U8 x 7 u ;; u <- asg U64 (u .>> #8)%C ;;
  x <- st U8 x 6 u ;; u <- asg U64 (u .>> #8)%C ;;
  x <- st U8 x 5 u ;; u <- asg U64 (u .>> #8)%C ;;
  x <- st U8 x 4 u ;; u <- asg U64 (u .>> #8)%C ;;
  x <- st U8 x 3 u ;; u <- asg U64 (u .>> #8)%C ;;
  x <- st U8 x 2 u ;; u <- asg U64 (u .>> #8)%C ;;
  x <- st U8 x 1 u ;; u <- asg U64 (u .>> #8)%C ;;
  st U8 x 0 u.

(** sha256.c:39-55, sha512.c:49-65: the arguments (w0,w14,w9,w1) of the lines of EXPAND. *)
Definition EXPAND_lines : list (Z * Z * Z * Z) :=
  [(0, 14, 9, 1); (1, 15, 10, 2); (2, 0, 11, 3); (3, 1, 12, 4); (4, 2, 13, 5); (5, 3, 14, 6); (6, 4, 15, 7); (7, 5, 0, 8);
   (8, 6, 1, 9); (9, 7, 2, 10); (10, 8, 3, 11); (11, 9, 4, 12); (12, 10, 5, 13); (13, 11, 6, 14); (14, 12, 7, 15); (15, 13, 8, 0)].

Section Sha2.
  Variable p : alg.
  Let t := a_t p.

  (** sha256.c:25-35, sha512.c:35-45. *)
  Definition ROTR (x : cexp) (c : Z) : cexp := ((x .>> #c) .| (x .<< (#(width t) - #c)))%C.
  Definition SHR (x : cexp) (c : Z) : cexp := (x .>> #c)%C.
  Definition Ch (x y z : cexp) : cexp := ((x .& y) .^ (Not x .& z))%C.
  Definition Maj (x y z : cexp) : cexp := ((x .& y) .^ (x .& z) .^ (y .& z))%C.
  Definition big_sigma (r : Z * Z * Z) (x : cexp) : cexp := let '(i, j, k) := r in (ROTR x i .^ ROTR x j .^ ROTR x k)%C.
  Definition small_sigma (r : Z * Z * Z) (x : cexp) : cexp := let '(i, j, k) := r in (ROTR x i .^ ROTR x j .^ SHR x k)%C.

  (** The macro M: sha256.c:37, sha512.c:47. *)
  Definition M_ (l : Z * Z * Z * Z) (w : list Z) : M (list Z) :=
    let '(w0, w14, w9, w1) := l in
    let W i := Var t (get w i) in
    x <- ev (small_sigma (a_s1 p) (W w14) + W w9 + small_sigma (a_s0 p) (W w1) + W w0)%C ;;
    ret (upd w w0 x).

  (** The macro F: sha256.c:57-65, sha512.c:67-75.  [v] is a, b, ..., h. *)
  Definition F (w k : Z) (v : list Z) : M (list Z) :=
    let a := Var t (get v 0) in let b := Var t (get v 1) in let c := Var t (get v 2) in let d := Var t (get v 3) in
    let e := Var t (get v 4) in let f := Var t (get v 5) in let g := Var t (get v 6) in let h := Var t (get v 7) in
    T1 <- ev (h + big_sigma (a_S1 p) e + Ch e f g + Cst t k + Var t w)%C ;;
    T2 <- ev (big_sigma (a_S0 p) a + Maj a b c)%C ;;
    e' <- ev (d + Var t T1)%C ;;
    a' <- ev (Var t T1 + Var t T2)%C ;;
    ret [a'; get v 0; get v 1; get v 2; e'; get v 4; get v 5; get v 6].

  (** F(w0,k0) ... F(w15,k15). *)
  Definition F16 (w ks v : list Z) : M (list Z) :=
    each [0; 1; 2; 3; 4; 5; 6; 7; 8; 9; 10; 11; 12; 13; 14; 15] (fun i v => F (get w i) (get ks i) v) v.

  Definition regs : list Z := [0; 1; 2; 3; 4; 5; 6; 7].

  (** The body of the loop: sha256.c:91-198, sha512.c:101-227. *)
  Definition hash_block (inp state v : list Z) : M (list Z * list Z) :=
    w <- each [0; 1; 2; 3; 4; 5; 6; 7; 8; 9; 10; 11; 12; 13; 14; 15]
           (fun i w => q <- ptr inp (a_bytes p * i) ;; x <- ev (a_load p q) ;; ret (w ++ [x])) [] ;;
    v <- F16 w (hd [] (a_K p)) v ;;
    '(w, v) <- each (tl (a_K p)) (fun ks '(w, v) =>
       w <- each EXPAND_lines M_ w ;;
       v <- F16 w ks v ;;
       ret (w, v)) (w, v) ;;
    v <- each regs (fun i v => x <- ev (Var t (get v i) + Idx t state i)%C ;; ret (upd v i x)) v ;;
    state <- each regs (fun i state => st t state i (Var t (get v i))) state ;;
    ret (state, v).

  (** sha256.c:67-214, sha512.c:77-243. *)
  Definition hashblocks (junk : mem) (statebytes inp : list Z) (inlen : Z) : M (list Z) :=
    let B := 16 * a_bytes p in
    '(state, v) <- each regs (fun i '(state, v) =>
       q <- ptr statebytes (a_bytes p * i) ;;
       x <- ev (a_load p q) ;;
       state <- st t state i (Var t x) ;;
       ret (state, v ++ [x])) (uninit junk 0 8, []) ;;
    '(state, _, _, _) <- while_ (S (Z.to_nat (inlen / B))) (fun '(_, _, _, inlen) => B <=? inlen)
      (fun '(state, v, inp, inlen) =>
         '(state, v) <- hash_block inp state v ;;
         inp <- ptr inp B ;;
         ret (state, v, inp, inlen - B)) (state, v, inp, inlen) ;;
    each regs (fun i sb => x <- rd state i ;; at_ sb (a_bytes p * i) (fun q => a_store p q (Var t x))) statebytes.
End Sha2.

(** ** SHA-256 *)

(** sha256.c:30-33 and the constants of 108-180. *)
Definition alg256 : alg := Alg U32 4 load_bigendian32 store_bigendian32 (2, 13, 22) (6, 11, 25) (7, 18, 3) (17, 19, 10)
  [[0x428a2f98; 0x71374491; 0xb5c0fbcf; 0xe9b5dba5; 0x3956c25b; 0x59f111f1; 0x923f82a4; 0xab1c5ed5; 0xd807aa98; 0x12835b01; 0x243185be; 0x550c7dc3; 0x72be5d74; 0x80deb1fe; 0x9bdc06a7; 0xc19bf174];
   [0xe49b69c1; 0xefbe4786; 0x0fc19dc6; 0x240ca1cc; 0x2de92c6f; 0x4a7484aa; 0x5cb0a9dc; 0x76f988da; 0x983e5152; 0xa831c66d; 0xb00327c8; 0xbf597fc7; 0xc6e00bf3; 0xd5a79147; 0x06ca6351; 0x14292967];
   [0x27b70a85; 0x2e1b2138; 0x4d2c6dfc; 0x53380d13; 0x650a7354; 0x766a0abb; 0x81c2c92e; 0x92722c85; 0xa2bfe8a1; 0xa81a664b; 0xc24b8b70; 0xc76c51a3; 0xd192e819; 0xd6990624; 0xf40e3585; 0x106aa070];
   [0x19a4c116; 0x1e376c08; 0x2748774c; 0x34b0bcb5; 0x391c0cb3; 0x4ed8aa4a; 0x5b9cca4f; 0x682e6ff3; 0x748f82ee; 0x78a5636f; 0x84c87814; 0x8cc70208; 0x90befffa; 0xa4506ceb; 0xbef9a3f7; 0xc67178f2]].

(** sha256.c:218-227. *)
Definition iv256 : list Z := [0x6a; 0x09; 0xe6; 0x67; 0xbb; 0x67; 0xae; 0x85; 0x3c; 0x6e; 0xf3; 0x72; 0xa5; 0x4f; 0xf5; 0x3a; 0x51; 0x0e; 0x52; 0x7f; 0x9b; 0x05; 0x68; 0x8c; 0x1f; 0x83; 0xd9; 0xab; 0x5b; 0xe0; 0xcd; 0x19].

(** sha256.c:229-271. *)
Definition sha256 (junk : mem) (out inp : list Z) (inlen : Z) : M (list Z) :=
  let h := uninit8 junk 0 32 in
  let padded := uninit8 junk 1 128 in
  bits <- asg U64 (Var U64 inlen .<< #3)%C ;;
  h <- for_ 0 32 (fun i h => st U8 h i (Idx U8 iv256 i)) h ;;
  h <- hashblocks alg256 (sub junk 2) h inp inlen ;;
  _ <- ptr inp inlen ;;
  r <- ev (Var U64 inlen .& #63)%C ;;
  inp <- ptr inp (inlen - r) ;;
  let inlen := r in
  padded <- for_ 0 inlen (fun i padded => st U8 padded i (Idx U8 inp i)) padded ;;
  padded <- st U8 padded inlen #0x80 ;;
  h <- ite (inlen <? 56)
     (padded <- for_ (inlen + 1) 56 (fun i padded => st U8 padded i #0) padded ;;
      padded <- sts U8 padded 56 [bits .>> #56; bits .>> #48; bits .>> #40; bits .>> #32; bits .>> #24; bits .>> #16; bits .>> #8; bits]%C ;;
      hashblocks alg256 (sub junk 3) h padded 64)
     (padded <- for_ (inlen + 1) 120 (fun i padded => st U8 padded i #0) padded ;;
      padded <- sts U8 padded 120 [bits .>> #56; bits .>> #48; bits .>> #40; bits .>> #32; bits .>> #24; bits .>> #16; bits .>> #8; bits]%C ;;
      hashblocks alg256 (sub junk 4) h padded 128) ;;
  for_ 0 32 (fun i out => st U8 out i (Idx U8 h i)) out.

(** ** SHA-512 *)

(** sha512.c:40-43 and the constants of 118-209. *)
Definition alg512 : alg := Alg U64 8 load_bigendian64 store_bigendian64 (28, 34, 39) (14, 18, 41) (1, 8, 7) (19, 61, 6)
  [[0x428a2f98d728ae22; 0x7137449123ef65cd; 0xb5c0fbcfec4d3b2f; 0xe9b5dba58189dbbc; 0x3956c25bf348b538; 0x59f111f1b605d019; 0x923f82a4af194f9b; 0xab1c5ed5da6d8118; 0xd807aa98a3030242; 0x12835b0145706fbe; 0x243185be4ee4b28c; 0x550c7dc3d5ffb4e2; 0x72be5d74f27b896f; 0x80deb1fe3b1696b1; 0x9bdc06a725c71235; 0xc19bf174cf692694];
   [0xe49b69c19ef14ad2; 0xefbe4786384f25e3; 0x0fc19dc68b8cd5b5; 0x240ca1cc77ac9c65; 0x2de92c6f592b0275; 0x4a7484aa6ea6e483; 0x5cb0a9dcbd41fbd4; 0x76f988da831153b5; 0x983e5152ee66dfab; 0xa831c66d2db43210; 0xb00327c898fb213f; 0xbf597fc7beef0ee4; 0xc6e00bf33da88fc2; 0xd5a79147930aa725; 0x06ca6351e003826f; 0x142929670a0e6e70];
   [0x27b70a8546d22ffc; 0x2e1b21385c26c926; 0x4d2c6dfc5ac42aed; 0x53380d139d95b3df; 0x650a73548baf63de; 0x766a0abb3c77b2a8; 0x81c2c92e47edaee6; 0x92722c851482353b; 0xa2bfe8a14cf10364; 0xa81a664bbc423001; 0xc24b8b70d0f89791; 0xc76c51a30654be30; 0xd192e819d6ef5218; 0xd69906245565a910; 0xf40e35855771202a; 0x106aa07032bbd1b8];
   [0x19a4c116b8d2d0c8; 0x1e376c085141ab53; 0x2748774cdf8eeb99; 0x34b0bcb5e19b48a8; 0x391c0cb3c5c95a63; 0x4ed8aa4ae3418acb; 0x5b9cca4f7763e373; 0x682e6ff3d6b2b8a3; 0x748f82ee5defb2fc; 0x78a5636f43172f60; 0x84c87814a1f0ab72; 0x8cc702081a6439ec; 0x90befffa23631e28; 0xa4506cebde82bde9; 0xbef9a3f7b2c67915; 0xc67178f2e372532b];
   [0xca273eceea26619c; 0xd186b8c721c0c207; 0xeada7dd6cde0eb1e; 0xf57d4f7fee6ed178; 0x06f067aa72176fba; 0x0a637dc5a2c898a6; 0x113f9804bef90dae; 0x1b710b35131c471b; 0x28db77f523047d84; 0x32caab7b40c72493; 0x3c9ebe0a15c9bebc; 0x431d67c49c100d4c; 0x4cc5d4becb3e42b6; 0x597f299cfc657e2a; 0x5fcb6fab3ad6faec; 0x6c44198c4a475817]].

(** sha512.c:247-256. *)
Definition iv512 : list Z := [0x6a; 0x09; 0xe6; 0x67; 0xf3; 0xbc; 0xc9; 0x08; 0xbb; 0x67; 0xae; 0x85; 0x84; 0xca; 0xa7; 0x3b; 0x3c; 0x6e; 0xf3; 0x72; 0xfe; 0x94; 0xf8; 0x2b; 0xa5; 0x4f; 0xf5; 0x3a; 0x5f; 0x1d; 0x36; 0xf1; 0x51; 0x0e; 0x52; 0x7f; 0xad; 0xe6; 0x82; 0xd1; 0x9b; 0x05; 0x68; 0x8c; 0x2b; 0x3e; 0x6c; 0x1f; 0x1f; 0x83; 0xd9; 0xab; 0xfb; 0x41; 0xbd; 0x6b; 0x5b; 0xe0; 0xcd; 0x19; 0x13; 0x7e; 0x21; 0x79].

(** sha512.c:258-302. *)
Definition sha512 (junk : mem) (out inp : list Z) (inlen : Z) : M (list Z) :=
  let h := uninit8 junk 0 64 in
  let padded := uninit8 junk 1 256 in
  let bytes := Var U64 inlen in
  h <- for_ 0 64 (fun i h => st U8 h i (Idx U8 iv512 i)) h ;;
  h <- hashblocks alg512 (sub junk 2) h inp inlen ;;
  _ <- ptr inp inlen ;;
  r <- ev (Var U64 inlen .& #127)%C ;;
  inp <- ptr inp (inlen - r) ;;
  let inlen := r in
  padded <- for_ 0 inlen (fun i padded => st U8 padded i (Idx U8 inp i)) padded ;;
  padded <- st U8 padded inlen #0x80 ;;
  h <- ite (inlen <? 112)
     (padded <- for_ (inlen + 1) 119 (fun i padded => st U8 padded i #0) padded ;;
      padded <- sts U8 padded 119 [bytes .>> #61; bytes .>> #53; bytes .>> #45; bytes .>> #37; bytes .>> #29; bytes .>> #21; bytes .>> #13; bytes .>> #5; bytes .<< #3]%C ;;
      hashblocks alg512 (sub junk 3) h padded 128)
     (padded <- for_ (inlen + 1) 247 (fun i padded => st U8 padded i #0) padded ;;
      padded <- sts U8 padded 247 [bytes .>> #61; bytes .>> #53; bytes .>> #45; bytes .>> #37; bytes .>> #29; bytes .>> #21; bytes .>> #13; bytes .>> #5; bytes .<< #3]%C ;;
      hashblocks alg512 (sub junk 4) h padded 256) ;;
  for_ 0 64 (fun i out => st U8 out i (Idx U8 h i)) out.
