(** Model of poly_mul.c (reference; the uSaber-90s variant differs only in the
  position of one declaration). *)
From Coq Require Import ZArith List.
From Verif Require Import Lib.Arr Lib.CInt Lib.CMon.
Import ListNotations.
Local Open Scope Z_scope.
Local Open Scope M_scope.

(** poly_mul.c:11. *)
Definition OVERFLOWING_MUL (x y : cexp) : cexp := Cast U16 (Cast U32 x * Cast U32 y)%C.

(** [x[i] = x[i] + e]. *)
Definition add_st (a : list Z) (i : Z) (e : cexp) : M (list Z) :=
  st U16 a i (Idx U16 a i + e)%C.

(** The arrays of [karatsuba_simple]. *)
Record kst := K { k_rf : list Z; k_d01 : list Z; k_d0123 : list Z; k_d23 : list Z; k_rd : list Z }.

(** poly_mul.c:36-83, body of the inner loop. *)
Definition kara_inner (b_1 : list Z) (i : Z) (acc1 acc2 acc3 acc4 : cexp) (j : Z) (s : kst) : M kst :=
  let '(K rf d01 d0123 d23 rd) := s in
  acc5 <- asg U16 (Idx U16 b_1 j) ;;
  acc6 <- asg U16 (Idx U16 b_1 (j + 16)) ;;
  rf <- add_st rf (i + j + 0) (OVERFLOWING_MUL acc1 acc5) ;;
  rf <- add_st rf (i + j + 32) (OVERFLOWING_MUL acc2 acc6) ;;
  acc7 <- asg U16 (acc5 + acc6)%C ;;
  acc8 <- asg U16 (acc1 + acc2)%C ;;
  d01 <- add_st d01 (i + j) (Cast U16 (acc7 * Cast U64 acc8)%C) ;;
  acc7 <- asg U16 (Idx U16 b_1 (j + 32)) ;;
  acc8 <- asg U16 (Idx U16 b_1 (j + 48)) ;;
  rf <- add_st rf (i + j + 64) (OVERFLOWING_MUL acc7 acc3) ;;
  rf <- add_st rf (i + j + 96) (OVERFLOWING_MUL acc8 acc4) ;;
  acc9 <- asg U16 (acc3 + acc4)%C ;;
  acc10 <- asg U16 (acc7 + acc8)%C ;;
  d23 <- add_st d23 (i + j) (OVERFLOWING_MUL acc9 acc10) ;;
  acc5 <- asg U16 (acc5 + acc7)%C ;;
  acc7 <- asg U16 (acc1 + acc3)%C ;;
  rd <- add_st rd (i + j + 0) (OVERFLOWING_MUL acc5 acc7) ;;
  acc6 <- asg U16 (acc6 + acc8)%C ;;
  acc8 <- asg U16 (acc2 + acc4)%C ;;
  rd <- add_st rd (i + j + 32) (OVERFLOWING_MUL acc6 acc8) ;;
  acc5 <- asg U16 (acc5 + acc6)%C ;;
  acc7 <- asg U16 (acc7 + acc8)%C ;;
  d0123 <- add_st d0123 (i + j) (OVERFLOWING_MUL acc5 acc7) ;;
  ret (K rf d01 d0123 d23 rd).

(** poly_mul.c:31-84, body of the outer loop. *)
Definition kara_outer (a_1 b_1 : list Z) (i : Z) (s : kst) : M kst :=
  acc1 <- asg U16 (Idx U16 a_1 i) ;;
  acc2 <- asg U16 (Idx U16 a_1 (i + 16)) ;;
  acc3 <- asg U16 (Idx U16 a_1 (i + 32)) ;;
  acc4 <- asg U16 (Idx U16 a_1 (i + 48)) ;;
  for_ 0 16 (kara_inner b_1 i acc1 acc2 acc3 acc4) s.

(** poly_mul.c:14-109, with KARATSUBA_N = 64. *)
Definition karatsuba_simple (junk : mem) (a_1 b_1 rf : list Z) : M (list Z) :=
  rd <- memset (uninit junk 4 63) 0 63 ;;
  d01 <- memset (uninit junk 1 31) 0 31 ;;
  d0123 <- memset (uninit junk 2 31) 0 31 ;;
  d23 <- memset (uninit junk 3 31) 0 31 ;;
  rf <- memset rf 0 127 ;;
  s <- for_ 0 16 (kara_outer a_1 b_1) (K rf d01 d0123 d23 rd) ;;
  let '(K rf d01 d0123 d23 rd) := s in
  (* 88-92 *)
  ' (d01, d0123, d23) <- for_ 0 31 (fun i '(d01, d0123, d23) =>
    d0123 <- st U16 d0123 i (Idx U16 d0123 i - Idx U16 rd (i + 0) - Idx U16 rd (i + 32))%C ;;
    d01 <- st U16 d01 i (Idx U16 d01 i - Idx U16 rf (i + 0) - Idx U16 rf (i + 32))%C ;;
    d23 <- st U16 d23 i (Idx U16 d23 i - Idx U16 rf (i + 64) - Idx U16 rf (i + 96))%C ;;
    ret (d01, d0123, d23)) (d01, d0123, d23) ;;
  (* 94-98 *)
  ' (rd, rf) <- for_ 0 31 (fun i '(rd, rf) =>
    rd <- add_st rd (i + 16) (Idx U16 d0123 i) ;;
    rf <- add_st rf (i + 16) (Idx U16 d01 i) ;;
    rf <- add_st rf (i + 80) (Idx U16 d23 i) ;;
    ret (rd, rf)) (rd, rf) ;;
  (* 101-103 *)
  rd <- for_ 0 63 (fun i rd =>
    st U16 rd i (Idx U16 rd i - Idx U16 rf i - Idx U16 rf (i + 64))%C) rd ;;
  (* 105-107 *)
  for_ 0 63 (fun i rf => add_st rf (i + 32) (Idx U16 rd i)) rf.

(** The seven arrays of evaluations [aw1 .. aw7] (or [bw1 .. bw7]). *)
Record evs := E { e1 : list Z; e2 : list Z; e3 : list Z; e4 : list Z; e5 : list Z; e6 : list Z; e7 : list Z }.

(** poly_mul.c:137-158 for [a] and, textually identical, 159-180 for [b]. *)
Definition toom_eval (A0 A1 A2 A3 : list Z) (j : Z) (s : evs) : M evs :=
  let '(E aw1 aw2 aw3 aw4 aw5 aw6 aw7) := s in
  r0 <- asg U16 (Idx U16 A0 j) ;;
  r1 <- asg U16 (Idx U16 A1 j) ;;
  r2 <- asg U16 (Idx U16 A2 j) ;;
  r3 <- asg U16 (Idx U16 A3 j) ;;
  r4 <- asg U16 (r0 + r2)%C ;;
  r5 <- asg U16 (r1 + r3)%C ;;
  r6 <- asg U16 (r4 + r5)%C ;;
  r7 <- asg U16 (r4 - r5)%C ;;
  aw3 <- st U16 aw3 j r6 ;;
  aw4 <- st U16 aw4 j r7 ;;
  r4 <- asg U16 (((r0 .<< #2) + r2) .<< #1)%C ;;
  r5 <- asg U16 ((r1 .<< #2) + r3)%C ;;
  r6 <- asg U16 (r4 + r5)%C ;;
  r7 <- asg U16 (r4 - r5)%C ;;
  aw5 <- st U16 aw5 j r6 ;;
  aw6 <- st U16 aw6 j r7 ;;
  r4 <- asg U16 ((r3 .<< #3) + (r2 .<< #2) + (r1 .<< #1) + r0)%C ;;
  aw2 <- st U16 aw2 j r4 ;;
  aw7 <- st U16 aw7 j r0 ;;
  aw1 <- st U16 aw1 j r3 ;;
  ret (E aw1 aw2 aw3 aw4 aw5 aw6 aw7).

(** poly_mul.c:193-228, body of the interpolation loop. *)
Definition toom_interp (w1 w2 w3 w4 w5 w6 w7 : list Z) (i : Z) (C : list Z) : M (list Z) :=
  let inv3 := Var U16 43691 in let inv9 := Var U16 36409 in let inv15 := Var U16 61167 in
  r0 <- asg U16 (Idx U16 w1 i) ;;
  r1 <- asg U16 (Idx U16 w2 i) ;;
  r2 <- asg U16 (Idx U16 w3 i) ;;
  r3 <- asg U16 (Idx U16 w4 i) ;;
  r4 <- asg U16 (Idx U16 w5 i) ;;
  r5 <- asg U16 (Idx U16 w6 i) ;;
  r6 <- asg U16 (Idx U16 w7 i) ;;
  r1 <- asg U16 (r1 + r4)%C ;;
  r5 <- asg U16 (r5 - r4)%C ;;
  r3 <- asg U16 ((r3 - r2) .>> #1)%C ;;
  r4 <- asg U16 (r4 - r0)%C ;;
  r4 <- asg U16 (r4 - (r6 .<< #6))%C ;;
  r4 <- asg U16 ((r4 .<< #1) + r5)%C ;;
  r2 <- asg U16 (r2 + r3)%C ;;
  r1 <- asg U16 (r1 - (r2 .<< #6) - r2)%C ;;
  r2 <- asg U16 (r2 - r6)%C ;;
  r2 <- asg U16 (r2 - r0)%C ;;
  r1 <- asg U16 (r1 + #45 * r2)%C ;;
  r4 <- asg U16 (Cast U16 (((r4 - (r2 .<< #3)) * Cast U32 inv3) .>> #3))%C ;;
  r5 <- asg U16 (r5 + r1)%C ;;
  r1 <- asg U16 (Cast U16 (((r1 + (r3 .<< #4)) * Cast U32 inv9) .>> #1))%C ;;
  r3 <- asg U16 (Neg (r3 + r1))%C ;;
  r5 <- asg U16 (Cast U16 (((#30 * r1 - r5) * Cast U32 inv15) .>> #2))%C ;;
  r2 <- asg U16 (r2 - r4)%C ;;
  r1 <- asg U16 (r1 - r5)%C ;;
  C <- add_st C i r6 ;;
  C <- add_st C (i + 64) r5 ;;
  C <- add_st C (i + 128) r4 ;;
  C <- add_st C (i + 192) r3 ;;
  C <- add_st C (i + 256) r2 ;;
  C <- add_st C (i + 320) r1 ;;
  add_st C (i + 384) r0.

(** poly_mul.c:113-229, with N_SB = 64 and N_SB_RES = 127. *)
Definition toom_cook_4way (junk : mem) (a1 b1 result : list Z) : M (list Z) :=
  A1 <- ptr a1 64 ;;
  A2 <- ptr a1 128 ;;
  A3 <- ptr a1 192 ;;
  B1 <- ptr b1 64 ;;
  B2 <- ptr b1 128 ;;
  B3 <- ptr b1 192 ;;
  aw <- for_ 0 64 (toom_eval a1 A1 A2 A3)
          (E (uninit junk 11 64) (uninit junk 12 64) (uninit junk 13 64) (uninit junk 14 64) (uninit junk 15 64) (uninit junk 16 64) (uninit junk 17 64)) ;;
  bw <- for_ 0 64 (toom_eval b1 B1 B2 B3)
          (E (uninit junk 21 64) (uninit junk 22 64) (uninit junk 23 64) (uninit junk 24 64) (uninit junk 25 64) (uninit junk 26 64) (uninit junk 27 64)) ;;
  w1 <- karatsuba_simple (sub junk 1) (e1 aw) (e1 bw) (zeros 127) ;;
  w2 <- karatsuba_simple (sub junk 2) (e2 aw) (e2 bw) (zeros 127) ;;
  w3 <- karatsuba_simple (sub junk 3) (e3 aw) (e3 bw) (zeros 127) ;;
  w4 <- karatsuba_simple (sub junk 4) (e4 aw) (e4 bw) (zeros 127) ;;
  w5 <- karatsuba_simple (sub junk 5) (e5 aw) (e5 bw) (zeros 127) ;;
  w6 <- karatsuba_simple (sub junk 6) (e6 aw) (e6 bw) (zeros 127) ;;
  w7 <- karatsuba_simple (sub junk 7) (e7 aw) (e7 bw) (zeros 127) ;;
  for_ 0 127 (toom_interp w1 w2 w3 w4 w5 w6 w7) result.

(** poly_mul.c:231-244. *)
Definition poly_mul_acc (junk : mem) (a b res : list Z) : M (list Z) :=
  c <- toom_cook_4way (sub junk 1) a b (zeros 512) ;;
  for_ 256 512 (fun i res =>
    add_st res (i - 256) (Idx U16 c (i - 256) - Idx U16 c i)%C) res.
