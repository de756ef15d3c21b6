(** Model of the multiplication of the AVX2 implementation: AVX_Implementation_KEM/polymul/{toom-cook_4way.c,scm_avx.c,
    matrix.c} and the routines of SABER_indcpa.c that call it.  Variants/uSaber-90s/avx2 keeps a copy of the same text
    (see DESIGN.md).  Functions return the new contents of the arrays they write. *)
From Coq Require Import ZArith List.
From Verif Require Import Lib.Arr Lib.CInt Lib.CMon Model.Vec Model.AvxCode.
Import ListNotations.
Local Open Scope Z_scope.
Local Open Scope M_scope.

(** SABER_indcpa.c:40-71, except the variable [mask], which is not used.  The result is the list of the global variables
    inv3_avx, inv9_avx, inv15_avx, int45_avx, int30_avx, int0_avx. *)
Definition load_values (junk : mem) : M (list vec) :=
  let z n := Var I64 n in
  let s i a n := st I16 a i (z n) in
  '(a3, a9, a15, a45, a30, a0) <- for_ 0 16 (fun i '(a3, a9, a15, a45, a30, a0) =>
    a3 <- s i a3 43691 ;; a9 <- s i a9 36409 ;; a15 <- s i a15 61167 ;;
    a45 <- s i a45 45 ;; a30 <- s i a30 30 ;; a0 <- s i a0 0 ;;
    ret (a3, a9, a15, a45, a30, a0))
    (uninit junk 0 16, uninit junk 1 16, uninit junk 2 16, uninit junk 3 16, uninit junk 4 16, uninit junk 5 16) ;;
  v3 <- loadu a3 0 ;; v9 <- loadu a9 0 ;; v15 <- loadu a15 0 ;;
  v45 <- loadu a45 0 ;; v30 <- loadu a30 0 ;; v0 <- loadu a0 0 ;;
  ret [v3; v9; v15; v45; v30; v0].

(** polymul/matrix.c:14-125. *)
Definition transpose_n1 (m : list vec) : M (list vec) :=
  r <- vrun transpose_n1_code [m] ;; arr_of r 0.

(** polymul/scm_avx.c:413-752 and 11-409. *)
Definition schoolbook_avx_new2 (a b c_avx : list vec) : M (list vec) :=
  r <- vrun schoolbook_avx_new2_code [a; b; c_avx] ;; arr_of r 2.
Definition schoolbook_avx_new3_acc (a b c_avx : list vec) : M (list vec) :=
  r <- vrun schoolbook_avx_new3_acc_code [a; b; c_avx] ;; arr_of r 2.

(** polymul/toom-cook_4way.c:16-220. *)
Definition batch_64coefficient_multiplications_new (junk : mem) (a b_bucket c_bucket : list vec) (f : Z) : M (list vec) :=
  let a_bucket := vuninit junk 0 64 in
  r <- vrun batch_eval_code [a; a_bucket] ;; a_bucket <- arr_of r 1 ;;
  a_bucket <- vat a_bucket 0 transpose_n1 ;;
  a_bucket <- vat a_bucket 16 transpose_n1 ;;
  a_bucket <- vat a_bucket 32 transpose_n1 ;;
  a_bucket <- vat a_bucket 48 transpose_n1 ;;
  let mul school o c_bucket :=
    a <- vptr a_bucket (16 * o) ;; b <- vptr b_bucket (16 * o) ;; vat c_bucket (32 * o) (fun c => school a b c) in
  ite (f =? 0)
    (c_bucket <- mul schoolbook_avx_new2 0 c_bucket ;; c_bucket <- mul schoolbook_avx_new2 1 c_bucket ;;
     c_bucket <- mul schoolbook_avx_new2 2 c_bucket ;; mul schoolbook_avx_new2 3 c_bucket)
    (c_bucket <- mul schoolbook_avx_new3_acc 0 c_bucket ;; c_bucket <- mul schoolbook_avx_new3_acc 1 c_bucket ;;
     c_bucket <- mul schoolbook_avx_new3_acc 2 c_bucket ;; mul schoolbook_avx_new3_acc 3 c_bucket).

(** polymul/toom-cook_4way.c:222-342. *)
Definition KARA_eval (b b_bucket : list vec) : M (list vec) :=
  r <- vrun KARA_eval_code [b; b_bucket] ;; b_bucket <- arr_of r 1 ;;
  b_bucket <- vat b_bucket 0 transpose_n1 ;;
  b_bucket <- vat b_bucket 16 transpose_n1 ;;
  b_bucket <- vat b_bucket 32 transpose_n1 ;;
  vat b_bucket 48 transpose_n1.

(** polymul/toom-cook_4way.c:827-875. *)
Definition toom_cook_4way_avx_n1 (junk : mem) (a_avx b_bucket c_bucket : list vec) (f : Z) : M (list vec) :=
  let aw_avx := vuninit junk 0 28 in
  r <- for_ 0 4 (fun i s => vrun (toom_eval_code i) s) [a_avx; aw_avx] ;; aw_avx <- arr_of r 1 ;;
  batch_64coefficient_multiplications_new (sub junk 1) aw_avx b_bucket c_bucket f.

(** polymul/toom-cook_4way.c:877-913. *)
Definition TC_eval (junk : mem) (b_avx b_bucket : list vec) : M (list vec) :=
  let bw_avx := vuninit junk 0 28 in
  r <- for_ 0 4 (fun i s => vrun (TC_eval_code i) s) [b_avx; bw_avx] ;; bw_avx <- arr_of r 1 ;;
  KARA_eval bw_avx b_bucket.

(** polymul/toom-cook_4way.c:916-1015; KARA_interpol is lines 344-825.  [g] holds the global variables. *)
Definition TC_interpol (junk : mem) (g c_bucket res_avx : list vec) : M (list vec * list vec) :=
  let w k := vuninit junk k 8 in
  let res_avx_output := vuninit junk 7 32 in
  c_bucket <- vat c_bucket 0 transpose_n1 ;;
  c_bucket <- vat c_bucket 16 transpose_n1 ;;
  c_bucket <- vat c_bucket 32 transpose_n1 ;;
  c_bucket <- vat c_bucket 48 transpose_n1 ;;
  c_bucket <- vat c_bucket 64 transpose_n1 ;;
  c_bucket <- vat c_bucket 80 transpose_n1 ;;
  c_bucket <- vat c_bucket 96 transpose_n1 ;;
  c_bucket <- vat c_bucket 112 transpose_n1 ;;
  r <- vrun KARA_interpol_code [c_bucket; w 0; w 1; w 2; w 3; w 4; w 5; w 6] ;;
  c_bucket <- arr_of r 0 ;;
  r <- for_ 0 8 (fun i s =>
    (* lines 946-987 are the same in both branches *)
    ite (i <? 4) (vrun (TC_interpol_code i ++ TC_interpol_then_code i) s) (vrun (TC_interpol_code i ++ TC_interpol_else_code i) s))
    (zskip 1 r ++ [res_avx_output; g]) ;;
  res_avx_output <- arr_of r 7 ;;
  r <- for_ 0 16 (fun i s => vrun (TC_reduce_code i) s) [res_avx_output; res_avx] ;;
  res_avx <- arr_of r 1 ;;
  ret (c_bucket, res_avx).

(** SABER_indcpa.c:554-576; [n] is NUM_POLY. *)
Definition matrix_vector_mul (junk : mem) (n : Z) (g : list vec) (a1_avx_combined : list (list (list vec))) (b_bucket res_avx : list (list vec))
    (isTranspose : Z) : M (list (list vec)) :=
  let c_bucket := vuninit junk 0 128 in
  '(_, res_avx) <- for_ 0 n (fun i '(c_bucket, res_avx) =>
    c_bucket <- for_ 0 n (fun j c_bucket =>
      ite (isTranspose =? 0)
        (a <- row a1_avx_combined i ;; a <- row a j ;; b <- row b_bucket j ;;
         toom_cook_4way_avx_n1 (sub (sub (sub junk 1) i) j) a b c_bucket j)
        (a <- row a1_avx_combined j ;; a <- row a i ;; b <- row b_bucket j ;;
         toom_cook_4way_avx_n1 (sub (sub (sub junk 1) i) j) a b c_bucket j)) c_bucket ;;
    r <- row res_avx i ;;
    '(c_bucket, r) <- TC_interpol (sub (sub junk 2) i) g c_bucket r ;;
    res_avx <- setrow res_avx i r ;;
    ret (c_bucket, res_avx)) (c_bucket, res_avx) ;;
  ret res_avx.

(** SABER_indcpa.c:578-588. *)
Definition vector_vector_mul (junk : mem) (n : Z) (g : list vec) (a_avx b_bucket : list (list vec)) (res_avx : list vec) : M (list vec) :=
  let c_bucket := vuninit junk 0 128 in
  c_bucket <- for_ 0 n (fun i c_bucket =>
    a <- row a_avx i ;; b <- row b_bucket i ;; toom_cook_4way_avx_n1 (sub (sub junk 1) i) a b c_bucket i) c_bucket ;;
  '(_, res_avx) <- TC_interpol (sub junk 2) g c_bucket res_avx ;;
  ret res_avx.

(** SABER_indcpa.c:224-226, 342-344 and 504-506: the secret vector is evaluated once. *)
Definition eval_buckets (junk : mem) (n : Z) (sk_avx b_bucket : list (list vec)) : M (list (list vec)) :=
  for_ 0 n (fun j b_bucket =>
    s <- row sk_avx j ;; b <- row b_bucket j ;; b <- TC_eval (sub junk j) s b ;; setrow b_bucket j b) b_bucket.
