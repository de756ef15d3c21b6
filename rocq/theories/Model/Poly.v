(** Model of poly.c (reference) and Variants/uSaber-90s/ref/poly.c. *)
From Coq Require Import ZArith List.
From Verif Require Import Lib.Arr Lib.CInt Lib.CMon Model.Params Model.Pack Model.Cbd Model.PolyMul.
Import ListNotations.
Local Open Scope Z_scope.
Local Open Scope M_scope.

(** poly.c:9-26.  [transpose] is the [int16_t] argument. *)
Definition MatrixVectorMul (junk : mem) (c : cfg) (A : list (list (list Z))) (s res : list (list Z)) (transpose : Z)
  : M (list (list Z)) :=
  for_ 0 (SABER_L c) (fun i res =>
    for_ 0 (SABER_L c) (fun j res =>
      a <- ite (transpose =? 1)
             (Aj <- row A j ;; row Aj i)
             (Ai <- row A i ;; row Ai j) ;;
      sj <- row s j ;;
      r <- row res i ;;
      r <- poly_mul_acc (sub (sub junk i) j) a sj r ;;
      setrow res i r) res) res.

(** poly.c:28-35. *)
Definition InnerProd (junk : mem) (c : cfg) (b s : list (list Z)) (res : list Z) : M (list Z) :=
  for_ 0 (SABER_L c) (fun j res =>
    bj <- row b j ;;
    sj <- row s j ;;
    poly_mul_acc (sub junk j) bj sj res) res.

Section Gen.
  (** [prf out outlen in inlen]: shake128 in the reference (poly.c:42,55), the macro of
      symmetric.h:16,26 in the variants.  The first argument is the uninitialised memory of the call. *)
  Variable prf : mem -> list Z -> Z -> list Z -> Z -> M (list Z).

  (** poly.c:37-48; uSaber-90s/ref/poly.c:39-50. *)
  Definition GenMatrix (junk : mem) (c : cfg) (A : list (list (list Z))) (seed : list Z) : M (list (list (list Z))) :=
    let buf := uninit junk 0 (SABER_L c * SABER_POLYVECBYTES c) in
    buf <- prf (sub junk 1) buf (SABER_L c * SABER_POLYVECBYTES c) seed SABER_SEEDBYTES ;;
    for_ 0 (SABER_L c) (fun i A =>
      p <- ptr buf (i * SABER_POLYVECBYTES c) ;;
      Ai <- row A i ;;
      Ai <- BS2POLVECq c p Ai ;;
      setrow A i Ai) A.

  (** uSaber-90s/ref/poly.c:66-79: the two-bit sampler, inner loop. *)
  Definition uni (s buf : list Z) : M (list Z) :=
    for_ 0 (256 / 4) (fun j s =>
      sts U16 s (4 * j)
        [ (((Idx U8 buf j .& #3) .^ #2) - #2)%C;
          ((((Idx U8 buf j .>> #2) .& #3) .^ #2) - #2)%C;
          ((((Idx U8 buf j .>> #4) .& #3) .^ #2) - #2)%C;
          ((((Idx U8 buf j .>> #6) .& #3) .^ #2) - #2)%C ]) s.

  (** poly.c:50-61; uSaber-90s/ref/poly.c:52-82.  The variant indexes [buf] at
      [j + i * SABER_POLYCOINBYTES]; here the pointer [buf + i * SABER_POLYCOINBYTES] is formed first
      in both cases. *)
  Definition GenSecret (junk : mem) (c : cfg) (s : list (list Z)) (seed : list Z) : M (list (list Z)) :=
    let buf := uninit junk 0 (SABER_L c * SABER_POLYCOINBYTES c) in
    buf <- prf (sub junk 1) buf (SABER_L c * SABER_POLYCOINBYTES c) seed SABER_NOISE_SEEDBYTES ;;
    for_ 0 (SABER_L c) (fun i s =>
      p <- ptr buf (i * SABER_POLYCOINBYTES c) ;;
      si <- row s i ;;
      si <- (if usaber c then uni si p else cbd c si p) ;;
      setrow s i si) s.
End Gen.
