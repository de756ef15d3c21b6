(** Model of cbd.c. *)
From Coq Require Import ZArith List.
From Verif Require Import Lib.Arr Lib.CInt Lib.CMon Model.Params.
Import ListNotations.
Local Open Scope Z_scope.
Local Open Scope M_scope.

(** cbd.c:14-21.  Called with [bytes] at most 5, hence [i <= 4]. *)
Definition load_littleendian (x : list Z) (bytes : Z) : M cexp :=
  r <- asg U64 (Idx U8 x 0) ;;
  for_ 1 bytes (fun i r =>
    asg U64 (r .| (Cast U64 (Idx U8 x i) .<< (#8 * Bnd I32 1 4 i)))%C) r.

(** cbd.c:25-49 (SABER_MU == 6).  The local arrays [a], [b] are accessed at constant
    indices only and appear as variables [a0 .. a3], [b0 .. b3]. *)
Definition cbd_6 (s buf : list Z) : M (list Z) :=
  for_ 0 (256 / 4) (fun i s =>
    p <- ptr buf (3 * i) ;;
    l <- load_littleendian p 3 ;;
    t <- asg U32 l ;;
    d <- asg U32 #0 ;;
    d <- for_ 0 3 (fun j d => asg U32 (d + ((t .>> Bnd I32 0 2 j) .& #0x249249))%C) d ;;
    a0 <- asg U32 (d .& #0x7)%C ;;
    b0 <- asg U32 ((d .>> #3) .& #0x7)%C ;;
    a1 <- asg U32 ((d .>> #6) .& #0x7)%C ;;
    b1 <- asg U32 ((d .>> #9) .& #0x7)%C ;;
    a2 <- asg U32 ((d .>> #12) .& #0x7)%C ;;
    b2 <- asg U32 ((d .>> #15) .& #0x7)%C ;;
    a3 <- asg U32 ((d .>> #18) .& #0x7)%C ;;
    b3 <- asg U32 (d .>> #21)%C ;;
    sts U16 s (4 * i) [Cast U16 (a0 - b0)%C; Cast U16 (a1 - b1)%C; Cast U16 (a2 - b2)%C; Cast U16 (a3 - b3)%C]) s.

(** cbd.c:50-74 (SABER_MU == 8). *)
Definition cbd_8 (s buf : list Z) : M (list Z) :=
  for_ 0 (256 / 4) (fun i s =>
    p <- ptr buf (4 * i) ;;
    l <- load_littleendian p 4 ;;
    t <- asg U32 l ;;
    d <- asg U32 #0 ;;
    d <- for_ 0 4 (fun j d => asg U32 (d + ((t .>> Bnd I32 0 3 j) .& #0x11111111))%C) d ;;
    a0 <- asg U32 (d .& #0xf)%C ;;
    b0 <- asg U32 ((d .>> #4) .& #0xf)%C ;;
    a1 <- asg U32 ((d .>> #8) .& #0xf)%C ;;
    b1 <- asg U32 ((d .>> #12) .& #0xf)%C ;;
    a2 <- asg U32 ((d .>> #16) .& #0xf)%C ;;
    b2 <- asg U32 ((d .>> #20) .& #0xf)%C ;;
    a3 <- asg U32 ((d .>> #24) .& #0xf)%C ;;
    b3 <- asg U32 (d .>> #28)%C ;;
    sts U16 s (4 * i) [Cast U16 (a0 - b0)%C; Cast U16 (a1 - b1)%C; Cast U16 (a2 - b2)%C; Cast U16 (a3 - b3)%C]) s.

(** cbd.c:75-99 (SABER_MU == 10). *)
Definition cbd_10 (s buf : list Z) : M (list Z) :=
  for_ 0 (256 / 4) (fun i s =>
    p <- ptr buf (5 * i) ;;
    l <- load_littleendian p 5 ;;
    t <- asg U64 l ;;
    d <- asg U64 #0 ;;
    d <- for_ 0 5 (fun j d => asg U64 (d + ((t .>> Bnd I32 0 4 j) .& Cst U64 0x0842108421))%C) d ;;
    a0 <- asg U64 (d .& #0x1f)%C ;;
    b0 <- asg U64 ((d .>> #5) .& #0x1f)%C ;;
    a1 <- asg U64 ((d .>> #10) .& #0x1f)%C ;;
    b1 <- asg U64 ((d .>> #15) .& #0x1f)%C ;;
    a2 <- asg U64 ((d .>> #20) .& #0x1f)%C ;;
    b2 <- asg U64 ((d .>> #25) .& #0x1f)%C ;;
    a3 <- asg U64 ((d .>> #30) .& #0x1f)%C ;;
    b3 <- asg U64 (d .>> #35)%C ;;
    sts U16 s (4 * i) [Cast U16 (a0 - b0)%C; Cast U16 (a1 - b1)%C; Cast U16 (a2 - b2)%C; Cast U16 (a3 - b3)%C]) s.

(** cbd.c:23-103: selection by SABER_MU. *)
Definition cbd (c : cfg) : list Z -> list Z -> M (list Z) :=
  match lvl c with Light => cbd_10 | Saber => cbd_8 | Fire => cbd_6 end.
