(** Model of Variants/SaberX4_avx2/rng.c: five generators with a context each.  AES256_ECB, AES256_CTR_DRBG_Update and the seed
    expander are those of Model/Rng.v (same text). *)
From Coq Require Import ZArith List Bool.
From Verif Require Import Lib.Arr Lib.CInt Lib.CMon Model.Params Model.Rng.
Import ListNotations.
Local Open Scope Z_scope.
Local Open Scope M_scope.

(** rng.c:14-18: DRBG_ctx, DRBG_ctx0, ..., DRBG_ctx3. *)
Record ctxs := Ctxs { DRBG_ctx : drbg; DRBG_ctx0 : drbg; DRBG_ctx1 : drbg; DRBG_ctx2 : drbg; DRBG_ctx3 : drbg }.

(** The context of function [g] (see [x4_call]). *)
Definition ctx_of (g : Z) (cs : ctxs) : drbg :=
  if g =? -1 then DRBG_ctx cs else if g =? 0 then DRBG_ctx0 cs else if g =? 1 then DRBG_ctx1 cs else if g =? 2 then DRBG_ctx2 cs else DRBG_ctx3 cs.

Section Rng.
  Variable E : list Z -> list Z -> list Z.

  (** rng.c:153-156, and the same for the other contexts (158-161, 163-166, 168-171, 173-176). *)
  Definition reset (junk : mem) (seed_material : list Z) (ctx : drbg) : M drbg :=
    Key <- memset (d_Key ctx) 0 32 ;;
    V <- memset (d_V ctx) 0 16 ;;
    '(Key, V) <- AES256_CTR_DRBG_Update E junk (Some seed_material) Key V ;;
    ret (Drbg Key V 1).

  (** rng.c:142-177. *)
  Definition x4_randombytes_init (junk : mem) (cs : ctxs) (entropy_input : list Z) (personalization_string : option (list Z)) : M ctxs :=
    let seed_material := uninit8 junk 0 48 in
    seed_material <- memcpy seed_material entropy_input 48 ;;
    seed_material <- match personalization_string with
      | Some ps => emit (Br true) ;; for_ 0 48 (fun i s => st U8 s i (Idx U8 s i .^ Idx U8 ps i)%C) seed_material
      | None => emit (Br false) ;; ret seed_material
      end ;;
    c <- reset (sub junk 1) seed_material (DRBG_ctx cs) ;;
    c0 <- reset (sub junk 2) seed_material (DRBG_ctx0 cs) ;;
    c1 <- reset (sub junk 3) seed_material (DRBG_ctx1 cs) ;;
    c2 <- reset (sub junk 4) seed_material (DRBG_ctx2 cs) ;;
    c3 <- reset (sub junk 5) seed_material (DRBG_ctx3 cs) ;;
    ret (Ctxs c c0 c1 c2 c3).

  (** rng.c:179-210, 212-243, 245-276, 278-309, 311-342: the text of [randombytes] with the name of the context changed. *)
  Definition x4_randombytes (junk : mem) (cs : ctxs) (x : list Z) (xlen : Z) : M (ctxs * list Z * Z) :=
    '(c, x, r) <- randombytes E junk (DRBG_ctx cs) x xlen ;;
    ret (Ctxs c (DRBG_ctx0 cs) (DRBG_ctx1 cs) (DRBG_ctx2 cs) (DRBG_ctx3 cs), x, r).
  Definition randombytes0 (junk : mem) (cs : ctxs) (x : list Z) (xlen : Z) : M (ctxs * list Z * Z) :=
    '(c, x, r) <- randombytes E junk (DRBG_ctx0 cs) x xlen ;;
    ret (Ctxs (DRBG_ctx cs) c (DRBG_ctx1 cs) (DRBG_ctx2 cs) (DRBG_ctx3 cs), x, r).
  Definition randombytes1 (junk : mem) (cs : ctxs) (x : list Z) (xlen : Z) : M (ctxs * list Z * Z) :=
    '(c, x, r) <- randombytes E junk (DRBG_ctx1 cs) x xlen ;;
    ret (Ctxs (DRBG_ctx cs) (DRBG_ctx0 cs) c (DRBG_ctx2 cs) (DRBG_ctx3 cs), x, r).
  Definition randombytes2 (junk : mem) (cs : ctxs) (x : list Z) (xlen : Z) : M (ctxs * list Z * Z) :=
    '(c, x, r) <- randombytes E junk (DRBG_ctx2 cs) x xlen ;;
    ret (Ctxs (DRBG_ctx cs) (DRBG_ctx0 cs) (DRBG_ctx1 cs) c (DRBG_ctx3 cs), x, r).
  Definition randombytes3 (junk : mem) (cs : ctxs) (x : list Z) (xlen : Z) : M (ctxs * list Z * Z) :=
    '(c, x, r) <- randombytes E junk (DRBG_ctx3 cs) x xlen ;;
    ret (Ctxs (DRBG_ctx cs) (DRBG_ctx0 cs) (DRBG_ctx1 cs) (DRBG_ctx2 cs) c, x, r).

  (** A client: the functions by number ([-1]: randombytes, [i]: randombytes_i for i = 0, ..., 3), and a program that makes a
      list of calls (function, buffer, length).  The answers are (function, (buffer, return value)). *)
  Definition x4_call (junk : mem) (cs : ctxs) (g : Z) (x : list Z) (xlen : Z) : M (ctxs * list Z * Z) :=
    if g =? -1 then x4_randombytes junk cs x xlen else if g =? 0 then randombytes0 junk cs x xlen
    else if g =? 1 then randombytes1 junk cs x xlen else if g =? 2 then randombytes2 junk cs x xlen else randombytes3 junk cs x xlen.
  Fixpoint x4_calls (junk : mem) (cs : ctxs) (reqs : list (Z * (list Z * Z))) : M (ctxs * list (Z * (list Z * Z))) :=
    match reqs with
    | [] => ret (cs, [])
    | (g, (x, n)) :: rest =>
        '(cs, x, r) <- x4_call (sub junk 0) cs g x n ;;
        '(cs, out) <- x4_calls (sub junk 1) cs rest ;;
        ret (cs, (g, (x, r)) :: out)
    end.
End Rng.
