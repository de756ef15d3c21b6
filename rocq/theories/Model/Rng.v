(** Model of rng.c.  [AES256_ECB] calls OpenSSL and is a parameter [E] of the model: a function of key and
    block.  The failure branches of AES256_ECB (which abort the process) are not modelled.  The counter
    increment loops leave through [break]; [incr] is that loop. *)
From Coq Require Import ZArith List Bool.
From Verif Require Import Lib.Arr Lib.CInt Lib.CMon Model.Params.
Import ListNotations.
Local Open Scope Z_scope.
Local Open Scope M_scope.

(** rng.h:13-16. *)
Definition RNG_SUCCESS : Z := 0.
Definition RNG_BAD_MAXLEN : Z := -1.
Definition RNG_BAD_OUTBUF : Z := -2.
Definition RNG_BAD_REQ_LEN : Z := -3.

(** rng.h:18-24.  [AES_XOF_struct]. *)
Record xof := Xof { x_buffer : list Z; x_pos : Z; x_left : Z; x_key : list Z; x_ctr : list Z }.
(** rng.h:26-30.  [AES256_CTR_DRBG_struct]. *)
Record drbg := Drbg { d_Key : list Z; d_V : list Z; d_rc : Z }.

(** Contexts with arrays of the declared sizes. *)
Definition ctx_ok (c : drbg) : Prop := arr U8 32 (d_Key c) /\ arr U8 16 (d_V c) /\ - 2 ^ 31 <= d_rc c < 2 ^ 31.
Definition xof_ok (c : xof) : Prop := len (x_buffer c) = 16 /\ len (x_key c) = 32 /\ len (x_ctr c) = 16.

(** rng.c:90-97, 163-170, 197-204: at most [n] iterations, from index [j] downwards. *)
Fixpoint incr (n : nat) (V : list Z) (j : Z) : M (list Z) :=
  match n with
  | O => emit (Br false) ;; ret V
  | S k =>
      emit (Br true) ;;
      b <- rd V j ;;
      ite (b =? 0xff)
        (V <- st U8 V j #0 ;; incr k V (j - 1))
        (st U8 V j (Idx U8 V j + #1)%C)
  end.

Section Rng.
  Variable E : list Z -> list Z -> list Z.

  (** rng.c:115-136: reads 32 bytes of key and 16 of [ctr], writes 16 bytes of [buffer]. *)
  Definition AES256_ECB (key ctr buffer : list Z) : M (list Z) :=
    if (32 <=? len key) && (16 <=? len ctr) && (16 <=? len buffer)
    then ret (E (zfirst 32 key) (zfirst 16 ctr) ++ zskip 16 buffer) else undef.

  (** rng.c:188-213.  Returns the new contents of [Key] and [V]. *)
  Definition AES256_CTR_DRBG_Update (junk : mem) (provided_data : option (list Z)) (Key V : list Z) : M (list Z * list Z) :=
    let temp := uninit8 junk 0 48 in
    '(V, temp) <- for_ 0 3 (fun i '(V, temp) =>
      V <- incr 16 V 15 ;;
      temp <- at_ temp (16 * i) (fun p => AES256_ECB Key V p) ;;
      ret (V, temp)) (V, temp) ;;
    temp <- match provided_data with
            | Some data => emit (Br true) ;; for_ 0 48 (fun i temp => st U8 temp i (Idx U8 temp i .^ Idx U8 data i)%C) temp
            | None => emit (Br false) ;; ret temp
            end ;;
    Key <- memcpy Key temp 32 ;;
    p <- ptr temp 32 ;;
    V <- memcpy V p 16 ;;
    ret (Key, V).

  (** rng.c:138-153.  The old contents of the context [ctx] are overwritten.  [security_strength] is not used by the code. *)
  Definition randombytes_init (junk : mem) (ctx : drbg) (entropy_input : list Z) (personalization_string : option (list Z)) : M drbg :=
    let seed_material := uninit8 junk 0 48 in
    seed_material <- memcpy seed_material entropy_input 48 ;;
    seed_material <- match personalization_string with
      | Some ps => emit (Br true) ;; for_ 0 48 (fun i s => st U8 s i (Idx U8 s i .^ Idx U8 ps i)%C) seed_material
      | None => emit (Br false) ;; ret seed_material
      end ;;
    Key <- memset (d_Key ctx) 0 32 ;;
    V <- memset (d_V ctx) 0 16 ;;
    '(Key, V) <- AES256_CTR_DRBG_Update (sub junk 1) (Some seed_material) Key V ;;
    ret (Drbg Key V 1).

  (** rng.c:155-186.  [xlen] is an [unsigned long long], [i] an [int].  Returns the context, [x] and the return value. *)
  Definition randombytes (junk : mem) (ctx : drbg) (x : list Z) (xlen : Z) : M (drbg * list Z * Z) :=
    let block := uninit8 junk 0 16 in
    '(V, block, x, i, xlen) <- while_ (S (Z.to_nat ((xlen + 15) / 16))) (fun '(_, _, _, _, xlen) => 0 <? xlen)
      (fun '(V, block, x, i, xlen) =>
        V <- incr 16 V 15 ;;
        block <- AES256_ECB (d_Key ctx) V block ;;
        ite (15 <? xlen)
          (x <- at_ x i (fun p => memcpy p block 16) ;;
           i <- ev (Var I32 i + #16)%C ;;
           ret (V, block, x, i, xlen - 16))
          (x <- at_ x i (fun p => memcpy p block xlen) ;;
           ret (V, block, x, i, 0)))
      (d_V ctx, block, x, 0, xlen) ;;
    '(Key, V) <- AES256_CTR_DRBG_Update (sub junk 1) None (d_Key ctx) V ;;
    rc <- ev (Var I32 (d_rc ctx) + #1)%C ;;
    ret (Drbg Key V rc, x, RNG_SUCCESS).

  (** rng.c:25-52.  Returns the context and the return value. *)
  Definition seedexpander_init (ctx : xof) (seed diversifier : list Z) (maxlen : Z) : M (xof * Z) :=
    ite (0x100000000 <=? maxlen) (ret (ctx, RNG_BAD_MAXLEN))
      (let left := maxlen in
       key <- memcpy (x_key ctx) seed 32 ;;
       ctr <- memcpy (x_ctr ctx) diversifier 8 ;;
       ctr <- wr ctr 11 (maxlen mod 256) ;;
       maxlen <- ev (Var U64 maxlen .>> #8)%C ;;
       ctr <- wr ctr 10 (maxlen mod 256) ;;
       maxlen <- ev (Var U64 maxlen .>> #8)%C ;;
       ctr <- wr ctr 9 (maxlen mod 256) ;;
       maxlen <- ev (Var U64 maxlen .>> #8)%C ;;
       ctr <- wr ctr 8 (maxlen mod 256) ;;
       ctr <- at_ ctr 12 (fun p => memset p 0 4) ;;
       buffer <- memset (x_buffer ctx) 0 16 ;;
       ret (Xof buffer 16 left key ctr, RNG_SUCCESS)).

  (** rng.c:60-102.  [x = None] is a null pointer.  The loop either returns from inside (the request is served from the
      buffer; then [xlen] becomes 0 here) or refills the buffer.  [r] is 16-ctx->buffer_pos converted to unsigned long. *)
  Definition seedexpander (ctx : xof) (x : option (list Z)) (xlen : Z) : M (xof * option (list Z) * Z) :=
    match x with
    | None => emit (Br true) ;; ret (ctx, x, RNG_BAD_OUTBUF)
    | Some x0 =>
      emit (Br false) ;;
      ite (x_left ctx <=? xlen) (ret (ctx, x, RNG_BAD_REQ_LEN))
        (let left := x_left ctx - xlen in
         '(buffer, pos, ctr, x, offset, xlen) <- while_ (S (S (Z.to_nat (xlen / 16 + 1)))) (fun '(_, _, _, _, _, xlen) => 0 <? xlen)
           (fun '(buffer, pos, ctr, x, offset, xlen) =>
             let r := wrap U64 (16 - pos) in
             ite (xlen <=? r)
               (p <- ptr buffer pos ;;
                x <- at_ x offset (fun q => memcpy q p xlen) ;;
                ret (buffer, pos + xlen, ctr, x, offset, 0))
               (p <- ptr buffer pos ;;
                x <- at_ x offset (fun q => memcpy q p r) ;;
                buffer <- AES256_ECB (x_key ctx) ctr buffer ;;
                ctr <- incr 4 ctr 15 ;;
                ret (buffer, 0, ctr, x, offset + r, xlen - r)))
           (x_buffer ctx, x_pos ctx, x_ctr ctx, x0, 0, xlen) ;;
         ret (Xof buffer pos left (x_key ctx) ctr, Some x, RNG_SUCCESS))
    end.

  (** Clients: a program making a list of calls one after the other.  [randombytes]: buffers and lengths; the result is
      the final context, and for each call the buffer and the return value. *)
  Fixpoint randombytes_calls (junk : mem) (ctx : drbg) (reqs : list (list Z * Z)) : M (drbg * list (list Z * Z)) :=
    match reqs with
    | [] => ret (ctx, [])
    | (x, n) :: rest =>
        '(ctx, x, r) <- randombytes (sub junk 0) ctx x n ;;
        '(ctx, out) <- randombytes_calls (sub junk 1) ctx rest ;;
        ret (ctx, (x, r) :: out)
    end.
  (** The same for [seedexpander]. *)
  Fixpoint seedexpander_calls (ctx : xof) (reqs : list (option (list Z) * Z)) : M (xof * list (option (list Z) * Z)) :=
    match reqs with
    | [] => ret (ctx, [])
    | (x, n) :: rest =>
        '(ctx, x, r) <- seedexpander ctx x n ;;
        '(ctx, out) <- seedexpander_calls ctx rest ;;
        ret (ctx, (x, r) :: out)
    end.
End Rng.
