(** Model of the known-answer test driver test/PQCgenKAT_kem.c, with rng.c as the random source of the KEM.
    Reading and writing of files is left out: the requests are a list of seeds, the responses a list of values. *)
From Coq Require Import ZArith List Bool.
From Verif Require Import Lib.Arr Lib.CInt Lib.CMon Model.Params Model.Rng Model.Api.
Import ListNotations.
Local Open Scope Z_scope.
Local Open Scope M_scope.

(** PQCgenKAT_kem.c:18-21. *)
Definition KAT_SUCCESS : Z := 0.
Definition KAT_CRYPTO_FAILURE : Z := -4.

Section Driver.
  (** The block cipher of rng.c. *)
  Variable E : list Z -> list Z -> list Z.

  (** [randombytes] of rng.c as the source of the KEM functions; the context DRBG_ctx (rng.c:14) is the state.  The last line is
      for states that are no context and for undefined calls: it makes the function total, the driver never gets there. *)
  Definition rng (junk : mem) (ctx : drbg) (n : Z) : list Z * drbg :=
    let ok := arrb U8 32 (d_Key ctx) && arrb U8 16 (d_V ctx) && (- 2 ^ 31 <=? d_rc ctx) && (d_rc ctx <? 2 ^ 31 - 1) && (n <? 2 ^ 31) in
    match (if ok then run (randombytes E junk ctx (zeros n) n) else None) with
    | Some (ctx, x, _) => (x, ctx)
    | None => (zeros n, ctx)
    end.

  (** PQCgenKAT_kem.c:92-119, one pass of the loop: what is written to the response file and whether the driver goes on.
      After a failure of crypto_kem_dec or a difference found by memcmp, all four values have been written.
      A failure of crypto_kem_keypair or crypto_kem_enc is [None] for the values not written. *)
  Definition kat_pass (junk : mem) (c : cfg) (ctx : drbg) (seed pk sk ct ss ss1 : list Z) :
    M (option (list Z * list Z) * option (list Z * list Z) * Z * drbg) :=
    ctx <- randombytes_init E (sub junk 0) ctx seed None ;;
    '(pk, sk, ctx, ret_val) <- keypair (rng (sub junk 1)) (sub junk 2) c ctx pk sk ;;
    ite (negb (ret_val =? 0)) (ret (None, None, KAT_CRYPTO_FAILURE, ctx)) (
    '(ct, ss, ctx, ret_val) <- enc (rng (sub junk 3)) (sub junk 4) c ctx ct ss pk ;;
    ite (negb (ret_val =? 0)) (ret (Some (pk, sk), None, KAT_CRYPTO_FAILURE, ctx)) (
    '(ss1, ret_val) <- dec (sub junk 5) c ss1 ct sk ;;
    ite (negb (ret_val =? 0)) (ret (Some (pk, sk), Some (ct, ss), KAT_CRYPTO_FAILURE, ctx)) (
    ite (if list_eq_dec Z.eq_dec ss ss1 then false else true) (ret (Some (pk, sk), Some (ct, ss), KAT_CRYPTO_FAILURE, ctx))
    (ret (Some (pk, sk), Some (ct, ss), KAT_SUCCESS, ctx))))).

  (** PQCgenKAT_kem.c:58-60: [n] passes. *)
  Fixpoint kat_seeds (junk : mem) (n : nat) (ctx : drbg) (seed : list Z) : M (list (list Z)) :=
    match n with
    | O => ret []
    | S k =>
        '(ctx, seed, _) <- randombytes E (sub junk 0) ctx seed 48 ;;
        r <- kat_seeds (sub junk 1) k ctx seed ;;
        ret (seed :: r)
    end.

  (** PQCgenKAT_kem.c:54-60, with 100 for [n]. *)
  Definition kat_requests (junk : mem) (n : nat) (ctx : drbg) (entropy_input seed : list Z) : M (list (list Z)) :=
    entropy_input <- for_ 0 48 (fun i e => st U8 e i (Var I32 i)) entropy_input ;;
    ctx <- randombytes_init E (sub junk 0) ctx entropy_input None ;;
    kat_seeds (sub junk 1) n ctx seed.
End Driver.
