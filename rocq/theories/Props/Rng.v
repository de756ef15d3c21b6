(** C27-C30, C39: the deterministic random generator and the seed expander of rng.c, for every block cipher [E]
    with 16-byte blocks. *)
From Coq Require Import ZArith List.
From Verif Require Import Lib.Arr Lib.CInt Lib.CMon Spec.Drbg Model.Params Model.Rng Model.Api Proof.RngThm Proof.RngEx.
Import ListNotations.
Local Open Scope Z_scope.

(** ** C27: CTR_DRBG. *)
Theorem C27_randombytes : forall E, (forall k v, arr U8 16 (E k v)) ->
  forall junk ctx x n, ctx_ok ctx -> d_rc ctx < 2 ^ 31 - 1 -> 0 <= n < 2 ^ 31 -> n <= len x ->
  run (randombytes E junk ctx x n) =
  let '(out, (K', v')) := generate E (d_Key ctx, be_val (d_V ctx)) n in
  Some (Drbg K' (be 16 v') (d_rc ctx + 1), out ++ zskip n x, RNG_SUCCESS).
Proof. exact randombytes_all. Qed.
Print Assumptions C27_randombytes.

Theorem C27_init : forall E, (forall k v, arr U8 16 (E k v)) ->
  forall junk ctx entropy pers, len (d_Key ctx) = 32 -> len (d_V ctx) = 16 -> 48 <= len entropy -> typed U8 entropy ->
  (match pers with Some x => 48 <= len x /\ typed U8 x | None => True end) ->
  exists ctx', run (randombytes_init E junk ctx entropy pers) = Some ctx' /\ ctx_ok ctx' /\ d_rc ctx' = 1 /\
    (d_Key ctx', be_val (d_V ctx')) = instantiate E entropy (match pers with Some x => x | None => zeros 48 end).
Proof. exact init_all. Qed.
Print Assumptions C27_init.

(** A context stays a context, and the buffer keeps its size. *)
Theorem C27_context : forall E, (forall k v, arr U8 16 (E k v)) ->
  forall junk ctx x n ctx' x' r, ctx_ok ctx -> d_rc ctx < 2 ^ 31 - 1 -> 0 <= n < 2 ^ 31 -> n <= len x ->
  run (randombytes E junk ctx x n) = Some (ctx', x', r) -> ctx_ok ctx' /\ len x' = len x.
Proof. exact ctx_kept. Qed.
Print Assumptions C27_context.

(** The generator is an admissible random source for the KEM theorems. *)
Theorem C27_source : forall E, (forall k v, arr U8 16 (E k v)) -> source_ok (generate E).
Proof. exact generate_source. Qed.
Print Assumptions C27_source.

(** Counter about to wrap: all bytes 0xff, cipher [toy] (bytewise addition of the key); 20 bytes requested of a 24-byte buffer. *)
Example C27_case : ctx_ok (Drbg (repeat 7 32) (repeat 255 16) 1) /\
  run (randombytes toy (fun _ _ => 0) (Drbg (repeat 7 32) (repeat 255 16) 1) (repeat 9 24) 20) =
  Some (Drbg (repeat 7 15 ++ [9] ++ repeat 7 15 ++ [10]) (repeat 7 15 ++ [11]) 2, repeat 7 20 ++ repeat 9 4, 0).
Proof. exact wrap_case. Qed.

(** ** C28: histories. *)
Theorem C28_history : forall E, (forall k v, arr U8 16 (E k v)) ->
  forall junk ctx reqs, ctx_ok ctx ->
  Forall (fun q => 0 <= snd q < 2 ^ 31 /\ snd q <= len (fst q)) reqs -> d_rc ctx + len reqs < 2 ^ 31 ->
  run (randombytes_calls E junk ctx reqs) =
  let '(os, (K', v')) := generates E (d_Key ctx, be_val (d_V ctx)) (map snd reqs) in
  Some (Drbg K' (be 16 v') (d_rc ctx + len reqs), answers os reqs).
Proof. exact history. Qed.
Print Assumptions C28_history.

Theorem C28_prefix : forall E, (forall k v, arr U8 16 (E k v)) ->
  forall pre q q' junk junk' ctx, ctx_ok ctx ->
  Forall (fun q => 0 <= snd q < 2 ^ 31 /\ snd q <= len (fst q)) (pre ++ q) ->
  Forall (fun q => 0 <= snd q < 2 ^ 31 /\ snd q <= len (fst q)) (pre ++ q') ->
  d_rc ctx + len (pre ++ q) < 2 ^ 31 -> d_rc ctx + len (pre ++ q') < 2 ^ 31 ->
  exists c c' o r r',
    run (randombytes_calls E junk ctx (pre ++ q)) = Some (c, o ++ r) /\
    run (randombytes_calls E junk' ctx (pre ++ q')) = Some (c', o ++ r') /\ length o = length pre.
Proof. exact history_prefix. Qed.
Print Assumptions C28_prefix.

(** Whole blocks [i] and [j] of one output differ if the cipher is injective for the key. *)
Theorem C28_no_repeat : forall E, (forall k v, arr U8 16 (E k v)) ->
  forall junk ctx x n i j, ctx_ok ctx -> d_rc ctx < 2 ^ 31 - 1 -> 0 <= n < 2 ^ 31 -> n <= len x ->
  (forall a b, arr U8 16 a -> arr U8 16 b -> E (d_Key ctx) a = E (d_Key ctx) b -> a = b) ->
  0 <= i -> 0 <= j -> i <> j -> 16 * (i + 1) <= n -> 16 * (j + 1) <= n ->
  exists ctx' out, run (randombytes E junk ctx x n) = Some (ctx', out, 0) /\
    zfirst 16 (zskip (16 * i) out) <> zfirst 16 (zskip (16 * j) out).
Proof. exact no_repeat. Qed.
Print Assumptions C28_no_repeat.

Example C28_case : (forall k v, arr U8 16 (toy k v)) /\ (forall k a b, arr U8 16 a -> arr U8 16 b -> toy k a = toy k b -> a = b) /\
  exists c, run (randombytes_calls toy (fun _ _ => 0) (Drbg (zeros 32) (zeros 16) 1) [(zeros 3, 2); (zeros 1, 0); (zeros 17, 17)]) =
            Some (c, [([0; 0; 0], 0); ([0], 0); (repeat 0 15 ++ [17; 0], 0)]) /\ d_rc c = 4.
Proof. exact calls_case. Qed.

(** ** C29: the seed expander delivers one stream. *)
Theorem C29_stream : forall E, (forall k v, arr U8 16 (E k v)) ->
  forall ctx seed div maxlen reqs, xof_ok ctx -> 32 <= len seed -> 8 <= len div -> typed U8 div -> 0 <= maxlen < 2 ^ 32 ->
  Forall (fun q => 0 <= snd q /\ match fst q with Some x => snd q <= len x | None => True end) reqs ->
  exists ctx0 ctx1, run (seedexpander_init ctx seed div maxlen) = Some (ctx0, RNG_SUCCESS) /\
    let '(a, d) := xserve E (zfirst 32 seed) (zfirst 8 div) maxlen 0 reqs in
    run (seedexpander_calls E ctx0 reqs) = Some (ctx1, a) /\ x_left ctx1 = maxlen - d.
Proof. exact expander. Qed.
Print Assumptions C29_stream.

Theorem C29_split : forall E, (forall k v, arr U8 16 (E k v)) ->
  forall ctx seed div maxlen ns, xof_ok ctx -> 32 <= len seed -> 8 <= len div -> typed U8 div -> 0 <= maxlen < 2 ^ 32 ->
  Forall (fun n => 0 <= n) ns -> total ns < maxlen ->
  exists ctx0 c1 c2 outs out, run (seedexpander_init ctx seed div maxlen) = Some (ctx0, RNG_SUCCESS) /\
    run (seedexpander_calls E ctx0 (exact_bufs ns)) = Some (c1, outs) /\
    run (seedexpander E ctx0 (Some (zeros (total ns))) (total ns)) = Some (c2, Some out, RNG_SUCCESS) /\
    map snd outs = map (fun _ => RNG_SUCCESS) ns /\ concat (map payload outs) = out.
Proof. exact expander_split. Qed.
Print Assumptions C29_split.

(** 5 + 20 + 0 + 7 bytes: the stream is toy(seed, div || 0x00000064 || 0) || toy(seed, div || 0x00000064 || 1). *)
Example C29_case : exists c0 c1, xof_ok (Xof (zeros 16) 0 0 (zeros 32) (zeros 16)) /\
  run (seedexpander_init (Xof (zeros 16) 0 0 (zeros 32) (zeros 16)) (repeat 3 32) [1; 2; 3; 4; 5; 6; 7; 8] 100) = Some (c0, 0) /\
  run (seedexpander_calls toy c0 (exact_bufs [5; 20; 0; 7])) =
  Some (c1, [(Some [4; 5; 6; 7; 8], 0); (Some ([9; 10; 11; 3; 3; 3; 103; 3; 3; 3; 3] ++ [4; 5; 6; 7; 8; 9; 10; 11; 3]), 0);
             (Some [], 0); (Some [3; 3; 103; 3; 3; 3; 4], 0)]).
Proof. exact xof_case. Qed.

(** ** C30: limits of the seed expander. *)
Theorem C30_init_refuses : forall ctx seed div maxlen, 2 ^ 32 <= maxlen ->
  run (seedexpander_init ctx seed div maxlen) = Some (ctx, RNG_BAD_MAXLEN).
Proof. exact init_refusal. Qed.
Print Assumptions C30_init_refuses.

Theorem C30_refuses : forall E ctx x n, 0 <= n ->
  run (seedexpander E ctx None n) = Some (ctx, None, RNG_BAD_OUTBUF) /\
  (x_left ctx <= n -> run (seedexpander E ctx (Some x) n) = Some (ctx, Some x, RNG_BAD_REQ_LEN)).
Proof. exact refusals. Qed.
Print Assumptions C30_refuses.

Theorem C30_total : forall E, (forall k v, arr U8 16 (E k v)) ->
  forall ctx seed div maxlen reqs, xof_ok ctx -> 32 <= len seed -> 8 <= len div -> typed U8 div -> 0 < maxlen < 2 ^ 32 ->
  Forall (fun q => 0 <= snd q /\ match fst q with Some x => snd q <= len x | None => True end) reqs ->
  exists ctx0 ctx1 outs, run (seedexpander_init ctx seed div maxlen) = Some (ctx0, RNG_SUCCESS) /\
    run (seedexpander_calls E ctx0 reqs) = Some (ctx1, outs) /\
    x_left ctx0 = maxlen /\ x_left ctx1 = maxlen - served (map snd reqs) (map snd outs) /\
    0 <= served (map snd reqs) (map snd outs) < maxlen.
Proof. exact expander_total. Qed.
Print Assumptions C30_total.

Example C30_case : exists c0 c1, run (seedexpander_init (Xof (zeros 16) 0 0 (zeros 32) (zeros 16)) (repeat 3 32) (zeros 8) 10) = Some (c0, 0) /\
  run (seedexpander_calls toy c0 [(Some (zeros 6), 6); (None, 1); (Some (zeros 4), 4); (Some (zeros 3), 3); (Some (zeros 1), 1)]) =
  Some (c1, [(Some [3; 3; 3; 3; 3; 3], 0); (None, -2); (Some [0; 0; 0; 0], -3); (Some [3; 3; 3], 0); (Some [0], -3)]) /\ x_left c1 = 1.
Proof. exact limit_case. Qed.

(** ** C39: [randombytes] is undefined for requests of 2^31 bytes and more (the index [i] is an [int]), and when the call
    counter is at its maximum, although the buffer is large enough. *)
Theorem C39_long_request_refuted : exists x n, 0 <= n < 2 ^ 64 /\ n <= len x /\ typed U8 x /\
  forall E, (forall k v, arr U8 16 (E k v)) -> forall junk ctx, ctx_ok ctx -> run (randombytes E junk ctx x n) = None.
Proof. exact long_request. Qed.
Print Assumptions C39_long_request_refuted.

Theorem C39_undefined : forall E, (forall k v, arr U8 16 (E k v)) -> forall junk ctx x n, ctx_ok ctx -> 0 <= n -> n <= len x ->
  (run (randombytes E junk ctx x n) = None <-> 2 ^ 31 <= n \/ d_rc ctx = 2 ^ 31 - 1).
Proof. exact undefined_iff. Qed.
Print Assumptions C39_undefined.

Example C39_case : ctx_ok (Drbg (zeros 32) (zeros 16) (2 ^ 31 - 1)) /\
  run (randombytes toy (fun _ _ => 0) (Drbg (zeros 32) (zeros 16) (2 ^ 31 - 1)) [0] 1) = None.
Proof. exact counter_case. Qed.
