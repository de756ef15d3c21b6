(** C65, C66: the five generators of SaberX4 (Variants/SaberX4_avx2/rng.c), for every block cipher [E] with 16-byte blocks. *)
From Coq Require Import ZArith List Lia.
From Verif Require Import Lib.Arr Lib.CInt Lib.CMon Spec.Drbg Spec.X4RngSpec Model.Params Model.Rng Model.X4Rng Proof.RngThm Proof.X4RngThm.
Import ListNotations.
Local Open Scope Z_scope.

(** ** C65: each function is a CTR_DRBG of its own. *)
Theorem C65_init : forall E, (forall k v, arr U8 16 (E k v)) ->
  forall junk cs entropy pers, (forall g, -1 <= g <= 3 -> len (d_Key (ctx_of g cs)) = 32 /\ len (d_V (ctx_of g cs)) = 16) ->
  48 <= len entropy -> typed U8 entropy -> (match pers with Some x => 48 <= len x /\ typed U8 x | None => True end) ->
  exists cs', run (x4_randombytes_init E junk cs entropy pers) = Some cs' /\ forall g, -1 <= g <= 3 ->
    ctx_ok (ctx_of g cs') /\ d_rc (ctx_of g cs') = 1 /\
    (d_Key (ctx_of g cs'), be_val (d_V (ctx_of g cs'))) = instantiate E entropy (match pers with Some x => x | None => zeros 48 end).
Proof. exact C65_init_lemma. Qed.
Print Assumptions C65_init.

(** Any interleaving of calls: the answers of [g], and its context in the end, are those of its own requests. *)
Theorem C65_history : forall E, (forall k v, arr U8 16 (E k v)) ->
  forall junk cs reqs, (forall g, -1 <= g <= 3 -> ctx_ok (ctx_of g cs) /\ d_rc (ctx_of g cs) + len (of g reqs) < 2 ^ 31) ->
  Forall (fun q => -1 <= fst q <= 3 /\ 0 <= snd (snd q) < 2 ^ 31 /\ snd (snd q) <= len (fst (snd q))) reqs ->
  exists cs' outs, run (x4_calls E junk cs reqs) = Some (cs', outs) /\ map fst outs = map fst reqs /\
    forall g, -1 <= g <= 3 ->
      let '(os, (K', v')) := generates E (d_Key (ctx_of g cs), be_val (d_V (ctx_of g cs))) (map snd (of g reqs)) in
      ctx_of g cs' = Drbg K' (be 16 v') (d_rc (ctx_of g cs) + len (of g reqs)) /\ of g outs = answers os (of g reqs).
Proof. exact C65_history_lemma. Qed.
Print Assumptions C65_history.

Example C65_case : (forall k v, arr U8 16 (toy k v)) /\ (forall g, -1 <= g <= 3 -> ctx_ok (ctx_of g (Ctxs zc zc zc zc zc))) /\
  exists cs', run (x4_calls toy (fun _ _ => 0) (Ctxs zc zc zc zc zc) [(0, (zeros 3, 2)); (1, (zeros 17, 17)); (0, (zeros 1, 1)); (1, (zeros 16, 16)); (-1, (zeros 2, 0))]) =
    Some (cs', [(0, ([0; 0; 0], 0)); (1, (repeat 0 15 ++ [1; 0], 0)); (0, ([0], 0)); (1, (repeat 0 15 ++ [9], 0)); (-1, ([0; 0], 0))]) /\
    d_rc (DRBG_ctx0 cs') = 3 /\ d_rc (DRBG_ctx3 cs') = 1.
Proof. split; [exact toy_ok|]. split; [intros g Hg; rewrite ctx_same; exact zc_ok|exact x4rng_case]. Qed.

(** ** C66: that the generators give different bytes is false: after randombytes_init they all have the same state. *)
Theorem C66_distinct_refuted : exists g h, -1 <= g <= 3 /\ -1 <= h <= 3 /\ g <> h /\
forall E, (forall k v, arr U8 16 (E k v)) ->
forall junk junk' junk2 cs entropy pers x n, (forall g, -1 <= g <= 3 -> len (d_Key (ctx_of g cs)) = 32 /\ len (d_V (ctx_of g cs)) = 16) ->
  48 <= len entropy -> typed U8 entropy -> (match pers with Some x => 48 <= len x /\ typed U8 x | None => True end) -> 0 <= n < 2 ^ 31 -> n <= len x ->
  exists cs0 cs1 cs2 x', run (x4_randombytes_init E junk cs entropy pers) = Some cs0 /\
    run (x4_call E junk' cs0 g x n) = Some (cs1, x', 0) /\ run (x4_call E junk2 cs1 h x n) = Some (cs2, x', 0).
Proof. exact C66_distinct_lemma. Qed.
Print Assumptions C66_distinct_refuted.

(** Whatever calls are made: generators that got the same requests have given the same answers. *)
Theorem C66_same_answers : forall E, (forall k v, arr U8 16 (E k v)) ->
  forall junk junk' cs entropy pers reqs, (forall g, -1 <= g <= 3 -> len (d_Key (ctx_of g cs)) = 32 /\ len (d_V (ctx_of g cs)) = 16) ->
  48 <= len entropy -> typed U8 entropy -> (match pers with Some x => 48 <= len x /\ typed U8 x | None => True end) ->
  Forall (fun q => -1 <= fst q <= 3 /\ 0 <= snd (snd q) < 2 ^ 31 /\ snd (snd q) <= len (fst (snd q))) reqs -> len reqs < 2 ^ 31 - 1 ->
  exists cs0 cs' outs, run (x4_randombytes_init E junk cs entropy pers) = Some cs0 /\ run (x4_calls E junk' cs0 reqs) = Some (cs', outs) /\
    forall g h, -1 <= g <= 3 -> -1 <= h <= 3 -> of g reqs = of h reqs -> of g outs = of h outs.
Proof. exact C66_same_lemma. Qed.
Print Assumptions C66_same_answers.

Example C66_case : let reqs := [(0, (zeros 3, 2)); (1, (zeros 3, 2)); (2, (zeros 5, 5)); (0, (zeros 1, 1)); (1, (zeros 1, 1))] in
  (forall g, -1 <= g <= 3 -> len (d_Key (ctx_of g (Ctxs zc zc zc zc zc))) = 32 /\ len (d_V (ctx_of g (Ctxs zc zc zc zc zc))) = 16) /\
  Forall (fun q => -1 <= fst q <= 3 /\ 0 <= snd (snd q) < 2 ^ 31 /\ snd (snd q) <= len (fst (snd q))) reqs /\ of 0 reqs = of 1 reqs /\ of 0 reqs <> [].
Proof.
  intros reqs. split; [intros g Hg; rewrite ctx_same; split; reflexivity|]. split; [|split; [reflexivity|discriminate]].
  repeat constructor; cbn [fst snd]; try lia; discriminate.
Qed.
