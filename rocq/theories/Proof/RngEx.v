(** Corollaries and concrete cases for rng.c. *)
From Coq Require Import ZArith List Bool Lia.
From Verif Require Import Lib.Arr Lib.CInt Lib.CMon Spec.Drbg Model.Params Model.Rng Model.Api Proof.PackThm Proof.RngP Proof.RngThm.
Import ListNotations.
Local Open Scope Z_scope.

Lemma generate_source : forall E, (forall k v, arr U8 16 (E k v)) -> source_ok (generate E).
Proof. intros E HE st n Hn. apply (generate_facts E HE st n Hn). Qed.

Lemma wrap_case : ctx_ok (Drbg (repeat 7 32) (repeat 255 16) 1) /\
  run (randombytes toy (fun _ _ => 0) (Drbg (repeat 7 32) (repeat 255 16) 1) (repeat 9 24) 20) =
  Some (Drbg (repeat 7 15 ++ [9] ++ repeat 7 15 ++ [10]) (repeat 7 15 ++ [11]) 2, repeat 7 20 ++ repeat 9 4, 0).
Proof.
  split; [|vm_compute; reflexivity]. split; [apply arrb_ok; reflexivity|]. split; [apply arrb_ok; reflexivity|cbn; lia].
Qed.

Lemma calls_case : (forall k v, arr U8 16 (toy k v)) /\ (forall k a b, arr U8 16 a -> arr U8 16 b -> toy k a = toy k b -> a = b) /\
  exists c, run (randombytes_calls toy (fun _ _ => 0) (Drbg (zeros 32) (zeros 16) 1) [(zeros 3, 2); (zeros 1, 0); (zeros 17, 17)]) =
            Some (c, [([0; 0; 0], 0); ([0], 0); (repeat 0 15 ++ [17; 0], 0)]) /\ d_rc c = 4.
Proof.
  split; [exact toy_ok|]. split; [exact toy_inj|]. eexists. split; [vm_compute; reflexivity|reflexivity].
Qed.

Lemma xof_case : exists c0 c1, xof_ok (Xof (zeros 16) 0 0 (zeros 32) (zeros 16)) /\
  run (seedexpander_init (Xof (zeros 16) 0 0 (zeros 32) (zeros 16)) (repeat 3 32) [1; 2; 3; 4; 5; 6; 7; 8] 100) = Some (c0, 0) /\
  run (seedexpander_calls toy c0 (exact_bufs [5; 20; 0; 7])) =
  Some (c1, [(Some [4; 5; 6; 7; 8], 0); (Some ([9; 10; 11; 3; 3; 3; 103; 3; 3; 3; 3] ++ [4; 5; 6; 7; 8; 9; 10; 11; 3]), 0);
             (Some [], 0); (Some [3; 3; 103; 3; 3; 3; 4], 0)]).
Proof. do 2 eexists. split; [repeat split|]. split; [vm_compute; reflexivity|]. vm_compute. reflexivity. Qed.

Lemma limit_case : exists c0 c1, run (seedexpander_init (Xof (zeros 16) 0 0 (zeros 32) (zeros 16)) (repeat 3 32) (zeros 8) 10) = Some (c0, 0) /\
  run (seedexpander_calls toy c0 [(Some (zeros 6), 6); (None, 1); (Some (zeros 4), 4); (Some (zeros 3), 3); (Some (zeros 1), 1)]) =
  Some (c1, [(Some [3; 3; 3; 3; 3; 3], 0); (None, -2); (Some [0; 0; 0; 0], -3); (Some [3; 3; 3], 0); (Some [0], -3)]) /\ x_left c1 = 1.
Proof. do 2 eexists. split; [vm_compute; reflexivity|]. split; [vm_compute; reflexivity|reflexivity]. Qed.

Lemma long_request : exists x n, 0 <= n < 2 ^ 64 /\ n <= len x /\ typed U8 x /\
  forall E, (forall k v, arr U8 16 (E k v)) -> forall junk ctx, ctx_ok ctx -> run (randombytes E junk ctx x n) = None.
Proof.
  exists (zeros (2 ^ 31)), (2 ^ 31). assert (len (zeros (2 ^ 31)) = 2 ^ 31) as L by (apply len_zeros; lia).
  split; [lia|]. split; [lia|]. split; [apply typed_zeros|]. intros E HE junk ctx C. apply too_long; auto. rewrite L. lia.
Qed.

Lemma undefined_iff : forall E, (forall k v, arr U8 16 (E k v)) -> forall junk ctx x n, ctx_ok ctx -> 0 <= n -> n <= len x ->
  (run (randombytes E junk ctx x n) = None <-> 2 ^ 31 <= n \/ d_rc ctx = 2 ^ 31 - 1).
Proof.
  intros E HE junk ctx x n C H0 H1. split.
  - intros R. destruct (Z_lt_dec n (2 ^ 31)); [|lia]. destruct (Z.eq_dec (d_rc ctx) (2 ^ 31 - 1)); [lia|].
    rewrite randombytes_all in R; auto; [|destruct C as (_ & _ & C); lia]. destruct (generate _ _ _) as (? & (? & ?)). discriminate.
  - intros H. destruct (Z_lt_dec n (2 ^ 31)); [apply too_many; auto; lia|apply too_long; auto; lia].
Qed.

Lemma counter_case : ctx_ok (Drbg (zeros 32) (zeros 16) (2 ^ 31 - 1)) /\
  run (randombytes toy (fun _ _ => 0) (Drbg (zeros 32) (zeros 16) (2 ^ 31 - 1)) [0] 1) = None.
Proof. split; [|vm_compute; reflexivity]. split; [apply arrb_ok; reflexivity|]. split; [apply arrb_ok; reflexivity|cbn; lia]. Qed.
