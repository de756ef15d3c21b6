(** C25, C26: comparison and conditional move. *)
From Coq Require Import ZArith List.
From Verif Require Import Lib.Arr Lib.CInt Lib.CMon Model.Verify Proof.SampleThm.
Import ListNotations.
Local Open Scope Z_scope.

(** ** C25: [verify] returns 0 for equal strings and 1 otherwise. *)
Theorem C25_verify : forall a b n, 0 <= n -> n <= len a -> n <= len b -> typed U8 a -> typed U8 b ->
  (zfirst n a = zfirst n b -> run (verify a b n) = Some (Var I32 0)) /\
  (zfirst n a <> zfirst n b -> run (verify a b n) = Some (Var I32 1)).
Proof. exact verify_ok. Qed.
Print Assumptions C25_verify.

Theorem C25_constant_time : forall a b a' b' n, 0 <= n -> n <= len a -> n <= len b -> typed U8 a -> typed U8 b ->
  n <= len a' -> n <= len b' -> typed U8 a' -> typed U8 b' ->
  exists t, leak (verify a b n) = Some t /\ leak (verify a' b' n) = Some t.
Proof. exact verify_leak. Qed.
Print Assumptions C25_constant_time.

Example C25_case : run (verify [1; 2; 3] [1; 2; 7] 2) = Some (Var I32 0) /\ run (verify [1; 2; 3] [1; 2; 7] 3) = Some (Var I32 1) /\
  typed U8 [1; 2; 3].
Proof. split; [reflexivity|]. split; [reflexivity|]. repeat constructor; discriminate. Qed.

(** ** C26: [cmov] moves or leaves. *)
Theorem C26_cmov : forall r x n b, 0 <= n -> n <= len r -> n <= len x -> typed U8 r -> typed U8 x -> b = 0 \/ b = 1 ->
  run (cmov r x n (Var U8 b)) = Some (if b =? 1 then zfirst n x ++ zskip n r else r).
Proof. exact cmov_ok. Qed.
Print Assumptions C26_cmov.

Theorem C26_constant_time : forall r x r' x' n b b', 0 <= n -> n <= len r -> len r = len r' -> n <= len x -> n <= len x' ->
  typed U8 r -> typed U8 x -> typed U8 r' -> typed U8 x' -> b = 0 \/ b = 1 -> b' = 0 \/ b' = 1 ->
  exists t, leak (cmov r x n (Var U8 b)) = Some t /\ leak (cmov r' x' n (Var U8 b')) = Some t.
Proof. exact cmov_leak. Qed.
Print Assumptions C26_constant_time.

Example C26_case : run (cmov [1; 2; 3] [7; 8] 2 (Var U8 1)) = Some [7; 8; 3] /\ run (cmov [1; 2; 3] [7; 8] 2 (Var U8 0)) = Some [1; 2; 3].
Proof. split; reflexivity. Qed.
