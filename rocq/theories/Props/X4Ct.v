(** Constant-time properties of the four-fold key encapsulation of Variants/SaberX4_avx2. *)
From Coq Require Import ZArith List Lia.
From Verif Require Import Lib.Arr Lib.CInt Lib.CMon Spec.Sym Model.Api Model.X4Kem Proof.SymP Proof.M4Thm Proof.X4CtThm.
Import ListNotations.
Local Open Scope Z_scope.

(** ** C69 *)

(** With t0, ..., t3 of shake128x4 of one block (168 bytes) each; with the 136 bytes of the code no run is defined (C53). *)
Theorem C69_keypair_ct : forall S (rb : S -> Z -> list Z * S), source_ok rb ->
  forall junk junk' s s' pk pk' sk sk', len pk = 4 * 992 -> len pk' = 4 * 992 -> len sk = 4 * 2304 -> len sk' = 4 * 2304 ->
  leak (x4_kem_keypair rb 168 junk s pk sk) = leak (x4_kem_keypair rb 168 junk' s' pk' sk') /\ leak (x4_kem_keypair rb 168 junk s pk sk) <> None.
Proof. exact C69_keypair_lemma. Qed.
Print Assumptions C69_keypair_ct.

Theorem C69_enc_ct : forall S (rb : S -> Z -> list Z * S), source_ok rb ->
  forall junk junk' s s' c c' k k' pk pk', len c = 4 * 1088 -> len c' = 4 * 1088 -> len k = 4 * 32 -> len k' = 4 * 32 ->
  arr U8 (4 * 992) pk -> arr U8 (4 * 992) pk' ->
  leak (x4_kem_enc rb 168 junk s c k pk) = leak (x4_kem_enc rb 168 junk' s' c' k' pk') /\ leak (x4_kem_enc rb 168 junk s c k pk) <> None.
Proof. exact C69_enc_lemma. Qed.
Print Assumptions C69_enc_ct.

Theorem C69_dec_ct : forall junk junk' k k' c c' sk sk', len k = 4 * 32 -> len k' = 4 * 32 -> arr U8 (4 * 1088) c -> arr U8 (4 * 1088) c' ->
  arr U8 (4 * 2304) sk -> arr U8 (4 * 2304) sk' ->
  leak (x4_kem_dec 168 junk k c sk) = leak (x4_kem_dec 168 junk' k' c' sk') /\ leak (x4_kem_dec 168 junk k c sk) <> None.
Proof. exact C69_dec_lemma. Qed.
Print Assumptions C69_dec_ct.

(** Different arguments that meet the hypotheses: all bytes 0 and all bytes 255. *)
Example C69_case : source_ok zrb /\ forall v, v = 0 \/ v = 255 ->
  let b n := ztab n (fun _ => v) in arr U8 (4 * 992) (b (4 * 992)) /\ arr U8 (4 * 2304) (b (4 * 2304)) /\ arr U8 (4 * 1088) (b (4 * 1088)) /\ len (b (4 * 32)) = 4 * 32.
Proof.
  split; [exact zrb_ok|]. intros v Hv b.
  assert (H : forall n, 0 <= n -> arr U8 n (b n)).
  { intros n Hn. unfold b. split; [now apply len_ztab|]. apply Forall_forall. intros x Hx. unfold ztab in Hx. apply in_map_iff in Hx.
    destruct Hx as (i & <- & _). change (tmin U8) with 0. change (tmax U8) with 255. lia. }
  split; [apply H; lia|]. split; [apply H; lia|]. split; [apply H; lia|]. now apply (H (4 * 32)).
Qed.
