(** The constants of SHA-2 are the fractional bits the standard prescribes. *)
From Coq Require Import ZArith List Bool Lia Sorted.
From Verif Require Import Lib.Arr Spec.Sha2.
Import ListNotations.
Local Open Scope Z_scope.

Definition range (a n : Z) : list Z := map (fun i => a + Z.of_nat i) (seq 0 (Z.to_nat n)).
Lemma in_range : forall a n x, a <= x < a + n -> In x (range a n).
Proof. intros a n x H. unfold range. apply in_map_iff. exists (Z.to_nat (x - a)). split; [lia|]. apply in_seq. lia. Qed.

Definition prime_b (n : Z) : bool := forallb (fun d => negb (n mod d =? 0)) (range 2 (n - 2)).
Lemma prime_b_ok : forall n, 1 < n -> prime_b n = true -> is_prime n.
Proof.
  intros n Hn H. split; auto. intros d Hd. unfold prime_b in H. rewrite forallb_forall in H.
  specialize (H d (in_range 2 (n - 2) d ltac:(lia))). destruct (Z.eqb_spec (n mod d) 0); [discriminate|auto].
Qed.
Lemma prime_b_no : forall n, existsb (fun d => (d <? n) && (n mod d =? 0)) [2; 3; 5; 7; 11; 13; 17; 19] = true -> ~ is_prime n.
Proof.
  intros n H (Hn & Hp). apply existsb_exists in H as (d & Hd & E). apply andb_prop in E as (E1 & E2).
  apply (Hp d); [|now apply Z.eqb_eq]. apply Z.ltb_lt in E1. cbn [In] in Hd. lia.
Qed.

Definition root_b (e w : Z) (x : Z * Z) : bool := let '(p, k) := x in
  (0 <=? k) && (k <? 2 ^ w) && existsb (fun c => ((c * 2 ^ w + k) ^ e <=? p * 2 ^ (e * w)) && (p * 2 ^ (e * w) <? (c * 2 ^ w + k + 1) ^ e)) (range 0 20).
Lemma root_b_ok : forall e w p k, root_b e w (p, k) = true -> root_frac e w p k.
Proof.
  intros e w p k H. unfold root_b in H. apply andb_prop in H as (H1 & H2). apply existsb_exists in H2 as (c & Hc & E).
  split; [lia|]. exists c. unfold range in Hc. apply in_map_iff in Hc as (i & <- & _). split; lia.
Qed.
Lemma roots_ok : forall e w ps ks, length ps = length ks -> forallb (root_b e w) (combine ps ks) = true -> Forall2 (root_frac e w) ps ks.
Proof.
  intros e w ps. induction ps as [|p ps IH]; intros [|k ks] L H; try discriminate; constructor.
  - cbn [combine forallb] in H. apply andb_prop in H as (H & _). now apply root_b_ok.
  - apply IH; [now inversion L|]. cbn [combine forallb] in H. now apply andb_prop in H as (_ & H).
Qed.

Definition primes_lit : list Z :=
  [2; 3; 5; 7; 11; 13; 17; 19; 23; 29; 31; 37; 41; 43; 47; 53; 59; 61; 67; 71; 73; 79; 83; 89; 97; 101; 103; 107; 109; 113; 127; 131; 137; 139; 149; 151; 157; 163; 167; 173; 179; 181; 191; 193; 197; 199; 211; 223; 227; 229; 233; 239; 241; 251; 257; 263; 269; 271; 277; 281; 283; 293; 307; 311; 313; 317; 331; 337; 347; 349; 353; 359; 367; 373; 379; 383; 389; 397; 401; 409].

Lemma first_primes_lit : first_primes primes_lit.
Proof.
  repeat split.
  - assert (forallb (fun n => (1 <? n) && prime_b n) primes_lit = true) as H by (vm_compute; reflexivity).
    apply Forall_forall. rewrite forallb_forall in H. intros n Hn. specialize (H n Hn). apply andb_prop in H as (H1 & H2). apply prime_b_ok; [lia|auto].
  - apply Sorted_StronglySorted; [intros x y z; lia|]. unfold primes_lit. repeat (constructor; [|constructor; lia]). repeat constructor.
  - intros q Hq. destruct (Z_lt_le_dec 409 q) as [H|H].
    + right. apply Forall_forall. intros p Hp. assert (forallb (fun p => p <? 410) primes_lit = true) as X by (vm_compute; reflexivity).
      rewrite forallb_forall in X. specialize (X p Hp). lia.
    + left. assert (forallb (fun n => existsb (Z.eqb n) primes_lit || existsb (fun d => (d <? n) && (n mod d =? 0)) [2; 3; 5; 7; 11; 13; 17; 19]) (range 2 408) = true) as X by (vm_compute; reflexivity).
      rewrite forallb_forall in X. specialize (X q (in_range 2 408 q ltac:(destruct Hq; lia))). apply orb_prop in X as [X|X].
      * apply existsb_exists in X as (p & Hp & E). apply Z.eqb_eq in E. now subst.
      * now apply prime_b_no in X.
Qed.

Lemma constants : exists ps, len ps = 80 /\ first_primes ps /\
  Forall2 (root_frac 3 64) ps K512 /\ Forall2 (root_frac 3 32) (zfirst 64 ps) K256 /\
  Forall2 (root_frac 2 64) (zfirst 8 ps) H512 /\ Forall2 (root_frac 2 32) (zfirst 8 ps) H256.
Proof.
  exists primes_lit. split; [reflexivity|]. split; [apply first_primes_lit|].
  repeat split; apply roots_ok; vm_compute; reflexivity.
Qed.
