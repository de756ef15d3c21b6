(** What the straight-line parts of aes256ctr.c compute, bit by bit. *)
From Coq Require Import ZArith List Bool Lia.
From Verif Require Import Lib.Arr Lib.CInt Lib.CMon Lib.Gate Spec.Aes Model.Params Model.Sha2 Model.Aes Proof.GateP.
Import ListNotations.
Local Open Scope Z_scope.

(** Byte [j] of a word. *)
Definition byte (x j : Z) : Z := (x / 2 ^ (8 * j)) mod 256.

Lemma byte_range : forall x j, 0 <= byte x j < 256.
Proof. intros. apply Z.mod_pos_bound. lia. Qed.
Lemma testbit_byte : forall x j b, 0 <= j -> 0 <= b < 8 -> Z.testbit (byte x j) b = Z.testbit x (8 * j + b).
Proof.
  intros x j b Hj Hb. unfold byte. change 256 with (2 ^ 8). rewrite Z.mod_pow2_bits_low by lia. rewrite Z.div_pow2_bits by lia. f_equal. lia.
Qed.
Lemma byte_ext : forall a b, 0 <= a < 256 -> 0 <= b < 256 -> (forall k, 0 <= k < 8 -> Z.testbit a k = Z.testbit b k) -> a = b.
Proof.
  intros a b Ha Hb H. apply Z.bits_inj'. intros k Hk. destruct (Z_lt_le_dec k 8); [auto|].
  rewrite (bits_mod a k 8), (bits_mod b k 8) by lia. reflexivity.
Qed.

(** ** Linear programs on eight words *)
Definition sym8 (p : list (reg * gexp)) (ex : Z -> Z -> list Z) : bool :=
  match gprog sdom p (senv 64 8) with Some env => forallb (fun i => sresult env (Q i) (ex i)) (ztab 8 (fun i => i)) | None => false end.

Lemma noloc_typed : ltyped noloc.
Proof. intros r v H. discriminate. Qed.

Lemma wp_sym8 : forall p ex q, gwf U64 p = true -> sym8 p ex = true -> arr U64 8 q ->
  wp ('(q, _) <- gates U64 p q noloc ;; ret q)
     (fun q' => arr U64 8 q' /\ forall i k, 0 <= i < 8 -> 0 <= k < 64 -> Z.testbit (get q' i) k = xorl (srho q) (ex i k)).
Proof.
  intros p ex q W S (L & Tq). unfold sym8 in S. destruct (gprog sdom p (senv 64 8)) as [env|] eqn:G; [|discriminate].
  apply wp_bind. eapply (wp_gates_rel _ sdom (srel (srho q)) U64 p _ env (sdom_rel (srho q))); eauto using noloc_typed.
  { eapply senv_rel; eauto. lia. }
  intros q' l' L' T' _ E _. apply wp_ret. split; [split; [lia|auto]|]. intros i k Hi Hk.
  pose proof (forallb_tab _ _ S i Hi) as Si. destruct (sresult_ok _ _ _ _ _ Si E) as (v & Ev & _ & Hv).
  cbn [envof] in Ev. apply lookup_get in Ev as (_ & <-). auto.
Qed.

Definition ortho_ex (i k : Z) : list Z := [64 * (k mod 8) + (8 * (k / 8) + i)].
Lemma ortho_sym : sym8 ortho_gates ortho_ex = true.
Proof. vm_compute. reflexivity. Qed.

Lemma xorl_1 : forall rho i, xorl rho [i] = rho i.
Proof. intros. cbn. apply xorb_false_r. Qed.

Lemma ortho_ok : forall q, arr U64 8 q ->
  wp (ortho q) (fun q' => arr U64 8 q' /\ forall i k, 0 <= i < 8 -> 0 <= k < 64 -> Z.testbit (get q' i) k = Z.testbit (get q (k mod 8)) (8 * (k / 8) + i)).
Proof.
  intros q Hq. eapply wp_mono; [apply (wp_sym8 ortho_gates ortho_ex q eq_refl ortho_sym Hq)|]. intros q' (A & H). split; auto.
  intros i k Hi Hk. rewrite H by auto. unfold ortho_ex. rewrite xorl_1. apply srho_id. dlia.
Qed.

(** Bit k = 16r + 4c + blk of a word is about row r, column c of block blk. *)
Definition shift_pos (k : Z) : Z := 16 * (k / 16) + 4 * (((k / 4) mod 4 + k / 16) mod 4) + k mod 4.
Definition shift_ex (j i k : Z) : list Z := if i =? j then [64 * i + shift_pos k] else [64 * i + k].
Lemma shift_sym : forallb (fun j => gwf U64 (shift_rows_gates j) && sym8 (shift_rows_gates j) (shift_ex j)) (ztab 8 (fun j => j)) = true.
Proof. vm_compute. reflexivity. Qed.

Lemma shift_pos_range : forall k, 0 <= k < 64 -> 0 <= shift_pos k < 64.
Proof. intros. unfold shift_pos. dlia. Qed.

Lemma shift_rows_ok : forall q, arr U64 8 q ->
  wp (shift_rows q) (fun q' => arr U64 8 q' /\ forall i k, 0 <= i < 8 -> 0 <= k < 64 -> Z.testbit (get q' i) k = Z.testbit (get q i) (shift_pos k)).
Proof.
  intros q Hq. unfold shift_rows.
  apply wp_for with (I := fun j q' => arr U64 8 q' /\ forall i k, 0 <= i < 8 -> 0 <= k < 64 ->
    Z.testbit (get q' i) k = Z.testbit (get q i) (if i <? j then shift_pos k else k)).
  - lia.
  - split; auto. intros i k Hi Hk. now replace (i <? 0) with false by lia.
  - intros j q1 Hj (A1 & H1). pose proof (forallb_tab _ _ shift_sym j Hj) as S. apply andb_prop in S as (S1 & S2).
    eapply wp_mono; [apply (wp_sym8 _ (shift_ex j) _ S1 S2 A1)|]. intros q2 (A2 & H2). split; auto. intros i k Hi Hk. rewrite H2 by auto. unfold shift_ex.
    pose proof (shift_pos_range k Hk).
    destruct (i =? j) eqn:D; rewrite xorl_1, srho_id, H1 by auto.
    + now replace (i <? j) with false by lia; replace (i <? j + 1) with true by lia.
    + now replace (i <? j + 1) with (i <? j) by lia.
  - intros q' (A & H). split; auto. intros i k Hi Hk. rewrite H by auto. now replace (i <? 8) with true by lia.
Qed.

(** The bits of xtime. *)
Definition xt_ids (i k : Z) : list Z := (if 0 <? i then [64 * (i - 1) + k] else []) ++ (if Z.testbit 0x1b i then [64 * 7 + k] else []).
(** Position of the row below by [d]. *)
Definition down (d k : Z) : Z := (k + 16 * d) mod 64.
Definition mix_ex (i k : Z) : list Z := xt_ids i k ++ (xt_ids i (down 1 k) ++ [64 * i + down 1 k]) ++ [64 * i + down 2 k] ++ [64 * i + down 3 k].
Lemma mix_sym : sym8 mix_columns_gates mix_ex = true.
Proof. vm_compute. reflexivity. Qed.

Lemma mix_columns_ok : forall q, arr U64 8 q ->
  wp (mix_columns q) (fun q' => arr U64 8 q' /\ forall i k, 0 <= i < 8 -> 0 <= k < 64 -> Z.testbit (get q' i) k = xorl (srho q) (mix_ex i k)).
Proof. intros q Hq. apply (wp_sym8 mix_columns_gates mix_ex q eq_refl mix_sym Hq). Qed.

(** ** The S-box *)
Definition ttab (i : Z) : Z := of_bits 256 (fun m => Z.testbit m i).
Definition tenv : reg -> option Z := fun r => match r with Q i => if (0 <=? i) && (i <? 8) then Some (ttab i) else None | _ => None end.
Definition tcheck (p : list (reg * gexp)) (f : Z -> Z) : bool :=
  match gprog tdom p tenv with
  | Some env => forallb (fun m => let y := f m in forallb (fun i =>
      match env (Q i) with Some v => Bool.eqb (Z.testbit v m) (Z.testbit y i) | None => false end) (ztab 8 (fun i => i))) (ztab 256 (fun m => m))
  | None => false
  end.
Lemma Sbox_tt : tcheck Sbox_gates sbox = true.
Proof. vm_compute. reflexivity. Qed.
Lemma ttab_ok : forall i m, 0 <= i < 8 -> 0 <= m < 256 -> Z.testbit (ttab i) m = Z.testbit m i.
Proof.
  assert (forallb (fun i => let t := ttab i in forallb (fun m => Bool.eqb (Z.testbit t m) (Z.testbit m i)) (ztab 256 (fun m => m))) (ztab 8 (fun i => i)) = true) as H by (vm_compute; reflexivity).
  intros i m Hi Hm. pose proof (forallb_tab _ _ H i Hi) as H1. cbv zeta in H1. pose proof (forallb_tab _ _ H1 m Hm) as H2. now apply Bool.eqb_prop.
Qed.

Lemma tenv_inv : forall r a, tenv r = Some a -> exists i, r = Q i /\ 0 <= i < 8 /\ a = ttab i.
Proof.
  intros r a. unfold tenv. generalize ttab as f. intros f. destruct r; cbn [tenv]; [|discriminate..].
  destruct (_ && _) eqn:D; [|discriminate]. intros Ha. apply some_inj in Ha. exists i. repeat split; auto; lia.
Qed.

Lemma wp_tt : forall p f q n, gwf U64 p = true -> tcheck p f = true -> arr U64 8 q -> (forall k, 0 <= k < 64 -> 0 <= n k < 256) ->
  (forall i k, 0 <= i < 8 -> 0 <= k < 64 -> Z.testbit (get q i) k = Z.testbit (n k) i) ->
  wp ('(q, _) <- gates U64 p q noloc ;; ret q)
     (fun q' => arr U64 8 q' /\ forall i k, 0 <= i < 8 -> 0 <= k < 64 -> Z.testbit (get q' i) k = Z.testbit (f (n k)) i).
Proof.
  intros p f q n W S (L & Tq) Hn H. unfold tcheck in S. destruct (gprog tdom p tenv) as [env|] eqn:G; [|discriminate].
  apply wp_bind. eapply (wp_gates_rel _ tdom (trel n) U64 p _ env (tdom_rel n Hn)); eauto using noloc_typed.
  { intros r a Ha. destruct (tenv_inv _ _ Ha) as (i & -> & D & ->).
    exists (get q i). cbn [envof]. rewrite lookup_in with (d := 0) by lia. split; [reflexivity|].
    pose proof (typed_get U64 q i Tq ltac:(lia)) as B. cbn [tmin tmax] in B. split; [lia|]. intros k Hk. rewrite ttab_ok by (auto; lia). apply H; lia. }
  intros q' l' L' T' _ E _. apply wp_ret. split; [split; [lia|auto]|]. intros i k Hi Hk.
  pose proof (forallb_tab _ _ S (n k) (Hn k Hk)) as S1. cbv zeta in S1. pose proof (forallb_tab _ _ S1 i Hi) as S2. cbv beta in S2.
  destruct (env (Q i)) as [v|] eqn:Ev; [|discriminate]. destruct (E _ _ Ev) as (z & Ez & _ & Hz).
  cbn [envof] in Ez. apply lookup_get in Ez as (_ & <-). rewrite Hz by auto. now apply Bool.eqb_prop.
Qed.

Lemma Sbox_ok : forall q n, arr U64 8 q -> (forall k, 0 <= k < 64 -> 0 <= n k < 256) ->
  (forall i k, 0 <= i < 8 -> 0 <= k < 64 -> Z.testbit (get q i) k = Z.testbit (n k) i) ->
  wp (bitslice_Sbox q) (fun q' => arr U64 8 q' /\ forall i k, 0 <= i < 8 -> 0 <= k < 64 -> Z.testbit (get q' i) k = Z.testbit (sbox (n k)) i).
Proof. intros q n. apply (wp_tt Sbox_gates sbox q n eq_refl Sbox_tt). Qed.

(** ** Interleaving *)
Definition ii_ex (o k : Z) : list Z := [64 * (o + if k mod 16 <? 8 then 0 else 2) + (8 * (k / 16) + k mod 8)].
Definition ii_check (p : list (reg * gexp)) : bool :=
  match gprog sdom p (senv 32 4) with Some env => sresult env (S_ 0) (ii_ex 0) && sresult env (S_ 1) (ii_ex 1) | None => false end.
Lemma ii_sym : ii_check interleave_in_gates = true.
Proof. vm_compute. reflexivity. Qed.

(** The word made of [x] (even bytes) and [y] (odd bytes). *)
Definition mixed (v x y : Z) : Prop :=
  0 <= v < 2 ^ 64 /\ forall k, 0 <= k < 64 -> Z.testbit v k = Z.testbit (if k mod 16 <? 8 then x else y) (8 * (k / 16) + k mod 8).

Lemma ii_gen : forall p q i0 i1 w, gwf U32 p = true -> ii_check p = true -> typed U32 w -> 4 <= len w -> 0 <= i0 < len q -> 0 <= i1 < len q ->
  wp ('(_, l) <- gates U32 p w noloc ;;
    s0 <- lift (l (S_ 0)) ;; q <- st U64 q i0 (Var U64 s0) ;;
    s1 <- lift (l (S_ 1)) ;; st U64 q i1 (Var U64 s1))
    (fun q' => exists a b, q' = upd (upd q i0 a) i1 b /\ mixed a (get w 0) (get w 2) /\ mixed b (get w 1) (get w 3)).
Proof.
  intros p q i0 i1 w W S Tw Lw H0 H1. unfold ii_check in S.
  destruct (gprog sdom p (senv 32 4)) as [env|] eqn:G; [|discriminate]. apply andb_prop in S as (S0 & S1).
  apply wp_bind. eapply (wp_gates_rel _ sdom (srel (srho w)) U32 p _ env (sdom_rel (srho w))); eauto using noloc_typed.
  { eapply senv_rel; eauto. }
  intros q' l' L' T' Tl E _.
  destruct (sresult_ok _ _ _ _ _ S0 E) as (a & Ea & Ba & Ha). destruct (sresult_ok _ _ _ _ _ S1 E) as (b & Eb & Bb & Hb).
  cbn [envof] in Ea, Eb. apply wp_bind. eapply wp_lift; [apply Ea|]. apply wp_bind. unfold st at 1. apply wp_bind, wp_ret. rewrite wrap_id by (cbn [tmin tmax]; lia). apply wp_wr; auto.
  apply wp_bind. eapply wp_lift; [apply Eb|]. unfold st. apply wp_bind, wp_ret. rewrite wrap_id by (cbn [tmin tmax]; lia). apply wp_wr; [now rewrite len_upd|].
  exists a, b. split; auto. split; (split; [auto|]); intros k Hk; [rewrite Ha by auto|rewrite Hb by auto]; unfold ii_ex; rewrite xorl_1, srho_id by (clear - Hk; dlia); f_equal; now destruct (k mod 16 <? 8).
Qed.
Lemma interleave_in_ok : forall q i0 i1 w, typed U32 w -> 4 <= len w -> 0 <= i0 < len q -> 0 <= i1 < len q ->
  wp (interleave_in q i0 i1 w) (fun q' => exists a b, q' = upd (upd q i0 a) i1 b /\ mixed a (get w 0) (get w 2) /\ mixed b (get w 1) (get w 3)).
Proof. intros q i0 i1 w. apply (ii_gen interleave_in_gates q i0 i1 w eq_refl ii_sym). Qed.

Definition loc_env (n w m : Z) : reg -> option sbits := fun r =>
  match r with
  | Y i => if (0 <=? i) && (i <? n) then Some (sword 64 i) else None
  | Q i => if (0 <=? i) && (i <? m) then Some (sword w (n + i)) else None
  | _ => None
  end.
Definition locs (l : list Z) : locals := fun r => match r with Y i => lookup l i | _ => None end.

Lemma loc_env_rel : forall t w n m q ls l, (t = U32 /\ w = 32) \/ (t = U64 /\ w = 64) -> typed t q -> m <= len q -> len ls = n -> Forall (fun z => 0 <= z < 2 ^ 64) ls ->
  (forall i, 0 <= i < n -> l (Y i) = Some (get ls i)) -> erel (srel (srho (ls ++ q))) (loc_env n w m) (envof q l).
Proof.
  intros t w n m q ls l Ht Tq L Ln Bl Hl r a Ha. destruct r; cbn [loc_env] in Ha; try discriminate; destruct (_ && _) eqn:D in Ha; try discriminate; apply some_inj in Ha; subst a.
  - exists (get q i). cbn [envof]. rewrite lookup_in with (d := 0) by lia. split; [reflexivity|].
    pose proof (typed_get t q i Tq ltac:(lia)) as B. assert (0 <= get q i < 2 ^ w) as B' by (destruct Ht as [(-> & ->)|(-> & ->)]; cbn [tmin tmax] in B; lia).
    apply sword_rel; auto; [destruct Ht as [(_ & ->)|(_ & ->)]; lia|]. intros k Hk. rewrite srho_id by (destruct Ht as [(_ & ->)|(_ & ->)]; lia).
    unfold get. rewrite znth_app2 by lia. do 2 f_equal. lia.
  - exists (get ls i). cbn [envof]. rewrite Hl by lia. split; [reflexivity|]. apply sword_rel; [lia| |].
    + pose proof (proj1 (Forall_znth_iff _ 0 ls) Bl i) as B. unfold get. apply B. lia.
    + intros k Hk. rewrite srho_id by lia. unfold get. now rewrite znth_app1 by lia.
Qed.

Definition io_ex (c k : Z) : list Z := if k <? 32 then [64 * (c mod 2) + (16 * (k / 8) + 8 * (c / 2) + k mod 8)] else [].
Definition io_check (p : list (reg * gexp)) : bool :=
  match gprog sdom p (loc_env 2 32 4) with Some env => forallb (fun c => sresult env (Q c) (io_ex c)) (ztab 4 (fun c => c)) | None => false end.
Lemma io_sym : io_check interleave_out_gates = true.
Proof. vm_compute. reflexivity. Qed.

Lemma io_gen : forall p w q0 q1, gwf U32 p = true -> io_check p = true -> (forall i, 4 <= i -> targets p (Q i) = false) -> typed U32 w -> 4 <= len w -> 0 <= q0 < 2 ^ 64 -> 0 <= q1 < 2 ^ 64 ->
  wp ('(w, _) <- gates U32 p w (set (set noloc (Y 0) q0) (Y 1) q1) ;; ret w) (fun w' => len w' = len w /\ typed U32 w' /\ (forall i, 4 <= i < len w -> get w' i = get w i) /\
    forall c k, 0 <= c < 4 -> 0 <= k < 32 -> Z.testbit (get w' c) k = Z.testbit (if c mod 2 =? 0 then q0 else q1) (16 * (k / 8) + 8 * (c / 2) + k mod 8)).
Proof.
  intros p w q0 q1 W S F Tw Lw H0 H1. unfold io_check in S.
  destruct (gprog sdom p (loc_env 2 32 4)) as [env|] eqn:G; [|discriminate].
  apply wp_bind. eapply (wp_gates_rel _ sdom (srel (srho ([q0; q1] ++ w))) U32 p _ env (sdom_rel _)); eauto.
  { intros r v. unfold set. destruct (reg_eqb r (Y 1)); [intros E; apply some_inj in E; lia|]. destruct (reg_eqb r (Y 0)); [intros E; apply some_inj in E; lia|discriminate]. }
  { eapply (loc_env_rel U32 32 2 4 w [q0; q1]); eauto.
    intros i Hi. unfold set, reg_eqb. assert (i = 0 \/ i = 1) as [-> | ->] by (cbn in Hi; lia); reflexivity. }
  intros w' l' L' T' Tl E Fr. apply wp_ret. split; auto. split; auto. split.
  - intros i Hi. specialize (Fr (Q i) (F i ltac:(lia))). cbn [envof] in Fr. rewrite !lookup_in with (d := 0) in Fr by lia. now apply some_inj in Fr.
  - intros c k Hc Hk. pose proof (forallb_tab _ _ S c Hc) as Sc. destruct (sresult_ok _ _ _ _ _ Sc E) as (v & Ev & _ & Hv).
    cbn [envof] in Ev. apply lookup_get in Ev as (_ & <-). rewrite Hv by lia. unfold io_ex. replace (k <? 32) with true by lia. rewrite xorl_1, srho_id by (clear - Hc Hk; dlia).
    f_equal. assert (c mod 2 = 0 \/ c mod 2 = 1) as [-> | ->] by (clear; dlia); reflexivity.
Qed.
Lemma interleave_out_ok : forall w q0 q1, typed U32 w -> 4 <= len w -> 0 <= q0 < 2 ^ 64 -> 0 <= q1 < 2 ^ 64 ->
  wp (interleave_out w q0 q1) (fun w' => len w' = len w /\ typed U32 w' /\ (forall i, 4 <= i < len w -> get w' i = get w i) /\
    forall c k, 0 <= c < 4 -> 0 <= k < 32 -> Z.testbit (get w' c) k = Z.testbit (if c mod 2 =? 0 then q0 else q1) (16 * (k / 8) + 8 * (c / 2) + k mod 8)).
Proof.
  intros w q0 q1. apply (io_gen interleave_out_gates w q0 q1 eq_refl io_sym).
  intros i Hi. unfold targets, interleave_out_gates. cbn [existsb fst reg_eqb]. replace (i =? 0) with false by lia. replace (i =? 1) with false by lia. replace (i =? 2) with false by lia. replace (i =? 3) with false by lia. reflexivity.
Qed.

(** ** Compressed round keys *)
Definition comp_ex (o k : Z) : list Z := [64 * (o + k mod 4) + k].
Definition comp_check (p : list (reg * gexp)) (o : Z) : bool := match gprog sdom p (senv 64 8) with Some env => sresult env (S_ 0) (comp_ex o) | None => false end.
Lemma comp_sym : comp_check comp_gates0 0 && comp_check comp_gates1 4 = true.
Proof. vm_compute. reflexivity. Qed.

Lemma comp_gen : forall p o q, gwf U64 p = true -> comp_check p o = true -> forallb (fun x => negb (is_q (fst x))) p = true -> 0 <= o -> arr U64 8 q ->
  wp (gates U64 p q noloc) (fun ql => fst ql = q /\ exists c, snd ql (S_ 0) = Some c /\ 0 <= c < 2 ^ 64 /\
    forall k, 0 <= k < 64 -> Z.testbit c k = Z.testbit (get q (o + k mod 4)) k).
Proof.
  intros p o q W S N Ho (L & Tq). unfold comp_check in S. destruct (gprog sdom p (senv 64 8)) as [env|] eqn:G; [|discriminate].
  eapply (wp_gates_rel _ sdom (srel (srho q)) U64 p _ env (sdom_rel _)); eauto using noloc_typed.
  { eapply senv_rel; eauto. lia. }
  intros q' l' L' T' Tl E Fr. cbn [fst snd]. split.
  - apply znth_ext with (d := 0); auto. intros i Hi. assert (targets p (Q i) = false) as F.
    { clear - N. unfold targets. induction p as [|(r, e) p IH]; auto. cbn [forallb existsb fst] in *. apply andb_prop in N as (N1 & N2). rewrite IH by auto. destruct r; try reflexivity. discriminate. }
    specialize (Fr (Q i) F). cbn [envof] in Fr. rewrite !lookup_in with (d := 0) in Fr by lia. now apply some_inj in Fr.
  - destruct (sresult_ok _ _ _ _ _ S E) as (c & Ec & Bc & Hc). exists c. split; [exact Ec|]. split; auto. intros k Hk. rewrite Hc by auto. unfold comp_ex. rewrite xorl_1. apply srho_id. lia.
Qed.
Lemma comp0_ok : forall q, arr U64 8 q -> wp (gates U64 comp_gates0 q noloc) (fun ql => fst ql = q /\ exists c, snd ql (S_ 0) = Some c /\ 0 <= c < 2 ^ 64 /\
    forall k, 0 <= k < 64 -> Z.testbit c k = Z.testbit (get q (k mod 4)) k).
Proof. intros q Hq. apply (comp_gen comp_gates0 0 q eq_refl (proj1 (andb_prop _ _ comp_sym)) eq_refl); auto. lia. Qed.
Lemma comp1_ok : forall q, arr U64 8 q -> wp (gates U64 comp_gates1 q noloc) (fun ql => fst ql = q /\ exists c, snd ql (S_ 0) = Some c /\ 0 <= c < 2 ^ 64 /\
    forall k, 0 <= k < 64 -> Z.testbit c k = Z.testbit (get q (4 + k mod 4)) k).
Proof. intros q Hq. apply (comp_gen comp_gates1 4 q eq_refl (proj2 (andb_prop _ _ comp_sym)) eq_refl); auto. lia. Qed.

Definition expand_ex (j k : Z) : list Z := [4 * (k / 4) + j].
Definition expand_check (p : list (reg * gexp)) : bool :=
  match gprog sdom p (loc_env 1 64 4) with Some env => forallb (fun j => sresult env (Q j) (expand_ex j)) (ztab 4 (fun j => j)) | None => false end.
Lemma expand_sym : expand_check expand_gates = true.
Proof. vm_compute. reflexivity. Qed.

Lemma expand_gen : forall pr p c, gwf U64 pr = true -> expand_check pr = true -> (forall i, 4 <= i -> targets pr (Q i) = false) -> typed U64 p -> 4 <= len p -> 0 <= c < 2 ^ 64 ->
  wp ('(p, _) <- gates U64 pr p (set noloc (Y 0) c) ;; ret p) (fun p' => len p' = len p /\ typed U64 p' /\
    (forall i, 4 <= i < len p -> get p' i = get p i) /\ forall j k, 0 <= j < 4 -> 0 <= k < 64 -> Z.testbit (get p' j) k = Z.testbit c (4 * (k / 4) + j)).
Proof.
  intros p w c W S F Tw Lw H0. unfold expand_check in S.
  destruct (gprog sdom p (loc_env 1 64 4)) as [env|] eqn:G; [|discriminate].
  apply wp_bind. eapply (wp_gates_rel _ sdom (srel (srho ([c] ++ w))) U64 p _ env (sdom_rel _)); eauto.
  { intros r v. unfold set. destruct (reg_eqb r (Y 0)); [intros E; apply some_inj in E; lia|discriminate]. }
  { eapply (loc_env_rel U64 64 1 4 w [c]); eauto.
    intros i Hi. unfold set, reg_eqb. assert (i = 0) as -> by (cbn in Hi; lia). reflexivity. }
  intros w' l' L' T' Tl E Fr. apply wp_ret. split; auto. split; auto. split.
  - intros i Hi. specialize (Fr (Q i) (F i ltac:(lia))). cbn [envof] in Fr. rewrite !lookup_in with (d := 0) in Fr by lia. now apply some_inj in Fr.
  - intros j k Hj Hk. pose proof (forallb_tab _ _ S j Hj) as Sc. destruct (sresult_ok _ _ _ _ _ Sc E) as (v & Ev & _ & Hv).
    cbn [envof] in Ev. apply lookup_get in Ev as (_ & <-). rewrite Hv by lia. unfold expand_ex. rewrite xorl_1.
    replace (4 * (k / 4) + j) with (64 * 0 + (4 * (k / 4) + j)) at 1 by lia. rewrite srho_id by (clear - Hj Hk; dlia). reflexivity.
Qed.
Lemma expand_ok : forall p c, typed U64 p -> 4 <= len p -> 0 <= c < 2 ^ 64 ->
  wp ('(p, _) <- gates U64 expand_gates p (set noloc (Y 0) c) ;; ret p) (fun p' => len p' = len p /\ typed U64 p' /\
    (forall i, 4 <= i < len p -> get p' i = get p i) /\ forall j k, 0 <= j < 4 -> 0 <= k < 64 -> Z.testbit (get p' j) k = Z.testbit c (4 * (k / 4) + j)).
Proof.
  intros p c. apply (expand_gen expand_gates p c eq_refl expand_sym).
  intros i Hi. unfold targets, expand_gates. cbn [existsb fst reg_eqb]. replace (i =? 0) with false by lia. replace (i =? 1) with false by lia. replace (i =? 2) with false by lia. replace (i =? 3) with false by lia. reflexivity.
Qed.
