(** The four-fold packing of SaberX4. *)
From Coq Require Import ZArith List Bool Lia.
From Verif Require Import Lib.Arr Lib.CInt Lib.CMon Lib.Wire Spec.Bits Model.Fips202x4 Model.X4Pack Proof.Conv Proof.PackP Proof.PackThm Proof.Keccak4P.
From Verif Require Import Spec.AvxSpec Proof.AvxThm Proof.AvxKemP.
Import ListNotations.
Local Open Scope Z_scope.

(** ** Bits of two halves *)

Lemma fbit_skip : forall w m l k, 0 < w -> 0 <= m -> 0 <= k -> fbit w (zskip m l) k = fbit w l (w * m + k).
Proof.
  intros. unfold fbit. replace (w * m + k) with (k + m * w) by lia. rewrite Z.div_add, Z.mod_add by lia.
  unfold get. rewrite znth_zskip by (try lia; apply Z.div_pos; lia). do 2 f_equal. lia.
Qed.
Lemma regroup_skip : forall w1 w2 N n n1 m l i, 0 < w1 -> 0 <= w2 -> 0 <= m -> w2 * n1 = w1 * m -> 0 <= i < n -> 0 <= n1 -> n1 + n <= N ->
  get (regroup w1 w2 N l) (n1 + i) = get (regroup w1 w2 n (zskip m l)) i.
Proof.
  intros. rewrite !get_regroup by lia. apply bits_val_ext. intros k Hk. rewrite fbit_skip by nia. f_equal. lia.
Qed.
Lemma regroup_pre : forall w1 w2 N n l i, 0 <= i < n -> n <= N -> get (regroup w1 w2 N l) i = get (regroup w1 w2 n l) i.
Proof. intros. now rewrite !get_regroup by lia. Qed.

(** A list of [N] elements given by its two halves. *)
Definition halves (n : Z) (f g : Z -> Z) (i : Z) : Z := if i <? n then f i else g (i - n).
Lemma regroup_halves : forall w1 w2 n m l i, 0 < w1 -> 0 < w2 -> 0 <= m -> w2 * n = w1 * m -> 0 <= i < 2 * n ->
  halves n (get (regroup w1 w2 n (zfirst m l))) (get (regroup w1 w2 n (zskip m l))) i = get (regroup w1 w2 (2 * n) l) i.
Proof.
  intros. unfold halves. destruct (i <? n) eqn:E.
  - rewrite (regroup_first w1 w2 n m) by nia. symmetry. apply regroup_pre; lia.
  - replace i with (n + (i - n)) at 2 by lia. symmetry. apply regroup_skip; lia.
Qed.

Lemma regroup_cat : forall w1 w2 n1 n2 a b, 0 < w1 -> 0 < w2 -> 0 <= n1 -> 0 <= n2 -> w2 * n1 = w1 * len a ->
  regroup w1 w2 (n1 + n2) (a ++ b) = regroup w1 w2 n1 a ++ regroup w1 w2 n2 b.
Proof.
  intros. assert (0 <= len a) by apply len_nonneg. apply znth_ext with 0; [rewrite len_app, !len_regroup by lia; lia|]. intros i Hi. rewrite len_regroup in Hi by lia.
  fold (get (regroup w1 w2 (n1 + n2) (a ++ b)) i). destruct (Z_lt_dec i n1).
  - rewrite znth_app1 by (rewrite len_regroup; lia). rewrite (regroup_pre _ _ _ n1) by lia. rewrite regroup_app by (try lia; nia). reflexivity.
  - rewrite znth_app2 by (rewrite len_regroup; lia). rewrite len_regroup by lia.
    replace i with (n1 + (i - n1)) at 1 by lia. rewrite (regroup_skip w1 w2 _ n2 n1 (len a)) by lia. now rewrite zskip_app.
Qed.
Lemma pack_vec_regroup : forall w v, 0 < w -> Forall (fun l => len l = 256) v -> pack_vec w v = regroup w 8 (32 * w * len v) (concat v).
Proof.
  induction v as [|a v IH]; intros Hw F; [unfold regroup; rewrite Z.mul_0_r; reflexivity|].
  apply Forall_cons_iff in F. destruct F as (La & F). cbn [pack_vec flat_map concat]. rewrite len_cons.
  replace (32 * w * (len v + 1)) with (32 * w + 32 * w * len v) by lia. pose proof (len_nonneg v).
  rewrite regroup_cat by nia. unfold pack. f_equal. apply IH; auto.
Qed.
Lemma unpack_vec_get : forall w n b i k, 0 < w -> 0 <= i < n -> 0 <= k < 256 ->
  get (getr (unpack_vec w n b) i) k = get (regroup 8 w (256 * n) b) (256 * i + k).
Proof.
  intros. unfold getr, unpack_vec. rewrite znth_ztab by lia. unfold unpack. symmetry. apply regroup_skip; lia.
Qed.

(** ** Filling an array in chunks *)

Lemma wp_run_of : forall A o n k (g : Z -> A) (body : Z -> list A -> M (list A)) out (Q : list A -> Prop), 0 <= o -> 0 <= n -> 0 <= k -> o + k * n <= len out ->
  (forall j a, 0 <= j < n -> len a = len out ->
    wp (body j a) (fun r => r = zfirst (o + k * j) a ++ ztab k (fun c => g (o + k * j + c)) ++ zskip (o + k * j + k) a)) ->
  Q (zfirst o out ++ ztab (k * n) (fun i => g (o + i)) ++ zskip (o + k * n) out) -> wp (for_ 0 n body out) Q.
Proof.
  intros A o n k g body out Q Ho Hn Hk Hl Hb HQ.
  apply wp_for with (I := fun j a => a = zfirst o out ++ ztab (k * j) (fun i => g (o + i)) ++ zskip (o + k * j) out); [lia| | |].
  - rewrite Z.mul_0_r, Z.add_0_r. change (ztab 0 ?f) with (@nil A). cbn [app]. now rewrite zfirst_zskip.
  - intros j a Hj Ea.
    assert (0 <= k * j /\ k * j + k <= k * n) as (B1 & B2) by nia.
    assert (len (zfirst o out) = o) as L1 by (apply len_zfirst; lia).
    assert (len (ztab (k * j) (fun i => g (o + i))) = k * j) as L2 by (apply len_ztab; lia).
    assert (len a = len out) as La by (rewrite Ea, !len_app, L1, L2, len_zskip by lia; lia).
    eapply wp_mono; [apply Hb; auto|]. cbn beta. intros r ->.
    assert (zfirst (o + k * j) a = zfirst o out ++ ztab (k * j) (fun i => g (o + i))) as ->.
    { rewrite Ea, app_assoc. replace (o + k * j) with (len (zfirst o out ++ ztab (k * j) (fun i => g (o + i)))) at 1 by (rewrite len_app; lia). apply zfirst_app. }
    assert (zskip (o + k * j + k) a = zskip (o + k * (j + 1)) out) as ->.
    { replace (o + k * j + k) with ((o + k * j) + k) by lia. rewrite Ea, <- zskip_zskip by lia || (rewrite Z.add_comm; reflexivity).
      replace (o + k * (j + 1)) with ((o + k * j) + k) by lia. rewrite <- (zskip_zskip k (o + k * j) out) by lia. f_equal.
      rewrite app_assoc. replace (o + k * j) with (len (zfirst o out ++ ztab (k * j) (fun i => g (o + i)))) at 1 by (rewrite len_app; lia). apply zskip_app. }
    replace (k * (j + 1)) with (k * j + k) by lia. rewrite (ztab_split (k * j) k) by lia. rewrite <- !app_assoc. do 3 f_equal.
    apply ztab_ext. intros; f_equal; lia.
  - intros s ->. exact HQ.
Qed.

Lemma wp_full : forall A n k (g : Z -> A) (body : Z -> list A -> M (list A)) out (Q : list A -> Prop), 0 <= n -> 0 <= k -> len out = k * n ->
  (forall j a, 0 <= j < n -> len a = len out ->
    wp (body j a) (fun r => r = zfirst (k * j) a ++ ztab k (fun c => g (k * j + c)) ++ zskip (k * j + k) a)) ->
  Q (ztab (k * n) g) -> wp (for_ 0 n body out) Q.
Proof.
  intros A n k g body out Q Hn Hk Hl Hb HQ. apply wp_run_of with (o := 0) (k := k) (g := g); auto; try lia.
  replace (zskip (0 + k * n) out) with (@nil A) by (symmetry; apply zskip_all; lia). rewrite app_nil_r. exact HQ.
Qed.

Lemma upd_step : forall A (a : list A) i v vs, 0 <= i -> i + len vs + 1 <= len a ->
  zfirst (i + 1) (upd a i v) ++ vs ++ zskip (i + 1 + len vs) (upd a i v) = zfirst i a ++ (v :: vs) ++ zskip (i + len (v :: vs)) a.
Proof.
  intros A a i v vs Hi Hl. rewrite len_cons. pose proof (len_nonneg vs).
  assert (zfirst (i + 1) (upd a i v) = zfirst i a ++ [v]) as ->.
  { apply znth_ext with v; [rewrite len_app, !len_zfirst by (rewrite ?len_upd; lia); reflexivity|]. intros k Hk. rewrite len_zfirst in Hk by (rewrite len_upd; lia).
    rewrite znth_zfirst, znth_upd by lia. destruct (k =? i) eqn:E.
    - assert (k = i) by lia. subst k. rewrite znth_app2 by (rewrite len_zfirst; lia). rewrite len_zfirst, Z.sub_diag by lia. reflexivity.
    - rewrite znth_app1 by (rewrite len_zfirst; lia). now rewrite znth_zfirst by lia. }
  assert (zskip (i + 1 + len vs) (upd a i v) = zskip (i + (len vs + 1)) a) as ->.
  { apply znth_ext with v; [rewrite !len_zskip by (rewrite ?len_upd; lia); rewrite len_upd; lia|]. intros k Hk. rewrite len_zskip in Hk by (rewrite len_upd; lia).
    rewrite !znth_zskip, znth_upd_diff by lia. f_equal. lia. }
  rewrite <- app_assoc. reflexivity.
Qed.
Lemma wp_setrows : forall A (vs a : list A) i (Q : list A -> Prop), 0 <= i -> i + len vs <= len a ->
  Q (zfirst i a ++ vs ++ zskip (i + len vs) a) -> wp (setrows a i vs) Q.
Proof.
  induction vs as [|v vs IH]; intros a i Q Hi Hl HQ; cbn [setrows].
  - apply wp_ret. rewrite len_nil, Z.add_0_r in HQ. cbn [app] in HQ. now rewrite zfirst_zskip in HQ.
  - pose proof (len_nonneg vs). assert (len (v :: vs) = len vs + 1) as E by apply len_cons.
    apply wp_bind, wp_setrow; [lia|]. apply IH; [lia|rewrite len_upd; lia|]. rewrite upd_step by lia. exact HQ.
Qed.

(** ** Arrays of vectors, lane by lane *)

(** The array whose element [i] has [A l i] in lane [l]. *)
Definition tab8 (n : Z) (A : Z -> Z -> Z) : list w8 := ztab n (fun i => ztab 8 (fun l => A l i)).

Fixpoint xval (f : Z -> Z) (e : xexp) : Z :=
  match e with
  | El i => f i
  | XAnd e m => Z.land (xval f e) m
  | XOr e e' => Z.lor (xval f e) (xval f e')
  | XSrl e n => Z.shiftr (xval f e) n
  | XSll e n => wrap U32 (Z.shiftl (xval f e) n)
  end.
Fixpoint xin (n : Z) (e : xexp) : Prop :=
  match e with El i => 0 <= i < n | XAnd e _ | XSrl e _ | XSll e _ => xin n e | XOr e e' => xin n e /\ xin n e' end.

Lemma get8 : forall f l, 0 <= l < 8 -> get (ztab 8 f) l = f l.
Proof. intros. unfold get. now rewrite znth_ztab by lia. Qed.

Lemma wp_xeval : forall n A e (Q : w8 -> Prop), xin n e -> Q (ztab 8 (fun l => xval (A l) e)) -> wp (xeval (tab8 n A) e) Q.
Proof.
  induction e; cbn [xeval xin xval]; intros Q Hin HQ.
  - apply wp_row with (d := []); [unfold tab8; rewrite len_ztab by lia; lia|]. unfold tab8. now rewrite znth_ztab by lia.
  - apply wp_bind, IHe; auto. apply wp_ret. unfold and32, set1_32. rewrite (ztab_ext 8 _ (fun l => Z.land (xval (A l) e) m)); [exact HQ|]. intros. now rewrite !get8.
  - destruct Hin. apply wp_bind, IHe1; auto. apply wp_bind, IHe2; auto. apply wp_ret. unfold or32.
    rewrite (ztab_ext 8 _ (fun l => Z.lor (xval (A l) e1) (xval (A l) e2))); [exact HQ|]. intros. now rewrite !get8.
  - apply wp_bind, IHe; auto. apply wp_ret. unfold srli32. rewrite (ztab_ext 8 _ (fun l => Z.shiftr (xval (A l) e) n0)); [exact HQ|]. intros. now rewrite !get8.
  - apply wp_bind, IHe; auto. apply wp_ret. unfold slli32. rewrite (ztab_ext 8 _ (fun l => wrap U32 (Z.shiftl (xval (A l) e) n0))); [exact HQ|]. intros. now rewrite !get8.
Qed.

Lemma wp_xsts : forall n A es out o (Q : list w8 -> Prop), Forall (xin n) es -> 0 <= o -> o + len es <= len out ->
  Q (zfirst o out ++ map (fun e => ztab 8 (fun l => xval (A l) e)) es ++ zskip (o + len es) out) -> wp (xsts (tab8 n A) out o es) Q.
Proof.
  intros n A es out o Q Hin Ho Hl HQ.
  revert out o Ho Hl HQ. induction Hin as [|e es He Hes IH]; intros out o Ho Hl HQ; cbn [map xsts] in *.
  - apply wp_ret. rewrite len_nil, Z.add_0_r in HQ. cbn [app] in HQ. now rewrite zfirst_zskip in HQ.
  - pose proof (len_nonneg es). assert (len (e :: es) = len es + 1) as E by apply len_cons.
    apply wp_bind, wp_xeval; auto. apply wp_bind, wp_setrow; [lia|]. apply IH; [lia|rewrite len_upd; lia|].
    set (g := fun e => ztab 8 (fun l => xval (A l) e)) in *. assert (len (map g es) = len es) as Em by apply len_map.
    replace (o + 1 + len es) with (o + 1 + len (map g es)) by lia. change (ztab 8 (fun l => xval (A l) e)) with (g e). rewrite upd_step by lia.
    replace (o + len (g e :: map g es)) with (o + len (e :: es)) by (rewrite !len_cons; lia). exact HQ.
Qed.

(** ** Bits of the expressions *)

(** Bit [m] of [xval f e] when all leaves have [w] bits. *)
Fixpoint xbw (f : Z -> Z) (w : Z) (e : xexp) (m : Z) : wire :=
  match e with
  | El i => if m <? w then WB (f i) m else W0
  | XAnd e k => wand (xbw f w e m) (if Z.testbit k m then W1 else W0)
  | XOr e e' => wor (xbw f w e m) (xbw f w e' m)
  | XSrl e n => if n <? 0 then WX else xbw f w e (m + n)
  | XSll e n => if n <? 0 then WX else if m <? 32 then (if m <? n then W0 else xbw f w e (m - n)) else W0
  end.
Lemma xbw_ok : forall f w e b, (forall i, 0 <= f i < 2 ^ w) -> 0 <= b -> xbw f w e b <> WX -> Z.testbit (xval f e) b = den (xbw f w e b).
Proof.
  induction e; cbn [xbw xval]; intros b Hf Hm Hx.
  - destruct (b <? w) eqn:E; auto. cbn [den]. apply testbit_high with w; [auto|lia].
  - apply wand_ok in Hx. destruct Hx as (A & B & ->). rewrite Z.land_spec. f_equal; [auto|]. destruct (Z.testbit m b) eqn:E; cbn [den]; auto.
  - apply wor_ok in Hx. destruct Hx as (A & B & ->). rewrite Z.lor_spec. f_equal; auto.
  - destruct (n <? 0) eqn:E; [congruence|]. rewrite Z.shiftr_spec by lia. apply IHe; auto. lia.
  - destruct (n <? 0) eqn:E; [congruence|]. destruct (b <? 32) eqn:E2.
    + rewrite wrap_bit by (cbn [width]; lia). destruct (b <? n) eqn:E3; [rewrite Z.shiftl_spec_low by lia; auto|].
      rewrite Z.shiftl_spec by lia. apply IHe; auto. lia.
    + cbn [den]. apply testbit_high with 32; [|lia]. pose proof (wrap_range U32 (Z.shiftl (xval f e) n)) as R. cbn [tmin tmax] in R. lia.
Qed.

Lemma bits_range : forall x n, 0 <= n -> 0 <= x -> (forall b, n <= b -> Z.testbit x b = false) -> x < 2 ^ n.
Proof.
  intros x n Hn Hx H. destruct (Z_lt_dec x (2 ^ n)) as [|G]; auto. exfalso.
  assert (0 < 2 ^ n) by (apply Z.pow_pos_nonneg; lia).
  assert (n <= Z.log2 x) by (apply Z.log2_le_pow2; lia). specialize (H (Z.log2 x) ltac:(lia)). rewrite Z.bit_log2 in H by lia. discriminate.
Qed.
Fixpoint shr_ok (e : xexp) : bool :=
  match e with El _ => true | XAnd e _ => shr_ok e | XOr e e' => shr_ok e && shr_ok e' | XSrl e n => (0 <=? n) && shr_ok e | XSll e _ => shr_ok e end.
Lemma xval_range : forall f e, (forall i, 0 <= f i < 2 ^ 32) -> shr_ok e = true -> 0 <= xval f e < 2 ^ 32.
Proof.
  intros f e Hf. induction e; cbn [xval shr_ok]; intros Hs.
  - apply Hf.
  - specialize (IHe Hs). assert (0 <= Z.land (xval f e) m) by (apply Z.land_nonneg; lia). split; auto.
    apply bits_range; auto; [lia|]. intros b Hb. rewrite Z.land_spec, (testbit_high 32 (xval f e)) by lia. reflexivity.
  - apply andb_prop in Hs. destruct Hs as (S1 & S2). specialize (IHe1 S1). specialize (IHe2 S2).
    assert (0 <= Z.lor (xval f e1) (xval f e2)) by (apply Z.lor_nonneg; lia). split; auto.
    apply bits_range; auto; [lia|]. intros b Hb. rewrite Z.lor_spec, !(testbit_high 32) by lia. reflexivity.
  - apply andb_prop in Hs. destruct Hs as (S1 & S2). specialize (IHe S2).
    assert (0 <= Z.shiftr (xval f e) n) by (apply Z.shiftr_nonneg; lia). split; auto.
    apply bits_range; auto; [lia|]. intros b Hb. rewrite Z.shiftr_spec, (testbit_high 32) by lia. reflexivity.
  - pose proof (wrap_range U32 (Z.shiftl (xval f e) n)) as R. cbn [tmin tmax] in R. lia.
Qed.

(** Expressions that regroup the bits of an array of [w1]-bit numbers (in leaves of [w] bits) into [w2]-bit numbers: [k] numbers from [kd]. *)
Definition moves (w w1 w2 k kd : Z) (es : Z -> list xexp) : Prop :=
  forall d f, len (es d) = k /\ forallb shr_ok (es d) = true /\
    all_below (Z.to_nat k) (fun c => all_below 32 (fun m => xbw f w (znth (El 0) (es d) c) m =
      if m <? w2 then WB (f (d + (w2 * c + m) / w1)) ((w2 * c + m) mod w1) else W0)).

Lemma moves_ok : forall w w1 w2 k kd es f src n j c, moves w w1 w2 k kd es -> 0 < w1 -> 0 < w2 <= 32 -> kd * w1 = k * w2 -> 0 < k -> 0 <= w <= 32 ->
  (forall i, 0 <= f i < 2 ^ w) -> (forall i, 0 <= i < kd * n -> f i = get src i) -> 0 <= j < n -> 0 <= c < k ->
  xval f (znth (El 0) (es (kd * j)) c) = get (regroup w1 w2 (k * n) src) (k * j + c).
Proof.
  intros w w1 w2 k kd es f src n j c M H1 H2 Hk Hk0 Hw Hf Hs Hj Hc. destruct (M (kd * j) f) as (Le & Sh & B).
  rewrite get_regroup by nia. apply bits_val_eq; [lia| |].
  - set (e := znth (El 0) (es (kd * j)) c) in *.
    assert (shr_ok e = true) as Se.
    { rewrite forallb_forall in Sh. apply Sh. unfold e, znth. destruct (c <? 0) eqn:E; [lia|]. apply nth_In. unfold len in Le. lia. }
    assert (0 <= xval f e < 2 ^ 32) as R.
    { apply xval_range; auto. intros i. specialize (Hf i). assert (2 ^ w <= 2 ^ 32) by (apply Z.pow_le_mono_r; lia). lia. }
    split; [lia|]. apply bits_range; [lia|lia|]. intros b Hb. destruct (Z_lt_dec b 32); [|apply (testbit_high 32); lia].
    pose proof (all_below_ok _ _ (all_below_ok _ _ B c ltac:(lia)) b ltac:(lia)) as E. cbn beta in E. fold e in E.
    destruct (b <? w2) eqn:E2; [lia|]. rewrite (xbw_ok f w) by (auto; try lia; rewrite E; discriminate). now rewrite E.
  - intros b Hb.
    pose proof (all_below_ok _ _ (all_below_ok _ _ B c ltac:(lia)) b ltac:(lia)) as E. cbn beta in E.
    destruct (b <? w2) eqn:E2; [|lia]. rewrite (xbw_ok f w) by (auto; try lia; rewrite E; discriminate). rewrite E. cbn [den]. unfold fbit.
    replace (w2 * (k * j + c) + b) with ((w2 * c + b) + (kd * j) * w1) by nia. rewrite Z.div_add, Z.mod_add by lia.
    assert (0 <= (w2 * c + b) / w1 < kd) by (split; [apply Z.div_pos; nia|apply Z.div_lt_upper_bound; nia]).
    rewrite Hs by nia. rewrite (Z.add_comm (kd * j)). reflexivity.
Qed.

Ltac movestac := intros d f; split; [reflexivity|split; [reflexivity|]]; cbn [all_below Z.to_nat Pos.to_nat Pos.iter_op Nat.add]; repeat split.
Lemma p_bytes_moves : moves 16 10 8 5 4 p_bytes.
Proof. movestac. Qed.
Lemma q_bytes_moves : moves 16 13 8 13 8 q_bytes.
Proof. movestac. Qed.
Lemma p_coeffs_moves : moves 8 8 10 4 5 p_coeffs.
Proof. movestac. Qed.
Lemma q_coeffs_moves : moves 8 8 13 8 13 q_coeffs.
Proof. movestac. Qed.
Lemma q4x_coeffs_moves : moves 8 8 13 8 13 q4x_coeffs.
Proof. movestac. Qed.

(** ** The loops of shifts *)

Definition lanes8 (n : Z) (S : Z -> list Z) : list w8 := tab8 n (fun l => get (S l)).
Lemma len_lanes8 : forall n S, 0 <= n -> len (lanes8 n S) = n.
Proof. intros. unfold lanes8, tab8. now rewrite len_ztab. Qed.

Section Shift.
  Variables (w w1 w2 k kd T : Z) (es : Z -> list xexp) (S : Z -> list Z).
  Hypothesis M : moves w w1 w2 k kd es.
  Hypothesis Hw1 : 0 < w1.
  Hypothesis Hw2 : 0 < w2 <= 32.
  Hypothesis Hk : 0 < k.
  Hypothesis Hkd : kd * w1 = k * w2.
  Hypothesis Hw : 0 <= w <= 32.
  Hypothesis HT : 0 <= T.
  Hypothesis HS : forall l, 0 <= l < 8 -> forall i, 0 <= get (S l) i < 2 ^ w.
  Hypothesis Hin : forall b, 0 <= b < T -> Forall (xin (kd * T)) (es (kd * b)).
  Local Notation R := (fun l => regroup w1 w2 (k * T) (S l)).
  Local Notation G := (fun i => ztab 8 (fun l => get (regroup w1 w2 (k * T) (S l)) i)).

  Lemma wp_shift1 : forall b n (O D : Z -> Z) out (Q : list w8 -> Prop), 0 <= b -> 0 <= n -> b + n <= T -> len out = k * T ->
    (forall j, 0 <= j < n -> O j = k * (b + j)) -> (forall j, 0 <= j < n -> D j = kd * (b + j)) ->
    Q (zfirst (k * b) out ++ ztab (k * n) (fun i => G (k * b + i)) ++ zskip (k * b + k * n) out) ->
    wp (for_ 0 n (fun j out => xsts (lanes8 (kd * T) S) out (O j) (es (D j))) out) Q.
  Proof.
    intros b n O D out Q Hb Hn Hbn Lo HO HD HQ. apply wp_run_of with (o := k * b) (k := k) (g := G); auto; try nia.
    intros j a Hj La. rewrite HO, HD by auto. destruct (M (kd * (b + j)) (fun _ => 0)) as (Le & _).
    apply wp_xsts; [apply Hin; lia|nia|nia|]. rewrite Le. replace (k * (b + j)) with (k * b + k * j) by lia. do 2 f_equal.
    apply ztab_eq with []; [now rewrite len_map|]. intros c Hc. rewrite znth_map with (d := El 0) by lia. apply ztab_ext. intros l Hl.
    rewrite (moves_ok w w1 w2 k kd es (get (S l)) (S l) T (b + j) c) by (auto; lia). f_equal. lia.
  Qed.

  Lemma wp_shift : forall n m (O D : Z -> Z -> Z) out (Q : list w8 -> Prop), 0 <= n -> 0 <= m -> m * n = T -> len out = k * T ->
    (forall i j, 0 <= i < m -> 0 <= j < n -> O i j = k * (n * i + j)) -> (forall i j, 0 <= i < m -> 0 <= j < n -> D i j = kd * (n * i + j)) ->
    Q (lanes8 (k * T) R) ->
    wp (for_ 0 m (fun i out => for_ 0 n (fun j out => xsts (lanes8 (kd * T) S) out (O i j) (es (D i j))) out) out) Q.
  Proof.
    intros n m O D out Q Hn Hm Hnm Lo HO HD HQ. apply wp_full with (k := k * n) (g := G); auto; try nia.
    - intros i a Hi La. apply wp_shift1 with (b := n * i); auto; try nia.
      replace (k * n * i) with (k * (n * i)) by lia. reflexivity.
    - replace (k * n * m) with (k * T) by nia. exact HQ.
  Qed.
End Shift.

(** ** Loading *)

Lemma wp_load16 : forall a off (Q : list Z -> Prop), 0 <= off -> off + 8 <= len a ->
  Q (ztab 4 (fun t => get a (off + 2 * t) + 65536 * get a (off + 2 * t + 1))) -> wp (load_ps16 a off) Q.
Proof. intros. unfold load_ps16. destruct (_ && _) eqn:E; [|lia]. apply wp_bind, wp_emit. now apply wp_ret. Qed.
Lemma wp_load8 : forall a off (Q : list Z -> Prop), 0 <= off -> off + 16 <= len a ->
  Q (ztab 4 (fun t => get a (off + 4 * t) + 256 * get a (off + 4 * t + 1) + 65536 * get a (off + 4 * t + 2) + 16777216 * get a (off + 4 * t + 3))) ->
  wp (load_ps8 a off) Q.
Proof. intros. unfold load_ps8. destruct (_ && _) eqn:E; [|lia]. apply wp_bind, wp_emit. now apply wp_ret. Qed.

Lemma get_any : forall t l i, typed t l -> signed t = false -> 0 <= get l i <= tmax t.
Proof.
  intros t l i T S. destruct (Z_lt_dec i 0); [|destruct (Z_lt_dec i (len l))].
  2: { pose proof (typed_get t l i T ltac:(lia)). destruct (unsigned_width t S) as (A & _). lia. }
  all: unfold get; rewrite znth_default by lia; destruct t; cbn [tmax signed] in *; lia || discriminate.
Qed.

(** The list that lane [l] works on, from the lists of the front and of the back halves. *)
Definition lsel (front back : quad (list Z)) (l : Z) : list Z := if l <? 4 then sel front l else sel back (l - 4).

Lemma merge4_tab : forall f g t, 0 <= t < 4 ->
  sel (merge4 (tab4 (fun k => ztab 4 (f k))) (tab4 (fun k => ztab 4 (g k)))) t = ztab 8 (fun l => if l <? 4 then f l t else g (l - 4) t).
Proof.
  intros f g t Ht. unfold merge4. rewrite sel_tab4 by lia. unfold TRANSPOSE4. rewrite !sel_tab4 by lia. unfold insertf128.
  change (ztab 8 (fun l => if l <? 4 then f l t else g (l - 4) t)) with [f 0 t; f 1 t; f 2 t; f 3 t; g 0 t; g 1 t; g 2 t; g 3 t].
  change (ztab 4 (fun k => get (sel (tab4 (fun k0 => ztab 4 (f k0))) k) t))
    with [get (ztab 4 (f 0)) t; get (ztab 4 (f 1)) t; get (ztab 4 (f 2)) t; get (ztab 4 (f 3)) t].
  change (ztab 4 (fun k => get (sel (tab4 (fun k0 => ztab 4 (g k0))) k) t))
    with [get (ztab 4 (g 0)) t; get (ztab 4 (g 1)) t; get (ztab 4 (g 2)) t; get (ztab 4 (g 3)) t].
  rewrite !get_v by lia. reflexivity.
Qed.

Lemma lo16 : forall x y, 0 <= x < 65536 -> Z.shiftr (wrap U32 (Z.shiftl (x + 65536 * y) 16)) 16 = x.
Proof. intros. rewrite Z.shiftr_div_pow2, Z.shiftl_mul_pow2 by lia. cbn [wrap]. dlia. Qed.
Lemma hi16 : forall x y, 0 <= x < 65536 -> Z.shiftr (x + 65536 * y) 16 = y.
Proof. intros. rewrite Z.shiftr_div_pow2 by lia. dlia. Qed.

Lemma wp_avx_load_16bit_8bit : forall front back out (Q : list w8 -> Prop),
  (forall k, 0 <= k < 4 -> 384 <= len (sel front k) /\ typed U16 (sel front k)) -> (forall k, 0 <= k < 4 -> 384 <= len (sel back k) /\ typed U16 (sel back k)) ->
  len out = 384 -> Q (lanes8 384 (lsel front back)) -> wp (avx_load_16bit_8bit front back out) Q.
Proof.
  intros front back out Q Hf Hb Lo HQ. unfold avx_load_16bit_8bit. change (3 * 256 * 16 / (128 * 2)) with 48.
  assert (forall l i, 0 <= l < 8 -> 0 <= get (lsel front back l) i < 65536) as R.
  { intros l i Hl. unfold lsel. assert (forall x, typed U16 x -> 0 <= get x i < 65536) as TT.
    { intros x Tx. pose proof (get_any U16 x i Tx eq_refl) as G. cbn [tmax] in G. lia. }
    destruct (l <? 4) eqn:E; apply TT; [apply (Hf l)|apply (Hb (l - 4))]; lia. }
  apply wp_full with (k := 8) (g := fun i => ztab 8 (fun l => get (lsel front back l) i)); [lia|lia|lia| |exact HQ].
  intros i a Hi La.
  apply wp_bind, wp_for4_eq with (g := fun k => ztab 4 (fun t => get (sel front k) (8 * i + 2 * t) + 65536 * get (sel front k) (8 * i + 2 * t + 1))).
  { intros k Hk P HP. destruct (Hf k Hk). apply wp_load16; [lia|lia|exact HP]. }
  apply wp_bind, wp_for4_eq with (g := fun k => ztab 4 (fun t => get (sel back k) (8 * i + 2 * t) + 65536 * get (sel back k) (8 * i + 2 * t + 1))).
  { intros k Hk P HP. destruct (Hb k Hk). apply wp_load16; [lia|lia|exact HP]. }
  cbv zeta. rewrite !merge4_tab by lia.
  set (RW := fun i => ztab 8 (fun l => get (lsel front back l) i)) in *.
  set (V := fun t => ztab 8 (fun l => get (lsel front back l) (8 * i + 2 * t) + 65536 * get (lsel front back l) (8 * i + 2 * t + 1))).
  assert (forall t, ztab 8 (fun l => if l <? 4 then get (sel front l) (8 * i + 2 * t) + 65536 * get (sel front l) (8 * i + 2 * t + 1)
      else get (sel back (l - 4)) (8 * i + 2 * t) + 65536 * get (sel back (l - 4)) (8 * i + 2 * t + 1)) = V t) as EV.
  { intros t. apply ztab_ext. intros l Hl. unfold lsel. now destruct (l <? 4). }
  rewrite !EV.
  assert (forall t, srli32 (slli32 (V t) 16) 16 = RW (8 * i + 2 * t)) as E0.
  { intros t. apply ztab_ext. intros l Hl. unfold slli32, V. rewrite !get8 by lia. apply lo16. apply R; lia. }
  assert (forall t, srli32 (V t) 16 = RW (8 * i + 2 * t + 1)) as E1.
  { intros t. apply ztab_ext. intros l Hl. unfold V. rewrite !get8 by lia. apply hi16. apply R; lia. }
  rewrite !E0, !E1. cbn [app]. match goal with |- wp (setrows _ _ ?l) _ => assert (len l = 8) as LL by reflexivity end.
  apply wp_setrows; [lia|lia|]. rewrite LL. replace (i * 8) with (8 * i) by lia.
  refine (f_equal2 (@app _) eq_refl (f_equal2 (@app _) _ eq_refl)).
  match goal with |- ?L = ztab 8 _ => change (L = ztab 8 (fun c => RW (8 * i + c))) end.
  match goal with |- _ = ztab 8 ?g => change (ztab 8 g) with [g 0; g 1; g 2; g 3; g 4; g 5; g 6; g 7] end. cbv beta.
  repeat (apply f_equal2; [apply (f_equal RW); lia|]). reflexivity.
Qed.

Lemma byte_of : forall a b c d, 0 <= a < 256 -> 0 <= b < 256 -> 0 <= c < 256 -> 0 <= d < 256 -> let x := a + 256 * b + 65536 * c + 16777216 * d in
  Z.shiftr (wrap U32 (Z.shiftl x 24)) 24 = a /\ Z.shiftr (wrap U32 (Z.shiftl x 16)) 24 = b /\ Z.shiftr (wrap U32 (Z.shiftl x 8)) 24 = c /\ Z.shiftr x 24 = d.
Proof.
  intros. unfold x. rewrite !Z.shiftr_div_pow2, !Z.shiftl_mul_pow2 by lia. cbn [wrap].
  change (2 ^ 24) with 16777216. change (2 ^ 16) with 65536. change (2 ^ 8) with 256. change (2 ^ 32) with 4294967296. repeat split; dlia.
Qed.

Lemma wp_avx_load_8bit_16bit : forall bs out m (Q : list w8 -> Prop), 0 <= m ->
  (forall k, 0 <= k < 4 -> 32 * m <= len (sel bs k) /\ typed U8 (sel bs k)) ->
  len out = 16 * m -> Q (lanes8 (16 * m) (lsel bs (tab4 (fun k => zskip (16 * m) (sel bs k))))) -> wp (avx_load_8bit_16bit bs out (32 * m)) Q.
Proof.
  intros front out m Q Hm Hf Lo HQ. unfold avx_load_8bit_16bit. replace (4 * (32 * m * 8 / (32 * 2))) with (16 * m) by dlia.
  replace (32 * m / 32) with m by dlia. set (back := tab4 (fun k => zskip (16 * m) (sel front k))) in *.
  apply wp_bind, wp_for4_eq with (g := fun k => zskip (16 * m) (sel front k)).
  { intros k Hk P HP. destruct (Hf k Hk). apply wp_ptr; [lia|exact HP]. }
  fold back.
  assert (forall k, 0 <= k < 4 -> 16 * m <= len (sel back k) /\ typed U8 (sel back k)) as Hb.
  { intros k Hk. unfold back. rewrite sel_tab4 by lia. destruct (Hf k Hk). split; [rewrite len_zskip by lia; lia|now apply Forall_zskip]. }
  clearbody back.
  assert (forall l i, 0 <= l < 8 -> 0 <= get (lsel front back l) i < 256) as R.
  { intros l i Hl. unfold lsel. assert (forall x, typed U8 x -> 0 <= get x i < 256) as TT.
    { intros x Tx. pose proof (get_any U8 x i Tx eq_refl) as G. cbn [tmax] in G. lia. }
    destruct (l <? 4) eqn:E; apply TT; [apply (Hf l)|apply (Hb (l - 4))]; lia. }
  apply wp_full with (k := 16) (g := fun i => ztab 8 (fun l => get (lsel front back l) i)); [lia|lia|lia| |exact HQ].
  intros i a Hi La. set (W := fun (q : list Z) t => get q (16 * i + 4 * t) + 256 * get q (16 * i + 4 * t + 1) + 65536 * get q (16 * i + 4 * t + 2) + 16777216 * get q (16 * i + 4 * t + 3)).
  apply wp_bind, wp_for4_eq with (g := fun k => ztab 4 (W (sel front k))).
  { intros k Hk P HP. destruct (Hf k Hk). apply wp_load8; [lia|lia|exact HP]. }
  apply wp_bind, wp_for4_eq with (g := fun k => ztab 4 (W (sel back k))).
  { intros k Hk P HP. destruct (Hb k Hk). apply wp_load8; [lia|lia|exact HP]. }
  cbv zeta. rewrite !merge4_tab by lia.
  set (RW := fun i => ztab 8 (fun l => get (lsel front back l) i)) in *.
  set (V := fun t => ztab 8 (fun l => W (lsel front back l) t)).
  assert (forall t, ztab 8 (fun l => if l <? 4 then W (sel front l) t else W (sel back (l - 4)) t) = V t) as EV.
  { intros t. apply ztab_ext. intros l Hl. unfold lsel. now destruct (l <? 4). }
  rewrite !EV.
  assert (forall t, srli32 (slli32 (V t) 24) 24 = RW (16 * i + 4 * t) /\ srli32 (slli32 (V t) 16) 24 = RW (16 * i + 4 * t + 1) /\
    srli32 (slli32 (V t) 8) 24 = RW (16 * i + 4 * t + 2) /\ srli32 (V t) 24 = RW (16 * i + 4 * t + 3)) as EE.
  { intros t. pose (g := fun l c => get (lsel front back l) (16 * i + 4 * t + c)).
    assert (forall l, 0 <= l < 8 -> get (V t) l = g l 0 + 256 * g l 1 + 65536 * g l 2 + 16777216 * g l 3) as GV.
    { intros l Hl. unfold V. rewrite get8 by lia. unfold W, g. now rewrite Z.add_0_r. }
    assert (forall l, 0 <= l < 8 -> Z.shiftr (wrap U32 (Z.shiftl (get (V t) l) 24)) 24 = g l 0 /\ Z.shiftr (wrap U32 (Z.shiftl (get (V t) l) 16)) 24 = g l 1 /\
      Z.shiftr (wrap U32 (Z.shiftl (get (V t) l) 8)) 24 = g l 2 /\ Z.shiftr (get (V t) l) 24 = g l 3) as B.
    { intros l Hl. rewrite GV by lia. apply byte_of; unfold g; apply R; lia. }
    unfold RW. split; [|split; [|split]]; apply ztab_ext; intros l Hl; unfold slli32; rewrite ?get8 by lia; destruct (B l Hl) as (B0 & B1 & B2 & B3).
    - rewrite B0. unfold g. now rewrite Z.add_0_r.
    - exact B1.
    - exact B2.
    - exact B3. }
  destruct (EE 0) as (-> & -> & -> & ->). destruct (EE 1) as (-> & -> & -> & ->).
  destruct (EE 2) as (-> & -> & -> & ->). destruct (EE 3) as (-> & -> & -> & ->).
  cbn [app]. match goal with |- wp (setrows _ _ ?l) _ => assert (len l = 16) as LL by reflexivity end.
  apply wp_setrows; [lia|lia|]. rewrite LL. replace (i * 16) with (16 * i) by lia.
  refine (f_equal2 (@app _) eq_refl (f_equal2 (@app _) _ eq_refl)).
  match goal with |- ?L = ztab 16 _ => change (L = ztab 16 (fun c => RW (16 * i + c))) end.
  match goal with |- _ = ztab 16 ?g => change (ztab 16 g) with [g 0; g 1; g 2; g 3; g 4; g 5; g 6; g 7; g 8; g 9; g 10; g 11; g 12; g 13; g 14; g 15] end. cbv beta.
  repeat (apply f_equal2; [apply (f_equal RW); lia|]). reflexivity.
Qed.

(** ** Storing *)

Lemma wp_rows16 : forall n S off (Q : list w8 -> Prop), 0 <= off -> off + 16 <= n -> Q (ztab 16 (fun i => ztab 8 (fun l => get (S l) (off + i)))) ->
  wp (rows16 (lanes8 n S) off) Q.
Proof.
  intros n S off Q H1 H2 HQ. unfold rows16. rewrite len_lanes8 by lia. destruct (_ && _) eqn:E; [|lia]. apply wp_bind, wp_emit, wp_ret.
  rewrite (ztab_ext 16 _ (fun i => ztab 8 (fun l => get (S l) (off + i)))); [exact HQ|]. intros i Hi. unfold lanes8, tab8. now rewrite znth_ztab by lia.
Qed.

Lemma trans_tab : forall F h g j, 0 <= h < 2 -> 0 <= g < 4 -> 0 <= j < 4 ->
  sel (trans (ztab 16 (fun i => ztab 8 (fun l => F l i))) h g) j = ztab 4 (fun i => F (4 * h + j) (4 * g + i)).
Proof.
  intros F h g j Hh Hg Hj. unfold trans, TRANSPOSE4. rewrite sel_tab4 by lia. apply ztab_ext. intros i Hi. rewrite sel_tab4 by lia.
  unfold extractf128. rewrite get_v by lia. rewrite znth_ztab by lia. rewrite get8 by lia. reflexivity.
Qed.

Lemma wrap_small : forall t x, tmin t <= x <= tmax t -> wrap t x = x.
Proof. intros. now apply wrap_id. Qed.

Lemma pack_sixteen8 : forall f, (forall i, 0 <= f i < 256) ->
  packus_epi16 (packus_epi32 (ztab 4 (fun i => f (4 * 0 + i))) (ztab 4 (fun i => f (4 * 1 + i)))) (packus_epi32 (ztab 4 (fun i => f (4 * 2 + i))) (ztab 4 (fun i => f (4 * 3 + i)))) =
  ztab 16 f.
Proof.
  intros f Hf. unfold packus_epi16, packus_epi32. rewrite !map_app, !map_ztab.
  assert (forall g, ztab 4 (fun i => sat 0 255 (wrap I16 (sat 0 65535 (wrap I32 (f (4 * g + i)))))) = ztab 4 (fun i => f (4 * g + i))) as E.
  { intros g. apply ztab_ext. intros i Hi. specialize (Hf (4 * g + i)). rewrite (wrap_small I32) by (cbn [tmin tmax]; lia).
    unfold sat. rewrite (wrap_small I16) by (cbn [tmin tmax]; lia). lia. }
  rewrite !E. reflexivity.
Qed.
Lemma pack_sixteen16 : forall f, (forall i, 0 <= f i < 32768) ->
  insertf128 (packs_epi32 (ztab 4 (fun i => f (4 * 0 + i))) (ztab 4 (fun i => f (4 * 1 + i)))) (packs_epi32 (ztab 4 (fun i => f (4 * 2 + i))) (ztab 4 (fun i => f (4 * 3 + i)))) =
  ztab 16 f.
Proof.
  intros f Hf. unfold insertf128, packs_epi32. rewrite !map_app, !map_ztab.
  assert (forall g, ztab 4 (fun i => wrap U16 (sat (-32768) 32767 (wrap I32 (f (4 * g + i))))) = ztab 4 (fun i => f (4 * g + i))) as E.
  { intros g. apply ztab_ext. intros i Hi. specialize (Hf (4 * g + i)). rewrite (wrap_small I32) by (cbn [tmin tmax]; lia).
    unfold sat. rewrite (wrap_small U16) by (cbn [tmin tmax]; lia). lia. }
  rewrite !E. reflexivity.
Qed.

Lemma get_splice : forall a v off i, 0 <= off -> off + len v <= len a -> 0 <= i < len a ->
  get (zfirst off a ++ v ++ zskip (off + len v) a) i = if (off <=? i) && (i <? off + len v) then get v (i - off) else get a i.
Proof.
  intros a v off i H1 H2 Hi. pose proof (len_nonneg v). assert (len (zfirst off a) = off) as L by (apply len_zfirst; lia). unfold get. destruct (Z_lt_dec i off).
  - destruct (off <=? i) eqn:E; [lia|]. cbn [andb]. rewrite znth_app1 by lia. now rewrite znth_zfirst by lia.
  - destruct (off <=? i) eqn:E; [|lia]. cbn [andb]. rewrite znth_app2 by lia. rewrite L. destruct (i <? off + len v) eqn:E2.
    + now rewrite znth_app1 by lia.
    + rewrite znth_app2 by lia. rewrite znth_zskip by lia. f_equal. lia.
Qed.
Lemma len_splice : forall (a v : list Z) off, 0 <= off -> off + len v <= len a -> len (zfirst off a ++ v ++ zskip (off + len v) a) = len a.
Proof. intros. pose proof (len_nonneg v). rewrite !len_app, len_zfirst, len_zskip by lia. lia. Qed.

Lemma wp_store128 : forall a off v (Q : list Z -> Prop), len v = 16 -> 0 <= off -> off + 16 <= len a ->
  (forall r, len r = len a -> (forall i, 0 <= i < len a -> get r i = if (off <=? i) && (i <? off + 16) then get v (i - off) else get a i) -> Q r) ->
  wp (store_si128 a off v) Q.
Proof.
  intros a off v Q Lv H1 H2 HQ. unfold store_si128. destruct (_ && _) eqn:E; [|lia]. apply wp_bind, wp_emit, wp_ret.
  rewrite <- Lv. apply HQ; [apply len_splice; lia|]. intros. rewrite get_splice by lia. now rewrite Lv.
Qed.

Lemma wp_avx_store_8bit_bs : forall m S bs (Q : quad (list Z) -> Prop), 0 <= m -> (forall l i, 0 <= l < 8 -> 0 <= get (S l) i < 256) ->
  (forall k, 0 <= k < 4 -> 32 * m <= len (sel bs k)) -> (forall l, 0 <= l < 8 -> len (S l) = 16 * m) ->
  Q (tab4 (fun k => S k ++ S (4 + k) ++ zskip (32 * m) (sel bs k))) -> wp (avx_store_8bit_bs (lanes8 (16 * m) S) (16 * m) bs (16 * m)) Q.
Proof.
  intros m S bs Q Hm HS Hl LS HQ. unfold avx_store_8bit_bs. replace (16 * m / 16) with m by dlia.
  apply wp_for with (I := fun k b => forall j, 0 <= j < 4 -> len (sel b j) = len (sel bs j) /\ forall i, 0 <= i < len (sel bs j) -> get (sel b j) i =
    if i <? 16 * k then get (S j) i else if (16 * m <=? i) && (i <? 16 * m + 16 * k) then get (S (4 + j)) (i - 16 * m) else get (sel bs j) i).
  - lia.
  - intros j Hj. split; auto. intros i Hi. destruct (i <? 16 * 0) eqn:E1; [lia|]. destruct (_ && _) eqn:E2; [lia|]. reflexivity.
  - intros k b Hk Hb. apply wp_bind, wp_rows16; [lia|lia|]. cbv zeta.
    assert (forall h j, 0 <= h < 2 -> 0 <= j < 4 -> let x := ztab 16 (fun i => ztab 8 (fun l => get (S l) (16 * k + i))) in
      packus_epi16 (packus_epi32 (sel (trans x h 0) j) (sel (trans x h 1) j)) (packus_epi32 (sel (trans x h 2) j) (sel (trans x h 3) j)) =
      ztab 16 (fun i => get (S (4 * h + j)) (16 * k + i))) as PH.
    { intros h j Hh Hj x. unfold x. rewrite !(trans_tab (fun l i => get (S l) (16 * k + i))) by lia.
      apply (pack_sixteen8 (fun i => get (S (4 * h + j)) (16 * k + i))). intros i. apply HS. lia. }
    cbv zeta in PH.
    apply wp_bind, wp_for4 with (g := fun j r => len r = len (sel bs j) /\ forall i, 0 <= i < len (sel bs j) -> get r i =
       if i <? 16 * (k + 1) then get (S j) i else if (16 * m <=? i) && (i <? 16 * m + 16 * k) then get (S (4 + j)) (i - 16 * m) else get (sel bs j) i).
    { intros j Hj. rewrite PH by lia. destruct (Hb j Hj) as (Lb & Gb). specialize (Hl j Hj). apply wp_store128; [apply len_ztab; lia|lia|lia|].
      intros r Lr Gr. split; [lia|]. intros i Hi. rewrite Gr by lia. destruct ((16 * k <=? i) && (i <? 16 * k + 16)) eqn:E.
      - destruct (i <? 16 * (k + 1)) eqn:E2; [|lia]. unfold get at 1. rewrite znth_ztab by lia. rewrite Z.mul_0_r, Z.add_0_l. f_equal. lia.
      - rewrite Gb by lia. destruct (i <? 16 * k) eqn:E3; destruct (i <? 16 * (k + 1)) eqn:E4; try lia; reflexivity. }
    intros b1 Hb1. apply wp_for4 with (g := fun j r => len r = len (sel bs j) /\ forall i, 0 <= i < len (sel bs j) -> get r i =
       if i <? 16 * (k + 1) then get (S j) i else if (16 * m <=? i) && (i <? 16 * m + 16 * (k + 1)) then get (S (4 + j)) (i - 16 * m) else get (sel bs j) i).
    { intros j Hj. rewrite PH by lia. destruct (Hb1 j Hj) as (Lb & Gb). specialize (Hl j Hj). apply wp_at; [lia|].
      apply wp_store128; [apply len_ztab; lia|lia|rewrite len_zskip by lia; lia|].
      intros r Lr Gr. rewrite len_zskip in Lr, Gr by lia.
      assert (len (zfirst (16 * m) (sel b1 j)) = 16 * m) as L1 by (apply len_zfirst; lia).
      split; [rewrite len_app; lia|]. intros i Hi. destruct (Z_lt_dec i (16 * m)).
      - unfold get at 1. rewrite znth_app1 by lia. rewrite znth_zfirst by lia. fold (get (sel b1 j) i). rewrite Gb by lia.
        destruct (i <? 16 * (k + 1)); auto. destruct (_ && _) eqn:E2; [lia|]. destruct ((16 * m <=? i) && (i <? 16 * m + 16 * (k + 1))) eqn:E3; [lia|]. reflexivity.
      - unfold get at 1. rewrite znth_app2 by lia. rewrite L1. fold (get r (i - 16 * m)). rewrite Gr by lia.
        destruct (i <? 16 * (k + 1)) eqn:E0; [lia|].
        destruct ((16 * k <=? i - 16 * m) && (i - 16 * m <? 16 * k + 16)) eqn:E.
        + destruct ((16 * m <=? i) && (i <? 16 * m + 16 * (k + 1))) eqn:E3; [|lia]. unfold get at 1. rewrite znth_ztab by lia. change (4 * 1 + j) with (4 + j). f_equal. lia.
        + unfold get at 1. rewrite znth_zskip by lia. replace (16 * m + (i - 16 * m)) with i by lia. fold (get (sel b1 j) i). rewrite Gb by lia. rewrite E0.
          destruct ((16 * m <=? i) && (i <? 16 * m + 16 * k)) eqn:E4; destruct ((16 * m <=? i) && (i <? 16 * m + 16 * (k + 1))) eqn:E5; try lia; reflexivity. }
    intros b2 Hb2. exact Hb2.
  - intros b Hb. rewrite (quad_eq _ b (fun k => S k ++ S (4 + k) ++ zskip (32 * m) (sel bs k))); auto. intros j Hj. destruct (Hb j Hj) as (Lb & Gb). specialize (Hl j Hj).
    apply znth_ext with 0; [rewrite !len_app, !LS, len_zskip by lia; lia|]. intros i Hi. fold (get (sel b j) i). rewrite Gb by lia.
    destruct (i <? 16 * m) eqn:E1.
    + rewrite znth_app1 by (rewrite LS; lia). reflexivity.
    + rewrite znth_app2 by (rewrite LS; lia). rewrite LS by lia. destruct (_ && _) eqn:E2.
      * rewrite znth_app1 by (rewrite LS; lia). reflexivity.
      * rewrite znth_app2 by (rewrite LS; lia). rewrite LS by lia. rewrite znth_zskip by lia. unfold get. f_equal. lia.
Qed.

(** Storage for a vector of polynomials. *)
Definition vecs (d : list (list (list Z))) : Prop := len d = 3 /\ Forall (fun r => len r = 16) d.
Definition entry (d : list (list (list Z))) (q : Z) : list Z := znth [] (znth [] d (q / 16)) (q mod 16).

Lemma wp_set2 : forall d q v (Q : list (list (list Z)) -> Prop), vecs d -> 0 <= q < 48 ->
  (forall r, vecs r -> (forall p, 0 <= p < 48 -> entry r p = if p =? q then v else entry d p) -> Q r) -> wp (set2 d (q / 16) (q mod 16) v) Q.
Proof.
  intros d q v Q (Ld & Fd) Hq HQ. unfold set2. assert (0 <= q / 16 < 3) as Hn by dlia. assert (0 <= q mod 16 < 16) as Hm by dlia.
  assert (len (znth [] d (q / 16)) = 16) as Lr by (apply (Forall_znth (fun r => len r = 16) [] d Fd); lia).
  apply wp_bind, wp_row with (d := []); [lia|]. apply wp_bind, wp_setrow; [lia|]. apply wp_setrow; [lia|]. apply HQ.
  - split; [now rewrite len_upd|]. apply Forall_upd; auto. now rewrite len_upd.
  - intros p Hp. unfold entry. rewrite znth_upd by lia. destruct (p / 16 =? q / 16) eqn:E.
    + rewrite znth_upd by lia. destruct (p mod 16 =? q mod 16) eqn:E2.
      * destruct (p =? q) eqn:E3; auto. exfalso. dlia.
      * destruct (p =? q) eqn:E3; [exfalso; assert (p = q) by lia; subst p; lia|]. f_equal. f_equal. lia.
    + destruct (p =? q) eqn:E3; auto. exfalso. assert (p = q) by lia. subst p. lia.
Qed.

Lemma sixteen_tab : forall (S : Z -> list Z) k h j, 0 <= h < 2 -> 0 <= j < 4 -> (forall l i, 0 <= l < 8 -> 0 <= get (S l) i < 32768) ->
  sixteen (ztab 16 (fun i => ztab 8 (fun l => get (S l) (k + i)))) h j = ztab 16 (fun i => get (S (4 * h + j)) (k + i)).
Proof.
  intros S k h j Hh Hj HS. unfold sixteen. rewrite !(trans_tab (fun l i => get (S l) (k + i))) by lia.
  apply (pack_sixteen16 (fun i => get (S (4 * h + j)) (k + i))). intros i. apply HS. lia.
Qed.

(** The polynomials that the two halves make. *)
Definition joined (S : Z -> list Z) (n m j : Z) : list (list Z) := ztab m (fun i => ztab 256 (fun c => halves n (get (S j)) (get (S (4 + j))) (256 * i + c))).

Lemma wp_avx_store_16bit_KN : forall S data (Q : quad (list (list (list Z))) -> Prop), (forall l i, 0 <= l < 8 -> 0 <= get (S l) i < 32768) ->
  (forall j, 0 <= j < 4 -> vecs (sel data j)) ->
  (forall r, (forall j, 0 <= j < 4 -> avec 3 (sel r j) /\ polys (sel r j) = joined S 384 3 j) -> Q r) ->
  wp (avx_store_16bit_KN (lanes8 384 S) data) Q.
Proof.
  intros S data Q HS Hd HQ. unfold avx_store_16bit_KN. change (3 * (256 / 16) / 2) with 24.
  set (VV := fun j q => ztab 16 (fun t => halves 384 (get (S j)) (get (S (4 + j))) (16 * q + t))).
  apply wp_for with (I := fun k d => forall j, 0 <= j < 4 -> vecs (sel d j) /\ forall q, 0 <= q < k \/ 24 <= q < 24 + k -> entry (sel d j) q = VV j q).
  - lia.
  - intros j Hj. split; [auto|]. intros; lia.
  - intros k d Hk Hdk. apply wp_bind, wp_rows16; [lia|lia|].
    apply wp_bind, wp_for4 with (g := fun j r => vecs r /\ forall q, 0 <= q < k + 1 \/ 24 <= q < 24 + k -> entry r q = VV j q).
    { intros j Hj. destruct (Hdk j Hj) as (Vd & Gd). apply wp_set2; [auto|lia|]. intros r Vr Gr. split; [auto|]. intros q Hq. rewrite Gr by lia.
      destruct (q =? k) eqn:E; [|apply Gd; lia]. assert (q = k) by lia. subst q. rewrite sixteen_tab by (auto; lia).
      apply ztab_ext. intros t Ht. unfold halves. destruct (16 * k + t <? 384) eqn:E2; [|lia]. f_equal. }
    intros d1 Hd1. cbv zeta.
    apply wp_for4 with (g := fun j r => vecs r /\ forall q, 0 <= q < k + 1 \/ 24 <= q < 24 + (k + 1) -> entry r q = VV j q).
    { intros j Hj. destruct (Hd1 j Hj) as (Vd & Gd). apply wp_set2; [auto|lia|]. intros r Vr Gr. split; [auto|]. intros q Hq. rewrite Gr by lia.
      destruct (q =? 24 + k) eqn:E; [|apply Gd; lia]. assert (q = 24 + k) by lia. subst q. rewrite sixteen_tab by (auto; lia).
      apply ztab_ext. intros t Ht. unfold halves. destruct (16 * (24 + k) + t <? 384) eqn:E2; [lia|]. change (4 * 1 + j) with (4 + j). f_equal. lia. }
    intros d2 Hd2. exact Hd2.
  - intros d Hdd. apply HQ. intros j Hj. destruct (Hdd j Hj) as ((Ld & Fd) & Gd).
    assert (forall j q t, 0 <= j < 4 -> 0 <= halves 384 (get (S j)) (get (S (4 + j))) (16 * q + t) < 65536) as HR.
    { intros j' q t Hj'. unfold halves. destruct (_ <? _); [pose proof (HS j' (16 * q + t) ltac:(lia))|pose proof (HS (4 + j') (16 * q + t - 384) ltac:(lia))]; lia. }
    assert (forall n, 0 <= n < 3 -> vok 16 (znth [] (sel d j) n)) as HV.
    { intros n Hn. pose proof (Forall_znth (fun r => len r = 16) [] _ Fd n ltac:(lia)) as Ln. cbn beta in Ln. split; auto.
      apply Forall_znth_iff with (d := []). intros m Hm. rewrite Ln in Hm.
      replace (znth [] (znth [] (sel d j) n) m) with (entry (sel d j) (16 * n + m)) by (unfold entry; f_equal; [f_equal; dlia|dlia]).
      rewrite Gd by lia. split; [apply len_ztab; lia|]. apply Forall_ztab. intros t Ht. cbn [tmin tmax]. specialize (HR j (16 * n + m) t Hj). lia. }
    assert (avec 3 (sel d j)) as AV.
    { split; auto. apply Forall_znth_iff with (d := []). intros n Hn. apply HV. lia. }
    split; [exact AV|]. unfold polys. symmetry. unfold joined. symmetry. apply ztab_eq with []; [now rewrite len_map|].
    intros n Hn. rewrite znth_map with (d := []) by lia. apply vok_ext; [apply HV; lia| |].
    + split; [apply len_ztab; lia|]. apply Forall_ztab. intros t Ht. cbn [tmin tmax]. specialize (HR j (16 * n) t Hj). replace (256 * n + t) with (16 * (16 * n) + t) by lia.
      lia.
    + intros i t Hi Ht. replace (znth [] (znth [] (sel d j) n) i) with (entry (sel d j) (16 * n + i)) by (unfold entry; f_equal; [f_equal; dlia|dlia]).
      rewrite Gd by lia. unfold VV, get. rewrite !znth_ztab by lia. replace (256 * n + (16 * i + t)) with (16 * (16 * n + i) + t) by lia. reflexivity.
Qed.

(** ** The functions *)

Lemma range_regroup : forall w1 w2 n l i, 0 <= w2 -> 0 <= get (regroup w1 w2 n l) i < 2 ^ w2.
Proof.
  intros. destruct (Z_lt_dec i 0); [|destruct (Z_lt_dec i (len (regroup w1 w2 n l)))].
  2: { pose proof (Forall_znth _ 0 _ (regroup_range w1 w2 n l H) i ltac:(lia)) as R. exact R. }
  all: unfold get; rewrite znth_default by lia; assert (0 < 2 ^ w2) by (apply Z.pow_pos_nonneg; lia); lia.
Qed.
Lemma xuninit_len : forall junk t n, 0 <= n -> len (xuninit junk t n) = n.
Proof. intros. unfold xuninit. now apply len_ztab. Qed.

Lemma concat_vec : forall d, vec U16 3 d -> len (concat d) = 768 /\ typed U16 (concat d).
Proof.
  intros d (L & F). destruct d as [|a [|b [|c [|e d]]]]; unfold len in L; cbn [length] in L; try lia.
  apply Forall_cons_iff in F. destruct F as ((La & Ta) & F). apply Forall_cons_iff in F. destruct F as ((Lb & Tb) & F). apply Forall_cons_iff in F. destruct F as ((Lc & Tc) & _).
  cbn [concat]. rewrite app_nil_r. split; [rewrite !len_app; lia|]. unfold typed. rewrite !Forall_app. auto.
Qed.

(** Lane [l] of the front and back halves of a quadruple of lists. *)
Lemma lsel_front : forall (q : quad (list Z)) m j, 0 <= j < 4 -> lsel q (tab4 (fun k => zskip m (sel q k))) j = sel q j.
Proof. intros. unfold lsel. destruct (j <? 4) eqn:E; [|lia]. reflexivity. Qed.
Lemma lsel_back : forall (q : quad (list Z)) m j, 0 <= j < 4 -> lsel q (tab4 (fun k => zskip m (sel q k))) (4 + j) = zskip m (sel q j).
Proof. intros. unfold lsel. destruct (4 + j <? 4) eqn:E; [lia|]. replace (4 + j - 4) with j by lia. now rewrite sel_tab4 by lia. Qed.
Lemma lsel_range : forall t (q : quad (list Z)) m l i, signed t = false -> (forall k, 0 <= k < 4 -> typed t (sel q k)) -> 0 <= l < 8 ->
  0 <= get (lsel q (tab4 (fun k => zskip m (sel q k))) l) i < 2 ^ width t.
Proof.
  intros t q m l i St Ht Hl. assert (forall x, typed t x -> 0 <= get x i < 2 ^ width t) as G.
  { intros x Tx. pose proof (get_any t x i Tx St) as R. destruct (unsigned_width t St) as (_ & B & _). lia. }
  unfold lsel. destruct (l <? 4) eqn:E; apply G.
  - apply Ht. lia.
  - rewrite sel_tab4 by lia. apply Forall_zskip, Ht. lia.
Qed.

  (** Front and back half together: [n] numbers of 8 bits from [m] numbers of [w] bits. *)
  Lemma pack_halves : forall w m n d, 0 < w -> 8 * n = w * m -> 0 <= n -> 0 <= m -> vec U16 3 d -> 2 * m = 768 ->
    regroup w 8 n (concat d) ++ regroup w 8 n (zskip m (concat d)) = pack_vec w d.
  Proof.
    intros w m n d Hw Hnm Hn Hm V E. destruct (concat_vec d V) as (Lc & _). destruct V as (Ld & Fd).
    rewrite pack_vec_regroup; [|lia|eapply Forall_impl; [|exact Fd]; cbn beta; tauto]. rewrite Ld.
    replace (32 * w * 3) with (n + n) by nia. rewrite <- (zfirst_zskip m (concat d)) at 3.
    assert (len (zfirst m (concat d)) = m) as L1 by (apply len_zfirst; lia).
    rewrite regroup_cat by lia. f_equal. symmetry. apply regroup_first; lia.
  Qed.

Lemma wp_POLVECp2BSX4 : forall junk bytes data (Q : quad (list Z) -> Prop),
  (forall j, 0 <= j < 4 -> 960 <= len (sel bytes j) /\ vec U16 3 (sel data j)) ->
  Q (tab4 (fun j => pack_vec 10 (sel data j) ++ zskip 960 (sel bytes j))) -> wp (POLVECp2BSX4 junk bytes data) Q.
Proof.
  intros junk bytes data Q H HQ. unfold POLVECp2BSX4. cbv zeta. set (flat := tab4 (fun k => concat (sel data k))).
  assert (forall k, 0 <= k < 4 -> len (sel flat k) = 768 /\ typed U16 (sel flat k)) as Hfl.
  { intros k Hk. unfold flat. rewrite sel_tab4 by lia. apply concat_vec, H; lia. }
  apply wp_bind, wp_for4_eq with (g := sel flat).
  { intros k Hk P HP. destruct (Hfl k Hk). apply wp_ptr; [lia|]. now rewrite zskip_0. }
  rewrite <- (quad_eq _ flat (sel flat)) by reflexivity.
  change (256 * (3 / 2) + 256 / 2) with 384. change (3 * 256 / 2) with 384. change (960 / 2) with (16 * 30).
  apply wp_bind, wp_for4_eq with (g := fun k => zskip 384 (sel flat k)).
  { intros k Hk P HP. destruct (Hfl k Hk). apply wp_ptr; [lia|]. exact HP. }
  apply wp_bind, wp_avx_load_16bit_8bit.
  { intros k Hk. destruct (Hfl k Hk). split; [lia|auto]. }
  { intros k Hk. destruct (Hfl k Hk). rewrite sel_tab4 by lia. split; [rewrite len_zskip by lia; lia|now apply Forall_zskip]. }
  { apply xuninit_len; lia. }
  set (S := lsel flat (tab4 (fun k => zskip 384 (sel flat k)))). change 384 with (4 * 96). change (256 / (4 * 2)) with 32.
  apply wp_bind. apply (wp_shift 16 10 8 5 4 96 p_bytes S p_bytes_moves) with (O := fun i j => i * (256 * 10) / 8 / 2 + 5 * j) (D := fun i j => 256 * i / 2 + 4 * j); try lia.
  { intros l Hl i. apply (lsel_range U16); auto. intros k Hk. now destruct (Hfl k Hk). }
  { intros b Hb. unfold p_bytes. repeat constructor; cbn [xin]; lia. }
  { rewrite xuninit_len; lia. }
  { intros i j Hi Hj. dlia. }
  { intros i j Hi Hj. dlia. }
  change (5 * 96) with (16 * 30). apply wp_avx_store_8bit_bs; [lia| | | |].
  { intros l i Hl. apply (range_regroup 10 8). lia. }
  { intros j Hj. destruct (H j Hj). lia. }
  { intros l Hl. apply len_regroup. lia. }
  rewrite (tab4_ext _ _ (fun j => pack_vec 10 (sel data j) ++ zskip 960 (sel bytes j))); [exact HQ|]. intros j Hj.
  unfold S. rewrite lsel_front, lsel_back by lia. rewrite app_assoc. f_equal. unfold flat. rewrite sel_tab4 by lia. apply (pack_halves 10 384); try lia. apply H; lia.
Qed.

Lemma wp_POLVECq2BSX4 : forall junk bytes data (Q : quad (list Z) -> Prop),
  (forall j, 0 <= j < 4 -> 1248 <= len (sel bytes j) /\ vec U16 3 (sel data j)) ->
  Q (tab4 (fun j => pack_vec 13 (sel data j) ++ zskip 1248 (sel bytes j))) -> wp (POLVECq2BSX4 junk bytes data) Q.
Proof.
  intros junk bytes data Q H HQ. unfold POLVECq2BSX4. cbv zeta. set (flat := tab4 (fun k => concat (sel data k))).
  assert (forall k, 0 <= k < 4 -> len (sel flat k) = 768 /\ typed U16 (sel flat k)) as Hfl.
  { intros k Hk. unfold flat. rewrite sel_tab4 by lia. apply concat_vec, H; lia. }
  apply wp_bind, wp_for4_eq with (g := sel flat).
  { intros k Hk P HP. destruct (Hfl k Hk). apply wp_ptr; [lia|]. now rewrite zskip_0. }
  rewrite <- (quad_eq _ flat (sel flat)) by reflexivity.
  change (256 * (3 / 2) + 256 / 2) with 384. change (3 * 256 / 2) with 384. change (1248 / 2) with (16 * 39).
  apply wp_bind, wp_for4_eq with (g := fun k => zskip 384 (sel flat k)).
  { intros k Hk P HP. destruct (Hfl k Hk). apply wp_ptr; [lia|]. exact HP. }
  apply wp_bind, wp_avx_load_16bit_8bit.
  { intros k Hk. destruct (Hfl k Hk). split; [lia|auto]. }
  { intros k Hk. destruct (Hfl k Hk). rewrite sel_tab4 by lia. split; [rewrite len_zskip by lia; lia|now apply Forall_zskip]. }
  { apply xuninit_len; lia. }
  set (S := lsel flat (tab4 (fun k => zskip 384 (sel flat k)))). change 384 with (8 * 48). change (256 / (8 * 2)) with 16.
  apply wp_bind. apply (wp_shift 16 13 8 13 8 48 q_bytes S q_bytes_moves) with (O := fun i j => i * (256 * 13) / 8 / 2 + 13 * j) (D := fun i j => 256 * i / 2 + 8 * j); try lia.
  { intros l Hl i. apply (lsel_range U16); auto. intros k Hk. now destruct (Hfl k Hk). }
  { intros b Hb. unfold q_bytes. repeat constructor; cbn [xin]; lia. }
  { rewrite xuninit_len; lia. }
  { intros i j Hi Hj. dlia. }
  { intros i j Hi Hj. dlia. }
  change (13 * 48) with (16 * 39). apply wp_avx_store_8bit_bs; [lia| | | |].
  { intros l i Hl. apply (range_regroup 13 8). lia. }
  { intros j Hj. destruct (H j Hj). lia. }
  { intros l Hl. apply len_regroup. lia. }
  rewrite (tab4_ext _ _ (fun j => pack_vec 13 (sel data j) ++ zskip 1248 (sel bytes j))); [exact HQ|]. intros j Hj.
  unfold S. rewrite lsel_front, lsel_back by lia. rewrite app_assoc. f_equal. unfold flat. rewrite sel_tab4 by lia. apply (pack_halves 13 384); try lia. apply H; lia.
Qed.

(** [n] numbers of [w] bits from each half of [2 m] bytes. *)
Lemma joined_eq : forall w n m q l S j, 0 < w -> w * n = 8 * m -> 0 <= m -> 0 <= q -> 256 * q = 2 * n ->
  S j = regroup 8 w n l -> S (4 + j) = regroup 8 w n (zskip m l) -> joined S n q j = unpack_vec w q l.
Proof.
  intros w n m q l S j Hw Hnm Hm Hq E E0 E1. unfold joined, unpack_vec. apply ztab_ext. intros i Hi. symmetry.
  apply ztab_eq with 0; [apply len_unpack|]. intros c Hc. change (get (unpack w (zskip (32 * w * i) l)) c = halves n (get (S j)) (get (S (4 + j))) (256 * i + c)). rewrite E0, E1.
  assert (regroup 8 w n l = regroup 8 w n (zfirst m l)) as -> by (symmetry; apply regroup_first; lia).
  rewrite (regroup_halves 8 w n m l) by lia. unfold unpack. symmetry. apply regroup_skip; lia.
Qed.

Lemma wp_BS2POLVECpX4 : forall junk bs data (Q : quad (list (list (list Z))) -> Prop),
  (forall j, 0 <= j < 4 -> 960 <= len (sel bs j) /\ typed U8 (sel bs j) /\ vecs (sel data j)) ->
  (forall r, (forall j, 0 <= j < 4 -> avec 3 (sel r j) /\ polys (sel r j) = unpack_vec 10 3 (sel bs j)) -> Q r) -> wp (BS2POLVECpX4 junk bs data) Q.
Proof.
  intros junk bs data Q H HQ. unfold BS2POLVECpX4. cbv zeta. change 960 with (32 * 30) at 2.
  apply wp_bind, wp_avx_load_8bit_16bit; [lia| | |].
  { intros k Hk. destruct (H k Hk) as (A & B & _). split; [lia|auto]. }
  { apply xuninit_len; lia. }
  set (S := lsel bs _). change (16 * 30) with (5 * 96). change (256 / 4 / 2) with 32. change (3 * 256 / 2) with (4 * 96).
  apply wp_bind. apply (wp_shift 8 8 10 4 5 96 p_coeffs S p_coeffs_moves) with (O := fun i j => i * 256 / 2 + 4 * j) (D := fun i j => i * (256 * 10) / 8 / 2 + 5 * j); try lia.
  { intros l Hl i. apply (lsel_range U8); auto. intros k Hk. now destruct (H k Hk) as (_ & B & _). }
  { intros b Hb. unfold p_coeffs. repeat constructor; cbn [xin]; lia. }
  { rewrite xuninit_len; lia. }
  { intros i j Hi Hj. dlia. }
  { intros i j Hi Hj. dlia. }
  change (4 * 96) with 384. apply wp_avx_store_16bit_KN.
  { intros l i Hl. pose proof (range_regroup 8 10 384 (S l) i ltac:(lia)). lia. }
  { intros j Hj. apply H; lia. }
  intros r Hr. apply HQ. intros j Hj. destruct (Hr j Hj) as (A & ->). split; [exact A|].
  apply joined_eq with (m := 480); try lia; unfold S; [rewrite lsel_front by lia|rewrite lsel_back by lia]; reflexivity.
Qed.

Lemma wp_BS2POLVECqX4 : forall junk bs data (Q : quad (list (list (list Z))) -> Prop),
  (forall j, 0 <= j < 4 -> 1248 <= len (sel bs j) /\ typed U8 (sel bs j) /\ vecs (sel data j)) ->
  (forall r, (forall j, 0 <= j < 4 -> avec 3 (sel r j) /\ polys (sel r j) = unpack_vec 13 3 (sel bs j)) -> Q r) -> wp (BS2POLVECqX4 junk bs data) Q.
Proof.
  intros junk bs data Q H HQ. unfold BS2POLVECqX4. cbv zeta. change 1248 with (32 * 39) at 2.
  apply wp_bind, wp_avx_load_8bit_16bit; [lia| | |].
  { intros k Hk. destruct (H k Hk) as (A & B & _). split; [lia|auto]. }
  { apply xuninit_len; lia. }
  set (S := lsel bs _). change (16 * 39) with (13 * 48). change (256 / (8 * 2)) with 16. change (3 * 256 / 2) with (8 * 48).
  apply wp_bind. apply (wp_shift 8 8 13 8 13 48 q_coeffs S q_coeffs_moves) with (O := fun i j => i * 256 / 2 + 8 * j) (D := fun i j => i * (256 * 13) / 8 / 2 + 13 * j); try lia.
  { intros l Hl i. apply (lsel_range U8); auto. intros k Hk. now destruct (H k Hk) as (_ & B & _). }
  { intros b Hb. unfold q_coeffs. repeat constructor; cbn [xin]; lia. }
  { rewrite xuninit_len; lia. }
  { intros i j Hi Hj. dlia. }
  { intros i j Hi Hj. dlia. }
  change (8 * 48) with 384. apply wp_avx_store_16bit_KN.
  { intros l i Hl. pose proof (range_regroup 8 13 384 (S l) i ltac:(lia)). lia. }
  { intros j Hj. apply H; lia. }
  intros r Hr. apply HQ. intros j Hj. destruct (Hr j Hj) as (A & ->). split; [exact A|].
  apply joined_eq with (m := 624); try lia; unfold S; [rewrite lsel_front by lia|rewrite lsel_back by lia]; reflexivity.
Qed.

Lemma wp_BS2POLq4x : forall junk bs data (Q : quad (list (list Z)) -> Prop),
  (forall j, 0 <= j < 4 -> 416 <= len (sel bs j) /\ typed U8 (sel bs j) /\ len (sel data j) = 16) ->
  (forall r, (forall j, 0 <= j < 4 -> vok 16 (sel r j) /\ concat (sel r j) = unpack 13 (sel bs j)) -> Q r) -> wp (BS2POLq4x junk bs data) Q.
Proof.
  intros junk bs data Q H HQ. unfold BS2POLq4x. cbv zeta. change 416 with (32 * 13).
  apply wp_bind, wp_avx_load_8bit_16bit; [lia| | |].
  { intros k Hk. destruct (H k Hk) as (A & B & _). split; [lia|auto]. }
  { apply xuninit_len; lia. }
  set (S := lsel bs _). change (16 * 13) with (13 * 16). change (256 / 8 / 2) with 16. change (256 / 2) with (8 * 16).
  apply wp_bind. apply (wp_shift1 8 8 13 8 13 16 q4x_coeffs S q4x_coeffs_moves) with (b := 0); try lia.
  { intros l Hl i. apply (lsel_range U8); auto. intros k Hk. now destruct (H k Hk) as (_ & B & _). }
  { intros b Hb. unfold q4x_coeffs. repeat constructor; cbn [xin]; lia. }
  { rewrite xuninit_len; lia. }
  rewrite zskip_all by (rewrite xuninit_len; lia). rewrite app_nil_r.
  match goal with |- wp (for_ 0 8 (fun k d => bind (rows16 ?a _) _) _) _ => change a with (lanes8 128 (fun l => regroup 8 13 128 (S l))) end.
  set (S' := fun l => regroup 8 13 128 (S l)).
  assert (forall l i, 0 <= l < 8 -> 0 <= get (S' l) i < 32768) as HS.
  { intros l i Hl. unfold S'. pose proof (range_regroup 8 13 128 (S l) i ltac:(lia)). lia. }
  set (VV := fun j q => ztab 16 (fun t => halves 128 (get (S' j)) (get (S' (4 + j))) (16 * q + t))).
  apply wp_for with (I := fun k d => forall j, 0 <= j < 4 -> len (sel d j) = 16 /\ forall q, 0 <= q < k \/ 8 <= q < 8 + k -> znth [] (sel d j) q = VV j q).
  - lia.
  - intros j Hj. split; [apply H; lia|]. intros; lia.
  - intros k d Hk Hdk. apply wp_bind, wp_rows16; [lia|lia|].
    apply wp_bind, wp_for4 with (g := fun j r => len r = 16 /\ forall q, 0 <= q < k + 1 \/ 8 <= q < 8 + k -> znth [] r q = VV j q).
    { intros j Hj. destruct (Hdk j Hj) as (Vd & Gd). apply wp_setrow; [lia|]. split; [now rewrite len_upd|]. intros q Hq. rewrite znth_upd by lia.
      destruct (q =? k) eqn:E; [|apply Gd; lia]. assert (q = k) by lia. subst q. rewrite sixteen_tab by (auto; lia).
      apply ztab_ext. intros t Ht. unfold halves. destruct (16 * k + t <? 128) eqn:E2; [|lia]. f_equal. }
    intros d1 Hd1.
    apply wp_for4 with (g := fun j r => len r = 16 /\ forall q, 0 <= q < k + 1 \/ 8 <= q < 8 + (k + 1) -> znth [] r q = VV j q).
    { intros j Hj. destruct (Hd1 j Hj) as (Vd & Gd). apply wp_setrow; [lia|]. split; [now rewrite len_upd|]. intros q Hq. rewrite znth_upd by lia.
      destruct (q =? k + 8) eqn:E; [|apply Gd; lia]. assert (q = k + 8) by lia. subst q. rewrite sixteen_tab by (auto; lia).
      apply ztab_ext. intros t Ht. unfold halves. destruct (16 * (k + 8) + t <? 128) eqn:E2; [lia|]. change (4 * 1 + j) with (4 + j). f_equal. lia. }
    intros d2 Hd2. exact Hd2.
  - intros d Hdd. apply HQ. intros j Hj. destruct (Hdd j Hj) as (Ld & Gd).
    assert (joined S' 128 1 j = unpack_vec 13 1 (sel bs j)) as EJ.
    { apply joined_eq with (m := 208); try lia; unfold S', S; [rewrite lsel_front by lia|rewrite lsel_back by lia]; reflexivity. }
    assert (ztab 256 (fun c => halves 128 (get (S' j)) (get (S' (4 + j))) (256 * 0 + c)) = unpack 13 (sel bs j)) as EU.
    { apply (f_equal (fun x => znth [] x 0)) in EJ. unfold joined, unpack_vec in EJ. rewrite !znth_ztab in EJ by lia. exact EJ. }
    assert (vok 16 (sel d j)) as V.
    { split; auto. apply Forall_znth_iff with (d := []). intros m Hm. rewrite Gd by lia. split; [apply len_ztab; lia|]. apply Forall_ztab. intros t Ht. cbn [tmin tmax].
      unfold halves. destruct (_ <? _); [pose proof (HS j (16 * m + t) ltac:(lia))|pose proof (HS (4 + j) (16 * m + t - 128) ltac:(lia))]; lia. }
    split; [exact V|]. apply vok_ext; [exact V|split; [apply len_unpack|apply unpack_typed; lia]|].
    intros i t Hi Ht. rewrite Gd by lia. rewrite <- EU. unfold VV, get. rewrite !znth_ztab by lia. f_equal.
Qed.

(** ** As results of runs *)

Lemma run_ex : forall A (m : M A) (P : A -> Prop), (forall Q : A -> Prop, (forall r, P r -> Q r) -> wp m Q) -> exists r, run m = Some r /\ P r.
Proof. intros A m P H. apply wp_run, H. auto. Qed.

Lemma C55_p2BS_lemma : forall junk bytes data, (forall j, 0 <= j < 4 -> 960 <= len (sel bytes j) /\ vec U16 3 (sel data j)) ->
  exists r, run (POLVECp2BSX4 junk bytes data) = Some r /\ forall j, 0 <= j < 4 -> sel r j = pack_vec 10 (sel data j) ++ zskip 960 (sel bytes j).
Proof. intros. apply run_ex. intros Q HQ. apply wp_POLVECp2BSX4; auto. apply HQ. intros j Hj. now rewrite sel_tab4. Qed.

Lemma C55_q2BS_lemma : forall junk bytes data, (forall j, 0 <= j < 4 -> 1248 <= len (sel bytes j) /\ vec U16 3 (sel data j)) ->
  exists r, run (POLVECq2BSX4 junk bytes data) = Some r /\ forall j, 0 <= j < 4 -> sel r j = pack_vec 13 (sel data j) ++ zskip 1248 (sel bytes j).
Proof. intros. apply run_ex. intros Q HQ. apply wp_POLVECq2BSX4; auto. apply HQ. intros j Hj. now rewrite sel_tab4. Qed.

Lemma C55_BS2p_lemma : forall junk bs data, (forall j, 0 <= j < 4 -> 960 <= len (sel bs j) /\ typed U8 (sel bs j) /\ vecs (sel data j)) ->
  exists r, run (BS2POLVECpX4 junk bs data) = Some r /\ forall j, 0 <= j < 4 -> avec 3 (sel r j) /\ polys (sel r j) = unpack_vec 10 3 (sel bs j).
Proof. intros. apply run_ex. intros Q HQ. apply wp_BS2POLVECpX4; auto. Qed.

Lemma C55_BS2q_lemma : forall junk bs data, (forall j, 0 <= j < 4 -> 1248 <= len (sel bs j) /\ typed U8 (sel bs j) /\ vecs (sel data j)) ->
  exists r, run (BS2POLVECqX4 junk bs data) = Some r /\ forall j, 0 <= j < 4 -> avec 3 (sel r j) /\ polys (sel r j) = unpack_vec 13 3 (sel bs j).
Proof. intros. apply run_ex. intros Q HQ. apply wp_BS2POLVECqX4; auto. Qed.

Lemma C55_BS2POL_lemma : forall junk bs data, (forall j, 0 <= j < 4 -> 416 <= len (sel bs j) /\ typed U8 (sel bs j) /\ len (sel data j) = 16) ->
  exists r, run (BS2POLq4x junk bs data) = Some r /\ forall j, 0 <= j < 4 -> vok 16 (sel r j) /\ concat (sel r j) = unpack 13 (sel bs j).
Proof. intros. apply run_ex. intros Q HQ. apply wp_BS2POLq4x; auto. Qed.
