(** The AVX2 multiplier computes products in Z[x]/(x^256 + 1) modulo 2^13. *)
From Coq Require Import ZArith List Bool Lia.
From Verif Require Import Lib.Arr Lib.CInt Lib.CMon Spec.Ring Spec.AvxSpec Model.Vec Model.AvxCode Model.AvxMul Proof.Conv Proof.ArmSym Proof.ArmSymP Proof.ArmKaraP Proof.AvxSym Proof.AvxTab.
Import ListNotations.
Local Open Scope Z_scope.

(** ** Arrays of vectors *)
Definition vg (l : list vec) (q k : Z) : Z := get (znth [] l q) k.

Lemma vok_row : forall n l q, vok n l -> 0 <= q < n -> arr U16 16 (znth [] l q).
Proof.
  intros n l q (L & F) Hq. rewrite Forall_forall in F. apply F. unfold znth. destruct (q <? 0) eqn:E; [lia|].
  apply nth_In. unfold len in *. lia.
Qed.
Lemma vok_range : forall n l q k, vok n l -> 0 <= q < n -> 0 <= k < 16 -> 0 <= vg l q k < 65536.
Proof.
  intros n l q k H Hq Hk. destruct (vok_row n l q H Hq) as (L & T). pose proof (typed_get U16 _ k T ltac:(lia)) as B.
  change (tmin U16) with 0 in B. change (tmax U16) with 65535 in B. unfold vg. lia.
Qed.
Lemma vok_ztab : forall n f, 0 <= n -> (forall q k, 0 <= q < n -> 0 <= k < 16 -> 0 <= f q k < 65536) -> vok n (ztab n (fun q => lanes (f q))).
Proof. intros n f Hn H. split; [now apply len_ztab|]. apply Forall_ztab. intros q Hq. apply lanes_arr. auto. Qed.
Lemma vg_ztab : forall n f q k, 0 <= q < n -> 0 <= k < 16 -> vg (ztab n (fun q => lanes (f q))) q k = f q k.
Proof. intros. unfold vg. rewrite znth_ztab by auto. now apply get_lanes. Qed.
Lemma vok_uninit : forall junk t n, 0 <= n -> vok n (vuninit junk t n).
Proof. intros. apply vok_ztab; auto. intros. apply wrap16_range. Qed.
Lemma vok_app : forall n m a b, vok n a -> vok m b -> vok (n + m) (a ++ b).
Proof. intros n m a b (L & F) (L' & F'). split; [rewrite len_app; lia|]. apply Forall_app. auto. Qed.
Lemma vok_skip : forall n m l, vok n l -> 0 <= m <= n -> vok (n - m) (zskip m l).
Proof. intros n m l (L & F) H. split; [rewrite len_zskip; lia|]. unfold zskip. rewrite <- (firstn_skipn (Z.to_nat m)) in F. now apply Forall_app in F. Qed.
Lemma vok_first : forall n m l, vok n l -> 0 <= m <= n -> vok m (zfirst m l).
Proof. intros n m l (L & F) H. split; [rewrite len_zfirst; lia|]. unfold zfirst. rewrite <- (firstn_skipn (Z.to_nat m)) in F. now apply Forall_app in F. Qed.
Lemma vg_app : forall n a b q k, len a = n -> 0 <= q -> vg (a ++ b) q k = if q <? n then vg a q k else vg b (q - n) k.
Proof. intros n a b q k L Hq. unfold vg. destruct (q <? n) eqn:E; f_equal; [apply znth_app1|rewrite <- L; apply znth_app2]; lia. Qed.
Lemma vg_skip : forall n l q k, 0 <= n -> 0 <= q -> vg (zskip n l) q k = vg l (n + q) k.
Proof. intros. unfold vg. f_equal. now rewrite znth_zskip by lia. Qed.
Lemma vg_first : forall n l q k, 0 <= q < n -> vg (zfirst n l) q k = vg l q k.
Proof. intros. unfold vg. f_equal. apply znth_zfirst. lia. Qed.
Lemma split_at : forall {A} n (l : list A), zfirst n l ++ zskip n l = l.
Proof. intros. apply firstn_skipn. Qed.

Lemma Forall2_len : forall {A B} (R : A -> B -> Prop) l l', Forall2 R l l' -> length l' = length l.
Proof. intros A B R l l' H. induction H; cbn [length]; auto. Qed.

(** ** Frames: code ignores what follows the part of an array it touches *)
Fixpoint zapp {A} (l t : list (list A)) : list (list A) :=
  match l, t with x :: l, y :: t => (x ++ y) :: zapp l t | _, _ => [] end.
Lemma lookup_zapp : forall {A} (l t : list (list A)) i x, length l = length t -> lookup l i = Some x -> exists y, lookup t i = Some y /\ lookup (zapp l t) i = Some (x ++ y).
Proof.
  intros A l t i x L. unfold lookup. destruct (i <? 0); [discriminate|]. generalize (Z.to_nat i) as n. clear i. revert t L.
  induction l as [|a l IH]; intros [|b t] L [|n]; cbn [nth_error zapp length] in *; try discriminate; auto.
  intros E. injection E as <-. eauto.
Qed.
Lemma lookup_app : forall {A} (l t : list A) i x, lookup l i = Some x -> lookup (l ++ t) i = Some x.
Proof.
  intros A l t i x. unfold lookup. destruct (i <? 0); auto. intros E. rewrite nth_error_app1; auto. apply nth_error_Some. now rewrite E.
Qed.
Lemma update_app : forall {A} (l t : list A) i x r, update l i x = Some r -> update (l ++ t) i x = Some (r ++ t).
Proof.
  intros A l t i x r. unfold update. destruct (i <? 0); [discriminate|]. generalize (Z.to_nat i) as n. clear i. revert r.
  induction l as [|a l IH]; intros r [|n]; cbn [updn_opt app]; try discriminate.
  - intros E. injection E as <-. reflexivity.
  - destruct (updn_opt l n x) as [q|] eqn:Eq; [|discriminate]. intros E. injection E as <-. now rewrite (IH _ _ Eq).
Qed.
Lemma update_zapp : forall {A} (l t : list (list A)) i x y r, length l = length t -> lookup t i = Some y -> update l i x = Some r ->
  update (zapp l t) i (x ++ y) = Some (zapp r t) /\ length r = length t.
Proof.
  intros A l t i x y r L. unfold lookup, update. destruct (i <? 0); [discriminate|]. generalize (Z.to_nat i) as n. clear i. revert t L r.
  induction l as [|a l IH]; intros [|b t] L r [|n]; cbn [nth_error zapp length updn_opt] in *; try discriminate.
  - intros E E'. injection E as ->. injection E' as <-. cbn [zapp length]. auto.
  - intros E. destruct (updn_opt l n x) as [q|] eqn:Eq; [|discriminate]. intros E'. injection E' as <-. injection L as L.
    destruct (IH t L q n E Eq) as (-> & Lq). cbn [zapp length]. auto.
Qed.
Lemma veval_frame : forall {V} (O : vops V) rs l t e v, length l = length t -> veval O rs l e = Some v -> veval O rs (zapp l t) e = Some v.
Proof.
  intros V O rs l t e v L. revert v. induction e; intros v; cbn [veval]; auto.
  - destruct (lookup l a) as [x|] eqn:E; [|discriminate]. destruct (lookup_zapp _ _ _ _ L E) as (y & _ & ->). cbn [obind]. apply lookup_app.
  - destruct (veval O rs l e1) as [a|]; [|discriminate]. destruct (veval O rs l e2) as [b|]; [|discriminate]. rewrite (IHe1 _ eq_refl), (IHe2 _ eq_refl). auto.
  - destruct (veval O rs l e) as [a|]; [|discriminate]. rewrite (IHe _ eq_refl). auto.
  - destruct (veval O rs l e) as [a|]; [|discriminate]. rewrite (IHe _ eq_refl). auto.
Qed.
Lemma vexec_frame : forall {V} (O : vops V) c rs l t r, length l = length t -> vexec O c rs l = Some r -> vexec O c rs (zapp l t) = Some (zapp r t).
Proof.
  intros V O c. induction c as [|[q e|a i e] c IH]; intros rs l t r L; cbn [vexec]; intros E.
  - now injection E as ->.
  - destruct (veval O rs l e) as [v|] eqn:Ev; [|discriminate]. rewrite (veval_frame _ _ _ _ _ _ L Ev). cbn [obind] in *. eauto.
  - destruct (veval O rs l e) as [v|] eqn:Ev; [|discriminate]. rewrite (veval_frame _ _ _ _ _ _ L Ev). cbn [obind] in *.
    destruct (lookup l a) as [x|] eqn:Ex; [|discriminate]. destruct (lookup_zapp _ _ _ _ L Ex) as (y & Ey & ->). cbn [obind] in *.
    destruct (update x i v) as [w|] eqn:Ew; [|discriminate]. rewrite (update_app _ _ _ _ _ Ew). cbn [obind] in *.
    destruct (update l a w) as [m|] eqn:Em; [|discriminate]. destruct (update_zapp _ _ _ _ _ _ L Ey Em) as (-> & L'). cbn [obind] in *. eauto.
Qed.

(** ** Transposition *)
Lemma labels_map : forall m, vok 16 m ->
  Forall2 (lrel (fun x => if x <? 0 then 0 else vg m (x / 16) (x mod 16))) labels m.
Proof.
  intros m H. destruct H as (L & F).
  assert (G : forall n, (n <= 16)%nat -> Forall2 (lrel (fun x => if x <? 0 then 0 else vg m (x / 16) (x mod 16)))
    (map (fun i => ztab 16 (fun k => 16 * Z.of_nat i + k)) (seq 0 n)) (map (fun i => znth [] m (Z.of_nat i)) (seq 0 n))).
  { induction n as [|n IH]; intros Hn; [constructor|]. rewrite seq_S, !map_app. apply Forall2_app; [apply IH; lia|]. constructor; [|constructor].
    cbn [Nat.add]. unfold lrel. destruct (vok_row 16 m (Z.of_nat n) (conj L F) ltac:(lia)) as (L' & _).
    rewrite <- (ztab_self 0 (znth [] m (Z.of_nat n))) at 1. rewrite L'. unfold ztab. rewrite map_map. apply map_ext_in. intros a Ha. apply in_seq in Ha.
    destruct (16 * Z.of_nat n + Z.of_nat a <? 0) eqn:E; [lia|]. replace ((16 * Z.of_nat n + Z.of_nat a) / 16) with (Z.of_nat n) by dlia.
    replace ((16 * Z.of_nat n + Z.of_nat a) mod 16) with (Z.of_nat a) by dlia. reflexivity. }
  pose proof (G 16%nat ltac:(lia)) as K. change (map (fun i : nat => znth [] m (Z.of_nat i)) (seq 0 16)) with (ztab 16 (znth [] m)) in K.
  replace (ztab 16 (znth [] m)) with m in K by (rewrite <- (ztab_self [] m) at 1; now rewrite L). exact K.
Qed.
Lemma transpose16 : forall m, vok 16 m -> exists m', vexec vecs transpose_n1_code [] [m] = Some [m'] /\ vok 16 m' /\
  forall q k, 0 <= q < 16 -> 0 <= k < 16 -> vg m' q k = vg m k q.
Proof.
  intros m H. pose proof tr_checked as T. unfold tr_check in T.
  destruct (vexec labops transpose_n1_code [] [labels]) as [[|l [|]]|] eqn:E; try discriminate. apply andb_true_iff in T as (L & T).
  assert (F : Forall2 (Forall2 (lrel (fun x => if x <? 0 then 0 else vg m (x / 16) (x mod 16)))) [labels] [m]) by (constructor; [now apply labels_map|constructor]).
  destruct (lab_sim (fun x => if x <? 0 then 0 else vg m (x / 16) (x mod 16)) eq_refl _ _ _ _ F E) as (r & Er & Fr). rewrite Er. clear E Er F.
  inversion Fr as [|? m' ? r' Fm Fn]; subst. inversion Fn; subst. exists m'. split; auto.
  assert (L' : len m' = 16) by (apply Forall2_len in Fm; unfold len in *; lia).
  assert (G : forall q, 0 <= q < 16 -> znth [] m' q = lanes (fun k => vg m k q)).
  { intros q Hq. apply (upto_ok _ _ q) in T; [|lia]. apply eqz_ok in T.
    destruct (lookup_sim (lrel (fun x => if x <? 0 then 0 else vg m (x / 16) (x mod 16))) l m' q _ Fm (lookup_in [] l q ltac:(lia))) as (v & Ev & Rv).
    rewrite (lookup_in [] m' q) in Ev by lia. injection Ev as <-. unfold lrel in Rv. rewrite Rv, T. unfold lanes, ztab. rewrite map_map. apply map_ext_in.
    intros a Ha. apply in_seq in Ha. destruct (16 * Z.of_nat a + q <? 0) eqn:E; [lia|]. f_equal; dlia. }
  split; [split; auto|].
  - rewrite <- (ztab_self [] m'), L'. apply Forall_ztab. intros q Hq. rewrite G by auto. apply lanes_arr. intros. now apply (vok_range 16).
  - intros q k Hq Hk. unfold vg at 1. rewrite G by auto. now rewrite get_lanes.
Qed.

Lemma wp_arr_of : forall r a l (Q : list vec -> Prop), lookup r a = Some l -> Q l -> wp (arr_of r a) Q.
Proof. intros r a l Q E H t. unfold arr_of. rewrite E. exists l, t. auto. Qed.

Lemma transpose_ok : forall n m, vok n m -> 16 <= n -> wp (transpose_n1 m) (fun m' => vok n m' /\
  forall q k, 0 <= q < n -> 0 <= k < 16 -> vg m' q k = if q <? 16 then vg m k q else vg m q k).
Proof.
  intros n m H Hn. destruct (transpose16 (zfirst 16 m)) as (m' & E & V & G); [apply vok_first with n; auto; lia|].
  pose proof (vexec_frame _ _ _ [zfirst 16 m] [zskip 16 m] _ eq_refl E) as E'. cbn [zapp] in E'. rewrite split_at in E'.
  unfold transpose_n1. apply wp_bind. eapply wp_vrun; [exact E'|].
  eapply wp_arr_of; [reflexivity|]. split.
    + replace n with (16 + (n - 16)) by lia. apply vok_app; auto. apply vok_skip; auto; lia.
    + intros q k Hq Hk. rewrite (vg_app 16) by (destruct V; lia). destruct (q <? 16) eqn:Eq.
      * rewrite G by lia. apply vg_first. lia.
      * rewrite vg_skip by lia. f_equal. lia.
Qed.

Lemma wp_vat : forall n a off f (Q : list vec -> Prop), vok n a -> 0 <= off <= n ->
  wp (f (zskip off a)) (fun v => Q (zfirst off a ++ v)) -> wp (vat a off f) Q.
Proof.
  intros n a off f Q (L & _) Ho H. unfold vat. replace ((0 <=? off) && (off <=? len a))%bool with true by lia.
  apply wp_bind, wp_emit, wp_bind. eapply wp_mono; [exact H|]. intros v Hv. now apply wp_ret.
Qed.
Lemma transpose_at : forall n a off, vok n a -> 0 <= off -> off + 16 <= n -> wp (vat a off transpose_n1) (fun a' => vok n a' /\
  forall q k, 0 <= q < n -> 0 <= k < 16 -> vg a' q k = if (off <=? q) && (q <? off + 16) then vg a (off + k) (q - off) else vg a q k).
Proof.
  intros n a off H Ho Hn. apply wp_vat with n; auto; [lia|].
  eapply wp_mono; [apply (transpose_ok (n - off)); [apply vok_skip; auto; lia|lia]|]. intros v (V & G). cbv beta in G. split.
  - replace n with (off + (n - off)) by lia. apply vok_app; auto. apply vok_first with n; auto; lia.
  - intros q k Hq Hk. destruct H as (L & F). rewrite (vg_app off) by (try rewrite len_zfirst; lia).
    destruct (q <? off) eqn:E1.
    + replace ((off <=? q) && (q <? off + 16))%bool with false by lia. apply vg_first. lia.
    + rewrite G by lia. destruct (q - off <? 16) eqn:E2.
      * replace ((off <=? q) && (q <? off + 16))%bool with true by lia. apply vg_skip; lia.
      * replace ((off <=? q) && (q <? off + 16))%bool with false by lia. rewrite vg_skip by lia. f_equal. lia.
Qed.
(** Groups of 16 rows below [lim] transposed. *)
Definition transd (n lim : Z) (a a' : list vec) : Prop :=
  vok n a' /\ forall q k, 0 <= q < n -> 0 <= k < 16 -> vg a' q k = if q <? lim then vg a (16 * (q / 16) + k) (q mod 16) else vg a q k.
Lemma transd_0 : forall n a, vok n a -> transd n 0 a a.
Proof. intros n a H. split; auto. intros q k Hq Hk. destruct (q <? 0) eqn:E; auto. lia. Qed.
Lemma transd_S : forall n lim a b, transd n lim a b -> 0 <= lim -> lim mod 16 = 0 -> lim + 16 <= n -> wp (vat b lim transpose_n1) (fun c => transd n (lim + 16) a c).
Proof.
  intros n lim a b (V & G) Hl Hm Hn. eapply wp_mono; [apply (transpose_at n); auto|]. intros c (V' & G'). split; auto. intros q k Hq Hk. rewrite G' by auto.
  destruct (_ && _) eqn:E.
  - replace (q <? lim + 16) with true by lia. rewrite G by lia. replace (lim + k <? lim) with false by lia. replace (16 * (q / 16)) with lim by dlia. f_equal. dlia.
  - rewrite G by lia. destruct (q <? lim) eqn:E1; destruct (q <? lim + 16) eqn:E2; auto; lia.
Qed.

(** ** Evaluation *)
Lemma Forall2_ztab : forall {A B} (R : A -> B -> Prop) d n f l, 0 <= n -> len l = n -> (forall i, 0 <= i < n -> R (f i) (znth d l i)) -> Forall2 R (ztab n f) l.
Proof.
  intros A B R d n f l Hn L H. assert (G : forall m, (m <= Z.to_nat n)%nat -> Forall2 R (map (fun i => f (Z.of_nat i)) (seq 0 m)) (map (fun i => znth d l (Z.of_nat i)) (seq 0 m))).
  { induction m as [|m IH]; intros Hm; [constructor|]. rewrite seq_S, !map_app. apply Forall2_app; [apply IH; lia|]. constructor; [|constructor]. apply H. lia. }
  pose proof (G (Z.to_nat n) ltac:(lia)) as K. change (map (fun i => znth d l (Z.of_nat i)) (seq 0 (Z.to_nat n))) with (ztab n (znth d l)) in K.
  replace (ztab n (znth d l)) with l in K by (rewrite <- (ztab_self d l) at 1; now rewrite L). exact K.
Qed.
Lemma znth_sim : forall {A B} (S : A -> B -> Prop) da db l l' i, Forall2 S l l' -> 0 <= i < len l -> S (znth da l i) (znth db l' i).
Proof.
  intros A B S da db l l' i F Hi. destruct (lookup_sim S l l' i _ F (lookup_in da l i Hi)) as (v & E & R).
  rewrite (lookup_in db l' i) in E; [injection E as <-; auto|]. apply Forall2_len in F. unfold len in *. lia.
Qed.

Definition one (_ : Z) : Z := 1.
Section Rel.
  Variable vx vy : Z -> Z -> Z.
  Notation R := (vrel vx vy).
  Lemma vrel_top : forall v, arr U16 16 v -> R htop v.
  Proof. intros v H. split; auto. intros. apply hal_top. Qed.
  Lemma tops_rel : forall n l, 0 <= n -> vok n l -> Forall2 R (tops n) l.
  Proof. intros n l Hn H. apply Forall2_ztab with []; auto; [apply H|]. intros. apply vrel_top. now apply vok_row with n. Qed.
  Lemma rel_vok : forall n l l', Forall2 R l l' -> len l = n -> vok n l'.
  Proof.
    intros n l l' F L. split; [apply Forall2_len in F; unfold len in *; lia|]. clear n L. induction F as [|a v l l' (A & _) F IH]; constructor; auto.
  Qed.
  Lemma rel_eqm : forall l l' q k p, Forall2 R l l' -> 0 <= q < len l -> 0 <= k < 16 -> fst (znth htop l q) = 16 -> p = snd (znth htop l q) ->
    eqm 65536 (vg l' q k) (peval (vx k) (vy k) p).
  Proof.
    intros l l' q k p F Hq Hk E ->. destruct (znth_sim _ htop [] _ _ q F Hq) as (_ & H). destruct (H k Hk) as (_ & H'). rewrite E in H'. exact H'.
  Qed.
End Rel.

(** Linear forms of the blocks. *)
Definition lin (p : poly) (f : Z -> Z) : Z := peval (window f) one p.

Lemma isn_some : forall {A} n (o : option (list A)), isn n o = true -> exists r, o = Some r /\ len r = n.
Proof. intros A n [r|] H; [|discriminate]. exists r. split; auto. cbn [isn] in H. lia. Qed.
Lemma res_lookup : forall {A B} (S : A -> B -> Prop) r r' i, Forall2 (Forall2 S) r r' -> 0 <= i < len r ->
  exists l, lookup r' i = Some l /\ Forall2 S (res (Some r) i) l.
Proof. intros A B S r r' i F Hi. apply (lookup_sim _ _ _ _ _ F). cbn [res]. now apply lookup_in. Qed.
Lemma peqb_eqm : forall vx vy p q, peqb 16 p q = true -> eqm 65536 (peval vx vy p) (peval vx vy q).
Proof. intros vx vy p q H. apply (peqb_ok vx vy 16); [lia|exact H]. Qed.

Lemma eval_ok : forall code1 code2, isn 2 (ev1 code1) = true -> len (res (ev1 code1) 1) = 28 -> isn 2 (ev2 code1 code2) = true -> len (res (ev2 code1 code2) 1) = 64 ->
  forall a w b, vok 16 a -> vok 28 w -> vok 64 b -> exists r1 w' r2 b', vexecs vecs (map code1 (seqz 4 0)) [a; w] = Some r1 /\ lookup r1 1 = Some w' /\
    vexec vecs code2 [] [w'; b] = Some r2 /\ lookup r2 1 = Some b' /\ vok 64 b' /\
    forall q k, 0 <= q < 64 -> 0 <= k < 16 -> fst (znth htop (res (ev2 code1 code2) 1) q) = 16 ->
      eqm 65536 (vg b' q k) (lin (snd (znth htop (res (ev2 code1 code2) 1) q)) (fun u => vg a u k)).
Proof.
  intros code1 code2 C1 C2 C3 C4 a w b Ha Hw Hb.
  set (vx := fun k => window (fun u => vg a u k)). set (vy := fun _ : Z => one).
  assert (X0 : forall k, vx k 0 = 1) by reflexivity. assert (Y0 : forall k, vy k 0 = 1) by reflexivity.
  apply isn_some in C1 as (s1 & E1 & L1). apply isn_some in C3 as (s2 & E2 & L2).
  assert (F1 : Forall2 (Forall2 (vrel vx vy)) [ztab 16 sym; tops 28] [a; w]).
  { constructor; [|constructor; [|constructor]].
    - apply Forall2_ztab with []; [lia|apply Ha|]. intros i Hi. split; [now apply vok_row with 16|]. intros k Hk. split; cbn [sym fst snd]; [lia|].
      cbn [peval]. unfold vx, vy. rewrite window_1 by lia. unfold one, vg. apply eqm_eq. lia.
    - apply tops_rel; auto; lia. }
  destruct (ha_sims vx vy X0 Y0 _ _ _ _ F1 E1) as (r1 & Er1 & G1).
  destruct (res_lookup _ _ _ 1 G1 ltac:(lia)) as (w' & Ew & Fw). rewrite <- E1 in Fw.
  assert (F2 : Forall2 (Forall2 (vrel vx vy)) [res (ev1 code1) 1; tops 64] [w'; b]).
  { constructor; auto. constructor; [|constructor]. apply tops_rel; auto; lia. }
  destruct (ha_sim vx vy X0 Y0 _ _ _ _ F2 E2) as (r2 & Er2 & G2).
  destruct (res_lookup _ _ _ 1 G2 ltac:(lia)) as (b' & Eb & Fb). rewrite <- E2 in Fb.
  exists r1, w', r2, b'. split; [exact Er1|]. split; [exact Ew|]. split; [exact Er2|]. split; [exact Eb|]. split; [eapply rel_vok; eauto|].
  intros q k Hq Hk Hf. apply (rel_eqm vx vy _ _ q k _ Fb); auto. rewrite C4. lia.
Qed.

Lemma evA_facts : isn 2 (ev1 toom_eval_code) = true /\ len (res (ev1 toom_eval_code) 1) = 28 /\ isn 2 (ev2 toom_eval_code batch_eval_code) = true /\ len evA = 64 /\
  forall q, 0 <= q < 63 -> fst (znth htop evA q) = 16.
Proof.
  pose proof ev_checked as H. unfold ev_check in H. rewrite !andb_true_iff in H. destruct H as (((((A1 & A2) & A3) & A4) & _) & U).
  repeat split; auto; try lia. intros q Hq. apply (upto_ok _ _ q) in U; [|lia]. cbv beta in U. rewrite !andb_true_iff in U. lia.
Qed.
Lemma evB_facts : isn 2 (ev1 TC_eval_code) = true /\ len (res (ev1 TC_eval_code) 1) = 28 /\ isn 2 (ev2 TC_eval_code KARA_eval_code) = true /\ len evB = 64 /\
  forall q, 0 <= q < 63 -> fst (znth htop evB q) = 16 /\ peqb 16 (snd (znth htop evB q)) (evt q) = true.
Proof.
  pose proof ev_checked as H. unfold ev_check in H. rewrite !andb_true_iff in H. destruct H as ((_ & (((A1 & A2) & A3) & A4)) & U).
  repeat split; auto; try lia. all: apply (upto_ok _ _ q) in U; [|lia]; cbv beta in U; rewrite !andb_true_iff in U; destruct U as (((U1 & U2) & U3) & U4); auto; lia.
Qed.
Lemma evt_lin : forall q, 0 <= q < 63 -> lin_poly (evt q) = true.
Proof.
  pose proof ev_checked as H. unfold ev_check in H. rewrite !andb_true_iff in H. destruct H as (_ & U). intros q Hq.
  apply (upto_ok _ _ q) in U; [|lia]. cbv beta in U. rewrite !andb_true_iff in U. now destruct U as (((U1 & U2) & U3) & U4).
Qed.

(** A transposed bucket of evaluations of [B], given by blocks of 16 coefficients: the sixteen values of form [q] are
    lane [q mod 16] of sixteen consecutive vectors. *)
Definition bucket (B : Z -> Z -> Z) (b : list vec) : Prop :=
  vok 64 b /\ forall q i, 0 <= q < 63 -> 0 <= i < 16 -> eqm 65536 (vg b (16 * (q / 16) + i) (q mod 16)) (lin (evt q) (fun u => B u i)).

Lemma forv : forall (code : Z -> list vstmt) n s r (Q : list (list vec) -> Prop), vexecs vecs (map code (seqz (Z.to_nat n) 0)) s = Some r -> Q r ->
  wp (for_ 0 n (fun i s => vrun (code i) s) s) Q.
Proof.
  intros code n s r Q E H. unfold for_. rewrite Z.sub_0_r. eapply wp_forv with (code := code); [|exact E|exact H].
  intros i s' r' E'. eapply wp_vrun; [exact E'|reflexivity].
Qed.

Lemma trans4k : forall a K (Q : list vec -> Prop), vok 64 a -> (forall a', transd 64 64 a a' -> wp (K a') Q) ->
  wp (a <- vat a 0 transpose_n1 ;; a <- vat a 16 transpose_n1 ;; a <- vat a 32 transpose_n1 ;; a <- vat a 48 transpose_n1 ;; K a)%M Q.
Proof.
  intros a K Q Ha HQ. apply wp_bind. eapply wp_mono; [apply (transd_S 64 0 a a); [now apply transd_0|lia|reflexivity|lia]|]. intros a1 H1.
  apply wp_bind. eapply wp_mono; [apply (transd_S 64 16 a a1); [exact H1|lia|reflexivity|lia]|]. intros a2 H2.
  apply wp_bind. eapply wp_mono; [apply (transd_S 64 32 a a2); [exact H2|lia|reflexivity|lia]|]. intros a3 H3.
  apply wp_bind. eapply wp_mono; [apply (transd_S 64 48 a a3); [exact H3|lia|reflexivity|lia]|]. exact HQ.
Qed.
Lemma trans4 : forall a (Q : list vec -> Prop), vok 64 a -> (forall a', transd 64 64 a a' -> Q a') ->
  wp (a <- vat a 0 transpose_n1 ;; a <- vat a 16 transpose_n1 ;; a <- vat a 32 transpose_n1 ;; vat a 48 transpose_n1)%M Q.
Proof.
  intros a Q Ha HQ. apply wp_bind. eapply wp_mono; [apply (transd_S 64 0 a a); [now apply transd_0|lia|reflexivity|lia]|]. intros a1 H1.
  apply wp_bind. eapply wp_mono; [apply (transd_S 64 16 a a1); [exact H1|lia|reflexivity|lia]|]. intros a2 H2.
  apply wp_bind. eapply wp_mono; [apply (transd_S 64 32 a a2); [exact H2|lia|reflexivity|lia]|]. intros a3 H3.
  eapply wp_mono; [apply (transd_S 64 48 a a3); [exact H3|lia|reflexivity|lia]|]. exact HQ.
Qed.
Lemma bucket_trans : forall B b b', transd 64 64 b b' -> (forall q k, 0 <= q < 63 -> 0 <= k < 16 -> eqm 65536 (vg b q k) (lin (evt q) (fun u => B u k))) -> bucket B b'.
Proof.
  intros B b b' (V & G) H. split; auto. intros q i Hq Hi. rewrite G by dlia. replace (_ <? 64) with true by dlia.
  replace (16 * ((16 * (q / 16) + i) / 16) + q mod 16) with q by dlia. replace ((16 * (q / 16) + i) mod 16) with i by dlia. now apply H.
Qed.

Lemma TC_eval_ok : forall junk b b_bucket, vok 16 b -> vok 64 b_bucket -> wp (TC_eval junk b b_bucket) (fun r => bucket (vg b) r).
Proof.
  intros junk b bb Hb Hbb. destruct evB_facts as (C1 & C2 & C3 & C4 & C5).
  destruct (eval_ok _ _ C1 C2 C3 C4 b (vuninit junk 0 28) bb Hb (vok_uninit junk 0 28 ltac:(lia)) Hbb) as (r1 & w & r2 & b' & E1 & Ew & E2 & Eb & V & G).
  unfold TC_eval. apply wp_bind. eapply forv; [exact E1|]. apply wp_bind. eapply wp_arr_of; [exact Ew|]. unfold KARA_eval.
  apply wp_bind. eapply wp_vrun; [exact E2|]. apply wp_bind. eapply wp_arr_of; [exact Eb|]. apply trans4; auto.
  intros a' T. apply (bucket_trans _ b' a' T). intros q k Hq Hk. destruct (C5 q Hq) as (F & P).
  eapply eqm_trans; [apply G; auto; lia|]. apply peqb_eqm. exact P.
Qed.
