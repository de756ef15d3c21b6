(** Soundness of symbolic execution. *)
From Coq Require Import ZArith List Bool Lia FMapPositive.
From Verif Require Import Lib.Arr Model.Arm Proof.Conv Proof.ArmSym.
Import ListNotations.
Local Open Scope Z_scope.

Lemma eqm_le : forall k k' a b, 0 <= k' <= k -> eqm (2 ^ k) a b -> eqm (2 ^ k') a b.
Proof. intros k k' a b H E. apply eqm_divide with (2 ^ (k - k')). rewrite <- Z.pow_add_r by lia. now replace (k' + (k - k')) with k by lia. Qed.

Section Env.
  Variable vx vy : Z -> Z.
  Hypothesis vx0 : vx 0 = 1.
  Hypothesis vy0 : vy 0 = 1.

  Fixpoint peval (p : poly) : Z := match p with [] => 0 | (x, y, c) :: p => c * (vx x * vy y) + peval p end.

  Lemma peval_add : forall p q, peval (padd p q) = peval p + peval q.
  Proof.
    induction p as [|[[x y] c] p IH]; intros q; [reflexivity|].
    induction q as [|[[x' y'] c'] q IHq]; [cbn [padd peval]; lia|].
    cbn [padd]. unfold kcmp in *. destruct (x ?= x') eqn:E1; [destruct (y ?= y') eqn:E2| |].
    - apply Z.compare_eq in E1, E2. subst x' y'. destruct (c + c' =? 0) eqn:E.
      + rewrite IH. cbn [peval]. assert (c' = - c) by lia. subst c'. lia.
      + cbn [peval]. rewrite IH. lia.
    - cbn [peval]. rewrite IH. cbn [peval]. lia.
    - cbn [peval]. cbn [padd peval] in IHq. unfold kcmp in IHq. rewrite IHq. cbn [peval]. lia.
    - cbn [peval]. rewrite IH. cbn [peval]. lia.
    - cbn [peval]. cbn [padd peval] in IHq. unfold kcmp in IHq. rewrite IHq. cbn [peval]. lia.
  Qed.
  Lemma peval_scale : forall c p, peval (pscale c p) = c * peval p.
  Proof. induction p as [|[[x y] d] p IH]; cbn [pscale peval]; [lia|]. rewrite IH. lia. Qed.
  Lemma peval_term : forall x y c p q, pterm x y c p = Some q -> peval q = c * (vx x * vy y) * peval p.
  Proof.
    induction p as [|[[x' y'] c'] p IH]; intros q H; cbn [pterm] in H; [injection H as <-; cbn [peval]; lia|].
    destruct (_ && _) eqn:E; [|discriminate]. destruct (pterm x y c p) as [r|]; [|discriminate]. injection H as <-.
    cbn [peval]. rewrite (IH r eq_refl).
    assert (vx (x + x') = vx x * vx x') as ->.
    { apply andb_true_iff in E as (E & _). apply orb_true_iff in E as [E|E]; apply Z.eqb_eq in E; subst; rewrite vx0; [rewrite Z.add_0_l|rewrite Z.add_0_r]; lia. }
    assert (vy (y + y') = vy y * vy y') as ->; [|lia].
    apply andb_true_iff in E as (_ & E). apply orb_true_iff in E as [E|E]; apply Z.eqb_eq in E; subst; rewrite vy0; [rewrite Z.add_0_l|rewrite Z.add_0_r]; lia.
  Qed.
  Lemma peval_mul : forall p q r, pmul p q = Some r -> peval r = peval p * peval q.
  Proof.
    induction p as [|[[x y] c] p IH]; intros q r H; cbn [pmul] in H; [injection H as <-; cbn [peval]; lia|].
    destruct (pterm x y c q) as [a|] eqn:Ea; [|discriminate]. cbn [bind] in H. destruct (pmul p q) as [b|] eqn:Eb; [|discriminate]. injection H as <-.
    rewrite peval_add, (peval_term _ _ _ _ _ Ea), (IH _ _ Eb). cbn [peval]. lia.
  Qed.
  Lemma peval_const : forall c, peval (pconst c) = c.
  Proof. intros. unfold pconst. destruct (c =? 0) eqn:E; cbn [peval]; [lia|]. rewrite vx0, vy0. lia. Qed.
  Lemma peval_div : forall n p, n <> 0 -> pdivs n p = true -> peval p = n * peval (pdiv n p).
  Proof.
    intros n p Hn. induction p as [|[[x y] c] p IH]; intros H; cbn [pdivs pdiv peval] in *; [lia|].
    destruct (c mod n =? 0) eqn:E; [|discriminate]. rewrite (IH H). pose proof (Z.div_mod c n Hn). replace c with (n * (c / n)) at 1 by lia. lia.
  Qed.
  Lemma peval_norm : forall n p, 0 < n -> eqm n (peval p) (peval (pnorm n p)).
  Proof.
    intros n p Hn. induction p as [|[[x y] c] p IH]; cbn [pnorm peval]; [apply eqm_refl|].
    destruct (c mod n =? 0) eqn:E.
    - eapply eqm_trans; [|exact IH]. exists (c / n * (vx x * vy y)). pose proof (Z.div_mod c n ltac:(lia)). replace c with (n * (c / n)) at 1 by lia. lia.
    - cbn [peval]. apply eqm_add; [|exact IH]. apply eqm_mul; [|apply eqm_refl]. apply eqm_sym, eqm_mod; auto.
  Qed.
  Lemma peqb_ok : forall k p q, 0 <= k -> peqb k p q = true -> eqm (2 ^ k) (peval p) (peval q).
  Proof.
    intros k p q Hk H. unfold peqb in H. apply peval_div in H; [|lia]. rewrite peval_add, peval_scale in H.
    eexists. assert (forall a b c, a + -1 * b = c -> a = b + c) as X by lia. apply X. exact H.
  Qed.

  (** ** Halfwords *)
  Definition hal (a : ah) (x : Z) : Prop := 0 <= fst a <= 16 /\ eqm (2 ^ fst a) x (peval (snd a)).

  Lemma eqm1 : forall a b, eqm (2 ^ 0) a b.
  Proof. intros. exists (a - b). lia. Qed.
  Lemma hal_top : forall x, hal htop x.
  Proof. intros. split; cbn [htop fst snd]; [lia|apply eqm1]. Qed.
  Lemma hal_const : forall c, hal (hconst c) c.
  Proof. intros. split; cbn [hconst fst snd]; [lia|]. rewrite peval_const. apply eqm_refl. Qed.
  Lemma hal_eqm : forall a x y, eqm 65536 y x -> hal a x -> hal a y.
  Proof.
    intros a x y E (K & H). split; auto. eapply eqm_trans; [|exact H]. apply (eqm_le 16); [lia|exact E].
  Qed.
  Lemma hal_lift : forall f g a b x y, (forall p q r, f p q = Some r -> peval r = g (peval p) (peval q)) ->
    (forall m a b c d, eqm m a b -> eqm m c d -> eqm m (g a c) (g b d)) ->
    hal a x -> hal b y -> hal (hlift f a b) (g x y).
  Proof.
    intros f g [k p] [k' q] x y Hf Hg (K & H) (K' & H'). cbn [fst snd] in *. cbn [hlift].
    destruct (_ || _); [apply hal_top|]. destruct (f p q) as [r|] eqn:E; [|apply hal_top].
    split; cbn [fst snd]; [lia|]. rewrite (Hf _ _ _ E). apply Hg; [apply (eqm_le k)|apply (eqm_le k')]; auto; lia.
  Qed.
  Lemma hal_add : forall a b x y, hal a x -> hal b y -> hal (hadd a b) (x + y).
  Proof. intros. apply hal_lift with (g := Z.add); auto; [|apply eqm_add]. intros p q r E. injection E as <-. apply peval_add. Qed.
  Lemma hal_sub : forall a b x y, hal a x -> hal b y -> hal (hsub a b) (x - y).
  Proof.
    intros. apply hal_lift with (g := Z.sub); auto; [|apply eqm_sub]. intros p q r E. injection E as <-. rewrite peval_add, peval_scale. lia.
  Qed.
  Lemma v2_ok : forall n c, 0 <= v2 n c /\ exists q, c = 2 ^ v2 n c * q.
  Proof.
    induction n as [|n IH]; intros c; cbn [v2]; [split; [lia|exists c; lia]|].
    destruct (Z.eqb_spec (c mod 2) 0); [|split; [lia|exists c; lia]]. destruct (IH (c / 2)) as (H & q & E). split; [lia|].
    exists q. rewrite Z.pow_add_r by lia. rewrite <- Z.mul_assoc, <- E. dlia.
  Qed.
  Lemma hal_scale : forall c a x, hal a x -> hal (hscale c a) (x * c).
  Proof.
    intros c [k p] x (K & H). cbn [fst snd] in *. destruct (v2_ok 16 c) as (V & q & E). split; cbn [hscale fst snd]; [lia|].
    rewrite peval_scale, Z.mul_comm. destruct H as (r & ->). apply (eqm_le (k + v2 16 c)); [lia|].
    exists (q * r). rewrite Z.pow_add_r by lia. remember (2 ^ v2 16 c) as w. rewrite E. ring.
  Qed.
  Lemma hal_mul : forall a b x y, hal a x -> hal b y -> hal (hmul a b) (x * y).
  Proof.
    intros a b x y Ha Hb.
    assert (L : hal (hlift pmul a b) (x * y)) by (apply hal_lift with (g := Z.mul); auto; [|apply eqm_mul]; intros p q r E; now apply peval_mul).
    assert (C : forall c a x y, hal a x -> hal (16, [(0, 0, c)]) y -> hal (hscale c a) (x * y)).
    { clear a b x y Ha Hb L. intros c a x y Ha (_ & Hy). cbn [fst snd peval] in Hy. rewrite vx0, vy0 in Hy. eapply hal_eqm; [|apply hal_scale; exact Ha].
      change 65536 with (2 ^ 16). apply eqm_mul; [apply eqm_refl|]. eapply eqm_trans; [exact Hy|]. apply eqm_eq. lia. }
    assert (C' : forall c, a = (16, [(0, 0, c)]) -> hal (hscale c b) (x * y)) by (intros c ->; rewrite Z.mul_comm; now apply C).
    assert (C'' : forall c, b = (16, [(0, 0, c)]) -> hal (hscale c a) (x * y)) by (intros c ->; now apply C).
    unfold hmul. clear C Ha Hb. destruct a as [k p], b as [k' p'].
    repeat match goal with
      | |- hal (match ?v with _ => _ end) _ => is_var v; destruct v
      | |- hal (let (_, _) := ?v in _) _ => is_var v; destruct v
      end; auto.
  Qed.
  Lemma hal_shr : forall n a x, 0 <= n -> hal a x -> hal (hshr n a) (x / 2 ^ n).
  Proof.
    intros n [k p] x Hn (K & H). cbn [fst snd hshr] in *. destruct (n <=? k) eqn:E; [|apply hal_top].
    destruct (pdivs (2 ^ n) p) eqn:D; [|apply hal_top]. split; cbn [fst snd]; [lia|].
    eapply eqm_trans; [|apply peval_norm; lia].
    apply peval_div in D; [|lia]. rewrite D in H. destruct H as (q & ->). exists q.
    replace (2 ^ k) with (2 ^ n * 2 ^ (k - n)) by (rewrite <- Z.pow_add_r by lia; f_equal; lia).
    rewrite <- Z.mul_assoc, <- Z.mul_add_distr_l. rewrite Z.mul_comm. apply Z.div_mul. lia.
  Qed.
  Lemma hal_mask : forall w a x, 0 <= w <= 16 -> hal a x -> hal (hmask w a) (x mod 2 ^ w).
  Proof.
    intros w [k p] x Hw (K & H). split; cbn [fst snd hmask] in *; [lia|].
    eapply eqm_trans; [|apply (eqm_le k); [lia|exact H]]. apply (eqm_le w); [lia|]. apply eqm_mod. lia.
  Qed.
End Env.

Lemma half_range : forall z, 0 <= z < 4294967296 -> hi z = z / 65536.
Proof. intros. unfold hi. apply Z.mod_small. dlia. Qed.
Lemma pk_lo_hi : forall z, 0 <= z < 4294967296 -> pk (lo z) (hi z) = z.
Proof. intros. rewrite half_range by auto. unfold pk, lo. dlia. Qed.
Lemma split_join : forall v, (forall z, v = Int z -> 0 <= z < 4294967296) -> join (split v false) (split v true) = Some v.
Proof.
  intros [z|r o|k] H; cbn [split join].
  - rewrite pk_lo_hi; auto.
  - destruct (val_eq_dec _ _); congruence.
  - destruct (val_eq_dec _ _); congruence.
Qed.
Lemma lo_eqm : forall z, eqm 65536 (lo z) z.
Proof. intros. apply eqm_mod. lia. Qed.
Lemma hi_eqm : forall z, eqm 65536 (hi z) (z / 65536).
Proof. intros. apply eqm_mod. lia. Qed.
Lemma lo_range : forall z, 0 <= lo z < 65536.
Proof. intros. apply Z.mod_pos_bound. lia. Qed.
Lemma hi_range : forall z, 0 <= hi z < 65536.
Proof. intros. apply Z.mod_pos_bound. lia. Qed.
Lemma u32_range : forall z, 0 <= u32 z < 4294967296.
Proof. intros. apply Z.mod_pos_bound. lia. Qed.
Lemma u32_eqm : forall z, eqm 65536 (u32 z) z.
Proof. intros. apply eqm_divide with 65536. apply eqm_mod. lia. Qed.
Lemma s16_eqm : forall z, eqm 65536 (s16 z) z.
Proof. intros. unfold s16. destruct (_ <? _); [apply eqm_refl|]. exists (-1). lia. Qed.
Lemma pk_range : forall a b, 0 <= a < 65536 -> 0 <= b < 65536 -> 0 <= pk a b < 4294967296.
Proof. intros. unfold pk. lia. Qed.

Lemma land_mask : forall z, 0 <= z < 4294967296 -> Z.land z (8191 * 65537) = pk (lo z mod 2 ^ 13) (hi z mod 2 ^ 13).
Proof.
  intros z R. rewrite <- (pk_lo_hi z) at 1 by auto. rewrite half_range by auto. pose proof (lo_range z). remember (lo z) as a. remember (z / 65536) as b.
        rewrite <- !Z.land_ones by lia. unfold pk. apply Z.bits_inj'. intros n0 Hn.
        assert (forall u v, 0 <= u < 65536 -> u + 65536 * v = Z.lor u (Z.shiftl v 16)) as G.
        { intros. rewrite Z.shiftl_mul_pow2 by lia. change (2 ^ 16) with 65536. rewrite (Z.mul_comm v).
          assert (Z.land u (65536 * v) = 0) as E0; [|rewrite Z.add_nocarry_lxor by auto; now apply Z.lxor_lor].
          rewrite Z.mul_comm. change 65536 with (2 ^ 16). rewrite <- Z.shiftl_mul_pow2 by lia.
          apply Z.bits_inj'. intros q Hq. rewrite Z.land_spec, Z.bits_0. destruct (Z.lt_ge_cases q 16).
          - rewrite Z.shiftl_spec_low by lia. apply andb_false_r.
          - rewrite (Z.bits_above_log2 u q); auto; [lia|]. destruct (Z.eq_dec u 0); [subst; cbn; lia|]. apply Z.log2_lt_pow2; [lia|].
            apply Z.lt_le_trans with (2 ^ 16); [lia|]. apply Z.pow_le_mono_r; lia. }
        rewrite G by lia. rewrite (G (Z.land a _)) by (rewrite Z.land_ones by lia; change (2 ^ 13) with 8192; dlia).
        change (8191 * 65537) with (Z.lor (Z.ones 13) (Z.shiftl (Z.ones 13) 16)).
        rewrite !Z.land_spec, !Z.lor_spec, !Z.land_spec. destruct (Z.lt_ge_cases n0 16).
        - rewrite !Z.shiftl_spec_low by lia. now rewrite !orb_false_r.
        - rewrite !Z.shiftl_spec by lia. rewrite (Z.bits_above_log2 a n0); [|lia|].
          + rewrite (Z.bits_above_log2 (Z.ones 13) n0); [|cbn; lia|cbn; lia]. cbn [orb andb]. now rewrite Z.land_spec.
          + destruct (Z.eq_dec a 0) as [->|]; [cbn; lia|]. apply Z.log2_lt_pow2; [lia|]. apply Z.lt_le_trans with (2 ^ 16); [lia|]. apply Z.pow_le_mono_r; lia.
Qed.

Section Sound.
  Variable vx vy : Z -> Z.
  Hypothesis vx0 : vx 0 = 1.
  Hypothesis vy0 : vy 0 = 1.
  (** Sizes of the symbolic regions, of the real ones, and the place of the symbolic ones in the real ones. *)
  Variable size csize : positive -> Z.
  Variable pr : positive -> positive.
  Variable hb : positive -> Z.
  Variable ini scratch : state.

  Definition inw (r : positive) (i : Z) : Prop := Zpos r < 8 /\ 0 <= i < size r.
  Definition placed : Prop :=
    (forall r, Zpos r < 8 -> 0 < size r -> 0 <= hb r /\ hb r + size r <= csize (pr r)) /\
    (forall r q i j, inw r i -> inw q j -> pr r = pr q -> hb r + i = hb q + j -> r = q) /\
    (forall r i j, inw r i -> r <> 4%positive -> pr r = pr 4%positive -> 0 <= j <= size 4%positive -> hb 4%positive + j <= hb r + i).
  Hypothesis Hpl : placed.
  Hypothesis Hini : regs_ok ini.

  Notation hal := (hal vx vy).

  Definition conc (a : aval) : val :=
    match a with AP r o => Ptr (pr r) (2 * hb r + o) | AR k => Ret k | AO r => rg ini r | _ => Int 0 end.
  Definition mval (a : aval) (v : val) : Prop :=
    match a with
    | AH l h => exists z, v = Int z /\ 0 <= z < 4294967296 /\ hal l z /\ hal h (z / 65536)
    | AC z => v = Int z /\ 0 <= z < 4294967296
    | AP _ _ | AR _ | AO _ => v = conc a
    | AT => True
    end.
  Definition mcell (r : positive) (i : Z) (c : option acell) (x : cell) : Prop :=
    match c with
    | Some (CH h) => exists z, x = Half z /\ 0 <= z < 65536 /\ hal h z
    | Some (CP (AH _ _ | AC _ | AT) _) => False
    | Some (CP a top) => x = split (conc a) top
    | Some CT => True
    | None => x = mm ini (pr r) (hb r + i)
    end.
  Definition outside (p : positive) (j : Z) : Prop := forall r i, inw r i -> ~ (p = pr r /\ j = hb r + i).
  Definition mst (s : astate) (t : state) : Prop :=
    (forall r, mval (aget s r) (rg t r)) /\
    (forall r i, inw r i -> mcell r i (mget s r i) (mm t (pr r) (hb r + i))) /\
    (forall p j, outside p j -> mm t p j = mm ini p j) /\
    (forall f, af s = Some f -> f = (fz t, fc t)).

  Lemma conc_range : forall a z, conc a = Int z -> 0 <= z < 4294967296.
  Proof. intros [] z' E; cbn [conc] in E; try discriminate; try (injection E as <-; lia). eapply Hini; eauto. Qed.

  Lemma rkey_inj : forall r r', rkey r = rkey r' -> r = r'.
  Proof. intros [] [] H; try reflexivity; discriminate. Qed.
  Lemma aget_aset : forall s r a r', aget (aset s r a) r' = if reg_eq_dec r' r then a else aget s r'.
  Proof.
    intros. unfold aget, aset. cbn [ar]. destruct (reg_eq_dec r' r) as [->|N]; [now rewrite PositiveMap.gss|].
    rewrite PositiveMap.gso; auto. intros E. apply N. now apply rkey_inj.
  Qed.
  Lemma mget_mset : forall s r i c r' i', inw r i -> inw r' i' ->
    mget (mset s r i c) r' i' = if (Pos.eqb r' r && (i' =? i))%bool then Some c else mget s r' i'.
  Proof.
    intros s r i c r' i' (A & B) (A' & B'). unfold mget, mset. cbn [am].
    destruct (Pos.eqb_spec r' r) as [->|N]; [destruct (Z.eqb_spec i' i) as [->|N]|]; cbn [andb]; [now rewrite PositiveMap.gss| |];
      rewrite PositiveMap.gso; auto; unfold mkey; intros E; apply Z2Pos.inj in E; lia.
  Qed.

  Lemma mst_setr : forall s t r a v, mst s t -> mval a v -> mst (aset s r a) (setr t r v).
  Proof.
    intros s t r a v (Hr & Hm & Ho & Hf) Ha. split; [|split; [|split]]; auto.
    intros r'. rewrite aget_aset. cbn [rg setr]. destruct (reg_eq_dec r' r); auto.
  Qed.
  Lemma mst_setm : forall s t r i c x, mst s t -> inw r i -> mcell r i (Some c) x -> mst (mset s r i c) (setm t (pr r) (hb r + i) x).
  Proof.
    intros s t r i c x (Hr & Hm & Ho & Hf) Hi Hc. split; [|split; [|split]]; auto.
    - intros r' i' Hi'. rewrite mget_mset by auto. cbn [mm setm].
      destruct (Pos.eqb_spec r' r) as [->|N]; [destruct (Z.eqb_spec i' i) as [->|N]|]; cbn [andb].
      + rewrite Pos.eqb_refl, Z.eqb_refl. exact Hc.
      + rewrite Pos.eqb_refl. destruct (Z.eqb_spec (hb r + i') (hb r + i)); [lia|]. now apply Hm.
      + destruct (Pos.eqb_spec (pr r') (pr r)) as [E|]; [|now apply Hm].
        destruct (Z.eqb_spec (hb r' + i') (hb r + i)) as [E'|]; [|now apply Hm].
        destruct Hpl as (_ & D & _). destruct N. eapply D; eauto.
    - intros p j Hp. cbn [mm setm]. destruct (Pos.eqb_spec p (pr r)) as [E|]; [|now apply Ho].
      destruct (Z.eqb_spec j (hb r + i)) as [E'|]; [|now apply Ho]. exfalso. eapply Hp; eauto.
  Qed.

  Lemma mst_index : forall s t r o n i, mst s t -> 1 <= n -> aindex size s r o n = Some i ->
    index csize t (pr r) (2 * hb r + o) n = Some (hb r + i) /\ forall j, 0 <= j < n -> inw r (i + j).
  Proof.
    intros s t r o n i (Hr & _) Hn H. unfold aindex in H.
    destruct (_ && _) eqn:E; [|discriminate]. injection H as <-.
    rewrite !andb_true_iff in E. destruct E as ((((E1 & E2) & E3) & E4) & E5).
    destruct (aget s SP) as [| |q b| | |] eqn:Es; try discriminate. specialize (Hr SP). rewrite Es in Hr. cbn [mval conc] in Hr.
    rewrite !andb_true_iff in E5. destruct E5 as (((E5 & E5') & E6) & E7). apply Pos.eqb_eq in E5. subst q.
    assert (Hw : forall j, 0 <= j < n -> inw r (o / 2 + j)) by (intros; split; dlia).
    split; auto. pose proof (Hw 0 ltac:(lia)) as W0. rewrite Z.add_0_r in W0. destruct Hpl as (A & _ & C).
    destruct (A r) as (A1 & A2); [apply W0|destruct W0; lia|].
    unfold index. rewrite Hr.
    replace ((2 * hb r + o) / 2) with (hb r + o / 2) by dlia.
    replace (_ && _)%bool with true; auto. symmetry. rewrite !andb_true_iff. repeat split; try dlia.
    destruct (Pos.eqb_spec (pr r) (pr 4%positive)) as [Ep|]; cbn [negb orb]; auto.
    destruct (Pos.eqb_spec r 4) as [->|N]; cbn [negb orb] in E7; [lia|].
    apply Z.leb_le. pose proof (C r (o / 2) ((b + 1) / 2) W0 N Ep ltac:(dlia)). dlia.
  Qed.

  Lemma mst_address : forall s t a p o s', mst s t -> aaddress s a = Some (p, o, s') ->
    exists t', address t a = Some (pr p, 2 * hb p + o, t') /\ mst s' t'.
  Proof.
    intros s t a p o s' M H. destruct a as [r n|r n|r n]; cbn [aaddress address] in *;
      destruct (aget s r) as [| |q b| | |] eqn:E; try discriminate; injection H as <- <- <-;
      pose proof (proj1 M r) as Hr; rewrite E in Hr; cbn [mval conc] in Hr; rewrite Hr; eexists; (split; [rewrite ?Z.add_assoc; reflexivity|]); auto;
      apply mst_setr; auto; cbn [mval conc]; now rewrite Z.add_assoc.
  Qed.

  Lemma halves_ok : forall a v l h, mval a v -> halves a = Some (l, h) ->
    exists z, v = Int z /\ 0 <= z < 4294967296 /\ hal l z /\ hal h (z / 65536).
  Proof.
    intros a v l h M H. destruct a; cbn [halves] in H; try discriminate; injection H as <- <-; cbn [mval] in M; auto.
    destruct M as (-> & R). exists z. repeat split; try lia.
    - cbn; lia. - cbn; lia. - eapply (hal_eqm _ _ _ (lo z)); [apply eqm_sym, lo_eqm|now apply hal_const].
    - cbn; lia. - cbn; lia. - eapply (hal_eqm _ _ _ (hi z)); [apply eqm_sym, hi_eqm|now apply hal_const].
  Qed.

  Lemma mcell_split : forall r i a v top, mval a v -> mcell r i (Some (a_split a top)) (split v top).
  Proof.
    intros r i a v top M. destruct a; cbn [a_split mcell mval conc] in *; auto; try (now subst v).
    - destruct M as (z & -> & R & Hl & Hh). cbn [split]. destruct top.
      + exists (hi z). split; [auto|]. split; [apply hi_range|]. eapply hal_eqm; [apply hi_eqm|auto].
      + exists (lo z). split; [auto|]. split; [apply lo_range|]. eapply hal_eqm; [apply lo_eqm|auto].
    - destruct M as (-> & R). cbn [split]. destruct top; eexists; (split; [reflexivity|]); (split; [apply hi_range || apply lo_range|apply hal_const; auto]).
  Qed.

  Lemma mst_load : forall s t p o a, mst s t -> aload size s p o = Some a ->
    exists v, load csize t (pr p) (2 * hb p + o) = Some v /\ mval a v.
  Proof.
    intros s t p o a M H. unfold aload in H. destruct (aindex size s p o 2) as [i|] eqn:E; cbn [bind] in H; [|discriminate].
    destruct (mst_index s t p o 2 i M ltac:(lia) E) as (E' & W). unfold load. rewrite E'. cbn [bind].
    destruct M as (_ & Hm & _ & _). pose proof (Hm p (i + 0) (W 0 ltac:(lia))) as H0. pose proof (Hm p (i + 1) (W 1 ltac:(lia))) as H1.
    rewrite Z.add_0_r in H0. rewrite Z.add_assoc in H1. unfold a_join in H.
    destruct (mget s p i) as [[l|x [|]|]|]; try discriminate; destruct (mget s p (i + 1)) as [[h|y [|]|]|]; try discriminate.
    - injection H as <-. cbn [mcell] in H0, H1. destruct H0 as (z & -> & Rz & Hz). destruct H1 as (w & -> & Rw & Hw).
      exists (Int (pk z w)). split; auto. cbn [mval]. exists (pk z w). split; auto. split; [now apply pk_range|]. split.
      + eapply hal_eqm; [|exact Hz]. exists w. unfold pk. lia.
      + replace (pk z w / 65536) with w; auto. unfold pk. dlia.
    - destruct (aval_eqb x y) eqn:Exy; [|discriminate]. injection H as <-.
      assert (x = y). { destruct x, y; cbn [aval_eqb] in Exy; try discriminate.
        - apply andb_true_iff in Exy as (A & B). apply Pos.eqb_eq in A. apply Z.eqb_eq in B. congruence.
        - apply Z.eqb_eq in Exy. congruence.
        - destruct (reg_eq_dec _ _); congruence. }
      subst y. exists (conc x). destruct x; cbn [mcell] in H0, H1; try contradiction; rewrite H0, H1; (split; [|reflexivity]);
        apply split_join; intros z; apply conc_range.
  Qed.
  Lemma mst_store : forall s t p o a v s', mst s t -> mval a v -> astore size s p o a = Some s' ->
    exists t', store csize t (pr p) (2 * hb p + o) v = Some t' /\ mst s' t'.
  Proof.
    intros s t p o a v s' M Ha H. unfold astore in H. destruct (aindex size s p o 2) as [i|] eqn:E; cbn [bind] in H; [|discriminate]. injection H as <-.
    destruct (mst_index s t p o 2 i M ltac:(lia) E) as (E' & W). unfold store. rewrite E'. cbn [bind]. eexists. split; [reflexivity|].
    pose proof (W 0 ltac:(lia)) as W0. rewrite Z.add_0_r in W0. rewrite <- Z.add_assoc.
    apply mst_setm; [apply mst_setm; auto|apply W; lia|]; now apply mcell_split.
  Qed.
  Lemma mst_push : forall l s t p o s', mst s t -> apush size s p o l = Some s' ->
    exists t', push csize t (pr p) (2 * hb p + o) l = Some t' /\ mst s' t'.
  Proof.
    induction l as [|r l IH]; intros s t p o s' M H; cbn [apush push] in *.
    - injection H as <-. eauto.
    - destruct (astore size s p o (aget s r)) as [s1|] eqn:E; cbn [bind] in H; [|discriminate].
      destruct (mst_store _ _ _ _ _ _ _ M (proj1 M r) E) as (t1 & E1 & M1). rewrite E1. cbn [bind].
      rewrite <- Z.add_assoc. eapply IH; eauto.
  Qed.
  Lemma mst_pop : forall l s t p o s', mst s t -> apop size s p o l = Some s' ->
    exists t', pop csize t (pr p) (2 * hb p + o) l = Some t' /\ mst s' t'.
  Proof.
    induction l as [|r l IH]; intros s t p o s' M H; cbn [apop pop] in *.
    - injection H as <-. eauto.
    - destruct (aload size s p o) as [v|] eqn:E; cbn [bind] in H; [|discriminate].
      destruct (mst_load _ _ _ _ _ M E) as (w & E1 & M1). rewrite E1. cbn [bind].
      rewrite <- Z.add_assoc. eapply IH; eauto. now apply mst_setr.
  Qed.

  Lemma hal_u32 : forall a z, hal a z -> hal a (u32 z).
  Proof. intros. eapply hal_eqm; [apply u32_eqm|auto]. Qed.
  Lemma div_div16 : forall z n, 16 <= n -> z / 2 ^ n = z / 65536 / 2 ^ (n - 16).
  Proof. intros. change 65536 with (2 ^ 16). rewrite Z.div_div by lia. rewrite <- Z.pow_add_r by lia. do 2 f_equal. lia. Qed.
  Lemma s32_div : forall z n, 0 <= z < 4294967296 -> 16 <= n -> eqm 65536 (s32 z / 65536) (z / 65536).
  Proof. intros. unfold s32. destruct (_ <? _); [apply eqm_refl|]. exists (-1). dlia. Qed.
  Lemma asr_ok : forall z n h, 0 <= z < 4294967296 -> 16 <= n -> hal h (z / 65536) -> hal (hshr (n - 16) h) (u32 (s32 z / 2 ^ n)).
  Proof.
    intros. apply hal_u32. rewrite div_div16 by auto. apply hal_shr; [lia|]. eapply hal_eqm; [eapply s32_div; eauto|auto].
  Qed.

  Lemma mst_op2 : forall s t x a, mst s t -> a_op2 s x = Some a -> exists v, ev_op2 t x = Some v /\ mval a v.
  Proof.
    intros s t x a M H. destruct x as [n|r|r n|r n|r n]; cbn [a_op2 ev_op2] in *.
    - injection H as <-. eexists. split; [reflexivity|]. cbn [mval]. split; auto. apply u32_range.
    - injection H as <-. eexists. split; [reflexivity|]. apply M.
    - pose proof (proj1 M r) as Hr.
      assert (G : forall l h, halves (aget s r) = Some (l, h) ->
        (if n =? 16 then Some (AH (hconst 0) l) else if (0 <=? n) && (n <? 16) then Some (AH (hscale (2 ^ n) l) htop) else None) = Some a ->
        exists v, (z <-? num t r ;; Some (Int (shift (Lsl r n) z))) = Some v /\ mval a v).
      { intros l h E H'. destruct (halves_ok _ _ _ _ Hr E) as (z & Ez & R & Hl & Hh). unfold num. rewrite Ez. cbn [int_of bind shift].
        eexists. split; [reflexivity|]. destruct (n =? 16) eqn:En; [|destruct (_ && _) eqn:En'; [|discriminate]]; injection H' as <-.
        - apply Z.eqb_eq in En. subst n. cbn [mval]. exists (u32 (z * 2 ^ 16)). split; auto. split; [apply u32_range|]. split.
          + apply hal_u32. eapply hal_eqm; [|apply hal_const; auto]. exists z. lia.
          + eapply hal_eqm; [|exact Hl]. unfold u32. exists (- (z / 65536)). dlia.
        - apply andb_true_iff in En' as (A & B). cbn [mval]. eexists. split; [reflexivity|]. split; [apply u32_range|]. split; [|apply hal_top].
          apply hal_u32, hal_scale; auto. }
      destruct (aget s r) as [l h|z| | | |] eqn:Er; cbn [halves bind] in *; try discriminate.
      + now apply (G l h).
      + destruct (0 <=? n); [|discriminate]. injection H as <-. cbn [mval] in Hr. destruct Hr as (Ez & R). unfold num. rewrite Ez. cbn [int_of bind shift].
        eexists. split; [reflexivity|]. cbn [mval]. split; auto. apply u32_range.
    - pose proof (proj1 M r) as Hr. destruct (halves (aget s r)) as [[l h]|] eqn:E; cbn [bind] in H; [|discriminate].
      destruct (halves_ok _ _ _ _ Hr E) as (z & Ez & R & Hl & Hh). unfold num. rewrite Ez. cbn [int_of bind shift].
      eexists. split; [reflexivity|]. destruct (n =? 16) eqn:En; [|destruct (_ && _) eqn:En'; [|discriminate]]; injection H as <-.
      + apply Z.eqb_eq in En. subst n. change (2 ^ 16) with 65536. cbn [mval]. exists (z / 65536). split; auto. split; [dlia|]. split; auto.
        replace (z / 65536 / 65536) with 0 by dlia. now apply hal_const.
      + apply andb_true_iff in En' as (A & B). cbn [mval]. eexists. split; [reflexivity|].
        assert (1 <= 2 ^ n) by (apply (Z.pow_le_mono_r 2 0); lia).
        split; [split; [apply Z.div_pos; lia|apply Z.div_lt_upper_bound; nia]|].
        split; [apply hal_shr; auto; lia|]. rewrite Z.div_div by lia. rewrite Z.mul_comm, <- Z.div_div by lia. apply hal_shr; auto; lia.
    - pose proof (proj1 M r) as Hr. destruct (halves (aget s r)) as [[l h]|] eqn:E; cbn [bind] in H; [|discriminate].
      destruct (16 <=? n) eqn:En; [|discriminate]. injection H as <-.
      destruct (halves_ok _ _ _ _ Hr E) as (z & Ez & R & Hl & Hh). unfold num. rewrite Ez. cbn [int_of bind shift].
      eexists. split; [reflexivity|]. cbn [mval]. eexists. split; [reflexivity|]. split; [apply u32_range|]. split; [|apply hal_top].
      apply asr_ok; auto; lia.
  Qed.

  Lemma a_add_ok : forall a b c v w, mval a v -> mval b w -> a_add a b = Some c -> exists u, add_val v w = Some u /\ mval c u.
  Proof.
    intros a b c v w Ha Hb H.
    assert (G : forall l h l' h', halves a = Some (l, h) -> halves b = Some (l', h') -> c = AH (hadd l l') htop ->
      exists u, add_val v w = Some u /\ mval c u).
    { intros l h l' h' E E' ->. destruct (halves_ok _ _ _ _ Ha E) as (z & -> & R & Hl & Hh). destruct (halves_ok _ _ _ _ Hb E') as (z' & -> & R' & Hl' & Hh').
      cbn [add_val]. eexists. split; [reflexivity|]. cbn [mval]. eexists. split; [reflexivity|]. split; [apply u32_range|]. split; [|apply hal_top].
      apply hal_u32, hal_add; auto. }
    destruct a, b; cbn [a_add halves bind] in H; try discriminate; try (injection H as <-; eapply G; cbn [halves]; eauto; fail).
    - injection H as <-. cbn [mval] in Ha, Hb. destruct Ha as (-> & R). destruct Hb as (-> & R'). cbn [add_val]. eexists. split; [reflexivity|].
      cbn [mval]. split; auto. apply u32_range.
    - injection H as <-. cbn [mval conc] in Ha, Hb. destruct Hb as (-> & R'). subst v. cbn [add_val]. eexists. split; [reflexivity|]. cbn [mval conc]. now rewrite Z.add_assoc.
  Qed.
  Lemma a_sub_ok : forall a b c v w, mval a v -> mval b w -> a_sub a b = Some c -> exists u, sub_val v w = Some u /\ mval c u.
  Proof.
    intros a b c v w Ha Hb H.
    assert (G : forall l h l' h', halves a = Some (l, h) -> halves b = Some (l', h') -> c = AH (hsub l l') htop ->
      exists u, sub_val v w = Some u /\ mval c u).
    { intros l h l' h' E E' ->. destruct (halves_ok _ _ _ _ Ha E) as (z & -> & R & Hl & Hh). destruct (halves_ok _ _ _ _ Hb E') as (z' & -> & R' & Hl' & Hh').
      cbn [sub_val]. eexists. split; [reflexivity|]. cbn [mval]. eexists. split; [reflexivity|]. split; [apply u32_range|]. split; [|apply hal_top].
      apply hal_u32, hal_sub; auto. }
    destruct a, b; cbn [a_sub halves bind] in H; try discriminate; try (injection H as <-; eapply G; cbn [halves]; eauto; fail).
    - injection H as <-. cbn [mval] in Ha, Hb. destruct Ha as (-> & R). destruct Hb as (-> & R'). cbn [sub_val]. eexists. split; [reflexivity|].
      cbn [mval]. split; auto. apply u32_range.
    - injection H as <-. cbn [mval conc] in Ha, Hb. destruct Hb as (-> & R'). subst v. cbn [sub_val]. eexists. split; [reflexivity|]. cbn [mval conc]. now rewrite Z.add_sub_assoc.
  Qed.
  Lemma a_cmp_ok : forall a b f v w, mval a v -> mval b w -> a_cmp a b = Some f -> cmp_val v w = Some f.
  Proof.
    intros a b f v w Ha Hb H. destruct a, b; cbn [a_cmp] in H; try discriminate; cbn [mval conc] in Ha, Hb.
    - destruct Ha as (-> & _), Hb as (-> & _). exact H.
    - subst v w. cbn [cmp_val]. destruct (Pos.eqb_spec r r0); [|discriminate]. subst r0. rewrite Pos.eqb_refl. rewrite <- H. do 2 f_equal.
      + destruct (Z.eqb_spec o o0), (Z.eqb_spec (2 * hb r + o) (2 * hb r + o0)); lia || reflexivity.
      + destruct (Z.leb_spec o0 o), (Z.leb_spec (2 * hb r + o0) (2 * hb r + o)); lia || reflexivity.
  Qed.

  Lemma num_ok : forall s t r p, mst s t -> halves (aget s r) = Some p ->
    exists z, num t r = Some z /\ 0 <= z < 4294967296 /\ hal (fst p) z /\ hal (snd p) (z / 65536).
  Proof.
    intros s t r [l h] M E. destruct (halves_ok _ _ _ _ (proj1 M r) E) as (z & Ez & H). exists z. unfold num. rewrite Ez. auto.
  Qed.
  Lemma hal_hi : forall h z, hal h (z / 65536) -> hal h (hi z).
  Proof. intros. eapply hal_eqm; [apply hi_eqm|auto]. Qed.
  Lemma hal_lo : forall h z, hal h z -> hal h (lo z).
  Proof. intros. eapply hal_eqm; [apply lo_eqm|auto]. Qed.
  Lemma hal_half : forall b p z, hal (fst p) z -> hal (snd p) (z / 65536) -> hal (hsel b p) (s16 (half b z)).
  Proof. intros. eapply hal_eqm; [apply s16_eqm|]. destruct b; cbn [half hsel]; [now apply hal_hi|now apply hal_lo]. Qed.
  Lemma mval_pk : forall l h x y, 0 <= x < 65536 -> 0 <= y < 65536 -> hal l x -> hal h y -> mval (AH l h) (Int (pk x y)).
  Proof.
    intros. cbn [mval]. exists (pk x y). split; auto. split; [now apply pk_range|]. split.
    - eapply hal_eqm; [|eauto]. exists y. unfold pk. lia.
    - replace (pk x y / 65536) with y; auto. unfold pk. dlia.
  Qed.
  Lemma mval_u32 : forall l z, hal l z -> mval (AH l htop) (Int (u32 z)).
  Proof. intros. cbn [mval]. eexists. split; [reflexivity|]. split; [apply u32_range|]. split; [now apply hal_u32|apply hal_top]. Qed.

  Ltac bnd H := repeat match type of H with
    | bind ?m _ = Some _ => let E := fresh "E" in destruct m eqn:E; cbn [bind] in H; [|discriminate]
    | (let '(_, _) := ?p in _) = Some _ => destruct p
    end.
  Ltac nm := repeat match goal with
    | M : mst ?s ?t, E : halves (aget ?s ?r) = Some ?p |- _ =>
        let z := fresh "z" in let Ez := fresh "Ez" in let R := fresh "R" in let Hl := fresh "Hl" in let Hh := fresh "Hh" in
        destruct (num_ok s t r p M E) as (z & Ez & R & Hl & Hh); clear E; rewrite ?Ez; cbn [bind fst snd] in *
    end.

  Lemma mst_step : forall i s t s', mst s t -> astep size i s = Some s' -> exists t', step csize i t = Some t' /\ mst s' t'.
  Proof.
    induction i as [x a|x a|x a|x a|l|l|d x|d n|d n x|d n x|d n x|d n k w|d n m|d n m|d n m k|d n m k|tn tm d n m|tn tm d n m r|x d n m|x d n m r|n x|i IH|r];
      intros s t s' M H; cbn [astep step] in *.
    - bnd H. injection H as <-. destruct (mst_address _ _ _ _ _ _ M E) as (t1 & -> & M1). cbn [bind].
      destruct (mst_load _ _ _ _ _ M E0) as (v & -> & Mv). cbn [bind]. eexists. split; [reflexivity|]. now apply mst_setr.
    - bnd H. destruct (mst_address _ _ _ _ _ _ M E) as (t1 & -> & M1). cbn [bind].
      destruct (mst_index s t _ _ 1 _ M ltac:(lia) E0) as (-> & W). cbn [bind].
      destruct (mget s p z0) as [[h| |]|] eqn:Em; try discriminate. injection H as <-.
      pose proof (proj1 (proj2 M) p z0) as Hc. rewrite Em in Hc. cbn [mcell] in Hc.
      specialize (W 0 ltac:(lia)). rewrite Z.add_0_r in W. destruct (Hc W) as (z' & -> & R & Hz).
      eexists. split; [reflexivity|]. apply mst_setr; auto. cbn [mval]. exists z'. split; auto. split; [lia|]. split; auto.
      replace (z' / 65536) with 0 by dlia. now apply hal_const.
    - bnd H. destruct (mst_address _ _ _ _ _ _ M E) as (t1 & -> & M1). cbn [bind].
      eapply mst_store; eauto. apply M.
    - bnd H. injection H as <-. destruct (mst_address _ _ _ _ _ _ M E) as (t1 & -> & M1). cbn [bind].
      destruct (mst_index _ t1 _ _ 1 _ M1 ltac:(lia) E0) as (-> & W). cbn [bind]. nm.
      eexists. split; [reflexivity|]. specialize (W 0 ltac:(lia)). rewrite Z.add_0_r in W. apply mst_setm; auto.
      cbn [mcell]. exists (lo z1). split; auto. split; [apply lo_range|]. now apply hal_lo.
    - destruct (aget s SP) as [| |p o| | |] eqn:E; try discriminate. pose proof (proj1 M SP) as Hs. rewrite E in Hs. cbn [mval conc] in Hs. rewrite Hs.
      rewrite <- Z.add_sub_assoc. eapply mst_push; [|exact H]. apply mst_setr; auto. reflexivity.
    - destruct (aget s SP) as [| |p o| | |] eqn:E; try discriminate. pose proof (proj1 M SP) as Hs. rewrite E in Hs. cbn [mval conc] in Hs. rewrite Hs.
      bnd H. injection H as <-. destruct (mst_pop _ _ _ _ _ _ M E0) as (t1 & -> & M1). cbn [bind]. eexists. split; [reflexivity|].
      apply mst_setr; auto. cbn [mval conc]. now rewrite Z.add_assoc.
    - bnd H. injection H as <-. destruct (mst_op2 _ _ _ _ M E) as (v & -> & Mv). cbn [bind]. eexists. split; [reflexivity|]. now apply mst_setr.
    - bnd H. nm. destruct (_ && _) eqn:En; [|discriminate]. injection H as <-. eexists. split; [reflexivity|]. apply mst_setr; auto.
      apply mval_pk; [apply lo_range|lia|now apply hal_lo|now apply hal_const].
    - bnd H. injection H as <-. destruct (mst_op2 _ _ _ _ M E) as (v & -> & Mv). cbn [bind].
      destruct (a_add_ok _ _ _ _ _ (proj1 M n) Mv E0) as (u & -> & Mu). cbn [bind]. eexists. split; [reflexivity|]. now apply mst_setr.
    - bnd H. injection H as <-. destruct (mst_op2 _ _ _ _ M E) as (v & -> & Mv). cbn [bind].
      destruct (a_sub_ok _ _ _ _ _ (proj1 M n) Mv E0) as (u & -> & Mu). cbn [bind]. eexists. split; [reflexivity|]. now apply mst_setr.
    - bnd H. nm. destruct (a_op2 s x) as [[|k| | | |]|] eqn:Ex; try discriminate. destruct (Z.eqb_spec k (8191 * 65537)) as [->|]; [|discriminate].
      injection H as <-. destruct (mst_op2 _ _ _ _ M Ex) as (v & E1 & Mv). unfold num2. rewrite E1. cbn [bind]. destruct Mv as (-> & _). cbn [int_of bind].
      eexists. split; [reflexivity|]. apply mst_setr; auto.
      rewrite land_mask by auto.
      pose proof (lo_range z). pose proof (hi_range z). change (2 ^ 13) with 8192.
      apply mval_pk; [dlia|dlia|apply (hal_mask _ _ 13); [lia|now apply hal_lo]|apply (hal_mask _ _ 13); [lia|now apply hal_hi]].
    - bnd H. nm. destruct (_ && _) eqn:En; [|discriminate]. injection H as <-. apply andb_true_iff in En as (A & B). apply Z.eqb_eq in A, B. subst k w.
      eexists. split; [reflexivity|]. apply mst_setr; auto. change (2 ^ 0) with 1. rewrite Z.div_1_r.
      cbn [mval]. eexists. split; [reflexivity|]. change (2 ^ 13) with 8192. split; [dlia|]. split; [apply (hal_mask _ _ 13); auto; lia|].
      replace (z mod 8192 / 65536) with 0 by dlia. now apply hal_const.
    - bnd H. nm. injection H as <-. eexists. split; [reflexivity|]. apply mst_setr; auto.
      apply mval_pk; try apply lo_range; apply hal_lo, hal_add; auto using hal_lo, hal_hi.
    - bnd H. nm. injection H as <-. eexists. split; [reflexivity|]. apply mst_setr; auto.
      apply mval_pk; try apply lo_range; apply hal_lo, hal_sub; auto using hal_lo, hal_hi.
    - bnd H. nm. cbn [shift]. destruct (Z.eqb_spec k 0) as [->|]; [|destruct (_ && _) eqn:En; [|discriminate]]; injection H as <-; eexists; (split; [reflexivity|]); apply mst_setr; auto.
      + change (2 ^ 0) with 1. rewrite Z.mul_1_r. unfold u32. rewrite Z.mod_small by lia. apply mval_pk; [apply lo_range|apply hi_range|now apply hal_lo|now apply hal_hi].
      + apply mval_pk; [apply lo_range|apply hi_range|now apply hal_lo|]. apply hal_hi.
        eapply hal_eqm; [|apply hal_scale; exact Hl]. unfold u32.
        replace (2 ^ k) with (65536 * 2 ^ (k - 16)) by (change 65536 with (2 ^ 16); rewrite <- Z.pow_add_r by lia; f_equal; lia).
        remember (2 ^ (k - 16)) as q. exists (- (z * q / 65536)).
        replace (z * (65536 * q)) with (z * q * 65536) by ring. remember (z * q) as w. dlia.
    - bnd H. nm. cbn [shift]. destruct (Z.eqb_spec k 0) as [->|]; [|destruct (16 <=? k) eqn:En; [|discriminate]]; injection H as <-; eexists; (split; [reflexivity|]); apply mst_setr; auto.
      + change (2 ^ 0) with 1. rewrite Z.div_1_r. apply mval_pk; [apply lo_range|apply hi_range| |now apply hal_hi].
        apply hal_lo, hal_u32. eapply hal_eqm; [|exact Hl]. unfold s32. destruct (_ <? _); [apply eqm_refl|exists (-65536); lia].
      + apply mval_pk; [apply lo_range|apply hi_range| |now apply hal_hi]. apply hal_lo, asr_ok; auto; lia.
    - bnd H. nm. injection H as <-. eexists. split; [reflexivity|]. apply mst_setr; auto. apply mval_u32, (hal_mul vx vy vx0 vy0); apply hal_half; auto.
    - bnd H. nm. injection H as <-. eexists. split; [reflexivity|]. apply mst_setr; auto. apply mval_u32, hal_add; auto. apply (hal_mul vx vy vx0 vy0); apply hal_half; auto.
    - bnd H. nm. injection H as <-. eexists. split; [reflexivity|]. apply mst_setr; auto. apply mval_u32, hal_add; apply (hal_mul vx vy vx0 vy0); auto.
      + apply (hal_half false p); auto. + apply hal_half; auto. + apply (hal_half true p); auto. + apply hal_half; auto.
    - bnd H. nm. injection H as <-. eexists. split; [reflexivity|]. apply mst_setr; auto. apply mval_u32, hal_add; auto. apply hal_add; apply (hal_mul vx vy vx0 vy0); auto.
      + apply (hal_half false p); auto. + apply hal_half; auto. + apply (hal_half true p); auto. + apply hal_half; auto.
    - bnd H. injection H as <-. destruct (mst_op2 _ _ _ _ M E) as (v & -> & Mv). cbn [bind].
      rewrite (a_cmp_ok _ _ _ _ _ (proj1 M n) Mv E0). cbn [bind]. destruct p as [z c]. eexists. split; [reflexivity|].
      destruct M as (A & B & C & D). split; [|split; [|split]]; auto. cbn [af fz fc]. congruence.
    - destruct (af s) as [[z c]|] eqn:Ef; [|discriminate]. pose proof (proj2 (proj2 (proj2 M)) _ Ef) as F. injection F as -> ->.
      destruct (_ || _); [now apply (IH s t)|]. injection H as <-. eauto.
    - destruct (aget s r) as [| | |k| |] eqn:E; try discriminate. injection H as <-. pose proof (proj1 M r) as Hr. rewrite E in Hr. cbn [mval conc] in Hr. rewrite Hr.
      eexists. split; [reflexivity|]. now apply mst_setr.
  Qed.

  Lemma mst_steps : forall l s t s', mst s t -> asteps size l s = Some s' -> exists t', steps csize l t = Some t' /\ mst s' t'.
  Proof.
    induction l as [|i l IH]; intros s t s' M H; cbn [asteps steps] in *; [injection H as <-; eauto|].
    bnd H. destruct (mst_step _ _ _ _ M E) as (t1 & -> & M1). cbn [bind]. eapply IH; eauto.
  Qed.
  Lemma mst_loop : forall n l s t s', mst s t -> aloop size n l s = Some s' -> exists t', loop csize n l t = Some t' /\ mst s' t'.
  Proof.
    induction n as [|n IH]; intros l s t s' M H; cbn [aloop loop] in *; [discriminate|].
    bnd H. destruct (mst_steps _ _ _ _ M E) as (t1 & -> & M1). cbn [bind].
    destruct (af a) as [[z c]|] eqn:Ef; [|discriminate]. pose proof (proj2 (proj2 (proj2 M1)) _ Ef) as F. injection F as -> ->.
    destruct (fz t1); [injection H as <-; eauto|]. eapply IH; eauto.
  Qed.

  Lemma aget_afill : forall n p i c s r, aget (afill n p i c s) r = aget s r.
  Proof. induction n; intros; cbn [afill]; [auto|]. rewrite IHn. reflexivity. Qed.
  Lemma mget_afill : forall n p i c s q j, (forall k, 0 <= k < Z.of_nat n -> inw p (i + k)) -> inw q j ->
    mget (afill n p i c s) q j = if (Pos.eqb q p && (i <=? j) && (j <? i + Z.of_nat n))%bool then Some (c j) else mget s q j.
  Proof.
    induction n as [|n IH]; intros p i c s q j W Hq; cbn [afill].
    - replace (_ && _)%bool with false; auto. symmetry. destruct (Pos.eqb q p); cbn [andb]; auto. destruct (i <=? j) eqn:E; cbn [andb]; auto. lia.
    - rewrite IH; auto.
      + pose proof (W 0 ltac:(lia)) as W0. rewrite Z.add_0_r in W0. rewrite mget_mset by auto.
        destruct (Pos.eqb q p); cbn [andb]; auto.
        destruct (i + 1 <=? j) eqn:E1, (j <? i + 1 + Z.of_nat n) eqn:E2, (j =? i) eqn:E3, (i <=? j) eqn:E4, (j <? i + Z.of_nat (S n)) eqn:E5; cbn [andb]; auto; try lia; do 2 f_equal; lia.
      + intros k Hk. rewrite <- Z.add_assoc. apply W. lia.
  Qed.

  Lemma mst_memset : forall s t s', mst s t -> amemset0 size s = Some s' -> exists t', memset0 csize scratch t = Some t' /\ mst s' t'.
  Proof.
    intros s t s' M H. unfold amemset0, memset0 in *.
    pose proof (proj1 M R0) as A0. pose proof (proj1 M R1) as A1. pose proof (proj1 M R2) as A2.
    destruct (aget s R0) as [| |p o| | |]; try discriminate. destruct (aget s R1) as [|[| |]| | | |]; try discriminate. destruct (aget s R2) as [|n| | | |]; try discriminate.
    destruct (_ && _) eqn:En; [|discriminate]. apply andb_true_iff in En as (En & En').
    cbn [mval conc] in A0, A1, A2. rewrite A0, (proj1 A1), (proj1 A2). rewrite En.
    bnd H. injection H as <-.
    destruct (mst_index s t p o (n / 2) z M ltac:(dlia) E) as (-> & W). cbn [bind]. eexists. split; [reflexivity|].
    destruct M as (Hr & Hm & Ho & Hf). split; [|split; [|split]].
    - intros r. unfold aget. cbn [ar].
      change (mval (aget (aset (aset (aset (aset (aset (aset (afill (Z.to_nat (n / 2)) p z (fun _ => CH (hconst 0)) s) R1 AT) R2 AT) R3 AT) R12 AT) LR AT) PC AT) r)
        (match r with R1 | R2 | R3 | R12 | LR | PC => rg scratch r | _ => rg t r end)).
      rewrite !aget_aset, aget_afill. destruct r; cbn; try exact Logic.I; apply Hr.
    - intros q j Hq. cbn [mm].
      change (mcell q j (mget (afill (Z.to_nat (n / 2)) p z (fun _ => CH (hconst 0)) s) q j)
        (if (Pos.eqb (pr q) (pr p) && (hb p + z <=? hb q + j) && (hb q + j <? hb p + z + n / 2))%bool then Half 0 else mm t (pr q) (hb q + j))).
      rewrite mget_afill; auto; [|intros k Hk; apply W; dlia]. rewrite Z2Nat.id by dlia.
      destruct (Pos.eqb_spec q p) as [->|N]; cbn [andb].
      + rewrite Pos.eqb_refl. cbn [andb].
        replace (hb p + z <=? hb p + j) with (z <=? j) by (destruct (Z.leb_spec z j), (Z.leb_spec (hb p + z) (hb p + j)); lia || auto).
        replace (hb p + j <? hb p + z + n / 2) with (j <? z + n / 2) by (destruct (Z.ltb_spec j (z + n / 2)), (Z.ltb_spec (hb p + j) (hb p + z + n / 2)); lia || auto).
        destruct (_ && _); [|now apply Hm]. cbn [mcell]. exists 0. split; auto. split; [lia|]. now apply hal_const.
      + destruct (Pos.eqb_spec (pr q) (pr p)) as [Ep|]; cbn [andb]; [|now apply Hm].
        destruct (Z.leb_spec (hb p + z) (hb q + j)) as [G1|]; cbn [andb]; [|now apply Hm].
        destruct (Z.ltb_spec (hb q + j) (hb p + z + n / 2)) as [G2|]; [|now apply Hm].
        exfalso. apply N. destruct Hpl as (_ & D & _). apply (D q p j (hb q + j - hb p)); auto; [|lia].
        replace (hb q + j - hb p) with (z + (hb q + j - hb p - z)) by lia. apply W. lia.
    - intros q j Hq. cbn [mm]. destruct (Pos.eqb_spec q (pr p)) as [->|]; cbn [andb]; [|now apply Ho].
      destruct (Z.leb_spec (hb p + z) j); cbn [andb]; [|now apply Ho]. destruct (Z.ltb_spec j (hb p + z + n / 2)); [|now apply Ho].
      exfalso. apply (Hq p (j - hb p)); [|split; auto; lia]. replace (j - hb p) with (z + (j - hb p - z)) by lia. apply W. lia.
    - cbn [af]. discriminate.
  Qed.

  Definition ccall (n : nat) (f : list stmt) (t : state) : option state :=
    s <-? exec csize scratch n f (setr t LR (Ret (Z.of_nat n))) ;; if val_eq_dec (rg s PC) (Ret (Z.of_nat n)) then Some s else None.
  Lemma exec_cons : forall n x c t, exec csize scratch (S n) (x :: c) t =
    (s <-? match x with I i => step csize i t | Loop b => loop csize 64 b t | Memset => memset0 csize scratch t | Call f => ccall n f t end ;;
     exec csize scratch (S n) c s).
  Proof. intros. destruct x; reflexivity. Qed.

  (** The functions called. *)
  Definition calls (c : list stmt) : list (list stmt) := flat_map (fun x => match x with Call f => [f] | _ => [] end) c.

  Lemma mst_run : forall n call c, Forall (fun f => forall s s' t, call f s = Some s' -> mst s t -> exists t', ccall n f t = Some t' /\ mst s' t') (calls c) ->
    forall s t s', mst s t -> arun size call c s = Some s' -> exists t', exec csize scratch (S n) c t = Some t' /\ mst s' t'.
  Proof.
    intros n call. induction c as [|x c IH]; intros Hc s t s' M H; cbn [arun] in H; [injection H as <-; exists t; now split|].
    rewrite exec_cons. unfold calls in Hc. cbn [flat_map] in Hc. apply Forall_app in Hc as (Hf & Hc). specialize (IH Hc). destruct x as [i|b|f|].
    - bnd H. destruct (mst_step _ _ _ _ M E) as (t1 & -> & M1). cbn [bind]. eapply IH; eauto.
    - bnd H. destruct (mst_loop _ _ _ _ _ M E) as (t1 & -> & M1). cbn [bind]. eapply IH; eauto.
    - bnd H. apply Forall_inv in Hf. destruct (Hf _ _ _ E M) as (t1 & -> & M1). cbn [bind]. eapply IH; eauto.
    - bnd H. destruct (mst_memset _ _ _ M E) as (t1 & -> & M1). cbn [bind]. eapply IH; eauto.
  Qed.
  Lemma mst_exec : forall n c s t s', mst s t -> aexec size n c s = Some s' -> exists t', exec csize scratch n c t = Some t' /\ mst s' t'.
  Proof.
    induction n as [|n IH]; intros c s t s' M H; [discriminate|]. cbn [aexec] in H.
    eapply mst_run; eauto. clear s t s' M H. apply Forall_forall. intros f _ s s' t H M. unfold acall in H. unfold ccall. bnd H.
    eapply IH in E as (t1 & -> & M1); [|apply mst_setr; [eauto|reflexivity]]. cbn [bind].
    destruct (aget a PC) as [| | |k| |] eqn:Ep; try discriminate. destruct (Z.eqb_spec k (Z.of_nat n)); [|discriminate]. injection H as <-. subst k.
    pose proof (proj1 M1 PC) as Hp. rewrite Ep in Hp. cbn [mval conc] in Hp. rewrite Hp. destruct (val_eq_dec _ _); [|congruence]. eauto.
  Qed.
End Sound.
