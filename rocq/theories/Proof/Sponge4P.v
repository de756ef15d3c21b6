(** The four-fold sponge of SaberX4_avx2 computes SHA3-256, SHA3-512, SHAKE128 and SHAKE256 of four messages. *)
From Coq Require Import ZArith List Bool Lia.
From Verif Require Import Lib.Wire Lib.Arr Lib.CInt Lib.CMon Spec.Bits Spec.Keccak Spec.Shake256 Model.Params Model.Fips202 Model.Fips202x4
  Proof.PackThm Proof.CbdP Proof.PolyP Proof.KemP Proof.KeccakP Proof.SpongeP Proof.Keccak4P.
Import ListNotations.
Local Open Scope Z_scope.

(** ** Loops over the four instances *)
Lemma wp_for_for4 : forall A lo hi (f : Z -> Z -> A -> M A) (I : Z -> Z -> A -> Prop) q (Q : quad A -> Prop), lo <= hi ->
  (forall k, 0 <= k < 4 -> I k lo (sel q k)) ->
  (forall i k x, lo <= i < hi -> 0 <= k < 4 -> I k i x -> wp (f i k x) (I k (i + 1))) ->
  (forall q', (forall k, 0 <= k < 4 -> I k hi (sel q' k)) -> Q q') ->
  wp (for_ lo hi (fun i => for4 (f i)) q) Q.
Proof.
  intros A lo hi f I q Q Hl H0 Hs HQ.
  apply wp_for with (I := fun i q => forall k, 0 <= k < 4 -> I k i (sel q k)); auto.
  intros i s Hi Hk. apply wp_for4 with (g := fun k => I k (i + 1)); auto.
Qed.

Lemma wp_each4 : forall t n (e : Z -> Z -> cexp) (v : Z -> Z -> Z) u (Q : quad (list Z) -> Prop), 0 <= n ->
  (forall k, 0 <= k < 4 -> n <= len (sel u k)) ->
  (forall i k, 0 <= i < n -> 0 <= k < 4 -> safe (e k i) = true /\ lok (e k i) /\ wrap t (val (e k i)) = v k i) ->
  (forall u', (forall k, 0 <= k < 4 -> len (sel u' k) = len (sel u k) /\
     forall i, 0 <= i < len (sel u k) -> get (sel u' k) i = if i <? n then v k i else get (sel u k) i) -> Q u') ->
  wp (for_ 0 n (fun i => for4 (fun k u => st t u i (e k i))) u) Q.
Proof.
  intros t n e v u Q Hn Hl He HQ.
  apply (wp_for_for4 _ 0 n (fun i k u => st t u i (e k i)) (fun k j u' => len u' = len (sel u k) /\
     forall i, 0 <= i < len (sel u k) -> get u' i = if i <? j then v k i else get (sel u k) i)); auto.
  - intros k Hk. split; auto. intros i Hi. now replace (i <? 0) with false by lia.
  - intros i k x Hi Hk (L & G). destruct (He i k Hi Hk) as (S & K & V). specialize (Hl k Hk).
    apply wp_st; auto; [lia|]. split; [now rewrite len_upd|].
    intros j Hj. unfold get at 1. rewrite znth_upd by lia. destruct (j =? i) eqn:E.
    + assert (j = i) by lia. subst j. now replace (i <? i + 1) with true by lia.
    + change (znth 0 x j) with (get x j). rewrite G by auto. now replace (j <? i + 1) with (j <? i) by lia.
Qed.

(** ** Absorbing *)
Lemma wp_xor_lanes4 : forall f r m (Q : list Z -> Prop), (forall k, 0 <= k < 4 -> arr U64 25 (f k)) -> 0 <= r <= 25 ->
  (forall k, 0 <= k < 4 -> 8 * r <= len (sel m k) /\ typed U8 (sel m k)) ->
  Q (pack4 (fun k => xor_bytes r (f k) (sel m k))) -> wp (xor_lanes4x (pack4 f) (8 * r) m) Q.
Proof.
  intros f r m Q Hf Hr Hm HQ. unfold xor_lanes4x. rewrite (Z.mul_comm 8 r), Z.div_mul by lia.
  set (w := fun j => Z.lxor (get (pack4 f) j) (bits_val 64 (fun z => fbit 8 (sel m (j mod 4)) (64 * (j / 4) + z)))).
  assert (forall j, 0 <= j < 100 -> u64 (get (pack4 f) j)) as U by (intros; apply typed_u64; [apply pack4_arr; auto|rewrite len_pack4; lia]).
  assert (forall j, 0 <= j < 100 -> u64 (w j)) as Uw by (intros; apply u64_lxor; auto; apply bits_val_bound; lia).
  set (J := fun n a => len a = 100 /\ typed U64 a /\ forall j, 0 <= j < 100 -> get a j = if j <? n then w j else get (pack4 f) j).
  assert (forall i k a (P : list Z -> Prop), 0 <= i < r -> 0 <= k < 4 -> J (4 * i + k) a -> (forall a', J (4 * i + k + 1) a' -> P a') ->
    wp (p <- ptr (sel m k) (8 * i) ;; w <- load64 p ;; st U64 a (4 * i + k) (Idx U64 a (4 * i + k) .^ w)%C) P) as One.
  { intros i k a P Hi Hk (La & Ta & Ga) HP. destruct (Hm k Hk) as (Lm & Tm).
    apply wp_bind, wp_ptr; [lia|]. apply wp_bind, wp_load64; [rewrite len_zskip; lia|now apply Forall_zskip|].
    assert (0 <= bits_val 64 (fbit 8 (zskip (8 * i) (sel m k))) < 2 ^ 64) as B by (apply bits_val_bound; lia).
    pose proof (typed_u64 a (4 * i + k) Ta ltac:(lia)) as B2. unfold u64 in B2.
    apply wp_st; [reflexivity|cbn [lok tmin tmax]; repeat split; auto; lia|lia|]. apply HP.
    cbn [val val_bin ty promote common]. unfold cv, uw. cbn [subr signed].
    assert (Z.lxor (get a (4 * i + k)) (bits_val 64 (fbit 8 (zskip (8 * i) (sel m k)))) = w (4 * i + k)) as ->.
    { unfold w. rewrite Ga by lia. replace (4 * i + k <? 4 * i + k) with false by lia. f_equal.
      replace ((4 * i + k) mod 4) with k by (apply Z.mod_unique with i; lia).
      replace ((4 * i + k) / 4) with i by (apply Z.div_unique with k; lia).
      apply bits_val_ext. intros z Hz. rewrite fbit_zskip by lia. f_equal. lia. }
    pose proof (Uw (4 * i + k) ltac:(lia)) as Uk. unfold u64 in Uk. rewrite wrap_id by (cbn [tmin tmax]; lia).
    split; [now rewrite len_upd|]. split; [apply typed_upd; auto; cbn [tmin tmax]; lia|].
    intros j Hj. unfold get at 1. rewrite znth_upd by lia. destruct (j =? 4 * i + k) eqn:E.
    - replace (j <? 4 * i + k + 1) with true by lia. f_equal. lia.
    - change (znth 0 a j) with (get a j). rewrite Ga by lia. now replace (j <? 4 * i + k + 1) with (j <? 4 * i + k) by lia. }
  apply wp_for with (I := fun i a => J (4 * i) a).
  - lia.
  - split; [apply len_pack4|]. split; [apply pack4_arr; auto|]. intros j Hj. now replace (j <? 4 * 0) with false by lia.
  - intros i a Hi HJ. cbn zeta.
    apply wp_bind, One; auto; [lia|now rewrite Z.add_0_r|]. clear a HJ. intros a HJ. rewrite Z.add_0_r in HJ.
    apply wp_bind, One; auto; [lia|]. clear a HJ. intros a HJ.
    apply wp_bind, One; auto; [lia|now replace (4 * i + 2) with (4 * i + 1 + 1) by lia|]. clear a HJ. intros a HJ.
    apply One; auto; [lia|now replace (4 * i + 3) with (4 * i + 2 + 1) by lia|]. clear a HJ. intros a HJ.
    now replace (4 * (i + 1)) with (4 * i + 3 + 1) by lia.
  - intros a (La & Ta & Ga). rewrite (pack4_of a (fun k => xor_bytes r (f k) (sel m k))); auto.
    intros i k Hi Hk. rewrite Ga by lia. unfold xor_bytes, get at 2. rewrite znth_ztab by lia.
    replace (4 * i + k <? 4 * r) with (i <? r) by lia. unfold w. rewrite get_pack4 by auto.
    replace ((4 * i + k) mod 4) with k by (apply Z.mod_unique with i; lia).
    replace ((4 * i + k) / 4) with i by (apply Z.div_unique with k; lia). reflexivity.
Qed.

(** The last block: the rest of the message, the suffix and the padding. *)
Lemma tail_block : forall r m mlen p sfx t A,
  0 < r <= 25 -> 0 <= mlen <= len m -> len sfx <= 6 ->
  (forall b, 0 <= b < 8 -> Z.testbit p b = znth false (sfx ++ [true]) b) -> arr U64 25 A ->
  (forall i, 0 <= i < 8 * r -> get t i =
     Z.lor (if i <? mlen mod (8 * r) then get m (8 * r * (mlen / (8 * r)) + i) else if i =? mlen mod (8 * r) then p else 0)
           (if i =? 8 * r - 1 then 128 else 0)) ->
  xor_bytes r A t = xor_block (8 * (8 * r)) A (padded (8 * (8 * r)) (zfirst mlen m) sfx) (mlen / (8 * r)).
Proof.
  intros r m mlen p sfx t A Hr Hm Hs Hb HA Ht.
  set (R := 8 * r) in *. set (P := padded (8 * R) (zfirst mlen m) sfx) in *. set (n := mlen / R) in *.
  assert (0 <= n) as Hn by (apply Z.div_pos; lia).
  pose proof (Z.div_mod mlen R ltac:(lia)) as DM. pose proof (Z.mod_pos_bound mlen R ltac:(lia)) as MB. fold n in DM.
  set (l := mlen mod R) in *.
  rewrite (xor_bytes_block r _ _ P n); [f_equal; lia|auto|lia|].
  intros j Hj. rewrite fbit_split by lia. pose proof (Z.div_mod j 8). pose proof (Z.mod_pos_bound j 8).
  set (i := j / 8) in *. set (b := j mod 8) in *. assert (0 <= i < R) by lia.
  rewrite Ht by lia. rewrite Z.lor_spec.
  assert (Z.testbit (if i =? R - 1 then 128 else 0) b = ((i =? R - 1) && (b =? 7))) as ->.
  { destruct (i =? R - 1); cbn [andb]; [|apply Z.bits_0]. change 128 with (2 ^ 7). rewrite Z.pow2_bits_eqb by lia. lia. }
  unfold P. rewrite padded_bit; rewrite ?len_zfirst by lia; fold n; [|lia|lia|nia].
  replace (64 * r * n + j - 8 * mlen) with (8 * (i - l) + b) by lia.
  assert ((64 * r * n + j <? 8 * mlen) = (i <? l)) as -> by lia.
  assert ((64 * r * n + j =? 8 * R * (n + 1) - 1) = ((i =? R - 1) && (b =? 7))) as -> by lia.
  destruct (i <? l) eqn:E1.
  - replace (i =? R - 1) with false by lia. cbn [andb]. rewrite orb_false_r.
    replace (64 * r * n + j) with (8 * (R * n + i) + b) by lia. rewrite fbit_zfirst by lia. now rewrite fbit_at by lia.
  - destruct ((i =? R - 1) && (b =? 7)) eqn:E3; [apply orb_true_r|]. rewrite orb_false_r.
    destruct (i =? l) eqn:E2.
    + rewrite Hb by lia. f_equal. lia.
    + rewrite Z.bits_0. rewrite znth_default; auto. rewrite len_app. change (len [true]) with 1. lia.
Qed.

Lemma lor_128 : forall x, 0 <= x <= 255 -> 0 <= Z.lor x 128 <= 255.
Proof.
  intros x Hx. assert (0 <= Z.lor x 128) by (apply Z.lor_nonneg; lia). split; auto.
  assert (Z.lor x 128 < 2 ^ 8); [|lia]. destruct (Z.eq_dec (Z.lor x 128) 0) as [->|N]; [lia|].
  apply Z.log2_lt_pow2; [lia|]. rewrite Z.log2_lor by lia. apply Z.max_lub_lt; [|reflexivity].
  destruct (Z.eq_dec x 0) as [->|]; [reflexivity|]. apply Z.log2_lt_pow2; lia.
Qed.

Lemma wp_keccak_absorb4 : forall junk r m mlen p sfx (Q : list Z -> Prop),
  0 < r <= 25 -> 0 <= mlen -> (forall k, 0 <= k < 4 -> mlen <= len (sel m k) /\ typed U8 (sel m k)) -> len sfx <= 6 ->
  0 <= p < 256 -> (forall b, 0 <= b < 8 -> Z.testbit p b = znth false (sfx ++ [true]) b) ->
  Q (pack4 (fun k => absorbed (8 * r) (zfirst mlen (sel m k)) sfx)) ->
  wp (keccak_absorb4x junk (pack4 (fun _ => repeat 0 25)) (8 * r) m mlen p) Q.
Proof.
  intros junk r m mlen p sfx Q Hr Hm0 Hm Hs Hp Hb HQ. unfold keccak_absorb4x. unfold absorbed in HQ.
  rewrite (pack4_ext _ (fun k => xor_block (8 * (8 * r)) (absorb (Z.to_nat (mlen / (8 * r))) (8 * (8 * r)) (padded (8 * (8 * r)) (zfirst mlen (sel m k)) sfx))
    (padded (8 * (8 * r)) (zfirst mlen (sel m k)) sfx) (mlen / (8 * r)))) in HQ
    by (intros k Hk; destruct (Hm k Hk); rewrite len_zfirst by lia; reflexivity).
  set (R := 8 * r) in *. set (P := fun k => padded (8 * R) (zfirst mlen (sel m k)) sfx) in *. set (n := mlen / R) in *.
  assert (0 <= n) as Hn by (apply Z.div_pos; lia).
  pose proof (Z.div_mod mlen R ltac:(lia)) as DM. pose proof (Z.mod_pos_bound mlen R ltac:(lia)) as MB. fold n in DM.
  assert (forall k q, 0 <= k < 4 -> 0 <= q < 8 * R * n -> znth false (P k) q = fbit 8 (sel m k) q) as PB.
  { intros k q Hk Hq. destruct (Hm k Hk). unfold P. rewrite padded_bit; rewrite ?len_zfirst by lia; [|lia|lia|fold n; lia]. fold n.
    replace (q <? 8 * mlen) with true by nia. apply fbit_zfirst. nia. }
  apply wp_bind. apply wp_while with (m := n) (I := fun j '(s, m', l') =>
    s = pack4 (fun k => absorb (Z.to_nat j) (8 * R) (P k)) /\ m' = tab4 (fun k => zskip (R * j) (sel m k)) /\ l' = mlen - R * j).
  - lia.
  - lia.
  - rewrite Z.mul_0_r. repeat split; [|lia]. apply quad_eq. reflexivity.
  - intros j ((s, m'), l') Hj (-> & -> & ->). destruct (j <? n) eqn:E; nia.
  - intros j ((s, m'), l') Hj (-> & -> & ->).
    apply wp_bind. apply wp_xor_lanes4; [intros; apply absorb_arr|lia| |].
    { intros k Hk. rewrite sel_tab4 by auto. destruct (Hm k Hk) as (L & T). split; [rewrite len_zskip; nia|now apply Forall_zskip]. }
    rewrite (pack4_ext _ (fun k => xor_block (8 * R) (absorb (Z.to_nat j) (8 * R) (P k)) (P k) j)).
    2: { intros k Hk. rewrite sel_tab4 by auto. destruct (Hm k Hk) as (L & T). rewrite (xor_bytes_block r _ _ (P k) j); [f_equal; lia|apply absorb_arr|lia|].
         intros i Hi. rewrite fbit_zskip, PB by nia. f_equal. lia. }
    apply wp_bind, wp_permute4; [intros; apply xor_block_arr|].
    apply wp_bind, (wp_for4_eq _ _ _ _ (fun k => zskip (R * (j + 1)) (sel m k))).
    { intros k Hk P0 HP. rewrite sel_tab4 by auto. destruct (Hm k Hk) as (L & T). apply wp_ptr; [rewrite len_zskip; nia|].
      rewrite zskip_zskip by lia. now replace (R * j + R) with (R * (j + 1)) by lia. }
    apply wp_ret. repeat split; [|lia]. apply pack4_ext. intros k Hk.
    replace (Z.to_nat (j + 1)) with (S (Z.to_nat j)) by lia. cbn [absorb]. now rewrite Z2Nat.id by lia.
  - intros ((s, m'), l') (-> & -> & ->).
    assert (mlen - R * n = mlen mod R) as Hl by lia. rewrite Hl.
    set (l := mlen mod R) in *.
    assert (forall k, 0 <= k < 4 -> arr U8 200 (sel (tab4 (fun k => uninit8 junk k 200)) k)) as T0.
    { intros k Hk. rewrite sel_tab4 by auto. apply uninit8_arr. lia. }
    set (t0 := tab4 (fun k => uninit8 junk k 200)) in *. clearbody t0.
    apply wp_bind, wp_each4 with (v := fun _ _ => 0); [lia|intros k Hk; destruct (T0 k Hk); lia|intros; split; [reflexivity|split; [cbn; lia|reflexivity]]|].
    intros t1 G1.
    apply wp_bind, (wp_each4 U8 l (fun k i => Idx U8 (sel (tab4 (fun k => zskip (R * n) (sel m k))) k) i) (fun k => get (zskip (R * n) (sel m k)))).
    { lia. }
    { intros k Hk. destruct (T0 k Hk), (G1 k Hk). lia. }
    { intros i k Hi Hk. rewrite sel_tab4 by auto. destruct (Hm k Hk) as (L & T).
      assert (typed U8 (zskip (R * n) (sel m k))) as TT by now apply Forall_zskip.
      assert (0 <= i < len (zskip (R * n) (sel m k))) by (rewrite len_zskip; lia).
      split; [reflexivity|]. split; [now split|]. cbn [val]. apply wrap_id. now apply typed_get. }
    intros t2 G2.
    set (g := fun k i => if i =? l then p else if i <? l then get (sel m k) (R * n + i) else if i <? R then 0 else get (sel t0 k) i).
    assert (forall k i, 0 <= k < 4 -> 0 <= i < 200 -> 0 <= g k i <= 255) as Bg.
    { intros k i Hk Hi. unfold g. destruct (i =? l) eqn:E; [lia|]. destruct (Hm k Hk) as (L & T). destruct (T0 k Hk) as (L0 & T0').
      destruct (i <? l) eqn:E1; [pose proof (typed_get U8 (sel m k) (R * n + i) T ltac:(lia)); cbn [tmin tmax] in *; lia|].
      destruct (i <? R); [lia|]. pose proof (typed_get U8 (sel t0 k) i T0' ltac:(lia)); cbn [tmin tmax] in *; lia. }
    apply wp_bind, (wp_for4 _ _ _ _ (fun k t => len t = 200 /\ forall i, 0 <= i < 200 -> get t i = g k i)).
    { intros k Hk. destruct (T0 k Hk) as (L0 & T0'), (G1 k Hk) as (L1 & E1), (G2 k Hk) as (L2 & E2), (Hm k Hk) as (L & T).
      apply wp_st; [reflexivity|cbn [lok tmin tmax]; lia|lia|]. cbn [val]. rewrite wrap_id by (cbn [tmin tmax]; lia).
      split; [rewrite len_upd; lia|]. intros i Hi. unfold get at 1. rewrite znth_upd by lia. unfold g. destruct (i =? l) eqn:E; auto.
      change (znth 0 (sel t2 k) i) with (get (sel t2 k) i). rewrite E2 by lia. destruct (i <? l) eqn:F; [unfold get; now rewrite znth_zskip by lia|].
      rewrite E1 by lia. reflexivity. }
    intros t3 G3.
    apply wp_bind, (wp_for4 _ _ _ _ (fun k t => len t = 200 /\ forall i, 0 <= i < 200 -> get t i = Z.lor (g k i) (if i =? R - 1 then 128 else 0))).
    { intros k Hk. destruct (G3 k Hk) as (L3 & E3). pose proof (Bg k (R - 1) Hk ltac:(lia)) as B. pose proof (lor_128 _ B) as B2.
      assert (typed U8 (sel t3 k)) as T3.
      { apply Forall_znth_iff with 0. intros i Hi. change (tmin U8 <= get (sel t3 k) i <= tmax U8). rewrite E3 by lia.
        pose proof (Bg k i Hk ltac:(lia)). cbn [tmin tmax]. lia. }
      apply wp_st; [reflexivity|cbn [lok tmin tmax]; repeat split; auto; lia|lia|].
      cbn [val val_bin ty promote common]. unfold cv, uw. cbn [subr signed]. rewrite E3 by lia. rewrite wrap_id by (cbn [tmin tmax]; lia).
      split; [rewrite len_upd; lia|]. intros i Hi. unfold get at 1. rewrite znth_upd by lia. destruct (i =? R - 1) eqn:E.
      - do 2 f_equal. lia.
      - rewrite Z.lor_0_r. apply E3. lia. }
    intros t4 G4.
    apply wp_xor_lanes4; [intros; apply absorb_arr|lia| |].
    + intros k Hk. destruct (G4 k Hk) as (L4 & E4). split; [lia|].
      apply Forall_znth_iff with 0. intros i Hi. change (tmin U8 <= get (sel t4 k) i <= tmax U8). rewrite E4 by lia.
      pose proof (Bg k i Hk ltac:(lia)) as B. pose proof (lor_128 _ B). cbn [tmin tmax]. destruct (i =? R - 1); [lia|rewrite Z.lor_0_r; lia].
    + rewrite (pack4_ext _ (fun k => xor_block (8 * R) (absorb (Z.to_nat n) (8 * R) (P k)) (P k) n)); auto.
      intros k Hk. destruct (G4 k Hk) as (L4 & E4), (Hm k Hk) as (L & T).
      apply (tail_block r (sel m k) mlen p sfx); auto; [apply absorb_arr|].
      intros i Hi. rewrite E4 by lia. fold R. fold n. fold l. unfold g. replace (i <? R) with true by lia.
      destruct (i =? l) eqn:E; [replace (i <? l) with false by lia|]; reflexivity.
Qed.

(** ** Squeezing *)
Lemma wp_sqblock4 : forall (pre rest : Z -> list Z) f r off h (Q : quad (list Z) -> Prop), (forall k, 0 <= k < 4 -> arr U64 25 (f k)) ->
  0 <= r <= 25 -> (forall k, 0 <= k < 4 -> sel h k = pre k ++ rest k /\ len (pre k) = off /\ 8 * r <= len (rest k)) ->
  Q (tab4 (fun k => pre k ++ ztab (8 * r) (fun i => bits_val 8 (fun m => fbit 64 (f k) (8 * i + m))) ++ zskip (8 * r) (rest k))) ->
  wp (for_ 0 (8 * r / 8) (fun i => for4 (fun k h => w <- rd (pack4 f) (4 * i + k) ;;
    at_ h off (fun h => at_ h (8 * i) (fun p => store64 p (Var U64 w))))) h) Q.
Proof.
  intros pre rest f r off h Q Hf Hr Hh HQ. rewrite (Z.mul_comm 8 r), Z.div_mul by lia.
  set (g := fun k i => bits_val 8 (fun m => fbit 64 (f k) (8 * i + m))) in *.
  apply (wp_for_for4 _ 0 r (fun i k h => w <- rd (pack4 f) (4 * i + k) ;;
    at_ h off (fun h => at_ h (8 * i) (fun p => store64 p (Var U64 w)))) (fun k i a => a = pre k ++ ztab (8 * i) (g k) ++ zskip (8 * i) (rest k))).
  - lia.
  - intros k Hk. destruct (Hh k Hk) as (-> & _). reflexivity.
  - intros i k a Hi Hk ->. destruct (Hh k Hk) as (_ & Lp & Lr). pose proof (len_nonneg (pre k)).
    assert (len (ztab (8 * i) (g k)) = 8 * i) as Lf by (apply len_ztab; lia).
    assert (len (zskip (8 * i) (rest k)) = len (rest k) - 8 * i) as Lz by (apply len_zskip; lia).
    apply wp_bind, wp_rd; [rewrite len_pack4; lia|]. rewrite get_pack4 by lia.
    apply wp_at; [rewrite !len_app; lia|]. rewrite zfirst_app_at, zskip_app_at by auto.
    apply wp_at; [rewrite !len_app; lia|]. rewrite zfirst_app_at, zskip_app_at by auto.
    pose proof (arr_get_u64 (f k) i (Hf k Hk) ltac:(lia)).
    apply wp_store64; auto; [lia|]. rewrite zskip_zskip by lia.
    replace (8 * (i + 1)) with (8 * i + 8) by lia. rewrite ztab_split by lia. rewrite <- app_assoc. do 3 f_equal.
    apply ztab_ext. intros j Hj. unfold g. apply bits_val_ext. intros z Hz.
    replace (8 * (8 * i + j) + z) with (64 * i + (8 * j + z)) by lia. now rewrite fbit_at by lia.
  - intros q' Hq. rewrite (quad_eq _ q' _ Hq). rewrite (Z.mul_comm 8 r) in HQ. rewrite (Z.mul_comm 8 r). auto.
Qed.

Lemma wp_squeezeblocks4 : forall h n f r (Q : quad (list Z) * list Z -> Prop), (forall k, 0 <= k < 4 -> arr U64 25 (f k)) ->
  0 < r <= 25 -> 0 <= n -> (forall k, 0 <= k < 4 -> 8 * r * n <= len (sel h k)) ->
  Q (tab4 (fun k => ztab (8 * r * n) (outbyte (8 * r) (keccak_f (f k))) ++ zskip (8 * r * n) (sel h k)), pack4 (fun k => fiter n (f k))) ->
  wp (keccak_squeezeblocks4x h n (pack4 f) (8 * r)) Q.
Proof.
  intros h n f r Q Hf Hr Hn Hh HQ. unfold keccak_squeezeblocks4x. set (g := fun k => outbyte (8 * r) (keccak_f (f k))) in *.
  apply wp_for with (I := fun b '(h', s') => h' = tab4 (fun k => ztab (8 * r * b) (g k) ++ zskip (8 * r * b) (sel h k)) /\
    s' = pack4 (fun k => fiter b (f k))).
  - lia.
  - rewrite Z.mul_0_r. split; [apply quad_eq|]; reflexivity.
  - intros b (h', s') Hb (-> & ->).
    pose proof (fun k Hk => fiter_arr b (f k) (Hf k Hk)) as Fa.
    apply wp_bind, wp_permute4; auto. apply wp_bind.
    apply (wp_sqblock4 (fun k => ztab (8 * r * b) (g k)) (fun k => zskip (8 * r * b) (sel h k))); [intros; now apply keccak_f_arr, Fa|lia| |].
    + intros k Hk. rewrite sel_tab4 by auto. specialize (Hh k Hk). split; auto. split; [apply len_ztab; nia|rewrite len_zskip; nia].
    + apply wp_ret. split; [|apply pack4_ext; intros; now rewrite fiter_S by lia].
      apply tab4_ext. intros k Hk. specialize (Hh k Hk).
      rewrite zskip_zskip by lia. replace (8 * r * (b + 1)) with (8 * r * b + 8 * r) by lia. rewrite ztab_split by lia.
      rewrite <- app_assoc. f_equal. f_equal. apply ztab_ext. intros j Hj. unfold g.
      rewrite outbyte_block by lia. rewrite <- fiter_S', fiter_S by lia. reflexivity.
  - intros (h', s') (-> & ->). auto.
Qed.

(** ** The functions *)
Lemma wp_zero_state4 : forall s (Q : list Z -> Prop), len s = 100 -> Q (pack4 (fun _ => repeat 0 25)) -> wp (zero_state4x s) Q.
Proof.
  intros s Q L HQ. unfold zero_state4x.
  apply wp_for with (I := fun i a => len a = 100 /\ forall j, 0 <= j < 4 * i -> get a j = 0).
  - lia.
  - split; auto. lia.
  - intros i a Hi (La & Ga). apply wp_bind, wp_load256; [lia|auto|]. apply wp_store256; [lia|auto|].
    split; [apply len_stv|]. intros j Hj. rewrite get_stv by lia. destruct (j / 4 =? i) eqn:E; [|apply Ga; dlia].
    rewrite get_XOR by (apply Z.mod_pos_bound; lia). apply Z.lxor_nilpotent.
  - intros a (La & Ga). rewrite (pack4_of a (fun _ => repeat 0 25)); auto. intros i k Hi Hk. rewrite Ga by lia.
    unfold get. now rewrite znth_repeat.
Qed.

Lemma zfirst_snoc : forall l i, 0 <= i < len l -> zfirst (i + 1) l = zfirst i l ++ [get l i].
Proof.
  intros l i Hi. assert (len (zfirst i l) = i) as L by (apply len_zfirst; lia).
  apply znth_ext with 0; [rewrite len_app, L, len_zfirst by lia; reflexivity|].
  intros j Hj. rewrite len_zfirst in Hj by lia. rewrite znth_zfirst by lia. destruct (Z.eq_dec j i) as [->|].
  - rewrite znth_app2 by lia. rewrite L, Z.sub_diag. reflexivity.
  - rewrite znth_app1, znth_zfirst by lia. reflexivity.
Qed.

Lemma wp_out4 : forall (pre : Z -> list Z) out t off n (Q : quad (list Z) -> Prop), 0 <= n ->
  (forall k, 0 <= k < 4 -> n <= len (sel t k) /\ typed U8 (sel t k) /\ len (pre k) = off) ->
  (forall k, 0 <= k < 4 -> n <= len (sel out k)) ->
  Q (tab4 (fun k => pre k ++ zfirst n (sel t k) ++ zskip n (sel out k))) ->
  wp (for_ 0 n (fun i => for4 (fun k out => at_ out off (fun out => st U8 out i (Idx U8 (sel t k) i)))) (tab4 (fun k => pre k ++ sel out k))) Q.
Proof.
  intros pre out t off n Q Hn Ht Ho HQ.
  apply (wp_for_for4 _ 0 n (fun i k out => at_ out off (fun out => st U8 out i (Idx U8 (sel t k) i)))
    (fun k i a => a = pre k ++ zfirst i (sel t k) ++ zskip i (sel out k))).
  - lia.
  - intros k Hk. rewrite sel_tab4 by auto. reflexivity.
  - intros i k a Hi Hk ->. destruct (Ht k Hk) as (Lt & Tt & Lp). specialize (Ho k Hk). pose proof (len_nonneg (pre k)).
    assert (len (zfirst i (sel t k)) = i) as L1 by (apply len_zfirst; lia).
    assert (0 < len (zskip i (sel out k))) as L2 by (rewrite len_zskip; lia).
    apply wp_at; [rewrite !len_app; lia|]. rewrite zfirst_app_at, zskip_app_at by auto.
    apply wp_st; [reflexivity|cbn [lok]; split; auto; lia|rewrite len_app; lia|]. f_equal. cbn [val].
    rewrite wrap_id by (apply typed_get; auto; lia).
    replace (upd (zfirst i (sel t k) ++ zskip i (sel out k)) i (get (sel t k) i))
      with (upd (zfirst i (sel t k) ++ zskip i (sel out k)) (len (zfirst i (sel t k))) (get (sel t k) i)) by now rewrite L1.
    rewrite upd_app_skip by auto. rewrite zskip_zskip by lia. rewrite zfirst_snoc by lia. now rewrite <- app_assoc.
  - intros q' Hq. rewrite (quad_eq _ q' _ Hq). auto.
Qed.

Lemma wp_out4_0 : forall out t n (Q : quad (list Z) -> Prop), 0 <= n ->
  (forall k, 0 <= k < 4 -> n <= len (sel t k) /\ typed U8 (sel t k)) ->
  (forall k, 0 <= k < 4 -> n <= len (sel out k)) ->
  Q (tab4 (fun k => zfirst n (sel t k) ++ zskip n (sel out k))) ->
  wp (for_ 0 n (fun i => for4 (fun k out => st U8 out i (Idx U8 (sel t k) i))) out) Q.
Proof.
  intros out t n Q Hn Ht Ho HQ. apply wp_each4 with (v := fun k => get (sel t k)); auto.
  - intros i k Hi Hk. destruct (Ht k Hk) as (Lt & Tt). split; [reflexivity|]. split; [cbn [lok]; split; auto; lia|]. cbn [val]. apply wrap_id, typed_get; auto. lia.
  - intros u Hu. rewrite (quad_eq _ u (fun k => zfirst n (sel t k) ++ zskip n (sel out k))); auto. intros k Hk.
    destruct (Hu k Hk) as (L & G). destruct (Ht k Hk) as (Lt & Tt). specialize (Ho k Hk).
    assert (len (zfirst n (sel t k)) = n) as L1 by (apply len_zfirst; lia).
    assert (len (zskip n (sel out k)) = len (sel out k) - n) as L2 by (apply len_zskip; lia).
    apply znth_ext with 0; [rewrite len_app; lia|]. intros i Hi. change (get (sel u k) i = znth 0 (zfirst n (sel t k) ++ zskip n (sel out k)) i).
    rewrite G by lia. destruct (i <? n) eqn:E.
    + rewrite znth_app1, znth_zfirst by lia. reflexivity.
    + rewrite znth_app2, L1, znth_zskip by lia. unfold get. f_equal. lia.
Qed.

Lemma squeeze1 : forall r f t (Q : quad (list Z) * list Z -> Prop), (forall k, 0 <= k < 4 -> arr U64 25 (f k)) -> 0 < r <= 25 ->
  (forall k, 0 <= k < 4 -> len (sel t k) = 8 * r) ->
  Q (tab4 (fun k => ztab (8 * r) (outbyte (8 * r) (keccak_f (f k)))), pack4 (fun k => keccak_f (f k))) ->
  wp (keccak_squeezeblocks4x t 1 (pack4 f) (8 * r)) Q.
Proof.
  intros r f t Q Hf Hr Ht HQ. apply wp_squeezeblocks4; auto; [lia|intros k Hk; rewrite Ht by auto; lia|].
  rewrite Z.mul_1_r. erewrite tab4_ext; [exact HQ|]. intros k Hk. cbn beta. rewrite zskip_all by (rewrite Ht by auto; lia). apply app_nil_r.
Qed.

Theorem wp_sha3_256x4 : forall junk out inp n (Q : quad (list Z) -> Prop), 0 <= n -> (forall k, 0 <= k < 4 -> 32 <= len (sel out k)) ->
  (forall k, 0 <= k < 4 -> n <= len (sel inp k) /\ typed U8 (sel inp k)) ->
  Q (tab4 (fun k => SHA3_256 (zfirst n (sel inp k)) ++ zskip 32 (sel out k))) -> wp (sha3_256x4 junk out inp n) Q.
Proof.
  intros junk out inp n Q Hn Ho Hi HQ. unfold sha3_256x4.
  apply wp_bind, wp_zero_state4; [apply uninit_len; lia|].
  apply wp_bind, (wp_keccak_absorb4 _ 17 _ _ _ [false; true]); [lia|auto|auto|cbn; lia|lia|sfx_tac|].
  apply wp_bind, (squeeze1 17); [intros; apply absorbed_arr|lia|intros; rewrite sel_tab4 by auto; now apply uninit_len|].
  apply wp_out4_0; [lia| |auto|].
  - intros k Hk. rewrite sel_tab4 by auto. split; [rewrite len_ztab; lia|apply out_arr; lia].
  - erewrite tab4_ext; [exact HQ|]. intros k Hk. cbn beta. rewrite sel_tab4 by auto.
    unfold SHA3_256, KECCAK. change 256 with (8 * 32). change (1600 - 512) with (8 * (8 * 17)).
    rewrite (sponge_bytes (8 * 17)) by (cbn; lia). f_equal.
Qed.

Theorem wp_sha3_512x4 : forall junk out inp n (Q : quad (list Z) -> Prop), 0 <= n -> (forall k, 0 <= k < 4 -> 64 <= len (sel out k)) ->
  (forall k, 0 <= k < 4 -> n <= len (sel inp k) /\ typed U8 (sel inp k)) ->
  Q (tab4 (fun k => SHA3_512 (zfirst n (sel inp k)) ++ zskip 64 (sel out k))) -> wp (sha3_512x4 junk out inp n) Q.
Proof.
  intros junk out inp n Q Hn Ho Hi HQ. unfold sha3_512x4.
  apply wp_bind, wp_zero_state4; [apply uninit_len; lia|].
  apply wp_bind, (wp_keccak_absorb4 _ 9 _ _ _ [false; true]); [lia|auto|auto|cbn; lia|lia|sfx_tac|].
  apply wp_bind, (squeeze1 9); [intros; apply absorbed_arr|lia|intros; rewrite sel_tab4 by auto; now apply uninit_len|].
  apply wp_out4_0; [lia| |auto|].
  - intros k Hk. rewrite sel_tab4 by auto. split; [rewrite len_ztab; lia|apply out_arr; lia].
  - erewrite tab4_ext; [exact HQ|]. intros k Hk. cbn beta. rewrite sel_tab4 by auto.
    unfold SHA3_512, KECCAK. change 512 with (8 * 64). change (1600 - 1024) with (8 * (8 * 9)).
    rewrite (sponge_bytes (8 * 9)) by (cbn; lia). f_equal.
Qed.

Lemma wp_shakex4 : forall r junk out n inp l (Q : quad (list Z) -> Prop), 0 < r <= 25 -> 0 <= n -> (forall k, 0 <= k < 4 -> n <= len (sel out k)) ->
  0 <= l -> (forall k, 0 <= k < 4 -> l <= len (sel inp k) /\ typed U8 (sel inp k)) ->
  Q (tab4 (fun k => ztab n (outbyte (8 * r) (keccak_f (absorbed (8 * r) (zfirst l (sel inp k)) [true; true; true; true]))) ++ zskip n (sel out k))) ->
  wp (shakex4 (8 * r) (8 * r) junk out n inp l) Q.
Proof.
  intros r junk out n inp l Q Hr Hn Ho Hl Hi HQ. unfold shakex4.
  apply wp_bind, wp_zero_state4; [apply uninit_len; lia|].
  apply wp_bind, (wp_keccak_absorb4 _ r _ _ _ [true; true; true; true]); [lia|auto|auto|cbn; lia|lia|sfx_tac|].
  set (A := fun k => absorbed (8 * r) (zfirst l (sel inp k)) [true; true; true; true]) in *.
  assert (forall k, 0 <= k < 4 -> arr U64 25 (A k)) as HA by (intros; unfold A; apply absorbed_arr).
  set (R := 8 * r) in *.
  pose proof (Z.div_mod n R ltac:(lia)). pose proof (Z.mod_pos_bound n R ltac:(lia)). assert (0 <= n / R) by (apply Z.div_pos; lia).
  set (nb := n / R) in *.
  apply wp_bind, (wp_squeezeblocks4 _ nb _ r); [auto|lia|lia|intros k Hk; specialize (Ho k Hk); fold R; lia|]. fold R.
  assert (forall k, 0 <= k < 4 -> len (ztab (R * nb) (outbyte R (keccak_f (A k)))) = R * nb) as L by (intros; apply len_ztab; lia).
  apply wp_ite. destruct (n mod R =? 0) eqn:E; cbn [negb].
  - apply (wp_for4_eq _ _ _ _ (fun k => ztab (R * nb) (outbyte R (keccak_f (A k))) ++ zskip (R * nb) (sel out k))).
    + intros k Hk P HP. rewrite sel_tab4 by auto. rewrite (Z.mul_comm nb R). pose proof (L k Hk).
      apply wp_at; [rewrite len_app, L by auto; pose proof (len_nonneg (zskip (R * nb) (sel out k))); lia|].
      rewrite zfirst_app_at, zskip_app_at by auto. now apply wp_ret.
    + replace n with (R * nb) in HQ by lia. auto.
  - apply wp_bind, (squeeze1 r); [intros; now apply fiter_arr, HA|lia|intros; rewrite sel_tab4 by auto; apply uninit_len; lia|]. fold R.
    rewrite (tab4_ext _ (fun k => ztab (R * nb) (outbyte R (keccak_f (A k))) ++ zskip (R * nb) (sel out k)) (fun k => ztab (R * nb) (outbyte R (keccak_f (A k))) ++ sel (tab4 (fun k => zskip (R * nb) (sel out k))) k))
      by (intros k Hk; now rewrite sel_tab4 by auto).
    apply (wp_out4 (fun k => ztab (R * nb) (outbyte R (keccak_f (A k))))); [lia| | |].
    + intros k Hk. rewrite sel_tab4 by auto. split; [rewrite len_ztab; lia|]. split; [apply out_arr; lia|]. rewrite L by auto. lia.
    + intros k Hk. rewrite sel_tab4 by auto. specialize (Ho k Hk). rewrite len_zskip by lia. lia.
    + erewrite tab4_ext; [exact HQ|]. intros k Hk. cbn beta. rewrite !sel_tab4 by auto. rewrite zskip_zskip by lia.
      replace (R * nb + n mod R) with n by lia.
      rewrite <- (app_nil_r (ztab R _)), out_first by lia.
      replace n with (R * nb + n mod R) at 3 by lia. rewrite ztab_split, <- app_assoc by lia. f_equal. f_equal.
      apply ztab_ext. intros i Hi'. rewrite outbyte_block by lia. unfold outbyte. rewrite Z.div_small, Z.mod_small by lia.
      assert (keccak_f (fiter nb (A k)) = fiter nb (keccak_f (A k))) as F by (rewrite <- fiter_S', fiter_S by lia; reflexivity).
      change (fiter 0 ?x) with x. now rewrite F.
Qed.

Theorem wp_shake128x4 : forall junk out n inp l (Q : quad (list Z) -> Prop), 0 <= n -> (forall k, 0 <= k < 4 -> n <= len (sel out k)) ->
  0 <= l -> (forall k, 0 <= k < 4 -> l <= len (sel inp k) /\ typed U8 (sel inp k)) ->
  Q (tab4 (fun k => SHAKE128 n (zfirst l (sel inp k)) ++ zskip n (sel out k))) -> wp (shake128x4 SHAKE128_RATE junk out n inp l) Q.
Proof.
  intros junk out n inp l Q Hn Ho Hl Hi HQ. apply (wp_shakex4 21); auto; [lia|].
  erewrite tab4_ext; [exact HQ|]. intros k Hk. cbn beta. unfold SHAKE128, KECCAK. change (1600 - 256) with (8 * (8 * 21)).
  now rewrite (sponge_bytes (8 * 21)) by (cbn; lia).
Qed.

Theorem wp_shake256x4 : forall junk out n inp l (Q : quad (list Z) -> Prop), 0 <= n -> (forall k, 0 <= k < 4 -> n <= len (sel out k)) ->
  0 <= l -> (forall k, 0 <= k < 4 -> l <= len (sel inp k) /\ typed U8 (sel inp k)) ->
  Q (tab4 (fun k => SHAKE256 n (zfirst l (sel inp k)) ++ zskip n (sel out k))) -> wp (shake256x4 junk out n inp l) Q.
Proof.
  intros junk out n inp l Q Hn Ho Hl Hi HQ. apply (wp_shakex4 17); auto; [lia|].
  erewrite tab4_ext; [exact HQ|]. intros k Hk. cbn beta. unfold SHAKE256, KECCAK. change (1600 - 512) with (8 * (8 * 17)).
  now rewrite (sponge_bytes (8 * 17)) by (cbn; lia).
Qed.

(** ** The same as equations between results *)

Definition bytes4 (l : Z) (inp : quad (list Z)) : Prop := forall k, 0 <= k < 4 -> l <= len (sel inp k) /\ typed U8 (sel inp k).
Definition room4 (n : Z) (out : quad (list Z)) : Prop := forall k, 0 <= k < 4 -> n <= len (sel out k).

Lemma run_quad : forall (m : M (quad (list Z))) F, (forall Q : quad (list Z) -> Prop, Q (tab4 F) -> wp m Q) ->
  exists r, run m = Some r /\ forall k, 0 <= k < 4 -> sel r k = F k.
Proof.
  intros m F H. exists (tab4 F). split; [apply wp_run_eq, H; reflexivity|]. intros k Hk. now apply sel_tab4.
Qed.

Lemma sha3_256x4_run : forall junk out inp n, 0 <= n -> room4 32 out -> bytes4 n inp ->
  exists r, run (sha3_256x4 junk out inp n) = Some r /\
  forall k, 0 <= k < 4 -> sel r k = SHA3_256 (zfirst n (sel inp k)) ++ zskip 32 (sel out k).
Proof. intros. apply run_quad. intros. now apply wp_sha3_256x4. Qed.
Lemma sha3_512x4_run : forall junk out inp n, 0 <= n -> room4 64 out -> bytes4 n inp ->
  exists r, run (sha3_512x4 junk out inp n) = Some r /\
  forall k, 0 <= k < 4 -> sel r k = SHA3_512 (zfirst n (sel inp k)) ++ zskip 64 (sel out k).
Proof. intros. apply run_quad. intros. now apply wp_sha3_512x4. Qed.
Lemma shake128x4_run : forall junk out n inp l, 0 <= n -> room4 n out -> 0 <= l -> bytes4 l inp ->
  exists r, run (shake128x4 168 junk out n inp l) = Some r /\
  forall k, 0 <= k < 4 -> sel r k = SHAKE128 n (zfirst l (sel inp k)) ++ zskip n (sel out k).
Proof. intros. apply run_quad. intros. now apply wp_shake128x4. Qed.
Lemma shake256x4_run : forall junk out n inp l, 0 <= n -> room4 n out -> 0 <= l -> bytes4 l inp ->
  exists r, run (shake256x4 junk out n inp l) = Some r /\
  forall k, 0 <= k < 4 -> sel r k = SHAKE256 n (zfirst l (sel inp k)) ++ zskip n (sel out k).
Proof. intros. apply run_quad. intros. now apply wp_shake256x4. Qed.
