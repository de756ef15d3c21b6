(** The sponge of fips202.c computes SHA3-256, SHA3-512 and SHAKE128. *)
From Coq Require Import ZArith List Bool Lia.
From Verif Require Import Lib.Wire Lib.Arr Lib.CInt Lib.CMon Spec.Bits Spec.Keccak Model.Params Model.Fips202
  Proof.PackThm Proof.CbdP Proof.PolyP Proof.KemP Proof.KeccakP.
Import ListNotations.
Local Open Scope Z_scope.

(** ** Absorbing *)

(** Xor of the bytes [m] into the first [8 * n] bytes of the state. *)
Definition xor_bytes (n : Z) (A m : list Z) : list Z :=
  ztab 25 (fun l => if l <? n then Z.lxor (get A l) (bits_val 64 (fun z => fbit 8 m (64 * l + z))) else get A l).

Lemma xor_bytes_arr : forall n A m, arr U64 25 A -> arr U64 25 (xor_bytes n A m).
Proof.
  intros. split; [apply len_ztab; lia|]. apply u64_typed. intros i Hi. pose proof (arr_get_u64 A i H Hi).
  destruct (i <? n); auto. apply u64_lxor; auto. apply bits_val_bound. lia.
Qed.

Lemma fbit_zskip : forall l n k, 0 <= n -> 0 <= k -> fbit 8 (zskip n l) k = fbit 8 l (8 * n + k).
Proof.
  intros. unfold fbit, get. rewrite znth_zskip by (try lia; apply Z.div_pos; lia).
  replace (8 * n + k) with (k + n * 8) by lia. rewrite Z.div_add, Z.mod_add by lia. do 2 f_equal; lia.
Qed.

Lemma wp_xor_lanes : forall s r m (Q : list Z -> Prop), arr U64 25 s -> 0 <= r <= 25 -> 8 * r <= len m -> typed U8 m ->
  Q (xor_bytes r s m) -> wp (xor_lanes s (8 * r) m) Q.
Proof.
  intros s r m Q Hs Hr Lm Tm HQ. unfold xor_lanes. rewrite Z.mul_comm, Z.div_mul by lia.
  apply wp_for with (I := fun i a => a = xor_bytes i s m).
  - lia.
  - destruct Hs as (L & T). unfold xor_bytes. apply ztab_eq with 0; [lia|]. intros i Hi.
    replace (i <? 0) with false by lia. reflexivity.
  - intros i a Hi ->. apply wp_bind, wp_ptr; [lia|].
    apply wp_bind, wp_load64; [rewrite len_zskip; lia|now apply Forall_zskip|].
    pose proof (xor_bytes_arr i s m Hs) as (La & Ta).
    assert (0 <= bits_val 64 (fbit 8 (zskip (8 * i) m)) < 2 ^ 64) as B by (apply bits_val_bound; lia).
    pose proof (arr_get_u64 _ i (xor_bytes_arr i s m Hs)) as B2. unfold u64 in B2.
    apply wp_st; [reflexivity|cbn [lok tmin tmax]; repeat split; auto; lia|lia|].
    apply ztab_eq with 0; [rewrite len_upd; auto|]. intros l Hl.
    rewrite znth_upd by lia. cbn [val val_bin ty promote common]. unfold cv, uw. cbn [subr signed].
    destruct (l =? i) eqn:E.
    + assert (l = i) by lia. subst l. replace (i <? i + 1) with true by lia.
      unfold get at 1. unfold xor_bytes. rewrite znth_ztab by lia. replace (i <? i) with false by lia.
      rewrite wrap_id.
      * f_equal. apply bits_val_ext. intros k Hk. rewrite fbit_zskip by lia. f_equal. lia.
      * pose proof (arr_get_u64 s i Hs). assert (u64 (Z.lxor (get s i) (bits_val 64 (fbit 8 (zskip (8 * i) m))))) by (apply u64_lxor; [apply H; lia|auto]).
        unfold u64 in *. cbn [tmin tmax]. lia.
    + unfold xor_bytes. rewrite znth_ztab by lia. replace (l <? i + 1) with (l <? i) by lia. reflexivity.
  - intros a ->. auto.
Qed.

(** The spec's block, when the bits agree. *)
Lemma xor_bytes_block : forall r A m P i, arr U64 25 A -> 0 <= r <= 25 ->
  (forall j, 0 <= j < 64 * r -> fbit 8 m j = znth false P (64 * r * i + j)) ->
  xor_bytes r A m = xor_block (64 * r) A P i.
Proof.
  intros. apply ztab_ext. intros l Hl. pose proof (arr_get_u64 A l H Hl) as U.
  destruct (l <? r) eqn:E.
  - apply bits_val_eq; [lia|apply u64_lxor; auto; apply bits_val_bound; lia|].
    intros k Hk. rewrite Z.lxor_spec, bits_val_testbit by lia. replace (k <? 64) with true by lia. cbn [andb].
    rewrite H1 by lia. replace (64 * l + k <? 64 * r) with true by lia. reflexivity.
  - apply bits_val_eq; [lia|auto|]. intros k Hk. replace (64 * l + k <? 64 * r) with false by lia. now rewrite xorb_false_r.
Qed.

(** The padded message. *)
Definition padded (r : Z) (M : list Z) (sfx : list bool) : list bool :=
  (bits_of_bytes M ++ sfx) ++ pad101 r (len (bits_of_bytes M ++ sfx)).

Lemma len_bits_of_bytes : forall M, len (bits_of_bytes M) = 8 * len M.
Proof. intros. apply len_ztab. pose proof (len_nonneg M). lia. Qed.

Lemma pad_zeros : forall R L ls, 0 < R -> 0 <= L -> 0 <= ls <= 6 ->
  (- (8 * L + ls) - 2) mod (8 * R) = 8 * R - 8 * (L mod R) - ls - 2.
Proof.
  intros. pose proof (Z.div_mod L R). pose proof (Z.mod_pos_bound L R).
  symmetry. apply Z.mod_unique with (- (L / R) - 1); nia.
Qed.

Lemma len_padded : forall R M sfx, 0 < R -> len sfx <= 6 -> len (padded (8 * R) M sfx) = 8 * R * (len M / R + 1).
Proof.
  intros R M sfx HR Hs. unfold padded, pad101. pose proof (len_nonneg M). pose proof (len_nonneg sfx).
  rewrite !len_app, len_bits_of_bytes, len_repeat, pad_zeros by lia.
  pose proof (Z.div_mod (len M) R). pose proof (Z.mod_pos_bound (len M) R).
  change (len [true]) with 1. rewrite Z2Nat.id by lia. nia.
Qed.

Lemma padded_bit : forall R M sfx q, 0 < R -> len sfx <= 6 -> 0 <= q < 8 * R * (len M / R + 1) ->
  znth false (padded (8 * R) M sfx) q =
    if q <? 8 * len M then fbit 8 M q
    else if q =? 8 * R * (len M / R + 1) - 1 then true else znth false (sfx ++ [true]) (q - 8 * len M).
Proof.
  intros R M sfx q HR Hs Hq. unfold padded, pad101. pose proof (len_nonneg M). pose proof (len_nonneg sfx).
  rewrite len_app, len_bits_of_bytes, pad_zeros by lia.
  pose proof (Z.div_mod (len M) R). pose proof (Z.mod_pos_bound (len M) R).
  set (z := 8 * R - 8 * (len M mod R) - len sfx - 2).
  rewrite <- app_assoc. destruct (q <? 8 * len M) eqn:E.
  - rewrite znth_app1 by (rewrite len_bits_of_bytes; lia). unfold bits_of_bytes. now rewrite znth_ztab by lia.
  - rewrite znth_app2; rewrite len_bits_of_bytes; [|lia]. rewrite app_assoc.
    destruct (q - 8 * len M <? len sfx + 1) eqn:E1.
    + rewrite znth_app1 by (rewrite len_app; change (len [true]) with 1; lia).
      replace (q =? _) with false by nia. reflexivity.
    + rewrite znth_app2; rewrite len_app; change (len [true]) with 1; [|lia].
      destruct (q =? _) eqn:E2.
      * rewrite znth_app2; rewrite len_repeat, Z2Nat.id by lia; [|nia].
        replace (_ - z) with 0 by nia. reflexivity.
      * rewrite znth_app1 by (rewrite len_repeat, Z2Nat.id by lia; nia). rewrite znth_repeat.
        rewrite znth_default; auto. rewrite len_app; change (len [true]) with 1. lia.
Qed.

Lemma xor_block_arr : forall r A P i, arr U64 25 (xor_block r A P i).
Proof.
  intros. split; [apply len_ztab; lia|]. apply u64_typed. intros. apply bits_val_bound. lia.
Qed.

Lemma absorb_arr : forall n r P, arr U64 25 (absorb n r P).
Proof.
  destruct n; intros; cbn [absorb]; [|apply keccak_f_arr, xor_block_arr].
  split; [reflexivity|]. apply Forall_repeat. cbn. lia.
Qed.

Lemma fbit_zfirst : forall l n k, 0 <= k < 8 * n -> fbit 8 (zfirst n l) k = fbit 8 l k.
Proof. intros. unfold fbit, get. rewrite znth_zfirst; auto. apply Z.div_lt_upper_bound; lia. Qed.

Lemma fbit_split : forall l k, 0 <= k -> fbit 8 l k = Z.testbit (get l (k / 8)) (k mod 8).
Proof. reflexivity. Qed.

Lemma wp_each : forall t n e v u (Q : list Z -> Prop), 0 <= n <= len u ->
  (forall i, 0 <= i < n -> safe (e i) = true /\ lok (e i) /\ wrap t (val (e i)) = v i) ->
  (forall u', len u' = len u -> (forall i, 0 <= i < len u -> get u' i = if i <? n then v i else get u i) -> Q u') ->
  wp (for_ 0 n (fun i u => st t u i (e i)) u) Q.
Proof.
  intros t n e v u Q Hn He HQ.
  apply wp_for with (I := fun k u' => len u' = len u /\ forall i, 0 <= i < len u -> get u' i = if i <? k then v i else get u i).
  - lia.
  - split; auto. intros i Hi. now replace (i <? 0) with false by lia.
  - intros k u' Hk (L & G). destruct (He k Hk) as (S & K & V). apply wp_st; auto; [lia|]. split; [now rewrite len_upd|].
    intros i Hi. unfold get at 1. rewrite znth_upd by lia. destruct (i =? k) eqn:E.
    + assert (i = k) by lia. subst i. now replace (k <? k + 1) with true by lia.
    + change (znth 0 u' i) with (get u' i). rewrite G by auto. now replace (i <? k + 1) with (i <? k) by lia.
  - intros u' (L & G). auto.
Qed.

(** One fewer block than the padded message has; the caller's first [KeccakF1600_StatePermute] completes it. *)
Definition absorbed (R : Z) (M : list Z) (sfx : list bool) : list Z :=
  let n := len M / R in
  xor_block (8 * R) (absorb (Z.to_nat n) (8 * R) (padded (8 * R) M sfx)) (padded (8 * R) M sfx) n.

Lemma wp_keccak_absorb : forall junk r m mlen p sfx (Q : list Z -> Prop),
  0 < r <= 25 -> 0 <= mlen <= len m -> typed U8 m -> len sfx <= 6 ->
  0 <= p < 256 -> (forall b, 0 <= b < 8 -> Z.testbit p b = znth false (sfx ++ [true]) b) ->
  Q (absorbed (8 * r) (zfirst mlen m) sfx) ->
  wp (keccak_absorb junk (repeat 0 25) (8 * r) m mlen p) Q.
Proof.
  intros junk r m mlen p sfx Q Hr Hm Tm Hs Hp Hb HQ. unfold keccak_absorb. unfold absorbed in HQ.
  rewrite len_zfirst in HQ by lia.
  set (R := 8 * r) in *. set (P := padded (8 * R) (zfirst mlen m) sfx) in *. set (n := mlen / R) in *.
  assert (0 <= n) as Hn by (apply Z.div_pos; lia).
  pose proof (Z.div_mod mlen R ltac:(lia)) as DM. pose proof (Z.mod_pos_bound mlen R ltac:(lia)) as MB. fold n in DM.
  assert (forall q, 0 <= q < 8 * R * (n + 1) -> znth false P q = if q <? 8 * mlen then fbit 8 m q
    else if q =? 8 * R * (n + 1) - 1 then true else znth false (sfx ++ [true]) (q - 8 * mlen)) as PB.
  { intros q Hq. unfold P. rewrite padded_bit; rewrite ?len_zfirst by lia; [|lia|lia|auto]. fold n.
    destruct (q <? 8 * mlen) eqn:E; auto. apply fbit_zfirst. lia. }
  apply wp_bind. apply wp_while with (m := n) (I := fun k '(s, m', l') => s = absorb (Z.to_nat k) (8 * R) P /\ m' = zskip (R * k) m /\ l' = mlen - R * k).
  - lia.
  - lia.
  - rewrite Z.mul_0_r. repeat split. lia.
  - intros k ((s, m'), l') Hk (-> & -> & ->). destruct (k <? n) eqn:E; nia.
  - intros k ((s, m'), l') Hk (-> & -> & ->).
    assert (R * k + R <= len m) by nia.
    apply wp_bind. apply wp_xor_lanes; [apply absorb_arr|lia|rewrite len_zskip; lia|now apply Forall_zskip|].
    rewrite (xor_bytes_block r _ _ P k); [|apply absorb_arr|lia|].
    + apply wp_bind, wp_permute; [apply xor_block_arr|]. apply wp_bind, wp_ptr; [rewrite len_zskip; lia|].
      apply wp_ret. rewrite zskip_zskip by lia. repeat split; [|f_equal; lia|lia].
      replace (Z.to_nat (k + 1)) with (S (Z.to_nat k)) by lia. cbn [absorb]. rewrite Z2Nat.id by lia.
      replace (8 * R) with (64 * r) by lia. reflexivity.
    + intros j Hj. rewrite fbit_zskip, PB by nia. replace (_ <? 8 * mlen) with true by nia. f_equal. lia.
  - intros ((s, m'), l') (-> & -> & ->).
    assert (mlen - R * n = mlen mod R) as Hl by lia. rewrite Hl. set (l := mlen mod R) in *.
    assert (len (zskip (R * n) m) = len m - R * n) as Lk by (apply len_zskip; lia).
    destruct (uninit8_arr junk 0 200) as (L0 & T0); [lia|].
    apply wp_bind, wp_each with (v := fun _ => 0); [lia|intros; split; [reflexivity|split; [cbn; lia|reflexivity]]|].
    intros t1 L1 G1.
    apply wp_bind, wp_each with (v := get (zskip (R * n) m)); [lia| |].
    { intros i Hi. assert (0 <= i < len (zskip (R * n) m)) by lia.
      assert (typed U8 (zskip (R * n) m)) as TT by now apply Forall_zskip.
      split; [reflexivity|]. split; [now split|]. cbn [val]. apply wrap_id. now apply typed_get. }
    intros t2 L2 G2.
    apply wp_bind, wp_st; [reflexivity|cbn [lok tmin tmax]; lia|lia|].
    cbn [val]. rewrite wrap_id by (cbn [tmin tmax]; lia).
    set (t3 := upd t2 l p).
    assert (len t3 = 200) as L3 by (unfold t3; rewrite len_upd; lia).
    assert (forall i, 0 <= i < R -> get t3 i = if i <? l then get m (R * n + i) else if i =? l then p else 0) as G3.
    { intros i Hi. unfold t3. unfold get at 1. rewrite znth_upd by lia.
      change (znth 0 t2 i) with (get t2 i). rewrite G2, G1 by lia. replace (i <? R) with true by lia.
      destruct (i =? l) eqn:E; [now replace (i <? l) with false by lia|].
      destruct (i <? l) eqn:E2; auto. unfold get. now rewrite znth_zskip by lia. }
    assert (forall i, 0 <= get m i < 256) as Gm.
    { intros i. destruct (Z_lt_dec i 0); [unfold get; rewrite znth_default; lia|].
      destruct (Z_lt_dec i (len m)); [|unfold get; rewrite znth_default; lia]. pose proof (typed_get U8 m i Tm). cbn [tmin tmax] in *. lia. }
    assert (typed U8 t3) as T3.
    { apply Forall_znth_iff with 0. intros i Hi. change (tmin U8 <= get t3 i <= tmax U8). rewrite L3 in Hi.
      unfold t3, get. rewrite znth_upd by lia. change (znth 0 t2 i) with (get t2 i). rewrite G2, G1 by lia.
      pose proof (Gm (R * n + i)). pose proof (typed_get U8 _ i T0 ltac:(lia)).
      destruct (i =? l); [cbn [tmin tmax]; lia|]. destruct (i <? l); [unfold get; rewrite znth_zskip by lia; unfold get in H; cbn [tmin tmax]; lia|].
      destruct (i <? R); auto. cbn [tmin tmax]. lia. }
    apply wp_bind, wp_st; [reflexivity|cbn [lok tmin tmax]; repeat split; auto; lia|lia|].
    cbn [val val_bin ty promote common]. unfold cv, uw. cbn [subr signed].
    set (t4 := upd t3 (R - 1) _).
    assert (0 <= get t3 (R - 1) <= 255) as GR by (pose proof (typed_get U8 t3 (R - 1) T3); cbn [tmin tmax] in *; lia).
    assert (0 <= Z.lor (get t3 (R - 1)) 128 < 2 ^ 8) as GR2.
    { split; [apply Z.lor_nonneg; lia|]. destruct (Z.eq_dec (Z.lor (get t3 (R - 1)) 128) 0) as [->|N]; [lia|].
      assert (0 <= Z.lor (get t3 (R - 1)) 128) by (apply Z.lor_nonneg; lia). apply Z.log2_lt_pow2; [lia|].
      rewrite Z.log2_lor by lia. apply Z.max_lub_lt; [|reflexivity].
      destruct (Z.eq_dec (get t3 (R - 1)) 0) as [->|]; [reflexivity|]. apply Z.log2_lt_pow2; lia. }
    apply wp_xor_lanes; [apply absorb_arr|lia|unfold t4; rewrite len_upd; lia| |].
    + apply typed_upd; auto. change (tmin U8 <= wrap U8 (Z.lor (get t3 (R - 1)) 128) <= tmax U8).
      rewrite wrap_id; cbn [tmin tmax]; lia.
    + rewrite (xor_bytes_block r _ _ P n); [|apply absorb_arr|lia|].
      { replace (64 * r) with (8 * R) by lia. apply HQ. }
      intros j Hj. rewrite fbit_split by lia. pose proof (Z.div_mod j 8). pose proof (Z.mod_pos_bound j 8).
      set (i := j / 8) in *. set (b := j mod 8) in *. assert (0 <= i < R) by lia.
      assert (get t4 i = if i =? R - 1 then Z.lor (get t3 (R - 1)) 128 else get t3 i) as G4.
      { unfold t4. unfold get at 1. rewrite znth_upd by lia. destruct (i =? R - 1); auto.
        apply wrap_id. cbn [tmin tmax]. lia. }
      assert (Z.testbit (get t4 i) b = Z.testbit (get t3 i) b || ((i =? R - 1) && (b =? 7))) as B4.
      { rewrite G4. destruct (i =? R - 1) eqn:E; cbn [andb]; [|now rewrite orb_false_r].
        assert (i = R - 1) as -> by lia. rewrite Z.lor_spec. f_equal.
        change 128 with (2 ^ 7). rewrite Z.pow2_bits_eqb by lia. lia. }
      rewrite B4, G3 by auto. clear B4 G4.
      rewrite PB by nia. replace (64 * r * n + j - 8 * mlen) with (8 * (i - l) + b) by lia.
      assert ((64 * r * n + j <? 8 * mlen) = (i <? l)) as -> by lia.
      assert ((64 * r * n + j =? 8 * R * (n + 1) - 1) = ((i =? R - 1) && (b =? 7))) as -> by lia.
      destruct (i <? l) eqn:E1.
      * replace (i =? R - 1) with false by lia. cbn [andb]. rewrite orb_false_r.
        replace (64 * r * n + j) with (8 * (R * n + i) + b) by lia. now rewrite fbit_at by lia.
      * destruct ((i =? R - 1) && (b =? 7)) eqn:E3; [apply orb_true_r|]. rewrite orb_false_r.
        destruct (i =? l) eqn:E2.
        { rewrite Hb by lia. f_equal. lia. }
        { rewrite Z.bits_0. rewrite znth_default; auto. rewrite len_app. change (len [true]) with 1. lia. }
Qed.

(** ** Squeezing *)

Definition fiter (k : Z) (A : list Z) : list Z := Nat.iter (Z.to_nat k) keccak_f A.

Lemma fiter_S : forall k A, 0 <= k -> fiter (k + 1) A = keccak_f (fiter k A).
Proof. intros. unfold fiter. replace (Z.to_nat (k + 1)) with (S (Z.to_nat k)) by lia. reflexivity. Qed.

Lemma fiter_S' : forall k A, 0 <= k -> fiter (k + 1) A = fiter k (keccak_f A).
Proof.
  intros. unfold fiter. replace (Z.to_nat (k + 1)) with (S (Z.to_nat k)) by lia.
  generalize (Z.to_nat k). intros n. induction n; [reflexivity|]. change (keccak_f (Nat.iter (S n) keccak_f A) = keccak_f (Nat.iter n keccak_f (keccak_f A))).
  now rewrite IHn.
Qed.

Lemma fiter_add : forall a b A, 0 <= a -> 0 <= b -> fiter (a + b) A = fiter a (fiter b A).
Proof.
  intros a b A Ha. revert b A. pattern a. apply natlike_ind; auto.
  intros x Hx IH b A Hb. rewrite <- Z.add_1_r. replace (x + 1 + b) with (x + b + 1) by lia.
  rewrite !fiter_S by lia. now rewrite IH.
Qed.

Lemma fiter_arr : forall k A, arr U64 25 A -> arr U64 25 (fiter k A).
Proof.
  intros. unfold fiter. induction (Z.to_nat k); auto. change (arr U64 25 (keccak_f (Nat.iter n keccak_f A))).
  now apply keccak_f_arr.
Qed.

(** Byte [i] of the output stream with rate [r] bytes, from the state [A] after the last absorption. *)
Definition outbyte (r : Z) (A : list Z) (i : Z) : Z :=
  bits_val 8 (fun m => fbit 64 (fiter (i / r) A) (8 * (i mod r) + m)).

Lemma outbyte_range : forall r A i, 0 <= outbyte r A i < 256.
Proof. intros. apply (bits_val_bound 8). lia. Qed.

Lemma out_arr : forall n r A, 0 <= n -> arr U8 n (ztab n (outbyte r A)).
Proof.
  intros. split; [now apply len_ztab|]. apply Forall_ztab. intros. pose proof (outbyte_range r A i). cbn [tmin tmax]. lia.
Qed.

Lemma wp_sqblock : forall h s r (Q : list Z -> Prop), arr U64 25 s -> 0 <= r <= 25 -> 8 * r <= len h ->
  Q (ztab (8 * r) (fun i => bits_val 8 (fun m => fbit 64 s (8 * i + m))) ++ zskip (8 * r) h) ->
  wp (for_ 0 (8 * r / 8) (fun i h => w <- rd s i ;; at_ h (8 * i) (fun p => store64 p (Var U64 w))) h) Q.
Proof.
  intros h s r Q Hs Hr Hh HQ. rewrite (Z.mul_comm 8 r), Z.div_mul by lia. destruct Hs as (Ls & Ts).
  set (f := fun i => bits_val 8 (fun m => fbit 64 s (8 * i + m))) in *.
  apply wp_for with (I := fun i a => a = ztab (8 * i) f ++ zskip (8 * i) h).
  - lia.
  - reflexivity.
  - intros i a Hi ->. assert (len (ztab (8 * i) f) = 8 * i) as Lf by (apply len_ztab; lia).
    apply wp_bind, wp_rd; [lia|]. apply wp_at; [rewrite len_app, len_zskip; lia|].
    pose proof (arr_get_u64 s i (conj Ls Ts) ltac:(lia)).
    rewrite zfirst_app_at, zskip_app_at by auto.
    apply wp_store64; auto; [rewrite len_zskip; lia|]. rewrite zskip_zskip by lia.
    replace (8 * (i + 1)) with (8 * i + 8) by lia. rewrite ztab_split by lia. rewrite <- app_assoc. f_equal. f_equal.
    apply ztab_ext. intros j Hj. apply bits_val_ext. intros k Hk.
    replace (8 * (8 * i + j) + k) with (64 * i + (8 * j + k)) by lia. now rewrite fbit_at by lia.
  - intros a ->. rewrite Z.mul_comm in HQ. rewrite (Z.mul_comm 8). auto.
Qed.

Lemma outbyte_block : forall r A k j, 0 < r -> 0 <= j < r ->
  outbyte r A (r * k + j) = bits_val 8 (fun m => fbit 64 (fiter k A) (8 * j + m)).
Proof.
  intros. unfold outbyte. rewrite Z.mul_comm, Z.div_add_l by lia.
  rewrite (Z.add_comm (k * r)), Z.mod_add, Z.div_small, Z.mod_small, Z.add_0_r by lia. reflexivity.
Qed.

Lemma wp_squeezeblocks : forall h n s r (Q : list Z * list Z -> Prop), arr U64 25 s -> 0 < r <= 25 -> 0 <= n -> 8 * r * n <= len h ->
  Q (ztab (8 * r * n) (outbyte (8 * r) (keccak_f s)) ++ zskip (8 * r * n) h, fiter n s) ->
  wp (keccak_squeezeblocks h n s (8 * r)) Q.
Proof.
  intros h n s r Q Hs Hr Hn Hh HQ. unfold keccak_squeezeblocks. set (f := outbyte (8 * r) (keccak_f s)) in *.
  apply wp_for with (I := fun k '(h', s') => h' = ztab (8 * r * k) f ++ zskip (8 * r * k) h /\ s' = fiter k s).
  - lia.
  - rewrite Z.mul_0_r. split; reflexivity.
  - intros k (h', s') Hk (-> & ->). assert (len (ztab (8 * r * k) f) = 8 * r * k) as Lf by (apply len_ztab; lia).
    assert (8 * r * k + 8 * r <= len h) by nia.
    pose proof (fiter_arr k s Hs) as Fa.
    apply wp_bind, wp_permute; auto. apply wp_bind, wp_at; [rewrite len_app, len_zskip; lia|].
    rewrite zfirst_app_at, zskip_app_at by auto.
    apply wp_sqblock; [now apply keccak_f_arr|lia|rewrite len_zskip; lia|].
    apply wp_ret. split; [|now rewrite fiter_S by lia].
    rewrite zskip_zskip by lia. replace (8 * r * (k + 1)) with (8 * r * k + 8 * r) by lia. rewrite ztab_split by lia.
    rewrite <- app_assoc. f_equal. f_equal. apply ztab_ext. intros j Hj. unfold f.
    rewrite outbyte_block by lia. rewrite <- fiter_S', fiter_S by lia. reflexivity.
  - intros (h', s') (-> & ->). auto.
Qed.

Lemma squeeze_bit : forall n r A k j, 0 < r -> 0 <= k < Z.of_nat n -> 0 <= j < r ->
  znth false (squeeze n r A) (r * k + j) = fbit 64 (fiter k A) j.
Proof.
  induction n; intros r A k j Hr Hk Hj; [lia|]. cbn [squeeze].
  assert (len (trunc r A) = r) as Lt by (apply len_ztab; lia).
  destruct (Z.eq_dec k 0) as [->|].
  - rewrite Z.mul_0_r, Z.add_0_l. rewrite znth_app1 by lia. unfold trunc. now rewrite znth_ztab by lia.
  - rewrite znth_app2 by nia. rewrite Lt. replace (r * k + j - r) with (r * (k - 1) + j) by lia.
    rewrite IHn by lia. rewrite <- fiter_S' by lia. do 2 f_equal. lia.
Qed.

Lemma len_squeeze : forall n r A, 0 <= r -> len (squeeze n r A) = r * Z.of_nat n.
Proof.
  induction n; intros; cbn [squeeze]; [cbn; lia|]. rewrite len_app, IHn by lia.
  unfold trunc. rewrite len_ztab by lia. lia.
Qed.

Lemma keccak_f_absorbed : forall R M sfx, 0 < R -> len sfx <= 6 ->
  absorb (Z.to_nat (len (padded (8 * R) M sfx) / (8 * R))) (8 * R) (padded (8 * R) M sfx) = keccak_f (absorbed R M sfx).
Proof.
  intros. rewrite len_padded by auto. rewrite (Z.mul_comm (8 * R)), Z.div_mul by lia.
  pose proof (len_nonneg M). assert (0 <= len M / R) by (apply Z.div_pos; lia).
  replace (Z.to_nat (len M / R + 1)) with (S (Z.to_nat (len M / R))) by lia. cbn [absorb].
  rewrite Z2Nat.id by lia. reflexivity.
Qed.

Lemma sponge_bytes : forall R M sfx n, 0 < R -> len sfx <= 6 -> 0 <= n ->
  bytes_of_bits (sponge (8 * R) (bits_of_bytes M ++ sfx) (8 * n)) = ztab n (outbyte R (keccak_f (absorbed R M sfx))).
Proof.
  intros R M sfx n HR Hs Hn. unfold sponge. fold (padded (8 * R) M sfx). rewrite keccak_f_absorbed by auto.
  set (A := keccak_f (absorbed R M sfx)).
  assert (8 * n / (8 * R) = n / R) as -> by (apply Z.div_mul_cancel_l; lia).
  assert (0 <= n / R) by (apply Z.div_pos; lia).
  assert (0 <= 8 * n <= len (squeeze (Z.to_nat (n / R + 1)) (8 * R) A)) as L.
  { rewrite len_squeeze by lia. rewrite Z2Nat.id by lia. pose proof (Z.div_mod n R). pose proof (Z.mod_pos_bound n R). nia. }
  unfold bytes_of_bits. rewrite len_zfirst by auto. rewrite (Z.mul_comm 8 n), Z.div_mul by lia.
  apply ztab_ext. intros i Hi. apply bits_val_ext. intros m Hm.
  rewrite znth_zfirst by lia.
  pose proof (Z.div_mod i R). pose proof (Z.mod_pos_bound i R).
  assert (0 <= i / R <= n / R) by (split; [apply Z.div_pos; lia|apply Z.div_le_mono; lia]).
  replace (8 * i + m) with (8 * R * (i / R) + (8 * (i mod R) + m)) by lia.
  apply squeeze_bit; lia.
Qed.

(** ** The functions *)

Lemma wp_zero_state : forall s (Q : list Z -> Prop), len s = 25 -> Q (repeat 0 25) -> wp (zero_state s) Q.
Proof.
  intros s Q L HQ. unfold zero_state. apply wp_each with (v := fun _ => 0); [lia| |].
  - intros. split; [reflexivity|]. split; [cbn; lia|reflexivity].
  - intros u Lu G. replace u with (repeat 0 25); auto. apply znth_ext with 0; [rewrite Lu, L; reflexivity|].
    intros i Hi. change (len (repeat 0 25)) with 25 in Hi. rewrite znth_repeat. symmetry.
    change (get u i = 0). rewrite G by lia. now replace (i <? 25) with true by lia.
Qed.

Lemma absorbed_arr : forall R M sfx, arr U64 25 (absorbed R M sfx).
Proof. intros. apply xor_block_arr. Qed.

Lemma wp_out : forall out t n (Q : list Z -> Prop), 0 <= n <= len out -> n <= len t -> typed U8 t ->
  Q (zfirst n t ++ zskip n out) -> wp (for_ 0 n (fun i o => st U8 o i (Idx U8 t i)) out) Q.
Proof.
  intros. apply (wp_copy n 0 0 out t (fun i => i) (fun i => i)); auto; lia.
Qed.

Lemma out_first : forall n r A l, 0 <= n <= r -> zfirst n (ztab r (outbyte r A) ++ l) = ztab n (outbyte r A).
Proof.
  intros. assert (len (ztab r (outbyte r A)) = r) as L by (apply len_ztab; lia). apply ztab_eq with 0.
  - apply len_zfirst. rewrite len_app, L. pose proof (len_nonneg l). lia.
  - intros. rewrite znth_zfirst, znth_app1, znth_ztab by lia. reflexivity.
Qed.

Ltac sfx_tac := intros b Hb; assert (b = 0 \/ b = 1 \/ b = 2 \/ b = 3 \/ b = 4 \/ b = 5 \/ b = 6 \/ b = 7)
  as [->|[->|[->|[->|[->|[->|[->| ->]]]]]]] by lia; reflexivity.

Theorem wp_sha3_256 : forall junk out inp k (Q : list Z -> Prop), 32 <= len out -> 0 <= k <= len inp -> typed U8 inp ->
  Q (SHA3_256 (zfirst k inp) ++ zskip 32 out) -> wp (sha3_256 junk out inp k) Q.
Proof.
  intros junk out inp k Q Lo Hk Ti HQ. unfold sha3_256.
  apply wp_bind, wp_zero_state; [now apply uninit_len|].
  apply wp_bind, (wp_keccak_absorb _ 17 _ _ _ [false; true]); [lia|auto|auto|cbn; lia|lia|sfx_tac|].
  apply wp_bind, (wp_squeezeblocks _ 1 _ 17); [apply absorbed_arr|lia|lia|rewrite uninit_len; unfold SHA3_256_RATE; lia|].
  apply wp_out; [lia|rewrite len_app, len_ztab by lia; pose proof (len_nonneg (zskip (8 * 17 * 1) (uninit junk 1 SHA3_256_RATE))); lia| |].
  - rewrite zskip_all by (rewrite uninit_len; unfold SHA3_256_RATE; lia). rewrite app_nil_r. apply out_arr; lia.
  - rewrite (out_first 32 (8 * 17)) by lia. unfold SHA3_256, KECCAK in HQ.
    change 256 with (8 * 32) in HQ. change (1600 - 512) with (8 * (8 * 17)) in HQ.
    now rewrite (sponge_bytes (8 * 17)) in HQ by (cbn; lia).
Qed.

Theorem wp_sha3_512 : forall junk out inp k (Q : list Z -> Prop), 64 <= len out -> 0 <= k <= len inp -> typed U8 inp ->
  Q (SHA3_512 (zfirst k inp) ++ zskip 64 out) -> wp (sha3_512 junk out inp k) Q.
Proof.
  intros junk out inp k Q Lo Hk Ti HQ. unfold sha3_512.
  apply wp_bind, wp_zero_state; [now apply uninit_len|].
  apply wp_bind, (wp_keccak_absorb _ 9 _ _ _ [false; true]); [lia|auto|auto|cbn; lia|lia|sfx_tac|].
  apply wp_bind, (wp_squeezeblocks _ 1 _ 9); [apply absorbed_arr|lia|lia|rewrite uninit_len; unfold SHA3_512_RATE; lia|].
  apply wp_out; [lia|rewrite len_app, len_ztab by lia; pose proof (len_nonneg (zskip (8 * 9 * 1) (uninit junk 1 SHA3_512_RATE))); lia| |].
  - rewrite zskip_all by (rewrite uninit_len; unfold SHA3_512_RATE; lia). rewrite app_nil_r. apply out_arr; lia.
  - rewrite (out_first 64 (8 * 9)) by lia. unfold SHA3_512, KECCAK in HQ.
    change 512 with (8 * 64) in HQ. change (1600 - 1024) with (8 * (8 * 9)) in HQ.
    now rewrite (sponge_bytes (8 * 9)) in HQ by (cbn; lia).
Qed.

Theorem sha3_256_ok : hash_spec sha3_256 32 SHA3_256.
Proof. intros junk out inp k Q Lo Hk _ Ti HQ. now apply wp_sha3_256. Qed.
Theorem sha3_512_ok : hash_spec sha3_512 64 SHA3_512.
Proof. intros junk out inp k Q Lo Hk _ Ti HQ. now apply wp_sha3_512. Qed.

Theorem wp_shake128 : forall junk out n inp k (Q : list Z -> Prop), 0 <= n <= len out -> 0 <= k <= len inp ->
  typed U8 inp -> Q (SHAKE128 n (zfirst k inp) ++ zskip n out) -> wp (shake128 junk out n inp k) Q.
Proof.
  intros junk out n inp k Q Hn Hk Ti HQ. unfold shake128.
  apply wp_bind, wp_zero_state; [now apply uninit_len|].
  apply wp_bind, (wp_keccak_absorb _ 21 _ _ _ [true; true; true; true]); [lia|auto|auto|cbn; lia|lia|sfx_tac|].
  pose proof (Z.div_mod n 168). pose proof (Z.mod_pos_bound n 168). assert (0 <= n / 168) by (apply Z.div_pos; lia).
  unfold SHAKE128_RATE in *. set (nb := n / 168) in *.
  apply wp_bind, (wp_squeezeblocks _ nb _ 21); [apply absorbed_arr|lia|lia|lia|].
  unfold SHAKE128, KECCAK in HQ. change (1600 - 256) with (8 * (8 * 21)) in HQ.
  rewrite (sponge_bytes (8 * 21)) in HQ by (cbn; lia).
  set (A := absorbed (8 * 21) (zfirst k inp) [true; true; true; true]) in *.
  assert (arr U64 25 A) as HA by apply absorbed_arr.
  change (8 * 21) with 168 in *.
  assert (len (ztab (168 * nb) (outbyte 168 (keccak_f A))) = 168 * nb) as L by (apply len_ztab; lia).
  apply wp_at; [rewrite len_app, L; pose proof (len_nonneg (zskip (168 * nb) out)); lia|].
  rewrite zfirst_app_at, zskip_app_at by lia.
  assert (n - nb * 168 = n mod 168) as -> by lia. apply wp_ite.
  destruct (n mod 168 =? 0) eqn:E; cbn [negb].
  - apply wp_ret. replace n with (168 * nb) in HQ at 1 2 by lia. auto.
  - apply wp_bind, (wp_squeezeblocks _ 1 _ 21); [now apply fiter_arr|lia|lia|rewrite uninit_len; lia|].
    change (8 * 21) with 168. change (168 * 1) with 168.
    apply wp_out; [rewrite len_zskip; lia|rewrite len_app, len_ztab by lia; pose proof (len_nonneg (zskip 168 (uninit junk 1 168))); lia| |].
    + rewrite zskip_all by (rewrite uninit_len; lia). rewrite app_nil_r. apply out_arr; lia.
    + rewrite out_first by lia. rewrite zskip_zskip by lia. replace (168 * nb + n mod 168) with n by lia.
      replace n with (168 * nb + n mod 168) in HQ at 1 by lia. rewrite ztab_split, <- app_assoc in HQ by lia.
      erewrite (ztab_ext (n mod 168)) in HQ; [exact HQ|]. intros i Hi. cbn beta.
      rewrite outbyte_block by lia. unfold outbyte. rewrite Z.div_small, Z.mod_small by lia.
      rewrite <- fiter_S' by lia. change (fiter 0 ?x) with x. now rewrite <- fiter_S by lia.
Qed.

Theorem shake128_prf : prf_spec shake128 SHAKE128.
Proof. intros junk out n inp Q Hn _ Hi Ti HQ. apply wp_shake128; auto. lia. Qed.

(** ** Types of the outputs *)

Lemma SHA3_256_arr : forall M, arr U8 32 (SHA3_256 M).
Proof.
  intros. unfold SHA3_256, KECCAK. change 256 with (8 * 32). change (1600 - 512) with (8 * (8 * 17)).
  rewrite (sponge_bytes (8 * 17)) by (cbn; lia). apply out_arr. lia.
Qed.
Lemma SHA3_512_arr : forall M, arr U8 64 (SHA3_512 M).
Proof.
  intros. unfold SHA3_512, KECCAK. change 512 with (8 * 64). change (1600 - 1024) with (8 * (8 * 9)).
  rewrite (sponge_bytes (8 * 9)) by (cbn; lia). apply out_arr. lia.
Qed.
Lemma SHAKE128_arr : forall n M, 0 <= n -> arr U8 n (SHAKE128 n M).
Proof.
  intros n M Hn. unfold SHAKE128, KECCAK. change (1600 - 256) with (8 * (8 * 21)).
  rewrite (sponge_bytes (8 * 21)) by (cbn; lia). now apply out_arr.
Qed.
Lemma SHAKE128_bytes : bytes_fun SHAKE128.
Proof. intros n M Hn _. now apply SHAKE128_arr. Qed.
