(** Sampling in the Cortex-M0 code, block by block, is sampling from the whole stream. *)
From Coq Require Import ZArith List Bool Lia.
From Verif Require Import Lib.Arr Lib.CInt Lib.CMon Lib.Wire Spec.Bits Spec.Ring Spec.Sampling Spec.Keccak Spec.Saber Model.Params Model.Pack
  Model.Fips202 Model.M0 Model.M0Kem Proof.PackP Proof.PackThm Proof.Conv Proof.CbdP Proof.KeccakP Proof.SpongeP Proof.IndcpaP Proof.KemP.
Import ListNotations.
Local Open Scope Z_scope.

(** ** The stream *)

(** State after absorbing a seed, and byte [i] of the stream. *)
Definition absd (seed : list Z) : list Z := absorbed 168 seed [true; true; true; true].
Lemma absd_arr : forall seed, arr U64 25 (absd seed).
Proof. intros. exact (absorbed_arr 168 seed [true; true; true; true]). Qed.
Definition sbyte (seed : list Z) (i : Z) : Z := outbyte 168 (keccak_f (absd seed)) i.

Lemma shake_sbyte : forall n seed, 0 <= n -> SHAKE128 n seed = ztab n (sbyte seed).
Proof.
  intros n seed Hn. unfold SHAKE128, KECCAK. change (1600 - 256) with (8 * (8 * 21)).
  now rewrite (sponge_bytes (8 * 21)) by (cbn; lia).
Qed.
Lemma sbyte_range : forall seed i, 0 <= sbyte seed i <= 255.
Proof. intros. pose proof (outbyte_range 168 (keccak_f (absd seed)) i). unfold sbyte. lia. Qed.

Lemma wp_absorb0 : forall junk s seed (Q : list Z -> Prop), len s = 25 -> 32 <= len seed -> typed U8 seed ->
  Q (absd (zfirst 32 seed)) -> wp (keccak_absorb0 junk s SHAKE128_RATE seed 32 0x1F) Q.
Proof.
  intros junk s seed Q Ls Lseed Ts HQ. unfold keccak_absorb0. apply wp_bind, wp_zero_state; auto.
  apply (wp_keccak_absorb _ 21 _ _ _ [true; true; true; true]); [lia|lia|auto|cbn; lia|lia|sfx_tac|exact HQ].
Qed.

Global Opaque absd.

Lemma get_app : forall a b i, 0 <= i -> get (a ++ b) i = if i <? len a then get a i else get b (i - len a).
Proof.
  intros a b i Hi. unfold get. destruct (i <? len a) eqn:E; [apply znth_app1|apply znth_app2]; lia.
Qed.
Lemma get_zskip : forall l n i, 0 <= n -> 0 <= i -> get (zskip n l) i = get l (n + i).
Proof. intros. unfold get. now apply znth_zskip. Qed.
Lemma get_zfirst : forall l n i, 0 <= i < n -> get (zfirst n l) i = get l i.
Proof. intros. unfold get. rewrite znth_zfirst; auto. lia. Qed.

Lemma wp_squeeze1 : forall seed b buf off (Q : list Z * list Z -> Prop), 0 <= b -> 0 <= off -> off + 168 <= len buf -> typed U8 buf ->
  (forall buf', len buf' = len buf -> typed U8 buf' ->
     (forall j, 0 <= j < len buf -> get buf' j = if (off <=? j) && (j <? off + 168) then sbyte seed (168 * b + (j - off)) else get buf j) ->
     Q (buf', fiter (b + 1) (absd seed))) ->
  wp (squeeze1 buf off (fiter b (absd seed))) Q.
Proof.
  intros seed b buf off Q Hb Ho Lb Tb HQ. unfold squeeze1. apply wp_bind, wp_ptr; [lia|].
  apply wp_bind. apply (wp_squeezeblocks _ 1 _ 21).
  { apply fiter_arr. apply absd_arr. }
  { lia. }
  { lia. }
  { rewrite len_zskip; lia. }
  apply wp_bind, wp_at; [lia|]. apply wp_ret. apply wp_ret.
  change (8 * 21) with 168. change (168 * 1) with 168.
  assert (fiter 1 (fiter b (absd seed)) = fiter (b + 1) (absd seed)) as -> by (rewrite <- fiter_add by lia; f_equal; lia).
  assert (len (zfirst off buf) = off) as Lf by (apply len_zfirst; lia).
  set (T := ztab 168 _). assert (len T = 168) as LT by (apply len_ztab; lia).
  rewrite zskip_zskip by lia.
  assert (arr U8 168 T) as (_ & TT) by (apply out_arr; lia).
  apply HQ.
  - rewrite !len_app, Lf, LT, len_zskip; lia.
  - apply Forall_app. split; [now apply Forall_zfirst|]. apply Forall_app. split; [auto|now apply Forall_zskip].
  - intros j Hj. rewrite get_app, Lf by lia.
    destruct (j <? off) eqn:E1; [rewrite get_zfirst by lia; destruct (off <=? j) eqn:E2; [lia|reflexivity]|].
    rewrite get_app, LT by lia.
    replace (off <=? j) with true by lia. cbn [andb]. destruct (j - off <? 168) eqn:E2.
    + replace (j <? off + 168) with true by lia. unfold T. rewrite get_ztab by lia. unfold sbyte.
      rewrite outbyte_block by lia. unfold outbyte. rewrite Z.div_small, Z.mod_small by lia. change (fiter 0 ?x) with x.
      rewrite <- fiter_S', <- fiter_S by lia. reflexivity.
    + replace (j <? off + 168) with false by lia. rewrite get_zskip by lia. f_equal. lia.
Qed.

(** ** Matrix entries *)

Lemma wp_bank : forall bytes pol start num (Q : list Z -> Prop), typed U8 bytes -> 0 <= num -> 13 * num <= len bytes ->
  0 <= start -> start + 8 * num <= len pol ->
  (forall pol', len pol' = len pol ->
     (forall i, 0 <= i < len pol -> get pol' i = if (start <=? i) && (i <? start + 8 * num)
        then bits_val 13 (fun m => fbit 8 bytes (13 * (i - start) + m)) else get pol i) -> Q pol') ->
  wp (byte_bank2pol_part bytes pol start num) Q.
Proof.
  intros bytes pol start num Q Ht Hn Lb Hs Lp HQ. unfold byte_bank2pol_part.
  assert (len (zskip start pol) = len pol - start) as Lz by (rewrite len_zskip; lia).
  apply wp_at; [lia|]. cbv zeta. apply fill_regroup with (w1 := 8) (w2 := 13) (kd := 13) (src := bytes);
    [reflexivity|lia|cbn; lia|lia|lia|lia|lia|intros; reflexivity| | |].
  { intros j e Hj HI; cbn [In] in HI;
    repeat (destruct HI as [<-|HI]; [split; [reflexivity|cbn [lok tmin tmax]; repeat split; (assumption || lia)]|]); contradiction. }
  { intros j Hj; cbn [all_below Z.to_nat Pos.to_nat Pos.iter_op width Nat.add]; repeat split. }
  assert (len (zfirst start pol) = start) as Lf by (apply len_zfirst; lia).
  assert (len (regroup 8 13 (8 * num) bytes) = 8 * num) as Lr by (apply len_regroup; lia).
  rewrite zskip_zskip by lia. apply HQ.
  - rewrite !len_app, Lf, Lr, len_zskip; lia.
  - intros i Hi. rewrite get_app, Lf by lia.
    destruct (i <? start) eqn:E1; [rewrite get_zfirst by lia; destruct (start <=? i) eqn:E2; [lia|reflexivity]|].
    rewrite get_app, Lr by lia. replace (start <=? i) with true by lia. cbn [andb].
    destruct (i - start <? 8 * num) eqn:E2.
    + replace (i <? start + 8 * num) with true by lia. unfold regroup. now rewrite get_ztab by lia.
    + replace (i <? start + 8 * num) with false by lia. rewrite get_zskip by lia. f_equal. lia.
Qed.

(** Coefficient [c] of the [n]-th polynomial of the stream. *)
Definition coef13 (seed : list Z) (n c : Z) : Z :=
  bits_val 13 (fun m => Z.testbit (sbyte seed (416 * n + (13 * c + m) / 8)) ((13 * c + m) mod 8)).

Lemma unpack_coef13 : forall seed n, 0 <= n < 9 -> unpack 13 (zskip (416 * n) (SHAKE128 3744 seed)) = ztab 256 (coef13 seed n).
Proof.
  intros seed n Hn. unfold unpack, regroup. apply ztab_ext. intros c Hc. unfold coef13. apply bits_val_ext. intros m Hm.
  unfold fbit. assert (0 <= (13 * c + m) / 8 < 416) by (split; [apply Z.div_pos|apply Z.div_lt_upper_bound]; lia).
  rewrite get_zskip by lia. rewrite shake_sbyte by lia. now rewrite get_ztab by lia.
Qed.

(** The static variables before the [n]-th polynomial. *)
Definition gm_at (seed : list Z) (n : Z) (g : gmstate) : Prop :=
  exists b, 0 <= b /\ arr U8 280 (g_buf g) /\ g_s g = fiter b (absd seed) /\ g_start g = 0 /\
    g_left g = 168 * b - 416 * n /\ 0 <= g_left g < 168 /\
    forall j, 0 <= j < g_left g -> get (g_buf g) j = sbyte seed (416 * n + j).

Lemma left_bound : forall b n, 0 <= n <= 8 -> 0 <= 168 * b - 416 * n < 168 -> 168 * b - 416 * n <= 112.
Proof. intros b n Hn H. assert (n = 0 \/ n = 1 \/ n = 2 \/ n = 3 \/ n = 4 \/ n = 5 \/ n = 6 \/ n = 7 \/ n = 8) by lia. lia. Qed.

Lemma wp_bring : forall buf d n (Q : list Z -> Prop), typed U8 buf -> 0 < d -> 0 <= n -> d + n <= len buf ->
  (forall buf', len buf' = len buf -> typed U8 buf' -> (forall j, 0 <= j < n -> get buf' j = get buf (d + j)) -> Q buf') ->
  wp (for_ 0 n (fun j buf => st U8 buf j (Idx U8 buf (d + j))) buf) Q.
Proof.
  intros buf d n Q Tb Hd Hn Lb HQ.
  apply wp_for with (I := fun j b => len b = len buf /\ typed U8 b /\ forall k, 0 <= k < len buf -> get b k = if k <? j then get buf (d + k) else get buf k).
  - lia.
  - split; auto. split; auto. intros k Hk. destruct (k <? 0) eqn:E; auto; lia.
  - intros j b Hj (L & T & G). pose proof (typed_get U8 b (d + j) T ltac:(lia)) as R.
    apply wp_st; [reflexivity|cbn [lok]; split; auto; lia|lia|]. cbn [val]. rewrite wrap_id by auto.
    split; [now rewrite len_upd|]. split; [apply typed_upd; auto|].
    intros k Hk. unfold get at 1. rewrite znth_upd by lia. destruct (k =? j) eqn:E.
    + assert (k = j) by lia. subst. rewrite G by lia. replace (d + j <? j) with false by lia. now replace (j <? j + 1) with true by lia.
    + fold (get b k). rewrite G by lia. destruct (k <? j) eqn:E1, (k <? j + 1) eqn:E2; auto; lia.
  - intros b (L & T & G). apply HQ; auto. intros j Hj. rewrite G by lia. now replace (j <? n) with true by lia.
Qed.

Section Poly.
  Variable seed : list Z.
  Variable n : Z.
  Hypothesis Hn : 0 <= n <= 8.
  Variable b0 left0 : Z.
  Hypothesis Hb : 0 <= b0.
  Hypothesis Hl : left0 = 168 * b0 - 416 * n.
  Hypothesis Hl' : 0 <= left0 <= 112.

  (** Groups of eight coefficients done after [k] passes; number of passes. *)
  Definition grp (k : Z) : Z := if k =? 0 then 0 else (left0 + 168 * k) / 13.
  Definition passes : Z := if 80 <=? left0 then 2 else 3.

  Definition pinv (k : Z) (x : gmstate * list Z * Z) : Prop :=
    let '(g, temp, complete) := x in
    let gr := if k <? passes then grp k else 32 in
    arr U8 280 (g_buf g) /\ g_s g = fiter (b0 + k) (absd seed) /\
    g_start g = (if k <? passes then 8 * gr else 0) /\ g_left g = left0 + 168 * k - 13 * gr /\
    (forall j, 0 <= j < g_left g -> get (g_buf g) j = sbyte seed (416 * n + 13 * gr + j)) /\
    len temp = 256 /\ (forall c, 0 <= c < 8 * gr -> get temp c = coef13 seed n c) /\
    complete = (if k <? passes then 0 else 1).

  Lemma grp_bounds : forall k, 0 <= k < passes -> 0 <= grp k < 32 /\ 0 <= left0 + 168 * k - 13 * grp k <= 112.
  Proof.
    intros k Hk. unfold passes, grp in *. assert (k = 0 \/ k = 1 \/ k = 2) as [->|[->| ->]] by (destruct (80 <=? left0); lia).
    - cbn [Z.eqb]. lia.
    - change (1 =? 0) with false. cbv iota. dlia.
    - change (2 =? 0) with false. cbv iota. destruct (80 <=? left0) eqn:E; [lia|]. dlia.
  Qed.
  Lemma grp_step : forall k, 0 <= k < passes -> (left0 + 168 * (k + 1) - 13 * grp k) / 13 = (left0 + 168 * (k + 1)) / 13 - grp k.
  Proof.
    intros k Hk. replace (left0 + 168 * (k + 1) - 13 * grp k) with (left0 + 168 * (k + 1) + (- grp k) * 13) by lia.
    rewrite Z.div_add by lia. lia.
  Qed.
  Lemma grp_last : forall k, 0 <= k < passes -> (255 <? (left0 + 168 * (k + 1)) / 13 * 8) = negb (k + 1 <? passes).
  Proof.
    intros k Hk. unfold passes in *. assert (k = 0 \/ k = 1 \/ k = 2) as [->|[->| ->]] by (destruct (80 <=? left0); lia);
      destruct (80 <=? left0) eqn:E; try lia; cbn [negb]; apply eq_true_iff_eq; rewrite negb_true_iff, !Z.ltb_lt, Z.ltb_ge; dlia.
  Qed.

  Lemma wp_pass : forall k g temp complete (Q : gmstate * list Z * Z -> Prop), 0 <= k < passes -> pinv k (g, temp, complete) ->
    (forall x, pinv (k + 1) x -> Q x) ->
    wp (' (buf, s) <- squeeze1 (g_buf g) (g_left g) (g_s g) ;;
        let total_bytes := wrap U16 (g_left g + SHAKE128_RATE) in
        let num_8coeff := total_bytes / 13 in
        num_8coeff_final <- ite (255 <? num_8coeff * 8 + g_start g) (ret (wrap U16 (32 - g_start g / 8))) (ret num_8coeff) ;;
        temp_ar <- byte_bank2pol_part buf temp (g_start g) num_8coeff_final ;;
        let left_over_bytes := wrap U16 (total_bytes - num_8coeff_final * 13) in
        buf <- for_ 0 left_over_bytes (fun j buf => st U8 buf j (Idx U8 buf (num_8coeff_final * 13 + j))) buf ;;
        let start := wrap U16 (g_start g + num_8coeff_final * 8) in
        ite (255 <? start)
          (ret (Gm buf s 0 left_over_bytes, temp_ar, wrap U16 (complete + 1)))
          (ret (Gm buf s start left_over_bytes, temp_ar, complete)))%M Q.
  Proof.
    intros k g temp complete Q Hk HI HQ. unfold pinv in HI. replace (k <? passes) with true in HI by lia. cbv zeta in HI.
    destruct HI as ((Lb & Tb) & Es & Est & El & Gb & Lt & Gt & Ec).
    pose proof (grp_bounds k Hk) as (Hg & Hleft). pose proof (grp_step k Hk) as Hstep. pose proof (grp_last k Hk) as Hlast.
    set (gr := grp k) in *. rewrite Es.
    apply wp_bind, wp_squeeze1; [lia|lia|lia|auto|]. intros buf1 Lb1 Tb1 Gb1. cbv zeta. unfold SHAKE128_RATE.
    rewrite (wrap_id U16 (g_left g + 168)) by (cbn [tmin tmax]; lia).
    replace (g_left g + 168) with (left0 + 168 * (k + 1) - 13 * gr) by lia. rewrite Hstep.
    set (G := (left0 + 168 * (k + 1)) / 13) in *.
    assert (13 * G <= left0 + 168 * (k + 1) < 13 * G + 13) as HG by (unfold G; dlia).
    assert (12 <= G - gr) by lia.
    rewrite Est.
    replace (8 * gr / 8) with gr by (rewrite Z.mul_comm, Z.div_mul; lia).
    rewrite (wrap_id U16 (32 - gr)) by (cbn [tmin tmax]; lia).
    replace ((G - gr) * 8 + 8 * gr) with (G * 8) by lia. rewrite Hlast.
    set (last := negb (k + 1 <? passes)) in *.
    apply wp_bind, wp_ite.
    set (F := if last then 32 - gr else G - gr).
    assert (wp (if last then ret (32 - gr) else ret (G - gr)) (fun r => r = F)) as W by (unfold F; destruct last; now apply wp_ret).
    eapply wp_mono; [exact W|]. cbn beta. intros ? ->. clear W.
    assert (1 <= F <= 32 - gr /\ F <= G - gr) as HF by (unfold F; destruct last eqn:E; lia).
    assert (Gb1' : forall j, 0 <= j < g_left g + 168 -> get buf1 j = sbyte seed (416 * n + 13 * gr + j)).
    { intros j Hj. rewrite Gb1 by lia. destruct ((g_left g <=? j) && (j <? g_left g + 168)) eqn:E.
      - f_equal. lia.
      - apply Gb. lia. }
    apply wp_bind, wp_bank; [auto|lia|lia|lia|lia|]. intros temp1 Lt1 Gt1. cbv zeta.
    rewrite (wrap_id U16 (_ - F * 13)) by (cbn [tmin tmax]; lia).
    apply wp_bind, wp_bring; [auto|lia|lia|lia|]. intros buf2 Lb2 Tb2 Gb2. cbv zeta.
    rewrite (wrap_id U16 (8 * gr + F * 8)) by (cbn [tmin tmax]; lia).
    assert (Gt2 : forall c, 0 <= c < 8 * (gr + F) -> get temp1 c = coef13 seed n c).
    { intros c Hc. rewrite Gt1 by lia. destruct ((8 * gr <=? c) && (c <? 8 * gr + 8 * F)) eqn:E; [|apply Gt; lia].
      unfold coef13. apply bits_val_ext. intros m Hm. unfold fbit. rewrite Gb1' by (split; [apply Z.div_pos|apply Z.div_lt_upper_bound]; lia).
      replace (13 * c + m) with (13 * (c - 8 * gr) + m + 13 * gr * 8) by lia. rewrite Z.div_add, Z.mod_add by lia. do 2 f_equal. lia. }
    apply wp_ite. destruct (255 <? 8 * gr + F * 8) eqn:E.
    - assert (last = true) as El1 by (unfold F in E; destruct last; auto; lia). unfold F in *. rewrite El1 in *.
      apply wp_ret, HQ. unfold pinv. unfold last in El1. apply negb_true_iff in El1. rewrite El1. cbn [g_buf g_s g_start g_left].
      split; [split; auto; lia|]. split; [f_equal; lia|]. split; auto. split; [lia|]. split; [|split; [lia|split; [|rewrite Ec; reflexivity]]].
      + intros j Hj. rewrite Gb2 by lia. rewrite Gb1' by lia. f_equal. lia.
      + intros c Hc. apply Gt2. lia.
    - assert (last = false) as El1 by (unfold F in E; destruct last; auto; lia). unfold F in *. rewrite El1 in *.
      assert (grp (k + 1) = G) as EG by (unfold grp; destruct (k + 1 =? 0) eqn:E0; [lia|reflexivity]).
      apply wp_ret, HQ. unfold pinv. unfold last in El1. apply negb_false_iff in El1. rewrite El1, EG. cbn [g_buf g_s g_start g_left].
      split; [split; auto; lia|]. split; [f_equal; lia|]. split; [lia|]. split; [lia|]. split; [|split; [lia|split; [|auto]]].
      + intros j Hj. rewrite Gb2 by lia. rewrite Gb1' by lia. f_equal. lia.
      + intros c Hc. apply Gt2. lia.
  Qed.
End Poly.

Lemma wp_GenMatrix_poly : forall junk n g temp seed pn (Q : gmstate * list Z -> Prop), 0 <= n <= 8 -> (pn =? 0) = (n =? 0) ->
  32 <= len seed -> typed U8 seed -> len temp = 256 ->
  (if n =? 0 then arr U8 280 (g_buf g) /\ len (g_s g) = 25 else gm_at (zfirst 32 seed) n g) ->
  (forall g', gm_at (zfirst 32 seed) (n + 1) g' -> Q (g', unpack 13 (zskip (416 * n) (SHAKE128 3744 (zfirst 32 seed))))) ->
  wp (GenMatrix_poly junk g temp seed pn) Q.
Proof.
  intros junk n g temp seed pn Q Hn Hpn Ls Ts Lt Hg HQ. unfold GenMatrix_poly. set (sd := zfirst 32 seed) in *.
  apply wp_bind, wp_ite. rewrite Hpn.
  assert (wp (if n =? 0 then (s <- zero_state (g_s g) ;; s <- keccak_absorb0 junk s SHAKE128_RATE seed 32 0x1F ;;
     ret (Gm (g_buf g) s 0 0))%M else ret g) (gm_at sd n)) as W.
  { destruct (n =? 0) eqn:E.
    - destruct Hg as (Hb & Lg). apply wp_bind, wp_zero_state; auto. apply wp_bind, wp_absorb0; auto. apply wp_ret.
      exists 0. cbn [g_buf g_s g_start g_left]. split; [lia|]. split; auto. split; [reflexivity|]. split; auto. split; [lia|]. split; [lia|]. lia.
    - now apply wp_ret. }
  eapply wp_mono; [exact W|]. clear W Hg g. cbn beta. intros g (b0 & Hb0 & Hbuf & Es & Est & El & Hl & Gb).
  assert (Hl' : 0 <= g_left g <= 112) by (split; [lia|]; rewrite El in *; now apply left_bound).
  apply wp_bind, wp_while with (I := pinv sd n b0 (g_left g)) (m := passes (g_left g)).
  - unfold passes. destruct (80 <=? _); lia.
  - unfold passes. destruct (80 <=? _); cbn; lia.
  - unfold pinv. replace (0 <? passes (g_left g)) with true by (unfold passes; destruct (80 <=? g_left g); reflexivity).
    change (grp (g_left g) 0) with 0. rewrite Z.add_0_r. split; auto. split; auto. split; [lia|]. split; [lia|].
    split; [intros j Hj; rewrite Gb by lia; f_equal; lia|]. split; auto. split; [lia|reflexivity].
  - intros k ((g', t'), c') Hk HI. destruct HI as (_ & _ & _ & _ & _ & _ & _ & ->). destruct (k <? _) eqn:E; reflexivity.
  - intros k ((g', t'), c') Hk HI. apply wp_pass with (seed := sd) (n := n) (b0 := b0) (left0 := g_left g) (k := k); auto.
  - intros ((g', t'), c') HI. unfold pinv in HI. rewrite Z.ltb_irrefl in HI.
    destruct HI as (Hb' & Es' & Est' & El' & Gb' & Lt' & Gt' & _). apply wp_ret.
    replace t' with (unpack 13 (zskip (416 * n) (SHAKE128 3744 sd))) by (rewrite unpack_coef13 by lia; symmetry; apply ztab_eq with 0; auto; intros i Hi; apply Gt'; lia).
    apply HQ. assert (0 <= passes (g_left g)) by (unfold passes; destruct (80 <=? _); lia).
    exists (b0 + passes (g_left g)). split; [lia|]. split; auto. split; auto. split; auto. split; [lia|]. split.
    + unfold passes in *. destruct (80 <=? g_left g) eqn:E; lia.
    + intros j Hj. rewrite Gb' by lia. f_equal. lia.
Qed.

(** ** Secrets *)

Lemma wp_m0_load : forall x (Q : cexp -> Prop), 4 <= len x -> typed U8 x ->
  Q (Var U32 (bits_val (8 * 4) (fbit 8 x))) -> wp (m0_load_littleendian x 4) Q.
Proof.
  intros x Q Hl T HQ. unfold m0_load_littleendian.
  assert (forall i, 0 <= get x i <= 255) as G.
  { intros i. destruct (Z_lt_dec i 0); [unfold get; rewrite znth_default; lia|].
    destruct (Z_lt_dec i (len x)); [|unfold get; rewrite znth_default; lia]. pose proof (typed_get U8 x i T). cbn in *. lia. }
  assert (forall i k, i < 4 -> 0 <= k < 8 * (i + 1) -> 8 * i <= k -> fbit 8 x k = Z.testbit (get x i) (k - 8 * i)) as F.
  { intros i k Hi Hk Hk'. replace k with (8 * i + (k - 8 * i)) at 1 by lia. apply fbit_at; lia. }
  assert (forall i, 0 <= i -> 0 <= bits_val (8 * i) (fbit 8 x) < 2 ^ (8 * i)) as B by (intros; apply bits_val_bound; lia).
  apply wp_bind, wp_asgv with (v := bits_val (8 * 1) (fbit 8 x)); [reflexivity|cbn [lok]; split; auto; lia| |cbn [tmin tmax]; specialize (B 1); lia|].
  { cbn [val]. apply bits_val_eq; [lia|specialize (G 0); change (2 ^ (8 * 1)) with 256; lia|]. intros k Hk. rewrite (F 0) by lia. f_equal. lia. }
  apply wp_for with (I := fun i r => r = Var U32 (bits_val (8 * i) (fbit 8 x))).
  - lia.
  - auto.
  - intros i r Hi ->. assert (2 ^ (8 * i) <= 2 ^ 24) by (apply Z.pow_le_mono_r; lia).
    assert (2 ^ (8 * (i + 1)) <= 2 ^ 32) by (apply Z.pow_le_mono_r; lia).
    assert (2 ^ (8 * (i + 1)) = 2 ^ (8 * i) * 256) as P by (replace (8 * (i + 1)) with (8 * i + 8) by lia; rewrite Z.pow_add_r by lia; reflexivity).
    assert (0 < 2 ^ (8 * i)) by (apply Z.pow_pos_nonneg; lia).
    pose proof (B i). pose proof (B (i + 1)). pose proof (G i).
    apply wp_asgv with (v := bits_val (8 * (i + 1)) (fbit 8 x)); [reflexivity| | |cbn [tmin tmax]; lia|auto].
    + cbn [lok tmin tmax]. repeat split; auto; lia.
    + cbn [val val_bin ty promote common]. unfold cv, uw. cbn [subr signed wrap].
      rewrite Z.mod_small by nia.
      apply Z.bits_inj'. intros k Hk. rewrite Z.lor_spec, !bits_val_testbit, Z.mul_pow2_bits by lia.
      destruct (k <? 8 * i) eqn:E1.
      * rewrite (Z.testbit_neg_r (get x i)) by lia. replace (k <? 8 * (i + 1)) with true by lia. apply orb_false_r.
      * destruct (k <? 8 * (i + 1)) eqn:E2; cbn [andb orb].
        -- rewrite (F i) by lia. reflexivity.
        -- apply testbit_high with 8; lia.
  - intros r ->. exact HQ.
Qed.

Lemma m0_cast_sub : forall t l k p q, t = U32 \/ t = U64 ->
  znth (Cst I32 0) l k = (Cast U16 (Var t p - Var t q) .& Var U16 8191)%C ->
  wrap U16 (val (znth (Cst I32 0) l k)) = (p - q) mod 8192.
Proof.
  intros t l k p q Ht ->.
  pose proof (cast_sub t [Cast U16 (Var t p - Var t q)%C] 0 p q Ht eq_refl) as E.
  change (znth (Cst I32 0) [Cast U16 (Var t p - Var t q)%C] 0) with (Cast U16 (Var t p - Var t q)%C) in E.
  assert (val (Cast U16 (Var t p - Var t q) .& Var U16 8191)%C = Z.land (wrap U16 (val (Cast U16 (Var t p - Var t q)%C))) 8191) as ->.
  { destruct Ht; subst t; cbn [val val_bin ty promote common]; unfold cv; cbn [subr]; rewrite (wrap_id U16 (wrap U16 _)) by apply wrap_range; reflexivity. }
  rewrite E. change 8191 with (Z.ones 13). rewrite Z.land_ones by lia. change (2 ^ 13) with 8192. unfold wrap. dlia.
Qed.

Lemma wp_m0_cbd : forall start s n buf (Q : list Z -> Prop), 0 <= start -> 0 <= n -> start + 4 * n <= len s ->
  4 * n <= len buf -> typed U8 buf ->
  (forall r, len r = len s -> (forall k, 0 <= k < len s ->
     get r k = if (start <=? k) && (k <? start + 4 * n) then cbd_coef 8 buf (k - start) mod 8192 else get s k) -> Q r) ->
  wp (m0_cbd start s (4 * n) buf) Q.
Proof.
  intros start s0 n buf Q Hs Hn Ls Lb Tb HQ. unfold m0_cbd. apply wp_at; [lia|].
  replace (4 * n / 4) with n by (rewrite Z.mul_comm, Z.div_mul; lia).
  assert (len (zskip start s0) = len s0 - start) as Lz by (rewrite len_zskip; lia).
  assert (len (zfirst start s0) = start) as Lf by (apply len_zfirst; lia).
  set (s := zskip start s0) in *.
  apply wp_for with (I := fun i r => len r = len s /\ forall k, 0 <= k < len s ->
    get r k = if k <? 4 * i then cbd_coef 8 buf k mod 8192 else get s k).
  - lia.
  - split; auto; intros k Hk; destruct (k <? 4 * 0) eqn:E; auto; lia.
  - intros i r Hi (Lr & Hr).
    apply wp_bind, wp_ptr; [lia|].
    apply wp_bind, wp_m0_load; [rewrite len_zskip; lia|apply Forall_zskip; auto|].
    pose proof (bits_val_bound (8 * 4) (fbit 8 (zskip (4 * i) buf)) ltac:(lia)) as Bx;
    remember (bits_val (8 * 4) (fbit 8 (zskip (4 * i) buf))) as x eqn:Hx;
    change (2 ^ (8 * 4)) with 4294967296 in Bx.
    apply wp_bind, wp_asgv with (v := x); [reflexivity|lkv|reflexivity|cbn [tmin tmax]; lia|];
    apply wp_bind, wp_asgv with (v := 0); [reflexivity|lkv|reflexivity|cbn [tmin tmax]; lia|];
    apply wp_bind, (sum_ok U32 4 0x11111111 x) with (n := 8%nat);
    [ reflexivity | lia | reflexivity | cbn [tmax]; lia
    | intros j z Hj Hz;
      pose proof (land_nonneg_le 0x11111111 (Z.shiftr x j)) as LM; rewrite (Z.land_comm 0x11111111) in LM;
      apply wp_asgv with (v := z + Z.land (Z.shiftr x j) 0x11111111);
      [ reflexivity | lkv
      | cbn [val val_bin ty promote common]; unfold cv, uw; cbn [subr signed wrap]; try change (0x11111111 mod 2 ^ 32) with 0x11111111; rewrite Z.mod_small by lia; reflexivity
      | cbn [tmin tmax]; lia | reflexivity ]
    | lia | ].
    assert (forall k, 0 <= pcn 4 (Z.shiftr x (4 * k)) <= 4) as PB by (intros; apply pcn_bound; lia).
    assert (0 <= digs 4 8 x <= 4 * 0x11111111) as DB
      by (rewrite <- sum_spread by lia; apply zsum_bound; [lia|]; intros j Hj; rewrite <- land_ones by lia;
          change (ones 4 8) with 0x11111111; rewrite Z.land_comm;
          pose proof (land_nonneg_le 0x11111111 (Z.shiftr x j)); lia).
    apply wp_bind, wp_asgv with (v := pcn 4 (Z.shiftr x (4 * 0)));
      [reflexivity|lkv|rewrite <- (digit 4 8) by lia; rewrite Z.mul_0_r, Z.shiftr_0_r; reflexivity|specialize (PB 0); cbn [tmin tmax]; lia|];
    apply wp_bind, wp_asgv with (v := pcn 4 (Z.shiftr x (4 * 1)));
      [reflexivity|lkv|rewrite <- (digit 4 8) by lia; reflexivity|specialize (PB 1); cbn [tmin tmax]; lia|];
    apply wp_bind, wp_asgv with (v := pcn 4 (Z.shiftr x (4 * 2)));
      [reflexivity|lkv|rewrite <- (digit 4 8) by lia; reflexivity|specialize (PB 2); cbn [tmin tmax]; lia|];
    apply wp_bind, wp_asgv with (v := pcn 4 (Z.shiftr x (4 * 3)));
      [reflexivity|lkv|rewrite <- (digit 4 8) by lia; reflexivity|specialize (PB 3); cbn [tmin tmax]; lia|];
    apply wp_bind, wp_asgv with (v := pcn 4 (Z.shiftr x (4 * 4)));
      [reflexivity|lkv|rewrite <- (digit 4 8) by lia; reflexivity|specialize (PB 4); cbn [tmin tmax]; lia|];
    apply wp_bind, wp_asgv with (v := pcn 4 (Z.shiftr x (4 * 5)));
      [reflexivity|lkv|rewrite <- (digit 4 8) by lia; reflexivity|specialize (PB 5); cbn [tmin tmax]; lia|];
    apply wp_bind, wp_asgv with (v := pcn 4 (Z.shiftr x (4 * 6)));
      [reflexivity|lkv|rewrite <- (digit 4 8) by lia; reflexivity|specialize (PB 6); cbn [tmin tmax]; lia|];
    apply wp_bind, wp_asgv with (v := pcn 4 (Z.shiftr x (4 * 7)));
      [reflexivity|lkv|rewrite <- (digit_top 4 8) by lia; reflexivity|specialize (PB 7); cbn [tmin tmax]; lia|];
    pose proof (PB 0); pose proof (PB 1); pose proof (PB 2); pose proof (PB 3);
    pose proof (PB 4); pose proof (PB 5); pose proof (PB 6); pose proof (PB 7);
    pose proof (fun r Hr => cbd_elem 8 4 4 i r buf (8 * 4) x eq_refl ltac:(lia) ltac:(lia) ltac:(lia) ltac:(lia) Hr eq_refl Hx) as CE.
    apply wp_sts.
    + intros e He; cbn [In] in He; repeat destruct He as [<-|He]; try (split; [reflexivity|lkv]); contradiction.
    + lia.
    + match goal with |- context [len (?y :: ?l)] => change (len (y :: l)) with 4 end; lia.
    + intros r' Lr' Hr'; split; [lia|]; intros k Hk; rewrite Hr' by lia; match goal with |- context [len (?y :: ?l)] => change (len (y :: l)) with 4 end.
      destruct ((4 * i <=? k) && (k <? 4 * i + 4)) eqn:E.
      * replace (k <? 4 * (i + 1)) with true by lia;
        assert (k = 4 * i + 0 \/ k = 4 * i + 1 \/ k = 4 * i + 2 \/ k = 4 * i + 3) as K by lia;
        destruct K as [-> | [-> | [-> | ->]]];
        [ rewrite <- (CE 0) by lia | rewrite <- (CE 1) by lia | rewrite <- (CE 2) by lia | rewrite <- (CE 3) by lia ];
        rewrite Z.add_simpl_l; (apply (m0_cast_sub U32); [first [left; reflexivity|right; reflexivity]|reflexivity]).
      * rewrite Hr by lia;
        replace (k <? 4 * (i + 1)) with (k <? 4 * i) by lia; reflexivity.
  - intros r (Lr & Hr). apply HQ.
    + rewrite len_app, Lf. lia.
    + intros k Hk. rewrite get_app, Lf by lia.
      destruct (k <? start) eqn:E1; [rewrite get_zfirst by lia; destruct (start <=? k) eqn:E2; [lia|reflexivity]|].
      replace (start <=? k) with true by lia. cbn [andb]. rewrite Hr by lia.
      destruct (k - start <? 4 * n) eqn:E2.
      * now replace (k <? start + 4 * n) with true by lia.
      * replace (k <? start + 4 * n) with false by lia. unfold s. rewrite get_zskip by lia. f_equal. lia.
Qed.

(** Coefficient of a secret made of one byte. *)
Definition bcoef (x : Z) : Z := hw 4 (fun t => Z.testbit x t) - hw 4 (fun t => Z.testbit x (4 + t)).
Lemma cbd_coef8 : forall buf k, 0 <= k -> cbd_coef 8 buf k = bcoef (get buf k).
Proof.
  intros buf k Hk. unfold cbd_coef, bcoef, hw. change (8 / 2) with 4.
  f_equal; apply zsum_ext; intros t Ht; do 2 f_equal; [|replace (8 * k + 4 + t) with (8 * k + (4 + t)) by lia]; apply fbit_at; lia.
Qed.

Definition sec (seed : list Z) (m : Z) (r : list (list Z)) : Prop :=
  len r = 3 /\ forall i, 0 <= i < 3 -> len (getr r i) = 256 /\
    forall k, 0 <= k < 256 -> 256 * i + k < m -> get (getr r i) k = bcoef (sbyte seed (256 * i + k)) mod 8192.
Definition bank (seed : list Z) (base n : Z) (buf : list Z) : Prop :=
  arr U8 248 buf /\ forall j, 0 <= j < n -> get buf j = sbyte seed (base + j).

Lemma wp_cbd_row : forall seed r i start n buf (Q : list (list Z) -> Prop), 0 <= i < 3 -> 0 <= start -> 0 <= n -> start + 4 * n <= 256 ->
  4 * n <= 248 -> sec seed (256 * i + start) r -> bank seed (256 * i + start) (4 * n) buf ->
  (forall r', sec seed (256 * i + (start + 4 * n)) r' -> Q r') -> wp (cbd_row r i start (4 * n) buf) Q.
Proof.
  intros seed r i start n buf Q Hi Hs Hn Hsn Hn' (Lr & Hr) ((Lb & Tb) & Gb) HQ. unfold cbd_row.
  apply wp_bind, wp_row with (d := []); [lia|]. fold (getr r i). destruct (Hr i Hi) as (Lri & Gri).
  apply wp_bind, wp_m0_cbd; [lia|lia|lia|lia|auto|]. intros ri L' G'. apply wp_setrow; [lia|]. apply HQ.
  split; [now rewrite len_upd|]. intros i' Hi'. unfold getr. rewrite znth_upd by lia. destruct (i' =? i) eqn:E.
  - assert (i' = i) by lia. subst i'. split; [lia|]. intros k Hk Hm. rewrite G' by lia.
    destruct ((start <=? k) && (k <? start + 4 * n)) eqn:E1; [|apply Gri; lia].
    rewrite cbd_coef8 by lia. rewrite Gb by lia. do 3 f_equal. lia.
  - fold (getr r i'). destruct (Hr i' Hi') as (L1 & G1). split; auto. intros k Hk Hm. apply G1; auto. lia.
Qed.

Lemma wp_sq : forall seed b base buf off (Q : list Z * list Z -> Prop), 0 <= b -> 0 <= off <= 80 -> bank seed base off buf -> 168 * b = base + off ->
  (forall buf', bank seed base (off + 168) buf' -> Q (buf', fiter (b + 1) (absd seed))) -> wp (squeeze1 buf off (fiter b (absd seed))) Q.
Proof.
  intros seed b base buf off Q Hb Ho ((Lb & Tb) & Gb) E HQ. apply wp_squeeze1; [lia|lia|lia|auto|].
  intros buf' L T G. apply HQ. split; [split; auto; lia|]. intros j Hj. rewrite G by lia.
  destruct ((off <=? j) && (j <? off + 168)) eqn:E1; [f_equal; lia|apply Gb; lia].
Qed.

Lemma wp_down : forall seed base d n buf (Q : list Z -> Prop), 0 < d <= n -> n <= 248 -> bank seed base n buf ->
  (forall buf', bank seed (base + d) (n - d) buf' -> Q buf') ->
  wp (for_ d n (fun i buf => st U8 buf (i - d) (Idx U8 buf i)) buf) Q.
Proof.
  intros seed base d n buf Q Hd Hn ((Lb & Tb) & Gb) HQ.
  apply wp_for with (I := fun j b => arr U8 248 b /\ forall k, 0 <= k < n -> get b k = if k <? j - d then get buf (d + k) else get buf k).
  - lia.
  - split; [split; auto|]. intros k Hk. destruct (k <? d - d) eqn:E; auto; lia.
  - intros j b Hj ((L & T) & G). pose proof (typed_get U8 b j T ltac:(lia)) as R.
    apply wp_st; [reflexivity|cbn [lok]; split; auto; lia|lia|]. cbn [val]. rewrite wrap_id by auto.
    split; [split; [now rewrite len_upd|apply typed_upd; auto]|].
    intros k Hk. unfold get at 1. rewrite znth_upd by lia. destruct (k =? j - d) eqn:E.
    + assert (k = j - d) by lia. subst. rewrite G by lia. replace (j <? j - d) with false by lia.
      replace (j - d <? j + 1 - d) with true by lia. f_equal. lia.
    + fold (get b k). rewrite G by lia. destruct (k <? j - d) eqn:E1, (k <? j + 1 - d) eqn:E2; auto; lia.
  - intros b (Hb & G). apply HQ. split; auto. intros j Hj. rewrite G by lia. replace (j <? n - d) with true by lia.
    rewrite Gb by lia. f_equal. lia.
Qed.

Definition mod13 (x : Z) : Z := x mod 8192.
Lemma wp_m0_GenSecret : forall junk r seed (Q : list (list Z) -> Prop), len r = 3 -> (forall i, 0 <= i < 3 -> len (getr r i) = 256) ->
  32 <= len seed -> typed U8 seed ->
  Q (map (map mod13) (expand_s SHAKE128 saber (zfirst 32 seed))) -> wp (m0_GenSecret junk r seed) Q.
Proof.
  intros junk r seed Q Lr Hr Ls Ts HQ. unfold m0_GenSecret. set (sd := zfirst 32 seed) in *.
  assert (bank sd 0 0 (uninit8 junk 0 248)) as B0 by (split; [apply uninit8_arr; lia|lia]).
  assert (sec sd (256 * 0 + 0) r) as S0 by (split; auto; intros i Hi; split; auto; lia).
  generalize dependent (uninit8 junk 0 248). intros buf B0. cbv zeta.
  apply wp_bind, wp_zero_state; [apply uninit_len; lia|]. apply wp_bind, wp_absorb0; auto.
  change (absd sd) with (fiter 0 (absd sd)).
  apply wp_bind, (wp_sq sd 0 0); [lia|lia|auto|lia|]. clear buf B0. intros buf B.
  apply wp_bind, (wp_cbd_row sd r 0 0 42); [lia|lia|lia|lia|lia|auto|exact B|]. clear r Lr Hr S0. intros r S.
  assert (bank sd 168 0 buf) as B1 by (destruct B; split; auto; lia). clear B.
  apply wp_bind, (wp_sq sd 1 168); [lia|lia|auto|lia|]. clear buf B1. intros buf B.
  apply wp_bind, (wp_cbd_row sd r 0 168 22); [lia|lia|lia|lia|lia|exact S|destruct B as (B1 & B2); split; auto; intros; apply B2; lia|].
  clear r S. intros r S.
  apply wp_bind, (wp_down sd 168 88 168); [lia|lia|exact B|]. clear buf B. intros buf B.
  apply wp_bind, (wp_sq sd 2 256); [lia|lia|exact B|lia|]. clear buf B. intros buf B.
  apply wp_bind, (wp_cbd_row sd r 1 0 62); [lia|lia|lia|lia|lia|exact S|exact B|]. clear r S. intros r S.
  assert (bank sd 504 0 buf) as B1 by (destruct B; split; auto; lia). clear B.
  apply wp_bind, (wp_sq sd 3 504); [lia|lia|auto|lia|]. clear buf B1. intros buf B.
  apply wp_bind, (wp_cbd_row sd r 1 248 2); [lia|lia|lia|lia|lia|exact S|destruct B as (B1 & B2); split; auto; intros; apply B2; lia|].
  clear r S. intros r S.
  apply wp_bind, (wp_down sd 504 8 168); [lia|lia|exact B|]. clear buf B. intros buf B.
  apply wp_bind, (wp_cbd_row sd r 2 0 40); [lia|lia|lia|lia|lia|exact S|exact B|]. clear r S. intros r S.
  assert (bank sd 672 0 buf) as B1 by (destruct B; split; auto; lia). clear B.
  apply wp_bind, (wp_sq sd 4 672); [lia|lia|auto|lia|]. clear buf B1. intros buf B.
  apply (wp_cbd_row sd r 2 160 24); [lia|lia|lia|lia|lia|exact S|destruct B as (B1 & B2); split; auto; intros; apply B2; lia|].
  clear r S. intros r (Lr & S).
  assert (r = map (map mod13) (expand_s SHAKE128 saber sd)) as ->; [|exact HQ].
  unfold expand_s. cbn [saber p_uniform p_l p_mu]. unfold gen_vec. rewrite map_ztab. apply ztab_eq with []; auto.
  intros i Hi. fold (getr r i). destruct (S i Hi) as (L & G). unfold cbd_poly. rewrite map_ztab. apply ztab_eq with 0; auto.
  intros k Hk. unfold mod13. fold (get (getr r i) k). rewrite G by lia. f_equal. rewrite cbd_coef8 by lia. rewrite get_zskip by lia.
  rewrite shake_sbyte by lia. now rewrite get_ztab by lia.
Qed.
