(** Facts on the Cortex-M0 code. *)
From Coq Require Import ZArith List Bool Lia.
From Verif Require Import Lib.Arr Lib.CInt Lib.CMon Lib.Wire Spec.Bits Spec.Keccak Model.Params Model.Pack Model.Fips202 Model.M0
  Proof.PackP Proof.PackThm Proof.KeccakP Proof.SpongeP Proof.KemP.
Import ListNotations.
Local Open Scope Z_scope.

(** ** 3-bit packing *)

(** What packing and unpacking with the functions of the Cortex-M0 code makes of coefficient [x] at index [i]. *)
Definition garbled (i x : Z) : Z := if i mod 8 =? 5 then 2 * ((x / 2) mod 4) + (x / 4) mod 2 else x mod 8.
Definition garble (data : list Z) : list Z := ztab 256 (fun i => garbled i (get data i)).

Lemma mod8_bit : forall x b, 0 <= b < 3 -> Z.testbit x b = Z.testbit (x mod 8) b.
Proof. intros. change 8 with (2 ^ 3). now rewrite Z.mod_pow2_bits_low by lia. Qed.

Lemma garbled_mod : forall i x, garbled i x = garbled i (x mod 8).
Proof. intros. unfold garbled. destruct (i mod 8 =? 5); dlia. Qed.

Lemma mod8_cases : forall x, let r := x mod 8 in r = 0 \/ r = 1 \/ r = 2 \/ r = 3 \/ r = 4 \/ r = 5 \/ r = 6 \/ r = 7.
Proof. intros. cbv zeta. pose proof (Z.mod_pos_bound x 8). lia. Qed.

Lemma garbled_bit : forall i x b, 0 <= b < 3 ->
  Z.testbit (garbled i x) b = Z.testbit x (if (i mod 8 =? 5) && (b =? 0) then 2 else b).
Proof.
  intros i x b Hb. rewrite (mod8_bit x) by (destruct (_ && _); lia). rewrite garbled_mod.
  unfold garbled. destruct (i mod 8 =? 5); cbn [andb].
  - assert (b = 0 \/ b = 1 \/ b = 2) as [->|[->| ->]] by lia;
      destruct (mod8_cases x) as [->|[->|[->|[->|[->|[->|[->| ->]]]]]]]; reflexivity.
  - now rewrite Zmod_mod.
Qed.

Lemma garbled_range : forall i x, 0 <= garbled i x < 8.
Proof. intros. unfold garbled. destruct (i mod 8 =? 5); dlia. Qed.

Lemma garble_arr : forall data, arr U16 256 (garble data).
Proof.
  intros. split; [apply len_ztab; lia|]. apply Forall_ztab. intros i Hi. pose proof (garbled_range i (get data i)). cbn [tmin tmax]. lia.
Qed.

Lemma wp_pack3 : forall bytes data (Q : list Z -> Prop), 96 <= len bytes -> arr U16 256 data ->
  Q (pack 3 (garble data) ++ zskip 96 bytes) -> wp (SABER_pack_3bit bytes data) Q.
Proof.
  intros bytes data Q Hb (Ld & Td) HQ. unfold SABER_pack_3bit. change (256 / 8) with 32. cbv zeta.
  match goal with |- wp (for_ 0 32 (fun j bytes => sts U8 bytes (3 * j) (@?E j)) _) _ => set (es := E) end.
  change (wp (for_ 0 32 (fun j bytes => sts U8 bytes (3 * j) (es j)) bytes) Q).
  assert (forall j e, 0 <= j < 32 -> In e (es j) -> safe e = true /\ lok e) as He.
  { unfold es. intros j e Hj HI; cbn [In] in HI.
    repeat (destruct HI as [<-|HI]; [split; [reflexivity|cbn [lok tmin tmax]; repeat split; (assumption || lia)]|]); contradiction. }
  apply wp_fill; auto; try lia.
  change (3 * 32) with 96. match goal with |- Q (?a ++ _) => replace a with (pack 3 (garble data)); auto end.
  unfold pack, regroup. change (32 * 3) with 96. apply ztab_ext. intros i Hi.
  assert (0 <= i / 3 < 32) as Hj by (split; [apply Z.div_pos; lia|apply Z.div_lt_upper_bound; lia]).
  pose proof (Z.mod_pos_bound i 3). pose proof (Z.div_mod i 3). set (j := i / 3) in *. set (c := i mod 3) in *.
  assert (lok (znth (Cst I32 0) (es j) c)) as Hlok.
  { apply He with j; auto. unfold znth. destruct (c <? 0) eqn:E; [lia|]. apply nth_In. cbn. lia. }
  symmetry. apply bits_val_eq; [lia|pose proof (wrap_range U8 (val (znth (Cst I32 0) (es j) c))); cbn [tmin tmax] in *; lia|].
  intros m Hm. set (q := 8 * c + m).
  assert (0 <= q < 24) as Hq by lia.
  assert (fbit 3 (garble data) (8 * i + m) = Z.testbit (get data (8 * j + q / 3)) (if q =? 15 then 2 else q mod 3)) as ->.
  { pose proof (Z.div_mod q 3). pose proof (Z.mod_pos_bound q 3). assert (0 <= q / 3 < 8) by lia.
    replace (8 * i + m) with (3 * (8 * j + q / 3) + q mod 3) by lia. rewrite fbit_at by lia.
    unfold garble, get at 1. rewrite znth_ztab by lia. rewrite garbled_bit by lia. fold (get data (8 * j + q / 3)).
    assert ((8 * j + q / 3) mod 8 = q / 3) as -> by (symmetry; apply Z.mod_unique with j; lia).
    replace ((q / 3 =? 5) && (q mod 3 =? 0)) with (q =? 15) by lia. reflexivity. }
  assert (bw (znth (Cst I32 0) (es j) c) m = WB (get data (8 * j + q / 3)) (if q =? 15 then 2 else q mod 3)) as HB.
  { unfold q. clear - H Hm.
    assert (c = 0 \/ c = 1 \/ c = 2) as Hc by lia. clearbody c.
    assert (m = 0 \/ m = 1 \/ m = 2 \/ m = 3 \/ m = 4 \/ m = 5 \/ m = 6 \/ m = 7) as Hm' by lia. clear H Hm.
    destruct Hc as [->|[->| ->]]; destruct Hm' as [->|[->|[->|[->|[->|[->|[->| ->]]]]]]]; reflexivity. }
  rewrite (bw_wrap U8 _ m _ eq_refl ltac:(cbn; lia) Hlok HB) by discriminate. reflexivity.
Qed.

Lemma wp_unpack3 : forall bytes data (Q : list Z -> Prop),
  96 <= len bytes -> 256 <= len data -> typed U8 bytes ->
  Q (unpack 3 bytes ++ zskip 256 data) -> wp (SABER_un_pack3bit bytes data) Q.
Proof.
  intros bytes data Q Hb Hd Ht HQ. unfold SABER_un_pack3bit. change (256 / 8) with 32.
  fill 8 3 3 bytes. exact HQ.
Qed.
Lemma wp_pack4 : forall bytes data (Q : list Z -> Prop),
  128 <= len bytes -> 256 <= len data -> typed U16 data ->
  Q (pack 4 data ++ zskip 128 bytes) -> wp (SABER_pack_4bit bytes data) Q.
Proof.
  intros bytes data Q Hb Hd Ht HQ. unfold SABER_pack_4bit. change (256 / 2) with 128.
  fill 4 8 2 data. exact HQ.
Qed.
Lemma wp_unpack4 : forall bytes data (Q : list Z -> Prop),
  128 <= len bytes -> 256 <= len data -> typed U8 bytes ->
  Q (unpack 4 bytes ++ zskip 256 data) -> wp (SABER_un_pack4bit bytes data) Q.
Proof.
  intros bytes data Q Hb Hd Ht HQ. unfold SABER_un_pack4bit. change (256 / 2) with 128.
  fill 8 4 1 bytes. exact HQ.
Qed.
Lemma wp_pack6 : forall bytes data (Q : list Z -> Prop),
  192 <= len bytes -> 256 <= len data -> typed U16 data ->
  Q (pack 6 data ++ zskip 192 bytes) -> wp (SABER_pack_6bit bytes data) Q.
Proof.
  intros bytes data Q Hb Hd Ht HQ. unfold SABER_pack_6bit. change (256 / 4) with 64.
  fill 6 8 4 data. exact HQ.
Qed.
Lemma wp_unpack6 : forall bytes data (Q : list Z -> Prop),
  192 <= len bytes -> 256 <= len data -> typed U8 bytes ->
  Q (unpack 6 bytes ++ zskip 256 data) -> wp (SABER_un_pack6bit bytes data) Q.
Proof.
  intros bytes data Q Hb Hd Ht HQ. unfold SABER_un_pack6bit. change (256 / 4) with 64.
  fill 8 6 3 bytes. exact HQ.
Qed.

Lemma get_garble : forall data i, 0 <= i < 256 -> get (garble data) i = garbled i (get data i).
Proof. intros. unfold garble, get. now rewrite znth_ztab by lia. Qed.

Lemma roundtrip3 : forall out out' data, len out = 96 -> len out' = 256 -> arr U16 256 data ->
  exists b, run (SABER_pack_3bit out data) = Some b /\ arr U8 96 b /\ run (SABER_un_pack3bit b out') = Some (garble data).
Proof.
  intros out out' data Ho Ho' Hd. exists (pack 3 (garble data)).
  assert (arr U8 96 (pack 3 (garble data))) as (Lb & Tb) by (split; [apply (len_pack 3); lia|apply pack_typed]).
  split; [|split; [now split|]]; apply wp_run_eq.
  - apply wp_pack3; auto; [lia|]. rewrite zskip_all by lia. apply app_nil_r.
  - apply wp_unpack3; auto; try lia. rewrite zskip_all by lia. rewrite app_nil_r.
    destruct (garble_arr data) as (Lg & _).
    rewrite unpack_pack by (auto; lia). apply map_mod_small. apply Forall_znth_iff with 0. intros i Hi. rewrite Lg in Hi.
    fold (get (garble data) i). rewrite get_garble by lia. apply garbled_range.
Qed.

Lemma garbled_5 : forall x, (2 * ((x / 2) mod 4) + (x / 4) mod 2 = x mod 8) <-> Z.testbit x 0 = Z.testbit x 2.
Proof.
  intros. rewrite (mod8_bit x 0), (mod8_bit x 2) by lia.
  pose proof (garbled_mod 5 x) as E. unfold garbled in E. change (5 mod 8 =? 5) with true in E. cbv iota in E. rewrite E.
  destruct (mod8_cases x) as [->|[->|[->|[->|[->|[->|[->| ->]]]]]]]; split; (reflexivity || discriminate).
Qed.

Lemma garble_ok : forall data, arr U16 256 data -> garble data = map (fun x => x mod 8) data <->
  (forall j, 0 <= j < 32 -> Z.testbit (get data (8 * j + 5)) 0 = Z.testbit (get data (8 * j + 5)) 2).
Proof.
  intros data (Ld & _).
  assert (forall i, 0 <= i < 256 -> get (map (fun x => x mod 8) data) i = get data i mod 8) as G.
  { intros i Hi. unfold get. now rewrite znth_map with (d := 0) by lia. }
  split.
  - intros E j Hj. apply garbled_5.
    assert (get (garble data) (8 * j + 5) = get data (8 * j + 5) mod 8) as E1 by (rewrite E; apply G; lia).
    rewrite get_garble in E1 by lia. unfold garbled in E1.
    assert ((8 * j + 5) mod 8 = 5) as E2 by (symmetry; apply Z.mod_unique with j; lia). rewrite E2 in E1. exact E1.
  - intros H. apply znth_ext with 0; [rewrite len_map, Ld; apply garble_arr|].
    destruct (garble_arr data) as (Lg & _). rewrite Lg. intros i Hi.
    change (get (garble data) i = get (map (fun x => x mod 8) data) i). rewrite get_garble, G by lia.
    unfold garbled. destruct (i mod 8 =? 5) eqn:E; auto. apply garbled_5.
    pose proof (Z.div_mod i 8). replace i with (8 * (i / 8) + 5) by lia. apply H. dlia.
Qed.

Lemma C36_exact_lemma : forall out out' data, len out = 96 -> len out' = 256 -> arr U16 256 data ->
  exists b, run (SABER_pack_3bit out data) = Some b /\ arr U8 96 b /\
    (run (SABER_un_pack3bit b out') = Some (map (fun x => x mod 8) data) <->
     forall j, 0 <= j < 32 -> Z.testbit (get data (8 * j + 5)) 0 = Z.testbit (get data (8 * j + 5)) 2).
Proof.
  intros out out' data Ho Ho' Hd. destruct (roundtrip3 out out' data Ho Ho' Hd) as (b & E1 & E2 & E3).
  exists b. split; auto. split; auto. rewrite E3, <- garble_ok by auto. split; [congruence|now intros ->].
Qed.

Lemma C36_four_lemma : forall out out' data, len out = 128 -> len out' = 256 -> arr U16 256 data ->
  exists b, run (SABER_pack_4bit out data) = Some b /\ arr U8 128 b /\
    run (SABER_un_pack4bit b out') = Some (map (fun x => x mod 16) data).
Proof.
  apply (roundtrip1 SABER_pack_4bit SABER_un_pack4bit 4); [lia| |].
  - intros ? ? ? (? & ?); apply wp_run_eq; apply wp_pack4; auto; try lia; rewrite zskip_all by lia; now rewrite app_nil_r.
  - intros ? ? (? & ?) ?; apply wp_run_eq; apply wp_unpack4; auto; try lia; rewrite zskip_all by lia; now rewrite app_nil_r.
Qed.
Lemma C36_six_lemma : forall out out' data, len out = 192 -> len out' = 256 -> arr U16 256 data ->
  exists b, run (SABER_pack_6bit out data) = Some b /\ arr U8 192 b /\
    run (SABER_un_pack6bit b out') = Some (map (fun x => x mod 64) data).
Proof.
  apply (roundtrip1 SABER_pack_6bit SABER_un_pack6bit 6); [lia| |].
  - intros ? ? ? (? & ?); apply wp_run_eq; apply wp_pack6; auto; try lia; rewrite zskip_all by lia; now rewrite app_nil_r.
  - intros ? ? (? & ?) ?; apply wp_run_eq; apply wp_unpack6; auto; try lia; rewrite zskip_all by lia; now rewrite app_nil_r.
Qed.

Lemma C36_refuted_lemma : exists data, arr U16 256 data /\ Forall (fun x => 0 <= x < 8) data /\
  forall out out' b, len out = 96 -> len out' = 256 -> run (SABER_pack_3bit out data) = Some b ->
    run (SABER_un_pack3bit b out') <> Some data.
Proof.
  set (data := upd (zeros 256) 5 1). exists data.
  assert (arr U16 256 data) as Hd.
  { split; [reflexivity|]. apply typed_upd; [|cbn; lia]. apply Forall_znth_iff with 0. intros i Hi.
    change (tmin U16 <= get (zeros 256) i <= tmax U16). rewrite get_zeros. cbn; lia. }
  split; auto. split.
  { apply Forall_upd; [|lia]. apply Forall_znth_iff with 0. intros i Hi. change (0 <= get (zeros 256) i < 8). rewrite get_zeros. lia. }
  intros out out' b Ho Ho' E. destruct (roundtrip3 out out' data Ho Ho' Hd) as (b' & E1 & _ & E3).
  rewrite E in E1. inversion E1; subst b'. rewrite E3. intros F.
  assert (get (garble data) 5 = get data 5) as F2 by congruence.
  rewrite get_garble in F2 by lia. vm_compute in F2. discriminate.
Qed.

(** ** Partial correctness: nothing is said of undefined executions. *)
Definition wlp {A} (m : M A) (Q : A -> Prop) : Prop := forall t, match m t with Ok a _ => Q a | UB => True end.

Lemma wlp_ret : forall A (a : A) (Q : A -> Prop), Q a -> wlp (ret a) Q.
Proof. intros A a Q H t. exact H. Qed.
Lemma wlp_bind : forall A B (m : M A) (f : A -> M B) Q, wlp m (fun a => wlp (f a) Q) -> wlp (bind m f) Q.
Proof. intros A B m f Q H t. specialize (H t). unfold bind. destruct (m t); auto. apply H. Qed.
Lemma wlp_any : forall A B (m : M A) (f : A -> M B) Q, (forall a, wlp (f a) Q) -> wlp (bind m f) Q.
Proof. intros A B m f Q H. apply wlp_bind. intros t. destruct (m t); auto. Qed.
Lemma wlp_run : forall A (m : M A), wlp m (fun _ => False) -> run m = None.
Proof. intros A m H. specialize (H []). unfold run. destruct (m []); [contradiction|auto]. Qed.
Lemma wlp_mono : forall A (m : M A) (P Q : A -> Prop), wlp m P -> (forall a, P a -> Q a) -> wlp m Q.
Proof. intros A m P Q H HPQ t. specialize (H t). destruct (m t); auto. Qed.
Lemma wlp_wr : forall a i v (Q : list Z -> Prop), (0 <= i < len a -> Q (upd a i v)) -> wlp (wr a i v) Q.
Proof.
  intros a i v Q H t. unfold wr. destruct (Z_le_dec 0 i), (Z_lt_dec i (len a)); try (rewrite update_out by lia; exact I).
  rewrite update_in by lia. cbn. apply H. lia.
Qed.
Lemma wlp_st : forall ty a i e (Q : list Z -> Prop), (forall v, 0 <= i < len a -> Q (upd a i v)) -> wlp (st ty a i e) Q.
Proof. intros ty a i e Q H. apply wlp_any. intros v. apply wlp_wr. auto. Qed.
Lemma wlp_for : forall S (I : Z -> S -> Prop) lo hi (body : Z -> S -> M S) s (Q : S -> Prop), lo <= hi -> I lo s ->
  (forall j s, lo <= j < hi -> I j s -> wlp (body j s) (I (j + 1))) -> (forall s, I hi s -> Q s) -> wlp (for_ lo hi body s) Q.
Proof.
  intros S I lo hi body s Q Hlh. unfold for_. remember (Z.to_nat (hi - lo)) as n eqn:En. revert lo s Hlh En.
  induction n; intros lo s Hlh En H0 Hs HQ; cbn [forn].
  - apply wlp_any. intros _. apply wlp_ret. replace hi with lo in HQ by lia. auto.
  - apply wlp_any. intros _. apply wlp_bind. eapply wlp_mono; [apply Hs; auto; lia|]. cbn beta. intros s' Hs'.
    apply IHn; auto; try lia. intros. apply Hs; auto. lia.
Qed.

(** ** Key bits *)
Lemma wlp_ExtractKeyBits : forall junk v p buf, wlp (ExtractKeyBits junk v p buf) (fun _ => 512 <= len buf).
Proof.
  intros. apply wlp_any. intros op.
  apply wlp_for with (I := fun j b => len b = len buf /\ 2 * j <= len buf).
  - lia.
  - split; auto. pose proof (len_nonneg buf). lia.
  - intros j b Hj (Lb & Hl). apply wlp_any. intros x. apply wlp_bind, wlp_st. intros w Hw.
    apply wlp_st. intros w' Hw'. rewrite !len_upd in *. lia.
  - intros s (_ & H). lia.
Qed.

Lemma C35_always_lemma : forall pol_mul rest junk c sk, run (crypto_kem_dec pol_mul rest junk c sk) = None.
Proof.
  intros. apply wlp_run. apply wlp_bind. eapply wlp_mono with (P := fun _ => False); [|contradiction].
  unfold indcpa_kem_dec. do 5 (apply wlp_any; intros).
  eapply wlp_mono; [apply wlp_ExtractKeyBits|]. cbn beta. intros _ H. destruct (uninit8_arr junk 0 64) as (L & _); lia.
Qed.

Lemma C35_refuted_lemma : exists pol_mul rest junk c sk,
  arr U8 1088 c /\ arr U8 2304 sk /\ run (crypto_kem_dec pol_mul rest junk c sk) = None.
Proof.
  exists (fun _ _ r => ret r), (fun b => ret b), (fun _ _ => 0), (zeros 1088), (zeros 2304).
  split; [apply arrb_ok; reflexivity|]. split; [apply arrb_ok; reflexivity|]. apply C35_always_lemma.
Qed.

(** The bit that is taken from coefficient [v] of the decryption and coefficient [c] of the ciphertext. *)
Definition key_bit (v c : Z) : Z := (v - 64 * c + 224) / 512 mod 2.

Lemma wp_asg' : forall t e e' (Q : cexp -> Prop), ev e = ev e' -> safe e' = true -> lok e' ->
  Q (Var t (wrap t (val e'))) -> wp (asg t e) Q.
Proof. intros t e e' Q E Hs Hl HQ. unfold asg. rewrite E. now apply (wp_asg t e'). Qed.

Lemma wrapU16 : forall x, wrap U16 x = x mod 65536. Proof. reflexivity. Qed.

Lemma land_511 : forall x, Z.land x 511 = x mod 512.
Proof. intros. change 511 with (Z.ones 9). now rewrite Z.land_ones by lia. Qed.
Lemma land1_mod : forall x, Z.land x 1 = x mod 2.
Proof. intros. change 1 with (Z.ones 1) at 1. now rewrite Z.land_ones by lia. Qed.

Ltac vv := cbn [val val_bin ty promote common]; unfold cv, uw; cbn [subr signed].

Lemma wp_floor_special : forall a (Q : cexp -> Prop), 0 <= a < 65536 -> Q (Var U16 (a / 512 mod 2)) -> wp (floor_special (Var U16 a)) Q.
Proof.
  intros a Q Ha HQ. unfold floor_special.
  apply wp_bind, wp_asg; [reflexivity|cbn [lok tmin tmax]; lia|]. vv.
  rewrite land1_mod, Z.shiftr_div_pow2 by lia. change (2 ^ 15) with 32768.
  set (s := a / 32768 mod 2). assert (s = if a <? 32768 then 0 else 1) as Es by (unfold s; destruct (a <? 32768) eqn:E; dlia).
  clearbody s. assert (0 <= s <= 1) as Hs by (rewrite Es; destruct (a <? 32768); lia).
  rewrite (wrap_id I32) by (cbn [tmin tmax]; lia).
  set (B := Bnd I32 0 1 s). assert (lok B) as HB by exact Hs.
  apply wp_bind, wp_asg' with (e' := (B * (#0 - Var U16 a) + (#1 - B) * Var U16 a)%C);
    [reflexivity|reflexivity|cbn [lok tmin tmax]; repeat split; (exact HB || lia)|].
  unfold B. vv. fold B. set (ab := wrap I16 _).
  assert (ab = if a <? 32768 then a else if a =? 32768 then -32768 else 65536 - a) as Eab.
  { unfold ab. cbn [wrap]. change (2 ^ 15) with 32768. change (2 ^ 16) with 65536. rewrite Es.
    destruct (a <? 32768) eqn:E; [|destruct (a =? 32768) eqn:E2]; dlia. }
  pose proof (wrap_range I16 (s * (0 - a) + (1 - s) * a)) as Rab. fold ab in Rab. clearbody ab.
  apply wp_bind, wp_asg; [reflexivity|exact Rab|]. vv. set (b := wrap U16 ab).
  assert (0 <= b < 65536) as Rb by (pose proof (wrap_range U16 ab); cbn [tmin tmax] in *; fold b in H; lia).
  apply wp_bind, wp_asg; [reflexivity|cbn [lok]; split; [exact Rab|cbn; lia]|]. vv. rewrite land_511.
  assert (0 <= ab mod 512 < 512) as Rm by (apply Z.mod_pos_bound; lia).
  rewrite (wrap_id I16) by (cbn [tmin tmax]; lia).
  apply wp_bind, wp_asg; [reflexivity|cbn [lok tmin tmax]; lia|]. vv.
  rewrite (wrap_id I16) by (cbn [tmin tmax]; lia).
  apply wp_bind, wp_asg; [reflexivity|cbn [lok tmin tmax]; lia|]. vv.
  rewrite land1_mod, Z.shiftr_div_pow2 by lia. change (2 ^ 15) with 32768.
  set (s2 := - (ab mod 512) / 32768 mod 2). assert (s2 = if ab mod 512 =? 0 then 0 else 1) as Es2 by (unfold s2; destruct (ab mod 512 =? 0) eqn:E; dlia).
  assert (0 <= s2 <= 1) as Hs2 by (rewrite Es2; destruct (_ =? 0); lia). clearbody s2.
  rewrite (wrap_id I16) by (cbn [tmin tmax]; lia).
  apply wp_bind, wp_asg' with (e' := (Var I16 ab + B * Var I16 s2)%C);
    [reflexivity|reflexivity|cbn [lok]; repeat split; try exact HB; cbn [tmin tmax] in *; lia|].
  unfold B. vv. fold B. set (ab2 := wrap I16 _).
  assert (exists k, 0 <= k <= 1 /\ ab2 = ab + s * s2 - 65536 * k) as (k & Hk & Eab2).
  { unfold ab2. cbn [wrap]. change (2 ^ 15) with 32768. change (2 ^ 16) with 65536.
    assert (0 <= s * s2 <= 1) as Hp by nia. clear - Rab Hp. set (p := s * s2) in *. clearbody p.
    exists ((ab + p + 32768) / 65536). cbn [tmin tmax] in Rab. dlia. }
  pose proof (wrap_range I16 (ab + s * s2)) as Rab2. fold ab2 in Rab2. clearbody ab2.
  apply wp_bind, wp_asg' with (e' := (B * (#0 - Var I16 ab2) + (#1 - B) * Var U16 b)%C);
    [reflexivity|reflexivity|cbn [lok]; repeat split; try exact HB; cbn [tmin tmax] in *; lia|].
  unfold B. vv. set (b2 := wrap U16 _).
  assert (b2 / 512 mod 2 = a / 512 mod 2) as Eb2.
  { unfold b2. rewrite wrapU16. unfold b. rewrite wrapU16, Es, Eab2, Es2, Es, Eab.
    destruct (a <? 32768) eqn:E; [|destruct (a =? 32768) eqn:E2].
    - rewrite Z.mul_0_l, Z.add_0_l, Z.sub_0_r, Z.mul_1_l. now rewrite !(Z.mod_small a 65536) by lia.
    - assert (a = 32768) as -> by lia. change (-32768 mod 512 =? 0) with true. cbv iota. dlia.
    - destruct ((65536 - a) mod 512 =? 0) eqn:E3; dlia. }
  assert (0 <= b2 <= 65535) as Rb2 by apply (wrap_range U16). clearbody b2.
  apply wp_asg; [reflexivity|cbn [lok tmin tmax]; lia|]. vv.
  rewrite land1_mod, Z.shiftr_div_pow2 by lia. change (2 ^ 9) with 512. rewrite Eb2.
  rewrite wrap_id by (cbn [tmin tmax]; dlia). exact HQ.
Qed.

Lemma wp_extract : forall a c i j (Q : cexp -> Prop), 0 <= i < len a -> typed U16 a -> 0 <= j < len c -> typed U16 c ->
  Q (Var U16 (key_bit (get a i) (get c j))) -> wp (extract (Idx U16 a i) (Idx U16 c j)) Q.
Proof.
  intros a c i j Q Hi Ta Hj Tc HQ. unfold extract.
  apply wp_bind, wp_asg; [reflexivity|cbn [lok tmin tmax]; repeat split; auto; lia|]. vv.
  change (2 ^ 6) with 64. rewrite wrapU16.
  pose proof (typed_get _ _ _ Ta Hi) as R1. pose proof (typed_get _ _ _ Tc Hj) as R2. cbn [tmin tmax] in R1, R2.
  apply wp_floor_special; [apply Z.mod_pos_bound; lia|].
  replace ((get a i - get c j * 64 + 224) mod 65536 / 512 mod 2) with (key_bit (get a i) (get c j)); auto.
  unfold key_bit. rewrite (Z.mul_comm 64). generalize (get a i - get c j * 64 + 224). intros x. dlia.
Qed.

Lemma wp_GenCipherText : forall junk vp scl (Q : list Z -> Prop), arr U16 256 vp -> len scl = 128 ->
  Q (pack 4 (ztab 256 (fun i => get vp i / 64))) -> wp (GenCipherText junk vp scl) Q.
Proof.
  intros junk vp scl Q (Lv & Tv) Ls HQ. unfold GenCipherText. apply wp_bind.
  apply wp_each with (v := fun i => get vp i / 64); [rewrite uninit_len; lia| |].
  - intros i Hi. pose proof (typed_get U16 vp i Tv ltac:(lia)) as R. cbn [tmin tmax] in R.
    split; [reflexivity|]. split; [cbn [lok tmin tmax]; repeat split; auto; lia|]. vv.
    rewrite Z.shiftr_div_pow2 by lia. change (2 ^ 6) with 64. apply wrap_id. cbn [tmin tmax]. dlia.
  - intros u Lu G. rewrite uninit_len in Lu by lia.
    replace u with (ztab 256 (fun i => get vp i / 64)).
    + apply wp_pack4; [lia|rewrite len_ztab; lia| |rewrite zskip_all by lia; now rewrite app_nil_r].
      apply Forall_ztab. intros i Hi. pose proof (typed_get U16 vp i Tv ltac:(lia)) as R. cbn [tmin tmax] in *. dlia.
    + apply znth_ext with 0; [rewrite len_ztab; lia|]. rewrite len_ztab by lia. intros i Hi. rewrite znth_ztab by lia.
      fold (get u i). rewrite G by (rewrite ?uninit_len; lia). now replace (i <? 256) with true by lia.
Qed.

(** The nibbles of a byte string. *)
Definition nibble (b : list Z) (i : Z) : Z := get b (i / 2) / 2 ^ (4 * (i mod 2)) mod 16.

Lemma get_unpack4 : forall b i, 0 <= i < 256 -> get (unpack 4 b) i = nibble b i.
Proof.
  intros b i Hi. unfold unpack. rewrite get_regroup by lia. unfold nibble. symmetry. apply bits_val_eq; [lia|change (2 ^ 4) with 16; apply Z.mod_pos_bound; lia|].
  intros k Hk. change 16 with (2 ^ 4). rewrite Z.mod_pow2_bits_low, <- Z.shiftr_div_pow2, Z.shiftr_spec by dlia.
  pose proof (Z.div_mod i 2). pose proof (Z.mod_pos_bound i 2).
  replace (4 * i + k) with (8 * (i / 2) + (k + 4 * (i mod 2))) by lia. now rewrite fbit_at by lia.
Qed.

Definition key_bits (v b : list Z) : list Z :=
  ztab 512 (fun k => if k mod 2 =? 0 then key_bit (get v (k / 2)) (nibble b (k / 2)) else 0).

Lemma wp_ExtractKeyBits : forall junk v b buf (Q : list Z -> Prop), arr U16 256 v -> 128 <= len b -> typed U8 b -> 512 <= len buf ->
  Q (key_bits v b ++ zskip 512 buf) -> wp (ExtractKeyBits junk v b buf) Q.
Proof.
  intros junk v b buf Q (Lv & Tv) Lb Tb Lf HQ. unfold ExtractKeyBits. apply wp_bind.
  apply wp_unpack4; auto; [rewrite uninit_len; lia|]. rewrite zskip_all by (rewrite uninit_len; lia). rewrite app_nil_r.
  assert (len (unpack 4 b) = 256) as Lu by apply len_unpack. assert (typed U16 (unpack 4 b)) as Tu by (apply unpack_typed; lia).
  apply wp_for with (I := fun j a => a = ztab (2 * j) (get (key_bits v b)) ++ zskip (2 * j) buf).
  - lia.
  - rewrite Z.mul_0_r. reflexivity.
  - intros j a Hj ->. apply wp_bind, wp_extract; auto; try lia. rewrite get_unpack4 by lia.
    set (x := key_bit (get v j) (nibble b j)).
    assert (0 <= x <= 1) as Hx by (unfold x, key_bit; pose proof (Z.mod_pos_bound ((get v j - 64 * nibble b j + 224) / 512) 2); lia).
    assert (len (ztab (2 * j) (get (key_bits v b))) = 2 * j) as L1 by (apply len_ztab; lia).
    assert (len (ztab (2 * j) (get (key_bits v b)) ++ zskip (2 * j) buf) = len buf) as L2 by (rewrite len_app, len_zskip; lia).
    apply wp_bind, wp_st; [reflexivity|cbn [lok tmin tmax]; lia|lia|].
    apply wp_st; [reflexivity|cbn [lok tmin tmax]; lia|rewrite len_upd; lia|]. vv.
    rewrite !(wrap_id U8) by (cbn [tmin tmax]; (lia || (rewrite Z.shiftr_div_pow2 by lia; change (2 ^ 8) with 256; rewrite Z.div_small; lia))).
    rewrite Z.shiftr_div_pow2 by lia. change (2 ^ 8) with 256. rewrite Z.div_small by lia.
    assert (get (key_bits v b) (2 * j) = x) as G0.
    { unfold key_bits, get at 1. rewrite znth_ztab by lia.
      replace ((2 * j) mod 2) with 0 by (symmetry; rewrite Z.mul_comm; apply Z_mod_mult).
      replace (2 * j / 2) with j by (symmetry; rewrite Z.mul_comm; apply Z_div_mult; lia). reflexivity. }
    assert (get (key_bits v b) (2 * j + 1) = 0) as G1.
    { unfold key_bits, get at 1. rewrite znth_ztab by lia.
      replace ((2 * j + 1) mod 2) with 1 by (apply Z.mod_unique with j; lia). reflexivity. }
    apply znth_ext with 0; [rewrite !len_upd, !len_app, !len_ztab, !len_zskip; lia|].
    rewrite !len_upd, L2. intros k Hk. rewrite znth_upd by (rewrite len_upd; lia). rewrite znth_upd by lia.
    assert (forall n i, 0 <= n <= 256 -> 0 <= i < len buf -> znth 0 (ztab (2 * n) (get (key_bits v b)) ++ zskip (2 * n) buf) i = if i <? 2 * n then get (key_bits v b) i else get buf i) as G.
    { intros n i Hn Hi. destruct (i <? 2 * n) eqn:E.
      - rewrite znth_app1 by (rewrite len_ztab; lia). now rewrite znth_ztab by lia.
      - rewrite znth_app2 by (rewrite len_ztab; lia). rewrite len_ztab, znth_zskip by lia. unfold get. f_equal. lia. }
    rewrite !G by lia.
    destruct (k =? 2 * j + 1) eqn:E1; [replace k with (2 * j + 1) by lia; replace (2 * j + 1 <? 2 * (j + 1)) with true by lia; now rewrite G1|].
    destruct (k =? 2 * j) eqn:E2; [replace k with (2 * j) by lia; replace (2 * j <? 2 * (j + 1)) with true by lia; now rewrite G0|].
    replace (k <? 2 * (j + 1)) with (k <? 2 * j) by lia. reflexivity.
  - intros a ->. change (2 * 256) with 512. replace (ztab 512 (get (key_bits v b))) with (key_bits v b); [exact HQ|].
    apply ztab_eq with 0; [apply len_ztab; lia|]. intros. reflexivity.
Qed.

Lemma C35_cause_lemma : forall junk v b buf, arr U16 256 v -> arr U8 128 b ->
  (exists r, run (ExtractKeyBits junk v b buf) = Some r) <-> 512 <= len buf.
Proof.
  intros junk v b buf Hv (Lb & Tb). split.
  - intros (r & E). pose proof (wlp_ExtractKeyBits junk v b buf []) as H. unfold run in E. now destruct (ExtractKeyBits junk v b buf []).
  - intros Hl. destruct (wp_run _ (ExtractKeyBits junk v b buf) (fun _ => True)) as (r & E & _); eauto.
    apply wp_ExtractKeyBits; auto. lia.
Qed.

Lemma C41_lemma : forall junk junk' scl buf vp v m,
  arr U16 256 vp -> Forall (fun x => x < 1024) vp -> arr U16 256 v -> len scl = 128 -> len buf = 512 ->
  (forall i, 0 <= i < 256 -> 0 <= m i <= 1 /\ exists e, -224 <= e <= 224 /\ (get v i - (get vp i - 512 * m i) - e) mod 1024 = 0) ->
  exists b, run (GenCipherText junk vp scl) = Some b /\ arr U8 128 b /\
    run (ExtractKeyBits junk' v b buf) = Some (ztab 512 (fun k => if k mod 2 =? 0 then m (k / 2) else 0)).
Proof.
  intros junk junk' scl buf vp v m Hvp Fvp Hv Ls Lf H. set (c := ztab 256 (fun i => get vp i / 64)).
  assert (Forall (fun x => 0 <= x < 2 ^ 4) c) as Fc.
  { apply Forall_ztab. intros i Hi. destruct Hvp as (L & T). pose proof (typed_get _ _ i T ltac:(lia)) as R.
    assert (get vp i < 1024) by (apply Forall_znth with (P := fun x => x < 1024); [auto|lia]). cbn [tmin tmax] in R. dlia. }
  assert (len c = 256) as Lc by (apply len_ztab; lia).
  assert (arr U8 128 (pack 4 c)) as (Lb & Tb) by (split; [apply (len_pack 4); lia|apply pack_typed]).
  exists (pack 4 c). split; [apply wp_run_eq, wp_GenCipherText; auto|]. split; [now split|].
  apply wp_run_eq, wp_ExtractKeyBits; auto; try lia. rewrite zskip_all by lia. rewrite app_nil_r.
  apply ztab_ext. intros k Hk. destruct (k mod 2 =? 0) eqn:E; auto.
  assert (0 <= k / 2 < 256) as Hi by dlia. set (i := k / 2) in *.
  rewrite <- get_unpack4 by lia. rewrite unpack_pack by (auto; lia). rewrite map_mod_small by auto.
  unfold c, get at 2. rewrite znth_ztab by lia. destruct (H i Hi) as (Hm & e & He & Ec).
  destruct Hvp as (L & T). pose proof (typed_get _ _ i T ltac:(lia)) as R. cbn [tmin tmax] in R.
  unfold key_bit. pose proof (Z.div_mod (get vp i) 64 ltac:(lia)). pose proof (Z.mod_pos_bound (get vp i) 64 ltac:(lia)).
  set (l := get vp i mod 64) in *. set (c0 := get vp i / 64) in *. clearbody l c0. clear - H H0 H1 Hm He Ec.
  assert (m i = 0 \/ m i = 1) as [Em|Em] by lia; rewrite Em in *; clear Em; dlia.
Qed.

Lemma C41_tight_lemma : exists vp v, arr U16 256 vp /\ Forall (fun x => x < 1024) vp /\ arr U16 256 v /\
  (forall i, 0 <= i < 256 -> get v i = get vp i + 225) /\
  forall junk junk' scl buf, len scl = 128 -> len buf = 512 ->
    exists b, run (GenCipherText junk vp scl) = Some b /\ run (ExtractKeyBits junk' v b buf) <> Some (zeros 512).
Proof.
  set (vp := ztab 256 (fun _ => 63)). set (v := ztab 256 (fun _ => 288)). exists vp, v.
  assert (arr U16 256 vp) as Hvp by (split; [apply len_ztab; lia|apply Forall_ztab; intros; cbn; lia]).
  assert (arr U16 256 v) as Hv by (split; [apply len_ztab; lia|apply Forall_ztab; intros; cbn; lia]).
  assert (Forall (fun x => x < 1024) vp) as Fvp by (apply Forall_ztab; intros; lia).
  split; [auto|]. split; [auto|]. split; [auto|].
  split; [intros; unfold vp, v, get; rewrite !znth_ztab by lia; lia|]. intros junk junk' scl buf Ls Lb.
  set (c := ztab 256 (fun i => get vp i / 64)).
  assert (forall i, 0 <= i < 256 -> get c i = 0) as Ec.
  { intros i Hi. unfold c, vp, get. rewrite znth_ztab by lia. now rewrite znth_ztab by lia. }
  assert (len c = 256) as Lc by (apply len_ztab; lia).
  assert (Forall (fun x => 0 <= x < 2 ^ 4) c) as Fc.
  { apply Forall_znth_iff with 0. intros i Hi. fold (get c i). rewrite Ec by lia. lia. }
  assert (arr U8 128 (pack 4 c)) as (Lb' & Tb) by (split; [apply (len_pack 4); lia|apply pack_typed]).
  exists (pack 4 c). split; [apply wp_run_eq, wp_GenCipherText; auto|].
  erewrite wp_run_eq; [|apply wp_ExtractKeyBits; auto; try lia; reflexivity].
  rewrite zskip_all by lia. rewrite app_nil_r. intros E.
  apply (f_equal (fun o => match o with Some l => get l 0 | None => 0 end)) in E. cbv beta iota in E.
  change (get (zeros 512) 0) with 0 in E. unfold key_bits in E. unfold get at 1 in E. rewrite znth_ztab in E by lia.
  change (0 mod 2 =? 0) with true in E. change (0 / 2) with 0 in E. cbv beta iota in E.
  rewrite <- get_unpack4 in E by lia. rewrite unpack_pack in E by (auto; lia). rewrite map_mod_small in E by auto.
  rewrite (Ec 0) in E by lia. unfold v, get in E. rewrite znth_ztab in E by lia. discriminate.
Qed.

(** ** Customised SHAKE *)
Lemma wp_setbyte : forall s k b (Q : list Z -> Prop), arr U64 25 s -> 0 <= k < 200 ->
  (forall s', arr U64 25 s' -> Q s') -> wp (setbyte s k b) Q.
Proof.
  intros s k b Q (Ls & T) Hk HQ. unfold setbyte. assert (0 <= k / 8 < 25) by dlia.
  apply wp_bind, wp_rd; [lia|]. apply wp_wr; [lia|]. apply HQ. split; [now rewrite len_upd|].
  apply typed_upd; auto. apply wrap_range.
Qed.

(** Keccak with the two suffix bits 00 and no customisation, [n] bytes of output. *)
Definition plain (r n : Z) (msg : list Z) : list Z := bytes_of_bits (sponge (8 * r) (bits_of_bytes msg ++ [false; false]) (8 * n)).

Lemma repeat0_arr : arr U64 25 (repeat 0 25).
Proof. split; [reflexivity|]. unfold typed. rewrite Forall_forall. intros x Hx. apply repeat_spec in Hx. subst. cbn; lia. Qed.

Lemma wp_cshake : forall junk w out n cstm inp k (Q : list Z -> Prop), 0 < w <= 25 -> 0 <= n <= len out -> 0 <= k <= len inp ->
  typed U8 inp -> Q (plain (8 * w) n (zfirst k inp) ++ zskip n out) -> wp (cshake_simple junk (8 * w) out n cstm inp k) Q.
Proof.
  intros junk w out n cstm inp k Q Hw Hn Hk Ti HQ. unfold cshake_simple, cshake_simple_absorb. apply wp_bind.
  apply wp_bind, wp_zero_state; [now apply uninit_len|]. pose proof repeat0_arr as R0.
  do 8 (apply wp_bind, wp_setbyte; [assumption|lia|intros ? ?]).
  apply wp_bind, wp_permute; [assumption|]. unfold keccak_absorb0.
  apply wp_bind, wp_zero_state; [match goal with H : arr U64 25 ?s |- len (keccak_f ?s) = _ => apply (keccak_f_arr s H) end|].
  apply (wp_keccak_absorb _ w _ _ _ [false; false]); [lia|auto|auto|cbn; lia|lia|sfx_tac|].
  set (r := 8 * w) in *. assert (0 < r) as Hr by lia.
  pose proof (Z.div_mod n r ltac:(lia)). pose proof (Z.mod_pos_bound n r Hr). assert (0 <= n / r) by (apply Z.div_pos; lia).
  set (nb := n / r) in *.
  unfold plain in HQ. rewrite (sponge_bytes r) in HQ by (first [exact Hr | lia | (cbn; lia)]).
  set (A := absorbed r (zfirst k inp) [false; false]) in *.
  assert (arr U64 25 A) as HA by apply absorbed_arr.
  apply wp_bind, (wp_squeezeblocks _ nb _ w); fold r; [auto|lia|lia|nia|].
  assert (len (ztab (r * nb) (outbyte r (keccak_f A))) = r * nb) as L by (apply len_ztab; nia).
  rewrite (Z.mul_comm nb r).
  apply wp_at; [rewrite len_app, L; pose proof (len_nonneg (zskip (r * nb) out)); nia|].
  rewrite zfirst_app_at, zskip_app_at by lia. apply wp_ite.
  destruct (n mod r =? 0) eqn:E; cbn [negb].
  - apply wp_ret. replace n with (r * nb) in HQ at 1 2 by lia. auto.
  - apply wp_bind, (wp_squeezeblocks _ 1 _ w); fold r; [now apply fiter_arr|lia|lia|rewrite uninit_len; lia|].
    rewrite Z.mul_1_r.
    apply wp_out; [rewrite len_zskip; nia|rewrite len_app, len_ztab by lia; pose proof (len_nonneg (zskip r (uninit junk 1 r))); lia| |].
    + rewrite zskip_all by (rewrite uninit_len; lia). rewrite app_nil_r. apply out_arr; lia.
    + rewrite out_first by lia. rewrite zskip_zskip by nia. replace (r * nb + n mod r) with n by lia.
      replace n with (r * nb + n mod r) in HQ at 1 by lia. rewrite ztab_split, <- app_assoc in HQ by nia.
      erewrite (ztab_ext (n mod r)) in HQ; [exact HQ|]. intros i Hi. cbn beta.
      rewrite outbyte_block by lia. unfold outbyte. rewrite Z.div_small, Z.mod_small by lia.
      rewrite <- fiter_S' by lia. change (fiter 0 ?x) with x. now rewrite <- fiter_S by lia.
Qed.

Lemma C37_128_lemma : forall junk out n inp k cstm, 0 <= n <= len out -> 0 <= k <= len inp -> typed U8 inp ->
  run (cshake128_simple junk out n cstm inp k) =
  Some (bytes_of_bits (KECCAK 256 (bits_of_bytes (zfirst k inp) ++ [false; false]) (8 * n)) ++ zskip n out).
Proof. intros. apply wp_run_eq, (wp_cshake junk 21); auto; lia. Qed.
Lemma C37_256_lemma : forall junk out n inp k cstm, 0 <= n <= len out -> 0 <= k <= len inp -> typed U8 inp ->
  run (cshake256_simple junk out n cstm inp k) =
  Some (bytes_of_bits (KECCAK 512 (bits_of_bytes (zfirst k inp) ++ [false; false]) (8 * n)) ++ zskip n out).
Proof. intros. apply wp_run_eq, (wp_cshake junk 17); auto; lia. Qed.
Lemma C37_refuted_lemma : exists c1 c2, 0 <= c1 < 65536 /\ 0 <= c2 < 65536 /\ c1 <> c2 /\
  forall junk out n inp k, 0 <= n <= len out -> 0 <= k <= len inp -> typed U8 inp ->
    exists r, run (cshake128_simple junk out n c1 inp k) = Some r /\ run (cshake128_simple junk out n c2 inp k) = Some r.
Proof. exists 0, 1. split; [lia|]. split; [lia|]. split; [lia|]. intros. eexists. split; apply C37_128_lemma; auto. Qed.

(** ** Multiplication *)
Lemma all_arr : forall x, 0 <= x < 65536 -> arr U16 256 (repeat x 256).
Proof.
  intros x Hx. split; [reflexivity|]. unfold typed. rewrite Forall_forall. intros y Hy. apply repeat_spec in Hy. subst. cbn; lia.
Qed.
Lemma all_lt : forall x b n, x < b -> Forall (fun y => y < b) (repeat x n).
Proof. intros. rewrite Forall_forall. intros y Hy. apply repeat_spec in Hy. lia. Qed.

Lemma C42_refuted_lemma : exists junk a b, arr U16 256 a /\ arr U16 256 b /\
  Forall (fun x => x < 8192) a /\ Forall (fun x => x < 8192) b /\ run (pol_mul junk a b (zeros 256)) = None.
Proof.
  exists (fun _ _ => 0), (repeat 8191 256), (repeat 8191 256).
  split; [apply all_arr; lia|]. split; [apply all_arr; lia|]. split; [apply all_lt; lia|]. split; [apply all_lt; lia|].
  vm_compute. reflexivity.
Qed.
