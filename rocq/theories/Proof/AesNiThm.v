(** crypto_stream_aes256ctr with the AES instructions against counter mode. *)
From Coq Require Import ZArith List Bool Lia.
From Verif Require Import Lib.Arr Lib.CInt Lib.CMon Spec.Aes Spec.AesCtr Spec.Sym Spec.M4Spec Model.AesNi Proof.BytesP Proof.AesWord Proof.AesKey Proof.AesBlock Proof.AesP Proof.AesF Proof.AesThm
  Proof.KemP Proof.AesNiP.
Import ListNotations.
Local Open Scope Z_scope.
Local Opaque AES256.

(** ** The stream the code computes *)
Definition cnt (N C q : Z) : Z := Nat.iter (Z.to_nat q) (ctr_next N) C.
Lemma cnt_0 : forall N C, cnt N C 0 = C.
Proof. reflexivity. Qed.
Lemma cnt_S : forall N C q, 0 <= q -> cnt N C (q + 1) = ctr_next N (cnt N C q).
Proof. intros. unfold cnt. replace (Z.to_nat (q + 1)) with (S (Z.to_nat q)) by lia. reflexivity. Qed.
Definition ni_byte (key : list Z) (N C i : Z) : Z := get (AES256 key (be 16 ((cnt N C (i / (N * 16)) + (i mod (N * 16)) / 16) mod 2 ^ 128))) (i mod 16).

Lemma AES_arr : forall k v, arr U8 32 k -> arr U8 16 v -> arr U8 16 (AES256 k v).
Proof. intros k v Hk Hv. apply Cipher_arr; auto. now apply KE_arr. Qed.
Lemma ctr_blocks_arr : forall key N C, arr U8 32 key -> 0 <= N -> arr U8 (16 * N) (ctr_blocks key N C).
Proof.
  intros key N C Hk HN. apply arr_tab; [lia|]. intros i Hi. eapply arr_get; [apply AES_arr; auto; now apply arr_be|]. dlia.
Qed.

Lemma rev_nonce : forall n n2, 16 <= len n -> typed U8 n -> len n2 = 16 ->
  (forall i, 0 <= i < 16 -> get n2 i = if i <? 8 then get n (7 - i) else get n (23 - i)) -> arr U8 16 n2 /\ cval n2 = be_val (zfirst 16 n).
Proof.
  intros n n2 Ln Tn L2 H. split.
  - split; [exact L2|]. apply (Forall_znth_iff _ 0). rewrite L2. intros i Hi. fold (get n2 i). rewrite H by lia. destruct (i <? 8) eqn:E; apply (typed_get U8 n); auto; lia.
  - assert (exists m, len m = 16 /\ zfirst 16 n = m /\ forall i, 0 <= i < 16 -> get m i = get n i) as (m & Lm & -> & Em).
    { exists (zfirst 16 n). split; [apply len_zfirst; lia|]. split; [reflexivity|]. intros i Hi. unfold get. now rewrite znth_zfirst by lia. }
    assert (n2 = ztab 16 (fun i => if i <? 8 then get m (7 - i) else get m (23 - i))) as ->.
    { apply znth_ext with (d := 0); [now rewrite len_ztab by lia|]. intros i Hi. rewrite znth_ztab by lia. rewrite L2 in Hi. fold (get n2 i). rewrite H by lia.
      destruct (Z.ltb_spec i 8); now rewrite Em by lia. }
    clear -Lm. destruct (list16 m Lm) as (x0 & x1 & x2 & x3 & x4 & x5 & x6 & x7 & x8 & x9 & xa & xb & xc & xd & xe & xf & ->).
    unfold cval, be_val. cbn [fold_left]. change (qw (ztab 16 (fun i => if i <? 8 then get [x0; x1; x2; x3; x4; x5; x6; x7; x8; x9; xa; xb; xc; xd; xe; xf] (7 - i) else get [x0; x1; x2; x3; x4; x5; x6; x7; x8; x9; xa; xb; xc; xd; xe; xf] (23 - i))) 0)
      with (x7 + 256 * (x6 + 256 * (x5 + 256 * (x4 + 256 * (x3 + 256 * (x2 + 256 * (x1 + 256 * (x0 + 256 * 0)))))))).
    change (qw (ztab 16 (fun i => if i <? 8 then get [x0; x1; x2; x3; x4; x5; x6; x7; x8; x9; xa; xb; xc; xd; xe; xf] (7 - i) else get [x0; x1; x2; x3; x4; x5; x6; x7; x8; x9; xa; xb; xc; xd; xe; xf] (23 - i))) 1)
      with (xf + 256 * (xe + 256 * (xd + 256 * (xc + 256 * (xb + 256 * (xa + 256 * (x9 + 256 * (x8 + 256 * 0)))))))). lia.
Qed.

Lemma wp_stream : forall N junk out outlen n k (Q : list Z * Z -> Prop), 1 <= N <= 12 -> 0 <= outlen <= len out -> 16 <= len n -> typed U8 n -> 32 <= len k -> typed U8 k ->
  Q (ztab outlen (ni_byte (zfirst 32 k) N (be_val (zfirst 16 n))) ++ zskip outlen out, 0) ->
  wp (crypto_stream_aes256ctr_iter N junk out outlen n k) Q.
Proof.
  intros N junk out outlen n k Q HN Lout Ln Tn Lk Tk HQ. unfold crypto_stream_aes256ctr_iter. set (key := zfirst 32 k) in *.
  assert (arr U8 32 key) as Hkey by (split; [apply len_zfirst; lia|now apply Forall_zfirst]).
  apply wp_bind, (wp_expand key Hkey); [reflexivity|lia|apply len_ztab; lia|]. intros rk Hrk.
  apply wp_bind, wp_for with (I := fun i n2 => len n2 = 16 /\ forall j, 0 <= j < i -> get n2 j = get n (7 - j)); [lia| | |].
  { split; [apply uninit8_arr; lia|lia]. }
  { intros i n2 Hi (L2 & H2). apply wp_st; [reflexivity|cbn [lok]; split; [lia|auto]|lia|]. split; [now rewrite len_upd|]. intros j Hj. unfold get. destruct (Z.eq_dec j i) as [->|].
    - rewrite znth_upd_same by lia. cbn [val]. apply wrap_id. apply (typed_get U8); auto; lia.
    - rewrite znth_upd_diff by lia. apply H2. lia. }
  intros n2 (L2 & H2). apply wp_bind, wp_for with (I := fun i n2 => len n2 = 16 /\ forall j, 0 <= j < i -> get n2 j = if j <? 8 then get n (7 - j) else get n (23 - j)); [lia| | |].
  { split; [exact L2|]. intros j Hj. rewrite H2 by lia. destruct (Z.ltb_spec j 8); [reflexivity|lia]. }
  { clear n2 L2 H2. intros i n2 Hi (L2 & H2). apply wp_st; [reflexivity|cbn [lok]; split; [lia|auto]|lia|]. split; [now rewrite len_upd|]. intros j Hj. unfold get. destruct (Z.eq_dec j i) as [->|].
    - rewrite znth_upd_same by lia. destruct (Z.ltb_spec i 8); [lia|]. cbn [val]. apply wrap_id. apply (typed_get U8); auto; lia.
    - rewrite znth_upd_diff by lia. apply H2. lia. }
  clear n2 L2 H2. intros n2 (L2 & H2). destruct (rev_nonce n n2 Ln Tn L2 H2) as (A2 & E2). clear L2 H2. set (C := be_val (zfirst 16 n)) in *.
  cbv zeta. set (lb := N * 16) in *. assert (16 <= lb <= 192) as Hlb by lia.
  apply wp_bind, wp_while with (m := (outlen + lb - 1) / lb)
    (I := fun q '(o, n2, i) => i = lb * q /\ arr U8 16 n2 /\ cval n2 = cnt N C q /\ len o = len out /\
       forall j, 0 <= j < len out -> get o j = if (j <? lb * q) && (j <? outlen) then ni_byte key N C j else get out j).
  - apply Z.div_pos; lia.
  - rewrite !Nat2Z.inj_succ, Z2Nat.id by (apply Z.div_pos; lia). assert ((outlen + lb - 1) / lb <= (outlen + lb) / lb) by (apply Z.div_le_mono; lia).
    replace (outlen + lb) with (outlen + 1 * lb) in * by lia. rewrite Z.div_add in * by lia. lia.
  - split; [lia|]. split; [exact A2|]. split; [exact E2|]. split; [reflexivity|]. intros j Hj. rewrite Z.mul_0_r. destruct (Z.ltb_spec j 0); [lia|]. reflexivity.
  - intros q ((o, n2'), i) Hq (-> & _). pose proof (Z.div_mod (outlen + lb - 1) lb ltac:(lia)). pose proof (Z.mod_pos_bound (outlen + lb - 1) lb ltac:(lia)).
    destruct (Z.ltb_spec q ((outlen + lb - 1) / lb)); destruct (Z.ltb_spec (lb * q) outlen); try reflexivity; nia.
  - intros q ((o, n2'), i) Hq (-> & A & E & Lo & Ho). pose proof (Z.div_mod (outlen + lb - 1) lb ltac:(lia)). pose proof (Z.mod_pos_bound (outlen + lb - 1) lb ltac:(lia)).
    assert (lb * q < outlen) as Hlt by nia.
    apply wp_bind, (wp_aesni_encrypt key); auto; [rewrite uninit_len; unfold lb; lia|]. intros n3 A3 E3. cbn beta iota.
    destruct (ctr_blocks_arr key N (cval n2') Hkey ltac:(lia)) as (LB & TB).
    assert (exists mj, wp (ite (outlen <=? lb * q + lb) (ret (outlen - lb * q)) (ret lb)) (fun r => r = mj) /\ 0 <= mj <= lb /\ lb * q + mj <= outlen /\ (lb * q + mj = outlen \/ mj = lb)) as (mj & Wmj & Hmj & Hmj2 & Hmj3).
    { destruct (Z.leb_spec outlen (lb * q + lb)); eexists; (split; [apply wp_ite, wp_ret; reflexivity|]); lia. }
    apply wp_bind. eapply wp_mono; [exact Wmj|]. cbn beta. intros ? ->.
    apply wp_bind, (wp_copy mj (lb * q) 0 _ _ (fun j => lb * q + j) (fun j => j)); auto; try lia; try nia. change (zskip 0 (ctr_blocks key N (cval n2'))) with (ctr_blocks key N (cval n2')).
    apply wp_ret. split; [lia|]. split; [exact A3|]. split; [rewrite cnt_S by lia; rewrite <- E; exact E3|].
    assert (0 <= lb * q) by nia.
    assert (len (zfirst (lb * q) o) = lb * q) as L1 by (apply len_zfirst; lia).
    assert (len (zfirst mj (ctr_blocks key N (cval n2'))) = mj) as LM by (apply len_zfirst; lia).
    split; [rewrite !len_app, L1, LM, len_zskip by lia; lia|].
    intros j Hj. unfold get. destruct (Z_lt_le_dec j (lb * q)) as [D|D].
    + rewrite znth_app1 by lia. rewrite znth_zfirst by lia. fold (get o j). rewrite Ho by lia. destruct (Z.ltb_spec j (lb * q)); [|lia]. destruct (Z.ltb_spec j (lb * (q + 1))); [|lia]. reflexivity.
    + rewrite znth_app2 by lia. rewrite L1. destruct (Z_lt_le_dec j (lb * q + mj)) as [D2|D2].
      * rewrite znth_app1 by lia. rewrite znth_zfirst by lia. unfold ctr_blocks. rewrite znth_ztab by lia.
        destruct (Z.ltb_spec j (lb * (q + 1))); [|lia]. destruct (Z.ltb_spec j outlen); [|lia]. cbn [andb]. unfold ni_byte. fold lb. rewrite E.
        replace (j / lb) with q by (apply Z.div_unique with (r := j - lb * q); lia).
        replace (j mod lb) with (j - lb * q) by (apply Z.mod_unique with (q := q); lia). f_equal. unfold lb. rewrite Z.mul_comm, Z.mul_assoc. replace (j - q * N * 16) with (j + (- (q * N)) * 16) by lia. apply Z.mod_add. lia.
      * rewrite znth_app2 by lia. rewrite LM. rewrite znth_zskip by lia. replace (lb * q + mj + (j - lb * q - mj)) with j by lia. fold (get o j) (get out j). rewrite Ho by lia.
        destruct (Z.ltb_spec j (lb * q)); [lia|]. destruct (Z.ltb_spec j (lb * (q + 1))), (Z.ltb_spec j outlen); try reflexivity; lia.
  - intros ((o, n2'), i) (-> & _ & _ & Lo & Ho). apply wp_ret.
    pose proof (Z.div_mod (outlen + lb - 1) lb ltac:(lia)). pose proof (Z.mod_pos_bound (outlen + lb - 1) lb ltac:(lia)).
    assert (o = ztab outlen (ni_byte key N C) ++ zskip outlen out) as ->; [|exact HQ].
    assert (len (ztab outlen (ni_byte key N C)) = outlen) as LZ by (apply len_ztab; lia).
    apply znth_ext with (d := 0); [rewrite len_app, LZ, len_zskip by lia; lia|]. intros j Hj. fold (get o j). rewrite Ho by lia.
    destruct (Z.ltb_spec j outlen).
    + destruct (Z.ltb_spec j (lb * ((outlen + lb - 1) / lb))); [|lia]. rewrite znth_app1 by lia. rewrite znth_ztab by lia. reflexivity.
    + rewrite andb_false_r. rewrite znth_app2 by lia. rewrite LZ, znth_zskip by lia. unfold get. f_equal. lia.
Qed.

(** ** When it is counter mode *)
Lemma cnt_ok : forall C q, 0 <= C < 2 ^ 128 -> 0 <= q -> C mod 8 <> 0 \/ C mod 2 ^ 64 + 8 * q < 2 ^ 64 -> cnt 8 C q = (C + 8 * q) mod 2 ^ 128.
Proof.
  intros C q HC Hq. revert q Hq. apply (natlike_ind (fun q => C mod 8 <> 0 \/ C mod 2 ^ 64 + 8 * q < 2 ^ 64 -> cnt 8 C q = (C + 8 * q) mod 2 ^ 128)).
  - intros _. rewrite cnt_0. symmetry. rewrite Z.mul_0_r, Z.add_0_r. now apply Z.mod_small.
  - intros q Hq IH H. rewrite <- Z.add_1_r in *. rewrite cnt_S by lia. rewrite IH by lia. unfold ctr_next.
    set (D := (C + 8 * q) mod 2 ^ 128) in *. assert (D mod 2 ^ 64 <> 2 ^ 64 - 8) as N.
    { assert (exists d, D = C + 8 * q - 2 ^ 128 * d) as (d & ED) by (exists ((C + 8 * q) / 2 ^ 128); unfold D; dlia).
      destruct H as [H|H].
      - intros X. apply H. dlia.
      - assert (D mod 2 ^ 64 = C mod 2 ^ 64 + 8 * q); [|lia]. rewrite ED. dlia. }
    destruct (Z.eqb_spec (D mod 2 ^ 64) (2 ^ 64 - 8)); [lia|]. unfold D. rewrite Zplus_mod_idemp_l. f_equal. lia.
Qed.

Lemma be_val_range : forall iv, arr U8 16 iv -> 0 <= be_val iv < 2 ^ 128.
Proof. intros iv H. rewrite <- (be_be_val 16 iv H). rewrite be_val_be by lia. change (256 ^ 16) with (2 ^ 128). apply Z.mod_pos_bound. lia. Qed.

Lemma stream_wp : forall junk out n iv k, 0 <= n <= len out -> 16 <= len iv -> typed U8 iv -> 32 <= len k -> typed U8 k ->
  be_val (zfirst 16 iv) mod 8 <> 0 \/ be_val (zfirst 16 iv) mod 2 ^ 64 + (n + 15) / 16 <= 2 ^ 64 ->
  wp (crypto_stream_aes256ctr junk out n iv k) (fun r => r = (ctr128_stream (zfirst 32 k) (zfirst 16 iv) n ++ zskip n out, 0)).
Proof.
  intros junk out n iv k Hn Li Ti Lk Tk H. apply wp_stream; auto; [lia|].
  assert (arr U8 16 (zfirst 16 iv)) as Hiv by (split; [apply len_zfirst; lia|now apply Forall_zfirst]). pose proof (be_val_range _ Hiv) as HC.
  set (C := be_val (zfirst 16 iv)) in *. f_equal. f_equal. unfold ctr128_stream. apply ztab_ext. intros i Hi. unfold ni_byte, ctr128_block. fold C.
  change (8 * 16) with 128. rewrite cnt_ok; [|exact HC|dlia|destruct H; [now left|right; dlia]].
  rewrite Zplus_mod_idemp_l. do 4 f_equal. dlia.
Qed.

Lemma stream_run : forall junk out n iv k, 0 <= n <= len out -> 16 <= len iv -> typed U8 iv -> 32 <= len k -> typed U8 k ->
  be_val (zfirst 16 iv) mod 8 <> 0 \/ be_val (zfirst 16 iv) mod 2 ^ 64 + (n + 15) / 16 <= 2 ^ 64 ->
  run (crypto_stream_aes256ctr junk out n iv k) = Some (ctr128_stream (zfirst 32 k) (zfirst 16 iv) n ++ zskip n out, 0).
Proof. intros. apply wp_run_eq. now apply stream_wp. Qed.

Lemma be_16_4 : forall j, 0 <= j < 2 ^ 32 -> be 16 j = zeros 12 ++ be 4 j.
Proof.
  intros j Hj. apply znth_ext with (d := 0); [reflexivity|]. intros b Hb. change (len (be 16 j)) with 16 in Hb.
  fold (get (be 16 j) b). unfold be at 1. rewrite get_ben by lia. change (Z.of_nat (Z.to_nat 16)) with 16. destruct (Z_lt_le_dec b 12).
  - rewrite znth_app1 by (rewrite len_zeros; lia). fold (get (zeros 12) b). rewrite get_zeros. rewrite Z.div_small; [reflexivity|]. split; [lia|].
    apply Z.lt_le_trans with (2 ^ 32); [lia|]. apply Z.pow_le_mono_r; lia.
  - rewrite znth_app2 by (rewrite len_zeros; lia). rewrite len_zeros by lia. fold (get (be 4 j) (b - 12)). unfold be. rewrite get_ben by lia.
    change (Z.of_nat (Z.to_nat 4)) with 4. do 4 f_equal. lia.
Qed.

Lemma stream_zero : forall key n, 0 <= n <= 2 ^ 36 -> ctr128_stream key (zeros 16) n = ctr_stream key (zeros 12) 0 n.
Proof.
  intros key n Hn. unfold ctr128_stream, ctr_stream. apply ztab_ext. intros i Hi. unfold ctr_byte, ctr128_block, ctr_block. rewrite (Z.add_0_l i).
  assert (be 16 ((be_val (zeros 16) + i / 16) mod 2 ^ 128) = zfirst 12 (zeros 12) ++ be 4 ((i / 16) mod 2 ^ 32)) as E; [|rewrite E; reflexivity].
  replace (be_val (zeros 16)) with 0 by reflexivity. rewrite Z.add_0_l. assert (0 <= i / 16 < 2 ^ 32) as Hj by dlia.
  rewrite !Z.mod_small by lia. replace (zfirst 12 (zeros 12)) with (zeros 12) by reflexivity. now apply be_16_4.
Qed.

Lemma zeros16 : 16 <= len (zeros 16) /\ typed U8 (zeros 16) /\ zfirst 16 (zeros 16) = zeros 16 /\ be_val (zeros 16) = 0.
Proof. split; [discriminate|]. split; [|split; reflexivity]. apply Forall_forall. intros x Hx. apply repeat_spec in Hx. subst x. cbn. lia. Qed.

Lemma ni_prf_wp : forall junk out n key m, 0 <= n <= len out -> n <= 2 ^ 36 -> 32 <= len key -> typed U8 key ->
  wp (avx_aes256ctr_prf junk out n key m) (fun r => r = ctr_stream (zfirst 32 key) (zeros 12) 0 n ++ zskip n out).
Proof.
  intros junk out n key m Hn Hn2 Lk Tk. unfold avx_aes256ctr_prf. destruct zeros16 as (Z1 & Z2 & Z3 & Z4). apply wp_bind.
  eapply wp_mono; [apply stream_wp; auto|].
  - rewrite Z3, Z4. right. rewrite Z.mod_0_l by lia. dlia.
  - intros r ->. apply wp_ret. rewrite Z3. rewrite stream_zero by lia. reflexivity.
Qed.
Lemma ni_prf_run : forall junk out n key m, 0 <= n <= len out -> n <= 2 ^ 36 -> 32 <= len key -> typed U8 key ->
  run (avx_aes256ctr_prf junk out n key m) = Some (ctr_stream (zfirst 32 key) (zeros 12) 0 n ++ zskip n out).
Proof. intros. apply wp_run_eq. now apply ni_prf_wp. Qed.
Lemma ni_stream_ok : stream_ok avx_aes256ctr_prf (PRF true).
Proof. intros junk out n inp Hn Hn2 Li Ti. eapply wp_mono; [apply ni_prf_wp; auto; lia|]. intros r ->. reflexivity. Qed.

(** ** When it is not: after the counter block whose low half is 2^64 - 8 the carry is lost. *)
Lemma ni_carry : forall junk out k, 144 <= len out -> arr U8 32 k ->
  run (crypto_stream_aes256ctr junk out 144 (be 16 (2 ^ 64 - 8)) k) = Some (ztab 144 (ni_byte k 8 (2 ^ 64 - 8)) ++ zskip 144 out, 0) /\
  ni_byte k 8 (2 ^ 64 - 8) 128 = get (AES256 k (be 16 0)) 0 /\
  get (ctr128_stream k (be 16 (2 ^ 64 - 8)) 144) 128 = get (AES256 k (be 16 (2 ^ 64))) 0.
Proof.
  intros junk out k Lo (Lk & Tk). split; [|split].
  - apply wp_run_eq. destruct (arr_be 16 (2 ^ 64 - 8) ltac:(lia)) as (LB & TB). apply wp_stream; auto; try lia.
    rewrite (zfirst_ge 32 k) by lia. rewrite (zfirst_ge 16) by lia. rewrite be_val_be by lia. replace ((2 ^ 64 - 8) mod 256 ^ 16) with (2 ^ 64 - 8) by reflexivity. reflexivity.
  - reflexivity.
  - unfold ctr128_stream. rewrite get_tab by lia. unfold ctr128_block. rewrite be_val_be by lia.
    replace ((2 ^ 64 - 8) mod 256 ^ 16) with (2 ^ 64 - 8) by reflexivity. replace ((2 ^ 64 - 8 + 128 / 16) mod 2 ^ 128) with (2 ^ 64) by reflexivity. reflexivity.
Qed.

Lemma ni_differ : exists k, arr U8 32 k /\ get (AES256 k (be 16 0)) 0 <> get (AES256 k (be 16 (2 ^ 64))) 0.
Proof.
  exists (zeros 32). split.
  - split; [reflexivity|]. apply Forall_forall. intros x Hx. apply repeat_spec in Hx. subst x. cbn. lia.
  - rewrite !AES256_fast. intros H. assert (get (AES256_f (zeros 32) (be 16 0)) 0 =? get (AES256_f (zeros 32) (be 16 (2 ^ 64))) 0 = false) as F by (vm_cast_no_check (eq_refl false)).
    rewrite H, Z.eqb_refl in F. discriminate F.
Qed.
