(** sha256 and sha512. *)
From Coq Require Import ZArith List Bool Lia.
From Verif Require Import Lib.Arr Lib.CInt Lib.CMon Spec.Bytes Model.Params Model.Sha2 Spec.Sha2
  Proof.PackThm Proof.VerifyP Proof.KemP Proof.BytesP Proof.Sha2P.
Import ListNotations.
Local Open Scope Z_scope.

Lemma list4 : forall (x : list Z), 4 <= len x -> exists a b c d r, x = a :: b :: c :: d :: r.
Proof. intros x L. do 4 (destruct x as [|? x]; [unfold len in L; cbn [length] in L; lia|]). eauto 8. Qed.
Lemma list8 : forall (x : list Z), 8 <= len x -> exists a b c d e f g h r, x = a :: b :: c :: d :: e :: f :: g :: h :: r.
Proof. intros x L. do 8 (destruct x as [|? x]; [unfold len in L; cbn [length] in L; lia|]). eauto 12. Qed.

Lemma wp_load32 : forall x (Q : Z -> Prop), 4 <= len x -> typed U8 x -> Q (be_val (zfirst 4 x)) -> wp (ev (load_bigendian32 x)) Q.
Proof.
  intros x Q L T HQ. apply wp_ev; [reflexivity|cbn [lok load_bigendian32 tmin tmax]; repeat split; auto; lia|].
  destruct (list4 x L) as (a & b & c & d & r & ->). change (zfirst 4 _) with [a; b; c; d] in HQ.
  assert (forall z, In z [a; b; c; d] -> 0 <= z <= 255) as B.
  { intros z Hz. apply (proj1 (Forall_forall _ _) T). cbn in Hz |- *. tauto. }
  assert (Ba := B a ltac:(cbn; auto)). assert (Bb := B b ltac:(cbn; auto)). assert (Bc := B c ltac:(cbn; auto 6)). assert (Bd := B d ltac:(cbn; auto 6)).
  replace (val (load_bigendian32 (a :: b :: c :: d :: r))) with (be_val [a; b; c; d]); auto.
  unfold load_bigendian32. cbn [val val_bin ty promote common]. unfold cv, uw. cbn [subr signed].
  change (get (a :: b :: c :: d :: r) 0) with a. change (get (a :: b :: c :: d :: r) 1) with b.
  change (get (a :: b :: c :: d :: r) 2) with c. change (get (a :: b :: c :: d :: r) 3) with d.
  rewrite !wrap_id by (cbn [tmin tmax]; lia).
  rewrite (lor_add _ c 8), (lor_add _ b 16), (lor_add _ a 24) by lia. unfold be_val. cbn [fold_left]. lia.
Qed.

Lemma wp_load64' : forall x (Q : Z -> Prop), 8 <= len x -> typed U8 x -> Q (be_val (zfirst 8 x)) -> wp (ev (load_bigendian64 x)) Q.
Proof.
  intros x Q L T HQ. apply wp_ev; [reflexivity|cbn [lok load_bigendian64 tmin tmax]; repeat split; auto; lia|].
  destruct (list8 x L) as (a & b & c & d & e & f & g & h & r & ->). change (zfirst 8 _) with [a; b; c; d; e; f; g; h] in HQ.
  assert (forall z, In z [a; b; c; d; e; f; g; h] -> 0 <= z <= 255) as B.
  { intros z Hz. apply (proj1 (Forall_forall _ _) T). cbn in Hz |- *. tauto. }
  assert (Ba := B a ltac:(cbn; auto)). assert (Bb := B b ltac:(cbn; auto)). assert (Bc := B c ltac:(cbn; auto 6)). assert (Bd := B d ltac:(cbn; auto 6)).
  assert (Be := B e ltac:(cbn; auto 10)). assert (Bf := B f ltac:(cbn; auto 10)). assert (Bg := B g ltac:(cbn; auto 12)). assert (Bh := B h ltac:(cbn; auto 12)).
  set (X := a :: b :: c :: d :: e :: f :: g :: h :: r).
  replace (val (load_bigendian64 X)) with (be_val [a; b; c; d; e; f; g; h]); auto.
  unfold load_bigendian64. cbn [val val_bin ty promote common]. unfold cv, uw. cbn [subr signed].
  change (get X 0) with a. change (get X 1) with b. change (get X 2) with c. change (get X 3) with d.
  change (get X 4) with e. change (get X 5) with f. change (get X 6) with g. change (get X 7) with h.
  rewrite !wrap_id by (cbn [tmin tmax]; lia).
  rewrite (lor_add _ g 8), (lor_add _ f 16), (lor_add _ e 24), (lor_add _ d 32), (lor_add _ c 40), (lor_add _ b 48), (lor_add _ a 56) by lia.
  unfold be_val. cbn [fold_left]. lia.
Qed.

Lemma wp_step : forall t x k u (f : list Z -> cexp -> M (list Z)) (Q : list Z -> Prop), t = U32 \/ t = U64 ->
  0 <= k < len x -> 0 <= u <= tmax t -> (0 <= u / 256 <= tmax t -> wp (f (upd x k (u mod 256)) (Var t (u / 256))) Q) ->
  wp (x <- st U8 x k (Var t u) ;; u <- asg t (Bin Shr (Var t u) (Cst I32 8)) ;; f x u)%M Q.
Proof.
  intros t x k u f Q Ht Hk Hu HQ.
  assert (0 <= u / 256 <= tmax t) as B by (split; [apply Z.div_pos; lia|apply Z.div_le_upper_bound; lia]).
  apply wp_bind, wp_st; [reflexivity|cbn [lok]; destruct Ht; subst t; cbn [tmin]; lia|auto|].
  apply wp_bind, wp_asg; [destruct Ht; subst t; reflexivity|cbn [lok]; destruct Ht; subst t; cbn [tmin tmax] in *; lia|].
  cbn [val val_bin]. rewrite Z.shiftr_div_pow2 by lia. change (2 ^ 8) with 256.
  rewrite (wrap_id t) by (destruct Ht; subst t; cbn [tmin]; lia). change (wrap U8 u) with (u mod 256). now apply HQ.
Qed.

Lemma wp_store32 : forall x u (Q : list Z -> Prop), 4 <= len x -> 0 <= u < 2 ^ 32 -> Q (be 4 u ++ zskip 4 x) -> wp (store_bigendian32 x (Var U32 u)) Q.
Proof.
  intros x u Q L Hu HQ. unfold store_bigendian32. destruct (list4 x L) as (a & b & c & d & r & ->). rewrite !len_cons in L.
  do 3 (apply wp_step; [auto|rewrite ?len_upd, !len_cons; lia|cbn [tmax] in *; lia|intros]).
  apply wp_st; [reflexivity|cbn [lok tmin tmax] in *; lia|rewrite ?len_upd, !len_cons; lia|]. exact HQ.
Qed.
Lemma wp_store64' : forall x u (Q : list Z -> Prop), 8 <= len x -> 0 <= u < 2 ^ 64 -> Q (be 8 u ++ zskip 8 x) -> wp (store_bigendian64 x (Var U64 u)) Q.
Proof.
  intros x u Q L Hu HQ. unfold store_bigendian64. destruct (list8 x L) as (a & b & c & d & e & f & g & h & r & ->). rewrite !len_cons in L.
  do 7 (apply wp_step; [auto|rewrite ?len_upd, !len_cons; lia|cbn [tmax] in *; lia|intros]).
  apply wp_st; [reflexivity|cbn [lok tmin tmax] in *; lia|rewrite ?len_upd, !len_cons; lia|]. exact HQ.
Qed.

(** ** Padding *)

Lemma get_ben : forall n v i, 0 <= i < Z.of_nat n -> get (ben n v) i = (v / 256 ^ (Z.of_nat n - 1 - i)) mod 256.
Proof.
  induction n; intros v i Hi; [lia|]. cbn [ben]. unfold get. destruct (Z.eq_dec i (Z.of_nat n)) as [->|].
  - rewrite znth_app2; rewrite len_ben; [|lia]. rewrite Z.sub_diag, znth_0.
    replace (Z.of_nat (S n) - 1 - Z.of_nat n) with 0 by lia. now rewrite Z.pow_0_r, Z.div_1_r.
  - rewrite znth_app1 by (rewrite len_ben; lia). change (znth 0 (ben n (v / 256)) i) with (get (ben n (v / 256)) i). rewrite IHn by lia.
    replace (Z.of_nat (S n) - 1 - i) with (1 + (Z.of_nat n - 1 - i)) by lia. rewrite Z.pow_add_r, Z.pow_1_r by lia.
    rewrite Z.div_div by (try apply Z.pow_pos_nonneg; lia). reflexivity.
Qed.
Lemma get_be : forall n v i, 0 <= i < n -> get (be n v) i = (v / 256 ^ (n - 1 - i)) mod 256.
Proof. intros. unfold be. rewrite get_ben by lia. do 4 f_equal. lia. Qed.

Lemma wp_branch : forall p junk d0 r lim es L h (Q : list Z -> Prop), 0 <= r -> r + 1 <= lim -> lim + len es <= len d0 -> typed U8 d0 ->
  (forall e, In e es -> safe e = true /\ lok e) ->
  (forall d, len d = len d0 -> typed U8 d -> (forall i, 0 <= i < lim + len es -> get d i =
     if i <? r + 1 then get d0 i else if i <? lim then 0 else wrap U8 (val (znth (Cst I32 0) es (i - lim)))) ->
     wp (hashblocks p junk h d L) Q) ->
  wp (padded <- for_ (r + 1) lim (fun i padded => st U8 padded i (Cst I32 0)) d0 ;;
      padded <- sts U8 padded lim es ;; hashblocks p junk h padded L)%M Q.
Proof.
  intros p junk d0 r lim es L h Q Hr Hlim Ld T0 He HQ. pose proof (len_nonneg es). apply wp_bind.
  apply wp_for with (I := fun k d => len d = len d0 /\ typed U8 d /\ forall i, 0 <= i < len d0 -> get d i = if i <? r + 1 then get d0 i else if i <? k then 0 else get d0 i).
  - lia.
  - repeat split; auto. intros i Hi. destruct (i <? r + 1) eqn:D; auto.
  - intros k d Hk (Ll & Td & Gd). apply wp_st; [reflexivity|cbn; lia|lia|]. rewrite len_upd. split; auto.
    split; [apply typed_upd; auto; apply wrap_range|]. intros i Hi.
    unfold get at 1. rewrite znth_upd by lia. destruct (i =? k) eqn:D.
    + destruct (i <? r + 1) eqn:D1; [lia|]. destruct (i <? k + 1) eqn:D2; [|lia]. reflexivity.
    + change (znth 0 d i) with (get d i). rewrite Gd by lia. destruct (i <? r + 1); auto. replace (i <? k + 1) with (i <? k) by lia. reflexivity.
  - intros d (Ll & Td & Gd). apply wp_bind, wp_sts; [auto|lia|lia|]. intros d' Ld' Gd'. apply HQ; [lia| |].
    + apply (Forall_znth_iff (fun z => tmin U8 <= z <= tmax U8) 0). intros i Hi. fold (get d' i). rewrite Gd' by lia.
      destruct (_ && _); [apply wrap_range|apply typed_get; auto; lia].
    + intros i Hi. rewrite Gd' by lia. rewrite Gd by lia.
      destruct (i <? r + 1) eqn:D1, (i <? lim) eqn:D2, (lim <=? i) eqn:D3, (i <? lim + len es) eqn:D4; try lia; cbn [andb]; auto.
Qed.

Lemma get_tail : forall (a l : list Z) z i, 0 <= z -> 0 <= i < len a + 1 + z + len l ->
  get (a ++ [128] ++ zeros z ++ l) i =
  if i <? len a then get a i else if i =? len a then 128 else if i <? len a + 1 + z then 0 else get l (i - (len a + 1 + z)).
Proof.
  intros a l z i Hz Hi. unfold get. destruct (i <? len a) eqn:D; [now rewrite znth_app1 by lia|]. rewrite znth_app2 by lia.
  destruct (i =? len a) eqn:D1.
  - replace (i - len a) with 0 by lia. reflexivity.
  - cbn [app]. rewrite znth_cons by lia. destruct (i <? len a + 1 + z) eqn:D2.
    + rewrite znth_app1 by (rewrite len_zeros; lia). apply get_zeros.
    + rewrite znth_app2 by (rewrite len_zeros; lia). rewrite len_zeros by lia. f_equal. lia.
Qed.

(** Facts about the two instances. *)
Lemma K256_groups : concat (a_K alg256) = K256. Proof. reflexivity. Qed.
Lemma K512_groups : concat (a_K alg512) = K512. Proof. reflexivity. Qed.
Lemma iv256_ok : iv256 = flat_map (be 4) H256. Proof. reflexivity. Qed.
Lemma iv512_ok : iv512 = flat_map (be 8) H512. Proof. reflexivity. Qed.

Lemma typed_K : typed U32 K256 /\ typed U64 K512.
Proof. split; [apply (arrb_ok U32 64)|apply (arrb_ok U64 80)]; reflexivity. Qed.

Section Top.
  Variable p : alg.
  Variable s : sha2.
  Variable nb : Z.
  Hypothesis Hnb : 0 < nb.
  Hypothesis Hw : wbits s = 8 * nb.
  Hypothesis Hhb : forall junk inp n H (Q : list Z -> Prop), words s 8 H -> 0 <= n <= len inp -> typed U8 inp ->
    Q (bytes_of p (hb s (n / (16 * nb)) inp H)) -> wp (hashblocks p junk (bytes_of p H) inp n) Q.
  Hypothesis Hfin : forall inp n j padded, 0 <= n <= len inp -> typed U8 inp -> 0 <= j ->
    let m := n / (16 * nb) in
    let tail := zskip (16 * nb * m) (zfirst n inp) ++ padding s n in
    len tail = 16 * nb * j -> zfirst (16 * nb * j) padded = tail -> 16 * nb * j <= len padded ->
    bytes_of p (hb s j padded (hb s m inp (sH0 s))) = sha2_hash s (zfirst n inp).
  Hypothesis HW : forall m inp, words s 8 (hb s m inp (sH0 s)).

  Lemma wp_finish : forall junk inp n j r L d0 lim es (Q : list Z -> Prop),
    r = n mod (16 * nb) -> L = 16 * nb * j -> 1 <= j -> r + 1 <= L - 2 * nb -> L - 2 * nb - r - 1 < 16 * nb -> L - 2 * nb <= lim -> lim + len es = L ->
    L <= len d0 -> typed U8 d0 -> 0 <= n <= len inp -> typed U8 inp ->
    (forall i, 0 <= i < r -> get d0 i = get inp (n - r + i)) -> get d0 r = 128 ->
    (forall e, In e es -> safe e = true /\ lok e) ->
    (forall i, 0 <= i < 2 * nb -> (if L - 2 * nb + i <? lim then 0 else wrap U8 (val (znth (Cst I32 0) es (L - 2 * nb + i - lim)))) = get (be (2 * nb) (8 * n)) i) ->
    Q (sha2_hash s (zfirst n inp)) ->
    wp (padded <- for_ (r + 1) lim (fun i padded => st U8 padded i (Cst I32 0)) d0 ;;
        padded <- sts U8 padded lim es ;; hashblocks p junk (bytes_of p (hb s (n / (16 * nb)) inp (sH0 s))) padded L)%M Q.
  Proof.
    intros junk inp n j r L d0 lim es Q Er EL Hj Hr1 Hr2 Hl1 Hl2 Ld T0 Hn Ti G1 G2 He Hlen HQ.
    assert (0 <= r < 16 * nb) as Hr by (subst r; apply Z.mod_pos_bound; lia).
    pose proof (Z.div_mod n (16 * nb) ltac:(lia)) as DM. rewrite <- Er in DM. set (m := n / (16 * nb)) in *. assert (0 <= m) by (apply Z.div_pos; lia).
    assert (padding s n = [128] ++ zeros (L - 2 * nb - r - 1) ++ be (2 * nb) (8 * n)) as EP.
    { unfold padding. rewrite Hw. replace (8 * nb / 4) with (2 * nb) by (replace (8 * nb) with (2 * nb * 4) by lia; now rewrite Z.div_mul by lia).
      replace ((- n - 1 - 2 * nb) mod (2 * (8 * nb))) with (L - 2 * nb - r - 1); [reflexivity|].
      apply Z.mod_unique_pos with (q := - m - j); nia. }
    set (A := zskip (16 * nb * m) (zfirst n inp)).
    assert (len A = r) as LA by (unfold A; rewrite len_zskip; rewrite len_zfirst by lia; nia).
    apply wp_branch; auto; [lia|lia|lia|]. intros d Ld' Td Gd. apply Hhb; auto; [lia|].
    replace (L / (16 * nb)) with j by (rewrite EL, Z.mul_comm, Z.div_mul by lia; reflexivity).
    unfold m. rewrite Hfin; auto; try lia.
    - fold m A. rewrite EP, !len_app, LA, len_zeros, len_be by lia. change (len [128]) with 1. lia.
    - fold m A. rewrite EP, <- EL. apply znth_ext with 0.
      + rewrite len_zfirst, !len_app, LA, len_zeros, len_be by lia. change (len [128]) with 1. lia.
      + rewrite len_zfirst by lia. intros i Hi. rewrite znth_zfirst by lia. fold (get d i).
        match goal with |- _ = znth 0 ?l i => change (znth 0 l i) with (get l i) end.
        rewrite get_tail by (try rewrite LA, len_be; lia). rewrite LA. rewrite Gd by lia.
        destruct (i <? r) eqn:D1.
        * replace (i <? r + 1) with true by lia. rewrite G1 by lia. unfold A, get. rewrite znth_zskip by nia. rewrite znth_zfirst by nia. f_equal. lia.
        * destruct (i =? r) eqn:D2; [replace (i <? r + 1) with true by lia; replace i with r by lia; auto|].
          replace (i <? r + 1) with false by lia. destruct (i <? r + 1 + (L - 2 * nb - r - 1)) eqn:D3.
          -- replace (i <? lim) with true by lia. reflexivity.
          -- rewrite <- Hlen by lia. replace (L - 2 * nb + (i - (r + 1 + (L - 2 * nb - r - 1)))) with i by lia. reflexivity.
  Qed.
End Top.

Lemma wp_hashblocks256 : forall junk inp n H (Q : list Z -> Prop), words sha256_alg 8 H -> 0 <= n <= len inp -> typed U8 inp ->
  Q (bytes_of alg256 (hb sha256_alg (n / (16 * 4)) inp H)) -> wp (hashblocks alg256 junk (bytes_of alg256 H) inp n) Q.
Proof.
  intros. apply wp_hashblocks with (s := sha256_alg); auto; try reflexivity.
  - cbn. repeat split; lia.
  - discriminate.
  - repeat constructor.
  - apply typed_K.
  - exact wp_load32.
  - exact wp_store32.
Qed.
Lemma wp_hashblocks512 : forall junk inp n H (Q : list Z -> Prop), words sha512_alg 8 H -> 0 <= n <= len inp -> typed U8 inp ->
  Q (bytes_of alg512 (hb sha512_alg (n / (16 * 8)) inp H)) -> wp (hashblocks alg512 junk (bytes_of alg512 H) inp n) Q.
Proof.
  intros. apply wp_hashblocks with (s := sha512_alg); auto; try reflexivity.
  - cbn. repeat split; lia.
  - discriminate.
  - repeat constructor.
  - apply typed_K.
  - exact wp_load64'.
  - exact wp_store64'.
Qed.
Lemma words256 : forall m inp, words sha256_alg 8 (hb sha256_alg m inp (sH0 sha256_alg)).
Proof.
  intros. apply hash_blocks_words with (p := alg256); auto; [cbn; repeat split; lia|]. split; [reflexivity|].
  cbn [sH0 sha256_alg]. unfold H256. repeat (apply Forall_cons; [cbn; lia|]). constructor.
Qed.
Lemma words512 : forall m inp, words sha512_alg 8 (hb sha512_alg m inp (sH0 sha512_alg)).
Proof.
  intros. apply hash_blocks_words with (p := alg512); auto; [cbn; repeat split; lia|]. split; [reflexivity|].
  cbn [sH0 sha512_alg]. unfold H512. repeat (apply Forall_cons; [cbn; lia|]). constructor.
Qed.

Lemma len_be_flat : forall nb l, 0 <= nb -> len (flat_map (be nb) l) = nb * len l.
Proof. intros nb l Hn. induction l as [|x l IH]; cbn [flat_map]; [rewrite len_nil; change (len (@nil Z)) with 0; lia|]. rewrite len_app, len_be, len_cons by lia. lia. Qed.
Lemma typed_be_flat : forall nb l, typed U8 (flat_map (be nb) l).
Proof. intros nb l. induction l as [|x l IH]; cbn [flat_map]; [constructor|]. apply Forall_app. split; auto. apply typed_ben. Qed.

Lemma SHA256_arr : forall x, arr U8 32 (SHA256 x).
Proof.
  intros x. unfold SHA256, sha2_hash. split; [|apply typed_be_flat]. rewrite len_be_flat by (cbn; lia).
  pose proof (proj1 (words256 (len (x ++ padding sha256_alg (len x)) / (2 * wbits sha256_alg)) (x ++ padding sha256_alg (len x)))) as W. unfold hb in W. rewrite W. reflexivity.
Qed.
Lemma SHA512_arr : forall x, arr U8 64 (SHA512 x).
Proof.
  intros x. unfold SHA512, sha2_hash. split; [|apply typed_be_flat]. rewrite len_be_flat by (cbn; lia).
  pose proof (proj1 (words512 (len (x ++ padding sha512_alg (len x)) / (2 * wbits sha512_alg)) (x ++ padding sha512_alg (len x)))) as W. unfold hb in W. rewrite W. reflexivity.
Qed.

Lemma fin256 : forall inp n j padded, 0 <= n <= len inp -> typed U8 inp -> 0 <= j ->
    let m := n / (16 * 4) in
    let tail := zskip (16 * 4 * m) (zfirst n inp) ++ padding sha256_alg n in
    len tail = 16 * 4 * j -> zfirst (16 * 4 * j) padded = tail -> 16 * 4 * j <= len padded ->
    bytes_of alg256 (hb sha256_alg j padded (hb sha256_alg m inp (sH0 sha256_alg))) = sha2_hash sha256_alg (zfirst n inp).
Proof. intros. apply (final_eq alg256 sha256_alg); auto. Qed.
Lemma fin512 : forall inp n j padded, 0 <= n <= len inp -> typed U8 inp -> 0 <= j ->
    let m := n / (16 * 8) in
    let tail := zskip (16 * 8 * m) (zfirst n inp) ++ padding sha512_alg n in
    len tail = 16 * 8 * j -> zfirst (16 * 8 * j) padded = tail -> 16 * 8 * j <= len padded ->
    bytes_of alg512 (hb sha512_alg j padded (hb sha512_alg m inp (sH0 sha512_alg))) = sha2_hash sha512_alg (zfirst n inp).
Proof. intros. apply (final_eq alg512 sha512_alg); auto. Qed.

Lemma split_in : forall {A} (P : A -> Prop) l, Forall P l -> forall x, In x l -> P x.
Proof. intros A P l F x. apply Forall_forall. exact F. Qed.

Lemma shr_div : forall v k e, 0 <= k -> 0 < e -> 256 ^ e = 2 ^ k * 8 -> (8 * v) / 256 ^ e = v / 2 ^ k.
Proof.
  intros v k e Hk He E. rewrite E. rewrite (Z.mul_comm _ 8), <- Z.div_div by (try apply Z.pow_pos_nonneg; lia).
  now rewrite (Z.mul_comm 8 v), Z.div_mul by lia.
Qed.

Definition len_es (b : Z) : list cexp := let bits := Var U64 b in
  [bits .>> #56; bits .>> #48; bits .>> #40; bits .>> #32; bits .>> #24; bits .>> #16; bits .>> #8; bits]%C.
Definition len_es9 (b : Z) : list cexp := let bytes := Var U64 b in
  [bytes .>> #61; bytes .>> #53; bytes .>> #45; bytes .>> #37; bytes .>> #29; bytes .>> #21; bytes .>> #13; bytes .>> #5; bytes .<< #3]%C.

Lemma len_es_ok : forall b e, 0 <= b < 2 ^ 64 -> In e (len_es b) -> safe e = true /\ lok e.
Proof.
  intros b e Hb. apply (split_in (fun e => safe e = true /\ lok e)). unfold len_es.
  repeat (apply Forall_cons; [split; [reflexivity|cbn [lok tmin tmax]; repeat split; lia]|]). constructor.
Qed.
Lemma len_es9_ok : forall b e, 0 <= b < 2 ^ 64 -> In e (len_es9 b) -> safe e = true /\ lok e.
Proof.
  intros b e Hb. apply (split_in (fun e => safe e = true /\ lok e)). unfold len_es9.
  repeat (apply Forall_cons; [split; [reflexivity|cbn [lok tmin tmax]; repeat split; lia]|]). constructor.
Qed.
Lemma len_es_val : forall b i, 0 <= i < 8 -> wrap U8 (val (znth (Cst I32 0) (len_es b) i)) = get (be 8 b) i.
Proof.
  intros b i Hi. rewrite get_be by lia.
  assert (i = 0 \/ i = 1 \/ i = 2 \/ i = 3 \/ i = 4 \/ i = 5 \/ i = 6 \/ i = 7) as C by lia.
  destruct C as [-> | [-> | [-> | [-> | [-> | [-> | [-> | ->]]]]]]];
    match goal with |- wrap U8 (val ?e) = _ => let e' := eval cbv in e in change e with e' end;
    cbn [val val_bin]; rewrite ?Z.shiftr_div_pow2 by lia; try reflexivity.
  change (256 ^ (8 - 1 - 7)) with 1. now rewrite Z.div_1_r.
Qed.
Lemma len_es9_val : forall b i, 0 <= b < 2 ^ 64 -> 0 <= i < 16 ->
  (if i <? 7 then 0 else wrap U8 (val (znth (Cst I32 0) (len_es9 b) (i - 7)))) = get (be 16 (8 * b)) i.
Proof.
  intros b i Hb Hi. rewrite get_be by lia. destruct (i <? 7) eqn:D.
  - assert (256 ^ 9 <= 256 ^ (16 - 1 - i)) by (apply Z.pow_le_mono_r; lia).
    assert (256 ^ 9 = 2 ^ 72) by reflexivity. rewrite Z.div_small by lia. reflexivity.
  - assert (i = 7 \/ i = 8 \/ i = 9 \/ i = 10 \/ i = 11 \/ i = 12 \/ i = 13 \/ i = 14 \/ i = 15) as C by lia.
    destruct C as [-> | [-> | [-> | [-> | [-> | [-> | [-> | [-> | ->]]]]]]]];
    match goal with |- wrap U8 (val ?e) = _ => let e' := eval cbv in e in change e with e' end;
    cbn [val val_bin]; rewrite ?Z.shiftr_div_pow2 by lia.
    1: rewrite (shr_div b 61) by (try reflexivity; lia). 2: rewrite (shr_div b 53) by (try reflexivity; lia).
    3: rewrite (shr_div b 45) by (try reflexivity; lia). 4: rewrite (shr_div b 37) by (try reflexivity; lia).
    5: rewrite (shr_div b 29) by (try reflexivity; lia). 6: rewrite (shr_div b 21) by (try reflexivity; lia).
    7: rewrite (shr_div b 13) by (try reflexivity; lia). 8: rewrite (shr_div b 5) by (try reflexivity; lia).
    1-8: reflexivity.
    change (256 ^ (16 - 1 - 15)) with 1. rewrite Z.div_1_r.
    unfold uw. cbn [ty promote signed]. unfold wrap.
    rewrite <- Znumtheory.Zmod_div_mod; [f_equal; lia|lia|lia|]. exists (2 ^ 56). reflexivity.
Qed.

Lemma wp_sha256 : forall junk out inp n (Q : list Z -> Prop), 32 <= len out -> 0 <= n <= len inp -> n < 2 ^ 61 -> typed U8 inp ->
  Q (SHA256 (zfirst n inp) ++ zskip 32 out) -> wp (sha256 junk out inp n) Q.
Proof.
  intros junk out inp n Q Lo Hn Hn2 Ti HQ. unfold sha256.
  destruct (uninit8_arr junk 0 32 ltac:(lia)) as (Lh & _). set (h0 := uninit8 junk 0 32) in *. clearbody h0.
  destruct (uninit8_arr junk 1 128 ltac:(lia)) as (Lp & Tp). set (p0 := uninit8 junk 1 128) in *. clearbody p0.
  apply wp_bind, wp_asg; [reflexivity|cbn [lok tmin tmax]; lia|].
  assert (wrap U64 (val (Var U64 n .<< #3)%C) = 8 * n) as ->.
  { cbn [val val_bin ty promote]. unfold uw. cbn [signed]. rewrite (wrap_id U64 (n * 2 ^ 3)), wrap_id; cbn [tmin tmax]; lia. }
  apply wp_bind. apply wp_copy with (doff := 0) (soff := 0); try lia; [discriminate|apply (arrb_ok U8 32); reflexivity|].
  change (zfirst 0 h0) with (@nil Z). rewrite (zskip_all (0 + 32)), app_nil_r by lia.
  change ([] ++ zfirst 32 (zskip 0 iv256)) with (bytes_of alg256 (sH0 sha256_alg)).
  apply wp_bind, wp_hashblocks256; [apply (words256 0 inp)|lia|auto|].
  set (r := n mod (16 * 4)). assert (0 <= r < 64) as Hr by (apply Z.mod_pos_bound; lia).
  pose proof (Z.div_mod n (16 * 4) ltac:(lia)) as DM. fold r in DM. pose proof (Z.div_pos n (16 * 4) ltac:(lia) ltac:(lia)) as Dp.
  apply wp_bind, wp_ptr; [lia|].
  apply wp_bind, wp_ev; [reflexivity|cbn [lok tmin tmax]; lia|].
  assert (val (Var U64 n .& #63)%C = r) as ->.
  { cbn [val val_bin ty promote common]. unfold cv. cbn [subr]. rewrite (wrap_id U64 63) by (cbn [tmin tmax]; lia).
    change 63 with (Z.ones 6). rewrite Z.land_ones by lia. reflexivity. }
  apply wp_bind, wp_ptr; [lia|].
  assert (len (zskip (n - r) inp) = len inp - (n - r)) as Lz by (apply len_zskip; lia).
  apply wp_bind. apply wp_copy with (doff := 0) (soff := 0); try lia; [now apply Forall_zskip|].
  change (zfirst 0 p0) with (@nil Z). set (R := zfirst r (zskip 0 (zskip (n - r) inp))).
  assert (len R = r) as LR by (unfold R; rewrite len_zfirst; change (zskip 0 (zskip (n - r) inp)) with (zskip (n - r) inp); lia).
  cbn [app Z.add]. replace (0 + r) with r by lia.
  assert (len (zskip r p0) = 128 - r) as LR2 by (rewrite len_zskip; lia).
  apply wp_bind, wp_st; [reflexivity|cbn; lia|rewrite len_app; lia|].
  set (d0 := upd (R ++ zskip r p0) r (wrap U8 (val #0x80%C))).
  assert (len d0 = 128) as Ld by (unfold d0; rewrite len_upd, len_app; lia).
  assert (typed U8 d0) as Td.
  { apply typed_upd; [|apply wrap_range]. apply Forall_app. split; [apply Forall_zfirst|]; now repeat apply Forall_zskip. }
  assert (forall i, 0 <= i < r -> get d0 i = get inp (n - r + i)) as G1.
  { intros i Hi. unfold d0, get. rewrite znth_upd_diff by lia. rewrite znth_app1 by lia. unfold R. rewrite znth_zfirst by lia.
    change (zskip 0 (zskip (n - r) inp)) with (zskip (n - r) inp). rewrite znth_zskip by lia. reflexivity. }
  assert (get d0 r = 128) as G2.
  { unfold d0, get. rewrite znth_upd_same by (rewrite len_app; lia). reflexivity. }
  clearbody d0. clear LR LR2 R.
  assert (wp (for_ 0 32 (fun i out => st U8 out i (Idx U8 (SHA256 (zfirst n inp)) i)) out) Q) as HQ'.
  { destruct (SHA256_arr (zfirst n inp)) as (LS & TS). set (S := SHA256 (zfirst n inp)) in *. clearbody S.
    apply wp_copy with (doff := 0) (soff := 0); try lia; auto. change (zskip 0 S) with S. rewrite (zfirst_all_at 32) by auto. exact HQ. }
  apply wp_bind, wp_ite. destruct (r <? 56) eqn:C.
  - eapply (wp_finish alg256 sha256_alg 4) with (j := 1) (r := r) (es := len_es (8 * n)); auto; try lia.
    + exact wp_hashblocks256.
    + exact fin256.
    + exact words256.
    + intros e He. apply (len_es_ok (8 * n)); [lia|exact He].
    + intros i Hi. change (2 * 4) with 8 in *. destruct (64 - 8 + i <? 56) eqn:D; [lia|].
      rewrite <- len_es_val by lia. do 3 f_equal. lia.
  - eapply (wp_finish alg256 sha256_alg 4) with (j := 2) (r := r) (es := len_es (8 * n)); auto; try lia.
    + exact wp_hashblocks256.
    + exact fin256.
    + exact words256.
    + intros e He. apply (len_es_ok (8 * n)); [lia|exact He].
    + intros i Hi. change (2 * 4) with 8 in *. destruct (128 - 8 + i <? 120) eqn:D; [lia|].
      rewrite <- len_es_val by lia. do 3 f_equal. lia.
Qed.

Lemma wp_sha512 : forall junk out inp n (Q : list Z -> Prop), 64 <= len out -> 0 <= n <= len inp -> n < 2 ^ 64 -> typed U8 inp ->
  Q (SHA512 (zfirst n inp) ++ zskip 64 out) -> wp (sha512 junk out inp n) Q.
Proof.
  intros junk out inp n Q Lo Hn Hn2 Ti HQ. unfold sha512.
  destruct (uninit8_arr junk 0 64 ltac:(lia)) as (Lh & _). set (h0 := uninit8 junk 0 64) in *. clearbody h0.
  destruct (uninit8_arr junk 1 256 ltac:(lia)) as (Lp & Tp). set (p0 := uninit8 junk 1 256) in *. clearbody p0.
  apply wp_bind. apply wp_copy with (doff := 0) (soff := 0); try lia; [discriminate|apply (arrb_ok U8 64); reflexivity|].
  change (zfirst 0 h0) with (@nil Z). rewrite (zskip_all (0 + 64)), app_nil_r by lia.
  change ([] ++ zfirst 64 (zskip 0 iv512)) with (bytes_of alg512 (sH0 sha512_alg)).
  apply wp_bind, wp_hashblocks512; [apply (words512 0 inp)|lia|auto|].
  set (r := n mod (16 * 8)). assert (0 <= r < 128) as Hr by (apply Z.mod_pos_bound; lia).
  pose proof (Z.div_mod n (16 * 8) ltac:(lia)) as DM. fold r in DM. pose proof (Z.div_pos n (16 * 8) ltac:(lia) ltac:(lia)) as Dp.
  apply wp_bind, wp_ptr; [lia|].
  apply wp_bind, wp_ev; [reflexivity|cbn [lok tmin tmax]; lia|].
  assert (val (Var U64 n .& #127)%C = r) as ->.
  { cbn [val val_bin ty promote common]. unfold cv. cbn [subr]. rewrite (wrap_id U64 127) by (cbn [tmin tmax]; lia).
    change 127 with (Z.ones 7). rewrite Z.land_ones by lia. reflexivity. }
  apply wp_bind, wp_ptr; [lia|].
  assert (len (zskip (n - r) inp) = len inp - (n - r)) as Lz by (apply len_zskip; lia).
  apply wp_bind. apply wp_copy with (doff := 0) (soff := 0); try lia; [now apply Forall_zskip|].
  change (zfirst 0 p0) with (@nil Z). set (R := zfirst r (zskip 0 (zskip (n - r) inp))).
  assert (len R = r) as LR by (unfold R; rewrite len_zfirst; change (zskip 0 (zskip (n - r) inp)) with (zskip (n - r) inp); lia).
  cbn [app Z.add]. replace (0 + r) with r by lia.
  assert (len (zskip r p0) = 256 - r) as LR2 by (rewrite len_zskip; lia).
  apply wp_bind, wp_st; [reflexivity|cbn; lia|rewrite len_app; lia|].
  set (d0 := upd (R ++ zskip r p0) r (wrap U8 (val #0x80%C))).
  assert (len d0 = 256) as Ld by (unfold d0; rewrite len_upd, len_app; lia).
  assert (typed U8 d0) as Td.
  { apply typed_upd; [|apply wrap_range]. apply Forall_app. split; [apply Forall_zfirst|]; now repeat apply Forall_zskip. }
  assert (forall i, 0 <= i < r -> get d0 i = get inp (n - r + i)) as G1.
  { intros i Hi. unfold d0, get. rewrite znth_upd_diff by lia. rewrite znth_app1 by lia. unfold R. rewrite znth_zfirst by lia.
    change (zskip 0 (zskip (n - r) inp)) with (zskip (n - r) inp). rewrite znth_zskip by lia. reflexivity. }
  assert (get d0 r = 128) as G2.
  { unfold d0, get. rewrite znth_upd_same by (rewrite len_app; lia). reflexivity. }
  clearbody d0. clear LR LR2 R.
  assert (wp (for_ 0 64 (fun i out => st U8 out i (Idx U8 (SHA512 (zfirst n inp)) i)) out) Q) as HQ'.
  { destruct (SHA512_arr (zfirst n inp)) as (LS & TS). set (S := SHA512 (zfirst n inp)) in *. clearbody S.
    apply wp_copy with (doff := 0) (soff := 0); try lia; auto. change (zskip 0 S) with S. rewrite (zfirst_all_at 64) by auto. exact HQ. }
  apply wp_bind, wp_ite. destruct (r <? 112) eqn:C.
  - eapply (wp_finish alg512 sha512_alg 8) with (j := 1) (r := r) (es := len_es9 n); auto; try lia.
    + exact wp_hashblocks512.
    + exact fin512.
    + exact words512.
    + intros e He. apply (len_es9_ok n); [lia|exact He].
    + intros i Hi. change (2 * 8) with 16 in *. rewrite <- len_es9_val by lia.
      replace (128 - 16 + i <? 119) with (i <? 7) by lia. destruct (i <? 7); [reflexivity|]. do 3 f_equal. lia.
  - eapply (wp_finish alg512 sha512_alg 8) with (j := 2) (r := r) (es := len_es9 n); auto; try lia.
    + exact wp_hashblocks512.
    + exact fin512.
    + exact words512.
    + intros e He. apply (len_es9_ok n); [lia|exact He].
    + intros i Hi. change (2 * 8) with 16 in *. rewrite <- len_es9_val by lia.
      replace (256 - 16 + i <? 247) with (i <? 7) by lia. destruct (i <? 7); [reflexivity|]. do 3 f_equal. lia.
Qed.

Lemma sha256_run : forall junk out inp n, 32 <= len out -> 0 <= n <= len inp -> n < 2 ^ 61 -> typed U8 inp ->
  run (sha256 junk out inp n) = Some (SHA256 (zfirst n inp) ++ zskip 32 out).
Proof. intros. apply wp_run_eq. now apply wp_sha256. Qed.
Lemma sha512_run : forall junk out inp n, 64 <= len out -> 0 <= n <= len inp -> n < 2 ^ 64 -> typed U8 inp ->
  run (sha512 junk out inp n) = Some (SHA512 (zfirst n inp) ++ zskip 64 out).
Proof. intros. apply wp_run_eq. now apply wp_sha512. Qed.

Lemma sha256_hash : hash_spec sha256 32 SHA256.
Proof. intros junk out inp n Q Lo Hn Hn2 Ti HQ. apply wp_sha256; auto. lia. Qed.
Lemma sha512_hash : hash_spec sha512 64 SHA512.
Proof. intros junk out inp n Q Lo Hn Hn2 Ti HQ. apply wp_sha512; auto. lia. Qed.
