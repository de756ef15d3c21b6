(** Decapsulation of the Cortex-M0 code. *)
From Coq Require Import ZArith List Bool Lia.
From Verif Require Import Lib.Arr Lib.CInt Lib.CMon Lib.Wire Spec.Bits Spec.Ring Spec.Sampling Spec.Keccak Spec.Saber Spec.M0Spec Spec.M0DecSpec Model.Params Model.Pack
  Model.Verify Model.Indcpa Model.Fips202 Model.Api Model.M0 Model.M0Kem Model.M0Dec Proof.PackP Proof.PackThm Proof.Conv Proof.KaraP Proof.CbdP Proof.PolyP Proof.KeccakP
  Proof.SpongeP Proof.VerifyP Proof.IndcpaP Proof.KemP Proof.SymP Proof.KemThm Proof.KeccakF Proof.Fast Proof.M4P Proof.M0P Proof.M0KaraP Proof.M0MulP Proof.M0GenP Proof.M0KemP Proof.M0KemThm Proof.M0ApiP
  Proof.M0PrngP Proof.M0Ex.
From Verif Require Proof.AvxIndP Proof.X4IndP.
Import ListNotations.
Local Open Scope Z_scope.

(** ** As written *)

Lemma C61_always_lemma : forall mul junk g k c sk, run (m0_kem_dec mul junk g k c sk) = None.
Proof.
  intros. apply wlp_run. unfold m0_kem_dec, m0_kem_dec_n. apply wlp_any. intros pk.
  apply wlp_bind. eapply wlp_mono with (P := fun _ => False); [|contradiction].
  unfold indcpa_kem_dec. do 5 (apply wlp_any; intros).
  eapply wlp_mono; [apply wlp_ExtractKeyBits|]. cbn beta. intros _ H. destruct (uninit8_arr junk 0 64) as (L & _); lia.
Qed.

(** ** Packing of the message *)

Lemma wp_m0_POL2MSG : forall u m (Q : list Z -> Prop), len u = 256 -> (forall i, 0 <= i < 256 -> 0 <= get u i <= 1) -> 32 <= len m ->
  Q (pack 1 u ++ zskip 32 m) -> wp (m0_POL2MSG u m) Q.
Proof. intros u m Q Lu Ru Lm HQ. exact (AvxIndP.wp_POL2MSG u m Q Lm Lu Ru HQ). Qed.

(** ** Decryption *)

Definition bit10 (v c : Z) : Z := (v + 224 - 64 * c) mod 1024 / 512.
Lemma key_bit_mod : forall v c, key_bit (v mod 1024) c = bit10 v c.
Proof. intros. unfold key_bit, bit10. dlia. Qed.

Definition bits_of (v p : list Z) : list Z := ztab 256 (fun k => key_bit (get v k) (get (unpack 4 p) k)).
Lemma bits_of_range : forall v p k, 0 <= k < 256 -> 0 <= get (bits_of v p) k <= 1.
Proof. intros v p k Hk. unfold bits_of. rewrite get_ztab by auto. unfold key_bit. pose proof (Z.mod_pos_bound ((get v k - 64 * get (unpack 4 p) k + 224) / 512) 2). lia. Qed.

Lemma wp_ExtractKeyBits16 : forall junk v b u (Q : list Z -> Prop), arr U16 256 v -> 128 <= len b -> typed U8 b -> len u = 256 ->
  Q (bits_of v b) -> wp (ExtractKeyBits16 junk v b u) Q.
Proof.
  intros junk v b u Q (Lv & Tv) Lb Tb Lu HQ. unfold ExtractKeyBits16. apply wp_bind.
  apply wp_unpack4; auto; [rewrite uninit_len; lia|]. rewrite zskip_all by (rewrite uninit_len; lia). rewrite app_nil_r.
  assert (len (unpack 4 b) = 256) as Lp by apply len_unpack. assert (typed U16 (unpack 4 b)) as Tp by (apply unpack_typed; lia).
  apply wp_for with (I := fun j a => len a = 256 /\ forall k, 0 <= k < 256 -> get a k = if k <? j then get (bits_of v b) k else get u k).
  - lia.
  - split; auto. intros k Hk. destruct (k <? 0) eqn:E; auto; lia.
  - intros j a Hj (La & Ga). apply wp_bind, wp_extract; auto; try lia.
    assert (get (bits_of v b) j = key_bit (get v j) (get (unpack 4 b) j)) as E by (unfold bits_of; now rewrite get_ztab by lia).
    rewrite <- E. pose proof (bits_of_range v b j Hj) as R.
    apply wp_st; [reflexivity|cbn [lok tmin tmax]; lia|lia|]. cbn [val]. rewrite wrap_id by (cbn [tmin tmax]; lia).
    split; [now rewrite len_upd|]. intros k Hk. unfold get at 1. rewrite znth_upd by lia. destruct (k =? j) eqn:Ek.
    + assert (k = j) as -> by lia. now replace (j <? j + 1) with true by lia.
    + fold (get a k). rewrite Ga by auto. now replace (k <? j + 1) with (k <? j) by lia.
  - intros a (La & Ga). replace a with (bits_of v b); auto. apply znth_ext with 0; [unfold bits_of; rewrite len_ztab; lia|].
    unfold bits_of at 1. rewrite len_ztab by lia. intros k Hk. fold (get a k) (get (bits_of v b) k). rewrite Ga by auto. now replace (k <? 256) with true by lia.
Qed.

Lemma key_bits_32 : forall v b, 128 <= len b -> zfirst 32 (key_bits v b) = bits16 (bits_of v b).
Proof.
  intros v b Lb. apply znth_ext with 0; [unfold bits16, key_bits; rewrite len_zfirst, len_ztab; rewrite ?len_ztab; lia|].
  assert (len (zfirst 32 (key_bits v b)) = 32) as -> by (unfold key_bits; apply len_zfirst; rewrite len_ztab; lia).
  intros k Hk. unfold bits16. rewrite znth_ztab by auto. rewrite znth_zfirst by lia. unfold key_bits. rewrite znth_ztab by lia.
  assert (Z.even k = (k mod 2 =? 0)) as -> by (rewrite Zmod_even; destruct (Z.even k); reflexivity).
  destruct (k mod 2 =? 0); auto. unfold bits_of. rewrite get_ztab by dlia. now rewrite get_unpack4 by dlia.
Qed.

Lemma m0_pke_first : forall pk m r, 992 <= len pk -> m0_pke_enc (zfirst 992 pk) m r = m0_pke_enc pk m r.
Proof.
  intros pk m r L. unfold m0_pke_enc, enc_v.
  assert (unpack_vec 10 3 (zfirst 992 pk) = unpack_vec 10 3 pk) as ->.
  { apply X4IndP.unpack_vec_first; lia. }
  assert (zfirst 32 (zskip 960 (zfirst 992 pk)) = zfirst 32 (zskip 960 pk)) as ->.
  { assert (len (zfirst 992 pk) = 992) as L1 by (apply len_zfirst; lia).
    apply znth_ext with 0; [rewrite !len_zfirst; rewrite ?len_zskip; lia|]. rewrite len_zfirst by (rewrite len_zskip; lia).
    intros k Hk. rewrite !znth_zfirst, !znth_zskip, znth_zfirst by lia. reflexivity. }
  reflexivity.
Qed.

Section Dec.
  Variable mul : list Z -> list Z -> list Z -> M (list Z).
  Hypothesis Hmul : forall a b r, arr U16 256 a -> arr U16 256 b -> arr U16 256 r ->
    wp (mul a b r) (fun x => x = ztab 256 (fun k => (get r k + mul_coef a b k) mod 65536)).

  Lemma wp_dec_v : forall A junk sk c (F : list Z -> M A) (Q : A -> Prop), 1248 <= len sk -> typed U8 sk -> 960 <= len c -> typed U8 c ->
    wp (F (ztab 256 (fun k => get (dec_v sk c) k mod 1024))) Q ->
    wp (sksv <- BS2POLVECq13 sk (uninit2 junk 0 3) ;;
        v <- for_ 0 256 (fun i v => st U16 v i #0) (uninit junk 1 256) ;;
        sksv <- for_ 0 3 (fun i sksv => for_ 0 256 (fun j sksv =>
          r <- row sksv i ;; r <- st U16 r j (Idx U16 r j .& #1023)%C ;; setrow sksv i r) sksv) sksv ;;
        v <- VectorMul mul (sub junk 2) c sksv v ;; F v)%M Q.
  Proof.
    intros A junk sk c F Q Lsk Tsk Lc Tc HQ.
    destruct (vec_mem_uninit2 junk 0 3 ltac:(lia)) as (Lu & Fu).
    apply wp_bind. unfold BS2POLVECq13.
    apply wp_rows with (d0 := []) (g := fun i => unpack 13 (zskip (32 * 13 * i) sk)); [lia| |].
    { intros i a Hi La Ea. apply wp_bind, wp_ptr; [dlia|]. replace (i * (256 * 13) / 8) with (32 * 13 * i) by dlia.
      apply wp_bind, wp_row with (d := []); [lia|]. rewrite Ea. pose proof (Forall_znth _ [] _ Fu i ltac:(lia)) as Li. cbn beta in Li.
      apply wp_bind, wp_BS2POLq_13; [rewrite len_zskip; lia|lia|now apply Forall_zskip|]. rewrite (zskip_all 256) by lia. rewrite app_nil_r.
      now apply wp_setrow; [lia|]. }
    rewrite (zskip_all 3) by lia. rewrite app_nil_r. set (t := ztab 3 (fun i => unpack 13 (zskip (32 * 13 * i) sk))).
    assert (t = unpack_vec 13 3 sk) as Et by reflexivity.
    assert (len t = 3) as Lt by (apply len_ztab; lia).
    assert (forall i, 0 <= i < 3 -> arr U16 256 (getr t i)) as Ht.
    { intros i Hi. unfold t, getr. rewrite znth_ztab by auto. split; [apply len_unpack|apply unpack_typed; lia]. }
    clearbody t.
    apply wp_bind, (wp_each U16 256 (fun _ => #0)%C (fun _ => 0)); [rewrite uninit_len; lia|intros; split; [reflexivity|]; split; [cbn; lia|reflexivity]|].
    intros v0 L0 G0. rewrite uninit_len in L0 by lia.
    assert (v0 = zeros 256) as ->.
    { apply znth_ext with 0; [now rewrite len_zeros|]. rewrite L0. intros k Hk. fold (get v0 k). rewrite G0 by (rewrite uninit_len; lia).
      replace (k <? 256) with true by lia. symmetry. exact (get_zeros 256 k). }
    clear L0 G0.
    apply wp_bind, (wp_rows _ []) with (g := fun i => ztab 256 (fun k => get (getr t i) k mod 1024)); [lia| |].
    { intros i a Hi La Ea. assert (getr a i = getr t i) as Ea' by exact Ea. destruct (Ht i Hi) as (L & T).
      apply wp_rowloop with (f := fun k => get (getr t i) k mod 1024); [lia|now rewrite Ea'| |auto].
      intros j x Hj Lx Gx. rewrite Ea' in Gx.
      assert (forall k, 0 <= k < 256 -> 0 <= get (getr t i) k <= 65535) as R.
      { intros k Hk. pose proof (typed_get U16 _ k T ltac:(lia)) as R. cbn [tmin tmax] in R. lia. }
      assert (typed U16 x) as Tx.
      { apply Forall_znth_iff with (d := 0). rewrite Lx. intros k Hk. fold (get x k). rewrite Gx by auto. specialize (R k Hk). cbn [tmin tmax].
        destruct (k <? j); [dlia|lia]. }
      specialize (Gx j Hj). rewrite Z.ltb_irrefl in Gx. specialize (R j Hj).
      split; [reflexivity|]. split; [cbn [lok tmin tmax]; repeat split; auto; lia|].
      cbn [val val_bin ty promote common]. unfold cv, uw. cbn [subr signed]. rewrite Gx, mask1023. apply wrap_id. cbn [tmin tmax]. dlia. }
    rewrite (zskip_all 3 t) by lia. rewrite app_nil_r.
    apply wp_bind, (wp_VM mul Hmul _ _ _ _ (unpack_vec 13 3 sk)); [lia|auto|apply len_ztab; lia| |reflexivity|exact HQ].
    intros i Hi.
    assert (getr (ztab 3 (fun i => ztab 256 (fun k => get (getr t i) k mod 1024))) i = ztab 256 (fun k => get (getr t i) k mod 1024)) as ->
      by (unfold getr at 1; now rewrite znth_ztab by auto).
    rewrite <- Et. destruct (Ht i Hi) as (L & T). split.
    - split; [apply len_ztab; lia|]. apply Forall_ztab. intros k Hk. cbn [tmin tmax]. dlia.
    - intros k Hk. rewrite get_ztab by lia. apply eqm_mod; lia.
  Qed.

  Lemma dec_v_arr : forall sk c, arr U16 256 (ztab 256 (fun k => get (dec_v sk c) k mod 1024)).
  Proof. intros. split; [apply len_ztab; lia|]. apply Forall_ztab. intros. cbn [tmin tmax]. dlia. Qed.

  Lemma bits_dec : forall sk c, bits_of (ztab 256 (fun k => get (dec_v sk c) k mod 1024)) (zskip 960 c) = m0_dec_bits sk c.
  Proof.
    intros. unfold bits_of, m0_dec_bits. cbv zeta. apply ztab_ext. intros k Hk. rewrite get_ztab by auto. rewrite key_bit_mod. unfold bit10. reflexivity.
  Qed.

  (** ** Decapsulation *)

  Lemma wp_m0_dec_rest : forall junk g k c sk m T (Q : list Z * Z -> Prop), arr U8 280 (g_buf g) -> len (g_s g) = 25 ->
    len k = 32 -> arr U8 1088 c -> arr U8 2304 sk -> arr U8 32 m -> 32 <= len T -> typed U8 T ->
    Q (m0_dec_key m sk c, 0) -> wp (m0_dec_rest mul junk g k c sk (zskip 1248 sk) (m ++ T)) Q.
  Proof.
    intros junk g k c sk m T Q Hb Hs Lk (Lc & Tc) (Lsk & Tsk) (Lm & Tm) LT TT HQ. unfold m0_dec_rest. change (2304 - 64) with 2240. change (2304 - 32) with 2272.
    set (hs := zfirst 32 (zskip 2240 sk)).
    assert (arr U8 32 hs) as (Lhs & Ths).
    { unfold hs. split; [apply len_zfirst; rewrite len_zskip; lia|]. now apply Forall_zfirst, Forall_zskip. }
    apply wp_bind, (wp_copy 32 32 2240 (m ++ T) sk (fun i => 32 + i)); auto; try lia.
    { rewrite len_app. lia. }
    fold hs. rewrite (zfirst_app_at 32 m) by auto.
    set (T2 := zskip (32 + 32) (m ++ T)). assert (typed U8 T2) as TT2 by (apply Forall_zskip; now apply typed_app).
    assert (len (m ++ hs) = 64) as Lb by (rewrite len_app; lia). pose proof (len_nonneg T2) as LT2.
    assert (len ((m ++ hs) ++ T2) = 64 + len T2) as Lb2 by (rewrite len_app; lia).
    rewrite app_assoc.
    apply wp_bind, wp_sha3_512; [rewrite uninit_len; lia|lia|repeat apply typed_app; auto|]. rewrite (zfirst_app_at 64 (m ++ hs)) by auto.
    rewrite zskip_all by (rewrite uninit_len; lia). rewrite app_nil_r.
    unfold m0_dec_key in HQ. cbv zeta in HQ.
    assert (sk_hash saber sk = hs) as Eh by reflexivity. rewrite Eh in HQ. clear Eh.
    destruct (SHA3_512_arr (m ++ hs)) as (Lkr & Tkr). set (kr := SHA3_512 (m ++ hs)) in *.
    assert (len (zskip 32 kr) = 32) as Lz by (rewrite len_zskip; lia).
    assert (len (zfirst 32 kr) = 32) as Lf by (apply len_zfirst; lia).
    apply wp_bind, wp_ptr; [lia|].
    apply wp_bind, (wp_m0_indcpa_enc mul Hmul); auto; try lia.
    { repeat apply typed_app; auto. }
    { split; [lia|]. now apply Forall_zskip. }
    { rewrite len_zskip; lia. }
    { now apply Forall_zskip. }
    rewrite <- app_assoc, (zfirst_app_at 32 m) by auto.
    assert (m0_pke_enc (zskip 1248 sk) m (zskip 32 kr) = m0_pke_enc (sk_pk saber sk) m (zskip 32 kr)) as ->.
    { symmetry. unfold sk_pk. cbn [saber p_l p_eq]. change (3 * (32 * 13)) with 1248. change (3 * 320 + 32) with 992.
      apply m0_pke_first. rewrite len_zskip; lia. }
    set (ct := m0_pke_enc (sk_pk saber sk) m (zskip 32 kr)) in *.
    destruct (m0_pke_enc_arr (sk_pk saber sk) m (zskip 32 kr)) as (Lct & Tct). fold ct in Lct, Tct.
    apply wp_bind, wp_m0_verify; auto; try lia.
    rewrite (zfirst_all_at _ c), (zfirst_all_at _ ct) by auto.
    apply wp_bind, wp_at; [lia|].
    apply wp_sha3_256; try lia; auto. rewrite (zfirst_all_at _ c) by auto.
    rewrite (zskip_all 32 (zskip 32 kr)) by lia. rewrite app_nil_r. destruct (SHA3_256_arr c) as (Lhc & Thc).
    apply wp_bind, wp_ptr; [lia|].
    apply wp_bind, wp_asg; [reflexivity| |].
    { cbn [lok tmin tmax]. destruct (list_eqb c ct); cbn; lia. }
    cbn [val].
    assert (len (zfirst 32 kr ++ SHA3_256 c) = 64) as Lb3 by (rewrite len_app; lia).
    set (z := zskip 2272 sk). assert (len z = 32) as Lzz by (unfold z; rewrite len_zskip; lia).
    assert (sk_z saber sk = z) as Ez by (unfold sk_z; exact (zfirst_all_at 32 z Lzz)). rewrite Ez in HQ. clear Ez.
    assert (typed U8 (zfirst 32 kr ++ SHA3_256 c)) as Tb2 by (apply typed_app; auto; now apply Forall_zfirst).
    replace (wrap U8 (if list_eqb c ct then 0 else 1)) with (if list_eqb c ct then 0 else 1) by (now destruct (list_eqb c ct)).
    apply wp_bind, wp_cmov; auto; try lia.
    { unfold z. now apply Forall_zskip. }
    { destruct (list_eqb c ct); auto. }
    assert (VerifyP.sel (if list_eqb c ct then 0 else 1) 32 (zfirst 32 kr ++ SHA3_256 c) z = (if list_eqb c ct then zfirst 32 kr else z) ++ SHA3_256 c) as ->.
    { unfold VerifyP.sel. destruct (list_eqb c ct); cbn [Z.eqb]; auto.
      now rewrite (zfirst_all_at 32 z), (zskip_app_at 32) by auto. }
    unfold list_eqb. set (kf := if list_eq_dec Z.eq_dec c ct then zfirst 32 kr else z) in *.
    replace (if if list_eq_dec Z.eq_dec c ct then true else false then zfirst 32 kr else z) with kf by (unfold kf; now destruct (list_eq_dec Z.eq_dec c ct)).
    assert (arr U8 32 kf) as (Lkf & Tkf).
    { unfold kf. destruct (list_eq_dec Z.eq_dec c ct); split; auto; [now apply Forall_zfirst|now apply Forall_zskip]. }
    assert (len (kf ++ SHA3_256 c) = 64) as Lb4 by (rewrite len_app; lia).
    apply wp_bind, wp_sha3_256; [lia|lia|now apply typed_app|].
    rewrite (zfirst_all_at 64 (kf ++ SHA3_256 c)) by auto. rewrite (zskip_all 32 k) by lia. rewrite app_nil_r. apply wp_ret. exact HQ.
  Qed.

  Lemma wp_m0_kem_dec_n : forall n junk g k c sk (Q : list Z * Z -> Prop), arr U8 280 (g_buf g) -> len (g_s g) = 25 ->
    512 <= n -> len k = 32 -> arr U8 1088 c -> arr U8 2304 sk ->
    Q (m0_dec_key (bits16 (m0_dec_bits sk c)) sk c, 0) -> wp (m0_kem_dec_n mul n junk g k c sk) Q.
  Proof.
    intros n junk g k c sk Q Hb Hs Hn Lk (Lc & Tc) (Lsk & Tsk) HQ. unfold m0_kem_dec_n.
    apply wp_bind, wp_ptr; [lia|]. apply wp_bind. unfold indcpa_kem_dec. apply wp_dec_v; auto; try lia.
    apply wp_bind, wp_ptr; [lia|]. destruct (uninit8_arr junk 0 n ltac:(lia)) as (Lu & Tu).
    apply wp_ExtractKeyBits; [apply dec_v_arr|rewrite len_zskip; lia|now apply Forall_zskip|lia|].
    set (v := ztab 256 _). set (kb := key_bits v (zskip 960 c)).
    assert (arr U8 512 kb) as (Lkb & Tkb).
    { split; [apply len_ztab; lia|]. apply Forall_ztab. intros i Hi. cbn [tmin tmax]. destruct (i mod 2 =? 0); [|lia].
      unfold key_bit. match goal with |- 0 <= ?x mod 2 <= _ => pose proof (Z.mod_pos_bound x 2); lia end. }
    assert (kb ++ zskip 512 (uninit8 junk 0 n) = zfirst 32 kb ++ zskip 32 kb ++ zskip 512 (uninit8 junk 0 n)) as -> by (rewrite app_assoc; now rewrite zfirst_zskip).
    assert (zfirst 32 kb = bits16 (m0_dec_bits sk c)) as E.
    { unfold kb. rewrite key_bits_32 by (rewrite len_zskip; lia). unfold v. now rewrite bits_dec. }
    assert (len (zskip 32 kb) = 480) as L480 by (rewrite len_zskip; lia). pose proof (len_nonneg (zskip 512 (uninit8 junk 0 n))).
    rewrite <- E in HQ. apply wp_m0_dec_rest; auto.
    - now split.
    - now split.
    - split; [apply len_zfirst; lia|now apply Forall_zfirst].
    - rewrite len_app. lia.
    - apply typed_app; now apply Forall_zskip.
  Qed.

  Lemma wp_m0_kem_dec_packed : forall junk g k c sk (Q : list Z * Z -> Prop), arr U8 280 (g_buf g) -> len (g_s g) = 25 ->
    len k = 32 -> arr U8 1088 c -> arr U8 2304 sk ->
    Q (m0_dec_key (m0_msg sk c) sk c, 0) -> wp (m0_kem_dec_packed mul junk g k c sk) Q.
  Proof.
    intros junk g k c sk Q Hb Hs Lk (Lc & Tc) (Lsk & Tsk) HQ. unfold m0_kem_dec_packed.
    apply wp_bind, wp_ptr; [lia|]. apply wp_bind. unfold indcpa_kem_dec_packed. apply wp_dec_v; auto; try lia.
    apply wp_bind, wp_ptr; [lia|]. destruct (uninit8_arr junk 0 64 ltac:(lia)) as (Lu & Tu).
    apply wp_bind, wp_ExtractKeyBits16; [apply dec_v_arr|rewrite len_zskip; lia|now apply Forall_zskip|rewrite uninit_len; lia|].
    apply wp_m0_POL2MSG; [unfold bits_of; apply len_ztab; lia|apply bits_of_range|lia|].
    rewrite bits_dec. fold (m0_msg sk c).
    apply wp_m0_dec_rest; auto.
    - now split.
    - now split.
    - split; [exact (len_pack 1 _ ltac:(lia))|apply pack_typed].
    - rewrite len_zskip; lia.
    - now apply Forall_zskip.
  Qed.
End Dec.
