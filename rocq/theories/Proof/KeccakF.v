(** FIPS 202 on 64-bit words: an equivalent form of the specification that evaluates quickly. *)
From Coq Require Import ZArith List Bool Lia.
From Verif Require Import Lib.Wire Lib.Arr Lib.CInt Lib.CMon Spec.Bits Spec.Keccak Model.Params Model.Fips202
  Proof.PackThm Proof.CbdP Proof.PolyP Proof.KemP Proof.KeccakP Proof.SpongeP.
Import ListNotations.
Local Open Scope Z_scope.

(** ** The permutation *)

Definition rol (a n : Z) : Z := Z.lor (Z.shiftl (Z.land a (Z.ones (64 - n))) n) (Z.shiftr a (64 - n)).

Definition half_round_f (rc : Z) (A : lanes) : lanes :=
  let '(Lanes Aba Abe Abi Abo Abu Aga Age Agi Ago Agu Aka Ake Aki Ako Aku Ama Ame Ami Amo Amu Asa Ase Asi Aso Asu) := A in
  let BCa := Z.lxor (Z.lxor (Z.lxor (Z.lxor Aba Aga) Aka) Ama) Asa in
  let BCe := Z.lxor (Z.lxor (Z.lxor (Z.lxor Abe Age) Ake) Ame) Ase in
  let BCi := Z.lxor (Z.lxor (Z.lxor (Z.lxor Abi Agi) Aki) Ami) Asi in
  let BCo := Z.lxor (Z.lxor (Z.lxor (Z.lxor Abo Ago) Ako) Amo) Aso in
  let BCu := Z.lxor (Z.lxor (Z.lxor (Z.lxor Abu Agu) Aku) Amu) Asu in
  let Da := Z.lxor BCu (rol BCe 1) in
  let De := Z.lxor BCa (rol BCi 1) in
  let Di := Z.lxor BCe (rol BCo 1) in
  let Do := Z.lxor BCi (rol BCu 1) in
  let Du := Z.lxor BCo (rol BCa 1) in
  let Aba := Z.lxor Aba Da in
  let BCa := Aba in
  let Age := Z.lxor Age De in
  let BCe := rol Age 44 in
  let Aki := Z.lxor Aki Di in
  let BCi := rol Aki 43 in
  let Amo := Z.lxor Amo Do in
  let BCo := rol Amo 21 in
  let Asu := Z.lxor Asu Du in
  let BCu := rol Asu 14 in
  let Eba := Z.lxor BCa (Z.ldiff BCi BCe) in
  let Eba := Z.lxor Eba rc in
  let Ebe := Z.lxor BCe (Z.ldiff BCo BCi) in
  let Ebi := Z.lxor BCi (Z.ldiff BCu BCo) in
  let Ebo := Z.lxor BCo (Z.ldiff BCa BCu) in
  let Ebu := Z.lxor BCu (Z.ldiff BCe BCa) in
  let Abo := Z.lxor Abo Do in
  let BCa := rol Abo 28 in
  let Agu := Z.lxor Agu Du in
  let BCe := rol Agu 20 in
  let Aka := Z.lxor Aka Da in
  let BCi := rol Aka 3 in
  let Ame := Z.lxor Ame De in
  let BCo := rol Ame 45 in
  let Asi := Z.lxor Asi Di in
  let BCu := rol Asi 61 in
  let Ega := Z.lxor BCa (Z.ldiff BCi BCe) in
  let Ege := Z.lxor BCe (Z.ldiff BCo BCi) in
  let Egi := Z.lxor BCi (Z.ldiff BCu BCo) in
  let Ego := Z.lxor BCo (Z.ldiff BCa BCu) in
  let Egu := Z.lxor BCu (Z.ldiff BCe BCa) in
  let Abe := Z.lxor Abe De in
  let BCa := rol Abe 1 in
  let Agi := Z.lxor Agi Di in
  let BCe := rol Agi 6 in
  let Ako := Z.lxor Ako Do in
  let BCi := rol Ako 25 in
  let Amu := Z.lxor Amu Du in
  let BCo := rol Amu 8 in
  let Asa := Z.lxor Asa Da in
  let BCu := rol Asa 18 in
  let Eka := Z.lxor BCa (Z.ldiff BCi BCe) in
  let Eke := Z.lxor BCe (Z.ldiff BCo BCi) in
  let Eki := Z.lxor BCi (Z.ldiff BCu BCo) in
  let Eko := Z.lxor BCo (Z.ldiff BCa BCu) in
  let Eku := Z.lxor BCu (Z.ldiff BCe BCa) in
  let Abu := Z.lxor Abu Du in
  let BCa := rol Abu 27 in
  let Aga := Z.lxor Aga Da in
  let BCe := rol Aga 36 in
  let Ake := Z.lxor Ake De in
  let BCi := rol Ake 10 in
  let Ami := Z.lxor Ami Di in
  let BCo := rol Ami 15 in
  let Aso := Z.lxor Aso Do in
  let BCu := rol Aso 56 in
  let Ema := Z.lxor BCa (Z.ldiff BCi BCe) in
  let Eme := Z.lxor BCe (Z.ldiff BCo BCi) in
  let Emi := Z.lxor BCi (Z.ldiff BCu BCo) in
  let Emo := Z.lxor BCo (Z.ldiff BCa BCu) in
  let Emu := Z.lxor BCu (Z.ldiff BCe BCa) in
  let Abi := Z.lxor Abi Di in
  let BCa := rol Abi 62 in
  let Ago := Z.lxor Ago Do in
  let BCe := rol Ago 55 in
  let Aku := Z.lxor Aku Du in
  let BCi := rol Aku 39 in
  let Ama := Z.lxor Ama Da in
  let BCo := rol Ama 41 in
  let Ase := Z.lxor Ase De in
  let BCu := rol Ase 2 in
  let Esa := Z.lxor BCa (Z.ldiff BCi BCe) in
  let Ese := Z.lxor BCe (Z.ldiff BCo BCi) in
  let Esi := Z.lxor BCi (Z.ldiff BCu BCo) in
  let Eso := Z.lxor BCo (Z.ldiff BCa BCu) in
  let Esu := Z.lxor BCu (Z.ldiff BCe BCa) in
  Lanes Eba Ebe Ebi Ebo Ebu Ega Ege Egi Ego Egu Eka Eke Eki Eko Eku Ema Eme Emi Emo Emu Esa Ese Esi Eso Esu.


Lemma rol_ROL : forall a n, u64 a -> 0 < n < 64 -> rol a n = ROL a n.
Proof.
  intros a n Ha Hn. apply Z.bits_inj'. intros k Hk. unfold rol, ROL.
  rewrite Z.lor_spec, Z.lxor_spec, Z.shiftl_spec, Z.shiftr_spec, wrap_U64 by lia.
  destruct (Z_lt_dec k n).
  - rewrite Z.testbit_neg_r by lia. rewrite Z.mod_pow2_bits_low, Z.shiftl_spec, (Z.testbit_neg_r a (k - n)) by lia. now destruct (Z.testbit a _).
  - rewrite (u64_high a (k + (64 - n))) by (auto; lia). rewrite orb_false_r, xorb_false_r, Z.land_spec.
    destruct (Z_lt_dec k 64).
    + rewrite Z.ones_spec_low by lia. rewrite Z.mod_pow2_bits_low, Z.shiftl_spec by lia. apply andb_true_r.
    + rewrite Z.ones_spec_high by lia. rewrite Z.mod_pow2_bits_high by lia. apply andb_false_r.
Qed.
Lemma ldiff_not64 : forall x y, u64 y -> Z.ldiff y x = Z.land (not64 x) y.
Proof.
  intros x y Hy. apply Z.bits_inj'. intros k Hk. rewrite Z.ldiff_spec, Z.land_spec. destruct (Z_lt_dec k 64).
  - rewrite testbit_not64 by lia. apply andb_comm.
  - rewrite (u64_high y) by (auto; lia). now rewrite andb_false_r.
Qed.

Lemma half_round_fast : forall rc L, arr U64 25 (lanes_list L) -> half_round_f rc L = half_round rc L.
Proof.
  intros rc L (_ & T).
  destruct L as [ba be bi bo bu ga ge gi go gu ka ke ki ko ku ma me mi mo mu sa se si so su].
  assert (forall x, In x [ba; be; bi; bo; bu; ga; ge; gi; go; gu; ka; ke; ki; ko; ku; ma; me; mi; mo; mu; sa; se; si; so; su] -> u64 x) as U.
  { intros x Hx. unfold typed in T. rewrite Forall_forall in T. specialize (T x Hx). cbn [tmin tmax] in T. unfold u64. lia. }
  assert (u64 ba /\ u64 be /\ u64 bi /\ u64 bo /\ u64 bu /\ u64 ga /\ u64 ge /\ u64 gi /\ u64 go /\ u64 gu /\ u64 ka /\ u64 ke /\ u64 ki /\ u64 ko /\ u64 ku /\ u64 ma /\ u64 me /\ u64 mi /\ u64 mo /\ u64 mu /\ u64 sa /\ u64 se /\ u64 si /\ u64 so /\ u64 su) as (Uba & Ube & Ubi & Ubo & Ubu & Uga & Uge & Ugi & Ugo & Ugu & Uka & Uke & Uki & Uko & Uku & Uma & Ume & Umi & Umo & Umu & Usa & Use & Usi & Uso & Usu).
  { repeat split; apply U; cbn [In]; auto 30. }
  clear T U.
  unfold half_round_f, half_round.
  repeat match goal with |- context [rol ?a ?n] =>
    lazymatch a with context [rol _ _] => fail | _ => rewrite (rol_ROL a n) by (try lia; repeat first [assumption | simple apply u64_lxor | simple apply u64_ROL; [|lia]]) end end.
  repeat match goal with |- context [Z.ldiff ?y ?x] => rewrite (ldiff_not64 x y) by (repeat first [assumption | simple apply u64_lxor | simple apply u64_ROL; [|lia]]) end.
  reflexivity.
Qed.

Definition rounds_f (rcs : list Z) (L : lanes) : lanes := fold_left (fun L rc => half_round_f rc L) rcs L.
Definition lanes_of (s : list Z) : lanes :=
  match s with
  | [ba; be; bi; bo; bu; ga; ge; gi; go; gu; ka; ke; ki; ko; ku; ma; me; mi; mo; mu; sa; se; si; so; su] =>
      Lanes ba be bi bo bu ga ge gi go gu ka ke ki ko ku ma me mi mo mu sa se si so su
  | _ => Lanes 0 0 0 0 0 0 0 0 0 0 0 0 0 0 0 0 0 0 0 0 0 0 0 0 0
  end.
Definition keccak_ff (s : list Z) : list Z := lanes_list (rounds_f KeccakF_RoundConstants (lanes_of s)).

Lemma rounds_fast : forall n L, (n <= 24)%nat -> arr U64 25 (lanes_list L) ->
  lanes_list (rounds_f (firstn n KeccakF_RoundConstants) L) = keccak_rounds n (lanes_list L).
Proof.
  induction n; intros L Hn HL; [reflexivity|].
  assert (firstn (S n) KeccakF_RoundConstants = firstn n KeccakF_RoundConstants ++ [get KeccakF_RoundConstants (Z.of_nat n)]) as ->.
  { clear - Hn. do 24 (destruct n as [|n]; [reflexivity|]). lia. }
  unfold rounds_f. rewrite fold_left_app. cbn [fold_left]. fold (rounds_f (firstn n KeccakF_RoundConstants) L).
  assert (arr U64 25 (lanes_list (rounds_f (firstn n KeccakF_RoundConstants) L))) by (rewrite IHn by (auto; lia); now apply keccak_rounds_arr).
  rewrite half_round_fast by auto. rewrite half_round_ok by (auto; lia). rewrite IHn by (auto; lia). reflexivity.
Qed.

Lemma keccak_fast : forall s, arr U64 25 s -> keccak_f s = keccak_ff s.
Proof.
  intros s Hs. destruct (list25 s (proj1 Hs)) as (L & ->). unfold keccak_ff.
  assert (lanes_of (lanes_list L) = L) as -> by (destruct L; reflexivity).
  change KeccakF_RoundConstants with (firstn 24 KeccakF_RoundConstants). now rewrite rounds_fast by auto.
Qed.

(** ** Words and bytes *)

(** Little-endian value of bytes. *)
Fixpoint le (n : nat) (l : list Z) : Z :=
  match n, l with S n, b :: l => b + 256 * le n l | _, _ => 0 end.

Lemma bits_val_split : forall n m f, 0 <= n -> 0 <= m -> bits_val (n + m) f = bits_val n f + 2 ^ n * bits_val m (fun k => f (n + k)).
Proof.
  intros n m f Hn Hm. pose proof (bits_val_bound n f Hn). pose proof (bits_val_bound m (fun k => f (n + k)) Hm).
  symmetry. apply bits_val_eq; [lia|rewrite Z.pow_add_r by lia; nia|].
  intros k Hk. rewrite Z.mul_comm. destruct (Z_lt_dec k n).
  - rewrite <- (Z.mod_pow2_bits_low _ n) by lia. rewrite Z.mod_add by lia. rewrite Z.mod_small by auto.
    rewrite bits_val_testbit by lia. now replace (k <? n) with true by lia.
  - replace k with ((k - n) + n) at 1 by lia. rewrite <- Z.div_pow2_bits by lia. rewrite Z.div_add by lia.
    rewrite Z.div_small, Z.add_0_l by auto. rewrite bits_val_testbit by lia. replace (k - n <? m) with true by lia.
    cbn [andb]. f_equal. lia.
Qed.

Lemma bits_val_self : forall n z, 0 <= n -> 0 <= z < 2 ^ n -> bits_val n (Z.testbit z) = z.
Proof. intros. symmetry. now apply bits_val_eq. Qed.

Lemma get_cons : forall x l i, 0 <= i -> get (x :: l) (i + 1) = get l i.
Proof.
  intros. unfold get, znth. replace (i + 1 <? 0) with false by lia. replace (i <? 0) with false by lia.
  replace (Z.to_nat (i + 1)) with (S (Z.to_nat i)) by lia. reflexivity.
Qed.

Lemma fbit_cons : forall x l k, 0 <= k -> fbit 8 (x :: l) (8 + k) = fbit 8 l k.
Proof.
  intros. unfold fbit. replace (8 + k) with (k + 1 * 8) by lia. rewrite Z.div_add, Z.mod_add by lia.
  rewrite get_cons by (apply Z.div_pos; lia). reflexivity.
Qed.
Lemma fbit_head : forall x l k, 0 <= k < 8 -> fbit 8 (x :: l) k = Z.testbit x k.
Proof. intros. unfold fbit. rewrite Z.div_small, Z.mod_small by lia. reflexivity. Qed.

Lemma le_bits : forall n l, typed U8 l -> le n l = bits_val (8 * Z.of_nat n) (fbit 8 l).
Proof.
  induction n; intros l T; [reflexivity|]. destruct l as [|b l]; cbn [le].
  - symmetry. apply Z.bits_inj'. intros k Hk. rewrite bits_val_testbit by lia. rewrite Z.bits_0. unfold fbit, get.
    rewrite znth_default by (cbn; lia). rewrite Z.bits_0. apply andb_false_r.
  - inversion T; subst. cbn [tmin tmax] in *. rewrite IHn by auto.
    replace (8 * Z.of_nat (S n)) with (8 + 8 * Z.of_nat n) by lia. rewrite bits_val_split by lia. f_equal.
    + rewrite (bits_val_ext 8 _ (Z.testbit b)) by (intros; now apply fbit_head). rewrite bits_val_self by lia. reflexivity.
    + change (2 ^ 8) with 256. f_equal. apply bits_val_ext. intros. symmetry. apply fbit_cons. lia.
Qed.

(** Xor the first [r] words of a byte string into the state. *)
Fixpoint xor_words (r : nat) (A m : list Z) : list Z :=
  match r, A with S r, a :: A => Z.lxor a (le 8 m) :: xor_words r A (skipn 8 m) | _, _ => A end.

Lemma xor_words_len : forall r A m, length (xor_words r A m) = length A.
Proof. induction r; destruct A; cbn [xor_words length]; intros; auto. Qed.

Lemma xor_words_get : forall r A m l, typed U8 m -> 0 <= l < len A ->
  get (xor_words r A m) l = if l <? Z.of_nat r then Z.lxor (get A l) (bits_val 64 (fun z => fbit 8 m (64 * l + z))) else get A l.
Proof.
  induction r; intros A m l T Hl; cbn [xor_words].
  - now replace (l <? Z.of_nat 0) with false by lia.
  - destruct A as [|a A]; [cbn in Hl; lia|]. destruct (Z.eq_dec l 0) as [->|].
    + replace (0 <? Z.of_nat (S r)) with true by lia. rewrite le_bits by auto. reflexivity.
    + replace l with (l - 1 + 1) by lia. rewrite !get_cons by lia. rewrite IHr.
      * replace (l - 1 + 1 <? Z.of_nat (S r)) with (l - 1 <? Z.of_nat r) by lia. destruct (l - 1 <? Z.of_nat r); auto.
        f_equal. apply bits_val_ext. intros k Hk. change (skipn 8 m) with (zskip 8 m). rewrite fbit_zskip by lia. f_equal. lia.
      * change (skipn 8 m) with (zskip 8 m). now apply Forall_zskip.
      * unfold len in *. cbn [length] in Hl. lia.
Qed.

Lemma xor_words_bytes : forall r A m, len A = 25 -> typed U8 m -> xor_words r A m = xor_bytes (Z.of_nat r) A m.
Proof.
  intros. unfold xor_bytes. apply ztab_eq with 0; [unfold len in *; rewrite xor_words_len; lia|].
  intros i Hi. apply xor_words_get; auto. lia.
Qed.

(** Bytes of a word, and of the state. *)
Fixpoint word_bytes (n : nat) (w : Z) : list Z :=
  match n with O => [] | S n => Z.land w 255 :: word_bytes n (Z.shiftr w 8) end.

Lemma word_bytes_len : forall n w, length (word_bytes n w) = n.
Proof. induction n; cbn [word_bytes length]; auto. Qed.

Lemma word_bytes_get : forall n w j, 0 <= j < Z.of_nat n -> get (word_bytes n w) j = bits_val 8 (fun m => Z.testbit w (8 * j + m)).
Proof.
  induction n; intros w j Hj; [lia|]. cbn [word_bytes]. destruct (Z.eq_dec j 0) as [->|].
  - change (Z.land w 255 = bits_val 8 (fun m => Z.testbit w (8 * 0 + m))). apply bits_val_eq; [lia| |].
    + change 255 with (Z.ones 8). rewrite Z.land_ones by lia. apply Z.mod_pos_bound. lia.
    + intros k Hk. rewrite Z.land_spec. change 255 with (Z.ones 8). rewrite Z.ones_spec_low by lia. now rewrite andb_true_r.
  - replace j with (j - 1 + 1) at 1 by lia. rewrite get_cons by lia. rewrite IHn by lia. apply bits_val_ext. intros k Hk.
    rewrite Z.shiftr_spec by lia. f_equal. lia.
Qed.

Definition state_bytes (A : list Z) : list Z := flat_map (word_bytes 8) A.

Lemma state_bytes_get : forall A i, 0 <= i < 8 * len A -> get (state_bytes A) i = bits_val 8 (fun m => fbit 64 A (8 * i + m)).
Proof.
  induction A as [|a A IH]; intros i Hi; [cbn in Hi; lia|]. cbn [state_bytes flat_map].
  assert (len (word_bytes 8 a) = 8) as L by (unfold len; now rewrite word_bytes_len).
  assert (len (a :: A) = len A + 1) as LA by (unfold len; cbn [length]; lia).
  unfold get. destruct (Z_lt_dec i 8).
  - rewrite znth_app1 by lia. fold (get (word_bytes 8 a) i). rewrite word_bytes_get by lia. apply bits_val_ext. intros k Hk.
    unfold fbit. rewrite Z.div_small, Z.mod_small by lia. reflexivity.
  - rewrite znth_app2 by lia. rewrite L. fold (state_bytes A) (get (state_bytes A) (i - 8)). rewrite IH by lia. apply bits_val_ext. intros k Hk.
    unfold fbit. replace (8 * i + k) with (8 * (i - 8) + k + 1 * 64) by lia. rewrite Z.div_add, Z.mod_add by lia.
    rewrite get_cons by (apply Z.div_pos; lia). reflexivity.
Qed.

Lemma state_bytes_len : forall A, len (state_bytes A) = 8 * len A.
Proof.
  induction A; [reflexivity|]. cbn [state_bytes flat_map]. rewrite len_app. fold (state_bytes A). rewrite IHA.
  unfold len. rewrite word_bytes_len. cbn [length]. lia.
Qed.

(** ** The sponge with rate [8 * r] bytes; [p] holds the suffix and the first padding bit *)

Fixpoint absorb_f (n r : nat) (A m : list Z) : list Z * list Z :=
  match n with
  | O => (A, m)
  | S n => absorb_f n r (keccak_ff (xor_words r A m)) (skipn (8 * r) m)
  end.
Fixpoint squeeze_f (n : nat) (R : Z) (A : list Z) : list Z :=
  match n with O => [] | S n => zfirst R (state_bytes A) ++ squeeze_f n R (keccak_ff A) end.
Definition last_block (R p : Z) (m : list Z) : list Z :=
  let k := R - 1 - len m in
  if k =? 0 then m ++ [Z.lor p 128] else m ++ [p] ++ repeat 0 (Z.to_nat (k - 1)) ++ [128].
Definition sponge_f (r : nat) (p : Z) (M : list Z) (n : Z) : list Z :=
  let R := 8 * Z.of_nat r in
  let '(A, m) := absorb_f (Z.to_nat (len M / R)) r (repeat 0 25) M in
  zfirst n (squeeze_f (Z.to_nat (n / R + 1)) R (keccak_ff (xor_words r A (last_block R p m)))).

Lemma last_block_get : forall R p m i, len m < R -> 0 <= i < R -> get (last_block R p m) i =
  if i <? len m then get m i else Z.lor (if i =? len m then p else 0) (if i =? R - 1 then 128 else 0).
Proof.
  intros R p m i Hm Hi. unfold last_block. pose proof (len_nonneg m). unfold get.
  destruct (i <? len m) eqn:E.
  - destruct (R - 1 - len m =? 0); now rewrite znth_app1 by lia.
  - destruct (R - 1 - len m =? 0) eqn:K; rewrite znth_app2 by lia.
    + assert (i = len m) as -> by lia. rewrite Z.eqb_refl. replace (len m =? R - 1) with true by lia. now rewrite Z.sub_diag.
    + destruct (i =? len m) eqn:E2.
      * replace (i - len m) with 0 by lia. replace (i =? R - 1) with false by lia. now rewrite Z.lor_0_r.
      * rewrite znth_app2 by (cbn; lia). change (len [p]) with 1. rewrite Z.lor_0_l.
        destruct (i =? R - 1) eqn:E3.
        -- rewrite znth_app2; rewrite len_repeat, Z2Nat.id by lia; [|lia]. replace (i - len m - 1 - _) with 0 by lia. reflexivity.
        -- rewrite znth_app1 by (rewrite len_repeat, Z2Nat.id by lia; lia). now rewrite znth_repeat.
Qed.

Lemma lor_byte : forall a b, 0 <= a < 2 ^ 8 -> 0 <= b < 2 ^ 8 -> 0 <= Z.lor a b < 2 ^ 8.
Proof.
  intros a b Ha Hb. split; [apply Z.lor_nonneg; lia|]. destruct (Z.eq_dec (Z.lor a b) 0) as [->|N]; [lia|].
  assert (0 <= Z.lor a b) by (apply Z.lor_nonneg; lia). apply Z.log2_lt_pow2; [lia|]. rewrite Z.log2_lor by lia.
  apply Z.max_lub_lt.
  - destruct (Z.eq_dec a 0) as [->|]; [reflexivity|]. apply Z.log2_lt_pow2; lia.
  - destruct (Z.eq_dec b 0) as [->|]; [reflexivity|]. apply Z.log2_lt_pow2; lia.
Qed.

Lemma last_block_typed : forall R p m, len m < R -> 0 <= p < 2 ^ 8 -> typed U8 m -> typed U8 (last_block R p m).
Proof.
  intros R p m Hm Hp T. unfold last_block.
  assert (typed U8 [128]) by (constructor; [cbn; lia|constructor]).
  destruct (_ =? 0); apply typed_app; auto.
  - constructor; [|constructor]. pose proof (lor_byte p 128 Hp ltac:(lia)). cbn [tmin tmax]. lia.
  - apply typed_app; [constructor; [cbn; lia|constructor]|]. apply typed_app; auto. apply Forall_repeat. cbn. lia.
Qed.

Section Sponge.
  Variable r : nat.
  Variable p : Z.
  Variable sfx : list bool.
  Hypothesis Hr : (0 < r <= 25)%nat.
  Hypothesis Hs : len sfx <= 6.
  Hypothesis Hp : 0 <= p < 2 ^ 8.
  Hypothesis Hb : forall b, 0 <= b < 8 -> Z.testbit p b = znth false (sfx ++ [true]) b.
  Let R := 8 * Z.of_nat r.

  Lemma absorb_fast : forall n k M, typed U8 M -> R * (Z.of_nat k + Z.of_nat n) <= len M ->
    absorb_f n r (absorb k (8 * R) (padded (8 * R) M sfx)) (zskip (R * Z.of_nat k) M) =
    (absorb (k + n) (8 * R) (padded (8 * R) M sfx), zskip (R * (Z.of_nat k + Z.of_nat n)) M).
  Proof.
    induction n; intros k M T Hk; cbn [absorb_f].
    - rewrite Nat.add_0_r. do 2 f_equal. lia.
    - assert (0 < R) by lia. assert (Z.of_nat k + 1 <= len M / R) by (apply Z.div_le_lower_bound; nia).
      rewrite xor_words_bytes; [|apply absorb_arr|now apply Forall_zskip].
      rewrite (xor_bytes_block _ _ _ (padded (8 * R) M sfx) (Z.of_nat k)); [|apply absorb_arr|lia|].
      + replace (64 * Z.of_nat r) with (8 * R) by lia. rewrite <- keccak_fast by apply xor_block_arr.
        change (keccak_f (xor_block (8 * R) (absorb k (8 * R) (padded (8 * R) M sfx)) (padded (8 * R) M sfx) (Z.of_nat k)))
          with (absorb (S k) (8 * R) (padded (8 * R) M sfx)).
        replace (skipn (8 * r) (zskip (R * Z.of_nat k) M)) with (zskip (R * Z.of_nat (S k)) M).
        * rewrite IHn by (auto; lia). f_equal; [f_equal; lia|f_equal; lia].
        * replace (R * Z.of_nat (S k)) with (R * Z.of_nat k + R) by lia. rewrite <- zskip_zskip by lia.
          unfold zskip at 1. f_equal. lia.
      + intros j Hj. rewrite fbit_zskip by nia. rewrite padded_bit by (auto; nia).
        replace (64 * Z.of_nat r * Z.of_nat k + j <? 8 * len M) with true by nia. f_equal. lia.
  Qed.

  Lemma absorbed_fast : forall M A m, typed U8 M ->
    absorb_f (Z.to_nat (len M / R)) r (repeat 0 25) M = (A, m) ->
    absorbed R M sfx = xor_words r A (last_block R p m).
  Proof.
    intros M A m T E. assert (0 < R) by lia. pose proof (len_nonneg M).
    assert (0 <= len M / R) by (apply Z.div_pos; lia).
    pose proof (Z.div_mod (len M) R ltac:(lia)) as DM. pose proof (Z.mod_pos_bound (len M) R ltac:(lia)).
    pose proof (absorb_fast (Z.to_nat (len M / R)) 0 M T ltac:(rewrite Z2Nat.id by lia; nia)) as E2.
    change (absorb 0 (8 * R) (padded (8 * R) M sfx)) with (repeat 0 25) in E2.
    replace (zskip (R * Z.of_nat 0) M) with M in E2 by (replace (R * Z.of_nat 0) with 0 by lia; reflexivity).
    rewrite E in E2. cbn [Nat.add] in E2. rewrite Z2Nat.id in E2 by lia. change (Z.of_nat 0 + len M / R) with (0 + len M / R) in E2. rewrite Z.add_0_l in E2.
    pose proof (f_equal fst E2) as EA. pose proof (f_equal snd E2) as Em. cbn [fst snd] in EA, Em. clear E E2. subst A m.
    set (n := len M / R) in *. set (m := zskip (R * n) M).
    assert (len m = len M mod R) as Lm by (unfold m; rewrite len_zskip; nia).
    assert (typed U8 m) as Tm by now apply Forall_zskip.
    rewrite xor_words_bytes; [|apply absorb_arr|apply last_block_typed; auto; lia].
    unfold absorbed. fold n. rewrite (xor_bytes_block _ _ _ (padded (8 * R) M sfx) n); [|apply absorb_arr|lia|].
    - f_equal. lia.
    - intros j Hj. rewrite padded_bit; [|lia|auto|fold n; nia]. fold n.
      rewrite fbit_split by lia. pose proof (Z.div_mod j 8). pose proof (Z.mod_pos_bound j 8).
      set (i := j / 8) in *. set (b := j mod 8) in *. assert (0 <= i < R) by lia.
      rewrite last_block_get by lia. rewrite Lm. set (l := len M mod R) in *.
      assert ((64 * Z.of_nat r * n + j <? 8 * len M) = (i <? l)) as -> by lia.
      assert ((64 * Z.of_nat r * n + j =? 8 * R * (n + 1) - 1) = ((i =? R - 1) && (b =? 7))) as -> by lia.
      replace (64 * Z.of_nat r * n + j - 8 * len M) with (8 * (i - l) + b) by lia.
      destruct (i <? l) eqn:E1.
      + replace (64 * Z.of_nat r * n + j) with (8 * (R * n + i) + b) by lia. rewrite fbit_at by lia.
        unfold m, get. now rewrite znth_zskip by lia.
      + rewrite Z.lor_spec.
        assert (Z.testbit (if i =? R - 1 then 128 else 0) b = (i =? R - 1) && (b =? 7)) as ->.
        { destruct (i =? R - 1); cbn [andb]; [|apply Z.bits_0]. change 128 with (2 ^ 7). rewrite Z.pow2_bits_eqb by lia. lia. }
        destruct ((i =? R - 1) && (b =? 7)); [apply orb_true_r|]. rewrite orb_false_r.
        destruct (i =? l) eqn:E2.
        * rewrite Hb by lia. f_equal. lia.
        * rewrite Z.bits_0. rewrite znth_default; auto. rewrite len_app. change (len [true]) with 1. lia.
  Qed.

  Lemma squeeze_fast : forall n A, arr U64 25 A ->
    squeeze_f n R A = ztab (R * Z.of_nat n) (outbyte R A).
  Proof.
    induction n; intros A HA; cbn [squeeze_f].
    - replace (R * Z.of_nat 0) with 0 by lia. reflexivity.
    - replace (R * Z.of_nat (S n)) with (R + R * Z.of_nat n) by lia. rewrite ztab_split by lia. f_equal.
      + apply ztab_eq with 0; [apply len_zfirst; rewrite state_bytes_len, (proj1 HA); lia|].
        intros i Hi. rewrite znth_zfirst by lia. fold (get (state_bytes A) i). rewrite state_bytes_get by (rewrite (proj1 HA); lia).
        transitivity (outbyte R A (R * 0 + i)); [now rewrite outbyte_block by lia|f_equal; lia].
      + rewrite <- keccak_fast by auto. rewrite IHn by now apply keccak_f_arr. apply ztab_ext. intros i Hi. unfold outbyte.
        apply bits_val_ext. intros m Hm. replace ((R + i) / R) with (i / R + 1) by (replace (R + i) with (i + 1 * R) by lia; rewrite Z.div_add by lia; lia).
        replace ((R + i) mod R) with (i mod R) by (replace (R + i) with (i + 1 * R) by lia; rewrite Z.mod_add by lia; lia).
        rewrite fiter_S' by (apply Z.div_pos; lia). reflexivity.
  Qed.

  Lemma sponge_fast : forall M n, typed U8 M -> 0 <= n ->
    bytes_of_bits (sponge (8 * R) (bits_of_bytes M ++ sfx) (8 * n)) = sponge_f r p M n.
  Proof.
    intros M n T Hn. rewrite sponge_bytes by (auto; lia). unfold sponge_f. fold R.
    destruct (absorb_f _ _ _ _) as (A, m) eqn:E. rewrite <- (absorbed_fast M A m T E).
    rewrite <- keccak_fast by apply absorbed_arr. rewrite squeeze_fast by apply keccak_f_arr, absorbed_arr.
    assert (0 <= n / R) by (apply Z.div_pos; lia). pose proof (Z.div_mod n R). pose proof (Z.mod_pos_bound n R).
    symmetry. apply ztab_eq with 0; [apply len_zfirst; rewrite len_ztab; nia|].
    intros i Hi. rewrite znth_zfirst by lia. now rewrite znth_ztab by nia.
  Qed.
End Sponge.

Definition bytesb (x : list Z) : bool := forallb (inr U8) x.
Lemma bytesb_ok : forall x, bytesb x = true -> typed U8 x.
Proof. intros x H. apply (arrb_ok U8 (len x)). unfold arrb. now rewrite Z.eqb_refl. Qed.

Definition SHA3_256_f (x : list Z) : list Z := if bytesb x then sponge_f 17 6 x 32 else SHA3_256 x.
Definition SHA3_512_f (x : list Z) : list Z := if bytesb x then sponge_f 9 6 x 64 else SHA3_512 x.
Definition SHAKE128_f (n : Z) (x : list Z) : list Z := if bytesb x && (0 <=? n) then sponge_f 21 31 x n else SHAKE128 n x.

Lemma sha3_256_fast : forall x, SHA3_256 x = SHA3_256_f x.
Proof.
  intros x. unfold SHA3_256_f. destruct (bytesb x) eqn:E; auto. apply (sponge_fast 17 6 [false; true] ltac:(lia) ltac:(cbn; lia) ltac:(lia) ltac:(sfx_tac) x 32); [now apply bytesb_ok|lia].
Qed.
Lemma sha3_512_fast : forall x, SHA3_512 x = SHA3_512_f x.
Proof.
  intros x. unfold SHA3_512_f. destruct (bytesb x) eqn:E; auto. apply (sponge_fast 9 6 [false; true] ltac:(lia) ltac:(cbn; lia) ltac:(lia) ltac:(sfx_tac) x 64); [now apply bytesb_ok|lia].
Qed.
Lemma shake128_fast : forall n x, SHAKE128 n x = SHAKE128_f n x.
Proof.
  intros n x. unfold SHAKE128_f. destruct (bytesb x && (0 <=? n)) eqn:E; auto. apply andb_true_iff in E. destruct E as (E & En).
  apply (sponge_fast 21 31 [true; true; true; true] ltac:(lia) ltac:(cbn; lia) ltac:(lia) ltac:(sfx_tac) x n); [now apply bytesb_ok|lia].
Qed.
