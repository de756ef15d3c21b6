(** Model of the C part of the Cortex-M4 implementations,
    Cortex-M_Implementation_KEM/Cortex-M4/src/{lightsaber,saber,firesaber}/{m4-tc4kara,m4-striding}.
    kem.c, SABER_indcpa.c, poly.c, pack_unpack.c, cbd.c and verify.c are the same text in the six directories, and
    SABER_params.h differs in SABER_L only; line numbers below are the same in all of them.

    Outside the repository, hence given by their specification: the Keccak functions of pqm4.  A shake128incctx
    after [shake128_inc_finalize] is the pair of the absorbed bytes and the number of bytes squeezed so far.
    The polynomial multipliers ([poly_mul], [poly_mul_acc]; poly_mul.c and assembly) are arguments; they return
    the new contents of their second and third arguments.

    Pointers that move through an array ([in += 4; out += 5;]) appear as indices.  A store through an [int16_t]
    pointer into a [uint16_t] array is a store of the value converted to [int16_t] first. *)
From Coq Require Import ZArith List.
From Verif Require Import Lib.Arr Lib.CInt Lib.CMon Model.Params Model.Cbd Model.Verify Model.Indcpa.
Import ListNotations.
Local Open Scope Z_scope.
Local Open Scope M_scope.

(** ** pack_unpack.c *)

(** pack_unpack.c:10-21. *)
Definition m4_POLmsg2BS (bytes data : list Z) : M (list Z) :=
  for_ 0 SABER_KEYBYTES (fun j bytes =>
    byte <- asg U8 #0 ;;
    byte <- for_ 0 8 (fun i byte =>
      asg U8 (byte .| ((Idx U16 data (j * 8 + i) .& #0x01) .<< Bnd U64 0 7 i))%C) byte ;;
    st U8 bytes j byte) bytes.

(** pack_unpack.c:24-38. *)
Definition m4_POLp2BS (bytes data : list Z) : M (list Z) :=
  for_ 0 (256 / 4) (fun j bytes =>
    let D k := Idx U16 data (4 * j + k) in
    sts U8 bytes (5 * j) [
      Cast U8 (D 0);
      Cast U8 (((D 0 .>> #8) .& #0x03) .| (D 1 .<< #2));
      Cast U8 (((D 1 .>> #6) .& #0x0f) .| (D 2 .<< #4));
      Cast U8 (((D 2 .>> #4) .& #0x3f) .| (D 3 .<< #6));
      Cast U8 (D 3 .>> #2)
    ]%C) bytes.

(** The statements [fail |= out[0] ^ e0; fail |= out[1] ^ e1; ...] with [out = bytes + i]. *)
Fixpoint cmps (fail : cexp) (bytes : list Z) (i : Z) (es : list cexp) : M cexp :=
  match es with
  | [] => ret fail
  | e :: es => fail <- asg U32 (fail .| (Idx U8 bytes i .^ e))%C ;; cmps fail bytes (i + 1) es
  end.

(** pack_unpack.c:41-58. *)
Definition m4_POLp2BS_cmp (bytes data : list Z) : M cexp :=
  fail <- asg U32 #0 ;;
  for_ 0 (256 / 4) (fun j fail =>
    let D k := Idx U16 data (4 * j + k) in
    cmps fail bytes (5 * j) [
      Cast U8 (D 0);
      Cast U8 (((D 0 .>> #8) .& #0x03) .| (D 1 .<< #2));
      Cast U8 (((D 1 .>> #6) .& #0x0f) .| (D 2 .<< #4));
      Cast U8 (((D 2 .>> #4) .& #0x3f) .| (D 3 .<< #6));
      Cast U8 (D 3 .>> #2)
    ]%C) fail.

(** pack_unpack.c:61-83. *)
Definition m4_POLq2BS (bytes data : list Z) : M (list Z) :=
  for_ 0 (256 / 8) (fun j bytes =>
    let D k := Idx U16 data (8 * j + k) in
    sts U8 bytes (13 * j) [
      Cast U8 (D 0);
      Cast U8 (((D 0 .>> #8) .& #0x1f) .| (D 1 .<< #5));
      Cast U8 (D 1 .>> #3);
      Cast U8 (((D 1 .>> #11) .& #0x03) .| (D 2 .<< #2));
      Cast U8 (((D 2 .>> #6) .& #0x7f) .| (D 3 .<< #7));
      Cast U8 (D 3 .>> #1);
      Cast U8 (((D 3 .>> #9) .& #0x0f) .| (D 4 .<< #4));
      Cast U8 (D 4 .>> #4);
      Cast U8 (((D 4 .>> #12) .& #0x01) .| (D 5 .<< #1));
      Cast U8 (((D 5 .>> #7) .& #0x3f) .| (D 6 .<< #6));
      Cast U8 (D 6 .>> #2);
      Cast U8 (((D 6 .>> #10) .& #0x07) .| (D 7 .<< #3));
      Cast U8 (D 7 .>> #5)
    ]%C) bytes.

(** pack_unpack.c:92-99. *)
Definition m4_POLT2BS_3 (bytes data : list Z) : M (list Z) :=
  for_ 0 (256 / 8) (fun j bytes =>
    let D k := Idx U16 data (8 * j + k) in
    sts U8 bytes (3 * j) [
      Cast U8 ((D 0 .& #0x7) .| ((D 1 .& #0x7) .<< #3) .| (D 2 .<< #6));
      Cast U8 (((D 2 .>> #2) .& #0x01) .| ((D 3 .& #0x7) .<< #1) .| ((D 4 .& #0x7) .<< #4) .| (D 5 .<< #7));
      Cast U8 (((D 5 .>> #1) .& #0x03) .| ((D 6 .& #0x7) .<< #2) .| (D 7 .<< #5))
    ]%C) bytes.
(** pack_unpack.c:100-105. *)
Definition m4_POLT2BS_4 (bytes data : list Z) : M (list Z) :=
  for_ 0 (256 / 2) (fun j bytes =>
    let D k := Idx U16 data (2 * j + k) in
    sts U8 bytes (1 * j) [ Cast U8 ((D 0 .& #0x0f) .| (D 1 .<< #4)) ]%C) bytes.
(** pack_unpack.c:106-113. *)
Definition m4_POLT2BS_6 (bytes data : list Z) : M (list Z) :=
  for_ 0 (256 / 4) (fun j bytes =>
    let D k := Idx U16 data (4 * j + k) in
    sts U8 bytes (3 * j) [
      Cast U8 ((D 0 .& #0x3f) .| (D 1 .<< #6));
      Cast U8 (((D 1 .>> #2) .& #0x0f) .| (D 2 .<< #4));
      Cast U8 (((D 2 .>> #4) .& #0x03) .| (D 3 .<< #2))
    ]%C) bytes.
(** pack_unpack.c:87-117. *)
Definition m4_POLT2BS (l : level) : list Z -> list Z -> M (list Z) :=
  match l with Light => m4_POLT2BS_3 | Saber => m4_POLT2BS_4 | Fire => m4_POLT2BS_6 end.

(** pack_unpack.c:120-152, lines 126-133. *)
Definition m4_POLT2BS_cmp_3 (bytes data : list Z) : M cexp :=
  fail <- asg U32 #0 ;;
  for_ 0 (256 / 8) (fun j fail =>
    let D k := Idx U16 data (8 * j + k) in
    cmps fail bytes (3 * j) [
      Cast U8 ((D 0 .& #0x7) .| ((D 1 .& #0x7) .<< #3) .| (D 2 .<< #6));
      Cast U8 (((D 2 .>> #2) .& #0x01) .| ((D 3 .& #0x7) .<< #1) .| ((D 4 .& #0x7) .<< #4) .| (D 5 .<< #7));
      Cast U8 (((D 5 .>> #1) .& #0x03) .| ((D 6 .& #0x7) .<< #2) .| (D 7 .<< #5))
    ]%C) fail.
(** pack_unpack.c:134-139. *)
Definition m4_POLT2BS_cmp_4 (bytes data : list Z) : M cexp :=
  fail <- asg U32 #0 ;;
  for_ 0 (256 / 2) (fun j fail =>
    let D k := Idx U16 data (2 * j + k) in
    cmps fail bytes (1 * j) [ Cast U8 ((D 0 .& #0x0f) .| (D 1 .<< #4)) ]%C) fail.
(** pack_unpack.c:140-147. *)
Definition m4_POLT2BS_cmp_6 (bytes data : list Z) : M cexp :=
  fail <- asg U32 #0 ;;
  for_ 0 (256 / 4) (fun j fail =>
    let D k := Idx U16 data (4 * j + k) in
    cmps fail bytes (3 * j) [
      Cast U8 ((D 0 .& #0x3f) .| (D 1 .<< #6));
      Cast U8 (((D 1 .>> #2) .& #0x0f) .| (D 2 .<< #4));
      Cast U8 (((D 2 .>> #4) .& #0x03) .| (D 3 .<< #2))
    ]%C) fail.
(** pack_unpack.c:120-152. *)
Definition m4_POLT2BS_cmp (l : level) : list Z -> list Z -> M cexp :=
  match l with Light => m4_POLT2BS_cmp_3 | Saber => m4_POLT2BS_cmp_4 | Fire => m4_POLT2BS_cmp_6 end.

(** pack_unpack.c:159-169. *)
Definition m4_BS2POLmsg (bytes data : list Z) : M (list Z) :=
  for_ 0 SABER_KEYBYTES (fun j data =>
    byte <- asg U8 (Idx U8 bytes j) ;;
    for_ 0 8 (fun i data => st U16 data (j * 8 + i) (byte .>> Bnd U64 0 7 i)%C) data) data.

(** pack_unpack.c:172-186. *)
Definition m4_BS2POLp (bytes data : list Z) : M (list Z) :=
  for_ 0 (256 / 4) (fun j data =>
    let B k := Idx U8 bytes (5 * j + k) in
    sts U16 data (4 * j) [
      Cast I16 (B 0 .| (B 1 .<< #8));
      Cast I16 ((B 1 .>> #2) .| (B 2 .<< #6));
      Cast I16 ((B 2 .>> #4) .| (B 3 .<< #4));
      Cast I16 ((B 3 .>> #6) .| (B 4 .<< #2))
    ]%C) data.

(** pack_unpack.c:189-207. *)
Definition m4_BS2POLq (bytes data : list Z) : M (list Z) :=
  for_ 0 (256 / 8) (fun j data =>
    let B k := Idx U8 bytes (13 * j + k) in
    sts U16 data (8 * j) [
      Cast I16 (B 0 .| (B 1 .<< #8));
      Cast I16 ((B 1 .>> #5) .| (B 2 .<< #3) .| (B 3 .<< #11));
      Cast I16 ((B 3 .>> #2) .| (B 4 .<< #6));
      Cast I16 ((B 4 .>> #7) .| (B 5 .<< #1) .| (B 6 .<< #9));
      Cast I16 ((B 6 .>> #4) .| (B 7 .<< #4) .| (B 8 .<< #12));
      Cast I16 ((B 8 .>> #1) .| (B 9 .<< #7));
      Cast I16 ((B 9 .>> #6) .| (B 10 .<< #2) .| (B 11 .<< #10));
      Cast I16 ((B 11 .>> #3) .| (B 12 .<< #5))
    ]%C) data.

(** pack_unpack.c:215-227. *)
Definition m4_BS2POLT_3 (bytes data : list Z) : M (list Z) :=
  for_ 0 (256 / 8) (fun j data =>
    let B k := Idx U8 bytes (3 * j + k) in
    sts U16 data (8 * j) [
      B 0;
      B 0 .>> #3;
      (B 0 .>> #6) .| (B 1 .<< #2);
      B 1 .>> #1;
      B 1 .>> #4;
      (B 1 .>> #7) .| (B 2 .<< #1);
      B 2 .>> #2;
      B 2 .>> #5
    ]%C) data.
(** pack_unpack.c:228-234. *)
Definition m4_BS2POLT_4 (bytes data : list Z) : M (list Z) :=
  for_ 0 (256 / 2) (fun j data =>
    let B k := Idx U8 bytes (1 * j + k) in
    sts U16 data (2 * j) [ B 0; B 0 .>> #4 ]%C) data.
(** pack_unpack.c:235-243. *)
Definition m4_BS2POLT_6 (bytes data : list Z) : M (list Z) :=
  for_ 0 (256 / 4) (fun j data =>
    let B k := Idx U8 bytes (3 * j + k) in
    sts U16 data (4 * j) [
      B 0;
      (B 0 .>> #6) .| (B 1 .<< #2);
      (B 1 .>> #4) .| (B 2 .<< #4);
      B 2 .>> #2
    ]%C) data.
(** pack_unpack.c:210-247. *)
Definition m4_BS2POLT (l : level) : list Z -> list Z -> M (list Z) :=
  match l with Light => m4_BS2POLT_3 | Saber => m4_BS2POLT_4 | Fire => m4_BS2POLT_6 end.

(** pack_unpack.c:316-326 (SABER_COMPRESS_SECRETKEY). *)
Definition m4_POLmu2BS_4 (bytes data : list Z) : M (list Z) :=
  for_ 0 (256 / 2) (fun j bytes =>
    let D k := Idx U16 data (2 * j + k) in
    sts U8 bytes (1 * j) [ Cast U8 ((D 0 .& #0x0f) .| (D 1 .<< #4)) ]%C) bytes.

(** Assignment to the field [signed int bits: 4] and the value read back; as for the other conversions to signed
    types, the value is reduced modulo 2^4. *)
Definition asg4 (e : cexp) : M cexp := v <- ev e ;; ret (Bnd I32 (-8) 7 ((v + 8) mod 16 - 8)).

(** pack_unpack.c:329-347 (SABER_COMPRESS_SECRETKEY). *)
Definition m4_BS2POLmu_4 (bytes data : list Z) : M (list Z) :=
  for_ 0 (256 / 2) (fun j data =>
    s0 <- asg4 (Idx U8 bytes j .& #0xf)%C ;;
    s1 <- asg4 ((Idx U8 bytes j .>> #4) .& #0xf)%C ;;
    sts U16 data (2 * j) [ Cast I16 (Cast I16 s0); Cast I16 (Cast I16 s1) ]) data.

(** ** cbd.c *)

(** cbd.c:14-22 (SABER_MU other than 10); [bytes] is 3 or 4.  Lines 4-12, for SABER_MU = 10, are the function of the
    reference implementation. *)
Definition m4_load32 (x : list Z) (bytes : Z) : M cexp :=
  r <- asg U32 (Idx U8 x 0) ;;
  for_ 1 bytes (fun i r =>
    asg U32 (r .| (Cast U32 (Idx U8 x i) .<< (#8 * Bnd I32 1 3 i)))%C) r.

(** cbd.c:28-52 (SABER_MU == 6). *)
Definition m4_cbd_6 (s buf : list Z) : M (list Z) :=
  for_ 0 (256 / 4) (fun i s =>
    p <- ptr buf (3 * i) ;;
    l <- m4_load32 p 3 ;;
    t <- asg U32 l ;;
    d <- asg U32 #0 ;;
    d <- for_ 0 3 (fun j d => asg U32 (d + ((t .>> Bnd I32 0 2 j) .& #0x249249))%C) d ;;
    a0 <- asg U32 (d .& #0x7)%C ;;
    b0 <- asg U32 ((d .>> #3) .& #0x7)%C ;;
    a1 <- asg U32 ((d .>> #6) .& #0x7)%C ;;
    b1 <- asg U32 ((d .>> #9) .& #0x7)%C ;;
    a2 <- asg U32 ((d .>> #12) .& #0x7)%C ;;
    b2 <- asg U32 ((d .>> #15) .& #0x7)%C ;;
    a3 <- asg U32 ((d .>> #18) .& #0x7)%C ;;
    b3 <- asg U32 (d .>> #21)%C ;;
    sts U16 s (4 * i) [Cast U16 (a0 - b0)%C; Cast U16 (a1 - b1)%C; Cast U16 (a2 - b2)%C; Cast U16 (a3 - b3)%C]) s.

(** cbd.c:53-77 (SABER_MU == 8). *)
Definition m4_cbd_8 (s buf : list Z) : M (list Z) :=
  for_ 0 (256 / 4) (fun i s =>
    p <- ptr buf (4 * i) ;;
    l <- m4_load32 p 4 ;;
    t <- asg U32 l ;;
    d <- asg U32 #0 ;;
    d <- for_ 0 4 (fun j d => asg U32 (d + ((t .>> Bnd I32 0 3 j) .& #0x11111111))%C) d ;;
    a0 <- asg U32 (d .& #0xf)%C ;;
    b0 <- asg U32 ((d .>> #4) .& #0xf)%C ;;
    a1 <- asg U32 ((d .>> #8) .& #0xf)%C ;;
    b1 <- asg U32 ((d .>> #12) .& #0xf)%C ;;
    a2 <- asg U32 ((d .>> #16) .& #0xf)%C ;;
    b2 <- asg U32 ((d .>> #20) .& #0xf)%C ;;
    a3 <- asg U32 ((d .>> #24) .& #0xf)%C ;;
    b3 <- asg U32 (d .>> #28)%C ;;
    sts U16 s (4 * i) [Cast U16 (a0 - b0)%C; Cast U16 (a1 - b1)%C; Cast U16 (a2 - b2)%C; Cast U16 (a3 - b3)%C]) s.

(** cbd.c:26-106.  Lines 78-102 (SABER_MU == 10) are the text of the reference implementation; on the Cortex-M4 the
    constant 0x0842108421UL, too large for a 32-bit unsigned long, has type unsigned long long, as modelled there. *)
Definition m4_cbd (l : level) : list Z -> list Z -> M (list Z) :=
  match l with Light => cbd_10 | Saber => m4_cbd_8 | Fire => m4_cbd_6 end.

Section M4.
  Variable l : level.
  (** SABER_COMPRESS_SECRETKEY (SABER_params.h; not defined in the repository). *)
  Variable cs : bool.
  (** The output stream of shake128, by length and input. *)
  Variable X : Z -> list Z -> list Z.
  (** sha3_256, sha3_512, shake128. *)
  Variable hash_h hash_g : mem -> list Z -> list Z -> Z -> M (list Z).
  Variable prf : mem -> list Z -> Z -> list Z -> Z -> M (list Z).
  Variable poly_mul poly_mul_acc : mem -> list Z -> list Z -> list Z -> M (list Z * list Z).
  Context {S : Type}.
  Variable rb : S -> Z -> list Z * S.

  (** SABER_params.h: the constants are those of the reference implementation, except the following. *)
  Notation c := (Cfg l false false).
  Definition SABER_POLYSECRETBYTES : Z := if cs then 4 * SABER_N / 8 else SABER_POLYBYTES c.
  Definition M4_INDCPA_SECRETKEYBYTES : Z := SABER_L c * SABER_POLYSECRETBYTES.
  Definition M4_SECRETKEYBYTES : Z :=
    M4_INDCPA_SECRETKEYBYTES + SABER_INDCPA_PUBLICKEYBYTES c + SABER_HASHBYTES + SABER_KEYBYTES.

  (** pack_unpack.h: POLmu2BS and BS2POLmu are POLq2BS and BS2POLq unless SABER_COMPRESS_SECRETKEY is defined. *)
  Definition m4_POLmu2BS (bytes data : list Z) : M (list Z) :=
    if cs then m4_POLmu2BS_4 bytes data else m4_POLq2BS bytes data.
  Definition m4_BS2POLmu (bytes data : list Z) : M (list Z) :=
    if cs then m4_BS2POLmu_4 bytes data else m4_BS2POLq bytes data.
  (** pack_unpack.c:279-287, 349-355. *)
  Definition m4_POLVECmu2BS (bytes : list Z) (data : list (list Z)) : M (list Z) :=
    for_ 0 (SABER_L c) (fun i bytes =>
      d <- row data i ;;
      at_ bytes (i * SABER_POLYSECRETBYTES) (fun p => m4_POLmu2BS p d)) bytes.

  (** ** poly.c *)

  Definition shakectx : Type := list Z * Z.
  (** poly.c:11-18. *)
  Definition shake128_absorb_seed (seed : list Z) : M shakectx :=
    if SABER_SEEDBYTES <=? len seed then ret (zfirst SABER_SEEDBYTES seed, 0) else undef.
  (** shake128_inc_squeeze(out, n, ctx). *)
  Definition inc_squeeze (out : list Z) (n : Z) (ctx : shakectx) : M (list Z * shakectx) :=
    if n <=? len out
    then ret (zskip (snd ctx) (X (snd ctx + n) (fst ctx)) ++ zskip n out, (fst ctx, snd ctx + n))
    else undef.

  (** poly.c:21-27. *)
  Definition shake128_squeeze_poly (junk : mem) (poly : list Z) (ctx : shakectx) : M (list Z * shakectx) :=
    let shake_out := uninit junk 0 (SABER_POLYBYTES c) in
    '(shake_out, ctx) <- inc_squeeze shake_out (SABER_POLYBYTES c) ctx ;;
    poly <- m4_BS2POLq shake_out poly ;;
    ret (poly, ctx).

  (** poly.c:30-36. *)
  Definition shake128_squeeze_secret (junk : mem) (s : list Z) (ctx : shakectx) : M (list Z * shakectx) :=
    let shake_out := uninit junk 0 (SABER_POLYCOINBYTES c) in
    '(shake_out, ctx) <- inc_squeeze shake_out (SABER_POLYCOINBYTES c) ctx ;;
    s <- m4_cbd l s shake_out ;;
    ret (s, ctx).

  (** poly.c:38-52.  Returns the new contents of [s] and [seed_s]. *)
  Definition m4_GenSecret (junk : mem) (s : list (list Z)) (seed_s : list Z) (keypair : bool) : M (list (list Z) * list Z) :=
    let shake_out := uninit junk 0 (SABER_L c * SABER_POLYCOINBYTES c) in
    shake_out <- prf (sub junk 1) shake_out (SABER_L c * SABER_POLYCOINBYTES c) seed_s SABER_NOISE_SEEDBYTES ;;
    s <- for_ 0 (SABER_L c) (fun i s =>
      si <- row s i ;;
      p <- ptr shake_out (i * SABER_POLYCOINBYTES c) ;;
      si <- m4_cbd l si p ;;
      setrow s i si) s ;;
    ite keypair (sk <- m4_POLVECmu2BS seed_s s ;; ret (s, sk)) (ret (s, seed_s)).

  (** poly.c:91-93 and 130-132: the rounding loop. *)
  Definition m4_round (b : list Z) : M (list Z) :=
    for_ 0 256 (fun j b =>
      CMon.st U16 b j ((Idx U16 b j + Cst I32 (h1 c)) .>> Cst I32 (SABER_EQ c - SABER_EP))%C) b.

  (** poly.c:55-98.  Returns the new contents of [pk] and [sk]. *)
  Definition MatrixVectorMulKeyPair (junk : mem) (pk sk : list Z) : M (list Z * list Z) :=
    let A := uninit junk 0 256 in
    let s := uninit junk 1 256 in
    let b := uninit2 junk 2 (SABER_L c) in
    seed_A <- ptr pk (SABER_POLYVECCOMPRESSEDBYTES c) ;;
    ctx_A <- shake128_absorb_seed seed_A ;;
    ctx_s <- shake128_absorb_seed sk ;;
    '(ctx_A, ctx_s, sk, A, s, b) <- for_ 0 (SABER_L c) (fun i '(ctx_A, ctx_s, sk, A, s, b) =>
      '(s, ctx_s) <- shake128_squeeze_secret (sub (sub junk 3) i) s ctx_s ;;
      sk <- at_ sk (i * SABER_POLYSECRETBYTES) (fun p => m4_POLmu2BS p s) ;;
      '(ctx_A, A, b) <- for_ 0 (SABER_L c) (fun j '(ctx_A, A, b) =>
        '(A, ctx_A) <- shake128_squeeze_poly (sub (sub (sub junk 4) i) j) A ctx_A ;;
        bj <- row b j ;;
        '(A, bj) <- ite (i =? 0)
          (poly_mul (sub (sub (sub junk 5) i) j) s A bj)
          (poly_mul_acc (sub (sub (sub junk 5) i) j) s A bj) ;;
        b <- setrow b j bj ;;
        ret (ctx_A, A, b)) (ctx_A, A, b) ;;
      ret (ctx_A, ctx_s, sk, A, s, b)) (ctx_A, ctx_s, sk, A, s, b) ;;
    '(pk, b) <- for_ 0 (SABER_L c) (fun i '(pk, b) =>
      bi <- row b i ;;
      bi <- m4_round bi ;;
      b <- setrow b i bi ;;
      pk <- at_ pk (i * SABER_POLYCOMPRESSEDBYTES) (fun p => m4_POLp2BS p bi) ;;
      ret (pk, b)) (pk, b) ;;
    ret (pk, sk).

  (** poly.c:108-143.  Returns the new contents of [ct0] and the return value. *)
  Definition MatrixVectorMulEnc (junk : mem) (ct0 seed_A : list Z) (sp : list (list Z)) (compare : bool) : M (list Z * cexp) :=
    fail <- asg U32 #0 ;;
    let A := uninit junk 0 256 in
    let bp := uninit junk 1 256 in
    ctx_A <- shake128_absorb_seed seed_A ;;
    '(ctx_A, A, bp, ct0, fail) <- for_ 0 (SABER_L c) (fun i '(ctx_A, A, bp, ct0, fail) =>
      '(ctx_A, A, bp) <- for_ 0 (SABER_L c) (fun j '(ctx_A, A, bp) =>
        '(A, ctx_A) <- shake128_squeeze_poly (sub (sub (sub junk 2) i) j) A ctx_A ;;
        sj <- row sp j ;;
        '(A, bp) <- ite (j =? 0)
          (poly_mul (sub (sub (sub junk 3) i) j) sj A bp)
          (poly_mul_acc (sub (sub (sub junk 3) i) j) sj A bp) ;;
        ret (ctx_A, A, bp)) (ctx_A, A, bp) ;;
      bp <- m4_round bp ;;
      '(ct0, fail) <- ite compare
        (p <- ptr ct0 (i * SABER_POLYCOMPRESSEDBYTES) ;;
         f <- m4_POLp2BS_cmp p bp ;;
         fail <- asg U32 (fail .| f)%C ;;
         ret (ct0, fail))
        (ct0 <- at_ ct0 (i * SABER_POLYCOMPRESSEDBYTES) (fun p => m4_POLp2BS p bp) ;;
         ret (ct0, fail)) ;;
      ret (ctx_A, A, bp, ct0, fail)) (ctx_A, A, bp, ct0, fail) ;;
    ret (ct0, fail).

  (** poly.c:152-184.  Returns the new contents of [ct1] and the return value.  [mp] is the array [b]. *)
  Definition InnerProdEnc (junk : mem) (ct1 pk : list Z) (sp : list (list Z)) (m : list Z) (compare : bool) : M (list Z * cexp) :=
    fail <- asg U32 #0 ;;
    let b := uninit junk 0 256 in
    let vp := uninit junk 1 256 in
    '(b, vp) <- for_ 0 (SABER_L c) (fun j '(b, vp) =>
      p <- ptr pk (j * SABER_POLYCOMPRESSEDBYTES) ;;
      b <- m4_BS2POLp p b ;;
      sj <- row sp j ;;
      ite (j =? 0)
        (poly_mul (sub (sub junk 2) j) sj b vp)
        (poly_mul_acc (sub (sub junk 2) j) sj b vp)) (b, vp) ;;
    mp <- m4_BS2POLmsg m b ;;
    vp <- for_ 0 256 (fun j vp =>
      CMon.st U16 vp j
        ((Idx U16 vp j - (Idx U16 mp j .<< Cst I32 (SABER_EP - 1)) + Cst I32 (h1 c)) .>> Cst I32 (SABER_EP - SABER_ET c))%C) vp ;;
    ite compare
      (f <- m4_POLT2BS_cmp l ct1 vp ;;
       fail <- asg U32 (fail .| f)%C ;;
       ret (ct1, fail))
      (ct1 <- m4_POLT2BS l ct1 vp ;;
       ret (ct1, fail)).

  (** poly.c:187-215.  Returns the new contents of [m].  [cm] is the array [bp]. *)
  Definition InnerProdDec (junk : mem) (m ciphertext sk : list Z) : M (list Z) :=
    let v := uninit junk 0 256 in
    let s := uninit junk 1 256 in
    let bp := uninit junk 2 256 in
    '(v, s, bp) <- for_ 0 (SABER_L c) (fun i '(v, s, bp) =>
      p <- ptr sk (i * SABER_POLYSECRETBYTES) ;;
      s <- m4_BS2POLmu p s ;;
      p <- ptr ciphertext (i * SABER_POLYCOMPRESSEDBYTES) ;;
      bp <- m4_BS2POLp p bp ;;
      '(bp, v) <- ite (i =? 0)
        (poly_mul (sub (sub junk 3) i) s bp v)
        (poly_mul_acc (sub (sub junk 3) i) s bp v) ;;
      ret (v, s, bp)) (v, s, bp) ;;
    p <- ptr ciphertext (SABER_POLYVECCOMPRESSEDBYTES c) ;;
    cm <- m4_BS2POLT l p bp ;;
    v <- for_ 0 256 (fun i v =>
      CMon.st U16 v i
        ((Idx U16 v i + Cst I32 (h2 c) - (Idx U16 cm i .<< Cst I32 (SABER_EP - SABER_ET c))) .>> Cst I32 (SABER_EP - 1))%C) v ;;
    m4_POLmsg2BS m v.

  (** ** SABER_indcpa.c *)

  (** SABER_indcpa.c:8-18.  Returns [pk], [sk] and the state of the random source. *)
  Definition m4_indcpa_keypair (junk : mem) (st : S) (pk sk : list Z) : M (list Z * list Z * S) :=
    let off := SABER_POLYVECCOMPRESSEDBYTES c in
    p <- ptr pk off ;;
    '(p, st) <- randombytes rb st p SABER_SEEDBYTES ;;
    pk <- at_ pk off (fun _ => ret p) ;;
    '(sk, st) <- randombytes rb st sk SABER_NOISE_SEEDBYTES ;;
    pk <- at_ pk off (fun p => prf (sub junk 0) p SABER_SEEDBYTES p SABER_SEEDBYTES) ;;
    '(pk, sk) <- MatrixVectorMulKeyPair (sub junk 1) pk sk ;;
    ret (pk, sk, st).

  (** SABER_indcpa.c:21-31.  Returns [ciphertext]. *)
  Definition m4_indcpa_enc (junk : mem) (m seed_sp pk ciphertext : list Z) : M (list Z) :=
    let sp := uninit2 junk 0 (SABER_L c) in
    seed_A <- ptr pk (SABER_POLYVECCOMPRESSEDBYTES c) ;;
    '(sp, _) <- m4_GenSecret (sub junk 1) sp seed_sp false ;;
    '(ciphertext, _) <- MatrixVectorMulEnc (sub junk 2) ciphertext seed_A sp false ;;
    at_ ciphertext (SABER_POLYVECCOMPRESSEDBYTES c) (fun ct1 =>
      '(ct1, _) <- InnerProdEnc (sub junk 3) ct1 pk sp m false ;; ret ct1).

  (** SABER_indcpa.c:33-48.  Returns the return value. *)
  Definition m4_indcpa_enc_cmp (junk : mem) (m seed_sp pk ciphertext : list Z) : M cexp :=
    let sp := uninit2 junk 0 (SABER_L c) in
    fail <- asg U32 #0 ;;
    seed_A <- ptr pk (SABER_POLYVECCOMPRESSEDBYTES c) ;;
    ct1 <- ptr ciphertext (SABER_POLYVECCOMPRESSEDBYTES c) ;;
    '(sp, _) <- m4_GenSecret (sub junk 1) sp seed_sp false ;;
    '(_, f) <- MatrixVectorMulEnc (sub junk 2) ciphertext seed_A sp true ;;
    fail <- asg U32 (fail .| f)%C ;;
    '(_, f) <- InnerProdEnc (sub junk 3) ct1 pk sp m true ;;
    fail <- asg U32 (fail .| f)%C ;;
    fail <- asg U32 (Not fail + #1)%C ;;
    fail <- asg U32 (fail .>> #31)%C ;;
    asg U8 (Cast U8 fail).

  (** SABER_indcpa.c:50-53.  Returns [m]. *)
  Definition m4_indcpa_dec (junk : mem) (sk ciphertext m : list Z) : M (list Z) :=
    InnerProdDec (sub junk 0) m ciphertext sk.

  (** ** kem.c *)

  (** kem.c:8-19.  Returns [pk], [sk], the state of the random source, and the return value. *)
  Definition m4_kem_keypair (junk : mem) (st : S) (pk sk : list Z) : M (list Z * list Z * S * Z) :=
    '(pk, sk, st) <- m4_indcpa_keypair (sub junk 0) st pk sk ;;
    sk <- at_ sk M4_INDCPA_SECRETKEYBYTES (fun p => memcpy p pk (SABER_INDCPA_PUBLICKEYBYTES c)) ;;
    sk <- at_ sk (M4_SECRETKEYBYTES - 64) (fun p => hash_h (sub junk 1) p pk (SABER_INDCPA_PUBLICKEYBYTES c)) ;;
    p <- ptr sk (M4_SECRETKEYBYTES - SABER_KEYBYTES) ;;
    '(p, st) <- randombytes rb st p SABER_KEYBYTES ;;
    sk <- at_ sk (M4_SECRETKEYBYTES - SABER_KEYBYTES) (fun _ => ret p) ;;
    ret (pk, sk, st, 0).

  (** kem.c:21-41.  Returns [c], [k], the state of the random source, and the return value. *)
  Definition m4_kem_enc (junk : mem) (st : S) (ct k pk : list Z) : M (list Z * list Z * S * Z) :=
    let kr := uninit junk 0 64 in
    let buf := uninit8 junk 1 64 in
    '(buf, st) <- randombytes rb st buf 32 ;;
    buf <- hash_h (sub junk 2) buf buf 32 ;;
    buf <- at_ buf 32 (fun p => hash_h (sub junk 3) p pk (SABER_INDCPA_PUBLICKEYBYTES c)) ;;
    kr <- hash_g (sub junk 4) kr buf 64 ;;
    r <- ptr kr 32 ;;
    ct <- m4_indcpa_enc (sub junk 5) buf r pk ct ;;
    kr <- at_ kr 32 (fun p => hash_h (sub junk 6) p ct (SABER_BYTES_CCA_DEC c)) ;;
    k <- hash_h (sub junk 7) k kr 64 ;;
    ret (ct, k, st, 0).

  (** kem.c:43-66.  Returns [k] and the return value. *)
  Definition m4_kem_dec (junk : mem) (k ct sk : list Z) : M (list Z * Z) :=
    let buf := uninit junk 0 64 in
    let kr := uninit junk 1 64 in
    pk <- ptr sk M4_INDCPA_SECRETKEYBYTES ;;
    hpk <- ptr sk (M4_SECRETKEYBYTES - 64) ;;
    buf <- m4_indcpa_dec (sub junk 2) sk ct buf ;;
    buf <- at_ buf 32 (fun p => memcpy p hpk 32) ;;
    kr <- hash_g (sub junk 3) kr buf 64 ;;
    r <- ptr kr 32 ;;
    fail <- m4_indcpa_enc_cmp (sub junk 4) buf r pk ct ;;
    kr <- at_ kr 32 (fun p => hash_h (sub junk 5) p ct (SABER_BYTES_CCA_DEC c)) ;;
    z <- ptr sk (M4_SECRETKEYBYTES - SABER_KEYBYTES) ;;
    kr <- cmov kr z SABER_KEYBYTES fail ;;
    k <- hash_h (sub junk 6) k kr 64 ;;
    ret (k, 0).
End M4.
