(** Model of fips202.c (the uSaber-90s/ref copy is identical). *)
From Coq Require Import ZArith List.
From Verif Require Import Lib.Arr Lib.CInt Lib.CMon Model.Params.
Import ListNotations.
Local Open Scope Z_scope.
Local Open Scope M_scope.

(** Inside the permutation every operand is a [uint64_t], shift counts are constants in 1..63 and
    no operation can be undefined; expressions are written directly as 64-bit operations. *)
Definition not64 (a : Z) : Z := wrap U64 (Z.lnot a).
(** fips202.c:13. *)
Definition ROL (a n : Z) : Z := Z.lxor (wrap U64 (Z.shiftl a n)) (Z.shiftr a (64 - n)).

(** fips202.c:15-24. *)
Definition load64 (x : list Z) : M cexp :=
  r <- asg U64 #0 ;;
  for_ 0 8 (fun i r => asg U64 (r .| (Cast U64 (Idx U8 x i) .<< (#8 * Bnd U64 0 7 i)))%C) r.

(** fips202.c:26-35. *)
Definition store64 (x : list Z) (u : cexp) : M (list Z) :=
  '(x, u) <- for_ 0 8 (fun i '(x, u) =>
    x <- st U8 x i u ;;
    u <- asg U64 (u .>> #8)%C ;;
    ret (x, u)) (x, u) ;;
  ret x.

(** fips202.c:37-62. *)
Definition KeccakF_RoundConstants : list Z := [0x0000000000000001; 0x0000000000008082; 0x800000000000808a; 0x8000000080008000; 0x000000000000808b; 0x0000000080000001; 0x8000000080008081; 0x8000000000008009; 0x000000000000008a; 0x0000000000000088; 0x0000000080008009; 0x000000008000000a; 0x000000008000808b; 0x800000000000008b; 0x8000000000008089; 0x8000000000008003; 0x8000000000008002; 0x8000000000000080; 0x000000000000800a; 0x800000008000000a; 0x8000000080008081; 0x8000000000008080; 0x0000000080000001; 0x8000000080008008].

(** The variables Aba, ..., Asu (or Eba, ..., Esu). *)
Record lanes := Lanes { l_ba : Z; l_be : Z; l_bi : Z; l_bo : Z; l_bu : Z; l_ga : Z; l_ge : Z; l_gi : Z; l_go : Z; l_gu : Z; l_ka : Z; l_ke : Z; l_ki : Z; l_ko : Z; l_ku : Z; l_ma : Z; l_me : Z; l_mi : Z; l_mo : Z; l_mu : Z; l_sa : Z; l_se : Z; l_si : Z; l_so : Z; l_su : Z }.

(** fips202.c:110-204, statement by statement; 205-299 is the same text with A and E exchanged. *)
Definition half_round (rc : Z) (A : lanes) : lanes :=
  let '(Lanes Aba Abe Abi Abo Abu Aga Age Agi Ago Agu Aka Ake Aki Ako Aku Ama Ame Ami Amo Amu Asa Ase Asi Aso Asu) := A in
  let BCa := Z.lxor (Z.lxor (Z.lxor (Z.lxor Aba Aga) Aka) Ama) Asa in
  let BCe := Z.lxor (Z.lxor (Z.lxor (Z.lxor Abe Age) Ake) Ame) Ase in
  let BCi := Z.lxor (Z.lxor (Z.lxor (Z.lxor Abi Agi) Aki) Ami) Asi in
  let BCo := Z.lxor (Z.lxor (Z.lxor (Z.lxor Abo Ago) Ako) Amo) Aso in
  let BCu := Z.lxor (Z.lxor (Z.lxor (Z.lxor Abu Agu) Aku) Amu) Asu in
  let Da := Z.lxor BCu (ROL BCe 1) in
  let De := Z.lxor BCa (ROL BCi 1) in
  let Di := Z.lxor BCe (ROL BCo 1) in
  let Do := Z.lxor BCi (ROL BCu 1) in
  let Du := Z.lxor BCo (ROL BCa 1) in
  let Aba := Z.lxor Aba Da in
  let BCa := Aba in
  let Age := Z.lxor Age De in
  let BCe := ROL Age 44 in
  let Aki := Z.lxor Aki Di in
  let BCi := ROL Aki 43 in
  let Amo := Z.lxor Amo Do in
  let BCo := ROL Amo 21 in
  let Asu := Z.lxor Asu Du in
  let BCu := ROL Asu 14 in
  let Eba := Z.lxor BCa (Z.land (not64 BCe) BCi) in
  let Eba := Z.lxor Eba rc in
  let Ebe := Z.lxor BCe (Z.land (not64 BCi) BCo) in
  let Ebi := Z.lxor BCi (Z.land (not64 BCo) BCu) in
  let Ebo := Z.lxor BCo (Z.land (not64 BCu) BCa) in
  let Ebu := Z.lxor BCu (Z.land (not64 BCa) BCe) in
  let Abo := Z.lxor Abo Do in
  let BCa := ROL Abo 28 in
  let Agu := Z.lxor Agu Du in
  let BCe := ROL Agu 20 in
  let Aka := Z.lxor Aka Da in
  let BCi := ROL Aka 3 in
  let Ame := Z.lxor Ame De in
  let BCo := ROL Ame 45 in
  let Asi := Z.lxor Asi Di in
  let BCu := ROL Asi 61 in
  let Ega := Z.lxor BCa (Z.land (not64 BCe) BCi) in
  let Ege := Z.lxor BCe (Z.land (not64 BCi) BCo) in
  let Egi := Z.lxor BCi (Z.land (not64 BCo) BCu) in
  let Ego := Z.lxor BCo (Z.land (not64 BCu) BCa) in
  let Egu := Z.lxor BCu (Z.land (not64 BCa) BCe) in
  let Abe := Z.lxor Abe De in
  let BCa := ROL Abe 1 in
  let Agi := Z.lxor Agi Di in
  let BCe := ROL Agi 6 in
  let Ako := Z.lxor Ako Do in
  let BCi := ROL Ako 25 in
  let Amu := Z.lxor Amu Du in
  let BCo := ROL Amu 8 in
  let Asa := Z.lxor Asa Da in
  let BCu := ROL Asa 18 in
  let Eka := Z.lxor BCa (Z.land (not64 BCe) BCi) in
  let Eke := Z.lxor BCe (Z.land (not64 BCi) BCo) in
  let Eki := Z.lxor BCi (Z.land (not64 BCo) BCu) in
  let Eko := Z.lxor BCo (Z.land (not64 BCu) BCa) in
  let Eku := Z.lxor BCu (Z.land (not64 BCa) BCe) in
  let Abu := Z.lxor Abu Du in
  let BCa := ROL Abu 27 in
  let Aga := Z.lxor Aga Da in
  let BCe := ROL Aga 36 in
  let Ake := Z.lxor Ake De in
  let BCi := ROL Ake 10 in
  let Ami := Z.lxor Ami Di in
  let BCo := ROL Ami 15 in
  let Aso := Z.lxor Aso Do in
  let BCu := ROL Aso 56 in
  let Ema := Z.lxor BCa (Z.land (not64 BCe) BCi) in
  let Eme := Z.lxor BCe (Z.land (not64 BCi) BCo) in
  let Emi := Z.lxor BCi (Z.land (not64 BCo) BCu) in
  let Emo := Z.lxor BCo (Z.land (not64 BCu) BCa) in
  let Emu := Z.lxor BCu (Z.land (not64 BCa) BCe) in
  let Abi := Z.lxor Abi Di in
  let BCa := ROL Abi 62 in
  let Ago := Z.lxor Ago Do in
  let BCe := ROL Ago 55 in
  let Aku := Z.lxor Aku Du in
  let BCi := ROL Aku 39 in
  let Ama := Z.lxor Ama Da in
  let BCo := ROL Ama 41 in
  let Ase := Z.lxor Ase De in
  let BCu := ROL Ase 2 in
  let Esa := Z.lxor BCa (Z.land (not64 BCe) BCi) in
  let Ese := Z.lxor BCe (Z.land (not64 BCi) BCo) in
  let Esi := Z.lxor BCi (Z.land (not64 BCo) BCu) in
  let Eso := Z.lxor BCo (Z.land (not64 BCu) BCa) in
  let Esu := Z.lxor BCu (Z.land (not64 BCa) BCe) in
  Lanes Eba Ebe Ebi Ebo Ebu Ega Ege Egi Ego Egu Eka Eke Eki Eko Eku Ema Eme Emi Emo Emu Esa Ese Esi Eso Esu.

(** fips202.c:64-329.  The loop counter [round] takes the values 0, 2, ..., 22; here [k = round / 2]. *)
Definition KeccakF1600_StatePermute (s : list Z) : M (list Z) :=
  Aba <- rd s 0 ;;
  Abe <- rd s 1 ;;
  Abi <- rd s 2 ;;
  Abo <- rd s 3 ;;
  Abu <- rd s 4 ;;
  Aga <- rd s 5 ;;
  Age <- rd s 6 ;;
  Agi <- rd s 7 ;;
  Ago <- rd s 8 ;;
  Agu <- rd s 9 ;;
  Aka <- rd s 10 ;;
  Ake <- rd s 11 ;;
  Aki <- rd s 12 ;;
  Ako <- rd s 13 ;;
  Aku <- rd s 14 ;;
  Ama <- rd s 15 ;;
  Ame <- rd s 16 ;;
  Ami <- rd s 17 ;;
  Amo <- rd s 18 ;;
  Amu <- rd s 19 ;;
  Asa <- rd s 20 ;;
  Ase <- rd s 21 ;;
  Asi <- rd s 22 ;;
  Aso <- rd s 23 ;;
  Asu <- rd s 24 ;;
  A <- for_ 0 12 (fun k A =>
    c <- rd KeccakF_RoundConstants (2 * k) ;;
    let E := half_round c A in
    c <- rd KeccakF_RoundConstants (2 * k + 1) ;;
    ret (half_round c E)) (Lanes Aba Abe Abi Abo Abu Aga Age Agi Ago Agu Aka Ake Aki Ako Aku Ama Ame Ami Amo Amu Asa Ase Asi Aso Asu) ;;
  let '(Lanes Aba Abe Abi Abo Abu Aga Age Agi Ago Agu Aka Ake Aki Ako Aku Ama Ame Ami Amo Amu Asa Ase Asi Aso Asu) := A in
  s <- wr s 0 Aba ;;
  s <- wr s 1 Abe ;;
  s <- wr s 2 Abi ;;
  s <- wr s 3 Abo ;;
  s <- wr s 4 Abu ;;
  s <- wr s 5 Aga ;;
  s <- wr s 6 Age ;;
  s <- wr s 7 Agi ;;
  s <- wr s 8 Ago ;;
  s <- wr s 9 Agu ;;
  s <- wr s 10 Aka ;;
  s <- wr s 11 Ake ;;
  s <- wr s 12 Aki ;;
  s <- wr s 13 Ako ;;
  s <- wr s 14 Aku ;;
  s <- wr s 15 Ama ;;
  s <- wr s 16 Ame ;;
  s <- wr s 17 Ami ;;
  s <- wr s 18 Amo ;;
  s <- wr s 19 Amu ;;
  s <- wr s 20 Asa ;;
  s <- wr s 21 Ase ;;
  s <- wr s 22 Asi ;;
  s <- wr s 23 Aso ;;
  s <- wr s 24 Asu ;;
  ret s.

(** [for (i = 0; i < r / 8; ++i) s[i] ^= load64(m + 8 * i);]  fips202.c:344-345 and 358-359. *)
Definition xor_lanes (s : list Z) (r : Z) (m : list Z) : M (list Z) :=
  for_ 0 (r / 8) (fun i s =>
    p <- ptr m (8 * i) ;;
    w <- load64 p ;;
    st U64 s i (Idx U64 s i .^ w)%C) s.

(** fips202.c:334-360.  The state is not cleared here but by the callers. *)
Definition keccak_absorb (junk : mem) (s : list Z) (r : Z) (m : list Z) (mlen p : Z) : M (list Z) :=
  let t := uninit8 junk 0 200 in
  '(s, m, mlen) <- while_ (S (Z.to_nat (mlen / r))) (fun '(_, _, mlen) => r <=? mlen) (fun '(s, m, mlen) =>
    s <- xor_lanes s r m ;;
    s <- KeccakF1600_StatePermute s ;;
    m <- ptr m r ;;
    ret (s, m, mlen - r)) (s, m, mlen) ;;
  t <- for_ 0 r (fun i t => st U8 t i #0) t ;;
  t <- for_ 0 mlen (fun i t => st U8 t i (Idx U8 m i)) t ;;
  t <- st U8 t mlen (Var U8 p) ;;
  t <- st U8 t (r - 1) (Idx U8 t (r - 1) .| #128)%C ;;
  xor_lanes s r t.

(** fips202.c:362-377.  The [while] loop advances [h] by [r] and decrements [nblocks]; here [k] counts the
    blocks and the pointer is [h + r * k]. *)
Definition keccak_squeezeblocks (h : list Z) (nblocks : Z) (s : list Z) (r : Z) : M (list Z * list Z) :=
  for_ 0 nblocks (fun k '(h, s) =>
    s <- KeccakF1600_StatePermute s ;;
    h <- at_ h (r * k) (fun h =>
      for_ 0 (r / 8) (fun i h =>
        w <- rd s i ;;
        at_ h (8 * i) (fun p => store64 p (Var U64 w))) h) ;;
    ret (h, s)) (h, s).

(** fips202.h:6-9. *)
Definition SHAKE128_RATE : Z := 168.
Definition SHA3_256_RATE : Z := 136.
Definition SHA3_512_RATE : Z := 72.

(** [for (i = 0; i < 25; ++i) s[i] = 0;] *)
Definition zero_state (s : list Z) : M (list Z) := for_ 0 25 (fun i s => st U64 s i #0) s.

(** fips202.c:386-412. *)
Definition shake128 (junk : mem) (output : list Z) (outlen : Z) (input : list Z) (inlen : Z) : M (list Z) :=
  let s := uninit junk 0 25 in
  let t := uninit junk 1 SHAKE128_RATE in
  let nblocks := outlen / SHAKE128_RATE in
  s <- zero_state s ;;
  s <- keccak_absorb (sub junk 2) s SHAKE128_RATE input inlen 0x1F ;;
  '(output, s) <- keccak_squeezeblocks output nblocks s SHAKE128_RATE ;;
  let outlen := outlen - nblocks * SHAKE128_RATE in
  at_ output (nblocks * SHAKE128_RATE) (fun output =>
    ite (negb (outlen =? 0))
      ('(t, s) <- keccak_squeezeblocks t 1 s SHAKE128_RATE ;;
       for_ 0 outlen (fun i output => st U8 output i (Idx U8 t i)) output)
      (ret output)).

(** fips202.c:467-484. *)
Definition sha3_256 (junk : mem) (output input : list Z) (inlen : Z) : M (list Z) :=
  let s := uninit junk 0 25 in
  let t := uninit junk 1 SHA3_256_RATE in
  s <- zero_state s ;;
  s <- keccak_absorb (sub junk 2) s SHA3_256_RATE input inlen 0x06 ;;
  '(t, s) <- keccak_squeezeblocks t 1 s SHA3_256_RATE ;;
  for_ 0 32 (fun i output => st U8 output i (Idx U8 t i)) output.

(** fips202.c:486-503. *)
Definition sha3_512 (junk : mem) (output input : list Z) (inlen : Z) : M (list Z) :=
  let s := uninit junk 0 25 in
  let t := uninit junk 1 SHA3_512_RATE in
  s <- zero_state s ;;
  s <- keccak_absorb (sub junk 2) s SHA3_512_RATE input inlen 0x06 ;;
  '(t, s) <- keccak_squeezeblocks t 1 s SHA3_512_RATE ;;
  for_ 0 64 (fun i output => st U8 output i (Idx U8 t i)) output.
