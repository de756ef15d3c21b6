(** Model of Variants/SaberX4_avx2/fips202x4.c and of the permutation it calls, keccak4x/KeccakP-1600-times4-SIMD256.c, with the
    configuration KeccakP1600times4_useAVX2 and full unrolling (SIMD256-config.h).

    A [__m256i] is here the list of its four 64-bit lanes, low lane first.  The state [__m256i s[25]] is accessed
    as vectors by the permutation and as [unsigned long long ss[100]] by the sponge; it is modelled as the
    latter.  Four pointers m0, ..., m3 to separate buffers are a quadruple of arrays; where the callers pass the same buffer
    as input and output, input is read before any output is written, so separate values are the same.  The alignment
    requirements of LOAD256 and STORE256 are not modelled: [s] is a local array of vectors. *)
From Coq Require Import ZArith List.
From Verif Require Import Lib.Arr Lib.CInt Lib.CMon Spec.Bits Model.Params Model.Fips202.
Import ListNotations.
Local Open Scope Z_scope.
Local Open Scope M_scope.

(** ** Four of something *)
Definition quad (A : Type) : Type := (A * A * A * A)%type.
Definition sel {A} (q : quad A) (k : Z) : A :=
  let '(a0, a1, a2, a3) := q in if k =? 0 then a0 else if k =? 1 then a1 else if k =? 2 then a2 else a3.
Definition tab4 {A} (f : Z -> A) : quad A := (f 0, f 1, f 2, f 3).
(** The same statement for the four instances, in this order. *)
Definition for4 {A B} (f : Z -> A -> M B) (q : quad A) : M (quad B) :=
  let '(a0, a1, a2, a3) := q in
  b0 <- f 0 a0 ;; b1 <- f 1 a1 ;; b2 <- f 2 a2 ;; b3 <- f 3 a3 ;; ret (b0, b1, b2, b3).

(** ** Vector instructions on 64-bit lanes *)
Definition v256 : Type := list Z.
(** _mm256_xor_si256, SIMD256.c:54. *)
Definition XOR256 (a b : v256) : v256 := ztab 4 (fun k => Z.lxor (get a k) (get b k)).
(** _mm256_andnot_si256: the complement of the first operand; SIMD256.c:40. *)
Definition ANDnu256 (a b : v256) : v256 := ztab 4 (fun k => Z.land (not64 (get a k)) (get b k)).
(** _mm256_or_si256, _mm256_slli_epi64, _mm256_srli_epi64. *)
Definition or256 (a b : v256) : v256 := ztab 4 (fun k => Z.lor (get a k) (get b k)).
Definition slli64 (a : v256) (n : Z) : v256 := ztab 4 (fun k => wrap U64 (Z.shiftl (get a k) n)).
Definition srli64 (a : v256) (n : Z) : v256 := ztab 4 (fun k => Z.shiftr (get a k) n).
(** SIMD256.c:46. *)
Definition ROL64in256 (a : v256) (o : Z) : v256 := or256 (slli64 a o) (srli64 a (64 - o)).
(** SIMD256.c:42: _mm256_broadcast_sd. *)
Definition CONST256_64 (c : Z) : v256 := ztab 4 (fun _ => c).
(** The 32 bytes of a vector, and back. *)
Definition bytes256 (a : v256) : list Z :=
  ztab 32 (fun b => bits_val 8 (fun m => Z.testbit (get a (b / 8)) (8 * (b mod 8) + m))).
Definition of_bytes256 (b : list Z) : v256 := ztab 4 (fun k => bits_val 64 (fun z => fbit 8 b (64 * k + z))).
(** _mm256_shuffle_epi8: within each 128-bit half, byte [b] of the result is the byte of [a] selected by the low four bits of
    byte [b] of the mask, or 0 if its top bit is set. *)
Definition shuffle_epi8 (a m : v256) : v256 :=
  let A := bytes256 a in
  let K := bytes256 m in
  of_bytes256 (ztab 32 (fun b =>
    if Z.testbit (get K b) 7 then 0 else get A (16 * (b / 16) + Z.land (get K b) 15))).
(** SIMD256.c:49-50. *)
Definition rho8 : v256 := [0x0605040302010007; 0x0E0D0C0B0A09080F; 0x1615141312111017; 0x1E1D1C1B1A19181F].
Definition rho56 : v256 := [0x0007060504030201; 0x080F0E0D0C0B0A09; 0x1017161514131211; 0x181F1E1D1C1B1A19].
(** SIMD256.c:47-48. *)
Definition ROL64in256_8 (a : v256) : v256 := shuffle_epi8 a rho8.
Definition ROL64in256_56 (a : v256) : v256 := shuffle_epi8 a rho56.

(** ** The permutation *)
(** The variables Aba, ..., Asu (or Eba, ..., Esu) and Ca, ..., Cu; SIMD256.c:444-462. *)
Record vlanes := VLanes { v_ba : v256; v_be : v256; v_bi : v256; v_bo : v256; v_bu : v256; v_ga : v256; v_ge : v256; v_gi : v256; v_go : v256; v_gu : v256; v_ka : v256; v_ke : v256; v_ki : v256; v_ko : v256; v_ku : v256; v_ma : v256; v_me : v256; v_mi : v256; v_mo : v256; v_mu : v256; v_sa : v256; v_se : v256; v_si : v256; v_so : v256; v_su : v256 }.
Record vtheta := VTheta { v_Ca : v256; v_Ce : v256; v_Ci : v256; v_Co : v256; v_Cu : v256 }.

(** SIMD256.c:464-469. *)
Definition prepareTheta (A : vlanes) : vtheta :=
  let '(VLanes Aba Abe Abi Abo Abu Aga Age Agi Ago Agu Aka Ake Aki Ako Aku Ama Ame Ami Amo Amu Asa Ase Asi Aso Asu) := A in
  let Ca := XOR256 Aba (XOR256 Aga (XOR256 Aka (XOR256 Ama Asa))) in
  let Ce := XOR256 Abe (XOR256 Age (XOR256 Ake (XOR256 Ame Ase))) in
  let Ci := XOR256 Abi (XOR256 Agi (XOR256 Aki (XOR256 Ami Asi))) in
  let Co := XOR256 Abo (XOR256 Ago (XOR256 Ako (XOR256 Amo Aso))) in
  let Cu := XOR256 Abu (XOR256 Agu (XOR256 Aku (XOR256 Amu Asu))) in
  VTheta Ca Ce Ci Co Cu.

(** SIMD256.c:473-590, statement by statement.  The macro changes the variables [A##..], which are all assigned again in the next
    round before they are used, so only [E##..] and Ca, ..., Cu are returned. *)
Definition thetaRhoPiChiIotaPrepareTheta (rc : Z) (A : vlanes) (C : vtheta) : vlanes * vtheta :=
  let '(VLanes Aba Abe Abi Abo Abu Aga Age Agi Ago Agu Aka Ake Aki Ako Aku Ama Ame Ami Amo Amu Asa Ase Asi Aso Asu) := A in
  let '(VTheta Ca Ce Ci Co Cu) := C in
  let Ce1 := ROL64in256 Ce 1 in
  let Da := XOR256 Cu Ce1 in
  let Ci1 := ROL64in256 Ci 1 in
  let De := XOR256 Ca Ci1 in
  let Co1 := ROL64in256 Co 1 in
  let Di := XOR256 Ce Co1 in
  let Cu1 := ROL64in256 Cu 1 in
  let Do := XOR256 Ci Cu1 in
  let Ca1 := ROL64in256 Ca 1 in
  let Du := XOR256 Co Ca1 in
  let Aba := XOR256 Aba Da in
  let Bba := Aba in
  let Age := XOR256 Age De in
  let Bbe := ROL64in256 Age 44 in
  let Aki := XOR256 Aki Di in
  let Bbi := ROL64in256 Aki 43 in
  let Eba := XOR256 Bba (ANDnu256 Bbe Bbi) in
  let Eba := XOR256 Eba (CONST256_64 rc) in
  let Ca := Eba in
  let Amo := XOR256 Amo Do in
  let Bbo := ROL64in256 Amo 21 in
  let Ebe := XOR256 Bbe (ANDnu256 Bbi Bbo) in
  let Ce := Ebe in
  let Asu := XOR256 Asu Du in
  let Bbu := ROL64in256 Asu 14 in
  let Ebi := XOR256 Bbi (ANDnu256 Bbo Bbu) in
  let Ci := Ebi in
  let Ebo := XOR256 Bbo (ANDnu256 Bbu Bba) in
  let Co := Ebo in
  let Ebu := XOR256 Bbu (ANDnu256 Bba Bbe) in
  let Cu := Ebu in
  let Abo := XOR256 Abo Do in
  let Bga := ROL64in256 Abo 28 in
  let Agu := XOR256 Agu Du in
  let Bge := ROL64in256 Agu 20 in
  let Aka := XOR256 Aka Da in
  let Bgi := ROL64in256 Aka 3 in
  let Ega := XOR256 Bga (ANDnu256 Bge Bgi) in
  let Ca := XOR256 Ca Ega in
  let Ame := XOR256 Ame De in
  let Bgo := ROL64in256 Ame 45 in
  let Ege := XOR256 Bge (ANDnu256 Bgi Bgo) in
  let Ce := XOR256 Ce Ege in
  let Asi := XOR256 Asi Di in
  let Bgu := ROL64in256 Asi 61 in
  let Egi := XOR256 Bgi (ANDnu256 Bgo Bgu) in
  let Ci := XOR256 Ci Egi in
  let Ego := XOR256 Bgo (ANDnu256 Bgu Bga) in
  let Co := XOR256 Co Ego in
  let Egu := XOR256 Bgu (ANDnu256 Bga Bge) in
  let Cu := XOR256 Cu Egu in
  let Abe := XOR256 Abe De in
  let Bka := ROL64in256 Abe 1 in
  let Agi := XOR256 Agi Di in
  let Bke := ROL64in256 Agi 6 in
  let Ako := XOR256 Ako Do in
  let Bki := ROL64in256 Ako 25 in
  let Eka := XOR256 Bka (ANDnu256 Bke Bki) in
  let Ca := XOR256 Ca Eka in
  let Amu := XOR256 Amu Du in
  let Bko := ROL64in256_8 Amu in
  let Eke := XOR256 Bke (ANDnu256 Bki Bko) in
  let Ce := XOR256 Ce Eke in
  let Asa := XOR256 Asa Da in
  let Bku := ROL64in256 Asa 18 in
  let Eki := XOR256 Bki (ANDnu256 Bko Bku) in
  let Ci := XOR256 Ci Eki in
  let Eko := XOR256 Bko (ANDnu256 Bku Bka) in
  let Co := XOR256 Co Eko in
  let Eku := XOR256 Bku (ANDnu256 Bka Bke) in
  let Cu := XOR256 Cu Eku in
  let Abu := XOR256 Abu Du in
  let Bma := ROL64in256 Abu 27 in
  let Aga := XOR256 Aga Da in
  let Bme := ROL64in256 Aga 36 in
  let Ake := XOR256 Ake De in
  let Bmi := ROL64in256 Ake 10 in
  let Ema := XOR256 Bma (ANDnu256 Bme Bmi) in
  let Ca := XOR256 Ca Ema in
  let Ami := XOR256 Ami Di in
  let Bmo := ROL64in256 Ami 15 in
  let Eme := XOR256 Bme (ANDnu256 Bmi Bmo) in
  let Ce := XOR256 Ce Eme in
  let Aso := XOR256 Aso Do in
  let Bmu := ROL64in256_56 Aso in
  let Emi := XOR256 Bmi (ANDnu256 Bmo Bmu) in
  let Ci := XOR256 Ci Emi in
  let Emo := XOR256 Bmo (ANDnu256 Bmu Bma) in
  let Co := XOR256 Co Emo in
  let Emu := XOR256 Bmu (ANDnu256 Bma Bme) in
  let Cu := XOR256 Cu Emu in
  let Abi := XOR256 Abi Di in
  let Bsa := ROL64in256 Abi 62 in
  let Ago := XOR256 Ago Do in
  let Bse := ROL64in256 Ago 55 in
  let Aku := XOR256 Aku Du in
  let Bsi := ROL64in256 Aku 39 in
  let Esa := XOR256 Bsa (ANDnu256 Bse Bsi) in
  let Ca := XOR256 Ca Esa in
  let Ama := XOR256 Ama Da in
  let Bso := ROL64in256 Ama 41 in
  let Ese := XOR256 Bse (ANDnu256 Bsi Bso) in
  let Ce := XOR256 Ce Ese in
  let Ase := XOR256 Ase De in
  let Bsu := ROL64in256 Ase 2 in
  let Esi := XOR256 Bsi (ANDnu256 Bso Bsu) in
  let Ci := XOR256 Ci Esi in
  let Eso := XOR256 Bso (ANDnu256 Bsu Bsa) in
  let Co := XOR256 Co Eso in
  let Esu := XOR256 Bsu (ANDnu256 Bsa Bse) in
  let Cu := XOR256 Cu Esu in
  (VLanes Eba Ebe Ebi Ebo Ebu Ega Ege Egi Ego Egu Eka Eke Eki Eko Eku Ema Eme Emi Emo Emu Esa Ese Esi Eso Esu, VTheta Ca Ce Ci Co Cu).

(** SIMD256.c:594-686. *)
Definition thetaRhoPiChiIota (rc : Z) (A : vlanes) (C : vtheta) : vlanes :=
  let '(VLanes Aba Abe Abi Abo Abu Aga Age Agi Ago Agu Aka Ake Aki Ako Aku Ama Ame Ami Amo Amu Asa Ase Asi Aso Asu) := A in
  let '(VTheta Ca Ce Ci Co Cu) := C in
  let Ce1 := ROL64in256 Ce 1 in
  let Da := XOR256 Cu Ce1 in
  let Ci1 := ROL64in256 Ci 1 in
  let De := XOR256 Ca Ci1 in
  let Co1 := ROL64in256 Co 1 in
  let Di := XOR256 Ce Co1 in
  let Cu1 := ROL64in256 Cu 1 in
  let Do := XOR256 Ci Cu1 in
  let Ca1 := ROL64in256 Ca 1 in
  let Du := XOR256 Co Ca1 in
  let Aba := XOR256 Aba Da in
  let Bba := Aba in
  let Age := XOR256 Age De in
  let Bbe := ROL64in256 Age 44 in
  let Aki := XOR256 Aki Di in
  let Bbi := ROL64in256 Aki 43 in
  let Eba := XOR256 Bba (ANDnu256 Bbe Bbi) in
  let Eba := XOR256 Eba (CONST256_64 rc) in
  let Amo := XOR256 Amo Do in
  let Bbo := ROL64in256 Amo 21 in
  let Ebe := XOR256 Bbe (ANDnu256 Bbi Bbo) in
  let Asu := XOR256 Asu Du in
  let Bbu := ROL64in256 Asu 14 in
  let Ebi := XOR256 Bbi (ANDnu256 Bbo Bbu) in
  let Ebo := XOR256 Bbo (ANDnu256 Bbu Bba) in
  let Ebu := XOR256 Bbu (ANDnu256 Bba Bbe) in
  let Abo := XOR256 Abo Do in
  let Bga := ROL64in256 Abo 28 in
  let Agu := XOR256 Agu Du in
  let Bge := ROL64in256 Agu 20 in
  let Aka := XOR256 Aka Da in
  let Bgi := ROL64in256 Aka 3 in
  let Ega := XOR256 Bga (ANDnu256 Bge Bgi) in
  let Ame := XOR256 Ame De in
  let Bgo := ROL64in256 Ame 45 in
  let Ege := XOR256 Bge (ANDnu256 Bgi Bgo) in
  let Asi := XOR256 Asi Di in
  let Bgu := ROL64in256 Asi 61 in
  let Egi := XOR256 Bgi (ANDnu256 Bgo Bgu) in
  let Ego := XOR256 Bgo (ANDnu256 Bgu Bga) in
  let Egu := XOR256 Bgu (ANDnu256 Bga Bge) in
  let Abe := XOR256 Abe De in
  let Bka := ROL64in256 Abe 1 in
  let Agi := XOR256 Agi Di in
  let Bke := ROL64in256 Agi 6 in
  let Ako := XOR256 Ako Do in
  let Bki := ROL64in256 Ako 25 in
  let Eka := XOR256 Bka (ANDnu256 Bke Bki) in
  let Amu := XOR256 Amu Du in
  let Bko := ROL64in256_8 Amu in
  let Eke := XOR256 Bke (ANDnu256 Bki Bko) in
  let Asa := XOR256 Asa Da in
  let Bku := ROL64in256 Asa 18 in
  let Eki := XOR256 Bki (ANDnu256 Bko Bku) in
  let Eko := XOR256 Bko (ANDnu256 Bku Bka) in
  let Eku := XOR256 Bku (ANDnu256 Bka Bke) in
  let Abu := XOR256 Abu Du in
  let Bma := ROL64in256 Abu 27 in
  let Aga := XOR256 Aga Da in
  let Bme := ROL64in256 Aga 36 in
  let Ake := XOR256 Ake De in
  let Bmi := ROL64in256 Ake 10 in
  let Ema := XOR256 Bma (ANDnu256 Bme Bmi) in
  let Ami := XOR256 Ami Di in
  let Bmo := ROL64in256 Ami 15 in
  let Eme := XOR256 Bme (ANDnu256 Bmi Bmo) in
  let Aso := XOR256 Aso Do in
  let Bmu := ROL64in256_56 Aso in
  let Emi := XOR256 Bmi (ANDnu256 Bmo Bmu) in
  let Emo := XOR256 Bmo (ANDnu256 Bmu Bma) in
  let Emu := XOR256 Bmu (ANDnu256 Bma Bme) in
  let Abi := XOR256 Abi Di in
  let Bsa := ROL64in256 Abi 62 in
  let Ago := XOR256 Ago Do in
  let Bse := ROL64in256 Ago 55 in
  let Aku := XOR256 Aku Du in
  let Bsi := ROL64in256 Aku 39 in
  let Esa := XOR256 Bsa (ANDnu256 Bse Bsi) in
  let Ama := XOR256 Ama Da in
  let Bso := ROL64in256 Ama 41 in
  let Ese := XOR256 Bse (ANDnu256 Bsi Bso) in
  let Ase := XOR256 Ase De in
  let Bsu := ROL64in256 Ase 2 in
  let Esi := XOR256 Bsi (ANDnu256 Bso Bsu) in
  let Eso := XOR256 Bso (ANDnu256 Bsu Bsa) in
  let Esu := XOR256 Bsu (ANDnu256 Bsa Bse) in
  VLanes Eba Ebe Ebi Ebo Ebu Ega Ege Egi Ego Egu Eka Eke Eki Eko Eku Ema Eme Emi Emo Emu Esa Ese Esi Eso Esu.

(** SIMD256.c:688-712. *)
Definition KeccakF1600RoundConstants : list Z := [0x0000000000000001; 0x0000000000008082; 0x800000000000808a; 0x8000000080008000; 0x000000000000808b; 0x0000000080000001; 0x8000000080008081; 0x8000000000008009; 0x000000000000008a; 0x0000000000000088; 0x0000000080008009; 0x000000008000000a; 0x000000008000808b; 0x800000000000008b; 0x8000000000008089; 0x8000000000008003; 0x8000000000008002; 0x8000000000000080; 0x000000000000800a; 0x800000008000000a; 0x8000000080008081; 0x8000000000008080; 0x0000000080000001; 0x8000000080008008].

(** LOAD256 and STORE256 of vector [i] of the state; SIMD256.c:43, 51. *)
Definition load256 (ss : list Z) (i : Z) : M v256 :=
  a <- rd ss (4 * i) ;; b <- rd ss (4 * i + 1) ;; c <- rd ss (4 * i + 2) ;; d <- rd ss (4 * i + 3) ;; ret [a; b; c; d].
Definition store256 (ss : list Z) (i : Z) (v : v256) : M (list Z) :=
  ss <- wr ss (4 * i) (get v 0) ;; ss <- wr ss (4 * i + 1) (get v 1) ;;
  ss <- wr ss (4 * i + 2) (get v 2) ;; wr ss (4 * i + 3) (get v 3).

(** SIMD256.c:802-813 with copyFromState (714-739), copyToState (741-766) and rounds24 of keccak4x/KeccakP-1600-unrolling.macros:17-42,
    which is unrolled: rounds 0 to 22 with the variables A and E changing places, then round 23. *)
Definition KeccakP1600times4_PermuteAll_24rounds (ss : list Z) : M (list Z) :=
  Aba <- load256 ss 0 ;;
  Abe <- load256 ss 1 ;;
  Abi <- load256 ss 2 ;;
  Abo <- load256 ss 3 ;;
  Abu <- load256 ss 4 ;;
  Aga <- load256 ss 5 ;;
  Age <- load256 ss 6 ;;
  Agi <- load256 ss 7 ;;
  Ago <- load256 ss 8 ;;
  Agu <- load256 ss 9 ;;
  Aka <- load256 ss 10 ;;
  Ake <- load256 ss 11 ;;
  Aki <- load256 ss 12 ;;
  Ako <- load256 ss 13 ;;
  Aku <- load256 ss 14 ;;
  Ama <- load256 ss 15 ;;
  Ame <- load256 ss 16 ;;
  Ami <- load256 ss 17 ;;
  Amo <- load256 ss 18 ;;
  Amu <- load256 ss 19 ;;
  Asa <- load256 ss 20 ;;
  Ase <- load256 ss 21 ;;
  Asi <- load256 ss 22 ;;
  Aso <- load256 ss 23 ;;
  Asu <- load256 ss 24 ;;
  let A := VLanes Aba Abe Abi Abo Abu Aga Age Agi Ago Agu Aka Ake Aki Ako Aku Ama Ame Ami Amo Amu Asa Ase Asi Aso Asu in
  '(A, C) <- for_ 0 23 (fun i '(A, C) =>
    rc <- rd KeccakF1600RoundConstants i ;;
    ret (thetaRhoPiChiIotaPrepareTheta rc A C)) (A, prepareTheta A) ;;
  rc <- rd KeccakF1600RoundConstants 23 ;;
  let '(VLanes Aba Abe Abi Abo Abu Aga Age Agi Ago Agu Aka Ake Aki Ako Aku Ama Ame Ami Amo Amu Asa Ase Asi Aso Asu) := thetaRhoPiChiIota rc A C in
  ss <- store256 ss 0 Aba ;;
  ss <- store256 ss 1 Abe ;;
  ss <- store256 ss 2 Abi ;;
  ss <- store256 ss 3 Abo ;;
  ss <- store256 ss 4 Abu ;;
  ss <- store256 ss 5 Aga ;;
  ss <- store256 ss 6 Age ;;
  ss <- store256 ss 7 Agi ;;
  ss <- store256 ss 8 Ago ;;
  ss <- store256 ss 9 Agu ;;
  ss <- store256 ss 10 Aka ;;
  ss <- store256 ss 11 Ake ;;
  ss <- store256 ss 12 Aki ;;
  ss <- store256 ss 13 Ako ;;
  ss <- store256 ss 14 Aku ;;
  ss <- store256 ss 15 Ama ;;
  ss <- store256 ss 16 Ame ;;
  ss <- store256 ss 17 Ami ;;
  ss <- store256 ss 18 Amo ;;
  ss <- store256 ss 19 Amu ;;
  ss <- store256 ss 20 Asa ;;
  ss <- store256 ss 21 Ase ;;
  ss <- store256 ss 22 Asi ;;
  ss <- store256 ss 23 Aso ;;
  ss <- store256 ss 24 Asu ;;
  ret ss.

(** ** fips202x4.c.  [load64] (10-18) and [store64] (20-28) are as in fips202.c. *)

(** fips202x4.c:52-58, 94-100. *)
Definition xor_lanes4x (ss : list Z) (r : Z) (m : quad (list Z)) : M (list Z) :=
  for_ 0 (r / 8) (fun i ss =>
    let one k ss := p <- ptr (sel m k) (8 * i) ;; w <- load64 p ;; st U64 ss (4 * i + k) (Idx U64 ss (4 * i + k) .^ w)%C in
    ss <- one 0 ss ;; ss <- one 1 ss ;; ss <- one 2 ss ;; one 3 ss) ss.

(** fips202x4.c:34-101. *)
Definition keccak_absorb4x (junk : mem) (ss : list Z) (r : Z) (m : quad (list Z)) (mlen p : Z) : M (list Z) :=
  let t := tab4 (fun k => uninit8 junk k 200) in
  '(ss, m, mlen) <- while_ (S (Z.to_nat (mlen / r))) (fun '(_, _, mlen) => r <=? mlen) (fun '(ss, m, mlen) =>
    ss <- xor_lanes4x ss r m ;;
    ss <- KeccakP1600times4_PermuteAll_24rounds ss ;;
    m <- for4 (fun _ m => ptr m r) m ;;
    ret (ss, m, mlen - r)) (ss, m, mlen) ;;
  t <- for_ 0 r (fun i => for4 (fun _ t => st U8 t i #0)) t ;;
  t <- for_ 0 mlen (fun i => for4 (fun k t => st U8 t i (Idx U8 (sel m k) i))) t ;;
  t <- for4 (fun _ t => st U8 t mlen (Var U8 p)) t ;;
  t <- for4 (fun _ t => st U8 t (r - 1) (Idx U8 t (r - 1) .| #128)%C) t ;;
  xor_lanes4x ss r t.

(** fips202x4.c:103-131.  As in [keccak_squeezeblocks], [b] counts the blocks and the pointers are [hk + r * b]. *)
Definition keccak_squeezeblocks4x (h : quad (list Z)) (nblocks : Z) (ss : list Z) (r : Z) : M (quad (list Z) * list Z) :=
  for_ 0 nblocks (fun b '(h, ss) =>
    ss <- KeccakP1600times4_PermuteAll_24rounds ss ;;
    h <- for_ 0 (r / 8) (fun i => for4 (fun k h =>
      w <- rd ss (4 * i + k) ;;
      at_ h (r * b) (fun h => at_ h (8 * i) (fun p => store64 p (Var U64 w))))) h ;;
    ret (h, ss)) (h, ss).

(** fips202.h:7. *)
Definition SHAKE256_RATE : Z := 136.

(** [for (i = 0; i < 25; i++) s[i] = _mm256_xor_si256(s[i], s[i]);] *)
Definition zero_state4x (ss : list Z) : M (list Z) :=
  for_ 0 25 (fun i ss => v <- load256 ss i ;; store256 ss i (XOR256 v v)) ss.

(** The text shared by shake128x4 and shake256x4: the rate, and the length of the arrays t0, ..., t3. *)
Definition shakex4 (rate tlen : Z) (junk : mem) (out : quad (list Z)) (outlen : Z) (inp : quad (list Z)) (inlen : Z) : M (quad (list Z)) :=
  let ss := uninit junk 0 100 in
  let t := tab4 (fun k => uninit junk (1 + k) tlen) in
  ss <- zero_state4x ss ;;
  ss <- keccak_absorb4x (sub junk 5) ss rate inp inlen 0x1F ;;
  '(out, ss) <- keccak_squeezeblocks4x out (outlen / rate) ss rate ;;
  let off := outlen / rate * rate in
  ite (negb (outlen mod rate =? 0))
    ('(t, ss) <- keccak_squeezeblocks4x t 1 ss rate ;;
     for_ 0 (outlen mod rate) (fun i => for4 (fun k out => at_ out off (fun out => st U8 out i (Idx U8 (sel t k) i)))) out)
    (for4 (fun _ out => at_ out off ret) out).

(** fips202x4.c:145-187.  The arrays t0, ..., t3 have [SHAKE256_RATE] bytes in the code; their length [tlen] is a parameter, see
    [shake128x4_code]. *)
Definition shake128x4 (tlen : Z) := shakex4 SHAKE128_RATE tlen.
Definition shake128x4_code := shake128x4 SHAKE256_RATE.
(** fips202x4.c:190-232. *)
Definition shake256x4 := shakex4 SHAKE256_RATE SHAKE256_RATE.

(** fips202x4.c:234-270. *)
Definition sha3_256x4 (junk : mem) (out inp : quad (list Z)) (inlen : Z) : M (quad (list Z)) :=
  let ss := uninit junk 0 100 in
  let t := tab4 (fun k => uninit junk (1 + k) SHA3_256_RATE) in
  ss <- zero_state4x ss ;;
  ss <- keccak_absorb4x (sub junk 5) ss SHA3_256_RATE inp inlen 0x06 ;;
  '(t, ss) <- keccak_squeezeblocks4x t 1 ss SHA3_256_RATE ;;
  for_ 0 32 (fun i => for4 (fun k out => st U8 out i (Idx U8 (sel t k) i))) out.

(** fips202x4.c:273-309. *)
Definition sha3_512x4 (junk : mem) (out inp : quad (list Z)) (inlen : Z) : M (quad (list Z)) :=
  let ss := uninit junk 0 100 in
  let t := tab4 (fun k => uninit junk (1 + k) SHA3_512_RATE) in
  ss <- zero_state4x ss ;;
  ss <- keccak_absorb4x (sub junk 5) ss SHA3_512_RATE inp inlen 0x06 ;;
  '(t, ss) <- keccak_squeezeblocks4x t 1 ss SHA3_512_RATE ;;
  for_ 0 64 (fun i => for4 (fun k out => st U8 out i (Idx U8 (sel t k) i))) out.
