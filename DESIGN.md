# Design of the formal model of SABER

The code is KULeuven-COSIC/SABER, read in `/repo`. Properties are in
`properties.jsonl` (ids C01, C02, ...), their status in `MANIFEST.json`.
All Coq files are in `rocq/theories` and use Coq 8.16.1 with its standard library only.

## 1. How the C code is modelled

* **Language layer** (`Lib/CInt.v`, `Lib/CMon.v`). C integer expressions are a small typed syntax
  (`cexp`): typed leaves (`uint8_t`, `uint16_t`, `uint32_t`, `uint64_t`, `int`, ...),
  array reads, casts, and the operators the code uses. The evaluator applies the C integer
  promotions and usual arithmetic conversions. Signed overflow, an out of range shift, and a
  left shift of a negative value are a distinct outcome `UB`. Narrowing conversions wrap and
  `>>` of a negative `int` is arithmetic (implementation-defined in C; this is what gcc and clang do).
* **Statements** are a monad over total Gallina functions. An array is a `list Z`.
  A read or write outside the array is the outcome `UB`. A store converts the value to the
  element type. The monad also records a leakage trace: the index of every array access made by
  the modelled code and the outcome of every data dependent branch. It is used for the constant-time properties.
* **Uninitialised memory**. Output buffers enter a function with arbitrary contents, and
  uninitialised local arrays are filled from an arbitrary function `junk` which every theorem
  quantifies over. So a result can be proved only if it does not depend on it.
* **Random source**. `randombytes` is an arbitrary state machine `S -> n -> bytes * S` in the
  KEM theorems; the DRBG of `rng.c` is a separate model and one instance of it.
* **Levels**. The `#if` parameters are a record computed from the level (Light, Saber, Fire) and two flags
  (uniform secrets, 90s primitives), so one theorem covers every compile-time configuration.

Every definition of the model has a comment with the file and lines it models.

## 2. Specifications (independent of the model)

* `Spec/Bits.v`: bit streams of byte strings, little-endian fields of any width.
* `Spec/Ring.v`: negacyclic product in Z[x]/(x^256+1) as a sum over index pairs.
* `Spec/Keccak.v`: FIPS 202 at bit level (theta, rho, pi, chi, iota, rc LFSR, pad10*1, sponge).
* `Spec/Sha2.v`, `Spec/Aes.v`: FIPS 180-4, FIPS 197.
* `Spec/Saber.v`: Saber PKE and KEM over the ring, from the Saber specification.
* `Spec/Sym.v`: the hash functions and the generator of each family (SHA3/SHAKE128 or SHA-2/AES-256-CTR).
* `Spec/Kat.v`: what a known-answer test derives from its seed.
* `Spec/M0Spec.v`: encapsulation without the rounding constant, and the random bytes, of the Cortex-M0 code.
* `Spec/Drbg.v`: CTR_DRBG without derivation function (SP 800-90A), abstract block cipher.

## 3. Plan for each property

| id | what is modelled, how proved |
|----|------------------------------|
| C01 | `crypto_kem_keypair/enc/dec` refine `Spec/Saber`; agreement from C02 at spec level, noise window as hypothesis |
| C02 | arithmetic modulo 8192/1024/2^ET on one coefficient plus ring distributivity; concrete counterexample by computation |
| C03, C04 | case analysis on the byte comparison after refinement (C07) |
| C05-C07 | refinement of the whole call chain, function by function, each with a weakest-precondition lemma |
| C08 | the same lemmas: outcome is never `UB`; loops are bounded by structure |
| C09 | refinement result does not mention `junk` or the old buffers |
| C10 | random source as arbitrary state machine with logged requests |
| C11, C12 | relational logic on the leakage trace: two runs with inputs of equal length have equal traces |
| C13, C14 | loop invariants for the schoolbook/Karatsuba layer, exact integer identity for Toom-Cook, then division by 2, 4, 8 modulo 2^16; counterexample for 14 bits by computation |
| C15 | induction over rows and columns on top of C13 |
| C16-C18 | bit-level lemma per packing function, round trips follow from the bit-stream specification |
| C19, C20 | bit-level lemma for the SWAR population count; exact counting over one field, and bijection of the remaining bits |
| C21 | corollary of C18 and C23 |
| C22-C24 | lane-wise code equals the bit-level permutation; induction over absorbed and squeezed blocks |
| C25, C26 | induction on the length |
| C27, C28 | abstract block cipher; counter as 128-bit integer; induction over requests |
| C29, C30 | invariant linking context to position in the stream; induction over requests |
| C31 | corollary of C05 |
| C32 | as C19 for the two-bit sampler |
| C33 | unrolled/rolled compression function equals FIPS 180-4, induction over blocks |
| C34 | bit-sliced AES equals FIPS 197 by bitwise reasoning |
| C35-C37 | statements are expected to be false of the code; the refutation is proved on the model |
| C39 | every body of the loop keeps `i + xlen`; at `i = 2^31 - 16` the addition overflows |
| C41 | arithmetic modulo 1024 on one coefficient after the packing lemmas |
| C42 | computation of a counterexample |
| C40 | composition of C05-C07 with C27 |
| C38 | model the C part of the M4 code, prove that it refines `Spec/Saber` for any multiplier and Keccak functions that meet the contracts of `Spec/M4Spec.v`; C44 and C45 discharge the contract of the multipliers |
| C43 | the same proof with the 4-bit packing; sampled coefficients fit four bits |
| C44 | a symbolic executor for the assembly code (`Proof/ArmSym.v`), proved sound (`Proof/ArmSymP.v`) and run by the kernel; then the algebra of Toom-Cook (`Proof/ToomP.v`) |
| C45 | the same executor on `karatsuba_asm_striding`; a loop invariant for each of the three C loops; the product splits by residues of the index modulo 4 (`Proof/StrdP.v`) |
| C46 | refuted: the values at the overflowing multiplication follow from the invariants of C45 |
| C47 | a symbolic executor for straight-line code on vectors (`Proof/AvxSym.v`), proved sound; the linear forms and products it yields are compared with those of Toom-Cook and Karatsuba by the kernel (`Proof/AvxTab.v`); then sums over the blocks of 16 coefficients (`Proof/AvxIntP.v`) |
| C48 | the AVX2 code refines `Spec/Saber` (C47 for the products, congruences modulo 2^13 for the reduced secrets); then both codes have the same specification |
| C49 | the key expansion and the rounds with AES instructions equal FIPS 197 column by column; an invariant gives the counter at the start of each group of eight blocks; with C48 the code equals the reference |
| C51 | refuted: the invariant of the store loop needs 168 bytes in a buffer of 136 |
| C52 | each 64-bit lane of the vectors follows the scalar permutation; the sponge argument of C22, C23 for four messages at once |
| C53 | refuted for all arguments: partial correctness with postcondition False from the call of `shake128x4` (C51) |
| C54 | four-fold code refines `Spec/Saber` on each quarter (C47, C52, C55), as in C48; then both codes have the same specification |
| C55 | lanes of the vectors as bit fields of the four streams, loop invariants over blocks of 16 coefficients |
| C56 | the unrolled Karatsuba step as data (equal to the model by computation), run on linear forms in the coefficients and block products; soundness of that run; every defined run as written equals the wrapping one |
| C57 | invariant of the two loops of `randombytes`; with 16-bit words the upper half of a word is 0 |
| C58 | `GenMatrix_poly` as a window on the SHAKE128 stream (invariant on position and left-over bytes), then as for the reference; a run as written is undefined or equal to the wrapping one |
| C59 | as C58; the 4-bit packing is injective, so ciphertexts agree iff the compressed coefficients do; public key with constant first polynomial 60 for the refutation |
| C60 | as C25 |
| C61 | the first store beyond the 64 bytes happens for every input; with the length as a parameter, the functional result by the lemmas of C58–C60; secret vector 0 and public key with constant first polynomial 50 for the refutation |
| C62 | functional correctness of the variant with `POL2MSG`; then the noise bound gives the message, and re-encryption is deterministic |
| C63, C64 | the relational logic of C11 for the vector code: shapes of vectors are preserved by every vector operation; for AES the counter is equal in both runs because it is overwritten from the nonce |
| C65, C66 | induction on the list of calls, with the contexts of the other functions unchanged by each call; after initialisation the five contexts are equal |
| C67 | the same relational logic for the Cortex-M4 code; a call of assembly code keeps the lengths of the arrays and has the trace of C68; definedness of the runs from C38 and C43 to C46 |
| C68 | a trace function beside the symbolic executor of C44, proved equal to the trace of the concrete machine; it does not mention data |
| C69 | the relational logic of C63 with a rule for a statement executed for the four instances; definedness of the runs from C54 |
| C50 | refuted: by the same invariant the carry is lost; the two blocks are computed |

## 4. What is modelled

| file in /repo | model | functions |
|---|---|---|
| `Reference_Implementation_KEM/pack_unpack.c` | `Model/Pack.v` | all |
| `.../poly_mul.c` | `Model/PolyMul.v` | all |
| `.../poly.c` | `Model/Poly.v` | all |
| `.../cbd.c` | `Model/Cbd.v` | all |
| `.../verify.c` | `Model/Verify.v` | all |
| `.../SABER_indcpa.c` | `Model/Indcpa.v` | all |
| `.../kem.c` | `Model/Kem.v`, `Model/Api.v` | all |
| `Variants/*/ref/symmetric.h` | `Model/Api.v` | the choice of `hash_h`, `hash_g`, `prf` by `s90` |
| `.../fips202.c` | `Model/Fips202.v` | those reachable from kem.c and the incremental SHAKE128 interface |
| `.../rng.c` | `Model/Rng.v` | all but `handleErrors`; `AES256_ECB` is a parameter |
| `.../test/PQCgenKAT_kem.c` | `Model/Driver.v` | `main` without file input and output |
| `Variants/uSaber-90s/ref` `pack_unpack.c`, `poly.c`, `SABER_params.h` | the same models, by the flag `usaber` | all |
| `Variants/uSaber-90s/ref` `sha256.c`, `sha512.c` | `Model/Sha2.v` | all |
| `.../aes256ctr.c`, `symmetric-aes.c` | `Model/Aes.v` | all; the inline helper functions of one caller are merged into it |
| `Cortex-M_Implementation_KEM/Cortex-M0/saber-ref-mem/src` `pack_unpack.c`, `SABER_indcpa.c`, `poly_mul.c`, `fips202.c`, `kem.c` | `Model/M0.v` | 3-, 4-, 6-bit packing, reconciliation, decryption, the multiplier, simple cSHAKE, start of `crypto_kem_dec` |
| `.../saber-ref-mem/src` `kem.c`, `SABER_indcpa.c`, `cbd.c`, `prng.c`, `verify.c` | `Model/M0Kem.v` | key generation and encapsulation with all they reach, `randombytes`, `verify` |
| `.../saber-ref-mem/src` `kem.c`, `SABER_indcpa.c` | `Model/M0Dec.v` | all of `crypto_kem_dec`, `POL2MSG`; `cmov` is the one of the reference (same text) |
| `.../Cortex-M4/src/*/m4-*` `kem.c`, `SABER_indcpa.c`, `poly.c`, `pack_unpack.c`, `cbd.c` | `Model/M4.v` | all functions `kem.c` reaches, with and without `SABER_COMPRESS_SECRETKEY`; `verify.c` is the one of the reference |
| `.../Cortex-M4/src/*/m4-tc4kara` `poly_mul.c`, `asm_funcs.S`, `mult_toom4_256_16.s` | `Model/M4Mul.v`, `Model/ArmCode.v`, `Model/Arm.v`, `Model/ArmTrace.v` | all but `polymul_asm`, which nothing calls |
| `.../Cortex-M4/src/*/m4-striding` `poly_mul.c`, `kara.s` | the same | all; `tc.s` is not modelled (nothing calls it) |
| `AVX_Implementation_KEM/polymul` `toom-cook_4way.c`, `scm_avx.c`, `matrix.c`; `SABER_indcpa.c` | `Model/AvxMul.v`, `Model/AvxCode.v`, `Model/Vec.v` | everything the multiplication reaches |
| `AVX_Implementation_KEM` `SABER_indcpa.c`, `cbd.c`, `pack_unpack.c`, `kem.c` | `Model/AvxKem.v` | all functions `kem.c` reaches; the packing functions, `verify.c` and `fips202.c` are those of the reference (same loops and expressions) |
| `Variants/uSaber-90s/avx2` `crypto_stream_aes256ctr.c`, `symmetric-aes.c` | `Model/AesNi.v` | all |
| `Variants/SaberX4_avx2/rng.c` | `Model/X4Rng.v` (and `Model/Rng.v`) | all; the five copies of `randombytes` are one function applied to five contexts |
| `Variants/SaberX4_avx2` `fips202x4.c`, `keccak4x/*` | `Model/Fips202x4.v` | the permutation (24 rounds, with macros expanded), absorb, squeeze, `shake128x4`, `shake256x4`, `sha3_256x4`, `sha3_512x4` |
| `Variants/SaberX4_avx2` `pack_unpack.c`, `SABER_indcpa.c`, `kem4x.c`, `kem.c` | `Model/X4Pack.v`, `Model/X4Kem.v` | all functions `kem.c` reaches; `cbd.c`, `verify.c`, `polymul/` have the text of the AVX2 implementation and share its model |

Simplifications, each also stated where it is made:

* The trace has the index of each access and the outcome of each branch, but not which array is accessed.
* The 25 lanes of the Keccak permutation and the registers of SHA-2 are local values: they are in the trace only
  when they are loaded from or stored to memory.
* `sha256.c` and `sha512.c` are instances of one definition (same text up to word size, constants and number of groups).
  The return value of `crypto_hashblocks` is left out (no caller uses it).
* In `aes256ctr.c` the straight-line code on 64-bit words (S-box circuit, `br_aes_ct64_ortho`, `shift_rows`, `mix_columns`, interleaving)
  is data of the small language `Lib/Gate.v`, executed by `gates`; reading an unassigned variable is undefined behaviour.
* Aliasing is modelled only for the in-place calls that occur (`hash_h(buf, buf, 32)`, `cmov`): the function gets the same
  list as input and as output, which is right because all input is read before the first output byte is written.
* `AES256_CTR_DRBG_Update` and `randombytes` of `rng.c` leave a carry loop by `break`: the model is a recursion on the index.
* Cortex-M0: the assembly `KeccakF1600_StatePermute` is replaced by the C permutation of the reference; in `Model/M0.v` what `crypto_kem_dec`
  does after decryption is an arbitrary continuation (`Model/M0Dec.v` has the rest, with the length of `buf` as a parameter, 64 in the code,
  and a variant with the commented-out call of `POL2MSG`, used only by C62); stores of `uint16_t` through a byte pointer are two little-endian byte
  stores; in the Karatsuba code a callee gets a copy of the part of `d` that it reads (it is disjoint from the part it writes).
* Cortex-M0 key generation and encapsulation: the multiplier is a parameter of the model, instantiated with `pol_mul` and `pol_mul_wrap`; the static
  variables of `GenMatrix_poly` are passed and returned (`gmstate`); the register PRNG_WORD is a function from the number of the read to its value.
* Cortex-M4: the Keccak functions of pqm4 (not in the repository) are parameters with a contract; the incremental SHAKE128
  context is the absorbed seed and the number of bytes squeezed.  The multipliers are parameters of the C code; section 4.1 has
  their own code.
* `rng.c` calls OpenSSL; failures that end in `abort()` are not modelled.

* `poly_mul.c` of m4-striding: `imul` is multiplication of type int, as in C or with wraparound; a pointer into the middle of an array
  that is passed to assembly code is an array of its own (`window`), which is put back after the call (`put`); the windows of one
  call are disjoint.
* AVX2: a `__m256i` is the list of its sixteen 16-bit lanes; `Model/Vec.v` gives the meaning of the intrinsics. Straight-line code on
  vectors with constant indices is data (`Model/AvxCode.v`, one constructor per operation), executed by `vrun`; it contributes no
  events to the trace. Loops whose body has a constant number of operations are loops of the model. Reading an unassigned register
  or beyond an array is undefined behaviour. The global variables that `load_values` sets are passed as a list.
* Four-fold Keccak: a `__m256i` is the list of its four 64-bit lanes, the state of four instances a list of 100 words (lane `k` of word `i`
  at `4 * i + k`); four pointers are a quadruple (`quad`), a group of four statements is `for4`.
* SaberX4: the length of `t0, ..., t3` in `shake128x4` is a parameter of the model (the code has 136). Each of the four instances gets its own
  quarter of the buffers of `kem.c`, and an access outside the quarter is undefined. Groups of statements for instance 0, 1, 2, 3 between two
  four-fold calls are one function applied to each instance; they work on disjoint variables. Alignment and accesses to a vector
  array through `uint16_t *` are not modelled.
* AES instructions: a `__m128i` is the list of its sixteen bytes; `_mm_aesenc_si128` and the like are defined by the transformations of
  FIPS 197 (`Spec/Aes.v`), as in Intel's documentation. Alignment, and the access to `n2` through two types, are not modelled.

### 4.1 Assembly

`Model/Arm.v` is a semantics of the ARMv7E-M instructions that occur in the multipliers. A register has a 32-bit integer, a pointer
(region and byte offset) or a return address; memory consists of regions (the arrays of the caller and the stack) of 16-bit cells.
A cell has a number or one half of a saved pointer or return address. Accesses outside a region, at an odd offset or below the
stack pointer fault, and so does arithmetic on pointers other than adding or subtracting an integer. `Model/ArmCode.v` is the code,
one constructor per instruction, macros expanded. Simplifications:

* Control flow is structured: a label with a conditional branch back to it is a loop of at most 64 rounds; `bl` runs the code of the
  callee, at the end of which the program counter must be the return address that `bl` left in `lr`; `bl memset` clears the
  memory and leaves arbitrary values (those of the state `scratch`) in the registers and flags that a C function may clobber.
* Regions are disjoint; a pointer has no numeric value.
* `Model/ArmTrace.v` gives the memory accesses (region, offset, width) and branches of a run. `asm_call` adds them to the trace of the C
  program. Durations of instructions are not modelled.

`asm_call` in `Model/M4Mul.v` is the call from C: it is undefined behaviour if an array is not of type uint16_t and of the length the code works on, if the code faults, does not return, or changes a
register that the procedure call standard protects. Registers, flags and stack contents on entry are arbitrary.

## 5. Not modelled

Cortex-M0: `GenMatrix` and `MatrixVectorMul` (nothing calls them), `rng_enable` and `PRNG_Init` (hardware registers).
Assembly (`.S`, `.s`) other than in 4.1, AVX code other than in the table, benchmarking and test drivers, OpenSSL (the AES block function
inside `rng.c` is a parameter), compilers and micro-architecture. Aliasing between distinct
pointer arguments is modelled only for the in-place calls that occur in the code.

## 6. Trusted base

* The kernel of Coq 8.16.1, including `vm_compute`.
* `Print Assumptions` follows every theorem of `theories/Props`; each prints `Closed under the global context`,
  so no axiom is used, not even one of the standard library.
* The reading of C in section 1 and the transcription of the code in `theories/Model` (section 4).
* The specifications in `theories/Spec`. They are checked against published values by the examples next to the theorems. In particular
  the first answer of each of the twelve files in `/repo/KAT` is computed from the specification (Keccak or SHA-2 and AES, DRBG,
  Saber) when the files of `theories/Kat` are compiled, and compilation fails if one byte differs.
