{
 "claims": [
  {
   "property": "C01",
   "status": "proved",
   "theorems": [
    "C01_keys_agree"
   ],
   "note": "All twelve variants: LightSaber, Saber, FireSaber, each with binomial or uniform (uSaber) secrets and with SHA3/SHAKE128 or the 90s primitives."
  },
  {
   "property": "C02",
   "status": "proved",
   "theorems": [
    "C02_bit_iff_window",
    "C02_any_matrix",
    "C02_unconditional_refuted"
   ],
   "note": "C02_unconditional_refuted is the \"in particular\" part: a matrix and secrets in range with a wrong bit, at every level."
  },
  {
   "property": "C03",
   "status": "proved",
   "theorems": [
    "C03_implicit_rejection"
   ],
   "note": "All twelve variants: LightSaber, Saber, FireSaber, each with binomial or uniform (uSaber) secrets and with SHA3/SHAKE128 or the 90s primitives."
  },
  {
   "property": "C04",
   "status": "proved",
   "theorems": [
    "C04_accepted_only_if_reencryption",
    "C04_not_two_accepted"
   ],
   "note": "All twelve variants: LightSaber, Saber, FireSaber, each with binomial or uniform (uSaber) secrets and with SHA3/SHAKE128 or the 90s primitives."
  },
  {
   "property": "C05",
   "status": "proved",
   "theorems": [
    "C05_keypair"
   ],
   "note": "All twelve variants: LightSaber, Saber, FireSaber, each with binomial or uniform (uSaber) secrets and with SHA3/SHAKE128 or the 90s primitives."
  },
  {
   "property": "C06",
   "status": "proved",
   "theorems": [
    "C06_enc"
   ],
   "note": "All twelve variants: LightSaber, Saber, FireSaber, each with binomial or uniform (uSaber) secrets and with SHA3/SHAKE128 or the 90s primitives."
  },
  {
   "property": "C07",
   "status": "proved",
   "theorems": [
    "C07_dec"
   ],
   "note": "All twelve variants: LightSaber, Saber, FireSaber, each with binomial or uniform (uSaber) secrets and with SHA3/SHAKE128 or the 90s primitives."
  },
  {
   "property": "C08",
   "status": "proved",
   "theorems": [
    "C08_keypair",
    "C08_enc",
    "C08_dec"
   ],
   "note": "All twelve variants: LightSaber, Saber, FireSaber, each with binomial or uniform (uSaber) secrets and with SHA3/SHAKE128 or the 90s primitives."
  },
  {
   "property": "C09",
   "status": "proved",
   "theorems": [
    "C09_keypair",
    "C09_enc",
    "C09_dec"
   ],
   "note": "All twelve variants: LightSaber, Saber, FireSaber, each with binomial or uniform (uSaber) secrets and with SHA3/SHAKE128 or the 90s primitives."
  },
  {
   "property": "C10",
   "status": "proved",
   "theorems": [
    "C10_keypair_requests",
    "C10_enc_requests",
    "C10_keypair_function_of_bytes",
    "C10_enc_function_of_bytes"
   ],
   "note": "crypto_kem_dec takes no random source argument in the model, as in the code it makes no call to it."
  },
  {
   "property": "C11",
   "status": "proved",
   "theorems": [
    "C11_dec_constant_time"
   ],
   "note": "Leakage model: indices, pointer offsets and branch outcomes, see DESIGN.md."
  },
  {
   "property": "C12",
   "status": "proved",
   "theorems": [
    "C12_keypair_constant_time",
    "C12_enc_constant_time"
   ],
   "note": "Leakage model: indices, pointer offsets and branch outcomes, see DESIGN.md."
  },
  {
   "property": "C13",
   "status": "proved",
   "theorems": [
    "C13_poly_mul_acc",
    "C13_pmul"
   ],
   "note": "All 16-bit inputs, for the Toom-Cook/Karatsuba code."
  },
  {
   "property": "C14",
   "status": "proved",
   "theorems": [
    "C14_bit_13_refuted"
   ],
   "note": "The claim modulo 2^14 is refuted by explicit inputs below 2^13; with C13 this makes 13 bits exact."
  },
  {
   "property": "C15",
   "status": "proved",
   "theorems": [
    "C15_InnerProd",
    "C15_MatrixVectorMul",
    "C15_meaning"
   ],
   "note": "Both values of the flag, all module ranks; C15_meaning writes the products out."
  },
  {
   "property": "C16",
   "status": "proved",
   "theorems": [
    "C16_ciphertext_part",
    "C16_q",
    "C16_p",
    "C16_message",
    "C16_vector_q",
    "C16_vector_p"
   ],
   "note": "All widths and vector forms, arbitrary 16-bit coefficients."
  },
  {
   "property": "C17",
   "status": "proved",
   "theorems": [
    "C17_ciphertext_part",
    "C17_q",
    "C17_p",
    "C17_message",
    "C17_vector_q",
    "C17_vector_p"
   ],
   "note": "All byte strings of the encoding length."
  },
  {
   "property": "C18",
   "status": "proved",
   "theorems": [
    "C18_ciphertext_part",
    "C18_q",
    "C18_p",
    "C18_message",
    "C18_vector_q",
    "C18_vector_p"
   ],
   "note": "Every bit position."
  },
  {
   "property": "C19",
   "status": "proved",
   "theorems": [
    "C19_cbd",
    "C19_GenSecret"
   ],
   "note": "MU = 6, 8, 10; GenSecret with SHAKE128 or AES-256-CTR."
  },
  {
   "property": "C20",
   "status": "proved",
   "theorems": [
    "C20_joint",
    "C20_coefficient",
    "C20_all_strings"
   ],
   "note": "Number of input buffers for which the code returns a given polynomial, or a given value at one coefficient."
  },
  {
   "property": "C21",
   "status": "proved",
   "theorems": [
    "C21_GenMatrix",
    "C21_stream",
    "C21_bijection"
   ],
   "note": "Both widths (13 bits, and 12 bits for uSaber), both generators."
  },
  {
   "property": "C22",
   "status": "proved",
   "theorems": [
    "C22_sha3_256",
    "C22_sha3_512"
   ],
   "note": "Every input length; the code is related to the bit-level FIPS 202 definition."
  },
  {
   "property": "C23",
   "status": "proved",
   "theorems": [
    "C23_shake128"
   ],
   "note": "Every input and output length."
  },
  {
   "property": "C24",
   "status": "proved",
   "theorems": [
    "C24_prefix",
    "C24_prefix_code",
    "C24_incremental",
    "C24_sha3_256_in_place",
    "C24_shake128_in_place"
   ],
   "note": "Incremental use is keccak_absorb followed by calls of keccak_squeezeblocks (shake128_absorb is commented out in the source)."
  },
  {
   "property": "C25",
   "status": "proved",
   "theorems": [
    "C25_verify",
    "C25_constant_time"
   ],
   "note": "Every length; the trace is independent of the contents."
  },
  {
   "property": "C26",
   "status": "proved",
   "theorems": [
    "C26_cmov",
    "C26_constant_time"
   ],
   "note": "Every length; trace independent of contents and b."
  },
  {
   "property": "C27",
   "status": "proved",
   "theorems": [
    "C27_randombytes",
    "C27_init",
    "C27_context",
    "C27_source"
   ],
   "note": "For every block cipher with 16-byte blocks and every context; lengths below 2^31 and call counter below its maximum (C39 shows both limits are real)."
  },
  {
   "property": "C28",
   "status": "proved",
   "theorems": [
    "C28_history",
    "C28_prefix",
    "C28_no_repeat"
   ],
   "note": "Histories of any length (up to the call counter); block distinctness for every cipher injective under the current key."
  },
  {
   "property": "C29",
   "status": "proved",
   "theorems": [
    "C29_stream",
    "C29_split"
   ],
   "note": "Every sequence of requests, refused ones included; the split theorem compares with one single request."
  },
  {
   "property": "C30",
   "status": "proved",
   "theorems": [
    "C30_init_refuses",
    "C30_refuses",
    "C30_total"
   ],
   "note": "Every context for the refusals, every history for the total."
  },
  {
   "property": "C31",
   "status": "proved",
   "theorems": [
    "C31_layout",
    "C31_dec_uses_embedded"
   ],
   "note": "All twelve variants: LightSaber, Saber, FireSaber, each with binomial or uniform (uSaber) secrets and with SHA3/SHAKE128 or the 90s primitives."
  },
  {
   "property": "C32",
   "status": "proved",
   "theorems": [
    "C32_uni",
    "C32_GenSecret",
    "C32_joint",
    "C32_coefficient"
   ],
   "note": "Value, range, joint and per-coefficient counts."
  },
  {
   "property": "C33",
   "status": "proved",
   "theorems": [
    "C33_sha256",
    "C33_sha512",
    "C33_length",
    "C33_constants",
    "C33_sha256_trace",
    "C33_sha512_trace"
   ],
   "note": "Every length below 2^61 bytes for SHA-256 and every size_t length for SHA-512. The constants of the specification are proved to be the root fractions FIPS 180-4 defines."
  },
  {
   "property": "C34",
   "status": "proved",
   "theorems": [
    "C34_prf",
    "C34_ctr",
    "C34_incremental",
    "C34_trace",
    "C34_incremental_trace"
   ],
   "note": "Every key, nonce and length; the incremental interface for every sequence of calls; the trace is independent of key, nonce and buffers."
  },
  {
   "property": "C35",
   "status": "proved",
   "theorems": [
    "C35_refuted",
    "C35_always",
    "C35_cause"
   ],
   "note": "Refuted: for every key, ciphertext, multiplier and continuation the decryption writes beyond the 64-byte buffer; 512 bytes are needed and enough."
  },
  {
   "property": "C36",
   "status": "proved",
   "theorems": [
    "C36_refuted",
    "C36_exact",
    "C36_four",
    "C36_six"
   ],
   "note": "Refuted: bit 0 of every coefficient with index 5 modulo 8 is lost; C36_exact gives exactly the polynomials that survive. The 4-bit and 6-bit packings have the property."
  },
  {
   "property": "C37",
   "status": "proved",
   "theorems": [
    "C37_refuted",
    "C37_always_128",
    "C37_always_256"
   ],
   "note": "Refuted: keccak_absorb zeroes the state, so the customisation value is never used; both functions equal Keccak with suffix bits 00 on the input alone."
  },
  {
   "property": "C38",
   "status": "proved",
   "theorems": [
    "C38_keypair",
    "C38_enc",
    "C38_dec",
    "C38_tc4kara_keypair",
    "C38_striding_keypair",
    "C38_tc4kara_enc",
    "C38_striding_enc",
    "C38_tc4kara_dec",
    "C38_striding_dec"
   ],
   "note": "For Keccak functions (of pqm4, not in the repository) meeting their contract, with the C and assembly code of both multipliers; in m4-striding with multiplication of type int that wraps around. The theorems without a multiplier in their name hold for any multiplier that meets its contract. Encapsulation also with compressed secret keys."
  },
  {
   "property": "C39",
   "status": "proved",
   "theorems": [
    "C39_long_request_refuted",
    "C39_undefined"
   ],
   "note": "Refuted: undefined behaviour exactly for requests of 2^31 bytes or more, or when reseed_counter is INT_MAX."
  },
  {
   "property": "C40",
   "status": "proved",
   "theorems": [
    "C40_answers",
    "C40_requests"
   ],
   "note": "All twelve variants; the composition of rng.c (with AES-256 of FIPS 197 for the OpenSSL call) and kem.c. File input and output not modelled. The first answer of each of the twelve response files is evaluated when theories/Kat is compiled."
  },
  {
   "property": "C41",
   "status": "proved",
   "theorems": [
    "C41",
    "C41_tight"
   ],
   "note": "Bound and its tightness."
  },
  {
   "property": "C42",
   "status": "proved",
   "theorems": [
    "C42_refuted"
   ],
   "note": "Refuted with both polynomials constant 8191 (-1 modulo q)."
  },
  {
   "property": "C43",
   "status": "proved",
   "theorems": [
    "C43_keypair",
    "C43_dec",
    "C43_tc4kara_keypair",
    "C43_striding_keypair",
    "C43_tc4kara_dec",
    "C43_striding_dec"
   ],
   "note": "As C38."
  },
  {
   "property": "C44",
   "status": "proved",
   "theorems": [
    "C44_tc4kara_mul",
    "C44_tc4kara_mul_acc",
    "C44_tc4kara_asm"
   ],
   "note": "The C code, the assembly code and their composition."
  },
  {
   "property": "C45",
   "status": "proved",
   "theorems": [
    "C45_striding_mul",
    "C45_striding_mul_acc"
   ],
   "note": "With wraparound multiplication of type int (C46 is about C as it stands)."
  },
  {
   "property": "C46",
   "status": "proved",
   "theorems": [
    "C46_mul_refuted",
    "C46_mul_acc_refuted"
   ],
   "note": "False: in the interpolation (r4 - (r2 << 3)) * 43691 overflows int, already for 6144 x^2 times 1. The reference implementation casts to uint32_t there."
  },
  {
   "property": "C47",
   "status": "proved",
   "theorems": [
    "C47_avx_matrix_vector",
    "C47_avx_vector_vector"
   ],
   "note": "Both isTranspose values, every NUM_POLY. The intrinsics have the meaning given in Model/Vec.v."
  },
  {
   "property": "C48",
   "status": "proved",
   "theorems": [
    "C48_avx_keypair",
    "C48_avx_enc",
    "C48_avx_dec"
   ],
   "note": "For hash_h, hash_g and prf that meet their contract; the functions of fips202.c are shown to meet it (C48_case), so for Saber nothing is assumed. For Saber-90s hash_h and hash_g are OpenSSL's SHA256 and SHA512 (not modelled) and prf is covered by C49."
  },
  {
   "property": "C49",
   "status": "proved",
   "theorems": [
    "C49_aesni_stream",
    "C49_aesni_prf",
    "C49_aesni_keypair",
    "C49_aesni_enc",
    "C49_aesni_dec"
   ],
   "note": "SHA256 and SHA512 of OpenSSL are assumed to meet their contract (hypotheses of the KEM theorems)."
  },
  {
   "property": "C50",
   "status": "proved",
   "theorems": [
    "C50_aesni_any_nonce_refuted"
   ],
   "note": "False: if the low half of the counter is 2^64 - 8 when a group of eight blocks starts, the carry into the high half is lost, so the following blocks have the wrong counter. Saber only uses the zero nonce, where this cannot happen (C49)."
  },
  {
   "property": "C51",
   "status": "proved",
   "theorems": [
    "C51_shake128x4_refuted",
    "C51_shake128x4_undefined"
   ],
   "note": "False: t0, ..., t3 have SHAKE256_RATE = 136 bytes but receive a block of 168, whenever outlen is not a multiple of 168 - in particular for all three lengths that SABER_indcpa.c asks for."
  },
  {
   "property": "C52",
   "status": "proved",
   "theorems": [
    "C52_sha3_256x4",
    "C52_sha3_512x4",
    "C52_shake256x4",
    "C52_shake128x4"
   ],
   "note": "shake128x4 with temporary buffers of 168 bytes (C51 is about the code as it stands)."
  },
  {
   "property": "C53",
   "status": "proved",
   "theorems": [
    "C53_keypair_refuted",
    "C53_keypair_undefined",
    "C53_enc_undefined",
    "C53_dec_undefined"
   ],
   "note": "False: each of the three functions calls shake128x4 with 32 or 3744 bytes of output, so by C51 it stores beyond t0, ..., t3; this holds for all arguments."
  },
  {
   "property": "C54",
   "status": "proved",
   "theorems": [
    "C54_keypair",
    "C54_enc",
    "C54_dec"
   ],
   "note": "The model has the length of t0, ..., t3 as parameter: 168 here, 136 (SHAKE256_RATE) in the code, which is C53. Each instance has its own quarter of a buffer."
  },
  {
   "property": "C55",
   "status": "proved",
   "theorems": [
    "C55_POLVECp2BSX4",
    "C55_POLVECq2BSX4",
    "C55_BS2POLVECpX4",
    "C55_BS2POLVECqX4",
    "C55_BS2POLq4x"
   ],
   "note": "pack_vec and unpack_vec of Spec/Bits.v are the same functions as for the reference (C16-C18)."
  },
  {
   "property": "C56",
   "status": "proved",
   "theorems": [
    "C56_as_written",
    "C56_wrapping",
    "C56_small"
   ],
   "note": "C56_as_written and C56_small are about the code; C56_wrapping is about the code with the product of school_book_mul2_16 computed in uint32_t (C42 shows that the code as written overflows for some 13-bit inputs)."
  },
  {
   "property": "C57",
   "status": "proved",
   "theorems": [
    "C57_refuted",
    "C57_zero",
    "C57_exact",
    "C57_source"
   ],
   "note": "The claim is false: C57_refuted and C57_zero (with 16-bit words half of the bytes are zero). C57_exact gives the bytes for every sequence of words; C57_source lets C58 and C59 use this source."
  },
  {
   "property": "C58",
   "status": "proved",
   "theorems": [
    "C58_wrapping",
    "C58_as_written"
   ],
   "note": "C58_as_written is about the code, under the condition that the run is defined (C42: signed products in pol_mul can overflow); C58_wrapping is about the code with the product of school_book_mul2_16 computed in uint32_t."
  },
  {
   "property": "C59",
   "status": "proved",
   "theorems": [
    "C59_refuted",
    "C59_exact",
    "C59_as_written",
    "C59_same",
    "C59_decapsulation"
   ],
   "note": "The claim is false: C59_refuted. C59_exact and C59_as_written say what is computed (the rounding constant is missing), C59_same when that agrees with the reference, C59_decapsulation what the reference makes of it."
  },
  {
   "property": "C60",
   "status": "proved",
   "theorems": [
    "C60"
   ],
   "note": ""
  },
  {
   "property": "C61",
   "status": "proved",
   "theorems": [
    "C61_refuted",
    "C61_always",
    "C61_buffer",
    "C61_as_written",
    "C61_rejects"
   ],
   "note": "The claim is false: C61_always (undefined for every input), C61_refuted (in particular where decryption would be right). C61_buffer and C61_as_written say what is computed with an array of 512 bytes or more; C61_rejects: then an honest ciphertext is rejected unless its message is one of two."
  },
  {
   "property": "C62",
   "status": "proved",
   "theorems": [
    "C62",
    "C62_exact",
    "C62_as_written"
   ],
   "note": "About the code with line 353 of SABER_indcpa.c restored, which is not the code of the repository. C62 and C62_exact use the multiplication with wrapping arithmetic; C62_as_written the one of the repository, where it is defined."
  },
  {
   "property": "C63",
   "status": "proved",
   "theorems": [
    "C63_avx_keypair_ct",
    "C63_avx_enc_ct",
    "C63_avx_dec_ct"
   ],
   "note": "Vector instructions add nothing to the trace: they have constant operands and no branches."
  },
  {
   "property": "C64",
   "status": "proved",
   "theorems": [
    "C64_aesni_stream_ct",
    "C64_aesni_keypair_ct",
    "C64_aesni_enc_ct",
    "C64_aesni_dec_ct"
   ],
   "note": "OpenSSL's hash functions enter by contract: correct, and with a trace that depends on lengths only. The AES instructions add nothing to the trace."
  },
  {
   "property": "C65",
   "status": "proved",
   "theorems": [
    "C65_init",
    "C65_history"
   ],
   "note": "For every block cipher with 16-byte blocks (AES256_ECB of OpenSSL is a parameter)."
  },
  {
   "property": "C66",
   "status": "proved",
   "theorems": [
    "C66_distinct_refuted",
    "C66_same_answers"
   ],
   "note": "The statement is false: all five contexts are seeded with the same bytes. C66_distinct_refuted holds for every cipher and seed; C66_same_answers says that generators with equal requests have given equal answers. kem4x.c uses randombytes only."
  },
  {
   "property": "C67",
   "status": "proved",
   "theorems": [
    "C67_tc4kara_keypair_ct",
    "C67_tc4kara_enc_ct",
    "C67_tc4kara_dec_ct",
    "C67_striding_keypair_ct",
    "C67_striding_enc_ct",
    "C67_striding_dec_ct"
   ],
   "note": "SHA-3 and SHAKE128 come from pqm4, outside the repository: the theorems hold for any implementation that computes them with a trace that depends on lengths only (hash_ok, hash_quiet, stream_ok, stream_quiet). The events of the assembly multipliers (C68) are part of the trace; m4-striding is compiled with wrapping int multiplication (see C46)."
  },
  {
   "property": "C68",
   "status": "proved",
   "theorems": [
    "C68_tc4kara_asm_trace",
    "C68_striding_asm_trace"
   ],
   "note": "Addresses are offsets in a region (array or stack). Durations of instructions are not modelled."
  },
  {
   "property": "C69",
   "status": "proved",
   "theorems": [
    "C69_keypair_ct",
    "C69_enc_ct",
    "C69_dec_ct"
   ],
   "note": "For the code with t0, ..., t3 of 168 bytes (the length is a parameter of the model). Straight-line vector code with constant indices and the lanes of the permutation contribute no events."
  }
 ]
}