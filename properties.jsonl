{"id": "C01", "title": "Encapsulated and decapsulated keys agree whenever the decryption noise is inside the window", "statement": "If a key pair is produced by crypto_kem_keypair and a ciphertext c and key k by crypto_kem_enc under its public key, then crypto_kem_dec on that secret key and c returns exactly k, provided every coefficient of the decryption noise polynomial (a function of the public matrix, the secret, the ephemeral secret and the message) lies in the window [-256,255] modulo 1024.", "quantifier": "for every security level and variant, every output of the random source, every message", "why_tests_cant": "The failure probability is 2^-120 or lower, so random tests never reach the boundary of the window; the proof covers every noise pattern.", "anchors": ["Reference_Implementation_KEM/kem.c:crypto_kem_keypair,crypto_kem_enc,crypto_kem_dec", "Reference_Implementation_KEM/SABER_indcpa.c:indcpa_kem_enc,indcpa_kem_dec"]}
{"id": "C02", "title": "Decryption of a bit is correct exactly when its noise coefficient is in the window", "statement": "For the public-key layer, the i-th bit recovered by decryption equals the i-th bit of the encrypted message if and only if the i-th noise coefficient, reduced to [-512,511] modulo 1024, lies in [-256,255]. In particular decryption is not unconditionally correct: there are a matrix and secrets in the legal range for which a bit flips.", "quantifier": "for every matrix, every secret and ephemeral secret (as bytes of the stored key), every message and every coefficient index", "why_tests_cant": "An exact if-and-only-if boundary over all matrices and secrets cannot be sampled; failures are astronomically rare in random tests.", "anchors": ["Reference_Implementation_KEM/SABER_indcpa.c:indcpa_kem_enc,indcpa_kem_dec,h1,h2"]}
{"id": "C03", "title": "Implicit rejection returns the pseudo-random key", "statement": "If the ciphertext given to crypto_kem_dec is not bit-for-bit the re-encryption of the message it decrypts to, the returned key is H(z || H(c)) where z is the last 32 bytes of the secret key; the call still returns 0, so no error is signalled.", "quantifier": "for every secret key byte string (well formed or not) and every ciphertext byte string", "why_tests_cant": "Invalid ciphertexts form almost all of 2^5888..2^11776 strings; tests try a handful.", "anchors": ["Reference_Implementation_KEM/kem.c:crypto_kem_dec", "Reference_Implementation_KEM/verify.c:verify,cmov"]}
{"id": "C04", "title": "Only the exact re-encryption is accepted", "statement": "crypto_kem_dec derives the key from the decrypted message only when the ciphertext equals the deterministic re-encryption in every byte; hence, for given secret key, two different ciphertexts that decrypt to the same message are never both accepted.", "quantifier": "for every secret key byte string and every pair of ciphertexts", "why_tests_cant": "A comparison that ignores one byte or one bit passes all honest tests.", "anchors": ["Reference_Implementation_KEM/kem.c:crypto_kem_dec", "Reference_Implementation_KEM/verify.c:verify"]}
{"id": "C05", "title": "crypto_kem_keypair computes the specified key pair", "statement": "For every sequence of bytes delivered by the random source, crypto_kem_keypair writes the public key pack_p(round(A^T s)) || seed_A and the secret key pack_q(s) || pk || H(pk) || z, where seed_A = SHAKE128(first 32 random bytes), A and s are expanded from seed_A and from the second 32 random bytes as in the Saber specification, and z is the third 32 random bytes.", "quantifier": "for every security level and every random input", "why_tests_cant": "Known-answer tests fix 100 random inputs per level; equality with a mathematical specification must hold for all 2^768.", "anchors": ["Reference_Implementation_KEM/kem.c:crypto_kem_keypair", "Reference_Implementation_KEM/SABER_indcpa.c:indcpa_kem_keypair"]}
{"id": "C06", "title": "crypto_kem_enc computes the specified encapsulation", "statement": "For every public key byte string and random input, crypto_kem_enc writes exactly the ciphertext and key defined by the Saber specification (message m = H(random), (Khat,r) = G(m || H(pk)), c = Enc(pk,m;r), k = H(Khat || H(c))), including for malformed public keys.", "quantifier": "for every security level, every public key byte string, every random input", "why_tests_cant": "All public key strings, including ones no honest key generation outputs, must be covered.", "anchors": ["Reference_Implementation_KEM/kem.c:crypto_kem_enc", "Reference_Implementation_KEM/SABER_indcpa.c:indcpa_kem_enc"]}
{"id": "C07", "title": "crypto_kem_dec computes the specified decapsulation", "statement": "For every ciphertext and secret key byte string, crypto_kem_dec returns 0 and writes exactly the key of the Saber specification's decapsulation with implicit rejection.", "quantifier": "for every security level, every ciphertext, every secret key byte string", "why_tests_cant": "Adversarial ciphertexts and corrupted keys are outside any test vector set.", "anchors": ["Reference_Implementation_KEM/kem.c:crypto_kem_dec", "Reference_Implementation_KEM/SABER_indcpa.c:indcpa_kem_dec"]}
{"id": "C08", "title": "The key-encapsulation calls never have undefined behaviour", "statement": "crypto_kem_keypair, crypto_kem_enc and crypto_kem_dec, called with buffers of the documented sizes, never read or write outside an object, never overflow a signed integer and never shift out of range, and always terminate.", "quantifier": "for every content of the input buffers, every previous content of the output buffers and of uninitialised locals, every random input", "why_tests_cant": "Sanitiser runs only see the inputs that are run.", "anchors": ["Reference_Implementation_KEM/kem.c", "Reference_Implementation_KEM/SABER_indcpa.c", "Reference_Implementation_KEM/poly.c", "Reference_Implementation_KEM/poly_mul.c", "Reference_Implementation_KEM/pack_unpack.c", "Reference_Implementation_KEM/cbd.c", "Reference_Implementation_KEM/fips202.c"]}
{"id": "C09", "title": "Outputs depend only on the inputs", "statement": "The outputs of keypair, enc and dec do not depend on the previous contents of output buffers or on uninitialised stack memory; together they are functions of the documented inputs and of the random bytes only, and every byte of each output buffer is written.", "quantifier": "for every pair of initial memories", "why_tests_cant": "Uninitialised memory is usually zero or stable in tests, hiding dependence on it.", "anchors": ["Reference_Implementation_KEM/kem.c", "Reference_Implementation_KEM/SABER_indcpa.c", "Reference_Implementation_KEM/poly.c:MatrixVectorMul,InnerProd", "Reference_Implementation_KEM/poly_mul.c:karatsuba_simple,toom_cook_4way"]}
{"id": "C10", "title": "Randomness consumption", "statement": "crypto_kem_keypair draws exactly 32+32+32 bytes from the random source in three calls in the order seed_A, seed_s, z; crypto_kem_enc draws exactly one block of 32 bytes; crypto_kem_dec draws none. The result is the same function of the bytes whatever the source does.", "quantifier": "for every random source (any state machine) and every input", "why_tests_cant": "Tests fix one deterministic generator.", "anchors": ["Reference_Implementation_KEM/kem.c", "Reference_Implementation_KEM/SABER_indcpa.c:indcpa_kem_keypair"]}
{"id": "C11", "title": "Decapsulation is constant-time in the secret key and ciphertext validity", "statement": "The sequence of memory addresses accessed and branches taken by crypto_kem_dec is the same for every secret key and every ciphertext of the right size: it depends on neither the secret, the decrypted message nor whether the ciphertext is accepted.", "quantifier": "for every pair of secret keys and ciphertexts", "why_tests_cant": "Timing tests are statistical and sample few secrets.", "anchors": ["Reference_Implementation_KEM/kem.c:crypto_kem_dec", "Reference_Implementation_KEM/verify.c", "Reference_Implementation_KEM/cbd.c", "Reference_Implementation_KEM/poly_mul.c", "Reference_Implementation_KEM/pack_unpack.c"]}
{"id": "C12", "title": "Key generation and encapsulation are constant-time", "statement": "The address and branch trace of crypto_kem_keypair and crypto_kem_enc is independent of the random bytes, the secrets derived from them, the message and the public key bytes.", "quantifier": "for every pair of random inputs and public keys", "why_tests_cant": "Timing tests are statistical and sample few secrets.", "anchors": ["Reference_Implementation_KEM/kem.c", "Reference_Implementation_KEM/SABER_indcpa.c:GenMatrix users", "Reference_Implementation_KEM/poly.c:GenSecret", "Reference_Implementation_KEM/cbd.c:cbd"]}
{"id": "C13", "title": "poly_mul_acc multiplies in Z_8192[x]/(x^256+1)", "statement": "poly_mul_acc(a,b,res) adds to res the negacyclic product of a and b: every coefficient of the result is congruent modulo 2^13 to the old coefficient plus the coefficient of a*b mod x^256+1.", "quantifier": "for every pair of 16-bit coefficient vectors, reduced or not, and every accumulator content", "why_tests_cant": "2^8192 operand pairs; interpolation by inexact shifts loses high bits in a data-dependent way.", "anchors": ["Reference_Implementation_KEM/poly_mul.c:poly_mul_acc,toom_cook_4way,karatsuba_simple"]}
{"id": "C14", "title": "The multiplier's guarantee is exactly 13 bits", "statement": "The congruence of poly_mul_acc does not hold modulo 2^14: there are inputs with reduced (13-bit) coefficients for which the result differs from the true product in bit 13. Callers therefore may only rely on 13 bits.", "quantifier": "there exists an input (with the 13-bit theorem for all inputs)", "why_tests_cant": "Tests compare only reduced outputs and never reveal the loss.", "anchors": ["Reference_Implementation_KEM/poly_mul.c:toom_cook_4way", "Reference_Implementation_KEM/SABER_indcpa.c"]}
{"id": "C15", "title": "Matrix-vector product and inner product", "statement": "MatrixVectorMul computes A*s or A^T*s (by its transpose flag) and InnerProd computes b^T*s in Z[x]/(x^256+1), accumulated onto the initial content of the result; every coefficient is correct modulo 2^13.", "quantifier": "for every matrix, vector, and both values of the flag, every module rank", "why_tests_cant": "Confusing A and A^T is invisible for symmetric matrices and changes results for all others.", "anchors": ["Reference_Implementation_KEM/poly.c:MatrixVectorMul,InnerProd"]}
{"id": "C16", "title": "Packing then unpacking reduces modulo the field width", "statement": "For each of the encodings (3/4/6-bit ciphertext part, 10-bit, 13-bit, 12-bit for the uniform variant, 1-bit message, and the vector forms) unpacking a packed vector gives back each coefficient reduced modulo 2^width, for arbitrary 16-bit coefficients. For the 1-bit encoding this holds for coefficients that are 0 or 1.", "quantifier": "for every coefficient vector", "why_tests_cant": "One wrong shift among the 13 byte expressions affects isolated bit positions.", "anchors": ["Reference_Implementation_KEM/pack_unpack.c:POLT2BS,BS2POLT,POLp2BS,BS2POLp,POLq2BS,BS2POLq,POLVECp2BS,BS2POLVECp,POLVECq2BS,BS2POLVECq,POLmsg2BS,BS2POLmsg"]}
{"id": "C17", "title": "Unpacking then packing is the identity on byte strings", "statement": "Every byte string of the right length is the packing of its own unpacking: encodings are bijective, so no two different public keys, ciphertexts or secret-key polynomials decode to the same coefficients (no malleability through encoding).", "quantifier": "for every byte string of the encoding length", "why_tests_cant": "Requires all 2^(8n) byte strings.", "anchors": ["Reference_Implementation_KEM/pack_unpack.c"]}
{"id": "C18", "title": "Packed format is the little-endian bit stream", "statement": "Bit k of the packed string (bit k mod 8 of byte k/8) is bit (k mod w) of coefficient k/w for width w, and the encoded length is 32*w bytes per polynomial, so independently written implementations interoperate.", "quantifier": "for every coefficient vector, every bit position, every width used", "why_tests_cant": "Tests do not fix every bit position for all values.", "anchors": ["Reference_Implementation_KEM/pack_unpack.c"]}
{"id": "C19", "title": "Secret sampling computes the centred binomial formula", "statement": "Coefficient i of a sampled secret polynomial is HW(x) - HW(y) where x and y are consecutive MU/2-bit groups of the input bytes read as a bit stream, represented modulo 2^16; hence it always lies in [-MU/2, MU/2].", "quantifier": "for every input buffer and every coefficient index, each MU in {6,8,10}", "why_tests_cant": "2^(MU*256) buffers; SWAR population counts fail only for particular bit patterns.", "anchors": ["Reference_Implementation_KEM/cbd.c:cbd,load_littleendian", "Reference_Implementation_KEM/poly.c:GenSecret"]}
{"id": "C20", "title": "Secret sampling is exactly binomial", "statement": "For uniformly random input bytes the number of byte strings producing value v at a given coefficient is exactly binomial(MU, MU/2+v) * 2^(rest), and the number producing a given polynomial is the product of the binomials: the distribution is exactly the centred binomial, coefficients being independent.", "quantifier": "for every coefficient index, every value v, each MU", "why_tests_cant": "Statistical tests cannot distinguish small biases.", "anchors": ["Reference_Implementation_KEM/cbd.c:cbd"]}
{"id": "C21", "title": "Public matrix expansion", "statement": "GenMatrix writes, for each row and column, the 256 coefficients of the 13-bit little-endian decoding of consecutive 416-byte segments of SHAKE128(seed) (12 bits and 384 bytes in the uniform variant), each coefficient below 2^13 (2^12); the map from the output stream to matrices is a bijection, so a uniform stream gives a uniform matrix.", "quantifier": "for every seed, module rank and stream", "why_tests_cant": "A biased or reordered decoding is invisible without an independent model.", "anchors": ["Reference_Implementation_KEM/poly.c:GenMatrix"]}
{"id": "C22", "title": "SHA3-256 and SHA3-512 are the FIPS 202 functions for every length", "statement": "sha3_256 and sha3_512 write the FIPS 202 digest of the input bytes for inputs of any length (including 0 and all multiples of the rate), without touching memory outside the input and output buffers.", "quantifier": "for every input length and every input", "why_tests_cant": "Unbounded input lengths, padding corner cases at block boundaries.", "anchors": ["Reference_Implementation_KEM/fips202.c:sha3_256,sha3_512,keccak_absorb,KeccakF1600_StatePermute,load64,store64"]}
{"id": "C23", "title": "SHAKE128 is the FIPS 202 function for every input and output length", "statement": "shake128(out,outlen,in,inlen) writes exactly the first outlen bytes of the FIPS 202 XOF output, for all lengths including 0 and partial final blocks, and writes no byte beyond outlen.", "quantifier": "for every input, input length and output length", "why_tests_cant": "Unbounded lengths; tail handling.", "anchors": ["Reference_Implementation_KEM/fips202.c:shake128,keccak_squeezeblocks"]}
{"id": "C24", "title": "XOF prefix consistency and in-place hashing", "statement": "A shorter SHAKE128 output is a prefix of a longer one for the same input; the incremental use (keccak_absorb, then any sequence of keccak_squeezeblocks calls) yields the same stream as one call; and calling a hash with output buffer equal to input buffer gives the digest of the original content.", "quantifier": "for every input, every pair of output lengths, every split into squeeze calls", "why_tests_cant": "All splits and lengths.", "anchors": ["Reference_Implementation_KEM/fips202.c:shake128,shake128_absorb,shake128_squeezeblocks", "Reference_Implementation_KEM/kem.c:crypto_kem_enc", "Reference_Implementation_KEM/SABER_indcpa.c:indcpa_kem_keypair"]}
{"id": "C25", "title": "Constant-time comparison decides equality", "statement": "verify(a,b,len) returns 0 if the two strings of length len are equal and 1 otherwise, for every length.", "quantifier": "for every length and every pair of byte strings", "why_tests_cant": "A comparison missing one byte or bit or overflowing the accumulator needs exhaustive inputs.", "anchors": ["Reference_Implementation_KEM/verify.c:verify"]}
{"id": "C26", "title": "Conditional move", "statement": "cmov(r,x,len,b) leaves r unchanged for b=0 and replaces the first len bytes of r by x for b=1, leaves bytes beyond len alone, with an address trace independent of b.", "quantifier": "for every length, contents and b in {0,1}", "why_tests_cant": "All byte values and lengths.", "anchors": ["Reference_Implementation_KEM/verify.c:cmov"]}
{"id": "C27", "title": "DRBG output follows CTR_DRBG", "statement": "randombytes(x,n) writes the first n bytes of AES(K,V+1) || AES(K,V+2) || ... with V a 128-bit big-endian counter modulo 2^128, and then replaces (K,V) by the CTR_DRBG update; randombytes_init sets the state from the 48-byte entropy input xor the personalisation string.", "quantifier": "for every block cipher with 16-byte blocks, every state (including counters about to wrap), every requested length", "why_tests_cant": "Carry propagation through all 16 counter bytes occurs once in 2^120 calls.", "anchors": ["Reference_Implementation_KEM/rng.c:randombytes,randombytes_init,AES256_CTR_DRBG_Update"]}
{"id": "C28", "title": "DRBG state depends only on the history of request lengths", "statement": "After any sequence of randombytes calls the generator state and all outputs are determined by the initial entropy and the list of requested lengths; two histories agreeing on a prefix of requests agree on the corresponding outputs; and each request moves the counter so that no block is output twice under one key within a request shorter than 2^128 blocks.", "quantifier": "for every history of calls", "why_tests_cant": "Unbounded histories.", "anchors": ["Reference_Implementation_KEM/rng.c:randombytes"]}
{"id": "C29", "title": "Seed expander output is independent of how it is requested", "statement": "Reading n1, n2, ... bytes from an initialised seed expander yields consecutive pieces of one fixed stream: concatenated outputs equal the single read of the total length, for every way of splitting the requests.", "quantifier": "for every seed, diversifier, sequence of request lengths within the limit", "why_tests_cant": "Buffer position and refill logic has corner cases at each split position.", "anchors": ["Reference_Implementation_KEM/rng.c:seedexpander,seedexpander_init"]}
{"id": "C30", "title": "Seed expander limits", "statement": "seedexpander_init refuses maxlen >= 2^32; seedexpander refuses a null output and any request not smaller than the remaining length without changing the context; otherwise remaining length decreases by the request, so the total delivered is always below maxlen.", "quantifier": "for every context, request and history of requests", "why_tests_cant": "Histories and 64-bit lengths cannot be enumerated.", "anchors": ["Reference_Implementation_KEM/rng.c:seedexpander,seedexpander_init"]}
{"id": "C31", "title": "Secret key layout and self-consistency", "statement": "A generated secret key embeds the public key at the documented offset followed by its hash and the 32-byte rejection seed; decapsulation uses only those embedded values, so it never needs the public key separately.", "quantifier": "for every random input", "why_tests_cant": "Offsets coincide accidentally only for some parameter sets.", "anchors": ["Reference_Implementation_KEM/kem.c:crypto_kem_keypair,crypto_kem_dec", "Reference_Implementation_KEM/api.h", "Reference_Implementation_KEM/SABER_params.h"]}
{"id": "C32", "title": "uSaber secret sampling is uniform on {-2,...,1}", "statement": "In the uSaber variant each secret coefficient is the two's-complement value of two consecutive bits of the expanded seed: it lies in [-2,1] and each value is produced by exactly one quarter of the bit patterns.", "quantifier": "for every seed/stream and coefficient index", "why_tests_cant": "Quantifies over all streams.", "anchors": ["Variants/uSaber-90s/ref/poly.c:GenSecret"]}
{"id": "C33", "title": "90s variant: SHA-256 and SHA-512 are the FIPS 180-4 functions for every length", "statement": "sha256 and sha512 of the 90s variants write the FIPS 180-4 digest for every input length below 2^61 bytes.", "quantifier": "for every input and length", "why_tests_cant": "Unbounded lengths; padding boundary cases.", "anchors": ["Variants/uSaber-90s/ref/sha256.c", "Variants/uSaber-90s/ref/sha512.c"]}
{"id": "C34", "title": "90s variant: the stream generator is AES-256 in counter mode", "statement": "The prf of the 90s variants writes the AES-256-CTR key stream (FIPS 197 block function) of every requested length with a zero nonce, although it is computed four blocks at a time by a bit-sliced implementation.", "quantifier": "for every key and output length", "why_tests_cant": "Bit-sliced S-box and linear layers must be right for all 2^256 keys.", "anchors": ["Variants/uSaber-90s/ref/aes256ctr.c"]}
{"id": "C35", "title": "Cortex-M0 decapsulation stays within its buffers", "statement": "The Cortex-M0 implementation's decryption writes only into the 64-byte message buffer it is given.", "quantifier": "for every secret key and ciphertext", "why_tests_cant": "The overflow is silent on most stacks.", "anchors": ["Cortex-M_Implementation_KEM/Cortex-M0/saber-ref-mem/src/kem.c:crypto_kem_dec", "Cortex-M_Implementation_KEM/Cortex-M0/saber-ref-mem/src/SABER_indcpa.c:indcpa_kem_dec"]}
{"id": "C36", "title": "Cortex-M0 3-bit packing round trip", "statement": "On the Cortex-M0 implementation, unpacking the 3-bit packing of a polynomial returns the polynomial modulo 8.", "quantifier": "for every coefficient vector", "why_tests_cant": "The path is not compiled for the default level.", "anchors": ["Cortex-M_Implementation_KEM/Cortex-M0/saber-ref-mem/src/pack_unpack.c:SABER_pack_3bit"]}
{"id": "C37", "title": "Cortex-M0 customised SHAKE separates domains", "statement": "The simple cSHAKE interface produces different outputs for different customisation values.", "quantifier": "for every input and pair of customisation values", "why_tests_cant": "No test vectors with two customisations.", "anchors": ["Cortex-M_Implementation_KEM/Cortex-M0/saber-ref-mem/src/fips202.c:cshake128_simple_absorb"]}
{"id": "C38", "title": "Cortex-M4 and reference implementations interoperate", "statement": "The Cortex-M4 implementations of the KEM (m4-tc4kara and m4-striding, with their multipliers in C and assembly) compute the same public keys, ciphertexts and shared keys as the reference implementation for the same random bytes; for m4-striding this supposes a compiler with which multiplication of type int wraps around (see C46).", "quantifier": "for every random input, public key, ciphertext and secret key produced by key generation", "why_tests_cant": "Two implementations with different internal representations must agree on all inputs.", "anchors": ["Cortex-M_Implementation_KEM/Cortex-M4/src/saber/m4-tc4kara", "Cortex-M_Implementation_KEM/Cortex-M4/src/saber/m4-striding"]}
{"id": "C39", "title": "randombytes serves every representable length", "statement": "randombytes(x,n) is defined for every n that an unsigned long long can express, whenever the buffer x has n bytes, however many calls were made before.", "quantifier": "for every length, buffer and context", "why_tests_cant": "The failing requests have 2^31 bytes or follow 2^31 calls.", "anchors": ["Reference_Implementation_KEM/rng.c:randombytes"]}
{"id": "C40", "title": "Known-answer driver computes the specified answers", "statement": "One pass of the known-answer test driver (seed the DRBG of rng.c with the 48-byte seed, generate a key pair, encapsulate, decapsulate, compare) writes the public key, secret key, ciphertext and shared key which the Saber specification gives when its random inputs are the successive 32-byte outputs of AES-256 CTR_DRBG instantiated with the seed, and it goes on to the next pass exactly when specified decapsulation returns the shared key. The seeds it writes to the request file are the outputs of the DRBG instantiated with the bytes 0 to 47.", "quantifier": "for every 48-byte seed, all twelve parameter sets, every earlier DRBG state and every content of the buffers; every number of requests", "why_tests_cant": "Response files hold 100 seeds per parameter set.", "anchors": ["Reference_Implementation_KEM/test/PQCgenKAT_kem.c:main", "Reference_Implementation_KEM/rng.c", "Reference_Implementation_KEM/kem.c"]}
{"id": "C41", "title": "Cortex-M0 reconciliation tolerates the largest possible error", "statement": "The message bits that ExtractKeyBits takes from the polynomial computed in decryption and the 128 bytes of GenCipherText are the encrypted bits whenever each coefficient of that polynomial differs from the sender's by an error of absolute value at most 224 modulo 1024; 224 cannot be replaced by 225.", "quantifier": "for every pair of polynomials, every message and every error within the bound", "why_tests_cant": "Errors near the bound occur with negligible probability.", "anchors": ["Cortex-M_Implementation_KEM/Cortex-M0/saber-ref-mem/src/SABER_indcpa.c:ExtractKeyBits", "Cortex-M_Implementation_KEM/Cortex-M0/saber-ref-mem/src/SABER_indcpa.c:GenCipherText"]}
{"id": "C42", "title": "Cortex-M0 multiplier is defined on reduced inputs", "statement": "pol_mul has no undefined behaviour when the coefficients of both factors are below 8192.", "quantifier": "for every pair of polynomials with 13-bit coefficients", "why_tests_cant": "Overflow of int wraps silently in the usual builds, and needs large coefficient sums.", "anchors": ["Cortex-M_Implementation_KEM/Cortex-M0/saber-ref-mem/src/poly_mul.c:pol_mul", "Cortex-M_Implementation_KEM/Cortex-M0/saber-ref-mem/src/poly_mul.c:school_book_mul2_16"]}
{"id": "C43", "title": "Cortex-M4 compressed secret keys decapsulate like standard ones", "statement": "With SABER_COMPRESS_SECRETKEY, key generation returns the public key of the reference implementation and a secret key whose expansion (each 4-bit coefficient sign-extended and packed to 13 bits, the rest unchanged) is the reference secret key; decapsulation with a compressed key returns the shared key which reference decapsulation returns with the expanded key.", "quantifier": "for every random input, ciphertext and byte string of the size of a compressed key, all three security levels", "why_tests_cant": "The option is not enabled in the repository, and sign extension matters for single coefficients.", "anchors": ["Cortex-M_Implementation_KEM/Cortex-M4/src/saber/m4-tc4kara/pack_unpack.c:POLmu2BS", "Cortex-M_Implementation_KEM/Cortex-M4/src/saber/m4-tc4kara/pack_unpack.c:BS2POLmu", "Cortex-M_Implementation_KEM/Cortex-M4/src/saber/m4-tc4kara/kem.c"]}
{"id": "C44", "title": "The multiplier of m4-tc4kara computes the product in the ring", "statement": "poly_mul and poly_mul_acc of the Cortex-M4 implementations m4-tc4kara (C and the assembly code they call) store, respectively add, a value congruent modulo 2^13 to the product of the two polynomials modulo x^256 + 1. The assembly code accesses no memory but the arrays passed to it and its stack frame, returns to its caller and preserves the stack pointer and r4 to r11.", "quantifier": "for every pair of arrays of 256 16-bit values, every contents of the output array, all registers, flags and stack contents on entry", "why_tests_cant": "There are 2^8192 inputs; the interpolation loses bits, so a result can be wrong for rare inputs only.", "anchors": ["Cortex-M_Implementation_KEM/Cortex-M4/src/saber/m4-tc4kara/asm_funcs.S:toom_cook_4way_mem_asm", "Cortex-M_Implementation_KEM/Cortex-M4/src/saber/m4-tc4kara/mult_toom4_256_16.s:karatsuba_64x64", "Cortex-M_Implementation_KEM/Cortex-M4/src/saber/m4-tc4kara/poly_mul.c"]}
{"id": "C45", "title": "The multiplier of m4-striding computes the product in the ring", "statement": "poly_mul and poly_mul_acc of the Cortex-M4 implementations m4-striding (C and the assembly code they call), compiled so that multiplication of type int wraps around, store, respectively add, a value congruent modulo 2^13 to the product of the two polynomials modulo x^256 + 1. They may overwrite their second operand, and their assembly code accesses no memory but the arrays passed to it and its stack frame, returns to its caller and preserves the stack pointer and r4 to r11.", "quantifier": "for every pair of arrays of 256 16-bit values, every contents of the output array, of the local variables, registers, flags and stack on entry", "why_tests_cant": "There are 2^8192 inputs; intermediate results share the space of the second operand and the interpolation loses bits.", "anchors": ["Cortex-M_Implementation_KEM/Cortex-M4/src/saber/m4-striding/poly_mul.c:toom_cook_4way_striding", "Cortex-M_Implementation_KEM/Cortex-M4/src/saber/m4-striding/kara.s"]}
{"id": "C46", "title": "The multiplier of m4-striding has no undefined behaviour", "statement": "poly_mul and poly_mul_acc of the Cortex-M4 implementations m4-striding have no undefined behaviour on polynomials with coefficients below 2^13.", "quantifier": "for every pair of polynomials", "why_tests_cant": "Overflow of type int goes unnoticed when the compiler happens to wrap around.", "anchors": ["Cortex-M_Implementation_KEM/Cortex-M4/src/saber/m4-striding/poly_mul.c:toom_cook_4way_striding"]}
{"id": "C47", "title": "The AVX2 multiplication computes products in the ring", "statement": "In the AVX2 implementation, evaluating a secret vector with TC_eval and then calling matrix_vector_mul (either order of the matrix) or vector_vector_mul gives coefficients congruent modulo 2^13 to those of the matrix-vector product, respectively the inner product, of polynomials modulo x^256 + 1. No array is accessed outside its bounds and no uninitialised lane influences the result.", "quantifier": "for all polynomials with 16-bit coefficients, every number of polynomials NUM_POLY >= 1, all prior contents of the buffers", "why_tests_cant": "Tests cannot cover all polynomials; the interpolation divides modulo 2^16 and loses bits, so that a wrong constant or lane can show for rare inputs only.", "anchors": ["AVX_Implementation_KEM/polymul/toom-cook_4way.c", "AVX_Implementation_KEM/polymul/scm_avx.c", "AVX_Implementation_KEM/polymul/matrix.c", "AVX_Implementation_KEM/SABER_indcpa.c:matrix_vector_mul", "AVX_Implementation_KEM/SABER_indcpa.c:vector_vector_mul"]}
{"id": "C48", "title": "The AVX2 implementation equals the reference implementation", "statement": "crypto_kem_keypair, crypto_kem_enc and crypto_kem_dec of the AVX2 implementation return, on the same inputs and random bytes, exactly the public key, secret key, ciphertext, shared secret and return value of the reference implementation, and have no undefined behaviour. This includes invalid ciphertexts and arbitrary bytes as keys.", "quantifier": "for LightSaber, Saber, FireSaber and their 90s variants, every random source, all keys and ciphertexts of the right length (valid or not), all prior contents of the output buffers and of uninitialised memory", "why_tests_cant": "Test vectors compare a few honestly generated runs; they cover neither arbitrary keys and ciphertexts nor stale memory.", "anchors": ["AVX_Implementation_KEM/kem.c", "AVX_Implementation_KEM/SABER_indcpa.c", "AVX_Implementation_KEM/cbd.c", "AVX_Implementation_KEM/pack_unpack.c", "Variants/uSaber-90s/avx2"]}
{"id": "C49", "title": "AES-256 with AES instructions gives the standard key stream, and Saber-90s with it equals the reference", "statement": "crypto_stream_aes256ctr of the AVX2 code writes the key stream of AES-256 in counter mode (SP 800-38A, 128-bit big-endian counter) to the first outlen bytes and nothing else, whenever the low 64 bits of the counter do not wrap in the stream or the initial counter is not a multiple of 8. aes256ctr_prf therefore writes the same bytes as the reference implementation, and the AVX2 implementation of Saber-90s has the same results as the reference.", "quantifier": "for every key, nonce (under the condition), output length and prior contents of memory; for the KEM: all levels, random sources, keys and ciphertexts, given that SHA256 and SHA512 of OpenSSL are SHA-256 and SHA-512", "why_tests_cant": "The key expansion, the eight-block interleaving and the tail handling depend on all bytes of the key and on the length; tests compare a few lengths with the zero nonce.", "anchors": ["Variants/uSaber-90s/avx2/crypto_stream_aes256ctr.c:crypto_stream_aes256ctr", "Variants/uSaber-90s/avx2/symmetric-aes.c:aes256ctr_prf", "Variants/uSaber-90s/avx2/kem.c"]}
{"id": "C50", "title": "AES-256 with AES instructions gives the standard key stream for every nonce", "statement": "crypto_stream_aes256ctr of the AVX2 code writes the key stream of AES-256 in counter mode with a 128-bit counter for every nonce and length.", "quantifier": "for every key, nonce and output length", "why_tests_cant": "The carry out of the low 64 bits happens for a vanishing fraction of the nonces.", "anchors": ["Variants/uSaber-90s/avx2/crypto_stream_aes256ctr.c:FUNC"]}
{"id": "C51", "title": "shake128x4 has no undefined behaviour", "statement": "shake128x4 of SaberX4_avx2 has no undefined behaviour when the four outputs have room for outlen bytes and the four inputs have inlen bytes.", "quantifier": "for every output length, input length and input", "why_tests_cant": "The stores beyond t0, ..., t3 hit other local variables and go unnoticed unless the compiler places something live there.", "anchors": ["Variants/SaberX4_avx2/fips202x4.c:shake128x4"]}
{"id": "C52", "title": "The four-fold hash functions compute FIPS 202 on each message", "statement": "sha3_256x4, sha3_512x4 and shake256x4 write to each of the four outputs the SHA3-256, SHA3-512 or SHAKE256 value of the corresponding input and nothing else, without undefined behaviour; so does shake128x4 with SHAKE128 once its four temporary buffers have the length of one block.", "quantifier": "for every four inputs of the same length, every output length and every prior contents of memory", "why_tests_cant": "All four lanes, all message lengths around multiples of the rate and all output lengths would have to be tried; a mistake in the vectorised permutation may show in one lane only.", "anchors": ["Variants/SaberX4_avx2/fips202x4.c:sha3_256x4", "Variants/SaberX4_avx2/fips202x4.c:sha3_512x4", "Variants/SaberX4_avx2/fips202x4.c:shake128x4", "Variants/SaberX4_avx2/fips202x4.c:shake256x4", "Variants/SaberX4_avx2/keccak4x/KeccakP-1600-times4-SIMD256.c:KeccakP1600times4_PermuteAll_24rounds"]}
{"id": "C53", "title": "The four-fold key encapsulation of SaberX4 has no undefined behaviour", "statement": "crypto_kem_keypair, crypto_kem_enc and crypto_kem_dec of SaberX4_avx2 have no undefined behaviour on buffers of the sizes of api.h.", "quantifier": "for every random source and all keys and ciphertexts of the right length", "why_tests_cant": "The test program passes although shake128x4 stores beyond its local buffers on every call; only a check of every store shows it.", "anchors": ["Variants/SaberX4_avx2/kem.c", "Variants/SaberX4_avx2/kem4x.c", "Variants/SaberX4_avx2/SABER_indcpa.c", "Variants/SaberX4_avx2/fips202x4.c:shake128x4"]}
{"id": "C54", "title": "SaberX4 equals four runs of the reference implementation", "statement": "Once the four temporary buffers of shake128x4 have the length of one block, crypto_kem_keypair, crypto_kem_enc and crypto_kem_dec of SaberX4_avx2 return what four successive calls of the reference implementation of Saber return on the four quarters of the buffers: the same public keys, secret keys, ciphertexts and shared secrets one after the other, with the random source left in the same state, and without undefined behaviour. One invalid ciphertext has no effect on the other three results.", "quantifier": "for every random source, all keys and ciphertexts of the right length (valid or not, different in the four quarters), all prior contents of the output buffers and of uninitialised memory", "why_tests_cant": "The test program runs the four instances on honestly generated keys and ciphertexts; mixtures of valid and invalid ciphertexts, arbitrary keys and stale memory are not covered.", "anchors": ["Variants/SaberX4_avx2/kem.c", "Variants/SaberX4_avx2/kem4x.c", "Variants/SaberX4_avx2/SABER_indcpa.c", "Variants/SaberX4_avx2/pack_unpack.c", "Variants/SaberX4_avx2/api.h"]}
{"id": "C55", "title": "The four-fold packing functions pack and unpack each vector", "statement": "The vectorised functions that pack four vectors of three polynomials with 10 or 13 bits per coefficient write to each of the four outputs the little-endian bit string of the coefficients modulo 2^10 or 2^13 and nothing beyond it; the unpacking functions deliver for each of the four inputs the coefficients of that bit string. They have no undefined behaviour.", "quantifier": "for all coefficients of type uint16_t (reduced or not), all byte strings, and every prior contents of the outputs and of local memory", "why_tests_cant": "A wrong shift or shuffle constant may affect one bit of one coefficient of one instance; 4 x 768 coefficients of 16 bits cannot be enumerated.", "anchors": ["Variants/SaberX4_avx2/pack_unpack.c:POLVECp2BSX4", "Variants/SaberX4_avx2/pack_unpack.c:POLVECq2BSX4", "Variants/SaberX4_avx2/pack_unpack.c:BS2POLVECpX4", "Variants/SaberX4_avx2/pack_unpack.c:BS2POLVECqX4", "Variants/SaberX4_avx2/SABER_indcpa.c:BS2POLq4x"]}
{"id": "C56", "title": "Cortex-M0 multiplier adds the negacyclic product modulo 2^16", "statement": "pol_mul(a, b, res) returns with res[k] = (res[k] + c[k]) mod 2^16, where c is the product of a and b in Z[x]/(x^256+1), whenever none of its signed products overflows; that is the case when the coefficients of a and b are small enough (for instance below 8192 and below 2048). If signed products wrap, this holds for all a and b. Nothing is read before it has been written.", "quantifier": "for all a, b, res with 256 coefficients of type uint16_t, and every prior contents of the local and global arrays", "why_tests_cant": "The two-level Karatsuba recursion works in place, with operands and partial products sharing one array; the interplay of nine calls per level can be wrong for particular coefficient positions only.", "anchors": ["Cortex-M_Implementation_KEM/Cortex-M0/saber-ref-mem/src/poly_mul.c:pol_mul", "Cortex-M_Implementation_KEM/Cortex-M0/saber-ref-mem/src/poly_mul.c:unrolled_kara_mem_top", "Cortex-M_Implementation_KEM/Cortex-M0/saber-ref-mem/src/poly_mul.c:unrolled_kara_mem_bottom", "Cortex-M_Implementation_KEM/Cortex-M0/saber-ref-mem/src/poly_mul.c:school_book_mul2_16"]}
{"id": "C57", "title": "Cortex-M0 randombytes fills the buffer with random bytes", "statement": "randombytes(x, n) writes exactly n bytes, and none of them is a constant when the register PRNG_WORD delivers arbitrary 16-bit values (the block size that rng_enable selects).", "quantifier": "for every n, every buffer of at least n bytes and every sequence of register values", "why_tests_cant": "The output looks random and every key made from it works; that a byte is always zero shows only by inspecting many outputs at one position.", "anchors": ["Cortex-M_Implementation_KEM/Cortex-M0/saber-ref-mem/src/prng.c:randombytes", "Cortex-M_Implementation_KEM/Cortex-M0/saber-ref-mem/src/prng.c:rng_enable"]}
{"id": "C58", "title": "Cortex-M0 key generation equals the reference", "statement": "crypto_kem_keypair of the Cortex-M0 code returns the same pk, sk and return value as the reference implementation of Saber with the same random bytes, whenever no signed product in pol_mul overflows, and always if signed products wrap. The result does not depend on what earlier calls left in the static variables of GenMatrix_poly or on uninitialised memory, and no access is out of bounds.", "quantifier": "for every random source, every contents of the static variables, of local arrays before their initialisation and of the output buffers", "why_tests_cant": "The matrix is generated piecewise from a 280-byte buffer with left-over bytes that are carried across polynomials; agreement for all 2^256 seeds and for every leftover state cannot be enumerated.", "anchors": ["Cortex-M_Implementation_KEM/Cortex-M0/saber-ref-mem/src/kem.c:crypto_kem_keypair", "Cortex-M_Implementation_KEM/Cortex-M0/saber-ref-mem/src/SABER_indcpa.c:indcpa_kem_keypair", "Cortex-M_Implementation_KEM/Cortex-M0/saber-ref-mem/src/SABER_indcpa.c:GenMatrix_poly", "Cortex-M_Implementation_KEM/Cortex-M0/saber-ref-mem/src/SABER_indcpa.c:byte_bank2pol_part", "Cortex-M_Implementation_KEM/Cortex-M0/saber-ref-mem/src/SABER_indcpa.c:GenSecret", "Cortex-M_Implementation_KEM/Cortex-M0/saber-ref-mem/src/cbd.c:cbd"]}
{"id": "C59", "title": "Cortex-M0 encapsulation equals the reference", "statement": "crypto_kem_enc of the Cortex-M0 code returns the same ciphertext and key as the reference implementation of Saber for the same public key and random bytes, so that the reference decapsulates to the same key.", "quantifier": "for every public key and every random source", "why_tests_cant": "The repository tests the Cortex-M0 code only against itself; the ciphertexts differ in single bits of the message part, at coefficients that depend on the key and the coins.", "anchors": ["Cortex-M_Implementation_KEM/Cortex-M0/saber-ref-mem/src/kem.c:crypto_kem_enc", "Cortex-M_Implementation_KEM/Cortex-M0/saber-ref-mem/src/SABER_indcpa.c:indcpa_kem_enc", "Cortex-M_Implementation_KEM/Cortex-M0/saber-ref-mem/src/SABER_indcpa.c:GenCipherText"]}
{"id": "C60", "title": "Cortex-M0 comparison of ciphertexts", "statement": "verify(a, b, n) returns 0 if the first n bytes of a and b are equal and 1 otherwise.", "quantifier": "for all n and all arrays of at least n bytes", "why_tests_cant": "A wrong result for one pattern of differing bits would go unnoticed; the set of pairs of strings is infinite.", "anchors": ["Cortex-M_Implementation_KEM/Cortex-M0/saber-ref-mem/src/verify.c:verify"]}
{"id": "C61", "title": "Cortex-M0 decapsulation returns the encapsulated key", "statement": "crypto_kem_dec of the Cortex-M0 code, given a key pair and a ciphertext made by crypto_kem_enc of the same code with that public key, returns the key that encapsulation returned.", "quantifier": "for every key pair, every random source and every ciphertext from which the secret key recovers the message", "why_tests_cant": "The decrypted polynomial is written over a 64-byte array on the stack; what a run then shows depends on the layout of the stack, and it says nothing about another compiler.", "anchors": ["Cortex-M_Implementation_KEM/Cortex-M0/saber-ref-mem/src/kem.c:crypto_kem_dec", "Cortex-M_Implementation_KEM/Cortex-M0/saber-ref-mem/src/SABER_indcpa.c:indcpa_kem_dec", "Cortex-M_Implementation_KEM/Cortex-M0/saber-ref-mem/src/SABER_indcpa.c:ExtractKeyBits"]}
{"id": "C62", "title": "Cortex-M0 decapsulation inverts encapsulation once the message is packed", "statement": "With the call of POL2MSG that is commented out in indcpa_kem_dec restored, crypto_kem_dec of the Cortex-M0 code returns the key of crypto_kem_enc for every ciphertext whose noise is between -224 and 224, and for any other ciphertext the key defined by re-encryption, comparison and implicit rejection.", "quantifier": "for every key pair, ciphertext and random source", "why_tests_cant": "The set of keys and ciphertexts is astronomically large, and the rounding constant differs from that of the reference, which matters only for rare noise.", "anchors": ["Cortex-M_Implementation_KEM/Cortex-M0/saber-ref-mem/src/SABER_indcpa.c:POL2MSG", "Cortex-M_Implementation_KEM/Cortex-M0/saber-ref-mem/src/SABER_indcpa.c:indcpa_kem_dec", "Cortex-M_Implementation_KEM/Cortex-M0/saber-ref-mem/src/SABER_indcpa.c:indcpa_kem_enc", "Cortex-M_Implementation_KEM/Cortex-M0/saber-ref-mem/src/kem.c:crypto_kem_dec", "Cortex-M_Implementation_KEM/Cortex-M0/saber-ref-mem/src/verify.c:cmov"]}
{"id": "C63", "title": "AVX2 key generation, encapsulation and decapsulation are constant-time", "statement": "The branches taken and the array indices used by crypto_kem_keypair, crypto_kem_enc and crypto_kem_dec of the AVX2 implementation are the same for any two runs with buffers of the prescribed sizes: they do not depend on the secret key, the random bytes, the message or the validity of the ciphertext.", "quantifier": "for every parameter set, random source, key, ciphertext and contents of uninitialised memory", "why_tests_cant": "A secret-dependent branch may be taken for one ciphertext in 2^256, for instance in the comparison of the re-encrypted ciphertext; timing tests sample few inputs.", "anchors": ["AVX_Implementation_KEM/kem.c:crypto_kem_keypair", "AVX_Implementation_KEM/kem.c:crypto_kem_enc", "AVX_Implementation_KEM/kem.c:crypto_kem_dec", "AVX_Implementation_KEM/SABER_indcpa.c:indcpa_kem_enc", "AVX_Implementation_KEM/SABER_indcpa.c:indcpa_kem_dec", "AVX_Implementation_KEM/verify.c:verify"]}
{"id": "C64", "title": "AES-256-CTR with AES instructions and the AVX2 KEM on it are constant-time", "statement": "The branches and indices of crypto_stream_aes256ctr with the AES instructions depend on the nonce and the output length, never on the key. The AVX2 KEM with this key stream, and with hash functions whose own trace depends on lengths only, has the same trace for any two runs.", "quantifier": "for every key, nonce, output length, parameter set, random source, ciphertext and contents of uninitialised memory", "why_tests_cant": "The counter carry branches on data that sits next to the key; only the whole key space shows that no key reaches a branch or an index.", "anchors": ["Variants/uSaber-90s/avx2/crypto_stream_aes256ctr.c:crypto_stream_aes256ctr", "Variants/uSaber-90s/avx2/crypto_stream_aes256ctr.c:aesni_key256_expand", "Variants/uSaber-90s/avx2/symmetric-aes.c:aes256ctr_prf", "AVX_Implementation_KEM/kem.c:crypto_kem_dec"]}
{"id": "C65", "title": "Each generator of SaberX4 is a CTR_DRBG of its own", "statement": "randombytes_init of SaberX4 puts each of its five generators into the state that SP 800-90A prescribes for the given entropy. In any interleaving of calls of randombytes, randombytes0, randombytes1, randombytes2 and randombytes3, the bytes returned by one function are those its generator gives for its own requests alone; calls of the others do not change them.", "quantifier": "for every block cipher, entropy, personalisation string and list of calls in any order", "why_tests_cant": "The interleavings are unbounded; a use of the wrong context in one of five copies of the same text shows only in particular orders of calls.", "anchors": ["Variants/SaberX4_avx2/rng.c:randombytes_init", "Variants/SaberX4_avx2/rng.c:randombytes", "Variants/SaberX4_avx2/rng.c:randombytes0", "Variants/SaberX4_avx2/rng.c:randombytes1", "Variants/SaberX4_avx2/rng.c:randombytes2", "Variants/SaberX4_avx2/rng.c:randombytes3"]}
{"id": "C66", "title": "The generators of SaberX4 give different bytes", "statement": "After randombytes_init of SaberX4, two different functions among randombytes, randombytes0, randombytes1, randombytes2 and randombytes3 give different bytes for equal requests.", "quantifier": "for every pair of functions, seed and request", "why_tests_cant": "A test looks at a few seeds; that the bytes are equal for every seed and every cipher is a statement about all of them.", "anchors": ["Variants/SaberX4_avx2/rng.c:randombytes_init", "Variants/SaberX4_avx2/rng.c:randombytes0", "Variants/SaberX4_avx2/rng.c:randombytes1"]}
{"id": "C67", "title": "The Cortex-M4 code is constant-time", "statement": "In crypto_kem_keypair, crypto_kem_enc and crypto_kem_dec of the Cortex-M4 implementations m4-tc4kara and m4-striding, for each parameter set, with and without compression of the secret key, the sequence of branch conditions and array indices of the C code, and of branches and memory addresses of the assembly multipliers it calls, is the same for all inputs of the right lengths: it does not depend on keys, ciphertexts, messages, random bytes or the contents of registers and memory, and in particular not on whether a ciphertext is valid. The runs are free of undefined behaviour.", "quantifier": "for all keys, ciphertexts, output buffers, random bytes, memory and register contents, all levels and both key formats", "why_tests_cant": "Equality of traces relates all pairs of runs; timing tests see a sample on one board, and invalid ciphertexts that differ in one late byte are rare.", "anchors": ["Cortex-M_Implementation_KEM/Cortex-M4/src/saber/m4-tc4kara/kem.c", "Cortex-M_Implementation_KEM/Cortex-M4/src/saber/m4-tc4kara/SABER_indcpa.c", "Cortex-M_Implementation_KEM/Cortex-M4/src/saber/m4-tc4kara/poly.c", "Cortex-M_Implementation_KEM/Cortex-M4/src/saber/m4-tc4kara/pack_unpack.c", "Cortex-M_Implementation_KEM/Cortex-M4/src/saber/m4-tc4kara/verify.c", "Cortex-M_Implementation_KEM/Cortex-M4/src/saber/m4-tc4kara/poly_mul.c", "Cortex-M_Implementation_KEM/Cortex-M4/src/saber/m4-striding/poly_mul.c", "Cortex-M_Implementation_KEM/Cortex-M4/src/saber/m4-tc4kara/asm_funcs.S", "Cortex-M_Implementation_KEM/Cortex-M4/src/saber/m4-striding/kara.s"]}
{"id": "C68", "title": "The assembly multipliers access memory and branch independently of data", "statement": "toom_cook_4way_mem_asm (m4-tc4kara) and kara_strd_mem_asm (m4-striding) make the same memory accesses, at the same offsets of the same arrays and of the stack and of the same widths, and take the same branches, in the same order, whatever the coefficients of the operands, of the result and of the auxiliary array, and whatever registers, flags and stack contain on entry. They do not fault.", "quantifier": "for all coefficients in uint16_t, all contents of registers, flags, stack, and of what memset leaves in registers", "why_tests_cant": "A trace on a board is one of 2^4096 operands; an address or branch that depends on a secret coefficient may differ for few of them.", "anchors": ["Cortex-M_Implementation_KEM/Cortex-M4/src/saber/m4-tc4kara/asm_funcs.S:toom_cook_4way_mem_asm", "Cortex-M_Implementation_KEM/Cortex-M4/src/saber/m4-tc4kara/mult_toom4_256_16.s:karatsuba_64x64", "Cortex-M_Implementation_KEM/Cortex-M4/src/saber/m4-striding/kara.s:kara_strd_mem_asm"]}
{"id": "C69", "title": "The four-fold key encapsulation of SaberX4 is constant-time", "statement": "With buffers t0, ..., t3 of one block in shake128x4 (as written they are too short and every run is undefined, C53), crypto_kem_keypair, crypto_kem_enc and crypto_kem_dec of SaberX4 have the same sequence of branch conditions and array indices for all inputs of the right lengths: it does not depend on keys, ciphertexts, messages, random bytes or uninitialised memory, and in particular not on which of the four ciphertexts are valid. The runs are free of undefined behaviour.", "quantifier": "for all keys, ciphertexts, output buffers, random bytes and uninitialised memory", "why_tests_cant": "Equality of traces relates all pairs of runs; a sample of timings cannot exclude a dependence that shows for few keys or for one combination of valid and invalid ciphertexts.", "anchors": ["Variants/SaberX4_avx2/kem.c", "Variants/SaberX4_avx2/kem4x.c", "Variants/SaberX4_avx2/SABER_indcpa.c", "Variants/SaberX4_avx2/pack_unpack.c", "Variants/SaberX4_avx2/fips202x4.c", "Variants/SaberX4_avx2/verify.c", "Variants/SaberX4_avx2/cbd.c"]}
