{"id": "C01", "title": "Deterministic key generation is FIPS 203 KeyGen_internal", "statement": "crypto_kem_keypair_derand(pk, sk, d||z) returns 0 and leaves in pk and sk exactly the ek and dk that FIPS 203 Algorithm 16 (ML-KEM.KeyGen_internal, including the K-PKE key generation it calls) assigns to (d, z) for the selected parameter set.", "quantifier": "every 64-byte coin string and each of the three parameter sets (ML-KEM-512/768/1024)", "why_tests_cant": "There are 2^512 coin strings per parameter set; known-answer tests cover a few dozen.", "anchors": ["mlkem/kem.c: crypto_kem_keypair_derand", "mlkem/indcpa.c: indcpa_keypair_derand"]}
{"id": "C02", "title": "Deterministic encapsulation is FIPS 203 Encaps_internal", "statement": "On a public key that passes the modulus check, crypto_kem_enc_derand(ct, ss, pk, m) returns 0 and leaves in ss and ct exactly the (K, c) that FIPS 203 Algorithm 17 (ML-KEM.Encaps_internal) assigns to (ek, m).", "quantifier": "every valid encapsulation key, every 32-byte message, each parameter set", "why_tests_cant": "The input space is astronomically large and the arithmetic has rare corner cases (reduction boundaries, rounding ties, rejection-sampling refills) that sampled vectors do not hit.", "anchors": ["mlkem/kem.c: crypto_kem_enc_derand", "mlkem/indcpa.c: indcpa_enc"]}
{"id": "C03", "title": "Encapsulation rejects exactly the malformed public keys", "statement": "crypto_kem_enc_derand returns -1 if and only if some 12-bit coefficient encoded in the first 384*k bytes of the public key is >= 3329 (equivalently ByteEncode12(ByteDecode12(pk)) differs from pk); when it returns -1 no byte of ct or ss (or anything else) has been written.", "quantifier": "every byte string of public-key length, every message, every previous content of the output buffers", "why_tests_cant": "Only exhaustive enumeration over all byte strings could show that no malformed key slips through and no valid key is refused.", "anchors": ["mlkem/kem.c: check_pk, crypto_kem_enc_derand", "FIPS 203 section 7.2"]}
{"id": "C04", "title": "Decapsulation is FIPS 203 Decaps_internal on keys passing the hash check", "statement": "If the stored hash in sk equals H of the public key stored in sk, crypto_kem_dec(ss, ct, sk) returns 0 and leaves in ss exactly the key FIPS 203 Algorithm 18 (ML-KEM.Decaps_internal) assigns to (dk, c), including the implicit-rejection branch.", "quantifier": "every ciphertext-length byte string (honest or adversarial), every secret-key-length byte string passing the hash check (including non-canonical secret polynomials), each parameter set", "why_tests_cant": "Adversarial ciphertexts and malformed secret polynomials cannot be enumerated; a single wrong branch is a chosen-ciphertext vulnerability.", "anchors": ["mlkem/kem.c: crypto_kem_dec", "mlkem/indcpa.c: indcpa_dec"]}
{"id": "C05", "title": "Decapsulation's -1 result means exactly 'hash check failed' and writes nothing", "statement": "crypto_kem_dec returns -1 if and only if bytes [768k+32, 768k+64) of sk differ from H of bytes [384k, 768k+32) of sk, and in that case ss is left as it was. (The header comment that ss then contains a pseudo-random value is therefore not what the code does.)", "quantifier": "every secret-key-length byte string, every ciphertext, every previous content of ss", "why_tests_cant": "Tests only flip a byte or two of one key; the claim is about every inconsistent key.", "anchors": ["mlkem/kem.c: check_sk, crypto_kem_dec", "mlkem/kem.h: crypto_kem_dec documentation"]}
{"id": "C06", "title": "Honest key exchange agrees whenever the decryption noise is below q/4", "statement": "If keypair_derand, enc_derand and dec are run in sequence on the same key pair and ciphertext, and every coefficient of the accumulated decryption noise (a polynomial defined from the error vectors, the secret and the ciphertext rounding) lies in [-832, 831], then all three calls return 0 and dec's shared secret equals enc's.", "quantifier": "all coins d, z, m satisfying the stated noise bound; each parameter set", "why_tests_cant": "Round-trip tests sample a negligible part of the coin space; the theorem says which coins could ever fail.", "anchors": ["mlkem/kem.c", "mlkem/indcpa.c", "FIPS 203 section 3.2, 5"]}
{"id": "C07", "title": "Implicit rejection is exact", "statement": "For a secret key passing the hash check, crypto_kem_dec yields SHAKE256(z || ct, 32 bytes) when the ciphertext differs from the re-encryption of the decrypted message, and the re-derived key otherwise; the ciphertext comparison looks at every byte, so there is no ciphertext different from the re-encryption that yields the re-derived key (unless the two 32-byte keys happen to coincide).", "quantifier": "every ciphertext and every secret key passing the hash check", "why_tests_cant": "A tampered ciphertext accepted in just one byte position or bit pattern breaks CCA security; tests try a few random corruptions.", "anchors": ["mlkem/kem.c: crypto_kem_dec lines 149-182", "mlkem/verify.h: ct_memcmp, ct_cmov_zero", "mlkem/symmetric-shake.c: mlkem_shake256_rkprf"]}
{"id": "C08", "title": "Generated keys are always accepted", "statement": "A public key written by crypto_kem_keypair_derand is never rejected by crypto_kem_enc_derand, and a secret key written by it is never rejected by crypto_kem_dec, whatever the ciphertext.", "quantifier": "every coin string, every message, every ciphertext, each parameter set", "why_tests_cant": "A key whose packing is non-canonical for one rare coefficient value would be rejected later; random tests miss it.", "anchors": ["mlkem/kem.c", "mlkem/indcpa.c: pack_pk", "mlkem/poly.c: poly_tobytes, poly_reduce"]}
{"id": "C09", "title": "No undefined behaviour in any API call", "statement": "No call of the keypair, enc or dec functions (derandomised or not) on buffers of the documented sizes performs an out-of-bounds access, a signed integer overflow, an invalid shift, or a value-changing narrowing conversion to a signed 16-bit type, whether the contents are honest or adversarial.", "quantifier": "all byte contents of all input buffers, all parameter sets, all numbers of rejection-sampling rounds", "why_tests_cant": "Overflow of an intermediate int or int16 depends on coefficient values and accumulates over NTT layers; tests and sanitizers only see the values they run.", "anchors": ["mlkem/*.c", "fips202/*.c", "cbmc contracts in the headers"]}
{"id": "C10", "title": "API calls write only their output buffers", "statement": "Each API function changes only the bytes of its documented outputs (pk[0..PK), sk[0..SK); ct[0..CT), ss[0..32); ss[0..32)); all other memory, including every input buffer, is unchanged.", "quantifier": "every memory contents and every placement of pairwise disjoint buffers", "why_tests_cant": "Tests put canaries around a few buffers; the claim covers every address.", "anchors": ["mlkem/kem.h: API contracts (assigns clauses)", "mlkem/kem.c"]}
{"id": "C11", "title": "Results do not depend on old output contents or uninitialised stack memory", "statement": "The bytes produced by each API function are a function of the documented inputs only: they are the same for every previous content of the output buffers and every content of uninitialised local arrays (including the dummy lanes of the 4-way samplers).", "quantifier": "every prior content of output buffers and every content of every uninitialised local array", "why_tests_cant": "A run always sees one particular stack garbage; dependence shows up only under other garbage.", "anchors": ["mlkem/kem.c", "mlkem/indcpa.c: dummy 0xFF lanes in indcpa_keypair_derand and indcpa_enc", "mlkem/poly.c"]}
{"id": "C12", "title": "Randomised entry points are the derandomised ones on fresh bytes", "statement": "crypto_kem_keypair draws exactly 64 bytes from randombytes and then behaves as crypto_kem_keypair_derand on them; crypto_kem_enc draws exactly 32 bytes and behaves as crypto_kem_enc_derand on them; crypto_kem_dec draws none.", "quantifier": "every random byte source and every input", "why_tests_cant": "Tests replace the byte source by one fixed stream.", "anchors": ["mlkem/kem.c: crypto_kem_keypair, crypto_kem_enc"]}
{"id": "C13", "title": "Decapsulation does not leak the secret through control flow or addresses", "statement": "In the source-level leakage model (every branch condition, loop count, array index, division operand and memcmp operand is observable), the leakage of crypto_kem_dec is the same for any two secret keys that agree on the embedded public key and its hash, for the same ciphertext: it depends on neither the secret polynomial vector, nor z, nor the decrypted message, nor whether the ciphertext is accepted.", "quantifier": "every ciphertext and every pair of secret keys with the same public part", "why_tests_cant": "Timing tests sample few keys and noisy measurements; non-interference is a property of pairs of executions over all secrets.", "anchors": ["mlkem/verify.h", "mlkem/kem.c: crypto_kem_dec", "README.md: Security"]}
{"id": "C14", "title": "Key generation and encapsulation do not leak secrets through control flow or addresses", "statement": "In the same leakage model, the leakage of crypto_kem_keypair_derand is the same for any two coin strings whose derived public seed rho is the same, and the leakage of crypto_kem_enc_derand is the same for any two messages under the same public key.", "quantifier": "every pair of coin strings with the same derived rho; every public key and every pair of messages", "why_tests_cant": "Non-interference relates pairs of executions over all secrets; no set of test runs settles it.", "anchors": ["mlkem/indcpa.c", "mlkem/poly.c: poly_frommsg, poly_compress_du, poly_compress_dv", "mlkem/cbd.c"]}
{"id": "C15", "title": "Modular reductions are congruent and bounded", "statement": "The Montgomery reduction returns, for every 32-bit input of absolute value below 2*q*2^15 (and in its general form up to the documented maximum), a 16-bit value congruent to a*2^-16 mod q within the documented bound; the Montgomery product of any int16 with a constant of absolute value below q/2 is bounded by q; the Barrett reduction maps every int16 to the centred representative in (-q/2, q/2); the final conversion maps it to [0,q).", "quantifier": "every int32/int16 input in the documented range", "why_tests_cant": "2^32 inputs for Montgomery; in practice tests sample.", "anchors": ["mlkem/reduce.c", "mlkem/reduce.h", "mlkem/poly.c: poly_reduce, poly_tomont"]}
{"id": "C16", "title": "Coefficient compression and decompression are the FIPS 203 roundings", "statement": "For d in {1,4,5,10,11} the division-free compression of every u in [0,q) equals round(2^d*u/q) mod 2^d with ties upward as in FIPS 203, and decompression of every d-bit value y equals round(q*y/2^d).", "quantifier": "every coefficient in [0,q), every d-bit value, all five d", "why_tests_cant": "Per coefficient the domain is finite, but the claim is used for all polynomials and the multiply-shift constants must be right at every rounding boundary.", "anchors": ["mlkem/poly.h: scalar_compress_d1/d4/d5/d10/d11, scalar_decompress_*"]}
{"id": "C17", "title": "Compression round trip and error bound", "statement": "Compressing a decompressed ciphertext component gives back the same bytes; decompressing a compressed coefficient changes it by at most round(q/2^(d+1)) modulo q.", "quantifier": "every compressed byte string, every polynomial with coefficients in [0,q), both parameter choices of (du,dv)", "why_tests_cant": "Quantifies over all polynomials / byte strings.", "anchors": ["mlkem/poly.c: poly_compress_du, poly_decompress_du, poly_compress_dv, poly_decompress_dv"]}
{"id": "C18", "title": "Polynomial serialisation is ByteEncode12/ByteDecode12 and round-trips", "statement": "Serialising a reduced polynomial is ByteEncode_12; deserialising yields the raw 12-bit fields; deserialise(serialise(p)) = p for every reduced p and serialise(deserialise(b)) = b for every 384-byte string b that encodes a reduced polynomial (serialise requires reduced input); as maps of the standard, ByteEncode_12 of the raw fields of b is b for every 384-byte string.", "quantifier": "every reduced polynomial and every 384-byte string", "why_tests_cant": "2^3072 byte strings.", "anchors": ["mlkem/poly.c: poly_tobytes, poly_frombytes"]}
{"id": "C19", "title": "Ciphertext packing is ByteEncode/Compress of FIPS 203", "statement": "The bytes produced for the u and v components are ByteEncode_d(Compress_d(.)) and unpacking is Decompress_d(ByteDecode_d(.)) for d = du, dv of the parameter set, with every byte of the output written.", "quantifier": "every polynomial with coefficients in [0,q) and every byte string of the right length", "why_tests_cant": "Bit-packing of 10- and 11-bit fields has many shift/mask cases which must be right for every coefficient combination.", "anchors": ["mlkem/poly.c", "mlkem/polyvec.c", "mlkem/indcpa.c: pack_ciphertext, unpack_ciphertext"]}
{"id": "C20", "title": "Message encoding round-trips and tolerates noise below q/4", "statement": "Encoding a 32-byte message as a polynomial maps bit b to b*1665; decoding returns the message from any polynomial whose coefficients differ from the encoding by a value in [-832, 831] modulo q.", "quantifier": "every message and every perturbation within the bound", "why_tests_cant": "2^256 messages times all perturbations.", "anchors": ["mlkem/poly.c: poly_frommsg, poly_tomsg"]}
{"id": "C21", "title": "Centred binomial sampling is SamplePolyCBD", "statement": "The eta=2 and eta=3 samplers map every byte string to exactly the polynomial of FIPS 203 Algorithm 8 (as signed values in [-eta, eta]).", "quantifier": "every 128-byte (eta=2) and 192-byte (eta=3) string", "why_tests_cant": "The bit-sliced popcount must be right for every bit pattern in every position.", "anchors": ["mlkem/cbd.c: poly_cbd_eta1, poly_cbd_eta2, cbd2, cbd3"]}
{"id": "C22", "title": "Rejection sampling is SampleNTT, independent of buffering", "statement": "Sampling a matrix entry (with the initial 3-block squeeze and one-block refills) yields exactly the first 256 values below q of the 12-bit stream cut from the SHAKE128 output, as in FIPS 203 Algorithm 7; splitting the byte stream at any multiple of 3 does not change the result; it returns as soon as, and only if, the stream contains 256 acceptable values.", "quantifier": "every 34-byte seed and every number of refills", "why_tests_cant": "Refills past three blocks are rare and long refill chains never occur in tests.", "anchors": ["mlkem/rej_uniform.c", "mlkem/indcpa.c: gen_matrix_entry, gen_matrix_entry_x4"]}
{"id": "C23", "title": "Batched matrix expansion is entry-wise and transposition is exact", "statement": "The expanded matrix has in row i, column j the polynomial sampled from rho||j||i (or rho||i||j when transposed), whatever mixture of 4-way batches and single entries is used for the parameter set; the transposed matrix is the transpose of the matrix.", "quantifier": "every 32-byte seed, both transposition flags, each parameter set", "why_tests_cant": "Batch entries interact through a shared refill loop; only particular seeds make lanes finish at different times.", "anchors": ["mlkem/indcpa.c: gen_matrix, gen_matrix_entry_x4, gen_matrix_entry"]}
{"id": "C24", "title": "Forward NTT computes the FIPS 203 transform without overflow", "statement": "For every polynomial with coefficients of absolute value below q, the forward transform's output is congruent mod q, in every slot, to the residue of the polynomial modulo X^2 - zeta^(2*BitRev7(i)+1), and is below 8q in absolute value; no intermediate value overflows 16 bits.", "quantifier": "every polynomial with |coefficients| < q", "why_tests_cant": "3329^256 polynomials; overflow depends on worst-case combinations.", "anchors": ["mlkem/ntt.c: poly_ntt, ntt_layer, ntt_butterfly_block", "mlkem/zetas.c"]}
{"id": "C25", "title": "Inverse NTT inverts the forward NTT", "statement": "For every int16 polynomial, the inverse transform's output is congruent mod q to 2^16 times the FIPS 203 inverse transform and is below 8q in absolute value; composed with the forward transform it is multiplication by 2^16 mod q.", "quantifier": "every polynomial of 256 int16 coefficients", "why_tests_cant": "Quantifies over all polynomials; the lazy reductions must be safe for all of them.", "anchors": ["mlkem/ntt.c: poly_invntt_tomont, invntt_layer"]}
{"id": "C26", "title": "NTT-domain multiplication is polynomial multiplication", "statement": "Transforming two polynomials, multiplying them in the NTT domain (with the precomputed multiplication cache) and transforming back gives, mod q, their product in Z_q[X]/(X^256+1); the k-fold accumulated version gives the inner product of vectors.", "quantifier": "every pair of polynomials (vectors of k polynomials) within the documented bounds", "why_tests_cant": "Bilinear identity over all polynomial pairs.", "anchors": ["mlkem/ntt.c: basemul_cached", "mlkem/poly.c: poly_basemul_montgomery_cached, poly_mulcache_compute", "mlkem/polyvec.c: polyvec_basemul_acc_montgomery_cached"]}
{"id": "C27", "title": "The Keccak permutation is FIPS 202 Keccak-p[1600,24]", "statement": "The unrolled permutation code maps every 1600-bit state to the state defined by 24 rounds of theta, rho, pi, chi, iota of FIPS 202, with rotation offsets and round constants as generated by the standard's own procedures.", "quantifier": "every 1600-bit state", "why_tests_cant": "2^1600 states.", "anchors": ["fips202/keccakf1600.c: KeccakF1600_StatePermute"]}
{"id": "C28", "title": "SHA3-256, SHA3-512, SHAKE128, SHAKE256 are the FIPS 202 functions", "statement": "For every message of every length (below 2^63 bytes) and, for SHAKE, every output length, the hash functions return the FIPS 202 digest (sponge with pad10*1 and the right domain-separation suffix).", "quantifier": "every message of every length, every output length", "why_tests_cant": "Infinite input space; padding has boundary cases at every multiple of the rate.", "anchors": ["fips202/fips202.c: sha3_256, sha3_512, shake256, shake128_absorb, shake128_squeezeblocks"]}
{"id": "C29", "title": "Incremental hashing is independent of chunking", "statement": "Absorbing a message into SHAKE256 in any number of pieces of any lengths, and squeezing the output in any number of pieces of any lengths, gives the same output bytes as the one-shot function on the concatenation.", "quantifier": "every list of input chunks and every list of output lengths (histories of calls)", "why_tests_cant": "Histories of calls are unbounded.", "anchors": ["fips202/fips202.c: shake256_inc_init, shake256_inc_absorb, shake256_inc_finalize, shake256_inc_squeeze"]}
{"id": "C30", "title": "Four-way SHAKE is four independent SHAKEs", "statement": "The batched SHAKE128 and SHAKE256 functions give in each lane exactly what the scalar function gives on that lane's input; lanes do not influence each other.", "quantifier": "every four inputs of equal length and every output length", "why_tests_cant": "Cross-lane interference depends on data in other lanes.", "anchors": ["fips202/fips202x4.c", "fips202/keccakf1600.c: KeccakF1600x4_*"]}
{"id": "C31", "title": "Constant-time helpers compute what they say", "statement": "The branch-free compare returns 0 if and only if the two buffers are equal; the conditional move overwrites the destination with the source exactly when the condition byte is zero and leaves it unchanged otherwise; the selects and masks behave as the documented conditionals.", "quantifier": "every buffer pair of every length up to INT_MAX, every condition value", "why_tests_cant": "A mask error on one byte value out of 2^(8n) pairs is invisible to sampling.", "anchors": ["mlkem/verify.h"]}
{"id": "C32", "title": "Noise vectors use the right PRF inputs", "statement": "The batched noise samplers produce for each position SamplePolyCBD_eta(PRF(seed, nonce)) with the nonces 0,1,...,2k-1 (key generation) and 0,...,2k (encryption) and with eta1 for the secret/ephemeral vectors (and the error vector in key generation) and eta2 for e1, e2; dummy lanes have no effect.", "quantifier": "every 32-byte seed, each parameter set", "why_tests_cant": "Swapped nonces or eta in one parameter set are caught only by vectors for that set; independence from dummy lanes is over all seeds.", "anchors": ["mlkem/poly.c: poly_getnoise_eta1_4x, poly_getnoise_eta2, poly_getnoise_eta1122_4x", "mlkem/indcpa.c"]}
{"id": "C33", "title": "Key layout", "statement": "The secret key written by key generation is the concatenation dk_pke || pk || H(pk) || z, its dk_pke part decodes to coefficients below q, and its pk part is byte-for-byte the public key output.", "quantifier": "every coin string, each parameter set", "why_tests_cant": "Offsets are checked by tests for sampled coins only; canonicity of all coefficients is universal.", "anchors": ["mlkem/kem.c: crypto_kem_keypair_derand"]}
{"id": "C34", "title": "Matrix sampling terminates exactly when FIPS 203 sampling does", "statement": "Key generation, encapsulation and decapsulation return if and only if the SHAKE128 streams of all matrix entries each contain 256 acceptable 12-bit values; in that case the number of refill rounds needed is the least that suffices, and any larger iteration allowance gives the same result.", "quantifier": "every seed", "why_tests_cant": "Non-termination cannot be observed by tests.", "anchors": ["mlkem/indcpa.c: gen_matrix, gen_matrix_entry, gen_matrix_entry_x4"]}
{"id": "C35", "title": "Debug-build bound assertions never fire", "statement": "In builds with the run-time bound checks enabled, no check on coefficient ranges (reduced, NTT-bounded, multiplication-bounded) fails during any API call, so the debug build does not abort.", "quantifier": "all inputs of all API calls, each parameter set", "why_tests_cant": "The checks are themselves tests; only a proof shows they hold on all inputs.", "anchors": ["mlkem/debug/debug.h: POLY_BOUND, POLYVEC_BOUND, POLY_UBOUND, SCALAR_BOUND", "mlkem/poly.c", "mlkem/polyvec.c", "mlkem/ntt.c"]}
{"id": "C36", "title": "Byte access to Keccak lanes is endianness-independent", "statement": "The little-endian fast path and the portable path for XORing bytes into, and extracting bytes from, the Keccak state give the same result on every state, offset and length.", "quantifier": "every state, every offset/length within the state", "why_tests_cant": "A given platform compiles only one of the two paths.", "anchors": ["fips202/keccakf1600.c: KeccakF1600_StateExtractBytes, KeccakF1600_StateXORBytes"]}
{"id": "C37", "title": "Histories of API calls behave like the abstract KEM", "statement": "Any finite sequence of API calls on a shared memory, each on pairwise disjoint in-bounds buffers, leaves the memory and the return codes that the abstract FIPS 203 machine produces for the same sequence: there is no hidden state carried from one call to the next.", "quantifier": "every finite history of calls, every memory contents, every random byte source", "why_tests_cant": "Unbounded histories.", "anchors": ["mlkem/kem.c", "mlkem/kem.h"]}
{"id": "C38", "title": "The vectorised rejection sampler agrees with the scalar one", "statement": "The AVX2 (intrinsics) implementation of rejection sampling returns the same count and the same accepted values as the portable scalar loop on every 504-byte buffer, and never stores outside the 256-coefficient output.", "quantifier": "every 504-byte buffer", "why_tests_cant": "2^4032 buffers; the shuffle table has 256 rows and the compaction interacts with end-of-buffer conditions.", "anchors": ["mlkem/native/x86_64/rej_uniform_avx2.c", "mlkem/rej_uniform.c"]}
{"id": "C39", "title": "The AVX2 forward NTT computes the NTT of FIPS 203", "statement": "On every polynomial with coefficients below q in absolute value, the assembly routine behind poly_ntt in the x86_64 build leaves, in the backend's own coefficient order, values congruent to the FIPS 203 transform and below 8q in absolute value; no 16-bit operation makes the result wrong by wrapping and no access is out of bounds.", "quantifier": "every input polynomial in range, every prior content of the vector registers", "why_tests_cant": "q^256 inputs; missing reductions only overflow on extreme coefficient patterns.", "anchors": ["mlkem/native/x86_64/ntt.S", "mlkem/native/x86_64/shuffle.inc", "mlkem/native/x86_64/fq.inc", "mlkem/native/x86_64/consts.c", "mlkem/ntt.c: poly_ntt"]}
{"id": "C40", "title": "The AVX2 inverse NTT inverts the NTT and multiplies by 2^16", "statement": "On every polynomial of arbitrary 16-bit coefficients in the backend's order, the assembly routine behind poly_invntt_tomont leaves in standard order values congruent to 2^16 times the FIPS 203 inverse transform and below 8q in absolute value.", "quantifier": "every array of 256 int16 values, every prior content of the vector registers", "why_tests_cant": "2^4096 inputs; the lazy reductions are only wrong for extreme intermediate values.", "anchors": ["mlkem/native/x86_64/intt.S", "mlkem/native/x86_64/shuffle.inc", "mlkem/native/x86_64/fq.inc", "mlkem/ntt.c: poly_invntt_tomont"]}
{"id": "C41", "title": "The AVX2 base multiplication and accumulation compute products in the NTT domain", "statement": "The assembly base multiplication yields 2^-16 times the FIPS 203 product of its arguments in the backend's order with coefficients below 2q, and the vectorised accumulation of k such products stays within int16, for k = 2, 3, 4; the whole x86_64 pipeline computes the inner product of polynomial vectors in R_q.", "quantifier": "every pair of polynomials (vectors) within the documented bounds, all parameter sets", "why_tests_cant": "Input space; the wrap-around of the 16-bit accumulation only shows for extreme coefficients with k = 4.", "anchors": ["mlkem/native/x86_64/basemul.S", "mlkem/native/x86_64/basemul.c", "mlkem/polyvec.c"]}
{"id": "C42", "title": "The AVX2 reduction and Montgomery conversion agree with the portable code", "statement": "The assembly routine behind poly_reduce returns exactly the canonical residues, as the portable code does, for all int16 coefficients; the one behind poly_tomont multiplies by 2^16 modulo q with results below q in absolute value.", "quantifier": "every array of 256 int16 values", "why_tests_cant": "Input space, although coefficientwise.", "anchors": ["mlkem/native/x86_64/fq.S", "mlkem/native/x86_64/fq.inc", "mlkem/poly.c: poly_reduce, poly_tomont"]}
{"id": "C43", "title": "The AVX2 serialisation agrees with ByteEncode12 and ByteDecode12", "statement": "Serialising a reduced polynomial held in the backend's order gives ByteEncode12 of its coefficients in standard order; deserialising gives the 12-bit fields in the backend's order; the two are inverse; the permutation applied to sampled matrix entries converts standard order to the backend's order.", "quantifier": "every reduced polynomial, every byte string of 384 bytes", "why_tests_cant": "Input space; the shuffles involve all 256 positions.", "anchors": ["mlkem/native/x86_64/shuffle.S", "mlkem/native/x86_64/profiles/default.h", "mlkem/poly.c: poly_tobytes, poly_frombytes"]}
{"id": "C44", "title": "The assembly routines stay inside their buffers and have data-independent access patterns", "statement": "Each assembly routine of the x86_64 backend runs without an out-of-bounds or misaligned access on buffers of the documented sizes, leaves its input arrays and the constant table unchanged, and accesses a sequence of addresses that does not depend on any data.", "quantifier": "every content of registers and arrays, all nine routines", "why_tests_cant": "A data-dependent access or a stray store can be specific to rare inputs; tests do not compare traces.", "anchors": ["mlkem/native/x86_64/*.S"]}
{"id": "C45", "title": "The AVX2 Keccak implementation permutes four states as FIPS 202 says", "statement": "On every four states of 25 lanes, the AVX2 implementation of the four-way Keccak-f[1600] permutation leaves in each of the four the FIPS 202 permutation of it, as the portable code does, with a sequence of memory accesses independent of the states; the four-way SHAKE128 and SHAKE256 built on it compute the FIPS 202 functions for all message and output lengths and all histories of squeeze calls.", "quantifier": "every four states, messages of any length, any sequence of squeeze calls", "why_tests_cant": "2^6400 inputs; a wrong element in one of the four states or a wrong shuffle constant may only be noticed where the lanes differ.", "anchors": ["fips202/native/x86_64/xkcp/KeccakP-1600-times4-SIMD256.c", "fips202/keccakf1600.c: KeccakF1600x4_StatePermute", "fips202/fips202x4.c"]}
{"id": "C46", "title": "The x86_64 build computes ML-KEM and agrees with the portable build", "statement": "Built with the x86_64 arithmetic and Keccak backends, the five API functions compute ML-KEM.KeyGen_internal, Encaps_internal and Decaps_internal of FIPS 203 (rejecting malformed keys with -1 and without writing), have no undefined behaviour, out-of-bounds or misaligned access, and give the same return value and the same final memory as the portable build.", "quantifier": "every input, memory, parameter set, random stream and content of uninitialised locals, any number of refills of the sampling loops", "why_tests_cant": "Test vectors sample a handful of seeds; an overflow in a vector routine, a wrongly permuted matrix entry or a missing reduction can show up for rare inputs only.", "anchors": ["mlkem/indcpa.c", "mlkem/kem.c", "mlkem/poly.c", "mlkem/polyvec.c", "mlkem/native/x86_64", "fips202/native/x86_64"]}
{"id": "C47", "title": "The x86_64 build does not leak secrets", "statement": "In the build with the x86_64 arithmetic and Keccak backends, the branches taken, the array indices, the addresses accessed by the assembly routines, the division operands and the memcmp operands of key generation, encapsulation and decapsulation are a function of public data only: rho for key generation, the encapsulation key for encapsulation, the ciphertext and the public part of the decapsulation key for decapsulation. In particular whether decapsulation accepts does not show.", "quantifier": "every pair of secrets, memory, parameter set, random stream and content of uninitialised locals and vector registers, any number of refills of the sampling loops", "why_tests_cant": "Constant-time tests observe the secrets they draw on one machine; a secret-dependent address in a vector routine, or a lookup table indexed by secret data, is seen only if the sampled secrets happen to reach it.", "anchors": ["mlkem/native/x86_64", "fips202/native/x86_64", "mlkem/indcpa.c", "mlkem/kem.c", "mlkem/verify.h"]}
{"id": "C48", "title": "The AArch64 forward NTT computes the NTT of FIPS 203", "statement": "On every polynomial with coefficients below q in absolute value, the assembly routine behind poly_ntt in the AArch64 build, in the clean and in the opt version, leaves values congruent to the FIPS 203 transform, in standard order and below 6q in absolute value; no 16-bit operation makes the result wrong by wrapping or saturating and no access is out of bounds.", "quantifier": "every input polynomial in range, both profiles, every prior content of the vector registers and the stack", "why_tests_cant": "q^256 inputs; a missing reduction only overflows on extreme coefficient patterns; the opt version is software-pipelined, so that a wrong register shows only in some iterations.", "anchors": ["mlkem/native/aarch64/ntt_clean.S", "mlkem/native/aarch64/ntt_opt.S", "mlkem/native/aarch64/aarch64_zetas.c", "mlkem/native/aarch64/profiles/clean.h", "mlkem/native/aarch64/profiles/opt.h", "mlkem/ntt.c: poly_ntt"]}
{"id": "C49", "title": "The AArch64 inverse NTT inverts the NTT and multiplies by 2^16", "statement": "On every polynomial of arbitrary 16-bit coefficients, the assembly routine behind poly_invntt_tomont, in the clean and in the opt version, leaves values congruent to 2^16 times the FIPS 203 inverse transform and below 8q in absolute value.", "quantifier": "every array of 256 int16 values, both profiles, every prior content of registers and stack", "why_tests_cant": "2^4096 inputs; the lazy reductions are only wrong for extreme intermediate values.", "anchors": ["mlkem/native/aarch64/intt_clean.S", "mlkem/native/aarch64/intt_opt.S", "mlkem/native/aarch64/aarch64_zetas.c", "mlkem/ntt.c: poly_invntt_tomont"]}
{"id": "C50", "title": "The AArch64 accumulated base multiplication computes inner products in the NTT domain", "statement": "For k = 2, 3 and 4 the assembly routine for the cached, accumulated base multiplication yields 2^-16 times the sum of the FIPS 203 products modulo q with coefficients below 4q, without overflow of its 32-bit accumulators; the whole AArch64 pipeline computes the inner product of polynomial vectors in R_q.", "quantifier": "every pair of polynomial vectors within the documented bounds, all parameter sets, both profiles", "why_tests_cant": "Input space; the 32-bit accumulation is only near its limit for extreme coefficients with k = 4.", "anchors": ["mlkem/native/aarch64/polyvec_clean.S", "mlkem/native/aarch64/polyvec_opt.S", "mlkem/native/aarch64/poly_clean.S", "mlkem/native/aarch64/poly_opt.S", "mlkem/polyvec.c"]}
{"id": "C51", "title": "The AArch64 reduction, Montgomery conversion, multiplication cache and serialisation", "statement": "The assembly routine behind poly_reduce returns exactly the canonical residues, as the portable code does; the one behind poly_tomont multiplies by 2^16 modulo q with results below q; the one behind poly_mulcache_compute gives the odd coefficients times the powers of zeta of FIPS 203; the one behind poly_tobytes is ByteEncode_12.", "quantifier": "every array of 256 int16 values (canonical residues for poly_tobytes), both profiles", "why_tests_cant": "Input space.", "anchors": ["mlkem/native/aarch64/poly_clean.S", "mlkem/native/aarch64/poly_opt.S", "mlkem/poly.c"]}
{"id": "C52", "title": "The AArch64 assembly routines respect memory bounds, the calling convention, and have data-independent addresses", "statement": "Each assembly routine of the AArch64 backend (except rejection sampling), from any contents of registers and arrays, writes only its result array and at most 64 bytes of stack below sp, reads only its arguments and its constants, accesses a fixed sequence of addresses, and preserves sp, x18 to x30 and the low halves of v8 to v15 as the procedure call standard requires.", "quantifier": "every content of registers, stack and arrays, all routines of both profiles", "why_tests_cant": "A clobbered callee-saved register or an out-of-bounds access by a vector need not change any result in a test; timing independence is not visible in outputs.", "anchors": ["mlkem/native/aarch64/ntt_clean.S", "mlkem/native/aarch64/ntt_opt.S", "mlkem/native/aarch64/intt_clean.S", "mlkem/native/aarch64/intt_opt.S", "mlkem/native/aarch64/poly_clean.S", "mlkem/native/aarch64/poly_opt.S", "mlkem/native/aarch64/polyvec_clean.S", "mlkem/native/aarch64/polyvec_opt.S"]}
{"id": "C53", "title": "The AArch64 rejection sampler delivers exactly the accepted candidates", "statement": "rej_uniform_asm_clean, on every buffer of a length divisible by 24, writes the first 256 accepted 12-bit candidates in order and returns their number, reading only the buffer and writing only the first 256 output elements and its own stack frame, whatever the stack contained. rej_uniform of the AArch64 build returns the same count and the same values as the portable build for every target, offset and length.", "quantifier": "every buffer, length, target, offset, previous contents of output and stack", "why_tests_cant": "The sampler compacts eight candidates at a time through a table of 256 rows and overshoots into a stack buffer; the rare patterns (tail of 24 bytes, count reaching 256 in the middle of a vector, stale stack) are hard to reach by random tests.", "anchors": ["mlkem/native/aarch64/rej_uniform_asm_clean.S", "mlkem/rej_uniform.c"]}
{"id": "C54", "title": "The Keccak assembly of the AArch64 backend computes the permutation of FIPS 202", "statement": "Each of the seven assembly routines of fips202/native/aarch64 replaces each of the one, two or four Keccak states it is given by KECCAK_f1600 of it, from any contents of registers and stack. It stays within its argument and the stack frame it reserves, preserves sp, x18 to x30, the low halves of v8 to v15 and its constants, and executes the same instructions on the same addresses whatever the data. KeccakF1600_StatePermute and KeccakF1600x4_StatePermute of the AArch64 build compute KECCAK_f1600, and the same as the portable build, in every configuration: both profiles, with or without SHA-3 instructions, on Apple or other systems, with or without slow barrel shifter.", "quantifier": "every state of 25 lanes of 64 bits, every content of registers and stack, all routines and configurations", "why_tests_cant": "The hybrid routines interleave scalar and vector code for four states, keep lanes rotated lazily between rounds and spill to the stack; a wrong rotation, register or spill slot in a configuration that is not the one of the test machine is never executed, and callee-saved registers are not checked by test vectors.", "anchors": ["fips202/native/aarch64/keccak_f1600_x1_scalar_asm_opt.S", "fips202/native/aarch64/keccak_f1600_x1_v84a_asm_clean.S", "fips202/native/aarch64/keccak_f1600_x2_v84a_asm_clean.S", "fips202/native/aarch64/keccak_f1600_x2_v8a_v84a_asm_hybrid.S", "fips202/native/aarch64/keccak_f1600_x4_v8a_scalar_hybrid_asm_opt.S", "fips202/native/aarch64/keccak_f1600_x4_scalar_v84a_asm_hybrid_opt.S", "fips202/native/aarch64/keccak_f1600_x4_v8a_v84a_scalar_hybrid_asm_opt.S", "fips202/native/aarch64/profiles/default.h", "fips202/native/aarch64/profiles/cortex_a55.h", "fips202/keccakf1600.c:90-103"]}
{"id": "C55", "title": "The hash functions of the AArch64 build compute FIPS 202, and its matrix is that of FIPS 203", "statement": "With the AArch64 Keccak backend in any configuration, sha3_256, sha3_512, shake256, the incremental SHAKE256 functions, the block-wise SHAKE128 functions and the four-way versions compute the functions of FIPS 202, for any history of absorb and squeeze calls; gen_matrix, which uses them and the AArch64 rejection sampler, gives the matrix A of FIPS 203 or its transpose.", "quantifier": "every message, length, output length and history of calls, every configuration, every content of registers, stack and uninitialised variables", "why_tests_cant": "Each configuration uses other routines, and a test run exercises only one; errors that depend on message length, on the order of calls or on left-over register contents show up in few runs.", "anchors": ["fips202/keccakf1600.c", "fips202/fips202.c", "fips202/fips202x4.c", "mlkem/indcpa.c:148-362", "fips202/native/aarch64/profiles/default.h", "fips202/native/aarch64/profiles/cortex_a55.h"]}
{"id": "C56", "title": "The AArch64 build computes ML-KEM and agrees with the portable build", "statement": "Built with the AArch64 arithmetic and Keccak backends, in any combination of arithmetic profile and Keccak configuration, the five API functions compute ML-KEM.KeyGen_internal, Encaps_internal and Decaps_internal of FIPS 203 (rejecting malformed keys with -1 and without writing), have no undefined behaviour or out-of-bounds access, and give the same return value and the same final memory as the portable build.", "quantifier": "every input, memory, parameter set, random stream, arithmetic profile, Keccak configuration and content of uninitialised locals, registers and stack, any number of refills of the sampling loops", "why_tests_cant": "Test vectors sample a handful of seeds on the one configuration of the test machine; an overflow between two routines with different bounds, or a routine that relies on left-over register contents, can show up for rare inputs or on other machines only.", "anchors": ["mlkem/indcpa.c", "mlkem/kem.c", "mlkem/poly.c", "mlkem/polyvec.c", "mlkem/native/aarch64", "fips202/native/aarch64"]}
{"id": "C57", "title": "The AArch64 build does not leak secrets", "statement": "In the build with the AArch64 arithmetic and Keccak backends, in any combination of arithmetic profile and Keccak configuration, the branches taken, the array indices, the addresses accessed by the assembly routines, the division operands and the memcmp operands of key generation, encapsulation and decapsulation are a function of public data only: rho for key generation, the encapsulation key for encapsulation, the ciphertext and the public part of the decapsulation key for decapsulation. In particular whether decapsulation accepts does not show.", "quantifier": "every pair of secrets, memory, parameter set, random stream, arithmetic profile, Keccak configuration and content of uninitialised locals, registers and stack, any number of refills of the sampling loops", "why_tests_cant": "Constant-time tests observe the secrets they draw on one machine; a secret-dependent address in one routine of one configuration, or a lookup table indexed by secret data, is seen only if that configuration is built and the sampled secrets happen to reach it.", "anchors": ["mlkem/native/aarch64", "fips202/native/aarch64", "mlkem/indcpa.c", "mlkem/kem.c", "mlkem/verify.h"]}
{"id": "C58", "title": "The function contracts in the headers hold", "statement": "For every function with a CBMC contract (reduce.h, poly.h, polyvec.h, ntt.h, ntt.c, cbd.h, rej_uniform.h, indcpa.h, indcpa.c, symmetric.h, verify.h, fips202.h, fips202x4.h): whenever a caller meets the requires clauses, the call returns without undefined behaviour, and the ensures clauses hold of the result. Two exceptions are part of the claim. The contracts of the incremental SHAKE256 functions do not require the counter in the state to be below the rate, and with a larger counter the functions access memory out of bounds. The contracts of the cached products do not require the bounds on b and b_cache that the debug checks in their bodies demand, so with MLKEM_DEBUG a call that meets the contract can abort.", "quantifier": "every argument that meets the requires clauses, all array contents, all lengths, all three parameter sets, any content of uninitialised locals, any number of refills of the sampling loops", "why_tests_cant": "A contract speaks about all callers, also those that do not exist yet; tests only call the functions with the arguments that the KEM produces, which are far inside the required ranges, so a contract that promises too much or requires too little is never noticed.", "anchors": ["mlkem/reduce.h", "mlkem/poly.h", "mlkem/polyvec.h", "mlkem/ntt.h", "mlkem/ntt.c", "mlkem/cbd.h", "mlkem/rej_uniform.h", "mlkem/indcpa.h", "mlkem/indcpa.c", "mlkem/symmetric.h", "mlkem/verify.h", "mlkem/cbmc.h", "fips202/fips202.h", "fips202/fips202x4.h"]}
{"id": "C59", "title": "Machines that run different builds understand each other", "statement": "For any history of API calls in which each call is made by the portable build, the x86_64 build or the AArch64 build in any configuration, the return codes, the memory and the number of random bytes drawn are those of the FIPS 203 machine, without undefined behaviour, and do not depend on which build made which call. In particular a secret that one build encapsulates for a key made by a second one is recovered by a third one whenever the noise is harmless.", "quantifier": "every history of any length, every assignment of builds and configurations to calls, every memory, parameter set, random stream and content of uninitialised locals, registers and stack", "why_tests_cant": "Tests run on one machine and use one build from key generation to decapsulation, so two builds that agree only with themselves pass; the number of assignments of builds to calls grows exponentially with the history.", "anchors": ["mlkem/kem.c", "mlkem/kem.h", "mlkem/native", "fips202/native"]}
{"id": "C60", "title": "The contracts in the headers hold for the functions with native code", "statement": "For each of the sixteen functions of ntt.h, poly.h, polyvec.h and rej_uniform.h whose result depends on native arithmetic: built for x86_64 or for AArch64 in either profile, a call that meets the requires clauses of its __contract__ returns without undefined behaviour, without an access outside the buffers in the assembly and without a failing debug check, and the ensures clauses hold. One documented range is wrong: poly_tobytes_native is described as accepting signed coefficients -Q+1..Q-1 and converting them, but neither backend does so.", "quantifier": "every backend, every argument that meets the requires clauses, every content of registers and uninitialised memory", "why_tests_cant": "The contracts are checked by CBMC for the C code only; tests run the assembly on the values that the KEM produces, far inside the permitted ranges.", "anchors": ["mlkem/ntt.h", "mlkem/poly.h", "mlkem/polyvec.h", "mlkem/rej_uniform.h", "mlkem/native/arith_native.h", "mlkem/native/x86_64", "mlkem/native/aarch64"]}
{"id": "C61", "title": "The x86_64 assembly obeys the calling convention", "statement": "On a machine with one memory of bytes, 64-bit addresses, a stack, call and ret: a C caller that calls ntt_avx2, invntt_avx2, reduce_avx2, tomont_avx2, nttunpack_avx2, ntttobytes_avx2, nttfrombytes_avx2 or basemul_avx2 with pointers to buffers that do not overlap gets control back at its return address. There is no fault on the way. The stack pointer, rbx, rbp and r12 to r15 are as before. Memory has changed only in the result buffer and in the 64 bytes below the stack pointer. The result buffer holds what FIPS 203 defines. Byte arrays need no alignment.", "quantifier": "every placement of code, buffers and stack, every content of registers and memory, every input in the documented range", "why_tests_cant": "Tests run with the few stack and buffer addresses that the compiler and the operating system choose, and a register or stack byte that is wrongly changed need not be visible in the result.", "anchors": ["mlkem/native/x86_64/basemul.S", "mlkem/native/x86_64/fq.S", "mlkem/native/x86_64/intt.S", "mlkem/native/x86_64/ntt.S", "mlkem/native/x86_64/shuffle.S", "mlkem/native/x86_64/arith_native_x86_64.h"]}
{"id": "C62", "title": "What the functional tests establish", "statement": "The five tests of test/test_mlkem.c and its main function, run on a build of the library for any machine, have no undefined behaviour, and their result is a statement about FIPS 203 and the random bytes. test_keys passes exactly if decapsulation gives the secret, and always if the noise is harmless. test_invalid_pk always passes. test_invalid_sk_a fails exactly if replacing ten bytes of the secret key leaves the decapsulated secret as it is. test_invalid_sk_b fails exactly if 32 random bytes are the hash of the public key. test_invalid_ciphertext changes the ciphertext and fails exactly if the changed one decapsulates to the same secret; this needs a coincidence of hash values or another ciphertext of the same secret. main returns 0 exactly if all tests pass in all rounds. A test ends if and only if the FIPS 203 key generation does, within the limit for the sampling loops.", "quantifier": "every stream of random bytes, every build and byte order, every parameter set, every number of rounds, every content of memory and of uninitialised arrays", "why_tests_cant": "A test cannot say what its own success means. It runs with a thousand random streams and one build.", "anchors": ["test/test_mlkem.c"]}
{"id": "C63", "title": "The samplers are unbiased", "statement": "Of the strings of 64 eta bytes, poly_cbd_eta1 and poly_cbd_eta2 give a polynomial f for exactly as many as the product over its coefficients x of the binomial coefficient (2 eta choose eta + x). So uniform bytes give independent coefficients with the centred binomial distribution. rej_uniform gives any two sequences of coefficients of the same length for the same number of buffers, so uniform bytes prefer no matrix entry, and every sequence that fits occurs.", "quantifier": "every polynomial with coefficients from -eta to eta, every sequence of coefficients below q, every buffer length and target", "why_tests_cant": "The number of buffers is 256^128 or more; sampling can only estimate a distribution.", "anchors": ["mlkem/cbd.c", "mlkem/rej_uniform.c"]}
{"id": "C64", "title": "The random bytes of the functional tests are one stream", "statement": "A program that fills any buffers one after the other with randombytes of test/notrandombytes gets consecutive pieces of one fixed stream of bytes, that of SURF applied to the counters 1, 2, 3, ...; how the bytes are divided into calls makes no difference, no call has undefined behaviour, every call ends, and no uninitialised memory reaches the output. So the random source that the model of the KEM takes as a parameter is one that the test programs have.", "quantifier": "every number of calls, every length of every buffer, beyond the wrap-around of the counter", "why_tests_cant": "The generator is what the tests run on. They use a few call lengths and some thousand bytes; the carries of the counter come after 2^32 evaluations.", "anchors": ["test/notrandombytes/notrandombytes.c"]}
{"id": "C65", "title": "The AES of the known-answer tests is FIPS 197", "statement": "Key expansion followed by ECB encryption (aes128/192/256_ecb) gives the blocks of FIPS 197, and key expansion followed by aes128/192/256_ctr gives the key stream of counter mode with a 12-byte nonce and a 32-bit big-endian block counter. No undefined behaviour; nothing outside the specified part of the output array changes; no uninitialised memory reaches the output, although the last group of blocks is encrypted together with uninitialised words.", "quantifier": "every key, every input, every number of blocks or bytes, arbitrary previous contents of memory", "why_tests_cant": "The code is a bitsliced circuit on four blocks at a time; tests use single blocks with a few keys. A wrong gate can show on a small part of the inputs, and a leak of the uninitialised lanes is not visible in values.", "anchors": ["test/nistrng/aes.c"]}
{"id": "C66", "title": "The generator of the known-answer tests is CTR_DRBG", "statement": "After nist_kat_init with any entropy input and personalization string (or none), whatever state the generator was in, the buffers that a program fills one after the other with randombytes of test/nistrng get the results of the corresponding requests to CTR_DRBG of SP 800-90A with AES-256 and without derivation function; no call has undefined behaviour and no uninitialised memory reaches the output.", "quantifier": "every entropy input, personalization string and previous state, every number and length of requests, including carries through the whole 128-bit counter", "why_tests_cant": "The known-answer files contain a hundred seeds and requests of a few lengths; carries of the counter beyond the last bytes, lengths that are not multiples of 16 and other strings do not occur.", "anchors": ["test/nistrng/rng.c", "test/nistrng/aes.c"]}
{"id": "C67", "title": "The known-answer programs print the values of FIPS 203", "statement": "gen_KAT and gen_NISTKAT print, round by round, exactly the keys, ciphertexts and shared secrets that FIPS 203 defines for the random bytes of the round: for gen_KAT the next 96 bytes of one SHAKE256 stream, for gen_NISTKAT the requests to CTR_DRBG instantiated with the seed of the round. They return 0 unless in some round decapsulation does not give the shared secret; then they stop there. The programs have no undefined behaviour, what they print does not depend on uninitialised memory, and every build prints the same.", "quantifier": "every number of rounds (for gen_NISTKAT one that fits in an int), every build, parameter set, placement of the buffers and content of uninitialised memory", "why_tests_cant": "The programs are run with 1000 and 100 rounds on the machines at hand, and only a hash of the output is compared.", "anchors": ["test/gen_KAT.c", "test/gen_NISTKAT.c", "mlkem/kem.c"]}
{"id": "C68", "title": "The ACVP program reads its arguments and prints the values of FIPS 203", "statement": "acvp_mlkem accepts exactly the argument lists of the documented forms (keyGen AFT z= d=, encapDecap AFT encapsulation ek= m=, encapDecap VAL decapsulation dk= c=, each value given by exactly the right number of hexadecimal digits of either case, further arguments ignored). For any other list its exit code is 1 and nothing is printed. For an accepted list it prints the FIPS 203 result in hexadecimal, and a printed line is again an argument for the same bytes. For a key that fails the FIPS 203 input check the result of the library is ignored: the program prints what its uninitialised arrays contain and exits with 0, so its output is not determined by its arguments. It has no undefined behaviour.", "quantifier": "every list of arguments of any lengths, every build, parameter set, placement of the buffers and content of uninitialised memory", "why_tests_cant": "The program is run on the published vectors: a few hundred well-formed argument lists, with digits in one case and keys that pass the checks.", "anchors": ["test/acvp_mlkem.c", "mlkem/kem.c"]}
{"id": "C69", "title": "Which overlaps of the caller's buffers the KEM functions survive", "statement": "The contracts of kem.h ask for buffers that do not overlap; the compiled code does not enforce it. Decapsulation gives the result of FIPS 203 for the key and ciphertext that were in memory before the call however the three buffers overlap. Encapsulation does so as long as the ciphertext and the shared secret do not overlap each other (both may lie over the key and the coins). Key generation does so as long as the two keys and the second half of the coins (z) are apart; the first half (d) may lie anywhere. With the coins at the start of the public key buffer, key generation still returns 0, but the secret key then holds bytes 32 to 63 of the public key in place of z, so the secret of the implicit rejection is public; the key pair is that of FIPS 203 only if z was equal to these bytes.", "quantifier": "every parameter set, byte order, memory, placement of the buffers, key, ciphertext, coins and content of uninitialised memory", "why_tests_cant": "The tests call the functions with separate arrays only, and the wrong z shows in no round trip: it changes only the secret returned for invalid ciphertexts.", "anchors": ["mlkem/kem.c", "mlkem/kem.h", "mlkem/indcpa.c", "mlkem/symmetric-shake.c"]}
{"id": "C70", "title": "The benchmark programs print medians and percentiles, if the measurements are less than 2^31 cycles apart", "statement": "bench_mlkem prints, for key generation, encapsulation and decapsulation, the element of rank 250 of the 500 measured durations and the elements of rank 5p for its eleven percentiles p, each divided by the 300 iterations; bench_components_mlkem the element of rank 100 of 200. This holds for every qsort that follows the C standard, also when the cycle counter wraps around, if no two durations of one function differ by 2^31 cycles or more. The comparison function truncates a 64-bit difference to int: it takes durations with equal low 32 bits for equal and is not transitive, so that without this condition the median printed can be wrong even with a correct qsort. No array is accessed out of bounds. If the shared secrets of a round differ the program prints only an error.", "quantifier": "every sequence of readings of the cycle counter, every qsort that follows the C standard, every content of uninitialised memory", "why_tests_cant": "Nobody tests the statistics of the benchmarks, and measurements that far apart need a process to be interrupted for about a second.", "anchors": ["test/bench_mlkem.c", "test/bench_components_mlkem.c"]}
{"id": "C71", "title": "The zeta tables are what scripts/autogenerate_files.py generates, and its helper functions are right for every argument", "statement": "The eight tables of zetas in mlkem/zetas.c, aarch64_zetas.c and x86_64_zetas.i are the lists the script generates, whatever the rounding of its floating-point divisions, as long as it is that of double precision. For every layer and block the constant is the power 17^BitRev7(2^layer + block) (or its inverse), in Montgomery form where the code needs it, as centred representative, together with the twisted constant of Barrett or Montgomery multiplication. bitreverse reverses the bits for every length and argument; signed_reduce gives the centred representative of every integer; prepare_root_for_barrett and prepare_root_for_montmul give, for every integer, a representative and its unique 16-bit twisted constant.", "quantifier": "every division that rounds as double precision does, every integer, every layer and block", "why_tests_cant": "The check of the continuous integration compares files on one machine; that the floating-point rounding in the script cannot change a table, and that the helpers are right on other arguments, needs a proof.", "anchors": ["scripts/autogenerate_files.py", "mlkem/zetas.c", "mlkem/native/aarch64/aarch64_zetas.c", "mlkem/native/x86_64/x86_64_zetas.i"]}
{"id": "C72", "title": "The claims of test/test_bounds.py hold for all integers, except the factor 0.0204 for Montgomery multiplication", "statement": "Barrett multiplication by doubling equals Montgomery multiplication with the constant modq_even(b R), for all integers a and b and any rounding of the twiddle. |barmul(a,b)| < 0.0508 |a| + q/2 for every a. Any number n of layers of butterflies with this multiplication, however wired, takes coefficients bounded by c to coefficients bounded by q ntt_layer_bound(0.0508, n, c); seven layers from q stay below 18295, as the comment in ntt_clean.S says. The bounds in the comments of reduce.c hold for every C. The three instructions of the AArch64 code compute barmul with the constants of the table generator; fqmul of the C code computes montmul_neg, except for a difference of q if the low half of the product is 2^15. The factor 0.0204 used for montmul_ntt_layer_bound is no bound: it fails for a zeta of the table and from the first layer on; 0.0254 is one.", "quantifier": "all integers a and b, every number and wiring of layers, every division that rounds as double precision does", "why_tests_cant": "The script itself tests ten million random pairs or all int16_t; montmul_ntt_layer_bound is computed and never tested.", "anchors": ["test/test_bounds.py", "mlkem/reduce.c:40-117", "mlkem/native/aarch64/ntt_clean.S"]}
{"id": "C73", "title": "The debug checks report exactly the values out of bounds, and end the program exactly if there is one", "statement": "mlkem_debug_check_bounds prints one line, with file, line number, index, value and bounds, for each value of the array that is not strictly between the bounds, in ascending order of the index, and then calls exit(1) exactly if there was one; mlkem_debug_assert the same for a condition. The message never overflows the buffer of 256 bytes; longer ones are cut. Each macro (SCALAR_BOUND, BOUND, UBOUND, POLY_BOUND, POLY_UBOUND, POLYVEC_BOUND, POLYVEC_UBOUND) ends the program exactly when the abstract check in the other models has the outcome DebugCheck, and otherwise prints nothing; for a vector only the first polynomial that fails is reported.", "quantifier": "every array, length, pair of bounds, description, file name and line number", "why_tests_cant": "The checks pass in every test; what they do when they fail is never executed.", "anchors": ["mlkem/debug/debug.c", "mlkem/debug/debug.h"]}
{"id": "C74", "title": "Every configuration of the preprocessor either is stopped by #error or gives a build that links and uses the intended implementation", "statement": "The source files pass the preprocessor exactly when the byte order is little, big or unknown, no processor is demanded (FORCE_AARCH64, FORCE_X86_64) that is not there, and the two native processors are not both present in a native build; otherwise #error stops mlkem/poly.c. In every build that passes, each name used by a function that has a portable and a native body, or by a native wrapper, is defined exactly once, in the same file or under the same prefixed name for the linker in exactly one source file, and no name is defined twice. Each of these functions uses exactly the implementation wanted for the processor and options (AArch64 clean or optimised, AVX2, the Keccak variants for SHA3, Apple and slow barrel shifters, or the portable code). The matrix is permuted into the custom order exactly when the AVX2 transform is in use. The state of Keccak is accessed bytewise only on processors known to be little-endian. Builds for different parameter sets share only the names of FIPS 202 and the unprefixed placeholders empty_cu_*; that every name has a prefix is false.", "quantifier": "every combination of the macros MLKEM_USE_NATIVE, __AARCH64EL__, _M_ARM64, __x86_64__, __AVX2__, __BYTE_ORDER__, FORCE_AARCH64, FORCE_X86_64, MLKEM_USE_NATIVE_AARCH64_CLEAN, __ARM_FEATURE_SHA3, __APPLE__, SYS_AARCH64_SLOW_BARREL_SHIFTER and MLKEM_K (2, 3, 4 or undefined), every source file and every tracked name", "why_tests_cant": "There are 32768 combinations; continuous integration builds a handful of them, on the machines at hand.", "anchors": ["mlkem/sys/cpucap.h", "mlkem/native/arith_native.h", "mlkem/native/profile.h", "mlkem/native/aarch64/profiles/opt.h", "mlkem/native/aarch64/profiles/clean.h", "mlkem/native/x86_64/profiles/default.h", "fips202/native/fips202_native.h", "fips202/native/aarch64/profiles/default.h", "mlkem/common.h", "fips202/namespace.h", "mk/schemes.mk", "mk/crypto.mk"]}
{"id": "C75", "title": "The hash functions are right when their buffers overlap", "statement": "SHA3-256, SHA3-512, SHAKE256, the function J of implicit rejection and the fourfold SHAKE256 read the input and write the output in one memory, byte by byte. Wherever the input and the output lie, overlapping or not, the call succeeds, the output buffer then holds the hash of the input as it was before the call, and no other byte of memory has changed. Only the four outputs of the fourfold function have to be apart from each other; its inputs may overlap each other and the outputs.", "quantifier": "all memories, all addresses of the buffers, all lengths of input and output below 2^63, all parameter sets for J, both byte orders of the Keccak state", "why_tests_cant": "The tests call the hash functions on separate buffers; the ways in which two buffers of arbitrary length can overlap are unbounded.", "anchors": ["fips202/fips202.c", "fips202/fips202x4.c", "fips202/keccakf1600.c", "mlkem/symmetric.h", "mlkem/symmetric-shake.c"]}
{"id": "C76", "title": "Which overlaps of polynomials addition, subtraction and multiplication survive", "statement": "poly_add, poly_sub, polyvec_add and poly_basemul_montgomery_cached read and write one memory, coefficient by coefficient. If the result does not begin inside another argument after that argument's first coefficient, the call succeeds, the result is the sum, difference or product in the NTT domain of the polynomials as they were before the call, and nothing else in memory has changed; so every argument may be overwritten by the result. The cache of the multiplication has to begin at least 127 coefficients after the result or end before it. polyvec_basemul_acc_montgomery_cached likewise computes the inner product of the vectors as they were before the call if the result does not begin inside a vector after its first coefficient; its cache has to begin at least 128 coefficients after the result or end before it. poly_mulcache_compute computes the cache of the polynomial as it was before the call if the cache begins at most two coefficients after the beginning of the polynomial or after its end. For every other overlap of the two arguments of poly_add or poly_sub there are polynomials whose sum or difference is wrong, and for each parameter set there are vectors whose inner product is wrong when written over the second polynomial of the first: that the functions are right for all addresses is false.", "quantifier": "all memories of 16-bit coefficients, all addresses of the arguments, all polynomials whose sums and differences fit 16 bits, a first factor below q in absolute value for the products, a second vector below 8q for the inner product, all parameter sets", "why_tests_cant": "The tests and the contracts in the headers use separate arguments only; each of the 511 relative positions of two arguments has 2^4096 or more contents.", "anchors": ["mlkem/poly.c", "mlkem/polyvec.c", "mlkem/ntt.c", "mlkem/poly.h"]}
