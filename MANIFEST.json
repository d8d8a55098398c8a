{
 "claims": [
  {
   "property": "C15",
   "status": "proved",
   "theorems": [
    "C15_montgomery_reduce",
    "C15_montgomery_reduce_generic",
    "C15_fqmul",
    "C15_barrett_reduce",
    "C15_signed_to_unsigned"
   ],
   "note": "all inputs in the documented ranges; no overflow or narrowing (outcome Ok)"
  },
  {
   "property": "C16",
   "status": "proved",
   "theorems": [
    "C16_compress",
    "C16_decompress"
   ],
   "note": "all coefficients and all d-bit values"
  },
  {
   "property": "C17",
   "status": "proved",
   "theorems": [
    "C17_scalar_round_trip",
    "C17_scalar_error",
    "C17_round_trip_du",
    "C17_round_trip_dv",
    "C17_error_du",
    "C17_error_dv"
   ],
   "note": "scalars and whole components, all parameter sets"
  },
  {
   "property": "C18",
   "status": "proved",
   "theorems": [
    "C18_tobytes",
    "C18_frombytes",
    "C18_deserialise_serialise",
    "C18_serialise_deserialise",
    "C18_encode_fields",
    "C18_polyvec_tobytes",
    "C18_polyvec_frombytes"
   ],
   "note": ""
  },
  {
   "property": "C19",
   "status": "proved",
   "theorems": [
    "C19_compress_du",
    "C19_compress_dv",
    "C19_decompress_du",
    "C19_decompress_dv",
    "C19_polyvec_compress_du",
    "C19_polyvec_decompress_du"
   ],
   "note": ""
  },
  {
   "property": "C20",
   "status": "proved",
   "theorems": [
    "C20_encode",
    "C20_encode_fips",
    "C20_decode_fips",
    "C20_decode_noisy"
   ],
   "note": ""
  },
  {
   "property": "C21",
   "status": "proved",
   "theorems": [
    "C21_cbd_eta1",
    "C21_cbd_eta2"
   ],
   "note": "every buffer, all parameter sets"
  },
  {
   "property": "C31",
   "status": "proved",
   "theorems": [
    "C31_memcmp",
    "C31_cmov_zero",
    "C31_sel_int16",
    "C31_sel_uint8",
    "C31_masks"
   ],
   "note": "all buffers of all lengths below 2^31"
  },
  {
   "property": "C24",
   "status": "proved",
   "theorems": [
    "C24_forward_ntt"
   ],
   "note": "Ok outcome also covers absence of overflow; residues given by the closed formula of FIPS 203 section 4.3"
  },
  {
   "property": "C25",
   "status": "proved",
   "theorems": [
    "C25_inverse_ntt",
    "C25_after_forward",
    "C25_before_forward",
    "C25_spec_inverse"
   ],
   "note": ""
  },
  {
   "property": "C26",
   "status": "proved",
   "theorems": [
    "C26_basemul",
    "C26_product",
    "C26_inner_product"
   ],
   "note": "single products and k-fold accumulated version, with the mulcache"
  },
  {
   "property": "C27",
   "status": "proved",
   "theorems": [
    "C27_permutation"
   ],
   "note": "every state of 25 lanes"
  },
  {
   "property": "C28",
   "status": "proved",
   "theorems": [
    "C28_sha3_256",
    "C28_sha3_512",
    "C28_shake256",
    "C28_shake128"
   ],
   "note": "messages below 2^63 bytes; SHAKE128 squeezed by any sequence of block calls"
  },
  {
   "property": "C29",
   "status": "proved",
   "theorems": [
    "C29_incremental"
   ],
   "note": "any list of chunks and of output buffers"
  },
  {
   "property": "C30",
   "status": "proved",
   "theorems": [
    "C30_shake256x4",
    "C30_shake128x4"
   ],
   "note": ""
  },
  {
   "property": "C36",
   "status": "proved",
   "theorems": [
    "C36_extract",
    "C36_xor",
    "C36_extract_bytes",
    "C36_xor_bits"
   ],
   "note": ""
  },
  {
   "property": "C22",
   "status": "proved",
   "theorems": [
    "C22_gen_matrix_entry",
    "C22_first_values",
    "C22_returns",
    "C22_gen_matrix_entry_x4",
    "C22_rej_uniform",
    "C22_first_256",
    "C22_split"
   ],
   "note": "every seed and every number of refills, single and four-way"
  },
  {
   "property": "C23",
   "status": "proved",
   "theorems": [
    "C23_gen_matrix",
    "C23_entries",
    "C23_transposed"
   ],
   "note": "every seed, both flags, all parameter sets"
  },
  {
   "property": "C32",
   "status": "proved",
   "theorems": [
    "C32_keypair_noise",
    "C32_enc_noise"
   ],
   "note": "every seed, all parameter sets: right eta and PRF index for every polynomial"
  },
  {
   "property": "C01",
   "status": "proved",
   "theorems": [
    "C01_keypair_derand",
    "C01_sizes"
   ],
   "note": "keypair_derand computes ML-KEM.KeyGen_internal for all seeds, memories and all three sets; sizes proved"
  },
  {
   "property": "C02",
   "status": "proved",
   "theorems": [
    "C02_enc_derand",
    "C02_sizes"
   ],
   "note": "enc_derand computes ML-KEM.Encaps_internal for every accepted key"
  },
  {
   "property": "C03",
   "status": "proved",
   "theorems": [
    "C03_rejects_iff",
    "C03_modulus_check",
    "C03_writes_nothing",
    "C03_enc"
   ],
   "note": "rejection iff some 12-bit field >= q, equals FIPS modulus check, nothing written; also for crypto_kem_enc"
  },
  {
   "property": "C04",
   "status": "proved",
   "theorems": [
    "C04_dec",
    "C04_sizes"
   ],
   "note": "crypto_kem_dec computes ML-KEM.Decaps_internal for every key that passes the hash check"
  },
  {
   "property": "C05",
   "status": "proved",
   "theorems": [
    "C05_rejects_iff",
    "C05_writes_nothing"
   ],
   "note": "returns -1 iff the SHA3-256 hash check fails; nothing written"
  },
  {
   "property": "C07",
   "status": "proved",
   "theorems": [
    "C07_implicit_rejection"
   ],
   "note": "implicit rejection: K if the re-encryption is equal, SHAKE256(z||c) otherwise; K only then"
  },
  {
   "property": "C08",
   "status": "proved",
   "theorems": [
    "C08_public_key",
    "C08_secret_key",
    "C08_checks"
   ],
   "note": "generated keys are accepted wherever copied and pass both FIPS checks"
  },
  {
   "property": "C09",
   "status": "proved",
   "theorems": [
    "C09_keypair_derand",
    "C09_enc_derand",
    "C09_dec",
    "C09_keypair",
    "C09_enc"
   ],
   "note": "no outcome UB for the five API functions"
  },
  {
   "property": "C10",
   "status": "proved",
   "theorems": [
    "C10_keypair_derand",
    "C10_enc_derand",
    "C10_dec",
    "C10_keypair",
    "C10_enc"
   ],
   "note": "only the output buffers change"
  },
  {
   "property": "C11",
   "status": "proved",
   "theorems": [
    "C11_keypair_derand",
    "C11_enc_derand",
    "C11_dec",
    "C11_both_return"
   ],
   "note": "results depend on input bytes only: two runs with different addresses, old contents, local garbage agree"
  },
  {
   "property": "C12",
   "status": "proved",
   "theorems": [
    "C12_keypair",
    "C12_enc",
    "C12_keypair_is_derand",
    "C12_enc_is_derand"
   ],
   "note": "randomised functions draw 64/32 bytes and are the derandomised ones on these"
  },
  {
   "property": "C33",
   "status": "proved",
   "theorems": [
    "C33_key_layout"
   ],
   "note": "secret key is dk_pke || ek || H(ek) || z, with reduced coefficients"
  },
  {
   "property": "C34",
   "status": "proved",
   "theorems": [
    "C34_keypair_derand",
    "C34_enc_derand",
    "C34_dec",
    "C34_keypair",
    "C34_enc",
    "C34_keypair_terminates",
    "C34_enc_terminates",
    "C34_dec_terminates",
    "C34_larger_allowance"
   ],
   "note": "returns iff the streams hold 256 accepted values; with given allowance iff that many blocks suffice"
  },
  {
   "property": "C35",
   "status": "proved",
   "theorems": [
    "C35_no_debug_failure"
   ],
   "note": "debug bound checks never fail in the five API functions"
  },
  {
   "property": "C13",
   "status": "proved",
   "theorems": [
    "C13_dec_leakage",
    "C13_dec_pair"
   ],
   "note": "The leakage of crypto_kem_dec is a function of the ciphertext, the embedded encapsulation key and its hash only (a simulator chosen before memory, secrets and uninitialised locals); pairwise form too. Source-level leakage model of CSem.v: branches, array indices, division operands, memcmp operands."
  },
  {
   "property": "C14",
   "status": "proved",
   "theorems": [
    "C14_keypair_derand_leakage",
    "C14_keypair_derand_pair",
    "C14_keypair_leakage",
    "C14_enc_derand_leakage",
    "C14_enc_derand_pair",
    "C14_enc_leakage"
   ],
   "note": "Leakage of key generation is a function of rho only, of encapsulation a function of the encapsulation key only; derandomised and randomised functions."
  },
  {
   "property": "C06",
   "status": "proved",
   "theorems": [
    "C06_honest_exchange",
    "C06_harmless_exchange",
    "C06_decrypts_iff"
   ],
   "note": "The noise polynomial is defined in SpecNoise.v from the FIPS 203 quantities; decryption is shown to return the message exactly when the noise is harmless. The probability that the noise is small is not modelled."
  },
  {
   "property": "C37",
   "status": "proved",
   "theorems": [
    "C37_history",
    "C37_no_undefined_behaviour",
    "C37_no_hidden_state"
   ],
   "note": "By induction over the history; buffers are checked against the initial memory only, since no call changes which addresses are accessible."
  },
  {
   "property": "C38",
   "status": "proved",
   "theorems": [
    "C38_avx2_samples",
    "C38_agrees_with_scalar",
    "C38_matrix_entry",
    "C38_matrix_entry_x4"
   ],
   "note": "The intrinsics are modelled in ModelAvx2.v after Intel's description (trusted). Elements between the returned count and 256 may differ from the scalar code, as the C code allows; the theorem says so."
  },
  {
   "property": "C39",
   "status": "proved",
   "theorems": [
    "C39_order",
    "C39_forward_ntt"
   ],
   "note": "Assembly transcribed instruction by instruction (ModelX86Asm.v); the semantics of the instructions (ModelX86.v) is trusted."
  },
  {
   "property": "C40",
   "status": "proved",
   "theorems": [
    "C40_inverse_ntt",
    "C40_after_forward"
   ],
   "note": "any int16 input"
  },
  {
   "property": "C41",
   "status": "proved",
   "theorems": [
    "C41_basemul",
    "C41_inner_product"
   ],
   "note": "single products and the accumulated pipeline for k = 2, 3, 4"
  },
  {
   "property": "C42",
   "status": "proved",
   "theorems": [
    "C42_reduce",
    "C42_reduce_agrees",
    "C42_tomont"
   ],
   "note": ""
  },
  {
   "property": "C43",
   "status": "proved",
   "theorems": [
    "C43_tobytes",
    "C43_frombytes",
    "C43_deserialise_serialise",
    "C43_permute"
   ],
   "note": ""
  },
  {
   "property": "C44",
   "status": "proved",
   "theorems": [
    "C44_frame"
   ],
   "note": "all nine routines; also: results are 16-bit words"
  },
  {
   "property": "C45",
   "status": "proved",
   "theorems": [
    "C45_permutation",
    "C45_agrees_with_portable",
    "C45_trace",
    "C45_shake256x4",
    "C45_shake128x4"
   ],
   "note": "The intrinsics are modelled after Intel's description (trusted)"
  },
  {
   "property": "C46",
   "status": "proved",
   "theorems": [
    "C46_keypair_derand",
    "C46_enc_derand",
    "C46_enc_derand_rejects",
    "C46_dec",
    "C46_dec_rejects",
    "C46_keypair",
    "C46_enc",
    "C46_enc_rejects",
    "C46_keypair_derand_no_ub",
    "C46_enc_derand_no_ub",
    "C46_dec_no_ub",
    "C46_keypair_no_ub",
    "C46_enc_no_ub",
    "C46_keypair_derand_agrees",
    "C46_enc_derand_agrees",
    "C46_dec_agrees",
    "C46_keypair_agrees",
    "C46_enc_agrees"
   ],
   "note": "All five API functions of the x86_64 build."
  },
  {
   "property": "C47",
   "status": "proved",
   "theorems": [
    "C47_dec_leakage",
    "C47_dec_pair",
    "C47_keypair_derand_leakage",
    "C47_keypair_derand_pair",
    "C47_keypair_leakage",
    "C47_enc_derand_leakage",
    "C47_enc_derand_pair",
    "C47_enc_leakage"
   ],
   "note": "The source-level leakage model of C13 and C14, plus every address accessed by the assembly routines."
  },
  {
   "property": "C48",
   "status": "proved",
   "theorems": [
    "C48_forward_ntt"
   ],
   "note": "Both profiles. The instructions are transcribed by tools/a64gen.py (ModelA64Asm.v); their semantics (ModelA64.v) is trusted."
  },
  {
   "property": "C49",
   "status": "proved",
   "theorems": [
    "C49_inverse_ntt",
    "C49_after_forward"
   ],
   "note": "any int16 input, both profiles"
  },
  {
   "property": "C50",
   "status": "proved",
   "theorems": [
    "C50_basemul",
    "C50_inner_product"
   ],
   "note": "k = 2, 3, 4, both profiles; includes the computation of the cache"
  },
  {
   "property": "C51",
   "status": "proved",
   "theorems": [
    "C51_reduce",
    "C51_reduce_agrees",
    "C51_tomont",
    "C51_mulcache",
    "C51_tobytes"
   ],
   "note": ""
  },
  {
   "property": "C52",
   "status": "proved",
   "theorems": [
    "C52_frame"
   ],
   "note": "nine routines in each profile"
  },
  {
   "property": "C53",
   "status": "proved",
   "theorems": [
    "C53_a64_samples",
    "C53_agrees_with_scalar"
   ],
   "note": "any length divisible by 24 for the assembly, any length for rej_uniform; one routine serves both profiles"
  },
  {
   "property": "C54",
   "status": "proved",
   "theorems": [
    "C54_routines",
    "C54_permutation",
    "C54_permutation_x4",
    "C54_agrees",
    "C54_agrees_x4"
   ],
   "note": "all seven routines, two of which no profile uses; all configurations"
  },
  {
   "property": "C55",
   "status": "proved",
   "theorems": [
    "C55_sha3_256",
    "C55_sha3_512",
    "C55_shake256",
    "C55_incremental",
    "C55_shake128",
    "C55_shake256x4",
    "C55_shake128x4",
    "C55_gen_matrix"
   ],
   "note": "all configurations"
  },
  {
   "property": "C56",
   "status": "proved",
   "theorems": [
    "C56_keypair_derand",
    "C56_enc_derand",
    "C56_enc_derand_rejects",
    "C56_dec",
    "C56_dec_rejects",
    "C56_keypair",
    "C56_enc",
    "C56_enc_rejects",
    "C56_keypair_derand_no_ub",
    "C56_enc_derand_no_ub",
    "C56_dec_no_ub",
    "C56_keypair_no_ub",
    "C56_enc_no_ub",
    "C56_keypair_derand_agrees",
    "C56_enc_derand_agrees",
    "C56_dec_agrees",
    "C56_keypair_agrees",
    "C56_enc_agrees"
   ],
   "note": "all five API functions, both arithmetic profiles, all Keccak configurations"
  },
  {
   "property": "C57",
   "status": "proved",
   "theorems": [
    "C57_dec_leakage",
    "C57_dec_pair",
    "C57_keypair_derand_leakage",
    "C57_keypair_derand_pair",
    "C57_keypair_leakage",
    "C57_enc_derand_leakage",
    "C57_enc_derand_pair",
    "C57_enc_leakage"
   ],
   "note": "The source-level leakage model of C13 and C14, plus every address accessed by the assembly routines."
  },
  {
   "property": "C58",
   "status": "proved",
   "theorems": [
    "C58_montgomery_reduce",
    "C58_barrett_reduce",
    "C58_fqmul",
    "C58_scalar_compress_d1",
    "C58_scalar_compress_d4",
    "C58_scalar_compress_d5",
    "C58_scalar_compress_d10",
    "C58_scalar_compress_d11",
    "C58_scalar_decompress_d4",
    "C58_scalar_decompress_d5",
    "C58_scalar_decompress_d10",
    "C58_scalar_decompress_d11",
    "C58_scalar_signed_to_unsigned_q",
    "C58_poly_compress_du",
    "C58_poly_decompress_du",
    "C58_poly_compress_dv",
    "C58_poly_decompress_dv",
    "C58_poly_tobytes",
    "C58_poly_frombytes",
    "C58_poly_frommsg",
    "C58_poly_tomsg",
    "C58_poly_getnoise_eta1_4x",
    "C58_poly_getnoise_eta2",
    "C58_poly_getnoise_eta1122_4x",
    "C58_poly_basemul_montgomery_cached",
    "C58_poly_tomont",
    "C58_poly_mulcache_compute",
    "C58_poly_reduce",
    "C58_poly_add",
    "C58_poly_sub",
    "C58_polyvec_compress_du",
    "C58_polyvec_decompress_du",
    "C58_polyvec_tobytes",
    "C58_polyvec_frombytes",
    "C58_polyvec_ntt",
    "C58_polyvec_invntt_tomont",
    "C58_polyvec_basemul_acc_montgomery_cached",
    "C58_polyvec_mulcache_compute",
    "C58_polyvec_reduce",
    "C58_polyvec_add",
    "C58_polyvec_tomont",
    "C58_poly_ntt",
    "C58_poly_invntt_tomont",
    "C58_basemul_cached",
    "C58_ntt_butterfly_block",
    "C58_ntt_layer",
    "C58_invntt_layer",
    "C58_poly_cbd_eta1",
    "C58_poly_cbd_eta2",
    "C58_rej_uniform",
    "C58_gen_matrix_entry_x4",
    "C58_gen_matrix_entry",
    "C58_gen_matrix",
    "C58_matvec_mul",
    "C58_indcpa_keypair_derand",
    "C58_indcpa_enc",
    "C58_indcpa_dec",
    "C58_mlkem_shake256_prf",
    "C58_mlkem_shake256_rkprf",
    "C58_ct_cmask_nonzero_u16",
    "C58_ct_cmask_nonzero_u8",
    "C58_ct_cmask_neg_i16",
    "C58_ct_sel_int16",
    "C58_ct_sel_uint8",
    "C58_ct_memcmp",
    "C58_ct_cmov_zero",
    "C58_shake128_absorb",
    "C58_shake128_squeezeblocks",
    "C58_shake256_inc_init",
    "C58_shake256_inc_absorb",
    "C58_shake256_inc_absorb_any_counter_refuted",
    "C58_shake256_inc_finalize",
    "C58_shake256_inc_finalize_any_counter_refuted",
    "C58_shake256_inc_squeeze",
    "C58_shake256_inc_squeeze_any_counter_refuted",
    "C58_shake256",
    "C58_sha3_256",
    "C58_sha3_512",
    "C58_shake128x4_absorb",
    "C58_shake256x4_absorb",
    "C58_shake128x4_squeezeblocks",
    "C58_shake256x4",
    "C58_poly_basemul_montgomery_cached_debug_refuted",
    "C58_polyvec_basemul_acc_montgomery_cached_debug_refuted"
   ],
   "note": "One theorem per contract. The theorems ending in _refuted are the two exceptions named in the claim. The contracts of kem.h are covered by C01-C05 and C10; those of randombytes, memcmp and the value barriers are about functions that the model takes as given."
  },
  {
   "property": "C59",
   "status": "proved",
   "theorems": [
    "C59_history",
    "C59_no_undefined_behaviour",
    "C59_any_builds",
    "C59_exchange"
   ],
   "note": "Histories as in C37, with a build for every call."
  },
  {
   "property": "C60",
   "status": "proved",
   "theorems": [
    "C60_poly_ntt",
    "C60_poly_invntt_tomont",
    "C60_poly_reduce",
    "C60_poly_tomont",
    "C60_poly_mulcache_compute",
    "C60_poly_tobytes",
    "C60_poly_frombytes",
    "C60_polyvec_ntt",
    "C60_polyvec_invntt_tomont",
    "C60_polyvec_reduce",
    "C60_polyvec_tomont",
    "C60_polyvec_mulcache_compute",
    "C60_polyvec_tobytes",
    "C60_polyvec_frombytes",
    "C60_polyvec_basemul_acc_montgomery_cached",
    "C60_rej_uniform",
    "C60_tobytes_native_signed_refuted"
   ],
   "note": "One theorem per contract; the theorem ending in _refuted is the documented range that does not hold. polyvec_basemul_acc_montgomery_cached is taken without the debug check of its second argument, as in C58."
  },
  {
   "property": "C61",
   "status": "proved",
   "theorems": [
    "C61_ntt",
    "C61_invntt",
    "C61_reduce",
    "C61_tomont",
    "C61_nttunpack",
    "C61_tobytes",
    "C61_frombytes",
    "C61_basemul",
    "C61_nttpack_returns"
   ],
   "note": "One theorem per routine; nttpack_avx2, which the library does not call, has no functional statement, only that it returns properly. Flags and instruction encoding are not modelled."
  },
  {
   "property": "C62",
   "status": "proved",
   "theorems": [
    "C62_keys",
    "C62_keys_pass",
    "C62_invalid_pk",
    "C62_invalid_sk_a",
    "C62_invalid_sk_b",
    "C62_invalid_ciphertext",
    "C62_invalid_ciphertext_events",
    "C62_tests_return",
    "C62_main"
   ],
   "note": "The number of rounds is a parameter (1000 in the code). All calls of main share one placement of the local arrays. Printing is not modelled."
  },
  {
   "property": "C63",
   "status": "proved",
   "theorems": [
    "C63_cbd_eta1",
    "C63_cbd_eta2",
    "C63_byte_strings",
    "C63_rej_uniform"
   ],
   "note": "The statements count byte strings; that the output of SHAKE is like uniform bytes is not a theorem. rej_uniform is counted on buffers of whole 3-byte groups, from an empty start."
  },
  {
   "property": "C64",
   "status": "proved",
   "theorems": [
    "C64_stream",
    "C64_chunking"
   ],
   "note": "SURF is specified as a recurrence. The counter is 128 bits wide and wraps around."
  },
  {
   "property": "C65",
   "status": "proved",
   "theorems": [
    "C65_ecb128",
    "C65_ecb192",
    "C65_ecb256",
    "C65_ctr128",
    "C65_ctr192",
    "C65_ctr256"
   ],
   "note": "The S-box is specified as the affine map of the inverse in GF(2^8). malloc succeeds."
  },
  {
   "property": "C66",
   "status": "proved",
   "theorems": [
    "C66_drbg",
    "C66_drbg_no_personalization"
   ],
   "note": "The specification has no reseed counter and no limits on requests, like the code."
  },
  {
   "property": "C67",
   "status": "proved",
   "theorems": [
    "C67_gen_kat",
    "C67_gen_nistkat",
    "C67_same"
   ],
   "note": "A line of output is a label and bytes; the hexadecimal digits are not modelled. The random bytes of a round of gen_NISTKAT are requested before the API calls."
  },
  {
   "property": "C68",
   "status": "proved",
   "theorems": [
    "C68_keygen",
    "C68_encaps",
    "C68_decaps",
    "C68_usage",
    "C68_one",
    "C68_printed",
    "C68_determined_refuted"
   ],
   "note": "Messages to standard error are not modelled. C68_determined_refuted is the witness for the statement that the output is not determined by the arguments."
  },
  {
   "property": "C69",
   "status": "proved",
   "theorems": [
    "C69_dec",
    "C69_dec_rejects",
    "C69_enc",
    "C69_enc_rejects",
    "C69_keypair",
    "C69_keypair_in_place",
    "C69_keypair_in_place_iff",
    "C69_enc_model",
    "C69_dec_model",
    "C69_keypair_refuted"
   ],
   "note": "For the build from portable C. The functions called are taken to read their inputs before they write their outputs, as their code does (ModelAlias.v says where). C69_keypair_refuted is the witness that key generation in place differs from FIPS 203."
  },
  {
   "property": "C70",
   "status": "proved",
   "theorems": [
    "C70_bench",
    "C70_rank_unique",
    "C70_error",
    "C70_component",
    "C70_comparison",
    "C70_equal",
    "C70_consistent_refuted",
    "C70_median_refuted"
   ],
   "note": "The code that is measured and the cycle counter are parameters of the model, and so is qsort. The two theorems with the suffix _refuted are the witnesses for the last part of the statement."
  },
  {
   "property": "C71",
   "status": "proved",
   "theorems": [
    "C71_tables",
    "C71_c_zetas",
    "C71_aarch64_block",
    "C71_aarch64_inverse_block",
    "C71_avx2_block",
    "C71_bitreverse",
    "C71_signed_reduce",
    "C71_barrett",
    "C71_montmul",
    "C71_barrett_unique"
   ],
   "note": "Not modelled of the script: the text around the numbers, clang-format and the comparison of files."
  },
  {
   "property": "C72",
   "status": "proved",
   "theorems": [
    "C72_relation",
    "C72_equal",
    "C72_barmul",
    "C72_montmul",
    "C72_barmul_bound",
    "C72_layers",
    "C72_ntt",
    "C72_factor_refuted",
    "C72_layer_refuted",
    "C72_montmul_bound",
    "C72_montmul_layers",
    "C72_aarch64",
    "C72_twiddle",
    "C72_fqmul",
    "C72_reduce_bound",
    "C72_fqmul_bound",
    "C72_product_bound"
   ],
   "note": "The theorems with the suffix _refuted are the witnesses for the factor 0.0204 of the script, which is no bound. The decimal constants of the script are rationals in the model."
  },
  {
   "property": "C73",
   "status": "proved",
   "theorems": [
    "C73_check_bounds",
    "C73_unique",
    "C73_assert",
    "C73_buffer",
    "C73_scalar",
    "C73_poly",
    "C73_poly_unsigned",
    "C73_polyvec",
    "C73_polyvec_unsigned",
    "C73_polyvec_first"
   ],
   "note": "Decimal output of the C library is that of Coq's standard library."
  },
  {
   "property": "C74",
   "status": "proved",
   "theorems": [
    "C74_compiles",
    "C74_stops",
    "C74_links",
    "C74_unique",
    "C74_unique_local",
    "C74_selects",
    "C74_custom_order",
    "C74_bytes",
    "C74_levels",
    "C74_prefix_refuted"
   ],
   "note": "The directives of the sources are taken over by a script, see DESIGN.md; names tracked are those with more than one implementation and what they use. C74_prefix_refuted refutes that every name for the linker carries a prefix."
  },
  {
   "property": "C75",
   "status": "proved",
   "theorems": [
    "C75_sha3_256",
    "C75_sha3_512",
    "C75_shake256",
    "C75_rkprf",
    "C75_shake256x4"
   ],
   "note": "The Keccak state and the array tmp of the fourfold function are local variables and so apart from the buffers."
  },
  {
   "property": "C76",
   "status": "proved",
   "theorems": [
    "C76_add",
    "C76_sub",
    "C76_polyvec_add",
    "C76_basemul",
    "C76_basemul_acc",
    "C76_mulcache",
    "C76_add_refuted",
    "C76_sub_refuted",
    "C76_basemul_acc_refuted"
   ],
   "note": "Portable code. C76_add_refuted and C76_sub_refuted refute that addition and subtraction are right for all addresses: they fail for every overlap that C76_add and C76_sub leave out. C76_basemul_acc_refuted gives one overlap left out by C76_basemul_acc for which the inner product is wrong."
  }
 ]
}