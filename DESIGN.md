# Formal model of mlkem-native in Rocq (Coq 8.16.1)

## What is modelled

The portable C implementation ("C backend") of ML-KEM-512/768/1024 in /repo:
`mlkem/{kem,indcpa,poly,polyvec,ntt,reduce,cbd,rej_uniform,symmetric-shake,zetas}.c`,
`mlkem/{verify,poly,reduce,params}.h`, `fips202/{fips202,fips202x4,keccakf1600}.c`.
Each C function is one Gallina definition with a comment citing file and lines.

### The C semantics used (theories/CSem.v)

* Integers are `Z`. Unsigned arithmetic wraps explicitly (`u8/u16/u32/u64`).
  Signed `int` arithmetic (32-bit) is checked: a result outside
  [-2^31, 2^31) is the outcome `UB SignedOverflow`.
* Conversions to a signed 16-bit type: where the code documents that it relies on
  two's-complement wrapping (`cast_uint16_to_int16`, `ct_sel_int16`,
  `ct_cmask_neg_i16`) the model wraps; everywhere else a value-changing conversion is
  the error outcome `UB Narrowing`, so its absence is proved.
* Right shift of a negative value is arithmetic (as the code documents).
* Arrays are lists; an access outside the list is `UB OutOfBounds`. Out-parameters are
  passed as the old contents and returned as the new contents.
* Uninitialised local arrays are filled from an arbitrary "junk" function; theorems
  quantify over it.
* The run-time bound checks of debug builds (`POLY_BOUND` etc.) are modelled as the
  error outcome `UB DebugCheck`, so their absence is proved too. C73 proves that this outcome stands
  for what `debug.c` does.
* The only unbounded loop (rejection sampling) takes fuel; running out is the separate
  outcome `NoFuel`.
* Every computation also carries a leakage trace: loop counts, branch conditions,
  array indices, division operands, and operands of `memcmp`.
* The top-level functions of `kem.c` work on a flat memory `Z -> option Z`
  (address to byte; `None` = not accessible) with pointers as addresses. Overlapping
  buffers are outside the documented contract (`memory_no_alias`) and are the error
  outcome `UB Overlap`.

### The x86_64 backend

* `theories/ModelAvx2.v`: the AVX2 rejection sampler `rej_uniform_avx2.c` and the
  functions that call it. Each intrinsic is a Gallina function on lists of lanes or bytes.
* `theories/ModelX86.v`: semantics of the AVX2 and integer instructions that the assembly
  files use, on sixteen vector registers of sixteen 16-bit words. Memory is a list of
  separate arrays of 16-bit words; an address is an array and a byte offset. An access
  outside its array, or an aligned access at a misaligned offset, has no result. The list
  of addresses accessed is kept as a trace.
* `theories/ModelX86Asm.v`: `ntt.S`, `intt.S`, `basemul.S`, `fq.S`, `shuffle.S` and the
  table of `consts.c`, with the assembler macros kept as Gallina functions.
* `theories/ModelX86Abi.v`: the same routines on a machine with one memory of bytes, 64-bit
  addresses, all general-purpose registers, an instruction pointer and the stack. It has every label of
  the .S files, with `call`, `ret` and the stack alignment of `basemul_avx2`.
* `theories/ModelX86Poly.v`: `basemul.c`, `profiles/default.h`, and the functions of
  `poly.c`, `ntt.c` and `polyvec.c` that call the native code.
* `theories/ModelX86Keccak.v`: the four-way AVX2 Keccak permutation
  (`KeccakP-1600-times4-SIMD256.c`, generated from its macros) and `fips202x4.c` on top of
  it. A 256-bit register is a list of four 64-bit words.
* `theories/ModelX86Indcpa.v`, `theories/ModelX86Kem.v`: `indcpa.c` and `kem.c` as built
  for x86_64, on top of all of the above. Matrix entries, key vectors and noise in the NTT
  domain are in the backend's coefficient order; `gen_matrix` permutes the sampled entries.

### The AArch64 backend

* `theories/ModelA64.v`: semantics of the AArch64 instructions that the assembly files use,
  on thirty-two vector registers of eight 16-bit words and the general-purpose registers.
  Memory is a list of separate arrays as for x86_64; array 0 is the 64 bytes of stack below
  the caller's. Loops run as long as their counter is not zero.
* `theories/ModelA64Asm.v`: `ntt_{clean,opt}.S`, `intt_{clean,opt}.S`,
  `poly_{clean,opt}.S`, `polyvec_{clean,opt}.S` and the tables of `aarch64_zetas.c`. The file
  is written by `tools/a64gen.py` from the sources: it expands the assembler macros, renames
  register aliases, and prints one constructor per instruction with its line number.
* `theories/ModelA64Poly.v`: `profiles/{clean,opt}.h` and the functions of `poly.c`, `ntt.c`
  and `polyvec.c` that call the native code. The profile is a parameter.

* `theories/ModelA64Rej.v`: `rej_uniform_asm_clean.S`, used by both profiles, and
  `rej_uniform` built on it. Here registers are lists of sixteen bytes, the memory accesses
  are those of `CSem.v`, the stack frame is an array with arbitrary contents, and the jumps
  are written as a loop and two branches.

* `theories/ModelA64Keccak.v`: semantics of the instructions used by
  `fips202/native/aarch64/*.S`, on words of 64 bits. Registers and memory cells hold a word, a
  pointer or something unknown that can only be moved; the interpreter is written for any
  type of words, so that the same definition runs on integers and, in proofs, on expressions.
* `theories/ModelA64KeccakAsm.v`: the seven routines of that directory, written by
  `tools/a64kgen.py` from the sources.
* `theories/ModelA64Fips202.v`: `profiles/{default,cortex_a55}.h` and the permutations of
  `keccakf1600.c`. The configuration (profile, `__ARM_FEATURE_SHA3`, `__APPLE__`,
  `SYS_AARCH64_SLOW_BARREL_SHIFTER`) is a parameter.
* `theories/ModelA64Sponge.v`, `theories/ModelA64Indcpa.v`, `theories/ModelA64Kem.v`:
  `keccakf1600.c`, `fips202.c`, `fips202x4.c`, `indcpa.c`, `poly.c` (noise) and `kem.c` as
  built for AArch64, on top of all of the above. The arithmetic profile and the fips202
  configuration are parameters. Every call of an assembly routine starts from arbitrary
  contents of registers and stack.

### Test programs

* `theories/ModelTests.v`: `test/test_mlkem.c`, on top of the API functions of any build. The
  number of rounds is a parameter; printing is left out.
* `theories/ModelSurf.v`: `test/notrandombytes/notrandombytes.c`, the generator of those tests.
* `theories/ModelAes.v`: `test/nistrng/aes.c`.
* `theories/ModelDrbg.v`: `test/nistrng/rng.c`.
* `theories/ModelAlias.v`: `mlkem/kem.c` 97-182 for all addresses, without the precondition of `kem.h`. The
  functions called from there are given the contents of their inputs at the call and store
  their outputs at the return, which is exact because each of them reads all inputs before
  it writes an output; overlapping `memcpy` is undefined.
* `theories/ModelBench.v`: the statistics of `test/bench_mlkem.c` and of the macro `BENCH` of
  `test/bench_components_mlkem.c`. The readings of the cycle counter, the equality of the shared
  secrets and qsort are parameters; the conversion of a uint64_t to int reduces modulo 2^32.
* `theories/ModelPython.v`, `ModelGen.v`, `ModelBounds.v`: the Python scripts
  `scripts/autogenerate_files.py` and `test/test_bounds.py`. Floats are rationals; the division of
  ints, which rounds, is a parameter. Comparisons and halving of floats are exact. The text that is
  written, clang-format and the loops over test arguments are not modelled.
* `theories/ModelDebug.v`: `mlkem/debug/debug.c` and the macros of `debug.h` as compiled with
  `MLKEM_DEBUG`: the lines printed and whether the program ends. The file name and the line are
  parameters.
* `theories/ModelCpp.v`: the C preprocessor: `#define` (of expressions, of `##` pasting for the
  namespace macros, and others; `#undef` occurs only for `ALIGN` and `round`, which are not tracked), `#include` also of a macro, `#if`, `#error`,
  include depth 200. What is left of a source file is the list of names it defines for the linker, names
  it defines for itself, and names its functions use.
* `theories/ModelCppNames.v` and `theories/ModelSources.v`: the names and the directives of the source
  files and headers, with line numbers. Both were written by `tools/cpp/out.py`, which reads `/repo` as text; the
  script is not part of the trusted base in any other way than that its output has to be compared with
  the sources, as for any other model file. It resolves each `#include "..."` by the directory of the file
  and the `-I` paths of the Makefile and ignores system headers. It keeps a definition or use of a
  function or table only for the tracked names: the functions with a portable and a native body, the
  native wrappers, the functions in assembly, their tables, and the placeholders `empty_cu_*`. Calls
  between other functions are not tracked. It drops directives that have no influence on tracked names
  or on an `#error`. `STATIC_TESTABLE` counts as `static` (`CBMC` is not defined). The `.inc` and
  `.i` files hold no tracked name.
* `theories/ModelConfig.v`: the macros defined beforehand by the compiler, the Makefile and the user, and
  the lists of source files in `mk/schemes.mk` and `mk/crypto.mk`. Not modelled: profiles of the user,
  the macros of other compilers in `KeccakP-brg_endian.h`, and values of `MLKEM_K` other than 2, 3, 4.
* `theories/ModelInPlace.v`: sha3_256, sha3_512, shake256, mlkem_shake256_rkprf and shake256x4 with their
  buffers at arbitrary addresses of one memory, read and written byte by byte. The Keccak state and the
  arrays of the functions themselves are apart from the memory. The theorems about it (C75) justify the
  use of the hash functions on lists in `ModelAlias.v`.
* `theories/ModelOverlap.v`: poly_add, poly_sub, polyvec_add, basemul_cached,
  poly_basemul_montgomery_cached, polyvec_basemul_acc_montgomery_cached and poly_mulcache_compute with
  their arguments at arbitrary addresses of one memory of int16_t (C76). The local polynomial of
  polyvec_basemul_acc_montgomery_cached is apart from the memory. Overlaps by half a coefficient are excluded by the alignment of int16_t.
* `theories/ModelAcvp.v`: `test/acvp_mlkem.c`. Strings are lists of characters; they are outside the
  memory of the machine.
* `theories/ModelKat.v`: `test/gen_KAT.c` and `test/gen_NISTKAT.c`. Evaluated, the model of the first
  round of gen_NISTKAT gives the shared secret of the published known-answer test for ML-KEM-512 (a
  test, not one of the theorems).

The byte order of the machine (`byte_order` in `ModelKeccak.v`) is an implicit parameter `bo`
of everything that is built on the byte accesses of `keccakf1600.c`. Theorems about the portable
build hold for both. The x86_64 and AArch64 builds are little-endian; a theorem that compares one
of them with the portable build takes a portable build of either byte order.

### Simplifications, and what is not modelled

* AArch64: Flags (other than those of the last `cmp` in the Keccak code), `ret` and the relocations behind `adrp` are not modelled.
* x86_64: flags and the encoding of the instructions are not modelled. In `ModelX86.v` there is no
  stack, a call is replaced by its callee, and every array starts at a 32-byte boundary.
  `ModelX86Abi.v` has the stack, calls and addresses; C61 proves that there the routines do the same,
  with alignment needed only where `ALIGN` arranges it.
* `int` is 32 bits, `size_t` is 64 bits.
* The compiler: leakage is at source level. Value barriers are identities.
* `gen_matrix` writes through a pointer to the first polynomial of the matrix across
  the boundaries of the inner arrays; the model treats the k*k polynomials as one object.
* In the library, `randombytes` is an arbitrary byte stream.
* Of `test/`, only `test_mlkem.c`, `gen_KAT.c`, `gen_NISTKAT.c`, `acvp_mlkem.c`, `test_bounds.py`, the statistics of `bench_mlkem.c` and `bench_components_mlkem.c`, `notrandombytes/` and `nistrng/` are
  modelled. What the two known-answer programs print is a list of labelled byte strings; what
  `acvp_mlkem.c` prints is modelled character by character. In `nistrng/`,
  malloc succeeds, and memory is not freed.
* `ModelRelease.v` has three functions without their debug checks. It is used only for their
  contracts (C58), which do not require what the checks demand.
* Contracts: the value barriers are the identity in the model. `memory_no_alias` is that
  distinct arguments are distinct objects. A size in bytes is below 2^63. The `assigns`
  clauses are not part of C58: a function of the model returns the objects that it writes,
  so they hold by the way the model is written and no theorem states them.

## Specification (independent of the model)

* `theories/Spec202.v`: FIPS 202 on bits: theta, rho, pi, chi, iota, Keccak-p, the
  sponge, pad10*1, SHA3-256/512, SHAKE128/256. Offsets and round constants are generated
  by the standard's algorithms 2 and 5.
* `theories/Spec203.v`: FIPS 203: Compress/Decompress, ByteEncode/ByteDecode,
  SampleNTT, SamplePolyCBD, the NTT as residues (closed form), MultiplyNTTs, K-PKE and
  the ML-KEM internal algorithms.

* `SpecLink.v`, `SpecHistory.v`, `SpecMem.v`, `SpecApi.v`, `SpecNoise.v`,
  `SpecMachine.v`: the vocabulary of the theorems about call sequences, memory, return
  codes, decryption noise and histories of API calls.
* `SpecX86.v`, `SpecX86Frame.v`, `SpecX86Build.v`: the coefficient order of the backend,
  the roles of the arguments of each assembly routine, and what it means that two builds
  give the same result. `SpecA64Frame.v`: the roles of the arguments of the AArch64 routines
  and the registers that a call has to preserve. `SpecA64Keccak.v`: the same for the Keccak
  routines. `SpecA64Build.v`: sequences of calls of its hash functions.
* `SpecX86Abi.v`: the System V calling convention: the state after a call, and what the
  caller can rely on when the routine returns (C61).
* `SpecTests.v`: the verdicts of the functional tests in terms of the FIPS 203 algorithms and the
  random bytes (C62).
* `SpecCount.v`: how many objects have a property, Pascal's triangle (C63).
* `SpecSurf.v`: SURF as a recurrence, the stream of the test generator (C64).
* `SpecAes.v`: FIPS 197, electronic codebook and counter mode (C65).
* `SpecDrbg.v`: CTR_DRBG of SP 800-90A (C66).
* `SpecKat.v`: the output of the known-answer programs (C67).
* `SpecAlias.v`: calls of the KEM functions with overlapping buffers (C69).
* `SpecBench.v`: ranks, durations, and what the C standard says about qsort (C70).
* `SpecPython.v`: rounding of double precision, centred representatives, twisted constants, layers of
  butterflies (C71, C72).
* `SpecDebug.v`: values out of bounds, and the lines of the debug checks (C73).
* `SpecConfig.v`: the configurations that make sense, the implementation each function should use, names
  that occur exactly once, and the names shared by two parameter sets (C74).
* `SpecAcvp.v`: hexadecimal text, the arguments and the output of the ACVP program (C68).
* `SpecContract.v`: the words of the contracts (`cbmc.h`): array bounds, objects, and what it
  means that a call returns.
* `SpecNative.v`: the functions with native code, indexed by the backend (C60).
* `SpecBuilds.v`: histories of API calls in which every call is made by its own build.

SampleNTT's unbounded loop is specified by an allowance `n` of XOF blocks
(`None` if 256 values are not found in them); results do not depend on `n` once found.

## Plan per property

| id | model | proof |
|----|-------|-------|
| C01 | kem.c/indcpa.c keypair over memory | refinement to Spec203 KeyGen_internal, composed from C15-C34 |
| C02 | enc_derand | refinement to Encaps_internal |
| C03 | check_pk, enc_derand | characterisation of the -1 outcome, frame |
| C04 | dec | refinement to Decaps_internal |
| C05 | check_sk, dec | characterisation of the -1 outcome; header claim refuted with a witness |
| C06 | keypair; enc; dec | noise algebra over Z_q[X]/(X^256+1) on the specification, transferred by C01, C02, C04 |
| C07 | dec | consequence of the exact description of dec |
| C08 | keypair; enc / dec | pk fields are < q (C18); hash stored is recomputed |
| C09 | everything | all outcomes are Ok or NoFuel; bounds propagated through all functions |
| C10 | kem.c over memory | frame part of the refinement theorems |
| C11 | junk and old contents as parameters | results independent of them |
| C12 | byte stream oracle | unfolding to derand |
| C13, C14 | leakage traces | relational reasoning on pairs of runs |
| C15 | reduce.c | modular arithmetic, bounds by lia/nia |
| C16, C17 | poly.h scalars | sweeps of the finite scalar domains lifted to polynomials |
| C18, C19 | tobytes.. compress.. | bit-level equality per chunk, induction over chunks |
| C20 | frommsg/tomsg | bit-level, rounding interval |
| C21 | cbd.c | bit-level per chunk |
| C22, C34 | rej_uniform, gen_matrix_entry | loop invariant against filtered stream |
| C23 | gen_matrix, x4 | lockstep invariant |
| C24, C25 | ntt.c | invariants for bounds; linearity plus check on the basis |
| C26 | basemul | per-slot product; ring homomorphism proof |
| C27 | keccakf1600.c | symbolic lanes versus bits |
| C28-C30, C36 | fips202.c, fips202x4.c | sponge invariants, induction on message/chunks |
| C31 | verify.h | bit arithmetic, induction on length |
| C32 | getnoise | composition |
| C33 | keypair | consequence of C01 |
| C35 | debug checks in the model | part of C09's theorem |
| C37 | sequence of calls over memory | induction on the history |
| C38 | AVX2 rejection sampler with modelled intrinsics | loop invariant, table sweep |
| C39, C40 | ntt.S, intt.S | interval analysis of the straight-line code, proved sound once; linearity plus check on the basis |
| C41-C43 | basemul.S, fq.S, shuffle.S | symbolic execution proved sound once, then facts about the resulting expressions |
| C44 | all assembly routines | execution over tags proved to predict every concrete run |
| C45 | KeccakP-1600-times4-SIMD256.c, fips202x4.c | each element of the registers follows the portable round; then as C27-C30 |
| C46 | indcpa.c and kem.c of the x86_64 build | refinement to Spec203 as for C01-C05, composed from C38-C45; agreement with the portable build follows |
| C47 | leakage of the x86_64 build | as C13 and C14: two runs in lock step; the addresses of an assembly routine are a function of its instructions and pointers (induction over the program), so they are equal whatever the data |
| C48, C49 | ntt_*.S, intt_*.S of AArch64 | as C39 and C40 |
| C50, C51 | polyvec_*.S, poly_*.S of AArch64 | symbolic execution as C41-C43 |
| C52 | all these routines | symbolic execution from symbolic registers: the words that have to be preserved are back in place |
| C53 | rej_uniform_asm_clean.S, rej_uniform.c | loop invariant on accepted values as C38; all 256 rows of the table by computation |
| C54 | fips202/native/aarch64/*.S | symbolic execution of each block; where the lanes are after each block (register, rotation, number of rounds) is given, and that this is right is decided by comparing normal forms over xor, and-not and rotation; soundness proved once |
| C55 | keccakf1600.c, fips202.c, fips202x4.c, gen_matrix of the AArch64 build | as C28-C30, C22 and C23, on top of C53 and C54 |
| C56 | indcpa.c and kem.c of the AArch64 build | as C46, composed from C48-C55 |
| C57 | all of it, AArch64 build | as C47; the addresses of a routine are computed from the program and the initial pointers alone |
| C58 | all functions with a contract | the lemmas behind C15-C36, applied from the requires clauses; wider bounds proved again where the contract promises less and allows more |
| C59 | sequence of calls made by different builds | induction on the history, from C37, C46 and C56 |
| C60 | the contracts of the functions with native code | from the results about the assembly (C39-C43, C48-C53) and the loops over vectors; signed `poly_tobytes_native` refuted |
| C61 | the x86_64 assembly with stack and addresses | simulation of the machine of C39-C44 by the one with a flat memory; every access lies in its buffer, so nothing else changes |
| C62 | the functional tests as statements about FIPS 203 | every call is the FIPS 203 function (C59); the changes of keys and ciphertexts are followed through memory |
| C63 | the samplers are unbiased | bijections from byte strings to bit groups and to candidates; counting by induction |
| C64 | the generator of the functional tests is one stream | the array of the code is a window of the SURF recurrence; a state invariant over the calls |
| C65 | the AES of the known-answer tests is FIPS 197 | a reflective evaluator of word expressions bit by bit; the bitsliced words represent 64 bytes; the S-box circuit over booleans for all bytes; induction over the rounds and the groups of blocks |
| C66 | the generator of the known-answer tests is CTR_DRBG | the counter bytes represent a number; invariants over the blocks; induction over the requests; uses the AES result behind C65 |
| C67 | the known-answer programs print the values of FIPS 203 | induction over the rounds, with the state of the sponge or of the generator and the memory; uses the results behind C29, C55, C59 and C66 |
| C68 | the ACVP program accepts exactly the documented arguments and prints the values of FIPS 203; with a key that fails its check it prints uninitialised memory | loop invariant for the hexadecimal decoder, case analysis of the arguments, the call lemmas behind C67 |
| C69 | decapsulation survives every overlap of its buffers, encapsulation every overlap of outputs with inputs, key generation those that leave z alone; with the coins in the public key buffer z becomes public | weakest preconditions over memory, without the precondition of kem.h |
| C70 | the benchmark programs print medians and percentiles if the measurements are less than 2^31 cycles apart; otherwise the comparison function is no order | order statistics by counting, sortedness, loop invariants; witnesses for the failure |
| C71 | the zeta tables are what the generator script computes, for any double-precision rounding; its helpers are right for every integer | near even multiples are unique, induction on bits; comparison of the lists by computation after the division has been eliminated |
| C72 | Barrett = Montgomery multiplication, their bounds and the growth through n layers, for all integers; the factor 0.0204 of the script refuted | exact division, congruences, induction on the layers over the rationals; witnesses |
| C73 | the checks of debug builds report exactly the values out of bounds and end the program; the outcome `DebugCheck` of the other models stands for that | loop invariants, ascending lists, refinement of the abstract checks |
| C74 | every configuration of the preprocessor is stopped by `#error` or gives a build that links and uses the intended implementation; two parameter sets share only the names of FIPS 202 and the placeholders | a preprocessor with partial knowledge of the macros, proved to agree with the full one by induction over the directives; case analysis of the macros that matter |
| C75 | the hash functions are right wherever input and output lie in memory, overlapping or not | simulation between the functions on one memory and those on separate buffers, loop by loop, then C28 and C30 |
| C76 | addition, subtraction and multiplication of polynomials that overlap in memory | loop invariant (the coefficients not yet reached are old); simulation of the multiplication on separate buffers, then C26; for the other overlaps the sum of constant polynomials, computed for every distance; the inner product by simulation of the function on separate buffers |

## Layout of the proofs

`Prop*.v` hold the property theorems only. Each is closed by one lemma and followed by
`Print Assumptions` and by an example that meets its hypotheses. Proofs are in `Proof*.v`
and `CSemFacts.v`; concrete values for the examples are in `Samples*.v`.

## Trusted base

* Coq's kernel, including `vm_compute`.
* Axioms: `Print Assumptions` answers "Closed under the global context" for every property
  theorem, so there are none. `coqchk` lists seven `Coq.ssr.ssrunder.Under_rel` entries.
  They belong to a module of the standard library that is loaded, and no theorem uses them.
* The reading of the C code in `CSem.v` and the `Model*.v` files.
* The semantics of the intrinsics (`ModelAvx2.v`, `ModelX86Poly.v`,
  `ModelX86Keccak.v`) and of the
  instructions (`ModelX86.v`, `ModelX86Abi.v`, `ModelA64.v`, `ModelA64Rej.v`, `ModelA64Keccak.v`).
* The transcription of the AArch64 assembly by `tools/a64gen.py` and `tools/a64kgen.py`.
* The specification files `Spec*.v`.

Seeded faults are logged in `seeded/LOG.jsonl`.
