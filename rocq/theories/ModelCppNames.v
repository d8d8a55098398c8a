(* The names that occur in the preprocessor directives of the library and the
   files they occur in.  Written by a script from the text of /repo; the
   script is described in DESIGN.md (C74). *)
From Coq Require Import PArith List.
Import ListNotations.

(* every macro that a retained condition tests (for instance
   /repo/mlkem/sys/cpucap.h 6-41, /repo/mlkem/native/profile.h 5-70), every
   function and table that has more than one definition or a definition in
   the native directories, and every function that uses one of these *)
Inductive ident : Set :=
| i_AMIGA
| i_BIG_ENDIAN
| i_BYTE_ORDER
| i_CBD_H
| i_CONFIG_H
| i_CONSTS_H
| i_CPUCAP_H
| i_FIPS202_AARCH64_NATIVE_H
| i_FIPS202_H
| i_FIPS202_NAMESPACE
| i_FIPS202_NATIVE_H
| i_FIPS202_NATIVE_MANUAL
| i_FIPS202_NATIVE_PROFILE
| i_FIPS202_NATIVE_PROFILE_H
| i_FIPS202_X86_64_NATIVE_H
| i_FIPS_202X4_H
| i_FORCE_AARCH64
| i_FORCE_X86_64
| i_INDCPA_H
| i_IS_BIG_ENDIAN
| i_IS_LITTLE_ENDIAN
| i_KECCAKF1600_H
| i_KEM_H
| i_KeccakF1600_StateExtractBytes
| i_KeccakF1600_StatePermute
| i_KeccakF1600_StateXORBytes
| i_KeccakF1600x4_StatePermute
| i_KeccakP1600times4_PermuteAll_24rounds
| i_LITTLE_ENDIAN
| i_MLKEM_AARCH64_NATIVE_H
| i_MLKEM_ARITH_NATIVE_H
| i_MLKEM_ARITH_NATIVE_MANUAL
| i_MLKEM_ARITH_NATIVE_PROFILE
| i_MLKEM_ARITH_NATIVE_PROFILE_CHOICE_H
| i_MLKEM_ARITH_NATIVE_PROFILE_H
| i_MLKEM_ETA1
| i_MLKEM_ETA2
| i_MLKEM_INDCPA_MSGBYTES
| i_MLKEM_K
| i_MLKEM_N
| i_MLKEM_NAMESPACE
| i_MLKEM_POLYCOMPRESSEDBYTES_DU
| i_MLKEM_POLYCOMPRESSEDBYTES_DV
| i_MLKEM_SYMBYTES
| i_MLKEM_USE_FIPS202_X1_ASM
| i_MLKEM_USE_FIPS202_X1_NATIVE
| i_MLKEM_USE_FIPS202_X2_NATIVE
| i_MLKEM_USE_FIPS202_X4_NATIVE
| i_MLKEM_USE_NATIVE
| i_MLKEM_USE_NATIVE_AARCH64
| i_MLKEM_USE_NATIVE_AARCH64_CLEAN
| i_MLKEM_USE_NATIVE_INTT
| i_MLKEM_USE_NATIVE_NTT
| i_MLKEM_USE_NATIVE_NTT_CUSTOM_ORDER
| i_MLKEM_USE_NATIVE_POLYVEC_BASEMUL_ACC_MONTGOMERY_CACHED
| i_MLKEM_USE_NATIVE_POLY_FROMBYTES
| i_MLKEM_USE_NATIVE_POLY_MULCACHE_COMPUTE
| i_MLKEM_USE_NATIVE_POLY_REDUCE
| i_MLKEM_USE_NATIVE_POLY_TOBYTES
| i_MLKEM_USE_NATIVE_POLY_TOMONT
| i_MLKEM_USE_NATIVE_REJ_UNIFORM
| i_MLKEM_USE_NATIVE_X86_64
| i_MLKEM_X86_64_NATIVE_H
| i_NAMESPACE_H
| i_NTT_H
| i_PARAMS_H
| i_PLATFORM_BYTE_ORDER
| i_POLYVEC_H
| i_POLY_H
| i_REDUCE_H
| i_REJ_UNIFORM_H
| i_SYMANTEC_C
| i_SYMMETRIC_H
| i_SYS_AARCH64
| i_SYS_AARCH64_SLOW_BARREL_SHIFTER
| i_SYS_LITTLE_ENDIAN
| i_SYS_X86_64
| i_SYS_X86_64_AVX2
| i_THINK_C
| i_VERIFY_H
| i_VMS
| i__AIX
| i__BIG_ENDIAN
| i__BYTE_ORDER
| i__CRAY
| i__FIPS202_NAMESPACE
| i__KECCAKP_BRG_ENDIAN_H
| i__KeccakP_1600_times4_SnP_h_
| i__LITTLE_ENDIAN
| i__MLKEM_NAMESPACE
| i__M_ARM64
| i__M_I86
| i__M_IX86
| i__M_X64
| i___AARCH64EL__
| i___APPLE__
| i___ARM_FEATURE_SHA3
| i___AS400__
| i___ASSEMBLER__
| i___AVX2__
| i___BIG_ENDIAN
| i___BIG_ENDIAN__
| i___BYTE_ORDER
| i___BYTE_ORDER__
| i___LITTLE_ENDIAN
| i___LITTLE_ENDIAN__
| i___MRC__
| i___MVS__
| i___MWERKS__
| i___ORDER_BIG_ENDIAN__
| i___ORDER_LITTLE_ENDIAN__
| i___OS2__
| i___TANDEM
| i___TIGCC__
| i___TURBOC__
| i___VMCMS__
| i___VMS
| i___VOS__
| i___alpha
| i___alpha__
| i___arm__
| i___hp9000
| i___hppa
| i___i386__
| i___sparc
| i___x86_64__
| i_aarch64_invntt_zetas_layer01234
| i_aarch64_invntt_zetas_layer56
| i_aarch64_ntt_zetas_layer01234
| i_aarch64_ntt_zetas_layer56
| i_aarch64_zetas_mulcache_native
| i_aarch64_zetas_mulcache_twisted_native
| i_applec
| i_basemul_avx2
| i_empty_cu_aarch64_zetas
| i_empty_cu_avx2_basemul
| i_empty_cu_avx2_keccakx4
| i_empty_cu_consts
| i_empty_cu_rej_uniform_avx2
| i_gen_matrix
| i_gen_matrix_entry
| i_gen_matrix_entry_x4
| i_i386
| i_ibm370
| i_indcpa_dec
| i_indcpa_enc
| i_intt_asm_clean
| i_intt_asm_opt
| i_intt_native
| i_invntt_avx2
| i_keccak_absorb
| i_keccak_absorb_x4
| i_keccak_f1600_x1_asm
| i_keccak_f1600_x1_native
| i_keccak_f1600_x1_scalar_asm_opt
| i_keccak_f1600_x1_v84a_asm_clean
| i_keccak_f1600_x2_native
| i_keccak_f1600_x2_v84a_asm_clean
| i_keccak_f1600_x2_v8a_v84a_asm_hybrid
| i_keccak_f1600_x4_native
| i_keccak_f1600_x4_scalar_v84a_asm_hybrid_opt
| i_keccak_f1600_x4_scalar_v8a_asm_hybrid_opt
| i_keccak_f1600_x4_scalar_v8a_v84a_hybrid_asm_opt
| i_keccak_inc_absorb
| i_keccak_inc_squeeze
| i_keccak_squeezeblocks
| i_keccak_squeezeblocks_x4
| i_m68k
| i_matvec_mul
| i_mc68000
| i_ntt_asm_clean
| i_ntt_asm_opt
| i_ntt_avx2
| i_ntt_native
| i_nttfrombytes_avx2
| i_nttpack_avx2
| i_ntttobytes_avx2
| i_nttunpack_avx2
| i_poly_basemul_montgomery_avx2
| i_poly_frombytes
| i_poly_frombytes_native
| i_poly_invntt_tomont
| i_poly_mulcache_compute
| i_poly_mulcache_compute_asm_clean
| i_poly_mulcache_compute_asm_opt
| i_poly_mulcache_compute_native
| i_poly_ntt
| i_poly_permute_bitrev_to_custom
| i_poly_reduce
| i_poly_reduce_asm_clean
| i_poly_reduce_asm_opt
| i_poly_reduce_native
| i_poly_tobytes
| i_poly_tobytes_asm_clean
| i_poly_tobytes_asm_opt
| i_poly_tobytes_native
| i_poly_tomont
| i_poly_tomont_asm_clean
| i_poly_tomont_asm_opt
| i_poly_tomont_native
| i_polyvec_basemul_acc_montgomery
| i_polyvec_basemul_acc_montgomery_cached
| i_polyvec_basemul_acc_montgomery_cached_asm_clean
| i_polyvec_basemul_acc_montgomery_cached_asm_opt
| i_polyvec_basemul_acc_montgomery_cached_avx2
| i_polyvec_basemul_acc_montgomery_cached_native
| i_polyvec_frombytes
| i_polyvec_invntt_tomont
| i_polyvec_mulcache_compute
| i_polyvec_ntt
| i_polyvec_reduce
| i_polyvec_tobytes
| i_polyvec_tomont
| i_qdata
| i_reduce_avx2
| i_rej_uniform
| i_rej_uniform_asm_clean
| i_rej_uniform_avx2
| i_rej_uniform_native
| i_sparc
| i_sun386
| i_tomont_avx2
| i_vax
| i_vms.

(* all of them: no counterpart in the code *)
Definition all_idents : list ident :=
  [i_AMIGA;
   i_BIG_ENDIAN;
   i_BYTE_ORDER;
   i_CBD_H;
   i_CONFIG_H;
   i_CONSTS_H;
   i_CPUCAP_H;
   i_FIPS202_AARCH64_NATIVE_H;
   i_FIPS202_H;
   i_FIPS202_NAMESPACE;
   i_FIPS202_NATIVE_H;
   i_FIPS202_NATIVE_MANUAL;
   i_FIPS202_NATIVE_PROFILE;
   i_FIPS202_NATIVE_PROFILE_H;
   i_FIPS202_X86_64_NATIVE_H;
   i_FIPS_202X4_H;
   i_FORCE_AARCH64;
   i_FORCE_X86_64;
   i_INDCPA_H;
   i_IS_BIG_ENDIAN;
   i_IS_LITTLE_ENDIAN;
   i_KECCAKF1600_H;
   i_KEM_H;
   i_KeccakF1600_StateExtractBytes;
   i_KeccakF1600_StatePermute;
   i_KeccakF1600_StateXORBytes;
   i_KeccakF1600x4_StatePermute;
   i_KeccakP1600times4_PermuteAll_24rounds;
   i_LITTLE_ENDIAN;
   i_MLKEM_AARCH64_NATIVE_H;
   i_MLKEM_ARITH_NATIVE_H;
   i_MLKEM_ARITH_NATIVE_MANUAL;
   i_MLKEM_ARITH_NATIVE_PROFILE;
   i_MLKEM_ARITH_NATIVE_PROFILE_CHOICE_H;
   i_MLKEM_ARITH_NATIVE_PROFILE_H;
   i_MLKEM_ETA1;
   i_MLKEM_ETA2;
   i_MLKEM_INDCPA_MSGBYTES;
   i_MLKEM_K;
   i_MLKEM_N;
   i_MLKEM_NAMESPACE;
   i_MLKEM_POLYCOMPRESSEDBYTES_DU;
   i_MLKEM_POLYCOMPRESSEDBYTES_DV;
   i_MLKEM_SYMBYTES;
   i_MLKEM_USE_FIPS202_X1_ASM;
   i_MLKEM_USE_FIPS202_X1_NATIVE;
   i_MLKEM_USE_FIPS202_X2_NATIVE;
   i_MLKEM_USE_FIPS202_X4_NATIVE;
   i_MLKEM_USE_NATIVE;
   i_MLKEM_USE_NATIVE_AARCH64;
   i_MLKEM_USE_NATIVE_AARCH64_CLEAN;
   i_MLKEM_USE_NATIVE_INTT;
   i_MLKEM_USE_NATIVE_NTT;
   i_MLKEM_USE_NATIVE_NTT_CUSTOM_ORDER;
   i_MLKEM_USE_NATIVE_POLYVEC_BASEMUL_ACC_MONTGOMERY_CACHED;
   i_MLKEM_USE_NATIVE_POLY_FROMBYTES;
   i_MLKEM_USE_NATIVE_POLY_MULCACHE_COMPUTE;
   i_MLKEM_USE_NATIVE_POLY_REDUCE;
   i_MLKEM_USE_NATIVE_POLY_TOBYTES;
   i_MLKEM_USE_NATIVE_POLY_TOMONT;
   i_MLKEM_USE_NATIVE_REJ_UNIFORM;
   i_MLKEM_USE_NATIVE_X86_64;
   i_MLKEM_X86_64_NATIVE_H;
   i_NAMESPACE_H;
   i_NTT_H;
   i_PARAMS_H;
   i_PLATFORM_BYTE_ORDER;
   i_POLYVEC_H;
   i_POLY_H;
   i_REDUCE_H;
   i_REJ_UNIFORM_H;
   i_SYMANTEC_C;
   i_SYMMETRIC_H;
   i_SYS_AARCH64;
   i_SYS_AARCH64_SLOW_BARREL_SHIFTER;
   i_SYS_LITTLE_ENDIAN;
   i_SYS_X86_64;
   i_SYS_X86_64_AVX2;
   i_THINK_C;
   i_VERIFY_H;
   i_VMS;
   i__AIX;
   i__BIG_ENDIAN;
   i__BYTE_ORDER;
   i__CRAY;
   i__FIPS202_NAMESPACE;
   i__KECCAKP_BRG_ENDIAN_H;
   i__KeccakP_1600_times4_SnP_h_;
   i__LITTLE_ENDIAN;
   i__MLKEM_NAMESPACE;
   i__M_ARM64;
   i__M_I86;
   i__M_IX86;
   i__M_X64;
   i___AARCH64EL__;
   i___APPLE__;
   i___ARM_FEATURE_SHA3;
   i___AS400__;
   i___ASSEMBLER__;
   i___AVX2__;
   i___BIG_ENDIAN;
   i___BIG_ENDIAN__;
   i___BYTE_ORDER;
   i___BYTE_ORDER__;
   i___LITTLE_ENDIAN;
   i___LITTLE_ENDIAN__;
   i___MRC__;
   i___MVS__;
   i___MWERKS__;
   i___ORDER_BIG_ENDIAN__;
   i___ORDER_LITTLE_ENDIAN__;
   i___OS2__;
   i___TANDEM;
   i___TIGCC__;
   i___TURBOC__;
   i___VMCMS__;
   i___VMS;
   i___VOS__;
   i___alpha;
   i___alpha__;
   i___arm__;
   i___hp9000;
   i___hppa;
   i___i386__;
   i___sparc;
   i___x86_64__;
   i_aarch64_invntt_zetas_layer01234;
   i_aarch64_invntt_zetas_layer56;
   i_aarch64_ntt_zetas_layer01234;
   i_aarch64_ntt_zetas_layer56;
   i_aarch64_zetas_mulcache_native;
   i_aarch64_zetas_mulcache_twisted_native;
   i_applec;
   i_basemul_avx2;
   i_empty_cu_aarch64_zetas;
   i_empty_cu_avx2_basemul;
   i_empty_cu_avx2_keccakx4;
   i_empty_cu_consts;
   i_empty_cu_rej_uniform_avx2;
   i_gen_matrix;
   i_gen_matrix_entry;
   i_gen_matrix_entry_x4;
   i_i386;
   i_ibm370;
   i_indcpa_dec;
   i_indcpa_enc;
   i_intt_asm_clean;
   i_intt_asm_opt;
   i_intt_native;
   i_invntt_avx2;
   i_keccak_absorb;
   i_keccak_absorb_x4;
   i_keccak_f1600_x1_asm;
   i_keccak_f1600_x1_native;
   i_keccak_f1600_x1_scalar_asm_opt;
   i_keccak_f1600_x1_v84a_asm_clean;
   i_keccak_f1600_x2_native;
   i_keccak_f1600_x2_v84a_asm_clean;
   i_keccak_f1600_x2_v8a_v84a_asm_hybrid;
   i_keccak_f1600_x4_native;
   i_keccak_f1600_x4_scalar_v84a_asm_hybrid_opt;
   i_keccak_f1600_x4_scalar_v8a_asm_hybrid_opt;
   i_keccak_f1600_x4_scalar_v8a_v84a_hybrid_asm_opt;
   i_keccak_inc_absorb;
   i_keccak_inc_squeeze;
   i_keccak_squeezeblocks;
   i_keccak_squeezeblocks_x4;
   i_m68k;
   i_matvec_mul;
   i_mc68000;
   i_ntt_asm_clean;
   i_ntt_asm_opt;
   i_ntt_avx2;
   i_ntt_native;
   i_nttfrombytes_avx2;
   i_nttpack_avx2;
   i_ntttobytes_avx2;
   i_nttunpack_avx2;
   i_poly_basemul_montgomery_avx2;
   i_poly_frombytes;
   i_poly_frombytes_native;
   i_poly_invntt_tomont;
   i_poly_mulcache_compute;
   i_poly_mulcache_compute_asm_clean;
   i_poly_mulcache_compute_asm_opt;
   i_poly_mulcache_compute_native;
   i_poly_ntt;
   i_poly_permute_bitrev_to_custom;
   i_poly_reduce;
   i_poly_reduce_asm_clean;
   i_poly_reduce_asm_opt;
   i_poly_reduce_native;
   i_poly_tobytes;
   i_poly_tobytes_asm_clean;
   i_poly_tobytes_asm_opt;
   i_poly_tobytes_native;
   i_poly_tomont;
   i_poly_tomont_asm_clean;
   i_poly_tomont_asm_opt;
   i_poly_tomont_native;
   i_polyvec_basemul_acc_montgomery;
   i_polyvec_basemul_acc_montgomery_cached;
   i_polyvec_basemul_acc_montgomery_cached_asm_clean;
   i_polyvec_basemul_acc_montgomery_cached_asm_opt;
   i_polyvec_basemul_acc_montgomery_cached_avx2;
   i_polyvec_basemul_acc_montgomery_cached_native;
   i_polyvec_frombytes;
   i_polyvec_invntt_tomont;
   i_polyvec_mulcache_compute;
   i_polyvec_ntt;
   i_polyvec_reduce;
   i_polyvec_tobytes;
   i_polyvec_tomont;
   i_qdata;
   i_reduce_avx2;
   i_rej_uniform;
   i_rej_uniform_asm_clean;
   i_rej_uniform_avx2;
   i_rej_uniform_native;
   i_sparc;
   i_sun386;
   i_tomont_avx2;
   i_vax;
   i_vms].

(* a number for every name: no counterpart in the code *)
Definition code (i : ident) : positive :=
  match i with
  | i_AMIGA => 1
  | i_BIG_ENDIAN => 2
  | i_BYTE_ORDER => 3
  | i_CBD_H => 4
  | i_CONFIG_H => 5
  | i_CONSTS_H => 6
  | i_CPUCAP_H => 7
  | i_FIPS202_AARCH64_NATIVE_H => 8
  | i_FIPS202_H => 9
  | i_FIPS202_NAMESPACE => 10
  | i_FIPS202_NATIVE_H => 11
  | i_FIPS202_NATIVE_MANUAL => 12
  | i_FIPS202_NATIVE_PROFILE => 13
  | i_FIPS202_NATIVE_PROFILE_H => 14
  | i_FIPS202_X86_64_NATIVE_H => 15
  | i_FIPS_202X4_H => 16
  | i_FORCE_AARCH64 => 17
  | i_FORCE_X86_64 => 18
  | i_INDCPA_H => 19
  | i_IS_BIG_ENDIAN => 20
  | i_IS_LITTLE_ENDIAN => 21
  | i_KECCAKF1600_H => 22
  | i_KEM_H => 23
  | i_KeccakF1600_StateExtractBytes => 24
  | i_KeccakF1600_StatePermute => 25
  | i_KeccakF1600_StateXORBytes => 26
  | i_KeccakF1600x4_StatePermute => 27
  | i_KeccakP1600times4_PermuteAll_24rounds => 28
  | i_LITTLE_ENDIAN => 29
  | i_MLKEM_AARCH64_NATIVE_H => 30
  | i_MLKEM_ARITH_NATIVE_H => 31
  | i_MLKEM_ARITH_NATIVE_MANUAL => 32
  | i_MLKEM_ARITH_NATIVE_PROFILE => 33
  | i_MLKEM_ARITH_NATIVE_PROFILE_CHOICE_H => 34
  | i_MLKEM_ARITH_NATIVE_PROFILE_H => 35
  | i_MLKEM_ETA1 => 36
  | i_MLKEM_ETA2 => 37
  | i_MLKEM_INDCPA_MSGBYTES => 38
  | i_MLKEM_K => 39
  | i_MLKEM_N => 40
  | i_MLKEM_NAMESPACE => 41
  | i_MLKEM_POLYCOMPRESSEDBYTES_DU => 42
  | i_MLKEM_POLYCOMPRESSEDBYTES_DV => 43
  | i_MLKEM_SYMBYTES => 44
  | i_MLKEM_USE_FIPS202_X1_ASM => 45
  | i_MLKEM_USE_FIPS202_X1_NATIVE => 46
  | i_MLKEM_USE_FIPS202_X2_NATIVE => 47
  | i_MLKEM_USE_FIPS202_X4_NATIVE => 48
  | i_MLKEM_USE_NATIVE => 49
  | i_MLKEM_USE_NATIVE_AARCH64 => 50
  | i_MLKEM_USE_NATIVE_AARCH64_CLEAN => 51
  | i_MLKEM_USE_NATIVE_INTT => 52
  | i_MLKEM_USE_NATIVE_NTT => 53
  | i_MLKEM_USE_NATIVE_NTT_CUSTOM_ORDER => 54
  | i_MLKEM_USE_NATIVE_POLYVEC_BASEMUL_ACC_MONTGOMERY_CACHED => 55
  | i_MLKEM_USE_NATIVE_POLY_FROMBYTES => 56
  | i_MLKEM_USE_NATIVE_POLY_MULCACHE_COMPUTE => 57
  | i_MLKEM_USE_NATIVE_POLY_REDUCE => 58
  | i_MLKEM_USE_NATIVE_POLY_TOBYTES => 59
  | i_MLKEM_USE_NATIVE_POLY_TOMONT => 60
  | i_MLKEM_USE_NATIVE_REJ_UNIFORM => 61
  | i_MLKEM_USE_NATIVE_X86_64 => 62
  | i_MLKEM_X86_64_NATIVE_H => 63
  | i_NAMESPACE_H => 64
  | i_NTT_H => 65
  | i_PARAMS_H => 66
  | i_PLATFORM_BYTE_ORDER => 67
  | i_POLYVEC_H => 68
  | i_POLY_H => 69
  | i_REDUCE_H => 70
  | i_REJ_UNIFORM_H => 71
  | i_SYMANTEC_C => 72
  | i_SYMMETRIC_H => 73
  | i_SYS_AARCH64 => 74
  | i_SYS_AARCH64_SLOW_BARREL_SHIFTER => 75
  | i_SYS_LITTLE_ENDIAN => 76
  | i_SYS_X86_64 => 77
  | i_SYS_X86_64_AVX2 => 78
  | i_THINK_C => 79
  | i_VERIFY_H => 80
  | i_VMS => 81
  | i__AIX => 82
  | i__BIG_ENDIAN => 83
  | i__BYTE_ORDER => 84
  | i__CRAY => 85
  | i__FIPS202_NAMESPACE => 86
  | i__KECCAKP_BRG_ENDIAN_H => 87
  | i__KeccakP_1600_times4_SnP_h_ => 88
  | i__LITTLE_ENDIAN => 89
  | i__MLKEM_NAMESPACE => 90
  | i__M_ARM64 => 91
  | i__M_I86 => 92
  | i__M_IX86 => 93
  | i__M_X64 => 94
  | i___AARCH64EL__ => 95
  | i___APPLE__ => 96
  | i___ARM_FEATURE_SHA3 => 97
  | i___AS400__ => 98
  | i___ASSEMBLER__ => 99
  | i___AVX2__ => 100
  | i___BIG_ENDIAN => 101
  | i___BIG_ENDIAN__ => 102
  | i___BYTE_ORDER => 103
  | i___BYTE_ORDER__ => 104
  | i___LITTLE_ENDIAN => 105
  | i___LITTLE_ENDIAN__ => 106
  | i___MRC__ => 107
  | i___MVS__ => 108
  | i___MWERKS__ => 109
  | i___ORDER_BIG_ENDIAN__ => 110
  | i___ORDER_LITTLE_ENDIAN__ => 111
  | i___OS2__ => 112
  | i___TANDEM => 113
  | i___TIGCC__ => 114
  | i___TURBOC__ => 115
  | i___VMCMS__ => 116
  | i___VMS => 117
  | i___VOS__ => 118
  | i___alpha => 119
  | i___alpha__ => 120
  | i___arm__ => 121
  | i___hp9000 => 122
  | i___hppa => 123
  | i___i386__ => 124
  | i___sparc => 125
  | i___x86_64__ => 126
  | i_aarch64_invntt_zetas_layer01234 => 127
  | i_aarch64_invntt_zetas_layer56 => 128
  | i_aarch64_ntt_zetas_layer01234 => 129
  | i_aarch64_ntt_zetas_layer56 => 130
  | i_aarch64_zetas_mulcache_native => 131
  | i_aarch64_zetas_mulcache_twisted_native => 132
  | i_applec => 133
  | i_basemul_avx2 => 134
  | i_empty_cu_aarch64_zetas => 135
  | i_empty_cu_avx2_basemul => 136
  | i_empty_cu_avx2_keccakx4 => 137
  | i_empty_cu_consts => 138
  | i_empty_cu_rej_uniform_avx2 => 139
  | i_gen_matrix => 140
  | i_gen_matrix_entry => 141
  | i_gen_matrix_entry_x4 => 142
  | i_i386 => 143
  | i_ibm370 => 144
  | i_indcpa_dec => 145
  | i_indcpa_enc => 146
  | i_intt_asm_clean => 147
  | i_intt_asm_opt => 148
  | i_intt_native => 149
  | i_invntt_avx2 => 150
  | i_keccak_absorb => 151
  | i_keccak_absorb_x4 => 152
  | i_keccak_f1600_x1_asm => 153
  | i_keccak_f1600_x1_native => 154
  | i_keccak_f1600_x1_scalar_asm_opt => 155
  | i_keccak_f1600_x1_v84a_asm_clean => 156
  | i_keccak_f1600_x2_native => 157
  | i_keccak_f1600_x2_v84a_asm_clean => 158
  | i_keccak_f1600_x2_v8a_v84a_asm_hybrid => 159
  | i_keccak_f1600_x4_native => 160
  | i_keccak_f1600_x4_scalar_v84a_asm_hybrid_opt => 161
  | i_keccak_f1600_x4_scalar_v8a_asm_hybrid_opt => 162
  | i_keccak_f1600_x4_scalar_v8a_v84a_hybrid_asm_opt => 163
  | i_keccak_inc_absorb => 164
  | i_keccak_inc_squeeze => 165
  | i_keccak_squeezeblocks => 166
  | i_keccak_squeezeblocks_x4 => 167
  | i_m68k => 168
  | i_matvec_mul => 169
  | i_mc68000 => 170
  | i_ntt_asm_clean => 171
  | i_ntt_asm_opt => 172
  | i_ntt_avx2 => 173
  | i_ntt_native => 174
  | i_nttfrombytes_avx2 => 175
  | i_nttpack_avx2 => 176
  | i_ntttobytes_avx2 => 177
  | i_nttunpack_avx2 => 178
  | i_poly_basemul_montgomery_avx2 => 179
  | i_poly_frombytes => 180
  | i_poly_frombytes_native => 181
  | i_poly_invntt_tomont => 182
  | i_poly_mulcache_compute => 183
  | i_poly_mulcache_compute_asm_clean => 184
  | i_poly_mulcache_compute_asm_opt => 185
  | i_poly_mulcache_compute_native => 186
  | i_poly_ntt => 187
  | i_poly_permute_bitrev_to_custom => 188
  | i_poly_reduce => 189
  | i_poly_reduce_asm_clean => 190
  | i_poly_reduce_asm_opt => 191
  | i_poly_reduce_native => 192
  | i_poly_tobytes => 193
  | i_poly_tobytes_asm_clean => 194
  | i_poly_tobytes_asm_opt => 195
  | i_poly_tobytes_native => 196
  | i_poly_tomont => 197
  | i_poly_tomont_asm_clean => 198
  | i_poly_tomont_asm_opt => 199
  | i_poly_tomont_native => 200
  | i_polyvec_basemul_acc_montgomery => 201
  | i_polyvec_basemul_acc_montgomery_cached => 202
  | i_polyvec_basemul_acc_montgomery_cached_asm_clean => 203
  | i_polyvec_basemul_acc_montgomery_cached_asm_opt => 204
  | i_polyvec_basemul_acc_montgomery_cached_avx2 => 205
  | i_polyvec_basemul_acc_montgomery_cached_native => 206
  | i_polyvec_frombytes => 207
  | i_polyvec_invntt_tomont => 208
  | i_polyvec_mulcache_compute => 209
  | i_polyvec_ntt => 210
  | i_polyvec_reduce => 211
  | i_polyvec_tobytes => 212
  | i_polyvec_tomont => 213
  | i_qdata => 214
  | i_reduce_avx2 => 215
  | i_rej_uniform => 216
  | i_rej_uniform_asm_clean => 217
  | i_rej_uniform_avx2 => 218
  | i_rej_uniform_native => 219
  | i_sparc => 220
  | i_sun386 => 221
  | i_tomont_avx2 => 222
  | i_vax => 223
  | i_vms => 224
  end%positive.

(* what the namespace macros put before a name: /repo/mlkem/params.h 16-24,
   /repo/fips202/namespace.h 8-9; u_ stands for a leading underscore *)
Inductive prefix : Set :=
| p_PQCP_MLKEM_NATIVE_FIPS202
| u_PQCP_MLKEM_NATIVE_FIPS202
| p_PQCP_MLKEM_NATIVE_MLKEM1024
| u_PQCP_MLKEM_NATIVE_MLKEM1024
| p_PQCP_MLKEM_NATIVE_MLKEM768
| u_PQCP_MLKEM_NATIVE_MLKEM768
| p_PQCP_MLKEM_NATIVE_MLKEM512
| u_PQCP_MLKEM_NATIVE_MLKEM512.

(* the files of /repo/mlkem and /repo/fips202 that are compiled or included
   and hold a retained directive *)
Inductive file : Set :=
| f_fips202_fips202_c
| f_fips202_fips202_h
| f_fips202_fips202x4_c
| f_fips202_fips202x4_h
| f_fips202_keccakf1600_c
| f_fips202_keccakf1600_h
| f_fips202_namespace_h
| f_fips202_native_aarch64_fips202_native_aarch64_h
| f_fips202_native_aarch64_keccak_f1600_x1_scalar_asm_opt_S
| f_fips202_native_aarch64_keccak_f1600_x1_v84a_asm_clean_S
| f_fips202_native_aarch64_keccak_f1600_x2_v84a_asm_clean_S
| f_fips202_native_aarch64_keccak_f1600_x2_v8a_v84a_asm_hybrid_S
| f_fips202_native_aarch64_keccak_f1600_x4_scalar_v84a_asm_hybrid_opt_S
| f_fips202_native_aarch64_keccak_f1600_x4_v8a_scalar_hybrid_asm_opt_S
| f_fips202_native_aarch64_keccak_f1600_x4_v8a_v84a_scalar_hybrid_asm_opt_S
| f_fips202_native_aarch64_profiles_default_h
| f_fips202_native_fips202_native_h
| f_fips202_native_x86_64_fips202_native_x86_64_h
| f_fips202_native_x86_64_profiles_xkcp_h
| f_fips202_native_x86_64_xkcp_KeccakP_1600_times4_SIMD256_c
| f_fips202_native_x86_64_xkcp_KeccakP_1600_times4_SnP_h
| f_fips202_native_x86_64_xkcp_KeccakP_brg_endian_h
| f_mlkem_cbd_c
| f_mlkem_cbd_h
| f_mlkem_debug_debug_c
| f_mlkem_indcpa_c
| f_mlkem_indcpa_h
| f_mlkem_kem_c
| f_mlkem_kem_h
| f_mlkem_native_aarch64_aarch64_zetas_c
| f_mlkem_native_aarch64_arith_native_aarch64_h
| f_mlkem_native_aarch64_intt_clean_S
| f_mlkem_native_aarch64_intt_opt_S
| f_mlkem_native_aarch64_ntt_clean_S
| f_mlkem_native_aarch64_ntt_opt_S
| f_mlkem_native_aarch64_poly_clean_S
| f_mlkem_native_aarch64_poly_opt_S
| f_mlkem_native_aarch64_polyvec_clean_S
| f_mlkem_native_aarch64_polyvec_opt_S
| f_mlkem_native_aarch64_profiles_clean_h
| f_mlkem_native_aarch64_profiles_opt_h
| f_mlkem_native_aarch64_rej_uniform_asm_clean_S
| f_mlkem_native_arith_native_h
| f_mlkem_native_profile_h
| f_mlkem_native_x86_64_arith_native_x86_64_h
| f_mlkem_native_x86_64_basemul_S
| f_mlkem_native_x86_64_basemul_c
| f_mlkem_native_x86_64_consts_c
| f_mlkem_native_x86_64_consts_h
| f_mlkem_native_x86_64_fq_S
| f_mlkem_native_x86_64_intt_S
| f_mlkem_native_x86_64_ntt_S
| f_mlkem_native_x86_64_profiles_default_h
| f_mlkem_native_x86_64_rej_uniform_avx2_c
| f_mlkem_native_x86_64_shuffle_S
| f_mlkem_ntt_c
| f_mlkem_ntt_h
| f_mlkem_params_h
| f_mlkem_poly_c
| f_mlkem_poly_h
| f_mlkem_polyvec_c
| f_mlkem_polyvec_h
| f_mlkem_reduce_c
| f_mlkem_reduce_h
| f_mlkem_rej_uniform_c
| f_mlkem_rej_uniform_h
| f_mlkem_symmetric_shake_c
| f_mlkem_symmetric_h
| f_mlkem_sys_config_h
| f_mlkem_sys_cpucap_h
| f_mlkem_verify_c
| f_mlkem_verify_h
| f_mlkem_zetas_c.

(* the files that the compiler treats as assembly (suffix .S), for which
   it predefines __ASSEMBLER__ *)
Definition assembly (f : file) : bool :=
  match f with
  | f_fips202_native_aarch64_keccak_f1600_x1_scalar_asm_opt_S
  | f_fips202_native_aarch64_keccak_f1600_x1_v84a_asm_clean_S
  | f_fips202_native_aarch64_keccak_f1600_x2_v84a_asm_clean_S
  | f_fips202_native_aarch64_keccak_f1600_x2_v8a_v84a_asm_hybrid_S
  | f_fips202_native_aarch64_keccak_f1600_x4_scalar_v84a_asm_hybrid_opt_S
  | f_fips202_native_aarch64_keccak_f1600_x4_v8a_scalar_hybrid_asm_opt_S
  | f_fips202_native_aarch64_keccak_f1600_x4_v8a_v84a_scalar_hybrid_asm_opt_S
  | f_mlkem_native_aarch64_intt_clean_S
  | f_mlkem_native_aarch64_intt_opt_S
  | f_mlkem_native_aarch64_ntt_clean_S
  | f_mlkem_native_aarch64_ntt_opt_S
  | f_mlkem_native_aarch64_poly_clean_S
  | f_mlkem_native_aarch64_poly_opt_S
  | f_mlkem_native_aarch64_polyvec_clean_S
  | f_mlkem_native_aarch64_polyvec_opt_S
  | f_mlkem_native_aarch64_rej_uniform_asm_clean_S
  | f_mlkem_native_x86_64_basemul_S
  | f_mlkem_native_x86_64_fq_S
  | f_mlkem_native_x86_64_intt_S
  | f_mlkem_native_x86_64_ntt_S
  | f_mlkem_native_x86_64_shuffle_S => true
  | _ => false
  end.
