(* The preprocessor directives, definitions and uses of the source files.
   Written by a script from the text of /repo, see DESIGN.md (C74).  Each
   definition names its file; each directive carries its line number. *)
From Coq Require Import ZArith List.
Import ListNotations.
Require Import Verif.ModelCppNames Verif.ModelCpp.
Open Scope Z_scope.

(* /repo/fips202/fips202.c; the numbers are its line numbers *)
Definition c_fips202_fips202_c : list line :=
  [ Include f_fips202_fips202_h (* 17 *);
    Include f_fips202_keccakf1600_h (* 18 *);
    Item (Use i_keccak_absorb (Plain i_KeccakF1600_StatePermute)) (* 43 *);
    Item (Use i_keccak_squeezeblocks (Plain i_KeccakF1600_StatePermute)) (* 83 *);
    Item (Use i_keccak_inc_absorb (Plain i_KeccakF1600_StatePermute)) (* 135 *);
    Item (Use i_keccak_inc_squeeze (Plain i_KeccakF1600_StatePermute)) (* 207 *) ].

(* /repo/fips202/fips202.h; the numbers are its line numbers *)
Definition c_fips202_fips202_h : list line :=
  [ If (* 5 *) (Not (Defined i_FIPS202_H))
    [ Define i_FIPS202_H Other (* 6 *);
      Include f_fips202_namespace_h (* 10 *) ]
    [] ].

(* /repo/fips202/fips202x4.c; the numbers are its line numbers *)
Definition c_fips202_fips202x4_c : list line :=
  [ Include f_fips202_fips202x4_h (* 5 *);
    Include f_fips202_fips202_h (* 7 *);
    Include f_fips202_keccakf1600_h (* 8 *);
    Item (Use i_keccak_absorb_x4 (Plain i_KeccakF1600x4_StatePermute)) (* 20 *);
    Item (Use i_keccak_squeezeblocks_x4 (Plain i_KeccakF1600x4_StatePermute)) (* 55 *) ].

(* /repo/fips202/fips202x4.h; the numbers are its line numbers *)
Definition c_fips202_fips202x4_h : list line :=
  [ If (* 5 *) (Not (Defined i_FIPS_202X4_H))
    [ Define i_FIPS_202X4_H Other (* 6 *);
      Include f_fips202_fips202_h (* 10 *);
      Include f_fips202_keccakf1600_h (* 11 *);
      Include f_fips202_namespace_h (* 12 *) ]
    [] ].

(* /repo/fips202/keccakf1600.c; the numbers are its line numbers *)
Definition c_fips202_keccakf1600_c : list line :=
  [ Include f_fips202_keccakf1600_h (* 13 *);
    Include f_mlkem_sys_config_h (* 17 *);
    Include f_fips202_native_fips202_native_h (* 18 *);
    If (* 28 *) (Defined i_SYS_LITTLE_ENDIAN)
    [ Item (Bytes i_KeccakF1600_StateExtractBytes) (* 29 *) ]
    [];
    If (* 47 *) (Defined i_SYS_LITTLE_ENDIAN)
    [ Item (Bytes i_KeccakF1600_StateXORBytes) (* 48 *) ]
    [];
    Item (Provide (Plain i_KeccakF1600x4_StatePermute)) (* 91 *);
    If (* 92 *) (Defined i_MLKEM_USE_FIPS202_X4_NATIVE)
    [ Item (Use i_KeccakF1600x4_StatePermute (Plain i_keccak_f1600_x4_native)) (* 93 *) ]
    [
    If (* 94 *) (Defined i_MLKEM_USE_FIPS202_X2_NATIVE)
    [ Item (Use i_KeccakF1600x4_StatePermute (Plain i_keccak_f1600_x2_native)) (* 95 *) ]
    [ Item (Use i_KeccakF1600x4_StatePermute (Plain i_KeccakF1600_StatePermute)) (* 98 *) ]];
    If (* 105 *) (Not (Defined i_MLKEM_USE_FIPS202_X1_NATIVE))
    [ Item (Provide (Plain i_KeccakF1600_StatePermute)) (* 121 *) ]
    [ Item (Provide (Plain i_KeccakF1600_StatePermute)) (* 388 *);
      Item (Use i_KeccakF1600_StatePermute (Plain i_keccak_f1600_x1_native)) (* 389 *) ] ].

(* /repo/fips202/keccakf1600.h; the numbers are its line numbers *)
Definition c_fips202_keccakf1600_h : list line :=
  [ If (* 5 *) (Not (Defined i_KECCAKF1600_H))
    [ Define i_KECCAKF1600_H Other (* 6 *);
      Include f_fips202_native_fips202_native_h (* 9 *);
      Include f_fips202_namespace_h (* 10 *);
      Define i_KeccakF1600x4_StatePermute (Apply i_FIPS202_NAMESPACE i_KeccakF1600x4_StatePermute) (* 48 *);
      If (* 51 *) (Not (Defined i_MLKEM_USE_FIPS202_X1_ASM))
      [ Define i_KeccakF1600_StatePermute (Apply i_FIPS202_NAMESPACE i_KeccakF1600_StatePermute) (* 52 *) ]
      [ Define i_KeccakF1600_StatePermute (Apply i_FIPS202_NAMESPACE i_keccak_f1600_x1_asm) (* 55 *) ] ]
    [] ].

(* /repo/fips202/namespace.h; the numbers are its line numbers *)
Definition c_fips202_namespace_h : list line :=
  [ If (* 5 *) (Not (Defined i_NAMESPACE_H))
    [ Define i_NAMESPACE_H Other (* 6 *);
      Define i_FIPS202_NAMESPACE (Paste p_PQCP_MLKEM_NATIVE_FIPS202) (* 8 *);
      Define i__FIPS202_NAMESPACE (Paste u_PQCP_MLKEM_NATIVE_FIPS202) (* 9 *) ]
    [] ].

(* /repo/fips202/native/aarch64/fips202_native_aarch64.h; the numbers are its line numbers *)
Definition c_fips202_native_aarch64_fips202_native_aarch64_h : list line :=
  [ If (* 5 *) (Not (Defined i_FIPS202_AARCH64_NATIVE_H))
    [ Define i_FIPS202_AARCH64_NATIVE_H Other (* 6 *);
      Include f_mlkem_sys_config_h (* 9 *);
      Include f_fips202_namespace_h (* 10 *);
      Include f_mlkem_params_h (* 11 *);
      If (* 13 *) (Defined i_MLKEM_USE_NATIVE_AARCH64)
      [ Define i_keccak_f1600_x1_scalar_asm_opt (Apply i_FIPS202_NAMESPACE i_keccak_f1600_x1_scalar_asm_opt) (* 14 *);
        Define i_keccak_f1600_x1_v84a_asm_clean (Apply i_FIPS202_NAMESPACE i_keccak_f1600_x1_v84a_asm_clean) (* 18 *);
        Define i_keccak_f1600_x2_v84a_asm_clean (Apply i_FIPS202_NAMESPACE i_keccak_f1600_x2_v84a_asm_clean) (* 22 *);
        Define i_keccak_f1600_x2_v8a_v84a_asm_hybrid (Apply i_FIPS202_NAMESPACE i_keccak_f1600_x2_v8a_v84a_asm_hybrid) (* 26 *);
        Define i_keccak_f1600_x4_scalar_v8a_asm_hybrid_opt (Apply i_FIPS202_NAMESPACE i_keccak_f1600_x4_scalar_v8a_asm_hybrid_opt) (* 30 *);
        Define i_keccak_f1600_x4_scalar_v84a_asm_hybrid_opt (Apply i_FIPS202_NAMESPACE i_keccak_f1600_x4_scalar_v84a_asm_hybrid_opt) (* 34 *);
        Define i_keccak_f1600_x4_scalar_v8a_v84a_hybrid_asm_opt (Apply i_FIPS202_NAMESPACE i_keccak_f1600_x4_scalar_v8a_v84a_hybrid_asm_opt) (* 38 *) ]
      [] ]
    [] ].

(* /repo/fips202/native/aarch64/keccak_f1600_x1_scalar_asm_opt.S; the numbers are its line numbers *)
Definition c_fips202_native_aarch64_keccak_f1600_x1_scalar_asm_opt_S : list line :=
  [ Include f_mlkem_sys_config_h (* 31 *);
    If (* 32 *) (Defined i_MLKEM_USE_NATIVE_AARCH64)
    [ Include f_fips202_namespace_h (* 36 *);
      Item (Provide (Spaced i_FIPS202_NAMESPACE i_keccak_f1600_x1_scalar_asm_opt)) (* 202 *);
      Item (Provide (Spaced i__FIPS202_NAMESPACE i_keccak_f1600_x1_scalar_asm_opt)) (* 203 *) ]
    [] ].

(* /repo/fips202/native/aarch64/keccak_f1600_x1_v84a_asm_clean.S; the numbers are its line numbers *)
Definition c_fips202_native_aarch64_keccak_f1600_x1_v84a_asm_clean_S : list line :=
  [ Include f_mlkem_sys_config_h (* 40 *);
    If (* 41 *) (Defined i_MLKEM_USE_NATIVE_AARCH64)
    [ Include f_fips202_namespace_h (* 45 *);
      If (* 47 *) (Defined i___ARM_FEATURE_SHA3)
      [ Item (Provide (Spaced i_FIPS202_NAMESPACE i_keccak_f1600_x1_v84a_asm_clean)) (* 347 *);
        Item (Provide (Spaced i__FIPS202_NAMESPACE i_keccak_f1600_x1_v84a_asm_clean)) (* 348 *) ]
      [] ]
    [] ].

(* /repo/fips202/native/aarch64/keccak_f1600_x2_v84a_asm_clean.S; the numbers are its line numbers *)
Definition c_fips202_native_aarch64_keccak_f1600_x2_v84a_asm_clean_S : list line :=
  [ Include f_mlkem_sys_config_h (* 40 *);
    If (* 41 *) (Defined i_MLKEM_USE_NATIVE_AARCH64)
    [ Include f_fips202_namespace_h (* 45 *);
      If (* 47 *) (Defined i___ARM_FEATURE_SHA3)
      [ Item (Provide (Spaced i_FIPS202_NAMESPACE i_keccak_f1600_x2_v84a_asm_clean)) (* 375 *);
        Item (Provide (Spaced i__FIPS202_NAMESPACE i_keccak_f1600_x2_v84a_asm_clean)) (* 376 *) ]
      [] ]
    [] ].

(* /repo/fips202/native/aarch64/keccak_f1600_x2_v8a_v84a_asm_hybrid.S; the numbers are its line numbers *)
Definition c_fips202_native_aarch64_keccak_f1600_x2_v8a_v84a_asm_hybrid_S : list line :=
  [ Include f_mlkem_sys_config_h (* 40 *);
    If (* 41 *) (Defined i_MLKEM_USE_NATIVE_AARCH64)
    [ Include f_fips202_namespace_h (* 45 *);
      If (* 47 *) (Defined i___ARM_FEATURE_SHA3)
      [ Item (Provide (Spaced i_FIPS202_NAMESPACE i_keccak_f1600_x2_v8a_v84a_asm_hybrid)) (* 416 *);
        Item (Provide (Spaced i__FIPS202_NAMESPACE i_keccak_f1600_x2_v8a_v84a_asm_hybrid)) (* 417 *) ]
      [] ]
    [] ].

(* /repo/fips202/native/aarch64/keccak_f1600_x4_scalar_v84a_asm_hybrid_opt.S; the numbers are its line numbers *)
Definition c_fips202_native_aarch64_keccak_f1600_x4_scalar_v84a_asm_hybrid_opt_S : list line :=
  [ Include f_mlkem_sys_config_h (* 27 *);
    If (* 28 *) (Defined i_MLKEM_USE_NATIVE_AARCH64)
    [ Include f_fips202_namespace_h (* 32 *);
      If (* 34 *) (Defined i___ARM_FEATURE_SHA3)
      [ Item (Provide (Spaced i_FIPS202_NAMESPACE i_keccak_f1600_x4_scalar_v84a_asm_hybrid_opt)) (* 916 *);
        Item (Provide (Spaced i__FIPS202_NAMESPACE i_keccak_f1600_x4_scalar_v84a_asm_hybrid_opt)) (* 917 *) ]
      [] ]
    [] ].

(* /repo/fips202/native/aarch64/keccak_f1600_x4_v8a_scalar_hybrid_asm_opt.S; the numbers are its line numbers *)
Definition c_fips202_native_aarch64_keccak_f1600_x4_v8a_scalar_hybrid_asm_opt_S : list line :=
  [ Include f_mlkem_sys_config_h (* 27 *);
    If (* 28 *) (Defined i_MLKEM_USE_NATIVE_AARCH64)
    [ Include f_fips202_namespace_h (* 32 *);
      Item (Provide (Spaced i_FIPS202_NAMESPACE i_keccak_f1600_x4_scalar_v8a_asm_hybrid_opt)) (* 897 *);
      Item (Provide (Spaced i__FIPS202_NAMESPACE i_keccak_f1600_x4_scalar_v8a_asm_hybrid_opt)) (* 898 *) ]
    [] ].

(* /repo/fips202/native/aarch64/keccak_f1600_x4_v8a_v84a_scalar_hybrid_asm_opt.S; the numbers are its line numbers *)
Definition c_fips202_native_aarch64_keccak_f1600_x4_v8a_v84a_scalar_hybrid_asm_opt_S : list line :=
  [ Include f_mlkem_sys_config_h (* 27 *);
    If (* 28 *) (Defined i_MLKEM_USE_NATIVE_AARCH64)
    [ Include f_fips202_namespace_h (* 32 *);
      If (* 34 *) (Defined i___ARM_FEATURE_SHA3)
      [ Item (Provide (Spaced i_FIPS202_NAMESPACE i_keccak_f1600_x4_scalar_v8a_v84a_hybrid_asm_opt)) (* 914 *);
        Item (Provide (Spaced i__FIPS202_NAMESPACE i_keccak_f1600_x4_scalar_v8a_v84a_hybrid_asm_opt)) (* 915 *) ]
      [] ]
    [] ].

(* /repo/fips202/native/aarch64/profiles/default.h; the numbers are its line numbers *)
Definition c_fips202_native_aarch64_profiles_default_h : list line :=
  [ If (* 8 *) (Defined i_FIPS202_NATIVE_PROFILE_H)
    [ Error (* 9 *) ]
    [ Define i_FIPS202_NATIVE_PROFILE_H Other (* 11 *);
      Include f_fips202_native_aarch64_fips202_native_aarch64_h (* 13 *);
      If (* 32 *) (And (Defined i___ARM_FEATURE_SHA3) (Defined i___APPLE__))
      [ Define i_MLKEM_USE_FIPS202_X1_NATIVE Other (* 33 *);
        Item (Local (Plain i_keccak_f1600_x1_native)) (* 35 *);
        Item (Use i_keccak_f1600_x1_native (Plain i_keccak_f1600_x1_v84a_asm_clean)) (* 36 *) ]
      [
      If (* 38 *) (Not (Defined i_SYS_AARCH64_SLOW_BARREL_SHIFTER))
      [ Define i_MLKEM_USE_FIPS202_X1_NATIVE Other (* 39 *);
        Item (Local (Plain i_keccak_f1600_x1_native)) (* 41 *);
        Item (Use i_keccak_f1600_x1_native (Plain i_keccak_f1600_x1_scalar_asm_opt)) (* 42 *) ]
      []];
      If (* 60 *) (Defined i___ARM_FEATURE_SHA3)
      [ If (* 65 *) (Defined i___APPLE__)
        [ Define i_MLKEM_USE_FIPS202_X2_NATIVE Other (* 66 *);
          Item (Local (Plain i_keccak_f1600_x2_native)) (* 68 *);
          Item (Use i_keccak_f1600_x2_native (Plain i_keccak_f1600_x2_v84a_asm_clean)) (* 69 *) ]
        [ Define i_MLKEM_USE_FIPS202_X4_NATIVE Other (* 72 *);
          Item (Local (Plain i_keccak_f1600_x4_native)) (* 74 *);
          Item (Use i_keccak_f1600_x4_native (Plain i_keccak_f1600_x4_scalar_v8a_v84a_hybrid_asm_opt)) (* 75 *) ] ]
      [ Define i_MLKEM_USE_FIPS202_X4_NATIVE Other (* 81 *);
        Item (Local (Plain i_keccak_f1600_x4_native)) (* 83 *);
        Item (Use i_keccak_f1600_x4_native (Plain i_keccak_f1600_x4_scalar_v8a_asm_hybrid_opt)) (* 84 *) ] ] ].

(* /repo/fips202/native/fips202_native.h; the numbers are its line numbers *)
Definition c_fips202_native_fips202_native_h : list line :=
  [ If (* 5 *) (Not (Defined i_FIPS202_NATIVE_H))
    [ Define i_FIPS202_NATIVE_H Other (* 6 *);
      Include f_mlkem_sys_config_h (* 9 *);
      Include f_mlkem_params_h (* 10 *);
      If (* 12 *) (Defined i_MLKEM_USE_NATIVE)
      [ If (* 33 *) (Defined i_FIPS202_NATIVE_PROFILE)
        [ IncludeNamed (* 37 *) ]
        [
        If (* 40 *) (Not (Defined i_FIPS202_NATIVE_MANUAL))
        [ If (* 42 *) (Defined i_SYS_AARCH64)
          [ Include f_fips202_native_aarch64_profiles_default_h (* 44 *) ]
          [];
          If (* 48 *) (And (Defined i_SYS_X86_64) (Defined i_SYS_X86_64_AVX2))
          [ Include f_fips202_native_x86_64_profiles_xkcp_h (* 49 *) ]
          [] ]
        []] ]
      [] ]
    [] ].

(* /repo/fips202/native/x86_64/fips202_native_x86_64.h; the numbers are its line numbers *)
Definition c_fips202_native_x86_64_fips202_native_x86_64_h : list line :=
  [ If (* 5 *) (Not (Defined i_FIPS202_X86_64_NATIVE_H))
    [ Define i_FIPS202_X86_64_NATIVE_H Other (* 6 *);
      Include f_mlkem_sys_config_h (* 8 *);
      If (* 10 *) (Defined i_MLKEM_USE_NATIVE_X86_64)
      [ Include f_fips202_native_x86_64_xkcp_KeccakP_1600_times4_SnP_h (* 16 *) ]
      [] ]
    [] ].

(* /repo/fips202/native/x86_64/profiles/xkcp.h; the numbers are its line numbers *)
Definition c_fips202_native_x86_64_profiles_xkcp_h : list line :=
  [ If (* 8 *) (Defined i_FIPS202_NATIVE_PROFILE_H)
    [ Error (* 9 *) ]
    [ Define i_FIPS202_NATIVE_PROFILE_H Other (* 11 *);
      Include f_fips202_native_x86_64_fips202_native_x86_64_h (* 13 *);
      If (* 15 *) (And (Defined i_MLKEM_USE_NATIVE_X86_64) (Defined i_SYS_X86_64_AVX2))
      [ Define i_MLKEM_USE_FIPS202_X4_NATIVE Other (* 17 *);
        Item (Local (Plain i_keccak_f1600_x4_native)) (* 19 *);
        Item (Use i_keccak_f1600_x4_native (Plain i_KeccakP1600times4_PermuteAll_24rounds)) (* 20 *) ]
      [] ] ].

(* /repo/fips202/native/x86_64/xkcp/KeccakP-1600-times4-SIMD256.c; the numbers are its line numbers *)
Definition c_fips202_native_x86_64_xkcp_KeccakP_1600_times4_SIMD256_c : list line :=
  [ Include f_mlkem_sys_config_h (* 27 *);
    If (* 28 *) (And (Defined i_MLKEM_USE_NATIVE_X86_64) (Defined i_SYS_X86_64_AVX2))
    [ Include f_fips202_native_x86_64_xkcp_KeccakP_1600_times4_SnP_h (* 37 *);
      Include f_fips202_native_x86_64_xkcp_KeccakP_brg_endian_h (* 41 *);
      If (* 42 *) (Ne (Name i_PLATFORM_BYTE_ORDER) (Name i_IS_LITTLE_ENDIAN))
      [ Error (* 43 *) ]
      [];
      Item (Provide (Plain i_KeccakP1600times4_PermuteAll_24rounds)) (* 437 *) ]
    [ Item (Provide (Plain i_empty_cu_avx2_keccakx4)) (* 450 *) ] ].

(* /repo/fips202/native/x86_64/xkcp/KeccakP-1600-times4-SnP.h; the numbers are its line numbers *)
Definition c_fips202_native_x86_64_xkcp_KeccakP_1600_times4_SnP_h : list line :=
  [ If (* 21 *) (Not (Defined i__KeccakP_1600_times4_SnP_h_))
    [ Define i__KeccakP_1600_times4_SnP_h_ Other (* 22 *);
      Include f_fips202_namespace_h (* 29 *);
      Define i_KeccakP1600times4_PermuteAll_24rounds (Apply i_FIPS202_NAMESPACE i_KeccakP1600times4_PermuteAll_24rounds) (* 33 *) ]
    [] ].

(* /repo/fips202/native/x86_64/xkcp/KeccakP-brg_endian.h; the numbers are its line numbers *)
Definition c_fips202_native_x86_64_xkcp_KeccakP_brg_endian_h : list line :=
  [ If (* 34 *) (Not (Defined i__KECCAKP_BRG_ENDIAN_H))
    [ Define i__KECCAKP_BRG_ENDIAN_H Other (* 35 *);
      Define i_IS_BIG_ENDIAN (Expr (Num 4321)) (* 37 *);
      Define i_IS_LITTLE_ENDIAN (Expr (Num 1234)) (* 38 *);
      If (* 64 *) (And (Defined i_BIG_ENDIAN) (Defined i_LITTLE_ENDIAN))
      [ If (* 65 *) (And (Defined i_BYTE_ORDER) (Eq (Name i_BYTE_ORDER) (Name i_BIG_ENDIAN)))
        [ Define i_PLATFORM_BYTE_ORDER (Expr (Name i_IS_BIG_ENDIAN)) (* 66 *) ]
        [
        If (* 67 *) (And (Defined i_BYTE_ORDER) (Eq (Name i_BYTE_ORDER) (Name i_LITTLE_ENDIAN)))
        [ Define i_PLATFORM_BYTE_ORDER (Expr (Name i_IS_LITTLE_ENDIAN)) (* 68 *) ]
        []] ]
      [
      If (* 70 *) (Defined i_BIG_ENDIAN)
      [ Define i_PLATFORM_BYTE_ORDER (Expr (Name i_IS_BIG_ENDIAN)) (* 71 *) ]
      [
      If (* 72 *) (Defined i_LITTLE_ENDIAN)
      [ Define i_PLATFORM_BYTE_ORDER (Expr (Name i_IS_LITTLE_ENDIAN)) (* 73 *) ]
      []]];
      If (* 76 *) (And (Defined i__BIG_ENDIAN) (Defined i__LITTLE_ENDIAN))
      [ If (* 77 *) (And (Defined i__BYTE_ORDER) (Eq (Name i__BYTE_ORDER) (Name i__BIG_ENDIAN)))
        [ Define i_PLATFORM_BYTE_ORDER (Expr (Name i_IS_BIG_ENDIAN)) (* 78 *) ]
        [
        If (* 79 *) (And (Defined i__BYTE_ORDER) (Eq (Name i__BYTE_ORDER) (Name i__LITTLE_ENDIAN)))
        [ Define i_PLATFORM_BYTE_ORDER (Expr (Name i_IS_LITTLE_ENDIAN)) (* 80 *) ]
        []] ]
      [
      If (* 82 *) (Defined i__BIG_ENDIAN)
      [ Define i_PLATFORM_BYTE_ORDER (Expr (Name i_IS_BIG_ENDIAN)) (* 83 *) ]
      [
      If (* 84 *) (Defined i__LITTLE_ENDIAN)
      [ Define i_PLATFORM_BYTE_ORDER (Expr (Name i_IS_LITTLE_ENDIAN)) (* 85 *) ]
      []]];
      If (* 88 *) (And (Defined i___BIG_ENDIAN) (Defined i___LITTLE_ENDIAN))
      [ If (* 89 *) (And (Defined i___BYTE_ORDER) (Eq (Name i___BYTE_ORDER) (Name i___BIG_ENDIAN)))
        [ Define i_PLATFORM_BYTE_ORDER (Expr (Name i_IS_BIG_ENDIAN)) (* 90 *) ]
        [
        If (* 91 *) (And (Defined i___BYTE_ORDER) (Eq (Name i___BYTE_ORDER) (Name i___LITTLE_ENDIAN)))
        [ Define i_PLATFORM_BYTE_ORDER (Expr (Name i_IS_LITTLE_ENDIAN)) (* 92 *) ]
        []] ]
      [
      If (* 94 *) (Defined i___BIG_ENDIAN)
      [ Define i_PLATFORM_BYTE_ORDER (Expr (Name i_IS_BIG_ENDIAN)) (* 95 *) ]
      [
      If (* 96 *) (Defined i___LITTLE_ENDIAN)
      [ Define i_PLATFORM_BYTE_ORDER (Expr (Name i_IS_LITTLE_ENDIAN)) (* 97 *) ]
      []]];
      If (* 100 *) (And (Defined i___BIG_ENDIAN__) (Defined i___LITTLE_ENDIAN__))
      [ If (* 101 *) (And (Defined i___BYTE_ORDER__) (Eq (Name i___BYTE_ORDER__) (Name i___BIG_ENDIAN__)))
        [ Define i_PLATFORM_BYTE_ORDER (Expr (Name i_IS_BIG_ENDIAN)) (* 102 *) ]
        [
        If (* 103 *) (And (Defined i___BYTE_ORDER__) (Eq (Name i___BYTE_ORDER__) (Name i___LITTLE_ENDIAN__)))
        [ Define i_PLATFORM_BYTE_ORDER (Expr (Name i_IS_LITTLE_ENDIAN)) (* 104 *) ]
        []] ]
      [
      If (* 106 *) (Defined i___BIG_ENDIAN__)
      [ Define i_PLATFORM_BYTE_ORDER (Expr (Name i_IS_BIG_ENDIAN)) (* 107 *) ]
      [
      If (* 108 *) (Defined i___LITTLE_ENDIAN__)
      [ Define i_PLATFORM_BYTE_ORDER (Expr (Name i_IS_LITTLE_ENDIAN)) (* 109 *) ]
      []]];
      If (* 116 *) (Not (Defined i_PLATFORM_BYTE_ORDER))
      [ If (* 118 *) (Or (Or (Or (Or (Or (Or (Or (Or (Or (Or (Or (Or (Or (Defined i___alpha__) (Defined i___alpha)) (Defined i_i386)) (Defined i___i386__)) (Defined i__M_I86)) (Defined i__M_IX86)) (Defined i___OS2__)) (Defined i_sun386)) (Defined i___TURBOC__)) (Defined i_vax)) (Defined i_vms)) (Defined i_VMS)) (Defined i___VMS)) (Defined i__M_X64))
        [ Define i_PLATFORM_BYTE_ORDER (Expr (Name i_IS_LITTLE_ENDIAN)) (* 123 *) ]
        [
        If (* 125 *) (Or (Or (Or (Or (Or (Or (Or (Or (Or (Or (Or (Or (Or (Or (Or (Or (Or (Or (Or (Or (Defined i_AMIGA) (Defined i_applec)) (Defined i___AS400__)) (Defined i__CRAY)) (Defined i___hppa)) (Defined i___hp9000)) (Defined i_ibm370)) (Defined i_mc68000)) (Defined i_m68k)) (Defined i___MRC__)) (Defined i___MVS__)) (Defined i___MWERKS__)) (Defined i_sparc)) (Defined i___sparc)) (Defined i_SYMANTEC_C)) (Defined i___VOS__)) (Defined i___TIGCC__)) (Defined i___TANDEM)) (Defined i_THINK_C)) (Defined i___VMCMS__)) (Defined i__AIX))
        [ Define i_PLATFORM_BYTE_ORDER (Expr (Name i_IS_BIG_ENDIAN)) (* 132 *) ]
        [
        If (* 134 *) (Defined i___arm__)
        [ If (* 135 *) (Defined i___BIG_ENDIAN)
          [ Define i_PLATFORM_BYTE_ORDER (Expr (Name i_IS_BIG_ENDIAN)) (* 136 *) ]
          [ Define i_PLATFORM_BYTE_ORDER (Expr (Name i_IS_LITTLE_ENDIAN)) (* 138 *) ] ]
        [ Define i_PLATFORM_BYTE_ORDER (Expr (Name i_IS_LITTLE_ENDIAN)) (* 141 *) ]]] ]
      [] ]
    [] ].

(* /repo/mlkem/cbd.c; the numbers are its line numbers *)
Definition c_mlkem_cbd_c : list line :=
  [ Include f_mlkem_cbd_h (* 5 *);
    Include f_mlkem_params_h (* 7 *);
    If (* 127 *) (Eq (Name i_MLKEM_ETA1) (Num 2))
    []
    [
    If (* 129 *) (Eq (Name i_MLKEM_ETA1) (Num 3))
    []
    [ Error (* 132 *) ]];
    If (* 138 *) (Eq (Name i_MLKEM_ETA2) (Num 2))
    []
    [ Error (* 141 *) ] ].

(* /repo/mlkem/cbd.h; the numbers are its line numbers *)
Definition c_mlkem_cbd_h : list line :=
  [ If (* 5 *) (Not (Defined i_CBD_H))
    [ Define i_CBD_H Other (* 6 *);
      Include f_mlkem_params_h (* 9 *);
      Include f_mlkem_poly_h (* 10 *) ]
    [] ].

(* /repo/mlkem/indcpa.c; the numbers are its line numbers *)
Definition c_mlkem_indcpa_c : list line :=
  [ Include f_mlkem_indcpa_h (* 5 *);
    Include f_fips202_fips202_h (* 9 *);
    Include f_fips202_fips202x4_h (* 10 *);
    Include f_mlkem_indcpa_h (* 11 *);
    Include f_mlkem_ntt_h (* 12 *);
    Include f_mlkem_params_h (* 13 *);
    Include f_mlkem_poly_h (* 14 *);
    Include f_mlkem_polyvec_h (* 15 *);
    Include f_mlkem_rej_uniform_h (* 17 *);
    Include f_mlkem_symmetric_h (* 18 *);
    Include f_mlkem_native_arith_native_h (* 20 *);
    Item (Use i_gen_matrix_entry_x4 (Plain i_rej_uniform)) (* 185 *);
    Item (Use i_gen_matrix_entry (Plain i_rej_uniform)) (* 240 *);
    If (* 349 *) (Defined i_MLKEM_USE_NATIVE_NTT_CUSTOM_ORDER)
    [ Item (Use i_gen_matrix (Plain i_poly_permute_bitrev_to_custom)) (* 358 *) ]
    [];
    Item (Use i_matvec_mul (Plain i_polyvec_basemul_acc_montgomery_cached)) (* 396 *);
    Item (Use i_indcpa_enc (Plain i_polyvec_basemul_acc_montgomery_cached)) (* 534 *);
    Item (Use i_indcpa_enc (Plain i_poly_invntt_tomont)) (* 537 *);
    Item (Use i_indcpa_enc (Plain i_poly_reduce)) (* 545 *);
    Item (Use i_indcpa_dec (Plain i_poly_invntt_tomont)) (* 565 *);
    Item (Use i_indcpa_dec (Plain i_poly_reduce)) (* 569 *) ].

(* /repo/mlkem/indcpa.h; the numbers are its line numbers *)
Definition c_mlkem_indcpa_h : list line :=
  [ If (* 5 *) (Not (Defined i_INDCPA_H))
    [ Define i_INDCPA_H Other (* 6 *);
      Include f_mlkem_params_h (* 10 *);
      Include f_mlkem_polyvec_h (* 11 *) ]
    [] ].

(* /repo/mlkem/kem.c; the numbers are its line numbers *)
Definition c_mlkem_kem_c : list line :=
  [ Include f_mlkem_kem_h (* 5 *);
    Include f_mlkem_indcpa_h (* 9 *);
    Include f_mlkem_params_h (* 10 *);
    Include f_mlkem_symmetric_h (* 12 *);
    Include f_mlkem_verify_h (* 13 *) ].

(* /repo/mlkem/kem.h; the numbers are its line numbers *)
Definition c_mlkem_kem_h : list line :=
  [ If (* 5 *) (Not (Defined i_KEM_H))
    [ Define i_KEM_H Other (* 6 *);
      Include f_mlkem_params_h (* 10 *) ]
    [] ].

(* /repo/mlkem/native/aarch64/aarch64_zetas.c; the numbers are its line numbers *)
Definition c_mlkem_native_aarch64_aarch64_zetas_c : list line :=
  [ Include f_mlkem_native_aarch64_arith_native_aarch64_h (* 11 *);
    If (* 13 *) (Defined i_MLKEM_USE_NATIVE_AARCH64)
    [ Item (Provide (Plain i_aarch64_ntt_zetas_layer01234)) (* 19 *);
      Item (Provide (Plain i_aarch64_ntt_zetas_layer56)) (* 30 *);
      Item (Provide (Plain i_aarch64_invntt_zetas_layer01234)) (* 76 *);
      Item (Provide (Plain i_aarch64_invntt_zetas_layer56)) (* 87 *);
      Item (Provide (Plain i_aarch64_zetas_mulcache_native)) (* 133 *);
      Item (Provide (Plain i_aarch64_zetas_mulcache_twisted_native)) (* 148 *) ]
    [ Item (Provide (Plain i_empty_cu_aarch64_zetas)) (* 168 *) ] ].

(* /repo/mlkem/native/aarch64/arith_native_aarch64.h; the numbers are its line numbers *)
Definition c_mlkem_native_aarch64_arith_native_aarch64_h : list line :=
  [ If (* 5 *) (Not (Defined i_MLKEM_AARCH64_NATIVE_H))
    [ Define i_MLKEM_AARCH64_NATIVE_H Other (* 6 *);
      Include f_mlkem_sys_config_h (* 9 *);
      Include f_mlkem_params_h (* 10 *);
      If (* 12 *) (Defined i_MLKEM_USE_NATIVE_AARCH64)
      [ Define i_aarch64_ntt_zetas_layer01234 (Apply i_MLKEM_NAMESPACE i_aarch64_ntt_zetas_layer01234) (* 14 *);
        Define i_aarch64_ntt_zetas_layer56 (Apply i_MLKEM_NAMESPACE i_aarch64_ntt_zetas_layer56) (* 16 *);
        Define i_aarch64_invntt_zetas_layer01234 (Apply i_MLKEM_NAMESPACE i_aarch64_invntt_zetas_layer01234) (* 17 *);
        Define i_aarch64_invntt_zetas_layer56 (Apply i_MLKEM_NAMESPACE i_aarch64_invntt_zetas_layer56) (* 19 *);
        Define i_aarch64_zetas_mulcache_native (Apply i_MLKEM_NAMESPACE i_aarch64_zetas_mulcache_native) (* 21 *);
        Define i_aarch64_zetas_mulcache_twisted_native (Apply i_MLKEM_NAMESPACE i_aarch64_zetas_mulcache_twisted_native) (* 23 *);
        Define i_ntt_asm_clean (Apply i_MLKEM_NAMESPACE i_ntt_asm_clean) (* 33 *);
        Define i_ntt_asm_opt (Apply i_MLKEM_NAMESPACE i_ntt_asm_opt) (* 36 *);
        Define i_intt_asm_clean (Apply i_MLKEM_NAMESPACE i_intt_asm_clean) (* 39 *);
        Define i_intt_asm_opt (Apply i_MLKEM_NAMESPACE i_intt_asm_opt) (* 42 *);
        Define i_rej_uniform_asm_clean (Apply i_MLKEM_NAMESPACE i_rej_uniform_asm_clean) (* 45 *);
        Define i_poly_reduce_asm_clean (Apply i_MLKEM_NAMESPACE i_poly_reduce_asm_clean) (* 49 *);
        Define i_poly_reduce_asm_opt (Apply i_MLKEM_NAMESPACE i_poly_reduce_asm_opt) (* 52 *);
        Define i_poly_tomont_asm_clean (Apply i_MLKEM_NAMESPACE i_poly_tomont_asm_clean) (* 55 *);
        Define i_poly_tomont_asm_opt (Apply i_MLKEM_NAMESPACE i_poly_tomont_asm_opt) (* 58 *);
        Define i_poly_mulcache_compute_asm_clean (Apply i_MLKEM_NAMESPACE i_poly_mulcache_compute_asm_clean) (* 61 *);
        Define i_poly_mulcache_compute_asm_opt (Apply i_MLKEM_NAMESPACE i_poly_mulcache_compute_asm_opt) (* 67 *);
        Define i_poly_tobytes_asm_clean (Apply i_MLKEM_NAMESPACE i_poly_tobytes_asm_clean) (* 72 *);
        Define i_polyvec_basemul_acc_montgomery_cached_asm_clean (Apply i_MLKEM_NAMESPACE i_polyvec_basemul_acc_montgomery_cached_asm_clean) (* 75 *);
        Define i_polyvec_basemul_acc_montgomery_cached_asm_opt (Apply i_MLKEM_NAMESPACE i_polyvec_basemul_acc_montgomery_cached_asm_opt) (* 82 *) ]
      [] ]
    [] ].

(* /repo/mlkem/native/aarch64/intt_clean.S; the numbers are its line numbers *)
Definition c_mlkem_native_aarch64_intt_clean_S : list line :=
  [ Include f_mlkem_sys_config_h (* 26 *);
    If (* 27 *) (Defined i_MLKEM_USE_NATIVE_AARCH64)
    [ Include f_mlkem_params_h (* 31 *);
      Item (Provide (Spaced i_MLKEM_NAMESPACE i_intt_asm_clean)) (* 177 *);
      Item (Provide (Spaced i__MLKEM_NAMESPACE i_intt_asm_clean)) (* 178 *) ]
    [] ].

(* /repo/mlkem/native/aarch64/intt_opt.S; the numbers are its line numbers *)
Definition c_mlkem_native_aarch64_intt_opt_S : list line :=
  [ Include f_mlkem_sys_config_h (* 26 *);
    If (* 27 *) (Defined i_MLKEM_USE_NATIVE_AARCH64)
    [ Include f_mlkem_params_h (* 31 *);
      Item (Provide (Spaced i_MLKEM_NAMESPACE i_intt_asm_opt)) (* 177 *);
      Item (Provide (Spaced i__MLKEM_NAMESPACE i_intt_asm_opt)) (* 178 *) ]
    [] ].

(* /repo/mlkem/native/aarch64/ntt_clean.S; the numbers are its line numbers *)
Definition c_mlkem_native_aarch64_ntt_clean_S : list line :=
  [ Include f_mlkem_sys_config_h (* 27 *);
    If (* 28 *) (Defined i_MLKEM_USE_NATIVE_AARCH64)
    [ Include f_mlkem_params_h (* 32 *);
      Item (Provide (Spaced i_MLKEM_NAMESPACE i_ntt_asm_clean)) (* 199 *);
      Item (Provide (Spaced i__MLKEM_NAMESPACE i_ntt_asm_clean)) (* 200 *) ]
    [] ].

(* /repo/mlkem/native/aarch64/ntt_opt.S; the numbers are its line numbers *)
Definition c_mlkem_native_aarch64_ntt_opt_S : list line :=
  [ Include f_mlkem_sys_config_h (* 27 *);
    If (* 28 *) (Defined i_MLKEM_USE_NATIVE_AARCH64)
    [ Include f_mlkem_params_h (* 32 *);
      Item (Provide (Spaced i_MLKEM_NAMESPACE i_ntt_asm_opt)) (* 199 *);
      Item (Provide (Spaced i__MLKEM_NAMESPACE i_ntt_asm_opt)) (* 200 *) ]
    [] ].

(* /repo/mlkem/native/aarch64/poly_clean.S; the numbers are its line numbers *)
Definition c_mlkem_native_aarch64_poly_clean_S : list line :=
  [ Include f_mlkem_sys_config_h (* 6 *);
    If (* 7 *) (Defined i_MLKEM_USE_NATIVE_AARCH64)
    [ Include f_mlkem_params_h (* 11 *);
      Item (Provide (Spaced i_MLKEM_NAMESPACE i_poly_reduce_asm_clean)) (* 60 *);
      Item (Provide (Spaced i__MLKEM_NAMESPACE i_poly_reduce_asm_clean)) (* 61 *);
      Item (Provide (Spaced i_MLKEM_NAMESPACE i_poly_mulcache_compute_asm_clean)) (* 136 *);
      Item (Provide (Spaced i__MLKEM_NAMESPACE i_poly_mulcache_compute_asm_clean)) (* 137 *);
      Item (Provide (Spaced i_MLKEM_NAMESPACE i_poly_tobytes_asm_clean)) (* 194 *);
      Item (Provide (Spaced i__MLKEM_NAMESPACE i_poly_tobytes_asm_clean)) (* 195 *);
      Item (Provide (Spaced i_MLKEM_NAMESPACE i_poly_tomont_asm_clean)) (* 253 *);
      Item (Provide (Spaced i__MLKEM_NAMESPACE i_poly_tomont_asm_clean)) (* 254 *) ]
    [] ].

(* /repo/mlkem/native/aarch64/poly_opt.S; the numbers are its line numbers *)
Definition c_mlkem_native_aarch64_poly_opt_S : list line :=
  [ Include f_mlkem_sys_config_h (* 6 *);
    If (* 7 *) (Defined i_MLKEM_USE_NATIVE_AARCH64)
    [ Include f_mlkem_params_h (* 11 *);
      Item (Provide (Spaced i_MLKEM_NAMESPACE i_poly_reduce_asm_opt)) (* 60 *);
      Item (Provide (Spaced i__MLKEM_NAMESPACE i_poly_reduce_asm_opt)) (* 61 *);
      Item (Provide (Spaced i_MLKEM_NAMESPACE i_poly_mulcache_compute_asm_opt)) (* 299 *);
      Item (Provide (Spaced i__MLKEM_NAMESPACE i_poly_mulcache_compute_asm_opt)) (* 300 *);
      Item (Provide (Spaced i_MLKEM_NAMESPACE i_poly_tobytes_asm_opt)) (* 440 *);
      Item (Provide (Spaced i__MLKEM_NAMESPACE i_poly_tobytes_asm_opt)) (* 441 *);
      Item (Provide (Spaced i_MLKEM_NAMESPACE i_poly_tomont_asm_opt)) (* 499 *);
      Item (Provide (Spaced i__MLKEM_NAMESPACE i_poly_tomont_asm_opt)) (* 500 *) ]
    [] ].

(* /repo/mlkem/native/aarch64/polyvec_clean.S; the numbers are its line numbers *)
Definition c_mlkem_native_aarch64_polyvec_clean_S : list line :=
  [ Include f_mlkem_sys_config_h (* 12 *);
    If (* 13 *) (Defined i_MLKEM_USE_NATIVE_AARCH64)
    [ Include f_mlkem_params_h (* 15 *);
      If (* 145 *) (Eq (Name i_MLKEM_K) (Num 2))
      [ Item (Provide (Spaced i_MLKEM_NAMESPACE i_polyvec_basemul_acc_montgomery_cached_asm_clean)) (* 149 *);
        Item (Provide (Spaced i__MLKEM_NAMESPACE i_polyvec_basemul_acc_montgomery_cached_asm_clean)) (* 150 *) ]
      [];
      If (* 184 *) (Eq (Name i_MLKEM_K) (Num 3))
      [ Item (Provide (Spaced i_MLKEM_NAMESPACE i_polyvec_basemul_acc_montgomery_cached_asm_clean)) (* 188 *);
        Item (Provide (Spaced i__MLKEM_NAMESPACE i_polyvec_basemul_acc_montgomery_cached_asm_clean)) (* 189 *) ]
      [];
      If (* 228 *) (Eq (Name i_MLKEM_K) (Num 4))
      [ Item (Provide (Spaced i_MLKEM_NAMESPACE i_polyvec_basemul_acc_montgomery_cached_asm_clean)) (* 232 *);
        Item (Provide (Spaced i__MLKEM_NAMESPACE i_polyvec_basemul_acc_montgomery_cached_asm_clean)) (* 233 *) ]
      [] ]
    [] ].

(* /repo/mlkem/native/aarch64/polyvec_opt.S; the numbers are its line numbers *)
Definition c_mlkem_native_aarch64_polyvec_opt_S : list line :=
  [ Include f_mlkem_sys_config_h (* 12 *);
    If (* 13 *) (Defined i_MLKEM_USE_NATIVE_AARCH64)
    [ Include f_mlkem_params_h (* 15 *);
      If (* 141 *) (Eq (Name i_MLKEM_K) (Num 2))
      [ Item (Provide (Spaced i_MLKEM_NAMESPACE i_polyvec_basemul_acc_montgomery_cached_asm_opt)) (* 145 *);
        Item (Provide (Spaced i__MLKEM_NAMESPACE i_polyvec_basemul_acc_montgomery_cached_asm_opt)) (* 146 *) ]
      [];
      If (* 356 *) (Eq (Name i_MLKEM_K) (Num 3))
      [ Item (Provide (Spaced i_MLKEM_NAMESPACE i_polyvec_basemul_acc_montgomery_cached_asm_opt)) (* 360 *);
        Item (Provide (Spaced i__MLKEM_NAMESPACE i_polyvec_basemul_acc_montgomery_cached_asm_opt)) (* 361 *) ]
      [];
      If (* 706 *) (Eq (Name i_MLKEM_K) (Num 4))
      [ Item (Provide (Spaced i_MLKEM_NAMESPACE i_polyvec_basemul_acc_montgomery_cached_asm_opt)) (* 710 *);
        Item (Provide (Spaced i__MLKEM_NAMESPACE i_polyvec_basemul_acc_montgomery_cached_asm_opt)) (* 711 *) ]
      [] ]
    [] ].

(* /repo/mlkem/native/aarch64/profiles/clean.h; the numbers are its line numbers *)
Definition c_mlkem_native_aarch64_profiles_clean_h : list line :=
  [ If (* 8 *) (Defined i_MLKEM_ARITH_NATIVE_PROFILE_H)
    [ Error (* 9 *) ]
    [ Define i_MLKEM_ARITH_NATIVE_PROFILE_H Other (* 11 *);
      Include f_mlkem_native_arith_native_h (* 13 *);
      Include f_mlkem_native_aarch64_arith_native_aarch64_h (* 14 *);
      Define i_MLKEM_USE_NATIVE_NTT Other (* 16 *);
      Define i_MLKEM_USE_NATIVE_INTT Other (* 17 *);
      Define i_MLKEM_USE_NATIVE_POLY_REDUCE Other (* 18 *);
      Define i_MLKEM_USE_NATIVE_POLY_TOMONT Other (* 19 *);
      Define i_MLKEM_USE_NATIVE_POLY_MULCACHE_COMPUTE Other (* 20 *);
      Define i_MLKEM_USE_NATIVE_POLYVEC_BASEMUL_ACC_MONTGOMERY_CACHED Other (* 21 *);
      Define i_MLKEM_USE_NATIVE_POLY_TOBYTES Other (* 22 *);
      Define i_MLKEM_USE_NATIVE_REJ_UNIFORM Other (* 23 *);
      Item (Local (Plain i_ntt_native)) (* 27 *);
      Item (Use i_ntt_native (Plain i_ntt_asm_clean)) (* 28 *);
      Item (Use i_ntt_native (Plain i_aarch64_ntt_zetas_layer01234)) (* 28 *);
      Item (Use i_ntt_native (Plain i_aarch64_ntt_zetas_layer56)) (* 29 *);
      Item (Local (Plain i_intt_native)) (* 34 *);
      Item (Use i_intt_native (Plain i_intt_asm_clean)) (* 35 *);
      Item (Use i_intt_native (Plain i_aarch64_invntt_zetas_layer01234)) (* 35 *);
      Item (Use i_intt_native (Plain i_aarch64_invntt_zetas_layer56)) (* 36 *);
      Item (Local (Plain i_poly_reduce_native)) (* 40 *);
      Item (Use i_poly_reduce_native (Plain i_poly_reduce_asm_clean)) (* 41 *);
      Item (Local (Plain i_poly_tomont_native)) (* 44 *);
      Item (Use i_poly_tomont_native (Plain i_poly_tomont_asm_clean)) (* 45 *);
      Item (Local (Plain i_poly_mulcache_compute_native)) (* 49 *);
      Item (Use i_poly_mulcache_compute_native (Plain i_poly_mulcache_compute_asm_clean)) (* 50 *);
      Item (Use i_poly_mulcache_compute_native (Plain i_aarch64_zetas_mulcache_native)) (* 51 *);
      Item (Use i_poly_mulcache_compute_native (Plain i_aarch64_zetas_mulcache_twisted_native)) (* 52 *);
      Item (Local (Plain i_polyvec_basemul_acc_montgomery_cached_native)) (* 57 *);
      Item (Use i_polyvec_basemul_acc_montgomery_cached_native (Plain i_polyvec_basemul_acc_montgomery_cached_asm_clean)) (* 58 *);
      Item (Local (Plain i_poly_tobytes_native)) (* 64 *);
      Item (Use i_poly_tobytes_native (Plain i_poly_tobytes_asm_clean)) (* 65 *);
      Item (Local (Plain i_rej_uniform_native)) (* 70 *);
      Item (Use i_rej_uniform_native (Plain i_rej_uniform_asm_clean)) (* 75 *) ] ].

(* /repo/mlkem/native/aarch64/profiles/opt.h; the numbers are its line numbers *)
Definition c_mlkem_native_aarch64_profiles_opt_h : list line :=
  [ If (* 8 *) (Defined i_MLKEM_ARITH_NATIVE_PROFILE_H)
    [ Error (* 9 *) ]
    [ Define i_MLKEM_ARITH_NATIVE_PROFILE_H Other (* 11 *);
      Include f_mlkem_native_arith_native_h (* 13 *);
      Include f_mlkem_native_aarch64_arith_native_aarch64_h (* 14 *);
      Define i_MLKEM_USE_NATIVE_NTT Other (* 16 *);
      Define i_MLKEM_USE_NATIVE_INTT Other (* 17 *);
      Define i_MLKEM_USE_NATIVE_POLY_REDUCE Other (* 18 *);
      Define i_MLKEM_USE_NATIVE_POLY_TOMONT Other (* 19 *);
      Define i_MLKEM_USE_NATIVE_POLY_MULCACHE_COMPUTE Other (* 20 *);
      Define i_MLKEM_USE_NATIVE_POLYVEC_BASEMUL_ACC_MONTGOMERY_CACHED Other (* 21 *);
      Define i_MLKEM_USE_NATIVE_POLY_TOBYTES Other (* 22 *);
      Define i_MLKEM_USE_NATIVE_REJ_UNIFORM Other (* 23 *);
      Item (Local (Plain i_ntt_native)) (* 27 *);
      Item (Use i_ntt_native (Plain i_ntt_asm_opt)) (* 28 *);
      Item (Use i_ntt_native (Plain i_aarch64_ntt_zetas_layer01234)) (* 28 *);
      Item (Use i_ntt_native (Plain i_aarch64_ntt_zetas_layer56)) (* 29 *);
      Item (Local (Plain i_intt_native)) (* 34 *);
      Item (Use i_intt_native (Plain i_intt_asm_opt)) (* 35 *);
      Item (Use i_intt_native (Plain i_aarch64_invntt_zetas_layer01234)) (* 35 *);
      Item (Use i_intt_native (Plain i_aarch64_invntt_zetas_layer56)) (* 36 *);
      Item (Local (Plain i_poly_reduce_native)) (* 40 *);
      Item (Use i_poly_reduce_native (Plain i_poly_reduce_asm_opt)) (* 41 *);
      Item (Local (Plain i_poly_tomont_native)) (* 44 *);
      Item (Use i_poly_tomont_native (Plain i_poly_tomont_asm_opt)) (* 45 *);
      Item (Local (Plain i_poly_mulcache_compute_native)) (* 49 *);
      Item (Use i_poly_mulcache_compute_native (Plain i_poly_mulcache_compute_asm_opt)) (* 50 *);
      Item (Use i_poly_mulcache_compute_native (Plain i_aarch64_zetas_mulcache_native)) (* 51 *);
      Item (Use i_poly_mulcache_compute_native (Plain i_aarch64_zetas_mulcache_twisted_native)) (* 52 *);
      Item (Local (Plain i_polyvec_basemul_acc_montgomery_cached_native)) (* 57 *);
      Item (Use i_polyvec_basemul_acc_montgomery_cached_native (Plain i_polyvec_basemul_acc_montgomery_cached_asm_opt)) (* 58 *);
      Item (Local (Plain i_poly_tobytes_native)) (* 64 *);
      Item (Use i_poly_tobytes_native (Plain i_poly_tobytes_asm_clean)) (* 65 *);
      Item (Local (Plain i_rej_uniform_native)) (* 70 *);
      Item (Use i_rej_uniform_native (Plain i_rej_uniform_asm_clean)) (* 75 *) ] ].

(* /repo/mlkem/native/aarch64/rej_uniform_asm_clean.S; the numbers are its line numbers *)
Definition c_mlkem_native_aarch64_rej_uniform_asm_clean_S : list line :=
  [ Include f_mlkem_sys_config_h (* 21 *);
    Include f_mlkem_params_h (* 22 *);
    If (* 23 *) (Defined i_MLKEM_USE_NATIVE_AARCH64)
    [ Include f_mlkem_params_h (* 27 *);
      Item (Provide (Spaced i_MLKEM_NAMESPACE i_rej_uniform_asm_clean)) (* 387 *);
      Item (Provide (Spaced i__MLKEM_NAMESPACE i_rej_uniform_asm_clean)) (* 388 *) ]
    [] ].

(* /repo/mlkem/native/arith_native.h; the numbers are its line numbers *)
Definition c_mlkem_native_arith_native_h : list line :=
  [ If (* 5 *) (Not (Defined i_MLKEM_ARITH_NATIVE_H))
    [ Define i_MLKEM_ARITH_NATIVE_H Other (* 6 *);
      Include f_mlkem_sys_config_h (* 9 *);
      Include f_mlkem_params_h (* 10 *);
      If (* 12 *) (Defined i_MLKEM_USE_NATIVE)
      [ Include f_mlkem_poly_h (* 14 *);
        Include f_mlkem_polyvec_h (* 15 *);
        Include f_mlkem_native_profile_h (* 16 *);
        If (* 67 *) (Defined i_MLKEM_USE_NATIVE_NTT_CUSTOM_ORDER)
        [ If (* 73 *) (Or (Or (Or (Or (Or (Not (Defined i_MLKEM_USE_NATIVE_NTT)) (Not (Defined i_MLKEM_USE_NATIVE_INTT))) (Not (Defined i_MLKEM_USE_NATIVE_POLY_MULCACHE_COMPUTE))) (Not (Defined i_MLKEM_USE_NATIVE_POLYVEC_BASEMUL_ACC_MONTGOMERY_CACHED))) (Not (Defined i_MLKEM_USE_NATIVE_POLY_TOBYTES))) (Not (Defined i_MLKEM_USE_NATIVE_POLY_FROMBYTES)))
          [ Error (* 78 *) ]
          [] ]
        [] ]
      [] ]
    [] ].

(* /repo/mlkem/native/profile.h; the numbers are its line numbers *)
Definition c_mlkem_native_profile_h : list line :=
  [ If (* 5 *) (Not (Defined i_MLKEM_ARITH_NATIVE_PROFILE_CHOICE_H))
    [ Define i_MLKEM_ARITH_NATIVE_PROFILE_CHOICE_H Other (* 6 *);
      Include f_mlkem_sys_config_h (* 9 *);
      Include f_mlkem_params_h (* 10 *);
      If (* 12 *) (Defined i_MLKEM_USE_NATIVE)
      [ Include f_mlkem_poly_h (* 13 *);
        Include f_mlkem_polyvec_h (* 14 *);
        If (* 35 *) (Defined i_MLKEM_ARITH_NATIVE_PROFILE)
        [ IncludeNamed (* 39 *) ]
        [
        If (* 42 *) (Not (Defined i_MLKEM_ARITH_NATIVE_MANUAL))
        [ If (* 44 *) (Defined i_SYS_AARCH64)
          [ If (* 50 *) (Defined i_MLKEM_USE_NATIVE_AARCH64_CLEAN)
            [ Include f_mlkem_native_aarch64_profiles_clean_h (* 51 *) ]
            [ Include f_mlkem_native_aarch64_profiles_opt_h (* 53 *) ] ]
          [];
          If (* 57 *) (Defined i_SYS_X86_64_AVX2)
          [ Include f_mlkem_native_x86_64_profiles_default_h (* 63 *) ]
          [] ]
        []] ]
      [] ]
    [] ].

(* /repo/mlkem/native/x86_64/arith_native_x86_64.h; the numbers are its line numbers *)
Definition c_mlkem_native_x86_64_arith_native_x86_64_h : list line :=
  [ If (* 5 *) (Not (Defined i_MLKEM_X86_64_NATIVE_H))
    [ Define i_MLKEM_X86_64_NATIVE_H Other (* 6 *);
      Include f_mlkem_sys_config_h (* 9 *);
      Include f_fips202_fips202_h (* 10 *);
      Include f_mlkem_params_h (* 11 *);
      Include f_mlkem_polyvec_h (* 12 *);
      If (* 14 *) (And (Defined i_MLKEM_USE_NATIVE_X86_64) (Defined i_SYS_X86_64_AVX2))
      [ Define i_rej_uniform_avx2 (Apply i_MLKEM_NAMESPACE i_rej_uniform_avx2) (* 23 *);
        Define i_ntt_avx2 (Apply i_MLKEM_NAMESPACE i_ntt_avx2) (* 26 *);
        Define i_invntt_avx2 (Apply i_MLKEM_NAMESPACE i_invntt_avx2) (* 29 *);
        Define i_nttpack_avx2 (Apply i_MLKEM_NAMESPACE i_nttpack_avx2) (* 32 *);
        Define i_nttunpack_avx2 (Apply i_MLKEM_NAMESPACE i_nttunpack_avx2) (* 35 *);
        Define i_reduce_avx2 (Apply i_MLKEM_NAMESPACE i_reduce_avx2) (* 38 *);
        Define i_basemul_avx2 (Apply i_MLKEM_NAMESPACE i_basemul_avx2) (* 41 *);
        Define i_polyvec_basemul_acc_montgomery_cached_avx2 (Apply i_MLKEM_NAMESPACE i_polyvec_basemul_acc_montgomery_cached_avx2) (* 45 *);
        Define i_ntttobytes_avx2 (Apply i_MLKEM_NAMESPACE i_ntttobytes_avx2) (* 51 *);
        Define i_nttfrombytes_avx2 (Apply i_MLKEM_NAMESPACE i_nttfrombytes_avx2) (* 54 *);
        Define i_tomont_avx2 (Apply i_MLKEM_NAMESPACE i_tomont_avx2) (* 57 *) ]
      [] ]
    [] ].

(* /repo/mlkem/native/x86_64/basemul.S; the numbers are its line numbers *)
Definition c_mlkem_native_x86_64_basemul_S : list line :=
  [ Include f_mlkem_sys_config_h (* 9 *);
    If (* 11 *) (And (Defined i_MLKEM_USE_NATIVE_X86_64) (Defined i_SYS_X86_64_AVX2))
    [ Include f_mlkem_native_x86_64_consts_h (* 13 *);
      Include f_mlkem_params_h (* 14 *);
      Item (Provide (Spaced i_MLKEM_NAMESPACE i_basemul_avx2)) (* 121 *) ]
    [] ].

(* /repo/mlkem/native/x86_64/basemul.c; the numbers are its line numbers *)
Definition c_mlkem_native_x86_64_basemul_c : list line :=
  [ Include f_mlkem_sys_config_h (* 6 *);
    If (* 8 *) (And (Defined i_MLKEM_USE_NATIVE_X86_64) (Defined i_SYS_X86_64_AVX2))
    [ Include f_mlkem_native_x86_64_arith_native_x86_64_h (* 10 *);
      Include f_mlkem_native_x86_64_consts_h (* 11 *);
      Include f_mlkem_poly_h (* 12 *);
      Include f_mlkem_polyvec_h (* 13 *);
      Item (Use i_poly_basemul_montgomery_avx2 (Plain i_basemul_avx2)) (* 17 *);
      Item (Use i_poly_basemul_montgomery_avx2 (Plain i_qdata)) (* 18 *);
      Item (Provide (Plain i_polyvec_basemul_acc_montgomery_cached_avx2)) (* 42 *) ]
    [ Item (Provide (Plain i_empty_cu_avx2_basemul)) (* 63 *) ] ].

(* /repo/mlkem/native/x86_64/consts.c; the numbers are its line numbers *)
Definition c_mlkem_native_x86_64_consts_c : list line :=
  [ Include f_mlkem_sys_config_h (* 11 *);
    If (* 13 *) (And (Defined i_MLKEM_USE_NATIVE_X86_64) (Defined i_SYS_X86_64_AVX2))
    [ Include f_mlkem_native_x86_64_consts_h (* 16 *);
      Include f_mlkem_params_h (* 17 *);
      Item (Provide (Plain i_qdata)) (* 30 *) ]
    [ Item (Provide (Plain i_empty_cu_consts)) (* 91 *) ] ].

(* /repo/mlkem/native/x86_64/consts.h; the numbers are its line numbers *)
Definition c_mlkem_native_x86_64_consts_h : list line :=
  [ If (* 11 *) (Not (Defined i_CONSTS_H))
    [ Define i_CONSTS_H Other (* 12 *);
      Include f_mlkem_params_h (* 14 *);
      If (* 37 *) (Not (Defined i___ASSEMBLER__))
      [ Define i_qdata (Apply i_MLKEM_NAMESPACE i_qdata) (* 40 *) ]
      [] ]
    [] ].

(* /repo/mlkem/native/x86_64/fq.S; the numbers are its line numbers *)
Definition c_mlkem_native_x86_64_fq_S : list line :=
  [ Include f_mlkem_sys_config_h (* 14 *);
    Include f_mlkem_params_h (* 15 *);
    If (* 17 *) (And (Defined i_MLKEM_USE_NATIVE_X86_64) (Defined i_SYS_X86_64_AVX2))
    [ Include f_mlkem_native_x86_64_consts_h (* 18 *);
      Item (Provide (Spaced i_MLKEM_NAMESPACE i_reduce_avx2)) (* 65 *);
      Item (Provide (Spaced i_MLKEM_NAMESPACE i_tomont_avx2)) (* 108 *) ]
    [] ].

(* /repo/mlkem/native/x86_64/intt.S; the numbers are its line numbers *)
Definition c_mlkem_native_x86_64_intt_S : list line :=
  [ Include f_mlkem_sys_config_h (* 11 *);
    If (* 13 *) (And (Defined i_MLKEM_USE_NATIVE_X86_64) (Defined i_SYS_X86_64_AVX2))
    [ Include f_mlkem_native_x86_64_consts_h (* 15 *);
      Include f_mlkem_params_h (* 16 *);
      Item (Provide (Spaced i_MLKEM_NAMESPACE i_invntt_avx2)) (* 245 *) ]
    [] ].

(* /repo/mlkem/native/x86_64/ntt.S; the numbers are its line numbers *)
Definition c_mlkem_native_x86_64_ntt_S : list line :=
  [ Include f_mlkem_sys_config_h (* 9 *);
    If (* 11 *) (And (Defined i_MLKEM_USE_NATIVE_X86_64) (Defined i_SYS_X86_64_AVX2))
    [ Include f_mlkem_native_x86_64_consts_h (* 13 *);
      Include f_mlkem_params_h (* 14 *);
      Item (Provide (Spaced i_MLKEM_NAMESPACE i_ntt_avx2)) (* 211 *) ]
    [] ].

(* /repo/mlkem/native/x86_64/profiles/default.h; the numbers are its line numbers *)
Definition c_mlkem_native_x86_64_profiles_default_h : list line :=
  [ If (* 8 *) (Defined i_MLKEM_ARITH_NATIVE_PROFILE_H)
    [ Error (* 9 *) ]
    [ Define i_MLKEM_ARITH_NATIVE_PROFILE_H Other (* 11 *);
      Include f_mlkem_native_arith_native_h (* 15 *);
      Include f_mlkem_native_x86_64_arith_native_x86_64_h (* 16 *);
      Include f_mlkem_native_x86_64_consts_h (* 17 *);
      Include f_mlkem_poly_h (* 19 *);
      Define i_MLKEM_USE_NATIVE_NTT_CUSTOM_ORDER Other (* 21 *);
      Define i_MLKEM_USE_NATIVE_REJ_UNIFORM Other (* 23 *);
      Define i_MLKEM_USE_NATIVE_NTT Other (* 24 *);
      Define i_MLKEM_USE_NATIVE_INTT Other (* 25 *);
      Define i_MLKEM_USE_NATIVE_POLY_REDUCE Other (* 26 *);
      Define i_MLKEM_USE_NATIVE_POLY_TOMONT Other (* 27 *);
      Define i_MLKEM_USE_NATIVE_POLYVEC_BASEMUL_ACC_MONTGOMERY_CACHED Other (* 28 *);
      Define i_MLKEM_USE_NATIVE_POLY_MULCACHE_COMPUTE Other (* 29 *);
      Define i_MLKEM_USE_NATIVE_POLY_TOBYTES Other (* 30 *);
      Define i_MLKEM_USE_NATIVE_POLY_FROMBYTES Other (* 31 *);
      Item (Local (Plain i_poly_permute_bitrev_to_custom)) (* 37 *);
      Item (Use i_poly_permute_bitrev_to_custom (Plain i_nttunpack_avx2)) (* 38 *);
      Item (Use i_poly_permute_bitrev_to_custom (Plain i_qdata)) (* 38 *);
      Item (Local (Plain i_rej_uniform_native)) (* 43 *);
      Item (Use i_rej_uniform_native (Plain i_rej_uniform_avx2)) (* 50 *);
      Item (Local (Plain i_ntt_native)) (* 54 *);
      Item (Use i_ntt_native (Plain i_ntt_avx2)) (* 55 *);
      Item (Use i_ntt_native (Plain i_qdata)) (* 55 *);
      Item (Local (Plain i_intt_native)) (* 59 *);
      Item (Use i_intt_native (Plain i_invntt_avx2)) (* 60 *);
      Item (Use i_intt_native (Plain i_qdata)) (* 60 *);
      Item (Local (Plain i_poly_reduce_native)) (* 64 *);
      Item (Use i_poly_reduce_native (Plain i_reduce_avx2)) (* 65 *);
      Item (Use i_poly_reduce_native (Plain i_qdata)) (* 65 *);
      Item (Local (Plain i_poly_tomont_native)) (* 69 *);
      Item (Use i_poly_tomont_native (Plain i_tomont_avx2)) (* 70 *);
      Item (Use i_poly_tomont_native (Plain i_qdata)) (* 70 *);
      Item (Local (Plain i_poly_mulcache_compute_native)) (* 74 *);
      Item (Local (Plain i_polyvec_basemul_acc_montgomery_cached_native)) (* 83 *);
      Item (Use i_polyvec_basemul_acc_montgomery_cached_native (Plain i_polyvec_basemul_acc_montgomery_cached_avx2)) (* 84 *);
      Item (Local (Plain i_poly_tobytes_native)) (* 89 *);
      Item (Use i_poly_tobytes_native (Plain i_ntttobytes_avx2)) (* 90 *);
      Item (Use i_poly_tobytes_native (Plain i_qdata)) (* 90 *);
      Item (Local (Plain i_poly_frombytes_native)) (* 95 *);
      Item (Use i_poly_frombytes_native (Plain i_nttfrombytes_avx2)) (* 96 *);
      Item (Use i_poly_frombytes_native (Plain i_qdata)) (* 96 *) ] ].

(* /repo/mlkem/native/x86_64/rej_uniform_avx2.c; the numbers are its line numbers *)
Definition c_mlkem_native_x86_64_rej_uniform_avx2_c : list line :=
  [ Include f_mlkem_sys_config_h (* 11 *);
    If (* 13 *) (And (Defined i_MLKEM_USE_NATIVE_X86_64) (Defined i_SYS_X86_64_AVX2))
    [ Include f_mlkem_native_x86_64_arith_native_x86_64_h (* 15 *);
      Include f_mlkem_native_x86_64_consts_h (* 20 *);
      Include f_mlkem_params_h (* 21 *);
      Item (Provide (Plain i_rej_uniform_avx2)) (* 161 *);
      Item (Use i_rej_uniform_avx2 (Plain i_qdata)) (* 168 *) ]
    [ Item (Provide (Plain i_empty_cu_rej_uniform_avx2)) (* 295 *) ] ].

(* /repo/mlkem/native/x86_64/shuffle.S; the numbers are its line numbers *)
Definition c_mlkem_native_x86_64_shuffle_S : list line :=
  [ Include f_mlkem_sys_config_h (* 9 *);
    If (* 11 *) (And (Defined i_MLKEM_USE_NATIVE_X86_64) (Defined i_SYS_X86_64_AVX2))
    [ Include f_mlkem_native_x86_64_consts_h (* 13 *);
      Include f_mlkem_params_h (* 14 *);
      Item (Provide (Spaced i_MLKEM_NAMESPACE i_nttpack_avx2)) (* 19 *);
      Item (Provide (Spaced i_MLKEM_NAMESPACE i_nttunpack_avx2)) (* 106 *);
      Item (Provide (Spaced i_MLKEM_NAMESPACE i_ntttobytes_avx2)) (* 173 *);
      Item (Provide (Spaced i_MLKEM_NAMESPACE i_nttfrombytes_avx2)) (* 249 *) ]
    [] ].

(* /repo/mlkem/ntt.c; the numbers are its line numbers *)
Definition c_mlkem_ntt_c : list line :=
  [ Include f_mlkem_ntt_h (* 5 *);
    Include f_mlkem_params_h (* 7 *);
    Include f_mlkem_reduce_h (* 8 *);
    Include f_mlkem_native_arith_native_h (* 10 *);
    Include f_mlkem_ntt_h (* 12 *);
    If (* 14 *) (Not (Defined i_MLKEM_USE_NATIVE_NTT))
    [ Item (Provide (Plain i_poly_ntt)) (* 129 *) ]
    [ Item (Provide (Plain i_poly_ntt)) (* 152 *);
      Item (Use i_poly_ntt (Plain i_ntt_native)) (* 154 *) ];
    If (* 159 *) (Not (Defined i_MLKEM_USE_NATIVE_INTT))
    [ Item (Provide (Plain i_poly_invntt_tomont)) (* 204 *) ]
    [ Item (Provide (Plain i_poly_invntt_tomont)) (* 239 *);
      Item (Use i_poly_invntt_tomont (Plain i_intt_native)) (* 240 *) ] ].

(* /repo/mlkem/ntt.h; the numbers are its line numbers *)
Definition c_mlkem_ntt_h : list line :=
  [ If (* 5 *) (Not (Defined i_NTT_H))
    [ Define i_NTT_H Other (* 6 *);
      Include f_mlkem_native_arith_native_h (* 9 *);
      Include f_mlkem_params_h (* 11 *);
      Include f_mlkem_poly_h (* 12 *);
      Include f_mlkem_reduce_h (* 13 *);
      Define i_poly_ntt (Apply i_MLKEM_NAMESPACE i_poly_ntt) (* 36 *);
      Define i_poly_invntt_tomont (Apply i_MLKEM_NAMESPACE i_poly_invntt_tomont) (* 61 *) ]
    [] ].

(* /repo/mlkem/params.h; the numbers are its line numbers *)
Definition c_mlkem_params_h : list line :=
  [ If (* 5 *) (Not (Defined i_PARAMS_H))
    [ Define i_PARAMS_H Other (* 6 *);
      Include f_mlkem_sys_cpucap_h (* 9 *);
      If (* 11 *) (Not (Defined i_MLKEM_K))
      [ Define i_MLKEM_K (Expr (Num 3)) (* 12 *) ]
      [];
      If (* 16 *) (Eq (Name i_MLKEM_K) (Num 2))
      [ Define i_MLKEM_NAMESPACE (Paste p_PQCP_MLKEM_NATIVE_MLKEM512) (* 17 *);
        Define i__MLKEM_NAMESPACE (Paste u_PQCP_MLKEM_NATIVE_MLKEM512) (* 18 *) ]
      [
      If (* 19 *) (Eq (Name i_MLKEM_K) (Num 3))
      [ Define i_MLKEM_NAMESPACE (Paste p_PQCP_MLKEM_NATIVE_MLKEM768) (* 20 *);
        Define i__MLKEM_NAMESPACE (Paste u_PQCP_MLKEM_NATIVE_MLKEM768) (* 21 *) ]
      [
      If (* 22 *) (Eq (Name i_MLKEM_K) (Num 4))
      [ Define i_MLKEM_NAMESPACE (Paste p_PQCP_MLKEM_NATIVE_MLKEM1024) (* 23 *);
        Define i__MLKEM_NAMESPACE (Paste u_PQCP_MLKEM_NATIVE_MLKEM1024) (* 24 *) ]
      [ Error (* 26 *) ]]];
      Define i_MLKEM_N (Expr (Num 256)) (* 29 *);
      Define i_MLKEM_SYMBYTES (Expr (Num 32)) (* 32 *);
      If (* 38 *) (Eq (Name i_MLKEM_K) (Num 2))
      [ Define i_MLKEM_ETA1 (Expr (Num 3)) (* 39 *);
        Define i_MLKEM_POLYCOMPRESSEDBYTES_DV (Expr (Num 128)) (* 40 *);
        Define i_MLKEM_POLYCOMPRESSEDBYTES_DU (Expr (Num 320)) (* 41 *) ]
      [
      If (* 43 *) (Eq (Name i_MLKEM_K) (Num 3))
      [ Define i_MLKEM_ETA1 (Expr (Num 2)) (* 44 *);
        Define i_MLKEM_POLYCOMPRESSEDBYTES_DV (Expr (Num 128)) (* 45 *);
        Define i_MLKEM_POLYCOMPRESSEDBYTES_DU (Expr (Num 320)) (* 46 *) ]
      [
      If (* 48 *) (Eq (Name i_MLKEM_K) (Num 4))
      [ Define i_MLKEM_ETA1 (Expr (Num 2)) (* 49 *);
        Define i_MLKEM_POLYCOMPRESSEDBYTES_DV (Expr (Num 160)) (* 50 *);
        Define i_MLKEM_POLYCOMPRESSEDBYTES_DU (Expr (Num 352)) (* 51 *) ]
      []]];
      Define i_MLKEM_ETA2 (Expr (Num 2)) (* 55 *);
      Define i_MLKEM_INDCPA_MSGBYTES (Expr (Name i_MLKEM_SYMBYTES)) (* 57 *) ]
    [] ].

(* /repo/mlkem/poly.c; the numbers are its line numbers *)
Definition c_mlkem_poly_c : list line :=
  [ Include f_mlkem_poly_h (* 5 *);
    Include f_mlkem_cbd_h (* 8 *);
    Include f_fips202_fips202x4_h (* 10 *);
    Include f_mlkem_ntt_h (* 11 *);
    Include f_mlkem_params_h (* 12 *);
    Include f_mlkem_reduce_h (* 13 *);
    Include f_mlkem_symmetric_h (* 14 *);
    Include f_mlkem_verify_h (* 15 *);
    Include f_mlkem_native_arith_native_h (* 17 *);
    If (* 23 *) (Eq (Name i_MLKEM_POLYCOMPRESSEDBYTES_DU) (Num 352))
    []
    [
    If (* 56 *) (Eq (Name i_MLKEM_POLYCOMPRESSEDBYTES_DU) (Num 320))
    []
    [ Error (* 83 *) ]];
    If (* 91 *) (Eq (Name i_MLKEM_POLYCOMPRESSEDBYTES_DU) (Num 352))
    []
    [
    If (* 119 *) (Eq (Name i_MLKEM_POLYCOMPRESSEDBYTES_DU) (Num 320))
    []
    [ Error (* 143 *) ]];
    If (* 152 *) (Eq (Name i_MLKEM_POLYCOMPRESSEDBYTES_DV) (Num 128))
    []
    [
    If (* 176 *) (Eq (Name i_MLKEM_POLYCOMPRESSEDBYTES_DV) (Num 160))
    []
    [ Error (* 203 *) ]];
    If (* 210 *) (Eq (Name i_MLKEM_POLYCOMPRESSEDBYTES_DV) (Num 128))
    []
    [
    If (* 220 *) (Eq (Name i_MLKEM_POLYCOMPRESSEDBYTES_DV) (Num 160))
    []
    [ Error (* 259 *) ]];
    If (* 265 *) (Not (Defined i_MLKEM_USE_NATIVE_POLY_TOBYTES))
    [ Item (Provide (Plain i_poly_tobytes)) (* 267 *) ]
    [ Item (Provide (Plain i_poly_tobytes)) (* 301 *);
      Item (Use i_poly_tobytes (Plain i_poly_tobytes_native)) (* 303 *) ];
    If (* 307 *) (Not (Defined i_MLKEM_USE_NATIVE_POLY_FROMBYTES))
    [ Item (Provide (Plain i_poly_frombytes)) (* 309 *) ]
    [ Item (Provide (Plain i_poly_frombytes)) (* 329 *);
      Item (Use i_poly_frombytes (Plain i_poly_frombytes_native)) (* 330 *) ];
    If (* 337 *) (Ne (Name i_MLKEM_INDCPA_MSGBYTES) (Div (Name i_MLKEM_N) (Num 8)))
    [ Error (* 338 *) ]
    [];
    If (* 474 *) (Not (Defined i_MLKEM_USE_NATIVE_POLY_TOMONT))
    [ Item (Provide (Plain i_poly_tomont)) (* 476 *) ]
    [ Item (Provide (Plain i_poly_tomont)) (* 491 *);
      Item (Use i_poly_tomont (Plain i_poly_tomont_native)) (* 492 *) ];
    If (* 497 *) (Not (Defined i_MLKEM_USE_NATIVE_POLY_REDUCE))
    [ Item (Provide (Plain i_poly_reduce)) (* 499 *) ]
    [ Item (Provide (Plain i_poly_reduce)) (* 516 *);
      Item (Use i_poly_reduce (Plain i_poly_reduce_native)) (* 517 *) ];
    If (* 548 *) (Not (Defined i_MLKEM_USE_NATIVE_POLY_MULCACHE_COMPUTE))
    [ Item (Provide (Plain i_poly_mulcache_compute)) (* 550 *) ]
    [ Item (Provide (Plain i_poly_mulcache_compute)) (* 562 *);
      Item (Use i_poly_mulcache_compute (Plain i_poly_mulcache_compute_native)) (* 563 *) ] ].

(* /repo/mlkem/poly.h; the numbers are its line numbers *)
Definition c_mlkem_poly_h : list line :=
  [ If (* 5 *) (Not (Defined i_POLY_H))
    [ Define i_POLY_H Other (* 6 *);
      Include f_mlkem_params_h (* 11 *);
      Include f_mlkem_reduce_h (* 12 *);
      Include f_mlkem_verify_h (* 13 *);
      Define i_poly_tobytes (Apply i_MLKEM_NAMESPACE i_poly_tobytes) (* 399 *);
      Define i_poly_frombytes (Apply i_MLKEM_NAMESPACE i_poly_frombytes) (* 423 *);
      Define i_poly_tomont (Apply i_MLKEM_NAMESPACE i_poly_tomont) (* 645 *);
      Define i_poly_mulcache_compute (Apply i_MLKEM_NAMESPACE i_poly_mulcache_compute) (* 664 *);
      Define i_poly_reduce (Apply i_MLKEM_NAMESPACE i_poly_reduce) (* 694 *) ]
    [] ].

(* /repo/mlkem/polyvec.c; the numbers are its line numbers *)
Definition c_mlkem_polyvec_c : list line :=
  [ Include f_mlkem_polyvec_h (* 5 *);
    Include f_mlkem_native_arith_native_h (* 7 *);
    Include f_mlkem_sys_config_h (* 8 *);
    Include f_mlkem_ntt_h (* 9 *);
    Include f_mlkem_params_h (* 10 *);
    Include f_mlkem_poly_h (* 11 *);
    Item (Use i_polyvec_tobytes (Plain i_poly_tobytes)) (* 43 *);
    Item (Use i_polyvec_frombytes (Plain i_poly_frombytes)) (* 52 *);
    Item (Use i_polyvec_ntt (Plain i_poly_ntt)) (* 61 *);
    Item (Use i_polyvec_invntt_tomont (Plain i_poly_invntt_tomont)) (* 70 *);
    If (* 92 *) (Not (Defined i_MLKEM_USE_NATIVE_POLYVEC_BASEMUL_ACC_MONTGOMERY_CACHED))
    [ Item (Provide (Plain i_polyvec_basemul_acc_montgomery_cached)) (* 96 *) ]
    [ Item (Provide (Plain i_polyvec_basemul_acc_montgomery_cached)) (* 128 *);
      Item (Use i_polyvec_basemul_acc_montgomery_cached (Plain i_polyvec_basemul_acc_montgomery_cached_native)) (* 134 *) ];
    Item (Use i_polyvec_basemul_acc_montgomery (Plain i_polyvec_basemul_acc_montgomery_cached)) (* 152 *);
    Item (Use i_polyvec_mulcache_compute (Plain i_poly_mulcache_compute)) (* 170 *);
    Item (Use i_polyvec_reduce (Plain i_poly_reduce)) (* 189 *);
    Item (Use i_polyvec_tomont (Plain i_poly_tomont)) (* 207 *) ].

(* /repo/mlkem/polyvec.h; the numbers are its line numbers *)
Definition c_mlkem_polyvec_h : list line :=
  [ If (* 5 *) (Not (Defined i_POLYVEC_H))
    [ Define i_POLYVEC_H Other (* 6 *);
      Include f_mlkem_params_h (* 9 *);
      Include f_mlkem_poly_h (* 10 *);
      Define i_polyvec_basemul_acc_montgomery_cached (Apply i_MLKEM_NAMESPACE i_polyvec_basemul_acc_montgomery_cached) (* 163 *) ]
    [] ].

(* /repo/mlkem/reduce.c; the numbers are its line numbers *)
Definition c_mlkem_reduce_c : list line :=
  [ Include f_mlkem_reduce_h (* 5 *);
    Include f_mlkem_params_h (* 7 *) ].

(* /repo/mlkem/reduce.h; the numbers are its line numbers *)
Definition c_mlkem_reduce_h : list line :=
  [ If (* 5 *) (Not (Defined i_REDUCE_H))
    [ Define i_REDUCE_H Other (* 6 *);
      Include f_mlkem_params_h (* 11 *) ]
    [] ].

(* /repo/mlkem/rej_uniform.c; the numbers are its line numbers *)
Definition c_mlkem_rej_uniform_c : list line :=
  [ Include f_mlkem_params_h (* 5 *);
    Include f_mlkem_native_arith_native_h (* 7 *);
    Include f_mlkem_rej_uniform_h (* 8 *);
    If (* 70 *) (Not (Defined i_MLKEM_USE_NATIVE_REJ_UNIFORM))
    [ Item (Provide (Plain i_rej_uniform)) (* 73 *) ]
    [ Item (Provide (Plain i_rej_uniform)) (* 80 *);
      Item (Use i_rej_uniform (Plain i_rej_uniform_native)) (* 84 *) ] ].

(* /repo/mlkem/rej_uniform.h; the numbers are its line numbers *)
Definition c_mlkem_rej_uniform_h : list line :=
  [ If (* 5 *) (Not (Defined i_REJ_UNIFORM_H))
    [ Define i_REJ_UNIFORM_H Other (* 6 *);
      Include f_mlkem_params_h (* 11 *);
      Define i_rej_uniform (Apply i_MLKEM_NAMESPACE i_rej_uniform) (* 13 *) ]
    [] ].

(* /repo/mlkem/symmetric-shake.c; the numbers are its line numbers *)
Definition c_mlkem_symmetric_shake_c : list line :=
  [ Include f_fips202_fips202_h (* 8 *);
    Include f_mlkem_params_h (* 9 *);
    Include f_mlkem_symmetric_h (* 10 *) ].

(* /repo/mlkem/symmetric.h; the numbers are its line numbers *)
Definition c_mlkem_symmetric_h : list line :=
  [ If (* 5 *) (Not (Defined i_SYMMETRIC_H))
    [ Define i_SYMMETRIC_H Other (* 6 *);
      Include f_mlkem_params_h (* 10 *);
      Include f_fips202_fips202_h (* 12 *) ]
    [] ].

(* /repo/mlkem/sys/config.h; the numbers are its line numbers *)
Definition c_mlkem_sys_config_h : list line :=
  [ If (* 6 *) (Not (Defined i_CONFIG_H))
    [ Define i_CONFIG_H Other (* 7 *);
      Include f_mlkem_sys_cpucap_h (* 9 *);
      If (* 11 *) (Defined i_MLKEM_USE_NATIVE)
      [ If (* 13 *) (Defined i_SYS_AARCH64)
        [ Define i_MLKEM_USE_NATIVE_AARCH64 Other (* 14 *) ]
        [];
        If (* 17 *) (Defined i_SYS_X86_64)
        [ Define i_MLKEM_USE_NATIVE_X86_64 Other (* 18 *) ]
        [] ]
      [] ]
    [] ].

(* /repo/mlkem/sys/cpucap.h; the numbers are its line numbers *)
Definition c_mlkem_sys_cpucap_h : list line :=
  [ If (* 6 *) (Not (Defined i_CPUCAP_H))
    [ Define i_CPUCAP_H Other (* 7 *);
      If (* 10 *) (Or (Defined i___AARCH64EL__) (Defined i__M_ARM64))
      [ Define i_SYS_AARCH64 Other (* 11 *) ]
      [];
      If (* 14 *) (Defined i___x86_64__)
      [ Define i_SYS_X86_64 Other (* 15 *);
        If (* 16 *) (Defined i___AVX2__)
        [ Define i_SYS_X86_64_AVX2 Other (* 17 *) ]
        [] ]
      [];
      If (* 22 *) (Defined i___BYTE_ORDER__)
      [ If (* 24 *) (Eq (Name i___BYTE_ORDER__) (Name i___ORDER_LITTLE_ENDIAN__))
        [ Define i_SYS_LITTLE_ENDIAN Other (* 25 *) ]
        [
        If (* 26 *) (Eq (Name i___BYTE_ORDER__) (Name i___ORDER_BIG_ENDIAN__))
        []
        [ Error (* 29 *) ]] ]
      [];
      If (* 34 *) (And (Defined i_FORCE_AARCH64) (Not (Defined i_SYS_AARCH64)))
      [ Error (* 35 *) ]
      [];
      If (* 39 *) (And (Defined i_FORCE_X86_64) (Not (Defined i_SYS_X86_64)))
      [ Error (* 40 *) ]
      [] ]
    [] ].

(* /repo/mlkem/verify.c; the numbers are its line numbers *)
Definition c_mlkem_verify_c : list line :=
  [ Include f_mlkem_verify_h (* 5 *) ].

(* /repo/mlkem/verify.h; the numbers are its line numbers *)
Definition c_mlkem_verify_h : list line :=
  [ If (* 5 *) (Not (Defined i_VERIFY_H))
    [ Define i_VERIFY_H Other (* 6 *);
      Include f_mlkem_params_h (* 12 *) ]
    [] ].

(* /repo/mlkem/zetas.c; the numbers are its line numbers *)
Definition c_mlkem_zetas_c : list line :=
  [ Include f_mlkem_ntt_h (* 11 *) ].

(* the text of a file: /repo/mlkem, /repo/fips202 *)
Definition contents (f : file) : list line :=
  match f with
  | f_fips202_fips202_c => c_fips202_fips202_c
  | f_fips202_fips202_h => c_fips202_fips202_h
  | f_fips202_fips202x4_c => c_fips202_fips202x4_c
  | f_fips202_fips202x4_h => c_fips202_fips202x4_h
  | f_fips202_keccakf1600_c => c_fips202_keccakf1600_c
  | f_fips202_keccakf1600_h => c_fips202_keccakf1600_h
  | f_fips202_namespace_h => c_fips202_namespace_h
  | f_fips202_native_aarch64_fips202_native_aarch64_h => c_fips202_native_aarch64_fips202_native_aarch64_h
  | f_fips202_native_aarch64_keccak_f1600_x1_scalar_asm_opt_S => c_fips202_native_aarch64_keccak_f1600_x1_scalar_asm_opt_S
  | f_fips202_native_aarch64_keccak_f1600_x1_v84a_asm_clean_S => c_fips202_native_aarch64_keccak_f1600_x1_v84a_asm_clean_S
  | f_fips202_native_aarch64_keccak_f1600_x2_v84a_asm_clean_S => c_fips202_native_aarch64_keccak_f1600_x2_v84a_asm_clean_S
  | f_fips202_native_aarch64_keccak_f1600_x2_v8a_v84a_asm_hybrid_S => c_fips202_native_aarch64_keccak_f1600_x2_v8a_v84a_asm_hybrid_S
  | f_fips202_native_aarch64_keccak_f1600_x4_scalar_v84a_asm_hybrid_opt_S => c_fips202_native_aarch64_keccak_f1600_x4_scalar_v84a_asm_hybrid_opt_S
  | f_fips202_native_aarch64_keccak_f1600_x4_v8a_scalar_hybrid_asm_opt_S => c_fips202_native_aarch64_keccak_f1600_x4_v8a_scalar_hybrid_asm_opt_S
  | f_fips202_native_aarch64_keccak_f1600_x4_v8a_v84a_scalar_hybrid_asm_opt_S => c_fips202_native_aarch64_keccak_f1600_x4_v8a_v84a_scalar_hybrid_asm_opt_S
  | f_fips202_native_aarch64_profiles_default_h => c_fips202_native_aarch64_profiles_default_h
  | f_fips202_native_fips202_native_h => c_fips202_native_fips202_native_h
  | f_fips202_native_x86_64_fips202_native_x86_64_h => c_fips202_native_x86_64_fips202_native_x86_64_h
  | f_fips202_native_x86_64_profiles_xkcp_h => c_fips202_native_x86_64_profiles_xkcp_h
  | f_fips202_native_x86_64_xkcp_KeccakP_1600_times4_SIMD256_c => c_fips202_native_x86_64_xkcp_KeccakP_1600_times4_SIMD256_c
  | f_fips202_native_x86_64_xkcp_KeccakP_1600_times4_SnP_h => c_fips202_native_x86_64_xkcp_KeccakP_1600_times4_SnP_h
  | f_fips202_native_x86_64_xkcp_KeccakP_brg_endian_h => c_fips202_native_x86_64_xkcp_KeccakP_brg_endian_h
  | f_mlkem_cbd_c => c_mlkem_cbd_c
  | f_mlkem_cbd_h => c_mlkem_cbd_h
  | f_mlkem_debug_debug_c => []
  | f_mlkem_indcpa_c => c_mlkem_indcpa_c
  | f_mlkem_indcpa_h => c_mlkem_indcpa_h
  | f_mlkem_kem_c => c_mlkem_kem_c
  | f_mlkem_kem_h => c_mlkem_kem_h
  | f_mlkem_native_aarch64_aarch64_zetas_c => c_mlkem_native_aarch64_aarch64_zetas_c
  | f_mlkem_native_aarch64_arith_native_aarch64_h => c_mlkem_native_aarch64_arith_native_aarch64_h
  | f_mlkem_native_aarch64_intt_clean_S => c_mlkem_native_aarch64_intt_clean_S
  | f_mlkem_native_aarch64_intt_opt_S => c_mlkem_native_aarch64_intt_opt_S
  | f_mlkem_native_aarch64_ntt_clean_S => c_mlkem_native_aarch64_ntt_clean_S
  | f_mlkem_native_aarch64_ntt_opt_S => c_mlkem_native_aarch64_ntt_opt_S
  | f_mlkem_native_aarch64_poly_clean_S => c_mlkem_native_aarch64_poly_clean_S
  | f_mlkem_native_aarch64_poly_opt_S => c_mlkem_native_aarch64_poly_opt_S
  | f_mlkem_native_aarch64_polyvec_clean_S => c_mlkem_native_aarch64_polyvec_clean_S
  | f_mlkem_native_aarch64_polyvec_opt_S => c_mlkem_native_aarch64_polyvec_opt_S
  | f_mlkem_native_aarch64_profiles_clean_h => c_mlkem_native_aarch64_profiles_clean_h
  | f_mlkem_native_aarch64_profiles_opt_h => c_mlkem_native_aarch64_profiles_opt_h
  | f_mlkem_native_aarch64_rej_uniform_asm_clean_S => c_mlkem_native_aarch64_rej_uniform_asm_clean_S
  | f_mlkem_native_arith_native_h => c_mlkem_native_arith_native_h
  | f_mlkem_native_profile_h => c_mlkem_native_profile_h
  | f_mlkem_native_x86_64_arith_native_x86_64_h => c_mlkem_native_x86_64_arith_native_x86_64_h
  | f_mlkem_native_x86_64_basemul_S => c_mlkem_native_x86_64_basemul_S
  | f_mlkem_native_x86_64_basemul_c => c_mlkem_native_x86_64_basemul_c
  | f_mlkem_native_x86_64_consts_c => c_mlkem_native_x86_64_consts_c
  | f_mlkem_native_x86_64_consts_h => c_mlkem_native_x86_64_consts_h
  | f_mlkem_native_x86_64_fq_S => c_mlkem_native_x86_64_fq_S
  | f_mlkem_native_x86_64_intt_S => c_mlkem_native_x86_64_intt_S
  | f_mlkem_native_x86_64_ntt_S => c_mlkem_native_x86_64_ntt_S
  | f_mlkem_native_x86_64_profiles_default_h => c_mlkem_native_x86_64_profiles_default_h
  | f_mlkem_native_x86_64_rej_uniform_avx2_c => c_mlkem_native_x86_64_rej_uniform_avx2_c
  | f_mlkem_native_x86_64_shuffle_S => c_mlkem_native_x86_64_shuffle_S
  | f_mlkem_ntt_c => c_mlkem_ntt_c
  | f_mlkem_ntt_h => c_mlkem_ntt_h
  | f_mlkem_params_h => c_mlkem_params_h
  | f_mlkem_poly_c => c_mlkem_poly_c
  | f_mlkem_poly_h => c_mlkem_poly_h
  | f_mlkem_polyvec_c => c_mlkem_polyvec_c
  | f_mlkem_polyvec_h => c_mlkem_polyvec_h
  | f_mlkem_reduce_c => c_mlkem_reduce_c
  | f_mlkem_reduce_h => c_mlkem_reduce_h
  | f_mlkem_rej_uniform_c => c_mlkem_rej_uniform_c
  | f_mlkem_rej_uniform_h => c_mlkem_rej_uniform_h
  | f_mlkem_symmetric_shake_c => c_mlkem_symmetric_shake_c
  | f_mlkem_symmetric_h => c_mlkem_symmetric_h
  | f_mlkem_sys_config_h => c_mlkem_sys_config_h
  | f_mlkem_sys_cpucap_h => c_mlkem_sys_cpucap_h
  | f_mlkem_verify_c => c_mlkem_verify_c
  | f_mlkem_verify_h => c_mlkem_verify_h
  | f_mlkem_zetas_c => c_mlkem_zetas_c
  end.

(* the files compiled by every build: /repo/mk/schemes.mk 2,
   /repo/mk/crypto.mk 4 (wildcards) *)
Definition portable_sources : list file :=
  [f_mlkem_cbd_c;
   f_mlkem_indcpa_c;
   f_mlkem_kem_c;
   f_mlkem_ntt_c;
   f_mlkem_poly_c;
   f_mlkem_polyvec_c;
   f_mlkem_reduce_c;
   f_mlkem_rej_uniform_c;
   f_mlkem_symmetric_shake_c;
   f_mlkem_verify_c;
   f_mlkem_zetas_c;
   f_mlkem_debug_debug_c;
   f_fips202_fips202_c;
   f_fips202_fips202x4_c;
   f_fips202_keccakf1600_c].

(* the further files of a build with OPT=1: /repo/mk/schemes.mk 3-4,
   /repo/mk/crypto.mk 5-6 (wildcards) *)
Definition native_sources : list file :=
  [f_mlkem_native_aarch64_aarch64_zetas_c;
   f_mlkem_native_aarch64_intt_clean_S;
   f_mlkem_native_aarch64_intt_opt_S;
   f_mlkem_native_aarch64_ntt_clean_S;
   f_mlkem_native_aarch64_ntt_opt_S;
   f_mlkem_native_aarch64_poly_clean_S;
   f_mlkem_native_aarch64_poly_opt_S;
   f_mlkem_native_aarch64_polyvec_clean_S;
   f_mlkem_native_aarch64_polyvec_opt_S;
   f_mlkem_native_aarch64_rej_uniform_asm_clean_S;
   f_mlkem_native_x86_64_basemul_S;
   f_mlkem_native_x86_64_basemul_c;
   f_mlkem_native_x86_64_consts_c;
   f_mlkem_native_x86_64_fq_S;
   f_mlkem_native_x86_64_intt_S;
   f_mlkem_native_x86_64_ntt_S;
   f_mlkem_native_x86_64_rej_uniform_avx2_c;
   f_mlkem_native_x86_64_shuffle_S;
   f_fips202_native_aarch64_keccak_f1600_x1_scalar_asm_opt_S;
   f_fips202_native_aarch64_keccak_f1600_x1_v84a_asm_clean_S;
   f_fips202_native_aarch64_keccak_f1600_x2_v84a_asm_clean_S;
   f_fips202_native_aarch64_keccak_f1600_x2_v8a_v84a_asm_hybrid_S;
   f_fips202_native_aarch64_keccak_f1600_x4_scalar_v84a_asm_hybrid_opt_S;
   f_fips202_native_aarch64_keccak_f1600_x4_v8a_scalar_hybrid_asm_opt_S;
   f_fips202_native_aarch64_keccak_f1600_x4_v8a_v84a_scalar_hybrid_asm_opt_S;
   f_fips202_native_x86_64_xkcp_KeccakP_1600_times4_SIMD256_c].
