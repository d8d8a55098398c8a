(* The configurations in which the library can be compiled: the macros that
   the compiler, the Makefile and the user may define beforehand. *)
From Coq Require Import ZArith List Bool.
Import ListNotations.
Require Import Verif.ModelCppNames Verif.ModelCpp Verif.ModelSources.
Open Scope Z_scope.

(* the value of __BYTE_ORDER__, if it is defined (/repo/mlkem/sys/cpucap.h
   22-31); OtherOrder is a third value such as that of the PDP-11 *)
Inductive byte_order : Set := NoOrder | Little | Big | OtherOrder.

(* -DMLKEM_K=2, 3 or 4 (/repo/mk/schemes.mk 16-22), or none
   (/repo/mlkem/params.h 11-13).  Other values are not modelled: they end in
   /repo/mlkem/params.h 26. *)
Inductive level : Set := NoLevel | Level2 | Level3 | Level4.

(* Simplified: the macros that choose a profile of the user
   (MLKEM_ARITH_NATIVE_PROFILE, MLKEM_ARITH_NATIVE_MANUAL,
   FIPS202_NATIVE_PROFILE, FIPS202_NATIVE_MANUAL) and the macros of other
   machines (/repo/fips202/native/x86_64/xkcp/KeccakP-brg_endian.h 64-144)
   are not defined. *)
Record config : Set := {
  use_native : bool;      (* MLKEM_USE_NATIVE: /repo/mk/schemes.mk 5 *)
  aarch64el : bool;       (* __AARCH64EL__: /repo/mlkem/sys/cpucap.h 10 *)
  m_arm64 : bool;         (* _M_ARM64: /repo/mlkem/sys/cpucap.h 10 *)
  x86_64 : bool;          (* __x86_64__: /repo/mlkem/sys/cpucap.h 14 *)
  avx2 : bool;            (* __AVX2__: /repo/mlkem/sys/cpucap.h 16 *)
  order : byte_order;     (* __BYTE_ORDER__: /repo/mlkem/sys/cpucap.h 22 *)
  force_aarch64 : bool;   (* FORCE_AARCH64: /repo/mlkem/sys/cpucap.h 34 *)
  force_x86_64 : bool;    (* FORCE_X86_64: /repo/mlkem/sys/cpucap.h 39 *)
  clean : bool;           (* MLKEM_USE_NATIVE_AARCH64_CLEAN:
                             /repo/mlkem/native/profile.h 50 *)
  sha3 : bool;            (* __ARM_FEATURE_SHA3:
                             /repo/fips202/native/aarch64/profiles/default.h 32 *)
  apple : bool;           (* __APPLE__: the same file, 32 and 65 *)
  slow_shifter : bool;    (* SYS_AARCH64_SLOW_BARREL_SHIFTER: the same file, 38 *)
  security : level        (* MLKEM_K *)
}.

(* a macro defined beforehand without a value of interest *)
Definition flag (b : bool) : option body := if b then Some (Expr (Num 1)) else None.

(* the macros defined beforehand (the fields of the record above); the values
   of __ORDER_..._ENDIAN__ are those of GCC and Clang *)
Definition given (c : config) (asm : bool) (m : ident) : option body :=
  match m with
  | i_MLKEM_USE_NATIVE => flag (use_native c)
  | i___AARCH64EL__ => flag (aarch64el c)
  | i__M_ARM64 => flag (m_arm64 c)
  | i___x86_64__ => flag (x86_64 c)
  | i___AVX2__ => flag (avx2 c)
  | i___BYTE_ORDER__ =>
      match order c with
      | NoOrder => None
      | Little => Some (Expr (Name i___ORDER_LITTLE_ENDIAN__))
      | Big => Some (Expr (Name i___ORDER_BIG_ENDIAN__))
      | OtherOrder => Some (Expr (Num 3412))
      end
  | i___ORDER_LITTLE_ENDIAN__ => Some (Expr (Num 1234))
  | i___ORDER_BIG_ENDIAN__ => Some (Expr (Num 4321))
  | i_FORCE_AARCH64 => flag (force_aarch64 c)
  | i_FORCE_X86_64 => flag (force_x86_64 c)
  | i_MLKEM_USE_NATIVE_AARCH64_CLEAN => flag (clean c)
  | i___ARM_FEATURE_SHA3 => flag (sha3 c)
  | i___APPLE__ => flag (apple c)
  | i_SYS_AARCH64_SLOW_BARREL_SHIFTER => flag (slow_shifter c)
  | i_MLKEM_K =>
      match security c with
      | NoLevel => None
      | Level2 => Some (Expr (Num 2))
      | Level3 => Some (Expr (Num 3))
      | Level4 => Some (Expr (Num 4))
      end
  | i___ASSEMBLER__ => flag asm
  | _ => None
  end.

(* the files that a build compiles: /repo/mk/schemes.mk 2-4,
   /repo/mk/crypto.mk 4-6 *)
Definition sources (c : config) : list file :=
  if use_native c then portable_sources ++ native_sources else portable_sources.

(* one source file of one build *)
Definition compile (c : config) (f : file) : result :=
  preprocess contents (given c (assembly f)) f.
