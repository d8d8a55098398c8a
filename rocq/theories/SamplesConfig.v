(* Configurations for the examples and the refutations of C74. *)
Require Import Verif.ModelCppNames Verif.ModelCpp Verif.ModelConfig Verif.SpecConfig.
From Coq Require Import List.
Import ListNotations.

(* GCC on an AArch64 processor with the SHA3 instructions, OPT=1, ML-KEM-768 *)
Definition sample_arm : config :=
  Build_config true true false false false Little true false false true false false Level3.

(* GCC on x86_64 with AVX2, OPT=1, ML-KEM-512 and ML-KEM-1024 *)
Definition sample_avx2 : config :=
  Build_config true false false true true Little false true false false false false Level2.

Definition sample_avx2_1024 : config :=
  Build_config true false false true true Little false true false false false false Level4.

(* a big-endian processor, OPT=1 *)
Definition sample_big : config :=
  Build_config true false false false false Big false false false false false false NoLevel.

(* FORCE_AARCH64 on x86_64 *)
Definition sample_forced : config :=
  Build_config true false false true true Little true false false false false false Level3.
