(** * The AArch64 build of FIPS 202: fips202/native/aarch64/profiles/{default,cortex_a55}.h and
      the permutations of fips202/keccakf1600.c

    Functions have the name of the C function with the suffix _aarch64. Their first argument is
    the configuration of the FIPS 202 backend. *)

From Coq Require Import ZArith List Bool.
From Verif Require Import ModelA64Keccak ModelA64KeccakAsm.
From Verif Require Import CSem ModelKeccak.
Import ListNotations.
Open Scope Z_scope.

(** profiles/default.h, with the macros it looks at, or profiles/cortex_a55.h *)
Inductive fips202_config : Type :=
| default_h (ARM_FEATURE_SHA3 APPLE SYS_AARCH64_SLOW_BARREL_SHIFTER : bool)
| cortex_a55_h.

(** ** Calls of assembly routines *)

(** The code of a routine, the constants of its file, the number of 64-bit words of stack it
    reserves, and the number of Keccak states it permutes *)
Record routine : Type := Routine {
  r_code : list block;
  r_constants : list Z;
  r_stack : nat;
  r_states : nat
}.

(** The words of an array, if nothing else is in it *)
Fixpoint words_of (l : list (xval Z)) : option (list Z) :=
  match l with
  | [] => Some []
  | v :: l => x <-? as_word v ;; t <-? words_of l ;; Some (x :: t)
  end.

(** x0 points to the argument, sp to the end of the stack. The other registers and the stack hold
    anything before the call. The addresses accessed are leaked (array and offset in bytes), and
    the jumps. 60: no routine executes that many blocks. An argument that is not as many states as
    the routine permutes is a fault. *)
Definition call_registers (stack : nat) : list (xval Z) :=
  map (fun r => if (r =? 0)%nat then Ptr 1 0
                else if (r =? 31)%nat then Ptr 0 (8 * Z.of_nat stack) else Tok r) (seq 0 32).
Definition call_state (J : junk) (r : routine) (words : list Z) : state Z :=
  State (call_registers (r_stack r))
        (map (fun i => (u64 (J [Z.of_nat i; 0]), u64 (J [Z.of_nat i; 1]))) (seq 0 32))
        [map Tok (seq 100 (r_stack r)); map Word words; map Word (r_constants r)] None.
Definition call_keccak (J : junk) (r : routine) (state : list Z) : M (list Z) :=
  match ('q <-? run machine64 60 (r_code r) 0 (call_state J r state) ;;
         a <-? nth_error (mem (fst q)) 1 ;; s <-? words_of a ;; Some (s, snd q)) with
  | Some (s, t) =>
      if (length state =? 25 * r_states r)%nat
      then (Ok s, flat_map (fun '(a, d) => [EIndex (Z.of_nat a); EIndex d]) t)
      else fail OutOfBounds
  | None => fail OutOfBounds
  end.

(** The routines with the stack they reserve (STACK_SIZE):
    keccak_f1600_x1_scalar_asm_opt.S:104, keccak_f1600_x1_v84a_asm_clean.S:217,
    keccak_f1600_x2_v84a_asm_clean.S:245, keccak_f1600_x4_v8a_scalar_hybrid_asm_opt.S:332,
    keccak_f1600_x4_v8a_v84a_scalar_hybrid_asm_opt.S:349; and those that no profile uses:
    keccak_f1600_x2_v8a_v84a_asm_hybrid.S:268, keccak_f1600_x4_scalar_v84a_asm_hybrid_opt.S:351 *)
Definition x1_scalar : routine :=
  Routine keccak_f1600_x1_scalar_asm_opt keccak_f1600_x1_scalar_asm_opt_constants 16 1.
Definition x1_v84a : routine :=
  Routine keccak_f1600_x1_v84a_asm_clean keccak_f1600_x1_v84a_asm_clean_constants 20 1.
Definition x2_v84a : routine :=
  Routine keccak_f1600_x2_v84a_asm_clean keccak_f1600_x2_v84a_asm_clean_constants 20 2.
Definition x4_scalar_v8a : routine :=
  Routine keccak_f1600_x4_scalar_v8a_asm_hybrid_opt
          keccak_f1600_x4_scalar_v8a_asm_hybrid_opt_constants 28 4.
Definition x4_scalar_v8a_v84a : routine :=
  Routine keccak_f1600_x4_scalar_v8a_v84a_hybrid_asm_opt
          keccak_f1600_x4_scalar_v8a_v84a_hybrid_asm_opt_constants 28 4.
Definition x2_v8a_v84a : routine :=
  Routine keccak_f1600_x2_v8a_v84a_asm_hybrid keccak_f1600_x2_v8a_v84a_asm_hybrid_constants 20 2.
Definition x4_scalar_v84a : routine :=
  Routine keccak_f1600_x4_scalar_v84a_asm_hybrid_opt
          keccak_f1600_x4_scalar_v84a_asm_hybrid_opt_constants 28 4.

(** ** profiles/default.h and profiles/cortex_a55.h: which routine is used, if any *)

(** keccak_f1600_x1_native: default.h:32-44, cortex_a55.h:19-23 *)
Definition x1_native (c : fips202_config) : option routine :=
  match c with
  | default_h sha3 apple slow =>
      if sha3 && apple then Some x1_v84a else if negb slow then Some x1_scalar else None
  | cortex_a55_h => Some x1_scalar
  end.
(** keccak_f1600_x2_native: default.h:65-70 *)
Definition x2_native (c : fips202_config) : option routine :=
  match c with
  | default_h sha3 apple _ => if sha3 && apple then Some x2_v84a else None
  | cortex_a55_h => None
  end.
(** keccak_f1600_x4_native: default.h:71-87 *)
Definition x4_native (c : fips202_config) : option routine :=
  match c with
  | default_h sha3 apple _ =>
      if sha3 then if apple then None else Some x4_scalar_v8a_v84a else Some x4_scalar_v8a
  | cortex_a55_h => None
  end.

(** ** keccakf1600.c *)

(** lines 120-390 *)
Definition KeccakF1600_StatePermute_aarch64 (c : fips202_config) (J : junk) (state : list Z)
  : M (list Z) :=
  match x1_native c with
  | Some r => call_keccak J r state
  | None => KeccakF1600_StatePermute state
  end.

(** A call of native code with the pointer [state + off]: it works on the [n] words there. *)
Definition on_words (state : list Z) (off n : Z) (f : list Z -> M (list Z)) : M (list Z) :=
  s <- aslice state off n ;;
  s <- f s ;;
  asplice state off (firstn (Z.to_nat n) s).

(** lines 90-103 *)
Definition KeccakF1600x4_StatePermute_aarch64 (c : fips202_config) (J : junk) (state : list Z)
  : M (list Z) :=
  match x4_native c, x2_native c with
  | Some r, _ => call_keccak J r state
  | None, Some r =>
      state <- on_words state (0 * KECCAK_LANES) (2 * KECCAK_LANES) (call_keccak (sub J 0) r) ;;
      on_words state (2 * KECCAK_LANES) (2 * KECCAK_LANES) (call_keccak (sub J 1) r)
  | None, None =>
      state <- on_state state (KECCAK_LANES * 0) (KeccakF1600_StatePermute_aarch64 c (sub J 0)) ;;
      state <- on_state state (KECCAK_LANES * 1) (KeccakF1600_StatePermute_aarch64 c (sub J 1)) ;;
      state <- on_state state (KECCAK_LANES * 2) (KeccakF1600_StatePermute_aarch64 c (sub J 2)) ;;
      on_state state (KECCAK_LANES * 3) (KeccakF1600_StatePermute_aarch64 c (sub J 3))
  end.
