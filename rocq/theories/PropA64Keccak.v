(** * The Keccak code of the AArch64 backend: C54

    The seven assembly routines of fips202/native/aarch64, and the permutations of the build in
    all its configurations: profiles/default.h with or without the SHA-3 instructions, on Apple
    or other systems, with or without a slow barrel shifter, and profiles/cortex_a55.h.
    [KECCAK_f1600] is the one of FIPS 202 (Spec202.v); what the routines may assume of registers
    and stack, and have to preserve, is in SpecA64Keccak.v. *)

From Coq Require Import ZArith List Bool.
From Verif Require Import ModelA64Keccak ModelA64KeccakAsm ModelA64Fips202 SpecA64Keccak
  ProofA64Keccak ProofA64Permute.
From Verif Require Import CSem ModelKeccak Spec202 SpecHistory Samples.
Import ListNotations.
Open Scope Z_scope.

(** ** C54 *)

(** Every routine permutes each of the states it is given, stays within the argument and the
    stack it reserves, preserves the registers and constants it has to, and executes the same
    blocks and accesses the same addresses whatever the data. *)
Theorem C54_routines : forall r, In r keccak_routines ->
  exists trace, forall xs vs stack states fuel,
  registers_at_call r xs -> vectors_at_call vs -> length stack = r_stack r ->
  length states = r_states r -> Forall lane_array states -> (60 <= fuel)%nat ->
  exists xs' vs' stack' states' flags',
    run machine64 fuel (r_code r) 0
        (State xs vs [stack; map Word (concat states); map Word (r_constants r)] None) =
    Some (State xs' vs' [stack'; map Word (concat states'); map Word (r_constants r)] flags', trace) /\
    Forall2 permuted states states' /\ preserved xs xs' vs vs' /\ length stack' = length stack.
Proof. exact keccak_routines_correct. Qed.
Print Assumptions C54_routines.
Example C54_ex : registers_at_call x4_scalar_v8a (call_registers 28) /\
  vectors_at_call (repeat (1, 2 ^ 64 - 1) 32) /\ Forall lane_array (repeat sample_lanes 4).
Proof.
  split; [exact (call_registers_ok x4_scalar_v8a)|]. split.
  - split; [reflexivity|]. apply Forall_forall. intros v H. apply repeat_spec in H. subst v.
    split; split; reflexivity || discriminate.
  - apply Forall_forall. intros v H. apply repeat_spec in H. subst v. exact sample_lanes_ok.
Qed.

(** The permutations, in every configuration *)
Theorem C54_permutation : forall c J s, lane_array s ->
  exists s', val (KeccakF1600_StatePermute_aarch64 c J s) = Ok s' /\
    lane_array s' /\ state_bits s' = KECCAK_f1600 (state_bits s).
Proof. exact permute_a64_correct. Qed.
Print Assumptions C54_permutation.

Theorem C54_permutation_x4 : forall c J s0 s1 s2 s3,
  lane_array s0 -> lane_array s1 -> lane_array s2 -> lane_array s3 ->
  exists t0 t1 t2 t3, val (KeccakF1600x4_StatePermute_aarch64 c J (s0 ++ s1 ++ s2 ++ s3)) = Ok (t0 ++ t1 ++ t2 ++ t3) /\
    (lane_array t0 /\ state_bits t0 = KECCAK_f1600 (state_bits s0)) /\
    (lane_array t1 /\ state_bits t1 = KECCAK_f1600 (state_bits s1)) /\
    (lane_array t2 /\ state_bits t2 = KECCAK_f1600 (state_bits s2)) /\
    (lane_array t3 /\ state_bits t3 = KECCAK_f1600 (state_bits s3)).
Proof. exact permute_x4_a64_correct. Qed.
Print Assumptions C54_permutation_x4.

(** They agree with the portable ones. *)
Theorem C54_agrees : forall c J s, lane_array s ->
  val (KeccakF1600_StatePermute_aarch64 c J s) = val (KeccakF1600_StatePermute s).
Proof. exact permute_a64_agrees. Qed.
Print Assumptions C54_agrees.

Theorem C54_agrees_x4 : forall c J s0 s1 s2 s3,
  lane_array s0 -> lane_array s1 -> lane_array s2 -> lane_array s3 ->
  val (KeccakF1600x4_StatePermute_aarch64 c J (s0 ++ s1 ++ s2 ++ s3)) =
  val (KeccakF1600x4_StatePermute (s0 ++ s1 ++ s2 ++ s3)).
Proof. exact permute_x4_a64_agrees. Qed.
Print Assumptions C54_agrees_x4.
