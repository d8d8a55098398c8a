(** * What a caller of the Keccak routines of the AArch64 backend relies on *)

From Coq Require Import ZArith List.
From Verif Require Import ModelA64Keccak ModelA64Fips202.
From Verif Require Import CSem Spec202 SpecHistory.
Import ListNotations.
Open Scope Z_scope.

Definition keccak_routines : list routine :=
  [x1_scalar; x1_v84a; x2_v84a; x2_v8a_v84a; x4_scalar_v8a; x4_scalar_v84a; x4_scalar_v8a_v84a].

(** x0 to x30 and sp: x0 points to the argument, which is array 1, sp to the end of the stack
    that the routine reserves, which is array 0; the rest is anything. *)
Definition registers_at_call (r : routine) (xs : list (xval Z)) : Prop :=
  length xs = 32%nat /\ nth_error xs 0 = Some (Ptr 1 0) /\
  nth_error xs 31 = Some (Ptr 0 (8 * Z.of_nat (r_stack r))).
(** v0 to v31, each two halves of 64 bits, hold anything. *)
Definition vectors_at_call (vs : list (Z * Z)) : Prop :=
  length vs = 32%nat /\ Forall (fun v => 0 <= fst v < 2 ^ 64 /\ 0 <= snd v < 2 ^ 64) vs.

(** What the calling convention (AAPCS64) requires to be preserved: x18 to x30, sp, and the low
    halves of v8 to v15 *)
Definition preserved (xs xs' : list (xval Z)) (vs vs' : list (Z * Z)) : Prop :=
  (forall i, (18 <= i <= 31)%nat -> nth_error xs' i = nth_error xs i) /\
  (forall i, (8 <= i <= 15)%nat -> fst (nth i vs' (0, 0)) = fst (nth i vs (0, 0))).

(** The state after the permutation of FIPS 202 *)
Definition permuted (s s' : list Z) : Prop :=
  lane_array s' /\ state_bits s' = KECCAK_f1600 (state_bits s).
