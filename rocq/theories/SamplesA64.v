(** * Concrete inputs for the AArch64 backend *)

From Coq Require Import ZArith List Bool Lia.
From Verif Require Import ModelA64 ModelA64Asm.
From Verif Require Import CSem ModelArith ModelA64Poly Spec202 Spec203 SpecA64Frame CSemFacts Samples.
Import ListNotations.
Open Scope Z_scope.

Definition sample_registers : list (list Z) :=
  map (fun i => map (fun j => 1000 * i - 777 * j) (range 8)) (range 32).
Lemma sample_call : In (basemul_routine opt MLKEM512) (routines opt) /\
  vector_registers sample_registers /\ zlen (firstn 32 extreme_poly) = 32 /\
  Forall2 fills (snd (basemul_routine opt MLKEM512))
    [extreme_poly; extreme_poly ++ sample_poly 1; sample_poly 2 ++ extreme_poly; sample_poly 3;
     polyvec_opt_const_addr].
Proof.
  split; [right; right; right; right; right; right; left; reflexivity|]. split; [|split].
  - unfold vector_registers, sample_registers. rewrite zlen_map, zlen_range by lia. split; auto.
    apply Forall_map_range. intros i Hi. rewrite zlen_map, zlen_range by lia. reflexivity.
  - vm_compute. reflexivity.
  - repeat constructor.
Qed.
