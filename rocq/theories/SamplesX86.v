(** * Concrete inputs for the x86_64 backend *)

From Coq Require Import ZArith List Bool Lia.
From Verif Require Import CSem ModelArith ModelX86 ModelX86Asm Spec202 Spec203 SpecX86Frame CSemFacts Samples.
Import ListNotations.
Open Scope Z_scope.

Definition sample_registers : list (list Z) :=
  map (fun i => map (fun j => 1000 * i - 777 * j) (range 16)) (range 16).
Lemma sample_call : vector_registers sample_registers /\
  Forall2 fills [Out 256; In_ 256; In_ 256; Table; Scratch 16]
    [extreme_poly; sample_poly 1; extreme_poly; qdata; firstn 16 extreme_poly].
Proof.
  assert (E : Forall int16 extreme_poly).
  { destruct extreme_poly_ok as (L & H & _). apply (Forall_zget _ 0). rewrite L. exact H. }
  split.
  - unfold vector_registers, sample_registers. rewrite zlen_map, zlen_range by lia. split; auto.
    apply Forall_map_range. intros i Hi. rewrite zlen_map, zlen_range by lia. split; auto.
    apply Forall_map_range. intros j Hj. unfold int16. change (2 ^ 15) with 32768. lia.
  - constructor; [split; [apply extreme_poly_ok|exact E]|].
    constructor. { destruct (sample_poly_ok 1) as (L & H). split; [exact L|].
      eapply Forall_impl; [|exact H]. cbv beta. unfold q, int16. change (2 ^ 15) with 32768. intros; lia. }
    constructor; [split; [apply extreme_poly_ok|exact E]|].
    constructor; [reflexivity|].
    constructor; [|constructor]. split.
    + destruct extreme_poly_ok as (L & _). unfold zlen in *. rewrite firstn_length. lia.
    + rewrite Forall_forall in E |- *. intros x Hx. apply E. rewrite <- (firstn_skipn 16 extreme_poly). apply in_or_app. now left.
Qed.
