(** * Counting (C63) *)

From Coq Require Import ZArith List.
From Verif Require Import Spec202.
Import ListNotations.
Open Scope Z_scope.

(** Exactly [N] objects have the property: a list without repetitions has them all. *)
Definition counted {A} (P : A -> Prop) (N : Z) : Prop :=
  exists l : list A, NoDup l /\ (forall x, In x l <-> P x) /\ zlen l = N.

(** Pascal's triangle: the number of ways to choose [k] of [n] things *)
Fixpoint choose (n k : nat) : Z :=
  match n, k with
  | _, O => 1
  | O, S _ => 0
  | S n, S k => choose n k + choose n (S k)
  end.
(** Of the strings of 2 eta bits, this many have x more ones in the first half than in the second. *)
Definition binomial (eta x : Z) : Z := choose (Z.to_nat (2 * eta)) (Z.to_nat (eta + x)).
Definition product (l : list Z) : Z := fold_right Z.mul 1 l.
