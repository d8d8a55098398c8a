(** * Memory: what a call finds and what it leaves

    A memory gives for every address the byte stored there, or None where there is no
    memory. These are the words in which the API theorems speak about it. *)

From Coq Require Import ZArith List Bool.
From Verif Require Import Spec202.
Import ListNotations.
Open Scope Z_scope.

Definition memory : Type := Z -> option Z.

(** Every accessible address holds a byte. *)
Definition byte_memory (m : memory) : Prop := forall x v, m x = Some v -> 0 <= v < 256.
(** The [n] addresses from [a] on can be read and written. *)
Definition accessible (m : memory) (a n : Z) : Prop := forall x, a <= x < a + n -> m x <> None.
(** The bytes [l] are stored from address [a] on. *)
Definition contains (m : memory) (a : Z) (l : list Z) : Prop :=
  forall i, 0 <= i < zlen l -> m (a + i) = Some (nth (Z.to_nat i) l 0).
(** Two buffers (address, size) do not overlap. *)
Definition apart (x y : Z * Z) : Prop := fst x + snd x <= fst y \/ fst y + snd y <= fst x.
(** No two of the buffers overlap. *)
Definition all_apart (l : list (Z * Z)) : Prop := ForallOrdPairs apart l.
(** The memory [m] after the bytes [l] have been stored at [a], for each (a, l) of [outs]:
    an address in none of these ranges keeps its contents. *)
Fixpoint overwrite (m : memory) (outs : list (Z * list Z)) (x : Z) : option Z :=
  match outs with
  | [] => m x
  | (a, l) :: outs =>
      if (a <=? x) && (x <? a + zlen l) then Some (nth (Z.to_nat (x - a)) l 0) else overwrite m outs x
  end.
