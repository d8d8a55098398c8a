(** * What a benchmark should report *)

From Coq Require Import ZArith List Bool Permutation Sorted String.
From Verif Require Import Spec202.
Import ListNotations.
Open Scope Z_scope.

(** How many elements of [l] satisfy [f] *)
Definition count (f : Z -> bool) (l : list Z) : Z := zlen (filter f l).
(** [v] is the element of [l] with [r] elements before it when [l] is put in order. *)
Definition at_rank (l : list Z) (r v : Z) : Prop :=
  In v l /\ count (fun x => x <? v) l <= r < count (fun x => x <=? v) l.

(** The cycle counter has 64 bits; [now k] is the time of its [k]-th reading since some
    beginning, in cycles. *)
Definition reads (now reading : Z -> Z) : Prop := forall k, reading k = now k mod 2 ^ 64.
(** The durations of [n] measurements; measurement [i] is between the readings [f i] and
    [f i + 1]. *)
Definition durations (now : Z -> Z) (n : Z) (f : Z -> Z) : list Z :=
  map (fun i => now (f i + 1) - now (f i)) (range n).
(** Each of them is not negative and shorter than 2^64 cycles. *)
Definition measurable (l : list Z) : Prop := forall x, In x l -> 0 <= x < 2 ^ 64.
(** No two of them differ by 2^31 cycles or more. *)
Definition close (l : list Z) : Prop := forall x y, In x l -> In y l -> Z.abs (x - y) < 2 ^ 31.

(** ** qsort (C99 7.20.5.2)

    The comparison function is consistent on the elements of the array: comparing in the other
    direction gives the opposite sign, and comparison is transitive. *)
Definition consistent (cmp : Z -> Z -> Z) (l : list Z) : Prop :=
  (forall x y, In x l -> In y l -> Z.sgn (cmp x y) = - Z.sgn (cmp y x)) /\
  (forall x y z, In x l -> In y l -> In z l -> cmp x y <= 0 -> cmp y z <= 0 -> cmp x z <= 0).
(** Then qsort puts them in ascending order. *)
Definition sorts (qsort : (Z -> Z -> Z) -> list Z -> list Z) : Prop :=
  forall cmp l, consistent cmp l ->
  Permutation l (qsort cmp l) /\ StronglySorted (fun x y => cmp x y <= 0) (qsort cmp l).

(** [n] is the number of cycles per iteration (of 300) of the measurement of rank [r]. *)
Definition per_iteration (l : list Z) (r n : Z) : Prop := exists v, at_rank l r v /\ n = v / 300.
