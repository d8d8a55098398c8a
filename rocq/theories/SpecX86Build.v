(** * What is said about the x86_64 build as a whole

    Sequences of calls of its four-way hash functions, as in SpecHistory.v (C45), and the
    comparison of its runs with those of the portable build (C46). *)

From Coq Require Import ZArith List.
From Verif Require Import CSem ModelKeccak ModelX86Keccak Spec202 SpecMem.
Import ListNotations.
Open Scope Z_scope.

(** shake128x4_squeezeblocks into each of a list of four buffers *)
Fixpoint squeeze_blocks_all_x4_x86_64 (s : list Z) (bufs : list (x4 (list Z))) : M (list (x4 (list Z))) :=
  match bufs with
  | [] => ret []
  | (b0, b1, b2, b3) :: bs =>
    '(out, s) <- shake128x4_squeezeblocks_x86_64 b0 b1 b2 b3 (zlen b0 / 168) s ;;
    outs <- squeeze_blocks_all_x4_x86_64 s bs ;;
    ret (out :: outs)
  end.

(** Two runs end in the same way: both return the same value and leave the same bytes at
    every address, or both need more blocks of SHAKE128 output than allowed. A run with
    undefined behaviour is like no other run. *)
Definition same_result (o1 o2 : outcome (Z * memory)) : Prop :=
  match o1, o2 with
  | Ok (r1, m1), Ok (r2, m2) => r1 = r2 /\ forall x, m1 x = m2 x
  | NoFuel, NoFuel => True
  | _, _ => False
  end.
(** The same for runs that also have used up random bytes up to some position *)
Definition same_result_at (o1 o2 : outcome (Z * memory * Z)) : Prop :=
  match o1, o2 with
  | Ok (r1, m1, pos1), Ok (r2, m2, pos2) => r1 = r2 /\ pos1 = pos2 /\ forall x, m1 x = m2 x
  | NoFuel, NoFuel => True
  | _, _ => False
  end.
