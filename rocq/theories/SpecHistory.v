(** * Sequences of calls, and the values the Keccak code works on

    These definitions only put calls one after the other; they are used to state C27-C30. *)

From Coq Require Import ZArith List.
From Verif Require Import CSem ModelKeccak Spec202.
Import ListNotations.
Open Scope Z_scope.

(** An array of 25 64-bit lanes, and the 1600 bits it stands for: lane after lane, the
    least significant bit first (FIPS 202, 3.1.2 and B.1). *)
Definition lane_array (s : list Z) : Prop := zlen s = 25 /\ Forall (fun l => 0 <= l < 2 ^ 64) s.
Definition state_bits (s : list Z) : list bool := flat_map (fun l => map (Z.testbit l) (range 64)) s.

(** shake256_inc_absorb for each of a list of chunks *)
Fixpoint absorb_all {bo : byte_order} (st : list Z) (chunks : list (list Z)) : M (list Z) :=
  match chunks with
  | [] => ret st
  | c :: cs => st <- shake256_inc_absorb st c (zlen c) ;; absorb_all st cs
  end.

(** shake256_inc_squeeze into each of a list of buffers *)
Fixpoint squeeze_all {bo : byte_order} (st : list Z) (bufs : list (list Z)) : M (list (list Z)) :=
  match bufs with
  | [] => ret []
  | b :: bs =>
    '(out, st) <- shake256_inc_squeeze b (zlen b) st ;;
    outs <- squeeze_all st bs ;;
    ret (out :: outs)
  end.

(** shake128_squeezeblocks into each of a list of buffers of whole blocks *)
Fixpoint squeeze_blocks_all {bo : byte_order} (s : list Z) (bufs : list (list Z)) : M (list (list Z)) :=
  match bufs with
  | [] => ret []
  | b :: bs =>
    '(out, s) <- shake128_squeezeblocks b (zlen b / 168) s ;;
    outs <- squeeze_blocks_all s bs ;;
    ret (out :: outs)
  end.

(** shake128x4_squeezeblocks into each of a list of four buffers *)
Fixpoint squeeze_blocks_all_x4 {bo : byte_order} (s : list Z) (bufs : list (x4 (list Z))) : M (list (x4 (list Z))) :=
  match bufs with
  | [] => ret []
  | (b0, b1, b2, b3) :: bs =>
    '(out, s) <- shake128x4_squeezeblocks b0 b1 b2 b3 (zlen b0 / 168) s ;;
    outs <- squeeze_blocks_all_x4 s bs ;;
    ret (out :: outs)
  end.

(** The four components of a 4-way value *)
Definition lane {A} (i : Z) (t : x4 A) : A :=
  let '(a, b, c, d) := t in
  if i =? 0 then a else if i =? 1 then b else if i =? 2 then c else d.
