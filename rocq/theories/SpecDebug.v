(** * What the debug checks report (C73) *)

From Coq Require Import ZArith List Bool String DecimalString Decimal.
From Verif Require Import CSem Spec202.
Import ListNotations.
Open Scope Z_scope.

(** The value [x] is within the exclusive bounds. *)
Definition within (lo hi x : Z) : Prop := lo < x < hi.

(** [is] are the indices below [n] of the values of [l] that are out of bounds, each once, in
    ascending order. *)
Definition out_of_bounds (l : list Z) (n lo hi : Z) (is : list Z) : Prop :=
  (forall i, In i is <-> 0 <= i < n /\ ~ within lo hi (at_ l i)) /\
  (forall a b, (a < b < List.length is)%nat -> at_ is (Z.of_nat a) < at_ is (Z.of_nat b)).

(** The beginning of [s] that fits into a buffer of [n] characters with the terminating NUL is [t]. *)
Definition fits (n : nat) (s t : string) : Prop :=
  (exists rest, s = append t rest) /\ (String.length t < n)%nat /\
  ((String.length s < n)%nat -> t = s) /\ ((n <= String.length s)%nat -> (String.length t + 1 = n)%nat).

(** Decimal numbers, and the same with zeros in front up to a width of four *)
Definition decimal (n : Z) : string := NilZero.string_of_int (Z.to_int n).
Definition four_digits (n : Z) : string :=
  append (String.concat "" (repeat "0"%string (4 - String.length (decimal n)))) (decimal n).

(** The line for the message [msg], of which 255 characters are printed *)
Definition line_for (file : string) (line : Z) (msg s : string) : Prop :=
  exists t, fits 256 msg t /\
    s = String.concat "" ["[ERROR:"; file; ":"; four_digits line; "] "; t]%string.

(** The message for the value at index [i] *)
Definition message (description : string) (l : list Z) (lo hi i : Z) : string :=
  String.concat "" [description; ", index "; decimal i; ", value "; decimal (at_ l i);
                    " out of bounds ("; decimal lo; ","; decimal hi; ")"]%string.

(** The lines printed and whether the program ends, and the abstract check [m] of the models:
    the program ends exactly if the outcome of the check is [DebugCheck], and otherwise nothing
    is printed. *)
Definition agrees (r : list string * bool) (m : M unit) : Prop :=
  (snd r = true <-> val m = UB DebugCheck) /\ (snd r = false <-> val m = Ok tt) /\ (snd r = false -> fst r = []).
