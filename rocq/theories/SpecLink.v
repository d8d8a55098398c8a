(** * The parameter sets of the code and of the standard

    The only definition that mentions both. *)

From Verif Require Import ModelArith Spec203.

Definition set_of (p : pset) : params :=
  match p with
  | MLKEM512 => ML_KEM_512
  | MLKEM768 => ML_KEM_768
  | MLKEM1024 => ML_KEM_1024
  end.
