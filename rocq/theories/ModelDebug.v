(** * Model of mlkem/debug/debug.c and of the macros of mlkem/debug/debug.h

    As compiled with MLKEM_DEBUG. A call yields the lines printed to stderr and whether it ends
    the program with exit(1). In the other models a check that fails is the outcome
    [UB DebugCheck] (CSem.v), with no output. *)

From Coq Require Import ZArith List Bool String Ascii DecimalString Decimal.
From Verif Require Import CSem.
Import ListNotations.
Local Open Scope string_scope.
Open Scope Z_scope.

(** Lines printed, and whether exit(1) is called *)
Definition report : Type := (list string * bool)%type.

(** %d and %u of the C library *)
Definition dec (n : Z) : string := NilZero.string_of_int (Z.to_int n).
(** %04d, for a number that is not negative *)
Fixpoint zeros (n : nat) : string := match n with O => "" | S n => "0" ++ zeros n end.
Definition dec04 (n : Z) : string := zeros (4 - String.length (dec n)) ++ dec n.

(** debug.c 11: the size of debug_buf. snprintf writes at most one byte less, and a NUL. *)
Definition buf_size : nat := 256.
Definition snprintf (s : string) : string := substring 0 (buf_size - 1) s.

(** debug.c 49-53: the line printed *)
Definition mlkem_debug_print_error (file : string) (line : Z) (msg : string) : string :=
  "[ERROR:" ++ file ++ ":" ++ dec04 line ++ "] " ++ msg.

(** debug.c 13-23 *)
Definition mlkem_debug_assert (file : string) (line : Z) (description : string) (v : Z) : report :=
  if v =? 0 then
    let debug_buf := snprintf ("Assertion failed: " ++ description ++ " (value " ++ dec v ++ ")") in
    ([mlkem_debug_print_error file line debug_buf], true)
  else ([], false).

(** debug.c 24-47 *)
Definition mlkem_debug_check_bounds (file : string) (line : Z) (description : string)
  (ptr : list Z) (len lower_bound_exclusive upper_bound_exclusive : Z) : M report :=
  s <- for_up 0 len 1 (fun i s =>
    v <- aget ptr i ;;
    if negb ((lower_bound_exclusive <? v) && (v <? upper_bound_exclusive)) then
      let debug_buf := snprintf (description ++ ", index " ++ dec i ++ ", value " ++ dec v ++
        " out of bounds (" ++ dec lower_bound_exclusive ++ "," ++ dec upper_bound_exclusive ++ ")") in
      ret ((fst s ++ [mlkem_debug_print_error file line debug_buf])%list, 1)
    else ret s) ([], 0) ;;
  ret (fst s, snd s =? 1).

(** debug.h 61-65 *)
Definition CASSERT (file : string) (line v : Z) (msg : string) : report :=
  mlkem_debug_assert file line msg v.

(** debug.h 71-72 *)
Definition SCALAR_BOUND_ (file : string) (line v abs_bound : Z) (msg : string) : report :=
  CASSERT file line (Z.b2z ((- abs_bound <? v) && (v <? abs_bound))) msg.

(** debug.h 81-86 *)
Definition UBOUND_ (file : string) (line : Z) (ptr : list Z) (len high_bound : Z) (msg : string) : M report :=
  mlkem_debug_check_bounds file line msg ptr len (-1) high_bound.

(** debug.h 93-98 *)
Definition BOUND_ (file : string) (line : Z) (ptr : list Z) (len abs_bound : Z) (msg : string) : M report :=
  mlkem_debug_check_bounds file line msg ptr len (- abs_bound) abs_bound.

(** debug.h 104-106 and 118-119: the length is that of the array *)
Definition POLY_BOUND_MSG (file : string) (line : Z) (p : list Z) (abs_bound : Z) (msg : string) : M report :=
  BOUND_ file line p (Z.of_nat (List.length p)) abs_bound msg.

(** debug.h 112-114 and 125-126 *)
Definition POLY_UBOUND_MSG (file : string) (line : Z) (p : list Z) (ubound : Z) (msg : string) : M report :=
  UBOUND_ file line p (Z.of_nat (List.length p)) ubound msg.

(** debug.h 132-140 and 146-154: a loop over the polynomials, with one check each. After exit(1)
    nothing more is done. *)
Definition POLYVEC_ (check : list Z -> M report) (v : list (list Z)) : M report :=
  for_up 0 (Z.of_nat (List.length v)) 1 (fun i s =>
    if snd s : bool then ret s else
    p <- aget v i ;;
    r <- check p ;;
    ret ((fst s ++ fst r)%list, snd r)) ([], false).
Definition POLYVEC_BOUND_ (file : string) (line : Z) (v : list (list Z)) (abs_bound : Z) (msg : string) : M report :=
  POLYVEC_ (fun p => POLY_BOUND_MSG file line p abs_bound msg) v.
Definition POLYVEC_UBOUND_ (file : string) (line : Z) (v : list (list Z)) (ubound : Z) (msg : string) : M report :=
  POLYVEC_ (fun p => POLY_UBOUND_MSG file line p ubound msg) v.
