(** * The vocabulary of the function contracts: mlkem/cbmc.h

    A contract lists what a caller must guarantee ([requires]), what the function may write
    ([assigns]) and what holds when it returns ([ensures]). *)

From Coq Require Import ZArith List.
From Verif Require Import CSem Spec202.
Import ListNotations.
Open Scope Z_scope.

(** cbmc.h 123-135: all values of [array_var] at the indices qvar_lb .. qvar_ub (inclusive) are in
    value_lb .. value_ub (inclusive) *)
Definition array_bound (array_var : list Z) (qvar_lb qvar_ub value_lb value_ub : Z) : Prop :=
  forall i, qvar_lb <= i <= qvar_ub -> value_lb <= nth (Z.to_nat i) array_var 0 <= value_ub.

(** cbmc.h 138-140 *)
Definition array_abs_bound (arr : list Z) (lb ub k : Z) : Prop := array_bound arr lb ub (- k) k.

(** An object of C type uint8_t[n], int16_t[n] or uint64_t[n]: memory_no_alias(a, n * sizeof ...).
    Distinct arguments of a function of the model are distinct objects. *)
Definition uint8_array (n : Z) (a : list Z) : Prop := zlen a = n /\ Forall (fun x => 0 <= x < 256) a.
Definition int16_array (n : Z) (a : list Z) : Prop := zlen a = n /\ Forall (fun x => - 2 ^ 15 <= x < 2 ^ 15) a.
Definition uint64_array (n : Z) (a : list Z) : Prop := zlen a = n /\ Forall (fun x => 0 <= x < 2 ^ 64) a.

(** [k] polynomials, the [vec] of a polyvec, or [k] caches of 128 coefficients *)
Definition poly_array (k : Z) (v : list (list Z)) : Prop := zlen v = k /\ Forall (int16_array 256) v.
Definition mulcache_array (k : Z) (v : list (list Z)) : Prop := zlen v = k /\ Forall (int16_array 128) v.

(** a->vec[i] *)
Definition elt (v : list (list Z)) (i : Z) : list Z := nth (Z.to_nat i) v [].

(** The call returns, without undefined behaviour and without a failing debug check, and
    [ensures] holds of what it returns and wrote *)
Definition returns {A} (call : M A) (ensures : A -> Prop) : Prop :=
  exists a, val call = Ok a /\ ensures a.

(** The same for the functions that sample the matrix by rejection: or the loops still run after
    the given number of iterations *)
Definition returns_or_runs {A} (call : M A) (ensures : A -> Prop) : Prop :=
  val call = NoFuel \/ returns call ensures.
