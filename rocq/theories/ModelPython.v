(** * Python arithmetic used by scripts/autogenerate_files.py and test/test_bounds.py

    An int is a [Z]. A float is a pair [(p, s)], s > 0, for the number p / s. The division of two
    ints, which rounds, is a parameter [div] of the models. *)

From Coq Require Import ZArith List Bool.
From Verif Require Import CSem.
Import ListNotations.
Open Scope Z_scope.

Definition float : Type := (Z * Z)%type.
Definition division : Type := Z -> Z -> float.

(** round(x), autogenerate_files.py 116, test_bounds.py 24: the nearest int, and the even one of
    two that are equally near *)
Definition round (x : float) : Z :=
  let n := fst x / snd x in
  match 2 * (fst x mod snd x) ?= snd x with
  | Lt => n
  | Gt => n + 1
  | Eq => if Z.even n then n else n + 1
  end.

(** x / 2 for a float, test_bounds.py 24: exact (no underflow) *)
Definition halve (x : float) : float := (fst x, 2 * snd x).

(** n >= x and n <= x for an int n and a float x, autogenerate_files.py 70, 121: exact *)
Definition int_ge (n : Z) (x : float) : bool := fst x <=? n * snd x.
Definition int_le (n : Z) (x : float) : bool := n * snd x <=? fst x.

(** The inverse of a modulo n, as in pow(a, -1, n), autogenerate_files.py 356, test_bounds.py 16:
    the extended Euclidean algorithm. [k] bounds the number of steps. *)
Fixpoint euclid (k : nat) (a n b c : Z) : Z :=
  match k with
  | O => b
  | S k => if n =? 0 then b else euclid k n (a mod n) c (b - a / n * c)
  end.
Definition invmod (a n : Z) : Z := euclid (2 * Z.to_nat (Z.log2 n) + 2) a n 1 0 mod n.

(** pow(b, e, m), autogenerate_files.py 11, 84, 135, 283, 290, 356, 366: square and multiply, after the base
    has been inverted if the exponent is negative *)
Fixpoint pow_pos (b : Z) (e : positive) (m : Z) : Z :=
  match e with
  | xH => b mod m
  | xO e => let y := pow_pos b e m in y * y mod m
  | xI e => let y := pow_pos b e m in y * y mod m * b mod m
  end.
Definition pow3 (b e m : Z) : Z :=
  match e with
  | Z0 => 1 mod m
  | Zpos e => pow_pos b e m
  | Zneg e => pow_pos (invmod (b mod m) m) e m
  end.

(** range(n) *)
Definition prange (n : nat) : list Z := map Z.of_nat (seq 0 n).
