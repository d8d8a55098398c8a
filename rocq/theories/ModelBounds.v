(** * Model of test/test_bounds.py

    The functions about which the script asserts something, on ints of any size. The constants
    0.0508 and 0.0204 and the bounds computed from them are rationals. Not modelled: the loops
    over random or all arguments, and the printing. *)

From Coq Require Import ZArith List Bool QArith.
From Verif Require Import CSem ModelPython.
Import ListNotations.
Open Scope Z_scope.

(** 14-16 *)
Definition R : Z := 2 ^ 16.
Definition Q : Z := 3329.
Definition Qinv : Z := pow3 (- Q) (-1) R.

(** 23-24 *)
Definition round_even (x : float) : Z := 2 * round (halve x).

(** 28-31 *)
Definition barrett_twiddle (div : division) (b : Z) : Z := round_even (div (b * R) Q) / 2.

(** 34-38 *)
Definition sqrdmulh_i16 (a b : Z) : Z := (2 * a * b + 2 ^ 15) / 2 ^ 16.

(** 41-44 *)
Definition barmul (div : division) (a b : Z) : Z :=
  let b_twiddle := barrett_twiddle div b in
  a * b - Q * sqrdmulh_i16 a b_twiddle.

(** 52-57 *)
Definition lift_signed_i16 (x : Z) : Z :=
  let x := x mod R in
  if x >=? R / 2 then x - R else x.

(** 61-62 *)
Definition montmul_neg_twiddle (b : Z) : Z := (b * Qinv) mod R.

(** 65-67 *)
Definition montmul_neg (a b : Z) : Z :=
  let b_twiddle := montmul_neg_twiddle b in
  (a * b + Q * lift_signed_i16 (a * b_twiddle)) / R.

(** 101-102 *)
Definition modq_even (div : division) (a : Z) : Z := a - Q * round_even (div a Q).

(** 105-113: whether the assertion holds *)
Definition barmul_test (div : division) (a b : Z) : bool :=
  let bp := modq_even div (b * R) in
  let r0 := barmul div a b in
  let r1 := montmul_neg a bp in
  r0 =? r1.

(** 161-165 *)
Fixpoint funciter {A} (f : A -> A) (n : nat) (x : A) : A :=
  match n with
  | O => x
  | S n => funciter f n (f x)
  end.

(** 168-176 *)
Definition ntt_layer_bound_growth (factor : QArith_base.Q) : QArith_base.Q -> QArith_base.Q :=
  fun C => (C + factor * C + (1 # 2))%Q.

(** 179-182 *)
Definition ntt_layer_bound (factor : QArith_base.Q) (layers : nat) (initial : Z) : QArith_base.Q :=
  funciter (ntt_layer_bound_growth factor) layers (inject_Z initial / inject_Z Q)%Q.

(** 185-186 *)
Definition barmul_ntt_layer_bound : QArith_base.Q := ntt_layer_bound (508 # 10000) 7 Q.
Definition montmul_ntt_layer_bound : QArith_base.Q := ntt_layer_bound (204 # 10000) 7 Q.
