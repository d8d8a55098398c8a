(** * What C71 and C72 say about floating-point division, twiddles and NTT layers *)

From Coq Require Import ZArith List Bool QArith.
Import ListNotations.
Open Scope Z_scope.

(** The quotient of two ints of at most 53 bits is a number p / s whose distance from n / d is at
    most |n / d| / 2^53, as in IEEE double precision. *)
Definition double_precision (div : Z -> Z -> Z * Z) : Prop :=
  forall n d, Z.abs n < 2 ^ 53 -> 0 < d < 2 ^ 53 ->
  let (p, s) := div n d in
  0 < s /\ Z.abs (p * d - n * s) * 2 ^ 53 <= Z.abs n * s.

(** [r] is the representative of [a] modulo 3329 of least absolute value. *)
Definition centred (a r : Z) : Prop := r mod 3329 = a mod 3329 /\ Z.abs r <= 1664.

(** [t] is an int16_t, and 2 t the even number nearest to 2^16 r / 3329, less than 1 away. *)
Definition barrett_twin (r t : Z) : Prop :=
  - 2 ^ 15 <= t < 2 ^ 15 /\ Z.abs (2 * t * 3329 - 2 ^ 16 * r) < 3329.

(** [t] is an int16_t, and r / 3329 modulo 2^16. *)
Definition montgomery_twin (r t : Z) : Prop :=
  - 2 ^ 15 <= t < 2 ^ 15 /\ (t * 3329) mod 2 ^ 16 = r mod 2 ^ 16.

(** A layer of an NTT: each output coefficient is the sum or the difference of an input
    coefficient and the product, by [mul], of an input coefficient and a twiddle that satisfies
    [ok]. *)
Definition layer (mul : Z -> Z -> Z) (ok : Z -> Prop) (f g : nat -> Z) : Prop :=
  forall i, exists j k t, ok t /\ (g i = f j + mul (f k) t \/ g i = f j - mul (f k) t).

Inductive layers (mul : Z -> Z -> Z) (ok : Z -> Prop) : nat -> (nat -> Z) -> (nat -> Z) -> Prop :=
| no_layer f : layers mul ok 0 f f
| more_layers n f g h : layers mul ok n f g -> layer mul ok g h -> layers mul ok (S n) f h.
