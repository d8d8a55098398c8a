(** * The coefficient order of the x86_64 backend

    In the NTT domain the AVX2 code keeps the coefficients of a polynomial in an order of
    its own (MLKEM_USE_NATIVE_NTT_CUSTOM_ORDER, profiles/default.h 22): in each half of
    128 coefficients, the 16 words of the vector register number b (b = 0..7) are the
    coefficients b, b + 8, b + 16, ... of FIPS 203. *)

From Coq Require Import ZArith List.
From Verif Require Import Spec202.
Import ListNotations.
Open Scope Z_scope.

(** The number in FIPS 203 of the coefficient stored in element [i] of the array *)
Definition fips_index (i : Z) : Z := 128 * (i / 128) + 8 * (i mod 16) + i / 16 mod 8.

(** The element of the array in which the coefficient [s] of FIPS 203 is stored *)
Definition custom_index (s : Z) : Z := 128 * (s / 128) + 16 * (s mod 8) + s mod 128 / 8.

(** An array in the order of the backend as the list of coefficients of FIPS 203, and
    back *)
Definition fips_order (r : list Z) : list Z :=
  map (fun s => nth (Z.to_nat (custom_index s)) r 0) (range 256).
Definition custom_order (f : list Z) : list Z :=
  map (fun i => nth (Z.to_nat (fips_index i)) f 0) (range 256).
