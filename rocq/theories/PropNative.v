(** * C60: the contracts in the headers, for the functions that have native code

    Each theorem is one __contract__ (see PropContract.v for the portable build), for the function as
    it is built with a native backend: that of x86_64 or either profile of that of AArch64. If the
    caller meets the [requires] clauses, the call returns, without undefined behaviour, without a fault
    in the assembly and without a failing debug check, and the [ensures] clauses hold. [J] stands for
    the contents of registers and uninitialised memory. *)

From Coq Require Import ZArith List.
From Verif Require Import CSem ModelArith Spec202 Spec203 SpecLink SpecContract SpecNative ProofNative ProofContractCase.
Import ListNotations.
Open Scope Z_scope.

(** mlkem/ntt.h 37-43 *)
Theorem C60_poly_ntt n J r : int16_array 256 r -> array_abs_bound r 0 255 3328 ->
  returns (poly_ntt_on n J r) (fun r => int16_array 256 r /\ array_abs_bound r 0 255 (8 * 3329 - 1)).
Proof. exact (n_poly_ntt n J r). Qed.
Print Assumptions C60_poly_ntt.
Example C60_poly_ntt_case : exists r, (int16_array 256 r) /\ (array_abs_bound r 0 255 3328).
Proof. exists (waves 256 3328). contract_case. Qed.

(** mlkem/ntt.h 62-67 *)
Theorem C60_poly_invntt_tomont n J r : int16_array 256 r ->
  returns (poly_invntt_tomont_on n J r) (fun r => int16_array 256 r /\ array_abs_bound r 0 255 (8 * 3329 - 1)).
Proof. exact (n_poly_invntt_tomont n J r). Qed.
Print Assumptions C60_poly_invntt_tomont.
Example C60_poly_invntt_tomont_case : exists r, (int16_array 256 r).
Proof. exists (waves 256 32767). contract_case. Qed.

(** mlkem/poly.h 712-717 *)
Theorem C60_poly_reduce n J r : int16_array 256 r ->
  returns (poly_reduce_on n J r) (fun r => int16_array 256 r /\ array_bound r 0 255 0 3328).
Proof. exact (n_poly_reduce n J r). Qed.
Print Assumptions C60_poly_reduce.
Example C60_poly_reduce_case : exists r, (int16_array 256 r).
Proof. exists (waves 256 32767). contract_case. Qed.

(** mlkem/poly.h 656-661 *)
Theorem C60_poly_tomont n J r : int16_array 256 r ->
  returns (poly_tomont_on n J r) (fun r => int16_array 256 r /\ array_abs_bound r 0 255 3328).
Proof. exact (n_poly_tomont n J r). Qed.
Print Assumptions C60_poly_tomont.
Example C60_poly_tomont_case : exists r, (int16_array 256 r).
Proof. exists (waves 256 32767). contract_case. Qed.

(** mlkem/poly.h 687-692 *)
Theorem C60_poly_mulcache_compute n J x a : int16_array 128 x -> int16_array 256 a ->
  returns (poly_mulcache_compute_on n J x a) (int16_array 128).
Proof. exact (n_poly_mulcache_compute n J x a). Qed.
Print Assumptions C60_poly_mulcache_compute.
Example C60_poly_mulcache_compute_case : exists x a, (int16_array 128 x) /\ (int16_array 256 a).
Proof. exists (waves 128 32767), (waves 256 32767). contract_case. Qed.

(** mlkem/poly.h 414-420 *)
Theorem C60_poly_tobytes n J r a : uint8_array 384 r -> int16_array 256 a -> array_bound a 0 255 0 3328 ->
  returns (poly_tobytes_on n J r a) (uint8_array 384).
Proof. exact (n_poly_tobytes n J r a). Qed.
Print Assumptions C60_poly_tobytes.
Example C60_poly_tobytes_case : exists r a, (uint8_array 384 r) /\ (int16_array 256 a) /\ (array_bound a 0 255 0 3328).
Proof. exists (ramp 384 256), (ramp 256 3329). contract_case. Qed.

(** mlkem/poly.h 437-443 *)
Theorem C60_poly_frombytes n J r a : int16_array 256 r -> uint8_array 384 a ->
  returns (poly_frombytes_on n J r a) (fun r => int16_array 256 r /\ array_bound r 0 255 0 4095).
Proof. exact (n_poly_frombytes n J r a). Qed.
Print Assumptions C60_poly_frombytes.
Example C60_poly_frombytes_case : exists r a, (int16_array 256 r) /\ (uint8_array 384 a).
Proof. exists (waves 256 32767), (ramp 384 256). contract_case. Qed.

(** mlkem/polyvec.h 123-131 *)
Theorem C60_polyvec_ntt n J p r : let P := set_of p in
  poly_array (k P) r -> (forall j, 0 <= j <= k P - 1 -> array_abs_bound (elt r j) 0 255 3328) ->
  returns (polyvec_ntt_on n J p r) (fun r => poly_array (k P) r /\
    forall j, 0 <= j <= k P - 1 -> array_abs_bound (elt r j) 0 255 (8 * 3329 - 1)).
Proof. exact (n_polyvec_ntt n J p r). Qed.
Print Assumptions C60_polyvec_ntt.
Example C60_polyvec_ntt_case : exists p r, let P := set_of p in (poly_array (k P) r) /\ ((forall j, 0 <= j <=
  k P - 1 -> array_abs_bound (elt r j) 0 255 3328)).
Proof. exists MLKEM768, (repeat (waves 256 3328) 3). contract_case. Qed.

(** mlkem/polyvec.h 149-155 *)
Theorem C60_polyvec_invntt_tomont n J p r : let P := set_of p in poly_array (k P) r ->
  returns (polyvec_invntt_tomont_on n J p r) (fun r => poly_array (k P) r /\
    forall j, 0 <= j <= k P - 1 -> array_abs_bound (elt r j) 0 255 (8 * 3329 - 1)).
Proof. exact (n_polyvec_invntt_tomont n J p r). Qed.
Print Assumptions C60_polyvec_invntt_tomont.
Example C60_polyvec_invntt_tomont_case : exists p r, let P := set_of p in (poly_array (k P) r).
Proof. exists MLKEM768, (repeat (waves 256 32767) 3). contract_case. Qed.

(** mlkem/polyvec.h 247-253 *)
Theorem C60_polyvec_reduce n J p r : let P := set_of p in poly_array (k P) r ->
  returns (polyvec_reduce_on n J p r) (fun r => poly_array (k P) r /\
    forall j, 0 <= j <= k P - 1 -> array_bound (elt r j) 0 255 0 3328).
Proof. exact (n_polyvec_reduce n J p r). Qed.
Print Assumptions C60_polyvec_reduce.
Example C60_polyvec_reduce_case : exists p r, let P := set_of p in (poly_array (k P) r).
Proof. exists MLKEM768, (repeat (waves 256 32767) 3). contract_case. Qed.

(** mlkem/polyvec.h 295-302 *)
Theorem C60_polyvec_tomont n J p r : let P := set_of p in poly_array (k P) r ->
  returns (polyvec_tomont_on n J p r) (fun r => poly_array (k P) r /\
    forall j, 0 <= j <= k P - 1 -> array_abs_bound (elt r j) 0 255 3328).
Proof. exact (n_polyvec_tomont n J p r). Qed.
Print Assumptions C60_polyvec_tomont.
Example C60_polyvec_tomont_case : exists p r, let P := set_of p in (poly_array (k P) r).
Proof. exists MLKEM768, (repeat (waves 256 32767) 3). contract_case. Qed.

(** mlkem/polyvec.h 223-228 *)
Theorem C60_polyvec_mulcache_compute n J p x a : let P := set_of p in
  mulcache_array (k P) x -> poly_array (k P) a ->
  returns (polyvec_mulcache_compute_on n J p x a) (mulcache_array (k P)).
Proof. exact (n_polyvec_mulcache_compute n J p x a). Qed.
Print Assumptions C60_polyvec_mulcache_compute.
Example C60_polyvec_mulcache_compute_case : exists p x a, let P := set_of p in (mulcache_array (k P) x) /\ (poly_array (k P) a).
Proof. exists MLKEM768, (repeat (waves 128 32767) 3), (repeat (waves 256 32767) 3). contract_case. Qed.

(** mlkem/polyvec.h 78-85 *)
Theorem C60_polyvec_tobytes n J p r a : let P := set_of p in
  uint8_array (384 * k P) r -> poly_array (k P) a ->
  (forall j, 0 <= j <= k P - 1 -> array_bound (elt a j) 0 255 0 3328) ->
  returns (polyvec_tobytes_on n J p r a) (uint8_array (384 * k P)).
Proof. exact (n_polyvec_tobytes n J p r a). Qed.
Print Assumptions C60_polyvec_tobytes.
Example C60_polyvec_tobytes_case : exists p r a, let P := set_of p in (uint8_array (384 * k P) r) /\
  (poly_array (k P) a) /\ ((forall j, 0 <= j <= k P - 1 -> array_bound (elt a j) 0 255 0 3328)).
Proof. exists MLKEM768, (ramp 1152 256), (repeat (ramp 256 3329) 3). contract_case. Qed.

(** mlkem/polyvec.h 99-106 *)
Theorem C60_polyvec_frombytes n J p r a : let P := set_of p in
  poly_array (k P) r -> uint8_array (384 * k P) a ->
  returns (polyvec_frombytes_on n J p r a) (fun r => poly_array (k P) r /\
    forall j, 0 <= j <= k P - 1 -> array_bound (elt r j) 0 255 0 4095).
Proof. exact (n_polyvec_frombytes n J p r a). Qed.
Print Assumptions C60_polyvec_frombytes.
Example C60_polyvec_frombytes_case : exists p r a, let P := set_of p in (poly_array (k P) r) /\ (uint8_array (384 * k P) a).
Proof. exists MLKEM768, (repeat (waves 256 32767) 3), (ramp 1152 256). contract_case. Qed.

(** mlkem/polyvec.h 182-194. Without the debug check of b, which the contract
    does not require *)
Theorem C60_polyvec_basemul_acc_montgomery_cached n J p r a b b_cache : let P := set_of p in
  int16_array 256 r -> poly_array (k P) a -> poly_array (k P) b -> mulcache_array (k P) b_cache ->
  (forall j, 0 <= j <= k P - 1 -> array_abs_bound (elt a j) 0 255 3328) ->
  returns (polyvec_basemul_acc_montgomery_cached_on n J p r a b b_cache) (int16_array 256).
Proof. exact (n_polyvec_basemul_acc n J p r a b b_cache). Qed.
Print Assumptions C60_polyvec_basemul_acc_montgomery_cached.
Example C60_polyvec_basemul_acc_montgomery_cached_case : exists p r a b b_cache, let P := set_of p in
  (int16_array 256 r) /\ (poly_array (k P) a) /\ (poly_array (k P) b) /\ (mulcache_array (k P) b_cache) /\
  ((forall j, 0 <= j <= k P - 1 -> array_abs_bound (elt a j) 0 255 3328)).
Proof. exists MLKEM768, (waves 256 32767), (repeat (waves 256 3328) 3), (repeat (waves 256 32767) 3), (repeat (waves 128 32767) 3). contract_case. Qed.

(** mlkem/rej_uniform.h 50-60. The array behind the values returned holds whatever the vector code left there *)
Theorem C60_rej_uniform n J r target offset buf buflen :
  0 <= offset <= target -> target <= 4096 -> 0 <= buflen <= 4096 -> buflen mod 3 = 0 ->
  int16_array target r -> uint8_array buflen buf ->
  (offset > 0 -> array_bound r 0 (offset - 1) 0 3328) ->
  returns (rej_uniform_on n J r target offset buf buflen) (fun '(r, ret) =>
    zlen r = target /\ offset <= ret <= target /\ (ret > 0 -> array_bound r 0 (ret - 1) 0 3328)).
Proof. exact (n_rej_uniform n J r target offset buf buflen). Qed.
Print Assumptions C60_rej_uniform.
Example C60_rej_uniform_case : exists r target offset buf buflen, (0 <= offset <= target) /\ (target <= 4096)
  /\ (0 <= buflen <= 4096) /\ (buflen mod 3 = 0) /\ (int16_array target r) /\ (uint8_array buflen buf) /\
  ((offset > 0 -> array_bound r 0 (offset - 1) 0 3328)).
Proof. exists (ramp 256 3329), 256, 100, (ramp 168 256), 168. contract_case. Qed.

(** ** arith_native.h 190-207

    The description of poly_tobytes_native says that its argument has coefficients in -Q+1 .. Q-1 and
    that they are converted to unsigned form. This is not so in either backend: on the polynomial with
    all coefficients -1 (which is the same in every order of the coefficients) the routines do not
    return the encoding of the residues. The library calls them only on coefficients in 0 .. Q-1
    (C35, C60_poly_tobytes), where they are right (C43, C51). *)
Theorem C60_tobytes_native_signed_refuted : forall n J, exists r a,
  uint8_array 384 r /\ int16_array 256 a /\ array_abs_bound a 0 255 3328 /\
  (forall i, 0 <= i < 256 -> at_ a i = -1) /\
  val (tobytes_routine n J r a) <> Ok (ByteEncode 12 (map (fun x => x mod q) a)).
Proof. exact tobytes_signed_differs. Qed.
Print Assumptions C60_tobytes_native_signed_refuted.
