(** * C58: the contracts in the headers

    Each theorem is one __contract__: if the caller meets the [requires] clauses, the call returns,
    without undefined behaviour and without a failing debug check, and the [ensures] clauses hold.
    That the written arrays are again arrays of their C type is added to each [ensures].
    [assigns]: a function of the model returns exactly the objects that the function may write.
    MLKEM_N is 256, MLKEM_Q 3329, HALF_Q 1665, UINT12_LIMIT 4096, INT16_MAX 2^15 - 1; the sizes
    that depend on the parameter set are those of FIPS 203. *)

From Coq Require Import ZArith List.
From Verif Require Import CSem ModelArith ModelKeccak ModelIndcpa ModelRelease Spec202 Spec203 SpecLink SpecContract
  ProofScalar ProofContract ProofContract2 ProofContractCase.
Import ListNotations.
Open Scope Z_scope.

(** ** reduce.h *)

(** mlkem/reduce.h 28-33 *)
Theorem C58_montgomery_reduce a : - (2 * 3329 * 32768) < a -> a < 2 * 3329 * 32768 ->
  returns (montgomery_reduce a) (fun r => - (3 * 1665) < r /\ r < 3 * 1665).
Proof. exact (c_montgomery_reduce a). Qed.
Print Assumptions C58_montgomery_reduce.
Example C58_montgomery_reduce_case : exists a, (- (2 * 3329 * 32768) < a) /\ (a < 2 * 3329 * 32768).
Proof. exists (-100000000). contract_case. Qed.

(** mlkem/reduce.h 36-39 *)
Theorem C58_barrett_reduce a : - 2 ^ 15 <= a < 2 ^ 15 ->
  returns (barrett_reduce a) (fun r => -1665 < r /\ r < 1665).
Proof. exact (c_barrett_reduce a). Qed.
Print Assumptions C58_barrett_reduce.
Example C58_barrett_reduce_case : exists a, (- 2 ^ 15 <= a < 2 ^ 15).
Proof. exists (-32768). contract_case. Qed.

(** mlkem/reduce.h 56-61 *)
Theorem C58_fqmul a b : - 2 ^ 15 <= a < 2 ^ 15 -> -1665 < b -> b < 1665 ->
  returns (fqmul a b) (fun r => -3329 < r /\ r < 3329).
Proof. exact (c_fqmul a b). Qed.
Print Assumptions C58_fqmul.
Example C58_fqmul_case : exists a b, (- 2 ^ 15 <= a < 2 ^ 15) /\ (-1665 < b) /\ (b < 1665).
Proof. exists (-32768), 1664. contract_case. Qed.

(** ** poly.h *)

(** mlkem/poly.h 62-66 *)
Theorem C58_scalar_compress_d1 u : 0 <= u <= 3328 ->
  scalar_compress_d1 u < 2 /\ scalar_compress_d1 u = ((u * 2 + 3329 / 2) / 3329) mod 2.
Proof. exact (c_scalar_compress_d1 u). Qed.
Print Assumptions C58_scalar_compress_d1.
Example C58_scalar_compress_d1_case : exists u, (0 <= u <= 3328).
Proof. exists 1700. contract_case. Qed.

(** mlkem/poly.h 97-101 *)
Theorem C58_scalar_compress_d4 u : 0 <= u <= 3328 ->
  scalar_compress_d4 u < 16 /\ scalar_compress_d4 u = ((u * 16 + 3329 / 2) / 3329) mod 16.
Proof. exact (c_scalar_compress_d4 u). Qed.
Print Assumptions C58_scalar_compress_d4.
Example C58_scalar_compress_d4_case : exists u, (0 <= u <= 3328).
Proof. exists 1700. contract_case. Qed.

(** mlkem/poly.h 146-150 *)
Theorem C58_scalar_compress_d5 u : 0 <= u <= 3328 ->
  scalar_compress_d5 u < 32 /\ scalar_compress_d5 u = ((u * 32 + 3329 / 2) / 3329) mod 32.
Proof. exact (c_scalar_compress_d5 u). Qed.
Print Assumptions C58_scalar_compress_d5.
Example C58_scalar_compress_d5_case : exists u, (0 <= u <= 3328).
Proof. exists 1700. contract_case. Qed.

(** mlkem/poly.h 195-199 *)
Theorem C58_scalar_compress_d10 u : 0 <= u <= 3328 ->
  scalar_compress_d10 u < 2 ^ 10 /\ scalar_compress_d10 u = ((u * 2 ^ 10 + 3329 / 2) / 3329) mod 2 ^ 10.
Proof. exact (c_scalar_compress_d10 u). Qed.
Print Assumptions C58_scalar_compress_d10.
Example C58_scalar_compress_d10_case : exists u, (0 <= u <= 3328).
Proof. exists 1700. contract_case. Qed.

(** mlkem/poly.h 245-249 *)
Theorem C58_scalar_compress_d11 u : 0 <= u <= 3328 ->
  scalar_compress_d11 u < 2 ^ 11 /\ scalar_compress_d11 u = ((u * 2 ^ 11 + 3329 / 2) / 3329) mod 2 ^ 11.
Proof. exact (c_scalar_compress_d11 u). Qed.
Print Assumptions C58_scalar_compress_d11.
Example C58_scalar_compress_d11_case : exists u, (0 <= u <= 3328).
Proof. exists 1700. contract_case. Qed.

(** mlkem/poly.h 121-125 *)
Theorem C58_scalar_decompress_d4 u : 0 <= u < 16 -> returns (scalar_decompress_d4 u) (fun r => 0 <= r <= 3328).
Proof. exact (c_scalar_decompress_d4 u). Qed.
Print Assumptions C58_scalar_decompress_d4.
Example C58_scalar_decompress_d4_case : exists u, (0 <= u < 16).
Proof. exists 11. contract_case. Qed.

(** mlkem/poly.h 170-174 *)
Theorem C58_scalar_decompress_d5 u : 0 <= u < 32 -> returns (scalar_decompress_d5 u) (fun r => 0 <= r <= 3328).
Proof. exact (c_scalar_decompress_d5 u). Qed.
Print Assumptions C58_scalar_decompress_d5.
Example C58_scalar_decompress_d5_case : exists u, (0 <= u < 32).
Proof. exists 11. contract_case. Qed.

(** mlkem/poly.h 220-224 *)
Theorem C58_scalar_decompress_d10 u : 0 <= u < 1024 -> returns (scalar_decompress_d10 u) (fun r => 0 <= r <= 3328).
Proof. exact (c_scalar_decompress_d10 u). Qed.
Print Assumptions C58_scalar_decompress_d10.
Example C58_scalar_decompress_d10_case : exists u, (0 <= u < 1024).
Proof. exists 11. contract_case. Qed.

(** mlkem/poly.h 270-274 *)
Theorem C58_scalar_decompress_d11 u : 0 <= u < 2048 -> returns (scalar_decompress_d11 u) (fun r => 0 <= r <= 3328).
Proof. exact (c_scalar_decompress_d11 u). Qed.
Print Assumptions C58_scalar_decompress_d11.
Example C58_scalar_decompress_d11_case : exists u, (0 <= u < 2048).
Proof. exists 11. contract_case. Qed.

(** mlkem/poly.h 294-298 *)
Theorem C58_scalar_signed_to_unsigned_q c : -3328 <= c <= 3328 ->
  returns (scalar_signed_to_unsigned_q c)
    (fun r => 0 <= r <= 3328 /\ r = c + (if c <? 0 then 1 else 0) * 3329).
Proof. exact (c_signed_to_unsigned c). Qed.
Print Assumptions C58_scalar_signed_to_unsigned_q.
Example C58_scalar_signed_to_unsigned_q_case : exists c, (-3328 <= c <= 3328).
Proof. exists (-3328). contract_case. Qed.

(** mlkem/poly.h 323-329 *)
Theorem C58_poly_compress_du J p r a : uint8_array (32 * du (set_of p)) r -> int16_array 256 a ->
  array_bound a 0 255 0 3328 ->
  returns (poly_compress_du J p r a) (uint8_array (32 * du (set_of p))).
Proof. exact (c_poly_compress_du J p r a). Qed.
Print Assumptions C58_poly_compress_du.
Example C58_poly_compress_du_case : exists p r a, (uint8_array (32 * du (set_of p)) r) /\ (int16_array 256 a)
  /\ (array_bound a 0 255 0 3328).
Proof. exists MLKEM768, (ramp 320 256), (ramp 256 3329). contract_case. Qed.

(** mlkem/poly.h 346-352 *)
Theorem C58_poly_decompress_du J p r a : int16_array 256 r -> uint8_array (32 * du (set_of p)) a ->
  returns (poly_decompress_du J p r a) (fun r => int16_array 256 r /\ array_bound r 0 255 0 3328).
Proof. exact (c_poly_decompress_du J p r a). Qed.
Print Assumptions C58_poly_decompress_du.
Example C58_poly_decompress_du_case : exists p r a, (int16_array 256 r) /\ (uint8_array (32 * du (set_of p)) a).
Proof. exists MLKEM1024, (waves 256 32767), (ramp 352 256). contract_case. Qed.

(** mlkem/poly.h 367-373 *)
Theorem C58_poly_compress_dv p r a : uint8_array (32 * dv (set_of p)) r -> int16_array 256 a ->
  array_bound a 0 255 0 3328 ->
  returns (poly_compress_dv p r a) (uint8_array (32 * dv (set_of p))).
Proof. exact (c_poly_compress_dv p r a). Qed.
Print Assumptions C58_poly_compress_dv.
Example C58_poly_compress_dv_case : exists p r a, (uint8_array (32 * dv (set_of p)) r) /\ (int16_array 256 a)
  /\ (array_bound a 0 255 0 3328).
Proof. exists MLKEM768, (ramp 128 256), (ramp 256 3329). contract_case. Qed.

(** mlkem/poly.h 391-397 *)
Theorem C58_poly_decompress_dv J p r a : int16_array 256 r -> uint8_array (32 * dv (set_of p)) a ->
  returns (poly_decompress_dv J p r a) (fun r => int16_array 256 r /\ array_bound r 0 255 0 3328).
Proof. exact (c_poly_decompress_dv J p r a). Qed.
Print Assumptions C58_poly_decompress_dv.
Example C58_poly_decompress_dv_case : exists p r a, (int16_array 256 r) /\ (uint8_array (32 * dv (set_of p)) a).
Proof. exists MLKEM1024, (waves 256 32767), (ramp 160 256). contract_case. Qed.

(** mlkem/poly.h 414-420 *)
Theorem C58_poly_tobytes r a : uint8_array 384 r -> int16_array 256 a -> array_bound a 0 255 0 3328 ->
  returns (poly_tobytes r a) (uint8_array 384).
Proof. exact (c_poly_tobytes r a). Qed.
Print Assumptions C58_poly_tobytes.
Example C58_poly_tobytes_case : exists r a, (uint8_array 384 r) /\ (int16_array 256 a) /\ (array_bound a 0 255 0 3328).
Proof. exists (ramp 384 256), (ramp 256 3329). contract_case. Qed.

(** mlkem/poly.h 437-443 *)
Theorem C58_poly_frombytes r a : int16_array 256 r -> uint8_array 384 a ->
  returns (poly_frombytes r a) (fun r => int16_array 256 r /\ array_bound r 0 255 0 4095).
Proof. exact (c_poly_frombytes r a). Qed.
Print Assumptions C58_poly_frombytes.
Example C58_poly_frombytes_case : exists r a, (int16_array 256 r) /\ (uint8_array 384 a).
Proof. exists (waves 256 32767), (ramp 384 256). contract_case. Qed.

(** mlkem/poly.h 455-461 *)
Theorem C58_poly_frommsg r msg : int16_array 256 r -> uint8_array 32 msg ->
  returns (poly_frommsg r msg) (fun r => int16_array 256 r /\ array_bound r 0 255 0 3328).
Proof. exact (c_poly_frommsg r msg). Qed.
Print Assumptions C58_poly_frommsg.
Example C58_poly_frommsg_case : exists r msg, (int16_array 256 r) /\ (uint8_array 32 msg).
Proof. exists (waves 256 32767), (ramp 32 256). contract_case. Qed.

(** mlkem/poly.h 473-479 *)
Theorem C58_poly_tomsg msg a : uint8_array 32 msg -> int16_array 256 a -> array_bound a 0 255 0 3328 ->
  returns (poly_tomsg msg a) (uint8_array 32).
Proof. exact (c_poly_tomsg msg a). Qed.
Print Assumptions C58_poly_tomsg.
Example C58_poly_tomsg_case : exists msg a, (uint8_array 32 msg) /\ (int16_array 256 a) /\ (array_bound a 0 255 0 3328).
Proof. exists (ramp 32 256), (ramp 256 3329). contract_case. Qed.

(** mlkem/poly.h 494-518, mlkem/poly.h 494-533, mlkem/poly.h 494-549. The variants for K = 2, 3, 4 say which of r0 to r3
    are neighbours in one array; here they are four objects *)
Theorem C58_poly_getnoise_eta1_4x {bo : byte_order} J p r0 r1 r2 r3 seed n0 n1 n2 n3 : int16_array 256 r0 -> int16_array 256 r1 -> int16_array 256 r2 -> int16_array 256 r3 ->
  uint8_array 32 seed -> 0 <= n0 < 256 -> 0 <= n1 < 256 -> 0 <= n2 < 256 -> 0 <= n3 < 256 ->
  returns (poly_getnoise_eta1_4x J p r0 r1 r2 r3 seed n0 n1 n2 n3) (fun '(r0, r1, r2, r3) =>
    (int16_array 256 r0 /\ array_abs_bound r0 0 255 (eta1 (set_of p))) /\
    (int16_array 256 r1 /\ array_abs_bound r1 0 255 (eta1 (set_of p))) /\
    (int16_array 256 r2 /\ array_abs_bound r2 0 255 (eta1 (set_of p))) /\
    (int16_array 256 r3 /\ array_abs_bound r3 0 255 (eta1 (set_of p)))).
Proof. exact (c_poly_getnoise_eta1_4x J p r0 r1 r2 r3 seed n0 n1 n2 n3). Qed.
Print Assumptions C58_poly_getnoise_eta1_4x.
Example C58_poly_getnoise_eta1_4x_case : exists r0 r1 r2 r3 seed n0 n1 n2 n3, (int16_array 256 r0) /\
  (int16_array 256 r1) /\ (int16_array 256 r2) /\ (int16_array 256 r3) /\ (uint8_array 32 seed) /\ (0 <= n0 <
  256) /\ (0 <= n1 < 256) /\ (0 <= n2 < 256) /\ (0 <= n3 < 256).
Proof. exists (waves 256 32767), (waves 256 32767), (waves 256 32767), (waves 256 32767), (ramp 32 256), 0, 1, 2, 255. contract_case. Qed.

(** mlkem/poly.h 574-581 *)
Theorem C58_poly_getnoise_eta2 {bo : byte_order} J p r seed n : int16_array 256 r -> uint8_array 32 seed -> 0 <= n < 256 ->
  returns (poly_getnoise_eta2 J p r seed n)
    (fun r => int16_array 256 r /\ array_abs_bound r 0 255 (eta2 (set_of p))).
Proof. exact (c_poly_getnoise_eta2 J p r seed n). Qed.
Print Assumptions C58_poly_getnoise_eta2.
Example C58_poly_getnoise_eta2_case : exists r seed n, (int16_array 256 r) /\ (uint8_array 32 seed) /\ (0 <= n < 256).
Proof. exists (waves 256 32767), (ramp 32 256), 255. contract_case. Qed.

(** mlkem/poly.h 596-610 *)
Theorem C58_poly_getnoise_eta1122_4x {bo : byte_order} J p r0 r1 r2 r3 seed n0 n1 n2 n3 : int16_array 256 r0 -> int16_array 256 r1 -> int16_array 256 r2 -> int16_array 256 r3 ->
  uint8_array 32 seed -> 0 <= n0 < 256 -> 0 <= n1 < 256 -> 0 <= n2 < 256 -> 0 <= n3 < 256 ->
  returns (poly_getnoise_eta1122_4x J p r0 r1 r2 r3 seed n0 n1 n2 n3) (fun '(r0, r1, r2, r3) =>
    (int16_array 256 r0 /\ array_abs_bound r0 0 255 (eta1 (set_of p))) /\
    (int16_array 256 r1 /\ array_abs_bound r1 0 255 (eta1 (set_of p))) /\
    (int16_array 256 r2 /\ array_abs_bound r2 0 255 (eta2 (set_of p))) /\
    (int16_array 256 r3 /\ array_abs_bound r3 0 255 (eta2 (set_of p)))).
Proof. exact (c_poly_getnoise_eta1122_4x J p r0 r1 r2 r3 seed n0 n1 n2 n3). Qed.
Print Assumptions C58_poly_getnoise_eta1122_4x.
Example C58_poly_getnoise_eta1122_4x_case : exists r0 r1 r2 r3 seed n0 n1 n2 n3, (int16_array 256 r0) /\
  (int16_array 256 r1) /\ (int16_array 256 r2) /\ (int16_array 256 r3) /\ (uint8_array 32 seed) /\ (0 <= n0 <
  256) /\ (0 <= n1 < 256) /\ (0 <= n2 < 256) /\ (0 <= n3 < 256).
Proof. exists (waves 256 32767), (waves 256 32767), (waves 256 32767), (waves 256 32767), (ramp 32 256), 0, 1, 2, 255. contract_case. Qed.

(** mlkem/poly.h 633-643. The model without the check of the
    cache, which the contract does not require *)
Theorem C58_poly_basemul_montgomery_cached r a b b_cache : int16_array 256 r -> int16_array 256 a -> int16_array 256 b ->
  int16_array 128 b_cache -> array_abs_bound a 0 255 3328 ->
  returns (poly_basemul_montgomery_cached_ndebug r a b b_cache)
    (fun r => int16_array 256 r /\ array_abs_bound r 0 255 (3 * 1665 - 1)).
Proof. exact (c_poly_basemul r a b b_cache). Qed.
Print Assumptions C58_poly_basemul_montgomery_cached.
Example C58_poly_basemul_montgomery_cached_case : exists r a b b_cache, (int16_array 256 r) /\ (int16_array
  256 a) /\ (int16_array 256 b) /\ (int16_array 128 b_cache) /\ (array_abs_bound a 0 255 3328).
Proof. exists (waves 256 32767), (waves 256 3328), (waves 256 32767), (waves 128 32767). contract_case. Qed.

(** mlkem/poly.h 656-661 *)
Theorem C58_poly_tomont r : int16_array 256 r ->
  returns (poly_tomont r) (fun r => int16_array 256 r /\ array_abs_bound r 0 255 3328).
Proof. exact (c_poly_tomont r). Qed.
Print Assumptions C58_poly_tomont.
Example C58_poly_tomont_case : exists r, (int16_array 256 r).
Proof. exists (waves 256 32767). contract_case. Qed.

(** mlkem/poly.h 687-692 *)
Theorem C58_poly_mulcache_compute x a : int16_array 128 x -> int16_array 256 a ->
  returns (poly_mulcache_compute x a) (int16_array 128).
Proof. exact (c_poly_mulcache_compute x a). Qed.
Print Assumptions C58_poly_mulcache_compute.
Example C58_poly_mulcache_compute_case : exists x a, (int16_array 128 x) /\ (int16_array 256 a).
Proof. exists (waves 128 32767), (waves 256 32767). contract_case. Qed.

(** mlkem/poly.h 712-717 *)
Theorem C58_poly_reduce r : int16_array 256 r ->
  returns (poly_reduce r) (fun r => int16_array 256 r /\ array_bound r 0 255 0 3328).
Proof. exact (c_poly_reduce r). Qed.
Print Assumptions C58_poly_reduce.
Example C58_poly_reduce_case : exists r, (int16_array 256 r).
Proof. exists (waves 256 32767). contract_case. Qed.

(** mlkem/poly.h 738-746 *)
Theorem C58_poly_add r b : int16_array 256 r -> int16_array 256 b ->
  (forall i, 0 <= i <= 255 -> nth (Z.to_nat i) r 0 + nth (Z.to_nat i) b 0 <= 2 ^ 15 - 1) ->
  (forall i, 0 <= i <= 255 -> nth (Z.to_nat i) r 0 + nth (Z.to_nat i) b 0 >= - 2 ^ 15) ->
  returns (poly_add r b) (fun r' => int16_array 256 r' /\
    forall i, 0 <= i <= 255 -> nth (Z.to_nat i) r' 0 = nth (Z.to_nat i) r 0 + nth (Z.to_nat i) b 0).
Proof. exact (c_poly_add r b). Qed.
Print Assumptions C58_poly_add.
Example C58_poly_add_case : exists r b, (int16_array 256 r) /\ (int16_array 256 b) /\ ((forall i, 0 <= i <=
  255 -> nth (Z.to_nat i) r 0 + nth (Z.to_nat i) b 0 <= 2 ^ 15 - 1)) /\ ((forall i, 0 <= i <= 255 -> nth
  (Z.to_nat i) r 0 + nth (Z.to_nat i) b 0 >= - 2 ^ 15)).
Proof. exists (waves 256 16000), (waves 256 16001). contract_case. Qed.

(** mlkem/poly.h 763-771 *)
Theorem C58_poly_sub r b : int16_array 256 r -> int16_array 256 b ->
  (forall i, 0 <= i <= 255 -> nth (Z.to_nat i) r 0 - nth (Z.to_nat i) b 0 <= 2 ^ 15 - 1) ->
  (forall i, 0 <= i <= 255 -> nth (Z.to_nat i) r 0 - nth (Z.to_nat i) b 0 >= - 2 ^ 15) ->
  returns (poly_sub r b) (fun r' => int16_array 256 r' /\
    forall i, 0 <= i <= 255 -> nth (Z.to_nat i) r' 0 = nth (Z.to_nat i) r 0 - nth (Z.to_nat i) b 0).
Proof. exact (c_poly_sub r b). Qed.
Print Assumptions C58_poly_sub.
Example C58_poly_sub_case : exists r b, (int16_array 256 r) /\ (int16_array 256 b) /\ ((forall i, 0 <= i <=
  255 -> nth (Z.to_nat i) r 0 - nth (Z.to_nat i) b 0 <= 2 ^ 15 - 1)) /\ ((forall i, 0 <= i <= 255 -> nth
  (Z.to_nat i) r 0 - nth (Z.to_nat i) b 0 >= - 2 ^ 15)).
Proof. exists (waves 256 16000), (waves 256 16001). contract_case. Qed.

(** ** polyvec.h *)

(** mlkem/polyvec.h 35-43 *)
Theorem C58_polyvec_compress_du J p r a : let P := set_of p in
  uint8_array (32 * du P * k P) r -> poly_array (k P) a ->
  (forall j, 0 <= j <= k P - 1 -> array_bound (elt a j) 0 255 0 3328) ->
  returns (polyvec_compress_du J p r a) (uint8_array (32 * du P * k P)).
Proof. exact (c_polyvec_compress_du J p r a). Qed.
Print Assumptions C58_polyvec_compress_du.
Example C58_polyvec_compress_du_case : exists p r a, let P := set_of p in (uint8_array (32 * du P * k P) r) /\
  (poly_array (k P) a) /\ ((forall j, 0 <= j <= k P - 1 -> array_bound (elt a j) 0 255 0 3328)).
Proof. exists MLKEM768, (ramp 960 256), (repeat (ramp 256 3329) 3). contract_case. Qed.

(** mlkem/polyvec.h 57-65 *)
Theorem C58_polyvec_decompress_du J p r a : let P := set_of p in
  poly_array (k P) r -> uint8_array (32 * du P * k P) a ->
  returns (polyvec_decompress_du J p r a) (fun r => poly_array (k P) r /\
    forall j, 0 <= j <= k P - 1 -> array_bound (elt r j) 0 255 0 3328).
Proof. exact (c_polyvec_decompress_du J p r a). Qed.
Print Assumptions C58_polyvec_decompress_du.
Example C58_polyvec_decompress_du_case : exists p r a, let P := set_of p in (poly_array (k P) r) /\
  (uint8_array (32 * du P * k P) a).
Proof. exists MLKEM768, (repeat (waves 256 32767) 3), (ramp 960 256). contract_case. Qed.

(** mlkem/polyvec.h 78-85 *)
Theorem C58_polyvec_tobytes p r a : let P := set_of p in
  uint8_array (384 * k P) r -> poly_array (k P) a ->
  (forall j, 0 <= j <= k P - 1 -> array_bound (elt a j) 0 255 0 3328) ->
  returns (polyvec_tobytes p r a) (uint8_array (384 * k P)).
Proof. exact (c_polyvec_tobytes p r a). Qed.
Print Assumptions C58_polyvec_tobytes.
Example C58_polyvec_tobytes_case : exists p r a, let P := set_of p in (uint8_array (384 * k P) r) /\
  (poly_array (k P) a) /\ ((forall j, 0 <= j <= k P - 1 -> array_bound (elt a j) 0 255 0 3328)).
Proof. exists MLKEM768, (ramp 1152 256), (repeat (ramp 256 3329) 3). contract_case. Qed.

(** mlkem/polyvec.h 99-106 *)
Theorem C58_polyvec_frombytes p r a : let P := set_of p in
  poly_array (k P) r -> uint8_array (384 * k P) a ->
  returns (polyvec_frombytes p r a) (fun r => poly_array (k P) r /\
    forall j, 0 <= j <= k P - 1 -> array_bound (elt r j) 0 255 0 4095).
Proof. exact (c_polyvec_frombytes p r a). Qed.
Print Assumptions C58_polyvec_frombytes.
Example C58_polyvec_frombytes_case : exists p r a, let P := set_of p in (poly_array (k P) r) /\ (uint8_array (384 * k P) a).
Proof. exists MLKEM768, (repeat (waves 256 32767) 3), (ramp 1152 256). contract_case. Qed.

(** mlkem/polyvec.h 123-131 *)
Theorem C58_polyvec_ntt p r : let P := set_of p in
  poly_array (k P) r -> (forall j, 0 <= j <= k P - 1 -> array_abs_bound (elt r j) 0 255 3328) ->
  returns (polyvec_ntt p r) (fun r => poly_array (k P) r /\
    forall j, 0 <= j <= k P - 1 -> array_abs_bound (elt r j) 0 255 (8 * 3329 - 1)).
Proof. exact (c_polyvec_ntt p r). Qed.
Print Assumptions C58_polyvec_ntt.
Example C58_polyvec_ntt_case : exists p r, let P := set_of p in (poly_array (k P) r) /\ ((forall j, 0 <= j <=
  k P - 1 -> array_abs_bound (elt r j) 0 255 3328)).
Proof. exists MLKEM768, (repeat (waves 256 3328) 3). contract_case. Qed.

(** mlkem/polyvec.h 149-155 *)
Theorem C58_polyvec_invntt_tomont p r : let P := set_of p in poly_array (k P) r ->
  returns (polyvec_invntt_tomont p r) (fun r => poly_array (k P) r /\
    forall j, 0 <= j <= k P - 1 -> array_abs_bound (elt r j) 0 255 (8 * 3329 - 1)).
Proof. exact (c_polyvec_invntt_tomont p r). Qed.
Print Assumptions C58_polyvec_invntt_tomont.
Example C58_polyvec_invntt_tomont_case : exists p r, let P := set_of p in (poly_array (k P) r).
Proof. exists MLKEM768, (repeat (waves 256 32767) 3). contract_case. Qed.

(** mlkem/polyvec.h 182-194. The model without the checks of b and
    b_cache, which the contract does not require *)
Theorem C58_polyvec_basemul_acc_montgomery_cached J p r a b b_cache : let P := set_of p in
  int16_array 256 r -> poly_array (k P) a -> poly_array (k P) b -> mulcache_array (k P) b_cache ->
  (forall j, 0 <= j <= k P - 1 -> array_abs_bound (elt a j) 0 255 3328) ->
  returns (polyvec_basemul_acc_montgomery_cached_ndebug J p r a b b_cache) (int16_array 256).
Proof. exact (c_polyvec_basemul_acc J p r a b b_cache). Qed.
Print Assumptions C58_polyvec_basemul_acc_montgomery_cached.
Example C58_polyvec_basemul_acc_montgomery_cached_case : exists p r a b b_cache, let P := set_of p in
  (int16_array 256 r) /\ (poly_array (k P) a) /\ (poly_array (k P) b) /\ (mulcache_array (k P) b_cache) /\
  ((forall j, 0 <= j <= k P - 1 -> array_abs_bound (elt a j) 0 255 3328)).
Proof. exists MLKEM768, (waves 256 32767), (repeat (waves 256 3328) 3), (repeat (waves 256 32767) 3), (repeat (waves 128 32767) 3). contract_case. Qed.

(** mlkem/polyvec.h 223-228 *)
Theorem C58_polyvec_mulcache_compute p x a : let P := set_of p in
  mulcache_array (k P) x -> poly_array (k P) a ->
  returns (polyvec_mulcache_compute p x a) (mulcache_array (k P)).
Proof. exact (c_polyvec_mulcache_compute p x a). Qed.
Print Assumptions C58_polyvec_mulcache_compute.
Example C58_polyvec_mulcache_compute_case : exists p x a, let P := set_of p in (mulcache_array (k P) x) /\ (poly_array (k P) a).
Proof. exists MLKEM768, (repeat (waves 128 32767) 3), (repeat (waves 256 32767) 3). contract_case. Qed.

(** mlkem/polyvec.h 247-253 *)
Theorem C58_polyvec_reduce p r : let P := set_of p in poly_array (k P) r ->
  returns (polyvec_reduce p r) (fun r => poly_array (k P) r /\
    forall j, 0 <= j <= k P - 1 -> array_bound (elt r j) 0 255 0 3328).
Proof. exact (c_polyvec_reduce p r). Qed.
Print Assumptions C58_polyvec_reduce.
Example C58_polyvec_reduce_case : exists p r, let P := set_of p in (poly_array (k P) r).
Proof. exists MLKEM768, (repeat (waves 256 32767) 3). contract_case. Qed.

(** mlkem/polyvec.h 272-283 *)
Theorem C58_polyvec_add p r b : let P := set_of p in
  poly_array (k P) r -> poly_array (k P) b ->
  (forall j i, 0 <= j <= k P - 1 -> 0 <= i <= 255 ->
     nth (Z.to_nat i) (elt r j) 0 + nth (Z.to_nat i) (elt b j) 0 <= 2 ^ 15 - 1) ->
  (forall j i, 0 <= j <= k P - 1 -> 0 <= i <= 255 ->
     nth (Z.to_nat i) (elt r j) 0 + nth (Z.to_nat i) (elt b j) 0 >= - 2 ^ 15) ->
  returns (polyvec_add p r b) (fun r' => poly_array (k P) r' /\
    forall j i, 0 <= j <= k P - 1 -> 0 <= i <= 255 -> nth (Z.to_nat i) (elt r' j) 0
      = nth (Z.to_nat i) (elt r j) 0 + nth (Z.to_nat i) (elt b j) 0).
Proof. exact (c_polyvec_add p r b). Qed.
Print Assumptions C58_polyvec_add.
Example C58_polyvec_add_case : exists p r b, let P := set_of p in (poly_array (k P) r) /\ (poly_array (k P) b)
  /\ ((forall j i, 0 <= j <= k P - 1 -> 0 <= i <= 255 -> nth (Z.to_nat i) (elt r j) 0 + nth (Z.to_nat i) (elt
  b j) 0 <= 2 ^ 15 - 1)) /\ ((forall j i, 0 <= j <= k P - 1 -> 0 <= i <= 255 -> nth (Z.to_nat i) (elt r j) 0 +
  nth (Z.to_nat i) (elt b j) 0 >= - 2 ^ 15)).
Proof. exists MLKEM768, (repeat (waves 256 16000) 3), (repeat (waves 256 16001) 3). contract_case. Qed.

(** mlkem/polyvec.h 295-302 *)
Theorem C58_polyvec_tomont p r : let P := set_of p in poly_array (k P) r ->
  returns (polyvec_tomont p r) (fun r => poly_array (k P) r /\
    forall j, 0 <= j <= k P - 1 -> array_abs_bound (elt r j) 0 255 3328).
Proof. exact (c_polyvec_tomont p r). Qed.
Print Assumptions C58_polyvec_tomont.
Example C58_polyvec_tomont_case : exists p r, let P := set_of p in (poly_array (k P) r).
Proof. exists MLKEM768, (repeat (waves 256 32767) 3). contract_case. Qed.

(** ** ntt.h and ntt.c *)

(** mlkem/ntt.h 37-43 *)
Theorem C58_poly_ntt r : int16_array 256 r -> array_abs_bound r 0 255 3328 ->
  returns (poly_ntt r) (fun r => int16_array 256 r /\ array_abs_bound r 0 255 (8 * 3329 - 1)).
Proof. exact (c_poly_ntt r). Qed.
Print Assumptions C58_poly_ntt.
Example C58_poly_ntt_case : exists r, (int16_array 256 r) /\ (array_abs_bound r 0 255 3328).
Proof. exists (waves 256 3328). contract_case. Qed.

(** mlkem/ntt.h 62-67 *)
Theorem C58_poly_invntt_tomont r : int16_array 256 r ->
  returns (poly_invntt_tomont r) (fun r => int16_array 256 r /\ array_abs_bound r 0 255 (8 * 3329 - 1)).
Proof. exact (c_poly_invntt_tomont r). Qed.
Print Assumptions C58_poly_invntt_tomont.
Example C58_poly_invntt_tomont_case : exists r, (int16_array 256 r).
Proof. exists (waves 256 32767). contract_case. Qed.

(** mlkem/ntt.h 90-99 *)
Theorem C58_basemul_cached r a b b_cached : int16_array 2 r -> int16_array 2 a -> int16_array 2 b ->
  - 2 ^ 15 <= b_cached < 2 ^ 15 -> array_abs_bound a 0 1 3328 ->
  returns (basemul_cached r a b b_cached) (fun r => int16_array 2 r /\ array_abs_bound r 0 1 (3 * 1665 - 1)).
Proof. exact (c_basemul_cached r a b b_cached). Qed.
Print Assumptions C58_basemul_cached.
Example C58_basemul_cached_case : exists r a b b_cached, (int16_array 2 r) /\ (int16_array 2 a) /\
  (int16_array 2 b) /\ (- 2 ^ 15 <= b_cached < 2 ^ 15) /\ (array_abs_bound a 0 1 3328).
Proof. exists (waves 2 32767), (waves 2 3328), (waves 2 32767), (-32768). contract_case. Qed.

(** mlkem/ntt.c 42-54 *)
Theorem C58_ntt_butterfly_block r zeta start len bound : 0 <= start < 256 -> 1 <= len <= 128 -> start + 2 * len <= 256 ->
  0 <= bound < 32767 - 3329 -> -1665 < zeta < 1665 -> int16_array 256 r ->
  array_abs_bound r 0 (start - 1) (bound + 3329) -> array_abs_bound r start 255 bound ->
  returns (ntt_butterfly_block r zeta start len) (fun r => int16_array 256 r /\
    array_abs_bound r 0 (start + 2 * len - 1) (bound + 3329) /\
    array_abs_bound r (start + 2 * len) 255 bound).
Proof. exact (c_ntt_butterfly_block r zeta start len bound). Qed.
Print Assumptions C58_ntt_butterfly_block.
Example C58_ntt_butterfly_block_case : exists r zeta start len bound, (0 <= start < 256) /\ (1 <= len <= 128)
  /\ (start + 2 * len <= 256) /\ (0 <= bound < 32767 - 3329) /\ (-1665 < zeta < 1665) /\ (int16_array 256 r)
  /\ (array_abs_bound r 0 (start - 1) (bound + 3329)) /\ (array_abs_bound r start 255 bound).
Proof. exists (waves 256 3328), (-1664), 64, 32, 3328. contract_case. Qed.

(** mlkem/ntt.c 91-97 *)
Theorem C58_ntt_layer r len layer : int16_array 256 r -> 1 <= layer <= 7 -> len = 256 / 2 ^ layer ->
  array_abs_bound r 0 255 (layer * 3329 - 1) ->
  returns (ntt_layer r len) (fun r => int16_array 256 r /\ array_abs_bound r 0 255 ((layer + 1) * 3329 - 1)).
Proof. exact (c_ntt_layer r len layer). Qed.
Print Assumptions C58_ntt_layer.
Example C58_ntt_layer_case : exists r len layer, (int16_array 256 r) /\ (1 <= layer <= 7) /\ (len = 256 / 2 ^
  layer) /\ (array_abs_bound r 0 255 (layer * 3329 - 1)).
Proof. exists (waves 256 9986), 32, 3. contract_case. Qed.

(** mlkem/ntt.c 167-174 *)
Theorem C58_invntt_layer r len layer : int16_array 256 r -> 2 <= len <= 128 -> 1 <= layer <= 7 ->
  len = 2 ^ (8 - layer) -> array_abs_bound r 0 255 3329 ->
  returns (invntt_layer r len) (fun r => int16_array 256 r /\ array_abs_bound r 0 255 3329).
Proof. exact (c_invntt_layer r len layer). Qed.
Print Assumptions C58_invntt_layer.
Example C58_invntt_layer_case : exists r len layer, (int16_array 256 r) /\ (2 <= len <= 128) /\ (1 <= layer <=
  7) /\ (len = 2 ^ (8 - layer)) /\ (array_abs_bound r 0 255 3329).
Proof. exists (waves 256 3329), 32, 3. contract_case. Qed.

(** ** cbd.h and rej_uniform.h *)

(** mlkem/cbd.h 23-29 *)
Theorem C58_poly_cbd_eta1 p r buf : let P := set_of p in
  int16_array 256 r -> uint8_array (64 * eta1 P) buf ->
  returns (poly_cbd_eta1 p r buf) (fun r => int16_array 256 r /\ array_abs_bound r 0 255 (eta1 P)).
Proof. exact (c_poly_cbd_eta1 p r buf). Qed.
Print Assumptions C58_poly_cbd_eta1.
Example C58_poly_cbd_eta1_case : exists p r buf, let P := set_of p in (int16_array 256 r) /\ (uint8_array (64 * eta1 P) buf).
Proof. exists MLKEM512, (waves 256 32767), (ramp 192 256). contract_case. Qed.

(** mlkem/cbd.h 42-48 *)
Theorem C58_poly_cbd_eta2 p r buf : let P := set_of p in
  int16_array 256 r -> uint8_array (64 * eta2 P) buf ->
  returns (poly_cbd_eta2 r buf) (fun r => int16_array 256 r /\ array_abs_bound r 0 255 (eta2 P)).
Proof. exact (c_poly_cbd_eta2 p r buf). Qed.
Print Assumptions C58_poly_cbd_eta2.
Example C58_poly_cbd_eta2_case : exists p r buf, let P := set_of p in (int16_array 256 r) /\ (uint8_array (64 * eta2 P) buf).
Proof. exists MLKEM512, (waves 256 32767), (ramp 128 256). contract_case. Qed.

(** mlkem/rej_uniform.h 50-60 *)
Theorem C58_rej_uniform r target offset buf buflen : 0 <= offset <= target -> target <= 4096 -> 0 <= buflen <= 4096 -> buflen mod 3 = 0 ->
  int16_array target r -> uint8_array buflen buf ->
  (offset > 0 -> array_bound r 0 (offset - 1) 0 3328) ->
  returns (rej_uniform r target offset buf buflen) (fun '(r, ret) =>
    int16_array target r /\ offset <= ret <= target /\ (ret > 0 -> array_bound r 0 (ret - 1) 0 3328)).
Proof. exact (c_rej_uniform r target offset buf buflen). Qed.
Print Assumptions C58_rej_uniform.
Example C58_rej_uniform_case : exists r target offset buf buflen, (0 <= offset <= target) /\ (target <= 4096)
  /\ (0 <= buflen <= 4096) /\ (buflen mod 3 = 0) /\ (int16_array target r) /\ (uint8_array buflen buf) /\
  ((offset > 0 -> array_bound r 0 (offset - 1) 0 3328)).
Proof. exists (ramp 256 3329), 256, 100, (ramp 168 256), 168. contract_case. Qed.

(** ** indcpa.h and indcpa.c *)

(** mlkem/indcpa.c 149-161 *)
Theorem C58_gen_matrix_entry_x4 {bo : byte_order} J fuel vec seed : poly_array 4 vec -> zlen seed = 4 -> Forall (uint8_array 34) seed ->
  returns_or_runs (gen_matrix_entry_x4 J fuel vec seed)
    (fun vec => poly_array 4 vec /\ forall i, 0 <= i <= 3 -> array_bound (elt vec i) 0 255 0 3328).
Proof. exact (c_gen_matrix_entry_x4 J fuel vec seed). Qed.
Print Assumptions C58_gen_matrix_entry_x4.
Example C58_gen_matrix_entry_x4_case : exists vec seed, (poly_array 4 vec) /\ (zlen seed = 4) /\ (Forall (uint8_array 34) seed).
Proof. exists (repeat (waves 256 32767) 4), (repeat (ramp 34 256) 4). contract_case. Qed.

(** mlkem/indcpa.c 222-227 *)
Theorem C58_gen_matrix_entry {bo : byte_order} J fuel entry seed : int16_array 256 entry -> uint8_array 34 seed ->
  returns_or_runs (gen_matrix_entry J fuel entry seed)
    (fun entry => int16_array 256 entry /\ array_bound entry 0 255 0 3328).
Proof. exact (c_gen_matrix_entry J fuel entry seed). Qed.
Print Assumptions C58_gen_matrix_entry.
Example C58_gen_matrix_entry_case : exists entry seed, (int16_array 256 entry) /\ (uint8_array 34 seed).
Proof. exists (waves 256 32767), (ramp 34 256). contract_case. Qed.

(** mlkem/indcpa.h 16-24 *)
Theorem C58_gen_matrix {bo : byte_order} J fuel p a seed tr : let P := set_of p in
  poly_array (k P * k P) a -> uint8_array 32 seed ->
  returns_or_runs (gen_matrix J fuel p a seed tr)
    (fun a => poly_array (k P * k P) a /\
       forall x y, 0 <= x <= k P - 1 -> 0 <= y <= k P - 1 -> array_bound (elt a (k P * x + y)) 0 255 0 3328).
Proof. exact (c_gen_matrix J fuel p a seed tr). Qed.
Print Assumptions C58_gen_matrix.
Example C58_gen_matrix_case : exists p a seed, let P := set_of p in (poly_array (k P * k P) a) /\ (uint8_array 32 seed).
Proof. exists MLKEM768, (repeat (waves 256 32767) 9), (ramp 32 256). contract_case. Qed.

(** mlkem/indcpa.c 378-388. With the model of the product without its checks *)
Theorem C58_matvec_mul J p out a v vc : let P := set_of p in
  poly_array (k P) out -> poly_array (k P * k P) a -> poly_array (k P) v -> mulcache_array (k P) vc ->
  (forall i j, 0 <= i <= k P - 1 -> 0 <= j <= k P - 1 -> array_abs_bound (elt a (k P * i + j)) 0 255 3328) ->
  returns (matvec_mul_ndebug J p out a v vc) (poly_array (k P)).
Proof. exact (c_matvec_mul J p out a v vc). Qed.
Print Assumptions C58_matvec_mul.
Example C58_matvec_mul_case : exists p out a v vc, let P := set_of p in (poly_array (k P) out) /\ (poly_array
  (k P * k P) a) /\ (poly_array (k P) v) /\ (mulcache_array (k P) vc) /\ ((forall i j, 0 <= i <= k P - 1 -> 0
  <= j <= k P - 1 -> array_abs_bound (elt a (k P * i + j)) 0 255 3328)).
Proof. exists MLKEM768, (repeat (waves 256 32767) 3), (repeat (waves 256 3328) 9), (repeat (waves 256 32767) 3), (repeat (waves 128 32767) 3). contract_case. Qed.

(** mlkem/indcpa.h 27-36 *)
Theorem C58_indcpa_keypair_derand {bo : byte_order} J fuel p pk sk coins : let P := set_of p in
  uint8_array (384 * k P + 32) pk -> uint8_array (384 * k P) sk -> uint8_array 32 coins ->
  returns_or_runs (indcpa_keypair_derand J fuel p pk sk coins)
    (fun '(pk, sk) => uint8_array (384 * k P + 32) pk /\ uint8_array (384 * k P) sk).
Proof. exact (c_indcpa_keypair J fuel p pk sk coins). Qed.
Print Assumptions C58_indcpa_keypair_derand.
Example C58_indcpa_keypair_derand_case : exists p pk sk coins, let P := set_of p in (uint8_array (384 * k P +
  32) pk) /\ (uint8_array (384 * k P) sk) /\ (uint8_array 32 coins).
Proof. exists MLKEM768, (ramp 1184 256), (ramp 1152 256), (ramp 32 256). contract_case. Qed.

(** mlkem/indcpa.h 52-62 *)
Theorem C58_indcpa_enc {bo : byte_order} J fuel p c m pk coins : let P := set_of p in
  uint8_array (32 * (du P * k P + dv P)) c -> uint8_array 32 m -> uint8_array (384 * k P + 32) pk ->
  uint8_array 32 coins ->
  returns_or_runs (indcpa_enc J fuel p c m pk coins) (uint8_array (32 * (du P * k P + dv P))).
Proof. exact (c_indcpa_enc J fuel p c m pk coins). Qed.
Print Assumptions C58_indcpa_enc.
Example C58_indcpa_enc_case : exists p c m pk coins, let P := set_of p in (uint8_array (32 * (du P * k P + dv
  P)) c) /\ (uint8_array 32 m) /\ (uint8_array (384 * k P + 32) pk) /\ (uint8_array 32 coins).
Proof. exists MLKEM768, (ramp 1088 256), (ramp 32 256), (ramp 1184 256), (ramp 32 256). contract_case. Qed.

(** mlkem/indcpa.h 65-73 *)
Theorem C58_indcpa_dec J p m c sk : let P := set_of p in
  uint8_array 32 m -> uint8_array (32 * (du P * k P + dv P)) c -> uint8_array (384 * k P) sk ->
  returns (indcpa_dec J p m c sk) (uint8_array 32).
Proof. exact (c_indcpa_dec J p m c sk). Qed.
Print Assumptions C58_indcpa_dec.
Example C58_indcpa_dec_case : exists p m c sk, let P := set_of p in (uint8_array 32 m) /\ (uint8_array (32 *
  (du P * k P + dv P)) c) /\ (uint8_array (384 * k P) sk).
Proof. exists MLKEM768, (ramp 32 256), (ramp 1088 256), (ramp 1152 256). contract_case. Qed.

(** ** symmetric.h *)

(** mlkem/symmetric.h 33-39. An object has fewer than 2^63 bytes *)
Theorem C58_mlkem_shake256_prf {bo : byte_order} J out outlen key nonce : 0 <= outlen < 2 ^ 63 ->
  uint8_array outlen out -> uint8_array 32 key -> 0 <= nonce < 2 ^ 8 ->
  returns (mlkem_shake256_prf J out outlen key nonce) (uint8_array outlen).
Proof. exact (c_prf J out outlen key nonce). Qed.
Print Assumptions C58_mlkem_shake256_prf.
Example C58_mlkem_shake256_prf_case : exists out outlen key nonce, (0 <= outlen < 2 ^ 63) /\ (uint8_array
  outlen out) /\ (uint8_array 32 key) /\ (0 <= nonce < 2 ^ 8).
Proof. exists (ramp 1000 256), 1000, (ramp 32 256), 255. contract_case. Qed.

(** mlkem/symmetric.h 58-66 *)
Theorem C58_mlkem_shake256_rkprf {bo : byte_order} J p out key input : let P := set_of p in
  uint8_array 32 out -> uint8_array 32 key -> uint8_array (32 * (du P * k P + dv P)) input ->
  returns (mlkem_shake256_rkprf J p out key input) (uint8_array 32).
Proof. exact (c_rkprf J p out key input). Qed.
Print Assumptions C58_mlkem_shake256_rkprf.
Example C58_mlkem_shake256_rkprf_case : exists p out key input, let P := set_of p in (uint8_array 32 out) /\
  (uint8_array 32 key) /\ (uint8_array (32 * (du P * k P + dv P)) input).
Proof. exists MLKEM768, (ramp 32 256), (ramp 32 256), (ramp 1088 256). contract_case. Qed.

(** ** verify.h *)

(** mlkem/verify.h 118-119 *)
Theorem C58_ct_cmask_nonzero_u16 x : 0 <= x < 2 ^ 16 -> ct_cmask_nonzero_u16 x = if x =? 0 then 0 else 65535.
Proof. exact (cmask_nonzero_u16 x). Qed.
Print Assumptions C58_ct_cmask_nonzero_u16.
Example C58_ct_cmask_nonzero_u16_case : exists x, (0 <= x < 2 ^ 16).
Proof. exists 1. contract_case. Qed.

(** mlkem/verify.h 133-134 *)
Theorem C58_ct_cmask_nonzero_u8 x : 0 <= x < 2 ^ 8 -> ct_cmask_nonzero_u8 x = if x =? 0 then 0 else 255.
Proof. exact (cmask_nonzero_u8 x). Qed.
Print Assumptions C58_ct_cmask_nonzero_u8.
Example C58_ct_cmask_nonzero_u8_case : exists x, (0 <= x < 2 ^ 8).
Proof. exists 1. contract_case. Qed.

(** mlkem/verify.h 163-164 *)
Theorem C58_ct_cmask_neg_i16 x : - 2 ^ 15 <= x < 2 ^ 15 -> ct_cmask_neg_i16 x = if x <? 0 then 65535 else 0.
Proof. exact (cmask_neg_i16 x). Qed.
Print Assumptions C58_ct_cmask_neg_i16.
Example C58_ct_cmask_neg_i16_case : exists x, (- 2 ^ 15 <= x < 2 ^ 15).
Proof. exists (-1). contract_case. Qed.

(** mlkem/verify.h 198-199 *)
Theorem C58_ct_sel_int16 a b cond : - 2 ^ 15 <= a < 2 ^ 15 -> - 2 ^ 15 <= b < 2 ^ 15 -> 0 <= cond < 2 ^ 16 ->
  ct_sel_int16 a b cond = if cond =? 0 then b else a.
Proof. exact (sel_int16 a b cond). Qed.
Print Assumptions C58_ct_sel_int16.
Example C58_ct_sel_int16_case : exists a b cond, (- 2 ^ 15 <= a < 2 ^ 15) /\ (- 2 ^ 15 <= b < 2 ^ 15) /\ (0 <= cond < 2 ^ 16).
Proof. exists (-1), 1, 65535. contract_case. Qed.

(** mlkem/verify.h 222-223 *)
Theorem C58_ct_sel_uint8 a b cond : 0 <= a < 2 ^ 8 -> 0 <= b < 2 ^ 8 -> 0 <= cond < 2 ^ 8 ->
  ct_sel_uint8 a b cond = if cond =? 0 then b else a.
Proof. exact (sel_uint8 a b cond). Qed.
Print Assumptions C58_ct_sel_uint8.
Example C58_ct_sel_uint8_case : exists a b cond, (0 <= a < 2 ^ 8) /\ (0 <= b < 2 ^ 8) /\ (0 <= cond < 2 ^ 8).
Proof. exists 200, 1, 255. contract_case. Qed.

(** mlkem/verify.h 239-245 *)
Theorem C58_ct_memcmp a b len : 0 <= len <= 2147483647 -> uint8_array len a -> uint8_array len b ->
  returns (ct_memcmp a b len) (fun r => 0 <= r < 2 ^ 8 /\
    (r = 0 <-> forall i, 0 <= i <= len - 1 -> nth (Z.to_nat i) a 0 = nth (Z.to_nat i) b 0)).
Proof. exact (c_ct_memcmp a b len). Qed.
Print Assumptions C58_ct_memcmp.
Example C58_ct_memcmp_case : exists a b len, (0 <= len <= 2147483647) /\ (uint8_array len a) /\ (uint8_array len b).
Proof. exists (ramp 100 256), (ramp 100 251), 100. contract_case. Qed.

(** mlkem/verify.h 291-295 *)
Theorem C58_ct_cmov_zero r x len b : uint8_array len r -> uint8_array len x -> 0 <= b < 2 ^ 8 ->
  returns (ct_cmov_zero r x len b) (uint8_array len).
Proof. exact (c_ct_cmov_zero r x len b). Qed.
Print Assumptions C58_ct_cmov_zero.
Example C58_ct_cmov_zero_case : exists r x len b, (uint8_array len r) /\ (uint8_array len x) /\ (0 <= b < 2 ^ 8).
Proof. exists (ramp 100 256), (ramp 100 251), 100, 255. contract_case. Qed.

(** ** fips202.h: objects have fewer than 2^63 bytes *)

(** fips202/fips202.h 39-44 *)
Theorem C58_shake128_absorb {bo : byte_order} state input inlen : uint64_array 25 state -> 0 <= inlen < 2 ^ 63 -> uint8_array inlen input ->
  returns (shake128_absorb state input inlen) (uint64_array 25).
Proof. exact (c_shake128_absorb state input inlen). Qed.
Print Assumptions C58_shake128_absorb.
Example C58_shake128_absorb_case : exists state input inlen, (uint64_array 25 state) /\ (0 <= inlen < 2 ^ 63)
  /\ (uint8_array inlen input).
Proof. exists (ramp 25 18446744073709551616), (ramp 1000 256), 1000. contract_case. Qed.

(** fips202/fips202.h 51-56 *)
Theorem C58_shake128_squeezeblocks {bo : byte_order} output nblocks state : 0 <= nblocks -> uint8_array (nblocks * 168) output ->
  uint64_array 25 state ->
  returns (shake128_squeezeblocks output nblocks state)
    (fun '(output, state) => uint8_array (nblocks * 168) output /\ uint64_array 25 state).
Proof. exact (c_shake128_squeezeblocks output nblocks state). Qed.
Print Assumptions C58_shake128_squeezeblocks.
Example C58_shake128_squeezeblocks_case : exists output nblocks state, (0 <= nblocks) /\ (uint8_array (nblocks
  * 168) output) /\ (uint64_array 25 state).
Proof. exists (ramp 504 256), 3, (ramp 25 18446744073709551616). contract_case. Qed.

(** fips202/fips202.h 64-68. The state is 26 words,
    the last one is the counter *)
Theorem C58_shake256_inc_init state : uint64_array 26 state ->
  returns (shake256_inc_init state) (fun state => uint64_array 26 state /\ nth 25 state 0 = 0).
Proof. exact (c_shake256_inc_init state). Qed.
Print Assumptions C58_shake256_inc_init.
Example C58_shake256_inc_init_case : exists state, (uint64_array 26 state).
Proof. exists (ramp 26 18446744073709551616). contract_case. Qed.

(** fips202/fips202.h 72-78. The contract does not require
    that the counter is below the rate *)
Theorem C58_shake256_inc_absorb {bo : byte_order} state input inlen : uint64_array 26 state -> 0 <= nth 25 state 0 < 136 ->
  0 <= inlen < 2 ^ 63 -> uint8_array inlen input ->
  returns (shake256_inc_absorb state input inlen) (fun state => uint64_array 26 state /\ 0 <= nth 25 state 0 < 136).
Proof. exact (c_shake256_inc_absorb state input inlen). Qed.
Print Assumptions C58_shake256_inc_absorb.
Example C58_shake256_inc_absorb_case : exists state input inlen, (uint64_array 26 state)
  /\ (0 <= nth 25 state 0 < 136) /\ (0 <= inlen < 2 ^ 63) /\ (uint8_array inlen input).
Proof. exists (ramp 25 18446744073709551616 ++ [135]), (ramp 1000 256), 1000. contract_case. Qed.

(** fips202/fips202.h 72-78. It does not hold for all counters *)
Theorem C58_shake256_inc_absorb_any_counter_refuted : forall {bo : byte_order}, exists state input,
  uint64_array 26 state /\ uint8_array 0 input /\
  val (shake256_inc_absorb state input 0) = UB OutOfBounds.
Proof. intros bo. exact (c_inc_absorb_counter ). Qed.
Print Assumptions C58_shake256_inc_absorb_any_counter_refuted.

(** fips202/fips202.h 83-87 *)
Theorem C58_shake256_inc_finalize {bo : byte_order} state : uint64_array 26 state -> 0 <= nth 25 state 0 < 136 ->
  returns (shake256_inc_finalize state) (fun state => uint64_array 26 state /\ 0 <= nth 25 state 0 < 136).
Proof. exact (c_shake256_inc_finalize state). Qed.
Print Assumptions C58_shake256_inc_finalize.
Example C58_shake256_inc_finalize_case : exists state, (uint64_array 26 state) /\ (0 <= nth 25 state 0 < 136).
Proof. exists (ramp 25 18446744073709551616 ++ [135]). contract_case. Qed.

(** fips202/fips202.h 83-87. It does not hold for all counters *)
Theorem C58_shake256_inc_finalize_any_counter_refuted : forall {bo : byte_order}, exists state,
  uint64_array 26 state /\
  val (shake256_inc_finalize state) = UB OutOfBounds.
Proof. intros bo. exact (c_inc_finalize_counter ). Qed.
Print Assumptions C58_shake256_inc_finalize_any_counter_refuted.

(** fips202/fips202.h 94-100 *)
Theorem C58_shake256_inc_squeeze {bo : byte_order} output outlen state : 0 <= outlen < 2 ^ 63 -> uint8_array outlen output ->
  uint64_array 26 state -> 0 <= nth 25 state 0 < 136 ->
  returns (shake256_inc_squeeze output outlen state)
    (fun '(output, state) => uint8_array outlen output /\ uint64_array 26 state /\ 0 <= nth 25 state 0 < 136).
Proof. exact (c_shake256_inc_squeeze output outlen state). Qed.
Print Assumptions C58_shake256_inc_squeeze.
Example C58_shake256_inc_squeeze_case : exists output outlen state, (0 <= outlen < 2 ^ 63) /\
  (uint8_array outlen output) /\ (uint64_array 26 state) /\ (0 <= nth 25 state 0 < 136).
Proof. exists (ramp 1000 256), 1000, (ramp 25 18446744073709551616 ++ [135]). contract_case. Qed.

(** fips202/fips202.h 94-100. It does not hold for all counters *)
Theorem C58_shake256_inc_squeeze_any_counter_refuted : forall {bo : byte_order}, exists output state,
  uint8_array 137 output /\ uint64_array 26 state /\
  val (shake256_inc_squeeze output 137 state) = UB OutOfBounds.
Proof. intros bo. exact (c_inc_squeeze_counter ). Qed.
Print Assumptions C58_shake256_inc_squeeze_any_counter_refuted.

(** fips202/fips202.h 109-115 *)
Theorem C58_shake256 {bo : byte_order} J output outlen input inlen : 0 <= inlen < 2 ^ 63 -> 0 <= outlen < 2 ^ 63 ->
  uint8_array inlen input -> uint8_array outlen output ->
  returns (shake256 J output outlen input inlen) (uint8_array outlen).
Proof. exact (c_shake256 J output outlen input inlen). Qed.
Print Assumptions C58_shake256.
Example C58_shake256_case : exists output outlen input inlen, (0 <= inlen < 2 ^ 63) /\ (0 <= outlen < 2 ^ 63)
  /\ (uint8_array inlen input) /\ (uint8_array outlen output).
Proof. exists (ramp 1000 256), 1000, (ramp 500 256), 500. contract_case. Qed.

(** fips202/fips202.h 121-126 *)
Theorem C58_sha3_256 {bo : byte_order} J output input inlen : 0 <= inlen < 2 ^ 63 -> uint8_array inlen input -> uint8_array 32 output ->
  returns (sha3_256 J output input inlen) (uint8_array 32).
Proof. exact (c_sha3_256 J output input inlen). Qed.
Print Assumptions C58_sha3_256.
Example C58_sha3_256_case : exists output input inlen, (0 <= inlen < 2 ^ 63) /\ (uint8_array inlen input) /\
  (uint8_array 32 output).
Proof. exists (ramp 32 256), (ramp 500 256), 500. contract_case. Qed.

(** fips202/fips202.h 132-137 *)
Theorem C58_sha3_512 {bo : byte_order} J output input inlen : 0 <= inlen < 2 ^ 63 -> uint8_array inlen input -> uint8_array 64 output ->
  returns (sha3_512 J output input inlen) (uint8_array 64).
Proof. exact (c_sha3_512 J output input inlen). Qed.
Print Assumptions C58_sha3_512.
Example C58_sha3_512_case : exists output input inlen, (0 <= inlen < 2 ^ 63) /\ (uint8_array inlen input) /\
  (uint8_array 64 output).
Proof. exists (ramp 64 256), (ramp 500 256), 500. contract_case. Qed.

(** ** fips202x4.h *)

(** fips202/fips202x4.h 17-27 *)
Theorem C58_shake128x4_absorb {bo : byte_order} in0 in1 in2 in3 inlen : 0 <= inlen < 2 ^ 63 ->
  uint8_array inlen in0 -> uint8_array inlen in1 -> uint8_array inlen in2 -> uint8_array inlen in3 ->
  returns (shake128x4_absorb in0 in1 in2 in3 inlen) (uint64_array 100).
Proof. exact (c_shake128x4_absorb in0 in1 in2 in3 inlen). Qed.
Print Assumptions C58_shake128x4_absorb.
Example C58_shake128x4_absorb_case : exists in0 in1 in2 in3 inlen, (0 <= inlen < 2 ^ 63) /\ (uint8_array inlen
  in0) /\ (uint8_array inlen in1) /\ (uint8_array inlen in2) /\ (uint8_array inlen in3).
Proof. exists (ramp 500 256), (ramp 500 256), (ramp 500 256), (ramp 500 256), 500. contract_case. Qed.

(** fips202/fips202x4.h 30-40 *)
Theorem C58_shake256x4_absorb {bo : byte_order} in0 in1 in2 in3 inlen : 0 <= inlen < 2 ^ 63 ->
  uint8_array inlen in0 -> uint8_array inlen in1 -> uint8_array inlen in2 -> uint8_array inlen in3 ->
  returns (shake256x4_absorb in0 in1 in2 in3 inlen) (uint64_array 100).
Proof. exact (c_shake256x4_absorb in0 in1 in2 in3 inlen). Qed.
Print Assumptions C58_shake256x4_absorb.
Example C58_shake256x4_absorb_case : exists in0 in1 in2 in3 inlen, (0 <= inlen < 2 ^ 63) /\ (uint8_array inlen
  in0) /\ (uint8_array inlen in1) /\ (uint8_array inlen in2) /\ (uint8_array inlen in3).
Proof. exists (ramp 500 256), (ramp 500 256), (ramp 500 256), (ramp 500 256), 500. contract_case. Qed.

(** fips202/fips202x4.h 43-57 *)
Theorem C58_shake128x4_squeezeblocks {bo : byte_order} out0 out1 out2 out3 nblocks state : 0 <= nblocks ->
  uint8_array (nblocks * 168) out0 -> uint8_array (nblocks * 168) out1 ->
  uint8_array (nblocks * 168) out2 -> uint8_array (nblocks * 168) out3 ->
  uint64_array 100 state ->
  returns (shake128x4_squeezeblocks out0 out1 out2 out3 nblocks state)
    (fun '((out0, out1, out2, out3), state) =>
       uint8_array (nblocks * 168) out0 /\ uint8_array (nblocks * 168) out1 /\
       uint8_array (nblocks * 168) out2 /\ uint8_array (nblocks * 168) out3 /\
       uint64_array 100 state).
Proof. exact (c_shake128x4_squeezeblocks out0 out1 out2 out3 nblocks state). Qed.
Print Assumptions C58_shake128x4_squeezeblocks.
Example C58_shake128x4_squeezeblocks_case : exists out0 out1 out2 out3 nblocks state, (0 <= nblocks) /\
  (uint8_array (nblocks * 168) out0) /\ (uint8_array (nblocks * 168) out1) /\ (uint8_array (nblocks * 168)
  out2) /\ (uint8_array (nblocks * 168) out3) /\ (uint64_array 100 state).
Proof. exists (ramp 504 256), (ramp 504 256), (ramp 504 256), (ramp 504 256), 3, (ramp 100 18446744073709551616). contract_case. Qed.

(** fips202/fips202x4.h 71-88 *)
Theorem C58_shake256x4 {bo : byte_order} J out0 out1 out2 out3 outlen in0 in1 in2 in3 inlen : 0 <= inlen < 2 ^ 63 -> 0 <= outlen < 2 ^ 63 ->
  uint8_array inlen in0 -> uint8_array inlen in1 -> uint8_array inlen in2 -> uint8_array inlen in3 ->
  uint8_array outlen out0 -> uint8_array outlen out1 -> uint8_array outlen out2 -> uint8_array outlen out3 ->
  returns (shake256x4 J out0 out1 out2 out3 outlen in0 in1 in2 in3 inlen) (fun '(out0, out1, out2, out3) =>
    uint8_array outlen out0 /\ uint8_array outlen out1 /\ uint8_array outlen out2 /\ uint8_array outlen out3).
Proof. exact (c_shake256x4 J out0 out1 out2 out3 outlen in0 in1 in2 in3 inlen). Qed.
Print Assumptions C58_shake256x4.
Example C58_shake256x4_case : exists out0 out1 out2 out3 outlen in0 in1 in2 in3 inlen, (0 <= inlen < 2 ^ 63)
  /\ (0 <= outlen < 2 ^ 63) /\ (uint8_array inlen in0) /\ (uint8_array inlen in1) /\ (uint8_array inlen in2)
  /\ (uint8_array inlen in3) /\ (uint8_array outlen out0) /\ (uint8_array outlen out1) /\ (uint8_array outlen
  out2) /\ (uint8_array outlen out3).
Proof. exists (ramp 1000 256), (ramp 1000 256), (ramp 1000 256), (ramp 1000 256), 1000, (ramp 500 256), (ramp 500 256), (ramp 500 256), (ramp 500 256), 500. contract_case. Qed.

(** ** Debug checks that fail although the contract is met (builds with MLKEM_DEBUG) *)

(** mlkem/poly.h 633-643 *)
Theorem C58_poly_basemul_montgomery_cached_debug_refuted : exists r a b b_cache,
  int16_array 256 r /\ int16_array 256 a /\ int16_array 256 b /\ int16_array 128 b_cache /\
  array_abs_bound a 0 255 3328 /\
  val (poly_basemul_montgomery_cached r a b b_cache) = UB DebugCheck.
Proof. exact (c_basemul_debug ). Qed.
Print Assumptions C58_poly_basemul_montgomery_cached_debug_refuted.

(** mlkem/polyvec.h 182-194 *)
Theorem C58_polyvec_basemul_acc_montgomery_cached_debug_refuted J : exists r a b b_cache, let P := set_of MLKEM512 in
  int16_array 256 r /\ poly_array (k P) a /\ poly_array (k P) b /\ mulcache_array (k P) b_cache /\
  (forall j, 0 <= j <= k P - 1 -> array_abs_bound (elt a j) 0 255 3328) /\
  val (polyvec_basemul_acc_montgomery_cached J MLKEM512 r a b b_cache) = UB DebugCheck.
Proof. exact (c_basemul_acc_debug J). Qed.
Print Assumptions C58_polyvec_basemul_acc_montgomery_cached_debug_refuted.
