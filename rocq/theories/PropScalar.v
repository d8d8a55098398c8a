(** * Properties of the scalar functions: C15, C16, C17 (scalars), C31 *)

From Coq Require Import ZArith List Bool.
From Verif Require Import CSem ModelArith Spec202 Spec203 CSemFacts ProofScalar.
Import ListNotations.
Open Scope Z_scope.

(** ** C15: modular reductions are congruent and bounded *)

Theorem C15_montgomery_reduce : forall a, Z.abs a < 2 * 3329 * 2 ^ 15 ->
  exists r, val (montgomery_reduce a) = Ok r /\
    (r * 2 ^ 16 - a) mod 3329 = 0 /\ Z.abs r < 3 * (3329 + 1) / 2.
Proof. exact montgomery_reduce_correct. Qed.
Print Assumptions C15_montgomery_reduce.
Example C15_montgomery_reduce_ex : val (montgomery_reduce (-218169343)) = Ok (-3160).
Proof. vm_compute. reflexivity. Qed.

Theorem C15_montgomery_reduce_generic :
  forall a, Z.abs a <= 2 ^ 31 - 1 - 2 ^ 15 * 3329 ->
  exists r, val (montgomery_reduce_generic a) = Ok r /\
    (r * 2 ^ 16 - a) mod 3329 = 0 /\ - 2 ^ 15 <= r < 2 ^ 15.
Proof. exact montgomery_reduce_generic_correct. Qed.
Print Assumptions C15_montgomery_reduce_generic.
Example C15_montgomery_reduce_generic_ex :
  val (montgomery_reduce_generic 2038398975) = Ok 32599.
Proof. vm_compute. reflexivity. Qed.

Theorem C15_fqmul : forall a b, - 2 ^ 15 <= a < 2 ^ 15 -> 2 * Z.abs b < 3329 ->
  exists r, val (fqmul a b) = Ok r /\
    (r * 2 ^ 16 - a * b) mod 3329 = 0 /\ Z.abs r < 3329.
Proof. exact fqmul_correct. Qed.
Print Assumptions C15_fqmul.
Example C15_fqmul_ex : val (fqmul (-32768) 1664) = Ok (-832).
Proof. vm_compute. reflexivity. Qed.

Theorem C15_barrett_reduce : forall a, - 2 ^ 15 <= a < 2 ^ 15 ->
  exists r, val (barrett_reduce a) = Ok r /\ (r - a) mod 3329 = 0 /\ 2 * Z.abs r < 3329.
Proof. exact barrett_reduce_correct. Qed.
Print Assumptions C15_barrett_reduce.
Example C15_barrett_reduce_ex : val (barrett_reduce (-32768)) = Ok 522.
Proof. vm_compute. reflexivity. Qed.

Theorem C15_signed_to_unsigned : forall c, - 3329 < c < 3329 ->
  val (scalar_signed_to_unsigned_q c) = Ok (c mod 3329).
Proof. exact signed_to_unsigned_correct. Qed.
Print Assumptions C15_signed_to_unsigned.
Example C15_signed_to_unsigned_ex : val (scalar_signed_to_unsigned_q (-1)) = Ok 3328.
Proof. vm_compute. reflexivity. Qed.

(** ** C16: compression and decompression are the roundings of FIPS 203 *)

Theorem C16_compress : forall u, 0 <= u < 3329 ->
  scalar_compress_d1 u = Compress 1 u /\ scalar_compress_d4 u = Compress 4 u /\
  scalar_compress_d5 u = Compress 5 u /\ scalar_compress_d10 u = Compress 10 u /\
  scalar_compress_d11 u = Compress 11 u.
Proof.
  intros u Hu. exact (conj (compress_d1 u Hu) (conj (compress_d4 u Hu) (conj (compress_d5 u Hu)
    (conj (compress_d10 u Hu) (compress_d11 u Hu))))).
Qed.
Print Assumptions C16_compress.
Example C16_compress_ex : scalar_compress_d11 1666 = 1025 /\ Compress 11 1666 = 1025.
Proof. vm_compute. auto. Qed.

Theorem C16_decompress :
  (forall y, 0 <= y < 16 -> val (scalar_decompress_d4 y) = Ok (Decompress 4 y)) /\
  (forall y, 0 <= y < 32 -> val (scalar_decompress_d5 y) = Ok (Decompress 5 y)) /\
  (forall y, 0 <= y < 1024 -> val (scalar_decompress_d10 y) = Ok (Decompress 10 y)) /\
  (forall y, 0 <= y < 2048 -> val (scalar_decompress_d11 y) = Ok (Decompress 11 y)).
Proof. exact decompress_correct. Qed.
Print Assumptions C16_decompress.
Example C16_decompress_ex : val (scalar_decompress_d11 2047) = Ok 3327 /\ Decompress 11 2047 = 3327.
Proof. vm_compute. auto. Qed.

(** ** C17, on scalars: round trip and error bound *)

Theorem C17_scalar_round_trip : forall d y, In d [1; 4; 5; 10; 11] -> 0 <= y < 2 ^ d ->
  Compress d (Decompress d y) = y.
Proof. exact Compress_Decompress. Qed.
Print Assumptions C17_scalar_round_trip.

(** The bound is round(q / 2^(d+1)). *)
Theorem C17_scalar_error : forall d x, In d [1; 4; 5; 10; 11] -> 0 <= x < q ->
  dist (Decompress d (Compress d x)) x <= (2 * q + 2 ^ (d + 1)) / (2 * 2 ^ (d + 1)).
Proof. exact Decompress_Compress. Qed.
Print Assumptions C17_scalar_error.
Example C17_scalar_error_ex : dist (Decompress 4 (Compress 4 1561)) 1561 = 104.
Proof. vm_compute. reflexivity. Qed.

(** ** C31: constant-time helpers *)

Theorem C31_memcmp : forall a b len,
  0 <= len < 2 ^ 31 -> len <= zlen a -> len <= zlen b -> bytes a -> bytes b ->
  exists r, val (ct_memcmp a b len) = Ok r /\ 0 <= r < 256 /\
    (r = 0 <-> slice a 0 len = slice b 0 len).
Proof. exact ct_memcmp_correct. Qed.
Print Assumptions C31_memcmp.
Example C31_memcmp_ex :
  val (ct_memcmp [1; 2; 3; 9] [1; 2; 3; 4] 3) = Ok 0 /\
  val (ct_memcmp [1; 2; 3; 9] [1; 2; 3; 4] 4) = Ok 255.
Proof. vm_compute. auto. Qed.

Theorem C31_cmov_zero : forall r x len b,
  zlen r = len -> len <= zlen x -> bytes r -> bytes x -> is_byte b ->
  val (ct_cmov_zero r x len b) = Ok (if b =? 0 then slice x 0 len else r).
Proof. exact ct_cmov_zero_correct. Qed.
Print Assumptions C31_cmov_zero.
Example C31_cmov_zero_ex :
  val (ct_cmov_zero [1; 2; 255] [4; 5; 6; 7] 3 0) = Ok [4; 5; 6] /\
  val (ct_cmov_zero [1; 2; 255] [4; 5; 6; 7] 3 128) = Ok [1; 2; 255].
Proof. vm_compute. auto. Qed.

Theorem C31_sel_int16 : forall a b cond,
  - 32768 <= a < 32768 -> - 32768 <= b < 32768 -> 0 <= cond < 65536 ->
  ct_sel_int16 a b cond = if cond =? 0 then b else a.
Proof. exact sel_int16. Qed.
Print Assumptions C31_sel_int16.
Example C31_sel_int16_ex : ct_sel_int16 (-5) 7 256 = -5 /\ ct_sel_int16 (-5) 7 0 = 7.
Proof. vm_compute. auto. Qed.

Theorem C31_sel_uint8 : forall a b cond,
  0 <= a < 256 -> 0 <= b < 256 -> 0 <= cond < 256 ->
  ct_sel_uint8 a b cond = if cond =? 0 then b else a.
Proof. exact sel_uint8. Qed.
Print Assumptions C31_sel_uint8.
Example C31_sel_uint8_ex : ct_sel_uint8 250 7 128 = 250 /\ ct_sel_uint8 250 7 0 = 7.
Proof. vm_compute. auto. Qed.

Theorem C31_masks :
  (forall x, 0 <= x < 65536 -> ct_cmask_nonzero_u16 x = if x =? 0 then 0 else 65535) /\
  (forall x, 0 <= x < 256 -> ct_cmask_nonzero_u8 x = if x =? 0 then 0 else 255) /\
  (forall x, - 32768 <= x < 32768 -> ct_cmask_neg_i16 x = if x <? 0 then 65535 else 0).
Proof. exact (conj cmask_nonzero_u16 (conj cmask_nonzero_u8 cmask_neg_i16)). Qed.
Print Assumptions C31_masks.
Example C31_masks_ex : ct_cmask_neg_i16 (-1) = 65535 /\ ct_cmask_nonzero_u16 32768 = 65535.
Proof. vm_compute. auto. Qed.
