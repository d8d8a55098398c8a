(** * Serialisation, compression and messages: C17, C18, C19, C20

    [r] and [r'] are the previous contents of the output buffers, [J] and [J'] the
    contents of uninitialised local arrays: the results do not depend on them. *)

From Coq Require Import ZArith List Bool.
From Verif Require Import CSem ModelArith Spec202 Spec203 SpecLink ProofPack Samples.
Import ListNotations.
Open Scope Z_scope.

(** ** C17: compression round trip and error bound, on ciphertext components *)

Theorem C17_round_trip_du : forall J J' p r r' b,
  zlen r = 256 -> zlen r' = 32 * du (set_of p) -> zlen b = 32 * du (set_of p) -> bytes b ->
  val (f <- poly_decompress_du J p r b ;; poly_compress_du J' p r' f) = Ok b.
Proof. exact compress_decompress_du. Qed.
Print Assumptions C17_round_trip_du.

Theorem C17_round_trip_dv : forall J p r r' b,
  zlen r = 256 -> zlen r' = 32 * dv (set_of p) -> zlen b = 32 * dv (set_of p) -> bytes b ->
  val (f <- poly_decompress_dv J p r b ;; poly_compress_dv p r' f) = Ok b.
Proof. exact compress_decompress_dv. Qed.
Print Assumptions C17_round_trip_dv.
Example C17_round_trip_ex :
  val (f <- poly_decompress_du (fun _ => 5) MLKEM1024 (sample_poly 1) (sample_bytes 3 352) ;;
       poly_compress_du (fun _ => 9) MLKEM1024 (sample_bytes 0 352) f) = Ok (sample_bytes 3 352).
Proof. apply C17_round_trip_du; try reflexivity. now apply sample_bytes_ok. Qed.

(** The bound is round(q / 2^(d+1)). *)
Theorem C17_error_du : forall J J' p r r' a,
  zlen r = 256 -> zlen r' = 32 * du (set_of p) -> reduced a ->
  exists a', val (b <- poly_compress_du J p r' a ;; poly_decompress_du J' p r b) = Ok a' /\
    zlen a' = 256 /\
    forall i, 0 <= i < 256 -> dist (at_ a' i) (at_ a i)
      <= (2 * q + 2 ^ (du (set_of p) + 1)) / (2 * 2 ^ (du (set_of p) + 1)).
Proof. exact decompress_compress_du. Qed.
Print Assumptions C17_error_du.

Theorem C17_error_dv : forall J p r r' a,
  zlen r = 256 -> zlen r' = 32 * dv (set_of p) -> reduced a ->
  exists a', val (b <- poly_compress_dv p r' a ;; poly_decompress_dv J p r b) = Ok a' /\
    zlen a' = 256 /\
    forall i, 0 <= i < 256 -> dist (at_ a' i) (at_ a i)
      <= (2 * q + 2 ^ (dv (set_of p) + 1)) / (2 * 2 ^ (dv (set_of p) + 1)).
Proof. exact decompress_compress_dv. Qed.
Print Assumptions C17_error_dv.
(** The hypotheses are met by: *)
Example C17_error_ex : zlen (sample_poly 0) = 256 /\
  zlen (sample_bytes 0 160) = 32 * dv (set_of MLKEM1024) /\ reduced (sample_poly 77).
Proof. repeat split; try reflexivity; apply sample_poly_ok. Qed.

(** ** C18: serialisation of polynomials *)

Theorem C18_tobytes : forall r a, zlen r = 384 -> reduced a ->
  val (poly_tobytes r a) = Ok (ByteEncode 12 a).
Proof. exact tobytes_correct. Qed.
Print Assumptions C18_tobytes.

Theorem C18_frombytes : forall r b, zlen r = 256 -> zlen b = 384 -> bytes b ->
  val (poly_frombytes r b) = Ok (fields 12 b).
Proof. exact frombytes_correct. Qed.
Print Assumptions C18_frombytes.

Theorem C18_deserialise_serialise : forall r r' a, zlen r = 384 -> zlen r' = 256 -> reduced a ->
  val (b <- poly_tobytes r a ;; poly_frombytes r' b) = Ok a.
Proof. exact frombytes_tobytes. Qed.
Print Assumptions C18_deserialise_serialise.
Example C18_deserialise_serialise_ex :
  val (b <- poly_tobytes (sample_bytes 0 384) (sample_poly 77) ;;
       poly_frombytes (sample_poly 0) b) = Ok (sample_poly 77).
Proof. apply C18_deserialise_serialise; try reflexivity. apply sample_poly_ok. Qed.

(** Serialising what was deserialised, on bytes that encode a reduced polynomial (which
    poly_tobytes requires), and without that restriction for the encoding itself *)
Theorem C18_serialise_deserialise : forall r r' b,
  zlen r = 256 -> zlen r' = 384 -> zlen b = 384 -> bytes b -> reduced (fields 12 b) ->
  val (f <- poly_frombytes r b ;; poly_tobytes r' f) = Ok b.
Proof. exact tobytes_frombytes. Qed.
Print Assumptions C18_serialise_deserialise.
Theorem C18_encode_fields : forall b, zlen b = 384 -> bytes b -> ByteEncode 12 (fields 12 b) = b.
Proof. exact ByteEncode12_fields. Qed.
Print Assumptions C18_encode_fields.

Theorem C18_polyvec_tobytes : forall p r a,
  zlen r = 384 * k (set_of p) -> reduced_vec (set_of p) a ->
  val (polyvec_tobytes p r a) = Ok (concat (map (ByteEncode 12) a)).
Proof. exact polyvec_tobytes_correct. Qed.
Print Assumptions C18_polyvec_tobytes.
Example C18_polyvec_tobytes_ex : zlen (sample_bytes 0 1152) = 384 * k (set_of MLKEM768) /\
  reduced_vec (set_of MLKEM768) (sample_vec 3).
Proof. split; [reflexivity|exact (sample_vec_ok MLKEM768)]. Qed.

Theorem C18_polyvec_frombytes : forall p r b,
  zlen r = k (set_of p) -> Forall (fun f => zlen f = 256) r ->
  zlen b = 384 * k (set_of p) -> bytes b ->
  val (polyvec_frombytes p r b)
  = Ok (map (fun i => fields 12 (slice b (384 * i) (384 * i + 384))) (range (k (set_of p)))).
Proof. exact polyvec_frombytes_correct. Qed.
Print Assumptions C18_polyvec_frombytes.

(** ** C19: packing of ciphertexts *)

Theorem C19_compress_du : forall J p r a, zlen r = 32 * du (set_of p) -> reduced a ->
  val (poly_compress_du J p r a)
  = Ok (ByteEncode (du (set_of p)) (map (Compress (du (set_of p))) a)).
Proof. exact compress_du_correct. Qed.
Print Assumptions C19_compress_du.

Theorem C19_compress_dv : forall p r a, zlen r = 32 * dv (set_of p) -> reduced a ->
  val (poly_compress_dv p r a)
  = Ok (ByteEncode (dv (set_of p)) (map (Compress (dv (set_of p))) a)).
Proof. exact compress_dv_correct. Qed.
Print Assumptions C19_compress_dv.

Theorem C19_decompress_du : forall J p r b,
  zlen r = 256 -> zlen b = 32 * du (set_of p) -> bytes b ->
  val (poly_decompress_du J p r b)
  = Ok (map (Decompress (du (set_of p))) (ByteDecode (du (set_of p)) b)).
Proof. exact decompress_du_correct. Qed.
Print Assumptions C19_decompress_du.

Theorem C19_decompress_dv : forall J p r b,
  zlen r = 256 -> zlen b = 32 * dv (set_of p) -> bytes b ->
  val (poly_decompress_dv J p r b)
  = Ok (map (Decompress (dv (set_of p))) (ByteDecode (dv (set_of p)) b)).
Proof. exact decompress_dv_correct. Qed.
Print Assumptions C19_decompress_dv.

Theorem C19_polyvec_compress_du : forall J p r a,
  zlen r = 32 * du (set_of p) * k (set_of p) -> reduced_vec (set_of p) a ->
  val (polyvec_compress_du J p r a)
  = Ok (concat (map (fun f => ByteEncode (du (set_of p)) (map (Compress (du (set_of p))) f)) a)).
Proof. exact polyvec_compress_du_correct. Qed.
Print Assumptions C19_polyvec_compress_du.

Theorem C19_polyvec_decompress_du : forall J p r b,
  zlen r = k (set_of p) -> Forall (fun f => zlen f = 256) r ->
  zlen b = 32 * du (set_of p) * k (set_of p) -> bytes b ->
  val (polyvec_decompress_du J p r b)
  = Ok (map (map (Decompress (du (set_of p)))) (decode_vec (set_of p) (du (set_of p)) b)).
Proof. exact polyvec_decompress_du_correct. Qed.
Print Assumptions C19_polyvec_decompress_du.
Example C19_ex :
  zlen (sample_bytes 5 1408) = 32 * du (set_of MLKEM1024) * k (set_of MLKEM1024) /\
  bytes (sample_bytes 5 1408) /\ zlen (zero_vec 4) = k (set_of MLKEM1024) /\
  Forall (fun f => zlen f = 256) (zero_vec 4) /\ reduced_vec (set_of MLKEM1024) (sample_vec 4).
Proof.
  exact (conj eq_refl (conj (proj2 (sample_bytes_ok 5 1408 ltac:(discriminate)))
    (conj eq_refl (conj (proj2 (zero_vec_ok MLKEM1024)) (sample_vec_ok MLKEM1024))))).
Qed.

(** ** C20: messages *)

Theorem C20_encode : forall r m, zlen r = 256 -> zlen m = 32 -> bytes m ->
  val (poly_frommsg r m)
  = Ok (map (fun i => 1665 * Z.b2z (Z.testbit (at_ m (i / 8)) (i mod 8))) (range 256)).
Proof. exact frommsg_correct. Qed.
Print Assumptions C20_encode.

Theorem C20_encode_fips : forall r m, zlen r = 256 -> zlen m = 32 -> bytes m ->
  val (poly_frommsg r m) = Ok (map (Decompress 1) (ByteDecode 1 m)).
Proof. exact frommsg_fips. Qed.
Print Assumptions C20_encode_fips.

Theorem C20_decode_fips : forall r a, zlen r = 32 -> reduced a ->
  val (poly_tomsg r a) = Ok (ByteEncode 1 (map (Compress 1) a)).
Proof. exact tomsg_fips. Qed.
Print Assumptions C20_decode_fips.

Theorem C20_decode_noisy : forall r m a, zlen r = 32 -> zlen m = 32 -> bytes m -> reduced a ->
  (forall i, 0 <= i < 256 -> exists e, -832 <= e <= 831 /\
     at_ a i = (1665 * Z.b2z (Z.testbit (at_ m (i / 8)) (i mod 8)) + e) mod q) ->
  val (poly_tomsg r a) = Ok m.
Proof. exact tomsg_noisy. Qed.
Print Assumptions C20_decode_noisy.
Example C20_decode_noisy_ex :
  val (poly_tomsg (sample_bytes 0 32) (noisy (sample_bytes 3 32))) = Ok (sample_bytes 3 32).
Proof.
  apply C20_decode_noisy; try reflexivity; try apply noisy_ok. now apply sample_bytes_ok.
Qed.
