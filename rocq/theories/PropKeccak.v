(** * Keccak and the hash functions: C27, C28, C29, C30, C36

    [KECCAK_f1600], [SHA3_256], [SHA3_512], [SHAKE128] and [SHAKE256] are transcribed
    from FIPS 202 (Spec202.v), on bits; a byte string is the bit string with the least
    significant bit of each byte first. *)

From Coq Require Import ZArith List Bool.
From Verif Require Import CSem ModelKeccak Spec202 SpecHistory CSemFacts ProofHash ProofHistory Samples.
Import ListNotations.
Open Scope Z_scope.

(** ** C27 *)

Theorem C27_permutation : forall s, lane_array s ->
  exists s', val (KeccakF1600_StatePermute s) = Ok s' /\
    lane_array s' /\ state_bits s' = KECCAK_f1600 (state_bits s).
Proof. exact permute_correct. Qed.
Print Assumptions C27_permutation.
Example C27_ex : lane_array sample_lanes.
Proof. exact sample_lanes_ok. Qed.

(** ** C28

    [m] may be longer than the [n] bytes hashed; bytes of the output buffer behind the
    digest keep their values. *)

Theorem C28_sha3_256 : forall {bo : byte_order} J out m n,
  bytes m -> 0 <= n <= zlen m -> n < 2 ^ 63 -> 32 <= zlen out ->
  val (sha3_256 J out m n) = Ok (SHA3_256 (slice m 0 n) ++ skipn 32 out).
Proof. intros bo. exact sha3_256_correct. Qed.
Print Assumptions C28_sha3_256.

Theorem C28_sha3_512 : forall {bo : byte_order} J out m n,
  bytes m -> 0 <= n <= zlen m -> n < 2 ^ 63 -> 64 <= zlen out ->
  val (sha3_512 J out m n) = Ok (SHA3_512 (slice m 0 n) ++ skipn 64 out).
Proof. intros bo. exact sha3_512_correct. Qed.
Print Assumptions C28_sha3_512.

Theorem C28_shake256 : forall {bo : byte_order} J out outlen m n,
  bytes m -> 0 <= n <= zlen m -> n < 2 ^ 63 -> 0 <= outlen <= zlen out -> outlen < 2 ^ 63 ->
  val (shake256 J out outlen m n) =
  Ok (SHAKE256 (slice m 0 n) outlen ++ skipn (Z.to_nat outlen) out).
Proof. intros bo. exact shake256_correct. Qed.
Print Assumptions C28_shake256.

(** SHAKE128 is absorbed once and squeezed by any number of calls of any numbers of
    blocks (168 bytes each). *)
Theorem C28_shake128 : forall {bo : byte_order} s0 m n bufs,
  zlen s0 = 25 -> bytes m -> 0 <= n <= zlen m -> n < 2 ^ 63 ->
  Forall (fun b => zlen b mod 168 = 0) bufs ->
  exists outs,
    val (s <- shake128_absorb s0 m n ;; squeeze_blocks_all s bufs) = Ok outs /\
    map zlen outs = map zlen bufs /\
    concat outs = SHAKE128 (slice m 0 n) (zlen (concat bufs)).
Proof. intros bo. exact shake128_correct. Qed.
Print Assumptions C28_shake128.
Example C28_ex : bytes (sample_bytes 5 1000) /\ 0 <= 999 <= zlen (sample_bytes 5 1000) /\
  zlen (sample_bytes 9 504) mod 168 = 0.
Proof.
  destruct (sample_bytes_ok 5 1000) as [L B]; [discriminate|].
  destruct (sample_bytes_ok 9 504) as [L' _]; [discriminate|]. rewrite L, L'.
  repeat split; try discriminate; exact B.
Qed.

(** ** C29: any history of absorb calls, then any history of squeeze calls *)

Theorem C29_incremental : forall {bo : byte_order} s chunks bufs,
  zlen s = 26 ->
  Forall (fun c => bytes c /\ zlen c < 2 ^ 63) chunks ->
  Forall (fun b => zlen b < 2 ^ 63) bufs ->
  exists outs,
    val (st <- shake256_inc_init s ;;
         st <- absorb_all st chunks ;;
         st <- shake256_inc_finalize st ;;
         squeeze_all st bufs) = Ok outs /\
    map zlen outs = map zlen bufs /\
    concat outs = SHAKE256 (concat chunks) (zlen (concat bufs)).
Proof. intros bo. exact incremental_correct. Qed.
Print Assumptions C29_incremental.
Example C29_ex : Forall (fun c => bytes c /\ zlen c < 2 ^ 63)
  [sample_bytes 1 135; sample_bytes 4 0; sample_bytes 2 1; sample_bytes 3 300].
Proof. repeat (apply Forall_cons; [apply sample_chunk_ok; split; (discriminate || reflexivity)|]). apply Forall_nil. Qed.

(** ** C30 *)

Theorem C30_shake256x4 : forall {bo : byte_order} J h0 h1 h2 h3 outlen in0 in1 in2 in3 n,
  bytes in0 -> bytes in1 -> bytes in2 -> bytes in3 -> 0 <= n < 2 ^ 63 ->
  n <= zlen in0 -> n <= zlen in1 -> n <= zlen in2 -> n <= zlen in3 ->
  0 <= outlen < 2 ^ 63 ->
  outlen <= zlen h0 -> outlen <= zlen h1 -> outlen <= zlen h2 -> outlen <= zlen h3 ->
  val (shake256x4 J h0 h1 h2 h3 outlen in0 in1 in2 in3 n) =
  Ok (SHAKE256 (slice in0 0 n) outlen ++ skipn (Z.to_nat outlen) h0,
      SHAKE256 (slice in1 0 n) outlen ++ skipn (Z.to_nat outlen) h1,
      SHAKE256 (slice in2 0 n) outlen ++ skipn (Z.to_nat outlen) h2,
      SHAKE256 (slice in3 0 n) outlen ++ skipn (Z.to_nat outlen) h3).
Proof. intros bo. exact shake256x4_correct. Qed.
Print Assumptions C30_shake256x4.

(** for any history of squeeze calls *)
Theorem C30_shake128x4 : forall {bo : byte_order} m0 m1 m2 m3 n bufs,
  bytes m0 -> bytes m1 -> bytes m2 -> bytes m3 -> 0 <= n < 2 ^ 63 ->
  n <= zlen m0 -> n <= zlen m1 -> n <= zlen m2 -> n <= zlen m3 ->
  Forall (fun '(b0, b1, b2, b3) => zlen b0 mod 168 = 0 /\
            zlen b1 = zlen b0 /\ zlen b2 = zlen b0 /\ zlen b3 = zlen b0) bufs ->
  exists outs,
    val (s <- shake128x4_absorb m0 m1 m2 m3 n ;; squeeze_blocks_all_x4 s bufs) = Ok outs /\
    length outs = length bufs /\
    forall i, 0 <= i < 4 ->
      concat (map (lane i) outs) =
      SHAKE128 (slice (lane i (m0, m1, m2, m3)) 0 n) (zlen (concat (map (lane i) bufs))).
Proof. intros bo. exact shake128x4_correct. Qed.
Print Assumptions C30_shake128x4.
Example C30_ex :
  (forall a, bytes (sample_bytes a 34)) /\
  Forall (fun '(b0, b1, b2, b3) => zlen b0 mod 168 = 0 /\
            zlen b1 = zlen b0 /\ zlen b2 = zlen b0 /\ zlen b3 = zlen b0)
    [(sample_bytes 0 504, sample_bytes 1 504, sample_bytes 2 504, sample_bytes 3 504);
     (sample_bytes 0 168, sample_bytes 1 168, sample_bytes 2 168, sample_bytes 3 168)].
Proof.
  split; [intros a; apply sample_bytes_ok; discriminate|].
  repeat (apply Forall_cons; [rewrite !(fun a b H => proj1 (sample_bytes_ok a b H)) by discriminate;
    repeat split; reflexivity|]). apply Forall_nil.
Qed.

(** ** C36 *)

Theorem C36_extract : forall s data off len,
  lane_array s -> 0 <= off -> 0 <= len <= zlen data -> off + len <= 200 ->
  val (KeccakF1600_StateExtractBytes (bo := LittleEndian) s data off len) =
  val (KeccakF1600_StateExtractBytes (bo := BigEndian) s data off len).
Proof. exact extract_le_same. Qed.
Print Assumptions C36_extract.

Theorem C36_xor : forall s data off len,
  lane_array s -> bytes data -> 0 <= off -> 0 <= len <= zlen data -> off + len <= 200 ->
  val (KeccakF1600_StateXORBytes (bo := LittleEndian) s data off len) =
  val (KeccakF1600_StateXORBytes (bo := BigEndian) s data off len).
Proof. exact xor_le_same. Qed.
Print Assumptions C36_xor.

(** Both succeed, and do what the position of the bytes in the state says: byte [8 i + j]
    of the state is byte [j] of lane [i], counted from the least significant one. *)
Theorem C36_extract_bytes : forall {bo : byte_order} s data off len,
  lane_array s -> 0 <= off -> 0 <= len <= zlen data -> off + len <= 200 ->
  val (KeccakF1600_StateExtractBytes s data off len) =
  Ok (map (fun i => (at_ s ((off + i) / 8) / 2 ^ (8 * ((off + i) mod 8))) mod 256) (range len)
      ++ skipn (Z.to_nat len) data).
Proof. intros bo. exact extract_correct. Qed.
Print Assumptions C36_extract_bytes.

Theorem C36_xor_bits : forall {bo : byte_order} s data off len,
  lane_array s -> bytes data -> 0 <= off -> 0 <= len <= zlen data -> off + len <= 200 ->
  exists s', val (KeccakF1600_StateXORBytes s data off len) = Ok s' /\ lane_array s' /\
    state_bits s' =
    xor_bits (state_bits s)
      (repeat false (Z.to_nat (8 * off)) ++ bytes_to_bits (slice data 0 len)
       ++ repeat false (Z.to_nat (8 * (200 - off - len)))).
Proof. intros bo. exact xor_correct. Qed.
Print Assumptions C36_xor_bits.
Example C36_ex : lane_array sample_lanes /\ bytes (sample_bytes 3 50) /\
  0 <= 50 <= zlen (sample_bytes 3 50) /\ 141 + 50 <= 200.
Proof.
  split; [exact sample_lanes_ok|]. destruct (sample_bytes_ok 3 50) as [L B]; [discriminate|].
  rewrite L. repeat split; try discriminate; exact B.
Qed.
