(** * The AVX2 implementation of four Keccak permutations: C45

    fips202/native/x86_64 permutes four states at once, one per 64-bit element of the
    256-bit registers (ModelX86Keccak.v).  [KECCAK_f1600], [SHAKE128] and [SHAKE256] are
    transcribed from FIPS 202 (Spec202.v). *)

From Coq Require Import ZArith List Bool.
From Verif Require Import CSem ModelKeccak ModelX86Keccak Spec202 SpecHistory SpecX86Build CSemFacts ProofX86Hash
  Samples.
Import ListNotations.
Open Scope Z_scope.

(** ** C45: each of the four states is permuted as FIPS 202 says *)

Theorem C45_permutation : forall s0 s1 s2 s3,
  lane_array s0 -> lane_array s1 -> lane_array s2 -> lane_array s3 ->
  exists t0 t1 t2 t3,
    val (KeccakF1600x4_StatePermute_x86_64 (s0 ++ s1 ++ s2 ++ s3)) = Ok (t0 ++ t1 ++ t2 ++ t3) /\
    (lane_array t0 /\ state_bits t0 = KECCAK_f1600 (state_bits s0)) /\
    (lane_array t1 /\ state_bits t1 = KECCAK_f1600 (state_bits s1)) /\
    (lane_array t2 /\ state_bits t2 = KECCAK_f1600 (state_bits s2)) /\
    (lane_array t3 /\ state_bits t3 = KECCAK_f1600 (state_bits s3)).
Proof. exact permute_x4_correct. Qed.
Print Assumptions C45_permutation.

Theorem C45_agrees_with_portable : forall s0 s1 s2 s3,
  lane_array s0 -> lane_array s1 -> lane_array s2 -> lane_array s3 ->
  val (KeccakF1600x4_StatePermute_x86_64 (s0 ++ s1 ++ s2 ++ s3)) =
  val (KeccakF1600x4_StatePermute (s0 ++ s1 ++ s2 ++ s3)).
Proof. exact permute_x4_agrees. Qed.
Print Assumptions C45_agrees_with_portable.

(** The sequence of memory accesses and branches is the same for all states. *)
Theorem C45_trace : forall s0 s1 s2 s3 t0 t1 t2 t3,
  lane_array s0 -> lane_array s1 -> lane_array s2 -> lane_array s3 ->
  lane_array t0 -> lane_array t1 -> lane_array t2 -> lane_array t3 ->
  snd (KeccakF1600x4_StatePermute_x86_64 (s0 ++ s1 ++ s2 ++ s3)) =
  snd (KeccakF1600x4_StatePermute_x86_64 (t0 ++ t1 ++ t2 ++ t3)).
Proof. exact permute_x4_trace. Qed.
Print Assumptions C45_trace.
Example C45_ex : lane_array sample_lanes /\ lane_array (rev sample_lanes) /\ sample_lanes <> rev sample_lanes.
Proof.
  destruct sample_lanes_ok as [L W]. split; [exact (conj L W)|]. split; [|intros E; discriminate E].
  split; [reflexivity|]. now apply Forall_rev.
Qed.

(** ** The hash functions built on it *)

Theorem C45_shake256x4 : forall J h0 h1 h2 h3 outlen in0 in1 in2 in3 n,
  bytes in0 -> bytes in1 -> bytes in2 -> bytes in3 -> 0 <= n < 2 ^ 63 ->
  n <= zlen in0 -> n <= zlen in1 -> n <= zlen in2 -> n <= zlen in3 ->
  0 <= outlen < 2 ^ 63 ->
  outlen <= zlen h0 -> outlen <= zlen h1 -> outlen <= zlen h2 -> outlen <= zlen h3 ->
  val (shake256x4_x86_64 J h0 h1 h2 h3 outlen in0 in1 in2 in3 n) =
  Ok (SHAKE256 (slice in0 0 n) outlen ++ skipn (Z.to_nat outlen) h0,
      SHAKE256 (slice in1 0 n) outlen ++ skipn (Z.to_nat outlen) h1,
      SHAKE256 (slice in2 0 n) outlen ++ skipn (Z.to_nat outlen) h2,
      SHAKE256 (slice in3 0 n) outlen ++ skipn (Z.to_nat outlen) h3).
Proof. exact shake256x4_correct_x86. Qed.
Print Assumptions C45_shake256x4.

(** for any history of squeeze calls *)
Theorem C45_shake128x4 : forall m0 m1 m2 m3 n bufs,
  bytes m0 -> bytes m1 -> bytes m2 -> bytes m3 -> 0 <= n < 2 ^ 63 ->
  n <= zlen m0 -> n <= zlen m1 -> n <= zlen m2 -> n <= zlen m3 ->
  Forall (fun '(b0, b1, b2, b3) => zlen b0 mod 168 = 0 /\
            zlen b1 = zlen b0 /\ zlen b2 = zlen b0 /\ zlen b3 = zlen b0) bufs ->
  exists outs,
    val (s <- shake128x4_absorb_x86_64 m0 m1 m2 m3 n ;; squeeze_blocks_all_x4_x86_64 s bufs) = Ok outs /\
    length outs = length bufs /\
    forall i, 0 <= i < 4 ->
      concat (map (lane i) outs) =
      SHAKE128 (slice (lane i (m0, m1, m2, m3)) 0 n) (zlen (concat (map (lane i) bufs))).
Proof. exact shake128x4_correct_x86. Qed.
Print Assumptions C45_shake128x4.
Example C45_hash_ex :
  (forall a, bytes (sample_bytes a 34)) /\
  Forall (fun '(b0, b1, b2, b3) => zlen b0 mod 168 = 0 /\
            zlen b1 = zlen b0 /\ zlen b2 = zlen b0 /\ zlen b3 = zlen b0)
    [(sample_bytes 0 504, sample_bytes 1 504, sample_bytes 2 504, sample_bytes 3 504);
     (sample_bytes 0 168, sample_bytes 1 168, sample_bytes 2 168, sample_bytes 3 168)].
Proof.
  split; [intros a; apply sample_bytes_ok; discriminate|].
  repeat (apply Forall_cons; [rewrite !(fun a b H => proj1 (sample_bytes_ok a b H)) by discriminate;
    repeat split; reflexivity|]). apply Forall_nil.
Qed.
