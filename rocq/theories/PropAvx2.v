(** * Property C38: the AVX2 rejection sampler *)

From Coq Require Import ZArith List Bool Lia.
From Verif Require Import ModelKeccak.
From Verif Require Import CSem ModelArith ModelIndcpa ModelAvx2 ModelX86Indcpa Spec202 Spec203 SpecLink CSemFacts
  Samples ProofAvx2 ProofAvx2Matrix.
Import ListNotations.
Open Scope Z_scope.

(** C38: on every buffer of 504 bytes rej_uniform_avx2 delivers the first 256 accepted
    12-bit candidates, in order, and returns how many there are. All its loads and
    stores are inside the buffer and inside the first 256 elements of the output: it has
    no undefined behaviour and later elements keep their values. (Elements between the
    returned number and 256 may be overwritten.) *)
Theorem C38_avx2_samples : forall J r buf,
  256 <= zlen r -> 504 <= zlen buf -> bytes buf ->
  exists r', val (rej_uniform_avx2 J r buf)
               = Ok (r', zlen (firstn 256 (accepted (slice buf 0 504)))) /\
    (exists rest, r' = firstn 256 (accepted (slice buf 0 504)) ++ rest) /\
    zlen r' = zlen r /\ skipn 256 r' = skipn 256 r.
Proof. exact avx2_correct. Qed.
Print Assumptions C38_avx2_samples.

(** C38: the x86_64 build of rej_uniform, with the AVX2 sampler or its scalar fallback,
    returns the same number and the same accepted values as the portable build, for all
    targets, offsets and buffer lengths; if the target is reached the whole arrays
    agree. *)
Theorem C38_agrees_with_scalar : forall J r target offset buf buflen,
  0 <= offset <= target -> target <= zlen r -> target < 2 ^ 31 ->
  0 <= buflen <= zlen buf -> buflen < 2 ^ 31 -> bytes buf ->
  exists r1 r2 c,
    val (rej_uniform r target offset buf buflen) = Ok (r1, c) /\
    val (rej_uniform_x86_64 J r target offset buf buflen) = Ok (r2, c) /\
    offset <= c <= target /\
    slice r2 0 c = slice r1 0 c /\ zlen r2 = zlen r /\
    skipn (Z.to_nat target) r2 = skipn (Z.to_nat target) r /\
    (c = target -> r2 = r1).
Proof. exact avx2_agrees. Qed.
Print Assumptions C38_agrees_with_scalar.

(** C38: so matrix entries sampled with the AVX2 code are those of the portable code,
    for every number of refills, ... *)
Theorem C38_matrix_entry : forall {bo : byte_order} J J' fuel entry entry' seed,
  zlen entry = 256 -> zlen entry' = 256 -> zlen seed = 34 -> bytes seed ->
  val (gen_matrix_entry_x86_64 J fuel entry seed) = val (gen_matrix_entry J' fuel entry' seed).
Proof. intros bo. exact entry_agrees. Qed.
Print Assumptions C38_matrix_entry.

(** ... also four at a time. *)
Theorem C38_matrix_entry_x4 : forall {bo : byte_order} J J' fuel vec vec' seeds,
  zlen vec = 4 -> Forall (fun e => zlen e = 256) vec ->
  zlen vec' = 4 -> Forall (fun e => zlen e = 256) vec' ->
  zlen seeds = 4 -> Forall (fun s => zlen s = 34 /\ bytes s) seeds ->
  val (gen_matrix_entry_x4_x86_64 J fuel vec seeds) = val (gen_matrix_entry_x4 J' fuel vec' seeds).
Proof. intros bo. exact entry_x4_agrees. Qed.
Print Assumptions C38_matrix_entry_x4.

(** ** Cases *)

(** A buffer of 504 bytes with rejected and accepted candidates: the number of values *)
Example C38_case : exists r',
  val (rej_uniform_avx2 (fun _ => 5) (sample_poly 1) (sample_bytes 9 504))
  = Ok (r', zlen (firstn 256 (accepted (slice (sample_bytes 9 504) 0 504)))).
Proof.
  destruct (C38_avx2_samples (fun _ => 5) (sample_poly 1) (sample_bytes 9 504)) as (r' & E & _).
  - pose proof (sample_poly_ok 1) as [E _]. rewrite E. unfold n. lia.
  - destruct (sample_bytes_ok 9 504 ltac:(lia)) as [E _]. rewrite E. lia.
  - now apply sample_bytes_ok.
  - eauto.
Qed.
(** In that buffer some candidates are rejected and still all 256 values are found. *)
Example C38_case_rejects :
  zlen (candidates (sample_bytes 9 504)) = 336 /\
  256 < zlen (accepted (sample_bytes 9 504)) < 336.
Proof. vm_compute. repeat split. Qed.

Example C38_case_agrees : exists r1 r2 c,
  val (rej_uniform (sample_poly 1) 256 0 (sample_bytes 9 504) 504) = Ok (r1, c) /\
  val (rej_uniform_x86_64 (fun _ => 5) (sample_poly 1) 256 0 (sample_bytes 9 504) 504) = Ok (r2, c).
Proof.
  destruct (C38_agrees_with_scalar (fun _ => 5) (sample_poly 1) 256 0 (sample_bytes 9 504) 504)
    as (r1 & r2 & c & H1 & H2 & _).
  - lia.
  - pose proof (sample_poly_ok 1) as [E _]. rewrite E. unfold n. lia.
  - lia.
  - destruct (sample_bytes_ok 9 504 ltac:(lia)) as [E _]. rewrite E. lia.
  - lia.
  - now apply sample_bytes_ok.
  - eauto.
Qed.

Example C38_entry_case : forall {bo : byte_order},
  val (gen_matrix_entry_x86_64 (fun _ => 77) 2 (sample_poly 4) (sample_bytes 3 34))
  = val (gen_matrix_entry (fun _ => 0) 2 (sample_poly 5) (sample_bytes 3 34)).
Proof.
  intros bo.
  apply C38_matrix_entry.
  - apply sample_poly_ok.
  - apply sample_poly_ok.
  - destruct (sample_bytes_ok 3 34 ltac:(lia)); auto.
  - now apply sample_bytes_ok.
Qed.
