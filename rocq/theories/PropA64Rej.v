(** * Property C53: the AArch64 rejection sampler *)

From Coq Require Import ZArith List Bool Lia.
From Verif Require Import CSem ModelArith ModelIndcpa ModelA64Rej Spec202 Spec203 SpecLink CSemFacts
  Samples ProofA64Rej.
Import ListNotations.
Open Scope Z_scope.

(** C53: on every buffer whose length is a multiple of 24, rej_uniform_asm_clean delivers
    the first 256 accepted 12-bit candidates of the buffer, in order, and returns how many
    there are (all of them, if there are fewer than 256). It reads only the [buflen] bytes
    of the buffer and writes only the first 256 elements of the output and its own stack
    frame of 288 elements, whatever that contained before: it has no undefined behaviour
    and later elements keep their values. (Elements between the returned number and 256
    may be overwritten.) *)
Theorem C53_a64_samples : forall J r buf buflen,
  256 <= zlen r -> 0 <= buflen <= zlen buf -> buflen < 2 ^ 32 -> buflen mod 24 = 0 -> bytes buf ->
  exists r', val (rej_uniform_asm_clean J r buf buflen)
               = Ok (r', zlen (firstn 256 (accepted (slice buf 0 buflen)))) /\
    (exists rest, r' = firstn 256 (accepted (slice buf 0 buflen)) ++ rest) /\
    zlen r' = zlen r /\ skipn 256 r' = skipn 256 r.
Proof. exact a64rej_correct. Qed.
Print Assumptions C53_a64_samples.

(** C53: the AArch64 build of rej_uniform, with the assembly or its scalar fallback,
    returns the same number and the same accepted values as the portable build, for all
    targets, offsets and buffer lengths; if the target is reached the whole arrays
    agree. *)
Theorem C53_agrees_with_scalar : forall J r target offset buf buflen,
  0 <= offset <= target -> target <= zlen r -> target < 2 ^ 31 ->
  0 <= buflen <= zlen buf -> buflen < 2 ^ 31 -> bytes buf ->
  exists r1 r2 c,
    val (rej_uniform r target offset buf buflen) = Ok (r1, c) /\
    val (rej_uniform_aarch64 J r target offset buf buflen) = Ok (r2, c) /\
    offset <= c <= target /\
    slice r2 0 c = slice r1 0 c /\ zlen r2 = zlen r /\
    skipn (Z.to_nat target) r2 = skipn (Z.to_nat target) r /\
    (c = target -> r2 = r1).
Proof. exact a64rej_agrees. Qed.
Print Assumptions C53_agrees_with_scalar.

(** ** Cases *)

(** The 504 bytes of the first call in gen_matrix: 10 turns of the loop and the tail of
    24 bytes *)
Example C53_case : exists r',
  val (rej_uniform_asm_clean (fun _ => 5) (sample_poly 1) (sample_bytes 9 504) 504)
  = Ok (r', zlen (firstn 256 (accepted (slice (sample_bytes 9 504) 0 504)))).
Proof.
  destruct (C53_a64_samples (fun _ => 5) (sample_poly 1) (sample_bytes 9 504) 504) as (r' & E & _).
  - pose proof (sample_poly_ok 1) as [E _]. rewrite E. unfold n. lia.
  - destruct (sample_bytes_ok 9 504 ltac:(lia)) as [E _]. rewrite E. lia.
  - lia.
  - reflexivity.
  - now apply sample_bytes_ok.
  - eauto.
Qed.
(** The 168 bytes of a refill: fewer than 256 candidates *)
Example C53_case_refill : exists r',
  val (rej_uniform_asm_clean (fun _ => -7) (sample_poly 1) (sample_bytes 9 168) 168)
  = Ok (r', zlen (accepted (slice (sample_bytes 9 168) 0 168))) /\
  0 < zlen (accepted (slice (sample_bytes 9 168) 0 168)) < 112.
Proof.
  destruct (C53_a64_samples (fun _ => -7) (sample_poly 1) (sample_bytes 9 168) 168) as (r' & E & _).
  - pose proof (sample_poly_ok 1) as [E _]. rewrite E. unfold n. lia.
  - destruct (sample_bytes_ok 9 168 ltac:(lia)) as [E _]. rewrite E. lia.
  - lia.
  - reflexivity.
  - now apply sample_bytes_ok.
  - exists r'. rewrite E. split; [|vm_compute; split; reflexivity].
    assert (F : firstn 256 (accepted (slice (sample_bytes 9 168) 0 168)) = accepted (slice (sample_bytes 9 168) 0 168))
      by (vm_compute; reflexivity).
    now rewrite F.
Qed.

Example C53_case_agrees : exists r1 r2 c,
  val (rej_uniform (sample_poly 1) 256 0 (sample_bytes 9 504) 504) = Ok (r1, c) /\
  val (rej_uniform_aarch64 (fun _ => 5) (sample_poly 1) 256 0 (sample_bytes 9 504) 504) = Ok (r2, c).
Proof.
  destruct (C53_agrees_with_scalar (fun _ => 5) (sample_poly 1) 256 0 (sample_bytes 9 504) 504)
    as (r1 & r2 & c & H1 & H2 & _).
  - lia.
  - pose proof (sample_poly_ok 1) as [E _]. rewrite E. unfold n. lia.
  - lia.
  - destruct (sample_bytes_ok 9 504 ltac:(lia)) as [E _]. rewrite E. lia.
  - lia.
  - now apply sample_bytes_ok.
  - exists r1, r2, c. split; [exact H1|exact H2].
Qed.
