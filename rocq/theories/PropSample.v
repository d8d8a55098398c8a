(** * Properties C21, C22 (buffer level): sampling polynomials from byte strings *)

From Coq Require Import ZArith List Bool Lia.
From Verif Require Import CSem ModelArith Spec202 Spec203 SpecLink CSemFacts Samples
  ProofCbd ProofRej.
Import ListNotations.
Open Scope Z_scope.

(** C21: the samplers for eta1 and eta2 deliver, as signed values in [-eta, eta], the
    polynomial of FIPS 203 Algorithm 8, whatever the output array contained. *)
Theorem C21_cbd_eta1 : forall p r buf,
  zlen r = 256 -> zlen buf = 64 * eta1 (set_of p) -> bytes buf ->
  exists f, val (poly_cbd_eta1 p r buf) = Ok f /\ zlen f = 256 /\
    Forall (fun x => - eta1 (set_of p) <= x <= eta1 (set_of p)) f /\
    map (fun x => x mod q) f = SamplePolyCBD (eta1 (set_of p)) buf.
Proof. exact cbd_eta1_correct. Qed.
Print Assumptions C21_cbd_eta1.

Theorem C21_cbd_eta2 : forall p r buf,
  zlen r = 256 -> zlen buf = 64 * eta2 (set_of p) -> bytes buf ->
  exists f, val (poly_cbd_eta2 r buf) = Ok f /\ zlen f = 256 /\
    Forall (fun x => - eta2 (set_of p) <= x <= eta2 (set_of p)) f /\
    map (fun x => x mod q) f = SamplePolyCBD (eta2 (set_of p)) buf.
Proof. exact cbd_eta2_correct. Qed.
Print Assumptions C21_cbd_eta2.

Example C21_case : exists f,
  val (poly_cbd_eta1 MLKEM512 (sample_poly 5) (sample_bytes 3 192)) = Ok f /\ zlen f = 256.
Proof.
  destruct (C21_cbd_eta1 MLKEM512 (sample_poly 5) (sample_bytes 3 192)) as (f & H & H' & _).
  - apply sample_poly_ok.
  - now apply sample_bytes_ok.
  - now apply sample_bytes_ok.
  - eauto.
Qed.

(** C22, one buffer: rej_uniform appends to the [offset] values already sampled the
    accepted 12-bit candidates of the first [buflen] bytes of the buffer, up to [target]
    values in all, returns their number and leaves the rest of the array alone. *)
Theorem C22_rej_uniform : forall r target offset buf buflen,
  0 <= offset <= target -> target <= zlen r -> target < 2 ^ 31 ->
  0 <= buflen <= zlen buf -> buflen < 2 ^ 31 -> bytes buf ->
  exists acc, acc = firstn (Z.to_nat target) (slice r 0 offset ++ accepted (slice buf 0 buflen)) /\
    val (rej_uniform r target offset buf buflen) = Ok (acc ++ skipn (length acc) r, zlen acc).
Proof. exact rej_correct. Qed.
Print Assumptions C22_rej_uniform.

(** C22: the loop of Algorithm 7 keeps exactly the first 256 accepted candidates *)
Theorem C22_first_256 : forall C, SampleNTT_loop C [] = firstn 256 (accepted C).
Proof. exact loop_first256. Qed.
Print Assumptions C22_first_256.

(** C22: splitting the byte stream at a multiple of 3 does not change the result *)
Theorem C22_split : forall A B a, (zlen A) mod 3 = 0 -> zlen a <= 256 ->
  SampleNTT_loop (A ++ B) a = SampleNTT_loop B (SampleNTT_loop A a).
Proof. exact loop_split. Qed.
Print Assumptions C22_split.

Example C22_case : exists acc,
  val (rej_uniform (sample_poly 1) 256 100 (sample_bytes 9 168) 168)
    = Ok (acc ++ skipn (length acc) (sample_poly 1), zlen acc).
Proof.
  destruct (C22_rej_uniform (sample_poly 1) 256 100 (sample_bytes 9 168) 168) as (acc & _ & H).
  - lia.
  - pose proof (sample_poly_ok 1) as [E _]. rewrite E. unfold n. lia.
  - lia.
  - destruct (sample_bytes_ok 9 168 ltac:(lia)) as [E _]. rewrite E. lia.
  - lia.
  - now apply sample_bytes_ok.
  - eauto.
Qed.
Example C22_candidates : accepted [1; 2; 3; 255; 255; 255; 0; 13; 0] = [513; 48; 3328; 0].
Proof. reflexivity. Qed.
