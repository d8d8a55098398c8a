(** * Properties C22, C23 (and the sampling part of C34): matrix sampling

    [fuel] is the number of refill rounds the loops may run; the outcome [NoFuel] means
    that the loop is still running after them. *)

From Coq Require Import ZArith List Bool Lia.
From Verif Require Import ModelKeccak.
From Verif Require Import CSem ModelArith ModelIndcpa Spec202 Spec203 SpecLink CSemFacts Samples
  ProofMatrix.
Import ListNotations.
Open Scope Z_scope.

(** C22: the single-entry sampler is Algorithm 7 given the three blocks squeezed first
    and one block per refill; in particular the contents of the output array and of
    uninitialised memory do not matter. *)
Theorem C22_gen_matrix_entry : forall {bo : byte_order} J fuel entry seed,
  zlen entry = 256 -> zlen seed = 34 -> bytes seed ->
  val (gen_matrix_entry J fuel entry seed) =
  match SampleNTT (3 + Z.of_nat fuel) seed with Some a => Ok a | None => NoFuel end.
Proof. intros bo. exact gen_matrix_entry_correct. Qed.
Print Assumptions C22_gen_matrix_entry.

(** C22: the same, said without Algorithm 7: it returns with a given allowance of
    refills exactly if the stream read so far has 256 acceptable values, and then the
    result is the first 256 of them. *)
Theorem C22_first_values : forall {bo : byte_order} J fuel entry seed a,
  zlen entry = 256 -> zlen seed = 34 -> bytes seed ->
  val (gen_matrix_entry J fuel entry seed) = Ok a <->
  256 <= zlen (accepted (SHAKE128 seed (168 * (3 + Z.of_nat fuel)))) /\
  a = firstn 256 (accepted (SHAKE128 seed (168 * (3 + Z.of_nat fuel)))).
Proof. intros bo. exact gen_matrix_entry_first. Qed.
Print Assumptions C22_first_values.

(** C22: it returns if and only if the stream contains 256 acceptable values. *)
Theorem C22_returns : forall {bo : byte_order} J seed,
  zlen seed = 34 -> bytes seed ->
  (exists b, 0 <= b /\ 256 <= zlen (accepted (SHAKE128 seed (168 * b)))) <->
  (exists fuel, forall entry, zlen entry = 256 ->
     exists a, val (gen_matrix_entry J fuel entry seed) = Ok a).
Proof. intros bo. exact gen_matrix_entry_returns. Qed.
Print Assumptions C22_returns.

(** C22: the four-way sampler delivers Algorithm 7 on each lane, although lanes that are
    complete go through further refills while others are not. *)
Theorem C22_gen_matrix_entry_x4 : forall {bo : byte_order} J fuel vec seeds,
  zlen vec = 4 -> Forall (fun e => zlen e = 256) vec ->
  zlen seeds = 4 -> Forall (fun s => zlen s = 34 /\ bytes s) seeds ->
  val (gen_matrix_entry_x4 J fuel vec seeds) =
  match all_some (map (SampleNTT (3 + Z.of_nat fuel)) seeds) with
  | Some v => Ok v
  | None => NoFuel
  end.
Proof. intros bo. exact gen_matrix_entry_x4_correct. Qed.
Print Assumptions C22_gen_matrix_entry_x4.

Example C22_entry_case : forall {bo : byte_order} fuel,
  val (gen_matrix_entry (fun _ => 77) fuel (sample_poly 4) (sample_bytes 3 34)) =
  match SampleNTT (3 + Z.of_nat fuel) (sample_bytes 3 34) with Some a => Ok a | None => NoFuel end.
Proof. intros bo.
  intros fuel. apply C22_gen_matrix_entry.
  - apply sample_poly_ok.
  - now apply sample_bytes_ok.
  - now apply sample_bytes_ok.
Qed.
Example C22_entry_x4_case : forall {bo : byte_order} fuel,
  val (gen_matrix_entry_x4 (fun _ => 77) fuel
        [sample_poly 1; sample_poly 2; sample_poly 3; sample_poly 4]
        [sample_bytes 1 34; sample_bytes 2 34; sample_bytes 3 34; sample_bytes 4 34]) =
  match all_some (map (SampleNTT (3 + Z.of_nat fuel))
          [sample_bytes 1 34; sample_bytes 2 34; sample_bytes 3 34; sample_bytes 4 34]) with
  | Some v => Ok v
  | None => NoFuel
  end.
Proof. intros bo.
  intros fuel. apply C22_gen_matrix_entry_x4; [reflexivity| |reflexivity|].
  - do 4 (apply Forall_cons; [apply sample_poly_ok|]). apply Forall_nil.
  - do 4 (apply Forall_cons; [now apply sample_bytes_ok|]). apply Forall_nil.
Qed.

(** C23: the expanded matrix, stored by rows in one array of k * k polynomials, is the
    matrix of Algorithm 13 (steps 3-7) or its transpose. *)
Theorem C23_gen_matrix : forall {bo : byte_order} J fuel p a rho tr,
  let K := k (set_of p) in
  zlen a = K * K -> Forall (fun e => zlen e = 256) a -> zlen rho = 32 -> bytes rho ->
  val (gen_matrix J fuel p a rho tr) =
  match ExpandA (set_of p) (3 + Z.of_nat fuel) rho with
  | Some A => Ok (concat (if tr then transpose A else A))
  | None => NoFuel
  end.
Proof. intros bo. exact gen_matrix_correct. Qed.
Print Assumptions C23_gen_matrix.

(** C23: entry by entry *)
Theorem C23_entries : forall {bo : byte_order} J fuel p a rho tr r,
  let K := k (set_of p) in
  zlen a = K * K -> Forall (fun e => zlen e = 256) a -> zlen rho = 32 -> bytes rho ->
  val (gen_matrix J fuel p a rho tr) = Ok r ->
  zlen r = K * K /\
  forall i j, 0 <= i < K -> 0 <= j < K ->
    SampleNTT (3 + Z.of_nat fuel) (rho ++ (if tr then [i; j] else [j; i])) =
    Some (nth (Z.to_nat (K * i + j)) r []).
Proof. intros bo. exact gen_matrix_entries. Qed.
Print Assumptions C23_entries.

(** C23: the transposed matrix is the transpose of the matrix. *)
Theorem C23_transposed : forall {bo : byte_order} J J' fuel fuel' p a a' rho r r',
  let K := k (set_of p) in
  zlen a = K * K -> Forall (fun e => zlen e = 256) a ->
  zlen a' = K * K -> Forall (fun e => zlen e = 256) a' -> zlen rho = 32 -> bytes rho ->
  val (gen_matrix J fuel p a rho false) = Ok r ->
  val (gen_matrix J' fuel' p a' rho true) = Ok r' ->
  forall i j, 0 <= i < K -> 0 <= j < K ->
    nth (Z.to_nat (K * i + j)) r [] = nth (Z.to_nat (K * j + i)) r' [].
Proof. intros bo. exact gen_matrix_transposed. Qed.
Print Assumptions C23_transposed.

(** C34, one matrix: a larger allowance gives the same matrix. *)
Theorem C34_more_blocks : forall P b c rho A, bytes rho -> 0 <= k P <= 256 -> 0 <= b <= c ->
  ExpandA P b rho = Some A -> ExpandA P c rho = Some A.
Proof. exact ExpandA_mono. Qed.
Print Assumptions C34_more_blocks.

Example C23_case : forall {bo : byte_order} fuel,
  val (gen_matrix (fun _ => 77) fuel MLKEM768 (repeat (sample_poly 4) 9) (sample_bytes 3 32) true) =
  match ExpandA ML_KEM_768 (3 + Z.of_nat fuel) (sample_bytes 3 32) with
  | Some A => Ok (concat (transpose A))
  | None => NoFuel
  end.
Proof. intros bo.
  intros fuel. apply (C23_gen_matrix (fun _ => 77) fuel MLKEM768 (repeat (sample_poly 4) 9) _ true).
  - reflexivity.
  - apply Forall_forall. intros e He. apply repeat_spec in He as ->. apply sample_poly_ok.
  - now apply sample_bytes_ok.
  - now apply sample_bytes_ok.
Qed.
