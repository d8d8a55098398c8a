(** * Property C70: the medians and percentiles of the benchmark programs

    [reads now reading]: the counter read is the low 64 bits of the time in cycles.
    [durations now n f] are the times measured. [sorts qsort]: qsort does what the C standard
    says, which it says only for consistent comparison functions. [per_iteration l r n]: n is the
    element of rank r of l, divided by the 300 iterations (SpecBench.v). *)

From Coq Require Import ZArith List Bool Lia String.
From Verif Require Import CSem ModelBench Spec202 SpecBench CSemFacts ProofBench SamplesBench.
Import ListNotations.
Open Scope Z_scope.

(** If no two measurements of a function differ by 2^31 cycles or more, bench_mlkem prints its
    median and its percentiles, also if the counter wraps around. *)
Theorem C70_bench : forall J qsort reading agree now, sorts qsort -> reads now reading ->
  (forall i, 0 <= i < 500 -> agree i = true) ->
  let kg := durations now 500 (fun i => 6 * i) in
  let enc := durations now 500 (fun i => 6 * i + 2) in
  let dec := durations now 500 (fun i => 6 * i + 4) in
  measurable kg -> measurable enc -> measurable dec -> close kg -> close enc -> close dec ->
  exists m1 m2 m3 p1 p2 p3,
    val (bench J qsort reading agree) =
      Ok (0, [Cycles "keypair" m1; Cycles "encaps" m2; Cycles "decaps" m3; Empty;
              Legend [1; 10; 20; 30; 40; 50; 60; 70; 80; 90; 99];
              Percentiles "keypair" p1; Percentiles "encaps" p2; Percentiles "decaps" p3]) /\
    per_iteration kg 250 m1 /\ per_iteration enc 250 m2 /\ per_iteration dec 250 m3 /\
    Forall2 (fun p n => per_iteration kg (5 * p) n) [1; 10; 20; 30; 40; 50; 60; 70; 80; 90; 99] p1 /\
    Forall2 (fun p n => per_iteration enc (5 * p) n) [1; 10; 20; 30; 40; 50; 60; 70; 80; 90; 99] p2 /\
    Forall2 (fun p n => per_iteration dec (5 * p) n) [1; 10; 20; 30; 40; 50; 60; 70; 80; 90; 99] p3.
Proof. exact bench_out. Qed.
Print Assumptions C70_bench.

(** A rank has one element: the lines above determine the numbers. *)
Theorem C70_rank_unique : forall l r v w, at_rank l r v -> at_rank l r w -> v = w.
Proof. exact rank_unique. Qed.
Print Assumptions C70_rank_unique.

(** A round in which the shared secrets differ ends the program with a message and no numbers. *)
Theorem C70_error : forall J qsort reading agree i, 0 <= i < 500 -> agree i = false ->
  val (bench J qsort reading agree) = Ok (1, [ErrorKeys]).
Proof. exact bench_error. Qed.
Print Assumptions C70_error.

(** The same for a component of bench_components_mlkem *)
Theorem C70_component : forall qsort reading now txt cyc, sorts qsort -> reads now reading -> zlen cyc = 200 ->
  let l := durations now 200 (fun i => 2 * i) in
  measurable l -> close l ->
  exists cyc' n, val (BENCH qsort reading txt cyc) = Ok (cyc', Cycles txt n) /\ zlen cyc' = 200 /\ per_iteration l 100 n.
Proof. exact component_out. Qed.
Print Assumptions C70_component.

(** The comparison function orders values less than 2^31 apart, *)
Theorem C70_comparison : forall a b, Z.abs (a - b) < 2 ^ 31 -> Z.sgn (cmp_uint64_t a b) = Z.sgn (a - b).
Proof. exact cmp_sign. Qed.
Print Assumptions C70_comparison.
(** takes values for equal exactly if their low 32 bits are, *)
Theorem C70_equal : forall a b, cmp_uint64_t a b = 0 <-> (a - b) mod 2 ^ 32 = 0.
Proof. exact cmp_zero. Qed.
Print Assumptions C70_equal.
(** and is not transitive, so that C does not say what qsort does. *)
Theorem C70_consistent_refuted : exists l, measurable l /\ ~ consistent cmp_uint64_t l.
Proof. exact cmp_inconsistent. Qed.
Print Assumptions C70_consistent_refuted.

(** Without the condition on the differences the median that is printed can be wrong, with a
    qsort that sorts. *)
Theorem C70_median_refuted : forall J, exists qsort reading now m rest,
  sorts qsort /\ reads now reading /\
  measurable (durations now 500 (fun i => 6 * i)) /\
  measurable (durations now 500 (fun i => 6 * i + 2)) /\ measurable (durations now 500 (fun i => 6 * i + 4)) /\
  val (bench J qsort reading (fun _ => true)) = Ok (0, Cycles "keypair" m :: rest) /\
  ~ per_iteration (durations now 500 (fun i => 6 * i)) 250 m.
Proof. exact median_wrong. Qed.
Print Assumptions C70_median_refuted.

(** The hypotheses of C70_bench can be met: with insertion sort, and a counter that wraps around
    during the first measurement *)
Example C70_case : sorts insertion_sort /\ reads sample_now sample_reading /\
  (forall c, c = 0 \/ c = 2 \/ c = 4 ->
   let l := durations sample_now 500 (fun i => 6 * i + c) in measurable l /\ close l) /\
  sample_reading 1 < sample_reading 0.
Proof.
  split; [exact insertion_sorts|]. split; [exact sample_reads|]. split; [|reflexivity].
  intros c [-> | [-> | ->]]; apply sample_durations; reflexivity || lia.
Qed.
