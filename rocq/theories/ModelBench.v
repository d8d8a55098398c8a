(** * Model of the statistics of the benchmark programs

    test/bench_mlkem.c, and the macro BENCH of test/bench_components_mlkem.c.

    What is measured is not modelled: the [k]-th reading of the cycle counter is the
    uint64_t [reading k], and [agree i] says whether the shared secrets of round [i] were
    equal (memcmp of line 112). The C library is a parameter too: [qsort cmp l] is what
    qsort makes of the array [l] with the comparison function [cmp]; it is called on all
    elements of an array, here of type uint64_t. What printf prints is a list of lines. *)

From Coq Require Import ZArith List Bool String.
From Verif Require Import CSem.
Import ListNotations.
Open Scope Z_scope.

(** bench_mlkem.c 14-16 *)
Definition NITERATIONS : Z := 300.
Definition NTESTS : Z := 500.

(** Conversion of a uint64_t to int (32 bits): implementation-defined, in the compilers
    supported reduction modulo 2^32 *)
Definition s32 (x : Z) : Z := (x + 2147483648) mod 4294967296 - 2147483648.

(** bench_mlkem.c 18-21, bench_components_mlkem.c 26-29 *)
Definition cmp_uint64_t (a b : Z) : Z := s32 (u64 (a - b)).

(** A line that is printed *)
Inductive line : Type :=
| Cycles (txt : string) (n : Z)                (* "%10s cycles = %" PRIu64 *)
| Empty
| Legend (l : list Z)
| Percentiles (txt : string) (l : list Z)
| ErrorKeys.

(** bench_mlkem.c 23-26; unsigned division *)
Definition print_median (txt : string) (cyc : list Z) : M line :=
  v <- aget cyc (Z.shiftr NTESTS 1) ;;
  ret (Cycles txt (v / NITERATIONS)).

(** bench_mlkem.c 28 *)
Definition percentiles : list Z := [1; 10; 20; 30; 40; 50; 60; 70; 80; 90; 99].

(** bench_mlkem.c 30-37 *)
Definition print_percentile_legend : M line :=
  l <- for_up 0 11 1 (fun i l => p <- aget percentiles i ;; ret (l ++ [p])) [] ;;
  ret (Legend l).

(** bench_mlkem.c 39-46; the index is computed in int *)
Definition print_percentiles (txt : string) (cyc : list Z) : M line :=
  l <- for_up 0 11 1 (fun i l =>
         p <- aget percentiles i ;;
         x <- i32 (NTESTS * p) ;;
         v <- aget cyc (x / 100) ;;
         ret (l ++ [v / NITERATIONS])) [] ;;
  ret (Percentiles txt l).

(** bench_mlkem.c 48-138. One round reads the counter six times. The result is the return
    value and the lines. [J] fills the three uninitialised arrays. *)
Definition bench (J : junk) (qsort : (Z -> Z -> Z) -> list Z -> list Z) (reading : Z -> Z) (agree : Z -> bool)
  : M (Z * list line) :=
  r <- for_up 0 NTESTS 1 (fun i r =>
         match r with
         | None => ret None                            (* returned before *)
         | Some (kg, enc, dec) =>
             kg <- aset kg i (u64 (reading (6 * i + 1) - reading (6 * i))) ;;
             enc <- aset enc i (u64 (reading (6 * i + 3) - reading (6 * i + 2))) ;;
             dec <- aset dec i (u64 (reading (6 * i + 5) - reading (6 * i + 4))) ;;
             branch (negb (agree i)) (ret None) (ret (Some (kg, enc, dec)))
         end) (Some (uninit J 0 NTESTS, uninit J 1 NTESTS, uninit J 2 NTESTS)) ;;
  match r with
  | None => ret (1, [ErrorKeys])
  | Some (kg, enc, dec) =>
      let kg := qsort cmp_uint64_t kg in
      let enc := qsort cmp_uint64_t enc in
      let dec := qsort cmp_uint64_t dec in
      l1 <- print_median "keypair" kg ;;
      l2 <- print_median "encaps" enc ;;
      l3 <- print_median "decaps" dec ;;
      l4 <- print_percentile_legend ;;
      l5 <- print_percentiles "keypair" kg ;;
      l6 <- print_percentiles "encaps" enc ;;
      l7 <- print_percentiles "decaps" dec ;;
      ret (0, [l1; l2; l3; Empty; l4; l5; l6; l7])
  end.

(** bench_components_mlkem.c 22-24, 31-53: NTESTS is 200 there, and a component reads the counter
    twice per round. The array cyc is shared by all components: [cyc] is what it holds. *)
Definition BENCH (qsort : (Z -> Z -> Z) -> list Z -> list Z) (reading : Z -> Z) (txt : string) (cyc : list Z)
  : M (list Z * line) :=
  cyc <- for_up 0 200 1 (fun i cyc => aset cyc i (u64 (reading (2 * i + 1) - reading (2 * i)))) cyc ;;
  let cyc := qsort cmp_uint64_t cyc in
  v <- aget cyc (Z.shiftr 200 1) ;;
  ret (cyc, Cycles txt (v / 300)).
