(** * The coefficientwise functions with their arguments in one memory

    In ModelArith.v these functions are given polynomials as lists, as if no two arguments
    could overlap. Here they read and write one memory coefficient by coefficient, for all
    addresses. An address counts coefficients of type int16_t: pointers to int16_t are
    aligned, so two polynomials overlap by whole coefficients or not at all. *)

From Coq Require Import ZArith List Bool.
From Verif Require Import CSem ModelArith ModelKem ModelInPlace.
Import ListNotations.
Open Scope Z_scope.

(** poly.c 522-533 *)
Definition poly_add_in (m : mem) (r b : Z) : M mem :=
  for_up 0 MLKEM_N 1 (fun i m =>
    x <- mget m (r + i) ;;
    y <- mget m (b + i) ;;
    z <- to_i16 (x + y) ;;
    mset m (r + i) z) m.

(** poly.c 535-546 *)
Definition poly_sub_in (m : mem) (r b : Z) : M mem :=
  for_up 0 MLKEM_N 1 (fun i m =>
    x <- mget m (r + i) ;;
    y <- mget m (b + i) ;;
    z <- to_i16 (x - y) ;;
    mset m (r + i) z) m.

(** polyvec.c 193-200; vec[i] begins i * 256 coefficients after the vector *)
Definition polyvec_add_in (p : pset) (m : mem) (r b : Z) : M mem :=
  for_up 0 (MLKEM_K p) 1 (fun i m =>
    poly_add_in m (r + i * MLKEM_N) (b + i * MLKEM_N)) m.

(** ntt.c 260-278 *)
Definition basemul_cached_in (m : mem) (r a b b_cached : Z) : M mem :=
  as_ <- mload m a 2 ;;
  POLY_BOUND as_ MLKEM_Q ;;;
  a1 <- mget m (a + 1) ;;
  t0 <- i32 (a1 * b_cached) ;;
  a0 <- mget m a ;;
  b0 <- mget m b ;;
  x <- i32 (a0 * b0) ;;
  t0 <- i32 (t0 + x) ;;
  a0 <- mget m a ;;
  b1 <- mget m (b + 1) ;;
  t1 <- i32 (a0 * b1) ;;
  a1 <- mget m (a + 1) ;;
  b0 <- mget m b ;;
  x <- i32 (a1 * b0) ;;
  t1 <- i32 (t1 + x) ;;
  r0 <- montgomery_reduce t0 ;;
  m <- mset m r r0 ;;
  r1 <- montgomery_reduce t1 ;;
  m <- mset m (r + 1) r1 ;;
  rs <- mload m r 2 ;;
  POLY_BOUND rs (3 * MLKEM_Q / 2) ;;;
  ret m.

(** poly.c 455-472 *)
Definition poly_basemul_in (m : mem) (r a b b_cache : Z) : M mem :=
  c <- mload m b_cache (MLKEM_N / 2) ;;
  POLY_BOUND c MLKEM_Q ;;;
  for_up 0 (MLKEM_N / 4) 1 (fun i m =>
    c <- mget m (b_cache + 2 * i) ;;
    m <- basemul_cached_in m (r + 4 * i) (a + 4 * i) (b + 4 * i) c ;;
    c <- mget m (b_cache + (2 * i + 1)) ;;
    basemul_cached_in m (r + (4 * i + 2)) (a + (4 * i + 2)) (b + (4 * i + 2)) c) m.

(** A vector of K arrays of [n] coefficients, for the debug checks *)
Definition load_vec (p : pset) (m : mem) (a n : Z) : M (list (list Z)) :=
  for_up 0 (MLKEM_K p) 1 (fun i v => x <- mload m (a + i * n) n ;; ret (v ++ [x])) [].

(** poly.c 522-533 with a local variable as second argument *)
Definition poly_add_local (m : mem) (r : Z) (t : list Z) : M mem :=
  for_up 0 MLKEM_N 1 (fun i m =>
    x <- mget m (r + i) ;;
    y <- aget t i ;;
    z <- to_i16 (x + y) ;;
    mset m (r + i) z) m.

(** polyvec.c 93-123. The polynomial t is local, so the product computed in it is as in
    ModelArith.v for the coefficients found in memory, which does not change meanwhile. *)
Definition polyvec_basemul_acc_in (J : junk) (p : pset) (m : mem) (r a b b_cache : Z) : M mem :=
  let t := uninit J 0 MLKEM_N in
  u <- load_vec p m a MLKEM_N ;;
  POLYVEC_BOUND u MLKEM_Q ;;;
  v <- load_vec p m b MLKEM_N ;;
  POLYVEC_BOUND v NTT_BOUND ;;;
  w <- load_vec p m b_cache (MLKEM_N / 2) ;;
  POLYVEC_BOUND w MLKEM_Q ;;;
  m <- poly_basemul_in m r a b b_cache ;;
  '(m, _) <- for_up 1 (MLKEM_K p) 1 (fun i '(m, t) =>
      ai <- mload m (a + i * MLKEM_N) MLKEM_N ;;
      bi <- mload m (b + i * MLKEM_N) MLKEM_N ;;
      ci <- mload m (b_cache + i * (MLKEM_N / 2)) (MLKEM_N / 2) ;;
      t <- poly_basemul_montgomery_cached t ai bi ci ;;
      m <- poly_add_local m r t ;;
      ret (m, t)) (m, t) ;;
  rs <- mload m r MLKEM_N ;;
  POLY_BOUND rs (MLKEM_K p * 3 * HALF_Q) ;;;
  ret m.

(** poly.c 549-559 *)
Definition poly_mulcache_compute_in (m : mem) (x a : Z) : M mem :=
  m <- for_up 0 (MLKEM_N / 4) 1 (fun i m =>
    a1 <- mget m (a + (4 * i + 1)) ;;
    z <- aget zetas (64 + i) ;;
    y <- fqmul a1 z ;;
    m <- mset m (x + (2 * i + 0)) y ;;
    a3 <- mget m (a + (4 * i + 3)) ;;
    z <- aget zetas (64 + i) ;;
    mz <- to_i16 (- z) ;;
    y <- fqmul a3 mz ;;
    mset m (x + (2 * i + 1)) y) m ;;
  xs <- mload m x (MLKEM_N / 2) ;;
  POLY_BOUND xs MLKEM_Q ;;;
  ret m.
