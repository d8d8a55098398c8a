(** * Three functions without their debug checks

    The other models contain the checks of debug.h, which are made if MLKEM_DEBUG is defined.
    Otherwise the macros are empty (debug/debug.h 173-215). Here are the functions whose checks can
    fail although the caller meets the contract of the function. The checks in the functions they
    call remain. *)

From Coq Require Import ZArith List.
From Verif Require Import CSem ModelArith ModelIndcpa.
Import ListNotations.
Open Scope Z_scope.

(** poly.c 455-472, without line 459 *)
Definition poly_basemul_montgomery_cached_ndebug (r a b b_cache : list Z) : M (list Z) :=
  for_up 0 (MLKEM_N / 4) 1 (fun i r =>
    rs <- aslice r (4 * i) 2 ;;
    as_ <- aslice a (4 * i) 2 ;;
    bs <- aslice b (4 * i) 2 ;;
    c <- aget b_cache (2 * i) ;;
    rs <- basemul_cached rs as_ bs c ;;
    r <- asplice r (4 * i) rs ;;
    rs <- aslice r (4 * i + 2) 2 ;;
    as_ <- aslice a (4 * i + 2) 2 ;;
    bs <- aslice b (4 * i + 2) 2 ;;
    c <- aget b_cache (2 * i + 1) ;;
    rs <- basemul_cached rs as_ bs c ;;
    asplice r (4 * i + 2) rs) r.

(** polyvec.c 93-123, without lines 100-102; the check of line 122 remains *)
Definition polyvec_basemul_acc_montgomery_cached_ndebug (J : junk) (p : pset)
  (r : list Z) (a b b_cache : list (list Z)) : M (list Z) :=
  let t := uninit J 0 MLKEM_N in
  a0 <- aget a 0 ;; b0 <- aget b 0 ;; c0 <- aget b_cache 0 ;;
  r <- poly_basemul_montgomery_cached_ndebug r a0 b0 c0 ;;
  '(r, _) <- for_up 1 (MLKEM_K p) 1 (fun i '(r, t) =>
      ai <- aget a i ;; bi <- aget b i ;; ci <- aget b_cache i ;;
      t <- poly_basemul_montgomery_cached_ndebug t ai bi ci ;;
      r <- poly_add r t ;;
      ret (r, t)) (r, t) ;;
  POLY_BOUND r (MLKEM_K p * 3 * HALF_Q) ;;;
  ret r.

(** indcpa.c 377-398 *)
Definition matvec_mul_ndebug (J : junk) (p : pset) (out a v vc : list (list Z))
  : M (list (list Z)) :=
  for_up 0 (MLKEM_K p) 1 (fun i out =>
    oi <- aget out i ;;
    ai <- aslice a (MLKEM_K p * i) (MLKEM_K p) ;;
    oi <- polyvec_basemul_acc_montgomery_cached_ndebug (sub J i) p oi ai v vc ;;
    aset out i oi) out.
