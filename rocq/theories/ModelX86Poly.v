(** * The x86_64 build: mlkem/native/x86_64/basemul.c, profiles/default.h, and the
      functions of mlkem/poly.c, ntt.c and polyvec.c that use the native code

    Functions have the name of the C function with the suffix _x86_64. The functions of
    these files that are not here are the portable ones of ModelArith.v. *)

From Coq Require Import ZArith List Bool.
From Verif Require Import CSem ModelArith ModelAvx2 ModelX86 ModelX86Asm.
Import ListNotations.
Open Scope Z_scope.

(** ** Calls of assembly routines *)

(** The vector registers hold anything before the call. The result is the contents of the
    arrays after it. The addresses accessed are leaked (array and offset in bytes). *)
Definition call (J : junk) (p : list instr) (arrays : list (list Z)) : M (list (list Z)) :=
  match run_words p (uninit2 J 0 16 16) args arrays with
  | Some st => (Ok (mem st), flat_map (fun '(a, d) => [EIndex (Z.of_nat a); EIndex d])
                                      (rev (trace st)))
  | None => fail OutOfBounds
  end.
(** The array that rdi points to, after the call *)
Definition call_rdi (J : junk) (p : list instr) (arrays : list (list Z)) : M (list Z) :=
  ms <- call J p arrays ;; ret (nth 0 ms []).

(** A byte buffer as an array of signed 16-bit words (little-endian), and back *)
Definition words16 (b : list Z) : list Z := map s16 (words b).

(** ** ntt.c *)

(** ntt.c 152-157 with profiles/default.h 53-56 *)
Definition poly_ntt_x86_64 (J : junk) (r : list Z) : M (list Z) :=
  POLY_BOUND r MLKEM_Q ;;;
  r <- call_rdi J ntt_avx2 [r; qdata] ;;
  POLY_BOUND r (8 * MLKEM_Q) ;;;
  ret r.

(** ntt.c 239-243 with profiles/default.h 58-61 *)
Definition poly_invntt_tomont_x86_64 (J : junk) (r : list Z) : M (list Z) :=
  r <- call_rdi J invntt_avx2 [r; qdata] ;;
  POLY_BOUND r (8 * MLKEM_Q) ;;;
  ret r.

(** ** poly.c *)

(** poly.c 300-304 with profiles/default.h 87-91 *)
Definition poly_tobytes_x86_64 (J : junk) (r a : list Z) : M (list Z) :=
  POLY_UBOUND a MLKEM_Q ;;;
  w <- call_rdi J ntttobytes_avx2 [words16 r; a; qdata] ;;
  ret (unwords w).

(** poly.c 328-331 with profiles/default.h 93-97 *)
Definition poly_frombytes_x86_64 (J : junk) (r a : list Z) : M (list Z) :=
  call_rdi J nttfrombytes_avx2 [r; words16 a; qdata].

(** poly.c 490-494 with profiles/default.h 68-71 *)
Definition poly_tomont_x86_64 (J : junk) (r : list Z) : M (list Z) :=
  r <- call_rdi J tomont_avx2 [r; qdata] ;;
  POLY_BOUND r MLKEM_Q ;;;
  ret r.

(** poly.c 515-519 with profiles/default.h 63-66 *)
Definition poly_reduce_x86_64 (J : junk) (r : list Z) : M (list Z) :=
  r <- call_rdi J reduce_avx2 [r; qdata] ;;
  POLY_UBOUND r MLKEM_Q ;;;
  ret r.

(** poly.c 561-567 with profiles/default.h 73-78: the cache is not touched *)
Definition poly_mulcache_compute_x86_64 (x a : list Z) : M (list Z) := ret x.

(** profiles/default.h 36-39 *)
Definition poly_permute_bitrev_to_custom (J : junk) (data : list Z) : M (list Z) :=
  call_rdi J nttunpack_avx2 [data; qdata].

(** ** native/x86_64/basemul.c *)

(** basemul.c 15-19; the scratch slot is uninitialised *)
Definition poly_basemul_montgomery_avx2 (J : junk) (r a b : list Z) : M (list Z) :=
  call_rdi J basemul_avx2 [r; a; b; qdata; uninit J 1 16].

(** basemul.c 25-37 as it is called in line 56, with r equal to a. _mm256_add_epi16 adds
    16-bit elements modulo 2^16. *)
Definition _mm256_add_epi16 (f0 f1 : list Z) : list Z := map2 (fun x y => s16 (x + y)) f0 f1.
Definition poly_add_avx2 (r b : list Z) : M (list Z) :=
  for_up 0 MLKEM_N 16 (fun i r =>
    f0 <- aslice r i 16 ;;
    f1 <- aslice b i 16 ;;
    asplice r i (_mm256_add_epi16 f0 f1)) r.

(** basemul.c 39-58 *)
Definition polyvec_basemul_acc_montgomery_cached_avx2 (J : junk) (p : pset) (r : list Z)
  (a b : list (list Z)) : M (list Z) :=
  let t := uninit J 0 MLKEM_N in
  a0 <- aget a 0 ;; b0 <- aget b 0 ;;
  r <- poly_basemul_montgomery_avx2 (sub J 0) r a0 b0 ;;
  '(r, _) <- for_up 1 (MLKEM_K p) 1 (fun i '(r, t) =>
      ai <- aget a i ;; bi <- aget b i ;;
      t <- poly_basemul_montgomery_avx2 (sub J i) t ai bi ;;
      r <- poly_add_avx2 r t ;;
      ret (r, t)) (r, t) ;;
  ret r.

(** ** polyvec.c *)

(** polyvec.c 125-135 with profiles/default.h 80-85; b_cache is not used *)
Definition polyvec_basemul_acc_montgomery_cached_x86_64 (J : junk) (p : pset)
  (r : list Z) (a b b_cache : list (list Z)) : M (list Z) :=
  POLYVEC_BOUND a MLKEM_Q ;;;
  POLYVEC_BOUND b NTT_BOUND ;;;
  polyvec_basemul_acc_montgomery_cached_avx2 J p r a b.

(** polyvec.c 38-45 *)
Definition polyvec_tobytes_x86_64 (J : junk) (p : pset) (r : list Z) (a : list (list Z))
  : M (list Z) :=
  for_up 0 (MLKEM_K p) 1 (fun i r =>
    ai <- aget a i ;;
    s <- aslice r (i * MLKEM_POLYBYTES) MLKEM_POLYBYTES ;;
    s <- poly_tobytes_x86_64 (sub J i) s ai ;;
    asplice r (i * MLKEM_POLYBYTES) s) r.

(** polyvec.c 47-54 *)
Definition polyvec_frombytes_x86_64 (J : junk) (p : pset) (r : list (list Z)) (a : list Z)
  : M (list (list Z)) :=
  for_up 0 (MLKEM_K p) 1 (fun i r =>
    ri <- aget r i ;;
    s <- aslice a (i * MLKEM_POLYBYTES) MLKEM_POLYBYTES ;;
    ri <- poly_frombytes_x86_64 (sub J i) ri s ;;
    aset r i ri) r.

(** polyvec.c 56-63 *)
Definition polyvec_ntt_x86_64 (J : junk) (p : pset) (r : list (list Z)) : M (list (list Z)) :=
  for_up 0 (MLKEM_K p) 1 (fun i r =>
    ri <- aget r i ;; ri <- poly_ntt_x86_64 (sub J i) ri ;; aset r i ri) r.

(** polyvec.c 65-72 *)
Definition polyvec_invntt_tomont_x86_64 (J : junk) (p : pset) (r : list (list Z))
  : M (list (list Z)) :=
  for_up 0 (MLKEM_K p) 1 (fun i r =>
    ri <- aget r i ;; ri <- poly_invntt_tomont_x86_64 (sub J i) ri ;; aset r i ri) r.

(** polyvec.c 165-172 *)
Definition polyvec_mulcache_compute_x86_64 (p : pset) (x a : list (list Z))
  : M (list (list Z)) :=
  for_up 0 (MLKEM_K p) 1 (fun i x =>
    xi <- aget x i ;; ai <- aget a i ;;
    xi <- poly_mulcache_compute_x86_64 xi ai ;; aset x i xi) x.

(** polyvec.c 148-153 *)
Definition polyvec_basemul_acc_montgomery_x86_64 (J : junk) (p : pset)
  (r : list Z) (a b : list (list Z)) : M (list Z) :=
  let b_cache := uninit2 J 0 (MLKEM_K p) (MLKEM_N / 2) in
  b_cache <- polyvec_mulcache_compute_x86_64 p b_cache b ;;
  polyvec_basemul_acc_montgomery_cached_x86_64 (sub J 1) p r a b b_cache.

(** polyvec.c 184-191 *)
Definition polyvec_reduce_x86_64 (J : junk) (p : pset) (r : list (list Z)) : M (list (list Z)) :=
  for_up 0 (MLKEM_K p) 1 (fun i r =>
    ri <- aget r i ;; ri <- poly_reduce_x86_64 (sub J i) ri ;; aset r i ri) r.

(** polyvec.c 202-209 *)
Definition polyvec_tomont_x86_64 (J : junk) (p : pset) (r : list (list Z)) : M (list (list Z)) :=
  for_up 0 (MLKEM_K p) 1 (fun i r =>
    ri <- aget r i ;; ri <- poly_tomont_x86_64 (sub J i) ri ;; aset r i ri) r.
