(** * The AArch64 build: mlkem/native/aarch64/profiles/{clean,opt}.h, and the functions of
      mlkem/poly.c, ntt.c and polyvec.c that use the native code

    Functions have the name of the C function with the suffix _aarch64. Their first argument
    is the profile: [opt] by default, [clean] if MLKEM_USE_NATIVE_AARCH64_CLEAN is defined. The
    functions of these files that are not here are the portable ones of ModelArith.v; the
    backend has no native code for poly_frombytes. *)

From Coq Require Import ZArith List Bool.
From Verif Require Import ModelA64 ModelA64Asm.
From Verif Require Import CSem ModelArith ModelAvx2.
Import ListNotations.
Open Scope Z_scope.

Inductive profile : Type := clean | opt.
Definition of_profile {A} (b : profile) (c o : A) : A := match b with clean => c | opt => o end.

(** ** Calls of assembly routines *)

(** The bytes of stack that a routine may use below the caller's part *)
Definition STACK : Z := 64.

(** The vector registers and the stack hold anything before the call. The result is the
    contents of the argument arrays after it; there are [n] of them, followed by the
    constants of the file. The addresses accessed are leaked (array and offset in bytes). *)
Definition call (J : junk) (p : list block) (n : nat) (arrays : list (list Z)) : M (list (list Z)) :=
  match run_words p (uninit2 J 0 32 8) (args n STACK) (uninit J 1 (STACK / 2) :: arrays) with
  | Some st => (Ok (skipn 1 (mem st)), flat_map (fun '(a, d) => [EIndex (Z.of_nat a); EIndex d])
                                                (rev (trace st)))
  | None => fail OutOfBounds
  end.
(** The array that x0 points to, after the call *)
Definition call_x0 (J : junk) (p : list block) (n : nat) (arrays : list (list Z)) : M (list Z) :=
  ms <- call J p n arrays ;; ret (nth 0 ms []).

(** A byte buffer as an array of signed 16-bit words (little-endian) *)
Definition words16 (b : list Z) : list Z := map s16 (words b).

(** ** profiles/opt.h and profiles/clean.h *)

(** lines 26-30 *)
Definition ntt_native (b : profile) (J : junk) (data : list Z) : M (list Z) :=
  call_x0 J (of_profile b ntt_asm_clean ntt_asm_opt) 3
    [data; aarch64_ntt_zetas_layer01234; aarch64_ntt_zetas_layer56;
     of_profile b ntt_clean_const_addr ntt_opt_const_addr].
(** lines 33-37 *)
Definition intt_native (b : profile) (J : junk) (data : list Z) : M (list Z) :=
  call_x0 J (of_profile b intt_asm_clean intt_asm_opt) 3
    [data; aarch64_invntt_zetas_layer01234; aarch64_invntt_zetas_layer56;
     of_profile b intt_clean_const_addr intt_opt_const_addr;
     of_profile b intt_clean_ninv_addr intt_opt_ninv_addr;
     of_profile b intt_clean_ninv_tw_addr intt_opt_ninv_tw_addr].
Definition poly_const_addr (b : profile) : list Z :=
  of_profile b poly_clean_const_addr poly_opt_const_addr.
(** lines 39-42 *)
Definition poly_reduce_native (b : profile) (J : junk) (data : list Z) : M (list Z) :=
  call_x0 J (of_profile b poly_reduce_asm_clean poly_reduce_asm_opt) 1 [data; poly_const_addr b].
(** lines 43-46 *)
Definition poly_tomont_native (b : profile) (J : junk) (data : list Z) : M (list Z) :=
  call_x0 J (of_profile b poly_tomont_asm_clean poly_tomont_asm_opt) 1 [data; poly_const_addr b].
(** lines 48-53 *)
Definition poly_mulcache_compute_native (b : profile) (J : junk) (x y : list Z) : M (list Z) :=
  call_x0 J (of_profile b poly_mulcache_compute_asm_clean poly_mulcache_compute_asm_opt) 4
    [x; y; aarch64_zetas_mulcache_native; aarch64_zetas_mulcache_twisted_native; poly_const_addr b].
(** lines 54-60. The routine depends on MLKEM_K. It reads all of the vectors through the
    pointer to the first polynomial: the arrays here are the whole vectors. *)
Definition basemul_asm (b : profile) (p : pset) : list block :=
  match p with
  | MLKEM512 => of_profile b polyvec_basemul_acc_montgomery_cached_asm_clean_k2
                             polyvec_basemul_acc_montgomery_cached_asm_opt_k2
  | MLKEM768 => of_profile b polyvec_basemul_acc_montgomery_cached_asm_clean_k3
                             polyvec_basemul_acc_montgomery_cached_asm_opt_k3
  | MLKEM1024 => of_profile b polyvec_basemul_acc_montgomery_cached_asm_clean_k4
                              polyvec_basemul_acc_montgomery_cached_asm_opt_k4
  end.
Definition polyvec_basemul_acc_montgomery_cached_native (b : profile) (J : junk) (p : pset)
  (r : list Z) (a b' b_cache : list (list Z)) : M (list Z) :=
  call_x0 J (basemul_asm b p) 4
    [r; concat a; concat b'; concat b_cache; of_profile b polyvec_clean_const_addr polyvec_opt_const_addr].
(** lines 62-66: the same routine in both profiles *)
Definition poly_tobytes_native (J : junk) (r a : list Z) : M (list Z) :=
  w <- call_x0 J poly_tobytes_asm_clean 2 [words16 r; a; poly_clean_const_addr] ;;
  ret (unwords w).

(** ** ntt.c *)

(** ntt.c 152-157 *)
Definition poly_ntt_aarch64 (b : profile) (J : junk) (r : list Z) : M (list Z) :=
  POLY_BOUND r MLKEM_Q ;;;
  r <- ntt_native b J r ;;
  POLY_BOUND r (6 * MLKEM_Q) ;;;
  ret r.

(** ntt.c 239-243 *)
Definition poly_invntt_tomont_aarch64 (b : profile) (J : junk) (r : list Z) : M (list Z) :=
  r <- intt_native b J r ;;
  POLY_BOUND r (8 * MLKEM_Q) ;;;
  ret r.

(** ** poly.c *)

(** poly.c 300-304 *)
Definition poly_tobytes_aarch64 (J : junk) (r a : list Z) : M (list Z) :=
  POLY_UBOUND a MLKEM_Q ;;;
  poly_tobytes_native J r a.

(** poly.c 490-494 *)
Definition poly_tomont_aarch64 (b : profile) (J : junk) (r : list Z) : M (list Z) :=
  r <- poly_tomont_native b J r ;;
  POLY_BOUND r MLKEM_Q ;;;
  ret r.

(** poly.c 515-519 *)
Definition poly_reduce_aarch64 (b : profile) (J : junk) (r : list Z) : M (list Z) :=
  r <- poly_reduce_native b J r ;;
  POLY_UBOUND r MLKEM_Q ;;;
  ret r.

(** poly.c 561-567 *)
Definition poly_mulcache_compute_aarch64 (b : profile) (J : junk) (x a : list Z) : M (list Z) :=
  poly_mulcache_compute_native b J x a.

(** ** polyvec.c *)

(** polyvec.c 125-135 *)
Definition polyvec_basemul_acc_montgomery_cached_aarch64 (b : profile) (J : junk) (p : pset)
  (r : list Z) (a b' b_cache : list (list Z)) : M (list Z) :=
  POLYVEC_BOUND a MLKEM_Q ;;;
  POLYVEC_BOUND b' NTT_BOUND ;;;
  polyvec_basemul_acc_montgomery_cached_native b J p r a b' b_cache.

(** polyvec.c 38-45 *)
Definition polyvec_tobytes_aarch64 (J : junk) (p : pset) (r : list Z) (a : list (list Z))
  : M (list Z) :=
  for_up 0 (MLKEM_K p) 1 (fun i r =>
    ai <- aget a i ;;
    s <- aslice r (i * MLKEM_POLYBYTES) MLKEM_POLYBYTES ;;
    s <- poly_tobytes_aarch64 (sub J i) s ai ;;
    asplice r (i * MLKEM_POLYBYTES) s) r.

(** polyvec.c 56-63 *)
Definition polyvec_ntt_aarch64 (b : profile) (J : junk) (p : pset) (r : list (list Z))
  : M (list (list Z)) :=
  for_up 0 (MLKEM_K p) 1 (fun i r =>
    ri <- aget r i ;; ri <- poly_ntt_aarch64 b (sub J i) ri ;; aset r i ri) r.

(** polyvec.c 65-72 *)
Definition polyvec_invntt_tomont_aarch64 (b : profile) (J : junk) (p : pset) (r : list (list Z))
  : M (list (list Z)) :=
  for_up 0 (MLKEM_K p) 1 (fun i r =>
    ri <- aget r i ;; ri <- poly_invntt_tomont_aarch64 b (sub J i) ri ;; aset r i ri) r.

(** polyvec.c 165-172 *)
Definition polyvec_mulcache_compute_aarch64 (b : profile) (J : junk) (p : pset)
  (x a : list (list Z)) : M (list (list Z)) :=
  for_up 0 (MLKEM_K p) 1 (fun i x =>
    xi <- aget x i ;; ai <- aget a i ;;
    xi <- poly_mulcache_compute_aarch64 b (sub J i) xi ai ;; aset x i xi) x.

(** polyvec.c 148-153 *)
Definition polyvec_basemul_acc_montgomery_aarch64 (b : profile) (J : junk) (p : pset)
  (r : list Z) (a b' : list (list Z)) : M (list Z) :=
  let b_cache := uninit2 J 0 (MLKEM_K p) (MLKEM_N / 2) in
  b_cache <- polyvec_mulcache_compute_aarch64 b (sub J 1) p b_cache b' ;;
  polyvec_basemul_acc_montgomery_cached_aarch64 b (sub J 2) p r a b' b_cache.

(** polyvec.c 184-191 *)
Definition polyvec_reduce_aarch64 (b : profile) (J : junk) (p : pset) (r : list (list Z))
  : M (list (list Z)) :=
  for_up 0 (MLKEM_K p) 1 (fun i r =>
    ri <- aget r i ;; ri <- poly_reduce_aarch64 b (sub J i) ri ;; aset r i ri) r.

(** polyvec.c 202-209 *)
Definition polyvec_tomont_aarch64 (b : profile) (J : junk) (p : pset) (r : list (list Z))
  : M (list (list Z)) :=
  for_up 0 (MLKEM_K p) 1 (fun i r =>
    ri <- aget r i ;; ri <- poly_tomont_aarch64 b (sub J i) ri ;; aset r i ri) r.
