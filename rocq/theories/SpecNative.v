(** * The functions of the library that have native code, by backend *)

From Coq Require Import ZArith List.
From Verif Require Import ModelA64 ModelA64Poly ModelA64Rej.
From Verif Require Import CSem ModelArith ModelX86Poly ModelAvx2.
Open Scope Z_scope.

(** mlkem/native/profile.h: the backend of x86_64 with AVX2, and that of AArch64 with one of its
    two profiles *)
Inductive native : Type := Avx2 | Neon (b : profile).

(** Each function as it is built with the backend *)
Definition poly_ntt_on (n : native) (J : junk) (r : list Z) : M (list Z) :=
  match n with Avx2 => poly_ntt_x86_64 J r | Neon b => poly_ntt_aarch64 b J r end.
Definition poly_invntt_tomont_on (n : native) (J : junk) (r : list Z) : M (list Z) :=
  match n with Avx2 => poly_invntt_tomont_x86_64 J r | Neon b => poly_invntt_tomont_aarch64 b J r end.
Definition poly_reduce_on (n : native) (J : junk) (r : list Z) : M (list Z) :=
  match n with Avx2 => poly_reduce_x86_64 J r | Neon b => poly_reduce_aarch64 b J r end.
Definition poly_tomont_on (n : native) (J : junk) (r : list Z) : M (list Z) :=
  match n with Avx2 => poly_tomont_x86_64 J r | Neon b => poly_tomont_aarch64 b J r end.
Definition poly_mulcache_compute_on (n : native) (J : junk) (x a : list Z) : M (list Z) :=
  match n with Avx2 => poly_mulcache_compute_x86_64 x a | Neon b => poly_mulcache_compute_aarch64 b J x a end.
Definition poly_tobytes_on (n : native) (J : junk) (r a : list Z) : M (list Z) :=
  match n with Avx2 => poly_tobytes_x86_64 J r a | Neon _ => poly_tobytes_aarch64 J r a end.
(** AArch64 has no native code for this one *)
Definition poly_frombytes_on (n : native) (J : junk) (r a : list Z) : M (list Z) :=
  match n with Avx2 => poly_frombytes_x86_64 J r a | Neon _ => poly_frombytes r a end.

Definition polyvec_ntt_on (n : native) (J : junk) (p : pset) (r : list (list Z)) : M (list (list Z)) :=
  match n with Avx2 => polyvec_ntt_x86_64 J p r | Neon b => polyvec_ntt_aarch64 b J p r end.
Definition polyvec_invntt_tomont_on (n : native) (J : junk) (p : pset) (r : list (list Z))
  : M (list (list Z)) :=
  match n with
  | Avx2 => polyvec_invntt_tomont_x86_64 J p r
  | Neon b => polyvec_invntt_tomont_aarch64 b J p r
  end.
Definition polyvec_reduce_on (n : native) (J : junk) (p : pset) (r : list (list Z)) : M (list (list Z)) :=
  match n with Avx2 => polyvec_reduce_x86_64 J p r | Neon b => polyvec_reduce_aarch64 b J p r end.
Definition polyvec_tomont_on (n : native) (J : junk) (p : pset) (r : list (list Z)) : M (list (list Z)) :=
  match n with Avx2 => polyvec_tomont_x86_64 J p r | Neon b => polyvec_tomont_aarch64 b J p r end.
Definition polyvec_mulcache_compute_on (n : native) (J : junk) (p : pset) (x a : list (list Z))
  : M (list (list Z)) :=
  match n with
  | Avx2 => polyvec_mulcache_compute_x86_64 p x a
  | Neon b => polyvec_mulcache_compute_aarch64 b J p x a
  end.
Definition polyvec_tobytes_on (n : native) (J : junk) (p : pset) (r : list Z) (a : list (list Z))
  : M (list Z) :=
  match n with Avx2 => polyvec_tobytes_x86_64 J p r a | Neon _ => polyvec_tobytes_aarch64 J p r a end.
Definition polyvec_frombytes_on (n : native) (J : junk) (p : pset) (r : list (list Z)) (a : list Z)
  : M (list (list Z)) :=
  match n with Avx2 => polyvec_frombytes_x86_64 J p r a | Neon _ => polyvec_frombytes p r a end.
(** Without the debug checks of a and b (polyvec.c 129-132), which ask for more than the contract *)
Definition polyvec_basemul_acc_montgomery_cached_on (n : native) (J : junk) (p : pset) (r : list Z)
  (a b b_cache : list (list Z)) : M (list Z) :=
  match n with
  | Avx2 => polyvec_basemul_acc_montgomery_cached_avx2 J p r a b
  | Neon f => ModelA64Poly.polyvec_basemul_acc_montgomery_cached_native f J p r a b b_cache
  end.
Definition rej_uniform_on (n : native) (J : junk) (r : list Z) (target offset : Z) (buf : list Z)
  (buflen : Z) : M (list Z * Z) :=
  match n with
  | Avx2 => rej_uniform_x86_64 J r target offset buf buflen
  | Neon _ => rej_uniform_aarch64 J r target offset buf buflen
  end.
(** The native routine of arith_native.h 190-207 itself, without the debug check of its caller *)
Definition tobytes_routine (n : native) (J : junk) (r a : list Z) : M (list Z) :=
  match n with
  | Avx2 => (w <- call_rdi J ModelX86Asm.ntttobytes_avx2 (cons (words16 r) (cons a (cons ModelX86Asm.qdata nil))) ;;
            ret (unwords w))%list
  | Neon _ => ModelA64Poly.poly_tobytes_native J r a
  end.
