(** * Frames of the assembly routines of the AArch64 backend *)

From Coq Require Import ZArith List.
From Verif Require Import CSem ModelA64 ModelA64Asm ModelArith ModelA64Poly Spec202.
Import ListNotations.
Open Scope Z_scope.

(** v0 to v31 hold anything. *)
Definition vector_registers (regs : list (list Z)) : Prop :=
  zlen regs = 32 /\ Forall (fun r => zlen r = 8) regs.

(** The general-purpose registers at a call: x0, x1, ... point to the [n] argument arrays
    (numbers 1 to [n]), sp to the end of the 64 bytes of stack in array 0, and x18 to x30 hold
    the words [saved], which the routine has to preserve. *)
Definition call_registers (n : nat) (saved : list Z) : list (xval Z) :=
  map (fun i => if (i <? n)%nat then Ptr (i + 1) 0
                else if (i =? 31)%nat then Ptr 0 64
                else if (i <? 18)%nat then Any else Word (nth (i - 18) saved 0)) (seq 0 32).

(** What an array is for, with its number of words *)
Inductive role : Type :=
| Out (n : Z)             (* the result *)
| In_ (n : Z)             (* an argument that is only read *)
| Table (l : list Z).     (* constants *)
Definition fills (r : role) (m : list Z) : Prop :=
  match r with
  | Out n | In_ n => zlen m = n
  | Table l => m = l
  end.
(** The array before and after *)
Definition kept (r : role) (m m' : list Z) : Prop :=
  match r with
  | Out n => zlen m' = n
  | In_ _ | Table _ => m' = m
  end.
Fixpoint all_kept (rs : list role) (ms ms' : list (list Z)) : Prop :=
  match rs, ms, ms' with
  | [], [], [] => True
  | r :: rs, m :: ms, m' :: ms' => kept r m m' /\ all_kept rs ms ms'
  | _, _, _ => False
  end.
(** The low 64 bits of a vector register *)
Definition low_half (regs : list (list Z)) (i : nat) : list Z := firstn 4 (nth i regs []).

(** The routines of a profile: number of arguments and arrays *)
Definition basemul_routine (b : profile) (p : pset) : list block * nat * list role :=
  let k := MLKEM_K p in
  (basemul_asm b p, 4%nat, [Out 256; In_ (256 * k); In_ (256 * k); In_ (128 * k);
                             Table (of_profile b polyvec_clean_const_addr polyvec_opt_const_addr)]).
Definition routines (b : profile) : list (list block * nat * list role) :=
  [(of_profile b ntt_asm_clean ntt_asm_opt, 3%nat,
     [Out 256; Table aarch64_ntt_zetas_layer01234; Table aarch64_ntt_zetas_layer56;
      Table (of_profile b ntt_clean_const_addr ntt_opt_const_addr)]);
   (of_profile b intt_asm_clean intt_asm_opt, 3%nat,
     [Out 256; Table aarch64_invntt_zetas_layer01234; Table aarch64_invntt_zetas_layer56;
      Table (of_profile b intt_clean_const_addr intt_opt_const_addr);
      Table (of_profile b intt_clean_ninv_addr intt_opt_ninv_addr);
      Table (of_profile b intt_clean_ninv_tw_addr intt_opt_ninv_tw_addr)]);
   (of_profile b poly_reduce_asm_clean poly_reduce_asm_opt, 1%nat,
     [Out 256; Table (poly_const_addr b)]);
   (of_profile b poly_tomont_asm_clean poly_tomont_asm_opt, 1%nat,
     [Out 256; Table (poly_const_addr b)]);
   (of_profile b poly_mulcache_compute_asm_clean poly_mulcache_compute_asm_opt, 4%nat,
     [Out 128; In_ 256; Table aarch64_zetas_mulcache_native;
      Table aarch64_zetas_mulcache_twisted_native; Table (poly_const_addr b)]);
   (of_profile b poly_tobytes_asm_clean poly_tobytes_asm_opt, 2%nat,
     [Out 192; In_ 256; Table (poly_const_addr b)]);
   basemul_routine b MLKEM512; basemul_routine b MLKEM768; basemul_routine b MLKEM1024].
