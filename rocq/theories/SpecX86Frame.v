(** * Frames of the assembly routines of the x86_64 backend *)

From Coq Require Import ZArith List.
From Verif Require Import ModelX86 ModelX86Asm Spec202.
Import ListNotations.
Open Scope Z_scope.

Definition int16 (x : Z) : Prop := - 2 ^ 15 <= x < 2 ^ 15.
(** ymm0 to ymm15 hold any words. *)
Definition vector_registers (regs : list (list Z)) : Prop :=
  zlen regs = 16 /\ Forall (fun r => zlen r = 16 /\ Forall int16 r) regs.

(** What an array is for, with its number of words *)
Inductive role : Type :=
| Out (n : Z)      (* the result *)
| In_ (n : Z)      (* an argument that is only read *)
| Table            (* the constants qdata *)
| Scratch (n : Z). (* the stack slot *)
Definition fills (r : role) (m : list Z) : Prop :=
  match r with
  | Out n | In_ n | Scratch n => zlen m = n /\ Forall int16 m
  | Table => m = qdata
  end.
(** The array before and after *)
Definition kept (r : role) (m m' : list Z) : Prop :=
  match r with
  | Out n | Scratch n => zlen m' = n /\ Forall int16 m'
  | In_ _ | Table => m' = m
  end.
Fixpoint all_kept (rs : list role) (ms ms' : list (list Z)) : Prop :=
  match rs, ms, ms' with
  | [], [], [] => True
  | r :: rs, m :: ms, m' :: ms' => kept r m m' /\ all_kept rs ms ms'
  | _, _, _ => False
  end.

(** The routines, and the arrays that rdi, rsi, rdx, rcx and rsp point to *)
Definition routines : list (list instr * list role) :=
  [(ntt_avx2, [Out 256; Table]); (invntt_avx2, [Out 256; Table]);
   (nttpack_avx2, [Out 256; Table]); (nttunpack_avx2, [Out 256; Table]);
   (reduce_avx2, [Out 256; Table]); (tomont_avx2, [Out 256; Table]);
   (ntttobytes_avx2, [Out 192; In_ 256; Table]); (nttfrombytes_avx2, [Out 256; In_ 192; Table]);
   (basemul_avx2, [Out 256; In_ 256; In_ 256; Table; Scratch 16])].
