(** * The calling convention (System V ABI) for the assembly of the x86_64 backend (C61) *)

From Coq Require Import ZArith List.
From Verif Require Import ModelX86 ModelX86Abi Spec202 SpecX86Frame.
Import ListNotations.
Open Scope Z_scope.

(** The instructions are at different addresses. *)
Definition placed (loc : placement) : Prop :=
  forall l k, (k < length (code l))%nat -> 0 <= loc l k < 2 ^ 64 /\
  forall l' k', (k' < length (code l'))%nat -> loc l k = loc l' k' -> l = l' /\ k = k'.

(** The 16-bit words, or the bytes, in memory from the address [a] on *)
Definition holds (m : memory) (a : Z) (w : list Z) : Prop := get_words m a (length w) = Some w.
Definition holds_bytes (m : memory) (a : Z) (b : list Z) : Prop :=
  forall i, 0 <= i < zlen b -> m (a + i) = Some (at_ b i).

(** A buffer that a register points to: its size in bytes, and whether the C code aligns it to
    32 bytes. A poly is aligned (poly.h 28), and so are the constants (consts.h 39, align.h); an
    array of bytes is not. *)
Definition buffer : Type := reg64 * Z * bool.
Definition poly (r : reg64) : buffer := (r, 512, true).
Definition consts (r : reg64) : buffer := (r, 1280, true).
Definition byte_array (r : reg64) : buffer := (r, 384, false).
Definition from_to (s : cpu) (b : buffer) : Z * Z := let '(r, n, _) := b in (gp s r, gp s r + n).
Definition apart (x y : Z * Z) : Prop := snd x <= fst y \/ snd y <= fst x.

(** The state when the first instruction of a routine is about to be executed. The caller has pushed
    the return address [ra], which is not in the routines themselves; below it there are 64 bytes of
    stack. The buffers do not overlap each other or this part of the stack. Registers and the rest of memory
    hold anything. *)
Record enters (loc : placement) (l : label) (ra : Z) (bufs : list buffer) (s : cpu) : Prop := {
  at_entry : rip s = loc l 0%nat;
  registers : forall r, 0 <= gp s r < 2 ^ 64;
  vectors : vector_registers (vec s);
  byte_memory : forall a v, ram s a = Some v -> 0 <= a < 2 ^ 64 /\ 0 <= v < 256;
  return_address : get64 (ram s) (gp s RSP) = Some ra;
  caller_elsewhere : forall l k, (k < length (code l))%nat -> loc l k <> ra;
  stack_space : forall a, gp s RSP - 64 <= a < gp s RSP -> ram s a <> None;
  no_overlap : ForallOrdPairs apart ((gp s RSP - 64, gp s RSP + 8) :: map (from_to s) bufs);
  alignment : Forall (fun '(r, _, al) => al = true -> gp s r mod 32 = 0) bufs
}.

(** The state when the caller goes on: the stack pointer is where it was before the call, the
    registers that belong to the caller have their values, and memory has changed at most in the [n]
    bytes from [out] on and below the stack pointer. *)
Definition callee_saved : list reg64 := [RBX; RBP; R12; R13; R14; R15].
Definition returned (ra out n : Z) (s s' : cpu) : Prop :=
  rip s' = ra /\ gp s' RSP = (gp s RSP + 8) mod 2 ^ 64 /\ Forall (fun r => gp s' r = gp s r) callee_saved /\
  forall a, ~ (out <= a < out + n) -> ~ (gp s RSP - 64 <= a < gp s RSP) -> ram s' a = ram s a.

(** The machine gets from [s] to [s'], and whatever it does from [s] on, it is on the way to [s']. *)
Definition leads_to (loc : placement) (s s' : cpu) : Prop :=
  runs loc s s' /\ forall t, runs loc s t -> runs loc t s'.
