(** * The x86_64 vector instructions used by mlkem/native/x86_64/*.S

    The assembly routines of the x86_64 backend are straight-line programs over the
    256-bit registers ymm0..ymm15. This file defines the instructions they use and what
    an instruction does; ModelX86Asm.v transcribes the routines.

    The meaning of an instruction is not part of the repository: it is modelled after
    Intel's description of the instruction set, and is part of the trusted base.
    Operands are in the order of the source files (AT&T syntax): the destination is last.

    A register is the list of its 16 words of 16 bits, lowest first. All instructions
    used move whole words or compute on them one by one, so the interpreter is written
    for words of any type [A] with a state [S] that the operations on words may use.
    The machine itself is the instance [machine] below: words are signed 16-bit
    integers and there is no state. The other instances only serve in proofs.

    Not modelled: the flags, the contents of the general-purpose registers other than
    the pointers in [gpr], the return address. Calls within a file are transcribed by
    inserting the callee. [None] is a fault: an access out of bounds or a misaligned
    vmovdqa, or an operand that the routines do not use and that is not modelled. *)

From Coq Require Import ZArith List Bool.
From Verif Require Import CSem.
Import ListNotations.
Open Scope Z_scope.

(** ** Syntax *)

Inductive gpr : Type := rdi | rsi | rdx | rcx | r9 | rsp.
Definition gpr_eqb (a b : gpr) : bool :=
  match a, b with
  | rdi, rdi | rsi, rsi | rdx, rdx | rcx, rcx | r9, r9 | rsp, rsp => true
  | _, _ => false
  end.

(** Operations on two words, and shifts of a word by a constant *)
Inductive word_op : Type := Add | Sub | Mullo | Mulhi | And | Or.
Inductive shift_op : Type := Sra | Srl | Sll.

(** A source operand: a register or [d(%b)] *)
Inductive operand : Type := Y (n : nat) | Mem (b : gpr) (d : Z).

Inductive instr : Type :=
| load (aligned : bool) (b : gpr) (d : Z) (dst : nat)
| store (aligned : bool) (src : nat) (b : gpr) (d : Z)
| vpop (o : word_op) (s2 : operand) (s1 dst : nat)
| vpshift (o : shift_op) (n : Z) (src dst : nat)
| vpslld (n : Z) (src dst : nat)
| vpsrld (n : Z) (src dst : nat)
| vpsrlq (n : Z) (src dst : nat)
| vpblendw (imm : Z) (s2 s1 dst : nat)
| vpblendd (imm : Z) (s2 s1 dst : nat)
| vperm2i128 (imm : Z) (s2 s1 dst : nat)
| vpunpcklqdq (s2 s1 dst : nat)
| vpunpckhqdq (s2 s1 dst : nat)
| vmovsldup (src dst : nat)
| vpermq (imm : Z) (src : operand) (dst : nat)
| vpermd (src : operand) (ctl dst : nat)
| vpshufb (ctl src dst : nat)
| vpbroadcastq (b : gpr) (d : Z) (dst : nat)
| lea (b : gpr) (d : Z) (dst : gpr)
| add_imm (n : Z) (dst : gpr).

(** The mnemonics of the source files *)
Definition vmovdqa_ld := load true.
Definition vmovdqa_st := store true.
Definition vmovdqu_ld := load false.
Definition vmovdqu_st := store false.
Definition vpaddw s2 s1 dst := vpop Add (Y s2) s1 dst.
Definition vpsubw s2 s1 dst := vpop Sub (Y s2) s1 dst.
Definition vpsubw_mem b d s1 dst := vpop Sub (Mem b d) s1 dst.
Definition vpmullw s2 s1 dst := vpop Mullo (Y s2) s1 dst.
Definition vpmulhw s2 s1 dst := vpop Mulhi (Y s2) s1 dst.
Definition vpand s2 s1 dst := vpop And (Y s2) s1 dst.
Definition vpor s2 s1 dst := vpop Or (Y s2) s1 dst.
Definition vpsraw := vpshift Sra.
Definition vpsrlw := vpshift Srl.
Definition vpsllw := vpshift Sll.

(** ** Moving words *)

(** Block number [i] of [k] words *)
Definition block {A} (k i : nat) (v : list A) : list A := firstn k (skipn (k * i) v).

Definition do_vperm2i128 {A} (imm : Z) (b a : list A) : list A :=
  let half i := if i mod 4 <? 2 then block 8 (Z.to_nat (i mod 4)) a
                else block 8 (Z.to_nat (i mod 4 - 2)) b in
  half imm ++ half (imm / 16).
Definition do_vpunpcklqdq {A} (b a : list A) : list A :=
  block 4 0 a ++ block 4 0 b ++ block 4 2 a ++ block 4 2 b.
Definition do_vpunpckhqdq {A} (b a : list A) : list A :=
  block 4 1 a ++ block 4 1 b ++ block 4 3 a ++ block 4 3 b.
Definition do_vmovsldup {A} (a : list A) : list A :=
  flat_map (fun i => block 2 (2 * i) a ++ block 2 (2 * i) a) (seq 0 4).
Definition do_vpblendd {A} (imm : Z) (b a : list A) : list A :=
  flat_map (fun i => block 2 i (if Z.testbit imm (Z.of_nat i) then b else a)) (seq 0 8).
Definition do_vpblendw {A} (imm : Z) (b a : list A) : list A :=
  flat_map (fun i => block 1 i (if Z.testbit imm (Z.of_nat i mod 8) then b else a)) (seq 0 16).
(** Shifts of 32-bit elements by 16 and of 64-bit elements by 32, the only ones used *)
Definition do_vpslld16 {A} (zero : A) (a : list A) : list A :=
  flat_map (fun i => zero :: block 1 (2 * i) a) (seq 0 8).
Definition do_vpsrld16 {A} (zero : A) (a : list A) : list A :=
  flat_map (fun i => block 1 (2 * i + 1) a ++ [zero]) (seq 0 8).
Definition do_vpsrlq32 {A} (zero : A) (a : list A) : list A :=
  flat_map (fun i => block 2 (2 * i + 1) a ++ [zero; zero]) (seq 0 4).
Definition do_vpermq {A} (imm : Z) (a : list A) : list A :=
  flat_map (fun i => block 4 (Z.to_nat (imm / 4 ^ Z.of_nat i mod 4)) a) (seq 0 4).
(** [c]: the 16 control words. The 32-bit element [i] of the result is the element of
    [a] whose number is the low 3 bits of the 32-bit element [i] of [c]. *)
Definition do_vpermd {A} (c : list Z) (a : list A) : list A :=
  flat_map (fun i => block 2 (Z.to_nat (nth (2 * i) c 0 mod 8)) a) (seq 0 8).
(** [c]: the 16 control words. Byte [i] of a half of the result is the byte of the same
    half of [a] given by byte [i] of [c]. Only controls that move whole words are
    modelled: the low control byte is an even number below 16, the high one its
    successor. *)
Definition do_vpshufb {A} (c : list Z) (a : list A) : option (list A) :=
  if forallb (fun x => (0 <=? x) && (x mod 256 <? 16) && (x mod 2 =? 0)
                       && (x / 256 =? x mod 256 + 1)) c
  then Some (flat_map (fun i => block 1 (8 * (i / 8) + Z.to_nat (nth i c 0 mod 256 / 2)) a)
                      (seq 0 16))
  else None.

(** ** The interpreter *)

Record domain (A S : Type) : Type := Domain {
  d_op : word_op -> A -> A -> S -> A * S;
  d_shift : shift_op -> Z -> A -> S -> A * S;
  d_zero : S -> A * S;
  d_ctl : S -> A -> option Z   (* the value of a control word *)
}.
Arguments Domain {A S}.
Arguments d_op {A S}.
Arguments d_shift {A S}.
Arguments d_zero {A S}.
Arguments d_ctl {A S}.

(** Memory is a list of arrays of words, each aligned to 32 bytes; a pointer is the number
    of an array and an offset in bytes. [trace] lists the addresses accessed, the last
    one first. *)
Record state (A : Type) : Type := State {
  ymm : list (list A);
  ptr : gpr -> nat * Z;
  mem : list (list A);
  trace : list (nat * Z)
}.
Arguments State {A}.
Arguments ymm {A}.
Arguments ptr {A}.
Arguments mem {A}.
Arguments trace {A}.

Definition obind {A B} (m : option A) (f : A -> option B) : option B :=
  match m with Some a => f a | None => None end.
Notation "x <-? m ;; k" := (obind m (fun x => k))
  (at level 61, m at next level, right associativity).
Notation "' p <-? m ;; k" := (obind m (fun x => let p := x in k))
  (at level 61, p pattern, m at next level, right associativity).

Fixpoint replace_nth {A} (n : nat) (x : A) (l : list A) : list A :=
  match l, n with
  | [], _ => []
  | _ :: t, O => x :: t
  | y :: t, Datatypes.S n => y :: replace_nth n x t
  end.

Section Interpreter.
Context {A S : Type} (D : domain A S).

Fixpoint lanes2 (f : A -> A -> S -> A * S) (a b : list A) (s : S) : list A * S :=
  match a, b with
  | x :: a, y :: b => let '(z, s) := f x y s in let '(r, s) := lanes2 f a b s in (z :: r, s)
  | _, _ => ([], s)
  end.
Fixpoint lanes1 (f : A -> S -> A * S) (a : list A) (s : S) : list A * S :=
  match a with
  | x :: a => let '(z, s) := f x s in let '(r, s) := lanes1 f a s in (z :: r, s)
  | [] => ([], s)
  end.
Fixpoint controls (s : S) (a : list A) : option (list Z) :=
  match a with
  | x :: a => c <-? d_ctl D s x ;; r <-? controls s a ;; Some (c :: r)
  | [] => Some []
  end.

(** The address [d(%b)]: the array and the index of its word. Every access used is at an
    even offset; [n] words must be in bounds. *)
Definition address (st : state A) (al : Z) (n : nat) (b : gpr) (d : Z) : option (nat * nat * list A) :=
  let '(a, off) := ptr st b in
  m <-? nth_error (mem st) a ;;
  if ((off + d) mod al =? 0) && (0 <=? off + d) && ((off + d) / 2 + Z.of_nat n <=? Z.of_nat (length m))
  then Some (a, Z.to_nat ((off + d) / 2), m) else None.
Definition touch (st : state A) (b : gpr) (d : Z) : state A :=
  let '(a, off) := ptr st b in State (ymm st) (ptr st) (mem st) ((a, off + d) :: trace st).

Definition align_of (aligned : bool) : Z := if aligned then 32 else 2.
Definition read (st : state A) (aligned : bool) (n : nat) (b : gpr) (d : Z) : option (list A * state A) :=
  '(a, i, m) <-? address st (align_of aligned) n b d ;;
  Some (firstn n (skipn i m), touch st b d).
Definition write (st : state A) (aligned : bool) (b : gpr) (d : Z) (v : list A) : option (state A) :=
  '(a, i, m) <-? address st (align_of aligned) (length v) b d ;;
  let st := touch st b d in
  Some (State (ymm st) (ptr st)
              (replace_nth a (firstn i m ++ v ++ skipn (i + length v) m) (mem st)) (trace st)).

Definition reg (st : state A) (n : nat) : option (list A) := nth_error (ymm st) n.
Definition set_reg (st : state A) (n : nat) (v : list A) : option (state A) :=
  if (n <? length (ymm st))%nat
  then Some (State (replace_nth n v (ymm st)) (ptr st) (mem st) (trace st)) else None.
Definition set_ptr (st : state A) (g : gpr) (p : nat * Z) : state A :=
  State (ymm st) (fun x => if gpr_eqb x g then p else ptr st x) (mem st) (trace st).
Definition source (st : state A) (o : operand) : option (list A * state A) :=
  match o with
  | Y n => v <-? reg st n ;; Some (v, st)
  | Mem b d => read st false 16 b d
  end.

Definition move1 (st : state A) (s : S) (f : list A -> list A) (src dst : nat) :=
  a <-? reg st src ;; st <-? set_reg st dst (f a) ;; Some (st, s).
Definition move2 (st : state A) (s : S) (f : list A -> list A -> list A) (s2 s1 dst : nat) :=
  b <-? reg st s2 ;; a <-? reg st s1 ;; st <-? set_reg st dst (f b a) ;; Some (st, s).

Definition exec (i : instr) (st : state A) (s : S) : option (state A * S) :=
  match i with
  | load al b d dst =>
      '(v, st) <-? read st al 16 b d ;; st <-? set_reg st dst v ;; Some (st, s)
  | store al src b d =>
      v <-? reg st src ;; st <-? write st al b d v ;; Some (st, s)
  | vpop o s2 s1 dst =>
      '(b, st) <-? source st s2 ;;
      a <-? reg st s1 ;;
      let '(r, s) := lanes2 (d_op D o) a b s in
      st <-? set_reg st dst r ;; Some (st, s)
  | vpshift o n src dst =>
      a <-? reg st src ;;
      let '(r, s) := lanes1 (d_shift D o n) a s in
      st <-? set_reg st dst r ;; Some (st, s)
  | vpslld n src dst =>
      if n =? 16 then let '(z, s) := d_zero D s in move1 st s (do_vpslld16 z) src dst else None
  | vpsrld n src dst =>
      if n =? 16 then let '(z, s) := d_zero D s in move1 st s (do_vpsrld16 z) src dst else None
  | vpsrlq n src dst =>
      if n =? 32 then let '(z, s) := d_zero D s in move1 st s (do_vpsrlq32 z) src dst else None
  | vpblendw imm s2 s1 dst => move2 st s (do_vpblendw imm) s2 s1 dst
  | vpblendd imm s2 s1 dst => move2 st s (do_vpblendd imm) s2 s1 dst
  | vperm2i128 imm s2 s1 dst => move2 st s (do_vperm2i128 imm) s2 s1 dst
  | vpunpcklqdq s2 s1 dst => move2 st s do_vpunpcklqdq s2 s1 dst
  | vpunpckhqdq s2 s1 dst => move2 st s do_vpunpckhqdq s2 s1 dst
  | vmovsldup src dst => move1 st s do_vmovsldup src dst
  | vpermq imm src dst =>
      '(a, st) <-? source st src ;; st <-? set_reg st dst (do_vpermq imm a) ;; Some (st, s)
  | vpermd src ctl dst =>
      '(a, st) <-? source st src ;;
      c <-? reg st ctl ;; c <-? controls s c ;;
      st <-? set_reg st dst (do_vpermd c a) ;; Some (st, s)
  | vpshufb ctl src dst =>
      a <-? reg st src ;;
      c <-? reg st ctl ;; c <-? controls s c ;;
      r <-? do_vpshufb c a ;;
      st <-? set_reg st dst r ;; Some (st, s)
  | vpbroadcastq b d dst =>
      '(v, st) <-? read st false 4 b d ;;
      st <-? set_reg st dst (v ++ v ++ v ++ v) ;; Some (st, s)
  | lea b d dst => let '(a, off) := ptr st b in Some (set_ptr st dst (a, off + d), s)
  | add_imm n dst => let '(a, off) := ptr st dst in Some (set_ptr st dst (a, off + n), s)
  end.

Fixpoint run (p : list instr) (st : state A) (s : S) : option (state A * S) :=
  match p with
  | [] => Some (st, s)
  | i :: p => '(st, s) <-? exec i st s ;; run p st s
  end.
End Interpreter.

(** ** The machine: words are int16_t *)

Definition word_sem (o : word_op) (a b : Z) : Z :=
  match o with
  | Add => s16 (a + b)
  | Sub => s16 (a - b)
  | Mullo => s16 (a * b)
  | Mulhi => a * b / 65536
  | And => Z.land a b
  | Or => Z.lor a b
  end.
Definition shift_sem (o : shift_op) (n : Z) (a : Z) : Z :=
  match o with
  | Sra => a / 2 ^ n
  | Srl => s16 (u16 a / 2 ^ n)
  | Sll => s16 (a * 2 ^ n)
  end.
Definition machine : domain Z unit :=
  Domain (fun o a b s => (word_sem o a b, s)) (fun o n a s => (shift_sem o n a, s))
         (fun s => (0, s)) (fun _ a => Some a).

(** A run of [p]: arrays after it, given the contents of the vector registers, the
    pointers and the arrays before it *)
Definition run_words (p : list instr) (regs : list (list Z)) (ptrs : gpr -> nat * Z)
    (arrays : list (list Z)) : option (state Z) :=
  '(st, _) <-? run machine p (State regs ptrs arrays []) tt ;; Some st.

(** Pointer arguments are passed in rdi, rsi, rdx, rcx (System V ABI) and point to the start
    of the arrays 0 to 3; rsp points to a scratch slot, the array 4. r9 does not hold an
    argument. *)
Definition args (g : gpr) : nat * Z :=
  match g with
  | rdi => (0%nat, 0)
  | rsi => (1%nat, 0)
  | rdx => (2%nat, 0)
  | rcx => (3%nat, 0)
  | rsp => (4%nat, 0)
  | r9 => (5%nat, 0)
  end.
