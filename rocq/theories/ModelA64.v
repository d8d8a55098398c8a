(** * The AArch64 instructions used by mlkem/native/aarch64/*.S

    The routines of the AArch64 backend (all but rej_uniform_asm_clean.S, see
    ModelA64Rej.v) are programs over the 128-bit registers v0..v31 with loops whose number
    of rounds is fixed. This file defines the instructions they use and what an
    instruction does; ModelA64Asm.v lists the routines.

    The meaning of an instruction is not part of the repository: it is modelled after
    Arm's description of the instruction set, and is part of the trusted base.
    Operands are in the order of the source files: the destination is first.

    A vector register is the list of its 8 words of 16 bits, lowest first. All
    instructions used move whole words or compute on words, pairs of words or the bytes
    of words, so the interpreter is written for words of any type [A] with a state [S]
    that the operations on words may use. The machine itself is the instance [machine]
    below: words are signed 16-bit integers and there is no state. The other instances
    only serve in proofs.

    Not modelled: the flags (subs is sub), the return address and the instruction ret.
    [None] is a fault: an access out of bounds, or an operand that the routines do not
    use and that is not modelled. *)

From Coq Require Import ZArith List Bool.
From Verif Require Import CSem.
Import ListNotations.
Open Scope Z_scope.

(** ** Syntax *)

(** General-purpose registers x0..x30 and sp (number 31), vector registers v0..v31 *)
Definition xreg : Type := nat.
Definition vreg : Type := nat.

(** Operations on two words *)
Inductive word_op : Type :=
| Add | Sub | Mul | Sqdmulh | Sqrdmulh | And
| Shrn (n : Z)        (* two words shifted right by n and narrowed to bytes *)
| Sli8 (n : Z)        (* shift left and insert, on each byte *)
| Bytes (h h' : bool) (* a byte of the one and a byte of the other; true: the high one *).
(** Shifts of a word by a constant *)
Inductive shift_op : Type := Sshr | Srshr.

(** A source operand: a register [v.8h] or one word of a register in all lanes, [v.h[i]] *)
Inductive operand : Type := All (v : vreg) | Lane (v : vreg) (i : nat).

(** An address: [[x, #n]], or [[x], #n], which adds n to x after the access *)
Inductive amode : Type := Off (n : Z) | Post (n : Z).

Inductive instr : Type :=
| ldr_q (d : vreg) (b : xreg) (m : amode)
| str_q (s : vreg) (b : xreg) (m : amode)
| ldp_d (d1 d2 : vreg) (b : xreg) (n : Z)
| stp_d (s1 s2 : vreg) (b : xreg) (n : Z)
| ld1r_8h (d : vreg) (b : xreg)
| ld2_8h (d1 d2 : vreg) (b : xreg) (m : amode)
| st2_8h (s1 s2 : vreg) (b : xreg) (m : amode)
| st3_8b (s1 s2 s3 : vreg) (b : xreg) (m : amode)
| st4_4s (s1 s2 s3 s4 : vreg) (b : xreg) (m : amode)
| vop (o : word_op) (d a : vreg) (b : operand)
| mls_ (d a : vreg) (b : operand)
| vshift (o : shift_op) (d a : vreg) (n : Z)
| uzp1_8h (d a b : vreg)
| uzp2_8h (d a b : vreg)
| trn1_4s (d a b : vreg)
| trn2_4s (d a b : vreg)
| trn1_2d (d a b : vreg)
| trn2_2d (d a b : vreg)
| smull (d a b : vreg)
| smull2 (d a b : vreg)
| smlal (d a b : vreg)
| smlal2 (d a b : vreg)
| shrn_8b (d a : vreg) (n : Z)
| sli_8b (d a : vreg) (n : Z)
| dup_8h (d : vreg) (s : xreg)
| ldrh_ (d : xreg) (b : xreg) (n : Z)
| mov_imm (d : xreg) (n : Z)
| mov (d s : xreg)
| add_imm (d s : xreg) (n : Z)
| adr (d : xreg) (a : nat).

(** The mnemonics of the source files *)
Definition ld1_8h := ldr_q.
Definition add d a b := vop Add d a (All b).
Definition sub d a b := vop Sub d a (All b).
Definition and_16b d a b := vop And d a (All b).
Definition mul d a b := vop Mul d a (All b).
Definition mul_h d a b i := vop Mul d a (Lane b i).
Definition sqdmulh_h d a b i := vop Sqdmulh d a (Lane b i).
Definition sqrdmulh d a b := vop Sqrdmulh d a (All b).
Definition sqrdmulh_h d a b i := vop Sqrdmulh d a (Lane b i).
Definition mls_h d a b i := mls_ d a (Lane b i).
Definition sshr := vshift Sshr.
Definition srshr := vshift Srshr.
Definition xtn_8b d a := shrn_8b d a 0.
Definition sub_imm d s n := add_imm d s (- n).
(** dup reads only the 16 low bits, in which the two loads agree. *)
Definition ldrsh := ldrh_.
Definition ldrh := ldrh_.

(** A routine is a list of blocks. [Loop l c] is "label: l; cbnz c, label". *)
Inductive block : Type := Straight (l : list instr) | Loop (l : list instr) (c : xreg).

(** ** Moving words *)

(** Block number [i] of [k] words *)
Definition part_of {A} (k i : nat) (v : list A) : list A := firstn k (skipn (k * i) v).
(** The elements of [k] words of [a] with an even number ([r] = 0) or odd number ([r] = 1) *)
Definition do_uzp {A} (k r n : nat) (a b : list A) : list A :=
  flat_map (fun i => part_of k (2 * i + r) (a ++ b)) (seq 0 n).
Definition do_trn {A} (k r n : nat) (a b : list A) : list A :=
  flat_map (fun i => part_of k (2 * i + r) a ++ part_of k (2 * i + r) b) (seq 0 n).
(** The elements of [k] words of several registers in turn *)
Definition interleave {A} (k n : nat) (l : list (list A)) : list A :=
  flat_map (fun i => flat_map (part_of k i) l) (seq 0 n).
(** Every second word, from word [r] on *)
Definition deinterleave {A} (r : nat) (m : list A) : list A :=
  flat_map (fun i => part_of 1 (2 * i + r) m) (seq 0 8).

(** ** The interpreter *)

Record domain (A S : Type) : Type := Domain {
  d_op : word_op -> A -> A -> S -> A * S;
  d_shift : shift_op -> Z -> A -> S -> A * S;
  d_const : Z -> S -> A * S;
  (* 32-bit lanes, as a low and a high word: the product of two words, and its sum with a lane *)
  d_smull : A -> A -> S -> (A * A) * S;
  d_smlal : A -> A -> A -> A -> S -> (A * A) * S
}.
Arguments Domain {A S}.
Arguments d_op {A S}.
Arguments d_shift {A S}.
Arguments d_const {A S}.
Arguments d_smull {A S}.
Arguments d_smlal {A S}.

(** What a general-purpose register holds: a number, a pointer (the number of an array and an
    offset in bytes), a word that was loaded from memory, or anything *)
Inductive xval (A : Type) : Type := Int (n : Z) | Ptr (a : nat) (off : Z) | Word (x : A) | Any.
Arguments Int {A}.
Arguments Ptr {A}.
Arguments Word {A}.
Arguments Any {A}.

(** Memory is a list of arrays of words. [trace] lists the addresses accessed, the last one
    first. *)
Record state (A : Type) : Type := State {
  vregs : list (list A);
  xregs : list (xval A);
  mem : list (list A);
  trace : list (nat * Z)
}.
Arguments State {A}.
Arguments vregs {A}.
Arguments xregs {A}.
Arguments mem {A}.
Arguments trace {A}.

Definition obind {A B} (m : option A) (f : A -> option B) : option B :=
  match m with Some a => f a | None => None end.
Notation "x <-? m ;; k" := (obind m (fun x => k))
  (at level 61, m at next level, right associativity).
Notation "' p <-? m ;; k" := (obind m (fun x => let p := x in k))
  (at level 61, p pattern, m at next level, right associativity).

Fixpoint replace_nth {A} (n : nat) (x : A) (l : list A) : list A :=
  match l, n with
  | [], _ => []
  | _ :: t, O => x :: t
  | y :: t, Datatypes.S n => y :: replace_nth n x t
  end.

Section Interpreter.
Context {A S : Type} (D : domain A S).

Fixpoint lanes2 (f : A -> A -> S -> A * S) (a b : list A) (s : S) : list A * S :=
  match a, b with
  | x :: a, y :: b => let '(z, s) := f x y s in let '(r, s) := lanes2 f a b s in (z :: r, s)
  | _, _ => ([], s)
  end.
Fixpoint lanes1 (f : A -> S -> A * S) (a : list A) (s : S) : list A * S :=
  match a with
  | x :: a => let '(z, s) := f x s in let '(r, s) := lanes1 f a s in (z :: r, s)
  | [] => ([], s)
  end.
Fixpoint wide2 (a b : list A) (s : S) : list A * S :=
  match a, b with
  | x :: a, y :: b =>
      let '((l, h), s) := d_smull D x y s in
      let '(r, s) := wide2 a b s in (l :: h :: r, s)
  | _, _ => ([], s)
  end.
Fixpoint wide3 (c a b : list A) (s : S) : list A * S :=
  match c, a, b with
  | cl :: ch :: c, x :: a, y :: b =>
      let '((l, h), s) := d_smlal D cl ch x y s in
      let '(r, s) := wide3 c a b s in (l :: h :: r, s)
  | _, _, _ => ([], s)
  end.
(** The words of [a] two by two *)
Fixpoint pairs (f : A -> A -> S -> A * S) (a : list A) (s : S) : list A * S :=
  match a with
  | x :: y :: a => let '(z, s) := f x y s in let '(r, s) := pairs f a s in (z :: r, s)
  | _ => ([], s)
  end.
(** The bytes of three registers in turn: two bytes of each give three words. *)
Fixpoint bytes3 (a b c : list A) (s : S) : list A * S :=
  match a, b, c with
  | x :: a, y :: b, z :: c =>
      let '(w0, s) := d_op D (Bytes false false) x y s in
      let '(w1, s) := d_op D (Bytes false true) z x s in
      let '(w2, s) := d_op D (Bytes true true) y z s in
      let '(r, s) := bytes3 a b c s in (w0 :: w1 :: w2 :: r, s)
  | _, _, _ => ([], s)
  end.

Definition xget (st : state A) (r : xreg) : xval A := nth r (xregs st) Any.
Definition xset (st : state A) (r : xreg) (v : xval A) : state A :=
  State (vregs st) (replace_nth r v (xregs st)) (mem st) (trace st).
Definition reg (st : state A) (n : vreg) : option (list A) := nth_error (vregs st) n.
Definition set_reg (st : state A) (n : vreg) (v : list A) : option (state A) :=
  if (n <? length (vregs st))%nat
  then Some (State (replace_nth n v (vregs st)) (xregs st) (mem st) (trace st)) else None.
Definition source (st : state A) (o : operand) : option (list A) :=
  match o with
  | All v => reg st v
  | Lane v i => a <-? reg st v ;; x <-? nth_error a i ;; Some (repeat x 8)
  end.

(** An access to [n] words at the address [d] bytes after the pointer in [b]: the array, the
    index of its word and the array's contents. Every access used is at an even offset. *)
Definition address (st : state A) (n : nat) (b : xreg) (d : Z) : option (nat * nat * list A) :=
  match xget st b with
  | Ptr a off =>
      m <-? nth_error (mem st) a ;;
      if ((off + d) mod 2 =? 0) && (0 <=? off + d) && ((off + d) / 2 + Z.of_nat n <=? Z.of_nat (length m))
      then Some (a, Z.to_nat ((off + d) / 2), m) else None
  | _ => None
  end.
Definition touch (st : state A) (b : xreg) (d : Z) : state A :=
  match xget st b with
  | Ptr a off => State (vregs st) (xregs st) (mem st) ((a, off + d) :: trace st)
  | _ => st
  end.
Definition offset (m : amode) : Z := match m with Off n => n | Post _ => 0 end.
Definition advance (st : state A) (b : xreg) (m : amode) : state A :=
  match m, xget st b with
  | Post n, Ptr a off => xset st b (Ptr a (off + n))
  | _, _ => st
  end.
Definition read (st : state A) (n : nat) (b : xreg) (m : amode) : option (list A * state A) :=
  '(a, i, w) <-? address st n b (offset m) ;;
  Some (firstn n (skipn i w), advance (touch st b (offset m)) b m).
Definition write (st : state A) (b : xreg) (m : amode) (v : list A) : option (state A) :=
  '(a, i, w) <-? address st (length v) b (offset m) ;;
  let st := advance (touch st b (offset m)) b m in
  Some (State (vregs st) (xregs st)
              (replace_nth a (firstn i w ++ v ++ skipn (i + length v) w) (mem st)) (trace st)).

Definition move2 (st : state A) (s : S) (f : list A -> list A -> list A) (d a b : vreg) :=
  x <-? reg st a ;; y <-? reg st b ;; st <-? set_reg st d (f x y) ;; Some (st, s).

(** A result in the low half of a register clears the high half. *)
Definition zeros (s : S) : list A * S :=
  let '(z, s) := d_const D 0 s in ([z; z; z; z], s).

Definition exec (i : instr) (st : state A) (s : S) : option (state A * S) :=
  match i with
  | ldr_q d b m =>
      '(v, st) <-? read st 8 b m ;; st <-? set_reg st d v ;; Some (st, s)
  | str_q r b m =>
      v <-? reg st r ;; st <-? write st b m v ;; Some (st, s)
  | ldp_d d1 d2 b n =>
      '(v, st) <-? read st 8 b (Off n) ;;
      let '(z, s) := zeros s in
      st <-? set_reg st d1 (firstn 4 v ++ z) ;;
      st <-? set_reg st d2 (skipn 4 v ++ z) ;; Some (st, s)
  | stp_d s1 s2 b n =>
      x <-? reg st s1 ;; y <-? reg st s2 ;;
      st <-? write st b (Off n) (firstn 4 x ++ firstn 4 y) ;; Some (st, s)
  | ld1r_8h d b =>
      '(v, st) <-? read st 1 b (Off 0) ;;
      st <-? set_reg st d (flat_map (fun _ => v) (seq 0 8)) ;; Some (st, s)
  | ld2_8h d1 d2 b m =>
      '(v, st) <-? read st 16 b m ;;
      st <-? set_reg st d1 (deinterleave 0 v) ;;
      st <-? set_reg st d2 (deinterleave 1 v) ;; Some (st, s)
  | st2_8h s1 s2 b m =>
      x <-? reg st s1 ;; y <-? reg st s2 ;;
      st <-? write st b m (interleave 1 8 [x; y]) ;; Some (st, s)
  | st3_8b s1 s2 s3 b m =>
      x <-? reg st s1 ;; y <-? reg st s2 ;; z <-? reg st s3 ;;
      let '(v, s) := bytes3 (firstn 4 x) (firstn 4 y) (firstn 4 z) s in
      st <-? write st b m v ;; Some (st, s)
  | st4_4s s1 s2 s3 s4 b m =>
      x <-? reg st s1 ;; y <-? reg st s2 ;; z <-? reg st s3 ;; w <-? reg st s4 ;;
      st <-? write st b m (interleave 2 4 [x; y; z; w]) ;; Some (st, s)
  | vop o d a b =>
      x <-? reg st a ;; y <-? source st b ;;
      let '(r, s) := lanes2 (d_op D o) x y s in
      st <-? set_reg st d r ;; Some (st, s)
  | mls_ d a b =>
      z <-? reg st d ;; x <-? reg st a ;; y <-? source st b ;;
      let '(p, s) := lanes2 (d_op D Mul) x y s in
      let '(r, s) := lanes2 (d_op D Sub) z p s in
      st <-? set_reg st d r ;; Some (st, s)
  | vshift o d a n =>
      x <-? reg st a ;;
      let '(r, s) := lanes1 (d_shift D o n) x s in
      st <-? set_reg st d r ;; Some (st, s)
  | uzp1_8h d a b => move2 st s (do_uzp 1 0 8) d a b
  | uzp2_8h d a b => move2 st s (do_uzp 1 1 8) d a b
  | trn1_4s d a b => move2 st s (do_trn 2 0 2) d a b
  | trn2_4s d a b => move2 st s (do_trn 2 1 2) d a b
  | trn1_2d d a b => move2 st s (do_trn 4 0 1) d a b
  | trn2_2d d a b => move2 st s (do_trn 4 1 1) d a b
  | smull d a b =>
      x <-? reg st a ;; y <-? reg st b ;;
      let '(r, s) := wide2 (firstn 4 x) (firstn 4 y) s in
      st <-? set_reg st d r ;; Some (st, s)
  | smull2 d a b =>
      x <-? reg st a ;; y <-? reg st b ;;
      let '(r, s) := wide2 (skipn 4 x) (skipn 4 y) s in
      st <-? set_reg st d r ;; Some (st, s)
  | smlal d a b =>
      z <-? reg st d ;; x <-? reg st a ;; y <-? reg st b ;;
      let '(r, s) := wide3 z (firstn 4 x) (firstn 4 y) s in
      st <-? set_reg st d r ;; Some (st, s)
  | smlal2 d a b =>
      z <-? reg st d ;; x <-? reg st a ;; y <-? reg st b ;;
      let '(r, s) := wide3 z (skipn 4 x) (skipn 4 y) s in
      st <-? set_reg st d r ;; Some (st, s)
  | shrn_8b d a n =>
      x <-? reg st a ;;
      let '(r, s) := pairs (d_op D (Shrn n)) x s in
      let '(z, s) := zeros s in
      st <-? set_reg st d (r ++ z) ;; Some (st, s)
  | sli_8b d a n =>
      z <-? reg st d ;; x <-? reg st a ;;
      let '(r, s) := lanes2 (d_op D (Sli8 n)) (firstn 4 z) (firstn 4 x) s in
      let '(z, s) := zeros s in
      st <-? set_reg st d (r ++ z) ;; Some (st, s)
  | dup_8h d r =>
      match xget st r with
      | Int n => let '(x, s) := d_const D n s in st <-? set_reg st d (repeat x 8) ;; Some (st, s)
      | Word x => st <-? set_reg st d (repeat x 8) ;; Some (st, s)
      | _ => None
      end
  | ldrh_ d b n =>
      '(v, st) <-? read st 1 b (Off n) ;;
      match v with [x] => Some (xset st d (Word x), s) | _ => None end
  | mov_imm d n => Some (xset st d (Int n), s)
  | mov d r => Some (xset st d (xget st r), s)
  | add_imm d r n =>
      match xget st r with
      | Int m => Some (xset st d (Int (m + n)), s)
      | Ptr a off => Some (xset st d (Ptr a (off + n)), s)
      | _ => None
      end
  | adr d a => Some (xset st d (Ptr a 0), s)
  end.

Fixpoint steps (p : list instr) (st : state A) (s : S) : option (state A * S) :=
  match p with
  | [] => Some (st, s)
  | i :: p => '(st, s) <-? exec i st s ;; steps p st s
  end.
(** At most [n] rounds; the counter is decremented in each round, and starts at [n] in the
    use below. *)
Fixpoint rounds (n : nat) (p : list instr) (c : xreg) (st : state A) (s : S)
  : option (state A * S) :=
  match n with
  | O => None
  | Datatypes.S n =>
      '(st, s) <-? steps p st s ;;
      match xget st c with
      | Int m => if m =? 0 then Some (st, s) else rounds n p c st s
      | _ => None
      end
  end.
Definition run_block (b : block) (st : state A) (s : S) : option (state A * S) :=
  match b with
  | Straight p => steps p st s
  | Loop p c =>
      match xget st c with
      | Int n => rounds (Z.to_nat n) p c st s
      | _ => None
      end
  end.
Fixpoint run (p : list block) (st : state A) (s : S) : option (state A * S) :=
  match p with
  | [] => Some (st, s)
  | b :: p => '(st, s) <-? run_block b st s ;; run p st s
  end.
End Interpreter.

(** ** The machine: words are int16_t *)

Definition sat16 (x : Z) : Z := Z.max (- 32768) (Z.min 32767 x).
(** The byte of a word that is the high or the low one *)
Definition byte_of (h : bool) (a : Z) : Z := if h then u16 a / 256 else u16 a mod 256.
Definition two_bytes (lo hi : Z) : Z := s16 (lo + 256 * hi).
Definition sli8 (n d a : Z) : Z := d mod 2 ^ n + a * 2 ^ n mod 256.
Definition word_sem (o : word_op) (a b : Z) : Z :=
  match o with
  | Add => s16 (a + b)
  | Sub => s16 (a - b)
  | Mul => s16 (a * b)
  | Sqdmulh => sat16 (2 * a * b / 65536)
  | Sqrdmulh => sat16 ((2 * a * b + 32768) / 65536)
  | And => Z.land a b
  | Shrn n => two_bytes (u16 a / 2 ^ n mod 256) (u16 b / 2 ^ n mod 256)
  | Sli8 n => two_bytes (sli8 n (byte_of false a) (byte_of false b))
                        (sli8 n (byte_of true a) (byte_of true b))
  | Bytes h h' => two_bytes (byte_of h a) (byte_of h' b)
  end.
Definition shift_sem (o : shift_op) (n : Z) (a : Z) : Z :=
  match o with
  | Sshr => a / 2 ^ n
  | Srshr => (a + 2 ^ (n - 1)) / 2 ^ n
  end.
(** A 32-bit lane as two words *)
Definition lane32 (lo hi : Z) : Z := u16 lo + 65536 * hi.
Definition halves32 (x : Z) : Z * Z := (s16 x, s16 (x / 65536)).
Definition machine : domain Z unit :=
  Domain (fun o a b s => (word_sem o a b, s)) (fun o n a s => (shift_sem o n a, s))
         (fun n s => (s16 n, s))
         (fun a b s => (halves32 (a * b), s))
         (fun lo hi a b s => (halves32 (lane32 lo hi + a * b), s)).

(** A run of [p] from the registers and arrays given *)
Definition run_words (p : list block) (vs : list (list Z)) (xs : list (xval Z))
    (arrays : list (list Z)) : option (state Z) :=
  '(st, _) <-? run machine p (State vs xs arrays []) tt ;; Some st.

(** The registers at a call (AAPCS64): the first [n] arguments are pointers to the start of
    the arrays 1 to [n], in x0, x1, ...; sp points to the end of array 0, the part of the
    stack that the routine may use, of [k] bytes. The other registers hold anything. *)
Definition args (n : nat) (k : Z) : list (xval Z) :=
  map (fun i => if (i <? n)%nat then Ptr (i + 1) 0
                else if (i =? 31)%nat then Ptr 0 k else Any) (seq 0 32).
