(** * The AArch64 instructions used by fips202/native/aarch64/*.S

    The routines of the AArch64 FIPS 202 backend move and combine whole 64-bit words in the
    general-purpose registers and in the halves of the vector registers. This file defines
    the instructions they use and what an instruction does; ModelA64KeccakAsm.v lists the
    routines.

    The meaning of an instruction is not part of the repository: it is modelled after
    Arm's description of the instruction set, and is part of the trusted base.
    Operands are in the order of the source files: the destination is first.

    The interpreter is written for words of any type [A]. The machine itself is the
    instance [machine64] below: words are integers from 0 to 2^64 - 1. The other
    instance only serves in proofs.

    Not modelled: the flags other than the outcome of the last cmp, and the return address.
    [None] is a fault: an access out of bounds or not aligned to a word, arithmetic on a
    pointer other than adding a constant, a jump on an unknown value. *)

From Coq Require Import ZArith List Bool.
From Verif Require Import CSem.
Import ListNotations.
Open Scope Z_scope.

(** ** Syntax *)

(** General-purpose registers x0..x30 and sp (number 31), vector registers v0..v31 *)
Definition xreg : Type := nat.
Definition vreg : Type := nat.

(** An address: [[x, #n]], or [[x], #n], which adds n to x after the access *)
Inductive amode : Type := Off (n : Z) | Post (n : Z).

(** Operations on two words: exclusive or; and with the complement of the second; addition *)
Inductive word_op : Type := Xor | Bic | Add.

Inductive instr : Type :=
| alu (o : word_op) (d a b : xreg) (r : Z)   (* the second operand is rotated right by r first *)
| ror (d a : xreg) (n : Z)
| mov_imm (d : xreg) (n : Z)
| add_imm (d a : xreg) (n : Z)
| cmp_imm (a : xreg) (n : Z)
| adr (d : xreg) (a : nat)                   (* the address of array a *)
| ldr (d b : xreg) (n : Z)
| str (s b : xreg) (n : Z)
| ldp (d1 d2 b : xreg) (n : Z)
| stp (s1 s2 b : xreg) (n : Z)
| ldr_index (d b i : xreg)                   (* ldr d, [b, wi, UXTW #3] *)
| ldp_d (d1 d2 : vreg) (b : xreg) (n : Z)
| stp_d (s1 s2 : vreg) (b : xreg) (n : Z)
| ldn_d (ds : list vreg) (lane : nat) (b : xreg) (m : amode)
| stn_d (ss : list vreg) (lane : nat) (b : xreg) (m : amode)
| ld1r_2d (d : vreg) (b : xreg) (m : amode)
| vop (o : word_op) (d a b : vreg)
| eor3_16b (d a b c : vreg)
| bcax_16b (d a b c : vreg)
| rax1_2d (d a b : vreg)
| xar_2d (d a b : vreg) (n : Z)
| shl_2d (d a : vreg) (n : Z)
| sri_2d (d a : vreg) (n : Z).

(** The mnemonics of the source files *)
Definition eor := alu Xor.
Definition bic := alu Bic.
Definition sub_imm d a n := add_imm d a (- n).
Definition ld1_d d := ldn_d [d].
Definition ld2_d d1 d2 := ldn_d [d1; d2].
Definition st1_d s := stn_d [s].
Definition st2_d s1 s2 := stn_d [s1; s2].
Definition eor_16b := vop Xor.
Definition bic_16b := vop Bic.
Definition add_2d := vop Add.

(** A routine is a list of blocks. What follows a block: the next one, the one with the given
    number, or either depending on the last cmp or on a register; or the end. *)
Inductive jump : Type :=
| Next | Goto (l : nat) | Ble (l : nat) | Beq (l : nat) | Cbnz (x : xreg) (l : nat) | Ret.
Definition block : Type := (list instr * jump)%type.

(** ** The interpreter *)

Record domain (A : Type) : Type := Domain {
  d_num : A -> option Z;             (* the value of a word, if known *)
  d_const : Z -> A;
  d_addi : A -> Z -> A;
  d_op : word_op -> A -> A -> A;
  d_ror : A -> Z -> A;
  d_shl : A -> Z -> A;
  d_sri : A -> A -> Z -> A           (* d with the word a, shifted right by n, inserted *)
}.
Arguments Domain {A}.
Arguments d_num {A}.
Arguments d_const {A}.
Arguments d_addi {A}.
Arguments d_op {A}.
Arguments d_ror {A}.
Arguments d_shl {A}.
Arguments d_sri {A}.

(** A 64-bit value in a register or in memory: a pointer (the number of an array and an offset
    in bytes), a word, or something unknown that the routine can only move (with a number to
    tell one such value from another) *)
Inductive xval (A : Type) : Type := Ptr (a : nat) (off : Z) | Word (x : A) | Tok (n : nat).
Arguments Ptr {A}.
Arguments Word {A}.
Arguments Tok {A}.

(** Memory is a list of arrays of 64-bit values. *)
Record state (A : Type) : Type := State {
  xregs : list (xval A);
  vregs : list (A * A);
  mem : list (list (xval A));
  flags : option (A * Z)             (* the operands of the last cmp *)
}.
Arguments State {A}.
Arguments xregs {A}.
Arguments vregs {A}.
Arguments mem {A}.
Arguments flags {A}.

Definition obind {A B} (m : option A) (f : A -> option B) : option B :=
  match m with Some a => f a | None => None end.
Notation "x <-? m ;; k" := (obind m (fun x => k))
  (at level 61, m at next level, right associativity).
Notation "' p <-? m ;; k" := (obind m (fun x => let p := x in k))
  (at level 61, p pattern, m at next level, right associativity).

Fixpoint replace_nth {A} (n : nat) (x : A) (l : list A) : list A :=
  match l, n with
  | [], _ => []
  | _ :: t, O => x :: t
  | y :: t, S n => y :: replace_nth n x t
  end.

(** An array and an offset in bytes *)
Definition address : Type := (nat * Z)%type.

Section Interpreter.
Context {A : Type} (D : domain A).

Definition xget (st : state A) (r : xreg) : option (xval A) := nth_error (xregs st) r.
Definition xset (st : state A) (r : xreg) (v : xval A) : state A :=
  State (replace_nth r v (xregs st)) (vregs st) (mem st) (flags st).
Definition vget (st : state A) (r : vreg) : option (A * A) := nth_error (vregs st) r.
Definition vset (st : state A) (r : vreg) (v : A * A) : state A :=
  State (xregs st) (replace_nth r v (vregs st)) (mem st) (flags st).

Definition as_word (v : xval A) : option A := match v with Word x => Some x | _ => None end.
Definition as_ptr (v : xval A) : option address := match v with Ptr a o => Some (a, o) | _ => None end.
Definition wget (st : state A) (r : xreg) : option A := v <-? xget st r ;; as_word v.

(** The cell number of an offset *)
Definition cell (off : Z) : option nat :=
  if (0 <=? off) && (off mod 8 =? 0) then Some (Z.to_nat (off / 8)) else None.
Definition load (st : state A) (p : address) : option (xval A) :=
  arr <-? nth_error (mem st) (fst p) ;;
  i <-? cell (snd p) ;;
  nth_error arr i.
Definition store (st : state A) (p : address) (v : xval A) : option (state A) :=
  arr <-? nth_error (mem st) (fst p) ;;
  i <-? cell (snd p) ;;
  if (i <? length arr)%nat
  then Some (State (xregs st) (vregs st) (replace_nth (fst p) (replace_nth i v arr) (mem st)) (flags st))
  else None.

Definition shift (p : address) (n : Z) : address := (fst p, snd p + n).
(** The address for an access, and the state after the update of the base register *)
Definition base (st : state A) (b : xreg) (m : amode) : option (address * state A) :=
  v <-? xget st b ;; p <-? as_ptr v ;;
  match m with
  | Off n => Some (shift p n, st)
  | Post n => Some (p, xset st b (Ptr (fst p) (snd p + n)))
  end.

Definition set_lane (lane : nat) (v : A * A) (x : A) : A * A :=
  match lane with O => (x, snd v) | _ => (fst v, x) end.
Definition get_lane (lane : nat) (v : A * A) : A := match lane with O => fst v | _ => snd v end.

Fixpoint load_lanes (ds : list vreg) (lane : nat) (p : address) (st : state A)
  : option (state A * list address) :=
  match ds with
  | [] => Some (st, [])
  | d :: ds =>
      v <-? load st p ;; x <-? as_word v ;; old <-? vget st d ;;
      'r <-? load_lanes ds lane (shift p 8) (vset st d (set_lane lane old x)) ;;
      Some (fst r, p :: snd r)
  end.
Fixpoint store_lanes (ss : list vreg) (lane : nat) (p : address) (st : state A)
  : option (state A * list address) :=
  match ss with
  | [] => Some (st, [])
  | s :: ss =>
      v <-? vget st s ;; st <-? store st p (Word (get_lane lane v)) ;;
      'r <-? store_lanes ss lane (shift p 8) st ;;
      Some (fst r, p :: snd r)
  end.

Definition lanes2 (f : A -> A -> A) (a b : A * A) : A * A := (f (fst a) (fst b), f (snd a) (snd b)).

(** The state after an instruction and the addresses accessed. r = 0 is no rotation. *)
Definition exec (i : instr) (st : state A) : option (state A * list address) :=
  match i with
  | alu o d a b r =>
      x <-? wget st a ;; y <-? wget st b ;;
      Some (xset st d (Word (d_op D o x (if r =? 0 then y else d_ror D y r))), [])
  | ror d a n => x <-? wget st a ;; Some (xset st d (Word (d_ror D x n)), [])
  | mov_imm d n => Some (xset st d (Word (d_const D n)), [])
  | add_imm d a n =>
      v <-? xget st a ;;
      match v with
      | Ptr p o => Some (xset st d (Ptr p (o + n)), [])
      | Word x => Some (xset st d (Word (d_addi D x n)), [])
      | Tok _ => None
      end
  | cmp_imm a n => x <-? wget st a ;; Some (State (xregs st) (vregs st) (mem st) (Some (x, n)), [])
  | adr d a => Some (xset st d (Ptr a 0), [])
  | ldr d b n =>
      'bs <-? base st b (Off n) ;; v <-? load st (fst bs) ;; Some (xset st d v, [fst bs])
  | str s b n =>
      'bs <-? base st b (Off n) ;; v <-? xget st s ;; st <-? store st (fst bs) v ;; Some (st, [fst bs])
  | ldp d1 d2 b n =>
      'bs <-? base st b (Off n) ;;
      v <-? load st (fst bs) ;; w <-? load st (shift (fst bs) 8) ;;
      Some (xset (xset st d1 v) d2 w, [fst bs; shift (fst bs) 8])
  | stp s1 s2 b n =>
      'bs <-? base st b (Off n) ;; v <-? xget st s1 ;; w <-? xget st s2 ;;
      st <-? store st (fst bs) v ;; st <-? store st (shift (fst bs) 8) w ;;
      Some (st, [fst bs; shift (fst bs) 8])
  | ldr_index d b i =>
      'bs <-? base st b (Off 0) ;; x <-? wget st i ;; n <-? d_num D x ;;
      v <-? load st (shift (fst bs) (8 * u32 n)) ;;
      Some (xset st d v, [shift (fst bs) (8 * u32 n)])
  | ldp_d d1 d2 b n =>
      'bs <-? base st b (Off n) ;;
      v <-? load st (fst bs) ;; w <-? load st (shift (fst bs) 8) ;;
      x <-? as_word v ;; y <-? as_word w ;;
      Some (vset (vset st d1 (x, d_const D 0)) d2 (y, d_const D 0), [fst bs; shift (fst bs) 8])
  | stp_d s1 s2 b n =>
      'bs <-? base st b (Off n) ;; v <-? vget st s1 ;; w <-? vget st s2 ;;
      st <-? store st (fst bs) (Word (fst v)) ;; st <-? store st (shift (fst bs) 8) (Word (fst w)) ;;
      Some (st, [fst bs; shift (fst bs) 8])
  | ldn_d ds lane b m => 'bs <-? base st b m ;; load_lanes ds lane (fst bs) (snd bs)
  | stn_d ss lane b m => 'bs <-? base st b m ;; store_lanes ss lane (fst bs) (snd bs)
  | ld1r_2d d b m =>
      'bs <-? base st b m ;; v <-? load st (fst bs) ;; x <-? as_word v ;;
      Some (vset (snd bs) d (x, x), [fst bs])
  | vop o d a b =>
      x <-? vget st a ;; y <-? vget st b ;; Some (vset st d (lanes2 (d_op D o) x y), [])
  | eor3_16b d a b c =>
      x <-? vget st a ;; y <-? vget st b ;; z <-? vget st c ;;
      Some (vset st d (lanes2 (d_op D Xor) x (lanes2 (d_op D Xor) y z)), [])
  | bcax_16b d a b c =>
      x <-? vget st a ;; y <-? vget st b ;; z <-? vget st c ;;
      Some (vset st d (lanes2 (d_op D Xor) x (lanes2 (d_op D Bic) y z)), [])
  | rax1_2d d a b =>
      x <-? vget st a ;; y <-? vget st b ;;
      Some (vset st d (lanes2 (fun u v => d_op D Xor u (d_ror D v 63)) x y), [])
  | xar_2d d a b n =>
      x <-? vget st a ;; y <-? vget st b ;;
      Some (vset st d (lanes2 (fun u v => d_ror D (d_op D Xor u v) n) x y), [])
  | shl_2d d a n =>
      x <-? vget st a ;; Some (vset st d (d_shl D (fst x) n, d_shl D (snd x) n), [])
  | sri_2d d a n =>
      x <-? vget st d ;; y <-? vget st a ;;
      Some (vset st d (lanes2 (fun u v => d_sri D u v n) x y), [])
  end.

Fixpoint exec_list (l : list instr) (st : state A) : option (state A * list address) :=
  match l with
  | [] => Some (st, [])
  | i :: l => 'r <-? exec i st ;; 'q <-? exec_list l (fst r) ;; Some (fst q, snd r ++ snd q)
  end.

(** A word as a signed number *)
Definition s64 (x : Z) : Z := if x <? 9223372036854775808 then x else x - 18446744073709551616.
(** The operands of the last cmp *)
Definition compared (st : state A) : option (Z * Z) :=
  'xn <-? flags st ;; x <-? d_num D (fst xn) ;; Some (s64 x, snd xn).

(** The block that follows block [pc]; [Some None]: the routine returns. *)
Definition target (j : jump) (pc : nat) (st : state A) : option (option nat) :=
  let other (b : bool) l := Some (Some (if b then l else S pc)) in
  match j with
  | Next => Some (Some (S pc))
  | Goto l => Some (Some l)
  | Ble l => 'c <-? compared st ;; other (fst c <=? snd c) l
  | Beq l => 'c <-? compared st ;; other (fst c =? snd c) l
  | Cbnz x l => v <-? wget st x ;; n <-? d_num D v ;; other (negb (n =? 0)) l
  | Ret => Some None
  end.

(** The state when the routine returns, and what it leaked: the address of each access and the
    numbers of the blocks executed, as it were of the array [code] *)
Definition code : nat := 1000.
Fixpoint run (fuel : nat) (p : list block) (pc : nat) (st : state A)
  : option (state A * list address) :=
  match fuel with
  | O => None
  | S fuel =>
      b <-? nth_error p pc ;;
      'r <-? exec_list (fst b) st ;;
      t <-? target (snd b) pc (fst r) ;;
      match t with
      | None => Some (fst r, snd r)
      | Some pc => 'q <-? run fuel p pc (fst r) ;; Some (fst q, snd r ++ (code, Z.of_nat pc) :: snd q)
      end
  end.

End Interpreter.

(** ** The machine *)

(** Rotation right by [n] *)
Definition ror64 (x n : Z) : Z := u64 (Z.lor (Z.shiftr x n) (Z.shiftl x (64 - n))).
(** The low 64 - n bits of [d] are replaced by the high ones of [x]. *)
Definition sri64 (d x n : Z) : Z :=
  u64 (Z.lor (Z.shiftl (Z.shiftr d (64 - n)) (64 - n)) (Z.shiftr x n)).
Definition machine64 : domain Z := {|
  d_num x := Some x;
  d_const := u64;
  d_addi x n := u64 (x + n);
  d_op o x y := match o with Xor => Z.lxor x y | Bic => Z.ldiff x y | Add => u64 (x + y) end;
  d_ror := ror64;
  d_shl x n := u64 (Z.shiftl x n);
  d_sri := sri64
|}.
