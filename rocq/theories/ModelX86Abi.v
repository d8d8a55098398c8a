(** * The assembly of mlkem/native/x86_64 on a machine with addresses, a stack and calls

    ModelX86.v runs a routine as a list of instructions on separate arrays; the calls inside a routine
    are replaced there by the code of the callee, and there is no stack. This file has a machine that
    is closer to the processor: one memory of bytes with 64-bit addresses, all sixteen
    general-purpose registers, an instruction pointer, and [call] and [ret] that use the stack. The
    code is that of the .S files, with every label and every instruction.

    The vector instructions move and compute words as in ModelX86.v; here they get their operands from
    the memory of bytes. [None] is a fault: an access to an address that is not mapped, a misaligned
    vmovdqa, or an operand that the routines do not use and that is not modelled.

    Not modelled: the flags (no instruction of these files reads them) and the encoding of the
    instructions. The code is not part of the memory of bytes: it cannot be read or overwritten. *)

From Coq Require Import ZArith List Bool.
From Verif Require Import CSem ModelX86 ModelX86Asm.
Import ListNotations.
Open Scope Z_scope.

(** ** The machine *)

Inductive reg64 : Type :=
  RAX | RCX | RDX | RBX | RSP | RBP | RSI | RDI | R8 | R9 | R10 | R11 | R12 | R13 | R14 | R15.
Definition reg64_eq_dec : forall a b : reg64, {a = b} + {a <> b}.
Proof. decide equality. Defined.
(** The registers that the vector code uses as pointers *)
Definition reg_of (g : gpr) : reg64 :=
  match g with rdi => RDI | rsi => RSI | rdx => RDX | rcx => RCX | r9 => R9 | rsp => RSP end.

(** Memory: the byte at an address, if the address is mapped *)
Definition memory : Type := Z -> option Z.
Record cpu : Type := Cpu { rip : Z; gp : reg64 -> Z; vec : list (list Z); ram : memory }.

(** ** Memory accesses, little-endian *)

Definition get16 (m : memory) (a : Z) : option Z :=
  lo <-? m a ;; hi <-? m (a + 1) ;; Some (s16 (lo + 256 * hi)).
Fixpoint get_words (m : memory) (a : Z) (n : nat) : option (list Z) :=
  match n with
  | O => Some []
  | Datatypes.S n => x <-? get16 m a ;; r <-? get_words m (a + 2) n ;; Some (x :: r)
  end.
Fixpoint get_uint (m : memory) (a : Z) (n : nat) : option Z :=
  match n with
  | O => Some 0
  | Datatypes.S n => x <-? m a ;; r <-? get_uint m (a + 1) n ;; Some (x + 256 * r)
  end.
Definition get64 (m : memory) (a : Z) : option Z := get_uint m a 8.

Definition mapped (m : memory) (a : Z) : bool := match m a with Some _ => true | None => false end.
Definition put_bytes (m : memory) (a : Z) (b : list Z) : option memory :=
  if forallb (fun i => mapped m (a + Z.of_nat i)) (seq 0 (length b))
  then Some (fun x => if (a <=? x) && (x <? a + Z.of_nat (length b)) then nth_error b (Z.to_nat (x - a)) else m x)
  else None.
Definition put_words (m : memory) (a : Z) (w : list Z) : option memory :=
  put_bytes m a (flat_map (fun x => [x mod 256; x / 256 mod 256]) w).
Fixpoint le_bytes (n : nat) (x : Z) : list Z :=
  match n with O => [] | Datatypes.S n => x mod 256 :: le_bytes n (x / 256) end.
Definition put64 (m : memory) (a x : Z) : option memory := put_bytes m a (le_bytes 8 x).

(** ** Vector instructions *)

Definition set_gp (s : cpu) (r : reg64) (v : Z) : cpu :=
  Cpu (rip s) (fun x => if reg64_eq_dec x r then v else gp s x) (vec s) (ram s).
Definition set_vec (s : cpu) (n : nat) (v : list Z) : option cpu :=
  if (n <? length (vec s))%nat then Some (Cpu (rip s) (gp s) (replace_nth n v (vec s)) (ram s)) else None.
Definition set_ram (s : cpu) (m : memory) : cpu := Cpu (rip s) (gp s) (vec s) m.
Definition jump (s : cpu) (a : Z) : cpu := Cpu a (gp s) (vec s) (ram s).

(** The address [d(%b)] *)
Definition effective (s : cpu) (b : gpr) (d : Z) : Z := (gp s (reg_of b) + d) mod 2 ^ 64.
Definition aligned32 (al : bool) (a : Z) : bool := negb al || (a mod 32 =? 0).

Definition fetch_words (s : cpu) (al : bool) (n : nat) (b : gpr) (d : Z) : option (list Z) :=
  if aligned32 al (effective s b d) then get_words (ram s) (effective s b d) n else None.
Definition vec_source (s : cpu) (o : operand) : option (list Z) :=
  match o with Y n => nth_error (vec s) n | Mem b d => fetch_words s false 16 b d end.
Definition mov1 (s : cpu) (f : list Z -> list Z) (src dst : nat) : option cpu :=
  a <-? nth_error (vec s) src ;; set_vec s dst (f a).
Definition mov2 (s : cpu) (f : list Z -> list Z -> list Z) (s2 s1 dst : nat) : option cpu :=
  b <-? nth_error (vec s) s2 ;; a <-? nth_error (vec s) s1 ;; set_vec s dst (f b a).
Fixpoint word_pairs (f : Z -> Z -> Z) (a b : list Z) : list Z :=
  match a, b with x :: a, y :: b => f x y :: word_pairs f a b | _, _ => [] end.

Definition vector (i : instr) (s : cpu) : option cpu :=
  match i with
  | load al b d dst => v <-? fetch_words s al 16 b d ;; set_vec s dst v
  | store al src b d =>
      v <-? nth_error (vec s) src ;;
      if aligned32 al (effective s b d)
      then m <-? put_words (ram s) (effective s b d) v ;; Some (set_ram s m) else None
  | vpop o s2 s1 dst =>
      b <-? vec_source s s2 ;; a <-? nth_error (vec s) s1 ;; set_vec s dst (word_pairs (word_sem o) a b)
  | vpshift o n src dst => mov1 s (map (shift_sem o n)) src dst
  | vpslld n src dst => if n =? 16 then mov1 s (do_vpslld16 0) src dst else None
  | vpsrld n src dst => if n =? 16 then mov1 s (do_vpsrld16 0) src dst else None
  | vpsrlq n src dst => if n =? 32 then mov1 s (do_vpsrlq32 0) src dst else None
  | vpblendw imm s2 s1 dst => mov2 s (do_vpblendw imm) s2 s1 dst
  | vpblendd imm s2 s1 dst => mov2 s (do_vpblendd imm) s2 s1 dst
  | vperm2i128 imm s2 s1 dst => mov2 s (do_vperm2i128 imm) s2 s1 dst
  | vpunpcklqdq s2 s1 dst => mov2 s do_vpunpcklqdq s2 s1 dst
  | vpunpckhqdq s2 s1 dst => mov2 s do_vpunpckhqdq s2 s1 dst
  | vmovsldup src dst => mov1 s do_vmovsldup src dst
  | vpermq imm src dst => a <-? vec_source s src ;; set_vec s dst (do_vpermq imm a)
  | vpermd src ctl dst =>
      a <-? vec_source s src ;; c <-? nth_error (vec s) ctl ;; set_vec s dst (do_vpermd c a)
  | vpshufb ctl src dst =>
      a <-? nth_error (vec s) src ;; c <-? nth_error (vec s) ctl ;;
      r <-? do_vpshufb c a ;; set_vec s dst r
  | vpbroadcastq b d dst => v <-? fetch_words s false 4 b d ;; set_vec s dst (v ++ v ++ v ++ v)
  | lea b d dst => Some (set_gp s (reg_of dst) (effective s b d))
  | add_imm n dst => Some (set_gp s (reg_of dst) (effective s dst n))
  end.

(** ** Code *)

(** The labels of basemul.S, fq.S, intt.S, ntt.S and shuffle.S *)
Inductive label : Type :=
| basemul_avx2_ | reduce128_avx2_ | reduce_avx2_ | tomont128_avx2_ | tomont_avx2_
| invntt_avx2_ | ntt_avx2_ | nttpack_avx2_ | nttunpack128_avx2_ | nttunpack_avx2_
| ntttobytes128_avx_ | ntttobytes_avx2_ | nttfrombytes128_avx_ | nttfrombytes_avx2_.

Inductive asm : Type :=
| Vec (i : instr)
| mov (src dst : reg64)
| and_imm (n : Z) (dst : reg64)
| sub_imm (n : Z) (dst : reg64)
| call_ (l : label)
| ret_.

(** The instructions after each label. *)
Definition code (l : label) : list asm :=
  match l with
  (* basemul.S 121-139 *)
  | basemul_avx2_ => [mov RSP R8; and_imm (-32) RSP; sub_imm 32 RSP] ++ map Vec basemul_avx2 ++ [mov R8 RSP; ret_]
  (* fq.S 23-62 *)
  | reduce128_avx2_ => map Vec reduce128_avx2 ++ [ret_]
  (* fq.S 65-72 *)
  | reduce_avx2_ =>
      map Vec [vmovdqa_ld rsi (XQ*2) 0; vmovdqa_ld rsi (XV*2) 1] ++
      [call_ reduce128_avx2_; Vec (add_imm 256 rdi); call_ reduce128_avx2_; ret_]
  (* fq.S 75-105 *)
  | tomont128_avx2_ => map Vec tomont128_avx2 ++ [ret_]
  (* fq.S 108-116 *)
  | tomont_avx2_ =>
      map Vec [vmovdqa_ld rsi (XQ*2) 0; vmovdqa_ld rsi (XMONTSQLO*2) 1; vmovdqa_ld rsi (XMONTSQHI*2) 2] ++
      [call_ tomont128_avx2_; Vec (add_imm 256 rdi); call_ tomont128_avx2_; ret_]
  (* intt.S 245-253 *)
  | invntt_avx2_ => map Vec invntt_avx2 ++ [ret_]
  (* ntt.S 211-220 *)
  | ntt_avx2_ => map Vec ntt_avx2 ++ [ret_]
  (* shuffle.S 19-60 *)
  | nttpack_avx2_ => map Vec nttpack_avx2 ++ [ret_]
  (* shuffle.S 62-103 *)
  | nttunpack128_avx2_ => map Vec nttunpack128_avx2 ++ [ret_]
  (* shuffle.S 106-110 *)
  | nttunpack_avx2_ => [call_ nttunpack128_avx2_; Vec (add_imm 256 rdi); call_ nttunpack128_avx2_; ret_]
  (* shuffle.S 112-170 *)
  | ntttobytes128_avx_ => map Vec ntttobytes128_avx ++ [ret_]
  (* shuffle.S 173-180 *)
  | ntttobytes_avx2_ =>
      map Vec [vmovdqa_ld rdx (XQ*2) 0] ++
      [call_ ntttobytes128_avx_; Vec (add_imm 256 rsi); Vec (add_imm 192 rdi); call_ ntttobytes128_avx_; ret_]
  (* shuffle.S 182-246 *)
  | nttfrombytes128_avx_ => map Vec nttfrombytes128_avx ++ [ret_]
  (* shuffle.S 249-256 *)
  | nttfrombytes_avx2_ =>
      map Vec [vmovdqa_ld rdx (XMASK*2) 0] ++
      [call_ nttfrombytes128_avx_; Vec (add_imm 256 rdi); Vec (add_imm 192 rsi); call_ nttfrombytes128_avx_; ret_]
  end.

(** ** Steps *)

(** [loc l k]: the address of the instruction number [k] after the label [l] *)
Definition placement : Type := label -> nat -> Z.

Definition push (s : cpu) (x : Z) : option cpu :=
  let a := (gp s RSP - 8) mod 2 ^ 64 in
  m <-? put64 (ram s) a x ;; Some (set_ram (set_gp s RSP a) m).
Definition pop (s : cpu) : option (Z * cpu) :=
  x <-? get64 (ram s) (gp s RSP) ;; Some (x, set_gp s RSP ((gp s RSP + 8) mod 2 ^ 64)).

(** The instruction [i], followed in memory by an instruction at the address [next] *)
Definition execute (loc : placement) (next : Z) (i : asm) (s : cpu) : option cpu :=
  match i with
  | Vec i => s <-? vector i s ;; Some (jump s next)
  | mov src dst => Some (jump (set_gp s dst (gp s src)) next)
  | and_imm n dst => Some (jump (set_gp s dst (Z.land (gp s dst) (n mod 2 ^ 64))) next)
  | sub_imm n dst => Some (jump (set_gp s dst ((gp s dst - n) mod 2 ^ 64)) next)
  | call_ l => s <-? push s next ;; Some (jump s (loc l 0%nat))
  | ret_ => '(a, s) <-? pop s ;; Some (jump s a)
  end.

(** One step: the instruction at the address in rip. A state in which rip is not the address of an
    instruction of these files, or in which the instruction faults, makes no step. *)
Inductive step (loc : placement) : cpu -> cpu -> Prop :=
| Step l k i s s' :
    nth_error (code l) k = Some i -> rip s = loc l k ->
    execute loc (loc l (Datatypes.S k)) i s = Some s' -> step loc s s'.
Inductive runs (loc : placement) : cpu -> cpu -> Prop :=
| runs_refl s : runs loc s s
| runs_step s t u : step loc s t -> runs loc t u -> runs loc s u.
