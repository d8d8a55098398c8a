(** * A small semantics for the C fragment used by mlkem-native

    A C computation is modelled by an outcome together with a leakage trace.
    Undefined behaviour is an outcome of its own: nothing is assumed away. *)

From Coq Require Import ZArith List Bool.
Import ListNotations.
Open Scope Z_scope.

(** Reasons for which a run of the model is stuck.
    [Narrowing] is not undefined behaviour in C: it is a conversion to a signed
    16-bit type that changes the value (implementation-defined). The code does not
    rely on it except in the places modelled by [s16] below, so the model treats
    it as an error. [DebugCheck] is a failing bound check of a debug build
    (mlkem/debug/debug.h, which calls exit(1)); release builds compile the
    checks away. [Overlap] is a violation of the no-alias contract of an API
    function (mlkem/kem.h). *)
Inductive ub_reason : Type :=
| OutOfBounds
| SignedOverflow
| BadShift
| Narrowing
| DebugCheck
| Overlap
| BadAddress.

(** What an attacker observing control flow, addresses and variable-time
    instructions sees, at source level. *)
Inductive event : Type :=
| EIndex (i : Z)                 (* an array access at index [i] *)
| EBranch (b : bool)             (* the condition of an if / while *)
| ELoop (n : Z)                  (* the trip count of a counted loop *)
| EDiv (a b : Z)                 (* operands of a division or remainder *)
| ECopy (n : Z)                  (* the length passed to memcpy / memset *)
| ECompare (a b : list Z).       (* the operands of a variable-time memcmp *)

Inductive outcome (A : Type) : Type :=
| Ok (a : A)
| UB (r : ub_reason)
| NoFuel.
Arguments Ok {A} a.
Arguments UB {A} r.
Arguments NoFuel {A}.

Definition M (A : Type) : Type := (outcome A * list event)%type.

Definition ret {A} (a : A) : M A := (Ok a, []).
Definition fail {A} (r : ub_reason) : M A := (UB r, []).
Definition nofuel {A} : M A := (NoFuel, []).
Definition emit (e : event) : M unit := (Ok tt, [e]).

Definition bind {A B} (m : M A) (f : A -> M B) : M B :=
  match m with
  | (Ok a, t) => let '(o, t') := f a in (o, t ++ t')
  | (UB r, t) => (UB r, t)
  | (NoFuel, t) => (NoFuel, t)
  end.

Notation "x <- m ;; k" := (bind m (fun x => k))
  (at level 61, m at next level, right associativity).
Notation "' p <- m ;; k" := (bind m (fun x => let p := x in k))
  (at level 61, p pattern, m at next level, right associativity).
Notation "m ;;; k" := (bind m (fun _ => k))
  (at level 61, right associativity).

(** The outcome and the leakage of a computation. *)
Definition val {A} (m : M A) : outcome A := fst m.
Definition leak {A} (m : M A) : list event := snd m.

(** ** Integers *)

(** Conversions to unsigned types: reduction modulo 2^n (C99 6.3.1.3 (2)). *)
Definition u8 (x : Z) : Z := x mod 256.
Definition u16 (x : Z) : Z := x mod 65536.
Definition u32 (x : Z) : Z := x mod 4294967296.
Definition u64 (x : Z) : Z := x mod 18446744073709551616.

(** Two's-complement conversion to int16_t, for the places where the code says it
    relies on it (mlkem/reduce.c 25-35, mlkem/verify.h 176-204). *)
Definition s16 (x : Z) : Z := (x + 32768) mod 65536 - 32768.

(** A value of type int (32 bits): anything else is a signed overflow. *)
Definition i32 (x : Z) : M Z :=
  if (-2147483648 <=? x) && (x <? 2147483648) then ret x else fail SignedOverflow.

(** Conversion to int16_t that must not change the value. *)
Definition to_i16 (x : Z) : M Z :=
  if (-32768 <=? x) && (x <? 32768) then ret x else fail Narrowing.

(** A division or remainder by a compile-time constant; the operands are leaked. *)
Definition div_c (a b : Z) : M Z := emit (EDiv a b) ;;; ret (a / b).
Definition mod_c (a b : Z) : M Z := emit (EDiv a b) ;;; ret (a mod b).

(** ** Arrays *)

Fixpoint upd {A} (l : list A) (n : nat) (x : A) : option (list A) :=
  match l, n with
  | [], _ => None
  | _ :: t, O => Some (x :: t)
  | h :: t, S n' => match upd t n' x with Some t' => Some (h :: t') | None => None end
  end.

(** [a[i]] *)
Definition aget {A} (l : list A) (i : Z) : M A :=
  emit (EIndex i) ;;;
  if i <? 0 then fail OutOfBounds
  else match nth_error l (Z.to_nat i) with
       | Some x => ret x
       | None => fail OutOfBounds
       end.

(** [a[i] = x] *)
Definition aset {A} (l : list A) (i : Z) (x : A) : M (list A) :=
  emit (EIndex i) ;;;
  if i <? 0 then fail OutOfBounds
  else match upd l (Z.to_nat i) x with
       | Some l' => ret l'
       | None => fail OutOfBounds
       end.

(** The [n] elements of the array [l] starting at offset [off]: what a callee that
    is passed the pointer [l + off] and touches [n] elements works on. *)
Definition aslice {A} (l : list A) (off n : Z) : M (list A) :=
  emit (EIndex off) ;;;
  if (0 <=? off) && (0 <=? n) && (off + n <=? Z.of_nat (length l))
  then ret (firstn (Z.to_nat n) (skipn (Z.to_nat off) l))
  else fail OutOfBounds.

(** Write the elements [new] over [l] starting at offset [off]. *)
Definition asplice {A} (l : list A) (off : Z) (new : list A) : M (list A) :=
  emit (EIndex off) ;;;
  if (0 <=? off) && (off + Z.of_nat (length new) <=? Z.of_nat (length l))
  then ret (firstn (Z.to_nat off) l ++ new
            ++ skipn (Z.to_nat off + length new)%nat l)
  else fail OutOfBounds.

(** [memcpy(dst + doff, src + soff, n)] for distinct arrays. *)
Definition memcpy {A} (dst : list A) (doff : Z) (src : list A) (soff n : Z)
  : M (list A) :=
  emit (ECopy n) ;;;
  s <- aslice src soff n ;;
  asplice dst doff s.

(** ** Control flow *)

(** [n] iterations of a loop whose index starts at [i] and grows by [step]. *)
Fixpoint for_n {S : Type} (n : nat) (i step : Z) (body : Z -> S -> M S) (s : S)
  : M S :=
  match n with
  | O => ret s
  | Datatypes.S n' => s' <- body i s ;; for_n n' (i + step) step body s'
  end.

(** [for (i = lo; i < hi; i += step) body] *)
Definition for_up {S : Type} (lo hi step : Z) (body : Z -> S -> M S) (s : S) : M S :=
  emit (ELoop (hi - lo)) ;;;
  for_n (Z.to_nat ((hi - lo + step - 1) / step)) lo step body s.

(** The condition of an [if]. *)
Definition branch {A} (b : bool) (m1 m2 : M A) : M A :=
  emit (EBranch b) ;;; if b then m1 else m2.

(** [while (cond) body] with [fuel] iterations allowed. *)
Fixpoint while {S : Type} (fuel : nat) (cond : S -> bool) (body : S -> M S) (s : S)
  : M S :=
  emit (EBranch (cond s)) ;;;
  if cond s then
    match fuel with
    | O => nofuel
    | Datatypes.S fuel' => s' <- body s ;; while fuel' cond body s'
    end
  else ret s.

(** ** Debug bound checks, mlkem/debug/debug.c 24-47 and debug.h 61-154

    They emit no leakage: they are not part of release builds. *)
Definition dbg (b : bool) : M unit := if b then ret tt else fail DebugCheck.

Definition in_bound (b x : Z) : bool := (- b <? x) && (x <? b).
Definition in_ubound (b x : Z) : bool := (-1 <? x) && (x <? b).

(** SCALAR_BOUND, debug.h 71-72 *)
Definition SCALAR_BOUND (x b : Z) : M unit := dbg (in_bound b x).
(** BOUND / POLY_BOUND, debug.h 93-120 *)
Definition POLY_BOUND (l : list Z) (b : Z) : M unit := dbg (forallb (in_bound b) l).
(** UBOUND / POLY_UBOUND, debug.h 81-127 *)
Definition POLY_UBOUND (l : list Z) (b : Z) : M unit := dbg (forallb (in_ubound b) l).
(** POLYVEC_BOUND, debug.h 132-140 *)
Definition POLYVEC_BOUND (v : list (list Z)) (b : Z) : M unit :=
  dbg (forallb (forallb (in_bound b)) v).
(** POLYVEC_UBOUND, debug.h 146-154 *)
Definition POLYVEC_UBOUND (v : list (list Z)) (b : Z) : M unit :=
  dbg (forallb (forallb (in_ubound b)) v).

(** ** Uninitialised local variables

    The contents of an uninitialised local array are arbitrary. They are read off
    a function from paths (call sites, array numbers, indices) to values, which
    theorems quantify over. *)
Definition junk : Type := list Z -> Z.
Definition sub (J : junk) (k : Z) : junk := fun p => J (k :: p).
Definition uninit (J : junk) (k n : Z) : list Z :=
  map (fun i => J [k; Z.of_nat i]) (seq 0 (Z.to_nat n)).
Definition uninit2 (J : junk) (k m n : Z) : list (list Z) :=
  map (fun i => uninit (sub J k) (Z.of_nat i) n) (seq 0 (Z.to_nat m)).
Definition uninit3 (J : junk) (k l m n : Z) : list (list (list Z)) :=
  map (fun i => uninit2 (sub J k) (Z.of_nat i) m n) (seq 0 (Z.to_nat l)).
