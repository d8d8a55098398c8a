(* The part of the C preprocessor that the library uses.  Its rules are those
   of the C standard (6.10); the text that it is run on is in ModelSources.v.

   Simplified: a macro body is kept only when a retained condition or a
   retained name needs it (Other otherwise); text that is neither a directive
   nor a definition or use of a retained name is left out; system headers
   define nothing. *)
From Coq Require Import ZArith List PArith Bool FMapPositive.
Import ListNotations.
Require Import Verif.ModelCppNames.
Open Scope Z_scope.

(* expressions of #if: /repo/mlkem/sys/cpucap.h 10, 24, 34,
   /repo/mlkem/poly.c 23, 337 *)
Inductive expr : Set :=
| Num (z : Z)
| Name (m : ident)
| Defined (m : ident)
| Not (a : expr)
| And (a b : expr)
| Or (a b : expr)
| Eq (a b : expr)
| Ne (a b : expr)
| Div (a b : expr).

(* macro bodies: an expression (/repo/mlkem/params.h 29), a namespace macro
   applied to a name (/repo/mlkem/poly.h 399), a namespace macro itself
   (/repo/mlkem/params.h 17), anything else *)
Inductive body : Set :=
| Expr (e : expr)
| Apply (space x : ident)
| Paste (p : prefix)
| Other.

(* a name as it is written: /repo/mlkem/poly.c 266,
   /repo/mlkem/native/aarch64/ntt_clean.S 199 *)
Inductive name : Set :=
| Plain (x : ident)
| Spaced (space x : ident).

(* what the text between the directives does: it defines a name for the
   linker (/repo/mlkem/poly.c 266), or within the file
   (/repo/mlkem/native/aarch64/profiles/opt.h 26), the function f uses a name
   (/repo/mlkem/ntt.c 154), the function f reaches into the words of the
   state byte by byte (/repo/fips202/keccakf1600.c 29-33) *)
Inductive item : Set :=
| Provide (x : name)
| Local (x : name)
| Use (f : ident) (x : name)
| Bytes (f : ident).

(* directives; IncludeNamed is the include of a profile chosen by a macro:
   /repo/mlkem/native/profile.h 39, /repo/fips202/native/fips202_native.h 37 *)
Inductive line : Set :=
| Define (m : ident) (b : body)
| Include (f : file)
| IncludeNamed
| Error
| Item (i : item)
| If (c : expr) (yes no : list line).

(* the name seen by the linker: a prefix, if any, and the rest
   (/repo/mlkem/params.h 17, /repo/fips202/namespace.h 8) *)
Definition symbol : Set := (option prefix * ident)%type.

(* the items with their names expanded (C standard, 6.10.3) *)
Inductive output : Set :=
| Provides (x : symbol)
| Locals (x : symbol)
| Uses (f : ident) (x : symbol)
| ByBytes (f : ident).

(* the macros defined so far and the output so far, latest first *)
Record state : Type := mkstate { macros : PositiveMap.t body; out : list output }.

(* Stopped: a directive #error was reached.  Foreign: a profile of the user was
   to be included.  Deep: includes nested deeper than the limit. *)
Inductive result : Type :=
| Done (s : state)
| Stopped
| Foreign
| Deep.

Section Preprocessor.
(* the text of a file (ModelSources.v: contents) *)
Variable text : file -> list line.
(* the macros defined by the compiler and on the command line *)
Variable given : ident -> option body.

(* the current body of a macro (C standard, 6.10.3) *)
Definition lookup (s : state) (m : ident) : option body :=
  match PositiveMap.find (code m) (macros s) with
  | Some b => Some b
  | None => given m
  end.

(* the value of #if and #elif (C standard, 6.10.1): a name that is no macro
   counts as 0.  The number n limits the nesting of macro bodies. *)
Definition truth (b : bool) : Z := if b then 1 else 0.

Fixpoint value (n : nat) (s : state) : expr -> Z :=
  fix val (e : expr) : Z :=
    match e with
    | Num z => z
    | Name m =>
        match lookup s m with
        | Some (Expr b) => match n with O => 0 | S n' => value n' s b end
        | _ => 0
        end
    | Defined m => truth (match lookup s m with Some _ => true | None => false end)
    | Not a => truth (val a =? 0)
    | And a b => truth (negb (val a =? 0) && negb (val b =? 0))
    | Or a b => truth (negb (val a =? 0) || negb (val b =? 0))
    | Eq a b => truth (val a =? val b)
    | Ne a b => truth (negb (val a =? val b))
    | Div a b => Z.quot (val a) (val b)
    end.

(* a namespace macro applied to a name: its ## keeps the name from being
   expanded (/repo/mlkem/params.h 17) *)
Definition paste (s : state) (space x : ident) : symbol :=
  match lookup s space with
  | Some (Paste p) => (Some p, x)
  | _ => (None, x)
  end.

(* the expansion of a name (/repo/mlkem/poly.h 399) *)
Definition expand (s : state) (x : name) : symbol :=
  match x with
  | Plain i =>
      match lookup s i with
      | Some (Apply space y) => paste s space y
      | _ => (None, i)
      end
  | Spaced space i => paste s space i
  end.

Definition emit (s : state) (o : output) : state := mkstate (macros s) (o :: out s).

(* an item with its names expanded by the macros defined at that point *)
Definition translate (s : state) (i : item) : output :=
  match i with
  | Provide x => Provides (expand s x)
  | Local x => Locals (expand s x)
  | Use f x => Uses f (expand s x)
  | Bytes f => ByBytes f
  end.

(* the nesting of macro bodies that is followed: the bodies in the library
   are nested at most twice (/repo/mlkem/params.h 57) *)
Definition nesting : nat := 8.

(* the lines of a file in turn; n is the number of includes that may still be
   nested (C standard, 5.2.4.1 and 6.10.2) *)
Fixpoint lines (n : nat) : list line -> state -> result :=
  let one :=
    fix one (l : line) (s : state) {struct l} : result :=
      let many :=
        fix many (ls : list line) (s : state) {struct ls} : result :=
          match ls with
          | [] => Done s
          | l :: ls =>
              match one l s with
              | Done s => many ls s
              | r => r
              end
          end in
      match l with
      | Define m b => Done (mkstate (PositiveMap.add (code m) b (macros s)) (out s))
      | Include f => match n with O => Deep | S n' => lines n' (text f) s end
      | IncludeNamed => Foreign
      | Error => Stopped
      | Item i => Done (emit s (translate s i))
      | If c yes no => if value nesting s c =? 0 then many no s else many yes s
      end in
  fix many (ls : list line) (s : state) {struct ls} : result :=
    match ls with
    | [] => Done s
    | l :: ls =>
        match one l s with
        | Done s => many ls s
        | r => r
        end
    end.

(* the state before the first line *)
Definition start : state := mkstate (PositiveMap.empty body) [].

(* a source file from its first line; 200 is the limit of GCC *)
Definition preprocess (f : file) : result := lines 200 (text f) start.
End Preprocessor.
