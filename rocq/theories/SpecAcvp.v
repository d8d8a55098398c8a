(** * What the ACVP program should print (C68) *)

From Coq Require Import ZArith List Bool Ascii String.
From Verif Require Import Spec202 Spec203 SpecMem SpecApi.
Import ListNotations.
Open Scope Z_scope.
Open Scope list_scope.

(** The ASCII codes of a string *)
Definition ascii (s : string) : list Z := map (fun a => Z.of_N (N_of_ascii a)) (list_ascii_of_string s).

(** ** Hexadecimal text *)

(** The position of a character in a text, counted from [i] *)
Fixpoint position (c : Z) (s : list Z) (i : Z) : option Z :=
  match s with
  | [] => None
  | x :: s => if c =? x then Some i else position c s (i + 1)
  end.
Definition digit (c : Z) : option Z :=
  match position c (ascii "0123456789ABCDEF") 0 with
  | Some v => Some v
  | None => position c (ascii "0123456789abcdef") 0
  end.
(** Two digits for a byte, the more significant one first *)
Fixpoint from_hex (s : list Z) : option (list Z) :=
  match s with
  | [] => Some []
  | [_] => None
  | a :: b :: s =>
      match digit a, digit b, from_hex s with
      | Some x, Some y, Some l => Some (16 * x + y :: l)
      | _, _, _ => None
      end
  end.
Fixpoint to_hex (l : list Z) : list Z :=
  match l with
  | [] => []
  | x :: l => nth (Z.to_nat (x / 16)) (ascii "0123456789ABCDEF") 0 :: nth (Z.to_nat (x mod 16)) (ascii "0123456789ABCDEF") 0 :: to_hex l
  end.

(** ** Arguments and output *)

(** The text [name]=[hexadecimal digits] stands for these [n] bytes. *)
Definition argument (name : string) (n : Z) (s l : list Z) : Prop :=
  exists digits, s = ascii name ++ ascii "=" ++ digits /\ from_hex digits = Some l /\ zlen l = n.

Inductive request := AskEncaps (ek m : list Z) | AskDecaps (dk c : list Z) | AskKeyGen (d z : list Z).
(** The arguments, beginning with the name of the program, that ask for a computation. What comes after
    them does not matter. *)
Inductive asks (P : params) : list (list Z) -> request -> Prop :=
| asks_encaps : forall prog s t ek m more, argument "ek" (ek_size P) s ek -> argument "m" 32 t m ->
    asks P (prog :: ascii "encapDecap" :: ascii "AFT" :: ascii "encapsulation" :: s :: t :: more) (AskEncaps ek m)
| asks_decaps : forall prog s t dk c more, argument "dk" (dk_size P) s dk -> argument "c" (ct_size P) t c ->
    asks P (prog :: ascii "encapDecap" :: ascii "VAL" :: ascii "decapsulation" :: s :: t :: more) (AskDecaps dk c)
| asks_keygen : forall prog s t z d more, argument "z" 32 s z -> argument "d" 32 t d ->
    asks P (prog :: ascii "keyGen" :: ascii "AFT" :: s :: t :: more) (AskKeyGen d z).

(** A line of output, with its newline *)
Definition text (name : string) (l : list Z) : list Z := ascii name ++ ascii "=" ++ to_hex l ++ [10].
