(** * Model of mlkem/native/aarch64/rej_uniform_asm_clean.S and of the AArch64 rej_uniform

    The instructions are not part of the repository. They are modelled here after Arm's
    description: these definitions are part of the trusted base.

    A vector register is the list of its 16 bytes, lowest first; an element of 16 bits is the
    byte at the lower position plus 256 times the next one. The routine is written with the
    loops of CSem.v in place of its jumps. Pointers into arrays of int16_t are counted in
    elements: every offset used is a multiple of two bytes. *)

From Coq Require Import ZArith List Bool.
From Verif Require Import CSem ModelArith ModelAvx2.
Import ListNotations.
Open Scope Z_scope.

(** ** Instructions *)

(** Every third byte, from byte [r] on *)
Definition third (r : nat) (l : list Z) (n : nat) : list Z :=
  map (fun i => nth (3 * i + r) l 0) (seq 0 n).
(** ld3 {..16b}: 48 bytes into three registers *)
Definition ld3_16b (buf : list Z) (pos : Z) : M (list Z * list Z * list Z) :=
  l <- aslice buf pos 48 ;; ret (third 0 l 16, third 1 l 16, third 2 l 16).
(** ld3 {..8b}: 24 bytes into the lower halves; the upper halves become 0 *)
Definition ld3_8b (buf : list Z) (pos : Z) : M (list Z * list Z * list Z) :=
  l <- aslice buf pos 24 ;;
  ret (third 0 l 8 ++ repeat 0 8, third 1 l 8 ++ repeat 0 8, third 2 l 8 ++ repeat 0 8).

Definition alternate (a b : list Z) : list Z :=
  flat_map (fun '(x, y) => [x; y]) (combine a b).
Definition zip1_16b (a b : list Z) : list Z := alternate (firstn 8 a) (firstn 8 b).
Definition zip2_16b (a b : list Z) : list Z := alternate (skipn 8 a) (skipn 8 b).
Definition zip1_8h (a b : list Z) : list Z :=
  unwords (alternate (firstn 4 (words a)) (firstn 4 (words b))).
Definition zip2_8h (a b : list Z) : list Z :=
  unwords (alternate (skipn 4 (words a)) (skipn 4 (words b))).
(** bic a, #imm: clears the bits of the immediate in each element *)
Definition bic_8h (a : list Z) (imm : Z) : list Z := unwords (map (fun w => Z.ldiff w imm) (words a)).
Definition ushr_8h (a : list Z) (n : Z) : list Z := unwords (map (fun w => w / 2 ^ n) (words a)).
Definition dup_8h (x : Z) : list Z := unwords (repeat (u16 x) 8).
(** All bits of an element are set if it is greater in [a] than in [b] (unsigned). *)
Definition cmhi_8h (a b : list Z) : list Z :=
  unwords (map2 (fun x y => if x >? y then 65535 else 0) (words a) (words b)).
Definition and_16b (a b : list Z) : list Z := map2 Z.land a b.
(** The sum of the elements, then fmov to a 32-bit register *)
Definition uaddlv_8h (a : list Z) : Z := u32 (fold_right Z.add 0 (words a)).
(** The number of set bits of each byte *)
Definition cnt_16b (a : list Z) : list Z :=
  map (fun x => Z.of_nat (length (filter (Z.testbit x) (nats 8)))) a.
(** Byte [i] of the result is byte number [b[i]] of [a], 0 if there is none. *)
Definition tbl_16b (a b : list Z) : list Z :=
  map (fun i => if i <? 16 then nth (Z.to_nat i) a 0 else 0) b.
(** ldr q, [table, w, uxtw #4] *)
Definition ldr_row (table : list Z) (w : Z) : M (list Z) := aslice table (16 * w) 16.
(** ldr q and str q in an array of int16_t *)
Definition ldr_q (a : list Z) (i : Z) : M (list Z) := w <- aslice a i 8 ;; ret (unwords (map u16 w)).
Definition str_q (a : list Z) (i : Z) (v : list Z) : M (list Z) := asplice a i (map s16 (words v)).

(** ** rej_uniform_asm_clean.S *)

(** lines 30-286 (-1 is stored as 255) *)
Definition table_data : list Z :=
   [255; 255; 255; 255; 255; 255; 255; 255; 255; 255; 255; 255; 255; 255; 255; 255;
    0; 1; 255; 255; 255; 255; 255; 255; 255; 255; 255; 255; 255; 255; 255; 255;
    2; 3; 255; 255; 255; 255; 255; 255; 255; 255; 255; 255; 255; 255; 255; 255;
    0; 1; 2; 3; 255; 255; 255; 255; 255; 255; 255; 255; 255; 255; 255; 255;
    4; 5; 255; 255; 255; 255; 255; 255; 255; 255; 255; 255; 255; 255; 255; 255;
    0; 1; 4; 5; 255; 255; 255; 255; 255; 255; 255; 255; 255; 255; 255; 255;
    2; 3; 4; 5; 255; 255; 255; 255; 255; 255; 255; 255; 255; 255; 255; 255;
    0; 1; 2; 3; 4; 5; 255; 255; 255; 255; 255; 255; 255; 255; 255; 255;
    6; 7; 255; 255; 255; 255; 255; 255; 255; 255; 255; 255; 255; 255; 255; 255;
    0; 1; 6; 7; 255; 255; 255; 255; 255; 255; 255; 255; 255; 255; 255; 255;
    2; 3; 6; 7; 255; 255; 255; 255; 255; 255; 255; 255; 255; 255; 255; 255;
    0; 1; 2; 3; 6; 7; 255; 255; 255; 255; 255; 255; 255; 255; 255; 255;
    4; 5; 6; 7; 255; 255; 255; 255; 255; 255; 255; 255; 255; 255; 255; 255;
    0; 1; 4; 5; 6; 7; 255; 255; 255; 255; 255; 255; 255; 255; 255; 255;
    2; 3; 4; 5; 6; 7; 255; 255; 255; 255; 255; 255; 255; 255; 255; 255;
    0; 1; 2; 3; 4; 5; 6; 7; 255; 255; 255; 255; 255; 255; 255; 255;
    8; 9; 255; 255; 255; 255; 255; 255; 255; 255; 255; 255; 255; 255; 255; 255;
    0; 1; 8; 9; 255; 255; 255; 255; 255; 255; 255; 255; 255; 255; 255; 255;
    2; 3; 8; 9; 255; 255; 255; 255; 255; 255; 255; 255; 255; 255; 255; 255;
    0; 1; 2; 3; 8; 9; 255; 255; 255; 255; 255; 255; 255; 255; 255; 255;
    4; 5; 8; 9; 255; 255; 255; 255; 255; 255; 255; 255; 255; 255; 255; 255;
    0; 1; 4; 5; 8; 9; 255; 255; 255; 255; 255; 255; 255; 255; 255; 255;
    2; 3; 4; 5; 8; 9; 255; 255; 255; 255; 255; 255; 255; 255; 255; 255;
    0; 1; 2; 3; 4; 5; 8; 9; 255; 255; 255; 255; 255; 255; 255; 255;
    6; 7; 8; 9; 255; 255; 255; 255; 255; 255; 255; 255; 255; 255; 255; 255;
    0; 1; 6; 7; 8; 9; 255; 255; 255; 255; 255; 255; 255; 255; 255; 255;
    2; 3; 6; 7; 8; 9; 255; 255; 255; 255; 255; 255; 255; 255; 255; 255;
    0; 1; 2; 3; 6; 7; 8; 9; 255; 255; 255; 255; 255; 255; 255; 255;
    4; 5; 6; 7; 8; 9; 255; 255; 255; 255; 255; 255; 255; 255; 255; 255;
    0; 1; 4; 5; 6; 7; 8; 9; 255; 255; 255; 255; 255; 255; 255; 255;
    2; 3; 4; 5; 6; 7; 8; 9; 255; 255; 255; 255; 255; 255; 255; 255;
    0; 1; 2; 3; 4; 5; 6; 7; 8; 9; 255; 255; 255; 255; 255; 255;
    10; 11; 255; 255; 255; 255; 255; 255; 255; 255; 255; 255; 255; 255; 255; 255;
    0; 1; 10; 11; 255; 255; 255; 255; 255; 255; 255; 255; 255; 255; 255; 255;
    2; 3; 10; 11; 255; 255; 255; 255; 255; 255; 255; 255; 255; 255; 255; 255;
    0; 1; 2; 3; 10; 11; 255; 255; 255; 255; 255; 255; 255; 255; 255; 255;
    4; 5; 10; 11; 255; 255; 255; 255; 255; 255; 255; 255; 255; 255; 255; 255;
    0; 1; 4; 5; 10; 11; 255; 255; 255; 255; 255; 255; 255; 255; 255; 255;
    2; 3; 4; 5; 10; 11; 255; 255; 255; 255; 255; 255; 255; 255; 255; 255;
    0; 1; 2; 3; 4; 5; 10; 11; 255; 255; 255; 255; 255; 255; 255; 255;
    6; 7; 10; 11; 255; 255; 255; 255; 255; 255; 255; 255; 255; 255; 255; 255;
    0; 1; 6; 7; 10; 11; 255; 255; 255; 255; 255; 255; 255; 255; 255; 255;
    2; 3; 6; 7; 10; 11; 255; 255; 255; 255; 255; 255; 255; 255; 255; 255;
    0; 1; 2; 3; 6; 7; 10; 11; 255; 255; 255; 255; 255; 255; 255; 255;
    4; 5; 6; 7; 10; 11; 255; 255; 255; 255; 255; 255; 255; 255; 255; 255;
    0; 1; 4; 5; 6; 7; 10; 11; 255; 255; 255; 255; 255; 255; 255; 255;
    2; 3; 4; 5; 6; 7; 10; 11; 255; 255; 255; 255; 255; 255; 255; 255;
    0; 1; 2; 3; 4; 5; 6; 7; 10; 11; 255; 255; 255; 255; 255; 255;
    8; 9; 10; 11; 255; 255; 255; 255; 255; 255; 255; 255; 255; 255; 255; 255;
    0; 1; 8; 9; 10; 11; 255; 255; 255; 255; 255; 255; 255; 255; 255; 255;
    2; 3; 8; 9; 10; 11; 255; 255; 255; 255; 255; 255; 255; 255; 255; 255;
    0; 1; 2; 3; 8; 9; 10; 11; 255; 255; 255; 255; 255; 255; 255; 255;
    4; 5; 8; 9; 10; 11; 255; 255; 255; 255; 255; 255; 255; 255; 255; 255;
    0; 1; 4; 5; 8; 9; 10; 11; 255; 255; 255; 255; 255; 255; 255; 255;
    2; 3; 4; 5; 8; 9; 10; 11; 255; 255; 255; 255; 255; 255; 255; 255;
    0; 1; 2; 3; 4; 5; 8; 9; 10; 11; 255; 255; 255; 255; 255; 255;
    6; 7; 8; 9; 10; 11; 255; 255; 255; 255; 255; 255; 255; 255; 255; 255;
    0; 1; 6; 7; 8; 9; 10; 11; 255; 255; 255; 255; 255; 255; 255; 255;
    2; 3; 6; 7; 8; 9; 10; 11; 255; 255; 255; 255; 255; 255; 255; 255;
    0; 1; 2; 3; 6; 7; 8; 9; 10; 11; 255; 255; 255; 255; 255; 255;
    4; 5; 6; 7; 8; 9; 10; 11; 255; 255; 255; 255; 255; 255; 255; 255;
    0; 1; 4; 5; 6; 7; 8; 9; 10; 11; 255; 255; 255; 255; 255; 255;
    2; 3; 4; 5; 6; 7; 8; 9; 10; 11; 255; 255; 255; 255; 255; 255;
    0; 1; 2; 3; 4; 5; 6; 7; 8; 9; 10; 11; 255; 255; 255; 255;
    12; 13; 255; 255; 255; 255; 255; 255; 255; 255; 255; 255; 255; 255; 255; 255;
    0; 1; 12; 13; 255; 255; 255; 255; 255; 255; 255; 255; 255; 255; 255; 255;
    2; 3; 12; 13; 255; 255; 255; 255; 255; 255; 255; 255; 255; 255; 255; 255;
    0; 1; 2; 3; 12; 13; 255; 255; 255; 255; 255; 255; 255; 255; 255; 255;
    4; 5; 12; 13; 255; 255; 255; 255; 255; 255; 255; 255; 255; 255; 255; 255;
    0; 1; 4; 5; 12; 13; 255; 255; 255; 255; 255; 255; 255; 255; 255; 255;
    2; 3; 4; 5; 12; 13; 255; 255; 255; 255; 255; 255; 255; 255; 255; 255;
    0; 1; 2; 3; 4; 5; 12; 13; 255; 255; 255; 255; 255; 255; 255; 255;
    6; 7; 12; 13; 255; 255; 255; 255; 255; 255; 255; 255; 255; 255; 255; 255;
    0; 1; 6; 7; 12; 13; 255; 255; 255; 255; 255; 255; 255; 255; 255; 255;
    2; 3; 6; 7; 12; 13; 255; 255; 255; 255; 255; 255; 255; 255; 255; 255;
    0; 1; 2; 3; 6; 7; 12; 13; 255; 255; 255; 255; 255; 255; 255; 255;
    4; 5; 6; 7; 12; 13; 255; 255; 255; 255; 255; 255; 255; 255; 255; 255;
    0; 1; 4; 5; 6; 7; 12; 13; 255; 255; 255; 255; 255; 255; 255; 255;
    2; 3; 4; 5; 6; 7; 12; 13; 255; 255; 255; 255; 255; 255; 255; 255;
    0; 1; 2; 3; 4; 5; 6; 7; 12; 13; 255; 255; 255; 255; 255; 255;
    8; 9; 12; 13; 255; 255; 255; 255; 255; 255; 255; 255; 255; 255; 255; 255;
    0; 1; 8; 9; 12; 13; 255; 255; 255; 255; 255; 255; 255; 255; 255; 255;
    2; 3; 8; 9; 12; 13; 255; 255; 255; 255; 255; 255; 255; 255; 255; 255;
    0; 1; 2; 3; 8; 9; 12; 13; 255; 255; 255; 255; 255; 255; 255; 255;
    4; 5; 8; 9; 12; 13; 255; 255; 255; 255; 255; 255; 255; 255; 255; 255;
    0; 1; 4; 5; 8; 9; 12; 13; 255; 255; 255; 255; 255; 255; 255; 255;
    2; 3; 4; 5; 8; 9; 12; 13; 255; 255; 255; 255; 255; 255; 255; 255;
    0; 1; 2; 3; 4; 5; 8; 9; 12; 13; 255; 255; 255; 255; 255; 255;
    6; 7; 8; 9; 12; 13; 255; 255; 255; 255; 255; 255; 255; 255; 255; 255;
    0; 1; 6; 7; 8; 9; 12; 13; 255; 255; 255; 255; 255; 255; 255; 255;
    2; 3; 6; 7; 8; 9; 12; 13; 255; 255; 255; 255; 255; 255; 255; 255;
    0; 1; 2; 3; 6; 7; 8; 9; 12; 13; 255; 255; 255; 255; 255; 255;
    4; 5; 6; 7; 8; 9; 12; 13; 255; 255; 255; 255; 255; 255; 255; 255;
    0; 1; 4; 5; 6; 7; 8; 9; 12; 13; 255; 255; 255; 255; 255; 255;
    2; 3; 4; 5; 6; 7; 8; 9; 12; 13; 255; 255; 255; 255; 255; 255;
    0; 1; 2; 3; 4; 5; 6; 7; 8; 9; 12; 13; 255; 255; 255; 255;
    10; 11; 12; 13; 255; 255; 255; 255; 255; 255; 255; 255; 255; 255; 255; 255;
    0; 1; 10; 11; 12; 13; 255; 255; 255; 255; 255; 255; 255; 255; 255; 255;
    2; 3; 10; 11; 12; 13; 255; 255; 255; 255; 255; 255; 255; 255; 255; 255;
    0; 1; 2; 3; 10; 11; 12; 13; 255; 255; 255; 255; 255; 255; 255; 255;
    4; 5; 10; 11; 12; 13; 255; 255; 255; 255; 255; 255; 255; 255; 255; 255;
    0; 1; 4; 5; 10; 11; 12; 13; 255; 255; 255; 255; 255; 255; 255; 255;
    2; 3; 4; 5; 10; 11; 12; 13; 255; 255; 255; 255; 255; 255; 255; 255;
    0; 1; 2; 3; 4; 5; 10; 11; 12; 13; 255; 255; 255; 255; 255; 255;
    6; 7; 10; 11; 12; 13; 255; 255; 255; 255; 255; 255; 255; 255; 255; 255;
    0; 1; 6; 7; 10; 11; 12; 13; 255; 255; 255; 255; 255; 255; 255; 255;
    2; 3; 6; 7; 10; 11; 12; 13; 255; 255; 255; 255; 255; 255; 255; 255;
    0; 1; 2; 3; 6; 7; 10; 11; 12; 13; 255; 255; 255; 255; 255; 255;
    4; 5; 6; 7; 10; 11; 12; 13; 255; 255; 255; 255; 255; 255; 255; 255;
    0; 1; 4; 5; 6; 7; 10; 11; 12; 13; 255; 255; 255; 255; 255; 255;
    2; 3; 4; 5; 6; 7; 10; 11; 12; 13; 255; 255; 255; 255; 255; 255;
    0; 1; 2; 3; 4; 5; 6; 7; 10; 11; 12; 13; 255; 255; 255; 255;
    8; 9; 10; 11; 12; 13; 255; 255; 255; 255; 255; 255; 255; 255; 255; 255;
    0; 1; 8; 9; 10; 11; 12; 13; 255; 255; 255; 255; 255; 255; 255; 255;
    2; 3; 8; 9; 10; 11; 12; 13; 255; 255; 255; 255; 255; 255; 255; 255;
    0; 1; 2; 3; 8; 9; 10; 11; 12; 13; 255; 255; 255; 255; 255; 255;
    4; 5; 8; 9; 10; 11; 12; 13; 255; 255; 255; 255; 255; 255; 255; 255;
    0; 1; 4; 5; 8; 9; 10; 11; 12; 13; 255; 255; 255; 255; 255; 255;
    2; 3; 4; 5; 8; 9; 10; 11; 12; 13; 255; 255; 255; 255; 255; 255;
    0; 1; 2; 3; 4; 5; 8; 9; 10; 11; 12; 13; 255; 255; 255; 255;
    6; 7; 8; 9; 10; 11; 12; 13; 255; 255; 255; 255; 255; 255; 255; 255;
    0; 1; 6; 7; 8; 9; 10; 11; 12; 13; 255; 255; 255; 255; 255; 255;
    2; 3; 6; 7; 8; 9; 10; 11; 12; 13; 255; 255; 255; 255; 255; 255;
    0; 1; 2; 3; 6; 7; 8; 9; 10; 11; 12; 13; 255; 255; 255; 255;
    4; 5; 6; 7; 8; 9; 10; 11; 12; 13; 255; 255; 255; 255; 255; 255;
    0; 1; 4; 5; 6; 7; 8; 9; 10; 11; 12; 13; 255; 255; 255; 255;
    2; 3; 4; 5; 6; 7; 8; 9; 10; 11; 12; 13; 255; 255; 255; 255;
    0; 1; 2; 3; 4; 5; 6; 7; 8; 9; 10; 11; 12; 13; 255; 255;
    14; 15; 255; 255; 255; 255; 255; 255; 255; 255; 255; 255; 255; 255; 255; 255;
    0; 1; 14; 15; 255; 255; 255; 255; 255; 255; 255; 255; 255; 255; 255; 255;
    2; 3; 14; 15; 255; 255; 255; 255; 255; 255; 255; 255; 255; 255; 255; 255;
    0; 1; 2; 3; 14; 15; 255; 255; 255; 255; 255; 255; 255; 255; 255; 255;
    4; 5; 14; 15; 255; 255; 255; 255; 255; 255; 255; 255; 255; 255; 255; 255;
    0; 1; 4; 5; 14; 15; 255; 255; 255; 255; 255; 255; 255; 255; 255; 255;
    2; 3; 4; 5; 14; 15; 255; 255; 255; 255; 255; 255; 255; 255; 255; 255;
    0; 1; 2; 3; 4; 5; 14; 15; 255; 255; 255; 255; 255; 255; 255; 255;
    6; 7; 14; 15; 255; 255; 255; 255; 255; 255; 255; 255; 255; 255; 255; 255;
    0; 1; 6; 7; 14; 15; 255; 255; 255; 255; 255; 255; 255; 255; 255; 255;
    2; 3; 6; 7; 14; 15; 255; 255; 255; 255; 255; 255; 255; 255; 255; 255;
    0; 1; 2; 3; 6; 7; 14; 15; 255; 255; 255; 255; 255; 255; 255; 255;
    4; 5; 6; 7; 14; 15; 255; 255; 255; 255; 255; 255; 255; 255; 255; 255;
    0; 1; 4; 5; 6; 7; 14; 15; 255; 255; 255; 255; 255; 255; 255; 255;
    2; 3; 4; 5; 6; 7; 14; 15; 255; 255; 255; 255; 255; 255; 255; 255;
    0; 1; 2; 3; 4; 5; 6; 7; 14; 15; 255; 255; 255; 255; 255; 255;
    8; 9; 14; 15; 255; 255; 255; 255; 255; 255; 255; 255; 255; 255; 255; 255;
    0; 1; 8; 9; 14; 15; 255; 255; 255; 255; 255; 255; 255; 255; 255; 255;
    2; 3; 8; 9; 14; 15; 255; 255; 255; 255; 255; 255; 255; 255; 255; 255;
    0; 1; 2; 3; 8; 9; 14; 15; 255; 255; 255; 255; 255; 255; 255; 255;
    4; 5; 8; 9; 14; 15; 255; 255; 255; 255; 255; 255; 255; 255; 255; 255;
    0; 1; 4; 5; 8; 9; 14; 15; 255; 255; 255; 255; 255; 255; 255; 255;
    2; 3; 4; 5; 8; 9; 14; 15; 255; 255; 255; 255; 255; 255; 255; 255;
    0; 1; 2; 3; 4; 5; 8; 9; 14; 15; 255; 255; 255; 255; 255; 255;
    6; 7; 8; 9; 14; 15; 255; 255; 255; 255; 255; 255; 255; 255; 255; 255;
    0; 1; 6; 7; 8; 9; 14; 15; 255; 255; 255; 255; 255; 255; 255; 255;
    2; 3; 6; 7; 8; 9; 14; 15; 255; 255; 255; 255; 255; 255; 255; 255;
    0; 1; 2; 3; 6; 7; 8; 9; 14; 15; 255; 255; 255; 255; 255; 255;
    4; 5; 6; 7; 8; 9; 14; 15; 255; 255; 255; 255; 255; 255; 255; 255;
    0; 1; 4; 5; 6; 7; 8; 9; 14; 15; 255; 255; 255; 255; 255; 255;
    2; 3; 4; 5; 6; 7; 8; 9; 14; 15; 255; 255; 255; 255; 255; 255;
    0; 1; 2; 3; 4; 5; 6; 7; 8; 9; 14; 15; 255; 255; 255; 255;
    10; 11; 14; 15; 255; 255; 255; 255; 255; 255; 255; 255; 255; 255; 255; 255;
    0; 1; 10; 11; 14; 15; 255; 255; 255; 255; 255; 255; 255; 255; 255; 255;
    2; 3; 10; 11; 14; 15; 255; 255; 255; 255; 255; 255; 255; 255; 255; 255;
    0; 1; 2; 3; 10; 11; 14; 15; 255; 255; 255; 255; 255; 255; 255; 255;
    4; 5; 10; 11; 14; 15; 255; 255; 255; 255; 255; 255; 255; 255; 255; 255;
    0; 1; 4; 5; 10; 11; 14; 15; 255; 255; 255; 255; 255; 255; 255; 255;
    2; 3; 4; 5; 10; 11; 14; 15; 255; 255; 255; 255; 255; 255; 255; 255;
    0; 1; 2; 3; 4; 5; 10; 11; 14; 15; 255; 255; 255; 255; 255; 255;
    6; 7; 10; 11; 14; 15; 255; 255; 255; 255; 255; 255; 255; 255; 255; 255;
    0; 1; 6; 7; 10; 11; 14; 15; 255; 255; 255; 255; 255; 255; 255; 255;
    2; 3; 6; 7; 10; 11; 14; 15; 255; 255; 255; 255; 255; 255; 255; 255;
    0; 1; 2; 3; 6; 7; 10; 11; 14; 15; 255; 255; 255; 255; 255; 255;
    4; 5; 6; 7; 10; 11; 14; 15; 255; 255; 255; 255; 255; 255; 255; 255;
    0; 1; 4; 5; 6; 7; 10; 11; 14; 15; 255; 255; 255; 255; 255; 255;
    2; 3; 4; 5; 6; 7; 10; 11; 14; 15; 255; 255; 255; 255; 255; 255;
    0; 1; 2; 3; 4; 5; 6; 7; 10; 11; 14; 15; 255; 255; 255; 255;
    8; 9; 10; 11; 14; 15; 255; 255; 255; 255; 255; 255; 255; 255; 255; 255;
    0; 1; 8; 9; 10; 11; 14; 15; 255; 255; 255; 255; 255; 255; 255; 255;
    2; 3; 8; 9; 10; 11; 14; 15; 255; 255; 255; 255; 255; 255; 255; 255;
    0; 1; 2; 3; 8; 9; 10; 11; 14; 15; 255; 255; 255; 255; 255; 255;
    4; 5; 8; 9; 10; 11; 14; 15; 255; 255; 255; 255; 255; 255; 255; 255;
    0; 1; 4; 5; 8; 9; 10; 11; 14; 15; 255; 255; 255; 255; 255; 255;
    2; 3; 4; 5; 8; 9; 10; 11; 14; 15; 255; 255; 255; 255; 255; 255;
    0; 1; 2; 3; 4; 5; 8; 9; 10; 11; 14; 15; 255; 255; 255; 255;
    6; 7; 8; 9; 10; 11; 14; 15; 255; 255; 255; 255; 255; 255; 255; 255;
    0; 1; 6; 7; 8; 9; 10; 11; 14; 15; 255; 255; 255; 255; 255; 255;
    2; 3; 6; 7; 8; 9; 10; 11; 14; 15; 255; 255; 255; 255; 255; 255;
    0; 1; 2; 3; 6; 7; 8; 9; 10; 11; 14; 15; 255; 255; 255; 255;
    4; 5; 6; 7; 8; 9; 10; 11; 14; 15; 255; 255; 255; 255; 255; 255;
    0; 1; 4; 5; 6; 7; 8; 9; 10; 11; 14; 15; 255; 255; 255; 255;
    2; 3; 4; 5; 6; 7; 8; 9; 10; 11; 14; 15; 255; 255; 255; 255;
    0; 1; 2; 3; 4; 5; 6; 7; 8; 9; 10; 11; 14; 15; 255; 255;
    12; 13; 14; 15; 255; 255; 255; 255; 255; 255; 255; 255; 255; 255; 255; 255;
    0; 1; 12; 13; 14; 15; 255; 255; 255; 255; 255; 255; 255; 255; 255; 255;
    2; 3; 12; 13; 14; 15; 255; 255; 255; 255; 255; 255; 255; 255; 255; 255;
    0; 1; 2; 3; 12; 13; 14; 15; 255; 255; 255; 255; 255; 255; 255; 255;
    4; 5; 12; 13; 14; 15; 255; 255; 255; 255; 255; 255; 255; 255; 255; 255;
    0; 1; 4; 5; 12; 13; 14; 15; 255; 255; 255; 255; 255; 255; 255; 255;
    2; 3; 4; 5; 12; 13; 14; 15; 255; 255; 255; 255; 255; 255; 255; 255;
    0; 1; 2; 3; 4; 5; 12; 13; 14; 15; 255; 255; 255; 255; 255; 255;
    6; 7; 12; 13; 14; 15; 255; 255; 255; 255; 255; 255; 255; 255; 255; 255;
    0; 1; 6; 7; 12; 13; 14; 15; 255; 255; 255; 255; 255; 255; 255; 255;
    2; 3; 6; 7; 12; 13; 14; 15; 255; 255; 255; 255; 255; 255; 255; 255;
    0; 1; 2; 3; 6; 7; 12; 13; 14; 15; 255; 255; 255; 255; 255; 255;
    4; 5; 6; 7; 12; 13; 14; 15; 255; 255; 255; 255; 255; 255; 255; 255;
    0; 1; 4; 5; 6; 7; 12; 13; 14; 15; 255; 255; 255; 255; 255; 255;
    2; 3; 4; 5; 6; 7; 12; 13; 14; 15; 255; 255; 255; 255; 255; 255;
    0; 1; 2; 3; 4; 5; 6; 7; 12; 13; 14; 15; 255; 255; 255; 255;
    8; 9; 12; 13; 14; 15; 255; 255; 255; 255; 255; 255; 255; 255; 255; 255;
    0; 1; 8; 9; 12; 13; 14; 15; 255; 255; 255; 255; 255; 255; 255; 255;
    2; 3; 8; 9; 12; 13; 14; 15; 255; 255; 255; 255; 255; 255; 255; 255;
    0; 1; 2; 3; 8; 9; 12; 13; 14; 15; 255; 255; 255; 255; 255; 255;
    4; 5; 8; 9; 12; 13; 14; 15; 255; 255; 255; 255; 255; 255; 255; 255;
    0; 1; 4; 5; 8; 9; 12; 13; 14; 15; 255; 255; 255; 255; 255; 255;
    2; 3; 4; 5; 8; 9; 12; 13; 14; 15; 255; 255; 255; 255; 255; 255;
    0; 1; 2; 3; 4; 5; 8; 9; 12; 13; 14; 15; 255; 255; 255; 255;
    6; 7; 8; 9; 12; 13; 14; 15; 255; 255; 255; 255; 255; 255; 255; 255;
    0; 1; 6; 7; 8; 9; 12; 13; 14; 15; 255; 255; 255; 255; 255; 255;
    2; 3; 6; 7; 8; 9; 12; 13; 14; 15; 255; 255; 255; 255; 255; 255;
    0; 1; 2; 3; 6; 7; 8; 9; 12; 13; 14; 15; 255; 255; 255; 255;
    4; 5; 6; 7; 8; 9; 12; 13; 14; 15; 255; 255; 255; 255; 255; 255;
    0; 1; 4; 5; 6; 7; 8; 9; 12; 13; 14; 15; 255; 255; 255; 255;
    2; 3; 4; 5; 6; 7; 8; 9; 12; 13; 14; 15; 255; 255; 255; 255;
    0; 1; 2; 3; 4; 5; 6; 7; 8; 9; 12; 13; 14; 15; 255; 255;
    10; 11; 12; 13; 14; 15; 255; 255; 255; 255; 255; 255; 255; 255; 255; 255;
    0; 1; 10; 11; 12; 13; 14; 15; 255; 255; 255; 255; 255; 255; 255; 255;
    2; 3; 10; 11; 12; 13; 14; 15; 255; 255; 255; 255; 255; 255; 255; 255;
    0; 1; 2; 3; 10; 11; 12; 13; 14; 15; 255; 255; 255; 255; 255; 255;
    4; 5; 10; 11; 12; 13; 14; 15; 255; 255; 255; 255; 255; 255; 255; 255;
    0; 1; 4; 5; 10; 11; 12; 13; 14; 15; 255; 255; 255; 255; 255; 255;
    2; 3; 4; 5; 10; 11; 12; 13; 14; 15; 255; 255; 255; 255; 255; 255;
    0; 1; 2; 3; 4; 5; 10; 11; 12; 13; 14; 15; 255; 255; 255; 255;
    6; 7; 10; 11; 12; 13; 14; 15; 255; 255; 255; 255; 255; 255; 255; 255;
    0; 1; 6; 7; 10; 11; 12; 13; 14; 15; 255; 255; 255; 255; 255; 255;
    2; 3; 6; 7; 10; 11; 12; 13; 14; 15; 255; 255; 255; 255; 255; 255;
    0; 1; 2; 3; 6; 7; 10; 11; 12; 13; 14; 15; 255; 255; 255; 255;
    4; 5; 6; 7; 10; 11; 12; 13; 14; 15; 255; 255; 255; 255; 255; 255;
    0; 1; 4; 5; 6; 7; 10; 11; 12; 13; 14; 15; 255; 255; 255; 255;
    2; 3; 4; 5; 6; 7; 10; 11; 12; 13; 14; 15; 255; 255; 255; 255;
    0; 1; 2; 3; 4; 5; 6; 7; 10; 11; 12; 13; 14; 15; 255; 255;
    8; 9; 10; 11; 12; 13; 14; 15; 255; 255; 255; 255; 255; 255; 255; 255;
    0; 1; 8; 9; 10; 11; 12; 13; 14; 15; 255; 255; 255; 255; 255; 255;
    2; 3; 8; 9; 10; 11; 12; 13; 14; 15; 255; 255; 255; 255; 255; 255;
    0; 1; 2; 3; 8; 9; 10; 11; 12; 13; 14; 15; 255; 255; 255; 255;
    4; 5; 8; 9; 10; 11; 12; 13; 14; 15; 255; 255; 255; 255; 255; 255;
    0; 1; 4; 5; 8; 9; 10; 11; 12; 13; 14; 15; 255; 255; 255; 255;
    2; 3; 4; 5; 8; 9; 10; 11; 12; 13; 14; 15; 255; 255; 255; 255;
    0; 1; 2; 3; 4; 5; 8; 9; 10; 11; 12; 13; 14; 15; 255; 255;
    6; 7; 8; 9; 10; 11; 12; 13; 14; 15; 255; 255; 255; 255; 255; 255;
    0; 1; 6; 7; 8; 9; 10; 11; 12; 13; 14; 15; 255; 255; 255; 255;
    2; 3; 6; 7; 8; 9; 10; 11; 12; 13; 14; 15; 255; 255; 255; 255;
    0; 1; 2; 3; 6; 7; 8; 9; 10; 11; 12; 13; 14; 15; 255; 255;
    4; 5; 6; 7; 8; 9; 10; 11; 12; 13; 14; 15; 255; 255; 255; 255;
    0; 1; 4; 5; 6; 7; 8; 9; 10; 11; 12; 13; 14; 15; 255; 255;
    2; 3; 4; 5; 6; 7; 8; 9; 10; 11; 12; 13; 14; 15; 255; 255;
    0; 1; 2; 3; 4; 5; 6; 7; 8; 9; 10; 11; 12; 13; 14; 15].
(** lines 288-289 *)
Definition bit_table_data : list Z := unwords [1; 2; 4; 8; 16; 32; 64; 128].
(** line 294, in elements *)
Definition STACK_SIZE : Z := MLKEM_N + 32.

(** lines 407-520. The state is the temporary output on the stack, output_tmp (in elements
    from output_tmp_base), count, buf (in bytes from its first value) and buflen. *)
Definition loop48 (buf : list Z) (mlkem_q bits : list Z) (len : Z) (st : list Z * Z * Z * Z * Z)
  : M (list Z * Z * Z * Z * Z) :=
  while (Z.to_nat (snd st))
    (fun '(tmp, output_tmp, count, pos, buflen) => (48 <=? buflen) && (count <? len))
    (fun '(tmp, output_tmp, count, pos, buflen) =>
      let buflen := u32 (buflen - 48) in
      '(buf0, buf1, buf2) <- ld3_16b buf pos ;;
      let pos := pos + 48 in
      let tmp0 := zip1_16b buf0 buf1 in
      let tmp1 := zip2_16b buf0 buf1 in
      let tmp2 := zip1_16b buf1 buf2 in
      let tmp3 := zip2_16b buf1 buf2 in
      let tmp0 := bic_8h tmp0 (240 << 8) in
      let tmp1 := bic_8h tmp1 (240 << 8) in
      let tmp2 := ushr_8h tmp2 4 in
      let tmp3 := ushr_8h tmp3 4 in
      let val0 := zip1_8h tmp0 tmp2 in
      let val1 := zip2_8h tmp0 tmp2 in
      let val2 := zip1_8h tmp1 tmp3 in
      let val3 := zip2_8h tmp1 tmp3 in
      let sign0 := cmhi_8h mlkem_q val0 in
      let sign1 := cmhi_8h mlkem_q val1 in
      let sign2 := cmhi_8h mlkem_q val2 in
      let sign3 := cmhi_8h mlkem_q val3 in
      let sign0 := and_16b sign0 bits in
      let sign1 := and_16b sign1 bits in
      let sign2 := and_16b sign2 bits in
      let sign3 := and_16b sign3 bits in
      let rec_idx_0 := uaddlv_8h sign0 in
      let rec_idx_1 := uaddlv_8h sign1 in
      let rec_idx_2 := uaddlv_8h sign2 in
      let rec_idx_3 := uaddlv_8h sign3 in
      table0 <- ldr_row table_data rec_idx_0 ;;
      table1 <- ldr_row table_data rec_idx_1 ;;
      table2 <- ldr_row table_data rec_idx_2 ;;
      table3 <- ldr_row table_data rec_idx_3 ;;
      let sign0 := cnt_16b sign0 in
      let sign1 := cnt_16b sign1 in
      let sign2 := cnt_16b sign2 in
      let sign3 := cnt_16b sign3 in
      let ctr0 := uaddlv_8h sign0 in
      let ctr1 := uaddlv_8h sign1 in
      let ctr2 := uaddlv_8h sign2 in
      let ctr3 := uaddlv_8h sign3 in
      let val0 := tbl_16b val0 table0 in
      let val1 := tbl_16b val1 table1 in
      let val2 := tbl_16b val2 table2 in
      let val3 := tbl_16b val3 table3 in
      tmp <- str_q tmp output_tmp val0 ;;
      let output_tmp := output_tmp + ctr0 in
      tmp <- str_q tmp output_tmp val1 ;;
      let output_tmp := output_tmp + ctr1 in
      tmp <- str_q tmp output_tmp val2 ;;
      let output_tmp := output_tmp + ctr2 in
      tmp <- str_q tmp output_tmp val3 ;;
      let output_tmp := output_tmp + ctr3 in
      let ctr01 := u32 (ctr0 + ctr1) in
      let ctr23 := u32 (ctr2 + ctr3) in
      let count := u32 (count + ctr01) in
      let count := u32 (count + ctr23) in
      ret (tmp, output_tmp, count, pos, buflen)) st.

(** lines 521-576 *)
Definition tail24 (buf : list Z) (mlkem_q bits : list Z) (len : Z) (st : list Z * Z * Z * Z * Z)
  : M (list Z * Z) :=
  let '(tmp, output_tmp, count, pos, buflen) := st in
  branch (len <=? count) (ret (tmp, count))
    (branch (buflen <? 24) (ret (tmp, count))
      ('(buf0, buf1, buf2) <- ld3_8b buf pos ;;
       let tmp0 := zip1_16b buf0 buf1 in
       let tmp1 := zip1_16b buf1 buf2 in
       let tmp0 := bic_8h tmp0 (240 << 8) in
       let tmp1 := ushr_8h tmp1 4 in
       let val0 := zip1_8h tmp0 tmp1 in
       let val1 := zip2_8h tmp0 tmp1 in
       let sign0 := cmhi_8h mlkem_q val0 in
       let sign1 := cmhi_8h mlkem_q val1 in
       let sign0 := and_16b sign0 bits in
       let sign1 := and_16b sign1 bits in
       let rec_idx_0 := uaddlv_8h sign0 in
       let rec_idx_1 := uaddlv_8h sign1 in
       table0 <- ldr_row table_data rec_idx_0 ;;
       table1 <- ldr_row table_data rec_idx_1 ;;
       let sign0 := cnt_16b sign0 in
       let sign1 := cnt_16b sign1 in
       let ctr0 := uaddlv_8h sign0 in
       let ctr1 := uaddlv_8h sign1 in
       let val0 := tbl_16b val0 table0 in
       let val1 := tbl_16b val1 table1 in
       tmp <- str_q tmp output_tmp val0 ;;
       let output_tmp := output_tmp + ctr0 in
       tmp <- str_q tmp output_tmp val1 ;;
       let count := u32 (count + ctr0) in
       let count := u32 (count + ctr1) in
       ret (tmp, count))).

(** lines 388-606; [r] is output, the stack below the caller's holds anything. The copy in
    lines 588-599 counts to MLKEM_N in steps of 32. *)
Definition rej_uniform_asm_clean (J : junk) (r buf : list Z) (buflen : Z) : M (list Z * Z) :=
  let stack := uninit J 0 STACK_SIZE in
  let bits := bit_table_data in
  let mlkem_q := dup_8h MLKEM_Q in
  let len := MLKEM_N in
  st <- loop48 buf mlkem_q bits len (stack, 0, 0, 0, buflen) ;;
  '(tmp, count) <- tail24 buf mlkem_q bits len st ;;
  let count := if count <? len then count else len in
  r <- for_up 0 MLKEM_N 32 (fun i r =>
    val0 <- ldr_q tmp i ;;
    val1 <- ldr_q tmp (i + 8) ;;
    val2 <- ldr_q tmp (i + 16) ;;
    val3 <- ldr_q tmp (i + 24) ;;
    r <- str_q r i val0 ;;
    r <- str_q r (i + 8) val1 ;;
    r <- str_q r (i + 16) val2 ;;
    str_q r (i + 24) val3) r ;;
  ret (r, count).

(** ** The AArch64 build of rej_uniform *)

(** profiles/clean.h and opt.h 68-76 *)
Definition rej_uniform_native_aarch64 (J : junk) (r : list Z) (len : Z) (buf : list Z) (buflen : Z)
  : M (list Z * Z) :=
  branch (negb (len =? MLKEM_N) || negb (buflen mod 24 =? 0))
    (ret (r, -1))
    (rej_uniform_asm_clean J r buf buflen).

(** rej_uniform.c 78-91 (MLKEM_USE_NATIVE_REJ_UNIFORM). The array that r + offset points
    to is the rest of [r] from element [offset] on. *)
Definition rej_uniform_aarch64 (J : junk) (r : list Z) (target offset : Z) (buf : list Z)
  (buflen : Z) : M (list Z * Z) :=
  t <- aslice r offset (Z.of_nat (length r) - offset) ;;
  '(t, res) <- rej_uniform_native_aarch64 J t (u32 (target - offset)) buf buflen ;;
  r <- asplice r offset t ;;
  branch (negb (res =? -1))
    (ret (r, u32 (offset + u32 res)))
    (rej_uniform_scalar r target offset buf buflen).
