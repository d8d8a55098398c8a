(** * Model of test/notrandombytes/notrandombytes.c: the generator of the functional tests

    The static variables [in], [out] and [outleft] are a record that every call takes and
    returns; [seed] is never written and is a constant. *)

From Coq Require Import ZArith List Bool.
From Verif Require Import CSem ModelArith.
Import ListNotations.
Open Scope Z_scope.

(** notrandombytes.c 18-19 *)
Definition seed : list Z :=
  [3; 1; 4; 1; 5; 9; 2; 6; 5; 3; 5; 8; 9; 7; 9; 3;
   2; 3; 8; 4; 6; 2; 6; 4; 3; 3; 8; 3; 2; 7; 9; 5].

(** notrandombytes.c 20-22; static objects start at zero (C99 6.7.8 (10)) *)
Record surf_state : Type := { st_in : list Z; st_out : list Z; st_outleft : Z }.
Definition surf_start : surf_state :=
  {| st_in := repeat 0 12; st_out := repeat 0 8; st_outleft := 0 |}.

(** notrandombytes.c 24, on uint32_t *)
Definition ROTATE (x b : Z) : Z := u32 (x << b) .| (x >> (32 - b)).
(** notrandombytes.c 25: the new values of t and x *)
Definition MUSH (i b sum : Z) (tx : list Z * Z) : M (list Z * Z) :=
  let '(t, x) := tx in
  si <- aget seed i ;;
  ti <- aget t i ;;
  let x' := u32 (ti + (u32 ((x .^ si) + sum) .^ ROTATE x b)) in
  t <- aset t i x' ;;
  ret (t, x').

(** notrandombytes.c 27-67: the new contents of out. [J] fills the uninitialised t. *)
Definition surf (J : junk) (inp out : list Z) : M (list Z) :=
  t <- for_up 0 12 1 (fun i t =>
         a <- aget inp i ;; b <- aget seed (12 + i) ;;
         aset t i (a .^ b)) (uninit J 0 12) ;;
  out <- for_up 0 8 1 (fun i out => b <- aget seed (24 + i) ;; aset out i b) out ;;
  x <- aget t 11 ;;
  '(_, _, _, out) <- for_up 0 2 1 (fun _ '(t, x, sum, out) =>
    '(t, x, sum) <- for_up 0 16 1 (fun _ '(t, x, sum) =>
      let sum := u32 (sum + 2654435769) in
      s <- MUSH 0 5 sum (t, x) ;;
      s <- MUSH 1 7 sum s ;;
      s <- MUSH 2 9 sum s ;;
      s <- MUSH 3 13 sum s ;;
      s <- MUSH 4 5 sum s ;;
      s <- MUSH 5 7 sum s ;;
      s <- MUSH 6 9 sum s ;;
      s <- MUSH 7 13 sum s ;;
      s <- MUSH 8 5 sum s ;;
      s <- MUSH 9 7 sum s ;;
      s <- MUSH 10 9 sum s ;;
      '(t, x) <- MUSH 11 13 sum s ;;
      ret (t, x, sum)) (t, x, sum) ;;
    out <- for_up 0 8 1 (fun i out =>
      o <- aget out i ;; ti <- aget t (i + 4) ;; aset out i (o .^ ti)) out ;;
    ret (t, x, sum, out)) (t, x, 0, out) ;;
  ret out.

(** notrandombytes.c 75-84: the 128-bit counter in the first four words of in *)
Definition count_up (inp : list Z) : M (list Z) :=
  w <- aget inp 0 ;; inp <- aset inp 0 (u32 (w + 1)) ;;
  branch (u32 (w + 1) =? 0)
    (w <- aget inp 1 ;; inp <- aset inp 1 (u32 (w + 1)) ;;
     branch (u32 (w + 1) =? 0)
       (w <- aget inp 2 ;; inp <- aset inp 2 (u32 (w + 1)) ;;
        branch (u32 (w + 1) =? 0)
          (w <- aget inp 3 ;; aset inp 3 (u32 (w + 1)))
          (ret inp))
       (ret inp))
    (ret inp).

(** notrandombytes.c 69-92: randombytes(buf, n). The pointer that the code advances is the
    buffer and an offset; the loop runs [n] times, so that is the fuel. *)
Definition surf_randombytes (J : junk) (st : surf_state) (buf : list Z) (n : Z)
  : M (surf_state * list Z) :=
  '(st, buf, _, _) <- while (Z.to_nat n) (fun '(_, _, _, n) => 0 <? n)
    (fun '(st, buf, pos, n) =>
      st <- branch (st_outleft st =? 0)
             (inp <- count_up (st_in st) ;;
              out <- surf J inp (st_out st) ;;
              ret {| st_in := inp; st_out := out; st_outleft := 8 |})
             (ret st) ;;
      left <- i32 (st_outleft st - 1) ;;
      w <- aget (st_out st) left ;;
      buf <- aset buf pos (u8 w) ;;
      ret ({| st_in := st_in st; st_out := st_out st; st_outleft := left |}, buf, pos + 1, n - 1))
    (st, buf, 0, n) ;;
  ret (st, buf).

(** A program that only calls randombytes(buf, sizeof buf) for one buffer after the other:
    the contents of the buffers afterwards. *)
Fixpoint surf_calls (J : junk) (st : surf_state) (bufs : list (list Z)) : M (list (list Z)) :=
  match bufs with
  | [] => ret []
  | buf :: rest =>
      '(st, buf) <- surf_randombytes (sub J 0) st buf (Z.of_nat (length buf)) ;;
      rest <- surf_calls (sub J 1) st rest ;;
      ret (buf :: rest)
  end.
