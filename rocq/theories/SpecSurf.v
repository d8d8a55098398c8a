(** * The generator SURF of Bernstein ("SURF: simple unpredictable random function"), as the
      tests seed it (C64) *)

From Coq Require Import ZArith List.
From Verif Require Import Spec202 Spec203 SpecApi.
Import ListNotations.
Open Scope Z_scope.

(** The digits of pi *)
Definition surf_seed : list Z :=
  [3; 1; 4; 1; 5; 9; 2; 6; 5; 3; 5; 8; 9; 7; 9; 3;
   2; 3; 8; 4; 6; 2; 6; 4; 3; 3; 8; 3; 2; 7; 9; 5].

(** Rotation of a 32-bit word to the left, and the distances *)
Definition rotated (x b : Z) : Z := (x * 2 ^ b) mod 2 ^ 32 + x / 2 ^ (32 - b).
Definition distance (j : Z) : Z := at_ [5; 7; 9; 13] (j mod 4).

(** SURF of twelve words is built on a sequence
      y(-12), ..., y(-1), y(0), y(1), ...
    The first twelve are the words with seed words 12 to 23 xored in. Each further one is
      y(j) = y(j-12) + (((y(j-1) xor seed(j mod 12)) + (j/12 + 1) * 0x9e3779b9)
                        xor (y(j-1) rotated by 5, 7, 9, 13 in turn)).
    [sequence words n] lists y(-12) .. y(n-1). *)
Fixpoint sequence (words : list Z) (n : nat) : list Z :=
  match n with
  | O => map (fun i => Z.lxor (at_ words i) (at_ surf_seed (12 + i))) (range 12)
  | S m =>
      let s := sequence words m in
      let j := Z.of_nat m in
      let y := fun i => at_ s (i + 12) in
      s ++ [(y (j - 12)
             + Z.lxor ((Z.lxor (y (j - 1)) (at_ surf_seed (j mod 12))
                        + (j / 12 + 1) * 0x9e3779b9) mod 2 ^ 32)
                      (rotated (y (j - 1)) (distance j))) mod 2 ^ 32]
  end.
(** The result is eight words: seed words 24 to 31, y(184) .. y(191) and y(376) .. y(383)
    xored together. *)
Definition SURF (words : list Z) : list Z :=
  map (fun i => Z.lxor (Z.lxor (at_ surf_seed (24 + i)) (at_ (sequence words 384) (184 + i + 12)))
                       (at_ (sequence words 384) (376 + i + 12))) (range 8).

(** The words of a 128-bit counter, least significant first, padded with zeros *)
Definition counter_words (c : Z) : list Z :=
  [c mod 2 ^ 32; c / 2 ^ 32 mod 2 ^ 32; c / 2 ^ 64 mod 2 ^ 32; c / 2 ^ 96 mod 2 ^ 32;
   0; 0; 0; 0; 0; 0; 0; 0].
(** The stream: the low bytes of the eight words of SURF(1), last word first, then those of
    SURF(2), and so on. *)
Definition surf_stream (i : Z) : Z :=
  at_ (SURF (counter_words (i / 8 + 1))) (7 - i mod 8) mod 256.

(** Consecutive pieces of a stream, of the given lengths *)
Fixpoint dealt (stream : Z -> Z) (pos : Z) (lengths : list Z) : list (list Z) :=
  match lengths with
  | [] => []
  | n :: rest => drawn stream pos n :: dealt stream (pos + n) rest
  end.
