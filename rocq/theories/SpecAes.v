(** * FIPS 197: the Advanced Encryption Standard (C65)

    Bytes are numbers below 256. The state is the list of its sixteen bytes in the order of the
    input, so the byte in row r and column c is number r + 4 c (FIPS 197, 3.4). *)

From Coq Require Import ZArith List Bool.
From Verif Require Import Spec202.
Import ListNotations.
Open Scope Z_scope.

Definition xor_bytes (a b : list Z) : list Z := map (fun p => Z.lxor (fst p) (snd p)) (combine a b).

(** ** 4.2: the field GF(2^8) modulo x^8 + x^4 + x^3 + x + 1 *)
(** 4.2.1: multiplication by x *)
Definition xtimes (b : Z) : Z := if b <? 128 then 2 * b else Z.lxor (2 * b) 0x11b.
(** The product: the sum of the x^i b for the bits i of a *)
Fixpoint times_bits (bits : nat) (a b : Z) : Z :=
  match bits with
  | O => 0
  | S n => Z.lxor (if Z.odd a then b else 0) (times_bits n (a / 2) (xtimes b))
  end.
Definition times (a b : Z) : Z := times_bits 8 a b.
(** 4.2.3: the inverse is the power 254; 0 is mapped to 0 *)
Definition inverse (b : Z) : Z := fold_right times 1 (repeat b 254).

(** ** 5.1.1: the S-box, an affine transformation of the inverse *)
Definition bit (b i : Z) : bool := Z.testbit b (i mod 8).
Definition from_bits (f : Z -> bool) : Z := sum 8 (fun i => if f i then 2 ^ i else 0).
Definition SBox (x : Z) : Z :=
  let b := inverse x in
  from_bits (fun i => xorb (xorb (xorb (xorb (xorb (bit b i) (bit b (i + 4))) (bit b (i + 5)))
                                       (bit b (i + 6))) (bit b (i + 7))) (bit 0x63 i)).
Definition SubBytes (s : list Z) : list Z := map SBox s.

(** A state from its bytes at row and column *)
Definition by_position (f : Z -> Z -> Z) : list Z := map (fun n => f (n mod 4) (n / 4)) (range 16).
Definition entry (s : list Z) (r c : Z) : Z := at_ s (r + 4 * c).

(** ** 5.1.2: row r is shifted by r *)
Definition ShiftRows (s : list Z) : list Z := by_position (fun r c => entry s r ((c + r) mod 4)).

(** ** 5.1.3: every column is multiplied by a matrix whose first row is 2 3 1 1 *)
Definition MixColumns (s : list Z) : list Z :=
  by_position (fun r c =>
    Z.lxor (Z.lxor (Z.lxor (times 2 (entry s r c)) (times 3 (entry s ((r + 1) mod 4) c)))
                   (entry s ((r + 2) mod 4) c)) (entry s ((r + 3) mod 4) c)).

(** ** 5.1.4: four words of the key schedule, one for each column *)
Definition AddRoundKey (s : list Z) (words : list (list Z)) : list Z := xor_bytes s (concat words).

(** ** 5.1: the cipher; [w] is the list of the words of the key schedule *)
Fixpoint rounds (n : nat) (round : Z) (w : list (list Z)) (s : list Z) : list Z :=
  match n with
  | O => s
  | S m =>
      rounds m (round + 1) w
        (AddRoundKey (MixColumns (ShiftRows (SubBytes s))) (slice w (4 * round) (4 * round + 4)))
  end.
Definition Cipher (Nr : Z) (w : list (list Z)) (input : list Z) : list Z :=
  let s := AddRoundKey input (slice w 0 4) in
  let s := rounds (Z.to_nat (Nr - 1)) 1 w s in
  AddRoundKey (ShiftRows (SubBytes s)) (slice w (4 * Nr) (4 * Nr + 4)).

(** ** 5.2: key expansion; words are lists of four bytes *)
Definition RotWord (w : list Z) : list Z := slice w 1 4 ++ slice w 0 1.
Definition SubWord (w : list Z) : list Z := map SBox w.
(** Rcon[j] = (x^(j-1), 0, 0, 0) *)
Definition Rcon_word (j : Z) : list Z := [Nat.iter (Z.to_nat (j - 1)) xtimes 1; 0; 0; 0].
Definition next_word (Nk : Z) (w : list (list Z)) (i : Z) : list Z :=
  let temp := nth (Z.to_nat (i - 1)) w [] in
  let temp :=
    if i mod Nk =? 0 then xor_bytes (SubWord (RotWord temp)) (Rcon_word (i / Nk))
    else if (6 <? Nk) && (i mod Nk =? 4) then SubWord temp
    else temp in
  xor_bytes (nth (Z.to_nat (i - Nk)) w []) temp.
Fixpoint expand (n : nat) (Nk i : Z) (w : list (list Z)) : list (list Z) :=
  match n with
  | O => w
  | S m => expand m Nk (i + 1) (w ++ [next_word Nk w i])
  end.
Definition KeyExpansion (Nk Nr : Z) (key : list Z) : list (list Z) :=
  expand (Z.to_nat (4 * (Nr + 1) - Nk)) Nk Nk
    (map (fun i => slice key (4 * i) (4 * i + 4)) (range Nk)).

(** ** 6: AES-128, AES-192 and AES-256: Nk words of key and Nr rounds *)
Definition AES (Nk Nr : Z) (key input : list Z) : list Z := Cipher Nr (KeyExpansion Nk Nr key) input.
Definition AES128 : list Z -> list Z -> list Z := AES 4 10.
Definition AES192 : list Z -> list Z -> list Z := AES 6 12.
Definition AES256 : list Z -> list Z -> list Z := AES 8 14.

(** ** SP 800-38A: electronic codebook and counter mode *)
Definition ECB (block : list Z -> list Z) (n : Z) (input : list Z) : list Z :=
  flat_map (fun i => block (slice input (16 * i) (16 * i + 16))) (range n).
(** The four bytes of a number modulo 2^32, most significant first *)
Definition big_endian_32 (c : Z) : list Z :=
  [c / 2 ^ 24 mod 256; c / 2 ^ 16 mod 256; c / 2 ^ 8 mod 256; c mod 256].
(** The first [len] bytes of the key stream of counter mode: block i is the 12-byte nonce and the
    number i *)
Definition CTR (block : list Z -> list Z) (len : Z) (nonce : list Z) : list Z :=
  slice (flat_map (fun i => block (nonce ++ big_endian_32 i)) (range (len / 16 + 1))) 0 len.
