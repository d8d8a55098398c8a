(** * Specification: FIPS 202 (SHA-3), written from the standard

    Bit strings are lists of booleans. Nothing here refers to the model of the C
    code. Section numbers are those of FIPS 202. *)

From Coq Require Import ZArith List Bool.
Import ListNotations.
Open Scope Z_scope.

(** [0; 1; ...; n-1] *)
Definition range (n : Z) : list Z := map Z.of_nat (seq 0 (Z.to_nat n)).

(** The length of a list, byte values, byte strings *)
Definition zlen {A} (l : list A) : Z := Z.of_nat (length l).
Definition is_byte (b : Z) : Prop := 0 <= b < 256.
Definition bytes (l : list Z) : Prop := Forall is_byte l.

(** Element [i] of an array *)
Definition at_ (l : list Z) (i : Z) : Z := nth (Z.to_nat i) l 0.
(** The sub-array l[a : b] *)
Definition slice {A} (l : list A) (a b : Z) : list A :=
  firstn (Z.to_nat (b - a)) (skipn (Z.to_nat a) l).
(** Sum of [f i] for [i] from 0 to [m - 1] *)
Definition sum (m : Z) (f : Z -> Z) : Z := fold_right Z.add 0 (map f (range m)).

(** ** 3.1 State: a string of 1600 bits, or a 5 x 5 x 64 array of bits *)

Definition array : Type := Z -> Z -> Z -> bool.

(** 3.1.2: A[x, y, z] = S[w (5 y + x) + z] *)
Definition to_array (S : list bool) : array :=
  fun x y z => nth (Z.to_nat (64 * (5 * y + x) + z)) S false.

(** 3.1.3 *)
Definition to_string (A : array) : list bool :=
  flat_map (fun y => flat_map (fun x => map (fun z => A x y z) (range 64)) (range 5))
           (range 5).

(** ** 3.2 Step mappings *)

(** 3.2.1, Algorithm 1 *)
Definition theta (A : array) : array :=
  let C x z := xorb (A x 0 z) (xorb (A x 1 z) (xorb (A x 2 z) (xorb (A x 3 z) (A x 4 z)))) in
  let D x z := xorb (C ((x - 1) mod 5) z) (C ((x + 1) mod 5) ((z - 1) mod 64)) in
  fun x y z => xorb (A x y z) (D x z).

(** 3.2.2, Algorithm 2: lane (0,0) is not rotated; starting from (x,y) = (1,0), for t
    from 0 to 23 lane (x,y) is rotated by (t+1)(t+2)/2 and (x,y) becomes
    (y, (2x+3y) mod 5). *)
Fixpoint rho_offset_from (n : nat) (t x y x0 y0 : Z) : Z :=
  match n with
  | O => 0
  | S n' => if (x =? x0) && (y =? y0) then (t + 1) * (t + 2) / 2
            else rho_offset_from n' (t + 1) y ((2 * x + 3 * y) mod 5) x0 y0
  end.
Definition rho_offset (x y : Z) : Z := rho_offset_from 24 0 1 0 x y.
Definition rho (A : array) : array :=
  fun x y z => A x y ((z - rho_offset x y) mod 64).

(** 3.2.3, Algorithm 3 *)
Definition pi (A : array) : array := fun x y z => A ((x + 3 * y) mod 5) x z.

(** 3.2.4, Algorithm 4 *)
Definition chi (A : array) : array :=
  fun x y z => xorb (A x y z)
                    (andb (xorb (A ((x + 1) mod 5) y z) true) (A ((x + 2) mod 5) y z)).

(** 3.2.5, Algorithm 5 *)
Definition rc_step (R : list bool) : list bool :=
  match false :: R with
  | [r0; r1; r2; r3; r4; r5; r6; r7; r8] =>
      [xorb r0 r8; r1; r2; r3; xorb r4 r8; xorb r5 r8; xorb r6 r8; r7]
  | R' => R'
  end.
Definition rc (t : Z) : bool :=
  nth 0 (Nat.iter (Z.to_nat (t mod 255)) rc_step
           [true; false; false; false; false; false; false; false]) false.
(** 3.2.5, Algorithm 6: bit 2^j - 1 of RC is rc(j + 7 ir), for j from 0 to 6. *)
Definition RC (ir z : Z) : bool :=
  existsb (fun j => (z =? 2 ^ j - 1) && rc (j + 7 * ir)) (range 7).
Definition iota (ir : Z) (A : array) : array :=
  fun x y z => if (x =? 0) && (y =? 0) then xorb (A x y z) (RC ir z) else A x y z.

(** 3.3: the rounds of KECCAK-f[1600] *)
Definition Rnd (ir : Z) (S : list bool) : list bool :=
  to_string (iota ir (chi (pi (rho (theta (to_array S)))))).
Definition KECCAK_f1600 (S : list bool) : list bool :=
  fold_left (fun S ir => Rnd ir S) (range 24) S.

(** ** 4 The sponge construction *)

Definition xor_bits (a b : list bool) : list bool :=
  map (fun '(x, y) => xorb x y) (combine a b).

(** 5.1, Algorithm 9 *)
Definition pad10star1 (x m : Z) : list bool :=
  [true] ++ repeat false (Z.to_nat ((- m - 2) mod x)) ++ [true].

(** 4, Algorithm 8, steps 1-6: absorb the padded input [P] in blocks of [r] bits. *)
Definition absorb (f : list bool -> list bool) (r : Z) (P : list bool) : list bool :=
  fold_left
    (fun S i => f (xor_bits S (firstn (Z.to_nat r) (skipn (Z.to_nat (i * r)) P)
                               ++ repeat false (Z.to_nat (1600 - r)))))
    (range (Z.of_nat (length P) / r)) (repeat false 1600).

(** 4, Algorithm 8, steps 7-10: the first [n] output blocks from state [S] *)
Fixpoint squeeze_blocks (f : list bool -> list bool) (r : Z) (n : nat) (S : list bool)
  : list bool :=
  match n with
  | O => []
  | Datatypes.S n' => firstn (Z.to_nat r) S ++ squeeze_blocks f r n' (f S)
  end.
Definition SPONGE (f : list bool -> list bool) (pad : Z -> Z -> list bool) (r : Z)
  (N : list bool) (d : Z) : list bool :=
  let P := N ++ pad r (Z.of_nat (length N)) in
  firstn (Z.to_nat d)
         (squeeze_blocks f r (Datatypes.S (Z.to_nat (d / r))) (absorb f r P)).

(** 5.2 *)
Definition KECCAK (c : Z) (N : list bool) (d : Z) : list bool :=
  SPONGE KECCAK_f1600 pad10star1 (1600 - c) N d.

(** ** 6 SHA-3 functions *)

(** 6.1 *)
Definition SHA3_256_bits (M : list bool) : list bool := KECCAK 512 (M ++ [false; true]) 256.
Definition SHA3_512_bits (M : list bool) : list bool := KECCAK 1024 (M ++ [false; true]) 512.
(** 6.2 *)
Definition SHAKE128_bits (M : list bool) (d : Z) : list bool :=
  KECCAK 256 (M ++ [true; true; true; true]) d.
Definition SHAKE256_bits (M : list bool) (d : Z) : list bool :=
  KECCAK 512 (M ++ [true; true; true; true]) d.

(** ** B.1 Bytes: the least significant bit of a byte comes first *)

Definition byte_bits (b : Z) : list bool := map (fun j => Z.testbit b j) (range 8).
Definition bytes_to_bits (B : list Z) : list bool := flat_map byte_bits B.
Definition bits_value (b : list bool) : Z :=
  fold_right (fun x acc => Z.b2z x + 2 * acc) 0 b.
Definition bits_to_bytes (b : list bool) : list Z :=
  map (fun i => bits_value (firstn 8 (skipn (Z.to_nat (8 * i)) b)))
      (range (Z.of_nat (length b) / 8)).

(** The functions on byte strings; the output length [n] is in bytes. *)
Definition SHA3_256 (M : list Z) : list Z := bits_to_bytes (SHA3_256_bits (bytes_to_bits M)).
Definition SHA3_512 (M : list Z) : list Z := bits_to_bytes (SHA3_512_bits (bytes_to_bits M)).
Definition SHAKE128 (M : list Z) (n : Z) : list Z :=
  bits_to_bytes (SHAKE128_bits (bytes_to_bits M) (8 * n)).
Definition SHAKE256 (M : list Z) (n : Z) : list Z :=
  bits_to_bytes (SHAKE256_bits (bytes_to_bits M) (8 * n)).
