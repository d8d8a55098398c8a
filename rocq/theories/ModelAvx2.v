(** * Model of mlkem/native/x86_64/rej_uniform_avx2.c and of the x86_64 rej_uniform

    The intrinsics of <immintrin.h> that this file uses are not part of the
    repository. They are modelled here after their description in Intel's
    intrinsics guide: these definitions are part of the trusted base.

    A 128-bit (256-bit) register is the list of its 16 (32) bytes, least significant
    byte first. The host is little-endian (x86_64): a 16-bit element is the byte at
    the lower position plus 256 times the next one. *)

From Coq Require Import ZArith List Bool.
From Verif Require Import CSem ModelArith ModelKeccak ModelIndcpa.
Import ListNotations.
Open Scope Z_scope.

(** ** Intrinsics *)

Definition nats (n : nat) : list Z := map Z.of_nat (seq 0 n).
Definition map2 (f : Z -> Z -> Z) (a b : list Z) : list Z :=
  map (fun '(x, y) => f x y) (combine a b).

(** The 16-bit elements of a register, unsigned, and back *)
Fixpoint words (a : list Z) : list Z :=
  match a with
  | x :: y :: t => (x + 256 * y) :: words t
  | _ => []
  end.
Definition unwords (w : list Z) : list Z := flat_map (fun x => [u8 x; u8 (x / 256)]) w.

(** The two 128-bit lanes: _mm256_castsi256_si128 and _mm256_extracti128_si256(a, 1) *)
Definition _mm256_castsi256_si128 (a : list Z) : list Z := firstn 16 a.
Definition _mm256_extracti128_si256_1 (a : list Z) : list Z := skipn 16 a.
(** The upper lane of the result is undefined. *)
Definition _mm256_castsi128_si256 (J : junk) (a : list Z) : list Z := a ++ uninit J 0 16.
Definition _mm256_inserti128_si256_1 (a b : list Z) : list Z := firstn 16 a ++ b.

(** An operation on 128-bit registers applied to both lanes *)
Definition lanes1 (f : list Z -> list Z) (a : list Z) : list Z :=
  f (firstn 16 a) ++ f (skipn 16 a).
Definition lanes2 (f : list Z -> list Z -> list Z) (a b : list Z) : list Z :=
  f (firstn 16 a) (firstn 16 b) ++ f (skipn 16 a) (skipn 16 b).

(** Unaligned loads of 16 and 32 bytes; storing the 8 elements of a register over
    the int16_t array [r] starting at element [i] *)
Definition _mm_loadu_si128 (buf : list Z) (i : Z) : M (list Z) := aslice buf i 16.
Definition _mm256_loadu_si256 (buf : list Z) (i : Z) : M (list Z) := aslice buf i 32.
Definition _mm_storeu_si128 (r : list Z) (i : Z) (a : list Z) : M (list Z) :=
  asplice r i (map s16 (words a)).
(** 8 bytes into the lower half, zeros above *)
Definition _mm_loadl_epi64 (row : list Z) : M (list Z) :=
  a <- aslice row 0 8 ;; ret (a ++ repeat 0 8).

(** Element [i] of the result is the 64-bit element number [imm / 4^i mod 4] of [a]. *)
Definition _mm256_permute4x64_epi64 (a : list Z) (imm : Z) : list Z :=
  flat_map (fun i => firstn 8 (skipn (Z.to_nat (8 * (imm / 4 ^ i mod 4))) a)) (nats 4).

(** Byte [i] of the result is 0 if bit 7 of [b[i]] is set, else byte [b[i] mod 16] of [a]. *)
Definition _mm_shuffle_epi8 (a b : list Z) : list Z :=
  map (fun i => if i <? 128 then nth (Z.to_nat (i mod 16)) a 0 else 0) b.
Definition _mm256_shuffle_epi8 := lanes2 _mm_shuffle_epi8.

(** Logical right shift of the 16-bit elements *)
Definition _mm_srli_epi16 (a : list Z) (n : Z) : list Z :=
  unwords (map (fun w => w / 2 ^ n) (words a)).
Definition _mm256_srli_epi16 (a : list Z) (n : Z) : list Z :=
  lanes1 (fun a => _mm_srli_epi16 a n) a.

(** Element [i] of each lane comes from [b] if bit [i] of [imm] is set, else from [a]. *)
Definition _mm_blend_epi16 (a b : list Z) (imm : Z) : list Z :=
  unwords (map (fun '(i, (x, y)) => if Z.testbit imm i then y else x)
             (combine (nats 8) (combine (words a) (words b)))).
Definition _mm256_blend_epi16 (a b : list Z) (imm : Z) : list Z :=
  lanes2 (fun a b => _mm_blend_epi16 a b imm) a b.

Definition _mm_and_si128 (a b : list Z) : list Z := map2 Z.land a b.
Definition _mm256_and_si256 (a b : list Z) : list Z := map2 Z.land a b.

(** All bits of an element are set if it is greater in [a] than in [b] (signed). *)
Definition _mm_cmpgt_epi16 (a b : list Z) : list Z :=
  unwords (map2 (fun x y => if s16 x >? s16 y then 65535 else 0) (words a) (words b)).
Definition _mm256_cmpgt_epi16 := lanes2 _mm_cmpgt_epi16.

(** In each lane the 8 signed 16-bit elements of [a] and then those of [b], clamped
    to the range of a signed byte *)
Definition saturate8 (x : Z) : Z := u8 (Z.max (-128) (Z.min 127 (s16 x))).
Definition _mm_packs_epi16 (a b : list Z) : list Z := map saturate8 (words a ++ words b).
Definition _mm256_packs_epi16 := lanes2 _mm_packs_epi16.

(** The number whose bit [i] is the truth value number [i] *)
Fixpoint mask_of (l : list bool) : Z :=
  match l with
  | [] => 0
  | b :: t => Z.b2z b + 2 * mask_of t
  end.
(** Bit [i] of the result is bit 7 of byte [i]. *)
Definition _mm_movemask_epi8 (a : list Z) : Z := mask_of (map (fun x => 128 <=? x) a).
Definition _mm256_movemask_epi8 := _mm_movemask_epi8.

Definition _mm_add_epi8 (a b : list Z) : list Z := map2 (fun x y => u8 (x + y)) a b.
Definition _mm256_add_epi8 := _mm_add_epi8.

(** Bytes 0..7 of [a] and [b] alternate. *)
Definition _mm_unpacklo_epi8 (a b : list Z) : list Z :=
  flat_map (fun '(x, y) => [x; y]) (combine (firstn 8 a) (firstn 8 b)).
Definition _mm256_unpacklo_epi8 := lanes2 _mm_unpacklo_epi8.

(** The number of set bits of a 32-bit number *)
Definition _mm_popcnt_u32 (x : Z) : Z :=
  Z.of_nat (length (filter (Z.testbit x) (nats 32))).
(** The bits of [x] at the positions that are set in [m], packed into the lowest bits *)
Definition _pext_u32 (x m : Z) : Z :=
  mask_of (map (Z.testbit x) (filter (Z.testbit m) (nats 32))).

(** ** rej_uniform_avx2.c *)

(** rej_uniform_avx2.c 26-154 (-1 is converted to uint8_t) *)
Definition idx : list (list Z) :=
   [[255; 255; 255; 255; 255; 255; 255; 255];
    [0; 255; 255; 255; 255; 255; 255; 255];
    [2; 255; 255; 255; 255; 255; 255; 255];
    [0; 2; 255; 255; 255; 255; 255; 255];
    [4; 255; 255; 255; 255; 255; 255; 255];
    [0; 4; 255; 255; 255; 255; 255; 255];
    [2; 4; 255; 255; 255; 255; 255; 255];
    [0; 2; 4; 255; 255; 255; 255; 255];
    [6; 255; 255; 255; 255; 255; 255; 255];
    [0; 6; 255; 255; 255; 255; 255; 255];
    [2; 6; 255; 255; 255; 255; 255; 255];
    [0; 2; 6; 255; 255; 255; 255; 255];
    [4; 6; 255; 255; 255; 255; 255; 255];
    [0; 4; 6; 255; 255; 255; 255; 255];
    [2; 4; 6; 255; 255; 255; 255; 255];
    [0; 2; 4; 6; 255; 255; 255; 255];
    [8; 255; 255; 255; 255; 255; 255; 255];
    [0; 8; 255; 255; 255; 255; 255; 255];
    [2; 8; 255; 255; 255; 255; 255; 255];
    [0; 2; 8; 255; 255; 255; 255; 255];
    [4; 8; 255; 255; 255; 255; 255; 255];
    [0; 4; 8; 255; 255; 255; 255; 255];
    [2; 4; 8; 255; 255; 255; 255; 255];
    [0; 2; 4; 8; 255; 255; 255; 255];
    [6; 8; 255; 255; 255; 255; 255; 255];
    [0; 6; 8; 255; 255; 255; 255; 255];
    [2; 6; 8; 255; 255; 255; 255; 255];
    [0; 2; 6; 8; 255; 255; 255; 255];
    [4; 6; 8; 255; 255; 255; 255; 255];
    [0; 4; 6; 8; 255; 255; 255; 255];
    [2; 4; 6; 8; 255; 255; 255; 255];
    [0; 2; 4; 6; 8; 255; 255; 255];
    [10; 255; 255; 255; 255; 255; 255; 255];
    [0; 10; 255; 255; 255; 255; 255; 255];
    [2; 10; 255; 255; 255; 255; 255; 255];
    [0; 2; 10; 255; 255; 255; 255; 255];
    [4; 10; 255; 255; 255; 255; 255; 255];
    [0; 4; 10; 255; 255; 255; 255; 255];
    [2; 4; 10; 255; 255; 255; 255; 255];
    [0; 2; 4; 10; 255; 255; 255; 255];
    [6; 10; 255; 255; 255; 255; 255; 255];
    [0; 6; 10; 255; 255; 255; 255; 255];
    [2; 6; 10; 255; 255; 255; 255; 255];
    [0; 2; 6; 10; 255; 255; 255; 255];
    [4; 6; 10; 255; 255; 255; 255; 255];
    [0; 4; 6; 10; 255; 255; 255; 255];
    [2; 4; 6; 10; 255; 255; 255; 255];
    [0; 2; 4; 6; 10; 255; 255; 255];
    [8; 10; 255; 255; 255; 255; 255; 255];
    [0; 8; 10; 255; 255; 255; 255; 255];
    [2; 8; 10; 255; 255; 255; 255; 255];
    [0; 2; 8; 10; 255; 255; 255; 255];
    [4; 8; 10; 255; 255; 255; 255; 255];
    [0; 4; 8; 10; 255; 255; 255; 255];
    [2; 4; 8; 10; 255; 255; 255; 255];
    [0; 2; 4; 8; 10; 255; 255; 255];
    [6; 8; 10; 255; 255; 255; 255; 255];
    [0; 6; 8; 10; 255; 255; 255; 255];
    [2; 6; 8; 10; 255; 255; 255; 255];
    [0; 2; 6; 8; 10; 255; 255; 255];
    [4; 6; 8; 10; 255; 255; 255; 255];
    [0; 4; 6; 8; 10; 255; 255; 255];
    [2; 4; 6; 8; 10; 255; 255; 255];
    [0; 2; 4; 6; 8; 10; 255; 255];
    [12; 255; 255; 255; 255; 255; 255; 255];
    [0; 12; 255; 255; 255; 255; 255; 255];
    [2; 12; 255; 255; 255; 255; 255; 255];
    [0; 2; 12; 255; 255; 255; 255; 255];
    [4; 12; 255; 255; 255; 255; 255; 255];
    [0; 4; 12; 255; 255; 255; 255; 255];
    [2; 4; 12; 255; 255; 255; 255; 255];
    [0; 2; 4; 12; 255; 255; 255; 255];
    [6; 12; 255; 255; 255; 255; 255; 255];
    [0; 6; 12; 255; 255; 255; 255; 255];
    [2; 6; 12; 255; 255; 255; 255; 255];
    [0; 2; 6; 12; 255; 255; 255; 255];
    [4; 6; 12; 255; 255; 255; 255; 255];
    [0; 4; 6; 12; 255; 255; 255; 255];
    [2; 4; 6; 12; 255; 255; 255; 255];
    [0; 2; 4; 6; 12; 255; 255; 255];
    [8; 12; 255; 255; 255; 255; 255; 255];
    [0; 8; 12; 255; 255; 255; 255; 255];
    [2; 8; 12; 255; 255; 255; 255; 255];
    [0; 2; 8; 12; 255; 255; 255; 255];
    [4; 8; 12; 255; 255; 255; 255; 255];
    [0; 4; 8; 12; 255; 255; 255; 255];
    [2; 4; 8; 12; 255; 255; 255; 255];
    [0; 2; 4; 8; 12; 255; 255; 255];
    [6; 8; 12; 255; 255; 255; 255; 255];
    [0; 6; 8; 12; 255; 255; 255; 255];
    [2; 6; 8; 12; 255; 255; 255; 255];
    [0; 2; 6; 8; 12; 255; 255; 255];
    [4; 6; 8; 12; 255; 255; 255; 255];
    [0; 4; 6; 8; 12; 255; 255; 255];
    [2; 4; 6; 8; 12; 255; 255; 255];
    [0; 2; 4; 6; 8; 12; 255; 255];
    [10; 12; 255; 255; 255; 255; 255; 255];
    [0; 10; 12; 255; 255; 255; 255; 255];
    [2; 10; 12; 255; 255; 255; 255; 255];
    [0; 2; 10; 12; 255; 255; 255; 255];
    [4; 10; 12; 255; 255; 255; 255; 255];
    [0; 4; 10; 12; 255; 255; 255; 255];
    [2; 4; 10; 12; 255; 255; 255; 255];
    [0; 2; 4; 10; 12; 255; 255; 255];
    [6; 10; 12; 255; 255; 255; 255; 255];
    [0; 6; 10; 12; 255; 255; 255; 255];
    [2; 6; 10; 12; 255; 255; 255; 255];
    [0; 2; 6; 10; 12; 255; 255; 255];
    [4; 6; 10; 12; 255; 255; 255; 255];
    [0; 4; 6; 10; 12; 255; 255; 255];
    [2; 4; 6; 10; 12; 255; 255; 255];
    [0; 2; 4; 6; 10; 12; 255; 255];
    [8; 10; 12; 255; 255; 255; 255; 255];
    [0; 8; 10; 12; 255; 255; 255; 255];
    [2; 8; 10; 12; 255; 255; 255; 255];
    [0; 2; 8; 10; 12; 255; 255; 255];
    [4; 8; 10; 12; 255; 255; 255; 255];
    [0; 4; 8; 10; 12; 255; 255; 255];
    [2; 4; 8; 10; 12; 255; 255; 255];
    [0; 2; 4; 8; 10; 12; 255; 255];
    [6; 8; 10; 12; 255; 255; 255; 255];
    [0; 6; 8; 10; 12; 255; 255; 255];
    [2; 6; 8; 10; 12; 255; 255; 255];
    [0; 2; 6; 8; 10; 12; 255; 255];
    [4; 6; 8; 10; 12; 255; 255; 255];
    [0; 4; 6; 8; 10; 12; 255; 255];
    [2; 4; 6; 8; 10; 12; 255; 255];
    [0; 2; 4; 6; 8; 10; 12; 255];
    [14; 255; 255; 255; 255; 255; 255; 255];
    [0; 14; 255; 255; 255; 255; 255; 255];
    [2; 14; 255; 255; 255; 255; 255; 255];
    [0; 2; 14; 255; 255; 255; 255; 255];
    [4; 14; 255; 255; 255; 255; 255; 255];
    [0; 4; 14; 255; 255; 255; 255; 255];
    [2; 4; 14; 255; 255; 255; 255; 255];
    [0; 2; 4; 14; 255; 255; 255; 255];
    [6; 14; 255; 255; 255; 255; 255; 255];
    [0; 6; 14; 255; 255; 255; 255; 255];
    [2; 6; 14; 255; 255; 255; 255; 255];
    [0; 2; 6; 14; 255; 255; 255; 255];
    [4; 6; 14; 255; 255; 255; 255; 255];
    [0; 4; 6; 14; 255; 255; 255; 255];
    [2; 4; 6; 14; 255; 255; 255; 255];
    [0; 2; 4; 6; 14; 255; 255; 255];
    [8; 14; 255; 255; 255; 255; 255; 255];
    [0; 8; 14; 255; 255; 255; 255; 255];
    [2; 8; 14; 255; 255; 255; 255; 255];
    [0; 2; 8; 14; 255; 255; 255; 255];
    [4; 8; 14; 255; 255; 255; 255; 255];
    [0; 4; 8; 14; 255; 255; 255; 255];
    [2; 4; 8; 14; 255; 255; 255; 255];
    [0; 2; 4; 8; 14; 255; 255; 255];
    [6; 8; 14; 255; 255; 255; 255; 255];
    [0; 6; 8; 14; 255; 255; 255; 255];
    [2; 6; 8; 14; 255; 255; 255; 255];
    [0; 2; 6; 8; 14; 255; 255; 255];
    [4; 6; 8; 14; 255; 255; 255; 255];
    [0; 4; 6; 8; 14; 255; 255; 255];
    [2; 4; 6; 8; 14; 255; 255; 255];
    [0; 2; 4; 6; 8; 14; 255; 255];
    [10; 14; 255; 255; 255; 255; 255; 255];
    [0; 10; 14; 255; 255; 255; 255; 255];
    [2; 10; 14; 255; 255; 255; 255; 255];
    [0; 2; 10; 14; 255; 255; 255; 255];
    [4; 10; 14; 255; 255; 255; 255; 255];
    [0; 4; 10; 14; 255; 255; 255; 255];
    [2; 4; 10; 14; 255; 255; 255; 255];
    [0; 2; 4; 10; 14; 255; 255; 255];
    [6; 10; 14; 255; 255; 255; 255; 255];
    [0; 6; 10; 14; 255; 255; 255; 255];
    [2; 6; 10; 14; 255; 255; 255; 255];
    [0; 2; 6; 10; 14; 255; 255; 255];
    [4; 6; 10; 14; 255; 255; 255; 255];
    [0; 4; 6; 10; 14; 255; 255; 255];
    [2; 4; 6; 10; 14; 255; 255; 255];
    [0; 2; 4; 6; 10; 14; 255; 255];
    [8; 10; 14; 255; 255; 255; 255; 255];
    [0; 8; 10; 14; 255; 255; 255; 255];
    [2; 8; 10; 14; 255; 255; 255; 255];
    [0; 2; 8; 10; 14; 255; 255; 255];
    [4; 8; 10; 14; 255; 255; 255; 255];
    [0; 4; 8; 10; 14; 255; 255; 255];
    [2; 4; 8; 10; 14; 255; 255; 255];
    [0; 2; 4; 8; 10; 14; 255; 255];
    [6; 8; 10; 14; 255; 255; 255; 255];
    [0; 6; 8; 10; 14; 255; 255; 255];
    [2; 6; 8; 10; 14; 255; 255; 255];
    [0; 2; 6; 8; 10; 14; 255; 255];
    [4; 6; 8; 10; 14; 255; 255; 255];
    [0; 4; 6; 8; 10; 14; 255; 255];
    [2; 4; 6; 8; 10; 14; 255; 255];
    [0; 2; 4; 6; 8; 10; 14; 255];
    [12; 14; 255; 255; 255; 255; 255; 255];
    [0; 12; 14; 255; 255; 255; 255; 255];
    [2; 12; 14; 255; 255; 255; 255; 255];
    [0; 2; 12; 14; 255; 255; 255; 255];
    [4; 12; 14; 255; 255; 255; 255; 255];
    [0; 4; 12; 14; 255; 255; 255; 255];
    [2; 4; 12; 14; 255; 255; 255; 255];
    [0; 2; 4; 12; 14; 255; 255; 255];
    [6; 12; 14; 255; 255; 255; 255; 255];
    [0; 6; 12; 14; 255; 255; 255; 255];
    [2; 6; 12; 14; 255; 255; 255; 255];
    [0; 2; 6; 12; 14; 255; 255; 255];
    [4; 6; 12; 14; 255; 255; 255; 255];
    [0; 4; 6; 12; 14; 255; 255; 255];
    [2; 4; 6; 12; 14; 255; 255; 255];
    [0; 2; 4; 6; 12; 14; 255; 255];
    [8; 12; 14; 255; 255; 255; 255; 255];
    [0; 8; 12; 14; 255; 255; 255; 255];
    [2; 8; 12; 14; 255; 255; 255; 255];
    [0; 2; 8; 12; 14; 255; 255; 255];
    [4; 8; 12; 14; 255; 255; 255; 255];
    [0; 4; 8; 12; 14; 255; 255; 255];
    [2; 4; 8; 12; 14; 255; 255; 255];
    [0; 2; 4; 8; 12; 14; 255; 255];
    [6; 8; 12; 14; 255; 255; 255; 255];
    [0; 6; 8; 12; 14; 255; 255; 255];
    [2; 6; 8; 12; 14; 255; 255; 255];
    [0; 2; 6; 8; 12; 14; 255; 255];
    [4; 6; 8; 12; 14; 255; 255; 255];
    [0; 4; 6; 8; 12; 14; 255; 255];
    [2; 4; 6; 8; 12; 14; 255; 255];
    [0; 2; 4; 6; 8; 12; 14; 255];
    [10; 12; 14; 255; 255; 255; 255; 255];
    [0; 10; 12; 14; 255; 255; 255; 255];
    [2; 10; 12; 14; 255; 255; 255; 255];
    [0; 2; 10; 12; 14; 255; 255; 255];
    [4; 10; 12; 14; 255; 255; 255; 255];
    [0; 4; 10; 12; 14; 255; 255; 255];
    [2; 4; 10; 12; 14; 255; 255; 255];
    [0; 2; 4; 10; 12; 14; 255; 255];
    [6; 10; 12; 14; 255; 255; 255; 255];
    [0; 6; 10; 12; 14; 255; 255; 255];
    [2; 6; 10; 12; 14; 255; 255; 255];
    [0; 2; 6; 10; 12; 14; 255; 255];
    [4; 6; 10; 12; 14; 255; 255; 255];
    [0; 4; 6; 10; 12; 14; 255; 255];
    [2; 4; 6; 10; 12; 14; 255; 255];
    [0; 2; 4; 6; 10; 12; 14; 255];
    [8; 10; 12; 14; 255; 255; 255; 255];
    [0; 8; 10; 12; 14; 255; 255; 255];
    [2; 8; 10; 12; 14; 255; 255; 255];
    [0; 2; 8; 10; 12; 14; 255; 255];
    [4; 8; 10; 12; 14; 255; 255; 255];
    [0; 4; 8; 10; 12; 14; 255; 255];
    [2; 4; 8; 10; 12; 14; 255; 255];
    [0; 2; 4; 8; 10; 12; 14; 255];
    [6; 8; 10; 12; 14; 255; 255; 255];
    [0; 6; 8; 10; 12; 14; 255; 255];
    [2; 6; 8; 10; 12; 14; 255; 255];
    [0; 2; 6; 8; 10; 12; 14; 255];
    [4; 6; 8; 10; 12; 14; 255; 255];
    [0; 4; 6; 8; 10; 12; 14; 255];
    [2; 4; 6; 8; 10; 12; 14; 255];
    [0; 2; 4; 6; 8; 10; 12; 14]].

(** arith_native_x86_64.h 19-21 *)
Definition REJ_UNIFORM_AVX_NBLOCKS : Z :=
  (12 * MLKEM_N / 8 * (1 << 12) / MLKEM_Q + SHAKE128_RATE) / SHAKE128_RATE.
Definition REJ_UNIFORM_AVX_BUFLEN : Z := REJ_UNIFORM_AVX_NBLOCKS * SHAKE128_RATE.

(** rej_uniform_avx2.c 168 with consts.c 31-35: the first 16 elements of qdata *)
Definition bound : list Z := unwords (repeat MLKEM_Q 16).
(** rej_uniform_avx2.c 169-173 *)
Definition ones : list Z := repeat 1 32.
Definition mask : list Z := unwords (repeat 4095 16).
Definition idx8 : list Z :=
  rev [15; 14; 14; 13; 12; 11; 11; 10; 9; 8; 8; 7; 6; 5; 5; 4;
       11; 10; 10; 9; 8; 7; 7; 6; 5; 4; 4; 3; 2; 1; 1; 0].

(** rej_uniform_avx2.c 178-246 (without BMI, which is commented out in line 23) *)
Definition rej_loop_32 (J : junk) (r buf : list Z) (ctr pos : Z) : M (list Z * Z * Z) :=
  while (S (Z.to_nat REJ_UNIFORM_AVX_BUFLEN))
    (fun '(r, ctr, pos) => (ctr <=? MLKEM_N - 32) && (pos <=? REJ_UNIFORM_AVX_BUFLEN - 48))
    (fun '(r, ctr, pos) =>
      f0 <- _mm256_loadu_si256 buf pos ;;
      f1 <- _mm256_loadu_si256 buf (pos + 16) ;;
      let f0 := _mm256_permute4x64_epi64 f0 148 in
      let f1 := _mm256_permute4x64_epi64 f1 233 in
      let f0 := _mm256_shuffle_epi8 f0 idx8 in
      let f1 := _mm256_shuffle_epi8 f1 idx8 in
      let g0 := _mm256_srli_epi16 f0 4 in
      let g1 := _mm256_srli_epi16 f1 4 in
      let f0 := _mm256_blend_epi16 f0 g0 170 in
      let f1 := _mm256_blend_epi16 f1 g1 170 in
      let f0 := _mm256_and_si256 f0 mask in
      let f1 := _mm256_and_si256 f1 mask in
      let pos := u32 (pos + 48) in
      let g0 := _mm256_cmpgt_epi16 bound f0 in
      let g1 := _mm256_cmpgt_epi16 bound f1 in
      let g0 := _mm256_packs_epi16 g0 g1 in
      let good := _mm256_movemask_epi8 g0 in
      row <- aget idx ((good >> 0) .& 255) ;; l <- _mm_loadl_epi64 row ;;
      let g0 := _mm256_castsi128_si256 (sub J 0) l in
      row <- aget idx ((good >> 8) .& 255) ;; l <- _mm_loadl_epi64 row ;;
      let g1 := _mm256_castsi128_si256 (sub J 1) l in
      row <- aget idx ((good >> 16) .& 255) ;; l <- _mm_loadl_epi64 row ;;
      let g0 := _mm256_inserti128_si256_1 g0 l in
      row <- aget idx ((good >> 24) .& 255) ;; l <- _mm_loadl_epi64 row ;;
      let g1 := _mm256_inserti128_si256_1 g1 l in
      let g2 := _mm256_add_epi8 g0 ones in
      let g3 := _mm256_add_epi8 g1 ones in
      let g0 := _mm256_unpacklo_epi8 g0 g2 in
      let g1 := _mm256_unpacklo_epi8 g1 g3 in
      let f0 := _mm256_shuffle_epi8 f0 g0 in
      let f1 := _mm256_shuffle_epi8 f1 g1 in
      r <- _mm_storeu_si128 r ctr (_mm256_castsi256_si128 f0) ;;
      let ctr := u32 (ctr + _mm_popcnt_u32 ((good >> 0) .& 255)) in
      r <- _mm_storeu_si128 r ctr (_mm256_extracti128_si256_1 f0) ;;
      let ctr := u32 (ctr + _mm_popcnt_u32 ((good >> 16) .& 255)) in
      r <- _mm_storeu_si128 r ctr (_mm256_castsi256_si128 f1) ;;
      let ctr := u32 (ctr + _mm_popcnt_u32 ((good >> 8) .& 255)) in
      r <- _mm_storeu_si128 r ctr (_mm256_extracti128_si256_1 f1) ;;
      let ctr := u32 (ctr + _mm_popcnt_u32 ((good >> 24) .& 255)) in
      ret (r, ctr, pos)) (r, ctr, pos).

(** rej_uniform_avx2.c 248-276 *)
Definition rej_loop_8 (r buf : list Z) (ctr pos : Z) : M (list Z * Z * Z) :=
  while (S (Z.to_nat REJ_UNIFORM_AVX_BUFLEN))
    (fun '(r, ctr, pos) => (ctr <=? MLKEM_N - 8) && (pos <=? REJ_UNIFORM_AVX_BUFLEN - 24))
    (fun '(r, ctr, pos) =>
      f <- _mm_loadu_si128 buf pos ;;
      let f := _mm_shuffle_epi8 f (_mm256_castsi256_si128 idx8) in
      let t := _mm_srli_epi16 f 4 in
      let f := _mm_blend_epi16 f t 170 in
      let f := _mm_and_si128 f (_mm256_castsi256_si128 mask) in
      let pos := u32 (pos + 12) in
      let t := _mm_cmpgt_epi16 (_mm256_castsi256_si128 bound) f in
      let good := _mm_movemask_epi8 t in
      let good := _pext_u32 good 21845 in
      row <- aget idx good ;; pilo <- _mm_loadl_epi64 row ;;
      let pihi := _mm_add_epi8 pilo (_mm256_castsi256_si128 ones) in
      let pilo := _mm_unpacklo_epi8 pilo pihi in
      let f := _mm_shuffle_epi8 f pilo in
      r <- _mm_storeu_si128 r ctr f ;;
      let ctr := u32 (ctr + _mm_popcnt_u32 good) in
      ret (r, ctr, pos)) (r, ctr, pos).

(** rej_uniform_avx2.c 278-288 *)
Definition rej_loop_1 (r buf : list Z) (ctr pos : Z) : M (list Z * Z * Z) :=
  while (S (Z.to_nat REJ_UNIFORM_AVX_BUFLEN))
    (fun '(r, ctr, pos) => (ctr <? MLKEM_N) && (pos <=? REJ_UNIFORM_AVX_BUFLEN - 3))
    (fun '(r, ctr, pos) =>
      b0 <- aget buf (pos + 0) ;;
      b1 <- aget buf (pos + 1) ;;
      b2 <- aget buf (pos + 2) ;;
      let val0 := u16 (((b0 >> 0) .| (b1 << 8)) .& 4095) in
      let val1 := u16 ((b1 >> 4) .| (b2 << 4)) in
      let pos := u32 (pos + 3) in
      '(r, ctr) <- branch (val0 <? MLKEM_Q)
          (x <- to_i16 val0 ;; r <- aset r ctr x ;; ret (r, u32 (ctr + 1)))
          (ret (r, ctr)) ;;
      '(r, ctr) <- branch ((val1 <? MLKEM_Q) && (ctr <? MLKEM_N))
          (x <- to_i16 val1 ;; r <- aset r ctr x ;; ret (r, u32 (ctr + 1)))
          (ret (r, ctr)) ;;
      ret (r, ctr, pos)) (r, ctr, pos).

(** rej_uniform_avx2.c 160-291 *)
Definition rej_uniform_avx2 (J : junk) (r buf : list Z) : M (list Z * Z) :=
  '(r, ctr, pos) <- rej_loop_32 J r buf 0 0 ;;
  '(r, ctr, pos) <- rej_loop_8 r buf ctr pos ;;
  '(r, ctr, pos) <- rej_loop_1 r buf ctr pos ;;
  ret (r, ctr).

(** ** The x86_64 build of rej_uniform *)

(** profiles/default.h 41-51 *)
Definition rej_uniform_native (J : junk) (r : list Z) (len : Z) (buf : list Z) (buflen : Z)
  : M (list Z * Z) :=
  branch (negb (len =? MLKEM_N) || negb (buflen =? REJ_UNIFORM_AVX_BUFLEN))
    (ret (r, -1))
    (rej_uniform_avx2 J r buf).

(** rej_uniform.c 78-91 (MLKEM_USE_NATIVE_REJ_UNIFORM). The array that r + offset points
    to is the rest of [r] from element [offset] on. *)
Definition rej_uniform_x86_64 (J : junk) (r : list Z) (target offset : Z) (buf : list Z)
  (buflen : Z) : M (list Z * Z) :=
  t <- aslice r offset (Z.of_nat (length r) - offset) ;;
  '(t, res) <- rej_uniform_native J t (u32 (target - offset)) buf buflen ;;
  r <- asplice r offset t ;;
  branch (negb (res =? -1))
    (ret (r, u32 (offset + u32 res)))
    (rej_uniform_scalar r target offset buf buflen).
