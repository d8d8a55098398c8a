(** * SP 800-90A, 10.2.1: CTR_DRBG with AES-256 and without derivation function (C66)

    The reseed counter and the limits on the number and size of the requests are left out: the
    code has none. *)

From Coq Require Import ZArith List Bool.
From Verif Require Import Spec202 SpecAes.
Import ListNotations.
Open Scope Z_scope.

(** The block of a number, most significant byte first, and the number of a block *)
Definition block_of (v : Z) : list Z := map (fun i => v / 256 ^ (15 - i) mod 256) (range 16).
Definition number_of (b : list Z) : Z := fold_left (fun v x => 256 * v + x) b 0.

(** The working state: Key (32 bytes) and V (a number of 128 bits) *)
Definition drbg : Type := list Z * Z.

(** The next [n] output blocks: V is incremented before each of them. *)
Definition output_blocks (st : drbg) (n : Z) : list Z :=
  let '(key, v) := st in
  flat_map (fun i => AES256 key (block_of ((v + 1 + i) mod 2 ^ 128))) (range n).

(** 10.2.1.2: CTR_DRBG_Update; the seed has 48 bytes. *)
Definition drbg_update (provided_data : list Z) (st : drbg) : drbg :=
  let temp := xor_bytes (output_blocks st 3) provided_data in
  (slice temp 0 32, number_of (slice temp 32 48)).

(** 10.2.1.3.1: Instantiate *)
Definition drbg_instantiate (entropy_input personalization_string : list Z) : drbg :=
  drbg_update (xor_bytes entropy_input personalization_string) (repeat 0 32, 0).

(** 10.2.1.5.1: Generate [n] bytes, without additional input: the bytes and the new state *)
Definition drbg_generate (st : drbg) (n : Z) : list Z * drbg :=
  let blocks := (n + 15) / 16 in
  let '(key, v) := st in
  (slice (output_blocks st blocks) 0 n,
   drbg_update (repeat 0 48) (key, (v + blocks) mod 2 ^ 128)).

(** The results of requests for the given numbers of bytes, one after the other *)
Fixpoint drbg_requests (st : drbg) (lengths : list Z) : list (list Z) :=
  match lengths with
  | [] => []
  | n :: rest => let '(out, st) := drbg_generate st n in out :: drbg_requests st rest
  end.
