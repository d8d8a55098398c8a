(** * What the known-answer programs should print (C67)

    [n] is the number of XOF blocks that are allowed for a matrix entry; None if they do not
    suffice. *)

From Coq Require Import ZArith List Bool.
From Verif Require Import ModelArith ModelTests ModelKat Spec202 Spec203 SpecMem SpecApi SpecMachine SpecTests SpecDrbg.
Import ListNotations.
Open Scope Z_scope.

(** A key pair, a ciphertext with its shared secret, and what decapsulation makes of it *)
Definition answer (P : params) (n : Z) (d z m : list Z) : option (list Z * list Z * list Z * list Z * list Z) :=
  match ML_KEM_KeyGen_internal P n d z with
  | Some (ek, dk) =>
      match ML_KEM_Encaps_internal P n ek m with
      | Some (K, c) =>
          match ML_KEM_Decaps_internal P n dk c with
          | Some K' => Some (ek, dk, c, K, K')
          | None => None
          end
      | None => None
      end
  | None => None
  end.

(** ** gen_KAT *)

(** Round [i] uses the bytes 96 i to 96 i + 95 of SHAKE256(32, 33, ..., 95). *)
Definition kat_coins (i : Z) : list Z :=
  slice (SHAKE256 (map (fun j => 32 + j) (range 64)) (96 * (i + 1))) (96 * i) (96 * (i + 1)).
(** The exit code and the lines of the rounds from [i] on: the program ends with -1 in the first
    round in which decapsulation does not give the shared secret. *)
Fixpoint kat_output (rounds : nat) (P : params) (n i : Z) : option (Z * list line) :=
  match rounds with
  | O => Some (0, [])
  | S rounds =>
      match answer P n (slice (kat_coins i) 0 32) (slice (kat_coins i) 32 64) (slice (kat_coins i) 64 96) with
      | None => None
      | Some (ek, dk, c, K, K') =>
          if same K K' then
            match kat_output rounds P n (i + 1) with
            | None => None
            | Some (r, rest) => Some (r, [Pk ek; Sk dk; Ct c; Ss K] ++ rest)
            end
          else Some (-1, [Pk ek; Sk dk; Ct c])
      end
  end.

(** ** gen_NISTKAT *)

Definition drbg_of (seed : list Z) : drbg := drbg_instantiate seed (repeat 0 48).
(** The seed of a round is the result of request number [count] for 48 bytes to CTR_DRBG with the
    entropy input 0, 1, ..., 47; the first request has number 0. *)
Definition nist_seed (count : Z) : list Z :=
  nth (Z.to_nat count) (drbg_requests (drbg_of (range 48)) (repeat 48 (S (Z.to_nat count)))) [].
(** With the seed as entropy input, the first request is for d and z, the second for m. *)
Definition nist_request (i : nat) (count : Z) : list Z :=
  nth i (drbg_requests (drbg_of (nist_seed count)) [64; 32]) [].
Fixpoint nistkat_output (rounds : nat) (P : params) (n count : Z) : option (Z * list line) :=
  match rounds with
  | O => Some (0, [])
  | S rounds =>
      let dz := nist_request 0 count in
      match answer P n (slice dz 0 32) (slice dz 32 64) (nist_request 1 count) with
      | None => None
      | Some (ek, dk, c, K, K') =>
          let lines := [Count count; Seed (nist_seed count); Pk ek; Sk dk; Ct c; Ss K] in
          if same K K' then
            match nistkat_output rounds P n (count + 1) with
            | None => None
            | Some (r, rest) => Some (r, lines ++ rest)
            end
          else Some (-4, lines)
      end
  end.

(** ** Memory *)

(** The array coins of gen_KAT.c does not overlap the other buffers. *)
Definition coins_ok (P : params) (m : memory) (f : frame) (coins : Z) : Prop :=
  accessible m coins 96 /\
  Forall (apart (coins, 96)) [(pk_at f, ek_size P); (sk_at f, dk_size P); (ct_at f, ct_size P); (key_a_at f, 32); (key_b_at f, 32)].
