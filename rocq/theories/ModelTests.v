(** * The functional tests: test/test_mlkem.c

    The tests call the API functions of a build of the library (SpecBuilds.v). Their local arrays are
    in memory at the addresses of a [frame]; they may contain anything when a test begins. The calls
    of a test get their uninitialised memory from different parts of [J]. Printing is left out. In C
    every call of a test has its own local arrays; here all calls in [main] use the same addresses,
    and a test finds there what the one before has left. *)

From Coq Require Import ZArith List Bool.
From Verif Require Import CSem ModelArith ModelKeccak ModelKem SpecMachine SpecBuilds.
Import ListNotations.
Open Scope Z_scope.

(** The local arrays pk, sk, ct, key_a and key_b of the tests; [fp] is where the API functions have
    their own local array. *)
Record frame := Frame { pk_at : Z; sk_at : Z; ct_at : Z; key_a_at : Z; key_b_at : Z; fp_at : Z }.

(** What does not change during a run of the tests: the build, the limit for the sampling loops, the
    parameter set, the source of random bytes and the addresses *)
Record setting := Setting { the_build : build; the_fuel : nat; the_set : pset; the_rng : Z -> Z; the_frame : frame }.

Definition api_call (S : setting) (J : junk) (c : call) (m : mem) (pos : Z) : M (Z * mem * Z) :=
  build_call (the_build S) {| junk_of := J; fuel_of := the_fuel S; pset_of := the_set S; call_of := c |} (the_rng S) m pos.
(** crypto_kem_keypair(pk, sk); crypto_kem_enc(ct, key_b, pk); crypto_kem_dec(key_a, ct, sk) *)
Definition call_keypair (S : setting) (J : junk) (m : mem) (pos : Z) : M (Z * mem * Z) :=
  let f := the_frame S in api_call S J (Keypair (fp_at f) (pk_at f) (sk_at f)) m pos.
Definition call_enc (S : setting) (J : junk) (m : mem) (pos : Z) : M (Z * mem * Z) :=
  let f := the_frame S in api_call S J (Enc (fp_at f) (ct_at f) (key_b_at f) (pk_at f)) m pos.
Definition call_dec (S : setting) (J : junk) (m : mem) (pos : Z) : M (Z * mem * Z) :=
  let f := the_frame S in api_call S J (Dec (key_a_at f) (ct_at f) (sk_at f)) m pos.
(** randombytes(a, n) *)
Definition fill (S : setting) (m : mem) (pos a n : Z) : M (mem * Z) :=
  m <- mstore m a (randombytes (the_rng S) pos n) ;; ret (m, pos + n).
(** memcmp(key_a, key_b, CRYPTO_BYTES) *)
Definition compare_keys (S : setting) (m : mem) : M Z :=
  a <- mload m (key_a_at (the_frame S)) MLKEM_SSBYTES ;;
  b <- mload m (key_b_at (the_frame S)) MLKEM_SSBYTES ;;
  memcmp a b.

(** test_mlkem.c 13-37 *)
Definition test_keys (S : setting) (J : junk) (m : mem) (pos : Z) : M (Z * mem * Z) :=
  '(_, m, pos) <- call_keypair S (sub J 0) m pos ;;
  '(_, m, pos) <- call_enc S (sub J 1) m pos ;;
  '(_, m, pos) <- call_dec S (sub J 2) m pos ;;
  c <- compare_keys S m ;;
  branch (negb (c =? 0)) (ret (1, m, pos)) (ret (0, m, pos)).

(** test_mlkem.c 39-70 *)
Definition test_invalid_pk (S : setting) (J : junk) (m : mem) (pos : Z) : M (Z * mem * Z) :=
  let pk := pk_at (the_frame S) in
  '(_, m, pos) <- call_keypair S (sub J 0) m pos ;;
  '(rc, m, pos) <- call_enc S (sub J 1) m pos ;;
  branch (negb (rc =? 0)) (ret (1, m, pos))
    ((* pk[0] = 0xFF; pk[1] |= 0x0F *)
     m <- mstore m pk [255] ;;
     b <- mload m (pk + 1) 1 ;;
     v <- aget b 0 ;;
     m <- mstore m (pk + 1) [u8 (v .| 15)] ;;
     '(rc, m, pos) <- call_enc S (sub J 2) m pos ;;
     branch (rc =? 0) (ret (1, m, pos)) (ret (0, m, pos))).

(** test_mlkem.c 72-108 *)
Definition test_invalid_sk_a (S : setting) (J : junk) (m : mem) (pos : Z) : M (Z * mem * Z) :=
  '(_, m, pos) <- call_keypair S (sub J 0) m pos ;;
  '(_, m, pos) <- call_enc S (sub J 1) m pos ;;
  '(m, pos) <- fill S m pos (sk_at (the_frame S)) 10 ;;
  '(rc, m, pos) <- call_dec S (sub J 2) m pos ;;
  branch (negb (rc =? 0)) (ret (1, m, pos))
    (c <- compare_keys S m ;;
     branch (c =? 0) (ret (1, m, pos)) (ret (0, m, pos))).

(** test_mlkem.c 110-140 *)
Definition test_invalid_sk_b (S : setting) (J : junk) (m : mem) (pos : Z) : M (Z * mem * Z) :=
  '(_, m, pos) <- call_keypair S (sub J 0) m pos ;;
  '(_, m, pos) <- call_enc S (sub J 1) m pos ;;
  '(m, pos) <- fill S m pos (sk_at (the_frame S) + MLKEM_SECRETKEYBYTES (the_set S) - 64) 32 ;;
  '(rc, m, pos) <- call_dec S (sub J 2) m pos ;;
  branch (rc =? 0) (ret (1, m, pos)) (ret (0, m, pos)).

(** test_mlkem.c 152-155: bytes are drawn until one is not 0; [fuel] limits the iterations *)
Fixpoint draw_nonzero (fuel : nat) (rng : Z -> Z) (pos : Z) : M (Z * Z) :=
  match fuel with
  | O => nofuel
  | Datatypes.S fuel =>
      let b := u8 (rng pos) in
      branch (negb (b =? 0)) (ret (b, pos + 1)) (draw_nonzero fuel rng (pos + 1))
  end.
(** The size_t that has the given eight bytes in memory *)
Definition build_order (b : build) : byte_order := match b with Portable bo => bo | _ => LittleEndian end.
Definition load_size_t (bo : byte_order) (l : list Z) : Z :=
  bytes_lane (match bo with LittleEndian => l | BigEndian => rev l end).

(** test_mlkem.c 142-177 *)
Definition test_invalid_ciphertext (S : setting) (J : junk) (m : mem) (pos : Z) : M (Z * mem * Z) :=
  '(b, pos) <- draw_nonzero (the_fuel S) (the_rng S) pos ;;
  let position := load_size_t (build_order (the_build S)) (randombytes (the_rng S) pos 8) in
  let pos := pos + 8 in
  '(_, m, pos) <- call_keypair S (sub J 0) m pos ;;
  '(_, m, pos) <- call_enc S (sub J 1) m pos ;;
  let a := ct_at (the_frame S) + position mod MLKEM_CIPHERTEXTBYTES (the_set S) in
  c <- mload m a 1 ;;
  v <- aget c 0 ;;
  m <- mstore m a [u8 (v .^ b)] ;;
  '(_, m, pos) <- call_dec S (sub J 2) m pos ;;
  c <- compare_keys S m ;;
  branch (c =? 0) (ret (1, m, pos)) (ret (0, m, pos)).

(** test_mlkem.c 179-202, with the number of iterations NTESTS as a parameter *)
Fixpoint test_main (ntests : nat) (S : setting) (J : junk) (m : mem) (pos : Z) : M (Z * mem * Z) :=
  match ntests with
  | O => ret (0, m, pos)
  | Datatypes.S n =>
      '(r0, m, pos) <- test_keys S (sub J 0) m pos ;;
      '(r1, m, pos) <- test_invalid_pk S (sub J 1) m pos ;;
      '(r2, m, pos) <- test_invalid_sk_a S (sub J 2) m pos ;;
      '(r3, m, pos) <- test_invalid_sk_b S (sub J 3) m pos ;;
      '(r4, m, pos) <- test_invalid_ciphertext S (sub J 4) m pos ;;
      let r := r0 .| r1 .| r2 .| r3 .| r4 in
      branch (negb (r =? 0)) (ret (1, m, pos)) (test_main n S (sub J 5) m pos)
  end.
