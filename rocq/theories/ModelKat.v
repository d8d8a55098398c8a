(** * The known-answer programs: test/gen_KAT.c and test/gen_NISTKAT.c

    A program returns its exit code and what it writes to standard output, line by line. A line is
    a label and bytes; that the bytes are written as hexadecimal digits is left out, as are empty
    lines and messages to standard error. The numbers of rounds, 1000 and 100, are parameters.

    The buffers that the API functions get are in memory at the addresses of a [frame]
    (ModelTests.v): ss1 and shared_secret_e are its key_b, ss2 and shared_secret_d its key_a. *)

From Coq Require Import ZArith List Bool.
From Verif Require Import CSem ModelArith ModelKeccak ModelKem ModelA64Sponge ModelA64Indcpa ModelDrbg ModelTests SpecMachine SpecBuilds.
Import ListNotations.
Open Scope Z_scope.

Inductive line :=
| Algorithm (p : pset)    (* # Kyber512, # Kyber768 or # Kyber1024 (kem.h 17-23) *)
| Count (n : Z)
| Seed (l : list Z) | Pk (l : list Z) | Sk (l : list Z) | Ct (l : list Z) | Ss (l : list Z).

(** What does not change during a run *)
Record kat_setting := KatSetting { kat_build : build; kat_fuel : nat; kat_set : pset; kat_frame : frame }.
(** The setting for the API calls, with a source of random bytes *)
Definition with_rng (T : kat_setting) (rng : Z -> Z) : setting :=
  Setting (kat_build T) (kat_fuel T) (kat_set T) rng (kat_frame T).

(** ** test/gen_KAT.c *)

(** shake256_inc_absorb and shake256_inc_squeeze of the build (fips202.c 229-242) *)
Definition inc_absorb (b : build) (J : junk) (state input : list Z) (inlen : Z) : M (list Z) :=
  match b with
  | AArch64 bd => shake256_inc_absorb_aarch64 (b_fips bd) J state input inlen
  | _ => shake256_inc_absorb (bo := build_order b) state input inlen
  end.
Definition inc_squeeze (b : build) (J : junk) (output : list Z) (outlen : Z) (state : list Z) : M (list Z * list Z) :=
  match b with
  | AArch64 bd => shake256_inc_squeeze_aarch64 (b_fips bd) J output outlen state
  | _ => shake256_inc_squeeze (bo := build_order b) output outlen state
  end.

(** gen_KAT.c 25-31 *)
Definition kat_shake256_absorb (b : build) (J : junk) (state input : list Z) (inlen : Z) : M (list Z) :=
  state <- shake256_inc_init state ;;
  state <- inc_absorb b J state input inlen ;;
  shake256_inc_finalize (bo := build_order b) state.

(** gen_KAT.c 43-48 *)
Definition kat_seed : list Z :=
  [32; 33; 34; 35; 36; 37; 38; 39; 40; 41; 42; 43; 44; 45; 46; 47;
   48; 49; 50; 51; 52; 53; 54; 55; 56; 57; 58; 59; 60; 61; 62; 63;
   64; 65; 66; 67; 68; 69; 70; 71; 72; 73; 74; 75; 76; 77; 78; 79;
   80; 81; 82; 83; 84; 85; 86; 87; 88; 89; 90; 91; 92; 93; 94; 95].

(** gen_KAT.c 53-73: the loop; [coins] is the address of the array coins. The return codes of the
    API functions are ignored. *)
Fixpoint gen_kat_rounds (rounds : nat) (T : kat_setting) (coins : Z) (J : junk) (state : list Z) (m : mem)
  : M (Z * list line) :=
  let S := with_rng T (fun _ => 0) in
  let f := kat_frame T in let p := kat_set T in
  match rounds with
  | O => ret (0, [])
  | Datatypes.S rounds =>
      b <- mload m coins (3 * MLKEM_SYMBYTES) ;;
      '(b, state) <- inc_squeeze (kat_build T) (sub J 0) b (3 * MLKEM_SYMBYTES) state ;;
      m <- mstore m coins b ;;
      '(_, m, _) <- api_call S (sub J 1) (KeypairDerand (pk_at f) (sk_at f) coins) m 0 ;;
      pk <- mload m (pk_at f) (MLKEM_PUBLICKEYBYTES p) ;;
      sk <- mload m (sk_at f) (MLKEM_SECRETKEYBYTES p) ;;
      '(_, m, _) <- api_call S (sub J 2) (EncDerand (ct_at f) (key_b_at f) (pk_at f) (coins + 2 * MLKEM_SYMBYTES)) m 0 ;;
      ct <- mload m (ct_at f) (MLKEM_CIPHERTEXTBYTES p) ;;
      '(_, m, _) <- api_call S (sub J 3) (Dec (key_a_at f) (ct_at f) (sk_at f)) m 0 ;;
      ss1 <- mload m (key_b_at f) MLKEM_SSBYTES ;;
      ss2 <- mload m (key_a_at f) MLKEM_SSBYTES ;;
      c <- memcmp ss1 ss2 ;;
      branch (negb (c =? 0)) (ret (-1, [Pk pk; Sk sk; Ct ct]))
        ('(r, out) <- gen_kat_rounds rounds T coins (sub J 4) state m ;;
         ret (r, [Pk pk; Sk sk; Ct ct; Ss ss1] ++ out))
  end.

(** gen_KAT.c 33-78 *)
Definition gen_kat (rounds : nat) (T : kat_setting) (coins : Z) (J : junk) (m : mem) : M (Z * list line) :=
  state <- kat_shake256_absorb (kat_build T) (sub J 0) (uninit_inc J) kat_seed 64 ;;
  gen_kat_rounds rounds T coins (sub J 1) state m.

(** ** test/gen_NISTKAT.c *)

(** gen_NISTKAT.c 28-41 *)
Definition randombytes_nth (J : junk) (ctx : nistkatctx) (seed : list Z) (nth len : Z) : M (nistkatctx * list Z) :=
  ctx <- nist_kat_init (sub J 0)
    [0; 1; 2; 3; 4; 5; 6; 7; 8; 9; 10; 11; 12; 13; 14; 15; 16; 17; 18; 19; 20; 21; 22; 23;
     24; 25; 26; 27; 28; 29; 30; 31; 32; 33; 34; 35; 36; 37; 38; 39; 40; 41; 42; 43; 44; 45; 46; 47] None ctx ;;
  for_up 0 (u64 (nth + 1)) 1 (fun i '(ctx, seed) => kat_randombytes (sub J (1 + i)) ctx seed len) (ctx, seed).

(** The random bytes that the library gets in one round: crypto_kem_keypair makes a request for 64
    bytes (kem.c 112), crypto_kem_enc one for 32 (kem.c 145), crypto_kem_dec none. The model of the
    library takes a stream of bytes, so the requests are made here before the calls. *)
Definition library_requests (J : junk) (ctx : nistkatctx) : M (nistkatctx * (Z -> Z)) :=
  '(ctx, b1) <- kat_randombytes (sub J 0) ctx (uninit J 2 64) 64 ;;
  '(ctx, b2) <- kat_randombytes (sub J 1) ctx (uninit J 3 32) 32 ;;
  ret (ctx, fun i => nth (Z.to_nat i) (b1 ++ b2) 0).

(** gen_NISTKAT.c 57-103: the loop; the array seed is not in memory. *)
Fixpoint gen_nistkat_rounds (rounds : nat) (T : kat_setting) (J : junk) (ctx : nistkatctx) (count : Z) (seed : list Z) (m : mem)
  : M (Z * list line) :=
  let f := kat_frame T in let p := kat_set T in
  match rounds with
  | O => ret (0, [])
  | Datatypes.S rounds =>
      '(ctx, seed) <- randombytes_nth (sub J 0) ctx seed (u64 count) 48 ;;
      ctx <- nist_kat_init (sub J 1) seed None ctx ;;
      '(ctx, rng) <- library_requests (sub J 2) ctx ;;
      let S := with_rng T rng in
      let out := [Count count; Seed seed] in
      '(rc, m, pos) <- call_keypair S (sub J 3) m 0 ;;
      branch (negb (rc =? 0)) (ret (-1, out))
        (pk <- mload m (pk_at f) (MLKEM_PUBLICKEYBYTES p) ;;
         sk <- mload m (sk_at f) (MLKEM_SECRETKEYBYTES p) ;;
         let out := out ++ [Pk pk; Sk sk] in
         '(rc, m, pos) <- call_enc S (sub J 4) m pos ;;
         branch (negb (rc =? 0)) (ret (-2, out))
           (ct <- mload m (ct_at f) (MLKEM_CIPHERTEXTBYTES p) ;;
            ss <- mload m (key_b_at f) MLKEM_SSBYTES ;;
            let out := out ++ [Ct ct; Ss ss] in
            '(rc, m, pos) <- call_dec S (sub J 5) m pos ;;
            branch (negb (rc =? 0)) (ret (-3, out))
              (sse <- mload m (key_b_at f) MLKEM_SSBYTES ;;
               ssd <- mload m (key_a_at f) MLKEM_SSBYTES ;;
               rc <- memcmp sse ssd ;;
               branch (negb (rc =? 0)) (ret (-4, out))
                 (count <- i32 (count + 1) ;;
                  '(r, rest) <- gen_nistkat_rounds rounds T (sub J 6) ctx count seed m ;;
                  ret (r, out ++ rest)))))
  end.

(** gen_NISTKAT.c 43-106 *)
Definition gen_nistkat (rounds : nat) (T : kat_setting) (J : junk) (m : mem) : M (Z * list line) :=
  '(r, out) <- gen_nistkat_rounds rounds T (sub J 0) ctx_start 0 (uninit J 1 48) m ;;
  ret (r, Algorithm (kat_set T) :: out).
