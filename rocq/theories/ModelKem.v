(** * Model of mlkem/kem.c, over a byte-addressed memory

    Caller buffers live in a memory that maps an address to the byte stored there,
    or to [None] if the address is not accessible. Local arrays are lists with
    arbitrary initial contents, except those whose address is passed to another
    API function ([coins] in crypto_kem_keypair and crypto_kem_enc), which are
    allocated in memory at an address [fp]. *)

From Coq Require Import ZArith List Bool.
From Verif Require Import CSem ModelArith ModelKeccak ModelIndcpa.
Import ListNotations.
Open Scope Z_scope.

Definition mem : Type := Z -> option Z.

Fixpoint sequence {A} (l : list (option A)) : option (list A) :=
  match l with
  | [] => Some []
  | None :: _ => None
  | Some x :: t => match sequence t with Some t' => Some (x :: t') | None => None end
  end.

Definition addresses (a n : Z) : list Z :=
  map (fun i => a + Z.of_nat i) (seq 0 (Z.to_nat n)).

(** Read [n] bytes at address [a]. *)
Definition mload (m : mem) (a n : Z) : M (list Z) :=
  emit (EIndex a) ;;;
  match sequence (map m (addresses a n)) with
  | Some l => ret l
  | None => fail BadAddress
  end.

(** Write the bytes [l] at address [a]. *)
Definition mwrite (m : mem) (a : Z) (l : list Z) : mem :=
  fun x => if (a <=? x) && (x <? a + Z.of_nat (length l))
           then nth_error l (Z.to_nat (x - a)) else m x.
Definition mstore (m : mem) (a : Z) (l : list Z) : M mem :=
  emit (EIndex a) ;;;
  match sequence (map m (addresses a (Z.of_nat (length l)))) with
  | Some _ => ret (mwrite m a l)
  | None => fail BadAddress
  end.

(** The no-alias contracts of mlkem/kem.h: the buffers are pairwise disjoint. *)
Definition disjoint (x y : Z * Z) : bool :=
  (fst x + snd x <=? fst y) || (fst y + snd y <=? fst x).
Fixpoint separate (l : list (Z * Z)) : bool :=
  match l with
  | [] => true
  | x :: t => forallb (disjoint x) t && separate t
  end.
Definition no_alias (l : list (Z * Z)) : M unit :=
  if separate l then ret tt else fail Overlap.

(** memcmp: 0 for equal operands, some other value for different ones (the code
    only tests the result against 0). Its run time depends on the operands. *)
Definition memcmp (a b : list Z) : M Z :=
  emit (ECompare a b) ;;;
  ret (if list_eq_dec Z.eq_dec a b then 0 else 1).

(** kem.c 36-49 *)
Definition check_pk (J : junk) (p : pset) (m : mem) (pk : Z) : M Z :=
  let pv := uninit2 J 0 (MLKEM_K p) MLKEM_N in
  let p_reencoded := uninit J 1 (MLKEM_POLYVECBYTES p) in
  b <- mload m pk (MLKEM_POLYVECBYTES p) ;;
  pv <- polyvec_frombytes p pv b ;;
  pv <- polyvec_reduce p pv ;;
  p_reencoded <- polyvec_tobytes p p_reencoded pv ;;
  b <- mload m pk (MLKEM_POLYVECBYTES p) ;;
  c <- memcmp b p_reencoded ;;
  branch (negb (c =? 0)) (ret (-1)) (ret 0).

(** kem.c 64-79 *)
Definition check_sk {bo : byte_order} (J : junk) (p : pset) (m : mem) (sk : Z) : M Z :=
  let test := uninit J 0 MLKEM_SYMBYTES in
  pkb <- mload m (sk + MLKEM_INDCPA_SECRETKEYBYTES p) (MLKEM_PUBLICKEYBYTES p) ;;
  test <- hash_h (sub J 1) test pkb (MLKEM_PUBLICKEYBYTES p) ;;
  b <- mload m (sk + MLKEM_SECRETKEYBYTES p - 2 * MLKEM_SYMBYTES) MLKEM_SYMBYTES ;;
  c <- memcmp b test ;;
  branch (negb (c =? 0)) (ret (-1)) (ret 0).

(** kem.c 97-107; contract kem.h 43-53 *)
Definition crypto_kem_keypair_derand {bo : byte_order} (J : junk) (fuel : nat) (p : pset) (m : mem)
  (pk sk coins : Z) : M (Z * mem) :=
  no_alias [(pk, MLKEM_PUBLICKEYBYTES p); (sk, MLKEM_SECRETKEYBYTES p);
            (coins, 2 * MLKEM_SYMBYTES)] ;;;
  (* indcpa_keypair_derand(pk, sk, coins) *)
  pkb <- mload m pk (MLKEM_INDCPA_PUBLICKEYBYTES p) ;;
  skb <- mload m sk (MLKEM_INDCPA_SECRETKEYBYTES p) ;;
  c <- mload m coins MLKEM_SYMBYTES ;;
  '(pkb, skb) <- indcpa_keypair_derand (sub J 0) fuel p pkb skb c ;;
  m <- mstore m pk pkb ;;
  m <- mstore m sk skb ;;
  (* memcpy *)
  emit (ECopy (MLKEM_PUBLICKEYBYTES p)) ;;;
  b <- mload m pk (MLKEM_PUBLICKEYBYTES p) ;;
  m <- mstore m (sk + MLKEM_INDCPA_SECRETKEYBYTES p) b ;;
  (* hash_h *)
  b <- mload m pk (MLKEM_PUBLICKEYBYTES p) ;;
  h <- mload m (sk + MLKEM_SECRETKEYBYTES p - 2 * MLKEM_SYMBYTES) MLKEM_SYMBYTES ;;
  h <- hash_h (sub J 1) h b (MLKEM_PUBLICKEYBYTES p) ;;
  m <- mstore m (sk + MLKEM_SECRETKEYBYTES p - 2 * MLKEM_SYMBYTES) h ;;
  (* memcpy *)
  emit (ECopy MLKEM_SYMBYTES) ;;;
  z <- mload m (coins + MLKEM_SYMBYTES) MLKEM_SYMBYTES ;;
  m <- mstore m (sk + MLKEM_SECRETKEYBYTES p - MLKEM_SYMBYTES) z ;;
  ret (0, m).

(** kem.c 117-140 *)
Definition crypto_kem_enc_derand {bo : byte_order} (J : junk) (fuel : nat) (p : pset) (m : mem)
  (ct ss pk coins : Z) : M (Z * mem) :=
  no_alias [(ct, MLKEM_CIPHERTEXTBYTES p); (ss, MLKEM_SSBYTES);
            (pk, MLKEM_PUBLICKEYBYTES p); (coins, MLKEM_SYMBYTES)] ;;;
  let buf := uninit J 0 (2 * MLKEM_SYMBYTES) in
  let kr := uninit J 1 (2 * MLKEM_SYMBYTES) in
  bad <- check_pk (sub J 2) p m pk ;;
  branch (negb (bad =? 0))
    (ret (-1, m))
    (c <- mload m coins MLKEM_SYMBYTES ;;
     buf <- memcpy buf 0 c 0 MLKEM_SYMBYTES ;;
     pkb <- mload m pk (MLKEM_PUBLICKEYBYTES p) ;;
     h <- aslice buf MLKEM_SYMBYTES MLKEM_SYMBYTES ;;
     h <- hash_h (sub J 3) h pkb (MLKEM_PUBLICKEYBYTES p) ;;
     buf <- asplice buf MLKEM_SYMBYTES h ;;
     kr <- hash_g (sub J 4) kr buf (2 * MLKEM_SYMBYTES) ;;
     (* indcpa_enc(ct, buf, pk, kr + MLKEM_SYMBYTES) *)
     ctb <- mload m ct (MLKEM_INDCPA_BYTES p) ;;
     msg <- aslice buf 0 MLKEM_INDCPA_MSGBYTES ;;
     pkb <- mload m pk (MLKEM_INDCPA_PUBLICKEYBYTES p) ;;
     r <- aslice kr MLKEM_SYMBYTES MLKEM_SYMBYTES ;;
     ctb <- indcpa_enc (sub J 5) fuel p ctb msg pkb r ;;
     m <- mstore m ct ctb ;;
     (* memcpy(ss, kr, MLKEM_SYMBYTES) *)
     emit (ECopy MLKEM_SYMBYTES) ;;;
     k <- aslice kr 0 MLKEM_SYMBYTES ;;
     m <- mstore m ss k ;;
     ret (0, m)).

(** kem.c 149-182 *)
Definition crypto_kem_dec {bo : byte_order} (J : junk) (fuel : nat) (p : pset) (m : mem)
  (ss ct sk : Z) : M (Z * mem) :=
  no_alias [(ss, MLKEM_SSBYTES); (ct, MLKEM_CIPHERTEXTBYTES p);
            (sk, MLKEM_SECRETKEYBYTES p)] ;;;
  let buf := uninit J 0 (2 * MLKEM_SYMBYTES) in
  let kr := uninit J 1 (2 * MLKEM_SYMBYTES) in
  let cmp := uninit J 2 (MLKEM_CIPHERTEXTBYTES p + MLKEM_SYMBYTES) in
  let pk := sk + MLKEM_INDCPA_SECRETKEYBYTES p in
  bad <- check_sk (sub J 3) p m sk ;;
  branch (negb (bad =? 0))
    (ret (-1, m))
    ((* indcpa_dec(buf, ct, sk) *)
     ctb <- mload m ct (MLKEM_INDCPA_BYTES p) ;;
     skb <- mload m sk (MLKEM_INDCPA_SECRETKEYBYTES p) ;;
     msg <- aslice buf 0 MLKEM_INDCPA_MSGBYTES ;;
     msg <- indcpa_dec (sub J 4) p msg ctb skb ;;
     buf <- asplice buf 0 msg ;;
     (* memcpy *)
     h <- mload m (sk + MLKEM_SECRETKEYBYTES p - 2 * MLKEM_SYMBYTES) MLKEM_SYMBYTES ;;
     buf <- memcpy buf MLKEM_SYMBYTES h 0 MLKEM_SYMBYTES ;;
     kr <- hash_g (sub J 5) kr buf (2 * MLKEM_SYMBYTES) ;;
     (* indcpa_enc(cmp, buf, pk, kr + MLKEM_SYMBYTES) *)
     c <- aslice cmp 0 (MLKEM_INDCPA_BYTES p) ;;
     msg <- aslice buf 0 MLKEM_INDCPA_MSGBYTES ;;
     pkb <- mload m pk (MLKEM_INDCPA_PUBLICKEYBYTES p) ;;
     r <- aslice kr MLKEM_SYMBYTES MLKEM_SYMBYTES ;;
     c <- indcpa_enc (sub J 6) fuel p c msg pkb r ;;
     cmp <- asplice cmp 0 c ;;
     ctb <- mload m ct (MLKEM_CIPHERTEXTBYTES p) ;;
     fail <- ct_memcmp ctb cmp (MLKEM_CIPHERTEXTBYTES p) ;;
     (* rkprf(ss, sk + MLKEM_SECRETKEYBYTES - MLKEM_SYMBYTES, ct) *)
     ssb <- mload m ss MLKEM_SSBYTES ;;
     z <- mload m (sk + MLKEM_SECRETKEYBYTES p - MLKEM_SYMBYTES) MLKEM_SYMBYTES ;;
     ctb <- mload m ct (MLKEM_CIPHERTEXTBYTES p) ;;
     ssb <- mlkem_shake256_rkprf (sub J 7) p ssb z ctb ;;
     m <- mstore m ss ssb ;;
     (* ct_cmov_zero(ss, kr, MLKEM_SYMBYTES, fail) *)
     ssb <- mload m ss MLKEM_SSBYTES ;;
     ssb <- ct_cmov_zero ssb kr MLKEM_SYMBYTES fail ;;
     m <- mstore m ss ssb ;;
     ret (0, m)).

(** ** The randomised functions

    randombytes is an oracle: the k-th byte it ever delivers is [rng k]; [pos] is
    the number of bytes delivered so far. *)

(** A local array of [n] bytes is allocated at address [fp], which must not be in
    use, and deallocated on return. *)
Definition unused (m : mem) (a n : Z) : bool :=
  forallb (fun x => match m x with None => true | Some _ => false end) (addresses a n).
Definition mfree (m : mem) (a n : Z) : mem :=
  fun x => if (a <=? x) && (x <? a + n) then None else m x.

(** randombytes (mlkem/randombytes.h 11): [n] fresh bytes *)
Definition randombytes (rng : Z -> Z) (pos n : Z) : list Z :=
  map (fun i => u8 (rng (pos + Z.of_nat i))) (seq 0 (Z.to_nat n)).

(** kem.c 109-115; returns the result, the memory and the new oracle position *)
Definition crypto_kem_keypair {bo : byte_order} (J : junk) (fuel : nat) (p : pset) (rng : Z -> Z)
  (m : mem) (pos fp pk sk : Z) : M (Z * mem * Z) :=
  if unused m fp (2 * MLKEM_SYMBYTES) then
    let coins := randombytes rng pos (2 * MLKEM_SYMBYTES) in
    let m := mwrite m fp coins in
    '(_, m) <- crypto_kem_keypair_derand (sub J 0) fuel p m pk sk fp ;;
    ret (0, mfree m fp (2 * MLKEM_SYMBYTES), pos + 2 * MLKEM_SYMBYTES)
  else fail Overlap.

(** kem.c 142-147 *)
Definition crypto_kem_enc {bo : byte_order} (J : junk) (fuel : nat) (p : pset) (rng : Z -> Z)
  (m : mem) (pos fp ct ss pk : Z) : M (Z * mem * Z) :=
  if unused m fp MLKEM_SYMBYTES then
    let coins := randombytes rng pos MLKEM_SYMBYTES in
    let m := mwrite m fp coins in
    '(r, m) <- crypto_kem_enc_derand (sub J 0) fuel p m ct ss pk fp ;;
    ret (r, mfree m fp MLKEM_SYMBYTES, pos + MLKEM_SYMBYTES)
  else fail Overlap.
