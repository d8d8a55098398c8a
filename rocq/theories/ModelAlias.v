(** * The KEM functions called with overlapping buffers

    The contracts of mlkem/kem.h ask for buffers that do not overlap, and in ModelKem.v a
    call that breaks this has no defined outcome. The contracts are not part of the
    compiled code (__contract__ is empty: mlkem/cbmc.h 17). Here the same three functions are
    modelled as the compiler sees them, for all addresses. What remains undefined is what
    C leaves undefined: memcpy between overlapping objects (C90 7.11.2.1), so in front of
    every memcpy between two buffers of the caller stands a check that the two ranges are
    apart.

    A function called with pointers is still given the contents of its inputs at the call
    and its outputs are stored at its return. For the functions called here this is exact
    for overlapping arguments too, because they store nothing into their outputs before
    they have read all of their inputs: indcpa_keypair_derand reads coins in line 428 of
    indcpa.c and writes sk and pk in lines 469 and 470; indcpa_enc reads pk in line 504 and
    writes c in its last line; hash_h absorbs before it squeezes (fips202.c); so does
    mlkem_shake256_rkprf (symmetric-shake.c 23-35). For the last two this is proved in
    PropInPlace.v (C75), from a model that reads and writes byte by byte. *)

From Coq Require Import ZArith List Bool.
From Verif Require Import CSem ModelArith ModelKeccak ModelIndcpa ModelKem.
Import ListNotations.
Open Scope Z_scope.

(** kem.c 97-107 *)
Definition keypair_derand_any {bo : byte_order} (J : junk) (fuel : nat) (p : pset) (m : mem)
  (pk sk coins : Z) : M (Z * mem) :=
  (* indcpa_keypair_derand(pk, sk, coins) *)
  pkb <- mload m pk (MLKEM_INDCPA_PUBLICKEYBYTES p) ;;
  skb <- mload m sk (MLKEM_INDCPA_SECRETKEYBYTES p) ;;
  c <- mload m coins MLKEM_SYMBYTES ;;
  '(pkb, skb) <- indcpa_keypair_derand (sub J 0) fuel p pkb skb c ;;
  (* pack_sk comes before pack_pk: indcpa.c 469-470 *)
  m <- mstore m sk skb ;;
  m <- mstore m pk pkb ;;
  (* memcpy *)
  no_alias [(sk + MLKEM_INDCPA_SECRETKEYBYTES p, MLKEM_PUBLICKEYBYTES p); (pk, MLKEM_PUBLICKEYBYTES p)] ;;;
  emit (ECopy (MLKEM_PUBLICKEYBYTES p)) ;;;
  b <- mload m pk (MLKEM_PUBLICKEYBYTES p) ;;
  m <- mstore m (sk + MLKEM_INDCPA_SECRETKEYBYTES p) b ;;
  (* hash_h *)
  b <- mload m pk (MLKEM_PUBLICKEYBYTES p) ;;
  h <- mload m (sk + MLKEM_SECRETKEYBYTES p - 2 * MLKEM_SYMBYTES) MLKEM_SYMBYTES ;;
  h <- hash_h (sub J 1) h b (MLKEM_PUBLICKEYBYTES p) ;;
  m <- mstore m (sk + MLKEM_SECRETKEYBYTES p - 2 * MLKEM_SYMBYTES) h ;;
  (* memcpy *)
  no_alias [(sk + MLKEM_SECRETKEYBYTES p - MLKEM_SYMBYTES, MLKEM_SYMBYTES); (coins + MLKEM_SYMBYTES, MLKEM_SYMBYTES)] ;;;
  emit (ECopy MLKEM_SYMBYTES) ;;;
  z <- mload m (coins + MLKEM_SYMBYTES) MLKEM_SYMBYTES ;;
  m <- mstore m (sk + MLKEM_SECRETKEYBYTES p - MLKEM_SYMBYTES) z ;;
  ret (0, m).

(** kem.c 117-140 *)
Definition enc_derand_any {bo : byte_order} (J : junk) (fuel : nat) (p : pset) (m : mem)
  (ct ss pk coins : Z) : M (Z * mem) :=
  let buf := uninit J 0 (2 * MLKEM_SYMBYTES) in
  let kr := uninit J 1 (2 * MLKEM_SYMBYTES) in
  bad <- check_pk (sub J 2) p m pk ;;
  branch (negb (bad =? 0))
    (ret (-1, m))
    (c <- mload m coins MLKEM_SYMBYTES ;;
     buf <- memcpy buf 0 c 0 MLKEM_SYMBYTES ;;
     pkb <- mload m pk (MLKEM_PUBLICKEYBYTES p) ;;
     h <- aslice buf MLKEM_SYMBYTES MLKEM_SYMBYTES ;;
     h <- hash_h (sub J 3) h pkb (MLKEM_PUBLICKEYBYTES p) ;;
     buf <- asplice buf MLKEM_SYMBYTES h ;;
     kr <- hash_g (sub J 4) kr buf (2 * MLKEM_SYMBYTES) ;;
     (* indcpa_enc(ct, buf, pk, kr + MLKEM_SYMBYTES) *)
     ctb <- mload m ct (MLKEM_INDCPA_BYTES p) ;;
     msg <- aslice buf 0 MLKEM_INDCPA_MSGBYTES ;;
     pkb <- mload m pk (MLKEM_INDCPA_PUBLICKEYBYTES p) ;;
     r <- aslice kr MLKEM_SYMBYTES MLKEM_SYMBYTES ;;
     ctb <- indcpa_enc (sub J 5) fuel p ctb msg pkb r ;;
     m <- mstore m ct ctb ;;
     (* memcpy(ss, kr, MLKEM_SYMBYTES) *)
     emit (ECopy MLKEM_SYMBYTES) ;;;
     k <- aslice kr 0 MLKEM_SYMBYTES ;;
     m <- mstore m ss k ;;
     ret (0, m)).

(** kem.c 149-182 *)
Definition dec_any {bo : byte_order} (J : junk) (fuel : nat) (p : pset) (m : mem)
  (ss ct sk : Z) : M (Z * mem) :=
  let buf := uninit J 0 (2 * MLKEM_SYMBYTES) in
  let kr := uninit J 1 (2 * MLKEM_SYMBYTES) in
  let cmp := uninit J 2 (MLKEM_CIPHERTEXTBYTES p + MLKEM_SYMBYTES) in
  let pk := sk + MLKEM_INDCPA_SECRETKEYBYTES p in
  bad <- check_sk (sub J 3) p m sk ;;
  branch (negb (bad =? 0))
    (ret (-1, m))
    ((* indcpa_dec(buf, ct, sk) *)
     ctb <- mload m ct (MLKEM_INDCPA_BYTES p) ;;
     skb <- mload m sk (MLKEM_INDCPA_SECRETKEYBYTES p) ;;
     msg <- aslice buf 0 MLKEM_INDCPA_MSGBYTES ;;
     msg <- indcpa_dec (sub J 4) p msg ctb skb ;;
     buf <- asplice buf 0 msg ;;
     (* memcpy *)
     h <- mload m (sk + MLKEM_SECRETKEYBYTES p - 2 * MLKEM_SYMBYTES) MLKEM_SYMBYTES ;;
     buf <- memcpy buf MLKEM_SYMBYTES h 0 MLKEM_SYMBYTES ;;
     kr <- hash_g (sub J 5) kr buf (2 * MLKEM_SYMBYTES) ;;
     (* indcpa_enc(cmp, buf, pk, kr + MLKEM_SYMBYTES) *)
     c <- aslice cmp 0 (MLKEM_INDCPA_BYTES p) ;;
     msg <- aslice buf 0 MLKEM_INDCPA_MSGBYTES ;;
     pkb <- mload m pk (MLKEM_INDCPA_PUBLICKEYBYTES p) ;;
     r <- aslice kr MLKEM_SYMBYTES MLKEM_SYMBYTES ;;
     c <- indcpa_enc (sub J 6) fuel p c msg pkb r ;;
     cmp <- asplice cmp 0 c ;;
     ctb <- mload m ct (MLKEM_CIPHERTEXTBYTES p) ;;
     fail <- ct_memcmp ctb cmp (MLKEM_CIPHERTEXTBYTES p) ;;
     (* rkprf(ss, sk + MLKEM_SECRETKEYBYTES - MLKEM_SYMBYTES, ct) *)
     ssb <- mload m ss MLKEM_SSBYTES ;;
     z <- mload m (sk + MLKEM_SECRETKEYBYTES p - MLKEM_SYMBYTES) MLKEM_SYMBYTES ;;
     ctb <- mload m ct (MLKEM_CIPHERTEXTBYTES p) ;;
     ssb <- mlkem_shake256_rkprf (sub J 7) p ssb z ctb ;;
     m <- mstore m ss ssb ;;
     (* ct_cmov_zero(ss, kr, MLKEM_SYMBYTES, fail) *)
     ssb <- mload m ss MLKEM_SSBYTES ;;
     ssb <- ct_cmov_zero ssb kr MLKEM_SYMBYTES fail ;;
     m <- mstore m ss ssb ;;
     ret (0, m)).
