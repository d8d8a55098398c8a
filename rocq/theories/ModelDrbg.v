(** * Model of test/nistrng/rng.c: the generator of the known-answer tests

    The static variable [ctx] is a record that every call takes and returns. The pointers [key]
    and [ctr] of nistkat_update are always those of [ctx]. *)

From Coq Require Import ZArith List Bool.
From Verif Require Import CSem ModelArith ModelAes.
Import ListNotations.
Open Scope Z_scope.

(** rng.c 13-19; static objects start at zero (C99 6.7.8 (10)) *)
Record nistkatctx : Type := { ctx_key : list Z; ctx_ctr : list Z }.
Definition ctx_start : nistkatctx := {| ctx_key := repeat 0 32; ctx_ctr := repeat 0 16 |}.

(** rng.c 21-29: buffer[off .. off + 15]; releasing the context is left out *)
Definition _aes256_ecb (J : junk) (key ctr buffer : list Z) (off : Z) : M (list Z) :=
  sk <- aes256_ecb_keyexp (sub J 0) key ;;
  b <- aslice buffer off 16 ;;
  b <- aes256_ecb (sub J 1) b ctr 1 sk ;;
  asplice buffer off b.

(** rng.c 33-42: the loop ends with [break] or when j is negative, after at most 16 iterations *)
Definition ctr_increment (ctr : list Z) : M (list Z) :=
  '(ctr, _, _) <- while 16 (fun '(_, j, go) => go && (0 <=? j))
    (fun '(ctr, j, _) =>
       c <- aget ctr j ;;
       ctr <- aset ctr j (u8 (c + 1)) ;;
       j' <- i32 (j - 1) ;;
       ret (ctr, j', u8 (c + 1) =? 0))
    (ctr, 15, true) ;;
  ret ctr.

(** rng.c 31-45: block[off .. off + 15] and ctx *)
Definition aes256_block_update (J : junk) (ctx : nistkatctx) (block : list Z) (off : Z)
  : M (nistkatctx * list Z) :=
  ctr <- ctr_increment (ctx_ctr ctx) ;;
  block <- _aes256_ecb J (ctx_key ctx) ctr block off ;;
  ret ({| ctx_key := ctx_key ctx; ctx_ctr := ctr |}, block).

(** tmp[i] ^= data[i] for i < 48, if there are data (rng.c 59-65 and 83-89) *)
Definition xor_data (data : option (list Z)) (tmp : list Z) : M (list Z) :=
  match data with
  | None => ret tmp
  | Some d =>
      for_up 0 48 1 (fun i tmp =>
        a <- aget tmp i ;; b <- aget d i ;; aset tmp i (a .^ b)) tmp
  end.

(** rng.c 47-69. A null pointer is [None]. *)
Definition nistkat_update (J : junk) (provided_data : option (list Z)) (ctx : nistkatctx)
  : M nistkatctx :=
  '(ctx, tmp) <- for_up 0 3 1 (fun i '(ctx, tmp) =>
      aes256_block_update (sub J i) ctx tmp (16 * i)) (ctx, uninit J 3 48) ;;
  tmp <- xor_data provided_data tmp ;;
  key <- memcpy (ctx_key ctx) 0 tmp 0 32 ;;
  ctr <- memcpy (ctx_ctr ctx) 0 tmp 32 16 ;;
  ret {| ctx_key := key; ctx_ctr := ctr |}.

(** rng.c 71-93. The argument security_strength is not used. *)
Definition nist_kat_init (J : junk) (entropy_input : list Z) (personalization_string : option (list Z))
  (ctx : nistkatctx) : M nistkatctx :=
  seed_material <- memcpy (uninit J 0 48) 0 entropy_input 0 48 ;;
  seed_material <- xor_data personalization_string seed_material ;;
  key <- asplice (ctx_key ctx) 0 (repeat 0 32) ;;
  ctr <- asplice (ctx_ctr ctx) 0 (repeat 0 16) ;;
  nistkat_update (sub J 1) (Some seed_material) {| ctx_key := key; ctx_ctr := ctr |}.

(** rng.c 95-116: randombytes(buf, n) *)
Definition kat_randombytes (J : junk) (ctx : nistkatctx) (buf : list Z) (n : Z)
  : M (nistkatctx * list Z) :=
  let nb := n / 16 in
  let tail := n mod 16 in
  '(ctx, block, buf) <- for_up 0 nb 1 (fun i '(ctx, block, buf) =>
      '(ctx, block) <- aes256_block_update (sub J (3 + i)) ctx block 0 ;;
      buf <- memcpy buf (i * 16) block 0 16 ;;
      ret (ctx, block, buf)) (ctx, uninit J 0 16, buf) ;;
  '(ctx, buf) <- branch (0 <? tail)
      ('(ctx, block) <- aes256_block_update (sub J 1) ctx block 0 ;;
       buf <- memcpy buf (nb * 16) block 0 tail ;;
       ret (ctx, buf))
      (ret (ctx, buf)) ;;
  ctx <- nistkat_update (sub J 2) None ctx ;;
  ret (ctx, buf).

(** A program that calls randombytes(buf, sizeof buf) for one buffer after the other: the contents
    of the buffers afterwards. *)
Fixpoint kat_calls (J : junk) (ctx : nistkatctx) (bufs : list (list Z)) : M (list (list Z)) :=
  match bufs with
  | [] => ret []
  | buf :: rest =>
      '(ctx, buf) <- kat_randombytes (sub J 0) ctx buf (Z.of_nat (length buf)) ;;
      rest <- kat_calls (sub J 1) ctx rest ;;
      ret (buf :: rest)
  end.
