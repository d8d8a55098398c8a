(** * Model of mlkem/symmetric-shake.c, mlkem/indcpa.c and of the noise sampling
      functions of mlkem/poly.c

    The matrix a (polyvec a[MLKEM_K]) is the flat list of its MLKEM_K * MLKEM_K
    polynomials: a[i].vec[j] is element MLKEM_K * i + j, as the code itself uses it
    in gen_matrix (indcpa.c 317, 340).

    The rejection-sampling loops of gen_matrix_entry and gen_matrix_entry_x4 have
    no a-priori bound: the argument [fuel] bounds their number of iterations, and
    [NoFuel] is the outcome when it is exceeded. *)

From Coq Require Import ZArith List Bool.
From Verif Require Import CSem ModelArith ModelKeccak.
Import ListNotations.
Open Scope Z_scope.

(** ** mlkem/symmetric-shake.c, mlkem/symmetric.h *)

(** symmetric.h 76-79 *)
Definition hash_h {bo : byte_order} (J : junk) (out inp : list Z) (inbytes : Z) := sha3_256 J out inp inbytes.
Definition hash_g {bo : byte_order} (J : junk) (out inp : list Z) (inbytes : Z) := sha3_512 J out inp inbytes.

(** symmetric-shake.c 12-21 *)
Definition mlkem_shake256_prf {bo : byte_order} (J : junk) (out : list Z) (outlen : Z) (key : list Z)
  (nonce : Z) : M (list Z) :=
  let extkey := uninit J 0 (MLKEM_SYMBYTES + 1) in
  extkey <- memcpy extkey 0 key 0 MLKEM_SYMBYTES ;;
  extkey <- aset extkey MLKEM_SYMBYTES nonce ;;
  shake256 (sub J 1) out outlen extkey (MLKEM_SYMBYTES + 1).

(** symmetric-shake.c 23-35 *)
Definition mlkem_shake256_rkprf {bo : byte_order} (J : junk) (p : pset) (out key input : list Z)
  : M (list Z) :=
  s <- shake256_inc_init (uninit_inc J) ;;
  s <- shake256_inc_absorb s key MLKEM_SYMBYTES ;;
  s <- shake256_inc_absorb s input (MLKEM_CIPHERTEXTBYTES p) ;;
  s <- shake256_inc_finalize s ;;
  '(out, _) <- shake256_inc_squeeze out MLKEM_SSBYTES s ;;
  ret out.

(** ** mlkem/poly.c: noise sampling *)

(** The four extended seeds of poly.c 385-394 and 425-434 *)
Definition extkeys_4x (J : junk) (seed : list Z) (nonce0 nonce1 nonce2 nonce3 : Z)
  : M (x4 (list Z)) :=
  e0 <- memcpy (uninit J 0 (MLKEM_SYMBYTES + 1)) 0 seed 0 MLKEM_SYMBYTES ;;
  e1 <- memcpy (uninit J 1 (MLKEM_SYMBYTES + 1)) 0 seed 0 MLKEM_SYMBYTES ;;
  e2 <- memcpy (uninit J 2 (MLKEM_SYMBYTES + 1)) 0 seed 0 MLKEM_SYMBYTES ;;
  e3 <- memcpy (uninit J 3 (MLKEM_SYMBYTES + 1)) 0 seed 0 MLKEM_SYMBYTES ;;
  e0 <- aset e0 MLKEM_SYMBYTES nonce0 ;;
  e1 <- aset e1 MLKEM_SYMBYTES nonce1 ;;
  e2 <- aset e2 MLKEM_SYMBYTES nonce2 ;;
  e3 <- aset e3 MLKEM_SYMBYTES nonce3 ;;
  ret (e0, e1, e2, e3).

(** poly.c 380-405 *)
Definition poly_getnoise_eta1_4x {bo : byte_order} (J : junk) (p : pset) (r0 r1 r2 r3 : list Z)
  (seed : list Z) (nonce0 nonce1 nonce2 nonce3 : Z) : M (x4 (list Z)) :=
  let n := MLKEM_ETA1 p * MLKEM_N / 4 in
  '(e0, e1, e2, e3) <- extkeys_4x (sub J 0) seed nonce0 nonce1 nonce2 nonce3 ;;
  '(b0, b1, b2, b3) <- shake256x4 (sub J 1)
      (uninit J 2 n) (uninit J 3 n) (uninit J 4 n) (uninit J 5 n) n
      e0 e1 e2 e3 (MLKEM_SYMBYTES + 1) ;;
  r0 <- poly_cbd_eta1 p r0 b0 ;;
  r1 <- poly_cbd_eta1 p r1 b1 ;;
  r2 <- poly_cbd_eta1 p r2 b2 ;;
  r3 <- poly_cbd_eta1 p r3 b3 ;;
  POLY_BOUND r0 (MLKEM_ETA1 p + 1) ;;;
  POLY_BOUND r1 (MLKEM_ETA1 p + 1) ;;;
  POLY_BOUND r2 (MLKEM_ETA1 p + 1) ;;;
  POLY_BOUND r3 (MLKEM_ETA1 p + 1) ;;;
  ret (r0, r1, r2, r3).

(** poly.h 558: for MLKEM_ETA1 == MLKEM_ETA2 (K = 3, 4), poly_getnoise_eta2_4x is
    a macro for poly_getnoise_eta1_4x; for K = 2 it does not exist. *)
Definition poly_getnoise_eta2_4x {bo : byte_order} := poly_getnoise_eta1_4x.

(** poly.c 407-415 *)
Definition poly_getnoise_eta2 {bo : byte_order} (J : junk) (p : pset) (r seed : list Z) (nonce : Z)
  : M (list Z) :=
  let n := MLKEM_ETA2 * MLKEM_N / 4 in
  buf <- mlkem_shake256_prf (sub J 0) (uninit J 1 n) n seed nonce ;;
  r <- poly_cbd_eta2 r buf ;;
  POLY_BOUND r (MLKEM_ETA1 p + 1) ;;;
  ret r.

(** poly.c 417-453 *)
Definition poly_getnoise_eta1122_4x {bo : byte_order} (J : junk) (p : pset) (r0 r1 r2 r3 : list Z)
  (seed : list Z) (nonce0 nonce1 nonce2 nonce3 : Z) : M (x4 (list Z)) :=
  let n1 := MLKEM_ETA1 p * MLKEM_N / 4 in
  let n2 := MLKEM_ETA2 * MLKEM_N / 4 in
  '(e0, e1, e2, e3) <- extkeys_4x (sub J 0) seed nonce0 nonce1 nonce2 nonce3 ;;
  '(b0, b1, b2, b3) <-
    match p with
    | MLKEM512 => (* MLKEM_ETA1 != MLKEM_ETA2 *)
        b0 <- shake256 (sub J 6) (uninit J 2 n1) n1 e0 (MLKEM_SYMBYTES + 1) ;;
        b1 <- shake256 (sub J 7) (uninit J 3 n1) n1 e1 (MLKEM_SYMBYTES + 1) ;;
        b2 <- shake256 (sub J 8) (uninit J 4 n2) n2 e2 (MLKEM_SYMBYTES + 1) ;;
        b3 <- shake256 (sub J 9) (uninit J 5 n2) n2 e3 (MLKEM_SYMBYTES + 1) ;;
        ret (b0, b1, b2, b3)
    | _ =>
        shake256x4 (sub J 1)
          (uninit J 2 n1) (uninit J 3 n1) (uninit J 4 n2) (uninit J 5 n2) n1
          e0 e1 e2 e3 (MLKEM_SYMBYTES + 1)
    end ;;
  r0 <- poly_cbd_eta1 p r0 b0 ;;
  r1 <- poly_cbd_eta1 p r1 b1 ;;
  r2 <- poly_cbd_eta2 r2 b2 ;;
  r3 <- poly_cbd_eta2 r3 b3 ;;
  POLY_BOUND r0 (MLKEM_ETA1 p + 1) ;;;
  POLY_BOUND r1 (MLKEM_ETA1 p + 1) ;;;
  POLY_BOUND r2 (MLKEM_ETA2 + 1) ;;;
  POLY_BOUND r3 (MLKEM_ETA2 + 1) ;;;
  ret (r0, r1, r2, r3).

(** ** mlkem/indcpa.c *)

(** indcpa.c 37-43 *)
Definition pack_pk (p : pset) (r : list Z) (pk : list (list Z)) (seed : list Z)
  : M (list Z) :=
  POLYVEC_BOUND pk MLKEM_Q ;;;
  s <- aslice r 0 (MLKEM_POLYVECBYTES p) ;;
  s <- polyvec_tobytes p s pk ;;
  r <- asplice r 0 s ;;
  memcpy r (MLKEM_POLYVECBYTES p) seed 0 MLKEM_SYMBYTES.

(** indcpa.c 57-71; returns pk and seed *)
Definition unpack_pk (p : pset) (pk : list (list Z)) (seed packedpk : list Z)
  : M (list (list Z) * list Z) :=
  pk <- polyvec_frombytes p pk packedpk ;;
  seed <- memcpy seed 0 packedpk (MLKEM_POLYVECBYTES p) MLKEM_SYMBYTES ;;
  pk <- polyvec_reduce p pk ;;
  ret (pk, seed).

(** indcpa.c 82-86 *)
Definition pack_sk (p : pset) (r : list Z) (sk : list (list Z)) : M (list Z) :=
  POLYVEC_BOUND sk MLKEM_Q ;;;
  polyvec_tobytes p r sk.

(** indcpa.c 98-103 *)
Definition unpack_sk (p : pset) (sk : list (list Z)) (packedsk : list Z)
  : M (list (list Z)) :=
  sk <- polyvec_frombytes p sk packedsk ;;
  polyvec_reduce p sk.

(** indcpa.c 116-120 *)
Definition pack_ciphertext (J : junk) (p : pset) (r : list Z) (b : list (list Z))
  (v : list Z) : M (list Z) :=
  s <- aslice r 0 (MLKEM_POLYVECCOMPRESSEDBYTES_DU p) ;;
  s <- polyvec_compress_du J p s b ;;
  r <- asplice r 0 s ;;
  s <- aslice r (MLKEM_POLYVECCOMPRESSEDBYTES_DU p) (MLKEM_POLYCOMPRESSEDBYTES_DV p) ;;
  s <- poly_compress_dv p s v ;;
  asplice r (MLKEM_POLYVECCOMPRESSEDBYTES_DU p) s.

(** indcpa.c 132-137; returns b and v *)
Definition unpack_ciphertext (J : junk) (p : pset) (b : list (list Z)) (v c : list Z)
  : M (list (list Z) * list Z) :=
  b <- polyvec_decompress_du (sub J 0) p b c ;;
  s <- aslice c (MLKEM_POLYVECCOMPRESSEDBYTES_DU p) (MLKEM_POLYCOMPRESSEDBYTES_DV p) ;;
  v <- poly_decompress_dv (sub J 1) p v s ;;
  ret (b, v).

(** indcpa.c 139-142 *)
Definition MLKEM_GEN_MATRIX_NBLOCKS : Z :=
  (12 * MLKEM_N / 8 * (1 << 12) / MLKEM_Q + SHAKE128_RATE) / SHAKE128_RATE.

(** indcpa.c 148-215; vec is the array of the four polynomials vec[0..3] *)
Definition gen_matrix_entry_x4 {bo : byte_order} (J : junk) (fuel : nat) (vec seed : list (list Z))
  : M (list (list Z)) :=
  let n := MLKEM_GEN_MATRIX_NBLOCKS * SHAKE128_RATE in
  sd0 <- aget seed 0 ;; sd1 <- aget seed 1 ;; sd2 <- aget seed 2 ;; sd3 <- aget seed 3 ;;
  statex <- shake128x4_absorb sd0 sd1 sd2 sd3 (MLKEM_SYMBYTES + 2) ;;
  '((buf0, buf1, buf2, buf3), statex) <- shake128x4_squeezeblocks
      (uninit J 0 n) (uninit J 1 n) (uninit J 2 n) (uninit J 3 n)
      MLKEM_GEN_MATRIX_NBLOCKS statex ;;
  let buflen := n in
  v0 <- aget vec 0 ;; v1 <- aget vec 1 ;; v2 <- aget vec 2 ;; v3 <- aget vec 3 ;;
  '(v0, ctr0) <- rej_uniform v0 MLKEM_N 0 buf0 buflen ;;
  '(v1, ctr1) <- rej_uniform v1 MLKEM_N 0 buf1 buflen ;;
  '(v2, ctr2) <- rej_uniform v2 MLKEM_N 0 buf2 buflen ;;
  '(v3, ctr3) <- rej_uniform v3 MLKEM_N 0 buf3 buflen ;;
  let buflen := SHAKE128_RATE in
  '(_, _, _, (v0, v1, v2, v3)) <- while fuel
    (fun '(statex, bufs, (ctr0, ctr1, ctr2, ctr3), vs) =>
      (ctr0 <? MLKEM_N) || (ctr1 <? MLKEM_N) || (ctr2 <? MLKEM_N) || (ctr3 <? MLKEM_N))
    (fun '(statex, (buf0, buf1, buf2, buf3), (ctr0, ctr1, ctr2, ctr3), (v0, v1, v2, v3)) =>
      '((buf0, buf1, buf2, buf3), statex) <-
         shake128x4_squeezeblocks buf0 buf1 buf2 buf3 1 statex ;;
      '(v0, ctr0) <- rej_uniform v0 MLKEM_N ctr0 buf0 buflen ;;
      '(v1, ctr1) <- rej_uniform v1 MLKEM_N ctr1 buf1 buflen ;;
      '(v2, ctr2) <- rej_uniform v2 MLKEM_N ctr2 buf2 buflen ;;
      '(v3, ctr3) <- rej_uniform v3 MLKEM_N ctr3 buf3 buflen ;;
      ret (statex, (buf0, buf1, buf2, buf3), (ctr0, ctr1, ctr2, ctr3), (v0, v1, v2, v3)))
    (statex, (buf0, buf1, buf2, buf3), (ctr0, ctr1, ctr2, ctr3), (v0, v1, v2, v3)) ;;
  ret [v0; v1; v2; v3].

(** indcpa.c 221-256 *)
Definition gen_matrix_entry {bo : byte_order} (J : junk) (fuel : nat) (entry seed : list Z) : M (list Z) :=
  let n := MLKEM_GEN_MATRIX_NBLOCKS * SHAKE128_RATE in
  state <- shake128_absorb (uninit J 0 25) seed (MLKEM_SYMBYTES + 2) ;;
  '(buf, state) <- shake128_squeezeblocks (uninit J 1 n) MLKEM_GEN_MATRIX_NBLOCKS state ;;
  let buflen := n in
  '(entry, ctr) <- rej_uniform entry MLKEM_N 0 buf buflen ;;
  '(_, _, _, entry) <- while fuel
    (fun '(state, buf, ctr, entry) => ctr <? MLKEM_N)
    (fun '(state, buf, ctr, entry) =>
      '(buf, state) <- shake128_squeezeblocks buf 1 state ;;
      '(entry, ctr) <- rej_uniform entry MLKEM_N ctr buf SHAKE128_RATE ;;
      ret (state, buf, ctr, entry))
    (state, buf, ctr, entry) ;;
  ret entry.

(** indcpa.c 302-311 and 327-336: the last two bytes of an extended seed *)
Definition set_xy (s : list Z) (x y : Z) (transposed : bool) : M (list Z) :=
  branch transposed
    (s <- aset s (MLKEM_SYMBYTES + 0) x ;; aset s (MLKEM_SYMBYTES + 1) y)
    (s <- aset s (MLKEM_SYMBYTES + 0) y ;; aset s (MLKEM_SYMBYTES + 1) x).

(** indcpa.c 271-362, default coefficient order (no
    MLKEM_USE_NATIVE_NTT_CUSTOM_ORDER) *)
Definition gen_matrix {bo : byte_order} (J : junk) (fuel : nat) (p : pset) (a : list (list Z))
  (seed : list Z) (transposed : bool) : M (list (list Z)) :=
  let K := MLKEM_K p in
  let seedxy := uninit2 J 0 4 (MLKEM_SYMBYTES + 2) in
  seedxy <- for_up 0 4 1 (fun j seedxy =>
    s <- aget seedxy j ;;
    s <- memcpy s 0 seed 0 MLKEM_SYMBYTES ;;
    aset seedxy j s) seedxy ;;
  let i_end := (K * K / 4) * 4 in
  '(a, seedxy) <- for_up 0 i_end 4 (fun i '(a, seedxy) =>
    seedxy <- for_up 0 4 1 (fun j seedxy =>
      x <- div_c (i + j) K ;;
      y <- mod_c (i + j) K ;;
      let x := u8 x in
      let y := u8 y in
      s <- aget seedxy j ;;
      s <- set_xy s x y transposed ;;
      aset seedxy j s) seedxy ;;
    v <- aslice a i 4 ;;
    v <- gen_matrix_entry_x4 (sub (sub J 1) i) fuel v seedxy ;;
    a <- asplice a i v ;;
    ret (a, seedxy)) (a, seedxy) ;;
  branch (i_end <? K * K)
    (let i := i_end in
     x <- div_c i K ;;
     y <- mod_c i K ;;
     let x := u8 x in
     let y := u8 y in
     seed0 <- aget seedxy 0 ;;
     seed0 <- set_xy seed0 x y transposed ;;
     e <- aget a i ;;
     e <- gen_matrix_entry (sub J 2) fuel e seed0 ;;
     aset a i e)
    (ret a).

(** indcpa.c 377-398 *)
Definition matvec_mul (J : junk) (p : pset) (out a v vc : list (list Z))
  : M (list (list Z)) :=
  for_up 0 (MLKEM_K p) 1 (fun i out =>
    oi <- aget out i ;;
    ai <- aslice a (MLKEM_K p * i) (MLKEM_K p) ;;
    oi <- polyvec_basemul_acc_montgomery_cached (sub J i) p oi ai v vc ;;
    aset out i oi) out.

(** Read the four polynomials that receive noise, call a 4x sampling function and
    write them back (pointer arguments such as skpv.vec + 0). *)
Definition get4 (l : list (list Z)) : M (x4 (list Z)) :=
  a <- aget l 0 ;; b <- aget l 1 ;; c <- aget l 2 ;; d <- aget l 3 ;; ret (a, b, c, d).

(** indcpa.c 432-456: the noise part of indcpa_keypair_derand; returns skpv, e and
    pkpv (which the K = 3 code uses as a dummy output) *)
Definition keypair_noise {bo : byte_order} (J : junk) (p : pset) (skpv e pkpv : list (list Z))
  (noiseseed : list Z) : M (list (list Z) * list (list Z) * list (list Z)) :=
  match p with
  | MLKEM512 =>
      s0 <- aget skpv 0 ;; s1 <- aget skpv 1 ;; e0 <- aget e 0 ;; e1 <- aget e 1 ;;
      '(s0, s1, e0, e1) <- poly_getnoise_eta1_4x (sub J 0) p s0 s1 e0 e1 noiseseed 0 1 2 3 ;;
      skpv <- aset skpv 0 s0 ;; skpv <- aset skpv 1 s1 ;;
      e <- aset e 0 e0 ;; e <- aset e 1 e1 ;;
      ret (skpv, e, pkpv)
  | MLKEM768 =>
      s0 <- aget skpv 0 ;; s1 <- aget skpv 1 ;; s2 <- aget skpv 2 ;; p0 <- aget pkpv 0 ;;
      '(s0, s1, s2, p0) <- poly_getnoise_eta1_4x (sub J 0) p s0 s1 s2 p0 noiseseed 0 1 2 255 ;;
      skpv <- aset skpv 0 s0 ;; skpv <- aset skpv 1 s1 ;; skpv <- aset skpv 2 s2 ;;
      pkpv <- aset pkpv 0 p0 ;;
      e0 <- aget e 0 ;; e1 <- aget e 1 ;; e2 <- aget e 2 ;; p0 <- aget pkpv 0 ;;
      '(e0, e1, e2, p0) <- poly_getnoise_eta1_4x (sub J 1) p e0 e1 e2 p0 noiseseed 3 4 5 255 ;;
      e <- aset e 0 e0 ;; e <- aset e 1 e1 ;; e <- aset e 2 e2 ;;
      pkpv <- aset pkpv 0 p0 ;;
      ret (skpv, e, pkpv)
  | MLKEM1024 =>
      '(s0, s1, s2, s3) <- get4 skpv ;;
      '(s0, s1, s2, s3) <- poly_getnoise_eta1_4x (sub J 0) p s0 s1 s2 s3 noiseseed 0 1 2 3 ;;
      skpv <- aset skpv 0 s0 ;; skpv <- aset skpv 1 s1 ;;
      skpv <- aset skpv 2 s2 ;; skpv <- aset skpv 3 s3 ;;
      '(e0, e1, e2, e3) <- get4 e ;;
      '(e0, e1, e2, e3) <- poly_getnoise_eta1_4x (sub J 1) p e0 e1 e2 e3 noiseseed 4 5 6 7 ;;
      e <- aset e 0 e0 ;; e <- aset e 1 e1 ;; e <- aset e 2 e2 ;; e <- aset e 3 e3 ;;
      ret (skpv, e, pkpv)
  end.

(** indcpa.c 416-471; returns pk and sk *)
Definition indcpa_keypair_derand {bo : byte_order} (J : junk) (fuel : nat) (p : pset) (pk sk coins : list Z)
  : M (list Z * list Z) :=
  let K := MLKEM_K p in
  let buf := uninit J 0 (2 * MLKEM_SYMBYTES) in
  let a := uninit2 J 1 (K * K) MLKEM_N in
  let e := uninit2 J 2 K MLKEM_N in
  let pkpv := uninit2 J 3 K MLKEM_N in
  let skpv := uninit2 J 4 K MLKEM_N in
  let skpv_cache := uninit2 J 5 K (MLKEM_N / 2) in
  let coins_ds := uninit J 6 (MLKEM_SYMBYTES + 1) in
  coins_ds <- memcpy coins_ds 0 coins 0 MLKEM_SYMBYTES ;;
  coins_ds <- aset coins_ds MLKEM_SYMBYTES K ;;
  buf <- hash_g (sub J 7) buf coins_ds (MLKEM_SYMBYTES + 1) ;;
  publicseed <- aslice buf 0 MLKEM_SYMBYTES ;;
  noiseseed <- aslice buf MLKEM_SYMBYTES MLKEM_SYMBYTES ;;
  a <- gen_matrix (sub J 8) fuel p a publicseed false ;;
  '(skpv, e, pkpv) <- keypair_noise (sub J 9) p skpv e pkpv noiseseed ;;
  skpv <- polyvec_ntt p skpv ;;
  e <- polyvec_ntt p e ;;
  skpv_cache <- polyvec_mulcache_compute p skpv_cache skpv ;;
  pkpv <- matvec_mul (sub J 10) p pkpv a skpv skpv_cache ;;
  pkpv <- polyvec_tomont p pkpv ;;
  pkpv <- polyvec_add p pkpv e ;;
  pkpv <- polyvec_reduce p pkpv ;;
  skpv <- polyvec_reduce p skpv ;;
  sk <- pack_sk p sk skpv ;;
  pk <- pack_pk p pk pkpv publicseed ;;
  ret (pk, sk).

(** indcpa.c 508-530: the noise part of indcpa_enc; returns sp, ep, epp and b
    (which the K = 3 code uses as a dummy output) *)
Definition enc_noise {bo : byte_order} (J : junk) (p : pset) (sp ep : list (list Z)) (epp : list Z)
  (b : list (list Z)) (coins : list Z)
  : M (list (list Z) * list (list Z) * list Z * list (list Z)) :=
  match p with
  | MLKEM512 =>
      s0 <- aget sp 0 ;; s1 <- aget sp 1 ;; e0 <- aget ep 0 ;; e1 <- aget ep 1 ;;
      '(s0, s1, e0, e1) <- poly_getnoise_eta1122_4x (sub J 0) p s0 s1 e0 e1 coins 0 1 2 3 ;;
      sp <- aset sp 0 s0 ;; sp <- aset sp 1 s1 ;;
      ep <- aset ep 0 e0 ;; ep <- aset ep 1 e1 ;;
      epp <- poly_getnoise_eta2 (sub J 1) p epp coins 4 ;;
      ret (sp, ep, epp, b)
  | MLKEM768 =>
      s0 <- aget sp 0 ;; s1 <- aget sp 1 ;; s2 <- aget sp 2 ;; b0 <- aget b 0 ;;
      '(s0, s1, s2, b0) <- poly_getnoise_eta1_4x (sub J 0) p s0 s1 s2 b0 coins 0 1 2 255 ;;
      sp <- aset sp 0 s0 ;; sp <- aset sp 1 s1 ;; sp <- aset sp 2 s2 ;;
      b <- aset b 0 b0 ;;
      e0 <- aget ep 0 ;; e1 <- aget ep 1 ;; e2 <- aget ep 2 ;;
      '(e0, e1, e2, epp) <- poly_getnoise_eta2_4x (sub J 1) p e0 e1 e2 epp coins 3 4 5 6 ;;
      ep <- aset ep 0 e0 ;; ep <- aset ep 1 e1 ;; ep <- aset ep 2 e2 ;;
      ret (sp, ep, epp, b)
  | MLKEM1024 =>
      '(s0, s1, s2, s3) <- get4 sp ;;
      '(s0, s1, s2, s3) <- poly_getnoise_eta1_4x (sub J 0) p s0 s1 s2 s3 coins 0 1 2 3 ;;
      sp <- aset sp 0 s0 ;; sp <- aset sp 1 s1 ;; sp <- aset sp 2 s2 ;; sp <- aset sp 3 s3 ;;
      '(e0, e1, e2, e3) <- get4 ep ;;
      '(e0, e1, e2, e3) <- poly_getnoise_eta2_4x (sub J 1) p e0 e1 e2 e3 coins 4 5 6 7 ;;
      ep <- aset ep 0 e0 ;; ep <- aset ep 1 e1 ;; ep <- aset ep 2 e2 ;; ep <- aset ep 3 e3 ;;
      epp <- poly_getnoise_eta2 (sub J 2) p epp coins 8 ;;
      ret (sp, ep, epp, b)
  end.

(** indcpa.c 494-548 *)
Definition indcpa_enc {bo : byte_order} (J : junk) (fuel : nat) (p : pset) (c m pk coins : list Z)
  : M (list Z) :=
  let K := MLKEM_K p in
  let seed := uninit J 0 MLKEM_SYMBYTES in
  let sp := uninit2 J 1 K MLKEM_N in
  let pkpv := uninit2 J 2 K MLKEM_N in
  let ep := uninit2 J 3 K MLKEM_N in
  let at_ := uninit2 J 4 (K * K) MLKEM_N in
  let b := uninit2 J 5 K MLKEM_N in
  let v := uninit J 6 MLKEM_N in
  let k := uninit J 7 MLKEM_N in
  let epp := uninit J 8 MLKEM_N in
  let sp_cache := uninit2 J 9 K (MLKEM_N / 2) in
  '(pkpv, seed) <- unpack_pk p pkpv seed pk ;;
  k <- poly_frommsg k m ;;
  at_ <- gen_matrix (sub J 10) fuel p at_ seed true ;;
  '(sp, ep, epp, b) <- enc_noise (sub J 11) p sp ep epp b coins ;;
  sp <- polyvec_ntt p sp ;;
  sp_cache <- polyvec_mulcache_compute p sp_cache sp ;;
  b <- matvec_mul (sub J 12) p b at_ sp sp_cache ;;
  v <- polyvec_basemul_acc_montgomery_cached (sub J 13) p v pkpv sp sp_cache ;;
  b <- polyvec_invntt_tomont p b ;;
  v <- poly_invntt_tomont v ;;
  b <- polyvec_add p b ep ;;
  v <- poly_add v epp ;;
  v <- poly_add v k ;;
  b <- polyvec_reduce p b ;;
  v <- poly_reduce v ;;
  pack_ciphertext (sub J 14) p c b v.

(** indcpa.c 553-572 *)
Definition indcpa_dec (J : junk) (p : pset) (m c sk : list Z) : M (list Z) :=
  let K := MLKEM_K p in
  let b := uninit2 J 0 K MLKEM_N in
  let skpv := uninit2 J 1 K MLKEM_N in
  let v := uninit J 2 MLKEM_N in
  let sb := uninit J 3 MLKEM_N in
  '(b, v) <- unpack_ciphertext (sub J 4) p b v c ;;
  skpv <- unpack_sk p skpv sk ;;
  b <- polyvec_ntt p b ;;
  sb <- polyvec_basemul_acc_montgomery (sub J 5) p sb skpv b ;;
  sb <- poly_invntt_tomont sb ;;
  v <- poly_sub v sb ;;
  v <- poly_reduce v ;;
  poly_tomsg m v.
