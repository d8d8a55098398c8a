(** * Model of the arithmetic layer

    mlkem/params.h, reduce.c, verify.h, poly.h, poly.c, polyvec.c, ntt.c, zetas.c,
    cbd.c. A polynomial is the list of its 256 int16_t coefficients, a polynomial
    vector the list of its k polynomials. Output arrays are passed as old contents
    and returned as new contents. Conditions on compile-time constants are
    resolved by a match on the parameter set and are not leaked. *)

From Coq Require Import ZArith List Bool.
From Verif Require Import CSem.
Import ListNotations.
Open Scope Z_scope.

Infix ">>" := Z.shiftr (at level 45, left associativity) : Z_scope.
Infix "<<" := Z.shiftl (at level 45, left associativity) : Z_scope.
Infix ".&" := Z.land (at level 46, left associativity) : Z_scope.
Infix ".^" := Z.lxor (at level 47, left associativity) : Z_scope.
Infix ".|" := Z.lor (at level 48, left associativity) : Z_scope.

(** ** mlkem/params.h *)

(** params.h 11-27: MLKEM_K is 2, 3 or 4. *)
Inductive pset : Type := MLKEM512 | MLKEM768 | MLKEM1024.

Definition MLKEM_K (p : pset) : Z :=
  match p with MLKEM512 => 2 | MLKEM768 => 3 | MLKEM1024 => 4 end.
Definition MLKEM_N : Z := 256.             (* params.h 29 *)
Definition MLKEM_Q : Z := 3329.            (* params.h 30 *)
Definition MLKEM_SYMBYTES : Z := 32.       (* params.h 32 *)
Definition MLKEM_SSBYTES : Z := 32.        (* params.h 33 *)
Definition MLKEM_POLYBYTES : Z := 384.     (* params.h 35 *)
Definition MLKEM_POLYVECBYTES (p : pset) : Z := MLKEM_K p * MLKEM_POLYBYTES. (* 36 *)
(** params.h 38-53 *)
Definition MLKEM_ETA1 (p : pset) : Z :=
  match p with MLKEM512 => 3 | MLKEM768 => 2 | MLKEM1024 => 2 end.
Definition MLKEM_POLYCOMPRESSEDBYTES_DV (p : pset) : Z :=
  match p with MLKEM512 => 128 | MLKEM768 => 128 | MLKEM1024 => 160 end.
Definition MLKEM_POLYCOMPRESSEDBYTES_DU (p : pset) : Z :=
  match p with MLKEM512 => 320 | MLKEM768 => 320 | MLKEM1024 => 352 end.
Definition MLKEM_POLYVECCOMPRESSEDBYTES_DU (p : pset) : Z :=
  MLKEM_K p * MLKEM_POLYCOMPRESSEDBYTES_DU p.
Definition MLKEM_ETA2 : Z := 2.            (* params.h 55 *)
Definition MLKEM_INDCPA_MSGBYTES : Z := MLKEM_SYMBYTES.              (* params.h 57 *)
Definition MLKEM_INDCPA_PUBLICKEYBYTES (p : pset) : Z :=
  MLKEM_POLYVECBYTES p + MLKEM_SYMBYTES.                             (* params.h 58 *)
Definition MLKEM_INDCPA_SECRETKEYBYTES (p : pset) : Z := MLKEM_POLYVECBYTES p. (* 59 *)
Definition MLKEM_INDCPA_BYTES (p : pset) : Z :=
  MLKEM_POLYVECCOMPRESSEDBYTES_DU p + MLKEM_POLYCOMPRESSEDBYTES_DV p. (* 60-61 *)
Definition MLKEM_PUBLICKEYBYTES (p : pset) : Z := MLKEM_INDCPA_PUBLICKEYBYTES p. (* 63 *)
Definition MLKEM_SECRETKEYBYTES (p : pset) : Z :=
  MLKEM_INDCPA_SECRETKEYBYTES p + MLKEM_INDCPA_PUBLICKEYBYTES p
  + 2 * MLKEM_SYMBYTES.                                               (* 65-67 *)
Definition MLKEM_CIPHERTEXTBYTES (p : pset) : Z := MLKEM_INDCPA_BYTES p. (* 68 *)

Definition HALF_Q : Z := 1665.             (* reduce.h 14: (MLKEM_Q + 1) / 2 *)
Definition INVNTT_BOUND : Z := 8 * MLKEM_Q. (* poly.h 16 *)
Definition NTT_BOUND : Z := 8 * MLKEM_Q.   (* poly.h 19 *)

(** ** mlkem/reduce.c *)

Definition QINV : Z := 62209.              (* reduce.c 10 *)

(** reduce.c 25-35 *)
Definition cast_uint16_to_int16 (x : Z) : Z := s16 x.

(** reduce.c 65-95 *)
Definition montgomery_reduce_generic (a : Z) : M Z :=
  let a_reduced := u16 (a .& 65535) in
  let a_inverted := u16 (u32 (a_reduced * QINV) .& 65535) in
  let t := cast_uint16_to_int16 a_inverted in
  tq <- i32 (t * MLKEM_Q) ;;
  r <- i32 (a - tq) ;;
  let r := r >> 16 in
  to_i16 r.

(** reduce.c 97-106 *)
Definition montgomery_reduce (a : Z) : M Z :=
  SCALAR_BOUND a (2 * MLKEM_Q * 32768) ;;;
  res <- montgomery_reduce_generic a ;;
  SCALAR_BOUND res ((3 * (MLKEM_Q + 1)) / 2) ;;;
  ret res.

(** reduce.c 108-117 *)
Definition fqmul (a b : Z) : M Z :=
  SCALAR_BOUND b HALF_Q ;;;
  ab <- i32 (a * b) ;;
  res <- montgomery_reduce ab ;;
  SCALAR_BOUND res MLKEM_Q ;;;
  ret res.

(** reduce.c 123-125 *)
Definition BPOWER : Z := 26.
Definition barrett_multiplier : Z := ((1 << BPOWER) + MLKEM_Q / 2) / MLKEM_Q.

(** reduce.c 138-154 *)
Definition barrett_reduce (a : Z) : M Z :=
  x <- i32 (barrett_multiplier * a) ;;
  x <- i32 (x + (1 << (BPOWER - 1))) ;;
  let t := x >> BPOWER in
  tq <- i32 (t * MLKEM_Q) ;;
  r <- i32 (a - tq) ;;
  to_i16 r.

(** ** mlkem/verify.h *)

(** verify.h 48-99: both variants return their argument (the global
    ct_opt_blocker_u64 of verify.c is 0 and never written). *)
Definition value_barrier (b : Z) : Z := b.

(** verify.h 118-124 *)
Definition ct_cmask_nonzero_u16 (x : Z) : Z :=
  let tmp := value_barrier (u32 (- x)) in
  u16 (tmp >> 16).

(** verify.h 133-139 *)
Definition ct_cmask_nonzero_u8 (x : Z) : Z :=
  let tmp := value_barrier (u32 (- x)) in
  u8 (tmp >> 24).

(** verify.h 163-169: int16_t to int32_t, shift, back to int16_t, returned as
    uint16_t. *)
Definition ct_cmask_neg_i16 (x : Z) : Z :=
  let tmp := value_barrier x in
  let tmp := tmp >> 16 in
  u16 (s16 tmp).

(** verify.h 198-204 *)
Definition ct_sel_int16 (a b cond : Z) : Z :=
  let au := u16 a in
  let bu := u16 b in
  let res := u16 (bu .^ (ct_cmask_nonzero_u16 cond .& (au .^ bu))) in
  s16 res.

(** verify.h 222-226 *)
Definition ct_sel_uint8 (a b cond : Z) : Z :=
  u8 (b .^ (ct_cmask_nonzero_u8 cond .& (a .^ b))).

(** verify.h 239-275 *)
Definition ct_memcmp (a b : list Z) (len : Z) : M Z :=
  ilen <- i32 len ;;
  '(r, s) <- for_up 0 ilen 1 (fun i '(r, s) =>
      ai <- aget a i ;;
      bi <- aget b i ;;
      let r := u8 (r .| (ai .^ bi)) in
      let s := u8 (s .^ (ai .^ bi)) in
      ret (r, s)) (0, 0) ;;
  ret (u8 (value_barrier (u8 (ct_cmask_nonzero_u8 r .^ s)) .^ s)).

(** verify.h 290-303 *)
Definition ct_cmov_zero (r x : list Z) (len b : Z) : M (list Z) :=
  for_up 0 len 1 (fun i r =>
      ri <- aget r i ;;
      xi <- aget x i ;;
      aset r i (ct_sel_uint8 ri xi b)) r.

(** ** mlkem/poly.h, scalar functions *)

(** poly.h 62-73 *)
Definition scalar_compress_d1 (u : Z) : Z :=
  let d0 := u32 (u << 1) in
  let d0 := u32 (d0 * 645083) in
  let d0 := u32 (d0 + (1 << 30)) in
  d0 >> 31.

(** poly.h 97-105 *)
Definition scalar_compress_d4 (u : Z) : Z :=
  let d0 := u32 (u * 1290160) in
  u32 (d0 + (1 << 27)) >> 28.

(** poly.h 121-125 *)
Definition scalar_decompress_d4 (u : Z) : M Z :=
  x <- div_c (u32 (u32 (u * MLKEM_Q) + 8)) 16 ;; ret (u16 x).

(** poly.h 146-154 *)
Definition scalar_compress_d5 (u : Z) : Z :=
  let d0 := u32 (u * 1290176) in
  u32 (d0 + (1 << 26)) >> 27.

(** poly.h 170-174 *)
Definition scalar_decompress_d5 (u : Z) : M Z :=
  x <- div_c (u32 (u32 (u * MLKEM_Q) + 16)) 32 ;; ret (u16 x).

(** poly.h 195-204 *)
Definition scalar_compress_d10 (u : Z) : Z :=
  let d0 := u64 (u * 2642263040) in
  let d0 := u64 (d0 + (1 << 32)) >> 33 in
  u32 (d0 .& 1023).

(** poly.h 220-224 *)
Definition scalar_decompress_d10 (u : Z) : M Z :=
  x <- div_c (u32 (u32 (u * MLKEM_Q) + 512)) 1024 ;; ret (u16 x).

(** poly.h 245-254 *)
Definition scalar_compress_d11 (u : Z) : Z :=
  let d0 := u64 (u * 5284526080) in
  let d0 := u64 (d0 + (1 << 32)) >> 33 in
  u32 (d0 .& 2047).

(** poly.h 270-274 *)
Definition scalar_decompress_d11 (u : Z) : M Z :=
  x <- div_c (u32 (u32 (u * MLKEM_Q) + 1024)) 2048 ;; ret (u16 x).

(** poly.h 294-308 (the cassert lines are for CBMC only) *)
Definition scalar_signed_to_unsigned_q (c : Z) : M Z :=
  cq <- to_i16 (c + MLKEM_Q) ;;
  let c := ct_sel_int16 cq c (ct_cmask_neg_i16 c) in
  ret (u16 c).

(** ** mlkem/poly.c *)

(** poly.c 20-85. The elements of the local array t are read once. *)
Definition poly_compress_du (J : junk) (p : pset) (r a : list Z) : M (list Z) :=
  match p with
  | MLKEM1024 =>
      for_up 0 (MLKEM_N / 8) 1 (fun j r =>
        t <- for_up 0 8 1 (fun k t =>
               x <- aget a (8 * j + k) ;;
               aset t k (u16 (scalar_compress_d11 (u16 x))))
             (uninit (sub J j) 0 8) ;;
        t0 <- aget t 0 ;; t1 <- aget t 1 ;; t2 <- aget t 2 ;; t3 <- aget t 3 ;;
        t4 <- aget t 4 ;; t5 <- aget t 5 ;; t6 <- aget t 6 ;; t7 <- aget t 7 ;;
        r <- aset r (11 * j + 0) (u8 ((t0 >> 0) .& 255)) ;;
        r <- aset r (11 * j + 1) (u8 ((t0 >> 8) .| ((t1 << 3) .& 255))) ;;
        r <- aset r (11 * j + 2) (u8 ((t1 >> 5) .| ((t2 << 6) .& 255))) ;;
        r <- aset r (11 * j + 3) (u8 ((t2 >> 2) .& 255)) ;;
        r <- aset r (11 * j + 4) (u8 ((t2 >> 10) .| ((t3 << 1) .& 255))) ;;
        r <- aset r (11 * j + 5) (u8 ((t3 >> 7) .| ((t4 << 4) .& 255))) ;;
        r <- aset r (11 * j + 6) (u8 ((t4 >> 4) .| ((t5 << 7) .& 255))) ;;
        r <- aset r (11 * j + 7) (u8 ((t5 >> 1) .& 255)) ;;
        r <- aset r (11 * j + 8) (u8 ((t5 >> 9) .| ((t6 << 2) .& 255))) ;;
        r <- aset r (11 * j + 9) (u8 ((t6 >> 6) .| ((t7 << 5) .& 255))) ;;
        aset r (11 * j + 10) (u8 (t7 >> 3))) r
  | _ =>
      for_up 0 (MLKEM_N / 4) 1 (fun j r =>
        t <- for_up 0 4 1 (fun k t =>
               x <- aget a (4 * j + k) ;;
               aset t k (u16 (scalar_compress_d10 (u16 x))))
             (uninit (sub J j) 0 4) ;;
        t0 <- aget t 0 ;; t1 <- aget t 1 ;; t2 <- aget t 2 ;; t3 <- aget t 3 ;;
        r <- aset r (5 * j + 0) (u8 ((t0 >> 0) .& 255)) ;;
        r <- aset r (5 * j + 1) (u8 ((t0 >> 8) .| ((t1 << 2) .& 255))) ;;
        r <- aset r (5 * j + 2) (u8 ((t1 >> 6) .| ((t2 << 4) .& 255))) ;;
        r <- aset r (5 * j + 3) (u8 ((t2 >> 4) .| ((t3 << 6) .& 255))) ;;
        aset r (5 * j + 4) (u8 (t3 >> 2))) r
  end.

(** poly.c 88-145. base[i] is a[11*j+i] (a[5*j+i]). *)
Definition poly_decompress_du (J : junk) (p : pset) (r a : list Z) : M (list Z) :=
  match p with
  | MLKEM1024 =>
      for_up 0 (MLKEM_N / 8) 1 (fun j r =>
        b0 <- aget a (11 * j + 0) ;; b1 <- aget a (11 * j + 1) ;;
        b2 <- aget a (11 * j + 2) ;; b3 <- aget a (11 * j + 3) ;;
        b4 <- aget a (11 * j + 4) ;; b5 <- aget a (11 * j + 5) ;;
        b6 <- aget a (11 * j + 6) ;; b7 <- aget a (11 * j + 7) ;;
        b8 <- aget a (11 * j + 8) ;; b9 <- aget a (11 * j + 9) ;;
        b10 <- aget a (11 * j + 10) ;;
        let t := uninit (sub J j) 0 8 in
        t <- aset t 0 (u16 (2047 .& ((b0 >> 0) .| (b1 << 8)))) ;;
        t <- aset t 1 (u16 (2047 .& ((b1 >> 3) .| (b2 << 5)))) ;;
        t <- aset t 2 (u16 (2047 .& ((b2 >> 6) .| (b3 << 2) .| (b4 << 10)))) ;;
        t <- aset t 3 (u16 (2047 .& ((b4 >> 1) .| (b5 << 7)))) ;;
        t <- aset t 4 (u16 (2047 .& ((b5 >> 4) .| (b6 << 4)))) ;;
        t <- aset t 5 (u16 (2047 .& ((b6 >> 7) .| (b7 << 1) .| (b8 << 9)))) ;;
        t <- aset t 6 (u16 (2047 .& ((b8 >> 2) .| (b9 << 6)))) ;;
        t <- aset t 7 (u16 (2047 .& ((b9 >> 5) .| (b10 << 3)))) ;;
        for_up 0 8 1 (fun k r =>
          tk <- aget t k ;;
          x <- scalar_decompress_d11 tk ;;
          x <- to_i16 x ;;
          aset r (8 * j + k) x) r) r
  | _ =>
      for_up 0 (MLKEM_N / 4) 1 (fun j r =>
        b0 <- aget a (5 * j + 0) ;; b1 <- aget a (5 * j + 1) ;;
        b2 <- aget a (5 * j + 2) ;; b3 <- aget a (5 * j + 3) ;;
        b4 <- aget a (5 * j + 4) ;;
        let t := uninit (sub J j) 0 4 in
        t <- aset t 0 (u16 (1023 .& ((b0 >> 0) .| (b1 << 8)))) ;;
        t <- aset t 1 (u16 (1023 .& ((b1 >> 2) .| (b2 << 6)))) ;;
        t <- aset t 2 (u16 (1023 .& ((b2 >> 4) .| (b3 << 4)))) ;;
        t <- aset t 3 (u16 (1023 .& ((b3 >> 6) .| (b4 << 2)))) ;;
        for_up 0 4 1 (fun k r =>
          tk <- aget t k ;;
          x <- scalar_decompress_d10 tk ;;
          x <- to_i16 x ;;
          aset r (4 * j + k) x) r) r
  end.

(** poly.c 147-205 *)
Definition poly_compress_dv (p : pset) (r a : list Z) : M (list Z) :=
  POLY_UBOUND a MLKEM_Q ;;;
  match p with
  | MLKEM1024 =>
      for_up 0 (MLKEM_N / 8) 1 (fun i r =>
        t <- for_up 0 8 1 (fun j t =>
               x <- aget a (8 * i + j) ;;
               aset t j (u8 (scalar_compress_d5 (u16 x))))
             (repeat 0 8) ;;
        t0 <- aget t 0 ;; t1 <- aget t 1 ;; t2 <- aget t 2 ;; t3 <- aget t 3 ;;
        t4 <- aget t 4 ;; t5 <- aget t 5 ;; t6 <- aget t 6 ;; t7 <- aget t 7 ;;
        r <- aset r (i * 5) (u8 (255 .& ((t0 >> 0) .| (t1 << 5)))) ;;
        r <- aset r (i * 5 + 1) (u8 (255 .& ((t1 >> 3) .| (t2 << 2) .| (t3 << 7)))) ;;
        r <- aset r (i * 5 + 2) (u8 (255 .& ((t3 >> 1) .| (t4 << 4)))) ;;
        r <- aset r (i * 5 + 3) (u8 (255 .& ((t4 >> 4) .| (t5 << 1) .| (t6 << 6)))) ;;
        aset r (i * 5 + 4) (u8 (255 .& ((t6 >> 2) .| (t7 << 3))))) r
  | _ =>
      for_up 0 (MLKEM_N / 8) 1 (fun i r =>
        t <- for_up 0 8 1 (fun j t =>
               x <- aget a (8 * i + j) ;;
               aset t j (u8 (scalar_compress_d4 (u16 x))))
             (repeat 0 8) ;;
        t0 <- aget t 0 ;; t1 <- aget t 1 ;; t2 <- aget t 2 ;; t3 <- aget t 3 ;;
        t4 <- aget t 4 ;; t5 <- aget t 5 ;; t6 <- aget t 6 ;; t7 <- aget t 7 ;;
        r <- aset r (i * 4) (u8 (t0 .| (t1 << 4))) ;;
        r <- aset r (i * 4 + 1) (u8 (t2 .| (t3 << 4))) ;;
        r <- aset r (i * 4 + 2) (u8 (t4 .| (t5 << 4))) ;;
        aset r (i * 4 + 3) (u8 (t6 .| (t7 << 4)))) r
  end.

(** poly.c 207-263 *)
Definition poly_decompress_dv (J : junk) (p : pset) (r a : list Z) : M (list Z) :=
  r <- match p with
  | MLKEM1024 =>
      for_up 0 (MLKEM_N / 8) 1 (fun i r =>
        let offset := i * 5 in
        a0 <- aget a (offset + 0) ;; a1 <- aget a (offset + 1) ;;
        a2 <- aget a (offset + 2) ;; a3 <- aget a (offset + 3) ;;
        a4 <- aget a (offset + 4) ;;
        let t := uninit (sub J i) 0 8 in
        t <- aset t 0 (u8 (31 .& (a0 >> 0))) ;;
        t <- aset t 1 (u8 (31 .& ((a0 >> 5) .| (a1 << 3)))) ;;
        t <- aset t 2 (u8 (31 .& (a1 >> 2))) ;;
        t <- aset t 3 (u8 (31 .& ((a1 >> 7) .| (a2 << 1)))) ;;
        t <- aset t 4 (u8 (31 .& ((a2 >> 4) .| (a3 << 4)))) ;;
        t <- aset t 5 (u8 (31 .& (a3 >> 1))) ;;
        t <- aset t 6 (u8 (31 .& ((a3 >> 6) .| (a4 << 2)))) ;;
        t <- aset t 7 (u8 (31 .& (a4 >> 3))) ;;
        for_up 0 8 1 (fun j r =>
          tj <- aget t j ;;
          x <- scalar_decompress_d5 tj ;;
          x <- to_i16 x ;;
          aset r (8 * i + j) x) r) r
  | _ =>
      for_up 0 (MLKEM_N / 2) 1 (fun i r =>
        ai <- aget a i ;;
        x <- scalar_decompress_d4 ((ai >> 0) .& 15) ;;
        x <- to_i16 x ;;
        r <- aset r (2 * i + 0) x ;;
        ai <- aget a i ;;
        x <- scalar_decompress_d4 ((ai >> 4) .& 15) ;;
        x <- to_i16 x ;;
        aset r (2 * i + 1) x) r
  end ;;
  POLY_UBOUND r MLKEM_Q ;;;
  ret r.

(** poly.c 266-298 *)
Definition poly_tobytes (r a : list Z) : M (list Z) :=
  POLY_UBOUND a MLKEM_Q ;;;
  for_up 0 (MLKEM_N / 2) 1 (fun i r =>
    x0 <- aget a (2 * i) ;;
    x1 <- aget a (2 * i + 1) ;;
    let t0 := u16 x0 in
    let t1 := u16 x1 in
    r <- aset r (3 * i + 0) (u8 (t0 .& 255)) ;;
    r <- aset r (3 * i + 1) (u8 ((t0 >> 8) .| ((t1 << 4) .& 240))) ;;
    aset r (3 * i + 2) (u8 (t1 >> 4))) r.

(** poly.c 308-326 *)
Definition poly_frombytes (r a : list Z) : M (list Z) :=
  r <- for_up 0 (MLKEM_N / 2) 1 (fun i r =>
    t0 <- aget a (3 * i + 0) ;;
    t1 <- aget a (3 * i + 1) ;;
    t2 <- aget a (3 * i + 2) ;;
    x <- to_i16 (t0 .| ((t1 << 8) .& 4095)) ;;
    r <- aset r (2 * i + 0) x ;;
    x <- to_i16 ((t1 >> 4) .| (t2 << 4)) ;;
    aset r (2 * i + 1) x) r ;;
  POLY_UBOUND r 4096 ;;;
  ret r.

(** poly.c 334-358 *)
Definition poly_frommsg (r msg : list Z) : M (list Z) :=
  r <- for_up 0 (MLKEM_N / 8) 1 (fun i r =>
    for_up 0 8 1 (fun j r =>
      let mask := value_barrier (u8 (1 << j)) in
      m <- aget msg i ;;
      aset r (8 * i + j) (ct_sel_int16 HALF_Q 0 (u16 (m .& mask)))) r) r ;;
  POLY_BOUND r MLKEM_Q ;;;
  ret r.

(** poly.c 360-378 *)
Definition poly_tomsg (msg a : list Z) : M (list Z) :=
  POLY_UBOUND a MLKEM_Q ;;;
  for_up 0 (MLKEM_N / 8) 1 (fun i msg =>
    msg <- aset msg i 0 ;;
    for_up 0 8 1 (fun j msg =>
      x <- aget a (8 * i + j) ;;
      let t := scalar_compress_d1 (u16 x) in
      m <- aget msg i ;;
      aset msg i (u8 (m .| u32 (t << j)))) msg) msg.

(** poly.c 475-488; the constant is (1ULL << 32) % MLKEM_Q *)
Definition poly_tomont (r : list Z) : M (list Z) :=
  let f := (1 << 32) mod MLKEM_Q in
  r <- for_up 0 MLKEM_N 1 (fun i r =>
    x <- aget r i ;;
    y <- fqmul x f ;;
    aset r i y) r ;;
  POLY_BOUND r MLKEM_Q ;;;
  ret r.

(** poly.c 498-513 *)
Definition poly_reduce (r : list Z) : M (list Z) :=
  r <- for_up 0 MLKEM_N 1 (fun i r =>
    x <- aget r i ;;
    t <- barrett_reduce x ;;
    y <- scalar_signed_to_unsigned_q t ;;
    y <- to_i16 y ;;
    aset r i y) r ;;
  POLY_UBOUND r MLKEM_Q ;;;
  ret r.

(** poly.c 522-533 *)
Definition poly_add (r b : list Z) : M (list Z) :=
  for_up 0 MLKEM_N 1 (fun i r =>
    x <- aget r i ;;
    y <- aget b i ;;
    z <- to_i16 (x + y) ;;
    aset r i z) r.

(** poly.c 535-546 *)
Definition poly_sub (r b : list Z) : M (list Z) :=
  for_up 0 MLKEM_N 1 (fun i r =>
    x <- aget r i ;;
    y <- aget b i ;;
    z <- to_i16 (x - y) ;;
    aset r i z) r.

(** ** mlkem/zetas.c 17-30 *)
Definition zetas : list Z :=
  [ -1044; -758;  -359;  -1517; 1493;  1422;  287;   202;  -171;  622;   1577;
    182;   962;   -1202; -1474; 1468;  573;   -1325; 264;  383;   -829;  1458;
    -1602; -130;  -681;  1017;  732;   608;   -1542; 411;  -205;  -1571; 1223;
    652;   -552;  1015;  -1293; 1491;  -282;  -1544; 516;  -8;    -320;  -666;
    -1618; -1162; 126;   1469;  -853;  -90;   -271;  830;  107;   -1421; -247;
    -951;  -398;  961;   -1508; -725;  448;   -1065; 677;  -1275; -1103; 430;
    555;   843;   -1251; 871;   1550;  105;   422;   587;  177;   -235;  -291;
    -460;  1574;  1653;  -246;  778;   1159;  -147;  -777; 1483;  -602;  1119;
    -1590; 644;   -872;  349;   418;   329;   -156;  -75;  817;   1097;  603;
    610;   1322;  -1285; -1465; 384;   -1215; -136;  1218; -1335; -874;  220;
    -1187; -1659; -1185; -1530; -1278; 794;   -1510; -854; -870;  478;   -108;
    -308;  996;   991;   958;   -1460; 1522;  1628 ].

(** poly.c 549-559 *)
Definition poly_mulcache_compute (x a : list Z) : M (list Z) :=
  x <- for_up 0 (MLKEM_N / 4) 1 (fun i x =>
    a1 <- aget a (4 * i + 1) ;;
    z <- aget zetas (64 + i) ;;
    y <- fqmul a1 z ;;
    x <- aset x (2 * i + 0) y ;;
    a3 <- aget a (4 * i + 3) ;;
    z <- aget zetas (64 + i) ;;
    mz <- to_i16 (- z) ;;
    y <- fqmul a3 mz ;;
    aset x (2 * i + 1) y) x ;;
  POLY_BOUND x MLKEM_Q ;;;
  ret x.

(** ** mlkem/ntt.c *)

(** ntt.c 42-76; [bound] is a ghost parameter *)
Definition ntt_butterfly_block (r : list Z) (zeta start len : Z) : M (list Z) :=
  for_up start (start + len) 1 (fun j r =>
    x <- aget r (j + len) ;;
    t <- fqmul x zeta ;;
    y <- aget r j ;;
    d <- to_i16 (y - t) ;;
    r <- aset r (j + len) d ;;
    y <- aget r j ;;
    s <- to_i16 (y + t) ;;
    aset r j s) r.

(** ntt.c 91-114; [layer] is a ghost parameter *)
Definition ntt_layer (r : list Z) (len : Z) : M (list Z) :=
  k <- div_c MLKEM_N (2 * len) ;;
  '(r, _) <- for_up 0 MLKEM_N (2 * len) (fun start '(r, k) =>
      zeta <- aget zetas k ;;
      r <- ntt_butterfly_block r zeta start len ;;
      ret (r, k + 1)) (r, k) ;;
  ret r.

(** ntt.c 128-145. The loop runs 7 times; 8 iterations of fuel are never used up. *)
Definition poly_ntt (r : list Z) : M (list Z) :=
  POLY_BOUND r MLKEM_Q ;;;
  '(r, _) <- while 8 (fun '(r, len) => 2 <=? len) (fun '(r, len) =>
      r <- ntt_layer r len ;;
      ret (r, len >> 1)) (r, 128) ;;
  POLY_BOUND r NTT_BOUND ;;;
  ret r.

(** ntt.c 162 *)
Definition INVNTT_BOUND_REF : Z := 3 * MLKEM_Q / 4.

(** ntt.c 167-201 *)
Definition invntt_layer (r : list Z) (len : Z) : M (list Z) :=
  n <- div_c MLKEM_N len ;;
  let k := n - 1 in
  '(r, _) <- for_up 0 MLKEM_N (2 * len) (fun start '(r, k) =>
      zeta <- aget zetas k ;;
      r <- for_up start (start + len) 1 (fun j r =>
          t <- aget r j ;;
          x <- aget r (j + len) ;;
          s <- to_i16 (t + x) ;;
          b <- barrett_reduce s ;;
          r <- aset r j b ;;
          x <- aget r (j + len) ;;
          d <- to_i16 (x - t) ;;
          r <- aset r (j + len) d ;;
          x <- aget r (j + len) ;;
          y <- fqmul x zeta ;;
          aset r (j + len) y) r ;;
      ret (r, k - 1)) (r, k) ;;
  ret r.

(** ntt.c 203-232. The loop runs 7 times. *)
Definition poly_invntt_tomont (r : list Z) : M (list Z) :=
  let f := 1441 in
  r <- for_up 0 MLKEM_N 1 (fun j r =>
    x <- aget r j ;;
    y <- fqmul x f ;;
    aset r j y) r ;;
  '(r, _) <- while 8 (fun '(r, len) => len <=? 128) (fun '(r, len) =>
      r <- invntt_layer r len ;;
      ret (r, len << 1)) (r, 2) ;;
  POLY_BOUND r INVNTT_BOUND_REF ;;;
  ret r.

(** ntt.c 260-278; r, a, b are two-element arrays *)
Definition basemul_cached (r a b : list Z) (b_cached : Z) : M (list Z) :=
  POLY_BOUND a MLKEM_Q ;;;
  a0 <- aget a 0 ;; a1 <- aget a 1 ;; b0 <- aget b 0 ;; b1 <- aget b 1 ;;
  t0 <- i32 (a1 * b_cached) ;;
  x <- i32 (a0 * b0) ;;
  t0 <- i32 (t0 + x) ;;
  t1 <- i32 (a0 * b1) ;;
  x <- i32 (a1 * b0) ;;
  t1 <- i32 (t1 + x) ;;
  r0 <- montgomery_reduce t0 ;;
  r <- aset r 0 r0 ;;
  r1 <- montgomery_reduce t1 ;;
  r <- aset r 1 r1 ;;
  POLY_BOUND r (3 * MLKEM_Q / 2) ;;;
  ret r.

(** poly.c 455-472 *)
Definition poly_basemul_montgomery_cached (r a b b_cache : list Z) : M (list Z) :=
  POLY_BOUND b_cache MLKEM_Q ;;;
  for_up 0 (MLKEM_N / 4) 1 (fun i r =>
    rs <- aslice r (4 * i) 2 ;;
    as_ <- aslice a (4 * i) 2 ;;
    bs <- aslice b (4 * i) 2 ;;
    c <- aget b_cache (2 * i) ;;
    rs <- basemul_cached rs as_ bs c ;;
    r <- asplice r (4 * i) rs ;;
    rs <- aslice r (4 * i + 2) 2 ;;
    as_ <- aslice a (4 * i + 2) 2 ;;
    bs <- aslice b (4 * i + 2) 2 ;;
    c <- aget b_cache (2 * i + 1) ;;
    rs <- basemul_cached rs as_ bs c ;;
    asplice r (4 * i + 2) rs) r.

(** ** mlkem/polyvec.c *)

(** polyvec.c 14-24 *)
Definition polyvec_compress_du (J : junk) (p : pset) (r : list Z) (a : list (list Z))
  : M (list Z) :=
  POLYVEC_UBOUND a MLKEM_Q ;;;
  for_up 0 (MLKEM_K p) 1 (fun i r =>
    ai <- aget a i ;;
    s <- aslice r (i * MLKEM_POLYCOMPRESSEDBYTES_DU p) (MLKEM_POLYCOMPRESSEDBYTES_DU p) ;;
    s <- poly_compress_du (sub J i) p s ai ;;
    asplice r (i * MLKEM_POLYCOMPRESSEDBYTES_DU p) s) r.

(** polyvec.c 26-36 *)
Definition polyvec_decompress_du (J : junk) (p : pset) (r : list (list Z)) (a : list Z)
  : M (list (list Z)) :=
  r <- for_up 0 (MLKEM_K p) 1 (fun i r =>
    ri <- aget r i ;;
    s <- aslice a (i * MLKEM_POLYCOMPRESSEDBYTES_DU p) (MLKEM_POLYCOMPRESSEDBYTES_DU p) ;;
    ri <- poly_decompress_du (sub J i) p ri s ;;
    aset r i ri) r ;;
  POLYVEC_UBOUND r MLKEM_Q ;;;
  ret r.

(** polyvec.c 38-45 *)
Definition polyvec_tobytes (p : pset) (r : list Z) (a : list (list Z)) : M (list Z) :=
  for_up 0 (MLKEM_K p) 1 (fun i r =>
    ai <- aget a i ;;
    s <- aslice r (i * MLKEM_POLYBYTES) MLKEM_POLYBYTES ;;
    s <- poly_tobytes s ai ;;
    asplice r (i * MLKEM_POLYBYTES) s) r.

(** polyvec.c 47-54 *)
Definition polyvec_frombytes (p : pset) (r : list (list Z)) (a : list Z)
  : M (list (list Z)) :=
  for_up 0 (MLKEM_K p) 1 (fun i r =>
    ri <- aget r i ;;
    s <- aslice a (i * MLKEM_POLYBYTES) MLKEM_POLYBYTES ;;
    ri <- poly_frombytes ri s ;;
    aset r i ri) r.

(** polyvec.c 56-63 *)
Definition polyvec_ntt (p : pset) (r : list (list Z)) : M (list (list Z)) :=
  for_up 0 (MLKEM_K p) 1 (fun i r =>
    ri <- aget r i ;; ri <- poly_ntt ri ;; aset r i ri) r.

(** polyvec.c 65-72 *)
Definition polyvec_invntt_tomont (p : pset) (r : list (list Z)) : M (list (list Z)) :=
  for_up 0 (MLKEM_K p) 1 (fun i r =>
    ri <- aget r i ;; ri <- poly_invntt_tomont ri ;; aset r i ri) r.

(** polyvec.c 93-123 *)
Definition polyvec_basemul_acc_montgomery_cached (J : junk) (p : pset)
  (r : list Z) (a b b_cache : list (list Z)) : M (list Z) :=
  let t := uninit J 0 MLKEM_N in
  POLYVEC_BOUND a MLKEM_Q ;;;
  POLYVEC_BOUND b NTT_BOUND ;;;
  POLYVEC_BOUND b_cache MLKEM_Q ;;;
  a0 <- aget a 0 ;; b0 <- aget b 0 ;; c0 <- aget b_cache 0 ;;
  r <- poly_basemul_montgomery_cached r a0 b0 c0 ;;
  '(r, _) <- for_up 1 (MLKEM_K p) 1 (fun i '(r, t) =>
      ai <- aget a i ;; bi <- aget b i ;; ci <- aget b_cache i ;;
      t <- poly_basemul_montgomery_cached t ai bi ci ;;
      r <- poly_add r t ;;
      ret (r, t)) (r, t) ;;
  POLY_BOUND r (MLKEM_K p * 3 * HALF_Q) ;;;
  ret r.

(** polyvec.c 165-172 *)
Definition polyvec_mulcache_compute (p : pset) (x a : list (list Z))
  : M (list (list Z)) :=
  for_up 0 (MLKEM_K p) 1 (fun i x =>
    xi <- aget x i ;; ai <- aget a i ;;
    xi <- poly_mulcache_compute xi ai ;; aset x i xi) x.

(** polyvec.c 148-153 *)
Definition polyvec_basemul_acc_montgomery (J : junk) (p : pset)
  (r : list Z) (a b : list (list Z)) : M (list Z) :=
  let b_cache := uninit2 J 0 (MLKEM_K p) (MLKEM_N / 2) in
  b_cache <- polyvec_mulcache_compute p b_cache b ;;
  polyvec_basemul_acc_montgomery_cached (sub J 1) p r a b b_cache.

(** polyvec.c 184-191 *)
Definition polyvec_reduce (p : pset) (r : list (list Z)) : M (list (list Z)) :=
  for_up 0 (MLKEM_K p) 1 (fun i r =>
    ri <- aget r i ;; ri <- poly_reduce ri ;; aset r i ri) r.

(** polyvec.c 193-200 *)
Definition polyvec_add (p : pset) (r b : list (list Z)) : M (list (list Z)) :=
  for_up 0 (MLKEM_K p) 1 (fun i r =>
    ri <- aget r i ;; bi <- aget b i ;; ri <- poly_add ri bi ;; aset r i ri) r.

(** polyvec.c 202-209 *)
Definition polyvec_tomont (p : pset) (r : list (list Z)) : M (list (list Z)) :=
  for_up 0 (MLKEM_K p) 1 (fun i r =>
    ri <- aget r i ;; ri <- poly_tomont ri ;; aset r i ri) r.

(** ** mlkem/cbd.c *)

(** cbd.c 19-27 *)
Definition load32_littleendian (x : list Z) : M Z :=
  x0 <- aget x 0 ;;
  let r := u32 x0 in
  x1 <- aget x 1 ;;
  let r := r .| u32 (x1 << 8) in
  x2 <- aget x 2 ;;
  let r := r .| u32 (x2 << 16) in
  x3 <- aget x 3 ;;
  let r := r .| u32 (x3 << 24) in
  ret r.

(** cbd.c 41-48 *)
Definition load24_littleendian (x : list Z) : M Z :=
  x0 <- aget x 0 ;;
  let r := u32 x0 in
  x1 <- aget x 1 ;;
  let r := r .| u32 (x1 << 8) in
  x2 <- aget x 2 ;;
  let r := r .| u32 (x2 << 16) in
  ret r.

(** cbd.c 61-84 *)
Definition cbd2 (r buf : list Z) : M (list Z) :=
  for_up 0 (MLKEM_N / 8) 1 (fun i r =>
    s <- aslice buf (4 * i) 4 ;;
    t <- load32_littleendian s ;;
    let d := t .& 1431655765 (* 0x55555555 *) in
    let d := u32 (d + ((t >> 1) .& 1431655765)) in
    for_up 0 8 1 (fun j r =>
      a <- to_i16 ((d >> (4 * j + 0)) .& 3) ;;
      b <- to_i16 ((d >> (4 * j + 2)) .& 3) ;;
      x <- to_i16 (a - b) ;;
      aset r (8 * i + j) x) r) r.

(** cbd.c 98-122 *)
Definition cbd3 (r buf : list Z) : M (list Z) :=
  for_up 0 (MLKEM_N / 4) 1 (fun i r =>
    s <- aslice buf (3 * i) 3 ;;
    t <- load24_littleendian s ;;
    let d := t .& 2396745 (* 0x00249249 *) in
    let d := u32 (d + ((t >> 1) .& 2396745)) in
    let d := u32 (d + ((t >> 2) .& 2396745)) in
    for_up 0 4 1 (fun j r =>
      a <- to_i16 ((d >> (6 * j + 0)) .& 7) ;;
      b <- to_i16 ((d >> (6 * j + 3)) .& 7) ;;
      x <- to_i16 (a - b) ;;
      aset r (4 * i + j) x) r) r.

(** cbd.c 125-134 *)
Definition poly_cbd_eta1 (p : pset) (r buf : list Z) : M (list Z) :=
  match p with
  | MLKEM512 => cbd3 r buf
  | _ => cbd2 r buf
  end.

(** cbd.c 136-143 *)
Definition poly_cbd_eta2 (r buf : list Z) : M (list Z) := cbd2 r buf.

(** ** mlkem/rej_uniform.c *)

(** rej_uniform.c 39-68; [buflen + 1] iterations of fuel are never used up. *)
Definition rej_uniform_scalar (r : list Z) (target offset : Z) (buf : list Z)
  (buflen : Z) : M (list Z * Z) :=
  '(r, ctr, _) <- while (S (Z.to_nat buflen))
    (fun '(r, ctr, pos) => (ctr <? target) && (u32 (pos + 3) <=? buflen))
    (fun '(r, ctr, pos) =>
      b0 <- aget buf (pos + 0) ;;
      b1 <- aget buf (pos + 1) ;;
      b2 <- aget buf (pos + 2) ;;
      let val0 := u16 (((b0 >> 0) .| (b1 << 8)) .& 4095) in
      let val1 := u16 (((b1 >> 4) .| (b2 << 4)) .& 4095) in
      let pos := u32 (pos + 3) in
      '(r, ctr) <- branch (val0 <? MLKEM_Q)
          (x <- to_i16 val0 ;; r <- aset r ctr x ;; ret (r, u32 (ctr + 1)))
          (ret (r, ctr)) ;;
      '(r, ctr) <- branch ((ctr <? target) && (val1 <? MLKEM_Q))
          (x <- to_i16 val1 ;; r <- aset r ctr x ;; ret (r, u32 (ctr + 1)))
          (ret (r, ctr)) ;;
      ret (r, ctr, pos)) (r, offset, 0) ;;
  ret (r, ctr).

(** rej_uniform.c 71-75 *)
Definition rej_uniform (r : list Z) (target offset : Z) (buf : list Z) (buflen : Z)
  : M (list Z * Z) := rej_uniform_scalar r target offset buf buflen.
