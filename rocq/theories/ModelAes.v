(** * Model of test/nistrng/aes.c: the bitsliced AES of the known-answer tests

    Arrays of fixed size that are only accessed at constant indices are lists that are taken
    apart at once; a list of another length would be an access out of bounds. A pointer that the
    code advances is an array and an offset. uint32_t and uint64_t values are integers, reduced
    where an operation can leave the range. *)

From Coq Require Import ZArith List Bool.
From Verif Require Import CSem ModelArith.
Import ListNotations.
Open Scope Z_scope.

(** An assignment to a fresh local variable *)
Definition assign {A B : Type} (v : A) (k : A -> B) : B := k v.
Notation "x <== v ; k" := (assign v (fun x => k))
  (at level 61, v at next level, right associativity).

(** Eight local words *)
Definition with8 {A B : Type} (q : list A) (k : A -> A -> A -> A -> A -> A -> A -> A -> B) : M B :=
  match q with
  | [q0; q1; q2; q3; q4; q5; q6; q7] => ret (k q0 q1 q2 q3 q4 q5 q6 q7)
  | _ => fail OutOfBounds
  end.

(** aes.c 40-44 *)
Definition br_dec32le (src : list Z) (off : Z) : M Z :=
  a <- aget src off ;; b <- aget src (off + 1) ;;
  c <- aget src (off + 2) ;; d <- aget src (off + 3) ;;
  ret (a .| u32 (b << 8) .| u32 (c << 16) .| u32 (d << 24)).
(** aes.c 46-53 *)
Definition br_range_dec32le (v : list Z) (num : Z) (src : list Z) (off : Z) : M (list Z) :=
  for_up 0 num 1 (fun i v => w <- br_dec32le src (off + 4 * i) ;; aset v i w) v.
(** aes.c 55-59 *)
Definition br_swap32 (x : Z) : Z :=
  let x := u32 ((x .& 0x00FF00FF) << 8) .| ((x >> 8) .& 0x00FF00FF) in
  u32 (x << 16) .| (x >> 16).
(** aes.c 61-67 *)
Definition br_enc32le (dst : list Z) (off x : Z) : M (list Z) :=
  dst <- aset dst off (u8 x) ;;
  dst <- aset dst (off + 1) (u8 (x >> 8)) ;;
  dst <- aset dst (off + 2) (u8 (x >> 16)) ;;
  aset dst (off + 3) (u8 (x >> 24)).
(** aes.c 69-76 *)
Definition br_range_enc32le (dst : list Z) (off : Z) (v : list Z) (num : Z) : M (list Z) :=
  for_up 0 num 1 (fun i dst => w <- aget v i ;; br_enc32le dst (off + 4 * i) w) dst.

(** aes.c 105-250: the S-box circuit, for any type of words with these three operations. The
    results are q[0], ..., q[7] in this order. *)
Definition sbox_circuit {T : Type} (xor and : T -> T -> T) (not : T -> T)
  (q0 q1 q2 q3 q4 q5 q6 q7 : T) : list T :=
  x0 <== q7 ;
  x1 <== q6 ;
  x2 <== q5 ;
  x3 <== q4 ;
  x4 <== q3 ;
  x5 <== q2 ;
  x6 <== q1 ;
  x7 <== q0 ;
  y14 <== xor x3 x5 ;
  y13 <== xor x0 x6 ;
  y9 <== xor x0 x3 ;
  y8 <== xor x0 x5 ;
  t0 <== xor x1 x2 ;
  y1 <== xor t0 x7 ;
  y4 <== xor y1 x3 ;
  y12 <== xor y13 y14 ;
  y2 <== xor y1 x0 ;
  y5 <== xor y1 x6 ;
  y3 <== xor y5 y8 ;
  t1 <== xor x4 y12 ;
  y15 <== xor t1 x5 ;
  y20 <== xor t1 x1 ;
  y6 <== xor y15 x7 ;
  y10 <== xor y15 t0 ;
  y11 <== xor y20 y9 ;
  y7 <== xor x7 y11 ;
  y17 <== xor y10 y11 ;
  y19 <== xor y10 y8 ;
  y16 <== xor t0 y11 ;
  y21 <== xor y13 y16 ;
  y18 <== xor x0 y16 ;
  t2 <== and y12 y15 ;
  t3 <== and y3 y6 ;
  t4 <== xor t3 t2 ;
  t5 <== and y4 x7 ;
  t6 <== xor t5 t2 ;
  t7 <== and y13 y16 ;
  t8 <== and y5 y1 ;
  t9 <== xor t8 t7 ;
  t10 <== and y2 y7 ;
  t11 <== xor t10 t7 ;
  t12 <== and y9 y11 ;
  t13 <== and y14 y17 ;
  t14 <== xor t13 t12 ;
  t15 <== and y8 y10 ;
  t16 <== xor t15 t12 ;
  t17 <== xor t4 t14 ;
  t18 <== xor t6 t16 ;
  t19 <== xor t9 t14 ;
  t20 <== xor t11 t16 ;
  t21 <== xor t17 y20 ;
  t22 <== xor t18 y19 ;
  t23 <== xor t19 y21 ;
  t24 <== xor t20 y18 ;
  t25 <== xor t21 t22 ;
  t26 <== and t21 t23 ;
  t27 <== xor t24 t26 ;
  t28 <== and t25 t27 ;
  t29 <== xor t28 t22 ;
  t30 <== xor t23 t24 ;
  t31 <== xor t22 t26 ;
  t32 <== and t31 t30 ;
  t33 <== xor t32 t24 ;
  t34 <== xor t23 t33 ;
  t35 <== xor t27 t33 ;
  t36 <== and t24 t35 ;
  t37 <== xor t36 t34 ;
  t38 <== xor t27 t36 ;
  t39 <== and t29 t38 ;
  t40 <== xor t25 t39 ;
  t41 <== xor t40 t37 ;
  t42 <== xor t29 t33 ;
  t43 <== xor t29 t40 ;
  t44 <== xor t33 t37 ;
  t45 <== xor t42 t41 ;
  z0 <== and t44 y15 ;
  z1 <== and t37 y6 ;
  z2 <== and t33 x7 ;
  z3 <== and t43 y16 ;
  z4 <== and t40 y1 ;
  z5 <== and t29 y7 ;
  z6 <== and t42 y11 ;
  z7 <== and t45 y17 ;
  z8 <== and t41 y10 ;
  z9 <== and t44 y12 ;
  z10 <== and t37 y3 ;
  z11 <== and t33 y4 ;
  z12 <== and t43 y13 ;
  z13 <== and t40 y5 ;
  z14 <== and t29 y2 ;
  z15 <== and t42 y9 ;
  z16 <== and t45 y14 ;
  z17 <== and t41 y8 ;
  t46 <== xor z15 z16 ;
  t47 <== xor z10 z11 ;
  t48 <== xor z5 z13 ;
  t49 <== xor z9 z10 ;
  t50 <== xor z2 z12 ;
  t51 <== xor z2 z5 ;
  t52 <== xor z7 z8 ;
  t53 <== xor z0 z3 ;
  t54 <== xor z6 z7 ;
  t55 <== xor z16 z17 ;
  t56 <== xor z12 t48 ;
  t57 <== xor t50 t53 ;
  t58 <== xor z4 t46 ;
  t59 <== xor z3 t54 ;
  t60 <== xor t46 t57 ;
  t61 <== xor z14 t57 ;
  t62 <== xor t52 t58 ;
  t63 <== xor t49 t58 ;
  t64 <== xor z4 t59 ;
  t65 <== xor t61 t62 ;
  t66 <== xor z1 t63 ;
  s0 <== xor t59 t63 ;
  s6 <== xor t56 (not t62) ;
  s7 <== xor t48 (not t60) ;
  t67 <== xor t64 t65 ;
  s3 <== xor t53 t66 ;
  s4 <== xor t51 t66 ;
  s5 <== xor t47 t65 ;
  s1 <== xor t64 (not s3) ;
  s2 <== xor t55 (not t67) ;
  [s7; s6; s5; s4; s3; s2; s1; s0].
(** [~a] on uint64_t *)
Definition not_u64 (a : Z) : Z := u64 (Z.lnot a).
(** aes.c 78-251 *)
Definition br_aes_ct64_bitslice_Sbox (q : list Z) : M (list Z) :=
  with8 q (sbox_circuit Z.lxor Z.land not_u64).

(** aes.c 255-263: the new values of x and y *)
Definition SWAPN_x (cl ch s a b : Z) : Z := (a .& cl) .| u64 ((b .& cl) << s).
Definition SWAPN_y (cl ch s a b : Z) : Z := ((a .& ch) >> s) .| (b .& ch).
(** aes.c 265-267 *)
Definition SWAP2_x : Z -> Z -> Z := SWAPN_x 0x5555555555555555 0xAAAAAAAAAAAAAAAA 1.
Definition SWAP2_y : Z -> Z -> Z := SWAPN_y 0x5555555555555555 0xAAAAAAAAAAAAAAAA 1.
Definition SWAP4_x : Z -> Z -> Z := SWAPN_x 0x3333333333333333 0xCCCCCCCCCCCCCCCC 2.
Definition SWAP4_y : Z -> Z -> Z := SWAPN_y 0x3333333333333333 0xCCCCCCCCCCCCCCCC 2.
Definition SWAP8_x : Z -> Z -> Z := SWAPN_x 0x0F0F0F0F0F0F0F0F 0xF0F0F0F0F0F0F0F0 4.
Definition SWAP8_y : Z -> Z -> Z := SWAPN_y 0x0F0F0F0F0F0F0F0F 0xF0F0F0F0F0F0F0F0 4.
(** aes.c 253-283. Each macro is a pair of assignments; the old values are read first. *)
Definition ortho_words (q0 q1 q2 q3 q4 q5 q6 q7 : Z) : list Z :=
  a0 <== SWAP2_x q0 q1 ; a1 <== SWAP2_y q0 q1 ;
  a2 <== SWAP2_x q2 q3 ; a3 <== SWAP2_y q2 q3 ;
  a4 <== SWAP2_x q4 q5 ; a5 <== SWAP2_y q4 q5 ;
  a6 <== SWAP2_x q6 q7 ; a7 <== SWAP2_y q6 q7 ;
  b0 <== SWAP4_x a0 a2 ; b2 <== SWAP4_y a0 a2 ;
  b1 <== SWAP4_x a1 a3 ; b3 <== SWAP4_y a1 a3 ;
  b4 <== SWAP4_x a4 a6 ; b6 <== SWAP4_y a4 a6 ;
  b5 <== SWAP4_x a5 a7 ; b7 <== SWAP4_y a5 a7 ;
  c0 <== SWAP8_x b0 b4 ; c4 <== SWAP8_y b0 b4 ;
  c1 <== SWAP8_x b1 b5 ; c5 <== SWAP8_y b1 b5 ;
  c2 <== SWAP8_x b2 b6 ; c6 <== SWAP8_y b2 b6 ;
  c3 <== SWAP8_x b3 b7 ; c7 <== SWAP8_y b3 b7 ;
  [c0; c1; c2; c3; c4; c5; c6; c7].
Definition br_aes_ct64_ortho (q : list Z) : M (list Z) := with8 q ortho_words.

(** aes.c 285-312: one of the four words spread out (lines 290-309), and the results *q0, *q1 for
    the words w[off .. off + 3] *)
Definition spread (x : Z) : Z :=
  let x := x .| u64 (x << 16) in
  let x := x .& 0x0000FFFF0000FFFF in
  let x := x .| u64 (x << 8) in
  x .& 0x00FF00FF00FF00FF.
Definition interleave (x0 x2 : Z) : Z := spread x0 .| u64 (spread x2 << 8).
Definition br_aes_ct64_interleave_in (w : list Z) (off : Z) : M (Z * Z) :=
  x0 <- aget w off ;; x1 <- aget w (off + 1) ;;
  x2 <- aget w (off + 2) ;; x3 <- aget w (off + 3) ;;
  ret (interleave x0 x2, interleave x1 x3).
(** aes.c 314-334: the reverse for one word, and the words w[off .. off + 3] *)
Definition gather (x : Z) : Z :=
  let x := x .| (x >> 8) in
  let x := x .& 0x0000FFFF0000FFFF in
  u32 x .| u32 (x >> 16).
Definition br_aes_ct64_interleave_out (w : list Z) (off q0 q1 : Z) : M (list Z) :=
  w <- aset w off (gather (q0 .& 0x00FF00FF00FF00FF)) ;;
  w <- aset w (off + 1) (gather (q1 .& 0x00FF00FF00FF00FF)) ;;
  w <- aset w (off + 2) (gather ((q0 >> 8) .& 0x00FF00FF00FF00FF)) ;;
  aset w (off + 3) (gather ((q1 >> 8) .& 0x00FF00FF00FF00FF)).

(** aes.c 336-337 *)
Definition Rcon : list Z := [1; 2; 4; 8; 16; 32; 64; 128; 27; 54].

(** aes.c 339-349 *)
Definition sub_word (x : Z) : M Z :=
  q <- br_aes_ct64_ortho [x; 0; 0; 0; 0; 0; 0; 0] ;;
  q <- br_aes_ct64_bitslice_Sbox q ;;
  q <- br_aes_ct64_ortho q ;;
  q0 <- aget q 0 ;;
  ret (u32 q0).

(** The masks of aes.c 395-402 and 417-420 *)
Definition mask1 : Z := 0x1111111111111111.
Definition mask2 : Z := 0x2222222222222222.
Definition mask4 : Z := 0x4444444444444444.
Definition mask8 : Z := 0x8888888888888888.

(** aes.c 361-381: the key schedule on words. [key_len] is 16, 24 or 32 in all calls, so that the
    unsigned arithmetic on it does not wrap around. *)
Definition keysched_words (J : junk) (key : list Z) (key_len : Z) : M (list Z) :=
  let nrounds := 10 + ((key_len - 16) >> 2) in
  let nk := key_len >> 2 in
  let nkf := (nrounds + 1) << 2 in
  skey <- br_range_dec32le (uninit J 0 60) nk key 0 ;;
  tmp <- aget skey (nk - 1) ;;
  '(skey, _, _, _) <- for_up nk nkf 1 (fun i '(skey, tmp, j, k) =>
    tmp <- branch (j =? 0)
      (let tmp := u32 (tmp << 24) .| (tmp >> 8) in
       s <- sub_word tmp ;; r <- aget Rcon k ;; ret (s .^ r))
      (branch ((6 <? nk) && (j =? 4)) (sub_word tmp) (ret tmp)) ;;
    w <- aget skey (i - nk) ;;
    let tmp := tmp .^ w in
    skey <- aset skey i tmp ;;
    branch (j + 1 =? nk) (ret (skey, tmp, 0, k + 1)) (ret (skey, tmp, j + 1, k)))
    (skey, tmp, 0, 0) ;;
  ret skey.
(** aes.c 395-402 *)
Definition compress (q0 q1 q2 q3 : Z) : Z :=
  (q0 .& mask1) .| (q1 .& mask2) .| (q2 .& mask4) .| (q3 .& mask8).
(** aes.c 351-404 *)
Definition br_aes_ct64_keysched (J : junk) (comp_skey key : list Z) (key_len : Z) : M (list Z) :=
  let nkf := ((10 + ((key_len - 16) >> 2)) + 1) << 2 in
  skey <- keysched_words J key key_len ;;
  '(comp_skey, _) <- for_up 0 nkf 4 (fun i '(comp_skey, j) =>
    '(x, y) <- br_aes_ct64_interleave_in skey i ;;
    q <- br_aes_ct64_ortho [x; x; x; x; y; y; y; y] ;;
    '(c0, c1) <- with8 q (fun q0 q1 q2 q3 q4 q5 q6 q7 =>
                            (compress q0 q1 q2 q3, compress q4 q5 q6 q7)) ;;
    comp_skey <- aset comp_skey j c0 ;;
    comp_skey <- aset comp_skey (j + 1) c1 ;;
    ret (comp_skey, j + 2)) (comp_skey, 0) ;;
  ret comp_skey.

(** aes.c 424-427, on uint64_t *)
Definition smear (x : Z) : Z := u64 (u64 (x << 4) - x).
(** aes.c 406-429 *)
Definition br_aes_ct64_skey_expand (skey comp_skey : list Z) (nrounds : Z) : M (list Z) :=
  let n := (nrounds + 1) << 1 in
  '(skey, _) <- for_up 0 n 1 (fun u '(skey, v) =>
    x <- aget comp_skey u ;;
    skey <- aset skey v (smear (x .& mask1)) ;;
    skey <- aset skey (v + 1) (smear ((x .& mask2) >> 1)) ;;
    skey <- aset skey (v + 2) (smear ((x .& mask4) >> 2)) ;;
    skey <- aset skey (v + 3) (smear ((x .& mask8) >> 3)) ;;
    ret (skey, v + 4)) (skey, 0) ;;
  ret skey.

(** aes.c 431-441: the round key is at sk[off .. off + 7]; the eight statements are a loop here *)
Definition add_round_key (q sk : list Z) (off : Z) : M (list Z) :=
  for_up 0 8 1 (fun i q =>
    a <- aget q i ;; b <- aget sk (off + i) ;; aset q i (a .^ b)) q.
(** aes.c 451-458 *)
Definition shift_word (x : Z) : Z :=
  (x .& 0x000000000000FFFF) .| ((x .& 0x00000000FFF00000) >> 4) .| u64 ((x .& 0x00000000000F0000) << 12)
  .| ((x .& 0x0000FF0000000000) >> 8) .| u64 ((x .& 0x000000FF00000000) << 8)
  .| ((x .& 0xF000000000000000) >> 12) .| u64 ((x .& 0x0FFF000000000000) << 4).
(** aes.c 443-460 *)
Definition shift_rows (q : list Z) : M (list Z) :=
  for_up 0 8 1 (fun i q => x <- aget q i ;; aset q i (shift_word x)) q.
(** aes.c 462 *)
Definition rotr32 (x : Z) : Z := u64 (x << 32) .| (x >> 32).
(** aes.c 477-484 *)
Definition rotr16 (x : Z) : Z := (x >> 16) .| u64 (x << 48).
(** aes.c 464-494 *)
Definition mix_words (q0 q1 q2 q3 q4 q5 q6 q7 : Z) : list Z :=
  r0 <== rotr16 q0 ; r1 <== rotr16 q1 ; r2 <== rotr16 q2 ; r3 <== rotr16 q3 ;
  r4 <== rotr16 q4 ; r5 <== rotr16 q5 ; r6 <== rotr16 q6 ; r7 <== rotr16 q7 ;
  [q7 .^ r7 .^ r0 .^ rotr32 (q0 .^ r0);
   q0 .^ r0 .^ q7 .^ r7 .^ r1 .^ rotr32 (q1 .^ r1);
   q1 .^ r1 .^ r2 .^ rotr32 (q2 .^ r2);
   q2 .^ r2 .^ q7 .^ r7 .^ r3 .^ rotr32 (q3 .^ r3);
   q3 .^ r3 .^ q7 .^ r7 .^ r4 .^ rotr32 (q4 .^ r4);
   q4 .^ r4 .^ r5 .^ rotr32 (q5 .^ r5);
   q5 .^ r5 .^ r6 .^ rotr32 (q6 .^ r6);
   q6 .^ r6 .^ r7 .^ rotr32 (q7 .^ r7)].
Definition mix_columns (q : list Z) : M (list Z) := with8 q mix_words.

(** aes.c 496-500: x[i] *)
Definition inc4_be (x : list Z) (i : Z) : M (list Z) :=
  w <- aget x i ;; aset x i (br_swap32 (u32 (br_swap32 w + 4))).

(** aes.c 502-534: out[off .. off + 63] *)
Definition aes_ecb4x (J : junk) (out : list Z) (off : Z) (ivw sk_exp : list Z) (nrounds : Z)
  : M (list Z) :=
  w <- memcpy (uninit J 0 16) 0 ivw 0 16 ;;
  q <- for_up 0 4 1 (fun i q =>
         '(a, b) <- br_aes_ct64_interleave_in w (i << 2) ;;
         q <- aset q i a ;; aset q (i + 4) b) (uninit J 1 8) ;;
  q <- br_aes_ct64_ortho q ;;
  q <- add_round_key q sk_exp 0 ;;
  q <- for_up 1 nrounds 1 (fun i q =>
         q <- br_aes_ct64_bitslice_Sbox q ;;
         q <- shift_rows q ;;
         q <- mix_columns q ;;
         add_round_key q sk_exp (i << 3)) q ;;
  q <- br_aes_ct64_bitslice_Sbox q ;;
  q <- shift_rows q ;;
  q <- add_round_key q sk_exp (8 * nrounds) ;;
  q <- br_aes_ct64_ortho q ;;
  w <- for_up 0 4 1 (fun i w =>
         a <- aget q i ;; b <- aget q (i + 4) ;;
         br_aes_ct64_interleave_out w (i << 2) a b) w ;;
  br_range_enc32le out off w 16.

(** aes.c 536-546: out and ivw *)
Definition aes_ctr4x (J : junk) (out : list Z) (off : Z) (ivw sk_exp : list Z) (nrounds : Z)
  : M (list Z * list Z) :=
  out <- aes_ecb4x J out off ivw sk_exp nrounds ;;
  ivw <- inc4_be ivw 3 ;;
  ivw <- inc4_be ivw 7 ;;
  ivw <- inc4_be ivw 11 ;;
  ivw <- inc4_be ivw 15 ;;
  ret (out, ivw).

(** aes.c 548-569. The loop runs [nblocks / 4] times, which is at most the fuel. The part of
    [blocks] that is not written before the last call is read by it: it holds arbitrary values of
    type uint32_t. *)
Definition aes_ecb (J : junk) (out inp : list Z) (nblocks : Z) (rkeys : list Z) (nrounds : Z)
  : M (list Z) :=
  '(out, blocks, nblocks, off) <- while (Z.to_nat nblocks) (fun '(_, _, nblocks, _) => 4 <=? nblocks)
    (fun '(out, blocks, nblocks, off) =>
       blocks <- br_range_dec32le blocks 16 inp off ;;
       out <- aes_ecb4x (sub J 2) out off blocks rkeys nrounds ;;
       ret (out, blocks, nblocks - 4, off + 64))
    (out, map u32 (uninit J 0 16), nblocks, 0) ;;
  branch (negb (nblocks =? 0))
    (blocks <- br_range_dec32le blocks (nblocks * 4) inp off ;;
     t <- aes_ecb4x (sub J 3) (uninit J 1 64) 0 blocks rkeys nrounds ;;
     memcpy out off t 0 (nblocks * 16))
    (ret out).

(** aes.c 571-602. The three copies are between parts of one array that do not overlap. *)
Definition aes_ctr (J : junk) (out : list Z) (outlen : Z) (iv rkeys : list Z) (nrounds : Z)
  : M (list Z) :=
  let cc := 0 in
  ivw <- br_range_dec32le (uninit J 0 16) 3 iv 0 ;;
  ivw <- memcpy ivw 4 ivw 0 3 ;;
  ivw <- memcpy ivw 8 ivw 0 3 ;;
  ivw <- memcpy ivw 12 ivw 0 3 ;;
  ivw <- aset ivw 3 (br_swap32 cc) ;;
  ivw <- aset ivw 7 (br_swap32 (u32 (cc + 1))) ;;
  ivw <- aset ivw 11 (br_swap32 (u32 (cc + 2))) ;;
  ivw <- aset ivw 15 (br_swap32 (u32 (cc + 3))) ;;
  '(out, ivw, outlen, off) <- while (Z.to_nat outlen) (fun '(_, _, outlen, _) => 64 <? outlen)
    (fun '(out, ivw, outlen, off) =>
       '(out, ivw) <- aes_ctr4x (sub J 2) out off ivw rkeys nrounds ;;
       ret (out, ivw, outlen - 64, off + 64))
    (out, ivw, outlen, 0) ;;
  branch (0 <? outlen)
    ('(tmp, _) <- aes_ctr4x (sub J 3) (uninit J 1 64) 0 ivw rkeys nrounds ;;
     for_up 0 outlen 1 (fun i out => b <- aget tmp i ;; aset out (off + i) b) out)
    (ret out).

(** aes.c 604-657. The allocation succeeds (otherwise the program ends with exit(111)); the new
    memory has arbitrary contents. The _ctr_keyexp functions are the same. *)
Definition aes128_ecb_keyexp (J : junk) (key : list Z) : M (list Z) :=
  skey <- br_aes_ct64_keysched (sub J 2) (uninit J 0 22) key 16 ;;
  br_aes_ct64_skey_expand (uninit J 1 88) skey 10.
Definition aes192_ecb_keyexp (J : junk) (key : list Z) : M (list Z) :=
  skey <- br_aes_ct64_keysched (sub J 2) (uninit J 0 26) key 24 ;;
  br_aes_ct64_skey_expand (uninit J 1 104) skey 12.
Definition aes256_ecb_keyexp (J : junk) (key : list Z) : M (list Z) :=
  skey <- br_aes_ct64_keysched (sub J 2) (uninit J 0 30) key 32 ;;
  br_aes_ct64_skey_expand (uninit J 1 120) skey 14.

(** aes.c 659-693 *)
Definition aes128_ecb (J : junk) (out inp : list Z) (nblocks : Z) (sk_exp : list Z) : M (list Z) :=
  aes_ecb J out inp nblocks sk_exp 10.
Definition aes192_ecb (J : junk) (out inp : list Z) (nblocks : Z) (sk_exp : list Z) : M (list Z) :=
  aes_ecb J out inp nblocks sk_exp 12.
Definition aes256_ecb (J : junk) (out inp : list Z) (nblocks : Z) (sk_exp : list Z) : M (list Z) :=
  aes_ecb J out inp nblocks sk_exp 14.
Definition aes128_ctr (J : junk) (out : list Z) (outlen : Z) (iv sk_exp : list Z) : M (list Z) :=
  aes_ctr J out outlen iv sk_exp 10.
Definition aes192_ctr (J : junk) (out : list Z) (outlen : Z) (iv sk_exp : list Z) : M (list Z) :=
  aes_ctr J out outlen iv sk_exp 12.
Definition aes256_ctr (J : junk) (out : list Z) (outlen : Z) (iv sk_exp : list Z) : M (list Z) :=
  aes_ctr J out outlen iv sk_exp 14.
