(** * The assembly routines of mlkem/native/x86_64

    Transcribed from the .S and .inc files: an assembler macro is a Definition with the
    same name and parameters (the default values of parameters are written out at the
    call), instructions keep their order and operands. *)

From Coq Require Import ZArith List Bool.
From Verif Require Import CSem ModelX86.
Import ListNotations.
Open Scope Z_scope.

(** ** mlkem/native/x86_64/consts.c and consts.h *)

(** mlkem/native/x86_64/consts.h 15-27: the positions of the constants in [qdata], in words
    (_16XQ and so on) *)
Definition XQ : Z := 0.
Definition XQINV : Z := 16.
Definition XV : Z := 32.
Definition XFLO : Z := 48.
Definition XFHI : Z := 64.
Definition XMONTSQLO : Z := 80.
Definition XMONTSQHI : Z := 96.
Definition XMASK : Z := 112.
Definition REVIDXB : Z := 128.
Definition REVIDXD : Z := 144.
Definition ZETAS_EXP : Z := 160.
Definition XSHIFT : Z := 624.

(** mlkem/native/x86_64/x86_64_zetas.i 14-56 *)
Definition zetas_exp : list Z :=
  [31498; 31498; 31498; 31498; -758; -758; -758; -758; 0; 0; 0; 0;
   0; 0; 0; 0; 14745; 14745; 14745; 14745; 14745; 14745; 14745; 14745;
   14745; 14745; 14745; 14745; 14745; 14745; 14745; 14745; -359; -359; -359; -359;
   -359; -359; -359; -359; -359; -359; -359; -359; -359; -359; -359; -359;
   13525; 13525; 13525; 13525; 13525; 13525; 13525; 13525; -12402; -12402; -12402; -12402;
   -12402; -12402; -12402; -12402; 1493; 1493; 1493; 1493; 1493; 1493; 1493; 1493;
   1422; 1422; 1422; 1422; 1422; 1422; 1422; 1422; -20907; -20907; -20907; -20907;
   27758; 27758; 27758; 27758; -3799; -3799; -3799; -3799; -15690; -15690; -15690; -15690;
   -171; -171; -171; -171; 622; 622; 622; 622; 1577; 1577; 1577; 1577;
   182; 182; 182; 182; -5827; -5827; 17363; 17363; -26360; -26360; -29057; -29057;
   5571; 5571; -1102; -1102; 21438; 21438; -26242; -26242; 573; 573; -1325; -1325;
   264; 264; 383; 383; -829; -829; 1458; 1458; -1602; -1602; -130; -130;
   -5689; -6516; 1496; 30967; -23565; 20179; 20710; 25080; -12796; 26616; 16064; -12442;
   9134; -650; -25986; 27837; 1223; 652; -552; 1015; -1293; 1491; -282; -1544;
   516; -8; -320; -666; -1618; -1162; 126; 1469; -335; -11477; -32227; 20494;
   -27738; 945; -14883; 6182; 32010; 10631; 29175; -28762; -18486; 17560; -14430; -5276;
   -1103; 555; -1251; 1550; 422; 177; -291; 1574; -246; 1159; -777; -602;
   -1590; -872; 418; -156; 11182; 13387; -14233; -21655; 13131; -4587; 23092; 5493;
   -32502; 30317; -18741; 12639; 20100; 18525; 19529; -12619; 430; 843; 871; 105;
   587; -235; -460; 1653; 778; -147; 1483; 1119; 644; 349; 329; -75;
   787; 787; 787; 787; 787; 787; 787; 787; 787; 787; 787; 787;
   787; 787; 787; 787; -1517; -1517; -1517; -1517; -1517; -1517; -1517; -1517;
   -1517; -1517; -1517; -1517; -1517; -1517; -1517; -1517; 28191; 28191; 28191; 28191;
   28191; 28191; 28191; 28191; -16694; -16694; -16694; -16694; -16694; -16694; -16694; -16694;
   287; 287; 287; 287; 287; 287; 287; 287; 202; 202; 202; 202;
   202; 202; 202; 202; 10690; 10690; 10690; 10690; 1358; 1358; 1358; 1358;
   -11202; -11202; -11202; -11202; 31164; 31164; 31164; 31164; 962; 962; 962; 962;
   -1202; -1202; -1202; -1202; -1474; -1474; -1474; -1474; 1468; 1468; 1468; 1468;
   -28073; -28073; 24313; 24313; -10532; -10532; 8800; 8800; 18426; 18426; 8859; 8859;
   26675; 26675; -16163; -16163; -681; -681; 1017; 1017; 732; 732; 608; 608;
   -1542; -1542; 411; 411; -205; -205; -1571; -1571; 19883; -28250; -15887; -8898;
   -28309; 9075; -30199; 18249; 13426; 14017; -29156; -12757; 16832; 4311; -24155; -17915;
   -853; -90; -271; 830; 107; -1421; -247; -951; -398; 961; -1508; -725;
   448; -1065; 677; -1275; -31183; 25435; -7382; 24391; -20927; 10946; 24214; 16989;
   10335; -7934; -22502; 10906; 31636; 28644; 23998; -17422; 817; 603; 1322; -1465;
   -1215; 1218; -874; -1187; -1185; -1278; -1510; -870; -108; 996; 958; 1522;
   20297; 2146; 15355; -32384; -6280; -14903; -11044; 14469; -21498; -20198; 23210; -17442;
   -23860; -20257; 7756; 23132; 1097; 610; -1285; 384; -136; -1335; 220; -1659;
   -1530; 794; -854; 478; -308; 991; -1460; 1628].

(** mlkem/native/x86_64/consts.c 19-87 *)
Definition qdata : list Z :=
  repeat 3329 16 ++ repeat (-3327) 16 ++ repeat 20159 16 ++ repeat (-10079) 16 ++
  repeat 1441 16 ++ repeat 20553 16 ++ repeat 1353 16 ++ repeat 4095 16 ++
  [3854; 3340; 2826; 2312; 1798; 1284; 770; 256; 3854; 3340; 2826; 2312; 1798; 1284; 770; 256] ++
  [7; 0; 6; 0; 5; 0; 4; 0; 3; 0; 2; 0; 1; 0; 0; 0] ++
  zetas_exp ++ repeat 32 16.

(** ** mlkem/native/x86_64/fq.inc: Arithmetic macros *)

(** mlkem/native/x86_64/fq.inc 11-20 (every use has rs = 0) *)
Definition red16 (r x : nat) : list instr :=
  [vpmulhw 1 r x;
   vpsraw 10 x x;
   vpmullw 0 x x;
   vpsubw x r r].

(** mlkem/native/x86_64/fq.inc 22-27 *)
Definition csubq (r x : nat) : list instr :=
  [vpsubw 0 r r;
   vpsraw 15 r x;
   vpand 0 x x;
   vpaddw x r r].

(** mlkem/native/x86_64/fq.inc 29-33 *)
Definition caddq (r x : nat) : list instr :=
  [vpsraw 15 r x;
   vpand 0 x x;
   vpaddw x r r].

(** mlkem/native/x86_64/fq.inc 37-42 *)
Definition fqmulprecomp (al ah b x : nat) : list instr :=
  [vpmullw al b x;
   vpmulhw ah b b;
   vpmulhw 0 x x;
   vpsubw x b b].

(** ** mlkem/native/x86_64/shuffle.inc: Shuffle macros *)

(** mlkem/native/x86_64/shuffle.inc 6-9 *)
Definition shuffle8 (r0 r1 r2 r3 : nat) : list instr :=
  [vperm2i128 32 r1 r0 r2;
   vperm2i128 49 r1 r0 r3].

(** mlkem/native/x86_64/shuffle.inc 11-14 *)
Definition shuffle4 (r0 r1 r2 r3 : nat) : list instr :=
  [vpunpcklqdq r1 r0 r2;
   vpunpckhqdq r1 r0 r3].

(** mlkem/native/x86_64/shuffle.inc 19-30 *)
Definition shuffle2 (r0 r1 r2 r3 : nat) : list instr :=
  [vmovsldup r1 r2;
   vpblendd 170 r2 r0 r2;
   vpsrlq 32 r0 r0;
   vpblendd 170 r1 r0 r3].

(** mlkem/native/x86_64/shuffle.inc 32-37 *)
Definition shuffle1 (r0 r1 r2 r3 : nat) : list instr :=
  [vpslld 16 r1 r2;
   vpblendw 170 r2 r0 r2;
   vpsrld 16 r0 r0;
   vpblendw 170 r1 r0 r3].

(** ** mlkem/native/x86_64/fq.S: poly_reduce and poly_tomont *)

(** mlkem/native/x86_64/fq.S 23-62 *)
Definition reduce128_avx2 : list instr :=
  [vmovdqa_ld rdi 0 2;
   vmovdqa_ld rdi (32) 3;
   vmovdqa_ld rdi (64) 4;
   vmovdqa_ld rdi (96) 5;
   vmovdqa_ld rdi (128) 6;
   vmovdqa_ld rdi (160) 7;
   vmovdqa_ld rdi (192) 8;
   vmovdqa_ld rdi (224) 9] ++
  red16 2 12 ++
  red16 3 12 ++
  red16 4 12 ++
  red16 5 12 ++
  red16 6 12 ++
  red16 7 12 ++
  red16 8 12 ++
  red16 9 12 ++
  csubq 2 12 ++
  csubq 3 12 ++
  csubq 4 12 ++
  csubq 5 12 ++
  csubq 6 12 ++
  csubq 7 12 ++
  csubq 8 12 ++
  csubq 9 12 ++
  [vmovdqa_st 2 rdi 0;
   vmovdqa_st 3 rdi (32);
   vmovdqa_st 4 rdi (64);
   vmovdqa_st 5 rdi (96);
   vmovdqa_st 6 rdi (128);
   vmovdqa_st 7 rdi (160);
   vmovdqa_st 8 rdi (192);
   vmovdqa_st 9 rdi (224)].

(** mlkem/native/x86_64/fq.S 65-72 *)
Definition reduce_avx2 : list instr :=
  [vmovdqa_ld rsi (XQ*2) 0;
   vmovdqa_ld rsi (XV*2) 1] ++
  reduce128_avx2 ++
  [add_imm 256 rdi] ++
  reduce128_avx2.

(** mlkem/native/x86_64/fq.S 75-105 *)
Definition tomont128_avx2 : list instr :=
  [vmovdqa_ld rdi 0 3;
   vmovdqa_ld rdi (32) 4;
   vmovdqa_ld rdi (64) 5;
   vmovdqa_ld rdi (96) 6;
   vmovdqa_ld rdi (128) 7;
   vmovdqa_ld rdi (160) 8;
   vmovdqa_ld rdi (192) 9;
   vmovdqa_ld rdi (224) 10] ++
  fqmulprecomp 1 2 3 11 ++
  fqmulprecomp 1 2 4 12 ++
  fqmulprecomp 1 2 5 13 ++
  fqmulprecomp 1 2 6 14 ++
  fqmulprecomp 1 2 7 15 ++
  fqmulprecomp 1 2 8 11 ++
  fqmulprecomp 1 2 9 12 ++
  fqmulprecomp 1 2 10 13 ++
  [vmovdqa_st 3 rdi 0;
   vmovdqa_st 4 rdi (32);
   vmovdqa_st 5 rdi (64);
   vmovdqa_st 6 rdi (96);
   vmovdqa_st 7 rdi (128);
   vmovdqa_st 8 rdi (160);
   vmovdqa_st 9 rdi (192);
   vmovdqa_st 10 rdi (224)].

(** mlkem/native/x86_64/fq.S 108-116 *)
Definition tomont_avx2 : list instr :=
  [vmovdqa_ld rsi (XQ*2) 0;
   vmovdqa_ld rsi (XMONTSQLO*2) 1;
   vmovdqa_ld rsi (XMONTSQHI*2) 2] ++
  tomont128_avx2 ++
  [add_imm 256 rdi] ++
  tomont128_avx2.

(** ** mlkem/native/x86_64/shuffle.S: Changes of order, (de)serialization *)

(** mlkem/native/x86_64/shuffle.S 19-60 *)
Definition nttpack_avx2 : list instr :=
  [vmovdqa_ld rdi 0 4;
   vmovdqa_ld rdi (32) 5;
   vmovdqa_ld rdi (64) 6;
   vmovdqa_ld rdi (96) 7;
   vmovdqa_ld rdi (128) 8;
   vmovdqa_ld rdi (160) 9;
   vmovdqa_ld rdi (192) 10;
   vmovdqa_ld rdi (224) 11] ++
  shuffle1 4 5 3 5 ++
  shuffle1 6 7 4 7 ++
  shuffle1 8 9 6 9 ++
  shuffle1 10 11 8 11 ++
  shuffle2 3 4 10 4 ++
  shuffle2 6 8 3 8 ++
  shuffle2 5 7 6 7 ++
  shuffle2 9 11 5 11 ++
  shuffle4 10 3 9 3 ++
  shuffle4 6 5 10 5 ++
  shuffle4 4 8 6 8 ++
  shuffle4 7 11 4 11 ++
  shuffle8 9 10 7 10 ++
  shuffle8 6 4 9 4 ++
  shuffle8 3 5 6 5 ++
  shuffle8 8 11 3 11 ++
  [vmovdqa_st 7 rdi 0;
   vmovdqa_st 9 rdi (32);
   vmovdqa_st 6 rdi (64);
   vmovdqa_st 3 rdi (96);
   vmovdqa_st 10 rdi (128);
   vmovdqa_st 4 rdi (160);
   vmovdqa_st 5 rdi (192);
   vmovdqa_st 11 rdi (224)].

(** mlkem/native/x86_64/shuffle.S 62-103 *)
Definition nttunpack128_avx2 : list instr :=
  [vmovdqa_ld rdi 0 4;
   vmovdqa_ld rdi (32) 5;
   vmovdqa_ld rdi (64) 6;
   vmovdqa_ld rdi (96) 7;
   vmovdqa_ld rdi (128) 8;
   vmovdqa_ld rdi (160) 9;
   vmovdqa_ld rdi (192) 10;
   vmovdqa_ld rdi (224) 11] ++
  shuffle8 4 8 3 8 ++
  shuffle8 5 9 4 9 ++
  shuffle8 6 10 5 10 ++
  shuffle8 7 11 6 11 ++
  shuffle4 3 5 7 5 ++
  shuffle4 8 10 3 10 ++
  shuffle4 4 6 8 6 ++
  shuffle4 9 11 4 11 ++
  shuffle2 7 8 9 8 ++
  shuffle2 5 6 7 6 ++
  shuffle2 3 4 5 4 ++
  shuffle2 10 11 3 11 ++
  shuffle1 9 5 10 5 ++
  shuffle1 8 4 9 4 ++
  shuffle1 7 3 8 3 ++
  shuffle1 6 11 7 11 ++
  [vmovdqa_st 10 rdi 0;
   vmovdqa_st 5 rdi (32);
   vmovdqa_st 9 rdi (64);
   vmovdqa_st 4 rdi (96);
   vmovdqa_st 8 rdi (128);
   vmovdqa_st 3 rdi (160);
   vmovdqa_st 7 rdi (192);
   vmovdqa_st 11 rdi (224)].

(** mlkem/native/x86_64/shuffle.S 106-110 *)
Definition nttunpack_avx2 : list instr :=
  nttunpack128_avx2 ++
  [add_imm 256 rdi] ++
  nttunpack128_avx2.

(** mlkem/native/x86_64/shuffle.S 112-170 *)
Definition ntttobytes128_avx : list instr :=
  [vmovdqa_ld rsi 0 5;
   vmovdqa_ld rsi (32) 6;
   vmovdqa_ld rsi (64) 7;
   vmovdqa_ld rsi (96) 8;
   vmovdqa_ld rsi (128) 9;
   vmovdqa_ld rsi (160) 10;
   vmovdqa_ld rsi (192) 11;
   vmovdqa_ld rsi (224) 12;
   vpsllw 12 6 4;
   vpor 4 5 4;
   vpsrlw 4 6 5;
   vpsllw 8 7 6;
   vpor 5 6 5;
   vpsrlw 8 7 6;
   vpsllw 4 8 7;
   vpor 6 7 6;
   vpsllw 12 10 7;
   vpor 7 9 7;
   vpsrlw 4 10 8;
   vpsllw 8 11 9;
   vpor 8 9 8;
   vpsrlw 8 11 9;
   vpsllw 4 12 10;
   vpor 9 10 9] ++
  shuffle1 4 5 3 5 ++
  shuffle1 6 7 4 7 ++
  shuffle1 8 9 6 9 ++
  shuffle2 3 4 8 4 ++
  shuffle2 6 5 3 5 ++
  shuffle2 7 9 6 9 ++
  shuffle4 8 3 7 3 ++
  shuffle4 6 4 8 4 ++
  shuffle4 5 9 6 9 ++
  shuffle8 7 8 5 8 ++
  shuffle8 6 3 7 3 ++
  shuffle8 4 9 6 9 ++
  [vmovdqu_st 5 rdi 0;
   vmovdqu_st 7 rdi (32);
   vmovdqu_st 6 rdi (64);
   vmovdqu_st 8 rdi (96);
   vmovdqu_st 3 rdi (128);
   vmovdqu_st 9 rdi (160)].

(** mlkem/native/x86_64/shuffle.S 173-180 *)
Definition ntttobytes_avx2 : list instr :=
  [vmovdqa_ld rdx (XQ*2) 0] ++
  ntttobytes128_avx ++
  [add_imm 256 rsi;
   add_imm 192 rdi] ++
  ntttobytes128_avx.

(** mlkem/native/x86_64/shuffle.S 182-246 *)
Definition nttfrombytes128_avx : list instr :=
  [vmovdqu_ld rsi 0 4;
   vmovdqu_ld rsi (32) 5;
   vmovdqu_ld rsi (64) 6;
   vmovdqu_ld rsi (96) 7;
   vmovdqu_ld rsi (128) 8;
   vmovdqu_ld rsi (160) 9] ++
  shuffle8 4 7 3 7 ++
  shuffle8 5 8 4 8 ++
  shuffle8 6 9 5 9 ++
  shuffle4 3 8 6 8 ++
  shuffle4 7 5 3 5 ++
  shuffle4 4 9 7 9 ++
  shuffle2 6 5 4 5 ++
  shuffle2 8 7 6 7 ++
  shuffle2 3 9 8 9 ++
  shuffle1 4 7 10 7 ++
  shuffle1 5 8 4 8 ++
  shuffle1 6 9 5 9 ++
  [vpsrlw 12 10 11;
   vpsllw 4 7 12;
   vpor 11 12 11;
   vpand 0 10 10;
   vpand 0 11 11;
   vpsrlw 8 7 12;
   vpsllw 8 4 13;
   vpor 12 13 12;
   vpand 0 12 12;
   vpsrlw 4 4 13;
   vpand 0 13 13;
   vpsrlw 12 8 14;
   vpsllw 4 5 15;
   vpor 14 15 14;
   vpand 0 8 8;
   vpand 0 14 14;
   vpsrlw 8 5 15;
   vpsllw 8 9 1;
   vpor 15 1 15;
   vpand 0 15 15;
   vpsrlw 4 9 1;
   vpand 0 1 1;
   vmovdqa_st 10 rdi 0;
   vmovdqa_st 11 rdi (32);
   vmovdqa_st 12 rdi (64);
   vmovdqa_st 13 rdi (96);
   vmovdqa_st 8 rdi (128);
   vmovdqa_st 14 rdi (160);
   vmovdqa_st 15 rdi (192);
   vmovdqa_st 1 rdi (224)].

(** mlkem/native/x86_64/shuffle.S 249-256 *)
Definition nttfrombytes_avx2 : list instr :=
  [vmovdqa_ld rdx (XMASK*2) 0] ++
  nttfrombytes128_avx ++
  [add_imm 256 rdi;
   add_imm 192 rsi] ++
  nttfrombytes128_avx.

(** ** mlkem/native/x86_64/basemul.S: Base multiplication *)

(** mlkem/native/x86_64/basemul.S 17-117 *)
Definition schoolbook (off : Z) : list instr :=
  [vmovdqa_ld rcx (XQINV*2) 0;
   vmovdqa_ld rsi ((64*off+ 0)*2) 1;
   vmovdqa_ld rsi ((64*off+16)*2) 2;
   vmovdqa_ld rsi ((64*off+32)*2) 3;
   vmovdqa_ld rsi ((64*off+48)*2) 4;
   vpmullw 0 1 9;
   vpmullw 0 2 10;
   vpmullw 0 3 11;
   vpmullw 0 4 12;
   vmovdqa_ld rdx ((64*off+ 0)*2) 5;
   vmovdqa_ld rdx ((64*off+16)*2) 6;
   vpmulhw 5 1 13;
   vpmulhw 6 1 1;
   vpmulhw 5 2 14;
   vpmulhw 6 2 2;
   vmovdqa_ld rdx ((64*off+32)*2) 7;
   vmovdqa_ld rdx ((64*off+48)*2) 8;
   vpmulhw 7 3 15;
   vpmulhw 8 3 3;
   vpmulhw 7 4 0;
   vpmulhw 8 4 4;
   vmovdqa_st 13 rsp 0;
   vpmullw 5 9 13;
   vpmullw 6 9 9;
   vpmullw 5 10 5;
   vpmullw 6 10 10;
   vpmullw 7 11 6;
   vpmullw 8 11 11;
   vpmullw 7 12 7;
   vpmullw 8 12 12;
   vmovdqa_ld rcx (XQ*2) 8;
   vpmulhw 8 13 13;
   vpmulhw 8 9 9;
   vpmulhw 8 5 5;
   vpmulhw 8 10 10;
   vpmulhw 8 6 6;
   vpmulhw 8 11 11;
   vpmulhw 8 7 7;
   vpmulhw 8 12 12;
   vpsubw_mem rsp 0 13 13;
   vpsubw 9 1 9;
   vpsubw 5 14 5;
   vpsubw 10 2 10;
   vpsubw 6 15 6;
   vpsubw 11 3 11;
   vpsubw 7 0 7;
   vpsubw 12 4 12;
   vmovdqa_ld r9 0 0;
   vmovdqa_ld r9 (32) 1;
   vpmullw 0 10 2;
   vpmullw 0 12 3;
   vpmulhw 1 10 10;
   vpmulhw 1 12 12;
   vpmulhw 8 2 2;
   vpmulhw 8 3 3;
   vpsubw 2 10 10;
   vpsubw 3 12 12;
   vpaddw 5 9 9;
   vpaddw 7 11 11;
   vpsubw 13 10 13;
   vpsubw 12 6 6;
   vmovdqa_st 13 rdi ((64*off+ 0)*2);
   vmovdqa_st 9 rdi ((64*off+16)*2);
   vmovdqa_st 6 rdi ((64*off+32)*2);
   vmovdqa_st 11 rdi ((64*off+48)*2)].

(** mlkem/native/x86_64/basemul.S 121-139. The instructions on rsp (lines 124-126, 138) reserve an aligned
    scratch slot of 32 bytes and release it; here rsp points to an array of 16 words. *)
Definition basemul_avx2 : list instr :=
  [lea rcx ((ZETAS_EXP+176)*2) r9] ++
  schoolbook 0 ++
  [add_imm (32*2) r9] ++
  schoolbook 1 ++
  [add_imm (192*2) r9] ++
  schoolbook 2 ++
  [add_imm (32*2) r9] ++
  schoolbook 3.

(** ** mlkem/native/x86_64/ntt.S: Forward NTT *)

(** mlkem/native/x86_64/ntt.S 19-31 *)
Definition mul (rh0 rh1 rh2 rh3 zl0 zl1 zh0 zh1 : nat) : list instr :=
  [vpmullw zl0 rh0 12;
   vpmullw zl0 rh1 13;
   vpmullw zl1 rh2 14;
   vpmullw zl1 rh3 15;
   vpmulhw zh0 rh0 rh0;
   vpmulhw zh0 rh1 rh1;
   vpmulhw zh1 rh2 rh2;
   vpmulhw zh1 rh3 rh3].

(** mlkem/native/x86_64/ntt.S 35-41 *)
Definition reduce : list instr :=
  [vpmulhw 0 12 12;
   vpmulhw 0 13 13;
   vpmulhw 0 14 14;
   vpmulhw 0 15 15].

(** mlkem/native/x86_64/ntt.S 61-79 *)
Definition update (rln rl0 rl1 rl2 rl3 rh0 rh1 rh2 rh3 : nat) : list instr :=
  [vpaddw rh0 rl0 rln;
   vpsubw rh0 rl0 rh0;
   vpaddw rh1 rl1 rl0;
   vpsubw rh1 rl1 rh1;
   vpaddw rh2 rl2 rl1;
   vpsubw rh2 rl2 rh2;
   vpaddw rh3 rl3 rl2;
   vpsubw rh3 rl3 rh3;
   vpsubw 12 rln rln;
   vpaddw 12 rh0 rh0;
   vpsubw 13 rl0 rl0;
   vpaddw 13 rh1 rh1;
   vpsubw 14 rl1 rl1;
   vpaddw 14 rh2 rh2;
   vpsubw 15 rl2 rl2;
   vpaddw 15 rh3 rh3].

(** mlkem/native/x86_64/ntt.S 81-107 *)
Definition level0 (off : Z) : list instr :=
  [vpbroadcastq rsi ((ZETAS_EXP+0)*2) 15;
   vmovdqa_ld rdi ((64*off+128)*2) 8;
   vmovdqa_ld rdi ((64*off+144)*2) 9;
   vmovdqa_ld rdi ((64*off+160)*2) 10;
   vmovdqa_ld rdi ((64*off+176)*2) 11;
   vpbroadcastq rsi ((ZETAS_EXP+4)*2) 2] ++
  mul 8 9 10 11 15 15 2 2 ++
  [vmovdqa_ld rdi ((64*off+ 0)*2) 4;
   vmovdqa_ld rdi ((64*off+ 16)*2) 5;
   vmovdqa_ld rdi ((64*off+ 32)*2) 6;
   vmovdqa_ld rdi ((64*off+ 48)*2) 7] ++
  reduce  ++
  update 3 4 5 6 7 8 9 10 11 ++
  [vmovdqa_st 3 rdi ((64*off+ 0)*2);
   vmovdqa_st 4 rdi ((64*off+ 16)*2);
   vmovdqa_st 5 rdi ((64*off+ 32)*2);
   vmovdqa_st 6 rdi ((64*off+ 48)*2);
   vmovdqa_st 8 rdi ((64*off+128)*2);
   vmovdqa_st 9 rdi ((64*off+144)*2);
   vmovdqa_st 10 rdi ((64*off+160)*2);
   vmovdqa_st 11 rdi ((64*off+176)*2)].

(** mlkem/native/x86_64/ntt.S 109-207 *)
Definition levels1t6 (off : Z) : list instr :=
  [vmovdqa_ld rsi ((ZETAS_EXP+224*off+16)*2) 15;
   vmovdqa_ld rdi ((128*off+ 64)*2) 8;
   vmovdqa_ld rdi ((128*off+ 80)*2) 9;
   vmovdqa_ld rdi ((128*off+ 96)*2) 10;
   vmovdqa_ld rdi ((128*off+112)*2) 11;
   vmovdqa_ld rsi ((ZETAS_EXP+224*off+32)*2) 2] ++
  mul 8 9 10 11 15 15 2 2 ++
  [vmovdqa_ld rdi ((128*off+ 0)*2) 4;
   vmovdqa_ld rdi ((128*off+ 16)*2) 5;
   vmovdqa_ld rdi ((128*off+ 32)*2) 6;
   vmovdqa_ld rdi ((128*off+ 48)*2) 7] ++
  reduce  ++
  update 3 4 5 6 7 8 9 10 11 ++
  shuffle8 5 10 7 10 ++
  shuffle8 6 11 5 11 ++
  [vmovdqa_ld rsi ((ZETAS_EXP+224*off+48)*2) 15;
   vmovdqa_ld rsi ((ZETAS_EXP+224*off+64)*2) 2] ++
  mul 7 10 5 11 15 15 2 2 ++
  shuffle8 3 8 6 8 ++
  shuffle8 4 9 3 9 ++
  reduce  ++
  update 4 6 8 3 9 7 10 5 11 ++
  shuffle4 8 5 9 5 ++
  shuffle4 3 11 8 11 ++
  [vmovdqa_ld rsi ((ZETAS_EXP+224*off+80)*2) 15;
   vmovdqa_ld rsi ((ZETAS_EXP+224*off+96)*2) 2] ++
  mul 9 5 8 11 15 15 2 2 ++
  shuffle4 4 7 3 7 ++
  shuffle4 6 10 4 10 ++
  reduce  ++
  update 6 3 7 4 10 9 5 8 11 ++
  shuffle2 7 8 10 8 ++
  shuffle2 4 11 7 11 ++
  [vmovdqa_ld rsi ((ZETAS_EXP+224*off+112)*2) 15;
   vmovdqa_ld rsi ((ZETAS_EXP+224*off+128)*2) 2] ++
  mul 10 8 7 11 15 15 2 2 ++
  shuffle2 6 9 4 9 ++
  shuffle2 3 5 6 5 ++
  reduce  ++
  update 3 4 9 6 5 10 8 7 11 ++
  shuffle1 9 7 5 7 ++
  shuffle1 6 11 9 11 ++
  [vmovdqa_ld rsi ((ZETAS_EXP+224*off+144)*2) 15;
   vmovdqa_ld rsi ((ZETAS_EXP+224*off+160)*2) 2] ++
  mul 5 7 9 11 15 15 2 2 ++
  shuffle1 3 10 6 10 ++
  shuffle1 4 8 3 8 ++
  reduce  ++
  update 4 6 10 3 8 5 7 9 11 ++
  [vmovdqa_ld rsi ((ZETAS_EXP+224*off+176)*2) 14;
   vmovdqa_ld rsi ((ZETAS_EXP+224*off+208)*2) 15;
   vmovdqa_ld rsi ((ZETAS_EXP+224*off+192)*2) 8;
   vmovdqa_ld rsi ((ZETAS_EXP+224*off+224)*2) 2] ++
  mul 10 3 9 11 14 15 8 2 ++
  reduce  ++
  update 8 4 6 5 7 10 3 9 11 ++
  [vmovdqa_st 8 rdi ((128*off+ 0)*2);
   vmovdqa_st 4 rdi ((128*off+ 16)*2);
   vmovdqa_st 10 rdi ((128*off+ 32)*2);
   vmovdqa_st 3 rdi ((128*off+ 48)*2);
   vmovdqa_st 6 rdi ((128*off+ 64)*2);
   vmovdqa_st 5 rdi ((128*off+ 80)*2);
   vmovdqa_st 9 rdi ((128*off+ 96)*2);
   vmovdqa_st 11 rdi ((128*off+112)*2)].

(** mlkem/native/x86_64/ntt.S 211-220 *)
Definition ntt_avx2 : list instr :=
  [vmovdqa_ld rsi (XQ*2) 0] ++
  level0 0 ++
  level0 1 ++
  levels1t6 0 ++
  levels1t6 1.

(** ** mlkem/native/x86_64/intt.S: Inverse NTT *)

(** mlkem/native/x86_64/intt.S 24-56 *)
Definition butterfly (rl0 rl1 rl2 rl3 rh0 rh1 rh2 rh3 zl0 zl1 zh0 zh1 : nat) : list instr :=
  [vpsubw rl0 rh0 12;
   vpaddw rh0 rl0 rl0;
   vpsubw rl1 rh1 13;
   vpmullw zl0 12 rh0;
   vpaddw rh1 rl1 rl1;
   vpsubw rl2 rh2 14;
   vpmullw zl0 13 rh1;
   vpaddw rh2 rl2 rl2;
   vpsubw rl3 rh3 15;
   vpmullw zl1 14 rh2;
   vpaddw rh3 rl3 rl3;
   vpmullw zl1 15 rh3;
   vpmulhw zh0 12 12;
   vpmulhw zh0 13 13;
   vpmulhw zh1 14 14;
   vpmulhw zh1 15 15;
   vpmulhw 0 rh0 rh0;
   vpmulhw 0 rh1 rh1;
   vpmulhw 0 rh2 rh2;
   vpmulhw 0 rh3 rh3;
   vpsubw rh0 12 rh0;
   vpsubw rh1 13 rh1;
   vpsubw rh2 14 rh2;
   vpsubw rh3 15 rh3].

(** mlkem/native/x86_64/intt.S 58-211 *)
Definition intt_levels0t5 (off : Z) : list instr :=
  [vmovdqa_ld rsi (XFLO*2) 2;
   vmovdqa_ld rsi (XFHI*2) 3;
   vmovdqa_ld rdi ((128*off+ 0)*2) 4;
   vmovdqa_ld rdi ((128*off+ 32)*2) 6;
   vmovdqa_ld rdi ((128*off+ 16)*2) 5;
   vmovdqa_ld rdi ((128*off+ 48)*2) 7] ++
  fqmulprecomp 2 3 4 12 ++
  fqmulprecomp 2 3 6 12 ++
  fqmulprecomp 2 3 5 12 ++
  fqmulprecomp 2 3 7 12 ++
  [vmovdqa_ld rdi ((128*off+ 64)*2) 8;
   vmovdqa_ld rdi ((128*off+ 96)*2) 10;
   vmovdqa_ld rdi ((128*off+ 80)*2) 9;
   vmovdqa_ld rdi ((128*off+112)*2) 11] ++
  fqmulprecomp 2 3 8 12 ++
  fqmulprecomp 2 3 10 12 ++
  fqmulprecomp 2 3 9 12 ++
  fqmulprecomp 2 3 11 12 ++
  [vpermq 78 (Mem rsi ((ZETAS_EXP+(1-off)*224+208)*2)) 15;
   vpermq 78 (Mem rsi ((ZETAS_EXP+(1-off)*224+176)*2)) 1;
   vpermq 78 (Mem rsi ((ZETAS_EXP+(1-off)*224+224)*2)) 2;
   vpermq 78 (Mem rsi ((ZETAS_EXP+(1-off)*224+192)*2)) 3;
   vmovdqa_ld rsi (REVIDXB*2) 12;
   vpshufb 12 15 15;
   vpshufb 12 1 1;
   vpshufb 12 2 2;
   vpshufb 12 3 3] ++
  butterfly 4 5 8 9 6 7 10 11 15 1 2 3 ++
  [vpermq 78 (Mem rsi ((ZETAS_EXP+(1-off)*224+144)*2)) 2;
   vpermq 78 (Mem rsi ((ZETAS_EXP+(1-off)*224+160)*2)) 3;
   vmovdqa_ld rsi (REVIDXB*2) 1;
   vpshufb 1 2 2;
   vpshufb 1 3 3] ++
  butterfly 4 5 6 7 8 9 10 11 2 2 3 3 ++
  shuffle1 4 5 3 5 ++
  shuffle1 6 7 4 7 ++
  shuffle1 8 9 6 9 ++
  shuffle1 10 11 8 11 ++
  [vmovdqa_ld rsi (REVIDXD*2) 12;
   vpermd (Mem rsi ((ZETAS_EXP+(1-off)*224+112)*2)) 12 2;
   vpermd (Mem rsi ((ZETAS_EXP+(1-off)*224+128)*2)) 12 10] ++
  butterfly 3 4 6 8 5 7 9 11 2 2 10 10 ++
  [vmovdqa_ld rsi (XV*2) 1] ++
  red16 3 12 ++
  shuffle2 3 4 10 4 ++
  shuffle2 6 8 3 8 ++
  shuffle2 5 7 6 7 ++
  shuffle2 9 11 5 11 ++
  [vpermq 27 (Mem rsi ((ZETAS_EXP+(1-off)*224+80)*2)) 2;
   vpermq 27 (Mem rsi ((ZETAS_EXP+(1-off)*224+96)*2)) 9] ++
  butterfly 10 3 6 5 4 8 7 11 2 2 9 9 ++
  red16 10 12 ++
  shuffle4 10 3 9 3 ++
  shuffle4 6 5 10 5 ++
  shuffle4 4 8 6 8 ++
  shuffle4 7 11 4 11 ++
  [vpermq 78 (Mem rsi ((ZETAS_EXP+(1-off)*224+48)*2)) 2;
   vpermq 78 (Mem rsi ((ZETAS_EXP+(1-off)*224+64)*2)) 7] ++
  butterfly 9 10 6 4 3 5 8 11 2 2 7 7 ++
  red16 9 12 ++
  shuffle8 9 10 7 10 ++
  shuffle8 6 4 9 4 ++
  shuffle8 3 5 6 5 ++
  shuffle8 8 11 3 11 ++
  [vmovdqa_ld rsi ((ZETAS_EXP+(1-off)*224+16)*2) 2;
   vmovdqa_ld rsi ((ZETAS_EXP+(1-off)*224+32)*2) 8] ++
  butterfly 7 9 6 3 10 4 5 11 2 2 8 8 ++
  red16 7 12 ++
  [vmovdqa_st 7 rdi ((128*off+ 0)*2);
   vmovdqa_st 9 rdi ((128*off+ 16)*2);
   vmovdqa_st 6 rdi ((128*off+ 32)*2);
   vmovdqa_st 3 rdi ((128*off+ 48)*2);
   vmovdqa_st 10 rdi ((128*off+ 64)*2);
   vmovdqa_st 4 rdi ((128*off+ 80)*2);
   vmovdqa_st 5 rdi ((128*off+ 96)*2);
   vmovdqa_st 11 rdi ((128*off+112)*2)].

(** mlkem/native/x86_64/intt.S 213-241 *)
Definition intt_level6 (off : Z) : list instr :=
  [vmovdqa_ld rdi ((64*off+ 0)*2) 4;
   vmovdqa_ld rdi ((64*off+128)*2) 8;
   vmovdqa_ld rdi ((64*off+ 16)*2) 5;
   vmovdqa_ld rdi ((64*off+144)*2) 9;
   vpbroadcastq rsi ((ZETAS_EXP+0)*2) 2;
   vmovdqa_ld rdi ((64*off+ 32)*2) 6;
   vmovdqa_ld rdi ((64*off+160)*2) 10;
   vmovdqa_ld rdi ((64*off+ 48)*2) 7;
   vmovdqa_ld rdi ((64*off+176)*2) 11;
   vpbroadcastq rsi ((ZETAS_EXP+4)*2) 3] ++
  butterfly 4 5 6 7 8 9 10 11 2 2 3 3 ++
  [vmovdqa_st 4 rdi ((64*off+ 0)*2);
   vmovdqa_st 5 rdi ((64*off+ 16)*2);
   vmovdqa_st 6 rdi ((64*off+ 32)*2);
   vmovdqa_st 7 rdi ((64*off+ 48)*2);
   vmovdqa_st 8 rdi ((64*off+128)*2);
   vmovdqa_st 9 rdi ((64*off+144)*2);
   vmovdqa_st 10 rdi ((64*off+160)*2);
   vmovdqa_st 11 rdi ((64*off+176)*2)].

(** mlkem/native/x86_64/intt.S 245-253 *)
Definition invntt_avx2 : list instr :=
  [vmovdqa_ld rsi (XQ*2) 0] ++
  intt_levels0t5 0 ++
  intt_levels0t5 1 ++
  intt_level6 0 ++
  intt_level6 1.
