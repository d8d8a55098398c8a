(** * The routines of mlkem/native/aarch64/*.S

    Written by tools/a64gen.py from the source files; see there. Each instruction is followed
    by the number of its line, or of the line that invokes the macro named.

    A routine with n arguments finds them in the arrays 1 to n; the constants of its file
    (the labels ending in _addr) are in the arrays from n + 1 on, in the order of the file.
    ASM_LOAD (common.i:6-14) is [adr]. *)

From Coq Require Import ZArith List.
From Verif Require Import ModelA64.
Import ListNotations.
Open Scope Z_scope.

Local Notation sp := (31%nat).
Local Notation x0 := 0%nat.
Local Notation x1 := 1%nat.
Local Notation x2 := 2%nat.
Local Notation x3 := 3%nat.
Local Notation x4 := 4%nat.
Local Notation x5 := 5%nat.
Local Notation x6 := 6%nat.
Local Notation x7 := 7%nat.
Local Notation x8 := 8%nat.
Local Notation x9 := 9%nat.
Local Notation x10 := 10%nat.
Local Notation x11 := 11%nat.
Local Notation x12 := 12%nat.
Local Notation x13 := 13%nat.
Local Notation x14 := 14%nat.
Local Notation x15 := 15%nat.
Local Notation x16 := 16%nat.
Local Notation x17 := 17%nat.
Local Notation x18 := 18%nat.
Local Notation x19 := 19%nat.
Local Notation x20 := 20%nat.
Local Notation x21 := 21%nat.
Local Notation x22 := 22%nat.
Local Notation x23 := 23%nat.
Local Notation x24 := 24%nat.
Local Notation x25 := 25%nat.
Local Notation x26 := 26%nat.
Local Notation x27 := 27%nat.
Local Notation x28 := 28%nat.
Local Notation x29 := 29%nat.
Local Notation x30 := 30%nat.
Local Notation v0 := 0%nat.
Local Notation v1 := 1%nat.
Local Notation v2 := 2%nat.
Local Notation v3 := 3%nat.
Local Notation v4 := 4%nat.
Local Notation v5 := 5%nat.
Local Notation v6 := 6%nat.
Local Notation v7 := 7%nat.
Local Notation v8 := 8%nat.
Local Notation v9 := 9%nat.
Local Notation v10 := 10%nat.
Local Notation v11 := 11%nat.
Local Notation v12 := 12%nat.
Local Notation v13 := 13%nat.
Local Notation v14 := 14%nat.
Local Notation v15 := 15%nat.
Local Notation v16 := 16%nat.
Local Notation v17 := 17%nat.
Local Notation v18 := 18%nat.
Local Notation v19 := 19%nat.
Local Notation v20 := 20%nat.
Local Notation v21 := 21%nat.
Local Notation v22 := 22%nat.
Local Notation v23 := 23%nat.
Local Notation v24 := 24%nat.
Local Notation v25 := 25%nat.
Local Notation v26 := 26%nat.
Local Notation v27 := 27%nat.
Local Notation v28 := 28%nat.
Local Notation v29 := 29%nat.
Local Notation v30 := 30%nat.
Local Notation v31 := 31%nat.

(** mlkem/native/aarch64/aarch64_zetas.c:19-28 *)
Definition aarch64_ntt_zetas_layer01234 : list Z := [
  -1600; -15749; -749; -7373; -40; -394; -687; -6762; 630; 6201; -1432; -14095;
  848; 8347; 0; 0; 1062; 10453; 296; 2914; -882; -8682; 0; 0;
  -1410; -13879; 1339; 13180; 1476; 14529; 0; 0; 193; 1900; -283; -2786;
  56; 551; 0; 0; 797; 7845; -1089; -10719; 1333; 13121; 0; 0;
  -543; -5345; 1426; 14036; -1235; -12156; 0; 0; -69; -679; 535; 5266;
  -447; -4400; 0; 0; 569; 5601; -936; -9213; -450; -4429; 0; 0;
  -1583; -15582; -1355; -13338; 821; 8081; 0; 0
].

(** mlkem/native/aarch64/aarch64_zetas.c:30-74 *)
Definition aarch64_ntt_zetas_layer56 : list Z := [
  289; 289; 331; 331; -76; -76; -1573; -1573; 2845; 2845; 3258; 3258;
  -748; -748; -15483; -15483; 17; 17; 583; 583; 1637; 1637; -1041; -1041;
  167; 167; 5739; 5739; 16113; 16113; -10247; -10247; -568; -568; -680; -680;
  723; 723; 1100; 1100; -5591; -5591; -6693; -6693; 7117; 7117; 10828; 10828;
  1197; 1197; -1025; -1025; -1052; -1052; -1274; -1274; 11782; 11782; -10089; -10089;
  -10355; -10355; -12540; -12540; 1409; 1409; -48; -48; 756; 756; -314; -314;
  13869; 13869; -472; -472; 7441; 7441; -3091; -3091; -667; -667; 233; 233;
  -1173; -1173; -279; -279; -6565; -6565; 2293; 2293; -11546; -11546; -2746; -2746;
  650; 650; -1352; -1352; -816; -816; 632; 632; 6398; 6398; -13308; -13308;
  -8032; -8032; 6221; 6221; -1626; -1626; -540; -540; -1482; -1482; 1461; 1461;
  -16005; -16005; -5315; -5315; -14588; -14588; 14381; 14381; 1651; 1651; -1540; -1540;
  952; 952; -642; -642; 16251; 16251; -15159; -15159; 9371; 9371; -6319; -6319;
  -464; -464; 33; 33; 1320; 1320; -1414; -1414; -4567; -4567; 325; 325;
  12993; 12993; -13918; -13918; 939; 939; -892; -892; 733; 733; 268; 268;
  9243; 9243; -8780; -8780; 7215; 7215; 2638; 2638; -1021; -1021; -941; -941;
  -992; -992; 641; 641; -10050; -10050; -9262; -9262; -9764; -9764; 6309; 6309;
  -1010; -1010; 1435; 1435; 807; 807; 452; 452; -9942; -9942; 14125; 14125;
  7943; 7943; 4449; 4449; 1584; 1584; -1292; -1292; 375; 375; -1239; -1239;
  15592; 15592; -12717; -12717; 3691; 3691; -12196; -12196; -1031; -1031; -109; -109;
  -780; -780; 1645; 1645; -10148; -10148; -1073; -1073; -7678; -7678; 16192; 16192;
  1438; 1438; -461; -461; 1534; 1534; -927; -927; 14155; 14155; -4538; -4538;
  15099; 15099; -9125; -9125; 1063; 1063; -556; -556; -1230; -1230; -863; -863;
  10463; 10463; -5473; -5473; -12107; -12107; -8495; -8495; 319; 319; 757; 757;
  561; 561; -735; -735; 3140; 3140; 7451; 7451; 5522; 5522; -7235; -7235;
  -682; -682; -712; -712; 1481; 1481; 648; 648; -6713; -6713; -7008; -7008;
  14578; 14578; 6378; 6378; -525; -525; 403; 403; 1143; 1143; -554; -554;
  -5168; -5168; 3967; 3967; 11251; 11251; -5453; -5453; 1092; 1092; 1026; 1026;
  -1179; -1179; 886; 886; 10749; 10749; 10099; 10099; -11605; -11605; 8721; 8721;
  -855; -855; -219; -219; 1227; 1227; 910; 910; -8416; -8416; -2156; -2156;
  12078; 12078; 8957; 8957; -1607; -1607; -1455; -1455; -1219; -1219; 885; 885;
  -15818; -15818; -14322; -14322; -11999; -11999; 8711; 8711; 1212; 1212; 1029; 1029;
  -394; -394; -1175; -1175; 11930; 11930; 10129; 10129; -3878; -3878; -11566; -11566
].

(** mlkem/native/aarch64/aarch64_zetas.c:76-85 *)
Definition aarch64_invntt_zetas_layer01234 : list Z := [
  1583; 15582; -821; -8081; 1355; 13338; 0; 0; -569; -5601; 450; 4429;
  936; 9213; 0; 0; 69; 679; 447; 4400; -535; -5266; 0; 0;
  543; 5345; 1235; 12156; -1426; -14036; 0; 0; -797; -7845; -1333; -13121;
  1089; 10719; 0; 0; -193; -1900; -56; -551; 283; 2786; 0; 0;
  1410; 13879; -1476; -14529; -1339; -13180; 0; 0; -1062; -10453; 882; 8682;
  -296; -2914; 0; 0; 1600; 15749; 40; 394; 749; 7373; -848; -8347;
  1432; 14095; -630; -6201; 687; 6762; 0; 0
].

(** mlkem/native/aarch64/aarch64_zetas.c:87-131 *)
Definition aarch64_invntt_zetas_layer56 : list Z := [
  -910; -910; -1227; -1227; 219; 219; 855; 855; -8957; -8957; -12078; -12078;
  2156; 2156; 8416; 8416; 1175; 1175; 394; 394; -1029; -1029; -1212; -1212;
  11566; 11566; 3878; 3878; -10129; -10129; -11930; -11930; -885; -885; 1219; 1219;
  1455; 1455; 1607; 1607; -8711; -8711; 11999; 11999; 14322; 14322; 15818; 15818;
  -648; -648; -1481; -1481; 712; 712; 682; 682; -6378; -6378; -14578; -14578;
  7008; 7008; 6713; 6713; -886; -886; 1179; 1179; -1026; -1026; -1092; -1092;
  -8721; -8721; 11605; 11605; -10099; -10099; -10749; -10749; 554; 554; -1143; -1143;
  -403; -403; 525; 525; 5453; 5453; -11251; -11251; -3967; -3967; 5168; 5168;
  927; 927; -1534; -1534; 461; 461; -1438; -1438; 9125; 9125; -15099; -15099;
  4538; 4538; -14155; -14155; 735; 735; -561; -561; -757; -757; -319; -319;
  7235; 7235; -5522; -5522; -7451; -7451; -3140; -3140; 863; 863; 1230; 1230;
  556; 556; -1063; -1063; 8495; 8495; 12107; 12107; 5473; 5473; -10463; -10463;
  -452; -452; -807; -807; -1435; -1435; 1010; 1010; -4449; -4449; -7943; -7943;
  -14125; -14125; 9942; 9942; -1645; -1645; 780; 780; 109; 109; 1031; 1031;
  -16192; -16192; 7678; 7678; 1073; 1073; 10148; 10148; 1239; 1239; -375; -375;
  1292; 1292; -1584; -1584; 12196; 12196; -3691; -3691; 12717; 12717; -15592; -15592;
  1414; 1414; -1320; -1320; -33; -33; 464; 464; 13918; 13918; -12993; -12993;
  -325; -325; 4567; 4567; -641; -641; 992; 992; 941; 941; 1021; 1021;
  -6309; -6309; 9764; 9764; 9262; 9262; 10050; 10050; -268; -268; -733; -733;
  892; 892; -939; -939; -2638; -2638; -7215; -7215; 8780; 8780; -9243; -9243;
  -632; -632; 816; 816; 1352; 1352; -650; -650; -6221; -6221; 8032; 8032;
  13308; 13308; -6398; -6398; 642; 642; -952; -952; 1540; 1540; -1651; -1651;
  6319; 6319; -9371; -9371; 15159; 15159; -16251; -16251; -1461; -1461; 1482; 1482;
  540; 540; 1626; 1626; -14381; -14381; 14588; 14588; 5315; 5315; 16005; 16005;
  1274; 1274; 1052; 1052; 1025; 1025; -1197; -1197; 12540; 12540; 10355; 10355;
  10089; 10089; -11782; -11782; 279; 279; 1173; 1173; -233; -233; 667; 667;
  2746; 2746; 11546; 11546; -2293; -2293; 6565; 6565; 314; 314; -756; -756;
  48; 48; -1409; -1409; 3091; 3091; -7441; -7441; 472; 472; -13869; -13869;
  1573; 1573; 76; 76; -331; -331; -289; -289; 15483; 15483; 748; 748;
  -3258; -3258; -2845; -2845; -1100; -1100; -723; -723; 680; 680; 568; 568;
  -10828; -10828; -7117; -7117; 6693; 6693; 5591; 5591; 1041; 1041; -1637; -1637;
  -583; -583; -17; -17; 10247; 10247; -16113; -16113; -5739; -5739; -167; -167
].

(** mlkem/native/aarch64/aarch64_zetas.c:133-146 *)
Definition aarch64_zetas_mulcache_native : list Z := [
  17; -17; -568; 568; 583; -583; -680; 680; 1637; -1637; 723; -723;
  -1041; 1041; 1100; -1100; 1409; -1409; -667; 667; -48; 48; 233; -233;
  756; -756; -1173; 1173; -314; 314; -279; 279; -1626; 1626; 1651; -1651;
  -540; 540; -1540; 1540; -1482; 1482; 952; -952; 1461; -1461; -642; 642;
  939; -939; -1021; 1021; -892; 892; -941; 941; 733; -733; -992; 992;
  268; -268; 641; -641; 1584; -1584; -1031; 1031; -1292; 1292; -109; 109;
  375; -375; -780; 780; -1239; 1239; 1645; -1645; 1063; -1063; 319; -319;
  -556; 556; 757; -757; -1230; 1230; 561; -561; -863; 863; -735; 735;
  -525; 525; 1092; -1092; 403; -403; 1026; -1026; 1143; -1143; -1179; 1179;
  -554; 554; 886; -886; -1607; 1607; 1212; -1212; -1455; 1455; 1029; -1029;
  -1219; 1219; -394; 394; 885; -885; -1175; 1175
].

(** mlkem/native/aarch64/aarch64_zetas.c:148-164 *)
Definition aarch64_zetas_mulcache_twisted_native : list Z := [
  167; -167; -5591; 5591; 5739; -5739; -6693; 6693; 16113; -16113; 7117; -7117;
  -10247; 10247; 10828; -10828; 13869; -13869; -6565; 6565; -472; 472; 2293; -2293;
  7441; -7441; -11546; 11546; -3091; 3091; -2746; 2746; -16005; 16005; 16251; -16251;
  -5315; 5315; -15159; 15159; -14588; 14588; 9371; -9371; 14381; -14381; -6319; 6319;
  9243; -9243; -10050; 10050; -8780; 8780; -9262; 9262; 7215; -7215; -9764; 9764;
  2638; -2638; 6309; -6309; 15592; -15592; -10148; 10148; -12717; 12717; -1073; 1073;
  3691; -3691; -7678; 7678; -12196; 12196; 16192; -16192; 10463; -10463; 3140; -3140;
  -5473; 5473; 7451; -7451; -12107; 12107; 5522; -5522; -8495; 8495; -7235; 7235;
  -5168; 5168; 10749; -10749; 3967; -3967; 10099; -10099; 11251; -11251; -11605; 11605;
  -5453; 5453; 8721; -8721; -15818; 15818; 11930; -11930; -14322; 14322; 10129; -10129;
  -11999; 11999; -3878; 3878; 8711; -8711; -11566; 11566
].

(** mlkem/native/aarch64/ntt_clean.S:189 const_addr *)
Definition ntt_clean_const_addr : list Z := [3329; 20159; 0; 0; 0; 0; 0; 0].
(** mlkem/native/aarch64/ntt_clean.S:201-296 ntt_asm_clean *)
Definition ntt_asm_clean : list block := [
  Straight [
    sub_imm sp sp 64;                      (* 201 push_stack *)
    stp_d v8 v9 sp 0;                      (* 201 push_stack *)
    stp_d v10 v11 sp 16;                   (* 201 push_stack *)
    stp_d v12 v13 sp 32;                   (* 201 push_stack *)
    stp_d v14 v15 sp 48;                   (* 201 push_stack *)
    adr x5 4;                              (* 202 *)
    ld1_8h v7 x5 (Off 0);                  (* 204 *)
    mov x3 x0;                             (* 206 *)
    mov_imm x4 4;                          (* 207 *)
    ldr_q v0 x1 (Post 32);                 (* 209 load_roots_012 *)
    ldr_q v1 x1 (Off (-16))                (* 209 load_roots_012 *) ];
  Loop [
    ldr_q v8 x0 (Off 0);                   (* 228 *)
    ldr_q v9 x0 (Off 64);                  (* 229 *)
    ldr_q v10 x0 (Off 128);                (* 230 *)
    ldr_q v11 x0 (Off 192);                (* 231 *)
    ldr_q v12 x0 (Off 256);                (* 232 *)
    ldr_q v13 x0 (Off 320);                (* 233 *)
    ldr_q v14 x0 (Off 384);                (* 234 *)
    ldr_q v15 x0 (Off 448);                (* 235 *)
    sqrdmulh_h v27 v12 v0 1;               (* 237 ct_butterfly *)
    mul_h v24 v12 v0 0;                    (* 237 ct_butterfly *)
    mls_h v24 v27 v7 0;                    (* 237 ct_butterfly *)
    sub v12 v8 v24;                        (* 237 ct_butterfly *)
    add v8 v8 v24;                         (* 237 ct_butterfly *)
    sqrdmulh_h v27 v13 v0 1;               (* 238 ct_butterfly *)
    mul_h v24 v13 v0 0;                    (* 238 ct_butterfly *)
    mls_h v24 v27 v7 0;                    (* 238 ct_butterfly *)
    sub v13 v9 v24;                        (* 238 ct_butterfly *)
    add v9 v9 v24;                         (* 238 ct_butterfly *)
    sqrdmulh_h v27 v14 v0 1;               (* 239 ct_butterfly *)
    mul_h v24 v14 v0 0;                    (* 239 ct_butterfly *)
    mls_h v24 v27 v7 0;                    (* 239 ct_butterfly *)
    sub v14 v10 v24;                       (* 239 ct_butterfly *)
    add v10 v10 v24;                       (* 239 ct_butterfly *)
    sqrdmulh_h v27 v15 v0 1;               (* 240 ct_butterfly *)
    mul_h v24 v15 v0 0;                    (* 240 ct_butterfly *)
    mls_h v24 v27 v7 0;                    (* 240 ct_butterfly *)
    sub v15 v11 v24;                       (* 240 ct_butterfly *)
    add v11 v11 v24;                       (* 240 ct_butterfly *)
    sqrdmulh_h v27 v10 v0 3;               (* 242 ct_butterfly *)
    mul_h v24 v10 v0 2;                    (* 242 ct_butterfly *)
    mls_h v24 v27 v7 0;                    (* 242 ct_butterfly *)
    sub v10 v8 v24;                        (* 242 ct_butterfly *)
    add v8 v8 v24;                         (* 242 ct_butterfly *)
    sqrdmulh_h v27 v11 v0 3;               (* 243 ct_butterfly *)
    mul_h v24 v11 v0 2;                    (* 243 ct_butterfly *)
    mls_h v24 v27 v7 0;                    (* 243 ct_butterfly *)
    sub v11 v9 v24;                        (* 243 ct_butterfly *)
    add v9 v9 v24;                         (* 243 ct_butterfly *)
    sqrdmulh_h v27 v14 v0 5;               (* 244 ct_butterfly *)
    mul_h v24 v14 v0 4;                    (* 244 ct_butterfly *)
    mls_h v24 v27 v7 0;                    (* 244 ct_butterfly *)
    sub v14 v12 v24;                       (* 244 ct_butterfly *)
    add v12 v12 v24;                       (* 244 ct_butterfly *)
    sqrdmulh_h v27 v15 v0 5;               (* 245 ct_butterfly *)
    mul_h v24 v15 v0 4;                    (* 245 ct_butterfly *)
    mls_h v24 v27 v7 0;                    (* 245 ct_butterfly *)
    sub v15 v13 v24;                       (* 245 ct_butterfly *)
    add v13 v13 v24;                       (* 245 ct_butterfly *)
    sqrdmulh_h v27 v9 v0 7;                (* 247 ct_butterfly *)
    mul_h v24 v9 v0 6;                     (* 247 ct_butterfly *)
    mls_h v24 v27 v7 0;                    (* 247 ct_butterfly *)
    sub v9 v8 v24;                         (* 247 ct_butterfly *)
    add v8 v8 v24;                         (* 247 ct_butterfly *)
    sqrdmulh_h v27 v11 v1 1;               (* 248 ct_butterfly *)
    mul_h v24 v11 v1 0;                    (* 248 ct_butterfly *)
    mls_h v24 v27 v7 0;                    (* 248 ct_butterfly *)
    sub v11 v10 v24;                       (* 248 ct_butterfly *)
    add v10 v10 v24;                       (* 248 ct_butterfly *)
    sqrdmulh_h v27 v13 v1 3;               (* 249 ct_butterfly *)
    mul_h v24 v13 v1 2;                    (* 249 ct_butterfly *)
    mls_h v24 v27 v7 0;                    (* 249 ct_butterfly *)
    sub v13 v12 v24;                       (* 249 ct_butterfly *)
    add v12 v12 v24;                       (* 249 ct_butterfly *)
    sqrdmulh_h v27 v15 v1 5;               (* 250 ct_butterfly *)
    mul_h v24 v15 v1 4;                    (* 250 ct_butterfly *)
    mls_h v24 v27 v7 0;                    (* 250 ct_butterfly *)
    sub v15 v14 v24;                       (* 250 ct_butterfly *)
    add v14 v14 v24;                       (* 250 ct_butterfly *)
    str_q v8 x0 (Post 16);                 (* 252 *)
    str_q v9 x0 (Off 48);                  (* 253 *)
    str_q v10 x0 (Off 112);                (* 254 *)
    str_q v11 x0 (Off 176);                (* 255 *)
    str_q v12 x0 (Off 240);                (* 256 *)
    str_q v13 x0 (Off 304);                (* 257 *)
    str_q v14 x0 (Off 368);                (* 258 *)
    str_q v15 x0 (Off 432);                (* 259 *)
    sub_imm x4 x4 1                        (* 261 *) ] x4;
  Straight [
    mov x0 x3;                             (* 264 *)
    mov_imm x4 8                           (* 265 *) ];
  Loop [
    ldr_q v8 x0 (Off 0);                   (* 270 *)
    ldr_q v9 x0 (Off 16);                  (* 271 *)
    ldr_q v10 x0 (Off 32);                 (* 272 *)
    ldr_q v11 x0 (Off 48);                 (* 273 *)
    ldr_q v0 x1 (Post 16);                 (* 275 load_next_roots_34 *)
    sqrdmulh_h v27 v10 v0 1;               (* 277 ct_butterfly *)
    mul_h v24 v10 v0 0;                    (* 277 ct_butterfly *)
    mls_h v24 v27 v7 0;                    (* 277 ct_butterfly *)
    sub v10 v8 v24;                        (* 277 ct_butterfly *)
    add v8 v8 v24;                         (* 277 ct_butterfly *)
    sqrdmulh_h v27 v11 v0 1;               (* 278 ct_butterfly *)
    mul_h v24 v11 v0 0;                    (* 278 ct_butterfly *)
    mls_h v24 v27 v7 0;                    (* 278 ct_butterfly *)
    sub v11 v9 v24;                        (* 278 ct_butterfly *)
    add v9 v9 v24;                         (* 278 ct_butterfly *)
    sqrdmulh_h v27 v9 v0 3;                (* 279 ct_butterfly *)
    mul_h v24 v9 v0 2;                     (* 279 ct_butterfly *)
    mls_h v24 v27 v7 0;                    (* 279 ct_butterfly *)
    sub v9 v8 v24;                         (* 279 ct_butterfly *)
    add v8 v8 v24;                         (* 279 ct_butterfly *)
    sqrdmulh_h v27 v11 v0 5;               (* 280 ct_butterfly *)
    mul_h v24 v11 v0 4;                    (* 280 ct_butterfly *)
    mls_h v24 v27 v7 0;                    (* 280 ct_butterfly *)
    sub v11 v10 v24;                       (* 280 ct_butterfly *)
    add v10 v10 v24;                       (* 280 ct_butterfly *)
    trn1_4s v25 v8 v9;                     (* 282 transpose4 *)
    trn2_4s v26 v8 v9;                     (* 282 transpose4 *)
    trn1_4s v27 v10 v11;                   (* 282 transpose4 *)
    trn2_4s v28 v10 v11;                   (* 282 transpose4 *)
    trn2_2d v10 v25 v27;                   (* 282 transpose4 *)
    trn2_2d v11 v26 v28;                   (* 282 transpose4 *)
    trn1_2d v8 v25 v27;                    (* 282 transpose4 *)
    trn1_2d v9 v26 v28;                    (* 282 transpose4 *)
    ldr_q v0 x2 (Post 96);                 (* 283 load_next_roots_56 *)
    ldr_q v4 x2 (Off (-80));               (* 283 load_next_roots_56 *)
    ldr_q v1 x2 (Off (-64));               (* 283 load_next_roots_56 *)
    ldr_q v5 x2 (Off (-48));               (* 283 load_next_roots_56 *)
    ldr_q v2 x2 (Off (-32));               (* 283 load_next_roots_56 *)
    ldr_q v6 x2 (Off (-16));               (* 283 load_next_roots_56 *)
    sqrdmulh v27 v10 v4;                   (* 285 ct_butterfly_v *)
    mul v24 v10 v0;                        (* 285 ct_butterfly_v *)
    mls_h v24 v27 v7 0;                    (* 285 ct_butterfly_v *)
    sub v10 v8 v24;                        (* 285 ct_butterfly_v *)
    add v8 v8 v24;                         (* 285 ct_butterfly_v *)
    sqrdmulh v27 v11 v4;                   (* 286 ct_butterfly_v *)
    mul v24 v11 v0;                        (* 286 ct_butterfly_v *)
    mls_h v24 v27 v7 0;                    (* 286 ct_butterfly_v *)
    sub v11 v9 v24;                        (* 286 ct_butterfly_v *)
    add v9 v9 v24;                         (* 286 ct_butterfly_v *)
    sqrdmulh v27 v9 v5;                    (* 287 ct_butterfly_v *)
    mul v24 v9 v1;                         (* 287 ct_butterfly_v *)
    mls_h v24 v27 v7 0;                    (* 287 ct_butterfly_v *)
    sub v9 v8 v24;                         (* 287 ct_butterfly_v *)
    add v8 v8 v24;                         (* 287 ct_butterfly_v *)
    sqrdmulh v27 v11 v6;                   (* 288 ct_butterfly_v *)
    mul v24 v11 v2;                        (* 288 ct_butterfly_v *)
    mls_h v24 v27 v7 0;                    (* 288 ct_butterfly_v *)
    sub v11 v10 v24;                       (* 288 ct_butterfly_v *)
    add v10 v10 v24;                       (* 288 ct_butterfly_v *)
    st4_4s v8 v9 v10 v11 x0 (Post 64);     (* 290 *)
    sub_imm x4 x4 1                        (* 292 *) ] x4;
  Straight [
    ldp_d v8 v9 sp 0;                      (* 295 pop_stack *)
    ldp_d v10 v11 sp 16;                   (* 295 pop_stack *)
    ldp_d v12 v13 sp 32;                   (* 295 pop_stack *)
    ldp_d v14 v15 sp 48;                   (* 295 pop_stack *)
    add_imm sp sp 64                       (* 295 pop_stack *) ]
].

(** mlkem/native/aarch64/intt_clean.S:152 const_addr *)
Definition intt_clean_const_addr : list Z := [3329; 20159; 0; 0; 0; 0; 0; 0].
(** mlkem/native/aarch64/intt_clean.S:160 ninv_addr *)
Definition intt_clean_ninv_addr : list Z := [512; 512; 512; 512; 512; 512; 512; 512].
(** mlkem/native/aarch64/intt_clean.S:168 ninv_tw_addr *)
Definition intt_clean_ninv_tw_addr : list Z := [5040; 5040; 5040; 5040; 5040; 5040; 5040; 5040].
(** mlkem/native/aarch64/intt_clean.S:179-372 intt_asm_clean *)
Definition intt_asm_clean : list block := [
  Straight [
    sub_imm sp sp 64;                      (* 179 push_stack *)
    stp_d v8 v9 sp 0;                      (* 179 push_stack *)
    stp_d v10 v11 sp 16;                   (* 179 push_stack *)
    stp_d v12 v13 sp 32;                   (* 179 push_stack *)
    stp_d v14 v15 sp 48;                   (* 179 push_stack *)
    adr x5 4;                              (* 230 *)
    ld1_8h v7 x5 (Off 0);                  (* 231 *)
    adr x5 5;                              (* 236 *)
    ld1r_8h v29 x5;                        (* 237 *)
    adr x5 6;                              (* 238 *)
    ld1r_8h v30 x5;                        (* 239 *)
    mov x3 x0;                             (* 241 *)
    mov_imm x4 8                           (* 242 *) ];
  Loop [
    ldr_q v8 x3 (Off 0);                   (* 246 *)
    ldr_q v9 x3 (Off 16);                  (* 247 *)
    ldr_q v10 x3 (Off 32);                 (* 248 *)
    ldr_q v11 x3 (Off 48);                 (* 249 *)
    sqrdmulh v27 v8 v30;                   (* 251 mul_ninv *)
    mul v8 v8 v29;                         (* 251 mul_ninv *)
    mls_h v8 v27 v7 0;                     (* 251 mul_ninv *)
    sqrdmulh v27 v9 v30;                   (* 251 mul_ninv *)
    mul v9 v9 v29;                         (* 251 mul_ninv *)
    mls_h v9 v27 v7 0;                     (* 251 mul_ninv *)
    sqrdmulh v27 v10 v30;                  (* 251 mul_ninv *)
    mul v10 v10 v29;                       (* 251 mul_ninv *)
    mls_h v10 v27 v7 0;                    (* 251 mul_ninv *)
    sqrdmulh v27 v11 v30;                  (* 251 mul_ninv *)
    mul v11 v11 v29;                       (* 251 mul_ninv *)
    mls_h v11 v27 v7 0;                    (* 251 mul_ninv *)
    str_q v8 x3 (Post 64);                 (* 254 *)
    str_q v9 x3 (Off (-48));               (* 255 *)
    str_q v10 x3 (Off (-32));              (* 256 *)
    str_q v11 x3 (Off (-16));              (* 257 *)
    sub_imm x4 x4 1                        (* 259 *) ] x4;
  Straight [
    mov x3 x0;                             (* 262 *)
    mov_imm x4 8                           (* 263 *) ];
  Loop [
    ldr_q v8 x3 (Off 0);                   (* 268 *)
    ldr_q v9 x3 (Off 16);                  (* 269 *)
    ldr_q v10 x3 (Off 32);                 (* 270 *)
    ldr_q v11 x3 (Off 48);                 (* 271 *)
    trn1_4s v25 v8 v9;                     (* 273 transpose4 *)
    trn2_4s v26 v8 v9;                     (* 273 transpose4 *)
    trn1_4s v27 v10 v11;                   (* 273 transpose4 *)
    trn2_4s v28 v10 v11;                   (* 273 transpose4 *)
    trn2_2d v10 v25 v27;                   (* 273 transpose4 *)
    trn2_2d v11 v26 v28;                   (* 273 transpose4 *)
    trn1_2d v8 v25 v27;                    (* 273 transpose4 *)
    trn1_2d v9 v26 v28;                    (* 273 transpose4 *)
    ldr_q v0 x2 (Post 96);                 (* 275 load_next_roots_56 *)
    ldr_q v4 x2 (Off (-80));               (* 275 load_next_roots_56 *)
    ldr_q v1 x2 (Off (-64));               (* 275 load_next_roots_56 *)
    ldr_q v5 x2 (Off (-48));               (* 275 load_next_roots_56 *)
    ldr_q v2 x2 (Off (-32));               (* 275 load_next_roots_56 *)
    ldr_q v6 x2 (Off (-16));               (* 275 load_next_roots_56 *)
    sub v24 v8 v9;                         (* 278 gs_butterfly_v *)
    add v8 v8 v9;                          (* 278 gs_butterfly_v *)
    sqrdmulh v27 v24 v5;                   (* 278 gs_butterfly_v *)
    mul v9 v24 v1;                         (* 278 gs_butterfly_v *)
    mls_h v9 v27 v7 0;                     (* 278 gs_butterfly_v *)
    sub v24 v10 v11;                       (* 279 gs_butterfly_v *)
    add v10 v10 v11;                       (* 279 gs_butterfly_v *)
    sqrdmulh v27 v24 v6;                   (* 279 gs_butterfly_v *)
    mul v11 v24 v2;                        (* 279 gs_butterfly_v *)
    mls_h v11 v27 v7 0;                    (* 279 gs_butterfly_v *)
    sub v24 v8 v10;                        (* 285 gs_butterfly_v *)
    add v8 v8 v10;                         (* 285 gs_butterfly_v *)
    sqrdmulh v27 v24 v4;                   (* 285 gs_butterfly_v *)
    mul v10 v24 v0;                        (* 285 gs_butterfly_v *)
    mls_h v10 v27 v7 0;                    (* 285 gs_butterfly_v *)
    sub v24 v9 v11;                        (* 286 gs_butterfly_v *)
    add v9 v9 v11;                         (* 286 gs_butterfly_v *)
    sqrdmulh v27 v24 v4;                   (* 286 gs_butterfly_v *)
    mul v11 v24 v0;                        (* 286 gs_butterfly_v *)
    mls_h v11 v27 v7 0;                    (* 286 gs_butterfly_v *)
    trn1_4s v25 v8 v9;                     (* 292 transpose4 *)
    trn2_4s v26 v8 v9;                     (* 292 transpose4 *)
    trn1_4s v27 v10 v11;                   (* 292 transpose4 *)
    trn2_4s v28 v10 v11;                   (* 292 transpose4 *)
    trn2_2d v10 v25 v27;                   (* 292 transpose4 *)
    trn2_2d v11 v26 v28;                   (* 292 transpose4 *)
    trn1_2d v8 v25 v27;                    (* 292 transpose4 *)
    trn1_2d v9 v26 v28;                    (* 292 transpose4 *)
    ldr_q v0 x1 (Post 16);                 (* 294 load_next_roots_34 *)
    sub v24 v8 v9;                         (* 297 gs_butterfly *)
    add v8 v8 v9;                          (* 297 gs_butterfly *)
    sqrdmulh_h v27 v24 v0 3;               (* 297 gs_butterfly *)
    mul_h v9 v24 v0 2;                     (* 297 gs_butterfly *)
    mls_h v9 v27 v7 0;                     (* 297 gs_butterfly *)
    sub v24 v10 v11;                       (* 298 gs_butterfly *)
    add v10 v10 v11;                       (* 298 gs_butterfly *)
    sqrdmulh_h v27 v24 v0 5;               (* 298 gs_butterfly *)
    mul_h v11 v24 v0 4;                    (* 298 gs_butterfly *)
    mls_h v11 v27 v7 0;                    (* 298 gs_butterfly *)
    sqdmulh_h v25 v8 v7 1;                 (* 303 barrett_reduce *)
    srshr v25 v25 11;                      (* 303 barrett_reduce *)
    mls_h v8 v25 v7 0;                     (* 303 barrett_reduce *)
    sqdmulh_h v25 v10 v7 1;                (* 304 barrett_reduce *)
    srshr v25 v25 11;                      (* 304 barrett_reduce *)
    mls_h v10 v25 v7 0;                    (* 304 barrett_reduce *)
    sqdmulh_h v25 v9 v7 1;                 (* 305 barrett_reduce *)
    srshr v25 v25 11;                      (* 305 barrett_reduce *)
    mls_h v9 v25 v7 0;                     (* 305 barrett_reduce *)
    sqdmulh_h v25 v11 v7 1;                (* 306 barrett_reduce *)
    srshr v25 v25 11;                      (* 306 barrett_reduce *)
    mls_h v11 v25 v7 0;                    (* 306 barrett_reduce *)
    sub v24 v8 v10;                        (* 311 gs_butterfly *)
    add v8 v8 v10;                         (* 311 gs_butterfly *)
    sqrdmulh_h v27 v24 v0 1;               (* 311 gs_butterfly *)
    mul_h v10 v24 v0 0;                    (* 311 gs_butterfly *)
    mls_h v10 v27 v7 0;                    (* 311 gs_butterfly *)
    sub v24 v9 v11;                        (* 312 gs_butterfly *)
    add v9 v9 v11;                         (* 312 gs_butterfly *)
    sqrdmulh_h v27 v24 v0 1;               (* 312 gs_butterfly *)
    mul_h v11 v24 v0 0;                    (* 312 gs_butterfly *)
    mls_h v11 v27 v7 0;                    (* 312 gs_butterfly *)
    str_q v8 x3 (Post 64);                 (* 315 *)
    str_q v9 x3 (Off (-48));               (* 316 *)
    str_q v10 x3 (Off (-32));              (* 317 *)
    str_q v11 x3 (Off (-16));              (* 318 *)
    sub_imm x4 x4 1                        (* 320 *) ] x4;
  Straight [
    mov_imm x4 4;                          (* 325 *)
    ldr_q v0 x1 (Post 32);                 (* 326 load_roots_012 *)
    ldr_q v1 x1 (Off (-16))                (* 326 load_roots_012 *) ];
  Loop [
    ldr_q v8 x0 (Off 0);                   (* 332 *)
    ldr_q v9 x0 (Off 64);                  (* 333 *)
    ldr_q v10 x0 (Off 128);                (* 334 *)
    ldr_q v11 x0 (Off 192);                (* 335 *)
    ldr_q v12 x0 (Off 256);                (* 336 *)
    ldr_q v13 x0 (Off 320);                (* 337 *)
    ldr_q v14 x0 (Off 384);                (* 338 *)
    ldr_q v15 x0 (Off 448);                (* 339 *)
    sub v24 v8 v9;                         (* 341 gs_butterfly *)
    add v8 v8 v9;                          (* 341 gs_butterfly *)
    sqrdmulh_h v27 v24 v0 7;               (* 341 gs_butterfly *)
    mul_h v9 v24 v0 6;                     (* 341 gs_butterfly *)
    mls_h v9 v27 v7 0;                     (* 341 gs_butterfly *)
    sub v24 v10 v11;                       (* 342 gs_butterfly *)
    add v10 v10 v11;                       (* 342 gs_butterfly *)
    sqrdmulh_h v27 v24 v1 1;               (* 342 gs_butterfly *)
    mul_h v11 v24 v1 0;                    (* 342 gs_butterfly *)
    mls_h v11 v27 v7 0;                    (* 342 gs_butterfly *)
    sub v24 v12 v13;                       (* 343 gs_butterfly *)
    add v12 v12 v13;                       (* 343 gs_butterfly *)
    sqrdmulh_h v27 v24 v1 3;               (* 343 gs_butterfly *)
    mul_h v13 v24 v1 2;                    (* 343 gs_butterfly *)
    mls_h v13 v27 v7 0;                    (* 343 gs_butterfly *)
    sub v24 v14 v15;                       (* 344 gs_butterfly *)
    add v14 v14 v15;                       (* 344 gs_butterfly *)
    sqrdmulh_h v27 v24 v1 5;               (* 344 gs_butterfly *)
    mul_h v15 v24 v1 4;                    (* 344 gs_butterfly *)
    mls_h v15 v27 v7 0;                    (* 344 gs_butterfly *)
    sub v24 v8 v10;                        (* 346 gs_butterfly *)
    add v8 v8 v10;                         (* 346 gs_butterfly *)
    sqrdmulh_h v27 v24 v0 3;               (* 346 gs_butterfly *)
    mul_h v10 v24 v0 2;                    (* 346 gs_butterfly *)
    mls_h v10 v27 v7 0;                    (* 346 gs_butterfly *)
    sub v24 v9 v11;                        (* 347 gs_butterfly *)
    add v9 v9 v11;                         (* 347 gs_butterfly *)
    sqrdmulh_h v27 v24 v0 3;               (* 347 gs_butterfly *)
    mul_h v11 v24 v0 2;                    (* 347 gs_butterfly *)
    mls_h v11 v27 v7 0;                    (* 347 gs_butterfly *)
    sub v24 v12 v14;                       (* 348 gs_butterfly *)
    add v12 v12 v14;                       (* 348 gs_butterfly *)
    sqrdmulh_h v27 v24 v0 5;               (* 348 gs_butterfly *)
    mul_h v14 v24 v0 4;                    (* 348 gs_butterfly *)
    mls_h v14 v27 v7 0;                    (* 348 gs_butterfly *)
    sub v24 v13 v15;                       (* 349 gs_butterfly *)
    add v13 v13 v15;                       (* 349 gs_butterfly *)
    sqrdmulh_h v27 v24 v0 5;               (* 349 gs_butterfly *)
    mul_h v15 v24 v0 4;                    (* 349 gs_butterfly *)
    mls_h v15 v27 v7 0;                    (* 349 gs_butterfly *)
    sub v24 v8 v12;                        (* 351 gs_butterfly *)
    add v8 v8 v12;                         (* 351 gs_butterfly *)
    sqrdmulh_h v27 v24 v0 1;               (* 351 gs_butterfly *)
    mul_h v12 v24 v0 0;                    (* 351 gs_butterfly *)
    mls_h v12 v27 v7 0;                    (* 351 gs_butterfly *)
    sub v24 v9 v13;                        (* 352 gs_butterfly *)
    add v9 v9 v13;                         (* 352 gs_butterfly *)
    sqrdmulh_h v27 v24 v0 1;               (* 352 gs_butterfly *)
    mul_h v13 v24 v0 0;                    (* 352 gs_butterfly *)
    mls_h v13 v27 v7 0;                    (* 352 gs_butterfly *)
    sub v24 v10 v14;                       (* 353 gs_butterfly *)
    add v10 v10 v14;                       (* 353 gs_butterfly *)
    sqrdmulh_h v27 v24 v0 1;               (* 353 gs_butterfly *)
    mul_h v14 v24 v0 0;                    (* 353 gs_butterfly *)
    mls_h v14 v27 v7 0;                    (* 353 gs_butterfly *)
    sub v24 v11 v15;                       (* 354 gs_butterfly *)
    add v11 v11 v15;                       (* 354 gs_butterfly *)
    sqrdmulh_h v27 v24 v0 1;               (* 354 gs_butterfly *)
    mul_h v15 v24 v0 0;                    (* 354 gs_butterfly *)
    mls_h v15 v27 v7 0;                    (* 354 gs_butterfly *)
    str_q v12 x0 (Off 256);                (* 358 *)
    str_q v13 x0 (Off 320);                (* 359 *)
    str_q v14 x0 (Off 384);                (* 360 *)
    str_q v15 x0 (Off 448);                (* 361 *)
    str_q v8 x0 (Post 16);                 (* 363 *)
    str_q v9 x0 (Off 48);                  (* 364 *)
    str_q v10 x0 (Off 112);                (* 365 *)
    str_q v11 x0 (Off 176);                (* 366 *)
    sub_imm x4 x4 1                        (* 368 *) ] x4;
  Straight [
    ldp_d v8 v9 sp 0;                      (* 371 pop_stack *)
    ldp_d v10 v11 sp 16;                   (* 371 pop_stack *)
    ldp_d v12 v13 sp 32;                   (* 371 pop_stack *)
    ldp_d v14 v15 sp 48;                   (* 371 pop_stack *)
    add_imm sp sp 64                       (* 371 pop_stack *) ]
].

(** mlkem/native/aarch64/poly_clean.S:38 const_addr *)
Definition poly_clean_const_addr : list Z := [3329; 20159; -1044; -10276; 0; 0; 0; 0].
(** mlkem/native/aarch64/poly_clean.S:63-94 poly_reduce_asm_clean *)
Definition poly_reduce_asm_clean : list block := [
  Straight [
    adr x2 2;                              (* 63 *)
    ld1_8h v2 x2 (Off 0);                  (* 64 *)
    mov_imm x3 3329;                       (* 66 *)
    dup_8h v4 x3;                          (* 67 *)
    mov_imm x1 8                           (* 69 *) ];
  Loop [
    ldr_q v0 x0 (Post 64);                 (* 71 *)
    sqdmulh_h v1 v0 v2 1;                  (* 72 barrett_reduce *)
    srshr v1 v1 11;                        (* 72 barrett_reduce *)
    mls_h v0 v1 v2 0;                      (* 72 barrett_reduce *)
    sshr v3 v0 15;                         (* 73 scalar_signed_to_unsigned *)
    and_16b v3 v4 v3;                      (* 73 scalar_signed_to_unsigned *)
    add v0 v0 v3;                          (* 73 scalar_signed_to_unsigned *)
    str_q v0 x0 (Off (-64));               (* 74 *)
    ldr_q v0 x0 (Off (-48));               (* 76 *)
    sqdmulh_h v1 v0 v2 1;                  (* 77 barrett_reduce *)
    srshr v1 v1 11;                        (* 77 barrett_reduce *)
    mls_h v0 v1 v2 0;                      (* 77 barrett_reduce *)
    sshr v3 v0 15;                         (* 78 scalar_signed_to_unsigned *)
    and_16b v3 v4 v3;                      (* 78 scalar_signed_to_unsigned *)
    add v0 v0 v3;                          (* 78 scalar_signed_to_unsigned *)
    str_q v0 x0 (Off (-48));               (* 79 *)
    ldr_q v0 x0 (Off (-32));               (* 81 *)
    sqdmulh_h v1 v0 v2 1;                  (* 82 barrett_reduce *)
    srshr v1 v1 11;                        (* 82 barrett_reduce *)
    mls_h v0 v1 v2 0;                      (* 82 barrett_reduce *)
    sshr v3 v0 15;                         (* 83 scalar_signed_to_unsigned *)
    and_16b v3 v4 v3;                      (* 83 scalar_signed_to_unsigned *)
    add v0 v0 v3;                          (* 83 scalar_signed_to_unsigned *)
    str_q v0 x0 (Off (-32));               (* 84 *)
    ldr_q v0 x0 (Off (-16));               (* 86 *)
    sqdmulh_h v1 v0 v2 1;                  (* 87 barrett_reduce *)
    srshr v1 v1 11;                        (* 87 barrett_reduce *)
    mls_h v0 v1 v2 0;                      (* 87 barrett_reduce *)
    sshr v3 v0 15;                         (* 88 scalar_signed_to_unsigned *)
    and_16b v3 v4 v3;                      (* 88 scalar_signed_to_unsigned *)
    add v0 v0 v3;                          (* 88 scalar_signed_to_unsigned *)
    str_q v0 x0 (Off (-16));               (* 89 *)
    sub_imm x1 x1 1                        (* 91 *) ] x1
].

(** mlkem/native/aarch64/poly_clean.S:138-154 poly_mulcache_compute_asm_clean *)
Definition poly_mulcache_compute_asm_clean : list block := [
  Straight [
    adr x4 5;                              (* 138 *)
    ld1_8h v6 x4 (Off 0);                  (* 139 *)
    mov_imm x5 16                          (* 141 *) ];
  Loop [
    ldr_q v4 x1 (Post 32);                 (* 143 *)
    ldr_q v5 x1 (Off (-16));               (* 144 *)
    ldr_q v2 x2 (Post 16);                 (* 145 *)
    ldr_q v3 x3 (Post 16);                 (* 146 *)
    uzp2_8h v1 v4 v5;                      (* 147 *)
    sqrdmulh v4 v1 v3;                     (* 148 mulmod *)
    mul v7 v1 v2;                          (* 148 mulmod *)
    mls_h v7 v4 v6 0;                      (* 148 mulmod *)
    str_q v7 x0 (Post 16);                 (* 149 *)
    sub_imm x5 x5 1                        (* 151 *) ] x5
].

(** mlkem/native/aarch64/poly_clean.S:197-217 poly_tobytes_asm_clean *)
Definition poly_tobytes_asm_clean : list block := [
  Straight [
    mov_imm x2 16                          (* 197 *) ];
  Loop [
    ld2_8h v0 v1 x1 (Post 32);             (* 199 *)
    xtn_8b v2 v0;                          (* 202 *)
    shrn_8b v3 v0 8;                       (* 205 *)
    xtn_8b v5 v1;                          (* 206 *)
    sli_8b v3 v5 4;                        (* 208 *)
    shrn_8b v4 v1 4;                       (* 211 *)
    st3_8b v2 v3 v4 x0 (Post 24);          (* 213 *)
    sub_imm x2 x2 1                        (* 215 *) ] x2
].

(** mlkem/native/aarch64/poly_clean.S:256-286 poly_tomont_asm_clean *)
Definition poly_tomont_asm_clean : list block := [
  Straight [
    adr x2 2;                              (* 256 *)
    ld1_8h v2 x2 (Off 0);                  (* 257 *)
    ldrsh x3 x2 4;                         (* 259 *)
    dup_8h v3 x3;                          (* 260 *)
    ldrh x3 x2 6;                          (* 261 *)
    dup_8h v4 x3;                          (* 262 *)
    mov_imm x1 8                           (* 264 *) ];
  Loop [
    ldr_q v0 x0 (Post 64);                 (* 267 *)
    sqrdmulh v5 v0 v4;                     (* 268 mulmod *)
    mul v1 v0 v3;                          (* 268 mulmod *)
    mls_h v1 v5 v2 0;                      (* 268 mulmod *)
    str_q v1 x0 (Off (-64));               (* 269 *)
    ldr_q v0 x0 (Off (-48));               (* 271 *)
    sqrdmulh v5 v0 v4;                     (* 272 mulmod *)
    mul v1 v0 v3;                          (* 272 mulmod *)
    mls_h v1 v5 v2 0;                      (* 272 mulmod *)
    str_q v1 x0 (Off (-48));               (* 273 *)
    ldr_q v0 x0 (Off (-32));               (* 275 *)
    sqrdmulh v5 v0 v4;                     (* 276 mulmod *)
    mul v1 v0 v3;                          (* 276 mulmod *)
    mls_h v1 v5 v2 0;                      (* 276 mulmod *)
    str_q v1 x0 (Off (-32));               (* 277 *)
    ldr_q v0 x0 (Off (-16));               (* 279 *)
    sqrdmulh v5 v0 v4;                     (* 280 mulmod *)
    mul v1 v0 v3;                          (* 280 mulmod *)
    mls_h v1 v5 v2 0;                      (* 280 mulmod *)
    str_q v1 x0 (Off (-16));               (* 281 *)
    sub_imm x1 x1 1                        (* 283 *) ] x1
].

(** mlkem/native/aarch64/polyvec_clean.S:135 const_addr *)
Definition polyvec_clean_const_addr : list Z := [3329; 20159; 3327; 0; 0; 0; 0; 0].
(** mlkem/native/aarch64/polyvec_clean.S:151-181 polyvec_basemul_acc_montgomery_cached_asm_clean, MLKEM_K == 2 *)
Definition polyvec_basemul_acc_montgomery_cached_asm_clean_k2 : list block := [
  Straight [
    sub_imm sp sp 64;                      (* 151 push_stack *)
    stp_d v8 v9 sp 0;                      (* 151 push_stack *)
    stp_d v10 v11 sp 16;                   (* 151 push_stack *)
    stp_d v12 v13 sp 32;                   (* 151 push_stack *)
    stp_d v14 v15 sp 48;                   (* 151 push_stack *)
    adr x14 5;                             (* 153 *)
    ld1_8h v2 x14 (Off 0);                 (* 154 *)
    ldrsh x15 x14 0;                       (* 155 *)
    dup_8h v0 x15;                         (* 156 *)
    add_imm x4 x1 512;                     (* 160 *)
    add_imm x5 x2 512;                     (* 161 *)
    add_imm x6 x3 256;                     (* 162 *)
    mov_imm x13 16                         (* 164 *) ];
  Loop [
    ld2_8h v3 v4 x1 (Post 32);             (* 167 load_polys *)
    ld2_8h v5 v6 x2 (Post 32);             (* 167 load_polys *)
    ld1_8h v7 x3 (Post 16);                (* 167 load_polys *)
    smull v8 v3 v5;                        (* 168 pmull *)
    smull2 v10 v3 v5;                      (* 168 pmull *)
    smlal v8 v4 v7;                        (* 168 pmull *)
    smlal2 v10 v4 v7;                      (* 168 pmull *)
    smull v9 v3 v6;                        (* 168 pmull *)
    smull2 v11 v3 v6;                      (* 168 pmull *)
    smlal v9 v4 v5;                        (* 168 pmull *)
    smlal2 v11 v4 v5;                      (* 168 pmull *)
    ld2_8h v3 v4 x4 (Post 32);             (* 169 load_polys *)
    ld2_8h v5 v6 x5 (Post 32);             (* 169 load_polys *)
    ld1_8h v7 x6 (Post 16);                (* 169 load_polys *)
    smlal v8 v3 v5;                        (* 170 pmlal *)
    smlal2 v10 v3 v5;                      (* 170 pmlal *)
    smlal v8 v4 v7;                        (* 170 pmlal *)
    smlal2 v10 v4 v7;                      (* 170 pmlal *)
    smlal v9 v3 v6;                        (* 170 pmlal *)
    smlal2 v11 v3 v6;                      (* 170 pmlal *)
    smlal v9 v4 v5;                        (* 170 pmlal *)
    smlal2 v11 v4 v5;                      (* 170 pmlal *)
    uzp1_8h v28 v8 v10;                    (* 172 montgomery_reduce_long *)
    mul_h v28 v28 v2 2;                    (* 172 montgomery_reduce_long *)
    smlal v8 v28 v0;                       (* 172 montgomery_reduce_long *)
    smlal2 v10 v28 v0;                     (* 172 montgomery_reduce_long *)
    uzp2_8h v26 v8 v10;                    (* 172 montgomery_reduce_long *)
    uzp1_8h v28 v9 v11;                    (* 173 montgomery_reduce_long *)
    mul_h v28 v28 v2 2;                    (* 173 montgomery_reduce_long *)
    smlal v9 v28 v0;                       (* 173 montgomery_reduce_long *)
    smlal2 v11 v28 v0;                     (* 173 montgomery_reduce_long *)
    uzp2_8h v27 v9 v11;                    (* 173 montgomery_reduce_long *)
    st2_8h v26 v27 x0 (Post 32);           (* 175 *)
    sub_imm x13 x13 1                      (* 177 *) ] x13;
  Straight [
    ldp_d v8 v9 sp 0;                      (* 180 pop_stack *)
    ldp_d v10 v11 sp 16;                   (* 180 pop_stack *)
    ldp_d v12 v13 sp 32;                   (* 180 pop_stack *)
    ldp_d v14 v15 sp 48;                   (* 180 pop_stack *)
    add_imm sp sp 64                       (* 180 pop_stack *) ]
].

(** mlkem/native/aarch64/polyvec_clean.S:190-225 polyvec_basemul_acc_montgomery_cached_asm_clean, MLKEM_K == 3 *)
Definition polyvec_basemul_acc_montgomery_cached_asm_clean_k3 : list block := [
  Straight [
    sub_imm sp sp 64;                      (* 190 push_stack *)
    stp_d v8 v9 sp 0;                      (* 190 push_stack *)
    stp_d v10 v11 sp 16;                   (* 190 push_stack *)
    stp_d v12 v13 sp 32;                   (* 190 push_stack *)
    stp_d v14 v15 sp 48;                   (* 190 push_stack *)
    adr x14 5;                             (* 192 *)
    ld1_8h v2 x14 (Off 0);                 (* 193 *)
    ldrsh x15 x14 0;                       (* 194 *)
    dup_8h v0 x15;                         (* 195 *)
    add_imm x4 x1 512;                     (* 199 *)
    add_imm x5 x2 512;                     (* 200 *)
    add_imm x6 x3 256;                     (* 201 *)
    add_imm x7 x1 1024;                    (* 202 *)
    add_imm x8 x2 1024;                    (* 203 *)
    add_imm x9 x3 512;                     (* 204 *)
    mov_imm x13 16                         (* 206 *) ];
  Loop [
    ld2_8h v3 v4 x1 (Post 32);             (* 209 load_polys *)
    ld2_8h v5 v6 x2 (Post 32);             (* 209 load_polys *)
    ld1_8h v7 x3 (Post 16);                (* 209 load_polys *)
    smull v8 v3 v5;                        (* 210 pmull *)
    smull2 v10 v3 v5;                      (* 210 pmull *)
    smlal v8 v4 v7;                        (* 210 pmull *)
    smlal2 v10 v4 v7;                      (* 210 pmull *)
    smull v9 v3 v6;                        (* 210 pmull *)
    smull2 v11 v3 v6;                      (* 210 pmull *)
    smlal v9 v4 v5;                        (* 210 pmull *)
    smlal2 v11 v4 v5;                      (* 210 pmull *)
    ld2_8h v3 v4 x4 (Post 32);             (* 211 load_polys *)
    ld2_8h v5 v6 x5 (Post 32);             (* 211 load_polys *)
    ld1_8h v7 x6 (Post 16);                (* 211 load_polys *)
    smlal v8 v3 v5;                        (* 212 pmlal *)
    smlal2 v10 v3 v5;                      (* 212 pmlal *)
    smlal v8 v4 v7;                        (* 212 pmlal *)
    smlal2 v10 v4 v7;                      (* 212 pmlal *)
    smlal v9 v3 v6;                        (* 212 pmlal *)
    smlal2 v11 v3 v6;                      (* 212 pmlal *)
    smlal v9 v4 v5;                        (* 212 pmlal *)
    smlal2 v11 v4 v5;                      (* 212 pmlal *)
    ld2_8h v3 v4 x7 (Post 32);             (* 213 load_polys *)
    ld2_8h v5 v6 x8 (Post 32);             (* 213 load_polys *)
    ld1_8h v7 x9 (Post 16);                (* 213 load_polys *)
    smlal v8 v3 v5;                        (* 214 pmlal *)
    smlal2 v10 v3 v5;                      (* 214 pmlal *)
    smlal v8 v4 v7;                        (* 214 pmlal *)
    smlal2 v10 v4 v7;                      (* 214 pmlal *)
    smlal v9 v3 v6;                        (* 214 pmlal *)
    smlal2 v11 v3 v6;                      (* 214 pmlal *)
    smlal v9 v4 v5;                        (* 214 pmlal *)
    smlal2 v11 v4 v5;                      (* 214 pmlal *)
    uzp1_8h v28 v8 v10;                    (* 216 montgomery_reduce_long *)
    mul_h v28 v28 v2 2;                    (* 216 montgomery_reduce_long *)
    smlal v8 v28 v0;                       (* 216 montgomery_reduce_long *)
    smlal2 v10 v28 v0;                     (* 216 montgomery_reduce_long *)
    uzp2_8h v26 v8 v10;                    (* 216 montgomery_reduce_long *)
    uzp1_8h v28 v9 v11;                    (* 217 montgomery_reduce_long *)
    mul_h v28 v28 v2 2;                    (* 217 montgomery_reduce_long *)
    smlal v9 v28 v0;                       (* 217 montgomery_reduce_long *)
    smlal2 v11 v28 v0;                     (* 217 montgomery_reduce_long *)
    uzp2_8h v27 v9 v11;                    (* 217 montgomery_reduce_long *)
    st2_8h v26 v27 x0 (Post 32);           (* 219 *)
    sub_imm x13 x13 1                      (* 221 *) ] x13;
  Straight [
    ldp_d v8 v9 sp 0;                      (* 224 pop_stack *)
    ldp_d v10 v11 sp 16;                   (* 224 pop_stack *)
    ldp_d v12 v13 sp 32;                   (* 224 pop_stack *)
    ldp_d v14 v15 sp 48;                   (* 224 pop_stack *)
    add_imm sp sp 64                       (* 224 pop_stack *) ]
].

(** mlkem/native/aarch64/polyvec_clean.S:234-282 polyvec_basemul_acc_montgomery_cached_asm_clean, MLKEM_K == 4 *)
Definition polyvec_basemul_acc_montgomery_cached_asm_clean_k4 : list block := [
  Straight [
    sub_imm sp sp 64;                      (* 234 push_stack *)
    stp_d v8 v9 sp 0;                      (* 234 push_stack *)
    stp_d v10 v11 sp 16;                   (* 234 push_stack *)
    stp_d v12 v13 sp 32;                   (* 234 push_stack *)
    stp_d v14 v15 sp 48;                   (* 234 push_stack *)
    adr x14 5;                             (* 236 *)
    ld1_8h v2 x14 (Off 0);                 (* 237 *)
    ldrsh x15 x14 0;                       (* 238 *)
    dup_8h v0 x15;                         (* 239 *)
    add_imm x4 x1 512;                     (* 243 *)
    add_imm x5 x2 512;                     (* 244 *)
    add_imm x6 x3 256;                     (* 245 *)
    add_imm x7 x1 1024;                    (* 246 *)
    add_imm x8 x2 1024;                    (* 247 *)
    add_imm x9 x3 512;                     (* 248 *)
    add_imm x10 x1 1536;                   (* 249 *)
    add_imm x11 x2 1536;                   (* 250 *)
    add_imm x12 x3 768;                    (* 251 *)
    mov_imm x13 16                         (* 261 *) ];
  Loop [
    ld2_8h v3 v4 x1 (Post 32);             (* 264 load_polys *)
    ld2_8h v5 v6 x2 (Post 32);             (* 264 load_polys *)
    ld1_8h v7 x3 (Post 16);                (* 264 load_polys *)
    smull v8 v3 v5;                        (* 265 pmull *)
    smull2 v10 v3 v5;                      (* 265 pmull *)
    smlal v8 v4 v7;                        (* 265 pmull *)
    smlal2 v10 v4 v7;                      (* 265 pmull *)
    smull v9 v3 v6;                        (* 265 pmull *)
    smull2 v11 v3 v6;                      (* 265 pmull *)
    smlal v9 v4 v5;                        (* 265 pmull *)
    smlal2 v11 v4 v5;                      (* 265 pmull *)
    ld2_8h v3 v4 x4 (Post 32);             (* 266 load_polys *)
    ld2_8h v5 v6 x5 (Post 32);             (* 266 load_polys *)
    ld1_8h v7 x6 (Post 16);                (* 266 load_polys *)
    smlal v8 v3 v5;                        (* 267 pmlal *)
    smlal2 v10 v3 v5;                      (* 267 pmlal *)
    smlal v8 v4 v7;                        (* 267 pmlal *)
    smlal2 v10 v4 v7;                      (* 267 pmlal *)
    smlal v9 v3 v6;                        (* 267 pmlal *)
    smlal2 v11 v3 v6;                      (* 267 pmlal *)
    smlal v9 v4 v5;                        (* 267 pmlal *)
    smlal2 v11 v4 v5;                      (* 267 pmlal *)
    ld2_8h v3 v4 x7 (Post 32);             (* 268 load_polys *)
    ld2_8h v5 v6 x8 (Post 32);             (* 268 load_polys *)
    ld1_8h v7 x9 (Post 16);                (* 268 load_polys *)
    smlal v8 v3 v5;                        (* 269 pmlal *)
    smlal2 v10 v3 v5;                      (* 269 pmlal *)
    smlal v8 v4 v7;                        (* 269 pmlal *)
    smlal2 v10 v4 v7;                      (* 269 pmlal *)
    smlal v9 v3 v6;                        (* 269 pmlal *)
    smlal2 v11 v3 v6;                      (* 269 pmlal *)
    smlal v9 v4 v5;                        (* 269 pmlal *)
    smlal2 v11 v4 v5;                      (* 269 pmlal *)
    ld2_8h v3 v4 x10 (Post 32);            (* 270 load_polys *)
    ld2_8h v5 v6 x11 (Post 32);            (* 270 load_polys *)
    ld1_8h v7 x12 (Post 16);               (* 270 load_polys *)
    smlal v8 v3 v5;                        (* 271 pmlal *)
    smlal2 v10 v3 v5;                      (* 271 pmlal *)
    smlal v8 v4 v7;                        (* 271 pmlal *)
    smlal2 v10 v4 v7;                      (* 271 pmlal *)
    smlal v9 v3 v6;                        (* 271 pmlal *)
    smlal2 v11 v3 v6;                      (* 271 pmlal *)
    smlal v9 v4 v5;                        (* 271 pmlal *)
    smlal2 v11 v4 v5;                      (* 271 pmlal *)
    uzp1_8h v28 v8 v10;                    (* 273 montgomery_reduce_long *)
    mul_h v28 v28 v2 2;                    (* 273 montgomery_reduce_long *)
    smlal v8 v28 v0;                       (* 273 montgomery_reduce_long *)
    smlal2 v10 v28 v0;                     (* 273 montgomery_reduce_long *)
    uzp2_8h v26 v8 v10;                    (* 273 montgomery_reduce_long *)
    uzp1_8h v28 v9 v11;                    (* 274 montgomery_reduce_long *)
    mul_h v28 v28 v2 2;                    (* 274 montgomery_reduce_long *)
    smlal v9 v28 v0;                       (* 274 montgomery_reduce_long *)
    smlal2 v11 v28 v0;                     (* 274 montgomery_reduce_long *)
    uzp2_8h v27 v9 v11;                    (* 274 montgomery_reduce_long *)
    st2_8h v26 v27 x0 (Post 32);           (* 276 *)
    sub_imm x13 x13 1                      (* 278 *) ] x13;
  Straight [
    ldp_d v8 v9 sp 0;                      (* 281 pop_stack *)
    ldp_d v10 v11 sp 16;                   (* 281 pop_stack *)
    ldp_d v12 v13 sp 32;                   (* 281 pop_stack *)
    ldp_d v14 v15 sp 48;                   (* 281 pop_stack *)
    add_imm sp sp 64                       (* 281 pop_stack *) ]
].

(** mlkem/native/aarch64/ntt_opt.S:189 const_addr *)
Definition ntt_opt_const_addr : list Z := [3329; 20159; 0; 0; 0; 0; 0; 0].
(** mlkem/native/aarch64/ntt_opt.S:201-893 ntt_asm_opt *)
Definition ntt_asm_opt : list block := [
  Straight [
    sub_imm sp sp 64;                      (* 201 push_stack *)
    stp_d v8 v9 sp 0;                      (* 201 push_stack *)
    stp_d v10 v11 sp 16;                   (* 201 push_stack *)
    stp_d v12 v13 sp 32;                   (* 201 push_stack *)
    stp_d v14 v15 sp 48;                   (* 201 push_stack *)
    adr x5 4;                              (* 202 *)
    ld1_8h v7 x5 (Off 0);                  (* 204 *)
    mov x3 x0;                             (* 206 *)
    mov_imm x4 4;                          (* 207 *)
    ldr_q v0 x1 (Post 32);                 (* 209 load_roots_012 *)
    ldr_q v1 x1 (Off (-16));               (* 209 load_roots_012 *)
    ldr_q v30 x0 (Off 0);                  (* 239 *)
    ldr_q v2 x0 (Off 64);                  (* 240 *)
    ldr_q v21 x0 (Off 128);                (* 241 *)
    ldr_q v22 x0 (Off 192);                (* 242 *)
    ldr_q v29 x0 (Off 256);                (* 243 *)
    ldr_q v31 x0 (Off 448);                (* 244 *)
    mul_h v18 v29 v0 0;                    (* 245 *)
    ldr_q v5 x0 (Off 320);                 (* 246 *)
    mul_h v15 v31 v0 0;                    (* 247 *)
    ldr_q v20 x0 (Off 384);                (* 248 *)
    sub_imm x4 x4 1                        (* 264 *) ];
  Loop [
    sqrdmulh_h v9 v29 v0 1;                (* 279 *)
    sqrdmulh_h v29 v5 v0 1;                (* 280 *)
    mul_h v5 v5 v0 0;                      (* 281 *)
    sqrdmulh_h v4 v20 v0 1;                (* 282 *)
    mls_h v18 v9 v7 0;                     (* 283 *)
    mul_h v9 v20 v0 0;                     (* 284 *)
    mls_h v5 v29 v7 0;                     (* 285 *)
    sqrdmulh_h v29 v31 v0 1;               (* 286 *)
    sub v31 v30 v18;                       (* 287 *)
    mls_h v9 v4 v7 0;                      (* 288 *)
    sub v4 v2 v5;                          (* 289 *)
    add v5 v2 v5;                          (* 290 *)
    add v18 v30 v18;                       (* 291 *)
    sub v20 v21 v9;                        (* 292 *)
    add v9 v21 v9;                         (* 293 *)
    mls_h v15 v29 v7 0;                    (* 294 *)
    sqrdmulh_h v29 v20 v0 5;               (* 295 *)
    mul_h v20 v20 v0 4;                    (* 296 *)
    sqrdmulh_h v30 v9 v0 3;                (* 297 *)
    sub v2 v22 v15;                        (* 298 *)
    add v15 v22 v15;                       (* 299 *)
    mls_h v20 v29 v7 0;                    (* 300 *)
    sqrdmulh_h v29 v2 v0 5;                (* 301 *)
    mul_h v2 v2 v0 4;                      (* 302 *)
    mul_h v9 v9 v0 2;                      (* 303 *)
    sub v21 v31 v20;                       (* 304 *)
    add v31 v31 v20;                       (* 305 *)
    mls_h v2 v29 v7 0;                     (* 306 *)
    sqrdmulh_h v29 v15 v0 3;               (* 307 *)
    mul_h v20 v15 v0 2;                    (* 308 *)
    mls_h v9 v30 v7 0;                     (* 309 *)
    sub v15 v4 v2;                         (* 310 *)
    add v4 v4 v2;                          (* 311 *)
    mls_h v20 v29 v7 0;                    (* 312 *)
    sub v29 v18 v9;                        (* 313 *)
    add v9 v18 v9;                         (* 314 *)
    sqrdmulh_h v18 v4 v1 3;                (* 315 *)
    sub v30 v5 v20;                        (* 316 *)
    add v5 v5 v20;                         (* 317 *)
    mul_h v4 v4 v1 2;                      (* 318 *)
    sqrdmulh_h v20 v30 v1 1;               (* 319 *)
    sqrdmulh_h v2 v5 v0 7;                 (* 320 *)
    mul_h v5 v5 v0 6;                      (* 321 *)
    mul_h v30 v30 v1 0;                    (* 322 *)
    mls_h v4 v18 v7 0;                     (* 323 *)
    sqrdmulh_h v18 v15 v1 5;               (* 324 *)
    mls_h v5 v2 v7 0;                      (* 325 *)
    mls_h v30 v20 v7 0;                    (* 326 *)
    sub v20 v31 v4;                        (* 327 *)
    add v4 v31 v4;                         (* 328 *)
    sub v31 v9 v5;                         (* 329 *)
    mul_h v15 v15 v1 4;                    (* 330 *)
    add v9 v9 v5;                          (* 331 *)
    sub v5 v29 v30;                        (* 332 *)
    add v29 v29 v30;                       (* 333 *)
    mls_h v15 v18 v7 0;                    (* 334 *)
    str_q v9 x0 (Post 16);                 (* 335 *)
    ldr_q v30 x0 (Off 0);                  (* 336 *)
    sub v9 v21 v15;                        (* 337 *)
    add v18 v21 v15;                       (* 338 *)
    str_q v31 x0 (Off 48);                 (* 339 *)
    ldr_q v2 x0 (Off 64);                  (* 340 *)
    str_q v29 x0 (Off 112);                (* 341 *)
    ldr_q v21 x0 (Off 128);                (* 342 *)
    str_q v5 x0 (Off 176);                 (* 343 *)
    ldr_q v22 x0 (Off 192);                (* 344 *)
    str_q v4 x0 (Off 240);                 (* 345 *)
    ldr_q v29 x0 (Off 256);                (* 346 *)
    str_q v20 x0 (Off 304);                (* 347 *)
    ldr_q v5 x0 (Off 320);                 (* 348 *)
    str_q v18 x0 (Off 368);                (* 349 *)
    mul_h v18 v29 v0 0;                    (* 350 *)
    str_q v9 x0 (Off 432);                 (* 351 *)
    ldr_q v31 x0 (Off 448);                (* 352 *)
    ldr_q v20 x0 (Off 384);                (* 353 *)
    mul_h v15 v31 v0 0;                    (* 354 *)
    sub_imm x4 x4 1                        (* 436 *) ] x4;
  Straight [
    sqrdmulh_h v13 v31 v0 1;               (* 451 *)
    mul_h v8 v20 v0 0;                     (* 452 *)
    sqrdmulh_h v26 v20 v0 1;               (* 453 *)
    mul_h v31 v5 v0 0;                     (* 454 *)
    mls_h v15 v13 v7 0;                    (* 455 *)
    sqrdmulh_h v4 v5 v0 1;                 (* 456 *)
    mls_h v8 v26 v7 0;                     (* 457 *)
    sqrdmulh_h v6 v29 v0 1;                (* 458 *)
    add v17 v22 v15;                       (* 459 *)
    mls_h v31 v4 v7 0;                     (* 460 *)
    sub v3 v21 v8;                         (* 461 *)
    sqrdmulh_h v5 v17 v0 3;                (* 462 *)
    mul_h v29 v17 v0 2;                    (* 463 *)
    mul_h v20 v3 v0 4;                     (* 464 *)
    sqrdmulh_h v4 v3 v0 5;                 (* 465 *)
    mls_h v18 v6 v7 0;                     (* 466 *)
    mls_h v29 v5 v7 0;                     (* 467 *)
    add v13 v2 v31;                        (* 468 *)
    mls_h v20 v4 v7 0;                     (* 469 *)
    sub v16 v30 v18;                       (* 470 *)
    add v25 v21 v8;                        (* 471 *)
    sub v9 v13 v29;                        (* 472 *)
    add v21 v16 v20;                       (* 473 *)
    sub v10 v16 v20;                       (* 474 *)
    mul_h v4 v9 v1 0;                      (* 475 *)
    sqrdmulh_h v16 v25 v0 3;               (* 476 *)
    mul_h v26 v25 v0 2;                    (* 477 *)
    sqrdmulh_h v5 v9 v1 1;                 (* 478 *)
    sub v9 v22 v15;                        (* 479 *)
    add v27 v30 v18;                       (* 480 *)
    mls_h v26 v16 v7 0;                    (* 481 *)
    sqrdmulh_h v16 v9 v0 5;                (* 482 *)
    mul_h v20 v9 v0 4;                     (* 483 *)
    mls_h v4 v5 v7 0;                      (* 484 *)
    sub v6 v27 v26;                        (* 485 *)
    sub v18 v2 v31;                        (* 486 *)
    mls_h v20 v16 v7 0;                    (* 487 *)
    sub v5 v6 v4;                          (* 488 *)
    add v9 v6 v4;                          (* 489 *)
    add v4 v13 v29;                        (* 490 *)
    str_q v5 x0 (Off 192);                 (* 491 *)
    add v5 v18 v20;                        (* 492 *)
    str_q v9 x0 (Off 128);                 (* 493 *)
    sub v20 v18 v20;                       (* 494 *)
    sqrdmulh_h v2 v5 v1 3;                 (* 495 *)
    mul_h v15 v5 v1 2;                     (* 496 *)
    add v6 v27 v26;                        (* 497 *)
    sqrdmulh_h v29 v20 v1 5;               (* 498 *)
    mul_h v20 v20 v1 4;                    (* 499 *)
    mls_h v15 v2 v7 0;                     (* 500 *)
    sqrdmulh_h v9 v4 v0 7;                 (* 501 *)
    mul_h v5 v4 v0 6;                      (* 502 *)
    mls_h v20 v29 v7 0;                    (* 503 *)
    add v3 v21 v15;                        (* 504 *)
    sub v4 v21 v15;                        (* 505 *)
    mls_h v5 v9 v7 0;                      (* 506 *)
    str_q v3 x0 (Off 256);                 (* 507 *)
    add v9 v10 v20;                        (* 508 *)
    str_q v4 x0 (Off 320);                 (* 509 *)
    sub v29 v10 v20;                       (* 510 *)
    str_q v9 x0 (Off 384);                 (* 511 *)
    add v24 v6 v5;                         (* 512 *)
    str_q v29 x0 (Off 448);                (* 513 *)
    sub v4 v6 v5;                          (* 514 *)
    str_q v24 x0 (Post 16);                (* 515 *)
    str_q v4 x0 (Off 48);                  (* 516 *)
    mov x0 x3;                             (* 589 *)
    mov_imm x4 8;                          (* 590 *)
    ldr_q v29 x0 (Off 48);                 (* 606 *)
    ldr_q v14 x1 (Post 16);                (* 607 *)
    ldr_q v5 x0 (Off 16);                  (* 608 *)
    sqrdmulh_h v9 v29 v14 1;               (* 609 *)
    mul_h v29 v29 v14 0;                   (* 610 *)
    ldr_q v13 x0 (Off 32);                 (* 611 *)
    mls_h v29 v9 v7 0;                     (* 612 *)
    sqrdmulh_h v11 v13 v14 1;              (* 613 *)
    ldr_q v16 x2 (Off 16);                 (* 614 *)
    sub v28 v5 v29;                        (* 615 *)
    add v12 v5 v29;                        (* 616 *)
    ldr_q v24 x2 (Off 80);                 (* 617 *)
    sub_imm x4 x4 1                        (* 635 *) ];
  Loop [
    ldr_q v0 x2 (Post 96);                 (* 650 *)
    ldr_q v23 x0 (Off 112);                (* 651 *)
    ldr_q v21 x0 (Off 80);                 (* 652 *)
    ldr_q v17 x0 (Off 0);                  (* 653 *)
    ldr_q v27 x2 (Off (-64));              (* 654 *)
    sqrdmulh_h v26 v12 v14 3;              (* 655 *)
    sqrdmulh_h v2 v28 v14 5;               (* 656 *)
    mul_h v30 v28 v14 4;                   (* 657 *)
    mul_h v22 v13 v14 0;                   (* 658 *)
    ldr_q v13 x0 (Off 96);                 (* 659 *)
    mls_h v30 v2 v7 0;                     (* 660 *)
    mls_h v22 v11 v7 0;                    (* 661 *)
    mul_h v3 v12 v14 2;                    (* 662 *)
    ldr_q v14 x1 (Post 16);                (* 663 *)
    sub v2 v17 v22;                        (* 664 *)
    mls_h v3 v26 v7 0;                     (* 665 *)
    add v22 v17 v22;                       (* 666 *)
    add v4 v2 v30;                         (* 667 *)
    sub v6 v2 v30;                         (* 668 *)
    add v26 v22 v3;                        (* 669 *)
    sub v22 v22 v3;                        (* 670 *)
    trn2_4s v29 v4 v6;                     (* 671 *)
    sqrdmulh_h v25 v23 v14 1;              (* 672 *)
    trn2_4s v1 v26 v22;                    (* 673 *)
    mul_h v10 v23 v14 0;                   (* 674 *)
    trn1_4s v18 v26 v22;                   (* 675 *)
    trn2_2d v17 v1 v29;                    (* 676 *)
    trn1_2d v2 v1 v29;                     (* 677 *)
    trn1_4s v29 v4 v6;                     (* 678 *)
    sqrdmulh v4 v17 v16;                   (* 679 *)
    mls_h v10 v25 v7 0;                    (* 680 *)
    trn2_2d v30 v18 v29;                   (* 681 *)
    sqrdmulh_h v11 v13 v14 1;              (* 682 *)
    sqrdmulh v23 v30 v16;                  (* 683 *)
    mul v16 v17 v0;                        (* 684 *)
    mul v1 v30 v0;                         (* 685 *)
    trn1_2d v30 v18 v29;                   (* 686 *)
    sub v28 v21 v10;                       (* 687 *)
    mls_h v16 v4 v7 0;                     (* 688 *)
    mls_h v1 v23 v7 0;                     (* 689 *)
    ldr_q v8 x2 (Off (-32));               (* 690 *)
    sub v22 v2 v16;                        (* 691 *)
    ldr_q v9 x2 (Off (-48));               (* 692 *)
    add v25 v30 v1;                        (* 693 *)
    add v5 v2 v16;                         (* 694 *)
    sqrdmulh v16 v22 v24;                  (* 695 *)
    mul v2 v22 v8;                         (* 696 *)
    mul v26 v5 v27;                        (* 697 *)
    sub v29 v30 v1;                        (* 698 *)
    sqrdmulh v30 v5 v9;                    (* 699 *)
    mls_h v2 v16 v7 0;                     (* 700 *)
    ldr_q v16 x2 (Off 16);                 (* 701 *)
    mls_h v26 v30 v7 0;                    (* 702 *)
    add v12 v21 v10;                       (* 703 *)
    sub v3 v29 v2;                         (* 704 *)
    add v2 v29 v2;                         (* 705 *)
    add v0 v25 v26;                        (* 706 *)
    sub v1 v25 v26;                        (* 707 *)
    ldr_q v24 x2 (Off 80);                 (* 708 *)
    st4_4s v0 v1 v2 v3 x0 (Post 64);       (* 709 *)
    sub_imm x4 x4 1                        (* 775 *) ] x4;
  Straight [
    mul_h v18 v28 v14 4;                   (* 790 *)
    sqrdmulh_h v15 v28 v14 5;              (* 791 *)
    mul_h v5 v13 v14 0;                    (* 792 *)
    ldr_q v9 x0 (Off 0);                   (* 793 *)
    mls_h v18 v15 v7 0;                    (* 794 *)
    mls_h v5 v11 v7 0;                     (* 795 *)
    mul_h v10 v12 v14 2;                   (* 796 *)
    sqrdmulh_h v29 v12 v14 3;              (* 797 *)
    ldr_q v2 x2 (Off 32);                  (* 798 *)
    sub v4 v9 v5;                          (* 799 *)
    mls_h v10 v29 v7 0;                    (* 800 *)
    add v29 v9 v5;                         (* 801 *)
    sub v21 v4 v18;                        (* 802 *)
    add v9 v4 v18;                         (* 803 *)
    add v18 v29 v10;                       (* 804 *)
    sub v0 v29 v10;                        (* 805 *)
    trn2_4s v20 v9 v21;                    (* 806 *)
    trn1_4s v31 v9 v21;                    (* 807 *)
    trn2_4s v9 v18 v0;                     (* 808 *)
    ldr_q v10 x2 (Post 96);                (* 809 *)
    trn2_2d v29 v9 v20;                    (* 810 *)
    trn1_2d v20 v9 v20;                    (* 811 *)
    mul v4 v29 v10;                        (* 812 *)
    sqrdmulh v5 v29 v16;                   (* 813 *)
    ldr_q v15 x2 (Off (-32));              (* 814 *)
    trn1_4s v30 v18 v0;                    (* 815 *)
    mls_h v4 v5 v7 0;                      (* 816 *)
    ldr_q v9 x2 (Off (-48));               (* 817 *)
    trn2_2d v3 v30 v31;                    (* 818 *)
    add v29 v20 v4;                        (* 819 *)
    sub v5 v20 v4;                         (* 820 *)
    mul v18 v3 v10;                        (* 821 *)
    sqrdmulh v26 v3 v16;                   (* 822 *)
    sqrdmulh v6 v5 v24;                    (* 823 *)
    mul v4 v29 v2;                         (* 824 *)
    mul v0 v5 v15;                         (* 825 *)
    mls_h v18 v26 v7 0;                    (* 826 *)
    sqrdmulh v9 v29 v9;                    (* 827 *)
    trn1_2d v31 v30 v31;                   (* 828 *)
    mls_h v0 v6 v7 0;                      (* 829 *)
    sub v5 v31 v18;                        (* 830 *)
    mls_h v4 v9 v7 0;                      (* 831 *)
    add v20 v31 v18;                       (* 832 *)
    sub v29 v5 v0;                         (* 833 *)
    add v28 v5 v0;                         (* 834 *)
    sub v27 v20 v4;                        (* 835 *)
    add v26 v20 v4;                        (* 836 *)
    st4_4s v26 v27 v28 v29 x0 (Post 64);   (* 837 *)
    ldp_d v8 v9 sp 0;                      (* 892 pop_stack *)
    ldp_d v10 v11 sp 16;                   (* 892 pop_stack *)
    ldp_d v12 v13 sp 32;                   (* 892 pop_stack *)
    ldp_d v14 v15 sp 48;                   (* 892 pop_stack *)
    add_imm sp sp 64                       (* 892 pop_stack *) ]
].

(** mlkem/native/aarch64/intt_opt.S:152 const_addr *)
Definition intt_opt_const_addr : list Z := [3329; 20159; 0; 0; 0; 0; 0; 0].
(** mlkem/native/aarch64/intt_opt.S:160 ninv_addr *)
Definition intt_opt_ninv_addr : list Z := [512; 512; 512; 512; 512; 512; 512; 512].
(** mlkem/native/aarch64/intt_opt.S:168 ninv_tw_addr *)
Definition intt_opt_ninv_tw_addr : list Z := [5040; 5040; 5040; 5040; 5040; 5040; 5040; 5040].
(** mlkem/native/aarch64/intt_opt.S:179-1028 intt_asm_opt *)
Definition intt_asm_opt : list block := [
  Straight [
    sub_imm sp sp 64;                      (* 179 push_stack *)
    stp_d v8 v9 sp 0;                      (* 179 push_stack *)
    stp_d v10 v11 sp 16;                   (* 179 push_stack *)
    stp_d v12 v13 sp 32;                   (* 179 push_stack *)
    stp_d v14 v15 sp 48;                   (* 179 push_stack *)
    adr x5 4;                              (* 230 *)
    ld1_8h v7 x5 (Off 0);                  (* 231 *)
    adr x5 5;                              (* 236 *)
    ld1r_8h v29 x5;                        (* 237 *)
    adr x5 6;                              (* 238 *)
    ld1r_8h v30 x5;                        (* 239 *)
    mov x3 x0;                             (* 241 *)
    mov_imm x4 8                           (* 242 *) ];
  Loop [
    ldr_q v8 x3 (Off 0);                   (* 246 *)
    ldr_q v9 x3 (Off 16);                  (* 247 *)
    ldr_q v10 x3 (Off 32);                 (* 248 *)
    ldr_q v11 x3 (Off 48);                 (* 249 *)
    sqrdmulh v27 v8 v30;                   (* 251 mul_ninv *)
    mul v8 v8 v29;                         (* 251 mul_ninv *)
    mls_h v8 v27 v7 0;                     (* 251 mul_ninv *)
    sqrdmulh v27 v9 v30;                   (* 251 mul_ninv *)
    mul v9 v9 v29;                         (* 251 mul_ninv *)
    mls_h v9 v27 v7 0;                     (* 251 mul_ninv *)
    sqrdmulh v27 v10 v30;                  (* 251 mul_ninv *)
    mul v10 v10 v29;                       (* 251 mul_ninv *)
    mls_h v10 v27 v7 0;                    (* 251 mul_ninv *)
    sqrdmulh v27 v11 v30;                  (* 251 mul_ninv *)
    mul v11 v11 v29;                       (* 251 mul_ninv *)
    mls_h v11 v27 v7 0;                    (* 251 mul_ninv *)
    str_q v8 x3 (Post 64);                 (* 254 *)
    str_q v9 x3 (Off (-48));               (* 255 *)
    str_q v10 x3 (Off (-32));              (* 256 *)
    str_q v11 x3 (Off (-16));              (* 257 *)
    sub_imm x4 x4 1                        (* 259 *) ] x4;
  Straight [
    mov x3 x0;                             (* 262 *)
    mov_imm x4 8;                          (* 263 *)
    ldr_q v26 x3 (Off 0);                  (* 279 *)
    ldr_q v8 x3 (Off 16);                  (* 280 *)
    ldr_q v24 x3 (Off 32);                 (* 281 *)
    ldr_q v16 x3 (Off 48);                 (* 282 *)
    ldr_q v9 x2 (Post 96);                 (* 283 *)
    trn1_4s v0 v24 v16;                    (* 284 *)
    ldr_q v6 x2 (Off (-80));               (* 285 *)
    ldr_q v3 x2 (Off (-64));               (* 286 *)
    ldr_q v15 x2 (Off (-48));              (* 287 *)
    ldr_q v4 x2 (Off (-32));               (* 288 *)
    ldr_q v28 x2 (Off (-16));              (* 289 *)
    sub_imm x4 x4 1                        (* 306 *) ];
  Loop [
    trn1_4s v12 v26 v8;                    (* 321 *)
    trn2_4s v26 v26 v8;                    (* 322 *)
    trn2_4s v8 v24 v16;                    (* 323 *)
    trn2_2d v11 v12 v0;                    (* 324 *)
    trn1_2d v12 v12 v0;                    (* 325 *)
    trn2_2d v16 v26 v8;                    (* 326 *)
    trn1_2d v26 v26 v8;                    (* 327 *)
    sub v8 v11 v16;                        (* 328 *)
    add v11 v11 v16;                       (* 329 *)
    sub v16 v12 v26;                       (* 330 *)
    add v12 v12 v26;                       (* 331 *)
    sqrdmulh v26 v8 v28;                   (* 332 *)
    sqrdmulh v15 v16 v15;                  (* 333 *)
    mul v16 v16 v3;                        (* 334 *)
    mul v8 v8 v4;                          (* 335 *)
    sub v0 v12 v11;                        (* 336 *)
    add v12 v12 v11;                       (* 337 *)
    mls_h v16 v15 v7 0;                    (* 338 *)
    mls_h v8 v26 v7 0;                     (* 339 *)
    sqrdmulh v26 v0 v6;                    (* 340 *)
    mul v11 v0 v9;                         (* 341 *)
    ldr_q v15 x1 (Post 16);                (* 342 *)
    sub v0 v16 v8;                         (* 343 *)
    mls_h v11 v26 v7 0;                    (* 344 *)
    add v26 v16 v8;                        (* 345 *)
    sqrdmulh v8 v0 v6;                     (* 346 *)
    mul v16 v0 v9;                         (* 347 *)
    trn1_4s v0 v12 v26;                    (* 348 *)
    trn2_4s v12 v12 v26;                   (* 349 *)
    ldr_q v26 x3 (Off 64);                 (* 350 *)
    mls_h v16 v8 v7 0;                     (* 351 *)
    ldr_q v8 x3 (Off 80);                  (* 352 *)
    ldr_q v24 x3 (Off 96);                 (* 353 *)
    trn1_4s v9 v11 v16;                    (* 354 *)
    trn2_4s v11 v11 v16;                   (* 355 *)
    ldr_q v16 x3 (Off 112);                (* 356 *)
    trn2_2d v6 v0 v9;                      (* 357 *)
    trn2_2d v3 v12 v11;                    (* 358 *)
    trn1_2d v0 v0 v9;                      (* 359 *)
    trn1_2d v12 v12 v11;                   (* 360 *)
    sub v11 v6 v3;                         (* 361 *)
    sub v9 v0 v12;                         (* 362 *)
    add v12 v0 v12;                        (* 363 *)
    sqrdmulh_h v0 v11 v15 5;               (* 364 *)
    sqrdmulh_h v4 v9 v15 3;                (* 365 *)
    mul_h v9 v9 v15 2;                     (* 366 *)
    mul_h v11 v11 v15 4;                   (* 367 *)
    add v6 v6 v3;                          (* 368 *)
    sqdmulh_h v3 v12 v7 1;                 (* 369 *)
    mls_h v9 v4 v7 0;                      (* 370 *)
    mls_h v11 v0 v7 0;                     (* 371 *)
    sqdmulh_h v0 v6 v7 1;                  (* 372 *)
    srshr v3 v3 11;                        (* 373 *)
    sqdmulh_h v4 v9 v7 1;                  (* 374 *)
    sqdmulh_h v28 v11 v7 1;                (* 375 *)
    mls_h v12 v3 v7 0;                     (* 376 *)
    srshr v0 v0 11;                        (* 377 *)
    srshr v3 v4 11;                        (* 378 *)
    srshr v4 v28 11;                       (* 379 *)
    mls_h v6 v0 v7 0;                      (* 380 *)
    mls_h v9 v3 v7 0;                      (* 381 *)
    mls_h v11 v4 v7 0;                     (* 382 *)
    trn1_4s v0 v24 v16;                    (* 383 *)
    sub v3 v12 v6;                         (* 384 *)
    add v12 v12 v6;                        (* 385 *)
    sub v6 v9 v11;                         (* 386 *)
    sqrdmulh_h v4 v3 v15 1;                (* 387 *)
    mul_h v3 v3 v15 0;                     (* 388 *)
    sqrdmulh_h v28 v6 v15 1;               (* 389 *)
    mul_h v15 v6 v15 0;                    (* 390 *)
    add v11 v9 v11;                        (* 391 *)
    mls_h v3 v4 v7 0;                      (* 392 *)
    str_q v12 x3 (Post 64);                (* 393 *)
    mls_h v15 v28 v7 0;                    (* 394 *)
    str_q v11 x3 (Off (-48));              (* 395 *)
    ldr_q v9 x2 (Post 96);                 (* 396 *)
    str_q v3 x3 (Off (-32));               (* 397 *)
    ldr_q v6 x2 (Off (-80));               (* 398 *)
    str_q v15 x3 (Off (-16));              (* 399 *)
    ldr_q v3 x2 (Off (-64));               (* 400 *)
    ldr_q v15 x2 (Off (-48));              (* 401 *)
    ldr_q v4 x2 (Off (-32));               (* 402 *)
    ldr_q v28 x2 (Off (-16));              (* 403 *)
    sub_imm x4 x4 1                        (* 492 *) ] x4;
  Straight [
    trn1_4s v11 v26 v8;                    (* 507 *)
    trn2_4s v24 v24 v16;                   (* 508 *)
    trn2_4s v26 v26 v8;                    (* 509 *)
    trn1_2d v18 v11 v0;                    (* 510 *)
    trn2_2d v11 v11 v0;                    (* 511 *)
    trn2_2d v12 v26 v24;                   (* 512 *)
    trn1_2d v8 v26 v24;                    (* 513 *)
    sub v26 v11 v12;                       (* 514 *)
    sub v13 v18 v8;                        (* 515 *)
    add v24 v18 v8;                        (* 516 *)
    mul v16 v26 v4;                        (* 517 *)
    sqrdmulh v17 v13 v15;                  (* 518 *)
    mul v3 v13 v3;                         (* 519 *)
    sqrdmulh v26 v26 v28;                  (* 520 *)
    add v10 v11 v12;                       (* 521 *)
    mls_h v3 v17 v7 0;                     (* 522 *)
    mls_h v16 v26 v7 0;                    (* 523 *)
    sub v26 v24 v10;                       (* 524 *)
    ldr_q v4 x1 (Post 16);                 (* 525 *)
    sub v12 v3 v16;                        (* 526 *)
    sqrdmulh v15 v26 v6;                   (* 527 *)
    mul v11 v26 v9;                        (* 528 *)
    mul v8 v12 v9;                         (* 529 *)
    sqrdmulh v12 v12 v6;                   (* 530 *)
    add v0 v24 v10;                        (* 531 *)
    mls_h v11 v15 v7 0;                    (* 532 *)
    add v6 v3 v16;                         (* 533 *)
    mls_h v8 v12 v7 0;                     (* 534 *)
    trn2_4s v26 v0 v6;                     (* 535 *)
    trn2_4s v12 v11 v8;                    (* 536 *)
    trn1_4s v3 v11 v8;                     (* 537 *)
    trn1_4s v17 v0 v6;                     (* 538 *)
    trn1_2d v8 v26 v12;                    (* 539 *)
    trn2_2d v13 v26 v12;                   (* 540 *)
    trn1_2d v11 v17 v3;                    (* 541 *)
    trn2_2d v15 v17 v3;                    (* 542 *)
    sub v12 v11 v8;                        (* 543 *)
    add v16 v15 v13;                       (* 544 *)
    sub v26 v15 v13;                       (* 545 *)
    mul_h v0 v12 v4 2;                     (* 546 *)
    sqrdmulh_h v9 v12 v4 3;                (* 547 *)
    mul_h v13 v26 v4 4;                    (* 548 *)
    sqrdmulh_h v26 v26 v4 5;               (* 549 *)
    add v24 v11 v8;                        (* 550 *)
    mls_h v0 v9 v7 0;                      (* 551 *)
    sqdmulh_h v12 v16 v7 1;                (* 552 *)
    mls_h v13 v26 v7 0;                    (* 553 *)
    sqdmulh_h v11 v24 v7 1;                (* 554 *)
    sqdmulh_h v8 v0 v7 1;                  (* 555 *)
    srshr v12 v12 11;                      (* 556 *)
    sqdmulh_h v26 v13 v7 1;                (* 557 *)
    srshr v11 v11 11;                      (* 558 *)
    mls_h v16 v12 v7 0;                    (* 559 *)
    srshr v8 v8 11;                        (* 560 *)
    srshr v26 v26 11;                      (* 561 *)
    mls_h v24 v11 v7 0;                    (* 562 *)
    mls_h v0 v8 v7 0;                      (* 563 *)
    mls_h v13 v26 v7 0;                    (* 564 *)
    sub v26 v24 v16;                       (* 565 *)
    add v15 v24 v16;                       (* 566 *)
    sub v12 v0 v13;                        (* 567 *)
    mul_h v11 v26 v4 0;                    (* 568 *)
    sqrdmulh_h v16 v26 v4 1;               (* 569 *)
    mul_h v26 v12 v4 0;                    (* 570 *)
    sqrdmulh_h v8 v12 v4 1;                (* 571 *)
    add v12 v0 v13;                        (* 572 *)
    mls_h v11 v16 v7 0;                    (* 573 *)
    str_q v15 x3 (Post 64);                (* 574 *)
    mls_h v26 v8 v7 0;                     (* 575 *)
    str_q v12 x3 (Off (-48));              (* 576 *)
    str_q v11 x3 (Off (-32));              (* 577 *)
    str_q v26 x3 (Off (-16));              (* 578 *)
    mov_imm x4 4;                          (* 659 *)
    ldr_q v0 x1 (Post 32);                 (* 660 load_roots_012 *)
    ldr_q v1 x1 (Off (-16));               (* 660 load_roots_012 *)
    ldr_q v24 x0 (Off 128);                (* 677 *)
    ldr_q v16 x0 (Off 192);                (* 678 *)
    ldr_q v9 x0 (Off 256);                 (* 679 *)
    ldr_q v6 x0 (Off 320);                 (* 680 *)
    ldr_q v3 x0 (Off 384);                 (* 681 *)
    ldr_q v4 x0 (Off 448);                 (* 682 *)
    add v28 v9 v6;                         (* 683 *)
    add v19 v24 v16;                       (* 684 *)
    add v13 v3 v4;                         (* 685 *)
    ldr_q v11 x0 (Off 0);                  (* 686 *)
    add v23 v28 v13;                       (* 687 *)
    ldr_q v15 x0 (Off 64);                 (* 688 *)
    sub_imm x4 x4 1                        (* 706 *) ];
  Loop [
    sub v12 v11 v15;                       (* 721 *)
    add v26 v11 v15;                       (* 722 *)
    sub v8 v24 v16;                        (* 723 *)
    sqrdmulh_h v11 v12 v0 7;               (* 724 *)
    mul_h v12 v12 v0 6;                    (* 725 *)
    sub v16 v26 v19;                       (* 726 *)
    add v26 v26 v19;                       (* 727 *)
    sqrdmulh_h v15 v8 v1 1;                (* 728 *)
    mul_h v8 v8 v1 0;                      (* 729 *)
    mls_h v12 v11 v7 0;                    (* 730 *)
    sub v11 v9 v6;                         (* 731 *)
    sqrdmulh_h v24 v16 v0 3;               (* 732 *)
    mul_h v16 v16 v0 2;                    (* 733 *)
    sub v9 v26 v23;                        (* 734 *)
    add v26 v26 v23;                       (* 735 *)
    mls_h v8 v15 v7 0;                     (* 736 *)
    sqrdmulh_h v15 v11 v1 3;               (* 737 *)
    mul_h v11 v11 v1 2;                    (* 738 *)
    sub v6 v3 v4;                          (* 739 *)
    sub v3 v12 v8;                         (* 740 *)
    add v12 v12 v8;                        (* 741 *)
    mls_h v11 v15 v7 0;                    (* 742 *)
    sqrdmulh_h v8 v6 v1 5;                 (* 743 *)
    mls_h v16 v24 v7 0;                    (* 744 *)
    mul_h v15 v6 v1 4;                     (* 745 *)
    sqrdmulh_h v24 v3 v0 3;                (* 746 *)
    mul_h v6 v3 v0 2;                      (* 747 *)
    sqrdmulh_h v3 v9 v0 1;                 (* 748 *)
    mul_h v9 v9 v0 0;                      (* 749 *)
    str_q v26 x0 (Post 16);                (* 750 *)
    mls_h v15 v8 v7 0;                     (* 751 *)
    mls_h v6 v24 v7 0;                     (* 752 *)
    sub v26 v28 v13;                       (* 753 *)
    mls_h v9 v3 v7 0;                      (* 754 *)
    sub v8 v11 v15;                        (* 755 *)
    sqrdmulh_h v24 v26 v0 5;               (* 756 *)
    mul_h v26 v26 v0 4;                    (* 757 *)
    add v11 v11 v15;                       (* 758 *)
    sqrdmulh_h v15 v8 v0 5;                (* 759 *)
    mul_h v8 v8 v0 4;                      (* 760 *)
    mls_h v26 v24 v7 0;                    (* 761 *)
    sub v24 v12 v11;                       (* 762 *)
    add v12 v12 v11;                       (* 763 *)
    mls_h v8 v15 v7 0;                     (* 764 *)
    sqrdmulh_h v11 v24 v0 1;               (* 765 *)
    mul_h v15 v24 v0 0;                    (* 766 *)
    sub v24 v16 v26;                       (* 767 *)
    add v26 v16 v26;                       (* 768 *)
    sub v16 v6 v8;                         (* 769 *)
    mls_h v15 v11 v7 0;                    (* 770 *)
    sqrdmulh_h v11 v24 v0 1;               (* 771 *)
    mul_h v24 v24 v0 0;                    (* 772 *)
    add v8 v6 v8;                          (* 773 *)
    sqrdmulh_h v6 v16 v0 1;                (* 774 *)
    mul_h v16 v16 v0 0;                    (* 775 *)
    mls_h v24 v11 v7 0;                    (* 776 *)
    str_q v9 x0 (Off 240);                 (* 777 *)
    ldr_q v11 x0 (Off 0);                  (* 778 *)
    mls_h v16 v6 v7 0;                     (* 779 *)
    str_q v15 x0 (Off 304);                (* 780 *)
    ldr_q v15 x0 (Off 64);                 (* 781 *)
    str_q v24 x0 (Off 368);                (* 782 *)
    ldr_q v24 x0 (Off 128);                (* 783 *)
    str_q v16 x0 (Off 432);                (* 784 *)
    ldr_q v16 x0 (Off 192);                (* 785 *)
    str_q v12 x0 (Off 48);                 (* 786 *)
    ldr_q v9 x0 (Off 256);                 (* 787 *)
    ldr_q v6 x0 (Off 320);                 (* 788 *)
    ldr_q v3 x0 (Off 384);                 (* 789 *)
    ldr_q v4 x0 (Off 448);                 (* 790 *)
    str_q v26 x0 (Off 112);                (* 791 *)
    add v28 v9 v6;                         (* 792 *)
    add v13 v3 v4;                         (* 793 *)
    str_q v8 x0 (Off 176);                 (* 794 *)
    add v19 v24 v16;                       (* 795 *)
    add v23 v28 v13;                       (* 796 *)
    sub_imm x4 x4 1                        (* 878 *) ] x4;
  Straight [
    add v10 v11 v15;                       (* 893 *)
    sub v12 v28 v13;                       (* 894 *)
    sub v11 v11 v15;                       (* 895 *)
    sub v22 v10 v19;                       (* 896 *)
    mul_h v18 v12 v0 4;                    (* 897 *)
    sqrdmulh_h v26 v12 v0 5;               (* 898 *)
    sqrdmulh_h v12 v22 v0 3;               (* 899 *)
    mul_h v13 v22 v0 2;                    (* 900 *)
    sub v31 v24 v16;                       (* 901 *)
    sqrdmulh_h v22 v11 v0 7;               (* 902 *)
    mls_h v18 v26 v7 0;                    (* 903 *)
    mls_h v13 v12 v7 0;                    (* 904 *)
    sqrdmulh_h v2 v31 v1 1;                (* 905 *)
    mul_h v5 v31 v1 0;                     (* 906 *)
    mul_h v15 v11 v0 6;                    (* 907 *)
    sub v12 v13 v18;                       (* 908 *)
    sub v4 v3 v4;                          (* 909 *)
    mls_h v5 v2 v7 0;                      (* 910 *)
    sqrdmulh_h v26 v12 v0 1;               (* 911 *)
    mul_h v12 v12 v0 0;                    (* 912 *)
    mls_h v15 v22 v7 0;                    (* 913 *)
    sqrdmulh_h v8 v4 v1 5;                 (* 914 *)
    mul_h v4 v4 v1 4;                      (* 915 *)
    mls_h v12 v26 v7 0;                    (* 916 *)
    sub v21 v15 v5;                        (* 917 *)
    sub v28 v9 v6;                         (* 918 *)
    mls_h v4 v8 v7 0;                      (* 919 *)
    mul_h v24 v21 v0 2;                    (* 920 *)
    sqrdmulh_h v8 v21 v0 3;                (* 921 *)
    sqrdmulh_h v6 v28 v1 3;                (* 922 *)
    add v19 v10 v19;                       (* 923 *)
    mul_h v28 v28 v1 2;                    (* 924 *)
    mls_h v24 v8 v7 0;                     (* 925 *)
    sub v11 v19 v23;                       (* 926 *)
    str_q v12 x0 (Off 384);                (* 927 *)
    mls_h v28 v6 v7 0;                     (* 928 *)
    sqrdmulh_h v16 v11 v0 1;               (* 929 *)
    mul_h v9 v11 v0 0;                     (* 930 *)
    add v6 v15 v5;                         (* 931 *)
    add v26 v28 v4;                        (* 932 *)
    sub v15 v28 v4;                        (* 933 *)
    mls_h v9 v16 v7 0;                     (* 934 *)
    add v3 v6 v26;                         (* 935 *)
    mul_h v8 v15 v0 4;                     (* 936 *)
    sqrdmulh_h v15 v15 v0 5;               (* 937 *)
    str_q v9 x0 (Off 256);                 (* 938 *)
    sub v2 v6 v26;                         (* 939 *)
    str_q v3 x0 (Off 64);                  (* 940 *)
    mls_h v8 v15 v7 0;                     (* 941 *)
    sqrdmulh_h v15 v2 v0 1;                (* 942 *)
    mul_h v11 v2 v0 0;                     (* 943 *)
    add v16 v13 v18;                       (* 944 *)
    sub v12 v24 v8;                        (* 945 *)
    add v8 v24 v8;                         (* 946 *)
    mls_h v11 v15 v7 0;                    (* 947 *)
    sqrdmulh_h v26 v12 v0 1;               (* 948 *)
    mul_h v12 v12 v0 0;                    (* 949 *)
    str_q v8 x0 (Off 192);                 (* 950 *)
    add v15 v19 v23;                       (* 951 *)
    str_q v11 x0 (Off 320);                (* 952 *)
    mls_h v12 v26 v7 0;                    (* 953 *)
    str_q v15 x0 (Post 16);                (* 954 *)
    str_q v16 x0 (Off 112);                (* 955 *)
    str_q v12 x0 (Off 432);                (* 956 *)
    ldp_d v8 v9 sp 0;                      (* 1027 pop_stack *)
    ldp_d v10 v11 sp 16;                   (* 1027 pop_stack *)
    ldp_d v12 v13 sp 32;                   (* 1027 pop_stack *)
    ldp_d v14 v15 sp 48;                   (* 1027 pop_stack *)
    add_imm sp sp 64                       (* 1027 pop_stack *) ]
].

(** mlkem/native/aarch64/poly_opt.S:38 const_addr *)
Definition poly_opt_const_addr : list Z := [3329; 20159; -1044; -10276; 0; 0; 0; 0].
(** mlkem/native/aarch64/poly_opt.S:63-257 poly_reduce_asm_opt *)
Definition poly_reduce_asm_opt : list block := [
  Straight [
    adr x2 2;                              (* 63 *)
    ld1_8h v2 x2 (Off 0);                  (* 64 *)
    mov_imm x3 3329;                       (* 66 *)
    dup_8h v4 x3;                          (* 67 *)
    mov_imm x1 8;                          (* 69 *)
    ldr_q v21 x0 (Off 48);                 (* 83 *)
    ldr_q v3 x0 (Off 32);                  (* 84 *)
    sqdmulh_h v6 v21 v2 1;                 (* 85 *)
    sqdmulh_h v30 v3 v2 1;                 (* 86 *)
    srshr v6 v6 11;                        (* 87 *)
    srshr v30 v30 11;                      (* 88 *)
    mls_h v21 v6 v2 0;                     (* 89 *)
    mls_h v3 v30 v2 0;                     (* 90 *)
    ldr_q v22 x0 (Post 64);                (* 91 *)
    sshr v6 v21 15;                        (* 92 *)
    sshr v30 v3 15;                        (* 93 *)
    and_16b v6 v4 v6;                      (* 94 *)
    add v6 v21 v6;                         (* 95 *)
    and_16b v21 v4 v30;                    (* 96 *)
    add v21 v3 v21;                        (* 97 *)
    sub_imm x1 x1 1                        (* 118 *) ];
  Loop [
    sqdmulh_h v0 v22 v2 1;                 (* 133 *)
    str_q v6 x0 (Off (-16));               (* 134 *)
    ldr_q v31 x0 (Off 48);                 (* 135 *)
    srshr v5 v0 11;                        (* 136 *)
    str_q v21 x0 (Off (-32));              (* 137 *)
    sqdmulh_h v24 v31 v2 1;                (* 138 *)
    mls_h v22 v5 v2 0;                     (* 139 *)
    ldr_q v20 x0 (Off (-48));              (* 140 *)
    srshr v6 v24 11;                       (* 141 *)
    sshr v0 v22 15;                        (* 142 *)
    sqdmulh_h v21 v20 v2 1;                (* 143 *)
    mls_h v31 v6 v2 0;                     (* 144 *)
    ldr_q v30 x0 (Off 32);                 (* 145 *)
    srshr v23 v21 11;                      (* 146 *)
    and_16b v19 v4 v0;                     (* 147 *)
    sshr v16 v31 15;                       (* 148 *)
    mls_h v20 v23 v2 0;                    (* 149 *)
    and_16b v28 v4 v16;                    (* 150 *)
    sqdmulh_h v23 v30 v2 1;                (* 151 *)
    add v6 v31 v28;                        (* 152 *)
    add v31 v22 v19;                       (* 153 *)
    sshr v17 v20 15;                       (* 154 *)
    srshr v18 v23 11;                      (* 155 *)
    and_16b v26 v4 v17;                    (* 156 *)
    add v7 v20 v26;                        (* 157 *)
    mls_h v30 v18 v2 0;                    (* 158 *)
    ldr_q v22 x0 (Post 64);                (* 159 *)
    str_q v7 x0 (Off (-112));              (* 160 *)
    sshr v0 v30 15;                        (* 161 *)
    str_q v31 x0 (Off (-128));             (* 162 *)
    and_16b v29 v4 v0;                     (* 163 *)
    add v21 v30 v29;                       (* 164 *)
    sub_imm x1 x1 1                        (* 202 *) ] x1;
  Straight [
    ldr_q v29 x0 (Off (-48));              (* 217 *)
    sqdmulh_h v1 v22 v2 1;                 (* 218 *)
    str_q v21 x0 (Off (-32));              (* 219 *)
    sqdmulh_h v25 v29 v2 1;                (* 220 *)
    str_q v6 x0 (Off (-16));               (* 221 *)
    srshr v30 v1 11;                       (* 222 *)
    srshr v20 v25 11;                      (* 223 *)
    mls_h v22 v30 v2 0;                    (* 224 *)
    mls_h v29 v20 v2 0;                    (* 225 *)
    sshr v24 v22 15;                       (* 226 *)
    and_16b v31 v4 v24;                    (* 227 *)
    sshr v24 v29 15;                       (* 228 *)
    add v3 v22 v31;                        (* 229 *)
    and_16b v17 v4 v24;                    (* 230 *)
    add v25 v29 v17;                       (* 231 *)
    str_q v3 x0 (Off (-64));               (* 232 *)
    str_q v25 x0 (Off (-48))               (* 233 *) ]
].

(** mlkem/native/aarch64/poly_opt.S:301-400 poly_mulcache_compute_asm_opt *)
Definition poly_mulcache_compute_asm_opt : list block := [
  Straight [
    adr x4 5;                              (* 301 *)
    ld1_8h v6 x4 (Off 0);                  (* 302 *)
    mov_imm x5 16;                         (* 304 *)
    ldr_q v3 x1 (Off 16);                  (* 318 *)
    ldr_q v1 x1 (Post 32);                 (* 319 *)
    ldr_q v26 x3 (Post 16);                (* 320 *)
    uzp2_8h v30 v1 v3;                     (* 321 *)
    ldr_q v21 x2 (Post 16);                (* 322 *)
    sqrdmulh v3 v30 v26;                   (* 323 *)
    mul v26 v30 v21;                       (* 324 *)
    sub_imm x5 x5 1                        (* 337 *) ];
  Loop [
    ldr_q v30 x1 (Off 16);                 (* 352 *)
    ldr_q v21 x1 (Post 32);                (* 353 *)
    mls_h v26 v3 v6 0;                     (* 354 *)
    ldr_q v3 x3 (Post 16);                 (* 355 *)
    uzp2_8h v24 v21 v30;                   (* 356 *)
    ldr_q v21 x2 (Post 16);                (* 357 *)
    str_q v26 x0 (Post 16);                (* 358 *)
    sqrdmulh v3 v24 v3;                    (* 359 *)
    mul v26 v24 v21;                       (* 360 *)
    sub_imm x5 x5 1                        (* 375 *) ] x5;
  Straight [
    mls_h v26 v3 v6 0;                     (* 390 *)
    str_q v26 x0 (Post 16)                 (* 391 *) ]
].

(** mlkem/native/aarch64/poly_opt.S:443-463 poly_tobytes_asm_opt *)
Definition poly_tobytes_asm_opt : list block := [
  Straight [
    mov_imm x2 16                          (* 443 *) ];
  Loop [
    ld2_8h v0 v1 x1 (Post 32);             (* 445 *)
    xtn_8b v2 v0;                          (* 448 *)
    shrn_8b v3 v0 8;                       (* 451 *)
    xtn_8b v5 v1;                          (* 452 *)
    sli_8b v3 v5 4;                        (* 454 *)
    shrn_8b v4 v1 4;                       (* 457 *)
    st3_8b v2 v3 v4 x0 (Post 24);          (* 459 *)
    sub_imm x2 x2 1                        (* 461 *) ] x2
].

(** mlkem/native/aarch64/poly_opt.S:502-650 poly_tomont_asm_opt *)
Definition poly_tomont_asm_opt : list block := [
  Straight [
    adr x2 2;                              (* 502 *)
    ld1_8h v2 x2 (Off 0);                  (* 503 *)
    ldrsh x3 x2 4;                         (* 505 *)
    dup_8h v3 x3;                          (* 506 *)
    ldrh x3 x2 6;                          (* 507 *)
    dup_8h v4 x3;                          (* 508 *)
    mov_imm x1 8;                          (* 510 *)
    ldr_q v6 x0 (Off 16);                  (* 524 *)
    ldr_q v20 x0 (Off 32);                 (* 525 *)
    mul v21 v6 v3;                         (* 526 *)
    sqrdmulh v6 v6 v4;                     (* 527 *)
    mls_h v21 v6 v2 0;                     (* 528 *)
    sub_imm x1 x1 1                        (* 539 *) ];
  Loop [
    ldr_q v18 x0 (Post 64);                (* 554 *)
    str_q v21 x0 (Off (-48));              (* 555 *)
    ldr_q v16 x0 (Off 16);                 (* 556 *)
    sqrdmulh v27 v20 v4;                   (* 557 *)
    mul v1 v20 v3;                         (* 558 *)
    mul v21 v16 v3;                        (* 559 *)
    sqrdmulh v0 v16 v4;                    (* 560 *)
    ldr_q v30 x0 (Off (-16));              (* 561 *)
    sqrdmulh v6 v18 v4;                    (* 562 *)
    mul v18 v18 v3;                        (* 563 *)
    mls_h v1 v27 v2 0;                     (* 564 *)
    mul v5 v30 v3;                         (* 565 *)
    sqrdmulh v22 v30 v4;                   (* 566 *)
    mls_h v18 v6 v2 0;                     (* 567 *)
    str_q v1 x0 (Off (-32));               (* 568 *)
    mls_h v21 v0 v2 0;                     (* 569 *)
    mls_h v5 v22 v2 0;                     (* 570 *)
    str_q v18 x0 (Off (-64));              (* 571 *)
    ldr_q v20 x0 (Off 32);                 (* 572 *)
    str_q v5 x0 (Off (-16));               (* 573 *)
    sub_imm x1 x1 1                        (* 599 *) ] x1;
  Straight [
    mul v31 v20 v3;                        (* 614 *)
    sqrdmulh v25 v20 v4;                   (* 615 *)
    ldr_q v27 x0 (Post 64);                (* 616 *)
    ldr_q v23 x0 (Off (-16));              (* 617 *)
    mls_h v31 v25 v2 0;                    (* 618 *)
    sqrdmulh v30 v27 v4;                   (* 619 *)
    mul v6 v27 v3;                         (* 620 *)
    mul v20 v23 v3;                        (* 621 *)
    sqrdmulh v26 v23 v4;                   (* 622 *)
    str_q v31 x0 (Off (-32));              (* 623 *)
    mls_h v6 v30 v2 0;                     (* 624 *)
    str_q v21 x0 (Off (-48));              (* 625 *)
    mls_h v20 v26 v2 0;                    (* 626 *)
    str_q v6 x0 (Off (-64));               (* 627 *)
    str_q v20 x0 (Off (-16))               (* 628 *) ]
].

(** mlkem/native/aarch64/polyvec_opt.S:131 const_addr *)
Definition polyvec_opt_const_addr : list Z := [3329; 20159; 3327; 0; 0; 0; 0; 0].
(** mlkem/native/aarch64/polyvec_opt.S:147-353 polyvec_basemul_acc_montgomery_cached_asm_opt, MLKEM_K == 2 *)
Definition polyvec_basemul_acc_montgomery_cached_asm_opt_k2 : list block := [
  Straight [
    sub_imm sp sp 64;                      (* 147 push_stack *)
    stp_d v8 v9 sp 0;                      (* 147 push_stack *)
    stp_d v10 v11 sp 16;                   (* 147 push_stack *)
    stp_d v12 v13 sp 32;                   (* 147 push_stack *)
    stp_d v14 v15 sp 48;                   (* 147 push_stack *)
    adr x14 5;                             (* 149 *)
    ld1_8h v2 x14 (Off 0);                 (* 150 *)
    ldrsh x15 x14 0;                       (* 151 *)
    dup_8h v0 x15;                         (* 152 *)
    add_imm x4 x1 512;                     (* 156 *)
    add_imm x5 x2 512;                     (* 157 *)
    add_imm x6 x3 256;                     (* 158 *)
    mov_imm x13 16;                        (* 160 *)
    ld2_8h v6 v7 x1 (Post 32);             (* 174 *)
    ld2_8h v4 v5 x2 (Post 32);             (* 175 *)
    ld1_8h v12 x3 (Post 16);               (* 176 *)
    ld2_8h v15 v16 x4 (Post 32);           (* 177 *)
    ld2_8h v29 v30 x5 (Post 32);           (* 178 *)
    ld1_8h v31 x6 (Post 16);               (* 179 *)
    sub_imm x13 x13 1                      (* 191 *) ];
  Loop [
    smull v13 v6 v4;                       (* 206 *)
    smull2 v10 v6 v4;                      (* 207 *)
    smull v21 v6 v5;                       (* 208 *)
    smull2 v3 v6 v5;                       (* 209 *)
    smlal v13 v7 v12;                      (* 210 *)
    smlal2 v10 v7 v12;                     (* 211 *)
    smlal v21 v7 v4;                       (* 212 *)
    smlal2 v3 v7 v4;                       (* 213 *)
    smlal v13 v15 v29;                     (* 214 *)
    smlal2 v10 v15 v29;                    (* 215 *)
    smlal v21 v15 v30;                     (* 216 *)
    smlal2 v3 v15 v30;                     (* 217 *)
    smlal v13 v16 v31;                     (* 218 *)
    smlal2 v10 v16 v31;                    (* 219 *)
    smlal v21 v16 v29;                     (* 220 *)
    smlal2 v3 v16 v29;                     (* 221 *)
    ld2_8h v6 v7 x1 (Post 32);             (* 222 *)
    uzp1_8h v12 v13 v10;                   (* 223 *)
    uzp1_8h v30 v21 v3;                    (* 224 *)
    mul_h v12 v12 v2 2;                    (* 225 *)
    mul_h v30 v30 v2 2;                    (* 226 *)
    ld2_8h v4 v5 x2 (Post 32);             (* 227 *)
    smlal v13 v12 v0;                      (* 228 *)
    smlal2 v10 v12 v0;                     (* 229 *)
    smlal v21 v30 v0;                      (* 230 *)
    smlal2 v3 v30 v0;                      (* 231 *)
    ld1_8h v12 x3 (Post 16);               (* 232 *)
    uzp2_8h v13 v13 v10;                   (* 233 *)
    uzp2_8h v14 v21 v3;                    (* 234 *)
    ld2_8h v15 v16 x4 (Post 32);           (* 235 *)
    st2_8h v13 v14 x0 (Post 32);           (* 236 *)
    ld2_8h v29 v30 x5 (Post 32);           (* 237 *)
    ld1_8h v31 x6 (Post 16);               (* 238 *)
    sub_imm x13 x13 1                      (* 277 *) ] x13;
  Straight [
    smull v13 v6 v5;                       (* 292 *)
    smull2 v10 v6 v5;                      (* 293 *)
    smull v21 v6 v4;                       (* 294 *)
    smull2 v3 v6 v4;                       (* 295 *)
    smlal v13 v7 v4;                       (* 296 *)
    smlal2 v10 v7 v4;                      (* 297 *)
    smlal v21 v7 v12;                      (* 298 *)
    smlal2 v3 v7 v12;                      (* 299 *)
    smlal v13 v15 v30;                     (* 300 *)
    smlal2 v10 v15 v30;                    (* 301 *)
    smlal v21 v15 v29;                     (* 302 *)
    smlal2 v3 v15 v29;                     (* 303 *)
    smlal v13 v16 v29;                     (* 304 *)
    smlal2 v10 v16 v29;                    (* 305 *)
    smlal v21 v16 v31;                     (* 306 *)
    smlal2 v3 v16 v31;                     (* 307 *)
    uzp1_8h v12 v13 v10;                   (* 308 *)
    uzp1_8h v6 v21 v3;                     (* 309 *)
    mul_h v12 v12 v2 2;                    (* 310 *)
    mul_h v6 v6 v2 2;                      (* 311 *)
    smlal v13 v12 v0;                      (* 312 *)
    smlal v21 v6 v0;                       (* 313 *)
    smlal2 v3 v6 v0;                       (* 314 *)
    smlal2 v10 v12 v0;                     (* 315 *)
    uzp2_8h v21 v21 v3;                    (* 316 *)
    uzp2_8h v22 v13 v10;                   (* 317 *)
    st2_8h v21 v22 x0 (Post 32);           (* 318 *)
    ldp_d v8 v9 sp 0;                      (* 352 pop_stack *)
    ldp_d v10 v11 sp 16;                   (* 352 pop_stack *)
    ldp_d v12 v13 sp 32;                   (* 352 pop_stack *)
    ldp_d v14 v15 sp 48;                   (* 352 pop_stack *)
    add_imm sp sp 64                       (* 352 pop_stack *) ]
].

(** mlkem/native/aarch64/polyvec_opt.S:362-703 polyvec_basemul_acc_montgomery_cached_asm_opt, MLKEM_K == 3 *)
Definition polyvec_basemul_acc_montgomery_cached_asm_opt_k3 : list block := [
  Straight [
    sub_imm sp sp 64;                      (* 362 push_stack *)
    stp_d v8 v9 sp 0;                      (* 362 push_stack *)
    stp_d v10 v11 sp 16;                   (* 362 push_stack *)
    stp_d v12 v13 sp 32;                   (* 362 push_stack *)
    stp_d v14 v15 sp 48;                   (* 362 push_stack *)
    adr x14 5;                             (* 364 *)
    ld1_8h v2 x14 (Off 0);                 (* 365 *)
    ldrsh x15 x14 0;                       (* 366 *)
    dup_8h v0 x15;                         (* 367 *)
    add_imm x4 x1 512;                     (* 371 *)
    add_imm x5 x2 512;                     (* 372 *)
    add_imm x6 x3 256;                     (* 373 *)
    add_imm x7 x1 1024;                    (* 374 *)
    add_imm x8 x2 1024;                    (* 375 *)
    add_imm x9 x3 512;                     (* 376 *)
    mov_imm x13 16;                        (* 378 *)
    ld2_8h v7 v8 x2 (Post 32);             (* 392 *)
    ld2_8h v28 v29 x1 (Post 32);           (* 393 *)
    ld1_8h v10 x3 (Post 16);               (* 394 *)
    smull2 v15 v28 v8;                     (* 395 *)
    smull v9 v28 v8;                       (* 396 *)
    ld1_8h v31 x3 (Post 16);               (* 397 *)
    smlal2 v15 v29 v7;                     (* 398 *)
    ld2_8h v19 v20 x5 (Post 32);           (* 399 *)
    smlal v9 v29 v7;                       (* 400 *)
    ld2_8h v16 v17 x4 (Post 32);           (* 401 *)
    ld2_8h v3 v4 x7 (Post 32);             (* 402 *)
    smlal v9 v16 v20;                      (* 403 *)
    smlal2 v15 v16 v20;                    (* 404 *)
    smull v1 v28 v7;                       (* 405 *)
    smull2 v22 v28 v7;                     (* 406 *)
    smlal v9 v17 v19;                      (* 407 *)
    smlal2 v15 v17 v19;                    (* 408 *)
    ld2_8h v6 v7 x8 (Post 32);             (* 409 *)
    smlal v1 v29 v10;                      (* 410 *)
    smlal2 v22 v29 v10;                    (* 411 *)
    smlal2 v15 v3 v7;                      (* 412 *)
    smlal v9 v3 v7;                        (* 413 *)
    smlal v1 v16 v19;                      (* 414 *)
    smlal2 v22 v16 v19;                    (* 415 *)
    ld1_8h v5 x6 (Post 16);                (* 416 *)
    smlal v9 v4 v6;                        (* 417 *)
    smlal2 v15 v4 v6;                      (* 418 *)
    smlal v1 v17 v5;                       (* 419 *)
    smlal2 v22 v17 v5;                     (* 420 *)
    ld1_8h v30 x9 (Post 16);               (* 421 *)
    smlal v1 v3 v6;                        (* 422 *)
    smlal2 v22 v3 v6;                      (* 423 *)
    ld2_8h v11 v12 x1 (Post 32);           (* 424 *)
    smlal v1 v4 v30;                       (* 425 *)
    smlal2 v22 v4 v30;                     (* 426 *)
    uzp1_8h v21 v9 v15;                    (* 427 *)
    ld1_8h v14 x6 (Post 16);               (* 428 *)
    uzp1_8h v13 v1 v22;                    (* 429 *)
    mul_h v10 v21 v2 2;                    (* 430 *)
    mul_h v21 v13 v2 2;                    (* 431 *)
    ld2_8h v23 v24 x2 (Post 32);           (* 432 *)
    smlal2 v15 v10 v0;                     (* 433 *)
    smlal2 v22 v21 v0;                     (* 434 *)
    smlal v1 v21 v0;                       (* 435 *)
    smull2 v13 v11 v23;                    (* 436 *)
    ld2_8h v25 v26 x5 (Post 32);           (* 437 *)
    smlal v9 v10 v0;                       (* 438 *)
    smlal2 v13 v12 v31;                    (* 439 *)
    smull2 v27 v11 v24;                    (* 440 *)
    uzp2_8h v16 v1 v22;                    (* 441 *)
    uzp2_8h v17 v9 v15;                    (* 442 *)
    ld2_8h v6 v7 x4 (Post 32);             (* 443 *)
    sub_imm x13 x13 2                      (* 501 *) ];
  Loop [
    st2_8h v16 v17 x0 (Post 32);           (* 516 *)
    smlal2 v13 v6 v25;                     (* 517 *)
    smull v20 v11 v24;                     (* 518 *)
    smull v17 v11 v23;                     (* 519 *)
    smlal2 v27 v12 v23;                    (* 520 *)
    smlal2 v13 v7 v14;                     (* 521 *)
    smlal v20 v12 v23;                     (* 522 *)
    smlal v17 v12 v31;                     (* 523 *)
    smlal2 v27 v6 v26;                     (* 524 *)
    ld1_8h v5 x9 (Post 16);                (* 525 *)
    smlal v17 v6 v25;                      (* 526 *)
    smlal v20 v6 v26;                      (* 527 *)
    ld2_8h v23 v24 x2 (Post 32);           (* 528 *)
    ld2_8h v15 v16 x8 (Post 32);           (* 529 *)
    smlal v17 v7 v14;                      (* 530 *)
    ld2_8h v8 v9 x7 (Post 32);             (* 531 *)
    smlal v20 v7 v25;                      (* 532 *)
    smlal2 v27 v7 v25;                     (* 533 *)
    smlal2 v13 v8 v15;                     (* 534 *)
    smlal v17 v8 v15;                      (* 535 *)
    smlal v20 v8 v16;                      (* 536 *)
    smlal2 v27 v8 v16;                     (* 537 *)
    smlal2 v13 v9 v5;                      (* 538 *)
    smlal v17 v9 v5;                       (* 539 *)
    smlal v20 v9 v15;                      (* 540 *)
    smlal2 v27 v9 v15;                     (* 541 *)
    ld2_8h v11 v12 x1 (Post 32);           (* 542 *)
    uzp1_8h v31 v17 v13;                   (* 543 *)
    uzp1_8h v8 v20 v27;                    (* 544 *)
    ld2_8h v6 v7 x4 (Post 32);             (* 545 *)
    mul_h v18 v31 v2 2;                    (* 546 *)
    mul_h v14 v8 v2 2;                     (* 547 *)
    ld1_8h v31 x3 (Post 16);               (* 548 *)
    smlal v17 v18 v0;                      (* 549 *)
    smlal2 v27 v14 v0;                     (* 550 *)
    smlal2 v13 v18 v0;                     (* 551 *)
    smlal v20 v14 v0;                      (* 552 *)
    ld2_8h v25 v26 x5 (Post 32);           (* 553 *)
    uzp2_8h v16 v17 v13;                   (* 554 *)
    smull2 v13 v11 v23;                    (* 555 *)
    uzp2_8h v17 v20 v27;                   (* 556 *)
    ld1_8h v14 x6 (Post 16);               (* 557 *)
    smlal2 v13 v12 v31;                    (* 558 *)
    smull2 v27 v11 v24;                    (* 559 *)
    sub_imm x13 x13 1                      (* 609 *) ] x13;
  Straight [
    ld2_8h v21 v22 x8 (Post 32);           (* 624 *)
    smull v10 v11 v24;                     (* 625 *)
    smlal2 v13 v6 v25;                     (* 626 *)
    smlal2 v27 v12 v23;                    (* 627 *)
    smull v18 v11 v23;                     (* 628 *)
    smlal v10 v12 v23;                     (* 629 *)
    ld2_8h v29 v30 x7 (Post 32);           (* 630 *)
    smlal2 v27 v6 v26;                     (* 631 *)
    smlal v10 v6 v26;                      (* 632 *)
    smlal v18 v12 v31;                     (* 633 *)
    smlal2 v13 v7 v14;                     (* 634 *)
    smlal2 v27 v7 v25;                     (* 635 *)
    smlal v10 v7 v25;                      (* 636 *)
    smlal v18 v6 v25;                      (* 637 *)
    smlal2 v13 v29 v21;                    (* 638 *)
    smlal2 v27 v29 v22;                    (* 639 *)
    smlal v10 v29 v22;                     (* 640 *)
    smlal v18 v7 v14;                      (* 641 *)
    ld1_8h v3 x9 (Post 16);                (* 642 *)
    smlal v10 v30 v21;                     (* 643 *)
    smlal v18 v29 v21;                     (* 644 *)
    smlal2 v27 v30 v21;                    (* 645 *)
    smlal2 v13 v30 v3;                     (* 646 *)
    smlal v18 v30 v3;                      (* 647 *)
    uzp1_8h v8 v10 v27;                    (* 648 *)
    mul_h v23 v8 v2 2;                     (* 649 *)
    uzp1_8h v30 v18 v13;                   (* 650 *)
    mul_h v19 v30 v2 2;                    (* 651 *)
    smlal2 v27 v23 v0;                     (* 652 *)
    smlal v10 v23 v0;                      (* 653 *)
    smlal v18 v19 v0;                      (* 654 *)
    smlal2 v13 v19 v0;                     (* 655 *)
    st2_8h v16 v17 x0 (Post 32);           (* 656 *)
    uzp2_8h v12 v10 v27;                   (* 657 *)
    uzp2_8h v11 v18 v13;                   (* 658 *)
    st2_8h v11 v12 x0 (Post 32);           (* 659 *)
    ldp_d v8 v9 sp 0;                      (* 702 pop_stack *)
    ldp_d v10 v11 sp 16;                   (* 702 pop_stack *)
    ldp_d v12 v13 sp 32;                   (* 702 pop_stack *)
    ldp_d v14 v15 sp 48;                   (* 702 pop_stack *)
    add_imm sp sp 64                       (* 702 pop_stack *) ]
].

(** mlkem/native/aarch64/polyvec_opt.S:712-1122 polyvec_basemul_acc_montgomery_cached_asm_opt, MLKEM_K == 4 *)
Definition polyvec_basemul_acc_montgomery_cached_asm_opt_k4 : list block := [
  Straight [
    sub_imm sp sp 64;                      (* 712 push_stack *)
    stp_d v8 v9 sp 0;                      (* 712 push_stack *)
    stp_d v10 v11 sp 16;                   (* 712 push_stack *)
    stp_d v12 v13 sp 32;                   (* 712 push_stack *)
    stp_d v14 v15 sp 48;                   (* 712 push_stack *)
    adr x14 5;                             (* 714 *)
    ld1_8h v2 x14 (Off 0);                 (* 715 *)
    ldrsh x15 x14 0;                       (* 716 *)
    dup_8h v0 x15;                         (* 717 *)
    add_imm x4 x1 512;                     (* 721 *)
    add_imm x5 x2 512;                     (* 722 *)
    add_imm x6 x3 256;                     (* 723 *)
    add_imm x7 x1 1024;                    (* 724 *)
    add_imm x8 x2 1024;                    (* 725 *)
    add_imm x9 x3 512;                     (* 726 *)
    add_imm x10 x1 1536;                   (* 727 *)
    add_imm x11 x2 1536;                   (* 728 *)
    add_imm x12 x3 768;                    (* 729 *)
    mov_imm x13 16;                        (* 731 *)
    ld2_8h v3 v4 x1 (Post 32);             (* 745 *)
    ld2_8h v13 v14 x2 (Post 32);           (* 746 *)
    ld1_8h v31 x3 (Post 16);               (* 747 *)
    smull v9 v3 v14;                       (* 748 *)
    smull2 v6 v3 v14;                      (* 749 *)
    smull2 v29 v3 v13;                     (* 750 *)
    smull v11 v3 v13;                      (* 751 *)
    smlal v9 v4 v13;                       (* 752 *)
    smlal2 v6 v4 v13;                      (* 753 *)
    smlal2 v29 v4 v31;                     (* 754 *)
    smlal v11 v4 v31;                      (* 755 *)
    ld2_8h v27 v28 x7 (Post 32);           (* 756 *)
    ld2_8h v18 v19 x10 (Post 32);          (* 757 *)
    ld2_8h v20 v21 x8 (Post 32);           (* 758 *)
    ld2_8h v25 v26 x11 (Post 32);          (* 759 *)
    ld2_8h v16 v17 x5 (Post 32);           (* 760 *)
    ld2_8h v7 v8 x1 (Post 32);             (* 761 *)
    ld1_8h v3 x3 (Post 16);                (* 762 *)
    sub_imm x13 x13 2                      (* 786 *) ];
  Loop [
    ld2_8h v13 v14 x4 (Post 32);           (* 801 *)
    ld1_8h v15 x6 (Post 16);               (* 802 *)
    smlal2 v29 v13 v16;                    (* 803 *)
    smlal v9 v13 v17;                      (* 804 *)
    smlal2 v6 v13 v17;                     (* 805 *)
    smlal v11 v13 v16;                     (* 806 *)
    smlal2 v29 v14 v15;                    (* 807 *)
    smlal v9 v14 v16;                      (* 808 *)
    smlal2 v6 v14 v16;                     (* 809 *)
    ld1_8h v30 x9 (Post 16);               (* 810 *)
    smlal v9 v27 v21;                      (* 811 *)
    smlal2 v6 v27 v21;                     (* 812 *)
    smlal v11 v14 v15;                     (* 813 *)
    smlal2 v29 v27 v20;                    (* 814 *)
    smlal v9 v28 v20;                      (* 815 *)
    smlal2 v6 v28 v20;                     (* 816 *)
    smlal v11 v27 v20;                     (* 817 *)
    smlal2 v29 v28 v30;                    (* 818 *)
    smlal v9 v18 v26;                      (* 819 *)
    smlal2 v6 v18 v26;                     (* 820 *)
    smlal v11 v28 v30;                     (* 821 *)
    smlal2 v29 v18 v25;                    (* 822 *)
    smlal v9 v19 v25;                      (* 823 *)
    smlal2 v6 v19 v25;                     (* 824 *)
    ld1_8h v23 x12 (Post 16);              (* 825 *)
    smlal v11 v18 v25;                     (* 826 *)
    uzp1_8h v14 v9 v6;                     (* 827 *)
    smlal2 v29 v19 v23;                    (* 828 *)
    mul_h v27 v14 v2 2;                    (* 829 *)
    smlal v11 v19 v23;                     (* 830 *)
    ld2_8h v4 v5 x2 (Post 32);             (* 831 *)
    smlal v9 v27 v0;                       (* 832 *)
    smlal2 v6 v27 v0;                      (* 833 *)
    ld2_8h v27 v28 x7 (Post 32);           (* 834 *)
    uzp1_8h v13 v11 v29;                   (* 835 *)
    uzp2_8h v15 v9 v6;                     (* 836 *)
    mul_h v13 v13 v2 2;                    (* 837 *)
    ld2_8h v18 v19 x10 (Post 32);          (* 838 *)
    smull v9 v7 v5;                        (* 839 *)
    smlal v11 v13 v0;                      (* 840 *)
    smlal2 v29 v13 v0;                     (* 841 *)
    ld2_8h v20 v21 x8 (Post 32);           (* 842 *)
    smlal v9 v8 v4;                        (* 843 *)
    uzp2_8h v14 v11 v29;                   (* 844 *)
    smull2 v29 v7 v4;                      (* 845 *)
    smull2 v6 v7 v5;                       (* 846 *)
    ld2_8h v25 v26 x11 (Post 32);          (* 847 *)
    smull v11 v7 v4;                       (* 848 *)
    smlal2 v6 v8 v4;                       (* 849 *)
    smlal2 v29 v8 v3;                      (* 850 *)
    ld2_8h v16 v17 x5 (Post 32);           (* 851 *)
    smlal v11 v8 v3;                       (* 852 *)
    ld2_8h v7 v8 x1 (Post 32);             (* 853 *)
    ld1_8h v3 x3 (Post 16);                (* 854 *)
    st2_8h v14 v15 x0 (Post 32);           (* 855 *)
    sub_imm x13 x13 1                      (* 916 *) ] x13;
  Straight [
    ld2_8h v14 v15 x4 (Post 32);           (* 931 *)
    ld1_8h v1 x6 (Post 16);                (* 932 *)
    smlal2 v29 v14 v16;                    (* 933 *)
    smlal v11 v14 v16;                     (* 934 *)
    ld2_8h v12 v13 x5 (Post 32);           (* 935 *)
    smlal2 v29 v15 v1;                     (* 936 *)
    smlal v11 v15 v1;                      (* 937 *)
    ld1_8h v10 x9 (Post 16);               (* 938 *)
    smlal2 v29 v27 v20;                    (* 939 *)
    smlal v11 v27 v20;                     (* 940 *)
    ld2_8h v22 v23 x2 (Post 32);           (* 941 *)
    smlal2 v29 v28 v10;                    (* 942 *)
    smlal v11 v28 v10;                     (* 943 *)
    ld1_8h v31 x12 (Post 16);              (* 944 *)
    smlal2 v29 v18 v25;                    (* 945 *)
    smlal v11 v18 v25;                     (* 946 *)
    smull2 v1 v7 v23;                      (* 947 *)
    smlal v9 v14 v17;                      (* 948 *)
    smlal2 v29 v19 v31;                    (* 949 *)
    smlal v11 v19 v31;                     (* 950 *)
    smull v31 v7 v23;                      (* 951 *)
    smlal v9 v15 v16;                      (* 952 *)
    smull v10 v7 v22;                      (* 953 *)
    smlal2 v1 v8 v22;                      (* 954 *)
    smlal v31 v8 v22;                      (* 955 *)
    ld2_8h v4 v5 x4 (Post 32);             (* 956 *)
    ld2_8h v23 v24 x11 (Post 32);          (* 957 *)
    smlal2 v1 v4 v13;                      (* 958 *)
    smlal v31 v4 v13;                      (* 959 *)
    ld1_8h v30 x6 (Post 16);               (* 960 *)
    smlal2 v1 v5 v12;                      (* 961 *)
    smlal v10 v8 v3;                       (* 962 *)
    smull2 v7 v7 v22;                      (* 963 *)
    uzp1_8h v22 v11 v29;                   (* 964 *)
    smlal2 v6 v14 v17;                     (* 965 *)
    smlal v10 v4 v12;                      (* 966 *)
    smlal2 v7 v8 v3;                       (* 967 *)
    ld2_8h v13 v14 x7 (Post 32);           (* 968 *)
    mul_h v17 v22 v2 2;                    (* 969 *)
    smlal2 v7 v4 v12;                      (* 970 *)
    smlal v10 v5 v30;                      (* 971 *)
    smlal2 v6 v15 v16;                     (* 972 *)
    smlal v11 v17 v0;                      (* 973 *)
    ld2_8h v3 v4 x8 (Post 32);             (* 974 *)
    smlal2 v7 v5 v30;                      (* 975 *)
    ld1_8h v30 x9 (Post 16);               (* 976 *)
    smlal v10 v13 v3;                      (* 977 *)
    smlal2 v7 v13 v3;                      (* 978 *)
    ld2_8h v15 v16 x10 (Post 32);          (* 979 *)
    smlal v10 v14 v30;                     (* 980 *)
    smlal v9 v27 v21;                      (* 981 *)
    smlal2 v7 v14 v30;                     (* 982 *)
    smlal2 v6 v27 v21;                     (* 983 *)
    smlal v10 v15 v23;                     (* 984 *)
    ld1_8h v27 x12 (Post 16);              (* 985 *)
    smlal2 v7 v15 v23;                     (* 986 *)
    smlal v31 v5 v12;                      (* 987 *)
    smlal2 v6 v28 v20;                     (* 988 *)
    smlal v10 v16 v27;                     (* 989 *)
    smlal2 v7 v16 v27;                     (* 990 *)
    smlal v31 v13 v4;                      (* 991 *)
    smlal2 v6 v18 v26;                     (* 992 *)
    smlal2 v1 v13 v4;                      (* 993 *)
    smlal v9 v28 v20;                      (* 994 *)
    smlal v31 v14 v3;                      (* 995 *)
    uzp1_8h v13 v10 v7;                    (* 996 *)
    smlal2 v1 v14 v3;                      (* 997 *)
    smlal v9 v18 v26;                      (* 998 *)
    smlal v31 v15 v24;                     (* 999 *)
    smlal2 v6 v19 v25;                     (* 1000 *)
    smlal2 v1 v15 v24;                     (* 1001 *)
    smlal v9 v19 v25;                      (* 1002 *)
    smlal v31 v16 v23;                     (* 1003 *)
    mul_h v13 v13 v2 2;                    (* 1004 *)
    smlal2 v1 v16 v23;                     (* 1005 *)
    uzp1_8h v23 v9 v6;                     (* 1006 *)
    smlal2 v29 v17 v0;                     (* 1007 *)
    mul_h v12 v23 v2 2;                    (* 1008 *)
    uzp1_8h v4 v31 v1;                     (* 1009 *)
    smlal v10 v13 v0;                      (* 1010 *)
    mul_h v23 v4 v2 2;                     (* 1011 *)
    smlal v9 v12 v0;                       (* 1012 *)
    smlal2 v7 v13 v0;                      (* 1013 *)
    smlal2 v6 v12 v0;                      (* 1014 *)
    smlal v31 v23 v0;                      (* 1015 *)
    smlal2 v1 v23 v0;                      (* 1016 *)
    uzp2_8h v12 v10 v7;                    (* 1017 *)
    uzp2_8h v25 v9 v6;                     (* 1018 *)
    uzp2_8h v24 v11 v29;                   (* 1019 *)
    uzp2_8h v13 v31 v1;                    (* 1020 *)
    st2_8h v24 v25 x0 (Post 32);           (* 1021 *)
    st2_8h v12 v13 x0 (Post 32);           (* 1022 *)
    ldp_d v8 v9 sp 0;                      (* 1121 pop_stack *)
    ldp_d v10 v11 sp 16;                   (* 1121 pop_stack *)
    ldp_d v12 v13 sp 32;                   (* 1121 pop_stack *)
    ldp_d v14 v15 sp 48;                   (* 1121 pop_stack *)
    add_imm sp sp 64                       (* 1121 pop_stack *) ]
].

