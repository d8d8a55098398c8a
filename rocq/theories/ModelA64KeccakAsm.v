(** * The routines of fips202/native/aarch64/*.S

    Written by tools/a64kgen.py from the source files; see there. Each instruction is followed
    by the number of its line, or of the line that invokes the macro named. The round constants,
    which every file repeats, are array 2 of a routine; ASM_LOAD (common.i) is [adr]. *)

From Coq Require Import ZArith List.
From Verif Require Import ModelA64Keccak.
Import ListNotations.
Open Scope Z_scope.

Local Notation sp := (31%nat).
Local Notation x0 := 0%nat.
Local Notation x1 := 1%nat.
Local Notation x2 := 2%nat.
Local Notation x3 := 3%nat.
Local Notation x4 := 4%nat.
Local Notation x5 := 5%nat.
Local Notation x6 := 6%nat.
Local Notation x7 := 7%nat.
Local Notation x8 := 8%nat.
Local Notation x9 := 9%nat.
Local Notation x10 := 10%nat.
Local Notation x11 := 11%nat.
Local Notation x12 := 12%nat.
Local Notation x13 := 13%nat.
Local Notation x14 := 14%nat.
Local Notation x15 := 15%nat.
Local Notation x16 := 16%nat.
Local Notation x17 := 17%nat.
Local Notation x18 := 18%nat.
Local Notation x19 := 19%nat.
Local Notation x20 := 20%nat.
Local Notation x21 := 21%nat.
Local Notation x22 := 22%nat.
Local Notation x23 := 23%nat.
Local Notation x24 := 24%nat.
Local Notation x25 := 25%nat.
Local Notation x26 := 26%nat.
Local Notation x27 := 27%nat.
Local Notation x28 := 28%nat.
Local Notation x29 := 29%nat.
Local Notation x30 := 30%nat.
Local Notation v0 := 0%nat.
Local Notation v1 := 1%nat.
Local Notation v2 := 2%nat.
Local Notation v3 := 3%nat.
Local Notation v4 := 4%nat.
Local Notation v5 := 5%nat.
Local Notation v6 := 6%nat.
Local Notation v7 := 7%nat.
Local Notation v8 := 8%nat.
Local Notation v9 := 9%nat.
Local Notation v10 := 10%nat.
Local Notation v11 := 11%nat.
Local Notation v12 := 12%nat.
Local Notation v13 := 13%nat.
Local Notation v14 := 14%nat.
Local Notation v15 := 15%nat.
Local Notation v16 := 16%nat.
Local Notation v17 := 17%nat.
Local Notation v18 := 18%nat.
Local Notation v19 := 19%nat.
Local Notation v20 := 20%nat.
Local Notation v21 := 21%nat.
Local Notation v22 := 22%nat.
Local Notation v23 := 23%nat.
Local Notation v24 := 24%nat.
Local Notation v25 := 25%nat.
Local Notation v26 := 26%nat.
Local Notation v27 := 27%nat.
Local Notation v28 := 28%nat.
Local Notation v29 := 29%nat.
Local Notation v30 := 30%nat.
Local Notation v31 := 31%nat.

(** fips202/native/aarch64/keccak_f1600_x1_scalar_asm_opt.S:41-65 round_constants *)
Definition keccak_f1600_x1_scalar_asm_opt_constants : list Z := [
  0x1; 0x8082; 0x800000000000808a;
  0x8000000080008000; 0x808b; 0x80000001;
  0x8000000080008081; 0x8000000000008009; 0x8a;
  0x88; 0x80008009; 0x8000000a;
  0x8000808b; 0x800000000000008b; 0x8000000000008089;
  0x8000000000008003; 0x8000000000008002; 0x8000000000000080;
  0x800a; 0x800000008000000a; 0x8000000080008081;
  0x8000000000008080; 0x80000001; 0x8000000080008008].

(** fips202/native/aarch64/keccak_f1600_x1_scalar_asm_opt.S:204-327 *)
Definition keccak_f1600_x1_scalar_asm_opt_0 : list instr := [
  sub_imm sp sp 128;                       (* 204 alloc_stack *)
  stp x19 x20 sp 32;                       (* 205 save_gprs *)
  stp x21 x22 sp 48;                       (* 205 save_gprs *)
  stp x23 x24 sp 64;                       (* 205 save_gprs *)
  stp x25 x26 sp 80;                       (* 205 save_gprs *)
  stp x27 x28 sp 96;                       (* 205 save_gprs *)
  stp x29 x30 sp 112;                      (* 205 save_gprs *)
  adr x26 2;                               (* 208 *)
  str x26 sp 8;                            (* 209 *)
  ldp x1 x6 x0 0;                          (* 210 load_state *)
  ldp x11 x16 x0 16;                       (* 210 load_state *)
  ldp x21 x2 x0 32;                        (* 210 load_state *)
  ldp x7 x12 x0 48;                        (* 210 load_state *)
  ldp x17 x22 x0 64;                       (* 210 load_state *)
  ldp x3 x8 x0 80;                         (* 210 load_state *)
  ldp x13 x28 x0 96;                       (* 210 load_state *)
  ldp x23 x4 x0 112;                       (* 210 load_state *)
  ldp x9 x14 x0 128;                       (* 210 load_state *)
  ldp x19 x24 x0 144;                      (* 210 load_state *)
  ldp x5 x10 x0 160;                       (* 210 load_state *)
  ldp x15 x20 x0 176;                      (* 210 load_state *)
  ldr x25 x0 192;                          (* 210 load_state *)
  str x0 sp 0;                             (* 211 *)
  eor x30 x24 x25 0;                       (* 221 *)
  eor x27 x9 x10 0;                        (* 222 *)
  eor x0 x30 x21 0;                        (* 223 *)
  eor x26 x27 x6 0;                        (* 224 *)
  eor x27 x26 x7 0;                        (* 225 *)
  eor x29 x0 x22 0;                        (* 226 *)
  eor x26 x29 x23 0;                       (* 227 *)
  eor x29 x4 x5 0;                         (* 228 *)
  eor x30 x29 x1 0;                        (* 229 *)
  eor x0 x27 x8 0;                         (* 230 *)
  eor x29 x30 x2 0;                        (* 231 *)
  eor x30 x19 x20 0;                       (* 232 *)
  eor x30 x30 x16 0;                       (* 233 *)
  eor x27 x26 x0 63;                       (* 234 *)
  eor x4 x4 x27 0;                         (* 235 *)
  eor x30 x30 x17 0;                       (* 236 *)
  eor x30 x30 x28 0;                       (* 237 *)
  eor x29 x29 x3 0;                        (* 238 *)
  eor x0 x0 x30 63;                        (* 239 *)
  eor x30 x30 x29 63;                      (* 240 *)
  eor x22 x22 x30 0;                       (* 241 *)
  eor x23 x23 x30 0;                       (* 242 *)
  str x23 sp 24;                           (* 243 *)
  eor x23 x14 x15 0;                       (* 244 *)
  eor x14 x14 x0 0;                        (* 245 *)
  eor x23 x23 x11 0;                       (* 246 *)
  eor x15 x15 x0 0;                        (* 247 *)
  eor x1 x1 x27 0;                         (* 248 *)
  eor x23 x23 x12 0;                       (* 249 *)
  eor x23 x23 x13 0;                       (* 250 *)
  eor x11 x11 x0 0;                        (* 251 *)
  eor x29 x29 x23 63;                      (* 252 *)
  eor x23 x23 x26 63;                      (* 253 *)
  eor x26 x13 x0 0;                        (* 254 *)
  eor x13 x28 x23 0;                       (* 255 *)
  eor x28 x24 x30 0;                       (* 256 *)
  eor x24 x16 x23 0;                       (* 257 *)
  eor x16 x21 x30 0;                       (* 258 *)
  eor x21 x25 x30 0;                       (* 259 *)
  eor x30 x19 x23 0;                       (* 260 *)
  eor x19 x20 x23 0;                       (* 261 *)
  eor x20 x17 x23 0;                       (* 262 *)
  eor x17 x12 x0 0;                        (* 263 *)
  eor x0 x2 x27 0;                         (* 264 *)
  eor x2 x6 x29 0;                         (* 265 *)
  eor x6 x8 x29 0;                         (* 266 *)
  bic x8 x28 x13 47;                       (* 267 *)
  eor x12 x3 x27 0;                        (* 268 *)
  bic x3 x13 x17 19;                       (* 269 *)
  eor x5 x5 x27 0;                         (* 270 *)
  ldr x27 sp 24;                           (* 271 *)
  bic x25 x17 x2 5;                        (* 272 *)
  eor x9 x9 x29 0;                         (* 273 *)
  eor x23 x25 x5 52;                       (* 274 *)
  eor x3 x3 x2 24;                         (* 275 *)
  eor x8 x8 x17 2;                         (* 276 *)
  eor x17 x10 x29 0;                       (* 277 *)
  bic x25 x12 x22 47;                      (* 278 *)
  eor x29 x7 x29 0;                        (* 279 *)
  bic x10 x4 x27 2;                        (* 280 *)
  bic x7 x5 x28 10;                        (* 281 *)
  eor x10 x10 x20 50;                      (* 282 *)
  eor x13 x7 x13 57;                       (* 283 *)
  bic x7 x2 x5 47;                         (* 284 *)
  eor x2 x25 x24 39;                       (* 285 *)
  bic x25 x20 x11 57;                      (* 286 *)
  bic x5 x17 x4 25;                        (* 287 *)
  eor x25 x25 x17 53;                      (* 288 *)
  bic x17 x11 x17 60;                      (* 289 *)
  eor x28 x7 x28 57;                       (* 290 *)
  bic x7 x9 x12 42;                        (* 291 *)
  eor x7 x7 x22 25;                        (* 292 *)
  bic x22 x22 x24 56;                      (* 293 *)
  bic x24 x24 x15 31;                      (* 294 *)
  eor x22 x22 x15 23;                      (* 295 *)
  bic x20 x27 x20 48;                      (* 296 *)
  bic x15 x15 x9 16;                       (* 297 *)
  eor x12 x15 x12 58;                      (* 298 *)
  eor x15 x5 x27 27;                       (* 299 *)
  eor x5 x20 x11 41;                       (* 300 *)
  ldr x11 sp 8;                            (* 301 *)
  eor x20 x17 x4 21;                       (* 302 *)
  eor x17 x24 x9 47;                       (* 303 *)
  mov_imm x24 1;                           (* 304 *)
  bic x9 x0 x16 9;                         (* 305 *)
  str x24 sp 16;                           (* 306 *)
  bic x24 x29 x1 44;                       (* 307 *)
  bic x27 x1 x21 50;                       (* 308 *)
  bic x4 x26 x29 63;                       (* 309 *)
  eor x1 x1 x4 21;                         (* 310 *)
  ldr x11 x11 0;                           (* 311 *)
  bic x4 x21 x30 57;                       (* 312 *)
  eor x21 x24 x21 30;                      (* 313 *)
  eor x24 x9 x19 44;                       (* 314 *)
  bic x9 x14 x6 5;                         (* 315 *)
  eor x9 x9 x0 43;                         (* 316 *)
  bic x0 x6 x0 38;                         (* 317 *)
  eor x1 x1 x11 0;                         (* 318 *)
  eor x11 x4 x26 35;                       (* 319 *)
  eor x4 x0 x16 47;                        (* 320 *)
  bic x0 x16 x19 35;                       (* 321 *)
  eor x16 x27 x30 43;                      (* 322 *)
  bic x27 x30 x26 42;                      (* 323 *)
  bic x26 x19 x14 41;                      (* 324 *)
  eor x19 x0 x14 12;                       (* 325 *)
  eor x14 x26 x6 46;                       (* 326 *)
  eor x6 x27 x29 41                        (* 327 *)
].

(** fips202/native/aarch64/keccak_f1600_x1_scalar_asm_opt.S:338-449, loop: *)
Definition keccak_f1600_x1_scalar_asm_opt_1 : list instr := [
  eor x0 x15 x11 52;                       (* 338 *)
  eor x0 x0 x13 48;                        (* 339 *)
  eor x26 x8 x9 57;                        (* 340 *)
  eor x27 x0 x14 10;                       (* 341 *)
  eor x29 x16 x28 63;                      (* 342 *)
  eor x26 x26 x6 51;                       (* 343 *)
  eor x30 x23 x22 50;                      (* 344 *)
  eor x0 x26 x10 31;                       (* 345 *)
  eor x29 x29 x19 37;                      (* 346 *)
  eor x27 x27 x12 5;                       (* 347 *)
  eor x30 x30 x24 34;                      (* 348 *)
  eor x0 x0 x7 27;                         (* 349 *)
  eor x26 x30 x21 26;                      (* 350 *)
  eor x26 x26 x25 15;                      (* 351 *)
  ror x30 x27 62;                          (* 352 *)
  eor x30 x30 x26 57;                      (* 353 *)
  ror x26 x26 58;                          (* 354 *)
  eor x16 x30 x16 0;                       (* 355 *)
  eor x28 x30 x28 63;                      (* 356 *)
  str x28 sp 24;                           (* 357 *)
  eor x29 x29 x17 36;                      (* 358 *)
  eor x28 x1 x2 61;                        (* 359 *)
  eor x19 x30 x19 37;                      (* 360 *)
  eor x29 x29 x20 2;                       (* 361 *)
  eor x28 x28 x4 54;                       (* 362 *)
  eor x26 x26 x0 55;                       (* 363 *)
  eor x28 x28 x3 39;                       (* 364 *)
  eor x28 x28 x5 25;                       (* 365 *)
  ror x0 x0 56;                            (* 366 *)
  eor x0 x0 x29 63;                        (* 367 *)
  eor x27 x28 x27 61;                      (* 368 *)
  eor x13 x0 x13 46;                       (* 369 *)
  eor x28 x29 x28 63;                      (* 370 *)
  eor x29 x30 x20 2;                       (* 371 *)
  eor x20 x26 x3 39;                       (* 372 *)
  eor x11 x0 x11 50;                       (* 373 *)
  eor x25 x28 x25 9;                       (* 374 *)
  eor x3 x28 x21 20;                       (* 375 *)
  eor x21 x26 x1 0;                        (* 376 *)
  eor x9 x27 x9 49;                        (* 377 *)
  eor x24 x28 x24 28;                      (* 378 *)
  eor x1 x30 x17 36;                       (* 379 *)
  eor x14 x0 x14 8;                        (* 380 *)
  eor x22 x28 x22 44;                      (* 381 *)
  eor x8 x27 x8 56;                        (* 382 *)
  eor x17 x27 x7 19;                       (* 383 *)
  eor x15 x0 x15 62;                       (* 384 *)
  bic x7 x20 x22 47;                       (* 385 *)
  eor x4 x26 x4 54;                        (* 386 *)
  eor x0 x0 x12 3;                         (* 387 *)
  eor x28 x28 x23 58;                      (* 388 *)
  eor x23 x26 x2 61;                       (* 389 *)
  eor x26 x26 x5 25;                       (* 390 *)
  eor x2 x7 x16 39;                        (* 391 *)
  bic x7 x9 x20 42;                        (* 392 *)
  bic x30 x15 x9 16;                       (* 393 *)
  eor x7 x7 x22 25;                        (* 394 *)
  eor x12 x30 x20 58;                      (* 395 *)
  bic x20 x22 x16 56;                      (* 396 *)
  eor x30 x27 x6 43;                       (* 397 *)
  eor x22 x20 x15 23;                      (* 398 *)
  bic x6 x19 x13 42;                       (* 399 *)
  eor x6 x6 x17 41;                        (* 400 *)
  bic x5 x13 x17 63;                       (* 401 *)
  eor x5 x21 x5 21;                        (* 402 *)
  bic x17 x17 x21 44;                      (* 403 *)
  eor x27 x27 x10 23;                      (* 404 *)
  bic x21 x21 x25 50;                      (* 405 *)
  bic x20 x27 x4 25;                       (* 406 *)
  bic x10 x16 x15 31;                      (* 407 *)
  eor x16 x21 x19 43;                      (* 408 *)
  eor x21 x17 x25 30;                      (* 409 *)
  bic x19 x25 x19 57;                      (* 410 *)
  ldr x25 sp 16;                           (* 411 *)
  eor x17 x10 x9 47;                       (* 412 *)
  ldr x9 sp 8;                             (* 413 *)
  eor x15 x20 x28 27;                      (* 414 *)
  bic x20 x4 x28 2;                        (* 415 *)
  eor x10 x20 x1 50;                       (* 416 *)
  bic x20 x11 x27 60;                      (* 417 *)
  eor x20 x20 x4 21;                       (* 418 *)
  bic x4 x28 x1 48;                        (* 419 *)
  bic x1 x1 x11 57;                        (* 420 *)
  ldr_index x28 x9 x25;                    (* 421 *)
  ldr x9 sp 24;                            (* 422 *)
  add_imm x25 x25 1;                       (* 423 *)
  str x25 sp 16;                           (* 424 *)
  cmp_imm x25 23;                          (* 425 *)
  eor x25 x1 x27 53;                       (* 426 *)
  bic x27 x30 x26 47;                      (* 427 *)
  eor x1 x5 x28 0;                         (* 428 *)
  eor x5 x4 x11 41;                        (* 429 *)
  eor x11 x19 x13 35;                      (* 430 *)
  bic x13 x26 x24 10;                      (* 431 *)
  eor x28 x27 x24 57;                      (* 432 *)
  bic x27 x24 x9 47;                       (* 433 *)
  bic x19 x23 x3 9;                        (* 434 *)
  bic x4 x29 x14 41;                       (* 435 *)
  eor x24 x19 x29 44;                      (* 436 *)
  bic x29 x3 x29 35;                       (* 437 *)
  eor x13 x13 x9 57;                       (* 438 *)
  eor x19 x29 x14 12;                      (* 439 *)
  bic x29 x9 x0 19;                        (* 440 *)
  bic x14 x14 x8 5;                        (* 441 *)
  eor x9 x14 x23 43;                       (* 442 *)
  eor x14 x4 x8 46;                        (* 443 *)
  bic x23 x8 x23 38;                       (* 444 *)
  eor x8 x27 x0 2;                         (* 445 *)
  eor x4 x23 x3 47;                        (* 446 *)
  bic x3 x0 x30 5;                         (* 447 *)
  eor x23 x3 x26 52;                       (* 448 *)
  eor x3 x29 x30 24                        (* 449 *)
].

(** fips202/native/aarch64/keccak_f1600_x1_scalar_asm_opt.S:452-457 *)
Definition keccak_f1600_x1_scalar_asm_opt_2 : list instr := [
  ror x6 x6 43;                            (* 452 final_rotate *)
  ror x11 x11 50;                          (* 452 final_rotate *)
  ror x21 x21 20;                          (* 452 final_rotate *)
  ror x2 x2 61;                            (* 452 final_rotate *)
  ror x7 x7 19;                            (* 452 final_rotate *)
  ror x12 x12 3;                           (* 452 final_rotate *)
  ror x17 x17 36;                          (* 452 final_rotate *)
  ror x22 x22 44;                          (* 452 final_rotate *)
  ror x3 x3 39;                            (* 452 final_rotate *)
  ror x8 x8 56;                            (* 452 final_rotate *)
  ror x13 x13 46;                          (* 452 final_rotate *)
  ror x28 x28 63;                          (* 452 final_rotate *)
  ror x23 x23 58;                          (* 452 final_rotate *)
  ror x4 x4 54;                            (* 452 final_rotate *)
  ror x9 x9 49;                            (* 452 final_rotate *)
  ror x14 x14 8;                           (* 452 final_rotate *)
  ror x19 x19 37;                          (* 452 final_rotate *)
  ror x24 x24 28;                          (* 452 final_rotate *)
  ror x5 x5 25;                            (* 452 final_rotate *)
  ror x10 x10 23;                          (* 452 final_rotate *)
  ror x15 x15 62;                          (* 452 final_rotate *)
  ror x20 x20 2;                           (* 452 final_rotate *)
  ror x25 x25 9;                           (* 452 final_rotate *)
  ldr x0 sp 0;                             (* 453 *)
  stp x1 x6 x0 0;                          (* 454 store_state *)
  stp x11 x16 x0 16;                       (* 454 store_state *)
  stp x21 x2 x0 32;                        (* 454 store_state *)
  stp x7 x12 x0 48;                        (* 454 store_state *)
  stp x17 x22 x0 64;                       (* 454 store_state *)
  stp x3 x8 x0 80;                         (* 454 store_state *)
  stp x13 x28 x0 96;                       (* 454 store_state *)
  stp x23 x4 x0 112;                       (* 454 store_state *)
  stp x9 x14 x0 128;                       (* 454 store_state *)
  stp x19 x24 x0 144;                      (* 454 store_state *)
  stp x5 x10 x0 160;                       (* 454 store_state *)
  stp x15 x20 x0 176;                      (* 454 store_state *)
  str x25 x0 192;                          (* 454 store_state *)
  ldp x19 x20 sp 32;                       (* 456 restore_gprs *)
  ldp x21 x22 sp 48;                       (* 456 restore_gprs *)
  ldp x23 x24 sp 64;                       (* 456 restore_gprs *)
  ldp x25 x26 sp 80;                       (* 456 restore_gprs *)
  ldp x27 x28 sp 96;                       (* 456 restore_gprs *)
  ldp x29 x30 sp 112;                      (* 456 restore_gprs *)
  add_imm sp sp 128                        (* 457 free_stack *)
].

(** fips202/native/aarch64/keccak_f1600_x1_scalar_asm_opt.S:204-458 keccak_f1600_x1_scalar_asm_opt *)
Definition keccak_f1600_x1_scalar_asm_opt : list block := [
  (keccak_f1600_x1_scalar_asm_opt_0, Next);
  (keccak_f1600_x1_scalar_asm_opt_1, Ble 1);
  (keccak_f1600_x1_scalar_asm_opt_2, Ret)].

(** fips202/native/aarch64/keccak_f1600_x1_v84a_asm_clean.S:52-76 round_constants *)
Definition keccak_f1600_x1_v84a_asm_clean_constants : list Z := [
  0x1; 0x8082; 0x800000000000808a;
  0x8000000080008000; 0x808b; 0x80000001;
  0x8000000080008081; 0x8000000000008009; 0x8a;
  0x88; 0x80008009; 0x8000000a;
  0x8000808b; 0x800000000000008b; 0x8000000000008089;
  0x8000000000008003; 0x8000000000008002; 0x8000000000000080;
  0x800a; 0x800000008000000a; 0x8000000080008081;
  0x8000000000008080; 0x80000001; 0x8000000080008008].

(** fips202/native/aarch64/keccak_f1600_x1_v84a_asm_clean.S:349-354 *)
Definition keccak_f1600_x1_v84a_asm_clean_0 : list instr := [
  sub_imm sp sp 160;                       (* 349 alloc_stack *)
  stp_d v8 v9 sp 0;                        (* 350 save_vregs *)
  stp_d v10 v11 sp 16;                     (* 350 save_vregs *)
  stp_d v12 v13 sp 32;                     (* 350 save_vregs *)
  stp_d v14 v15 sp 48;                     (* 350 save_vregs *)
  adr x1 2;                                (* 351 *)
  ld2_d v0 v1 0 x0 (Post 16);              (* 352 load_input *)
  ld2_d v2 v3 0 x0 (Post 16);              (* 352 load_input *)
  ld2_d v4 v5 0 x0 (Post 16);              (* 352 load_input *)
  ld2_d v6 v7 0 x0 (Post 16);              (* 352 load_input *)
  ld2_d v8 v9 0 x0 (Post 16);              (* 352 load_input *)
  ld2_d v10 v11 0 x0 (Post 16);            (* 352 load_input *)
  ld2_d v12 v13 0 x0 (Post 16);            (* 352 load_input *)
  ld2_d v14 v15 0 x0 (Post 16);            (* 352 load_input *)
  ld2_d v16 v17 0 x0 (Post 16);            (* 352 load_input *)
  ld2_d v18 v19 0 x0 (Post 16);            (* 352 load_input *)
  ld2_d v20 v21 0 x0 (Post 16);            (* 352 load_input *)
  ld2_d v22 v23 0 x0 (Post 16);            (* 352 load_input *)
  ld1_d v24 0 x0 (Post 8);                 (* 352 load_input *)
  sub_imm x0 x0 200;                       (* 352 load_input *)
  mov_imm x2 24                            (* 354 *)
].

(** fips202/native/aarch64/keccak_f1600_x1_v84a_asm_clean.S:356-357, loop: *)
Definition keccak_f1600_x1_v84a_asm_clean_1 : list instr := [
  eor3_16b v30 v0 v5 v10;                  (* 356 keccak_f1600_round *)
  eor3_16b v29 v1 v6 v11;                  (* 356 keccak_f1600_round *)
  eor3_16b v28 v2 v7 v12;                  (* 356 keccak_f1600_round *)
  eor3_16b v27 v3 v8 v13;                  (* 356 keccak_f1600_round *)
  eor3_16b v26 v4 v9 v14;                  (* 356 keccak_f1600_round *)
  eor3_16b v30 v30 v15 v20;                (* 356 keccak_f1600_round *)
  eor3_16b v29 v29 v16 v21;                (* 356 keccak_f1600_round *)
  eor3_16b v28 v28 v17 v22;                (* 356 keccak_f1600_round *)
  eor3_16b v27 v27 v18 v23;                (* 356 keccak_f1600_round *)
  eor3_16b v26 v26 v19 v24;                (* 356 keccak_f1600_round *)
  rax1_2d v25 v30 v28;                     (* 356 keccak_f1600_round *)
  rax1_2d v28 v28 v26;                     (* 356 keccak_f1600_round *)
  rax1_2d v26 v26 v29;                     (* 356 keccak_f1600_round *)
  rax1_2d v29 v29 v27;                     (* 356 keccak_f1600_round *)
  rax1_2d v27 v27 v30;                     (* 356 keccak_f1600_round *)
  eor_16b v30 v0 v26;                      (* 356 keccak_f1600_round *)
  xar_2d v0 v2 v29 2;                      (* 356 keccak_f1600_round *)
  xar_2d v2 v12 v29 21;                    (* 356 keccak_f1600_round *)
  xar_2d v12 v13 v28 39;                   (* 356 keccak_f1600_round *)
  xar_2d v13 v19 v27 56;                   (* 356 keccak_f1600_round *)
  xar_2d v19 v23 v28 8;                    (* 356 keccak_f1600_round *)
  xar_2d v23 v15 v26 23;                   (* 356 keccak_f1600_round *)
  xar_2d v15 v1 v25 63;                    (* 356 keccak_f1600_round *)
  xar_2d v1 v8 v28 9;                      (* 356 keccak_f1600_round *)
  xar_2d v8 v16 v25 19;                    (* 356 keccak_f1600_round *)
  xar_2d v16 v7 v29 58;                    (* 356 keccak_f1600_round *)
  xar_2d v7 v10 v26 61;                    (* 356 keccak_f1600_round *)
  xar_2d v10 v3 v28 36;                    (* 356 keccak_f1600_round *)
  xar_2d v3 v18 v28 43;                    (* 356 keccak_f1600_round *)
  xar_2d v18 v17 v29 49;                   (* 356 keccak_f1600_round *)
  xar_2d v17 v11 v25 54;                   (* 356 keccak_f1600_round *)
  xar_2d v11 v9 v27 44;                    (* 356 keccak_f1600_round *)
  xar_2d v9 v22 v29 3;                     (* 356 keccak_f1600_round *)
  xar_2d v22 v14 v27 25;                   (* 356 keccak_f1600_round *)
  xar_2d v14 v20 v26 46;                   (* 356 keccak_f1600_round *)
  xar_2d v20 v4 v27 37;                    (* 356 keccak_f1600_round *)
  xar_2d v4 v24 v27 50;                    (* 356 keccak_f1600_round *)
  xar_2d v24 v21 v25 62;                   (* 356 keccak_f1600_round *)
  xar_2d v21 v5 v26 28;                    (* 356 keccak_f1600_round *)
  xar_2d v27 v6 v25 20;                    (* 356 keccak_f1600_round *)
  ld1r_2d v31 x1 (Post 8);                 (* 356 keccak_f1600_round *)
  bcax_16b v5 v10 v7 v11;                  (* 356 keccak_f1600_round *)
  bcax_16b v6 v11 v8 v7;                   (* 356 keccak_f1600_round *)
  bcax_16b v7 v7 v9 v8;                    (* 356 keccak_f1600_round *)
  bcax_16b v8 v8 v10 v9;                   (* 356 keccak_f1600_round *)
  bcax_16b v9 v9 v11 v10;                  (* 356 keccak_f1600_round *)
  bcax_16b v10 v15 v12 v16;                (* 356 keccak_f1600_round *)
  bcax_16b v11 v16 v13 v12;                (* 356 keccak_f1600_round *)
  bcax_16b v12 v12 v14 v13;                (* 356 keccak_f1600_round *)
  bcax_16b v13 v13 v15 v14;                (* 356 keccak_f1600_round *)
  bcax_16b v14 v14 v16 v15;                (* 356 keccak_f1600_round *)
  bcax_16b v15 v20 v17 v21;                (* 356 keccak_f1600_round *)
  bcax_16b v16 v21 v18 v17;                (* 356 keccak_f1600_round *)
  bcax_16b v17 v17 v19 v18;                (* 356 keccak_f1600_round *)
  bcax_16b v18 v18 v20 v19;                (* 356 keccak_f1600_round *)
  bcax_16b v19 v19 v21 v20;                (* 356 keccak_f1600_round *)
  bcax_16b v20 v0 v22 v1;                  (* 356 keccak_f1600_round *)
  bcax_16b v21 v1 v23 v22;                 (* 356 keccak_f1600_round *)
  bcax_16b v22 v22 v24 v23;                (* 356 keccak_f1600_round *)
  bcax_16b v23 v23 v0 v24;                 (* 356 keccak_f1600_round *)
  bcax_16b v24 v24 v1 v0;                  (* 356 keccak_f1600_round *)
  bcax_16b v0 v30 v2 v27;                  (* 356 keccak_f1600_round *)
  bcax_16b v1 v27 v3 v2;                   (* 356 keccak_f1600_round *)
  bcax_16b v2 v2 v4 v3;                    (* 356 keccak_f1600_round *)
  bcax_16b v3 v3 v30 v4;                   (* 356 keccak_f1600_round *)
  bcax_16b v4 v4 v27 v30;                  (* 356 keccak_f1600_round *)
  eor_16b v0 v0 v31;                       (* 356 keccak_f1600_round *)
  sub_imm x2 x2 1                          (* 357 *)
].

(** fips202/native/aarch64/keccak_f1600_x1_v84a_asm_clean.S:360-362 *)
Definition keccak_f1600_x1_v84a_asm_clean_2 : list instr := [
  st2_d v0 v1 0 x0 (Post 16);              (* 360 store_input *)
  st2_d v2 v3 0 x0 (Post 16);              (* 360 store_input *)
  st2_d v4 v5 0 x0 (Post 16);              (* 360 store_input *)
  st2_d v6 v7 0 x0 (Post 16);              (* 360 store_input *)
  st2_d v8 v9 0 x0 (Post 16);              (* 360 store_input *)
  st2_d v10 v11 0 x0 (Post 16);            (* 360 store_input *)
  st2_d v12 v13 0 x0 (Post 16);            (* 360 store_input *)
  st2_d v14 v15 0 x0 (Post 16);            (* 360 store_input *)
  st2_d v16 v17 0 x0 (Post 16);            (* 360 store_input *)
  st2_d v18 v19 0 x0 (Post 16);            (* 360 store_input *)
  st2_d v20 v21 0 x0 (Post 16);            (* 360 store_input *)
  st2_d v22 v23 0 x0 (Post 16);            (* 360 store_input *)
  st1_d v24 0 x0 (Post 8);                 (* 360 store_input *)
  ldp_d v8 v9 sp 0;                        (* 361 restore_vregs *)
  ldp_d v10 v11 sp 16;                     (* 361 restore_vregs *)
  ldp_d v12 v13 sp 32;                     (* 361 restore_vregs *)
  ldp_d v14 v15 sp 48;                     (* 361 restore_vregs *)
  add_imm sp sp 160                        (* 362 free_stack *)
].

(** fips202/native/aarch64/keccak_f1600_x1_v84a_asm_clean.S:349-363 keccak_f1600_x1_v84a_asm_clean *)
Definition keccak_f1600_x1_v84a_asm_clean : list block := [
  (keccak_f1600_x1_v84a_asm_clean_0, Next);
  (keccak_f1600_x1_v84a_asm_clean_1, Cbnz x2 1);
  (keccak_f1600_x1_v84a_asm_clean_2, Ret)].

(** fips202/native/aarch64/keccak_f1600_x2_v84a_asm_clean.S:52-76 round_constants *)
Definition keccak_f1600_x2_v84a_asm_clean_constants : list Z := [
  0x1; 0x8082; 0x800000000000808a;
  0x8000000080008000; 0x808b; 0x80000001;
  0x8000000080008081; 0x8000000000008009; 0x8a;
  0x88; 0x80008009; 0x8000000a;
  0x8000808b; 0x800000000000008b; 0x8000000000008089;
  0x8000000000008003; 0x8000000000008002; 0x8000000000000080;
  0x800a; 0x800000008000000a; 0x8000000080008081;
  0x8000000000008080; 0x80000001; 0x8000000080008008].

(** fips202/native/aarch64/keccak_f1600_x2_v84a_asm_clean.S:377-382 *)
Definition keccak_f1600_x2_v84a_asm_clean_0 : list instr := [
  sub_imm sp sp 160;                       (* 377 alloc_stack *)
  stp_d v8 v9 sp 0;                        (* 378 save_vregs *)
  stp_d v10 v11 sp 16;                     (* 378 save_vregs *)
  stp_d v12 v13 sp 32;                     (* 378 save_vregs *)
  stp_d v14 v15 sp 48;                     (* 378 save_vregs *)
  adr x1 2;                                (* 379 *)
  ld2_d v0 v1 0 x0 (Post 16);              (* 380 load_input *)
  ld2_d v2 v3 0 x0 (Post 16);              (* 380 load_input *)
  ld2_d v4 v5 0 x0 (Post 16);              (* 380 load_input *)
  ld2_d v6 v7 0 x0 (Post 16);              (* 380 load_input *)
  ld2_d v8 v9 0 x0 (Post 16);              (* 380 load_input *)
  ld2_d v10 v11 0 x0 (Post 16);            (* 380 load_input *)
  ld2_d v12 v13 0 x0 (Post 16);            (* 380 load_input *)
  ld2_d v14 v15 0 x0 (Post 16);            (* 380 load_input *)
  ld2_d v16 v17 0 x0 (Post 16);            (* 380 load_input *)
  ld2_d v18 v19 0 x0 (Post 16);            (* 380 load_input *)
  ld2_d v20 v21 0 x0 (Post 16);            (* 380 load_input *)
  ld2_d v22 v23 0 x0 (Post 16);            (* 380 load_input *)
  ld1_d v24 0 x0 (Post 8);                 (* 380 load_input *)
  ld2_d v0 v1 1 x0 (Post 16);              (* 380 load_input *)
  ld2_d v2 v3 1 x0 (Post 16);              (* 380 load_input *)
  ld2_d v4 v5 1 x0 (Post 16);              (* 380 load_input *)
  ld2_d v6 v7 1 x0 (Post 16);              (* 380 load_input *)
  ld2_d v8 v9 1 x0 (Post 16);              (* 380 load_input *)
  ld2_d v10 v11 1 x0 (Post 16);            (* 380 load_input *)
  ld2_d v12 v13 1 x0 (Post 16);            (* 380 load_input *)
  ld2_d v14 v15 1 x0 (Post 16);            (* 380 load_input *)
  ld2_d v16 v17 1 x0 (Post 16);            (* 380 load_input *)
  ld2_d v18 v19 1 x0 (Post 16);            (* 380 load_input *)
  ld2_d v20 v21 1 x0 (Post 16);            (* 380 load_input *)
  ld2_d v22 v23 1 x0 (Post 16);            (* 380 load_input *)
  ld1_d v24 1 x0 (Post 8);                 (* 380 load_input *)
  sub_imm x0 x0 400;                       (* 380 load_input *)
  mov_imm x2 24                            (* 382 *)
].

(** fips202/native/aarch64/keccak_f1600_x2_v84a_asm_clean.S:384-385, loop: *)
Definition keccak_f1600_x2_v84a_asm_clean_1 : list instr := [
  eor3_16b v30 v0 v5 v10;                  (* 384 keccak_f1600_round *)
  eor3_16b v29 v1 v6 v11;                  (* 384 keccak_f1600_round *)
  eor3_16b v28 v2 v7 v12;                  (* 384 keccak_f1600_round *)
  eor3_16b v27 v3 v8 v13;                  (* 384 keccak_f1600_round *)
  eor3_16b v26 v4 v9 v14;                  (* 384 keccak_f1600_round *)
  eor3_16b v30 v30 v15 v20;                (* 384 keccak_f1600_round *)
  eor3_16b v29 v29 v16 v21;                (* 384 keccak_f1600_round *)
  eor3_16b v28 v28 v17 v22;                (* 384 keccak_f1600_round *)
  eor3_16b v27 v27 v18 v23;                (* 384 keccak_f1600_round *)
  eor3_16b v26 v26 v19 v24;                (* 384 keccak_f1600_round *)
  rax1_2d v25 v30 v28;                     (* 384 keccak_f1600_round *)
  rax1_2d v28 v28 v26;                     (* 384 keccak_f1600_round *)
  rax1_2d v26 v26 v29;                     (* 384 keccak_f1600_round *)
  rax1_2d v29 v29 v27;                     (* 384 keccak_f1600_round *)
  rax1_2d v27 v27 v30;                     (* 384 keccak_f1600_round *)
  eor_16b v30 v0 v26;                      (* 384 keccak_f1600_round *)
  xar_2d v0 v2 v29 2;                      (* 384 keccak_f1600_round *)
  xar_2d v2 v12 v29 21;                    (* 384 keccak_f1600_round *)
  xar_2d v12 v13 v28 39;                   (* 384 keccak_f1600_round *)
  xar_2d v13 v19 v27 56;                   (* 384 keccak_f1600_round *)
  xar_2d v19 v23 v28 8;                    (* 384 keccak_f1600_round *)
  xar_2d v23 v15 v26 23;                   (* 384 keccak_f1600_round *)
  xar_2d v15 v1 v25 63;                    (* 384 keccak_f1600_round *)
  xar_2d v1 v8 v28 9;                      (* 384 keccak_f1600_round *)
  xar_2d v8 v16 v25 19;                    (* 384 keccak_f1600_round *)
  xar_2d v16 v7 v29 58;                    (* 384 keccak_f1600_round *)
  xar_2d v7 v10 v26 61;                    (* 384 keccak_f1600_round *)
  xar_2d v10 v3 v28 36;                    (* 384 keccak_f1600_round *)
  xar_2d v3 v18 v28 43;                    (* 384 keccak_f1600_round *)
  xar_2d v18 v17 v29 49;                   (* 384 keccak_f1600_round *)
  xar_2d v17 v11 v25 54;                   (* 384 keccak_f1600_round *)
  xar_2d v11 v9 v27 44;                    (* 384 keccak_f1600_round *)
  xar_2d v9 v22 v29 3;                     (* 384 keccak_f1600_round *)
  xar_2d v22 v14 v27 25;                   (* 384 keccak_f1600_round *)
  xar_2d v14 v20 v26 46;                   (* 384 keccak_f1600_round *)
  xar_2d v20 v4 v27 37;                    (* 384 keccak_f1600_round *)
  xar_2d v4 v24 v27 50;                    (* 384 keccak_f1600_round *)
  xar_2d v24 v21 v25 62;                   (* 384 keccak_f1600_round *)
  xar_2d v21 v5 v26 28;                    (* 384 keccak_f1600_round *)
  xar_2d v27 v6 v25 20;                    (* 384 keccak_f1600_round *)
  ld1r_2d v31 x1 (Post 8);                 (* 384 keccak_f1600_round *)
  bcax_16b v5 v10 v7 v11;                  (* 384 keccak_f1600_round *)
  bcax_16b v6 v11 v8 v7;                   (* 384 keccak_f1600_round *)
  bcax_16b v7 v7 v9 v8;                    (* 384 keccak_f1600_round *)
  bcax_16b v8 v8 v10 v9;                   (* 384 keccak_f1600_round *)
  bcax_16b v9 v9 v11 v10;                  (* 384 keccak_f1600_round *)
  bcax_16b v10 v15 v12 v16;                (* 384 keccak_f1600_round *)
  bcax_16b v11 v16 v13 v12;                (* 384 keccak_f1600_round *)
  bcax_16b v12 v12 v14 v13;                (* 384 keccak_f1600_round *)
  bcax_16b v13 v13 v15 v14;                (* 384 keccak_f1600_round *)
  bcax_16b v14 v14 v16 v15;                (* 384 keccak_f1600_round *)
  bcax_16b v15 v20 v17 v21;                (* 384 keccak_f1600_round *)
  bcax_16b v16 v21 v18 v17;                (* 384 keccak_f1600_round *)
  bcax_16b v17 v17 v19 v18;                (* 384 keccak_f1600_round *)
  bcax_16b v18 v18 v20 v19;                (* 384 keccak_f1600_round *)
  bcax_16b v19 v19 v21 v20;                (* 384 keccak_f1600_round *)
  bcax_16b v20 v0 v22 v1;                  (* 384 keccak_f1600_round *)
  bcax_16b v21 v1 v23 v22;                 (* 384 keccak_f1600_round *)
  bcax_16b v22 v22 v24 v23;                (* 384 keccak_f1600_round *)
  bcax_16b v23 v23 v0 v24;                 (* 384 keccak_f1600_round *)
  bcax_16b v24 v24 v1 v0;                  (* 384 keccak_f1600_round *)
  bcax_16b v0 v30 v2 v27;                  (* 384 keccak_f1600_round *)
  bcax_16b v1 v27 v3 v2;                   (* 384 keccak_f1600_round *)
  bcax_16b v2 v2 v4 v3;                    (* 384 keccak_f1600_round *)
  bcax_16b v3 v3 v30 v4;                   (* 384 keccak_f1600_round *)
  bcax_16b v4 v4 v27 v30;                  (* 384 keccak_f1600_round *)
  eor_16b v0 v0 v31;                       (* 384 keccak_f1600_round *)
  sub_imm x2 x2 1                          (* 385 *)
].

(** fips202/native/aarch64/keccak_f1600_x2_v84a_asm_clean.S:388-390 *)
Definition keccak_f1600_x2_v84a_asm_clean_2 : list instr := [
  st2_d v0 v1 0 x0 (Post 16);              (* 388 store_input *)
  st2_d v2 v3 0 x0 (Post 16);              (* 388 store_input *)
  st2_d v4 v5 0 x0 (Post 16);              (* 388 store_input *)
  st2_d v6 v7 0 x0 (Post 16);              (* 388 store_input *)
  st2_d v8 v9 0 x0 (Post 16);              (* 388 store_input *)
  st2_d v10 v11 0 x0 (Post 16);            (* 388 store_input *)
  st2_d v12 v13 0 x0 (Post 16);            (* 388 store_input *)
  st2_d v14 v15 0 x0 (Post 16);            (* 388 store_input *)
  st2_d v16 v17 0 x0 (Post 16);            (* 388 store_input *)
  st2_d v18 v19 0 x0 (Post 16);            (* 388 store_input *)
  st2_d v20 v21 0 x0 (Post 16);            (* 388 store_input *)
  st2_d v22 v23 0 x0 (Post 16);            (* 388 store_input *)
  st1_d v24 0 x0 (Post 8);                 (* 388 store_input *)
  st2_d v0 v1 1 x0 (Post 16);              (* 388 store_input *)
  st2_d v2 v3 1 x0 (Post 16);              (* 388 store_input *)
  st2_d v4 v5 1 x0 (Post 16);              (* 388 store_input *)
  st2_d v6 v7 1 x0 (Post 16);              (* 388 store_input *)
  st2_d v8 v9 1 x0 (Post 16);              (* 388 store_input *)
  st2_d v10 v11 1 x0 (Post 16);            (* 388 store_input *)
  st2_d v12 v13 1 x0 (Post 16);            (* 388 store_input *)
  st2_d v14 v15 1 x0 (Post 16);            (* 388 store_input *)
  st2_d v16 v17 1 x0 (Post 16);            (* 388 store_input *)
  st2_d v18 v19 1 x0 (Post 16);            (* 388 store_input *)
  st2_d v20 v21 1 x0 (Post 16);            (* 388 store_input *)
  st2_d v22 v23 1 x0 (Post 16);            (* 388 store_input *)
  st1_d v24 1 x0 (Post 8);                 (* 388 store_input *)
  ldp_d v8 v9 sp 0;                        (* 389 restore_vregs *)
  ldp_d v10 v11 sp 16;                     (* 389 restore_vregs *)
  ldp_d v12 v13 sp 32;                     (* 389 restore_vregs *)
  ldp_d v14 v15 sp 48;                     (* 389 restore_vregs *)
  add_imm sp sp 160                        (* 390 free_stack *)
].

(** fips202/native/aarch64/keccak_f1600_x2_v84a_asm_clean.S:377-391 keccak_f1600_x2_v84a_asm_clean *)
Definition keccak_f1600_x2_v84a_asm_clean : list block := [
  (keccak_f1600_x2_v84a_asm_clean_0, Next);
  (keccak_f1600_x2_v84a_asm_clean_1, Cbnz x2 1);
  (keccak_f1600_x2_v84a_asm_clean_2, Ret)].

(** fips202/native/aarch64/keccak_f1600_x2_v8a_v84a_asm_hybrid.S:52-76 round_constants *)
Definition keccak_f1600_x2_v8a_v84a_asm_hybrid_constants : list Z := [
  0x1; 0x8082; 0x800000000000808a;
  0x8000000080008000; 0x808b; 0x80000001;
  0x8000000080008081; 0x8000000000008009; 0x8a;
  0x88; 0x80008009; 0x8000000a;
  0x8000808b; 0x800000000000008b; 0x8000000000008089;
  0x8000000000008003; 0x8000000000008002; 0x8000000000000080;
  0x800a; 0x800000008000000a; 0x8000000080008081;
  0x8000000000008080; 0x80000001; 0x8000000080008008].

(** fips202/native/aarch64/keccak_f1600_x2_v8a_v84a_asm_hybrid.S:418-424 *)
Definition keccak_f1600_x2_v8a_v84a_asm_hybrid_0 : list instr := [
  sub_imm sp sp 160;                       (* 418 alloc_stack *)
  stp x19 x20 sp 64;                       (* 419 save_gprs *)
  stp x21 x22 sp 80;                       (* 419 save_gprs *)
  stp x23 x24 sp 96;                       (* 419 save_gprs *)
  stp x25 x26 sp 112;                      (* 419 save_gprs *)
  stp x27 x28 sp 128;                      (* 419 save_gprs *)
  stp x29 x30 sp 144;                      (* 419 save_gprs *)
  stp_d v8 v9 sp 0;                        (* 420 save_vregs *)
  stp_d v10 v11 sp 16;                     (* 420 save_vregs *)
  stp_d v12 v13 sp 32;                     (* 420 save_vregs *)
  stp_d v14 v15 sp 48;                     (* 420 save_vregs *)
  adr x1 2;                                (* 421 *)
  ld2_d v0 v1 0 x0 (Post 16);              (* 422 load_input *)
  ld2_d v2 v3 0 x0 (Post 16);              (* 422 load_input *)
  ld2_d v4 v5 0 x0 (Post 16);              (* 422 load_input *)
  ld2_d v6 v7 0 x0 (Post 16);              (* 422 load_input *)
  ld2_d v8 v9 0 x0 (Post 16);              (* 422 load_input *)
  ld2_d v10 v11 0 x0 (Post 16);            (* 422 load_input *)
  ld2_d v12 v13 0 x0 (Post 16);            (* 422 load_input *)
  ld2_d v14 v15 0 x0 (Post 16);            (* 422 load_input *)
  ld2_d v16 v17 0 x0 (Post 16);            (* 422 load_input *)
  ld2_d v18 v19 0 x0 (Post 16);            (* 422 load_input *)
  ld2_d v20 v21 0 x0 (Post 16);            (* 422 load_input *)
  ld2_d v22 v23 0 x0 (Post 16);            (* 422 load_input *)
  ld1_d v24 0 x0 (Post 8);                 (* 422 load_input *)
  ld2_d v0 v1 1 x0 (Post 16);              (* 422 load_input *)
  ld2_d v2 v3 1 x0 (Post 16);              (* 422 load_input *)
  ld2_d v4 v5 1 x0 (Post 16);              (* 422 load_input *)
  ld2_d v6 v7 1 x0 (Post 16);              (* 422 load_input *)
  ld2_d v8 v9 1 x0 (Post 16);              (* 422 load_input *)
  ld2_d v10 v11 1 x0 (Post 16);            (* 422 load_input *)
  ld2_d v12 v13 1 x0 (Post 16);            (* 422 load_input *)
  ld2_d v14 v15 1 x0 (Post 16);            (* 422 load_input *)
  ld2_d v16 v17 1 x0 (Post 16);            (* 422 load_input *)
  ld2_d v18 v19 1 x0 (Post 16);            (* 422 load_input *)
  ld2_d v20 v21 1 x0 (Post 16);            (* 422 load_input *)
  ld2_d v22 v23 1 x0 (Post 16);            (* 422 load_input *)
  ld1_d v24 1 x0 (Post 8);                 (* 422 load_input *)
  sub_imm x0 x0 400;                       (* 422 load_input *)
  mov_imm x2 24                            (* 424 *)
].

(** fips202/native/aarch64/keccak_f1600_x2_v8a_v84a_asm_hybrid.S:427-428, loop: *)
Definition keccak_f1600_x2_v8a_v84a_asm_hybrid_1 : list instr := [
  eor_16b v30 v0 v5;                       (* 427 hybrid_round *)
  eor_16b v30 v30 v10;                     (* 427 hybrid_round *)
  eor3_16b v30 v30 v15 v20;                (* 427 hybrid_round *)
  eor_16b v29 v1 v6;                       (* 427 hybrid_round *)
  eor_16b v29 v29 v11;                     (* 427 hybrid_round *)
  eor3_16b v29 v29 v16 v21;                (* 427 hybrid_round *)
  eor_16b v28 v2 v7;                       (* 427 hybrid_round *)
  eor_16b v28 v28 v12;                     (* 427 hybrid_round *)
  eor3_16b v28 v28 v17 v22;                (* 427 hybrid_round *)
  eor_16b v27 v3 v8;                       (* 427 hybrid_round *)
  eor_16b v27 v27 v13;                     (* 427 hybrid_round *)
  eor3_16b v27 v27 v18 v23;                (* 427 hybrid_round *)
  eor_16b v26 v4 v9;                       (* 427 hybrid_round *)
  eor_16b v26 v26 v14;                     (* 427 hybrid_round *)
  eor3_16b v26 v26 v19 v24;                (* 427 hybrid_round *)
  add_2d v31 v28 v28;                      (* 427 hybrid_round *)
  sri_2d v31 v28 63;                       (* 427 hybrid_round *)
  eor_16b v25 v31 v30;                     (* 427 hybrid_round *)
  rax1_2d v28 v28 v26;                     (* 427 hybrid_round *)
  add_2d v31 v29 v29;                      (* 427 hybrid_round *)
  sri_2d v31 v29 63;                       (* 427 hybrid_round *)
  eor_16b v26 v31 v26;                     (* 427 hybrid_round *)
  rax1_2d v29 v29 v27;                     (* 427 hybrid_round *)
  add_2d v31 v30 v30;                      (* 427 hybrid_round *)
  sri_2d v31 v30 63;                       (* 427 hybrid_round *)
  eor_16b v27 v31 v27;                     (* 427 hybrid_round *)
  eor_16b v30 v0 v26;                      (* 427 hybrid_round *)
  xar_2d v0 v2 v29 2;                      (* 427 hybrid_round *)
  eor_16b v31 v12 v29;                     (* 427 hybrid_round *)
  shl_2d v2 v31 43;                        (* 427 hybrid_round *)
  sri_2d v2 v31 21;                        (* 427 hybrid_round *)
  xar_2d v12 v13 v28 39;                   (* 427 hybrid_round *)
  eor_16b v31 v19 v27;                     (* 427 hybrid_round *)
  shl_2d v13 v31 8;                        (* 427 hybrid_round *)
  sri_2d v13 v31 56;                       (* 427 hybrid_round *)
  xar_2d v19 v23 v28 8;                    (* 427 hybrid_round *)
  eor_16b v31 v15 v26;                     (* 427 hybrid_round *)
  shl_2d v23 v31 41;                       (* 427 hybrid_round *)
  sri_2d v23 v31 23;                       (* 427 hybrid_round *)
  xar_2d v15 v1 v25 63;                    (* 427 hybrid_round *)
  eor_16b v31 v8 v28;                      (* 427 hybrid_round *)
  shl_2d v1 v31 55;                        (* 427 hybrid_round *)
  sri_2d v1 v31 9;                         (* 427 hybrid_round *)
  xar_2d v8 v16 v25 19;                    (* 427 hybrid_round *)
  eor_16b v31 v7 v29;                      (* 427 hybrid_round *)
  shl_2d v16 v31 6;                        (* 427 hybrid_round *)
  sri_2d v16 v31 58;                       (* 427 hybrid_round *)
  xar_2d v7 v10 v26 61;                    (* 427 hybrid_round *)
  eor_16b v31 v3 v28;                      (* 427 hybrid_round *)
  shl_2d v10 v31 28;                       (* 427 hybrid_round *)
  sri_2d v10 v31 36;                       (* 427 hybrid_round *)
  xar_2d v3 v18 v28 43;                    (* 427 hybrid_round *)
  eor_16b v31 v17 v29;                     (* 427 hybrid_round *)
  shl_2d v18 v31 15;                       (* 427 hybrid_round *)
  sri_2d v18 v31 49;                       (* 427 hybrid_round *)
  xar_2d v17 v11 v25 54;                   (* 427 hybrid_round *)
  eor_16b v31 v9 v27;                      (* 427 hybrid_round *)
  shl_2d v11 v31 20;                       (* 427 hybrid_round *)
  sri_2d v11 v31 44;                       (* 427 hybrid_round *)
  xar_2d v9 v22 v29 3;                     (* 427 hybrid_round *)
  eor_16b v31 v14 v27;                     (* 427 hybrid_round *)
  shl_2d v22 v31 39;                       (* 427 hybrid_round *)
  sri_2d v22 v31 25;                       (* 427 hybrid_round *)
  xar_2d v14 v20 v26 46;                   (* 427 hybrid_round *)
  eor_16b v31 v4 v27;                      (* 427 hybrid_round *)
  shl_2d v20 v31 27;                       (* 427 hybrid_round *)
  sri_2d v20 v31 37;                       (* 427 hybrid_round *)
  xar_2d v4 v24 v27 50;                    (* 427 hybrid_round *)
  eor_16b v31 v21 v25;                     (* 427 hybrid_round *)
  shl_2d v24 v31 2;                        (* 427 hybrid_round *)
  sri_2d v24 v31 62;                       (* 427 hybrid_round *)
  xar_2d v21 v5 v26 28;                    (* 427 hybrid_round *)
  eor_16b v31 v6 v25;                      (* 427 hybrid_round *)
  shl_2d v27 v31 44;                       (* 427 hybrid_round *)
  sri_2d v27 v31 20;                       (* 427 hybrid_round *)
  ld1r_2d v28 x1 (Post 8);                 (* 427 hybrid_round *)
  bcax_16b v5 v10 v7 v11;                  (* 427 hybrid_round *)
  bic_16b v31 v8 v7;                       (* 427 hybrid_round *)
  eor_16b v6 v31 v11;                      (* 427 hybrid_round *)
  bcax_16b v7 v7 v9 v8;                    (* 427 hybrid_round *)
  bic_16b v31 v10 v9;                      (* 427 hybrid_round *)
  eor_16b v8 v31 v8;                       (* 427 hybrid_round *)
  bcax_16b v9 v9 v11 v10;                  (* 427 hybrid_round *)
  bic_16b v31 v12 v16;                     (* 427 hybrid_round *)
  eor_16b v10 v31 v15;                     (* 427 hybrid_round *)
  bcax_16b v11 v16 v13 v12;                (* 427 hybrid_round *)
  bic_16b v31 v14 v13;                     (* 427 hybrid_round *)
  eor_16b v12 v31 v12;                     (* 427 hybrid_round *)
  bcax_16b v13 v13 v15 v14;                (* 427 hybrid_round *)
  bic_16b v31 v16 v15;                     (* 427 hybrid_round *)
  eor_16b v14 v31 v14;                     (* 427 hybrid_round *)
  bcax_16b v15 v20 v17 v21;                (* 427 hybrid_round *)
  bic_16b v31 v18 v17;                     (* 427 hybrid_round *)
  eor_16b v16 v31 v21;                     (* 427 hybrid_round *)
  bcax_16b v17 v17 v19 v18;                (* 427 hybrid_round *)
  bic_16b v31 v20 v19;                     (* 427 hybrid_round *)
  eor_16b v18 v31 v18;                     (* 427 hybrid_round *)
  bcax_16b v19 v19 v21 v20;                (* 427 hybrid_round *)
  bic_16b v31 v22 v1;                      (* 427 hybrid_round *)
  eor_16b v20 v31 v0;                      (* 427 hybrid_round *)
  bcax_16b v21 v1 v23 v22;                 (* 427 hybrid_round *)
  bic_16b v31 v24 v23;                     (* 427 hybrid_round *)
  eor_16b v22 v31 v22;                     (* 427 hybrid_round *)
  bcax_16b v23 v23 v0 v24;                 (* 427 hybrid_round *)
  bic_16b v31 v1 v0;                       (* 427 hybrid_round *)
  eor_16b v24 v31 v24;                     (* 427 hybrid_round *)
  bcax_16b v0 v30 v2 v27;                  (* 427 hybrid_round *)
  bic_16b v31 v3 v2;                       (* 427 hybrid_round *)
  eor_16b v1 v31 v27;                      (* 427 hybrid_round *)
  bcax_16b v2 v2 v4 v3;                    (* 427 hybrid_round *)
  bic_16b v31 v30 v4;                      (* 427 hybrid_round *)
  eor_16b v3 v31 v3;                       (* 427 hybrid_round *)
  bcax_16b v4 v4 v27 v30;                  (* 427 hybrid_round *)
  eor_16b v0 v0 v28;                       (* 427 hybrid_round *)
  sub_imm x2 x2 1                          (* 428 *)
].

(** fips202/native/aarch64/keccak_f1600_x2_v8a_v84a_asm_hybrid.S:431-434 *)
Definition keccak_f1600_x2_v8a_v84a_asm_hybrid_2 : list instr := [
  st2_d v0 v1 0 x0 (Post 16);              (* 431 store_input *)
  st2_d v2 v3 0 x0 (Post 16);              (* 431 store_input *)
  st2_d v4 v5 0 x0 (Post 16);              (* 431 store_input *)
  st2_d v6 v7 0 x0 (Post 16);              (* 431 store_input *)
  st2_d v8 v9 0 x0 (Post 16);              (* 431 store_input *)
  st2_d v10 v11 0 x0 (Post 16);            (* 431 store_input *)
  st2_d v12 v13 0 x0 (Post 16);            (* 431 store_input *)
  st2_d v14 v15 0 x0 (Post 16);            (* 431 store_input *)
  st2_d v16 v17 0 x0 (Post 16);            (* 431 store_input *)
  st2_d v18 v19 0 x0 (Post 16);            (* 431 store_input *)
  st2_d v20 v21 0 x0 (Post 16);            (* 431 store_input *)
  st2_d v22 v23 0 x0 (Post 16);            (* 431 store_input *)
  st1_d v24 0 x0 (Post 8);                 (* 431 store_input *)
  st2_d v0 v1 1 x0 (Post 16);              (* 431 store_input *)
  st2_d v2 v3 1 x0 (Post 16);              (* 431 store_input *)
  st2_d v4 v5 1 x0 (Post 16);              (* 431 store_input *)
  st2_d v6 v7 1 x0 (Post 16);              (* 431 store_input *)
  st2_d v8 v9 1 x0 (Post 16);              (* 431 store_input *)
  st2_d v10 v11 1 x0 (Post 16);            (* 431 store_input *)
  st2_d v12 v13 1 x0 (Post 16);            (* 431 store_input *)
  st2_d v14 v15 1 x0 (Post 16);            (* 431 store_input *)
  st2_d v16 v17 1 x0 (Post 16);            (* 431 store_input *)
  st2_d v18 v19 1 x0 (Post 16);            (* 431 store_input *)
  st2_d v20 v21 1 x0 (Post 16);            (* 431 store_input *)
  st2_d v22 v23 1 x0 (Post 16);            (* 431 store_input *)
  st1_d v24 1 x0 (Post 8);                 (* 431 store_input *)
  ldp_d v8 v9 sp 0;                        (* 432 restore_vregs *)
  ldp_d v10 v11 sp 16;                     (* 432 restore_vregs *)
  ldp_d v12 v13 sp 32;                     (* 432 restore_vregs *)
  ldp_d v14 v15 sp 48;                     (* 432 restore_vregs *)
  ldp x19 x20 sp 64;                       (* 433 restore_gprs *)
  ldp x21 x22 sp 80;                       (* 433 restore_gprs *)
  ldp x23 x24 sp 96;                       (* 433 restore_gprs *)
  ldp x25 x26 sp 112;                      (* 433 restore_gprs *)
  ldp x27 x28 sp 128;                      (* 433 restore_gprs *)
  ldp x29 x30 sp 144;                      (* 433 restore_gprs *)
  add_imm sp sp 160                        (* 434 free_stack *)
].

(** fips202/native/aarch64/keccak_f1600_x2_v8a_v84a_asm_hybrid.S:418-435 keccak_f1600_x2_v8a_v84a_asm_hybrid *)
Definition keccak_f1600_x2_v8a_v84a_asm_hybrid : list block := [
  (keccak_f1600_x2_v8a_v84a_asm_hybrid_0, Next);
  (keccak_f1600_x2_v8a_v84a_asm_hybrid_1, Cbnz x2 1);
  (keccak_f1600_x2_v8a_v84a_asm_hybrid_2, Ret)].

(** fips202/native/aarch64/keccak_f1600_x4_v8a_scalar_hybrid_asm_opt.S:43-67 round_constants *)
Definition keccak_f1600_x4_scalar_v8a_asm_hybrid_opt_constants : list Z := [
  0x1; 0x8082; 0x800000000000808a;
  0x8000000080008000; 0x808b; 0x80000001;
  0x8000000080008081; 0x8000000000008009; 0x8a;
  0x88; 0x80008009; 0x8000000a;
  0x8000808b; 0x800000000000008b; 0x8000000000008089;
  0x8000000000008003; 0x8000000000008002; 0x8000000000000080;
  0x800a; 0x800000008000000a; 0x8000000080008081;
  0x8000000000008080; 0x80000001; 0x8000000080008008].

(** fips202/native/aarch64/keccak_f1600_x4_v8a_scalar_hybrid_asm_opt.S:899-912 *)
Definition keccak_f1600_x4_scalar_v8a_asm_hybrid_opt_0 : list instr := [
  sub_imm sp sp 224;                       (* 899 alloc_stack *)
  stp x19 x20 sp 48;                       (* 900 save_gprs *)
  stp x21 x22 sp 64;                       (* 900 save_gprs *)
  stp x23 x24 sp 80;                       (* 900 save_gprs *)
  stp x25 x26 sp 96;                       (* 900 save_gprs *)
  stp x27 x28 sp 112;                      (* 900 save_gprs *)
  stp x29 x30 sp 128;                      (* 900 save_gprs *)
  stp_d v8 v9 sp 144;                      (* 901 save_vregs *)
  stp_d v10 v11 sp 160;                    (* 901 save_vregs *)
  stp_d v12 v13 sp 176;                    (* 901 save_vregs *)
  stp_d v14 v15 sp 192;                    (* 901 save_vregs *)
  adr x29 2;                               (* 903 *)
  mov_imm x30 0;                           (* 905 *)
  str x30 sp 32;                           (* 906 *)
  str x29 sp 8;                            (* 907 *)
  str x29 sp 16;                           (* 908 *)
  str x0 sp 0;                             (* 909 *)
  ld2_d v0 v1 0 x0 (Post 16);              (* 911 load_input_vector *)
  ld2_d v2 v3 0 x0 (Post 16);              (* 911 load_input_vector *)
  ld2_d v4 v5 0 x0 (Post 16);              (* 911 load_input_vector *)
  ld2_d v6 v7 0 x0 (Post 16);              (* 911 load_input_vector *)
  ld2_d v8 v9 0 x0 (Post 16);              (* 911 load_input_vector *)
  ld2_d v10 v11 0 x0 (Post 16);            (* 911 load_input_vector *)
  ld2_d v12 v13 0 x0 (Post 16);            (* 911 load_input_vector *)
  ld2_d v14 v15 0 x0 (Post 16);            (* 911 load_input_vector *)
  ld2_d v16 v17 0 x0 (Post 16);            (* 911 load_input_vector *)
  ld2_d v18 v19 0 x0 (Post 16);            (* 911 load_input_vector *)
  ld2_d v20 v21 0 x0 (Post 16);            (* 911 load_input_vector *)
  ld2_d v22 v23 0 x0 (Post 16);            (* 911 load_input_vector *)
  ld1_d v24 0 x0 (Post 8);                 (* 911 load_input_vector *)
  ld2_d v0 v1 1 x0 (Post 16);              (* 911 load_input_vector *)
  ld2_d v2 v3 1 x0 (Post 16);              (* 911 load_input_vector *)
  ld2_d v4 v5 1 x0 (Post 16);              (* 911 load_input_vector *)
  ld2_d v6 v7 1 x0 (Post 16);              (* 911 load_input_vector *)
  ld2_d v8 v9 1 x0 (Post 16);              (* 911 load_input_vector *)
  ld2_d v10 v11 1 x0 (Post 16);            (* 911 load_input_vector *)
  ld2_d v12 v13 1 x0 (Post 16);            (* 911 load_input_vector *)
  ld2_d v14 v15 1 x0 (Post 16);            (* 911 load_input_vector *)
  ld2_d v16 v17 1 x0 (Post 16);            (* 911 load_input_vector *)
  ld2_d v18 v19 1 x0 (Post 16);            (* 911 load_input_vector *)
  ld2_d v20 v21 1 x0 (Post 16);            (* 911 load_input_vector *)
  ld2_d v22 v23 1 x0 (Post 16);            (* 911 load_input_vector *)
  ld1_d v24 1 x0 (Post 8);                 (* 911 load_input_vector *)
  sub_imm x0 x0 400;                       (* 911 load_input_vector *)
  add_imm x0 x0 400;                       (* 912 load_input_scalar *)
  ldp x1 x6 x0 0;                          (* 912 load_input_scalar *)
  ldp x11 x16 x0 16;                       (* 912 load_input_scalar *)
  ldp x21 x2 x0 32;                        (* 912 load_input_scalar *)
  ldp x7 x12 x0 48;                        (* 912 load_input_scalar *)
  ldp x17 x22 x0 64;                       (* 912 load_input_scalar *)
  ldp x3 x8 x0 80;                         (* 912 load_input_scalar *)
  ldp x13 x28 x0 96;                       (* 912 load_input_scalar *)
  ldp x23 x4 x0 112;                       (* 912 load_input_scalar *)
  ldp x9 x14 x0 128;                       (* 912 load_input_scalar *)
  ldp x19 x24 x0 144;                      (* 912 load_input_scalar *)
  ldp x5 x10 x0 160;                       (* 912 load_input_scalar *)
  ldp x15 x20 x0 176;                      (* 912 load_input_scalar *)
  ldr x25 x0 192;                          (* 912 load_input_scalar *)
  sub_imm x0 x0 400                        (* 912 load_input_scalar *)
].

(** fips202/native/aarch64/keccak_f1600_x4_v8a_scalar_hybrid_asm_opt.S:915-917, initial: *)
Definition keccak_f1600_x4_scalar_v8a_asm_hybrid_opt_1 : list instr := [
  eor x30 x24 x25 0;                       (* 915 scalar_round_initial *)
  eor x27 x9 x10 0;                        (* 915 scalar_round_initial *)
  eor x0 x30 x21 0;                        (* 915 scalar_round_initial *)
  eor x26 x27 x6 0;                        (* 915 scalar_round_initial *)
  eor x27 x26 x7 0;                        (* 915 scalar_round_initial *)
  eor x29 x0 x22 0;                        (* 915 scalar_round_initial *)
  eor x26 x29 x23 0;                       (* 915 scalar_round_initial *)
  eor x29 x4 x5 0;                         (* 915 scalar_round_initial *)
  eor x30 x29 x1 0;                        (* 915 scalar_round_initial *)
  eor x0 x27 x8 0;                         (* 915 scalar_round_initial *)
  eor x29 x30 x2 0;                        (* 915 scalar_round_initial *)
  eor x30 x19 x20 0;                       (* 915 scalar_round_initial *)
  eor x30 x30 x16 0;                       (* 915 scalar_round_initial *)
  eor x27 x26 x0 63;                       (* 915 scalar_round_initial *)
  eor x4 x4 x27 0;                         (* 915 scalar_round_initial *)
  eor x30 x30 x17 0;                       (* 915 scalar_round_initial *)
  eor x30 x30 x28 0;                       (* 915 scalar_round_initial *)
  eor x29 x29 x3 0;                        (* 915 scalar_round_initial *)
  eor x0 x0 x30 63;                        (* 915 scalar_round_initial *)
  eor x30 x30 x29 63;                      (* 915 scalar_round_initial *)
  eor x22 x22 x30 0;                       (* 915 scalar_round_initial *)
  eor x23 x23 x30 0;                       (* 915 scalar_round_initial *)
  str x23 sp 208;                          (* 915 scalar_round_initial *)
  eor x23 x14 x15 0;                       (* 915 scalar_round_initial *)
  eor x14 x14 x0 0;                        (* 915 scalar_round_initial *)
  eor x23 x23 x11 0;                       (* 915 scalar_round_initial *)
  eor x15 x15 x0 0;                        (* 915 scalar_round_initial *)
  eor x1 x1 x27 0;                         (* 915 scalar_round_initial *)
  eor x23 x23 x12 0;                       (* 915 scalar_round_initial *)
  eor x23 x23 x13 0;                       (* 915 scalar_round_initial *)
  eor x11 x11 x0 0;                        (* 915 scalar_round_initial *)
  eor x29 x29 x23 63;                      (* 915 scalar_round_initial *)
  eor x23 x23 x26 63;                      (* 915 scalar_round_initial *)
  eor x26 x13 x0 0;                        (* 915 scalar_round_initial *)
  eor x13 x28 x23 0;                       (* 915 scalar_round_initial *)
  eor x28 x24 x30 0;                       (* 915 scalar_round_initial *)
  eor x24 x16 x23 0;                       (* 915 scalar_round_initial *)
  eor x16 x21 x30 0;                       (* 915 scalar_round_initial *)
  eor x21 x25 x30 0;                       (* 915 scalar_round_initial *)
  eor x30 x19 x23 0;                       (* 915 scalar_round_initial *)
  eor x19 x20 x23 0;                       (* 915 scalar_round_initial *)
  eor x20 x17 x23 0;                       (* 915 scalar_round_initial *)
  eor x17 x12 x0 0;                        (* 915 scalar_round_initial *)
  eor x0 x2 x27 0;                         (* 915 scalar_round_initial *)
  eor x2 x6 x29 0;                         (* 915 scalar_round_initial *)
  eor x6 x8 x29 0;                         (* 915 scalar_round_initial *)
  bic x8 x28 x13 47;                       (* 915 scalar_round_initial *)
  eor x12 x3 x27 0;                        (* 915 scalar_round_initial *)
  bic x3 x13 x17 19;                       (* 915 scalar_round_initial *)
  eor x5 x5 x27 0;                         (* 915 scalar_round_initial *)
  ldr x27 sp 208;                          (* 915 scalar_round_initial *)
  bic x25 x17 x2 5;                        (* 915 scalar_round_initial *)
  eor x9 x9 x29 0;                         (* 915 scalar_round_initial *)
  eor x23 x25 x5 52;                       (* 915 scalar_round_initial *)
  eor x3 x3 x2 24;                         (* 915 scalar_round_initial *)
  eor x8 x8 x17 2;                         (* 915 scalar_round_initial *)
  eor x17 x10 x29 0;                       (* 915 scalar_round_initial *)
  bic x25 x12 x22 47;                      (* 915 scalar_round_initial *)
  eor x29 x7 x29 0;                        (* 915 scalar_round_initial *)
  bic x10 x4 x27 2;                        (* 915 scalar_round_initial *)
  bic x7 x5 x28 10;                        (* 915 scalar_round_initial *)
  eor x10 x10 x20 50;                      (* 915 scalar_round_initial *)
  eor x13 x7 x13 57;                       (* 915 scalar_round_initial *)
  bic x7 x2 x5 47;                         (* 915 scalar_round_initial *)
  eor x2 x25 x24 39;                       (* 915 scalar_round_initial *)
  bic x25 x20 x11 57;                      (* 915 scalar_round_initial *)
  bic x5 x17 x4 25;                        (* 915 scalar_round_initial *)
  eor x25 x25 x17 53;                      (* 915 scalar_round_initial *)
  bic x17 x11 x17 60;                      (* 915 scalar_round_initial *)
  eor x28 x7 x28 57;                       (* 915 scalar_round_initial *)
  bic x7 x9 x12 42;                        (* 915 scalar_round_initial *)
  eor x7 x7 x22 25;                        (* 915 scalar_round_initial *)
  bic x22 x22 x24 56;                      (* 915 scalar_round_initial *)
  bic x24 x24 x15 31;                      (* 915 scalar_round_initial *)
  eor x22 x22 x15 23;                      (* 915 scalar_round_initial *)
  bic x20 x27 x20 48;                      (* 915 scalar_round_initial *)
  bic x15 x15 x9 16;                       (* 915 scalar_round_initial *)
  eor x12 x15 x12 58;                      (* 915 scalar_round_initial *)
  eor x15 x5 x27 27;                       (* 915 scalar_round_initial *)
  eor x5 x20 x11 41;                       (* 915 scalar_round_initial *)
  ldr x11 sp 8;                            (* 915 scalar_round_initial *)
  eor x20 x17 x4 21;                       (* 915 scalar_round_initial *)
  eor x17 x24 x9 47;                       (* 915 scalar_round_initial *)
  mov_imm x24 1;                           (* 915 scalar_round_initial *)
  bic x9 x0 x16 9;                         (* 915 scalar_round_initial *)
  str x24 sp 24;                           (* 915 scalar_round_initial *)
  bic x24 x29 x1 44;                       (* 915 scalar_round_initial *)
  bic x27 x1 x21 50;                       (* 915 scalar_round_initial *)
  bic x4 x26 x29 63;                       (* 915 scalar_round_initial *)
  eor x1 x1 x4 21;                         (* 915 scalar_round_initial *)
  ldr x11 x11 0;                           (* 915 scalar_round_initial *)
  bic x4 x21 x30 57;                       (* 915 scalar_round_initial *)
  eor x21 x24 x21 30;                      (* 915 scalar_round_initial *)
  eor x24 x9 x19 44;                       (* 915 scalar_round_initial *)
  bic x9 x14 x6 5;                         (* 915 scalar_round_initial *)
  eor x9 x9 x0 43;                         (* 915 scalar_round_initial *)
  bic x0 x6 x0 38;                         (* 915 scalar_round_initial *)
  eor x1 x1 x11 0;                         (* 915 scalar_round_initial *)
  eor x11 x4 x26 35;                       (* 915 scalar_round_initial *)
  eor x4 x0 x16 47;                        (* 915 scalar_round_initial *)
  bic x0 x16 x19 35;                       (* 915 scalar_round_initial *)
  eor x16 x27 x30 43;                      (* 915 scalar_round_initial *)
  bic x27 x30 x26 42;                      (* 915 scalar_round_initial *)
  bic x26 x19 x14 41;                      (* 915 scalar_round_initial *)
  eor x19 x0 x14 12;                       (* 915 scalar_round_initial *)
  eor x14 x26 x6 46;                       (* 915 scalar_round_initial *)
  eor x6 x27 x29 41;                       (* 915 scalar_round_initial *)
  eor x0 x15 x11 52;                       (* 916 scalar_round_noninitial *)
  eor x0 x0 x13 48;                        (* 916 scalar_round_noninitial *)
  eor x26 x8 x9 57;                        (* 916 scalar_round_noninitial *)
  eor x27 x0 x14 10;                       (* 916 scalar_round_noninitial *)
  eor x29 x16 x28 63;                      (* 916 scalar_round_noninitial *)
  eor x26 x26 x6 51;                       (* 916 scalar_round_noninitial *)
  eor x30 x23 x22 50;                      (* 916 scalar_round_noninitial *)
  eor x0 x26 x10 31;                       (* 916 scalar_round_noninitial *)
  eor x29 x29 x19 37;                      (* 916 scalar_round_noninitial *)
  eor x27 x27 x12 5;                       (* 916 scalar_round_noninitial *)
  eor x30 x30 x24 34;                      (* 916 scalar_round_noninitial *)
  eor x0 x0 x7 27;                         (* 916 scalar_round_noninitial *)
  eor x26 x30 x21 26;                      (* 916 scalar_round_noninitial *)
  eor x26 x26 x25 15;                      (* 916 scalar_round_noninitial *)
  ror x30 x27 62;                          (* 916 scalar_round_noninitial *)
  eor x30 x30 x26 57;                      (* 916 scalar_round_noninitial *)
  ror x26 x26 58;                          (* 916 scalar_round_noninitial *)
  eor x16 x30 x16 0;                       (* 916 scalar_round_noninitial *)
  eor x28 x30 x28 63;                      (* 916 scalar_round_noninitial *)
  str x28 sp 208;                          (* 916 scalar_round_noninitial *)
  eor x29 x29 x17 36;                      (* 916 scalar_round_noninitial *)
  eor x28 x1 x2 61;                        (* 916 scalar_round_noninitial *)
  eor x19 x30 x19 37;                      (* 916 scalar_round_noninitial *)
  eor x29 x29 x20 2;                       (* 916 scalar_round_noninitial *)
  eor x28 x28 x4 54;                       (* 916 scalar_round_noninitial *)
  eor x26 x26 x0 55;                       (* 916 scalar_round_noninitial *)
  eor x28 x28 x3 39;                       (* 916 scalar_round_noninitial *)
  eor x28 x28 x5 25;                       (* 916 scalar_round_noninitial *)
  ror x0 x0 56;                            (* 916 scalar_round_noninitial *)
  eor x0 x0 x29 63;                        (* 916 scalar_round_noninitial *)
  eor x27 x28 x27 61;                      (* 916 scalar_round_noninitial *)
  eor x13 x0 x13 46;                       (* 916 scalar_round_noninitial *)
  eor x28 x29 x28 63;                      (* 916 scalar_round_noninitial *)
  eor x29 x30 x20 2;                       (* 916 scalar_round_noninitial *)
  eor x20 x26 x3 39;                       (* 916 scalar_round_noninitial *)
  eor x11 x0 x11 50;                       (* 916 scalar_round_noninitial *)
  eor x25 x28 x25 9;                       (* 916 scalar_round_noninitial *)
  eor x3 x28 x21 20;                       (* 916 scalar_round_noninitial *)
  eor x21 x26 x1 0;                        (* 916 scalar_round_noninitial *)
  eor x9 x27 x9 49;                        (* 916 scalar_round_noninitial *)
  eor x24 x28 x24 28;                      (* 916 scalar_round_noninitial *)
  eor x1 x30 x17 36;                       (* 916 scalar_round_noninitial *)
  eor x14 x0 x14 8;                        (* 916 scalar_round_noninitial *)
  eor x22 x28 x22 44;                      (* 916 scalar_round_noninitial *)
  eor x8 x27 x8 56;                        (* 916 scalar_round_noninitial *)
  eor x17 x27 x7 19;                       (* 916 scalar_round_noninitial *)
  eor x15 x0 x15 62;                       (* 916 scalar_round_noninitial *)
  bic x7 x20 x22 47;                       (* 916 scalar_round_noninitial *)
  eor x4 x26 x4 54;                        (* 916 scalar_round_noninitial *)
  eor x0 x0 x12 3;                         (* 916 scalar_round_noninitial *)
  eor x28 x28 x23 58;                      (* 916 scalar_round_noninitial *)
  eor x23 x26 x2 61;                       (* 916 scalar_round_noninitial *)
  eor x26 x26 x5 25;                       (* 916 scalar_round_noninitial *)
  eor x2 x7 x16 39;                        (* 916 scalar_round_noninitial *)
  bic x7 x9 x20 42;                        (* 916 scalar_round_noninitial *)
  bic x30 x15 x9 16;                       (* 916 scalar_round_noninitial *)
  eor x7 x7 x22 25;                        (* 916 scalar_round_noninitial *)
  eor x12 x30 x20 58;                      (* 916 scalar_round_noninitial *)
  bic x20 x22 x16 56;                      (* 916 scalar_round_noninitial *)
  eor x30 x27 x6 43;                       (* 916 scalar_round_noninitial *)
  eor x22 x20 x15 23;                      (* 916 scalar_round_noninitial *)
  bic x6 x19 x13 42;                       (* 916 scalar_round_noninitial *)
  eor x6 x6 x17 41;                        (* 916 scalar_round_noninitial *)
  bic x5 x13 x17 63;                       (* 916 scalar_round_noninitial *)
  eor x5 x21 x5 21;                        (* 916 scalar_round_noninitial *)
  bic x17 x17 x21 44;                      (* 916 scalar_round_noninitial *)
  eor x27 x27 x10 23;                      (* 916 scalar_round_noninitial *)
  bic x21 x21 x25 50;                      (* 916 scalar_round_noninitial *)
  bic x20 x27 x4 25;                       (* 916 scalar_round_noninitial *)
  bic x10 x16 x15 31;                      (* 916 scalar_round_noninitial *)
  eor x16 x21 x19 43;                      (* 916 scalar_round_noninitial *)
  eor x21 x17 x25 30;                      (* 916 scalar_round_noninitial *)
  bic x19 x25 x19 57;                      (* 916 scalar_round_noninitial *)
  ldr x25 sp 24;                           (* 916 scalar_round_noninitial *)
  eor x17 x10 x9 47;                       (* 916 scalar_round_noninitial *)
  ldr x9 sp 8;                             (* 916 scalar_round_noninitial *)
  eor x15 x20 x28 27;                      (* 916 scalar_round_noninitial *)
  bic x20 x4 x28 2;                        (* 916 scalar_round_noninitial *)
  eor x10 x20 x1 50;                       (* 916 scalar_round_noninitial *)
  bic x20 x11 x27 60;                      (* 916 scalar_round_noninitial *)
  eor x20 x20 x4 21;                       (* 916 scalar_round_noninitial *)
  bic x4 x28 x1 48;                        (* 916 scalar_round_noninitial *)
  bic x1 x1 x11 57;                        (* 916 scalar_round_noninitial *)
  ldr_index x28 x9 x25;                    (* 916 scalar_round_noninitial *)
  ldr x9 sp 208;                           (* 916 scalar_round_noninitial *)
  add_imm x25 x25 1;                       (* 916 scalar_round_noninitial *)
  str x25 sp 24;                           (* 916 scalar_round_noninitial *)
  cmp_imm x25 23;                          (* 916 scalar_round_noninitial *)
  eor x25 x1 x27 53;                       (* 916 scalar_round_noninitial *)
  bic x27 x30 x26 47;                      (* 916 scalar_round_noninitial *)
  eor x1 x5 x28 0;                         (* 916 scalar_round_noninitial *)
  eor x5 x4 x11 41;                        (* 916 scalar_round_noninitial *)
  eor x11 x19 x13 35;                      (* 916 scalar_round_noninitial *)
  bic x13 x26 x24 10;                      (* 916 scalar_round_noninitial *)
  eor x28 x27 x24 57;                      (* 916 scalar_round_noninitial *)
  bic x27 x24 x9 47;                       (* 916 scalar_round_noninitial *)
  bic x19 x23 x3 9;                        (* 916 scalar_round_noninitial *)
  bic x4 x29 x14 41;                       (* 916 scalar_round_noninitial *)
  eor x24 x19 x29 44;                      (* 916 scalar_round_noninitial *)
  bic x29 x3 x29 35;                       (* 916 scalar_round_noninitial *)
  eor x13 x13 x9 57;                       (* 916 scalar_round_noninitial *)
  eor x19 x29 x14 12;                      (* 916 scalar_round_noninitial *)
  bic x29 x9 x0 19;                        (* 916 scalar_round_noninitial *)
  bic x14 x14 x8 5;                        (* 916 scalar_round_noninitial *)
  eor x9 x14 x23 43;                       (* 916 scalar_round_noninitial *)
  eor x14 x4 x8 46;                        (* 916 scalar_round_noninitial *)
  bic x23 x8 x23 38;                       (* 916 scalar_round_noninitial *)
  eor x8 x27 x0 2;                         (* 916 scalar_round_noninitial *)
  eor x4 x23 x3 47;                        (* 916 scalar_round_noninitial *)
  bic x3 x0 x30 5;                         (* 916 scalar_round_noninitial *)
  eor x23 x3 x26 52;                       (* 916 scalar_round_noninitial *)
  eor x3 x29 x30 24;                       (* 916 scalar_round_noninitial *)
  eor_16b v30 v0 v5;                       (* 917 vector_round *)
  eor_16b v30 v30 v10;                     (* 917 vector_round *)
  eor_16b v30 v30 v15;                     (* 917 vector_round *)
  eor_16b v30 v30 v20;                     (* 917 vector_round *)
  eor_16b v29 v1 v6;                       (* 917 vector_round *)
  eor_16b v29 v29 v11;                     (* 917 vector_round *)
  eor_16b v29 v29 v16;                     (* 917 vector_round *)
  eor_16b v29 v29 v21;                     (* 917 vector_round *)
  eor_16b v28 v2 v7;                       (* 917 vector_round *)
  eor_16b v28 v28 v12;                     (* 917 vector_round *)
  eor_16b v28 v28 v17;                     (* 917 vector_round *)
  eor_16b v28 v28 v22;                     (* 917 vector_round *)
  eor_16b v27 v3 v8;                       (* 917 vector_round *)
  eor_16b v27 v27 v13;                     (* 917 vector_round *)
  eor_16b v27 v27 v18;                     (* 917 vector_round *)
  eor_16b v27 v27 v23;                     (* 917 vector_round *)
  eor_16b v26 v4 v9;                       (* 917 vector_round *)
  eor_16b v26 v26 v14;                     (* 917 vector_round *)
  eor_16b v26 v26 v19;                     (* 917 vector_round *)
  eor_16b v26 v26 v24;                     (* 917 vector_round *)
  add_2d v31 v28 v28;                      (* 917 vector_round *)
  sri_2d v31 v28 63;                       (* 917 vector_round *)
  eor_16b v25 v31 v30;                     (* 917 vector_round *)
  add_2d v31 v26 v26;                      (* 917 vector_round *)
  sri_2d v31 v26 63;                       (* 917 vector_round *)
  eor_16b v28 v31 v28;                     (* 917 vector_round *)
  add_2d v31 v29 v29;                      (* 917 vector_round *)
  sri_2d v31 v29 63;                       (* 917 vector_round *)
  eor_16b v26 v31 v26;                     (* 917 vector_round *)
  add_2d v31 v27 v27;                      (* 917 vector_round *)
  sri_2d v31 v27 63;                       (* 917 vector_round *)
  eor_16b v29 v31 v29;                     (* 917 vector_round *)
  add_2d v31 v30 v30;                      (* 917 vector_round *)
  sri_2d v31 v30 63;                       (* 917 vector_round *)
  eor_16b v27 v31 v27;                     (* 917 vector_round *)
  eor_16b v30 v0 v26;                      (* 917 vector_round *)
  eor_16b v31 v2 v29;                      (* 917 vector_round *)
  shl_2d v0 v31 62;                        (* 917 vector_round *)
  sri_2d v0 v31 2;                         (* 917 vector_round *)
  eor_16b v31 v12 v29;                     (* 917 vector_round *)
  shl_2d v2 v31 43;                        (* 917 vector_round *)
  sri_2d v2 v31 21;                        (* 917 vector_round *)
  eor_16b v31 v13 v28;                     (* 917 vector_round *)
  shl_2d v12 v31 25;                       (* 917 vector_round *)
  sri_2d v12 v31 39;                       (* 917 vector_round *)
  eor_16b v31 v19 v27;                     (* 917 vector_round *)
  shl_2d v13 v31 8;                        (* 917 vector_round *)
  sri_2d v13 v31 56;                       (* 917 vector_round *)
  eor_16b v31 v23 v28;                     (* 917 vector_round *)
  shl_2d v19 v31 56;                       (* 917 vector_round *)
  sri_2d v19 v31 8;                        (* 917 vector_round *)
  eor_16b v31 v15 v26;                     (* 917 vector_round *)
  shl_2d v23 v31 41;                       (* 917 vector_round *)
  sri_2d v23 v31 23;                       (* 917 vector_round *)
  eor_16b v31 v1 v25;                      (* 917 vector_round *)
  shl_2d v15 v31 1;                        (* 917 vector_round *)
  sri_2d v15 v31 63;                       (* 917 vector_round *)
  eor_16b v31 v8 v28;                      (* 917 vector_round *)
  shl_2d v1 v31 55;                        (* 917 vector_round *)
  sri_2d v1 v31 9;                         (* 917 vector_round *)
  eor_16b v31 v16 v25;                     (* 917 vector_round *)
  shl_2d v8 v31 45;                        (* 917 vector_round *)
  sri_2d v8 v31 19;                        (* 917 vector_round *)
  eor_16b v31 v7 v29;                      (* 917 vector_round *)
  shl_2d v16 v31 6;                        (* 917 vector_round *)
  sri_2d v16 v31 58;                       (* 917 vector_round *)
  eor_16b v31 v10 v26;                     (* 917 vector_round *)
  shl_2d v7 v31 3;                         (* 917 vector_round *)
  sri_2d v7 v31 61;                        (* 917 vector_round *)
  eor_16b v31 v3 v28;                      (* 917 vector_round *)
  shl_2d v10 v31 28;                       (* 917 vector_round *)
  sri_2d v10 v31 36;                       (* 917 vector_round *)
  eor_16b v31 v18 v28;                     (* 917 vector_round *)
  shl_2d v3 v31 21;                        (* 917 vector_round *)
  sri_2d v3 v31 43;                        (* 917 vector_round *)
  eor_16b v31 v17 v29;                     (* 917 vector_round *)
  shl_2d v18 v31 15;                       (* 917 vector_round *)
  sri_2d v18 v31 49;                       (* 917 vector_round *)
  eor_16b v31 v11 v25;                     (* 917 vector_round *)
  shl_2d v17 v31 10;                       (* 917 vector_round *)
  sri_2d v17 v31 54;                       (* 917 vector_round *)
  eor_16b v31 v9 v27;                      (* 917 vector_round *)
  shl_2d v11 v31 20;                       (* 917 vector_round *)
  sri_2d v11 v31 44;                       (* 917 vector_round *)
  eor_16b v31 v22 v29;                     (* 917 vector_round *)
  shl_2d v9 v31 61;                        (* 917 vector_round *)
  sri_2d v9 v31 3;                         (* 917 vector_round *)
  eor_16b v31 v14 v27;                     (* 917 vector_round *)
  shl_2d v22 v31 39;                       (* 917 vector_round *)
  sri_2d v22 v31 25;                       (* 917 vector_round *)
  eor_16b v31 v20 v26;                     (* 917 vector_round *)
  shl_2d v14 v31 18;                       (* 917 vector_round *)
  sri_2d v14 v31 46;                       (* 917 vector_round *)
  eor_16b v31 v4 v27;                      (* 917 vector_round *)
  shl_2d v20 v31 27;                       (* 917 vector_round *)
  sri_2d v20 v31 37;                       (* 917 vector_round *)
  eor_16b v31 v24 v27;                     (* 917 vector_round *)
  shl_2d v4 v31 14;                        (* 917 vector_round *)
  sri_2d v4 v31 50;                        (* 917 vector_round *)
  eor_16b v31 v21 v25;                     (* 917 vector_round *)
  shl_2d v24 v31 2;                        (* 917 vector_round *)
  sri_2d v24 v31 62;                       (* 917 vector_round *)
  eor_16b v31 v5 v26;                      (* 917 vector_round *)
  shl_2d v21 v31 36;                       (* 917 vector_round *)
  sri_2d v21 v31 28;                       (* 917 vector_round *)
  eor_16b v31 v6 v25;                      (* 917 vector_round *)
  shl_2d v27 v31 44;                       (* 917 vector_round *)
  sri_2d v27 v31 20;                       (* 917 vector_round *)
  ldr x30 sp 16;                           (* 917 vector_round *)
  ld1r_2d v28 x30 (Post 8);                (* 917 vector_round *)
  str x30 sp 16;                           (* 917 vector_round *)
  bic_16b v31 v7 v11;                      (* 917 vector_round *)
  eor_16b v5 v31 v10;                      (* 917 vector_round *)
  bic_16b v31 v8 v7;                       (* 917 vector_round *)
  eor_16b v6 v31 v11;                      (* 917 vector_round *)
  bic_16b v31 v9 v8;                       (* 917 vector_round *)
  eor_16b v7 v31 v7;                       (* 917 vector_round *)
  bic_16b v31 v10 v9;                      (* 917 vector_round *)
  eor_16b v8 v31 v8;                       (* 917 vector_round *)
  bic_16b v31 v11 v10;                     (* 917 vector_round *)
  eor_16b v9 v31 v9;                       (* 917 vector_round *)
  bic_16b v31 v12 v16;                     (* 917 vector_round *)
  eor_16b v10 v31 v15;                     (* 917 vector_round *)
  bic_16b v31 v13 v12;                     (* 917 vector_round *)
  eor_16b v11 v31 v16;                     (* 917 vector_round *)
  bic_16b v31 v14 v13;                     (* 917 vector_round *)
  eor_16b v12 v31 v12;                     (* 917 vector_round *)
  bic_16b v31 v15 v14;                     (* 917 vector_round *)
  eor_16b v13 v31 v13;                     (* 917 vector_round *)
  bic_16b v31 v16 v15;                     (* 917 vector_round *)
  eor_16b v14 v31 v14;                     (* 917 vector_round *)
  bic_16b v31 v17 v21;                     (* 917 vector_round *)
  eor_16b v15 v31 v20;                     (* 917 vector_round *)
  bic_16b v31 v18 v17;                     (* 917 vector_round *)
  eor_16b v16 v31 v21;                     (* 917 vector_round *)
  bic_16b v31 v19 v18;                     (* 917 vector_round *)
  eor_16b v17 v31 v17;                     (* 917 vector_round *)
  bic_16b v31 v20 v19;                     (* 917 vector_round *)
  eor_16b v18 v31 v18;                     (* 917 vector_round *)
  bic_16b v31 v21 v20;                     (* 917 vector_round *)
  eor_16b v19 v31 v19;                     (* 917 vector_round *)
  bic_16b v31 v22 v1;                      (* 917 vector_round *)
  eor_16b v20 v31 v0;                      (* 917 vector_round *)
  bic_16b v31 v23 v22;                     (* 917 vector_round *)
  eor_16b v21 v31 v1;                      (* 917 vector_round *)
  bic_16b v31 v24 v23;                     (* 917 vector_round *)
  eor_16b v22 v31 v22;                     (* 917 vector_round *)
  bic_16b v31 v0 v24;                      (* 917 vector_round *)
  eor_16b v23 v31 v23;                     (* 917 vector_round *)
  bic_16b v31 v1 v0;                       (* 917 vector_round *)
  eor_16b v24 v31 v24;                     (* 917 vector_round *)
  bic_16b v31 v2 v27;                      (* 917 vector_round *)
  eor_16b v0 v31 v30;                      (* 917 vector_round *)
  bic_16b v31 v3 v2;                       (* 917 vector_round *)
  eor_16b v1 v31 v27;                      (* 917 vector_round *)
  bic_16b v31 v4 v3;                       (* 917 vector_round *)
  eor_16b v2 v31 v2;                       (* 917 vector_round *)
  bic_16b v31 v30 v4;                      (* 917 vector_round *)
  eor_16b v3 v31 v3;                       (* 917 vector_round *)
  bic_16b v31 v27 v30;                     (* 917 vector_round *)
  eor_16b v4 v31 v4;                       (* 917 vector_round *)
  eor_16b v0 v0 v28                        (* 917 vector_round *)
].

(** fips202/native/aarch64/keccak_f1600_x4_v8a_scalar_hybrid_asm_opt.S:926-1311, loop: *)
Definition keccak_f1600_x4_scalar_v8a_asm_hybrid_opt_2 : list instr := [
  eor x0 x15 x11 52;                       (* 926 *)
  eor x0 x0 x13 48;                        (* 927 *)
  eor_16b v30 v0 v5;                       (* 928 *)
  eor_16b v30 v30 v10;                     (* 929 *)
  eor x26 x8 x9 57;                        (* 930 *)
  eor_16b v30 v30 v15;                     (* 931 *)
  eor x27 x0 x14 10;                       (* 932 *)
  eor x29 x16 x28 63;                      (* 933 *)
  eor_16b v30 v30 v20;                     (* 934 *)
  eor x26 x26 x6 51;                       (* 935 *)
  eor_16b v29 v1 v6;                       (* 936 *)
  eor x30 x23 x22 50;                      (* 937 *)
  eor_16b v29 v29 v11;                     (* 938 *)
  eor x0 x26 x10 31;                       (* 939 *)
  eor x29 x29 x19 37;                      (* 940 *)
  eor_16b v29 v29 v16;                     (* 941 *)
  eor x27 x27 x12 5;                       (* 942 *)
  eor_16b v29 v29 v21;                     (* 943 *)
  eor x30 x30 x24 34;                      (* 944 *)
  eor x0 x0 x7 27;                         (* 945 *)
  eor_16b v28 v2 v7;                       (* 946 *)
  eor x26 x30 x21 26;                      (* 947 *)
  eor_16b v28 v28 v12;                     (* 948 *)
  eor x26 x26 x25 15;                      (* 949 *)
  eor_16b v28 v28 v17;                     (* 950 *)
  ror x30 x27 62;                          (* 951 *)
  eor x30 x30 x26 57;                      (* 952 *)
  eor_16b v28 v28 v22;                     (* 953 *)
  ror x26 x26 58;                          (* 954 *)
  eor_16b v27 v3 v8;                       (* 955 *)
  eor x16 x30 x16 0;                       (* 956 *)
  eor_16b v27 v27 v13;                     (* 957 *)
  eor x28 x30 x28 63;                      (* 958 *)
  str x28 sp 208;                          (* 959 *)
  eor_16b v27 v27 v18;                     (* 960 *)
  eor x29 x29 x17 36;                      (* 961 *)
  eor_16b v27 v27 v23;                     (* 962 *)
  eor x28 x1 x2 61;                        (* 963 *)
  eor x19 x30 x19 37;                      (* 964 *)
  eor_16b v26 v4 v9;                       (* 965 *)
  eor x29 x29 x20 2;                       (* 966 *)
  eor_16b v26 v26 v14;                     (* 967 *)
  eor x28 x28 x4 54;                       (* 968 *)
  eor_16b v26 v26 v19;                     (* 969 *)
  eor x26 x26 x0 55;                       (* 970 *)
  eor x28 x28 x3 39;                       (* 971 *)
  eor_16b v26 v26 v24;                     (* 972 *)
  eor x28 x28 x5 25;                       (* 973 *)
  add_2d v31 v28 v28;                      (* 974 *)
  ror x0 x0 56;                            (* 975 *)
  eor x0 x0 x29 63;                        (* 976 *)
  sri_2d v31 v28 63;                       (* 977 *)
  eor x27 x28 x27 61;                      (* 978 *)
  eor_16b v25 v31 v30;                     (* 979 *)
  eor x13 x0 x13 46;                       (* 980 *)
  add_2d v31 v26 v26;                      (* 981 *)
  eor x28 x29 x28 63;                      (* 982 *)
  eor x29 x30 x20 2;                       (* 983 *)
  sri_2d v31 v26 63;                       (* 984 *)
  eor x20 x26 x3 39;                       (* 985 *)
  eor_16b v28 v31 v28;                     (* 986 *)
  eor x11 x0 x11 50;                       (* 987 *)
  add_2d v31 v29 v29;                      (* 988 *)
  eor x25 x28 x25 9;                       (* 989 *)
  eor x3 x28 x21 20;                       (* 990 *)
  sri_2d v31 v29 63;                       (* 991 *)
  eor x21 x26 x1 0;                        (* 992 *)
  eor_16b v26 v31 v26;                     (* 993 *)
  eor x9 x27 x9 49;                        (* 994 *)
  eor x24 x28 x24 28;                      (* 995 *)
  add_2d v31 v27 v27;                      (* 996 *)
  eor x1 x30 x17 36;                       (* 997 *)
  sri_2d v31 v27 63;                       (* 998 *)
  eor x14 x0 x14 8;                        (* 999 *)
  eor_16b v29 v31 v29;                     (* 1000 *)
  eor x22 x28 x22 44;                      (* 1001 *)
  eor x8 x27 x8 56;                        (* 1002 *)
  add_2d v31 v30 v30;                      (* 1003 *)
  eor x17 x27 x7 19;                       (* 1004 *)
  sri_2d v31 v30 63;                       (* 1005 *)
  eor x15 x0 x15 62;                       (* 1006 *)
  bic x7 x20 x22 47;                       (* 1007 *)
  eor_16b v27 v31 v27;                     (* 1008 *)
  eor x4 x26 x4 54;                        (* 1009 *)
  eor_16b v30 v0 v26;                      (* 1010 *)
  eor x0 x0 x12 3;                         (* 1011 *)
  eor_16b v31 v2 v29;                      (* 1012 *)
  eor x28 x28 x23 58;                      (* 1013 *)
  eor x23 x26 x2 61;                       (* 1014 *)
  shl_2d v0 v31 62;                        (* 1015 *)
  eor x26 x26 x5 25;                       (* 1016 *)
  sri_2d v0 v31 2;                         (* 1017 *)
  eor x2 x7 x16 39;                        (* 1018 *)
  eor_16b v31 v12 v29;                     (* 1019 *)
  bic x7 x9 x20 42;                        (* 1020 *)
  bic x30 x15 x9 16;                       (* 1021 *)
  shl_2d v2 v31 43;                        (* 1022 *)
  eor x7 x7 x22 25;                        (* 1023 *)
  sri_2d v2 v31 21;                        (* 1024 *)
  eor x12 x30 x20 58;                      (* 1025 *)
  bic x20 x22 x16 56;                      (* 1026 *)
  eor_16b v31 v13 v28;                     (* 1027 *)
  eor x30 x27 x6 43;                       (* 1028 *)
  shl_2d v12 v31 25;                       (* 1029 *)
  eor x22 x20 x15 23;                      (* 1030 *)
  sri_2d v12 v31 39;                       (* 1031 *)
  bic x6 x19 x13 42;                       (* 1032 *)
  eor x6 x6 x17 41;                        (* 1033 *)
  eor_16b v31 v19 v27;                     (* 1034 *)
  bic x5 x13 x17 63;                       (* 1035 *)
  shl_2d v13 v31 8;                        (* 1036 *)
  eor x5 x21 x5 21;                        (* 1037 *)
  sri_2d v13 v31 56;                       (* 1038 *)
  bic x17 x17 x21 44;                      (* 1039 *)
  eor x27 x27 x10 23;                      (* 1040 *)
  eor_16b v31 v23 v28;                     (* 1041 *)
  bic x21 x21 x25 50;                      (* 1042 *)
  shl_2d v19 v31 56;                       (* 1043 *)
  bic x20 x27 x4 25;                       (* 1044 *)
  bic x10 x16 x15 31;                      (* 1045 *)
  sri_2d v19 v31 8;                        (* 1046 *)
  eor x16 x21 x19 43;                      (* 1047 *)
  eor_16b v31 v15 v26;                     (* 1048 *)
  eor x21 x17 x25 30;                      (* 1049 *)
  shl_2d v23 v31 41;                       (* 1050 *)
  bic x19 x25 x19 57;                      (* 1051 *)
  ldr x25 sp 24;                           (* 1052 *)
  sri_2d v23 v31 23;                       (* 1053 *)
  eor x17 x10 x9 47;                       (* 1054 *)
  eor_16b v31 v1 v25;                      (* 1055 *)
  ldr x9 sp 8;                             (* 1056 *)
  eor x15 x20 x28 27;                      (* 1057 *)
  shl_2d v15 v31 1;                        (* 1058 *)
  bic x20 x4 x28 2;                        (* 1059 *)
  sri_2d v15 v31 63;                       (* 1060 *)
  eor x10 x20 x1 50;                       (* 1061 *)
  eor_16b v31 v8 v28;                      (* 1062 *)
  bic x20 x11 x27 60;                      (* 1063 *)
  eor x20 x20 x4 21;                       (* 1064 *)
  shl_2d v1 v31 55;                        (* 1065 *)
  bic x4 x28 x1 48;                        (* 1066 *)
  sri_2d v1 v31 9;                         (* 1067 *)
  bic x1 x1 x11 57;                        (* 1068 *)
  eor_16b v31 v16 v25;                     (* 1069 *)
  ldr_index x28 x9 x25;                    (* 1070 *)
  ldr x9 sp 208;                           (* 1071 *)
  shl_2d v8 v31 45;                        (* 1072 *)
  add_imm x25 x25 1;                       (* 1073 *)
  sri_2d v8 v31 19;                        (* 1074 *)
  str x25 sp 24;                           (* 1075 *)
  cmp_imm x25 23;                          (* 1076 *)
  eor_16b v31 v7 v29;                      (* 1077 *)
  eor x25 x1 x27 53;                       (* 1078 *)
  shl_2d v16 v31 6;                        (* 1079 *)
  bic x27 x30 x26 47;                      (* 1080 *)
  sri_2d v16 v31 58;                       (* 1081 *)
  eor x1 x5 x28 0;                         (* 1082 *)
  eor x5 x4 x11 41;                        (* 1083 *)
  eor_16b v31 v10 v26;                     (* 1084 *)
  eor x11 x19 x13 35;                      (* 1085 *)
  shl_2d v7 v31 3;                         (* 1086 *)
  bic x13 x26 x24 10;                      (* 1087 *)
  eor x28 x27 x24 57;                      (* 1088 *)
  sri_2d v7 v31 61;                        (* 1089 *)
  bic x27 x24 x9 47;                       (* 1090 *)
  eor_16b v31 v3 v28;                      (* 1091 *)
  bic x19 x23 x3 9;                        (* 1092 *)
  shl_2d v10 v31 28;                       (* 1093 *)
  bic x4 x29 x14 41;                       (* 1094 *)
  eor x24 x19 x29 44;                      (* 1095 *)
  sri_2d v10 v31 36;                       (* 1096 *)
  bic x29 x3 x29 35;                       (* 1097 *)
  eor_16b v31 v18 v28;                     (* 1098 *)
  eor x13 x13 x9 57;                       (* 1099 *)
  shl_2d v3 v31 21;                        (* 1100 *)
  eor x19 x29 x14 12;                      (* 1101 *)
  bic x29 x9 x0 19;                        (* 1102 *)
  sri_2d v3 v31 43;                        (* 1103 *)
  bic x14 x14 x8 5;                        (* 1104 *)
  eor_16b v31 v17 v29;                     (* 1105 *)
  eor x9 x14 x23 43;                       (* 1106 *)
  eor x14 x4 x8 46;                        (* 1107 *)
  shl_2d v18 v31 15;                       (* 1108 *)
  bic x23 x8 x23 38;                       (* 1109 *)
  sri_2d v18 v31 49;                       (* 1110 *)
  eor x8 x27 x0 2;                         (* 1111 *)
  eor_16b v31 v11 v25;                     (* 1112 *)
  eor x4 x23 x3 47;                        (* 1113 *)
  bic x3 x0 x30 5;                         (* 1114 *)
  shl_2d v17 v31 10;                       (* 1115 *)
  eor x23 x3 x26 52;                       (* 1116 *)
  sri_2d v17 v31 54;                       (* 1117 *)
  eor x3 x29 x30 24;                       (* 1118 *)
  eor x0 x15 x11 52;                       (* 1119 *)
  eor_16b v31 v9 v27;                      (* 1120 *)
  eor x0 x0 x13 48;                        (* 1121 *)
  shl_2d v11 v31 20;                       (* 1122 *)
  eor x26 x8 x9 57;                        (* 1123 *)
  sri_2d v11 v31 44;                       (* 1124 *)
  eor x27 x0 x14 10;                       (* 1125 *)
  eor x29 x16 x28 63;                      (* 1126 *)
  eor_16b v31 v22 v29;                     (* 1127 *)
  eor x26 x26 x6 51;                       (* 1128 *)
  shl_2d v9 v31 61;                        (* 1129 *)
  eor x30 x23 x22 50;                      (* 1130 *)
  sri_2d v9 v31 3;                         (* 1131 *)
  eor x0 x26 x10 31;                       (* 1132 *)
  eor x29 x29 x19 37;                      (* 1133 *)
  eor_16b v31 v14 v27;                     (* 1134 *)
  eor x27 x27 x12 5;                       (* 1135 *)
  shl_2d v22 v31 39;                       (* 1136 *)
  eor x30 x30 x24 34;                      (* 1137 *)
  eor x0 x0 x7 27;                         (* 1138 *)
  sri_2d v22 v31 25;                       (* 1139 *)
  eor x26 x30 x21 26;                      (* 1140 *)
  eor_16b v31 v20 v26;                     (* 1141 *)
  eor x26 x26 x25 15;                      (* 1142 *)
  shl_2d v14 v31 18;                       (* 1143 *)
  ror x30 x27 62;                          (* 1144 *)
  eor x30 x30 x26 57;                      (* 1145 *)
  sri_2d v14 v31 46;                       (* 1146 *)
  ror x26 x26 58;                          (* 1147 *)
  eor_16b v31 v4 v27;                      (* 1148 *)
  eor x16 x30 x16 0;                       (* 1149 *)
  shl_2d v20 v31 27;                       (* 1150 *)
  eor x28 x30 x28 63;                      (* 1151 *)
  str x28 sp 208;                          (* 1152 *)
  sri_2d v20 v31 37;                       (* 1153 *)
  eor x29 x29 x17 36;                      (* 1154 *)
  eor_16b v31 v24 v27;                     (* 1155 *)
  eor x28 x1 x2 61;                        (* 1156 *)
  eor x19 x30 x19 37;                      (* 1157 *)
  shl_2d v4 v31 14;                        (* 1158 *)
  eor x29 x29 x20 2;                       (* 1159 *)
  sri_2d v4 v31 50;                        (* 1160 *)
  eor x28 x28 x4 54;                       (* 1161 *)
  eor_16b v31 v21 v25;                     (* 1162 *)
  eor x26 x26 x0 55;                       (* 1163 *)
  eor x28 x28 x3 39;                       (* 1164 *)
  shl_2d v24 v31 2;                        (* 1165 *)
  eor x28 x28 x5 25;                       (* 1166 *)
  sri_2d v24 v31 62;                       (* 1167 *)
  ror x0 x0 56;                            (* 1168 *)
  eor x0 x0 x29 63;                        (* 1169 *)
  eor_16b v31 v5 v26;                      (* 1170 *)
  eor x27 x28 x27 61;                      (* 1171 *)
  shl_2d v21 v31 36;                       (* 1172 *)
  eor x13 x0 x13 46;                       (* 1173 *)
  sri_2d v21 v31 28;                       (* 1174 *)
  eor x28 x29 x28 63;                      (* 1175 *)
  eor x29 x30 x20 2;                       (* 1176 *)
  eor_16b v31 v6 v25;                      (* 1177 *)
  eor x20 x26 x3 39;                       (* 1178 *)
  shl_2d v27 v31 44;                       (* 1179 *)
  eor x11 x0 x11 50;                       (* 1180 *)
  sri_2d v27 v31 20;                       (* 1181 *)
  eor x25 x28 x25 9;                       (* 1182 *)
  eor x3 x28 x21 20;                       (* 1183 *)
  bic_16b v31 v7 v11;                      (* 1184 *)
  eor x21 x26 x1 0;                        (* 1185 *)
  eor_16b v5 v31 v10;                      (* 1186 *)
  eor x9 x27 x9 49;                        (* 1187 *)
  eor x24 x28 x24 28;                      (* 1188 *)
  bic_16b v31 v8 v7;                       (* 1189 *)
  eor x1 x30 x17 36;                       (* 1190 *)
  eor_16b v6 v31 v11;                      (* 1191 *)
  eor x14 x0 x14 8;                        (* 1192 *)
  bic_16b v31 v9 v8;                       (* 1193 *)
  eor x22 x28 x22 44;                      (* 1194 *)
  eor x8 x27 x8 56;                        (* 1195 *)
  eor_16b v7 v31 v7;                       (* 1196 *)
  eor x17 x27 x7 19;                       (* 1197 *)
  bic_16b v31 v10 v9;                      (* 1198 *)
  eor x15 x0 x15 62;                       (* 1199 *)
  bic x7 x20 x22 47;                       (* 1200 *)
  eor_16b v8 v31 v8;                       (* 1201 *)
  eor x4 x26 x4 54;                        (* 1202 *)
  bic_16b v31 v11 v10;                     (* 1203 *)
  eor x0 x0 x12 3;                         (* 1204 *)
  eor_16b v9 v31 v9;                       (* 1205 *)
  eor x28 x28 x23 58;                      (* 1206 *)
  eor x23 x26 x2 61;                       (* 1207 *)
  bic_16b v31 v12 v16;                     (* 1208 *)
  eor x26 x26 x5 25;                       (* 1209 *)
  eor_16b v10 v31 v15;                     (* 1210 *)
  eor x2 x7 x16 39;                        (* 1211 *)
  bic_16b v31 v13 v12;                     (* 1212 *)
  bic x7 x9 x20 42;                        (* 1213 *)
  bic x30 x15 x9 16;                       (* 1214 *)
  eor_16b v11 v31 v16;                     (* 1215 *)
  eor x7 x7 x22 25;                        (* 1216 *)
  bic_16b v31 v14 v13;                     (* 1217 *)
  eor x12 x30 x20 58;                      (* 1218 *)
  bic x20 x22 x16 56;                      (* 1219 *)
  eor_16b v12 v31 v12;                     (* 1220 *)
  eor x30 x27 x6 43;                       (* 1221 *)
  bic_16b v31 v15 v14;                     (* 1222 *)
  eor x22 x20 x15 23;                      (* 1223 *)
  eor_16b v13 v31 v13;                     (* 1224 *)
  bic x6 x19 x13 42;                       (* 1225 *)
  eor x6 x6 x17 41;                        (* 1226 *)
  bic_16b v31 v16 v15;                     (* 1227 *)
  bic x5 x13 x17 63;                       (* 1228 *)
  eor_16b v14 v31 v14;                     (* 1229 *)
  eor x5 x21 x5 21;                        (* 1230 *)
  bic_16b v31 v17 v21;                     (* 1231 *)
  bic x17 x17 x21 44;                      (* 1232 *)
  eor x27 x27 x10 23;                      (* 1233 *)
  eor_16b v15 v31 v20;                     (* 1234 *)
  bic x21 x21 x25 50;                      (* 1235 *)
  bic_16b v31 v18 v17;                     (* 1236 *)
  bic x20 x27 x4 25;                       (* 1237 *)
  bic x10 x16 x15 31;                      (* 1238 *)
  eor_16b v16 v31 v21;                     (* 1239 *)
  eor x16 x21 x19 43;                      (* 1240 *)
  bic_16b v31 v19 v18;                     (* 1241 *)
  eor x21 x17 x25 30;                      (* 1242 *)
  eor_16b v17 v31 v17;                     (* 1243 *)
  bic x19 x25 x19 57;                      (* 1244 *)
  ldr x25 sp 24;                           (* 1245 *)
  bic_16b v31 v20 v19;                     (* 1246 *)
  eor x17 x10 x9 47;                       (* 1247 *)
  eor_16b v18 v31 v18;                     (* 1248 *)
  ldr x9 sp 8;                             (* 1249 *)
  eor x15 x20 x28 27;                      (* 1250 *)
  bic_16b v31 v21 v20;                     (* 1251 *)
  bic x20 x4 x28 2;                        (* 1252 *)
  eor_16b v19 v31 v19;                     (* 1253 *)
  eor x10 x20 x1 50;                       (* 1254 *)
  bic_16b v31 v22 v1;                      (* 1255 *)
  bic x20 x11 x27 60;                      (* 1256 *)
  eor x20 x20 x4 21;                       (* 1257 *)
  eor_16b v20 v31 v0;                      (* 1258 *)
  bic x4 x28 x1 48;                        (* 1259 *)
  bic_16b v31 v23 v22;                     (* 1260 *)
  bic x1 x1 x11 57;                        (* 1261 *)
  eor_16b v21 v31 v1;                      (* 1262 *)
  ldr_index x28 x9 x25;                    (* 1263 *)
  ldr x9 sp 208;                           (* 1264 *)
  bic_16b v31 v24 v23;                     (* 1265 *)
  add_imm x25 x25 1;                       (* 1266 *)
  eor_16b v22 v31 v22;                     (* 1267 *)
  str x25 sp 24;                           (* 1268 *)
  cmp_imm x25 23;                          (* 1269 *)
  bic_16b v31 v0 v24;                      (* 1270 *)
  eor x25 x1 x27 53;                       (* 1271 *)
  eor_16b v23 v31 v23;                     (* 1272 *)
  bic x27 x30 x26 47;                      (* 1273 *)
  bic_16b v31 v1 v0;                       (* 1274 *)
  eor x1 x5 x28 0;                         (* 1275 *)
  eor x5 x4 x11 41;                        (* 1276 *)
  eor_16b v24 v31 v24;                     (* 1277 *)
  eor x11 x19 x13 35;                      (* 1278 *)
  bic_16b v31 v2 v27;                      (* 1279 *)
  bic x13 x26 x24 10;                      (* 1280 *)
  eor x28 x27 x24 57;                      (* 1281 *)
  eor_16b v0 v31 v30;                      (* 1282 *)
  bic x27 x24 x9 47;                       (* 1283 *)
  bic_16b v31 v3 v2;                       (* 1284 *)
  bic x19 x23 x3 9;                        (* 1285 *)
  eor_16b v1 v31 v27;                      (* 1286 *)
  bic x4 x29 x14 41;                       (* 1287 *)
  eor x24 x19 x29 44;                      (* 1288 *)
  bic_16b v31 v4 v3;                       (* 1289 *)
  bic x29 x3 x29 35;                       (* 1290 *)
  eor_16b v2 v31 v2;                       (* 1291 *)
  eor x13 x13 x9 57;                       (* 1292 *)
  bic_16b v31 v30 v4;                      (* 1293 *)
  eor x19 x29 x14 12;                      (* 1294 *)
  bic x29 x9 x0 19;                        (* 1295 *)
  eor_16b v3 v31 v3;                       (* 1296 *)
  bic x14 x14 x8 5;                        (* 1297 *)
  bic_16b v31 v27 v30;                     (* 1298 *)
  eor x9 x14 x23 43;                       (* 1299 *)
  eor x14 x4 x8 46;                        (* 1300 *)
  eor_16b v4 v31 v4;                       (* 1301 *)
  bic x23 x8 x23 38;                       (* 1302 *)
  eor x8 x27 x0 2;                         (* 1303 *)
  eor x4 x23 x3 47;                        (* 1304 *)
  bic x3 x0 x30 5;                         (* 1305 *)
  eor x23 x3 x26 52;                       (* 1306 *)
  eor x3 x29 x30 24;                       (* 1307 *)
  ldr x30 sp 16;                           (* 1308 *)
  ld1r_2d v28 x30 (Post 8);                (* 1309 *)
  str x30 sp 16;                           (* 1310 *)
  eor_16b v0 v0 v28                        (* 1311 *)
].

(** fips202/native/aarch64/keccak_f1600_x4_v8a_scalar_hybrid_asm_opt.S:1706-1710 *)
Definition keccak_f1600_x4_scalar_v8a_asm_hybrid_opt_3 : list instr := [
  ror x2 x2 61;                            (* 1706 final_scalar_rotate *)
  ror x3 x3 39;                            (* 1706 final_scalar_rotate *)
  ror x4 x4 54;                            (* 1706 final_scalar_rotate *)
  ror x5 x5 25;                            (* 1706 final_scalar_rotate *)
  ror x6 x6 43;                            (* 1706 final_scalar_rotate *)
  ror x7 x7 19;                            (* 1706 final_scalar_rotate *)
  ror x8 x8 56;                            (* 1706 final_scalar_rotate *)
  ror x9 x9 49;                            (* 1706 final_scalar_rotate *)
  ror x10 x10 23;                          (* 1706 final_scalar_rotate *)
  ror x11 x11 50;                          (* 1706 final_scalar_rotate *)
  ror x12 x12 3;                           (* 1706 final_scalar_rotate *)
  ror x13 x13 46;                          (* 1706 final_scalar_rotate *)
  ror x14 x14 8;                           (* 1706 final_scalar_rotate *)
  ror x15 x15 62;                          (* 1706 final_scalar_rotate *)
  ror x17 x17 36;                          (* 1706 final_scalar_rotate *)
  ror x28 x28 63;                          (* 1706 final_scalar_rotate *)
  ror x19 x19 37;                          (* 1706 final_scalar_rotate *)
  ror x20 x20 2;                           (* 1706 final_scalar_rotate *)
  ror x21 x21 20;                          (* 1706 final_scalar_rotate *)
  ror x22 x22 44;                          (* 1706 final_scalar_rotate *)
  ror x23 x23 58;                          (* 1706 final_scalar_rotate *)
  ror x24 x24 28;                          (* 1706 final_scalar_rotate *)
  ror x25 x25 9;                           (* 1706 final_scalar_rotate *)
  ldr x30 sp 32;                           (* 1709 *)
  cmp_imm x30 1                            (* 1710 *)
].

(** fips202/native/aarch64/keccak_f1600_x4_v8a_scalar_hybrid_asm_opt.S:1714-1719 *)
Definition keccak_f1600_x4_scalar_v8a_asm_hybrid_opt_4 : list instr := [
  mov_imm x30 1;                           (* 1714 *)
  str x30 sp 32;                           (* 1715 *)
  ldr x0 sp 0;                             (* 1717 *)
  add_imm x0 x0 400;                       (* 1718 store_input_scalar *)
  stp x1 x6 x0 0;                          (* 1718 store_input_scalar *)
  stp x11 x16 x0 16;                       (* 1718 store_input_scalar *)
  stp x21 x2 x0 32;                        (* 1718 store_input_scalar *)
  stp x7 x12 x0 48;                        (* 1718 store_input_scalar *)
  stp x17 x22 x0 64;                       (* 1718 store_input_scalar *)
  stp x3 x8 x0 80;                         (* 1718 store_input_scalar *)
  stp x13 x28 x0 96;                       (* 1718 store_input_scalar *)
  stp x23 x4 x0 112;                       (* 1718 store_input_scalar *)
  stp x9 x14 x0 128;                       (* 1718 store_input_scalar *)
  stp x19 x24 x0 144;                      (* 1718 store_input_scalar *)
  stp x5 x10 x0 160;                       (* 1718 store_input_scalar *)
  stp x15 x20 x0 176;                      (* 1718 store_input_scalar *)
  str x25 x0 192;                          (* 1718 store_input_scalar *)
  sub_imm x0 x0 400;                       (* 1718 store_input_scalar *)
  add_imm x0 x0 600;                       (* 1719 load_input_scalar *)
  ldp x1 x6 x0 0;                          (* 1719 load_input_scalar *)
  ldp x11 x16 x0 16;                       (* 1719 load_input_scalar *)
  ldp x21 x2 x0 32;                        (* 1719 load_input_scalar *)
  ldp x7 x12 x0 48;                        (* 1719 load_input_scalar *)
  ldp x17 x22 x0 64;                       (* 1719 load_input_scalar *)
  ldp x3 x8 x0 80;                         (* 1719 load_input_scalar *)
  ldp x13 x28 x0 96;                       (* 1719 load_input_scalar *)
  ldp x23 x4 x0 112;                       (* 1719 load_input_scalar *)
  ldp x9 x14 x0 128;                       (* 1719 load_input_scalar *)
  ldp x19 x24 x0 144;                      (* 1719 load_input_scalar *)
  ldp x5 x10 x0 160;                       (* 1719 load_input_scalar *)
  ldp x15 x20 x0 176;                      (* 1719 load_input_scalar *)
  ldr x25 x0 192;                          (* 1719 load_input_scalar *)
  sub_imm x0 x0 600                        (* 1719 load_input_scalar *)
].

(** fips202/native/aarch64/keccak_f1600_x4_v8a_scalar_hybrid_asm_opt.S:1724-1730, done: *)
Definition keccak_f1600_x4_scalar_v8a_asm_hybrid_opt_5 : list instr := [
  ldr x0 sp 0;                             (* 1724 *)
  add_imm x0 x0 600;                       (* 1725 store_input_scalar *)
  stp x1 x6 x0 0;                          (* 1725 store_input_scalar *)
  stp x11 x16 x0 16;                       (* 1725 store_input_scalar *)
  stp x21 x2 x0 32;                        (* 1725 store_input_scalar *)
  stp x7 x12 x0 48;                        (* 1725 store_input_scalar *)
  stp x17 x22 x0 64;                       (* 1725 store_input_scalar *)
  stp x3 x8 x0 80;                         (* 1725 store_input_scalar *)
  stp x13 x28 x0 96;                       (* 1725 store_input_scalar *)
  stp x23 x4 x0 112;                       (* 1725 store_input_scalar *)
  stp x9 x14 x0 128;                       (* 1725 store_input_scalar *)
  stp x19 x24 x0 144;                      (* 1725 store_input_scalar *)
  stp x5 x10 x0 160;                       (* 1725 store_input_scalar *)
  stp x15 x20 x0 176;                      (* 1725 store_input_scalar *)
  str x25 x0 192;                          (* 1725 store_input_scalar *)
  sub_imm x0 x0 600;                       (* 1725 store_input_scalar *)
  st2_d v0 v1 0 x0 (Post 16);              (* 1726 store_input_vector *)
  st2_d v2 v3 0 x0 (Post 16);              (* 1726 store_input_vector *)
  st2_d v4 v5 0 x0 (Post 16);              (* 1726 store_input_vector *)
  st2_d v6 v7 0 x0 (Post 16);              (* 1726 store_input_vector *)
  st2_d v8 v9 0 x0 (Post 16);              (* 1726 store_input_vector *)
  st2_d v10 v11 0 x0 (Post 16);            (* 1726 store_input_vector *)
  st2_d v12 v13 0 x0 (Post 16);            (* 1726 store_input_vector *)
  st2_d v14 v15 0 x0 (Post 16);            (* 1726 store_input_vector *)
  st2_d v16 v17 0 x0 (Post 16);            (* 1726 store_input_vector *)
  st2_d v18 v19 0 x0 (Post 16);            (* 1726 store_input_vector *)
  st2_d v20 v21 0 x0 (Post 16);            (* 1726 store_input_vector *)
  st2_d v22 v23 0 x0 (Post 16);            (* 1726 store_input_vector *)
  st1_d v24 0 x0 (Post 8);                 (* 1726 store_input_vector *)
  st2_d v0 v1 1 x0 (Post 16);              (* 1726 store_input_vector *)
  st2_d v2 v3 1 x0 (Post 16);              (* 1726 store_input_vector *)
  st2_d v4 v5 1 x0 (Post 16);              (* 1726 store_input_vector *)
  st2_d v6 v7 1 x0 (Post 16);              (* 1726 store_input_vector *)
  st2_d v8 v9 1 x0 (Post 16);              (* 1726 store_input_vector *)
  st2_d v10 v11 1 x0 (Post 16);            (* 1726 store_input_vector *)
  st2_d v12 v13 1 x0 (Post 16);            (* 1726 store_input_vector *)
  st2_d v14 v15 1 x0 (Post 16);            (* 1726 store_input_vector *)
  st2_d v16 v17 1 x0 (Post 16);            (* 1726 store_input_vector *)
  st2_d v18 v19 1 x0 (Post 16);            (* 1726 store_input_vector *)
  st2_d v20 v21 1 x0 (Post 16);            (* 1726 store_input_vector *)
  st2_d v22 v23 1 x0 (Post 16);            (* 1726 store_input_vector *)
  st1_d v24 1 x0 (Post 8);                 (* 1726 store_input_vector *)
  sub_imm x0 x0 400;                       (* 1726 store_input_vector *)
  ldp_d v14 v15 sp 192;                    (* 1728 restore_vregs *)
  ldp_d v12 v13 sp 176;                    (* 1728 restore_vregs *)
  ldp_d v10 v11 sp 160;                    (* 1728 restore_vregs *)
  ldp_d v8 v9 sp 144;                      (* 1728 restore_vregs *)
  ldp x19 x20 sp 48;                       (* 1729 restore_gprs *)
  ldp x21 x22 sp 64;                       (* 1729 restore_gprs *)
  ldp x23 x24 sp 80;                       (* 1729 restore_gprs *)
  ldp x25 x26 sp 96;                       (* 1729 restore_gprs *)
  ldp x27 x28 sp 112;                      (* 1729 restore_gprs *)
  ldp x29 x30 sp 128;                      (* 1729 restore_gprs *)
  add_imm sp sp 224                        (* 1730 free_stack *)
].

(** fips202/native/aarch64/keccak_f1600_x4_v8a_scalar_hybrid_asm_opt.S:899-1731 keccak_f1600_x4_scalar_v8a_asm_hybrid_opt *)
Definition keccak_f1600_x4_scalar_v8a_asm_hybrid_opt : list block := [
  (keccak_f1600_x4_scalar_v8a_asm_hybrid_opt_0, Next);
  (keccak_f1600_x4_scalar_v8a_asm_hybrid_opt_1, Next);
  (keccak_f1600_x4_scalar_v8a_asm_hybrid_opt_2, Ble 2);
  (keccak_f1600_x4_scalar_v8a_asm_hybrid_opt_3, Beq 5);
  (keccak_f1600_x4_scalar_v8a_asm_hybrid_opt_4, Goto 1);
  (keccak_f1600_x4_scalar_v8a_asm_hybrid_opt_5, Ret)].

(** fips202/native/aarch64/keccak_f1600_x4_scalar_v84a_asm_hybrid_opt.S:46-70 round_constants *)
Definition keccak_f1600_x4_scalar_v84a_asm_hybrid_opt_constants : list Z := [
  0x1; 0x8082; 0x800000000000808a;
  0x8000000080008000; 0x808b; 0x80000001;
  0x8000000080008081; 0x8000000000008009; 0x8a;
  0x88; 0x80008009; 0x8000000a;
  0x8000808b; 0x800000000000008b; 0x8000000000008089;
  0x8000000000008003; 0x8000000000008002; 0x8000000000000080;
  0x800a; 0x800000008000000a; 0x8000000080008081;
  0x8000000000008080; 0x80000001; 0x8000000080008008].

(** fips202/native/aarch64/keccak_f1600_x4_scalar_v84a_asm_hybrid_opt.S:918-931 *)
Definition keccak_f1600_x4_scalar_v84a_asm_hybrid_opt_0 : list instr := [
  sub_imm sp sp 224;                       (* 918 alloc_stack *)
  stp x19 x20 sp 48;                       (* 919 save_gprs *)
  stp x21 x22 sp 64;                       (* 919 save_gprs *)
  stp x23 x24 sp 80;                       (* 919 save_gprs *)
  stp x25 x26 sp 96;                       (* 919 save_gprs *)
  stp x27 x28 sp 112;                      (* 919 save_gprs *)
  stp x29 x30 sp 128;                      (* 919 save_gprs *)
  stp_d v8 v9 sp 144;                      (* 920 save_vregs *)
  stp_d v10 v11 sp 160;                    (* 920 save_vregs *)
  stp_d v12 v13 sp 176;                    (* 920 save_vregs *)
  stp_d v14 v15 sp 192;                    (* 920 save_vregs *)
  adr x29 2;                               (* 922 *)
  mov_imm x30 0;                           (* 924 *)
  str x30 sp 32;                           (* 925 *)
  str x29 sp 8;                            (* 926 *)
  str x29 sp 16;                           (* 927 *)
  str x0 sp 0;                             (* 928 *)
  ld2_d v0 v1 0 x0 (Post 16);              (* 930 load_input_vector *)
  ld2_d v2 v3 0 x0 (Post 16);              (* 930 load_input_vector *)
  ld2_d v4 v5 0 x0 (Post 16);              (* 930 load_input_vector *)
  ld2_d v6 v7 0 x0 (Post 16);              (* 930 load_input_vector *)
  ld2_d v8 v9 0 x0 (Post 16);              (* 930 load_input_vector *)
  ld2_d v10 v11 0 x0 (Post 16);            (* 930 load_input_vector *)
  ld2_d v12 v13 0 x0 (Post 16);            (* 930 load_input_vector *)
  ld2_d v14 v15 0 x0 (Post 16);            (* 930 load_input_vector *)
  ld2_d v16 v17 0 x0 (Post 16);            (* 930 load_input_vector *)
  ld2_d v18 v19 0 x0 (Post 16);            (* 930 load_input_vector *)
  ld2_d v20 v21 0 x0 (Post 16);            (* 930 load_input_vector *)
  ld2_d v22 v23 0 x0 (Post 16);            (* 930 load_input_vector *)
  ld1_d v24 0 x0 (Post 8);                 (* 930 load_input_vector *)
  ld2_d v0 v1 1 x0 (Post 16);              (* 930 load_input_vector *)
  ld2_d v2 v3 1 x0 (Post 16);              (* 930 load_input_vector *)
  ld2_d v4 v5 1 x0 (Post 16);              (* 930 load_input_vector *)
  ld2_d v6 v7 1 x0 (Post 16);              (* 930 load_input_vector *)
  ld2_d v8 v9 1 x0 (Post 16);              (* 930 load_input_vector *)
  ld2_d v10 v11 1 x0 (Post 16);            (* 930 load_input_vector *)
  ld2_d v12 v13 1 x0 (Post 16);            (* 930 load_input_vector *)
  ld2_d v14 v15 1 x0 (Post 16);            (* 930 load_input_vector *)
  ld2_d v16 v17 1 x0 (Post 16);            (* 930 load_input_vector *)
  ld2_d v18 v19 1 x0 (Post 16);            (* 930 load_input_vector *)
  ld2_d v20 v21 1 x0 (Post 16);            (* 930 load_input_vector *)
  ld2_d v22 v23 1 x0 (Post 16);            (* 930 load_input_vector *)
  ld1_d v24 1 x0 (Post 8);                 (* 930 load_input_vector *)
  sub_imm x0 x0 400;                       (* 930 load_input_vector *)
  add_imm x0 x0 400;                       (* 931 load_input_scalar *)
  ldp x1 x6 x0 0;                          (* 931 load_input_scalar *)
  ldp x11 x16 x0 16;                       (* 931 load_input_scalar *)
  ldp x21 x2 x0 32;                        (* 931 load_input_scalar *)
  ldp x7 x12 x0 48;                        (* 931 load_input_scalar *)
  ldp x17 x22 x0 64;                       (* 931 load_input_scalar *)
  ldp x3 x8 x0 80;                         (* 931 load_input_scalar *)
  ldp x13 x28 x0 96;                       (* 931 load_input_scalar *)
  ldp x23 x4 x0 112;                       (* 931 load_input_scalar *)
  ldp x9 x14 x0 128;                       (* 931 load_input_scalar *)
  ldp x19 x24 x0 144;                      (* 931 load_input_scalar *)
  ldp x5 x10 x0 160;                       (* 931 load_input_scalar *)
  ldp x15 x20 x0 176;                      (* 931 load_input_scalar *)
  ldr x25 x0 192;                          (* 931 load_input_scalar *)
  sub_imm x0 x0 400                        (* 931 load_input_scalar *)
].

(** fips202/native/aarch64/keccak_f1600_x4_scalar_v84a_asm_hybrid_opt.S:934-936, initial: *)
Definition keccak_f1600_x4_scalar_v84a_asm_hybrid_opt_1 : list instr := [
  eor x30 x24 x25 0;                       (* 934 scalar_round_initial *)
  eor x27 x9 x10 0;                        (* 934 scalar_round_initial *)
  eor x0 x30 x21 0;                        (* 934 scalar_round_initial *)
  eor x26 x27 x6 0;                        (* 934 scalar_round_initial *)
  eor x27 x26 x7 0;                        (* 934 scalar_round_initial *)
  eor x29 x0 x22 0;                        (* 934 scalar_round_initial *)
  eor x26 x29 x23 0;                       (* 934 scalar_round_initial *)
  eor x29 x4 x5 0;                         (* 934 scalar_round_initial *)
  eor x30 x29 x1 0;                        (* 934 scalar_round_initial *)
  eor x0 x27 x8 0;                         (* 934 scalar_round_initial *)
  eor x29 x30 x2 0;                        (* 934 scalar_round_initial *)
  eor x30 x19 x20 0;                       (* 934 scalar_round_initial *)
  eor x30 x30 x16 0;                       (* 934 scalar_round_initial *)
  eor x27 x26 x0 63;                       (* 934 scalar_round_initial *)
  eor x4 x4 x27 0;                         (* 934 scalar_round_initial *)
  eor x30 x30 x17 0;                       (* 934 scalar_round_initial *)
  eor x30 x30 x28 0;                       (* 934 scalar_round_initial *)
  eor x29 x29 x3 0;                        (* 934 scalar_round_initial *)
  eor x0 x0 x30 63;                        (* 934 scalar_round_initial *)
  eor x30 x30 x29 63;                      (* 934 scalar_round_initial *)
  eor x22 x22 x30 0;                       (* 934 scalar_round_initial *)
  eor x23 x23 x30 0;                       (* 934 scalar_round_initial *)
  str x23 sp 208;                          (* 934 scalar_round_initial *)
  eor x23 x14 x15 0;                       (* 934 scalar_round_initial *)
  eor x14 x14 x0 0;                        (* 934 scalar_round_initial *)
  eor x23 x23 x11 0;                       (* 934 scalar_round_initial *)
  eor x15 x15 x0 0;                        (* 934 scalar_round_initial *)
  eor x1 x1 x27 0;                         (* 934 scalar_round_initial *)
  eor x23 x23 x12 0;                       (* 934 scalar_round_initial *)
  eor x23 x23 x13 0;                       (* 934 scalar_round_initial *)
  eor x11 x11 x0 0;                        (* 934 scalar_round_initial *)
  eor x29 x29 x23 63;                      (* 934 scalar_round_initial *)
  eor x23 x23 x26 63;                      (* 934 scalar_round_initial *)
  eor x26 x13 x0 0;                        (* 934 scalar_round_initial *)
  eor x13 x28 x23 0;                       (* 934 scalar_round_initial *)
  eor x28 x24 x30 0;                       (* 934 scalar_round_initial *)
  eor x24 x16 x23 0;                       (* 934 scalar_round_initial *)
  eor x16 x21 x30 0;                       (* 934 scalar_round_initial *)
  eor x21 x25 x30 0;                       (* 934 scalar_round_initial *)
  eor x30 x19 x23 0;                       (* 934 scalar_round_initial *)
  eor x19 x20 x23 0;                       (* 934 scalar_round_initial *)
  eor x20 x17 x23 0;                       (* 934 scalar_round_initial *)
  eor x17 x12 x0 0;                        (* 934 scalar_round_initial *)
  eor x0 x2 x27 0;                         (* 934 scalar_round_initial *)
  eor x2 x6 x29 0;                         (* 934 scalar_round_initial *)
  eor x6 x8 x29 0;                         (* 934 scalar_round_initial *)
  bic x8 x28 x13 47;                       (* 934 scalar_round_initial *)
  eor x12 x3 x27 0;                        (* 934 scalar_round_initial *)
  bic x3 x13 x17 19;                       (* 934 scalar_round_initial *)
  eor x5 x5 x27 0;                         (* 934 scalar_round_initial *)
  ldr x27 sp 208;                          (* 934 scalar_round_initial *)
  bic x25 x17 x2 5;                        (* 934 scalar_round_initial *)
  eor x9 x9 x29 0;                         (* 934 scalar_round_initial *)
  eor x23 x25 x5 52;                       (* 934 scalar_round_initial *)
  eor x3 x3 x2 24;                         (* 934 scalar_round_initial *)
  eor x8 x8 x17 2;                         (* 934 scalar_round_initial *)
  eor x17 x10 x29 0;                       (* 934 scalar_round_initial *)
  bic x25 x12 x22 47;                      (* 934 scalar_round_initial *)
  eor x29 x7 x29 0;                        (* 934 scalar_round_initial *)
  bic x10 x4 x27 2;                        (* 934 scalar_round_initial *)
  bic x7 x5 x28 10;                        (* 934 scalar_round_initial *)
  eor x10 x10 x20 50;                      (* 934 scalar_round_initial *)
  eor x13 x7 x13 57;                       (* 934 scalar_round_initial *)
  bic x7 x2 x5 47;                         (* 934 scalar_round_initial *)
  eor x2 x25 x24 39;                       (* 934 scalar_round_initial *)
  bic x25 x20 x11 57;                      (* 934 scalar_round_initial *)
  bic x5 x17 x4 25;                        (* 934 scalar_round_initial *)
  eor x25 x25 x17 53;                      (* 934 scalar_round_initial *)
  bic x17 x11 x17 60;                      (* 934 scalar_round_initial *)
  eor x28 x7 x28 57;                       (* 934 scalar_round_initial *)
  bic x7 x9 x12 42;                        (* 934 scalar_round_initial *)
  eor x7 x7 x22 25;                        (* 934 scalar_round_initial *)
  bic x22 x22 x24 56;                      (* 934 scalar_round_initial *)
  bic x24 x24 x15 31;                      (* 934 scalar_round_initial *)
  eor x22 x22 x15 23;                      (* 934 scalar_round_initial *)
  bic x20 x27 x20 48;                      (* 934 scalar_round_initial *)
  bic x15 x15 x9 16;                       (* 934 scalar_round_initial *)
  eor x12 x15 x12 58;                      (* 934 scalar_round_initial *)
  eor x15 x5 x27 27;                       (* 934 scalar_round_initial *)
  eor x5 x20 x11 41;                       (* 934 scalar_round_initial *)
  ldr x11 sp 8;                            (* 934 scalar_round_initial *)
  eor x20 x17 x4 21;                       (* 934 scalar_round_initial *)
  eor x17 x24 x9 47;                       (* 934 scalar_round_initial *)
  mov_imm x24 1;                           (* 934 scalar_round_initial *)
  bic x9 x0 x16 9;                         (* 934 scalar_round_initial *)
  str x24 sp 24;                           (* 934 scalar_round_initial *)
  bic x24 x29 x1 44;                       (* 934 scalar_round_initial *)
  bic x27 x1 x21 50;                       (* 934 scalar_round_initial *)
  bic x4 x26 x29 63;                       (* 934 scalar_round_initial *)
  eor x1 x1 x4 21;                         (* 934 scalar_round_initial *)
  ldr x11 x11 0;                           (* 934 scalar_round_initial *)
  bic x4 x21 x30 57;                       (* 934 scalar_round_initial *)
  eor x21 x24 x21 30;                      (* 934 scalar_round_initial *)
  eor x24 x9 x19 44;                       (* 934 scalar_round_initial *)
  bic x9 x14 x6 5;                         (* 934 scalar_round_initial *)
  eor x9 x9 x0 43;                         (* 934 scalar_round_initial *)
  bic x0 x6 x0 38;                         (* 934 scalar_round_initial *)
  eor x1 x1 x11 0;                         (* 934 scalar_round_initial *)
  eor x11 x4 x26 35;                       (* 934 scalar_round_initial *)
  eor x4 x0 x16 47;                        (* 934 scalar_round_initial *)
  bic x0 x16 x19 35;                       (* 934 scalar_round_initial *)
  eor x16 x27 x30 43;                      (* 934 scalar_round_initial *)
  bic x27 x30 x26 42;                      (* 934 scalar_round_initial *)
  bic x26 x19 x14 41;                      (* 934 scalar_round_initial *)
  eor x19 x0 x14 12;                       (* 934 scalar_round_initial *)
  eor x14 x26 x6 46;                       (* 934 scalar_round_initial *)
  eor x6 x27 x29 41;                       (* 934 scalar_round_initial *)
  eor x0 x15 x11 52;                       (* 935 scalar_round_noninitial *)
  eor x0 x0 x13 48;                        (* 935 scalar_round_noninitial *)
  eor x26 x8 x9 57;                        (* 935 scalar_round_noninitial *)
  eor x27 x0 x14 10;                       (* 935 scalar_round_noninitial *)
  eor x29 x16 x28 63;                      (* 935 scalar_round_noninitial *)
  eor x26 x26 x6 51;                       (* 935 scalar_round_noninitial *)
  eor x30 x23 x22 50;                      (* 935 scalar_round_noninitial *)
  eor x0 x26 x10 31;                       (* 935 scalar_round_noninitial *)
  eor x29 x29 x19 37;                      (* 935 scalar_round_noninitial *)
  eor x27 x27 x12 5;                       (* 935 scalar_round_noninitial *)
  eor x30 x30 x24 34;                      (* 935 scalar_round_noninitial *)
  eor x0 x0 x7 27;                         (* 935 scalar_round_noninitial *)
  eor x26 x30 x21 26;                      (* 935 scalar_round_noninitial *)
  eor x26 x26 x25 15;                      (* 935 scalar_round_noninitial *)
  ror x30 x27 62;                          (* 935 scalar_round_noninitial *)
  eor x30 x30 x26 57;                      (* 935 scalar_round_noninitial *)
  ror x26 x26 58;                          (* 935 scalar_round_noninitial *)
  eor x16 x30 x16 0;                       (* 935 scalar_round_noninitial *)
  eor x28 x30 x28 63;                      (* 935 scalar_round_noninitial *)
  str x28 sp 208;                          (* 935 scalar_round_noninitial *)
  eor x29 x29 x17 36;                      (* 935 scalar_round_noninitial *)
  eor x28 x1 x2 61;                        (* 935 scalar_round_noninitial *)
  eor x19 x30 x19 37;                      (* 935 scalar_round_noninitial *)
  eor x29 x29 x20 2;                       (* 935 scalar_round_noninitial *)
  eor x28 x28 x4 54;                       (* 935 scalar_round_noninitial *)
  eor x26 x26 x0 55;                       (* 935 scalar_round_noninitial *)
  eor x28 x28 x3 39;                       (* 935 scalar_round_noninitial *)
  eor x28 x28 x5 25;                       (* 935 scalar_round_noninitial *)
  ror x0 x0 56;                            (* 935 scalar_round_noninitial *)
  eor x0 x0 x29 63;                        (* 935 scalar_round_noninitial *)
  eor x27 x28 x27 61;                      (* 935 scalar_round_noninitial *)
  eor x13 x0 x13 46;                       (* 935 scalar_round_noninitial *)
  eor x28 x29 x28 63;                      (* 935 scalar_round_noninitial *)
  eor x29 x30 x20 2;                       (* 935 scalar_round_noninitial *)
  eor x20 x26 x3 39;                       (* 935 scalar_round_noninitial *)
  eor x11 x0 x11 50;                       (* 935 scalar_round_noninitial *)
  eor x25 x28 x25 9;                       (* 935 scalar_round_noninitial *)
  eor x3 x28 x21 20;                       (* 935 scalar_round_noninitial *)
  eor x21 x26 x1 0;                        (* 935 scalar_round_noninitial *)
  eor x9 x27 x9 49;                        (* 935 scalar_round_noninitial *)
  eor x24 x28 x24 28;                      (* 935 scalar_round_noninitial *)
  eor x1 x30 x17 36;                       (* 935 scalar_round_noninitial *)
  eor x14 x0 x14 8;                        (* 935 scalar_round_noninitial *)
  eor x22 x28 x22 44;                      (* 935 scalar_round_noninitial *)
  eor x8 x27 x8 56;                        (* 935 scalar_round_noninitial *)
  eor x17 x27 x7 19;                       (* 935 scalar_round_noninitial *)
  eor x15 x0 x15 62;                       (* 935 scalar_round_noninitial *)
  bic x7 x20 x22 47;                       (* 935 scalar_round_noninitial *)
  eor x4 x26 x4 54;                        (* 935 scalar_round_noninitial *)
  eor x0 x0 x12 3;                         (* 935 scalar_round_noninitial *)
  eor x28 x28 x23 58;                      (* 935 scalar_round_noninitial *)
  eor x23 x26 x2 61;                       (* 935 scalar_round_noninitial *)
  eor x26 x26 x5 25;                       (* 935 scalar_round_noninitial *)
  eor x2 x7 x16 39;                        (* 935 scalar_round_noninitial *)
  bic x7 x9 x20 42;                        (* 935 scalar_round_noninitial *)
  bic x30 x15 x9 16;                       (* 935 scalar_round_noninitial *)
  eor x7 x7 x22 25;                        (* 935 scalar_round_noninitial *)
  eor x12 x30 x20 58;                      (* 935 scalar_round_noninitial *)
  bic x20 x22 x16 56;                      (* 935 scalar_round_noninitial *)
  eor x30 x27 x6 43;                       (* 935 scalar_round_noninitial *)
  eor x22 x20 x15 23;                      (* 935 scalar_round_noninitial *)
  bic x6 x19 x13 42;                       (* 935 scalar_round_noninitial *)
  eor x6 x6 x17 41;                        (* 935 scalar_round_noninitial *)
  bic x5 x13 x17 63;                       (* 935 scalar_round_noninitial *)
  eor x5 x21 x5 21;                        (* 935 scalar_round_noninitial *)
  bic x17 x17 x21 44;                      (* 935 scalar_round_noninitial *)
  eor x27 x27 x10 23;                      (* 935 scalar_round_noninitial *)
  bic x21 x21 x25 50;                      (* 935 scalar_round_noninitial *)
  bic x20 x27 x4 25;                       (* 935 scalar_round_noninitial *)
  bic x10 x16 x15 31;                      (* 935 scalar_round_noninitial *)
  eor x16 x21 x19 43;                      (* 935 scalar_round_noninitial *)
  eor x21 x17 x25 30;                      (* 935 scalar_round_noninitial *)
  bic x19 x25 x19 57;                      (* 935 scalar_round_noninitial *)
  ldr x25 sp 24;                           (* 935 scalar_round_noninitial *)
  eor x17 x10 x9 47;                       (* 935 scalar_round_noninitial *)
  ldr x9 sp 8;                             (* 935 scalar_round_noninitial *)
  eor x15 x20 x28 27;                      (* 935 scalar_round_noninitial *)
  bic x20 x4 x28 2;                        (* 935 scalar_round_noninitial *)
  eor x10 x20 x1 50;                       (* 935 scalar_round_noninitial *)
  bic x20 x11 x27 60;                      (* 935 scalar_round_noninitial *)
  eor x20 x20 x4 21;                       (* 935 scalar_round_noninitial *)
  bic x4 x28 x1 48;                        (* 935 scalar_round_noninitial *)
  bic x1 x1 x11 57;                        (* 935 scalar_round_noninitial *)
  ldr_index x28 x9 x25;                    (* 935 scalar_round_noninitial *)
  ldr x9 sp 208;                           (* 935 scalar_round_noninitial *)
  add_imm x25 x25 1;                       (* 935 scalar_round_noninitial *)
  str x25 sp 24;                           (* 935 scalar_round_noninitial *)
  cmp_imm x25 23;                          (* 935 scalar_round_noninitial *)
  eor x25 x1 x27 53;                       (* 935 scalar_round_noninitial *)
  bic x27 x30 x26 47;                      (* 935 scalar_round_noninitial *)
  eor x1 x5 x28 0;                         (* 935 scalar_round_noninitial *)
  eor x5 x4 x11 41;                        (* 935 scalar_round_noninitial *)
  eor x11 x19 x13 35;                      (* 935 scalar_round_noninitial *)
  bic x13 x26 x24 10;                      (* 935 scalar_round_noninitial *)
  eor x28 x27 x24 57;                      (* 935 scalar_round_noninitial *)
  bic x27 x24 x9 47;                       (* 935 scalar_round_noninitial *)
  bic x19 x23 x3 9;                        (* 935 scalar_round_noninitial *)
  bic x4 x29 x14 41;                       (* 935 scalar_round_noninitial *)
  eor x24 x19 x29 44;                      (* 935 scalar_round_noninitial *)
  bic x29 x3 x29 35;                       (* 935 scalar_round_noninitial *)
  eor x13 x13 x9 57;                       (* 935 scalar_round_noninitial *)
  eor x19 x29 x14 12;                      (* 935 scalar_round_noninitial *)
  bic x29 x9 x0 19;                        (* 935 scalar_round_noninitial *)
  bic x14 x14 x8 5;                        (* 935 scalar_round_noninitial *)
  eor x9 x14 x23 43;                       (* 935 scalar_round_noninitial *)
  eor x14 x4 x8 46;                        (* 935 scalar_round_noninitial *)
  bic x23 x8 x23 38;                       (* 935 scalar_round_noninitial *)
  eor x8 x27 x0 2;                         (* 935 scalar_round_noninitial *)
  eor x4 x23 x3 47;                        (* 935 scalar_round_noninitial *)
  bic x3 x0 x30 5;                         (* 935 scalar_round_noninitial *)
  eor x23 x3 x26 52;                       (* 935 scalar_round_noninitial *)
  eor x3 x29 x30 24;                       (* 935 scalar_round_noninitial *)
  eor3_16b v30 v0 v5 v10;                  (* 936 vector_round *)
  eor3_16b v30 v30 v15 v20;                (* 936 vector_round *)
  eor3_16b v29 v1 v6 v11;                  (* 936 vector_round *)
  eor3_16b v29 v29 v16 v21;                (* 936 vector_round *)
  eor3_16b v28 v2 v7 v12;                  (* 936 vector_round *)
  eor3_16b v28 v28 v17 v22;                (* 936 vector_round *)
  eor3_16b v27 v3 v8 v13;                  (* 936 vector_round *)
  eor3_16b v27 v27 v18 v23;                (* 936 vector_round *)
  eor3_16b v26 v4 v9 v14;                  (* 936 vector_round *)
  eor3_16b v26 v26 v19 v24;                (* 936 vector_round *)
  rax1_2d v25 v30 v28;                     (* 936 vector_round *)
  rax1_2d v28 v28 v26;                     (* 936 vector_round *)
  rax1_2d v26 v26 v29;                     (* 936 vector_round *)
  rax1_2d v29 v29 v27;                     (* 936 vector_round *)
  rax1_2d v27 v27 v30;                     (* 936 vector_round *)
  eor_16b v30 v0 v26;                      (* 936 vector_round *)
  xar_2d v0 v2 v29 2;                      (* 936 vector_round *)
  xar_2d v2 v12 v29 21;                    (* 936 vector_round *)
  xar_2d v12 v13 v28 39;                   (* 936 vector_round *)
  xar_2d v13 v19 v27 56;                   (* 936 vector_round *)
  xar_2d v19 v23 v28 8;                    (* 936 vector_round *)
  xar_2d v23 v15 v26 23;                   (* 936 vector_round *)
  xar_2d v15 v1 v25 63;                    (* 936 vector_round *)
  xar_2d v1 v8 v28 9;                      (* 936 vector_round *)
  xar_2d v8 v16 v25 19;                    (* 936 vector_round *)
  xar_2d v16 v7 v29 58;                    (* 936 vector_round *)
  xar_2d v7 v10 v26 61;                    (* 936 vector_round *)
  xar_2d v10 v3 v28 36;                    (* 936 vector_round *)
  xar_2d v3 v18 v28 43;                    (* 936 vector_round *)
  xar_2d v18 v17 v29 49;                   (* 936 vector_round *)
  xar_2d v17 v11 v25 54;                   (* 936 vector_round *)
  xar_2d v11 v9 v27 44;                    (* 936 vector_round *)
  xar_2d v9 v22 v29 3;                     (* 936 vector_round *)
  xar_2d v22 v14 v27 25;                   (* 936 vector_round *)
  xar_2d v14 v20 v26 46;                   (* 936 vector_round *)
  xar_2d v20 v4 v27 37;                    (* 936 vector_round *)
  xar_2d v4 v24 v27 50;                    (* 936 vector_round *)
  xar_2d v24 v21 v25 62;                   (* 936 vector_round *)
  xar_2d v21 v5 v26 28;                    (* 936 vector_round *)
  xar_2d v27 v6 v25 20;                    (* 936 vector_round *)
  ldr x30 sp 16;                           (* 936 vector_round *)
  ld1r_2d v28 x30 (Post 8);                (* 936 vector_round *)
  str x30 sp 16;                           (* 936 vector_round *)
  bcax_16b v5 v10 v7 v11;                  (* 936 vector_round *)
  bcax_16b v6 v11 v8 v7;                   (* 936 vector_round *)
  bcax_16b v7 v7 v9 v8;                    (* 936 vector_round *)
  bcax_16b v8 v8 v10 v9;                   (* 936 vector_round *)
  bcax_16b v9 v9 v11 v10;                  (* 936 vector_round *)
  bcax_16b v10 v15 v12 v16;                (* 936 vector_round *)
  bcax_16b v11 v16 v13 v12;                (* 936 vector_round *)
  bcax_16b v12 v12 v14 v13;                (* 936 vector_round *)
  bcax_16b v13 v13 v15 v14;                (* 936 vector_round *)
  bcax_16b v14 v14 v16 v15;                (* 936 vector_round *)
  bcax_16b v15 v20 v17 v21;                (* 936 vector_round *)
  bcax_16b v16 v21 v18 v17;                (* 936 vector_round *)
  bcax_16b v17 v17 v19 v18;                (* 936 vector_round *)
  bcax_16b v18 v18 v20 v19;                (* 936 vector_round *)
  bcax_16b v19 v19 v21 v20;                (* 936 vector_round *)
  bcax_16b v20 v0 v22 v1;                  (* 936 vector_round *)
  bcax_16b v21 v1 v23 v22;                 (* 936 vector_round *)
  bcax_16b v22 v22 v24 v23;                (* 936 vector_round *)
  bcax_16b v23 v23 v0 v24;                 (* 936 vector_round *)
  bcax_16b v24 v24 v1 v0;                  (* 936 vector_round *)
  bcax_16b v0 v30 v2 v27;                  (* 936 vector_round *)
  bcax_16b v1 v27 v3 v2;                   (* 936 vector_round *)
  bcax_16b v2 v2 v4 v3;                    (* 936 vector_round *)
  bcax_16b v3 v3 v30 v4;                   (* 936 vector_round *)
  bcax_16b v4 v4 v27 v30;                  (* 936 vector_round *)
  eor_16b v0 v0 v28                        (* 936 vector_round *)
].

(** fips202/native/aarch64/keccak_f1600_x4_scalar_v84a_asm_hybrid_opt.S:945-1237, loop: *)
Definition keccak_f1600_x4_scalar_v84a_asm_hybrid_opt_2 : list instr := [
  eor x0 x15 x11 52;                       (* 945 *)
  eor x0 x0 x13 48;                        (* 946 *)
  eor x26 x8 x9 57;                        (* 947 *)
  eor x27 x0 x14 10;                       (* 948 *)
  eor3_16b v30 v0 v5 v10;                  (* 949 *)
  eor3_16b v30 v30 v15 v20;                (* 950 *)
  eor x29 x16 x28 63;                      (* 951 *)
  eor x26 x26 x6 51;                       (* 952 *)
  eor x30 x23 x22 50;                      (* 953 *)
  eor3_16b v29 v1 v6 v11;                  (* 954 *)
  eor x0 x26 x10 31;                       (* 955 *)
  eor x29 x29 x19 37;                      (* 956 *)
  eor x27 x27 x12 5;                       (* 957 *)
  eor3_16b v29 v29 v16 v21;                (* 958 *)
  eor x30 x30 x24 34;                      (* 959 *)
  eor x0 x0 x7 27;                         (* 960 *)
  eor x26 x30 x21 26;                      (* 961 *)
  eor3_16b v28 v2 v7 v12;                  (* 962 *)
  eor x26 x26 x25 15;                      (* 963 *)
  ror x30 x27 62;                          (* 964 *)
  eor x30 x30 x26 57;                      (* 965 *)
  ror x26 x26 58;                          (* 966 *)
  eor3_16b v28 v28 v17 v22;                (* 967 *)
  eor x16 x30 x16 0;                       (* 968 *)
  eor x28 x30 x28 63;                      (* 969 *)
  str x28 sp 208;                          (* 970 *)
  eor3_16b v27 v3 v8 v13;                  (* 971 *)
  eor x29 x29 x17 36;                      (* 972 *)
  eor x28 x1 x2 61;                        (* 973 *)
  eor x19 x30 x19 37;                      (* 974 *)
  eor3_16b v27 v27 v18 v23;                (* 975 *)
  eor x29 x29 x20 2;                       (* 976 *)
  eor x28 x28 x4 54;                       (* 977 *)
  eor x26 x26 x0 55;                       (* 978 *)
  eor3_16b v26 v4 v9 v14;                  (* 979 *)
  eor x28 x28 x3 39;                       (* 980 *)
  eor x28 x28 x5 25;                       (* 981 *)
  ror x0 x0 56;                            (* 982 *)
  eor x0 x0 x29 63;                        (* 983 *)
  eor3_16b v26 v26 v19 v24;                (* 984 *)
  eor x27 x28 x27 61;                      (* 985 *)
  eor x13 x0 x13 46;                       (* 986 *)
  eor x28 x29 x28 63;                      (* 987 *)
  rax1_2d v25 v30 v28;                     (* 988 *)
  eor x29 x30 x20 2;                       (* 989 *)
  eor x20 x26 x3 39;                       (* 990 *)
  eor x11 x0 x11 50;                       (* 991 *)
  rax1_2d v28 v28 v26;                     (* 992 *)
  eor x25 x28 x25 9;                       (* 993 *)
  eor x3 x28 x21 20;                       (* 994 *)
  eor x21 x26 x1 0;                        (* 995 *)
  rax1_2d v26 v26 v29;                     (* 996 *)
  eor x9 x27 x9 49;                        (* 997 *)
  eor x24 x28 x24 28;                      (* 998 *)
  eor x1 x30 x17 36;                       (* 999 *)
  eor x14 x0 x14 8;                        (* 1000 *)
  rax1_2d v29 v29 v27;                     (* 1001 *)
  eor x22 x28 x22 44;                      (* 1002 *)
  eor x8 x27 x8 56;                        (* 1003 *)
  eor x17 x27 x7 19;                       (* 1004 *)
  rax1_2d v27 v27 v30;                     (* 1005 *)
  eor x15 x0 x15 62;                       (* 1006 *)
  bic x7 x20 x22 47;                       (* 1007 *)
  eor x4 x26 x4 54;                        (* 1008 *)
  eor_16b v30 v0 v26;                      (* 1009 *)
  eor x0 x0 x12 3;                         (* 1010 *)
  eor x28 x28 x23 58;                      (* 1011 *)
  eor x23 x26 x2 61;                       (* 1012 *)
  xar_2d v0 v2 v29 2;                      (* 1013 *)
  eor x26 x26 x5 25;                       (* 1014 *)
  eor x2 x7 x16 39;                        (* 1015 *)
  bic x7 x9 x20 42;                        (* 1016 *)
  bic x30 x15 x9 16;                       (* 1017 *)
  xar_2d v2 v12 v29 21;                    (* 1018 *)
  eor x7 x7 x22 25;                        (* 1019 *)
  eor x12 x30 x20 58;                      (* 1020 *)
  bic x20 x22 x16 56;                      (* 1021 *)
  xar_2d v12 v13 v28 39;                   (* 1022 *)
  eor x30 x27 x6 43;                       (* 1023 *)
  eor x22 x20 x15 23;                      (* 1024 *)
  bic x6 x19 x13 42;                       (* 1025 *)
  xar_2d v13 v19 v27 56;                   (* 1026 *)
  eor x6 x6 x17 41;                        (* 1027 *)
  bic x5 x13 x17 63;                       (* 1028 *)
  eor x5 x21 x5 21;                        (* 1029 *)
  xar_2d v19 v23 v28 8;                    (* 1030 *)
  bic x17 x17 x21 44;                      (* 1031 *)
  eor x27 x27 x10 23;                      (* 1032 *)
  bic x21 x21 x25 50;                      (* 1033 *)
  bic x20 x27 x4 25;                       (* 1034 *)
  xar_2d v23 v15 v26 23;                   (* 1035 *)
  bic x10 x16 x15 31;                      (* 1036 *)
  eor x16 x21 x19 43;                      (* 1037 *)
  eor x21 x17 x25 30;                      (* 1038 *)
  xar_2d v15 v1 v25 63;                    (* 1039 *)
  bic x19 x25 x19 57;                      (* 1040 *)
  ldr x25 sp 24;                           (* 1041 *)
  eor x17 x10 x9 47;                       (* 1042 *)
  xar_2d v1 v8 v28 9;                      (* 1043 *)
  ldr x9 sp 8;                             (* 1044 *)
  eor x15 x20 x28 27;                      (* 1045 *)
  bic x20 x4 x28 2;                        (* 1046 *)
  xar_2d v8 v16 v25 19;                    (* 1047 *)
  eor x10 x20 x1 50;                       (* 1048 *)
  bic x20 x11 x27 60;                      (* 1049 *)
  eor x20 x20 x4 21;                       (* 1050 *)
  bic x4 x28 x1 48;                        (* 1051 *)
  xar_2d v16 v7 v29 58;                    (* 1052 *)
  bic x1 x1 x11 57;                        (* 1053 *)
  ldr_index x28 x9 x25;                    (* 1054 *)
  ldr x9 sp 208;                           (* 1055 *)
  xar_2d v7 v10 v26 61;                    (* 1056 *)
  add_imm x25 x25 1;                       (* 1057 *)
  str x25 sp 24;                           (* 1058 *)
  cmp_imm x25 23;                          (* 1059 *)
  xar_2d v10 v3 v28 36;                    (* 1060 *)
  eor x25 x1 x27 53;                       (* 1061 *)
  bic x27 x30 x26 47;                      (* 1062 *)
  eor x1 x5 x28 0;                         (* 1063 *)
  xar_2d v3 v18 v28 43;                    (* 1064 *)
  eor x5 x4 x11 41;                        (* 1065 *)
  eor x11 x19 x13 35;                      (* 1066 *)
  bic x13 x26 x24 10;                      (* 1067 *)
  eor x28 x27 x24 57;                      (* 1068 *)
  xar_2d v18 v17 v29 49;                   (* 1069 *)
  bic x27 x24 x9 47;                       (* 1070 *)
  bic x19 x23 x3 9;                        (* 1071 *)
  bic x4 x29 x14 41;                       (* 1072 *)
  xar_2d v17 v11 v25 54;                   (* 1073 *)
  eor x24 x19 x29 44;                      (* 1074 *)
  bic x29 x3 x29 35;                       (* 1075 *)
  eor x13 x13 x9 57;                       (* 1076 *)
  xar_2d v11 v9 v27 44;                    (* 1077 *)
  eor x19 x29 x14 12;                      (* 1078 *)
  bic x29 x9 x0 19;                        (* 1079 *)
  bic x14 x14 x8 5;                        (* 1080 *)
  xar_2d v9 v22 v29 3;                     (* 1081 *)
  eor x9 x14 x23 43;                       (* 1082 *)
  eor x14 x4 x8 46;                        (* 1083 *)
  bic x23 x8 x23 38;                       (* 1084 *)
  eor x8 x27 x0 2;                         (* 1085 *)
  xar_2d v22 v14 v27 25;                   (* 1086 *)
  eor x4 x23 x3 47;                        (* 1087 *)
  bic x3 x0 x30 5;                         (* 1088 *)
  eor x23 x3 x26 52;                       (* 1089 *)
  xar_2d v14 v20 v26 46;                   (* 1090 *)
  eor x3 x29 x30 24;                       (* 1091 *)
  eor x0 x15 x11 52;                       (* 1092 *)
  eor x0 x0 x13 48;                        (* 1093 *)
  xar_2d v20 v4 v27 37;                    (* 1094 *)
  eor x26 x8 x9 57;                        (* 1095 *)
  eor x27 x0 x14 10;                       (* 1096 *)
  eor x29 x16 x28 63;                      (* 1097 *)
  xar_2d v4 v24 v27 50;                    (* 1098 *)
  eor x26 x26 x6 51;                       (* 1099 *)
  eor x30 x23 x22 50;                      (* 1100 *)
  eor x0 x26 x10 31;                       (* 1101 *)
  eor x29 x29 x19 37;                      (* 1102 *)
  xar_2d v24 v21 v25 62;                   (* 1103 *)
  eor x27 x27 x12 5;                       (* 1104 *)
  eor x30 x30 x24 34;                      (* 1105 *)
  eor x0 x0 x7 27;                         (* 1106 *)
  xar_2d v21 v5 v26 28;                    (* 1107 *)
  eor x26 x30 x21 26;                      (* 1108 *)
  eor x26 x26 x25 15;                      (* 1109 *)
  ror x30 x27 62;                          (* 1110 *)
  xar_2d v27 v6 v25 20;                    (* 1111 *)
  eor x30 x30 x26 57;                      (* 1112 *)
  ror x26 x26 58;                          (* 1113 *)
  eor x16 x30 x16 0;                       (* 1114 *)
  bcax_16b v5 v10 v7 v11;                  (* 1115 *)
  eor x28 x30 x28 63;                      (* 1116 *)
  str x28 sp 208;                          (* 1117 *)
  eor x29 x29 x17 36;                      (* 1118 *)
  eor x28 x1 x2 61;                        (* 1119 *)
  bcax_16b v6 v11 v8 v7;                   (* 1120 *)
  eor x19 x30 x19 37;                      (* 1121 *)
  eor x29 x29 x20 2;                       (* 1122 *)
  eor x28 x28 x4 54;                       (* 1123 *)
  bcax_16b v7 v7 v9 v8;                    (* 1124 *)
  eor x26 x26 x0 55;                       (* 1125 *)
  eor x28 x28 x3 39;                       (* 1126 *)
  eor x28 x28 x5 25;                       (* 1127 *)
  bcax_16b v8 v8 v10 v9;                   (* 1128 *)
  ror x0 x0 56;                            (* 1129 *)
  eor x0 x0 x29 63;                        (* 1130 *)
  eor x27 x28 x27 61;                      (* 1131 *)
  bcax_16b v9 v9 v11 v10;                  (* 1132 *)
  eor x13 x0 x13 46;                       (* 1133 *)
  eor x28 x29 x28 63;                      (* 1134 *)
  eor x29 x30 x20 2;                       (* 1135 *)
  eor x20 x26 x3 39;                       (* 1136 *)
  bcax_16b v10 v15 v12 v16;                (* 1137 *)
  eor x11 x0 x11 50;                       (* 1138 *)
  eor x25 x28 x25 9;                       (* 1139 *)
  eor x3 x28 x21 20;                       (* 1140 *)
  bcax_16b v11 v16 v13 v12;                (* 1141 *)
  eor x21 x26 x1 0;                        (* 1142 *)
  eor x9 x27 x9 49;                        (* 1143 *)
  eor x24 x28 x24 28;                      (* 1144 *)
  bcax_16b v12 v12 v14 v13;                (* 1145 *)
  eor x1 x30 x17 36;                       (* 1146 *)
  eor x14 x0 x14 8;                        (* 1147 *)
  eor x22 x28 x22 44;                      (* 1148 *)
  bcax_16b v13 v13 v15 v14;                (* 1149 *)
  eor x8 x27 x8 56;                        (* 1150 *)
  eor x17 x27 x7 19;                       (* 1151 *)
  eor x15 x0 x15 62;                       (* 1152 *)
  bic x7 x20 x22 47;                       (* 1153 *)
  bcax_16b v14 v14 v16 v15;                (* 1154 *)
  eor x4 x26 x4 54;                        (* 1155 *)
  eor x0 x0 x12 3;                         (* 1156 *)
  eor x28 x28 x23 58;                      (* 1157 *)
  bcax_16b v15 v20 v17 v21;                (* 1158 *)
  eor x23 x26 x2 61;                       (* 1159 *)
  eor x26 x26 x5 25;                       (* 1160 *)
  eor x2 x7 x16 39;                        (* 1161 *)
  bcax_16b v16 v21 v18 v17;                (* 1162 *)
  bic x7 x9 x20 42;                        (* 1163 *)
  bic x30 x15 x9 16;                       (* 1164 *)
  eor x7 x7 x22 25;                        (* 1165 *)
  bcax_16b v17 v17 v19 v18;                (* 1166 *)
  eor x12 x30 x20 58;                      (* 1167 *)
  bic x20 x22 x16 56;                      (* 1168 *)
  eor x30 x27 x6 43;                       (* 1169 *)
  eor x22 x20 x15 23;                      (* 1170 *)
  bcax_16b v18 v18 v20 v19;                (* 1171 *)
  bic x6 x19 x13 42;                       (* 1172 *)
  eor x6 x6 x17 41;                        (* 1173 *)
  bic x5 x13 x17 63;                       (* 1174 *)
  bcax_16b v19 v19 v21 v20;                (* 1175 *)
  eor x5 x21 x5 21;                        (* 1176 *)
  bic x17 x17 x21 44;                      (* 1177 *)
  eor x27 x27 x10 23;                      (* 1178 *)
  bcax_16b v20 v0 v22 v1;                  (* 1179 *)
  bic x21 x21 x25 50;                      (* 1180 *)
  bic x20 x27 x4 25;                       (* 1181 *)
  bic x10 x16 x15 31;                      (* 1182 *)
  bcax_16b v21 v1 v23 v22;                 (* 1183 *)
  eor x16 x21 x19 43;                      (* 1184 *)
  eor x21 x17 x25 30;                      (* 1185 *)
  bic x19 x25 x19 57;                      (* 1186 *)
  ldr x25 sp 24;                           (* 1187 *)
  bcax_16b v22 v22 v24 v23;                (* 1188 *)
  eor x17 x10 x9 47;                       (* 1189 *)
  ldr x9 sp 8;                             (* 1190 *)
  eor x15 x20 x28 27;                      (* 1191 *)
  bcax_16b v23 v23 v0 v24;                 (* 1192 *)
  bic x20 x4 x28 2;                        (* 1193 *)
  eor x10 x20 x1 50;                       (* 1194 *)
  bic x20 x11 x27 60;                      (* 1195 *)
  bcax_16b v24 v24 v1 v0;                  (* 1196 *)
  eor x20 x20 x4 21;                       (* 1197 *)
  bic x4 x28 x1 48;                        (* 1198 *)
  bic x1 x1 x11 57;                        (* 1199 *)
  bcax_16b v0 v30 v2 v27;                  (* 1200 *)
  ldr_index x28 x9 x25;                    (* 1201 *)
  ldr x9 sp 208;                           (* 1202 *)
  add_imm x25 x25 1;                       (* 1203 *)
  str x25 sp 24;                           (* 1204 *)
  bcax_16b v1 v27 v3 v2;                   (* 1205 *)
  cmp_imm x25 23;                          (* 1206 *)
  eor x25 x1 x27 53;                       (* 1207 *)
  bic x27 x30 x26 47;                      (* 1208 *)
  bcax_16b v2 v2 v4 v3;                    (* 1209 *)
  eor x1 x5 x28 0;                         (* 1210 *)
  eor x5 x4 x11 41;                        (* 1211 *)
  eor x11 x19 x13 35;                      (* 1212 *)
  bcax_16b v3 v3 v30 v4;                   (* 1213 *)
  bic x13 x26 x24 10;                      (* 1214 *)
  eor x28 x27 x24 57;                      (* 1215 *)
  bic x27 x24 x9 47;                       (* 1216 *)
  bcax_16b v4 v4 v27 v30;                  (* 1217 *)
  bic x19 x23 x3 9;                        (* 1218 *)
  bic x4 x29 x14 41;                       (* 1219 *)
  eor x24 x19 x29 44;                      (* 1220 *)
  bic x29 x3 x29 35;                       (* 1221 *)
  eor x13 x13 x9 57;                       (* 1222 *)
  eor x19 x29 x14 12;                      (* 1223 *)
  bic x29 x9 x0 19;                        (* 1224 *)
  bic x14 x14 x8 5;                        (* 1225 *)
  eor x9 x14 x23 43;                       (* 1226 *)
  eor x14 x4 x8 46;                        (* 1227 *)
  bic x23 x8 x23 38;                       (* 1228 *)
  eor x8 x27 x0 2;                         (* 1229 *)
  eor x4 x23 x3 47;                        (* 1230 *)
  bic x3 x0 x30 5;                         (* 1231 *)
  eor x23 x3 x26 52;                       (* 1232 *)
  eor x3 x29 x30 24;                       (* 1233 *)
  ldr x30 sp 16;                           (* 1234 *)
  ld1r_2d v28 x30 (Post 8);                (* 1235 *)
  str x30 sp 16;                           (* 1236 *)
  eor_16b v0 v0 v28                        (* 1237 *)
].

(** fips202/native/aarch64/keccak_f1600_x4_scalar_v84a_asm_hybrid_opt.S:1539-1543 *)
Definition keccak_f1600_x4_scalar_v84a_asm_hybrid_opt_3 : list instr := [
  ror x2 x2 61;                            (* 1539 final_scalar_rotate *)
  ror x3 x3 39;                            (* 1539 final_scalar_rotate *)
  ror x4 x4 54;                            (* 1539 final_scalar_rotate *)
  ror x5 x5 25;                            (* 1539 final_scalar_rotate *)
  ror x6 x6 43;                            (* 1539 final_scalar_rotate *)
  ror x7 x7 19;                            (* 1539 final_scalar_rotate *)
  ror x8 x8 56;                            (* 1539 final_scalar_rotate *)
  ror x9 x9 49;                            (* 1539 final_scalar_rotate *)
  ror x10 x10 23;                          (* 1539 final_scalar_rotate *)
  ror x11 x11 50;                          (* 1539 final_scalar_rotate *)
  ror x12 x12 3;                           (* 1539 final_scalar_rotate *)
  ror x13 x13 46;                          (* 1539 final_scalar_rotate *)
  ror x14 x14 8;                           (* 1539 final_scalar_rotate *)
  ror x15 x15 62;                          (* 1539 final_scalar_rotate *)
  ror x17 x17 36;                          (* 1539 final_scalar_rotate *)
  ror x28 x28 63;                          (* 1539 final_scalar_rotate *)
  ror x19 x19 37;                          (* 1539 final_scalar_rotate *)
  ror x20 x20 2;                           (* 1539 final_scalar_rotate *)
  ror x21 x21 20;                          (* 1539 final_scalar_rotate *)
  ror x22 x22 44;                          (* 1539 final_scalar_rotate *)
  ror x23 x23 58;                          (* 1539 final_scalar_rotate *)
  ror x24 x24 28;                          (* 1539 final_scalar_rotate *)
  ror x25 x25 9;                           (* 1539 final_scalar_rotate *)
  ldr x30 sp 32;                           (* 1542 *)
  cmp_imm x30 1                            (* 1543 *)
].

(** fips202/native/aarch64/keccak_f1600_x4_scalar_v84a_asm_hybrid_opt.S:1547-1552 *)
Definition keccak_f1600_x4_scalar_v84a_asm_hybrid_opt_4 : list instr := [
  mov_imm x30 1;                           (* 1547 *)
  str x30 sp 32;                           (* 1548 *)
  ldr x0 sp 0;                             (* 1550 *)
  add_imm x0 x0 400;                       (* 1551 store_input_scalar *)
  stp x1 x6 x0 0;                          (* 1551 store_input_scalar *)
  stp x11 x16 x0 16;                       (* 1551 store_input_scalar *)
  stp x21 x2 x0 32;                        (* 1551 store_input_scalar *)
  stp x7 x12 x0 48;                        (* 1551 store_input_scalar *)
  stp x17 x22 x0 64;                       (* 1551 store_input_scalar *)
  stp x3 x8 x0 80;                         (* 1551 store_input_scalar *)
  stp x13 x28 x0 96;                       (* 1551 store_input_scalar *)
  stp x23 x4 x0 112;                       (* 1551 store_input_scalar *)
  stp x9 x14 x0 128;                       (* 1551 store_input_scalar *)
  stp x19 x24 x0 144;                      (* 1551 store_input_scalar *)
  stp x5 x10 x0 160;                       (* 1551 store_input_scalar *)
  stp x15 x20 x0 176;                      (* 1551 store_input_scalar *)
  str x25 x0 192;                          (* 1551 store_input_scalar *)
  sub_imm x0 x0 400;                       (* 1551 store_input_scalar *)
  add_imm x0 x0 600;                       (* 1552 load_input_scalar *)
  ldp x1 x6 x0 0;                          (* 1552 load_input_scalar *)
  ldp x11 x16 x0 16;                       (* 1552 load_input_scalar *)
  ldp x21 x2 x0 32;                        (* 1552 load_input_scalar *)
  ldp x7 x12 x0 48;                        (* 1552 load_input_scalar *)
  ldp x17 x22 x0 64;                       (* 1552 load_input_scalar *)
  ldp x3 x8 x0 80;                         (* 1552 load_input_scalar *)
  ldp x13 x28 x0 96;                       (* 1552 load_input_scalar *)
  ldp x23 x4 x0 112;                       (* 1552 load_input_scalar *)
  ldp x9 x14 x0 128;                       (* 1552 load_input_scalar *)
  ldp x19 x24 x0 144;                      (* 1552 load_input_scalar *)
  ldp x5 x10 x0 160;                       (* 1552 load_input_scalar *)
  ldp x15 x20 x0 176;                      (* 1552 load_input_scalar *)
  ldr x25 x0 192;                          (* 1552 load_input_scalar *)
  sub_imm x0 x0 600                        (* 1552 load_input_scalar *)
].

(** fips202/native/aarch64/keccak_f1600_x4_scalar_v84a_asm_hybrid_opt.S:1557-1563, done: *)
Definition keccak_f1600_x4_scalar_v84a_asm_hybrid_opt_5 : list instr := [
  ldr x0 sp 0;                             (* 1557 *)
  add_imm x0 x0 600;                       (* 1558 store_input_scalar *)
  stp x1 x6 x0 0;                          (* 1558 store_input_scalar *)
  stp x11 x16 x0 16;                       (* 1558 store_input_scalar *)
  stp x21 x2 x0 32;                        (* 1558 store_input_scalar *)
  stp x7 x12 x0 48;                        (* 1558 store_input_scalar *)
  stp x17 x22 x0 64;                       (* 1558 store_input_scalar *)
  stp x3 x8 x0 80;                         (* 1558 store_input_scalar *)
  stp x13 x28 x0 96;                       (* 1558 store_input_scalar *)
  stp x23 x4 x0 112;                       (* 1558 store_input_scalar *)
  stp x9 x14 x0 128;                       (* 1558 store_input_scalar *)
  stp x19 x24 x0 144;                      (* 1558 store_input_scalar *)
  stp x5 x10 x0 160;                       (* 1558 store_input_scalar *)
  stp x15 x20 x0 176;                      (* 1558 store_input_scalar *)
  str x25 x0 192;                          (* 1558 store_input_scalar *)
  sub_imm x0 x0 600;                       (* 1558 store_input_scalar *)
  st2_d v0 v1 0 x0 (Post 16);              (* 1559 store_input_vector *)
  st2_d v2 v3 0 x0 (Post 16);              (* 1559 store_input_vector *)
  st2_d v4 v5 0 x0 (Post 16);              (* 1559 store_input_vector *)
  st2_d v6 v7 0 x0 (Post 16);              (* 1559 store_input_vector *)
  st2_d v8 v9 0 x0 (Post 16);              (* 1559 store_input_vector *)
  st2_d v10 v11 0 x0 (Post 16);            (* 1559 store_input_vector *)
  st2_d v12 v13 0 x0 (Post 16);            (* 1559 store_input_vector *)
  st2_d v14 v15 0 x0 (Post 16);            (* 1559 store_input_vector *)
  st2_d v16 v17 0 x0 (Post 16);            (* 1559 store_input_vector *)
  st2_d v18 v19 0 x0 (Post 16);            (* 1559 store_input_vector *)
  st2_d v20 v21 0 x0 (Post 16);            (* 1559 store_input_vector *)
  st2_d v22 v23 0 x0 (Post 16);            (* 1559 store_input_vector *)
  st1_d v24 0 x0 (Post 8);                 (* 1559 store_input_vector *)
  st2_d v0 v1 1 x0 (Post 16);              (* 1559 store_input_vector *)
  st2_d v2 v3 1 x0 (Post 16);              (* 1559 store_input_vector *)
  st2_d v4 v5 1 x0 (Post 16);              (* 1559 store_input_vector *)
  st2_d v6 v7 1 x0 (Post 16);              (* 1559 store_input_vector *)
  st2_d v8 v9 1 x0 (Post 16);              (* 1559 store_input_vector *)
  st2_d v10 v11 1 x0 (Post 16);            (* 1559 store_input_vector *)
  st2_d v12 v13 1 x0 (Post 16);            (* 1559 store_input_vector *)
  st2_d v14 v15 1 x0 (Post 16);            (* 1559 store_input_vector *)
  st2_d v16 v17 1 x0 (Post 16);            (* 1559 store_input_vector *)
  st2_d v18 v19 1 x0 (Post 16);            (* 1559 store_input_vector *)
  st2_d v20 v21 1 x0 (Post 16);            (* 1559 store_input_vector *)
  st2_d v22 v23 1 x0 (Post 16);            (* 1559 store_input_vector *)
  st1_d v24 1 x0 (Post 8);                 (* 1559 store_input_vector *)
  sub_imm x0 x0 400;                       (* 1559 store_input_vector *)
  ldp_d v14 v15 sp 192;                    (* 1561 restore_vregs *)
  ldp_d v12 v13 sp 176;                    (* 1561 restore_vregs *)
  ldp_d v10 v11 sp 160;                    (* 1561 restore_vregs *)
  ldp_d v8 v9 sp 144;                      (* 1561 restore_vregs *)
  ldp x19 x20 sp 48;                       (* 1562 restore_gprs *)
  ldp x21 x22 sp 64;                       (* 1562 restore_gprs *)
  ldp x23 x24 sp 80;                       (* 1562 restore_gprs *)
  ldp x25 x26 sp 96;                       (* 1562 restore_gprs *)
  ldp x27 x28 sp 112;                      (* 1562 restore_gprs *)
  ldp x29 x30 sp 128;                      (* 1562 restore_gprs *)
  add_imm sp sp 224                        (* 1563 free_stack *)
].

(** fips202/native/aarch64/keccak_f1600_x4_scalar_v84a_asm_hybrid_opt.S:918-1564 keccak_f1600_x4_scalar_v84a_asm_hybrid_opt *)
Definition keccak_f1600_x4_scalar_v84a_asm_hybrid_opt : list block := [
  (keccak_f1600_x4_scalar_v84a_asm_hybrid_opt_0, Next);
  (keccak_f1600_x4_scalar_v84a_asm_hybrid_opt_1, Next);
  (keccak_f1600_x4_scalar_v84a_asm_hybrid_opt_2, Ble 2);
  (keccak_f1600_x4_scalar_v84a_asm_hybrid_opt_3, Beq 5);
  (keccak_f1600_x4_scalar_v84a_asm_hybrid_opt_4, Goto 1);
  (keccak_f1600_x4_scalar_v84a_asm_hybrid_opt_5, Ret)].

(** fips202/native/aarch64/keccak_f1600_x4_v8a_v84a_scalar_hybrid_asm_opt.S:44-68 round_constants *)
Definition keccak_f1600_x4_scalar_v8a_v84a_hybrid_asm_opt_constants : list Z := [
  0x1; 0x8082; 0x800000000000808a;
  0x8000000080008000; 0x808b; 0x80000001;
  0x8000000080008081; 0x8000000000008009; 0x8a;
  0x88; 0x80008009; 0x8000000a;
  0x8000808b; 0x800000000000008b; 0x8000000000008089;
  0x8000000000008003; 0x8000000000008002; 0x8000000000000080;
  0x800a; 0x800000008000000a; 0x8000000080008081;
  0x8000000000008080; 0x80000001; 0x8000000080008008].

(** fips202/native/aarch64/keccak_f1600_x4_v8a_v84a_scalar_hybrid_asm_opt.S:916-929 *)
Definition keccak_f1600_x4_scalar_v8a_v84a_hybrid_asm_opt_0 : list instr := [
  sub_imm sp sp 224;                       (* 916 alloc_stack *)
  stp x19 x20 sp 48;                       (* 917 save_gprs *)
  stp x21 x22 sp 64;                       (* 917 save_gprs *)
  stp x23 x24 sp 80;                       (* 917 save_gprs *)
  stp x25 x26 sp 96;                       (* 917 save_gprs *)
  stp x27 x28 sp 112;                      (* 917 save_gprs *)
  stp x29 x30 sp 128;                      (* 917 save_gprs *)
  stp_d v8 v9 sp 144;                      (* 918 save_vregs *)
  stp_d v10 v11 sp 160;                    (* 918 save_vregs *)
  stp_d v12 v13 sp 176;                    (* 918 save_vregs *)
  stp_d v14 v15 sp 192;                    (* 918 save_vregs *)
  adr x29 2;                               (* 920 *)
  mov_imm x30 0;                           (* 922 *)
  str x30 sp 32;                           (* 923 *)
  str x29 sp 8;                            (* 924 *)
  str x29 sp 16;                           (* 925 *)
  str x0 sp 0;                             (* 926 *)
  ld2_d v0 v1 0 x0 (Post 16);              (* 928 load_input_vector *)
  ld2_d v2 v3 0 x0 (Post 16);              (* 928 load_input_vector *)
  ld2_d v4 v5 0 x0 (Post 16);              (* 928 load_input_vector *)
  ld2_d v6 v7 0 x0 (Post 16);              (* 928 load_input_vector *)
  ld2_d v8 v9 0 x0 (Post 16);              (* 928 load_input_vector *)
  ld2_d v10 v11 0 x0 (Post 16);            (* 928 load_input_vector *)
  ld2_d v12 v13 0 x0 (Post 16);            (* 928 load_input_vector *)
  ld2_d v14 v15 0 x0 (Post 16);            (* 928 load_input_vector *)
  ld2_d v16 v17 0 x0 (Post 16);            (* 928 load_input_vector *)
  ld2_d v18 v19 0 x0 (Post 16);            (* 928 load_input_vector *)
  ld2_d v20 v21 0 x0 (Post 16);            (* 928 load_input_vector *)
  ld2_d v22 v23 0 x0 (Post 16);            (* 928 load_input_vector *)
  ld1_d v24 0 x0 (Post 8);                 (* 928 load_input_vector *)
  ld2_d v0 v1 1 x0 (Post 16);              (* 928 load_input_vector *)
  ld2_d v2 v3 1 x0 (Post 16);              (* 928 load_input_vector *)
  ld2_d v4 v5 1 x0 (Post 16);              (* 928 load_input_vector *)
  ld2_d v6 v7 1 x0 (Post 16);              (* 928 load_input_vector *)
  ld2_d v8 v9 1 x0 (Post 16);              (* 928 load_input_vector *)
  ld2_d v10 v11 1 x0 (Post 16);            (* 928 load_input_vector *)
  ld2_d v12 v13 1 x0 (Post 16);            (* 928 load_input_vector *)
  ld2_d v14 v15 1 x0 (Post 16);            (* 928 load_input_vector *)
  ld2_d v16 v17 1 x0 (Post 16);            (* 928 load_input_vector *)
  ld2_d v18 v19 1 x0 (Post 16);            (* 928 load_input_vector *)
  ld2_d v20 v21 1 x0 (Post 16);            (* 928 load_input_vector *)
  ld2_d v22 v23 1 x0 (Post 16);            (* 928 load_input_vector *)
  ld1_d v24 1 x0 (Post 8);                 (* 928 load_input_vector *)
  sub_imm x0 x0 400;                       (* 928 load_input_vector *)
  add_imm x0 x0 400;                       (* 929 load_input_scalar *)
  ldp x1 x6 x0 0;                          (* 929 load_input_scalar *)
  ldp x11 x16 x0 16;                       (* 929 load_input_scalar *)
  ldp x21 x2 x0 32;                        (* 929 load_input_scalar *)
  ldp x7 x12 x0 48;                        (* 929 load_input_scalar *)
  ldp x17 x22 x0 64;                       (* 929 load_input_scalar *)
  ldp x3 x8 x0 80;                         (* 929 load_input_scalar *)
  ldp x13 x28 x0 96;                       (* 929 load_input_scalar *)
  ldp x23 x4 x0 112;                       (* 929 load_input_scalar *)
  ldp x9 x14 x0 128;                       (* 929 load_input_scalar *)
  ldp x19 x24 x0 144;                      (* 929 load_input_scalar *)
  ldp x5 x10 x0 160;                       (* 929 load_input_scalar *)
  ldp x15 x20 x0 176;                      (* 929 load_input_scalar *)
  ldr x25 x0 192;                          (* 929 load_input_scalar *)
  sub_imm x0 x0 400                        (* 929 load_input_scalar *)
].

(** fips202/native/aarch64/keccak_f1600_x4_v8a_v84a_scalar_hybrid_asm_opt.S:932-934, initial: *)
Definition keccak_f1600_x4_scalar_v8a_v84a_hybrid_asm_opt_1 : list instr := [
  eor x30 x24 x25 0;                       (* 932 scalar_round_initial *)
  eor x27 x9 x10 0;                        (* 932 scalar_round_initial *)
  eor x0 x30 x21 0;                        (* 932 scalar_round_initial *)
  eor x26 x27 x6 0;                        (* 932 scalar_round_initial *)
  eor x27 x26 x7 0;                        (* 932 scalar_round_initial *)
  eor x29 x0 x22 0;                        (* 932 scalar_round_initial *)
  eor x26 x29 x23 0;                       (* 932 scalar_round_initial *)
  eor x29 x4 x5 0;                         (* 932 scalar_round_initial *)
  eor x30 x29 x1 0;                        (* 932 scalar_round_initial *)
  eor x0 x27 x8 0;                         (* 932 scalar_round_initial *)
  eor x29 x30 x2 0;                        (* 932 scalar_round_initial *)
  eor x30 x19 x20 0;                       (* 932 scalar_round_initial *)
  eor x30 x30 x16 0;                       (* 932 scalar_round_initial *)
  eor x27 x26 x0 63;                       (* 932 scalar_round_initial *)
  eor x4 x4 x27 0;                         (* 932 scalar_round_initial *)
  eor x30 x30 x17 0;                       (* 932 scalar_round_initial *)
  eor x30 x30 x28 0;                       (* 932 scalar_round_initial *)
  eor x29 x29 x3 0;                        (* 932 scalar_round_initial *)
  eor x0 x0 x30 63;                        (* 932 scalar_round_initial *)
  eor x30 x30 x29 63;                      (* 932 scalar_round_initial *)
  eor x22 x22 x30 0;                       (* 932 scalar_round_initial *)
  eor x23 x23 x30 0;                       (* 932 scalar_round_initial *)
  str x23 sp 208;                          (* 932 scalar_round_initial *)
  eor x23 x14 x15 0;                       (* 932 scalar_round_initial *)
  eor x14 x14 x0 0;                        (* 932 scalar_round_initial *)
  eor x23 x23 x11 0;                       (* 932 scalar_round_initial *)
  eor x15 x15 x0 0;                        (* 932 scalar_round_initial *)
  eor x1 x1 x27 0;                         (* 932 scalar_round_initial *)
  eor x23 x23 x12 0;                       (* 932 scalar_round_initial *)
  eor x23 x23 x13 0;                       (* 932 scalar_round_initial *)
  eor x11 x11 x0 0;                        (* 932 scalar_round_initial *)
  eor x29 x29 x23 63;                      (* 932 scalar_round_initial *)
  eor x23 x23 x26 63;                      (* 932 scalar_round_initial *)
  eor x26 x13 x0 0;                        (* 932 scalar_round_initial *)
  eor x13 x28 x23 0;                       (* 932 scalar_round_initial *)
  eor x28 x24 x30 0;                       (* 932 scalar_round_initial *)
  eor x24 x16 x23 0;                       (* 932 scalar_round_initial *)
  eor x16 x21 x30 0;                       (* 932 scalar_round_initial *)
  eor x21 x25 x30 0;                       (* 932 scalar_round_initial *)
  eor x30 x19 x23 0;                       (* 932 scalar_round_initial *)
  eor x19 x20 x23 0;                       (* 932 scalar_round_initial *)
  eor x20 x17 x23 0;                       (* 932 scalar_round_initial *)
  eor x17 x12 x0 0;                        (* 932 scalar_round_initial *)
  eor x0 x2 x27 0;                         (* 932 scalar_round_initial *)
  eor x2 x6 x29 0;                         (* 932 scalar_round_initial *)
  eor x6 x8 x29 0;                         (* 932 scalar_round_initial *)
  bic x8 x28 x13 47;                       (* 932 scalar_round_initial *)
  eor x12 x3 x27 0;                        (* 932 scalar_round_initial *)
  bic x3 x13 x17 19;                       (* 932 scalar_round_initial *)
  eor x5 x5 x27 0;                         (* 932 scalar_round_initial *)
  ldr x27 sp 208;                          (* 932 scalar_round_initial *)
  bic x25 x17 x2 5;                        (* 932 scalar_round_initial *)
  eor x9 x9 x29 0;                         (* 932 scalar_round_initial *)
  eor x23 x25 x5 52;                       (* 932 scalar_round_initial *)
  eor x3 x3 x2 24;                         (* 932 scalar_round_initial *)
  eor x8 x8 x17 2;                         (* 932 scalar_round_initial *)
  eor x17 x10 x29 0;                       (* 932 scalar_round_initial *)
  bic x25 x12 x22 47;                      (* 932 scalar_round_initial *)
  eor x29 x7 x29 0;                        (* 932 scalar_round_initial *)
  bic x10 x4 x27 2;                        (* 932 scalar_round_initial *)
  bic x7 x5 x28 10;                        (* 932 scalar_round_initial *)
  eor x10 x10 x20 50;                      (* 932 scalar_round_initial *)
  eor x13 x7 x13 57;                       (* 932 scalar_round_initial *)
  bic x7 x2 x5 47;                         (* 932 scalar_round_initial *)
  eor x2 x25 x24 39;                       (* 932 scalar_round_initial *)
  bic x25 x20 x11 57;                      (* 932 scalar_round_initial *)
  bic x5 x17 x4 25;                        (* 932 scalar_round_initial *)
  eor x25 x25 x17 53;                      (* 932 scalar_round_initial *)
  bic x17 x11 x17 60;                      (* 932 scalar_round_initial *)
  eor x28 x7 x28 57;                       (* 932 scalar_round_initial *)
  bic x7 x9 x12 42;                        (* 932 scalar_round_initial *)
  eor x7 x7 x22 25;                        (* 932 scalar_round_initial *)
  bic x22 x22 x24 56;                      (* 932 scalar_round_initial *)
  bic x24 x24 x15 31;                      (* 932 scalar_round_initial *)
  eor x22 x22 x15 23;                      (* 932 scalar_round_initial *)
  bic x20 x27 x20 48;                      (* 932 scalar_round_initial *)
  bic x15 x15 x9 16;                       (* 932 scalar_round_initial *)
  eor x12 x15 x12 58;                      (* 932 scalar_round_initial *)
  eor x15 x5 x27 27;                       (* 932 scalar_round_initial *)
  eor x5 x20 x11 41;                       (* 932 scalar_round_initial *)
  ldr x11 sp 8;                            (* 932 scalar_round_initial *)
  eor x20 x17 x4 21;                       (* 932 scalar_round_initial *)
  eor x17 x24 x9 47;                       (* 932 scalar_round_initial *)
  mov_imm x24 1;                           (* 932 scalar_round_initial *)
  bic x9 x0 x16 9;                         (* 932 scalar_round_initial *)
  str x24 sp 24;                           (* 932 scalar_round_initial *)
  bic x24 x29 x1 44;                       (* 932 scalar_round_initial *)
  bic x27 x1 x21 50;                       (* 932 scalar_round_initial *)
  bic x4 x26 x29 63;                       (* 932 scalar_round_initial *)
  eor x1 x1 x4 21;                         (* 932 scalar_round_initial *)
  ldr x11 x11 0;                           (* 932 scalar_round_initial *)
  bic x4 x21 x30 57;                       (* 932 scalar_round_initial *)
  eor x21 x24 x21 30;                      (* 932 scalar_round_initial *)
  eor x24 x9 x19 44;                       (* 932 scalar_round_initial *)
  bic x9 x14 x6 5;                         (* 932 scalar_round_initial *)
  eor x9 x9 x0 43;                         (* 932 scalar_round_initial *)
  bic x0 x6 x0 38;                         (* 932 scalar_round_initial *)
  eor x1 x1 x11 0;                         (* 932 scalar_round_initial *)
  eor x11 x4 x26 35;                       (* 932 scalar_round_initial *)
  eor x4 x0 x16 47;                        (* 932 scalar_round_initial *)
  bic x0 x16 x19 35;                       (* 932 scalar_round_initial *)
  eor x16 x27 x30 43;                      (* 932 scalar_round_initial *)
  bic x27 x30 x26 42;                      (* 932 scalar_round_initial *)
  bic x26 x19 x14 41;                      (* 932 scalar_round_initial *)
  eor x19 x0 x14 12;                       (* 932 scalar_round_initial *)
  eor x14 x26 x6 46;                       (* 932 scalar_round_initial *)
  eor x6 x27 x29 41;                       (* 932 scalar_round_initial *)
  eor x0 x15 x11 52;                       (* 933 scalar_round_noninitial *)
  eor x0 x0 x13 48;                        (* 933 scalar_round_noninitial *)
  eor x26 x8 x9 57;                        (* 933 scalar_round_noninitial *)
  eor x27 x0 x14 10;                       (* 933 scalar_round_noninitial *)
  eor x29 x16 x28 63;                      (* 933 scalar_round_noninitial *)
  eor x26 x26 x6 51;                       (* 933 scalar_round_noninitial *)
  eor x30 x23 x22 50;                      (* 933 scalar_round_noninitial *)
  eor x0 x26 x10 31;                       (* 933 scalar_round_noninitial *)
  eor x29 x29 x19 37;                      (* 933 scalar_round_noninitial *)
  eor x27 x27 x12 5;                       (* 933 scalar_round_noninitial *)
  eor x30 x30 x24 34;                      (* 933 scalar_round_noninitial *)
  eor x0 x0 x7 27;                         (* 933 scalar_round_noninitial *)
  eor x26 x30 x21 26;                      (* 933 scalar_round_noninitial *)
  eor x26 x26 x25 15;                      (* 933 scalar_round_noninitial *)
  ror x30 x27 62;                          (* 933 scalar_round_noninitial *)
  eor x30 x30 x26 57;                      (* 933 scalar_round_noninitial *)
  ror x26 x26 58;                          (* 933 scalar_round_noninitial *)
  eor x16 x30 x16 0;                       (* 933 scalar_round_noninitial *)
  eor x28 x30 x28 63;                      (* 933 scalar_round_noninitial *)
  str x28 sp 208;                          (* 933 scalar_round_noninitial *)
  eor x29 x29 x17 36;                      (* 933 scalar_round_noninitial *)
  eor x28 x1 x2 61;                        (* 933 scalar_round_noninitial *)
  eor x19 x30 x19 37;                      (* 933 scalar_round_noninitial *)
  eor x29 x29 x20 2;                       (* 933 scalar_round_noninitial *)
  eor x28 x28 x4 54;                       (* 933 scalar_round_noninitial *)
  eor x26 x26 x0 55;                       (* 933 scalar_round_noninitial *)
  eor x28 x28 x3 39;                       (* 933 scalar_round_noninitial *)
  eor x28 x28 x5 25;                       (* 933 scalar_round_noninitial *)
  ror x0 x0 56;                            (* 933 scalar_round_noninitial *)
  eor x0 x0 x29 63;                        (* 933 scalar_round_noninitial *)
  eor x27 x28 x27 61;                      (* 933 scalar_round_noninitial *)
  eor x13 x0 x13 46;                       (* 933 scalar_round_noninitial *)
  eor x28 x29 x28 63;                      (* 933 scalar_round_noninitial *)
  eor x29 x30 x20 2;                       (* 933 scalar_round_noninitial *)
  eor x20 x26 x3 39;                       (* 933 scalar_round_noninitial *)
  eor x11 x0 x11 50;                       (* 933 scalar_round_noninitial *)
  eor x25 x28 x25 9;                       (* 933 scalar_round_noninitial *)
  eor x3 x28 x21 20;                       (* 933 scalar_round_noninitial *)
  eor x21 x26 x1 0;                        (* 933 scalar_round_noninitial *)
  eor x9 x27 x9 49;                        (* 933 scalar_round_noninitial *)
  eor x24 x28 x24 28;                      (* 933 scalar_round_noninitial *)
  eor x1 x30 x17 36;                       (* 933 scalar_round_noninitial *)
  eor x14 x0 x14 8;                        (* 933 scalar_round_noninitial *)
  eor x22 x28 x22 44;                      (* 933 scalar_round_noninitial *)
  eor x8 x27 x8 56;                        (* 933 scalar_round_noninitial *)
  eor x17 x27 x7 19;                       (* 933 scalar_round_noninitial *)
  eor x15 x0 x15 62;                       (* 933 scalar_round_noninitial *)
  bic x7 x20 x22 47;                       (* 933 scalar_round_noninitial *)
  eor x4 x26 x4 54;                        (* 933 scalar_round_noninitial *)
  eor x0 x0 x12 3;                         (* 933 scalar_round_noninitial *)
  eor x28 x28 x23 58;                      (* 933 scalar_round_noninitial *)
  eor x23 x26 x2 61;                       (* 933 scalar_round_noninitial *)
  eor x26 x26 x5 25;                       (* 933 scalar_round_noninitial *)
  eor x2 x7 x16 39;                        (* 933 scalar_round_noninitial *)
  bic x7 x9 x20 42;                        (* 933 scalar_round_noninitial *)
  bic x30 x15 x9 16;                       (* 933 scalar_round_noninitial *)
  eor x7 x7 x22 25;                        (* 933 scalar_round_noninitial *)
  eor x12 x30 x20 58;                      (* 933 scalar_round_noninitial *)
  bic x20 x22 x16 56;                      (* 933 scalar_round_noninitial *)
  eor x30 x27 x6 43;                       (* 933 scalar_round_noninitial *)
  eor x22 x20 x15 23;                      (* 933 scalar_round_noninitial *)
  bic x6 x19 x13 42;                       (* 933 scalar_round_noninitial *)
  eor x6 x6 x17 41;                        (* 933 scalar_round_noninitial *)
  bic x5 x13 x17 63;                       (* 933 scalar_round_noninitial *)
  eor x5 x21 x5 21;                        (* 933 scalar_round_noninitial *)
  bic x17 x17 x21 44;                      (* 933 scalar_round_noninitial *)
  eor x27 x27 x10 23;                      (* 933 scalar_round_noninitial *)
  bic x21 x21 x25 50;                      (* 933 scalar_round_noninitial *)
  bic x20 x27 x4 25;                       (* 933 scalar_round_noninitial *)
  bic x10 x16 x15 31;                      (* 933 scalar_round_noninitial *)
  eor x16 x21 x19 43;                      (* 933 scalar_round_noninitial *)
  eor x21 x17 x25 30;                      (* 933 scalar_round_noninitial *)
  bic x19 x25 x19 57;                      (* 933 scalar_round_noninitial *)
  ldr x25 sp 24;                           (* 933 scalar_round_noninitial *)
  eor x17 x10 x9 47;                       (* 933 scalar_round_noninitial *)
  ldr x9 sp 8;                             (* 933 scalar_round_noninitial *)
  eor x15 x20 x28 27;                      (* 933 scalar_round_noninitial *)
  bic x20 x4 x28 2;                        (* 933 scalar_round_noninitial *)
  eor x10 x20 x1 50;                       (* 933 scalar_round_noninitial *)
  bic x20 x11 x27 60;                      (* 933 scalar_round_noninitial *)
  eor x20 x20 x4 21;                       (* 933 scalar_round_noninitial *)
  bic x4 x28 x1 48;                        (* 933 scalar_round_noninitial *)
  bic x1 x1 x11 57;                        (* 933 scalar_round_noninitial *)
  ldr_index x28 x9 x25;                    (* 933 scalar_round_noninitial *)
  ldr x9 sp 208;                           (* 933 scalar_round_noninitial *)
  add_imm x25 x25 1;                       (* 933 scalar_round_noninitial *)
  str x25 sp 24;                           (* 933 scalar_round_noninitial *)
  cmp_imm x25 23;                          (* 933 scalar_round_noninitial *)
  eor x25 x1 x27 53;                       (* 933 scalar_round_noninitial *)
  bic x27 x30 x26 47;                      (* 933 scalar_round_noninitial *)
  eor x1 x5 x28 0;                         (* 933 scalar_round_noninitial *)
  eor x5 x4 x11 41;                        (* 933 scalar_round_noninitial *)
  eor x11 x19 x13 35;                      (* 933 scalar_round_noninitial *)
  bic x13 x26 x24 10;                      (* 933 scalar_round_noninitial *)
  eor x28 x27 x24 57;                      (* 933 scalar_round_noninitial *)
  bic x27 x24 x9 47;                       (* 933 scalar_round_noninitial *)
  bic x19 x23 x3 9;                        (* 933 scalar_round_noninitial *)
  bic x4 x29 x14 41;                       (* 933 scalar_round_noninitial *)
  eor x24 x19 x29 44;                      (* 933 scalar_round_noninitial *)
  bic x29 x3 x29 35;                       (* 933 scalar_round_noninitial *)
  eor x13 x13 x9 57;                       (* 933 scalar_round_noninitial *)
  eor x19 x29 x14 12;                      (* 933 scalar_round_noninitial *)
  bic x29 x9 x0 19;                        (* 933 scalar_round_noninitial *)
  bic x14 x14 x8 5;                        (* 933 scalar_round_noninitial *)
  eor x9 x14 x23 43;                       (* 933 scalar_round_noninitial *)
  eor x14 x4 x8 46;                        (* 933 scalar_round_noninitial *)
  bic x23 x8 x23 38;                       (* 933 scalar_round_noninitial *)
  eor x8 x27 x0 2;                         (* 933 scalar_round_noninitial *)
  eor x4 x23 x3 47;                        (* 933 scalar_round_noninitial *)
  bic x3 x0 x30 5;                         (* 933 scalar_round_noninitial *)
  eor x23 x3 x26 52;                       (* 933 scalar_round_noninitial *)
  eor x3 x29 x30 24;                       (* 933 scalar_round_noninitial *)
  eor3_16b v30 v0 v5 v10;                  (* 934 vector_round *)
  eor_16b v30 v30 v15;                     (* 934 vector_round *)
  eor_16b v30 v30 v20;                     (* 934 vector_round *)
  eor3_16b v29 v1 v6 v11;                  (* 934 vector_round *)
  eor_16b v29 v29 v16;                     (* 934 vector_round *)
  eor_16b v29 v29 v21;                     (* 934 vector_round *)
  eor3_16b v28 v2 v7 v12;                  (* 934 vector_round *)
  eor_16b v28 v28 v17;                     (* 934 vector_round *)
  eor_16b v28 v28 v22;                     (* 934 vector_round *)
  eor3_16b v27 v3 v8 v13;                  (* 934 vector_round *)
  eor_16b v27 v27 v18;                     (* 934 vector_round *)
  eor_16b v27 v27 v23;                     (* 934 vector_round *)
  eor3_16b v26 v4 v9 v14;                  (* 934 vector_round *)
  eor_16b v26 v26 v19;                     (* 934 vector_round *)
  eor_16b v26 v26 v24;                     (* 934 vector_round *)
  rax1_2d v25 v30 v28;                     (* 934 vector_round *)
  add_2d v31 v26 v26;                      (* 934 vector_round *)
  sri_2d v31 v26 63;                       (* 934 vector_round *)
  eor_16b v28 v31 v28;                     (* 934 vector_round *)
  rax1_2d v26 v26 v29;                     (* 934 vector_round *)
  add_2d v31 v27 v27;                      (* 934 vector_round *)
  sri_2d v31 v27 63;                       (* 934 vector_round *)
  eor_16b v29 v31 v29;                     (* 934 vector_round *)
  rax1_2d v27 v27 v30;                     (* 934 vector_round *)
  eor_16b v30 v0 v26;                      (* 934 vector_round *)
  eor_16b v31 v2 v29;                      (* 934 vector_round *)
  shl_2d v0 v31 62;                        (* 934 vector_round *)
  sri_2d v0 v31 2;                         (* 934 vector_round *)
  xar_2d v2 v12 v29 21;                    (* 934 vector_round *)
  eor_16b v31 v13 v28;                     (* 934 vector_round *)
  shl_2d v12 v31 25;                       (* 934 vector_round *)
  sri_2d v12 v31 39;                       (* 934 vector_round *)
  xar_2d v13 v19 v27 56;                   (* 934 vector_round *)
  eor_16b v31 v23 v28;                     (* 934 vector_round *)
  shl_2d v19 v31 56;                       (* 934 vector_round *)
  sri_2d v19 v31 8;                        (* 934 vector_round *)
  xar_2d v23 v15 v26 23;                   (* 934 vector_round *)
  eor_16b v31 v1 v25;                      (* 934 vector_round *)
  shl_2d v15 v31 1;                        (* 934 vector_round *)
  sri_2d v15 v31 63;                       (* 934 vector_round *)
  xar_2d v1 v8 v28 9;                      (* 934 vector_round *)
  eor_16b v31 v16 v25;                     (* 934 vector_round *)
  shl_2d v8 v31 45;                        (* 934 vector_round *)
  sri_2d v8 v31 19;                        (* 934 vector_round *)
  xar_2d v16 v7 v29 58;                    (* 934 vector_round *)
  eor_16b v31 v10 v26;                     (* 934 vector_round *)
  shl_2d v7 v31 3;                         (* 934 vector_round *)
  sri_2d v7 v31 61;                        (* 934 vector_round *)
  xar_2d v10 v3 v28 36;                    (* 934 vector_round *)
  eor_16b v31 v18 v28;                     (* 934 vector_round *)
  shl_2d v3 v31 21;                        (* 934 vector_round *)
  sri_2d v3 v31 43;                        (* 934 vector_round *)
  xar_2d v18 v17 v29 49;                   (* 934 vector_round *)
  eor_16b v31 v11 v25;                     (* 934 vector_round *)
  shl_2d v17 v31 10;                       (* 934 vector_round *)
  sri_2d v17 v31 54;                       (* 934 vector_round *)
  xar_2d v11 v9 v27 44;                    (* 934 vector_round *)
  eor_16b v31 v22 v29;                     (* 934 vector_round *)
  shl_2d v9 v31 61;                        (* 934 vector_round *)
  sri_2d v9 v31 3;                         (* 934 vector_round *)
  xar_2d v22 v14 v27 25;                   (* 934 vector_round *)
  eor_16b v31 v20 v26;                     (* 934 vector_round *)
  shl_2d v14 v31 18;                       (* 934 vector_round *)
  sri_2d v14 v31 46;                       (* 934 vector_round *)
  xar_2d v20 v4 v27 37;                    (* 934 vector_round *)
  eor_16b v31 v24 v27;                     (* 934 vector_round *)
  shl_2d v4 v31 14;                        (* 934 vector_round *)
  sri_2d v4 v31 50;                        (* 934 vector_round *)
  xar_2d v24 v21 v25 62;                   (* 934 vector_round *)
  eor_16b v31 v5 v26;                      (* 934 vector_round *)
  shl_2d v21 v31 36;                       (* 934 vector_round *)
  sri_2d v21 v31 28;                       (* 934 vector_round *)
  xar_2d v27 v6 v25 20;                    (* 934 vector_round *)
  ldr x30 sp 16;                           (* 934 vector_round *)
  ld1r_2d v28 x30 (Post 8);                (* 934 vector_round *)
  str x30 sp 16;                           (* 934 vector_round *)
  bic_16b v31 v7 v11;                      (* 934 vector_round *)
  eor_16b v5 v31 v10;                      (* 934 vector_round *)
  bcax_16b v6 v11 v8 v7;                   (* 934 vector_round *)
  bic_16b v31 v9 v8;                       (* 934 vector_round *)
  eor_16b v7 v31 v7;                       (* 934 vector_round *)
  bcax_16b v8 v8 v10 v9;                   (* 934 vector_round *)
  bic_16b v31 v11 v10;                     (* 934 vector_round *)
  eor_16b v9 v31 v9;                       (* 934 vector_round *)
  bcax_16b v10 v15 v12 v16;                (* 934 vector_round *)
  bic_16b v31 v13 v12;                     (* 934 vector_round *)
  eor_16b v11 v31 v16;                     (* 934 vector_round *)
  bcax_16b v12 v12 v14 v13;                (* 934 vector_round *)
  bic_16b v31 v15 v14;                     (* 934 vector_round *)
  eor_16b v13 v31 v13;                     (* 934 vector_round *)
  bic_16b v31 v16 v15;                     (* 934 vector_round *)
  eor_16b v14 v31 v14;                     (* 934 vector_round *)
  bcax_16b v15 v20 v17 v21;                (* 934 vector_round *)
  bic_16b v31 v18 v17;                     (* 934 vector_round *)
  eor_16b v16 v31 v21;                     (* 934 vector_round *)
  bcax_16b v17 v17 v19 v18;                (* 934 vector_round *)
  bic_16b v31 v20 v19;                     (* 934 vector_round *)
  eor_16b v18 v31 v18;                     (* 934 vector_round *)
  bcax_16b v19 v19 v21 v20;                (* 934 vector_round *)
  bic_16b v31 v22 v1;                      (* 934 vector_round *)
  eor_16b v20 v31 v0;                      (* 934 vector_round *)
  bcax_16b v21 v1 v23 v22;                 (* 934 vector_round *)
  bic_16b v31 v24 v23;                     (* 934 vector_round *)
  eor_16b v22 v31 v22;                     (* 934 vector_round *)
  bcax_16b v23 v23 v0 v24;                 (* 934 vector_round *)
  bic_16b v31 v1 v0;                       (* 934 vector_round *)
  eor_16b v24 v31 v24;                     (* 934 vector_round *)
  bcax_16b v0 v30 v2 v27;                  (* 934 vector_round *)
  bic_16b v31 v3 v2;                       (* 934 vector_round *)
  eor_16b v1 v31 v27;                      (* 934 vector_round *)
  bcax_16b v2 v2 v4 v3;                    (* 934 vector_round *)
  bic_16b v31 v30 v4;                      (* 934 vector_round *)
  eor_16b v3 v31 v3;                       (* 934 vector_round *)
  bcax_16b v4 v4 v27 v30;                  (* 934 vector_round *)
  eor_16b v0 v0 v28                        (* 934 vector_round *)
].

(** fips202/native/aarch64/keccak_f1600_x4_v8a_v84a_scalar_hybrid_asm_opt.S:943-1281, loop: *)
Definition keccak_f1600_x4_scalar_v8a_v84a_hybrid_asm_opt_2 : list instr := [
  eor x0 x15 x11 52;                       (* 943 *)
  eor x0 x0 x13 48;                        (* 944 *)
  eor3_16b v30 v0 v5 v10;                  (* 945 *)
  eor_16b v30 v30 v15;                     (* 946 *)
  eor x26 x8 x9 57;                        (* 947 *)
  eor x27 x0 x14 10;                       (* 948 *)
  eor_16b v30 v30 v20;                     (* 949 *)
  eor x29 x16 x28 63;                      (* 950 *)
  eor x26 x26 x6 51;                       (* 951 *)
  eor3_16b v29 v1 v6 v11;                  (* 952 *)
  eor x30 x23 x22 50;                      (* 953 *)
  eor x0 x26 x10 31;                       (* 954 *)
  eor_16b v29 v29 v16;                     (* 955 *)
  eor x29 x29 x19 37;                      (* 956 *)
  eor x27 x27 x12 5;                       (* 957 *)
  eor_16b v29 v29 v21;                     (* 958 *)
  eor x30 x30 x24 34;                      (* 959 *)
  eor x0 x0 x7 27;                         (* 960 *)
  eor3_16b v28 v2 v7 v12;                  (* 961 *)
  eor x26 x30 x21 26;                      (* 962 *)
  eor x26 x26 x25 15;                      (* 963 *)
  eor_16b v28 v28 v17;                     (* 964 *)
  ror x30 x27 62;                          (* 965 *)
  eor x30 x30 x26 57;                      (* 966 *)
  eor_16b v28 v28 v22;                     (* 967 *)
  ror x26 x26 58;                          (* 968 *)
  eor x16 x30 x16 0;                       (* 969 *)
  eor3_16b v27 v3 v8 v13;                  (* 970 *)
  eor x28 x30 x28 63;                      (* 971 *)
  str x28 sp 208;                          (* 972 *)
  eor_16b v27 v27 v18;                     (* 973 *)
  eor x29 x29 x17 36;                      (* 974 *)
  eor x28 x1 x2 61;                        (* 975 *)
  eor_16b v27 v27 v23;                     (* 976 *)
  eor x19 x30 x19 37;                      (* 977 *)
  eor x29 x29 x20 2;                       (* 978 *)
  eor3_16b v26 v4 v9 v14;                  (* 979 *)
  eor x28 x28 x4 54;                       (* 980 *)
  eor x26 x26 x0 55;                       (* 981 *)
  eor_16b v26 v26 v19;                     (* 982 *)
  eor x28 x28 x3 39;                       (* 983 *)
  eor x28 x28 x5 25;                       (* 984 *)
  eor_16b v26 v26 v24;                     (* 985 *)
  ror x0 x0 56;                            (* 986 *)
  eor x0 x0 x29 63;                        (* 987 *)
  rax1_2d v25 v30 v28;                     (* 988 *)
  eor x27 x28 x27 61;                      (* 989 *)
  eor x13 x0 x13 46;                       (* 990 *)
  add_2d v31 v26 v26;                      (* 991 *)
  eor x28 x29 x28 63;                      (* 992 *)
  eor x29 x30 x20 2;                       (* 993 *)
  sri_2d v31 v26 63;                       (* 994 *)
  eor x20 x26 x3 39;                       (* 995 *)
  eor x11 x0 x11 50;                       (* 996 *)
  eor_16b v28 v31 v28;                     (* 997 *)
  eor x25 x28 x25 9;                       (* 998 *)
  eor x3 x28 x21 20;                       (* 999 *)
  rax1_2d v26 v26 v29;                     (* 1000 *)
  eor x21 x26 x1 0;                        (* 1001 *)
  add_2d v31 v27 v27;                      (* 1002 *)
  eor x9 x27 x9 49;                        (* 1003 *)
  eor x24 x28 x24 28;                      (* 1004 *)
  sri_2d v31 v27 63;                       (* 1005 *)
  eor x1 x30 x17 36;                       (* 1006 *)
  eor x14 x0 x14 8;                        (* 1007 *)
  eor_16b v29 v31 v29;                     (* 1008 *)
  eor x22 x28 x22 44;                      (* 1009 *)
  eor x8 x27 x8 56;                        (* 1010 *)
  rax1_2d v27 v27 v30;                     (* 1011 *)
  eor x17 x27 x7 19;                       (* 1012 *)
  eor x15 x0 x15 62;                       (* 1013 *)
  eor_16b v30 v0 v26;                      (* 1014 *)
  bic x7 x20 x22 47;                       (* 1015 *)
  eor x4 x26 x4 54;                        (* 1016 *)
  eor_16b v31 v2 v29;                      (* 1017 *)
  eor x0 x0 x12 3;                         (* 1018 *)
  eor x28 x28 x23 58;                      (* 1019 *)
  shl_2d v0 v31 62;                        (* 1020 *)
  eor x23 x26 x2 61;                       (* 1021 *)
  eor x26 x26 x5 25;                       (* 1022 *)
  sri_2d v0 v31 2;                         (* 1023 *)
  eor x2 x7 x16 39;                        (* 1024 *)
  bic x7 x9 x20 42;                        (* 1025 *)
  xar_2d v2 v12 v29 21;                    (* 1026 *)
  bic x30 x15 x9 16;                       (* 1027 *)
  eor x7 x7 x22 25;                        (* 1028 *)
  eor_16b v31 v13 v28;                     (* 1029 *)
  eor x12 x30 x20 58;                      (* 1030 *)
  bic x20 x22 x16 56;                      (* 1031 *)
  shl_2d v12 v31 25;                       (* 1032 *)
  eor x30 x27 x6 43;                       (* 1033 *)
  eor x22 x20 x15 23;                      (* 1034 *)
  sri_2d v12 v31 39;                       (* 1035 *)
  bic x6 x19 x13 42;                       (* 1036 *)
  eor x6 x6 x17 41;                        (* 1037 *)
  xar_2d v13 v19 v27 56;                   (* 1038 *)
  bic x5 x13 x17 63;                       (* 1039 *)
  eor x5 x21 x5 21;                        (* 1040 *)
  eor_16b v31 v23 v28;                     (* 1041 *)
  bic x17 x17 x21 44;                      (* 1042 *)
  eor x27 x27 x10 23;                      (* 1043 *)
  shl_2d v19 v31 56;                       (* 1044 *)
  bic x21 x21 x25 50;                      (* 1045 *)
  bic x20 x27 x4 25;                       (* 1046 *)
  sri_2d v19 v31 8;                        (* 1047 *)
  bic x10 x16 x15 31;                      (* 1048 *)
  eor x16 x21 x19 43;                      (* 1049 *)
  xar_2d v23 v15 v26 23;                   (* 1050 *)
  eor x21 x17 x25 30;                      (* 1051 *)
  bic x19 x25 x19 57;                      (* 1052 *)
  eor_16b v31 v1 v25;                      (* 1053 *)
  ldr x25 sp 24;                           (* 1054 *)
  eor x17 x10 x9 47;                       (* 1055 *)
  shl_2d v15 v31 1;                        (* 1056 *)
  ldr x9 sp 8;                             (* 1057 *)
  sri_2d v15 v31 63;                       (* 1058 *)
  eor x15 x20 x28 27;                      (* 1059 *)
  bic x20 x4 x28 2;                        (* 1060 *)
  xar_2d v1 v8 v28 9;                      (* 1061 *)
  eor x10 x20 x1 50;                       (* 1062 *)
  bic x20 x11 x27 60;                      (* 1063 *)
  eor_16b v31 v16 v25;                     (* 1064 *)
  eor x20 x20 x4 21;                       (* 1065 *)
  bic x4 x28 x1 48;                        (* 1066 *)
  shl_2d v8 v31 45;                        (* 1067 *)
  bic x1 x1 x11 57;                        (* 1068 *)
  ldr_index x28 x9 x25;                    (* 1069 *)
  sri_2d v8 v31 19;                        (* 1070 *)
  ldr x9 sp 208;                           (* 1071 *)
  add_imm x25 x25 1;                       (* 1072 *)
  xar_2d v16 v7 v29 58;                    (* 1073 *)
  str x25 sp 24;                           (* 1074 *)
  cmp_imm x25 23;                          (* 1075 *)
  eor_16b v31 v10 v26;                     (* 1076 *)
  eor x25 x1 x27 53;                       (* 1077 *)
  bic x27 x30 x26 47;                      (* 1078 *)
  shl_2d v7 v31 3;                         (* 1079 *)
  eor x1 x5 x28 0;                         (* 1080 *)
  eor x5 x4 x11 41;                        (* 1081 *)
  sri_2d v7 v31 61;                        (* 1082 *)
  eor x11 x19 x13 35;                      (* 1083 *)
  bic x13 x26 x24 10;                      (* 1084 *)
  xar_2d v10 v3 v28 36;                    (* 1085 *)
  eor x28 x27 x24 57;                      (* 1086 *)
  bic x27 x24 x9 47;                       (* 1087 *)
  eor_16b v31 v18 v28;                     (* 1088 *)
  bic x19 x23 x3 9;                        (* 1089 *)
  bic x4 x29 x14 41;                       (* 1090 *)
  shl_2d v3 v31 21;                        (* 1091 *)
  eor x24 x19 x29 44;                      (* 1092 *)
  bic x29 x3 x29 35;                       (* 1093 *)
  sri_2d v3 v31 43;                        (* 1094 *)
  eor x13 x13 x9 57;                       (* 1095 *)
  eor x19 x29 x14 12;                      (* 1096 *)
  xar_2d v18 v17 v29 49;                   (* 1097 *)
  bic x29 x9 x0 19;                        (* 1098 *)
  bic x14 x14 x8 5;                        (* 1099 *)
  eor_16b v31 v11 v25;                     (* 1100 *)
  eor x9 x14 x23 43;                       (* 1101 *)
  eor x14 x4 x8 46;                        (* 1102 *)
  shl_2d v17 v31 10;                       (* 1103 *)
  bic x23 x8 x23 38;                       (* 1104 *)
  eor x8 x27 x0 2;                         (* 1105 *)
  sri_2d v17 v31 54;                       (* 1106 *)
  eor x4 x23 x3 47;                        (* 1107 *)
  bic x3 x0 x30 5;                         (* 1108 *)
  xar_2d v11 v9 v27 44;                    (* 1109 *)
  eor x23 x3 x26 52;                       (* 1110 *)
  eor x3 x29 x30 24;                       (* 1111 *)
  eor_16b v31 v22 v29;                     (* 1112 *)
  eor x0 x15 x11 52;                       (* 1113 *)
  shl_2d v9 v31 61;                        (* 1114 *)
  eor x0 x0 x13 48;                        (* 1115 *)
  eor x26 x8 x9 57;                        (* 1116 *)
  sri_2d v9 v31 3;                         (* 1117 *)
  eor x27 x0 x14 10;                       (* 1118 *)
  eor x29 x16 x28 63;                      (* 1119 *)
  xar_2d v22 v14 v27 25;                   (* 1120 *)
  eor x26 x26 x6 51;                       (* 1121 *)
  eor x30 x23 x22 50;                      (* 1122 *)
  eor_16b v31 v20 v26;                     (* 1123 *)
  eor x0 x26 x10 31;                       (* 1124 *)
  eor x29 x29 x19 37;                      (* 1125 *)
  shl_2d v14 v31 18;                       (* 1126 *)
  eor x27 x27 x12 5;                       (* 1127 *)
  eor x30 x30 x24 34;                      (* 1128 *)
  sri_2d v14 v31 46;                       (* 1129 *)
  eor x0 x0 x7 27;                         (* 1130 *)
  eor x26 x30 x21 26;                      (* 1131 *)
  xar_2d v20 v4 v27 37;                    (* 1132 *)
  eor x26 x26 x25 15;                      (* 1133 *)
  ror x30 x27 62;                          (* 1134 *)
  eor_16b v31 v24 v27;                     (* 1135 *)
  eor x30 x30 x26 57;                      (* 1136 *)
  ror x26 x26 58;                          (* 1137 *)
  shl_2d v4 v31 14;                        (* 1138 *)
  eor x16 x30 x16 0;                       (* 1139 *)
  eor x28 x30 x28 63;                      (* 1140 *)
  sri_2d v4 v31 50;                        (* 1141 *)
  str x28 sp 208;                          (* 1142 *)
  eor x29 x29 x17 36;                      (* 1143 *)
  xar_2d v24 v21 v25 62;                   (* 1144 *)
  eor x28 x1 x2 61;                        (* 1145 *)
  eor x19 x30 x19 37;                      (* 1146 *)
  eor_16b v31 v5 v26;                      (* 1147 *)
  eor x29 x29 x20 2;                       (* 1148 *)
  eor x28 x28 x4 54;                       (* 1149 *)
  shl_2d v21 v31 36;                       (* 1150 *)
  eor x26 x26 x0 55;                       (* 1151 *)
  eor x28 x28 x3 39;                       (* 1152 *)
  sri_2d v21 v31 28;                       (* 1153 *)
  eor x28 x28 x5 25;                       (* 1154 *)
  ror x0 x0 56;                            (* 1155 *)
  xar_2d v27 v6 v25 20;                    (* 1156 *)
  eor x0 x0 x29 63;                        (* 1157 *)
  eor x27 x28 x27 61;                      (* 1158 *)
  bic_16b v31 v7 v11;                      (* 1159 *)
  eor x13 x0 x13 46;                       (* 1160 *)
  eor x28 x29 x28 63;                      (* 1161 *)
  eor_16b v5 v31 v10;                      (* 1162 *)
  eor x29 x30 x20 2;                       (* 1163 *)
  eor x20 x26 x3 39;                       (* 1164 *)
  bcax_16b v6 v11 v8 v7;                   (* 1165 *)
  eor x11 x0 x11 50;                       (* 1166 *)
  eor x25 x28 x25 9;                       (* 1167 *)
  bic_16b v31 v9 v8;                       (* 1168 *)
  eor x3 x28 x21 20;                       (* 1169 *)
  eor_16b v7 v31 v7;                       (* 1170 *)
  eor x21 x26 x1 0;                        (* 1171 *)
  eor x9 x27 x9 49;                        (* 1172 *)
  bcax_16b v8 v8 v10 v9;                   (* 1173 *)
  eor x24 x28 x24 28;                      (* 1174 *)
  eor x1 x30 x17 36;                       (* 1175 *)
  bic_16b v31 v11 v10;                     (* 1176 *)
  eor x14 x0 x14 8;                        (* 1177 *)
  eor x22 x28 x22 44;                      (* 1178 *)
  eor_16b v9 v31 v9;                       (* 1179 *)
  eor x8 x27 x8 56;                        (* 1180 *)
  eor x17 x27 x7 19;                       (* 1181 *)
  bcax_16b v10 v15 v12 v16;                (* 1182 *)
  eor x15 x0 x15 62;                       (* 1183 *)
  bic x7 x20 x22 47;                       (* 1184 *)
  bic_16b v31 v13 v12;                     (* 1185 *)
  eor x4 x26 x4 54;                        (* 1186 *)
  eor x0 x0 x12 3;                         (* 1187 *)
  eor_16b v11 v31 v16;                     (* 1188 *)
  eor x28 x28 x23 58;                      (* 1189 *)
  eor x23 x26 x2 61;                       (* 1190 *)
  bcax_16b v12 v12 v14 v13;                (* 1191 *)
  eor x26 x26 x5 25;                       (* 1192 *)
  eor x2 x7 x16 39;                        (* 1193 *)
  bic_16b v31 v15 v14;                     (* 1194 *)
  bic x7 x9 x20 42;                        (* 1195 *)
  bic x30 x15 x9 16;                       (* 1196 *)
  eor_16b v13 v31 v13;                     (* 1197 *)
  eor x7 x7 x22 25;                        (* 1198 *)
  eor x12 x30 x20 58;                      (* 1199 *)
  bic_16b v31 v16 v15;                     (* 1200 *)
  bic x20 x22 x16 56;                      (* 1201 *)
  eor x30 x27 x6 43;                       (* 1202 *)
  eor_16b v14 v31 v14;                     (* 1203 *)
  eor x22 x20 x15 23;                      (* 1204 *)
  bic x6 x19 x13 42;                       (* 1205 *)
  bcax_16b v15 v20 v17 v21;                (* 1206 *)
  eor x6 x6 x17 41;                        (* 1207 *)
  bic x5 x13 x17 63;                       (* 1208 *)
  bic_16b v31 v18 v17;                     (* 1209 *)
  eor x5 x21 x5 21;                        (* 1210 *)
  bic x17 x17 x21 44;                      (* 1211 *)
  eor_16b v16 v31 v21;                     (* 1212 *)
  eor x27 x27 x10 23;                      (* 1213 *)
  bic x21 x21 x25 50;                      (* 1214 *)
  bcax_16b v17 v17 v19 v18;                (* 1215 *)
  bic x20 x27 x4 25;                       (* 1216 *)
  bic x10 x16 x15 31;                      (* 1217 *)
  bic_16b v31 v20 v19;                     (* 1218 *)
  eor x16 x21 x19 43;                      (* 1219 *)
  eor x21 x17 x25 30;                      (* 1220 *)
  eor_16b v18 v31 v18;                     (* 1221 *)
  bic x19 x25 x19 57;                      (* 1222 *)
  ldr x25 sp 24;                           (* 1223 *)
  bcax_16b v19 v19 v21 v20;                (* 1224 *)
  eor x17 x10 x9 47;                       (* 1225 *)
  bic_16b v31 v22 v1;                      (* 1226 *)
  ldr x9 sp 8;                             (* 1227 *)
  eor x15 x20 x28 27;                      (* 1228 *)
  eor_16b v20 v31 v0;                      (* 1229 *)
  bic x20 x4 x28 2;                        (* 1230 *)
  eor x10 x20 x1 50;                       (* 1231 *)
  bcax_16b v21 v1 v23 v22;                 (* 1232 *)
  bic x20 x11 x27 60;                      (* 1233 *)
  eor x20 x20 x4 21;                       (* 1234 *)
  bic_16b v31 v24 v23;                     (* 1235 *)
  bic x4 x28 x1 48;                        (* 1236 *)
  bic x1 x1 x11 57;                        (* 1237 *)
  eor_16b v22 v31 v22;                     (* 1238 *)
  ldr_index x28 x9 x25;                    (* 1239 *)
  ldr x9 sp 208;                           (* 1240 *)
  bcax_16b v23 v23 v0 v24;                 (* 1241 *)
  add_imm x25 x25 1;                       (* 1242 *)
  str x25 sp 24;                           (* 1243 *)
  bic_16b v31 v1 v0;                       (* 1244 *)
  cmp_imm x25 23;                          (* 1245 *)
  eor x25 x1 x27 53;                       (* 1246 *)
  eor_16b v24 v31 v24;                     (* 1247 *)
  bic x27 x30 x26 47;                      (* 1248 *)
  eor x1 x5 x28 0;                         (* 1249 *)
  bcax_16b v0 v30 v2 v27;                  (* 1250 *)
  eor x5 x4 x11 41;                        (* 1251 *)
  eor x11 x19 x13 35;                      (* 1252 *)
  bic_16b v31 v3 v2;                       (* 1253 *)
  bic x13 x26 x24 10;                      (* 1254 *)
  eor x28 x27 x24 57;                      (* 1255 *)
  eor_16b v1 v31 v27;                      (* 1256 *)
  bic x27 x24 x9 47;                       (* 1257 *)
  bic x19 x23 x3 9;                        (* 1258 *)
  bcax_16b v2 v2 v4 v3;                    (* 1259 *)
  bic x4 x29 x14 41;                       (* 1260 *)
  eor x24 x19 x29 44;                      (* 1261 *)
  bic_16b v31 v30 v4;                      (* 1262 *)
  bic x29 x3 x29 35;                       (* 1263 *)
  eor x13 x13 x9 57;                       (* 1264 *)
  eor_16b v3 v31 v3;                       (* 1265 *)
  eor x19 x29 x14 12;                      (* 1266 *)
  bic x29 x9 x0 19;                        (* 1267 *)
  bcax_16b v4 v4 v27 v30;                  (* 1268 *)
  bic x14 x14 x8 5;                        (* 1269 *)
  eor x9 x14 x23 43;                       (* 1270 *)
  eor x14 x4 x8 46;                        (* 1271 *)
  bic x23 x8 x23 38;                       (* 1272 *)
  eor x8 x27 x0 2;                         (* 1273 *)
  eor x4 x23 x3 47;                        (* 1274 *)
  bic x3 x0 x30 5;                         (* 1275 *)
  eor x23 x3 x26 52;                       (* 1276 *)
  eor x3 x29 x30 24;                       (* 1277 *)
  ldr x30 sp 16;                           (* 1278 *)
  ld1r_2d v28 x30 (Post 8);                (* 1279 *)
  str x30 sp 16;                           (* 1280 *)
  eor_16b v0 v0 v28                        (* 1281 *)
].

(** fips202/native/aarch64/keccak_f1600_x4_v8a_v84a_scalar_hybrid_asm_opt.S:1629-1633 *)
Definition keccak_f1600_x4_scalar_v8a_v84a_hybrid_asm_opt_3 : list instr := [
  ror x2 x2 61;                            (* 1629 final_scalar_rotate *)
  ror x3 x3 39;                            (* 1629 final_scalar_rotate *)
  ror x4 x4 54;                            (* 1629 final_scalar_rotate *)
  ror x5 x5 25;                            (* 1629 final_scalar_rotate *)
  ror x6 x6 43;                            (* 1629 final_scalar_rotate *)
  ror x7 x7 19;                            (* 1629 final_scalar_rotate *)
  ror x8 x8 56;                            (* 1629 final_scalar_rotate *)
  ror x9 x9 49;                            (* 1629 final_scalar_rotate *)
  ror x10 x10 23;                          (* 1629 final_scalar_rotate *)
  ror x11 x11 50;                          (* 1629 final_scalar_rotate *)
  ror x12 x12 3;                           (* 1629 final_scalar_rotate *)
  ror x13 x13 46;                          (* 1629 final_scalar_rotate *)
  ror x14 x14 8;                           (* 1629 final_scalar_rotate *)
  ror x15 x15 62;                          (* 1629 final_scalar_rotate *)
  ror x17 x17 36;                          (* 1629 final_scalar_rotate *)
  ror x28 x28 63;                          (* 1629 final_scalar_rotate *)
  ror x19 x19 37;                          (* 1629 final_scalar_rotate *)
  ror x20 x20 2;                           (* 1629 final_scalar_rotate *)
  ror x21 x21 20;                          (* 1629 final_scalar_rotate *)
  ror x22 x22 44;                          (* 1629 final_scalar_rotate *)
  ror x23 x23 58;                          (* 1629 final_scalar_rotate *)
  ror x24 x24 28;                          (* 1629 final_scalar_rotate *)
  ror x25 x25 9;                           (* 1629 final_scalar_rotate *)
  ldr x30 sp 32;                           (* 1632 *)
  cmp_imm x30 1                            (* 1633 *)
].

(** fips202/native/aarch64/keccak_f1600_x4_v8a_v84a_scalar_hybrid_asm_opt.S:1637-1642 *)
Definition keccak_f1600_x4_scalar_v8a_v84a_hybrid_asm_opt_4 : list instr := [
  mov_imm x30 1;                           (* 1637 *)
  str x30 sp 32;                           (* 1638 *)
  ldr x0 sp 0;                             (* 1640 *)
  add_imm x0 x0 400;                       (* 1641 store_input_scalar *)
  stp x1 x6 x0 0;                          (* 1641 store_input_scalar *)
  stp x11 x16 x0 16;                       (* 1641 store_input_scalar *)
  stp x21 x2 x0 32;                        (* 1641 store_input_scalar *)
  stp x7 x12 x0 48;                        (* 1641 store_input_scalar *)
  stp x17 x22 x0 64;                       (* 1641 store_input_scalar *)
  stp x3 x8 x0 80;                         (* 1641 store_input_scalar *)
  stp x13 x28 x0 96;                       (* 1641 store_input_scalar *)
  stp x23 x4 x0 112;                       (* 1641 store_input_scalar *)
  stp x9 x14 x0 128;                       (* 1641 store_input_scalar *)
  stp x19 x24 x0 144;                      (* 1641 store_input_scalar *)
  stp x5 x10 x0 160;                       (* 1641 store_input_scalar *)
  stp x15 x20 x0 176;                      (* 1641 store_input_scalar *)
  str x25 x0 192;                          (* 1641 store_input_scalar *)
  sub_imm x0 x0 400;                       (* 1641 store_input_scalar *)
  add_imm x0 x0 600;                       (* 1642 load_input_scalar *)
  ldp x1 x6 x0 0;                          (* 1642 load_input_scalar *)
  ldp x11 x16 x0 16;                       (* 1642 load_input_scalar *)
  ldp x21 x2 x0 32;                        (* 1642 load_input_scalar *)
  ldp x7 x12 x0 48;                        (* 1642 load_input_scalar *)
  ldp x17 x22 x0 64;                       (* 1642 load_input_scalar *)
  ldp x3 x8 x0 80;                         (* 1642 load_input_scalar *)
  ldp x13 x28 x0 96;                       (* 1642 load_input_scalar *)
  ldp x23 x4 x0 112;                       (* 1642 load_input_scalar *)
  ldp x9 x14 x0 128;                       (* 1642 load_input_scalar *)
  ldp x19 x24 x0 144;                      (* 1642 load_input_scalar *)
  ldp x5 x10 x0 160;                       (* 1642 load_input_scalar *)
  ldp x15 x20 x0 176;                      (* 1642 load_input_scalar *)
  ldr x25 x0 192;                          (* 1642 load_input_scalar *)
  sub_imm x0 x0 600                        (* 1642 load_input_scalar *)
].

(** fips202/native/aarch64/keccak_f1600_x4_v8a_v84a_scalar_hybrid_asm_opt.S:1647-1653, done: *)
Definition keccak_f1600_x4_scalar_v8a_v84a_hybrid_asm_opt_5 : list instr := [
  ldr x0 sp 0;                             (* 1647 *)
  add_imm x0 x0 600;                       (* 1648 store_input_scalar *)
  stp x1 x6 x0 0;                          (* 1648 store_input_scalar *)
  stp x11 x16 x0 16;                       (* 1648 store_input_scalar *)
  stp x21 x2 x0 32;                        (* 1648 store_input_scalar *)
  stp x7 x12 x0 48;                        (* 1648 store_input_scalar *)
  stp x17 x22 x0 64;                       (* 1648 store_input_scalar *)
  stp x3 x8 x0 80;                         (* 1648 store_input_scalar *)
  stp x13 x28 x0 96;                       (* 1648 store_input_scalar *)
  stp x23 x4 x0 112;                       (* 1648 store_input_scalar *)
  stp x9 x14 x0 128;                       (* 1648 store_input_scalar *)
  stp x19 x24 x0 144;                      (* 1648 store_input_scalar *)
  stp x5 x10 x0 160;                       (* 1648 store_input_scalar *)
  stp x15 x20 x0 176;                      (* 1648 store_input_scalar *)
  str x25 x0 192;                          (* 1648 store_input_scalar *)
  sub_imm x0 x0 600;                       (* 1648 store_input_scalar *)
  st2_d v0 v1 0 x0 (Post 16);              (* 1649 store_input_vector *)
  st2_d v2 v3 0 x0 (Post 16);              (* 1649 store_input_vector *)
  st2_d v4 v5 0 x0 (Post 16);              (* 1649 store_input_vector *)
  st2_d v6 v7 0 x0 (Post 16);              (* 1649 store_input_vector *)
  st2_d v8 v9 0 x0 (Post 16);              (* 1649 store_input_vector *)
  st2_d v10 v11 0 x0 (Post 16);            (* 1649 store_input_vector *)
  st2_d v12 v13 0 x0 (Post 16);            (* 1649 store_input_vector *)
  st2_d v14 v15 0 x0 (Post 16);            (* 1649 store_input_vector *)
  st2_d v16 v17 0 x0 (Post 16);            (* 1649 store_input_vector *)
  st2_d v18 v19 0 x0 (Post 16);            (* 1649 store_input_vector *)
  st2_d v20 v21 0 x0 (Post 16);            (* 1649 store_input_vector *)
  st2_d v22 v23 0 x0 (Post 16);            (* 1649 store_input_vector *)
  st1_d v24 0 x0 (Post 8);                 (* 1649 store_input_vector *)
  st2_d v0 v1 1 x0 (Post 16);              (* 1649 store_input_vector *)
  st2_d v2 v3 1 x0 (Post 16);              (* 1649 store_input_vector *)
  st2_d v4 v5 1 x0 (Post 16);              (* 1649 store_input_vector *)
  st2_d v6 v7 1 x0 (Post 16);              (* 1649 store_input_vector *)
  st2_d v8 v9 1 x0 (Post 16);              (* 1649 store_input_vector *)
  st2_d v10 v11 1 x0 (Post 16);            (* 1649 store_input_vector *)
  st2_d v12 v13 1 x0 (Post 16);            (* 1649 store_input_vector *)
  st2_d v14 v15 1 x0 (Post 16);            (* 1649 store_input_vector *)
  st2_d v16 v17 1 x0 (Post 16);            (* 1649 store_input_vector *)
  st2_d v18 v19 1 x0 (Post 16);            (* 1649 store_input_vector *)
  st2_d v20 v21 1 x0 (Post 16);            (* 1649 store_input_vector *)
  st2_d v22 v23 1 x0 (Post 16);            (* 1649 store_input_vector *)
  st1_d v24 1 x0 (Post 8);                 (* 1649 store_input_vector *)
  sub_imm x0 x0 400;                       (* 1649 store_input_vector *)
  ldp_d v14 v15 sp 192;                    (* 1651 restore_vregs *)
  ldp_d v12 v13 sp 176;                    (* 1651 restore_vregs *)
  ldp_d v10 v11 sp 160;                    (* 1651 restore_vregs *)
  ldp_d v8 v9 sp 144;                      (* 1651 restore_vregs *)
  ldp x19 x20 sp 48;                       (* 1652 restore_gprs *)
  ldp x21 x22 sp 64;                       (* 1652 restore_gprs *)
  ldp x23 x24 sp 80;                       (* 1652 restore_gprs *)
  ldp x25 x26 sp 96;                       (* 1652 restore_gprs *)
  ldp x27 x28 sp 112;                      (* 1652 restore_gprs *)
  ldp x29 x30 sp 128;                      (* 1652 restore_gprs *)
  add_imm sp sp 224                        (* 1653 free_stack *)
].

(** fips202/native/aarch64/keccak_f1600_x4_v8a_v84a_scalar_hybrid_asm_opt.S:916-1654 keccak_f1600_x4_scalar_v8a_v84a_hybrid_asm_opt *)
Definition keccak_f1600_x4_scalar_v8a_v84a_hybrid_asm_opt : list block := [
  (keccak_f1600_x4_scalar_v8a_v84a_hybrid_asm_opt_0, Next);
  (keccak_f1600_x4_scalar_v8a_v84a_hybrid_asm_opt_1, Next);
  (keccak_f1600_x4_scalar_v8a_v84a_hybrid_asm_opt_2, Ble 2);
  (keccak_f1600_x4_scalar_v8a_v84a_hybrid_asm_opt_3, Beq 5);
  (keccak_f1600_x4_scalar_v8a_v84a_hybrid_asm_opt_4, Goto 1);
  (keccak_f1600_x4_scalar_v8a_v84a_hybrid_asm_opt_5, Ret)].

