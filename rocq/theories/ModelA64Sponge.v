(** * The AArch64 build of fips202/fips202.c and fips202/fips202x4.c

    The C text is that of ModelKeccak.v, with the permutations of ModelA64Fips202.v. Functions
    have the name of the C function with the suffix _aarch64; functions that do not permute the
    state are those of ModelKeccak.v. [J] stands for uninitialised memory and for the contents
    of the vector registers at the calls of native code. *)

From Coq Require Import ZArith List Bool.
From Verif Require Import ModelA64Fips202.
From Verif Require Import CSem ModelArith ModelKeccak.
Import ListNotations.
Open Scope Z_scope.

(** The machine is little-endian (cpucap.h). *)
#[local] Existing Instance LittleEndian.

(** fips202.c 37-64; [mlen + 1] iterations of fuel are never used up *)
Definition keccak_absorb_aarch64 (c : fips202_config) (J : junk) (s : list Z) (r : Z) (m : list Z) (mlen p : Z) : M (list Z) :=
  '(s, pos, mlen) <- while (S (Z.to_nat mlen))
    (fun '(s, pos, mlen) => r <=? mlen)
    (fun '(s, pos, mlen) =>
      d <- aslice m pos r ;;
      s <- KeccakF1600_StateXORBytes s d 0 r ;;
      s <- KeccakF1600_StatePermute_aarch64 c (sub J pos) s ;;
      ret (s, pos + r, u64 (mlen - r))) (s, 0, mlen) ;;
  s <- branch (0 <? mlen)
    (d <- aslice m pos mlen ;;
     KeccakF1600_StateXORBytes s d 0 (u32 mlen))
    (ret s) ;;
  branch (mlen =? r - 1)
    (let p := u8 (p .| 128) in
     KeccakF1600_StateXORBytes s [p] (u32 mlen) 1)
    (s <- KeccakF1600_StateXORBytes s [p] (u32 mlen) 1 ;;
     let p := 128 in
     KeccakF1600_StateXORBytes s [p] (r - 1) 1).

(** fips202.c 78-88; returns the output buffer and the state *)
Definition keccak_squeezeblocks_aarch64 (c : fips202_config) (J : junk) (h : list Z) (nblocks : Z) (s : list Z) (r : Z)
  : M (list Z * list Z) :=
  '(h, pos, nblocks, s) <- while (S (Z.to_nat nblocks))
    (fun '(h, pos, nblocks, s) => 0 <? nblocks)
    (fun '(h, pos, nblocks, s) =>
      s <- KeccakF1600_StatePermute_aarch64 c (sub J pos) s ;;
      d <- aslice h pos r ;;
      d <- KeccakF1600_StateExtractBytes s d 0 r ;;
      h <- asplice h pos d ;;
      ret (h, pos + r, nblocks - 1, s)) (h, 0, nblocks, s) ;;
  ret (h, s).

(** fips202.c 124-140; [cnt] is the value of s_inc[25] that the loop condition
    reads. [mlen + 1] iterations of fuel are never used up. *)
Definition keccak_inc_absorb_aarch64 (c : fips202_config) (J : junk) (s_inc : list Z) (r : Z) (m : list Z) (mlen : Z)
  : M (list Z) :=
  cnt <- aget s_inc 25 ;;
  '(s_inc, cnt, pos, mlen) <- while (S (Z.to_nat mlen))
    (fun '(s_inc, cnt, pos, mlen) => r <=? u64 (mlen + cnt))
    (fun '(s_inc, cnt, pos, mlen) =>
      let len := u64 (r - cnt) in
      d <- aslice m pos len ;;
      s_inc <- on_state s_inc 0 (fun s => KeccakF1600_StateXORBytes s d (u32 cnt) (u32 len)) ;;
      s_inc <- aset s_inc 25 0 ;;
      s_inc <- on_state s_inc 0 (KeccakF1600_StatePermute_aarch64 c (sub J pos)) ;;
      cnt <- aget s_inc 25 ;;
      ret (s_inc, cnt, pos + len, u64 (mlen - len))) (s_inc, cnt, 0, mlen) ;;
  d <- aslice m pos mlen ;;
  s_inc <- on_state s_inc 0 (fun s => KeccakF1600_StateXORBytes s d (u32 cnt) (u32 mlen)) ;;
  aset s_inc 25 (u64 (cnt + mlen)).

(** fips202.c 186-222; returns the output buffer and the state. [outlen + 1]
    iterations of fuel are never used up. *)
Definition keccak_inc_squeeze_aarch64 (c : fips202_config) (J : junk) (h : list Z) (outlen : Z) (s_inc : list Z) (r : Z)
  : M (list Z * list Z) :=
  cnt <- aget s_inc 25 ;;
  len <- branch (outlen <? cnt) (ret outlen) (ret cnt) ;;
  d <- aslice h 0 len ;;
  s <- aslice s_inc 0 KECCAK_LANES ;;
  d <- KeccakF1600_StateExtractBytes s d (u32 (r - cnt)) (u32 len) ;;
  h <- asplice h 0 d ;;
  let pos := len in
  let outlen := u64 (outlen - len) in
  s_inc <- aset s_inc 25 (u64 (cnt - len)) ;;
  '(h, pos, outlen, s_inc) <- while (S (Z.to_nat outlen))
    (fun '(h, pos, outlen, s_inc) => 0 <? outlen)
    (fun '(h, pos, outlen, s_inc) =>
      s_inc <- on_state s_inc 0 (KeccakF1600_StatePermute_aarch64 c (sub J pos)) ;;
      len <- branch (outlen <? r) (ret outlen) (ret r) ;;
      d <- aslice h pos len ;;
      s <- aslice s_inc 0 KECCAK_LANES ;;
      d <- KeccakF1600_StateExtractBytes s d 0 (u32 len) ;;
      h <- asplice h pos d ;;
      s_inc <- aset s_inc 25 (u64 (r - len)) ;;
      ret (h, pos + len, u64 (outlen - len), s_inc))
    (h, pos, outlen, s_inc) ;;
  ret (h, s_inc).

(** fips202.c 229-232 *)
Definition shake256_inc_absorb_aarch64 (c : fips202_config) (J : junk) (state : list Z) (input : list Z) (inlen : Z) :=
  keccak_inc_absorb_aarch64 c J state SHAKE256_RATE input inlen.

(** fips202.c 239-242 *)
Definition shake256_inc_squeeze_aarch64 (c : fips202_config) (J : junk) (output : list Z) (outlen : Z) (state : list Z) :=
  keccak_inc_squeeze_aarch64 c J output outlen state SHAKE256_RATE.

(** fips202.c 256-265 *)
Definition shake128_absorb_aarch64 (c : fips202_config) (J : junk) (state : list Z) (input : list Z) (inlen : Z) : M (list Z) :=
  s <- for_up 0 25 1 (fun i s => aset s i 0) state ;;
  keccak_absorb_aarch64 c J s SHAKE128_RATE input inlen 31.

(** fips202.c 279-282 *)
Definition shake128_squeezeblocks_aarch64 (c : fips202_config) (J : junk) (output : list Z) (nblocks : Z) (state : list Z) :=
  keccak_squeezeblocks_aarch64 c J output nblocks state SHAKE128_RATE.

(** fips202.c 297-310 *)
Definition shake256_aarch64 (c : fips202_config) (J : junk) (output : list Z) (outlen : Z) (input : list Z)
  (inlen : Z) : M (list Z) :=
  st <- keccak_inc_init (uninit_inc J) ;;
  st <- keccak_inc_absorb_aarch64 c (sub J 2) st SHAKE256_RATE input inlen ;;
  st <- keccak_inc_finalize st SHAKE256_RATE 31 ;;
  '(output, _) <- keccak_inc_squeeze_aarch64 c (sub J 3) output outlen st SHAKE256_RATE ;;
  ret output.

(** fips202.c 321-332 *)
Definition sha3_256_aarch64 (c : fips202_config) (J : junk) (output : list Z) (input : list Z) (inlen : Z)
  : M (list Z) :=
  st <- keccak_inc_init (uninit_inc J) ;;
  st <- keccak_inc_absorb_aarch64 c (sub J 2) st SHA3_256_RATE input inlen ;;
  st <- keccak_inc_finalize st SHA3_256_RATE 6 ;;
  '(output, _) <- keccak_inc_squeeze_aarch64 c (sub J 3) output 32 st SHA3_256_RATE ;;
  ret output.

(** fips202.c 343-354 *)
Definition sha3_512_aarch64 (c : fips202_config) (J : junk) (output : list Z) (input : list Z) (inlen : Z)
  : M (list Z) :=
  st <- keccak_inc_init (uninit_inc J) ;;
  st <- keccak_inc_absorb_aarch64 c (sub J 2) st SHA3_512_RATE input inlen ;;
  st <- keccak_inc_finalize st SHA3_512_RATE 6 ;;
  '(output, _) <- keccak_inc_squeeze_aarch64 c (sub J 3) output 64 st SHA3_512_RATE ;;
  ret output.

(** fips202x4.c 10-45 *)
Definition keccak_absorb_x4_aarch64 (c : fips202_config) (J : junk) (s : list Z) (r : Z) (in0 in1 in2 in3 : list Z)
  (inlen p : Z) : M (list Z) :=
  '(s, pos, inlen) <- while (S (Z.to_nat inlen))
    (fun '(s, pos, inlen) => r <=? inlen)
    (fun '(s, pos, inlen) =>
      d0 <- aslice in0 pos r ;; d1 <- aslice in1 pos r ;;
      d2 <- aslice in2 pos r ;; d3 <- aslice in3 pos r ;;
      s <- KeccakF1600x4_StateXORBytes s d0 d1 d2 d3 0 r ;;
      s <- KeccakF1600x4_StatePermute_aarch64 c (sub J pos) s ;;
      ret (s, pos + r, u64 (inlen - r))) (s, 0, inlen) ;;
  s <- branch (0 <? inlen)
    (d0 <- aslice in0 pos inlen ;; d1 <- aslice in1 pos inlen ;;
     d2 <- aslice in2 pos inlen ;; d3 <- aslice in3 pos inlen ;;
     KeccakF1600x4_StateXORBytes s d0 d1 d2 d3 0 (u32 inlen))
    (ret s) ;;
  branch (inlen =? r - 1)
    (let p := u8 (p .| 128) in
     KeccakF1600x4_StateXORBytes s [p] [p] [p] [p] (u32 inlen) 1)
    (s <- KeccakF1600x4_StateXORBytes s [p] [p] [p] [p] (u32 inlen) 1 ;;
     let p := 128 in
     KeccakF1600x4_StateXORBytes s [p] [p] [p] [p] (r - 1) 1).

(** fips202x4.c 47-64; returns the output buffers and the state *)
Definition keccak_squeezeblocks_x4_aarch64 (c : fips202_config) (J : junk) (out0 out1 out2 out3 : list Z) (nblocks : Z)
  (s : list Z) (r : Z) : M (x4 (list Z) * list Z) :=
  '(out, pos, nblocks, s) <- while (S (Z.to_nat nblocks))
    (fun '(out, pos, nblocks, s) => 0 <? nblocks)
    (fun '(out, pos, nblocks, s) =>
      let '(out0, out1, out2, out3) := out in
      s <- KeccakF1600x4_StatePermute_aarch64 c (sub J pos) s ;;
      d0 <- aslice out0 pos r ;; d1 <- aslice out1 pos r ;;
      d2 <- aslice out2 pos r ;; d3 <- aslice out3 pos r ;;
      '(d0, d1, d2, d3) <- KeccakF1600x4_StateExtractBytes s d0 d1 d2 d3 0 r ;;
      out0 <- asplice out0 pos d0 ;; out1 <- asplice out1 pos d1 ;;
      out2 <- asplice out2 pos d2 ;; out3 <- asplice out3 pos d3 ;;
      ret ((out0, out1, out2, out3), pos + r, nblocks - 1, s))
    ((out0, out1, out2, out3), 0, nblocks, s) ;;
  ret (out, s).

(** fips202x4.c 66-72 *)
Definition shake128x4_absorb_aarch64 (c : fips202_config) (J : junk) (in0 in1 in2 in3 : list Z) (inlen : Z)
  : M (list Z) :=
  s <- zero_x4 ;;
  keccak_absorb_x4_aarch64 c J s SHAKE128_RATE in0 in1 in2 in3 inlen 31.

(** fips202x4.c 74-80 *)
Definition shake256x4_absorb_aarch64 (c : fips202_config) (J : junk) (in0 in1 in2 in3 : list Z) (inlen : Z)
  : M (list Z) :=
  s <- zero_x4 ;;
  keccak_absorb_x4_aarch64 c J s SHAKE256_RATE in0 in1 in2 in3 inlen 31.

(** fips202x4.c 83-89 *)
Definition shake128x4_squeezeblocks_aarch64 (c : fips202_config) (J : junk) (out0 out1 out2 out3 : list Z) (nblocks : Z)
  (s : list Z) := keccak_squeezeblocks_x4_aarch64 c J out0 out1 out2 out3 nblocks s SHAKE128_RATE.

(** fips202x4.c 91-97 *)
Definition shake256x4_squeezeblocks_aarch64 (c : fips202_config) (J : junk) (out0 out1 out2 out3 : list Z) (nblocks : Z)
  (s : list Z) := keccak_squeezeblocks_x4_aarch64 c J out0 out1 out2 out3 nblocks s SHAKE256_RATE.

(** fips202x4.c 103-129 *)
Definition shake256x4_aarch64 (c : fips202_config) (J : junk) (out0 out1 out2 out3 : list Z) (outlen : Z)
  (in0 in1 in2 in3 : list Z) (inlen : Z) : M (x4 (list Z)) :=
  nblocks <- div_c outlen SHAKE256_RATE ;;
  statex <- shake256x4_absorb_aarch64 c (sub J 4) in0 in1 in2 in3 inlen ;;
  '(out, statex) <- shake256x4_squeezeblocks_aarch64 c (sub J 5) out0 out1 out2 out3 nblocks statex ;;
  let '(out0, out1, out2, out3) := out in
  let pos := nblocks * SHAKE256_RATE in
  let outlen := u64 (outlen - nblocks * SHAKE256_RATE) in
  branch (negb (outlen =? 0))
    ('(tmp, statex) <- shake256x4_squeezeblocks_aarch64 c (sub J 6)
        (uninit J 0 SHAKE256_RATE) (uninit J 1 SHAKE256_RATE)
        (uninit J 2 SHAKE256_RATE) (uninit J 3 SHAKE256_RATE) 1 statex ;;
     let '(tmp0, tmp1, tmp2, tmp3) := tmp in
     out0 <- memcpy out0 pos tmp0 0 outlen ;;
     out1 <- memcpy out1 pos tmp1 0 outlen ;;
     out2 <- memcpy out2 pos tmp2 0 outlen ;;
     out3 <- memcpy out3 pos tmp3 0 outlen ;;
     ret (out0, out1, out2, out3))
    (ret (out0, out1, out2, out3)).
