(** * The hash functions with input and output in one memory

    In ModelKeccak.v a hash function is given the bytes of its input and the buffer of its
    output as two lists, as if the two could not overlap. Here the same functions read and
    write the memory of the caller byte by byte, for all addresses. The Keccak state is a
    local variable of the functions, so it is apart from the buffers, and so is the byte p.
    Only the accesses to the buffers differ from ModelKeccak.v. *)

From Coq Require Import ZArith List Bool.
From Verif Require Import CSem ModelArith ModelKeccak ModelIndcpa ModelKem.
Import ListNotations.
Open Scope Z_scope.

(** A read and a write of one byte *)
Definition mget (m : mem) (a : Z) : M Z :=
  emit (EIndex a) ;;;
  match m a with Some b => ret b | None => fail BadAddress end.
Definition mset (m : mem) (a b : Z) : M mem :=
  emit (EIndex a) ;;;
  match m a with
  | Some _ => ret (fun x => if x =? a then Some b else m x)
  | None => fail BadAddress
  end.

(** keccakf1600.c 24-41, lines 28-33 *)
Definition StateExtractBytes_le (state : list Z) (m : mem) (data offset length : Z) : M mem :=
  let state_mem := state_bytes state in
  for_up 0 length 1 (fun i m =>
    b <- aget state_mem (offset + i) ;;
    mset m (data + i) b) m.

(** keccakf1600.c 24-41, lines 35-39 *)
Definition StateExtractBytes_be (state : list Z) (m : mem) (data offset length : Z) : M mem :=
  for_up 0 length 1 (fun i m =>
    s <- aget state ((offset + i) >> 3) ;;
    mset m (data + i) (u8 (s >> (8 * ((offset + i) .& 7))))) m.

(** keccakf1600.c 24-41 *)
Definition StateExtractBytes {bo : byte_order} (state : list Z) (m : mem)
  (data offset length : Z) : M mem :=
  match bo with
  | LittleEndian => StateExtractBytes_le state m data offset length
  | BigEndian => StateExtractBytes_be state m data offset length
  end.

(** keccakf1600.c 43-61, lines 47-52 *)
Definition StateXORBytes_le (state : list Z) (m : mem) (data offset length : Z) : M (list Z) :=
  let state_mem := state_bytes state in
  state_mem <- for_up 0 length 1 (fun i state_mem =>
    b <- aget state_mem (offset + i) ;;
    d <- mget m (data + i) ;;
    aset state_mem (offset + i) (u8 (b .^ d))) state_mem ;;
  ret (bytes_state state_mem).

(** keccakf1600.c 43-61, lines 54-59 *)
Definition StateXORBytes_be (state : list Z) (m : mem) (data offset length : Z) : M (list Z) :=
  for_up 0 length 1 (fun i state =>
    d <- mget m (data + i) ;;
    s <- aget state ((offset + i) >> 3) ;;
    aset state ((offset + i) >> 3) (s .^ u64 (d << (8 * ((offset + i) .& 7))))) state.

(** keccakf1600.c 43-61 *)
Definition StateXORBytes {bo : byte_order} (state : list Z) (m : mem)
  (data offset length : Z) : M (list Z) :=
  match bo with
  | LittleEndian => StateXORBytes_le state m data offset length
  | BigEndian => StateXORBytes_be state m data offset length
  end.

(** keccakf1600.c 63-77 *)
Definition x4_StateExtractBytes {bo : byte_order} (state : list Z) (m : mem)
  (data0 data1 data2 data3 offset length : Z) : M mem :=
  s <- aslice state (KECCAK_LANES * 0) KECCAK_LANES ;;
  m <- StateExtractBytes s m data0 offset length ;;
  s <- aslice state (KECCAK_LANES * 1) KECCAK_LANES ;;
  m <- StateExtractBytes s m data1 offset length ;;
  s <- aslice state (KECCAK_LANES * 2) KECCAK_LANES ;;
  m <- StateExtractBytes s m data2 offset length ;;
  s <- aslice state (KECCAK_LANES * 3) KECCAK_LANES ;;
  StateExtractBytes s m data3 offset length.

(** keccakf1600.c 79-89 *)
Definition x4_StateXORBytes {bo : byte_order} (state : list Z) (m : mem)
  (data0 data1 data2 data3 offset length : Z) : M (list Z) :=
  state <- on_state state (KECCAK_LANES * 0) (fun s => StateXORBytes s m data0 offset length) ;;
  state <- on_state state (KECCAK_LANES * 1) (fun s => StateXORBytes s m data1 offset length) ;;
  state <- on_state state (KECCAK_LANES * 2) (fun s => StateXORBytes s m data2 offset length) ;;
  on_state state (KECCAK_LANES * 3) (fun s => StateXORBytes s m data3 offset length).

(** fips202.c 124-140 *)
Definition inc_absorb {bo : byte_order} (s_inc : list Z) (r : Z) (m : mem) (data mlen : Z)
  : M (list Z) :=
  cnt <- aget s_inc 25 ;;
  '(s_inc, cnt, data, mlen) <- while (S (Z.to_nat mlen))
    (fun '(s_inc, cnt, data, mlen) => r <=? u64 (mlen + cnt))
    (fun '(s_inc, cnt, data, mlen) =>
      let len := u64 (r - cnt) in
      s_inc <- on_state s_inc 0 (fun s => StateXORBytes s m data (u32 cnt) (u32 len)) ;;
      s_inc <- aset s_inc 25 0 ;;
      s_inc <- on_state s_inc 0 KeccakF1600_StatePermute ;;
      cnt <- aget s_inc 25 ;;
      ret (s_inc, cnt, data + len, u64 (mlen - len))) (s_inc, cnt, data, mlen) ;;
  s_inc <- on_state s_inc 0 (fun s => StateXORBytes s m data (u32 cnt) (u32 mlen)) ;;
  aset s_inc 25 (u64 (cnt + mlen)).

(** fips202.c 186-222; returns the memory and the state *)
Definition inc_squeeze {bo : byte_order} (m : mem) (h outlen : Z) (s_inc : list Z) (r : Z)
  : M (mem * list Z) :=
  cnt <- aget s_inc 25 ;;
  len <- branch (outlen <? cnt) (ret outlen) (ret cnt) ;;
  s <- aslice s_inc 0 KECCAK_LANES ;;
  m <- StateExtractBytes s m h (u32 (r - cnt)) (u32 len) ;;
  let h := h + len in
  let outlen := u64 (outlen - len) in
  s_inc <- aset s_inc 25 (u64 (cnt - len)) ;;
  '(m, h, outlen, s_inc) <- while (S (Z.to_nat outlen))
    (fun '(m, h, outlen, s_inc) => 0 <? outlen)
    (fun '(m, h, outlen, s_inc) =>
      s_inc <- on_state s_inc 0 KeccakF1600_StatePermute ;;
      len <- branch (outlen <? r) (ret outlen) (ret r) ;;
      s <- aslice s_inc 0 KECCAK_LANES ;;
      m <- StateExtractBytes s m h 0 (u32 len) ;;
      s_inc <- aset s_inc 25 (u64 (r - len)) ;;
      ret (m, h + len, u64 (outlen - len), s_inc))
    (m, h, outlen, s_inc) ;;
  ret (m, s_inc).

(** fips202.c 297-310 *)
Definition shake256_in {bo : byte_order} (J : junk) (m : mem) (output outlen input inlen : Z)
  : M mem :=
  st <- keccak_inc_init (uninit_inc J) ;;
  st <- inc_absorb st SHAKE256_RATE m input inlen ;;
  st <- keccak_inc_finalize st SHAKE256_RATE 31 ;;
  '(m, _) <- inc_squeeze m output outlen st SHAKE256_RATE ;;
  ret m.

(** fips202.c 321-332 *)
Definition sha3_256_in {bo : byte_order} (J : junk) (m : mem) (output input inlen : Z) : M mem :=
  st <- keccak_inc_init (uninit_inc J) ;;
  st <- inc_absorb st SHA3_256_RATE m input inlen ;;
  st <- keccak_inc_finalize st SHA3_256_RATE 6 ;;
  '(m, _) <- inc_squeeze m output 32 st SHA3_256_RATE ;;
  ret m.

(** fips202.c 343-354 *)
Definition sha3_512_in {bo : byte_order} (J : junk) (m : mem) (output input inlen : Z) : M mem :=
  st <- keccak_inc_init (uninit_inc J) ;;
  st <- inc_absorb st SHA3_512_RATE m input inlen ;;
  st <- keccak_inc_finalize st SHA3_512_RATE 6 ;;
  '(m, _) <- inc_squeeze m output 64 st SHA3_512_RATE ;;
  ret m.

(** symmetric-shake.c 23-35 *)
Definition rkprf_in {bo : byte_order} (J : junk) (p : pset) (m : mem) (out key input : Z) : M mem :=
  s <- shake256_inc_init (uninit_inc J) ;;
  s <- inc_absorb s SHAKE256_RATE m key MLKEM_SYMBYTES ;;
  s <- inc_absorb s SHAKE256_RATE m input (MLKEM_CIPHERTEXTBYTES p) ;;
  s <- shake256_inc_finalize s ;;
  '(m, _) <- inc_squeeze m out MLKEM_SSBYTES s SHAKE256_RATE ;;
  ret m.

(** fips202x4.c 10-45 *)
Definition absorb_x4 {bo : byte_order} (s : list Z) (r : Z) (m : mem) (in0 in1 in2 in3 : Z)
  (inlen p : Z) : M (list Z) :=
  '(s, pos, inlen) <- while (S (Z.to_nat inlen))
    (fun '(s, pos, inlen) => r <=? inlen)
    (fun '(s, pos, inlen) =>
      s <- x4_StateXORBytes s m (in0 + pos) (in1 + pos) (in2 + pos) (in3 + pos) 0 r ;;
      s <- KeccakF1600x4_StatePermute s ;;
      ret (s, pos + r, u64 (inlen - r))) (s, 0, inlen) ;;
  s <- branch (0 <? inlen)
    (x4_StateXORBytes s m (in0 + pos) (in1 + pos) (in2 + pos) (in3 + pos) 0 (u32 inlen))
    (ret s) ;;
  branch (inlen =? r - 1)
    (let p := u8 (p .| 128) in
     KeccakF1600x4_StateXORBytes s [p] [p] [p] [p] (u32 inlen) 1)
    (s <- KeccakF1600x4_StateXORBytes s [p] [p] [p] [p] (u32 inlen) 1 ;;
     let p := 128 in
     KeccakF1600x4_StateXORBytes s [p] [p] [p] [p] (r - 1) 1).

(** fips202x4.c 47-64; returns the memory and the state. The four pointers are advanced
    together; [pos] is how far. *)
Definition squeezeblocks_x4 {bo : byte_order} (m : mem) (out0 out1 out2 out3 nblocks : Z)
  (s : list Z) (r : Z) : M (mem * list Z) :=
  '(m, pos, nblocks, s) <- while (S (Z.to_nat nblocks))
    (fun '(m, pos, nblocks, s) => 0 <? nblocks)
    (fun '(m, pos, nblocks, s) =>
      s <- KeccakF1600x4_StatePermute s ;;
      m <- x4_StateExtractBytes s m (out0 + pos) (out1 + pos) (out2 + pos) (out3 + pos) 0 r ;;
      ret (m, pos + r, nblocks - 1, s))
    (m, 0, nblocks, s) ;;
  ret (m, s).

(** memcpy from a local array to the memory *)
Definition memcpy_in (m : mem) (dst : Z) (src : list Z) (n : Z) : M mem :=
  emit (ECopy n) ;;;
  s <- aslice src 0 n ;;
  mstore m dst s.

(** fips202x4.c 103-129; the array tmp is local, so squeezing into it is as in
    ModelKeccak.v *)
Definition shake256x4_in {bo : byte_order} (J : junk) (m : mem) (out0 out1 out2 out3 outlen : Z)
  (in0 in1 in2 in3 inlen : Z) : M mem :=
  nblocks <- div_c outlen SHAKE256_RATE ;;
  statex <- (s <- zero_x4 ;; absorb_x4 s SHAKE256_RATE m in0 in1 in2 in3 inlen 31) ;;
  '(m, statex) <- squeezeblocks_x4 m out0 out1 out2 out3 nblocks statex SHAKE256_RATE ;;
  let pos := nblocks * SHAKE256_RATE in
  let outlen := u64 (outlen - nblocks * SHAKE256_RATE) in
  branch (negb (outlen =? 0))
    ('(tmp, statex) <- shake256x4_squeezeblocks
        (uninit J 0 SHAKE256_RATE) (uninit J 1 SHAKE256_RATE)
        (uninit J 2 SHAKE256_RATE) (uninit J 3 SHAKE256_RATE) 1 statex ;;
     let '(tmp0, tmp1, tmp2, tmp3) := tmp in
     m <- memcpy_in m (out0 + pos) tmp0 outlen ;;
     m <- memcpy_in m (out1 + pos) tmp1 outlen ;;
     m <- memcpy_in m (out2 + pos) tmp2 outlen ;;
     memcpy_in m (out3 + pos) tmp3 outlen)
    (ret m).
