(** * Model of fips202/ : Keccak, SHA-3, SHAKE and the 4-way SHAKE

    A Keccak state is the list of its 25 lanes (uint64_t), the incremental state the
    list of the 26 words of s_inc, and the 4-way state the list of its 100 lanes.
    A pointer that the C code advances over a buffer is modelled by the buffer and
    an offset. *)

From Coq Require Import ZArith List Bool.
From Verif Require Import CSem ModelArith.
Import ListNotations.
Open Scope Z_scope.

(** ** fips202/keccakf1600.c *)

(** keccakf1600.c 22 (uint64_t arithmetic) *)
Definition ROL (a offset : Z) : Z := u64 (a << offset) .^ (a >> (64 - offset)).
(** [~a] on uint64_t *)
Definition not64 (a : Z) : Z := u64 (Z.lnot a).

(** mlkem/sys/cpucap.h 21-31: the byte order of the machine. The compiler says which one it
    is (if it does not, the code is that for big-endian machines, which works for both), and
    SYS_LITTLE_ENDIAN selects the loops below. It is an implicit parameter of everything
    that is built on them. *)
Inductive byte_order : Set := LittleEndian | BigEndian.
Existing Class byte_order.

(** The bytes of an array of lanes in the memory of a little-endian machine, and
    the lanes read back from such bytes. *)
Definition lane_bytes (s : Z) : list Z :=
  map (fun j => u8 (s >> (8 * Z.of_nat j))) (seq 0 8).
Definition state_bytes (state : list Z) : list Z := flat_map lane_bytes state.
Fixpoint bytes_lane (l : list Z) : Z :=
  match l with [] => 0 | b :: t => b + 256 * bytes_lane t end.
Definition bytes_state (bytes : list Z) : list Z :=
  map (fun j => bytes_lane (firstn 8 (skipn (8 * j) bytes))) (seq 0 25).

(** keccakf1600.c 24-41, little-endian version (lines 28-33): byte accesses to the
    memory of the state. *)
Definition KeccakF1600_StateExtractBytes_le (state data : list Z) (offset length : Z)
  : M (list Z) :=
  let state_mem := state_bytes state in
  for_up 0 length 1 (fun i data =>
    b <- aget state_mem (offset + i) ;;
    aset data i b) data.

(** keccakf1600.c 24-41, portable version (lines 35-39). [offset + i] cannot wrap:
    an index past lane 24 is out of bounds first. *)
Definition KeccakF1600_StateExtractBytes_be (state data : list Z) (offset length : Z)
  : M (list Z) :=
  for_up 0 length 1 (fun i data =>
    s <- aget state ((offset + i) >> 3) ;;
    aset data i (u8 (s >> (8 * ((offset + i) .& 7))))) data.

(** keccakf1600.c 24-41 *)
Definition KeccakF1600_StateExtractBytes {bo : byte_order} (state data : list Z) (offset length : Z)
  : M (list Z) :=
  match bo with
  | LittleEndian => KeccakF1600_StateExtractBytes_le state data offset length
  | BigEndian => KeccakF1600_StateExtractBytes_be state data offset length
  end.

(** keccakf1600.c 43-61, little-endian version (lines 47-52) *)
Definition KeccakF1600_StateXORBytes_le (state data : list Z) (offset length : Z)
  : M (list Z) :=
  let state_mem := state_bytes state in
  state_mem <- for_up 0 length 1 (fun i state_mem =>
    b <- aget state_mem (offset + i) ;;
    d <- aget data i ;;
    aset state_mem (offset + i) (u8 (b .^ d))) state_mem ;;
  ret (bytes_state state_mem).

(** keccakf1600.c 43-61, portable version (lines 54-59) *)
Definition KeccakF1600_StateXORBytes_be (state data : list Z) (offset length : Z)
  : M (list Z) :=
  for_up 0 length 1 (fun i state =>
    d <- aget data i ;;
    s <- aget state ((offset + i) >> 3) ;;
    aset state ((offset + i) >> 3) (s .^ u64 (d << (8 * ((offset + i) .& 7))))) state.

(** keccakf1600.c 43-61 *)
Definition KeccakF1600_StateXORBytes {bo : byte_order} (state data : list Z) (offset length : Z)
  : M (list Z) :=
  match bo with
  | LittleEndian => KeccakF1600_StateXORBytes_le state data offset length
  | BigEndian => KeccakF1600_StateXORBytes_be state data offset length
  end.

(** keccakf1600.c 106-118 *)
Definition KeccakF_RoundConstants : list Z :=
  [ 1 (* 0x0000000000000001 *);
    32898 (* 0x0000000000008082 *);
    9223372036854808714 (* 0x800000000000808a *);
    9223372039002292224 (* 0x8000000080008000 *);
    32907 (* 0x000000000000808b *);
    2147483649 (* 0x0000000080000001 *);
    9223372039002292353 (* 0x8000000080008081 *);
    9223372036854808585 (* 0x8000000000008009 *);
    138 (* 0x000000000000008a *);
    136 (* 0x0000000000000088 *);
    2147516425 (* 0x0000000080008009 *);
    2147483658 (* 0x000000008000000a *);
    2147516555 (* 0x000000008000808b *);
    9223372036854775947 (* 0x800000000000008b *);
    9223372036854808713 (* 0x8000000000008089 *);
    9223372036854808579 (* 0x8000000000008003 *);
    9223372036854808578 (* 0x8000000000008002 *);
    9223372036854775936 (* 0x8000000000000080 *);
    32778 (* 0x000000000000800a *);
    9223372039002259466 (* 0x800000008000000a *);
    9223372039002292353 (* 0x8000000080008081 *);
    9223372036854808704 (* 0x8000000000008080 *);
    2147483649 (* 0x0000000080000001 *);
    9223372039002292232 (* 0x8000000080008008 *) ].

Definition lanes : Type :=
  (Z * Z * Z * Z * Z * Z * Z * Z * Z * Z * Z * Z * Z
   * Z * Z * Z * Z * Z * Z * Z * Z * Z * Z * Z * Z)%type.

(** The body of the loop of KeccakF1600_StatePermute, keccakf1600.c 166-355:
    two rounds, transcribed assignment by assignment (an assignment [x = e] is
    [let x := e in], [x ^= e] is [let x := x .^ e in]). *)
Definition keccak_two_rounds (rc0 rc1 : Z) (A : lanes) : lanes :=
  let '(Aba, Abe, Abi, Abo, Abu,
   Aga, Age, Agi, Ago, Agu,
   Aka, Ake, Aki, Ako, Aku,
   Ama, Ame, Ami, Amo, Amu,
   Asa, Ase, Asi, Aso, Asu) := A in
  (* prepareTheta -- keccakf1600.c 166 *)
  let BCa := Aba .^ Aga .^ Aka .^ Ama .^ Asa in
  let BCe := Abe .^ Age .^ Ake .^ Ame .^ Ase in
  let BCi := Abi .^ Agi .^ Aki .^ Ami .^ Asi in
  let BCo := Abo .^ Ago .^ Ako .^ Amo .^ Aso in
  let BCu := Abu .^ Agu .^ Aku .^ Amu .^ Asu in
  (* thetaRhoPiChiIotaPrepareTheta(round  , A, E) -- keccakf1600.c 173 *)
  let Da := BCu .^ ROL BCe 1 in
  let De := BCa .^ ROL BCi 1 in
  let Di := BCe .^ ROL BCo 1 in
  let Do := BCi .^ ROL BCu 1 in
  let Du := BCo .^ ROL BCa 1 in
  let Aba := Aba .^ Da in
  let BCa := Aba in
  let Age := Age .^ De in
  let BCe := ROL Age 44 in
  let Aki := Aki .^ Di in
  let BCi := ROL Aki 43 in
  let Amo := Amo .^ Do in
  let BCo := ROL Amo 21 in
  let Asu := Asu .^ Du in
  let BCu := ROL Asu 14 in
  let Eba := BCa .^ (not64 BCe .& BCi) in
  let Eba := Eba .^ rc0 in
  let Ebe := BCe .^ (not64 BCi .& BCo) in
  let Ebi := BCi .^ (not64 BCo .& BCu) in
  let Ebo := BCo .^ (not64 BCu .& BCa) in
  let Ebu := BCu .^ (not64 BCa .& BCe) in
  let Abo := Abo .^ Do in
  let BCa := ROL Abo 28 in
  let Agu := Agu .^ Du in
  let BCe := ROL Agu 20 in
  let Aka := Aka .^ Da in
  let BCi := ROL Aka 3 in
  let Ame := Ame .^ De in
  let BCo := ROL Ame 45 in
  let Asi := Asi .^ Di in
  let BCu := ROL Asi 61 in
  let Ega := BCa .^ (not64 BCe .& BCi) in
  let Ege := BCe .^ (not64 BCi .& BCo) in
  let Egi := BCi .^ (not64 BCo .& BCu) in
  let Ego := BCo .^ (not64 BCu .& BCa) in
  let Egu := BCu .^ (not64 BCa .& BCe) in
  let Abe := Abe .^ De in
  let BCa := ROL Abe 1 in
  let Agi := Agi .^ Di in
  let BCe := ROL Agi 6 in
  let Ako := Ako .^ Do in
  let BCi := ROL Ako 25 in
  let Amu := Amu .^ Du in
  let BCo := ROL Amu 8 in
  let Asa := Asa .^ Da in
  let BCu := ROL Asa 18 in
  let Eka := BCa .^ (not64 BCe .& BCi) in
  let Eke := BCe .^ (not64 BCi .& BCo) in
  let Eki := BCi .^ (not64 BCo .& BCu) in
  let Eko := BCo .^ (not64 BCu .& BCa) in
  let Eku := BCu .^ (not64 BCa .& BCe) in
  let Abu := Abu .^ Du in
  let BCa := ROL Abu 27 in
  let Aga := Aga .^ Da in
  let BCe := ROL Aga 36 in
  let Ake := Ake .^ De in
  let BCi := ROL Ake 10 in
  let Ami := Ami .^ Di in
  let BCo := ROL Ami 15 in
  let Aso := Aso .^ Do in
  let BCu := ROL Aso 56 in
  let Ema := BCa .^ (not64 BCe .& BCi) in
  let Eme := BCe .^ (not64 BCi .& BCo) in
  let Emi := BCi .^ (not64 BCo .& BCu) in
  let Emo := BCo .^ (not64 BCu .& BCa) in
  let Emu := BCu .^ (not64 BCa .& BCe) in
  let Abi := Abi .^ Di in
  let BCa := ROL Abi 62 in
  let Ago := Ago .^ Do in
  let BCe := ROL Ago 55 in
  let Aku := Aku .^ Du in
  let BCi := ROL Aku 39 in
  let Ama := Ama .^ Da in
  let BCo := ROL Ama 41 in
  let Ase := Ase .^ De in
  let BCu := ROL Ase 2 in
  let Esa := BCa .^ (not64 BCe .& BCi) in
  let Ese := BCe .^ (not64 BCi .& BCo) in
  let Esi := BCi .^ (not64 BCo .& BCu) in
  let Eso := BCo .^ (not64 BCu .& BCa) in
  let Esu := BCu .^ (not64 BCa .& BCe) in
  (* prepareTheta -- keccakf1600.c 261 *)
  let BCa := Eba .^ Ega .^ Eka .^ Ema .^ Esa in
  let BCe := Ebe .^ Ege .^ Eke .^ Eme .^ Ese in
  let BCi := Ebi .^ Egi .^ Eki .^ Emi .^ Esi in
  let BCo := Ebo .^ Ego .^ Eko .^ Emo .^ Eso in
  let BCu := Ebu .^ Egu .^ Eku .^ Emu .^ Esu in
  (* thetaRhoPiChiIotaPrepareTheta(round+1, E, A) -- keccakf1600.c 268 *)
  let Da := BCu .^ ROL BCe 1 in
  let De := BCa .^ ROL BCi 1 in
  let Di := BCe .^ ROL BCo 1 in
  let Do := BCi .^ ROL BCu 1 in
  let Du := BCo .^ ROL BCa 1 in
  let Eba := Eba .^ Da in
  let BCa := Eba in
  let Ege := Ege .^ De in
  let BCe := ROL Ege 44 in
  let Eki := Eki .^ Di in
  let BCi := ROL Eki 43 in
  let Emo := Emo .^ Do in
  let BCo := ROL Emo 21 in
  let Esu := Esu .^ Du in
  let BCu := ROL Esu 14 in
  let Aba := BCa .^ (not64 BCe .& BCi) in
  let Aba := Aba .^ rc1 in
  let Abe := BCe .^ (not64 BCi .& BCo) in
  let Abi := BCi .^ (not64 BCo .& BCu) in
  let Abo := BCo .^ (not64 BCu .& BCa) in
  let Abu := BCu .^ (not64 BCa .& BCe) in
  let Ebo := Ebo .^ Do in
  let BCa := ROL Ebo 28 in
  let Egu := Egu .^ Du in
  let BCe := ROL Egu 20 in
  let Eka := Eka .^ Da in
  let BCi := ROL Eka 3 in
  let Eme := Eme .^ De in
  let BCo := ROL Eme 45 in
  let Esi := Esi .^ Di in
  let BCu := ROL Esi 61 in
  let Aga := BCa .^ (not64 BCe .& BCi) in
  let Age := BCe .^ (not64 BCi .& BCo) in
  let Agi := BCi .^ (not64 BCo .& BCu) in
  let Ago := BCo .^ (not64 BCu .& BCa) in
  let Agu := BCu .^ (not64 BCa .& BCe) in
  let Ebe := Ebe .^ De in
  let BCa := ROL Ebe 1 in
  let Egi := Egi .^ Di in
  let BCe := ROL Egi 6 in
  let Eko := Eko .^ Do in
  let BCi := ROL Eko 25 in
  let Emu := Emu .^ Du in
  let BCo := ROL Emu 8 in
  let Esa := Esa .^ Da in
  let BCu := ROL Esa 18 in
  let Aka := BCa .^ (not64 BCe .& BCi) in
  let Ake := BCe .^ (not64 BCi .& BCo) in
  let Aki := BCi .^ (not64 BCo .& BCu) in
  let Ako := BCo .^ (not64 BCu .& BCa) in
  let Aku := BCu .^ (not64 BCa .& BCe) in
  let Ebu := Ebu .^ Du in
  let BCa := ROL Ebu 27 in
  let Ega := Ega .^ Da in
  let BCe := ROL Ega 36 in
  let Eke := Eke .^ De in
  let BCi := ROL Eke 10 in
  let Emi := Emi .^ Di in
  let BCo := ROL Emi 15 in
  let Eso := Eso .^ Do in
  let BCu := ROL Eso 56 in
  let Ama := BCa .^ (not64 BCe .& BCi) in
  let Ame := BCe .^ (not64 BCi .& BCo) in
  let Ami := BCi .^ (not64 BCo .& BCu) in
  let Amo := BCo .^ (not64 BCu .& BCa) in
  let Amu := BCu .^ (not64 BCa .& BCe) in
  let Ebi := Ebi .^ Di in
  let BCa := ROL Ebi 62 in
  let Ego := Ego .^ Do in
  let BCe := ROL Ego 55 in
  let Eku := Eku .^ Du in
  let BCi := ROL Eku 39 in
  let Ema := Ema .^ Da in
  let BCo := ROL Ema 41 in
  let Ese := Ese .^ De in
  let BCu := ROL Ese 2 in
  let Asa := BCa .^ (not64 BCe .& BCi) in
  let Ase := BCe .^ (not64 BCi .& BCo) in
  let Asi := BCi .^ (not64 BCo .& BCu) in
  let Aso := BCo .^ (not64 BCu .& BCa) in
  let Asu := BCu .^ (not64 BCa .& BCe) in
  (Aba, Abe, Abi, Abo, Abu,
   Aga, Age, Agi, Ago, Agu,
   Aka, Ake, Aki, Ako, Aku,
   Ama, Ame, Ami, Amo, Amu,
   Asa, Ase, Asi, Aso, Asu).

(** keccakf1600.c 120-387 *)
Definition KeccakF1600_StatePermute (state : list Z) : M (list Z) :=
  match state with
  | [Aba; Abe; Abi; Abo; Abu;
     Aga; Age; Agi; Ago; Agu;
     Aka; Ake; Aki; Ako; Aku;
     Ama; Ame; Ami; Amo; Amu;
     Asa; Ase; Asi; Aso; Asu] =>
    A <- for_up 0 24 2 (fun round A =>
      rc0 <- aget KeccakF_RoundConstants round ;;
      rc1 <- aget KeccakF_RoundConstants (round + 1) ;;
      ret (keccak_two_rounds rc0 rc1 A))
      (Aba, Abe, Abi, Abo, Abu,
   Aga, Age, Agi, Ago, Agu,
   Aka, Ake, Aki, Ako, Aku,
   Ama, Ame, Ami, Amo, Amu,
   Asa, Ase, Asi, Aso, Asu) ;;
    let '(Aba, Abe, Abi, Abo, Abu,
   Aga, Age, Agi, Ago, Agu,
   Aka, Ake, Aki, Ako, Aku,
   Ama, Ame, Ami, Amo, Amu,
   Asa, Ase, Asi, Aso, Asu) := A in
    ret [Aba; Abe; Abi; Abo; Abu;
     Aga; Age; Agi; Ago; Agu;
     Aka; Ake; Aki; Ako; Aku;
     Ama; Ame; Ami; Amo; Amu;
     Asa; Ase; Asi; Aso; Asu]
  | _ => fail OutOfBounds
  end.

(** keccakf1600.h 13 *)
Definition KECCAK_LANES : Z := 25.

(** A call of [f] with the pointer [state + off], where [f] works on one Keccak
    state: [f] is given the 25 words at [off], and these are replaced. *)
Definition on_state (state : list Z) (off : Z) (f : list Z -> M (list Z)) : M (list Z) :=
  s <- aslice state off KECCAK_LANES ;;
  s <- f s ;;
  asplice state off (firstn (Z.to_nat KECCAK_LANES) s).

Definition x4 (A : Type) : Type := (A * A * A * A)%type.

(** keccakf1600.c 63-77 *)
Definition KeccakF1600x4_StateExtractBytes {bo : byte_order} (state : list Z)
  (data0 data1 data2 data3 : list Z) (offset length : Z) : M (x4 (list Z)) :=
  s <- aslice state (KECCAK_LANES * 0) KECCAK_LANES ;;
  d0 <- KeccakF1600_StateExtractBytes s data0 offset length ;;
  s <- aslice state (KECCAK_LANES * 1) KECCAK_LANES ;;
  d1 <- KeccakF1600_StateExtractBytes s data1 offset length ;;
  s <- aslice state (KECCAK_LANES * 2) KECCAK_LANES ;;
  d2 <- KeccakF1600_StateExtractBytes s data2 offset length ;;
  s <- aslice state (KECCAK_LANES * 3) KECCAK_LANES ;;
  d3 <- KeccakF1600_StateExtractBytes s data3 offset length ;;
  ret (d0, d1, d2, d3).

(** keccakf1600.c 79-89 *)
Definition KeccakF1600x4_StateXORBytes {bo : byte_order} (state : list Z)
  (data0 data1 data2 data3 : list Z) (offset length : Z) : M (list Z) :=
  state <- on_state state (KECCAK_LANES * 0) (fun s => KeccakF1600_StateXORBytes s data0 offset length) ;;
  state <- on_state state (KECCAK_LANES * 1) (fun s => KeccakF1600_StateXORBytes s data1 offset length) ;;
  state <- on_state state (KECCAK_LANES * 2) (fun s => KeccakF1600_StateXORBytes s data2 offset length) ;;
  on_state state (KECCAK_LANES * 3) (fun s => KeccakF1600_StateXORBytes s data3 offset length).

(** keccakf1600.c 91-103, without a native 2-way or 4-way backend *)
Definition KeccakF1600x4_StatePermute (state : list Z) : M (list Z) :=
  state <- on_state state (KECCAK_LANES * 0) KeccakF1600_StatePermute ;;
  state <- on_state state (KECCAK_LANES * 1) KeccakF1600_StatePermute ;;
  state <- on_state state (KECCAK_LANES * 2) KeccakF1600_StatePermute ;;
  on_state state (KECCAK_LANES * 3) KeccakF1600_StatePermute.

(** ** fips202/fips202.c *)

(** fips202.h 14-18 *)
Definition SHAKE128_RATE : Z := 168.
Definition SHAKE256_RATE : Z := 136.
Definition SHA3_256_RATE : Z := 136.
Definition SHA3_512_RATE : Z := 72.

(** fips202.c 37-64; [mlen + 1] iterations of fuel are never used up *)
Definition keccak_absorb {bo : byte_order} (s : list Z) (r : Z) (m : list Z) (mlen p : Z) : M (list Z) :=
  '(s, pos, mlen) <- while (S (Z.to_nat mlen))
    (fun '(s, pos, mlen) => r <=? mlen)
    (fun '(s, pos, mlen) =>
      d <- aslice m pos r ;;
      s <- KeccakF1600_StateXORBytes s d 0 r ;;
      s <- KeccakF1600_StatePermute s ;;
      ret (s, pos + r, u64 (mlen - r))) (s, 0, mlen) ;;
  s <- branch (0 <? mlen)
    (d <- aslice m pos mlen ;;
     KeccakF1600_StateXORBytes s d 0 (u32 mlen))
    (ret s) ;;
  branch (mlen =? r - 1)
    (let p := u8 (p .| 128) in
     KeccakF1600_StateXORBytes s [p] (u32 mlen) 1)
    (s <- KeccakF1600_StateXORBytes s [p] (u32 mlen) 1 ;;
     let p := 128 in
     KeccakF1600_StateXORBytes s [p] (r - 1) 1).

(** fips202.c 78-88; returns the output buffer and the state *)
Definition keccak_squeezeblocks {bo : byte_order} (h : list Z) (nblocks : Z) (s : list Z) (r : Z)
  : M (list Z * list Z) :=
  '(h, pos, nblocks, s) <- while (S (Z.to_nat nblocks))
    (fun '(h, pos, nblocks, s) => 0 <? nblocks)
    (fun '(h, pos, nblocks, s) =>
      s <- KeccakF1600_StatePermute s ;;
      d <- aslice h pos r ;;
      d <- KeccakF1600_StateExtractBytes s d 0 r ;;
      h <- asplice h pos d ;;
      ret (h, pos + r, nblocks - 1, s)) (h, 0, nblocks, s) ;;
  ret (h, s).

(** fips202.c 100-109 *)
Definition keccak_inc_init (s_inc : list Z) : M (list Z) :=
  s_inc <- for_up 0 25 1 (fun i s_inc => aset s_inc i 0) s_inc ;;
  aset s_inc 25 0.

(** fips202.c 124-140; [cnt] is the value of s_inc[25] that the loop condition
    reads. [mlen + 1] iterations of fuel are never used up. *)
Definition keccak_inc_absorb {bo : byte_order} (s_inc : list Z) (r : Z) (m : list Z) (mlen : Z)
  : M (list Z) :=
  cnt <- aget s_inc 25 ;;
  '(s_inc, cnt, pos, mlen) <- while (S (Z.to_nat mlen))
    (fun '(s_inc, cnt, pos, mlen) => r <=? u64 (mlen + cnt))
    (fun '(s_inc, cnt, pos, mlen) =>
      let len := u64 (r - cnt) in
      d <- aslice m pos len ;;
      s_inc <- on_state s_inc 0 (fun s => KeccakF1600_StateXORBytes s d (u32 cnt) (u32 len)) ;;
      s_inc <- aset s_inc 25 0 ;;
      s_inc <- on_state s_inc 0 KeccakF1600_StatePermute ;;
      cnt <- aget s_inc 25 ;;
      ret (s_inc, cnt, pos + len, u64 (mlen - len))) (s_inc, cnt, 0, mlen) ;;
  d <- aslice m pos mlen ;;
  s_inc <- on_state s_inc 0 (fun s => KeccakF1600_StateXORBytes s d (u32 cnt) (u32 mlen)) ;;
  aset s_inc 25 (u64 (cnt + mlen)).

(** fips202.c 155-171 *)
Definition keccak_inc_finalize {bo : byte_order} (s_inc : list Z) (r p : Z) : M (list Z) :=
  cnt <- aget s_inc 25 ;;
  s_inc <- branch (cnt =? r - 1)
    (let p := u8 (p .| 128) in
     on_state s_inc 0 (fun s => KeccakF1600_StateXORBytes s [p] (u32 cnt) 1))
    (s_inc <- on_state s_inc 0 (fun s => KeccakF1600_StateXORBytes s [p] (u32 cnt) 1) ;;
     let p := 128 in
     on_state s_inc 0 (fun s => KeccakF1600_StateXORBytes s [p] (r - 1) 1)) ;;
  aset s_inc 25 0.

(** fips202.c 186-222; returns the output buffer and the state. [outlen + 1]
    iterations of fuel are never used up. *)
Definition keccak_inc_squeeze {bo : byte_order} (h : list Z) (outlen : Z) (s_inc : list Z) (r : Z)
  : M (list Z * list Z) :=
  cnt <- aget s_inc 25 ;;
  len <- branch (outlen <? cnt) (ret outlen) (ret cnt) ;;
  d <- aslice h 0 len ;;
  s <- aslice s_inc 0 KECCAK_LANES ;;
  d <- KeccakF1600_StateExtractBytes s d (u32 (r - cnt)) (u32 len) ;;
  h <- asplice h 0 d ;;
  let pos := len in
  let outlen := u64 (outlen - len) in
  s_inc <- aset s_inc 25 (u64 (cnt - len)) ;;
  '(h, pos, outlen, s_inc) <- while (S (Z.to_nat outlen))
    (fun '(h, pos, outlen, s_inc) => 0 <? outlen)
    (fun '(h, pos, outlen, s_inc) =>
      s_inc <- on_state s_inc 0 KeccakF1600_StatePermute ;;
      len <- branch (outlen <? r) (ret outlen) (ret r) ;;
      d <- aslice h pos len ;;
      s <- aslice s_inc 0 KECCAK_LANES ;;
      d <- KeccakF1600_StateExtractBytes s d 0 (u32 len) ;;
      h <- asplice h pos d ;;
      s_inc <- aset s_inc 25 (u64 (r - len)) ;;
      ret (h, pos + len, u64 (outlen - len), s_inc))
    (h, pos, outlen, s_inc) ;;
  ret (h, s_inc).

(** fips202.c 224-242 *)
Definition shake256_inc_init (state : list Z) := keccak_inc_init state.
Definition shake256_inc_absorb {bo : byte_order} (state : list Z) (input : list Z) (inlen : Z) :=
  keccak_inc_absorb state SHAKE256_RATE input inlen.
Definition shake256_inc_finalize {bo : byte_order} (state : list Z) :=
  keccak_inc_finalize state SHAKE256_RATE 31.
Definition shake256_inc_squeeze {bo : byte_order} (output : list Z) (outlen : Z) (state : list Z) :=
  keccak_inc_squeeze output outlen state SHAKE256_RATE.

(** fips202.c 256-265 *)
Definition shake128_absorb {bo : byte_order} (state : list Z) (input : list Z) (inlen : Z) : M (list Z) :=
  s <- for_up 0 25 1 (fun i s => aset s i 0) state ;;
  keccak_absorb s SHAKE128_RATE input inlen 31.

(** fips202.c 279-282 *)
Definition shake128_squeezeblocks {bo : byte_order} (output : list Z) (nblocks : Z) (state : list Z) :=
  keccak_squeezeblocks output nblocks state SHAKE128_RATE.

(** An uninitialised incremental state *)
Definition uninit_inc (J : junk) : list Z := uninit J 0 26.

(** fips202.c 297-310 *)
Definition shake256 {bo : byte_order} (J : junk) (output : list Z) (outlen : Z) (input : list Z)
  (inlen : Z) : M (list Z) :=
  st <- keccak_inc_init (uninit_inc J) ;;
  st <- keccak_inc_absorb st SHAKE256_RATE input inlen ;;
  st <- keccak_inc_finalize st SHAKE256_RATE 31 ;;
  '(output, _) <- keccak_inc_squeeze output outlen st SHAKE256_RATE ;;
  ret output.

(** fips202.c 321-332 *)
Definition sha3_256 {bo : byte_order} (J : junk) (output : list Z) (input : list Z) (inlen : Z)
  : M (list Z) :=
  st <- keccak_inc_init (uninit_inc J) ;;
  st <- keccak_inc_absorb st SHA3_256_RATE input inlen ;;
  st <- keccak_inc_finalize st SHA3_256_RATE 6 ;;
  '(output, _) <- keccak_inc_squeeze output 32 st SHA3_256_RATE ;;
  ret output.

(** fips202.c 343-354 *)
Definition sha3_512 {bo : byte_order} (J : junk) (output : list Z) (input : list Z) (inlen : Z)
  : M (list Z) :=
  st <- keccak_inc_init (uninit_inc J) ;;
  st <- keccak_inc_absorb st SHA3_512_RATE input inlen ;;
  st <- keccak_inc_finalize st SHA3_512_RATE 6 ;;
  '(output, _) <- keccak_inc_squeeze output 64 st SHA3_512_RATE ;;
  ret output.

(** ** fips202/fips202x4.c *)

(** fips202x4.c 10-45 *)
Definition keccak_absorb_x4 {bo : byte_order} (s : list Z) (r : Z) (in0 in1 in2 in3 : list Z)
  (inlen p : Z) : M (list Z) :=
  '(s, pos, inlen) <- while (S (Z.to_nat inlen))
    (fun '(s, pos, inlen) => r <=? inlen)
    (fun '(s, pos, inlen) =>
      d0 <- aslice in0 pos r ;; d1 <- aslice in1 pos r ;;
      d2 <- aslice in2 pos r ;; d3 <- aslice in3 pos r ;;
      s <- KeccakF1600x4_StateXORBytes s d0 d1 d2 d3 0 r ;;
      s <- KeccakF1600x4_StatePermute s ;;
      ret (s, pos + r, u64 (inlen - r))) (s, 0, inlen) ;;
  s <- branch (0 <? inlen)
    (d0 <- aslice in0 pos inlen ;; d1 <- aslice in1 pos inlen ;;
     d2 <- aslice in2 pos inlen ;; d3 <- aslice in3 pos inlen ;;
     KeccakF1600x4_StateXORBytes s d0 d1 d2 d3 0 (u32 inlen))
    (ret s) ;;
  branch (inlen =? r - 1)
    (let p := u8 (p .| 128) in
     KeccakF1600x4_StateXORBytes s [p] [p] [p] [p] (u32 inlen) 1)
    (s <- KeccakF1600x4_StateXORBytes s [p] [p] [p] [p] (u32 inlen) 1 ;;
     let p := 128 in
     KeccakF1600x4_StateXORBytes s [p] [p] [p] [p] (r - 1) 1).

(** fips202x4.c 47-64; returns the output buffers and the state *)
Definition keccak_squeezeblocks_x4 {bo : byte_order} (out0 out1 out2 out3 : list Z) (nblocks : Z)
  (s : list Z) (r : Z) : M (x4 (list Z) * list Z) :=
  '(out, pos, nblocks, s) <- while (S (Z.to_nat nblocks))
    (fun '(out, pos, nblocks, s) => 0 <? nblocks)
    (fun '(out, pos, nblocks, s) =>
      let '(out0, out1, out2, out3) := out in
      s <- KeccakF1600x4_StatePermute s ;;
      d0 <- aslice out0 pos r ;; d1 <- aslice out1 pos r ;;
      d2 <- aslice out2 pos r ;; d3 <- aslice out3 pos r ;;
      '(d0, d1, d2, d3) <- KeccakF1600x4_StateExtractBytes s d0 d1 d2 d3 0 r ;;
      out0 <- asplice out0 pos d0 ;; out1 <- asplice out1 pos d1 ;;
      out2 <- asplice out2 pos d2 ;; out3 <- asplice out3 pos d3 ;;
      ret ((out0, out1, out2, out3), pos + r, nblocks - 1, s))
    ((out0, out1, out2, out3), 0, nblocks, s) ;;
  ret (out, s).

(** The memset of fips202x4.c 70 and 78 *)
Definition zero_x4 : M (list Z) :=
  emit (ECopy 800) ;;;
  ret (repeat 0 100).

(** fips202x4.c 66-72 *)
Definition shake128x4_absorb {bo : byte_order} (in0 in1 in2 in3 : list Z) (inlen : Z)
  : M (list Z) :=
  s <- zero_x4 ;;
  keccak_absorb_x4 s SHAKE128_RATE in0 in1 in2 in3 inlen 31.

(** fips202x4.c 74-80 *)
Definition shake256x4_absorb {bo : byte_order} (in0 in1 in2 in3 : list Z) (inlen : Z)
  : M (list Z) :=
  s <- zero_x4 ;;
  keccak_absorb_x4 s SHAKE256_RATE in0 in1 in2 in3 inlen 31.

(** fips202x4.c 83-97 *)
Definition shake128x4_squeezeblocks {bo : byte_order} (out0 out1 out2 out3 : list Z) (nblocks : Z)
  (s : list Z) := keccak_squeezeblocks_x4 out0 out1 out2 out3 nblocks s SHAKE128_RATE.
Definition shake256x4_squeezeblocks {bo : byte_order} (out0 out1 out2 out3 : list Z) (nblocks : Z)
  (s : list Z) := keccak_squeezeblocks_x4 out0 out1 out2 out3 nblocks s SHAKE256_RATE.

(** fips202x4.c 103-129 *)
Definition shake256x4 {bo : byte_order} (J : junk) (out0 out1 out2 out3 : list Z) (outlen : Z)
  (in0 in1 in2 in3 : list Z) (inlen : Z) : M (x4 (list Z)) :=
  nblocks <- div_c outlen SHAKE256_RATE ;;
  statex <- shake256x4_absorb in0 in1 in2 in3 inlen ;;
  '(out, statex) <- shake256x4_squeezeblocks out0 out1 out2 out3 nblocks statex ;;
  let '(out0, out1, out2, out3) := out in
  let pos := nblocks * SHAKE256_RATE in
  let outlen := u64 (outlen - nblocks * SHAKE256_RATE) in
  branch (negb (outlen =? 0))
    ('(tmp, statex) <- shake256x4_squeezeblocks
        (uninit J 0 SHAKE256_RATE) (uninit J 1 SHAKE256_RATE)
        (uninit J 2 SHAKE256_RATE) (uninit J 3 SHAKE256_RATE) 1 statex ;;
     let '(tmp0, tmp1, tmp2, tmp3) := tmp in
     out0 <- memcpy out0 pos tmp0 0 outlen ;;
     out1 <- memcpy out1 pos tmp1 0 outlen ;;
     out2 <- memcpy out2 pos tmp2 0 outlen ;;
     out3 <- memcpy out3 pos tmp3 0 outlen ;;
     ret (out0, out1, out2, out3))
    (ret (out0, out1, out2, out3)).
