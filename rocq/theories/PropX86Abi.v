(** * The assembly of the x86_64 backend and the calling convention: C61

    The machine is that of ModelX86Abi.v: one memory of bytes with 64-bit addresses, sixteen
    general-purpose registers, the stack, [call] and [ret]. [loc] says at which address each
    instruction is. [enters loc l ra bufs s] (SpecX86Abi.v) says that [s] is the state just after a
    call from C to the routine [l] with pointers to the buffers [bufs], and that [ra] is the return
    address. [leads_to loc s s'] says that the machine gets from [s] to [s'] without a fault and
    cannot do anything else. [returned ra out n s s'] says that the caller goes on with its stack pointer
    and its registers, and that memory has changed only in the [n] bytes from [out] on and in the 64
    bytes below the stack pointer. *)

From Coq Require Import ZArith List Bool.
From Verif Require Import CSem ModelX86 ModelX86Asm ModelX86Poly ModelX86Abi Spec202 Spec203 SpecLink SpecX86 SpecX86Frame SpecX86Abi
  ProofX86Abi4 Samples SamplesX86 SamplesX86Abi.
Import ListNotations.
Open Scope Z_scope.

Theorem C61_ntt : forall loc ra s f,
  placed loc -> enters loc ntt_avx2_ ra [poly RDI; consts RSI] s ->
  zlen f = 256 -> holds (ram s) (gp s RDI) f -> holds (ram s) (gp s RSI) qdata ->
  (forall i, 0 <= i < 256 -> Z.abs (at_ f i) < q) ->
  exists s' r, (leads_to loc s s' /\ returned ra (gp s RDI) 512 s s') /\
    holds (ram s') (gp s RDI) r /\ zlen r = 256 /\
    (forall i, 0 <= i < 256 -> Z.abs (at_ r i) < 8 * q) /\
    (forall i, 0 <= i < 256 -> at_ (fips_order r) i mod q = at_ (NTT f) i).
Proof. exact abi_ntt. Qed.
Print Assumptions C61_ntt.
Example C61_ntt_ex : placed sample_loc /\
  enters sample_loc ntt_avx2_ 1234 [poly RDI; consts RSI] at_ntt /\
  holds (ram at_ntt) (gp at_ntt RDI) (sample_poly 3) /\ holds (ram at_ntt) (gp at_ntt RSI) qdata.
Proof. exact (conj sample_placed enters_ntt). Qed.

Theorem C61_invntt : forall loc ra s f,
  placed loc -> enters loc invntt_avx2_ ra [poly RDI; consts RSI] s ->
  zlen f = 256 -> holds (ram s) (gp s RDI) f -> holds (ram s) (gp s RSI) qdata ->
  exists s' r, (leads_to loc s s' /\ returned ra (gp s RDI) 512 s s') /\
    holds (ram s') (gp s RDI) r /\ zlen r = 256 /\
    (forall i, 0 <= i < 256 -> Z.abs (at_ r i) < 8 * q) /\
    (forall i, 0 <= i < 256 -> at_ r i mod q = (2 ^ 16 * at_ (NTT_inv (fips_order f)) i) mod q).
Proof. exact abi_invntt. Qed.
Print Assumptions C61_invntt.
Example C61_invntt_ex : enters sample_loc invntt_avx2_ 1234 [poly RDI; consts RSI] at_invntt /\
  holds (ram at_invntt) (gp at_invntt RDI) extreme_poly /\ holds (ram at_invntt) (gp at_invntt RSI) qdata.
Proof. exact enters_invntt. Qed.

(** The routines from here to C61_frombytes call a routine of their own twice. *)
Theorem C61_reduce : forall loc ra s f,
  placed loc -> enters loc reduce_avx2_ ra [poly RDI; consts RSI] s ->
  zlen f = 256 -> holds (ram s) (gp s RDI) f -> holds (ram s) (gp s RSI) qdata ->
  exists s', (leads_to loc s s' /\ returned ra (gp s RDI) 512 s s') /\
    holds (ram s') (gp s RDI) (map (fun x => x mod q) f).
Proof. exact abi_reduce. Qed.
Print Assumptions C61_reduce.
Example C61_reduce_ex : enters sample_loc reduce_avx2_ 1234 [poly RDI; consts RSI] at_reduce /\
  holds (ram at_reduce) (gp at_reduce RDI) extreme_poly /\ holds (ram at_reduce) (gp at_reduce RSI) qdata.
Proof. exact enters_reduce. Qed.

Theorem C61_tomont : forall loc ra s f,
  placed loc -> enters loc tomont_avx2_ ra [poly RDI; consts RSI] s ->
  zlen f = 256 -> holds (ram s) (gp s RDI) f -> holds (ram s) (gp s RSI) qdata ->
  exists s' r, (leads_to loc s s' /\ returned ra (gp s RDI) 512 s s') /\
    holds (ram s') (gp s RDI) r /\ zlen r = 256 /\
    (forall i, 0 <= i < 256 -> Z.abs (at_ r i) < q) /\
    (forall i, 0 <= i < 256 -> at_ r i mod q = (2 ^ 16 * at_ f i) mod q).
Proof. exact abi_tomont. Qed.
Print Assumptions C61_tomont.

Theorem C61_nttunpack : forall loc ra s f,
  placed loc -> enters loc nttunpack_avx2_ ra [poly RDI; consts RSI] s ->
  zlen f = 256 -> holds (ram s) (gp s RDI) f -> holds (ram s) (gp s RSI) qdata ->
  exists s' r, (leads_to loc s s' /\ returned ra (gp s RDI) 512 s s') /\
    holds (ram s') (gp s RDI) r /\ zlen r = 256 /\ fips_order r = f.
Proof. exact abi_nttunpack. Qed.
Print Assumptions C61_nttunpack.

Theorem C61_tobytes : forall loc ra s r0 a,
  placed loc -> enters loc ntttobytes_avx2_ ra [byte_array RDI; poly RSI; consts RDX] s ->
  zlen r0 = 384 -> holds_bytes (ram s) (gp s RDI) r0 ->
  holds (ram s) (gp s RSI) a -> holds (ram s) (gp s RDX) qdata -> reduced a ->
  exists s', (leads_to loc s s' /\ returned ra (gp s RDI) 384 s s') /\
    holds_bytes (ram s') (gp s RDI) (ByteEncode 12 (fips_order a)).
Proof. exact abi_tobytes. Qed.
Print Assumptions C61_tobytes.
Example C61_tobytes_ex : enters sample_loc ntttobytes_avx2_ 1234 [byte_array RDI; poly RSI; consts RDX] at_tobytes /\
  holds_bytes (ram at_tobytes) (gp at_tobytes RDI) (repeat 9 384) /\
  holds (ram at_tobytes) (gp at_tobytes RSI) (sample_poly 3) /\ holds (ram at_tobytes) (gp at_tobytes RDX) qdata.
Proof. exact enters_tobytes. Qed.

Theorem C61_frombytes : forall loc ra s r0 b,
  placed loc -> enters loc nttfrombytes_avx2_ ra [poly RDI; byte_array RSI; consts RDX] s ->
  zlen r0 = 256 -> zlen b = 384 -> holds (ram s) (gp s RDI) r0 ->
  holds_bytes (ram s) (gp s RSI) b -> holds (ram s) (gp s RDX) qdata ->
  exists s' r, (leads_to loc s s' /\ returned ra (gp s RDI) 512 s s') /\
    holds (ram s') (gp s RDI) r /\ zlen r = 256 /\ fips_order r = fields 12 b.
Proof. exact abi_frombytes. Qed.
Print Assumptions C61_frombytes.
Example C61_frombytes_ex : enters sample_loc nttfrombytes_avx2_ 1234 [poly RDI; byte_array RSI; consts RDX] at_frombytes /\
  holds (ram at_frombytes) (gp at_frombytes RDI) (sample_poly 3) /\
  holds_bytes (ram at_frombytes) (gp at_frombytes RSI) (repeat 201 384) /\ holds (ram at_frombytes) (gp at_frombytes RDX) qdata.
Proof. exact enters_frombytes. Qed.

(** This routine moves the stack pointer to get an aligned place of 32 bytes. *)
Theorem C61_basemul : forall loc ra s r0 a b,
  placed loc -> enters loc basemul_avx2_ ra [poly RDI; poly RSI; poly RDX; consts RCX] s ->
  zlen r0 = 256 -> zlen a = 256 -> zlen b = 256 ->
  holds (ram s) (gp s RDI) r0 -> holds (ram s) (gp s RSI) a -> holds (ram s) (gp s RDX) b ->
  holds (ram s) (gp s RCX) qdata ->
  (forall i, 0 <= i < 256 -> Z.abs (at_ a i) < q) ->
  exists s' r, (leads_to loc s s' /\ returned ra (gp s RDI) 512 s s') /\
    holds (ram s') (gp s RDI) r /\ zlen r = 256 /\
    (forall i, 0 <= i < 256 -> Z.abs (at_ r i) < 2 * q) /\
    (forall i, 0 <= i < 256 ->
       (2 ^ 16 * at_ (fips_order r) i) mod q = at_ (MultiplyNTTs (fips_order a) (fips_order b)) i).
Proof. exact abi_basemul. Qed.
Print Assumptions C61_basemul.
Example C61_basemul_ex : enters sample_loc basemul_avx2_ 1234 [poly RDI; poly RSI; poly RDX; consts RCX] at_basemul /\
  holds (ram at_basemul) (gp at_basemul RDI) (sample_poly 3) /\ holds (ram at_basemul) (gp at_basemul RSI) (sample_poly 5) /\
  holds (ram at_basemul) (gp at_basemul RDX) extreme_poly /\ holds (ram at_basemul) (gp at_basemul RCX) qdata.
Proof. exact enters_basemul. Qed.

(** nttpack_avx2 is not called by the library; here is only that it returns to its caller. *)
Theorem C61_nttpack_returns : forall loc ra s f,
  placed loc -> enters loc nttpack_avx2_ ra [poly RDI; consts RSI] s ->
  zlen f = 256 -> holds (ram s) (gp s RDI) f -> holds (ram s) (gp s RSI) qdata ->
  exists s', leads_to loc s s' /\ returned ra (gp s RDI) 512 s s'.
Proof. exact abi_nttpack. Qed.
Print Assumptions C61_nttpack_returns.
