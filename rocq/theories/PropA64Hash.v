(** * The hash functions and the matrix in the AArch64 build: C55

    [c] is a fips202 configuration of fips202/native/aarch64 (ModelA64Fips202.v), [J] the
    contents of uninitialised variables, registers and stack. The words of the statements
    are those of PropKeccak.v and PropMatrix.v; the sequences of calls are those of
    SpecA64Build.v. *)

From Coq Require Import ZArith List Bool Lia.
From Verif Require Import ModelA64Poly ModelA64Fips202 ModelA64Sponge ModelA64Indcpa SpecA64Build
  ProofA64Hash ProofA64Matrix.
From Verif Require Import CSem ModelArith ModelKeccak ModelIndcpa Spec202 Spec203 SpecLink SpecHistory Samples.
Import ListNotations.
Open Scope Z_scope.

(** ** C55

    [m] may be longer than the [n] bytes hashed; bytes of the output buffer behind the
    digest keep their values. *)

Theorem C55_sha3_256 : forall c J out m n,
  bytes m -> 0 <= n <= zlen m -> n < 2 ^ 63 -> 32 <= zlen out ->
  val (sha3_256_aarch64 c J out m n) = Ok (SHA3_256 (slice m 0 n) ++ skipn 32 out).
Proof. exact sha3_256_correct_a64. Qed.
Print Assumptions C55_sha3_256.

Theorem C55_sha3_512 : forall c J out m n,
  bytes m -> 0 <= n <= zlen m -> n < 2 ^ 63 -> 64 <= zlen out ->
  val (sha3_512_aarch64 c J out m n) = Ok (SHA3_512 (slice m 0 n) ++ skipn 64 out).
Proof. exact sha3_512_correct_a64. Qed.
Print Assumptions C55_sha3_512.

Theorem C55_shake256 : forall c J out outlen m n,
  bytes m -> 0 <= n <= zlen m -> n < 2 ^ 63 -> 0 <= outlen <= zlen out -> outlen < 2 ^ 63 ->
  val (shake256_aarch64 c J out outlen m n) = Ok (SHAKE256 (slice m 0 n) outlen ++ skipn (Z.to_nat outlen) out).
Proof. exact shake256_correct_a64. Qed.
Print Assumptions C55_shake256.

(** any history of absorb calls, then any history of squeeze calls *)
Theorem C55_incremental : forall c J s chunks bufs,
  zlen s = 26 -> Forall (fun m => bytes m /\ zlen m < 2 ^ 63) chunks -> Forall (fun b => zlen b < 2 ^ 63) bufs ->
  exists outs,
    val (st <- shake256_inc_init s ;;
         st <- absorb_all_aarch64 c (sub J 0) st chunks ;;
         st <- shake256_inc_finalize (bo := LittleEndian) st ;;
         squeeze_all_aarch64 c (sub J 1) st bufs) = Ok outs /\
    map zlen outs = map zlen bufs /\
    concat outs = SHAKE256 (concat chunks) (zlen (concat bufs)).
Proof. exact incremental_correct_a64. Qed.
Print Assumptions C55_incremental.

Theorem C55_shake128 : forall c J s m n bufs,
  zlen s = 25 -> bytes m -> 0 <= n <= zlen m -> n < 2 ^ 63 -> Forall (fun b => zlen b mod 168 = 0) bufs ->
  exists outs,
    val (s <- shake128_absorb_aarch64 c (sub J 0) s m n ;; squeeze_blocks_all_aarch64 c (sub J 1) s bufs) = Ok outs /\
    map zlen outs = map zlen bufs /\
    concat outs = SHAKE128 (slice m 0 n) (zlen (concat bufs)).
Proof. exact shake128_correct_a64. Qed.
Print Assumptions C55_shake128.

Theorem C55_shake256x4 : forall c J h0 h1 h2 h3 outlen in0 in1 in2 in3 n,
  bytes in0 -> bytes in1 -> bytes in2 -> bytes in3 -> 0 <= n < 2 ^ 63 ->
  n <= zlen in0 -> n <= zlen in1 -> n <= zlen in2 -> n <= zlen in3 ->
  0 <= outlen < 2 ^ 63 ->
  outlen <= zlen h0 -> outlen <= zlen h1 -> outlen <= zlen h2 -> outlen <= zlen h3 ->
  val (shake256x4_aarch64 c J h0 h1 h2 h3 outlen in0 in1 in2 in3 n) =
  Ok (SHAKE256 (slice in0 0 n) outlen ++ skipn (Z.to_nat outlen) h0,
      SHAKE256 (slice in1 0 n) outlen ++ skipn (Z.to_nat outlen) h1,
      SHAKE256 (slice in2 0 n) outlen ++ skipn (Z.to_nat outlen) h2,
      SHAKE256 (slice in3 0 n) outlen ++ skipn (Z.to_nat outlen) h3).
Proof. exact shake256x4_correct_a64. Qed.
Print Assumptions C55_shake256x4.

Theorem C55_shake128x4 : forall c J m0 m1 m2 m3 n bufs,
  bytes m0 -> bytes m1 -> bytes m2 -> bytes m3 -> 0 <= n < 2 ^ 63 ->
  n <= zlen m0 -> n <= zlen m1 -> n <= zlen m2 -> n <= zlen m3 ->
  Forall (fun '(b0, b1, b2, b3) => zlen b0 mod 168 = 0 /\
            zlen b1 = zlen b0 /\ zlen b2 = zlen b0 /\ zlen b3 = zlen b0) bufs ->
  exists outs,
    val (s <- shake128x4_absorb_aarch64 c (sub J 0) m0 m1 m2 m3 n ;;
         squeeze_blocks_all_x4_aarch64 c (sub J 1) s bufs) = Ok outs /\
    length outs = length bufs /\
    forall i, 0 <= i < 4 ->
      concat (map (lane i) outs) =
      SHAKE128 (slice (lane i (m0, m1, m2, m3)) 0 n) (zlen (concat (map (lane i) bufs))).
Proof. exact shake128x4_correct_a64. Qed.
Print Assumptions C55_shake128x4.

Example C55_hash_case :
  val (sha3_256_aarch64 (default_h true true false) (fun _ => 77) (sample_bytes 0 40) (sample_bytes 5 1000) 999) =
  Ok (SHA3_256 (slice (sample_bytes 5 1000) 0 999) ++ skipn 32 (sample_bytes 0 40)).
Proof.
  destruct (sample_bytes_ok 5 1000) as [L B]; [discriminate|]. destruct (sample_bytes_ok 0 40) as [L' _]; [discriminate|].
  apply C55_sha3_256; [exact B| |reflexivity|]; rewrite ?L, ?L'; split || idtac; discriminate.
Qed.
Example C55_history_case : Forall (fun c => bytes c /\ zlen c < 2 ^ 63)
    [sample_bytes 1 135; sample_bytes 4 0; sample_bytes 2 1; sample_bytes 3 300] /\
  Forall (fun '(b0, b1, b2, b3) => zlen b0 mod 168 = 0 /\
            zlen b1 = zlen b0 /\ zlen b2 = zlen b0 /\ zlen b3 = zlen b0)
    [(sample_bytes 0 504, sample_bytes 1 504, sample_bytes 2 504, sample_bytes 3 504);
     (sample_bytes 0 168, sample_bytes 1 168, sample_bytes 2 168, sample_bytes 3 168)].
Proof.
  split; [repeat (apply Forall_cons; [apply sample_chunk_ok; split; (discriminate || reflexivity)|]); apply Forall_nil|].
  repeat (apply Forall_cons; [rewrite !(fun a b H => proj1 (sample_bytes_ok a b H)) by discriminate;
    repeat split; reflexivity|]). apply Forall_nil.
Qed.

(** The matrix, which uses SHAKE128 as above and the rejection sampling routine of C53, is
    the matrix of Algorithm 13 (steps 3-7) or its transpose *)
Theorem C55_gen_matrix : forall bd J fuel p a rho tr,
  let K := k (set_of p) in
  zlen a = K * K -> Forall (fun e => zlen e = 256) a -> zlen rho = 32 -> bytes rho ->
  val (gen_matrix_aarch64 bd J fuel p a rho tr) =
  match ExpandA (set_of p) (3 + Z.of_nat fuel) rho with
  | Some A => Ok (concat (if tr then transpose A else A))
  | None => NoFuel
  end.
Proof. exact gen_matrix_a64_correct. Qed.
Print Assumptions C55_gen_matrix.
Example C55_matrix_case : forall bd fuel,
  val (gen_matrix_aarch64 bd (fun _ => 77) fuel MLKEM512 (repeat (sample_poly 4) 4) (sample_bytes 3 32) true) =
  match ExpandA ML_KEM_512 (3 + Z.of_nat fuel) (sample_bytes 3 32) with
  | Some A => Ok (concat (transpose A))
  | None => NoFuel
  end.
Proof.
  intros bd fuel. apply (C55_gen_matrix bd _ fuel MLKEM512 _ _ true); [reflexivity| | |].
  - apply Forall_forall. intros x H. apply repeat_spec in H. subst x. apply sample_poly_ok.
  - now apply sample_bytes_ok.
  - now apply sample_bytes_ok.
Qed.
