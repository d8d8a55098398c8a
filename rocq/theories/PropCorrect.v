(** * Property C06: an honest key exchange agrees whenever the decryption noise is small

    [kem_noise], [small_noise], [harmless_noise] and [exchange_memory] are explained in
    SpecNoise.v. [fuel] is the number of refill rounds the matrix sampling loops may run. *)

From Coq Require Import ZArith List Bool Lia.
From Verif Require Import ModelKeccak.
From Verif Require Import CSem ModelArith ModelIndcpa ModelKem Spec202 Spec203 SpecLink SpecMem SpecApi SpecNoise
  ProofCorrect ProofApi Samples SamplesKem SamplesNoise.
Import ListNotations.
Open Scope Z_scope.

(** The three calls one after the other in the same memory return 0 and both sides have the
    same 32 bytes. *)
Theorem C06_honest_exchange : forall {bo : byte_order} J1 J2 J3 fuel p m pk sk coins ct ss coins2 ss2 d z msg noise,
  exchange_memory (set_of p) m pk sk coins ct ss coins2 ss2 d z msg ->
  kem_noise (set_of p) (3 + Z.of_nat fuel) d msg = Some noise -> small_noise noise ->
  exists m1 m2 m3 K,
    val (crypto_kem_keypair_derand J1 fuel p m pk sk coins) = Ok (0, m1) /\
    val (crypto_kem_enc_derand J2 fuel p m1 ct ss pk coins2) = Ok (0, m2) /\
    val (crypto_kem_dec J3 fuel p m2 ss2 ct sk) = Ok (0, m3) /\
    zlen K = 32 /\ contains m3 ss K /\ contains m3 ss2 K.
Proof. intros bo.
  exact (fun J1 J2 J3 fuel p m pk sk coins ct ss coins2 ss2 d z msg noise X E S =>
    honest_exchange J1 J2 J3 fuel p m pk sk coins ct ss coins2 ss2 d z msg noise X E (small_harmless msg noise S)).
Qed.
Print Assumptions C06_honest_exchange.

(** Even the largest harmless noise is enough: 832 where the message bit is 0. *)
Theorem C06_harmless_exchange : forall {bo : byte_order} J1 J2 J3 fuel p m pk sk coins ct ss coins2 ss2 d z msg noise,
  exchange_memory (set_of p) m pk sk coins ct ss coins2 ss2 d z msg ->
  kem_noise (set_of p) (3 + Z.of_nat fuel) d msg = Some noise -> harmless_noise msg noise ->
  exists m1 m2 m3 K,
    val (crypto_kem_keypair_derand J1 fuel p m pk sk coins) = Ok (0, m1) /\
    val (crypto_kem_enc_derand J2 fuel p m1 ct ss pk coins2) = Ok (0, m2) /\
    val (crypto_kem_dec J3 fuel p m2 ss2 ct sk) = Ok (0, m3) /\
    zlen K = 32 /\ contains m3 ss K /\ contains m3 ss2 K.
Proof. intros bo. exact honest_exchange. Qed.
Print Assumptions C06_harmless_exchange.

(** The bounds are exact: decryption returns the message if and only if the noise is
    harmless. *)
Theorem C06_decrypts_iff : forall p b d ek dk m r c,
  bytes d -> 0 <= b -> zlen m = 32 -> bytes m ->
  K_PKE_KeyGen (set_of p) b d = Some (ek, dk) -> K_PKE_Encrypt (set_of p) b ek m r = Some c ->
  exists noise, pke_noise (set_of p) b d m r = Some noise /\
    (K_PKE_Decrypt (set_of p) dk c = m <-> harmless_noise m noise).
Proof. exact pke_correct_iff. Qed.
Print Assumptions C06_decrypts_iff.

(** The coins 1, 1 + 7, ... and the message of 256 ones have small noise, and the theorem
    applies to them. *)
Example C06_case : forall {bo : byte_order}, exists m1 m2 m3 K,
  val (crypto_kem_keypair_derand (fun _ => 77) 0 MLKEM512 exchange_sample 0 2000 6000) = Ok (0, m1) /\
  val (crypto_kem_enc_derand (fun _ => 78) 0 MLKEM512 m1 8000 10000 0 11000) = Ok (0, m2) /\
  val (crypto_kem_dec (fun _ => 79) 0 MLKEM512 m2 12000 8000 2000) = Ok (0, m3) /\
  zlen K = 32 /\ contains m3 10000 K /\ contains m3 12000 K.
Proof. intros bo.
  destruct sample_noise as (noise & E & S).
  exact (C06_honest_exchange _ _ _ 0 MLKEM512 _ _ _ _ _ _ _ _ _ _ _ _ exchange_sample_ok E S).
Qed.
(** Noise that is too large does make decryption fail: a single coefficient of 832 against a
    message bit 1 *)
Example C06_harmful : ~ harmless_noise ones_msg (832 :: repeat 0 255).
Proof.
  intros H. destruct (H 0 ltac:(unfold n; lia)) as [_ [C|[C _]]]; [vm_compute in C; now apply C|discriminate].
Qed.
