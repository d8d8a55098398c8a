(** * The x86_64 build of the KEM: C46

    The five API functions as built for x86_64 with both native backends: polynomial
    arithmetic by the assembly routines of mlkem/native/x86_64, rejection sampling by the
    AVX2 intrinsics, four-way Keccak by fips202/native/x86_64 (ModelX86Indcpa.v,
    ModelX86Kem.v). The words of the statements are those of PropKem.v; [same_result] is
    explained in SpecX86Build.v. *)

From Coq Require Import ZArith List Bool Lia.
From Verif Require Import ModelKeccak.
From Verif Require Import CSem ModelArith ModelIndcpa ModelKem ModelX86Kem Spec202 Spec203 SpecLink SpecMem SpecApi
  SpecX86Build ProofKeys ProofReturn ProofX86Kem Samples SamplesKem.
Import ListNotations.
Open Scope Z_scope.

(** ** C46: the x86_64 build computes the algorithms of FIPS 203 *)

(** Algorithm 16 *)
Theorem C46_keypair_derand : forall J fuel p m pk sk coins d z,
  keypair_call (set_of p) m pk sk coins d z ->
  match ML_KEM_KeyGen_internal (set_of p) (3 + Z.of_nat fuel) d z with
  | Some (ek, dk) => finished (val (crypto_kem_keypair_derand_x86_64 J fuel p m pk sk coins)) m 0 [(pk, ek); (sk, dk)]
  | None => val (crypto_kem_keypair_derand_x86_64 J fuel p m pk sk coins) = NoFuel
  end.
Proof. exact keypair_derand_exact_x86. Qed.
Print Assumptions C46_keypair_derand.

(** Algorithm 17, for keys that pass the modulus check *)
Theorem C46_enc_derand : forall J fuel p m ct ss pk coins ek msg,
  enc_call (set_of p) m ct ss pk coins ek msg ->
  modulus_check (set_of p) ek ->
  match ML_KEM_Encaps_internal (set_of p) (3 + Z.of_nat fuel) ek msg with
  | Some (K, c) => finished (val (crypto_kem_enc_derand_x86_64 J fuel p m ct ss pk coins)) m 0 [(ct, c); (ss, K)]
  | None => val (crypto_kem_enc_derand_x86_64 J fuel p m ct ss pk coins) = NoFuel
  end.
Proof. exact enc_derand_exact_x86. Qed.
Print Assumptions C46_enc_derand.

(** other keys are rejected, and nothing is written *)
Theorem C46_enc_derand_rejects : forall J fuel p m ct ss pk coins ek msg,
  enc_call (set_of p) m ct ss pk coins ek msg ->
  ~ modulus_check (set_of p) ek ->
  val (crypto_kem_enc_derand_x86_64 J fuel p m ct ss pk coins) = Ok (-1, m).
Proof. exact enc_derand_reject_x86. Qed.
Print Assumptions C46_enc_derand_rejects.

(** Algorithm 18, for keys that pass the hash check *)
Theorem C46_dec : forall J fuel p m ss ct sk dk c,
  dec_call (set_of p) m ss ct sk dk c ->
  hash_check (set_of p) dk ->
  match ML_KEM_Decaps_internal (set_of p) (3 + Z.of_nat fuel) dk c with
  | Some K => finished (val (crypto_kem_dec_x86_64 J fuel p m ss ct sk)) m 0 [(ss, K)]
  | None => val (crypto_kem_dec_x86_64 J fuel p m ss ct sk) = NoFuel
  end.
Proof. exact dec_exact_x86. Qed.
Print Assumptions C46_dec.

(** other keys are rejected, and nothing is written *)
Theorem C46_dec_rejects : forall J fuel p m ss ct sk dk c,
  dec_call (set_of p) m ss ct sk dk c ->
  ~ hash_check (set_of p) dk ->
  val (crypto_kem_dec_x86_64 J fuel p m ss ct sk) = Ok (-1, m).
Proof. exact dec_reject_x86. Qed.
Print Assumptions C46_dec_rejects.

(** the randomised functions draw 64 and 32 bytes *)
Theorem C46_keypair : forall J fuel p rng m pos fp pk sk,
  keypair_rand_call (set_of p) m fp pk sk ->
  match ML_KEM_KeyGen_internal (set_of p) (3 + Z.of_nat fuel) (drawn rng pos 32) (drawn rng (pos + 32) 32) with
  | Some (ek, dk) =>
      finished_at (val (crypto_kem_keypair_x86_64 J fuel p rng m pos fp pk sk)) m 0 (pos + 64) [(pk, ek); (sk, dk)]
  | None => val (crypto_kem_keypair_x86_64 J fuel p rng m pos fp pk sk) = NoFuel
  end.
Proof. exact keypair_exact_x86. Qed.
Print Assumptions C46_keypair.

Theorem C46_enc : forall J fuel p rng m pos fp ct ss pk ek,
  enc_rand_call (set_of p) m fp ct ss pk ek ->
  modulus_check (set_of p) ek ->
  match ML_KEM_Encaps_internal (set_of p) (3 + Z.of_nat fuel) ek (drawn rng pos 32) with
  | Some (K, c) =>
      finished_at (val (crypto_kem_enc_x86_64 J fuel p rng m pos fp ct ss pk)) m 0 (pos + 32) [(ct, c); (ss, K)]
  | None => val (crypto_kem_enc_x86_64 J fuel p rng m pos fp ct ss pk) = NoFuel
  end.
Proof. exact enc_exact_x86. Qed.
Print Assumptions C46_enc.

Theorem C46_enc_rejects : forall J fuel p rng m pos fp ct ss pk ek,
  enc_rand_call (set_of p) m fp ct ss pk ek ->
  ~ modulus_check (set_of p) ek ->
  finished_at (val (crypto_kem_enc_x86_64 J fuel p rng m pos fp ct ss pk)) m (-1) (pos + 32) [].
Proof. exact enc_reject_x86. Qed.
Print Assumptions C46_enc_rejects.

Example C46_keypair_case : exists ek dk,
  ML_KEM_KeyGen_internal ML_KEM_512 3 sample_d sample_z = Some (ek, dk) /\
  finished (val (crypto_kem_keypair_derand_x86_64 (fun _ => 77) 0 MLKEM512 keypair_memory 0 2000 6000))
    keypair_memory 0 [(0, ek); (2000, dk)].
Proof.
  pose proof (C46_keypair_derand (fun _ => 77) 0 MLKEM512 _ _ _ _ _ _ sample_keypair_call) as H.
  destruct (proj2 (keygen_iff ML_KEM_512 3 sample_d sample_z ltac:(discriminate)) (sample_suffices 3 ltac:(lia))) as [[ek dk] E].
  change (set_of MLKEM512) with ML_KEM_512 in H. change (3 + Z.of_nat 0) with 3 in H. rewrite E in H. eauto.
Qed.
Example C46_enc_case : exists K c,
  ML_KEM_Encaps_internal ML_KEM_512 3 sample_ek sample_msg = Some (K, c) /\
  finished (val (crypto_kem_enc_derand_x86_64 (fun _ => 77) 0 MLKEM512 (enc_memory sample_ek) 0 2000 4000 6000))
    (enc_memory sample_ek) 0 [(0, c); (2000, K)].
Proof.
  destruct sample_ek_ok as [L B].
  pose proof (C46_enc_derand (fun _ => 77) 0 MLKEM512 _ _ _ _ _ _ _ (sample_enc_call _ L B) sample_ek_check) as H.
  pose proof (sample_suffices 3 ltac:(lia)) as S. rewrite <- sample_ek_rho in S.
  destruct (proj2 (encaps_iff ML_KEM_512 3 sample_ek sample_msg ltac:(discriminate)) S) as [[K c] E].
  change (set_of MLKEM512) with ML_KEM_512 in H. change (3 + Z.of_nat 0) with 3 in H. rewrite E in H. eauto.
Qed.
Example C46_dec_case : exists K,
  ML_KEM_Decaps_internal ML_KEM_512 3 sample_dk sample_ct = Some K /\
  finished (val (crypto_kem_dec_x86_64 (fun _ => 77) 0 MLKEM512 (dec_memory sample_dk) 0 2000 6000))
    (dec_memory sample_dk) 0 [(0, K)].
Proof.
  destruct sample_dk_ok as [L B].
  pose proof (C46_dec (fun _ => 77) 0 MLKEM512 _ _ _ _ _ _ (sample_dec_call _ L B) sample_dk_check) as H.
  pose proof (sample_suffices 3 ltac:(lia)) as S. rewrite <- sample_dk_rho in S.
  destruct (proj2 (decaps_iff ML_KEM_512 3 sample_dk sample_ct ltac:(discriminate)) S) as [K E].
  change (set_of MLKEM512) with ML_KEM_512 in H. change (3 + Z.of_nat 0) with 3 in H. rewrite E in H. eauto.
Qed.

(** No undefined behaviour, no access outside the buffers, no misaligned vector access, no
    failing debug check: the outcome is a result, or the sampling loop is still running *)
Theorem C46_keypair_derand_no_ub : forall J fuel p m pk sk coins d z e,
  keypair_call (set_of p) m pk sk coins d z ->
  val (crypto_kem_keypair_derand_x86_64 J fuel p m pk sk coins) <> UB e.
Proof. exact keypair_derand_no_ub_x86. Qed.
Print Assumptions C46_keypair_derand_no_ub.

Theorem C46_enc_derand_no_ub : forall J fuel p m ct ss pk coins ek msg e,
  enc_call (set_of p) m ct ss pk coins ek msg ->
  val (crypto_kem_enc_derand_x86_64 J fuel p m ct ss pk coins) <> UB e.
Proof. exact enc_derand_no_ub_x86. Qed.
Print Assumptions C46_enc_derand_no_ub.

Theorem C46_dec_no_ub : forall J fuel p m ss ct sk dk c e,
  dec_call (set_of p) m ss ct sk dk c ->
  val (crypto_kem_dec_x86_64 J fuel p m ss ct sk) <> UB e.
Proof. exact dec_no_ub_x86. Qed.
Print Assumptions C46_dec_no_ub.

Theorem C46_keypair_no_ub : forall J fuel p rng m pos fp pk sk e,
  keypair_rand_call (set_of p) m fp pk sk ->
  val (crypto_kem_keypair_x86_64 J fuel p rng m pos fp pk sk) <> UB e.
Proof. exact keypair_no_ub_x86. Qed.
Print Assumptions C46_keypair_no_ub.

Theorem C46_enc_no_ub : forall J fuel p rng m pos fp ct ss pk ek e,
  enc_rand_call (set_of p) m fp ct ss pk ek ->
  val (crypto_kem_enc_x86_64 J fuel p rng m pos fp ct ss pk) <> UB e.
Proof. exact enc_no_ub_x86. Qed.
Print Assumptions C46_enc_no_ub.

Example C46_no_ub_case : forall e,
  val (crypto_kem_enc_derand_x86_64 (fun _ => -5) 0 MLKEM512 (enc_memory bad_ek) 0 2000 4000 6000) <> UB e /\
  val (crypto_kem_dec_x86_64 (fun _ => -5) 0 MLKEM512 (dec_memory bad_dk) 0 2000 6000) <> UB e /\
  val (crypto_kem_keypair_x86_64 (fun _ => -5) 0 MLKEM512 (fun i => i * i) (sample_memory []) 0 30000 0 2000) <> UB e.
Proof.
  intros e. destruct bad_ek_ok as [L B]. destruct bad_dk_ok as (L' & B' & _). split; [|split].
  - eapply (C46_enc_derand_no_ub _ _ MLKEM512). now apply sample_enc_call.
  - eapply (C46_dec_no_ub _ _ MLKEM512). now apply sample_dec_call.
  - apply (C46_keypair_no_ub _ _ MLKEM512), sample_keypair_rand_call.
Qed.

(** The two builds cannot be told apart by their results: same return value, same memory
    afterwards, whatever the contents [J] and [J'] of their uninitialised local variables *)
Theorem C46_keypair_derand_agrees : forall {bo : byte_order} J J' fuel p m pk sk coins d z,
  keypair_call (set_of p) m pk sk coins d z ->
  same_result (val (crypto_kem_keypair_derand_x86_64 J fuel p m pk sk coins))
              (val (crypto_kem_keypair_derand J' fuel p m pk sk coins)).
Proof. intros bo. exact keypair_derand_same. Qed.
Print Assumptions C46_keypair_derand_agrees.

Theorem C46_enc_derand_agrees : forall {bo : byte_order} J J' fuel p m ct ss pk coins ek msg,
  enc_call (set_of p) m ct ss pk coins ek msg ->
  same_result (val (crypto_kem_enc_derand_x86_64 J fuel p m ct ss pk coins))
              (val (crypto_kem_enc_derand J' fuel p m ct ss pk coins)).
Proof. intros bo. exact enc_derand_same. Qed.
Print Assumptions C46_enc_derand_agrees.

Theorem C46_dec_agrees : forall {bo : byte_order} J J' fuel p m ss ct sk dk c,
  dec_call (set_of p) m ss ct sk dk c ->
  same_result (val (crypto_kem_dec_x86_64 J fuel p m ss ct sk)) (val (crypto_kem_dec J' fuel p m ss ct sk)).
Proof. intros bo. exact dec_same. Qed.
Print Assumptions C46_dec_agrees.

Theorem C46_keypair_agrees : forall {bo : byte_order} J J' fuel p rng m pos fp pk sk,
  keypair_rand_call (set_of p) m fp pk sk ->
  same_result_at (val (crypto_kem_keypair_x86_64 J fuel p rng m pos fp pk sk))
                 (val (crypto_kem_keypair J' fuel p rng m pos fp pk sk)).
Proof. intros bo. exact keypair_same. Qed.
Print Assumptions C46_keypair_agrees.

Theorem C46_enc_agrees : forall {bo : byte_order} J J' fuel p rng m pos fp ct ss pk ek,
  enc_rand_call (set_of p) m fp ct ss pk ek ->
  same_result_at (val (crypto_kem_enc_x86_64 J fuel p rng m pos fp ct ss pk))
                 (val (crypto_kem_enc J' fuel p rng m pos fp ct ss pk)).
Proof. intros bo. exact enc_same. Qed.
Print Assumptions C46_enc_agrees.

Example C46_agrees_case : forall {bo : byte_order},
  same_result
    (val (crypto_kem_dec_x86_64 (fun _ => 1) 0 MLKEM512 (dec_memory sample_dk) 0 2000 6000))
    (val (crypto_kem_dec (fun _ => 2) 0 MLKEM512 (dec_memory sample_dk) 0 2000 6000)) /\
  same_result
    (val (crypto_kem_enc_derand_x86_64 (fun _ => 1) 0 MLKEM512 (enc_memory bad_ek) 0 2000 4000 6000))
    (val (crypto_kem_enc_derand (fun _ => 2) 0 MLKEM512 (enc_memory bad_ek) 0 2000 4000 6000)).
Proof.
  intros bo.
  destruct sample_dk_ok as [L B]. destruct bad_ek_ok as [L' B']. split.
  - eapply (C46_dec_agrees _ _ _ MLKEM512). now apply sample_dec_call.
  - eapply (C46_enc_derand_agrees _ _ _ MLKEM512). now apply sample_enc_call.
Qed.
