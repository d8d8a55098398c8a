(** * Property C69: what overlapping buffers do to the KEM functions

    [keypair_derand_any], [enc_derand_any], [dec_any] are the functions of kem.c for all
    addresses (ModelAlias.v). The calls are described in SpecAlias.v: [dec_any_call] does not
    ask for buffers to be apart at all, [enc_any_call] only the two outputs from each other,
    [keypair_any_call] only the outputs and z. *)

From Coq Require Import ZArith List Bool Lia.
From Verif Require Import ModelKeccak.
From Verif Require Import CSem ModelArith ModelIndcpa ModelKem ModelAlias Spec202 Spec203 SpecLink SpecMem SpecApi SpecAlias
  CSemFacts ProofMem ProofKem ProofKeys ProofApi ProofReturn ProofAlias Samples SamplesKem SamplesAlias.
Import ListNotations.
Open Scope Z_scope.

(** Decapsulation gives the result of Algorithm 18 for the key and the ciphertext that were in
    memory before the call, even if the shared secret is written over them. *)
Theorem C69_dec : forall {bo : byte_order} J fuel p m ss ct sk dk c,
  dec_any_call (set_of p) m ss ct sk dk c -> hash_check (set_of p) dk ->
  match ML_KEM_Decaps_internal (set_of p) (3 + Z.of_nat fuel) dk c with
  | Some K => finished (val (dec_any J fuel p m ss ct sk)) m 0 [(ss, K)]
  | None => val (dec_any J fuel p m ss ct sk) = NoFuel
  end.
Proof. intros bo. exact dec_any_exact. Qed.
Print Assumptions C69_dec.

Theorem C69_dec_rejects : forall {bo : byte_order} J fuel p m ss ct sk dk c,
  dec_any_call (set_of p) m ss ct sk dk c -> ~ hash_check (set_of p) dk ->
  val (dec_any J fuel p m ss ct sk) = Ok (-1, m).
Proof. intros bo. exact dec_any_reject. Qed.
Print Assumptions C69_dec_rejects.

(** Encapsulation likewise, as long as the ciphertext and the shared secret do not overlap. *)
Theorem C69_enc : forall {bo : byte_order} J fuel p m ct ss pk coins ek msg,
  enc_any_call (set_of p) m ct ss pk coins ek msg -> modulus_check (set_of p) ek ->
  match ML_KEM_Encaps_internal (set_of p) (3 + Z.of_nat fuel) ek msg with
  | Some (K, c) => finished (val (enc_derand_any J fuel p m ct ss pk coins)) m 0 [(ct, c); (ss, K)]
  | None => val (enc_derand_any J fuel p m ct ss pk coins) = NoFuel
  end.
Proof. intros bo. exact enc_any_exact. Qed.
Print Assumptions C69_enc.

Theorem C69_enc_rejects : forall {bo : byte_order} J fuel p m ct ss pk coins ek msg,
  enc_any_call (set_of p) m ct ss pk coins ek msg -> ~ modulus_check (set_of p) ek ->
  val (enc_derand_any J fuel p m ct ss pk coins) = Ok (-1, m).
Proof. intros bo. exact enc_any_reject. Qed.
Print Assumptions C69_enc_rejects.

(** Key generation likewise, as long as the second half of the coins is out of the way. *)
Theorem C69_keypair : forall {bo : byte_order} J fuel p m pk sk coins d z,
  keypair_any_call (set_of p) m pk sk coins d z ->
  match ML_KEM_KeyGen_internal (set_of p) (3 + Z.of_nat fuel) d z with
  | Some (ek, dk) => finished (val (keypair_derand_any J fuel p m pk sk coins)) m 0 [(pk, ek); (sk, dk)]
  | None => val (keypair_derand_any J fuel p m pk sk coins) = NoFuel
  end.
Proof. intros bo. exact keypair_any_exact. Qed.
Print Assumptions C69_keypair.

(** Otherwise it is not: with the coins at the beginning of the buffer of the public key, the
    call succeeds, but the secret key holds bytes 32 to 63 of the public key in place of z: the
    secret of the implicit rejection is then known to everybody. *)
Theorem C69_keypair_in_place : forall {bo : byte_order} J fuel p m pk sk d z ek dk_pke,
  keypair_in_place (set_of p) m pk sk d z ->
  K_PKE_KeyGen (set_of p) (3 + Z.of_nat fuel) d = Some (ek, dk_pke) ->
  finished (val (keypair_derand_any J fuel p m pk sk pk)) m 0 [(pk, ek); (sk, dk_pke ++ ek ++ H ek ++ slice ek 32 64)].
Proof. intros bo. exact keypair_in_place_out. Qed.
Print Assumptions C69_keypair_in_place.

(** which is the key pair of Algorithm 16 only if z was equal to these bytes. *)
Theorem C69_keypair_in_place_iff : forall {bo : byte_order} J fuel p m pk sk d z ek dk,
  keypair_in_place (set_of p) m pk sk d z ->
  ML_KEM_KeyGen_internal (set_of p) (3 + Z.of_nat fuel) d z = Some (ek, dk) ->
  (finished (val (keypair_derand_any J fuel p m pk sk pk)) m 0 [(pk, ek); (sk, dk)] <-> z = slice ek 32 64).
Proof. intros bo. exact keypair_in_place_wrong. Qed.
Print Assumptions C69_keypair_in_place_iff.

(** The functions are those of ModelKem.v without the precondition of kem.h. *)
Theorem C69_enc_model : forall {bo : byte_order} J fuel p m ct ss pk coins,
  crypto_kem_enc_derand J fuel p m ct ss pk coins =
  (no_alias [(ct, MLKEM_CIPHERTEXTBYTES p); (ss, MLKEM_SSBYTES); (pk, MLKEM_PUBLICKEYBYTES p); (coins, MLKEM_SYMBYTES)] ;;;
   enc_derand_any J fuel p m ct ss pk coins).
Proof. reflexivity. Qed.
Print Assumptions C69_enc_model.
Theorem C69_dec_model : forall {bo : byte_order} J fuel p m ss ct sk,
  crypto_kem_dec J fuel p m ss ct sk =
  (no_alias [(ss, MLKEM_SSBYTES); (ct, MLKEM_CIPHERTEXTBYTES p); (sk, MLKEM_SECRETKEYBYTES p)] ;;;
   dec_any J fuel p m ss ct sk).
Proof. reflexivity. Qed.
Print Assumptions C69_dec_model.

(** Decapsulation with the shared secret over the ciphertext (at 2000), and over the first bytes
    of the key (at 6000) *)
Lemma sample_dec_any ss : 0 <= ss <= 10000 -> dec_any_call ML_KEM_512 (dec_memory sample_dk) ss 2000 6000 sample_dk sample_ct.
Proof.
  intros Hs. destruct sample_dk_ok as [L B]. destruct (sample_dec_call _ L B) as (Bm & _ & H).
  split; [exact Bm|]. split; [apply sample_accessible; lia|tauto].
Qed.
Example C69_dec_case : forall {bo : byte_order} ss, ss = 2000 \/ ss = 6000 -> exists K,
  ML_KEM_Decaps_internal ML_KEM_512 3 sample_dk sample_ct = Some K /\
  finished (val (dec_any (fun _ => 77) 0 MLKEM512 (dec_memory sample_dk) ss 2000 6000)) (dec_memory sample_dk) 0 [(ss, K)].
Proof.
  intros bo ss Hs.
  pose proof (C69_dec (fun _ => 77) 0 MLKEM512 _ _ _ _ _ _ (sample_dec_any ss ltac:(lia)) sample_dk_check) as H.
  pose proof (sample_suffices 3 ltac:(lia)) as S. rewrite <- sample_dk_rho in S.
  destruct (proj2 (decaps_iff ML_KEM_512 3 sample_dk sample_ct ltac:(discriminate)) S) as [K E].
  change (set_of MLKEM512) with ML_KEM_512 in H. change (3 + Z.of_nat 0) with 3 in H. rewrite E in H. eauto.
Qed.

(** Encapsulation with the ciphertext over the key (at 4000) and the secret over the coins (at
    6000) *)
Lemma sample_enc_any : enc_any_call ML_KEM_512 (enc_memory sample_ek) 4000 6000 4000 6000 sample_ek sample_msg.
Proof.
  destruct sample_ek_ok as [L B]. destruct (sample_enc_call _ L B) as (Bm & _ & _ & C1 & L1 & C2 & L2 & _).
  split; [exact Bm|]. split; [apply sample_accessible; cbn; lia|]. split; [apply sample_accessible; lia|].
  do 4 (split; [assumption|]). apply apart_two. unfold apart. cbn. lia.
Qed.
Example C69_enc_case : forall {bo : byte_order}, exists K c,
  ML_KEM_Encaps_internal ML_KEM_512 3 sample_ek sample_msg = Some (K, c) /\
  finished (val (enc_derand_any (fun _ => 77) 0 MLKEM512 (enc_memory sample_ek) 4000 6000 4000 6000))
    (enc_memory sample_ek) 0 [(4000, c); (6000, K)].
Proof.
  intros bo.
  pose proof (C69_enc (fun _ => 77) 0 MLKEM512 _ _ _ _ _ _ _ sample_enc_any sample_ek_check) as H.
  pose proof (sample_suffices 3 ltac:(lia)) as S. rewrite <- sample_ek_rho in S.
  destruct (proj2 (encaps_iff ML_KEM_512 3 sample_ek sample_msg ltac:(discriminate)) S) as [[K c] E].
  change (set_of MLKEM512) with ML_KEM_512 in H. change (3 + Z.of_nat 0) with 3 in H. rewrite E in H. eauto.
Qed.

(** Key generation with the public key (800 bytes from 5232) over d (32 bytes from 6000) *)
Example C69_keypair_case : keypair_any_call ML_KEM_512 keypair_memory 5232 2000 6000 sample_d sample_z.
Proof.
  destruct sample_keypair_call as (Bm & _ & A & C & L1 & L2 & _).
  split; [exact Bm|]. split; [apply sample_accessible; cbn; lia|].
  do 4 (split; [assumption|]). apply apart3; unfold apart; cbn; lia.
Qed.

(** Key generation in place, with a z that is lost *)
Theorem C69_keypair_refuted : forall {bo : byte_order}, exists J fuel p m pk sk d z ek dk,
  keypair_in_place (set_of p) m pk sk d z /\
  ML_KEM_KeyGen_internal (set_of p) (3 + Z.of_nat fuel) d z = Some (ek, dk) /\
  ~ finished (val (keypair_derand_any J fuel p m pk sk pk)) m 0 [(pk, ek); (sk, dk)].
Proof. intros bo. exact keypair_in_place_lost. Qed.
Print Assumptions C69_keypair_refuted.
