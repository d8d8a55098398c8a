(** * Property C32: the noise vectors use the right PRF inputs *)

From Coq Require Import ZArith List Bool Lia.
From Verif Require Import ModelKeccak.
From Verif Require Import CSem ModelArith ModelIndcpa Spec202 Spec203 SpecLink CSemFacts Samples
  ProofNoise.
Import ListNotations.
Open Scope Z_scope.

(** Key generation: the secret vector has the nonces 0, ..., k-1 and the error vector the
    nonces k, ..., 2k-1, both with eta1. The array lent to the dummy lanes (k = 3) keeps
    its shape; nothing else depends on those lanes. *)
Theorem C32_keypair_noise : forall {bo : byte_order} J p skpv e pkpv seed,
  let P := set_of p in let poly_array v := zlen v = k P /\ Forall (fun f => zlen f = 256) v in
  poly_array skpv -> poly_array e -> poly_array pkpv -> zlen seed = 32 -> bytes seed ->
  exists s' e' pkpv', val (keypair_noise J p skpv e pkpv seed) = Ok (s', e', pkpv') /\
    map (map (fun x => x mod q)) s' = noise_vec P (eta1 P) seed 0 /\
    map (map (fun x => x mod q)) e' = noise_vec P (eta1 P) seed (k P) /\
    Forall (Forall (fun x => - eta1 P <= x <= eta1 P)) (s' ++ e') /\ poly_array pkpv'.
Proof. intros bo. exact keypair_noise_correct. Qed.
Print Assumptions C32_keypair_noise.

(** Encryption: y has the nonces 0, ..., k-1 with eta1, e1 the nonces k, ..., 2k-1 with
    eta2, e2 the nonce 2k with eta2. *)
Theorem C32_enc_noise : forall {bo : byte_order} J p sp ep epp b seed,
  let P := set_of p in let poly_array v := zlen v = k P /\ Forall (fun f => zlen f = 256) v in
  poly_array sp -> poly_array ep -> zlen epp = 256 -> poly_array b -> zlen seed = 32 -> bytes seed ->
  exists y e1 e2 b', val (enc_noise J p sp ep epp b seed) = Ok (y, e1, e2, b') /\
    map (map (fun x => x mod q)) y = noise_vec P (eta1 P) seed 0 /\
    map (map (fun x => x mod q)) e1 = noise_vec P (eta2 P) seed (k P) /\
    map (fun x => x mod q) e2 = SamplePolyCBD (eta2 P) (PRF (eta2 P) seed (2 * k P)) /\
    Forall (Forall (fun x => - eta1 P <= x <= eta1 P)) y /\
    Forall (Forall (fun x => - eta2 P <= x <= eta2 P)) (e2 :: e1) /\ poly_array b'.
Proof. intros bo. exact enc_noise_correct. Qed.
Print Assumptions C32_enc_noise.

Example C32_case : forall {bo : byte_order}, exists y e1 e2 b',
  val (enc_noise (fun _ => 5) MLKEM768 (zero_vec 3) (sample_vec 3) (sample_poly 2) (sample_vec 3)
        (sample_bytes 8 32)) = Ok (y, e1, e2, b') /\
  map (fun x => x mod q) e2 = SamplePolyCBD 2 (PRF 2 (sample_bytes 8 32) 6).
Proof. intros bo.
  destruct (sample_vec_ok MLKEM768) as [L F].
  assert (F' : Forall (fun f => zlen f = 256) (sample_vec 3)).
  { eapply Forall_impl; [|exact F]. intros f Hf. apply Hf. }
  destruct (zero_vec_ok MLKEM768) as [Lz Fz].
  destruct (C32_enc_noise (fun _ => 5) MLKEM768 (zero_vec 3) (sample_vec 3) (sample_poly 2) (sample_vec 3)
        (sample_bytes 8 32)) as (y & e1 & e2 & b' & H & _ & _ & H2 & _).
  - split; [exact Lz|]. eapply Forall_impl; [|exact Fz]. intros f Hf. apply Hf.
  - split; [exact L|exact F'].
  - apply sample_poly_ok.
  - split; [exact L|exact F'].
  - now apply sample_bytes_ok.
  - now apply sample_bytes_ok.
  - exists y, e1, e2, b'. split; [exact H|exact H2].
Qed.
