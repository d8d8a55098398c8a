(** * Property C63: the samplers are unbiased

    [counted], [binomial] and [product] are explained in SpecCount.v. *)

From Coq Require Import ZArith List Bool Lia.
From Verif Require Import CSem ModelArith Spec202 Spec203 SpecLink SpecCount ProofCount Samples.
Import ListNotations.
Open Scope Z_scope.

(** Of all strings of 64 eta1 bytes, poly_cbd_eta1 gives the polynomial f for as many as the product of
    the binomial coefficients of its coefficients. So with uniform bytes the coefficients are independent,
    and each is the number of heads minus eta1 in 2 eta1 throws of a coin. *)
Theorem C63_cbd_eta1 : forall p r f,
  zlen r = 256 -> zlen f = 256 ->
  let eta := eta1 (set_of p) in
  Forall (fun x => - eta <= x <= eta) f ->
  counted (fun buf => zlen buf = 64 * eta /\ bytes buf /\ val (poly_cbd_eta1 p r buf) = Ok f)
    (product (map (binomial eta) f)).
Proof. exact count_cbd_eta1. Qed.
Print Assumptions C63_cbd_eta1.

Theorem C63_cbd_eta2 : forall p r f,
  zlen r = 256 -> zlen f = 256 ->
  let eta := eta2 (set_of p) in
  Forall (fun x => - eta <= x <= eta) f ->
  counted (fun buf => zlen buf = 64 * eta /\ bytes buf /\ val (poly_cbd_eta2 r buf) = Ok f)
    (product (map (binomial eta) f)).
Proof. exact count_cbd_eta2. Qed.
Print Assumptions C63_cbd_eta2.

(** There are 256^len byte strings. *)
Theorem C63_byte_strings : forall len, counted (fun B => zlen B = Z.of_nat len /\ bytes B) (256 ^ Z.of_nat len).
Proof. exact count_bytes. Qed.
Print Assumptions C63_byte_strings.

(** rej_uniform on a buffer of 3 g bytes: of two sequences of coefficients that are equally long, each is
    the result for the same number of buffers. So with uniform bytes no polynomial is preferred.
    There is such a buffer if the sequence is not longer than the 2 g candidates. *)
Theorem C63_rej_uniform : forall r target g f f',
  0 <= g -> 3 * g < 2 ^ 31 -> target <= zlen r -> target < 2 ^ 31 ->
  zlen f <= target -> Forall (fun x => 0 <= x < q) f -> zlen f' = zlen f -> Forall (fun x => 0 <= x < q) f' ->
  let gives f buf := zlen buf = 3 * g /\ bytes buf /\
    exists r', val (rej_uniform r target 0 buf (3 * g)) = Ok (r', zlen f) /\ slice r' 0 (zlen f) = f in
  exists N, counted (gives f) N /\ counted (gives f') N /\ (zlen f <= 2 * g -> 0 < N).
Proof. exact rej_unbiased. Qed.
Print Assumptions C63_rej_uniform.

(** Pascal's rows for the two values of eta *)
Example C63_rows : map (binomial 2) [-2; -1; 0; 1; 2] = [1; 4; 6; 4; 1] /\ map (binomial 3) [-3; -2; -1; 0; 1; 2; 3] = [1; 6; 15; 20; 15; 6; 1].
Proof. split; reflexivity. Qed.
(** Zero is sampled for 20^256 of the 256^192 buffers. *)
Example C63_cbd_case : counted (fun buf => zlen buf = 192 /\ bytes buf /\ val (poly_cbd_eta1 MLKEM512 (sample_poly 5) buf) = Ok (repeat 0 256)) (20 ^ 256).
Proof.
  pose proof (C63_cbd_eta1 MLKEM512 (sample_poly 5) (repeat 0 256)) as C. cbv zeta in C.
  replace (20 ^ 256) with (product (map (binomial (eta1 (set_of MLKEM512))) (repeat 0 256))) by (vm_compute; reflexivity).
  apply C; [apply sample_poly_ok|reflexivity|]. apply Forall_forall. intros x Hx. apply repeat_spec in Hx as ->. cbn. lia.
Qed.
(** Two polynomials are equally frequent in buffers of three SHAKE128 blocks. *)
Example C63_rej_case : exists N, 0 < N /\
  counted (fun buf => zlen buf = 3 * 168 /\ bytes buf /\
    exists r', val (rej_uniform (sample_poly 5) 256 0 buf (3 * 168)) = Ok (r', 256) /\ slice r' 0 256 = repeat 0 256) N /\
  counted (fun buf => zlen buf = 3 * 168 /\ bytes buf /\
    exists r', val (rej_uniform (sample_poly 5) 256 0 buf (3 * 168)) = Ok (r', 256) /\ slice r' 0 256 = repeat 3328 256) N.
Proof.
  destruct (C63_rej_uniform (sample_poly 5) 256 168 (repeat 0 256) (repeat 3328 256)) as (N & H1 & H2 & H3);
    [lia|lia| |lia| | |reflexivity| |].
  - destruct (sample_poly_ok 5) as [L _]. rewrite L. unfold n. lia.
  - change (zlen (repeat 0 256)) with 256. lia.
  - apply Forall_forall. intros x Hx. apply repeat_spec in Hx as ->. unfold q. lia.
  - apply Forall_forall. intros x Hx. apply repeat_spec in Hx as ->. unfold q. lia.
  - exists N. split; [apply H3; change (zlen (repeat 0 256)) with 256; lia|]. split; [exact H1|exact H2].
Qed.
