(** * Concrete inputs used to show that hypotheses of theorems can be met *)

From Coq Require Import ZArith List Bool Lia.
From Verif Require Import CSem ModelArith Spec202 Spec203 SpecLink CSemFacts.
Import ListNotations.
Open Scope Z_scope.

Definition sample_bytes (a m : Z) : list Z := map (fun i => (7 * i + a) mod 256) (range m).
Lemma sample_bytes_ok a m : 0 <= m -> zlen (sample_bytes a m) = m /\ bytes (sample_bytes a m).
Proof.
  intros. unfold sample_bytes. rewrite zlen_map, zlen_range by lia. split; auto.
  apply Forall_map_range. intros. apply Z.mod_pos_bound; lia.
Qed.

Definition sample_poly (a : Z) : list Z := map (fun i => (1234 * i + a) mod q) (range 256).
Lemma sample_poly_ok a : reduced (sample_poly a).
Proof.
  unfold reduced, sample_poly. rewrite zlen_map, zlen_range by lia. split; auto.
  apply Forall_map_range. intros. unfold q. apply Z.mod_pos_bound; lia.
Qed.
Definition sample_vec (k : Z) : list (list Z) := map sample_poly (range k).
Lemma sample_vec_ok p : reduced_vec (set_of p) (sample_vec (k (set_of p))).
Proof.
  unfold reduced_vec, sample_vec. rewrite zlen_map, zlen_range by (destruct p; cbn; lia).
  split; auto. apply Forall_map_range. intros. apply sample_poly_ok.
Qed.
Definition zero_vec (k : Z) : list (list Z) := map (fun _ => map (fun _ => 0) (range 256)) (range k).
Lemma zero_vec_ok p : zlen (zero_vec (k (set_of p))) = k (set_of p) /\
  Forall (fun f => zlen f = 256) (zero_vec (k (set_of p))).
Proof.
  unfold zero_vec. rewrite zlen_map, zlen_range by (destruct p; cbn; lia).
  split; auto. apply Forall_map_range. intros. now rewrite zlen_map, zlen_range by lia.
Qed.

(** A message polynomial with the largest noise of both signs *)
Definition noisy (m : list Z) : list Z :=
  map (fun i => (1665 * Z.b2z (Z.testbit (at_ m (i / 8)) (i mod 8))
                 + if Z.even i then 831 else -832) mod q) (range 256).
Lemma noisy_ok m : reduced (noisy m) /\
  forall i, 0 <= i < 256 -> exists e, -832 <= e <= 831 /\
    at_ (noisy m) i = (1665 * Z.b2z (Z.testbit (at_ m (i / 8)) (i mod 8)) + e) mod q.
Proof.
  split.
  - unfold reduced, noisy. rewrite zlen_map, zlen_range by lia. split; auto.
    apply Forall_map_range. intros. unfold q. apply Z.mod_pos_bound; lia.
  - intros i Hi. exists (if Z.even i then 831 else -832). split.
    + destruct (Z.even i); lia.
    + unfold at_, noisy. match goal with |- nth _ ?l _ = _ => fold (zget 0 l i) end.
      now rewrite zget_map_range by lia.
Qed.

Lemma reduced_small f : reduced f -> zlen f = 256 /\ forall i, 0 <= i < 256 -> Z.abs (at_ f i) < q.
Proof.
  intros [L H]. split; [exact L|]. intros i Hi. rewrite (Forall_zget _ 0) in H.
  unfold n in L. specialize (H i ltac:(lia)). change (at_ f i) with (zget 0 f i). lia.
Qed.
Lemma sample_poly_small a : zlen (sample_poly a) = 256 /\
  forall i, 0 <= i < 256 -> Z.abs (at_ (sample_poly a) i) < q.
Proof. apply reduced_small, sample_poly_ok. Qed.
Lemma sample_vec_small p : zlen (sample_vec (k (set_of p))) = k (set_of p) /\
  Forall (fun f => zlen f = 256 /\ forall i, 0 <= i < 256 -> Z.abs (at_ f i) < q)
         (sample_vec (k (set_of p))).
Proof.
  destruct (sample_vec_ok p) as [L H]. split; [exact L|]. eapply Forall_impl; [|exact H].
  intros f. apply reduced_small.
Qed.

(** Smallest and largest int16 values *)
Definition extreme_poly : list Z := map (fun i => if Z.even i then -32768 else 32767) (range 256).
Lemma extreme_poly_ok : zlen extreme_poly = 256 /\
  (forall i, 0 <= i < 256 -> - 2 ^ 15 <= at_ extreme_poly i < 2 ^ 15)
  /\ at_ extreme_poly 0 = - 2 ^ 15 /\ at_ extreme_poly 255 = 2 ^ 15 - 1.
Proof.
  assert (V : forall i, 0 <= i < 256 -> at_ extreme_poly i = if Z.even i then -32768 else 32767).
  { intros i Hi. change (at_ extreme_poly i) with (zget 0 extreme_poly i). unfold extreme_poly.
    now rewrite zget_map_range by lia. }
  split. { unfold extreme_poly. now rewrite zlen_map, zlen_range by lia. }
  split; [|split; rewrite V by lia; reflexivity].
  intros i Hi. rewrite V by auto. destruct (Z.even i); lia.
Qed.

(** A Keccak state *)
Definition sample_lanes : list Z := map (fun i => (11400714819323198485 * (i + 1)) mod 2 ^ 64) (range 25).
Lemma sample_lanes_ok : zlen sample_lanes = 25 /\ Forall (fun l => 0 <= l < 2 ^ 64) sample_lanes.
Proof.
  unfold sample_lanes. rewrite zlen_map, zlen_range by lia. split; auto.
  apply Forall_map_range. intros. apply Z.mod_pos_bound; lia.
Qed.
Lemma sample_chunk_ok a m : 0 <= m < 2 ^ 63 -> bytes (sample_bytes a m) /\ zlen (sample_bytes a m) < 2 ^ 63.
Proof. intros H. destruct (sample_bytes_ok a m) as [-> B]; [lia|]. split; [exact B|lia]. Qed.
