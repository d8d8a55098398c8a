(** * A key generation in place that loses z *)

From Coq Require Import ZArith List Bool Lia.
From Verif Require Import CSem ModelArith ModelKeccak ModelIndcpa ModelKem ModelAlias Spec202 Spec203 SpecLink SpecMem SpecApi SpecAlias
  CSemFacts ProofScalar ProofPack ProofMem ProofKem ProofKeys ProofApi ProofReturn ProofAlias Samples SamplesKem.
Import ListNotations.
Open Scope Z_scope.
Ltac Zify.zify_post_hook ::= idtac.

Lemma in_place_call z : zlen z = 32 -> bytes z ->
  keypair_in_place ML_KEM_512 (sample_memory [(0, sample_d ++ z)]) 0 2000 sample_d z.
Proof.
  intros Lz Bz. destruct sample_bytes_d as [Bd Ld].
  unfold keypair_in_place, ek_size, dk_size. change (k ML_KEM_512) with 2.
  split; [|split; [|split; [|split; [|split; [exact Ld|split; [exact Lz|]]]]]].
  - apply overwrite_bytes; [apply sample_base_bytes|]. constructor; [|constructor]. apply Forall_app; auto.
  - apply sample_accessible; lia.
  - apply sample_accessible; lia.
  - apply (stored_first sample_base _ _ _ []). reflexivity.
  - apply apart_two; unfold apart; cbn; lia.
Qed.

(** z is chosen after the public key, which does not depend on it: every byte is different. *)
Definition other (l : list Z) : list Z := map (fun x => (x + 1) mod 256) l.
Lemma other_ok l : bytes (other l) /\ zlen (other l) = zlen l.
Proof.
  split; [|apply zlen_map]. apply Forall_forall. intros x Hx. apply in_map_iff in Hx as (y & <- & _).
  apply Z.mod_pos_bound. lia.
Qed.
Lemma other_not x l : bytes (x :: l) -> other (x :: l) <> x :: l.
Proof.
  intros B E. inversion B as [|y t By Bt]. injection E as E1 _. unfold is_byte in By.
  destruct (Z.eq_dec x 255) as [->|N]; [discriminate|]. rewrite Z.mod_small in E1; lia.
Qed.

Lemma keypair_in_place_lost {bo : byte_order} : exists J fuel p m pk sk d z ek dk,
  keypair_in_place (set_of p) m pk sk d z /\
  ML_KEM_KeyGen_internal (set_of p) (3 + Z.of_nat fuel) d z = Some (ek, dk) /\
  ~ finished (val (keypair_derand_any J fuel p m pk sk pk)) m 0 [(pk, ek); (sk, dk)].
Proof.
  destruct sample_bytes_d as [Bd Ld].
  pose proof (proj2 (keygen_iff ML_KEM_512 3 sample_d sample_z ltac:(discriminate)) (sample_suffices 3 ltac:(lia))) as HE.
  change ML_KEM_512 with (set_of MLKEM512) in HE. change 3 with (3 + Z.of_nat 0) in HE.
  destruct HE as [[ek dk] E]. unfold ML_KEM_KeyGen_internal in E.
  destruct (K_PKE_KeyGen (set_of MLKEM512) (3 + Z.of_nat 0) sample_d) as [[ek1 dk1]|] eqn:E1; [|discriminate]. clear E dk ek.
  destruct (keygen_out MLKEM512 (3 + Z.of_nat 0) sample_d ek1 dk1 Bd E1 ltac:(lia)) as (Lek & Bek & _ & _).
  change (ek_size (set_of MLKEM512)) with 800 in Lek.
  assert (L : zlen (slice ek1 32 64) = 32) by (rewrite zlen_slice; lia).
  assert (B : bytes (slice ek1 32 64)) by (apply bytes_slice; auto; lia).
  remember (slice ek1 32 64) as w eqn:Ew.
  destruct (other_ok w) as [Bz Lz].
  pose proof (in_place_call (other w) (eq_trans Lz L) Bz) as C. change ML_KEM_512 with (set_of MLKEM512) in C.
  assert (E : ML_KEM_KeyGen_internal (set_of MLKEM512) (3 + Z.of_nat 0) sample_d (other w) =
    Some (ek1, dk1 ++ ek1 ++ H ek1 ++ other w)) by (unfold ML_KEM_KeyGen_internal; rewrite E1; exact eq_refl).
  pose proof (keypair_in_place_wrong (fun _ => 77) 0 MLKEM512 _ _ _ _ _ _ _ C E) as W.
  exists (fun _ => 77), 0%nat, MLKEM512, (sample_memory [(0, sample_d ++ other w)]), 0, 2000, sample_d,
    (other w), ek1, (dk1 ++ ek1 ++ H ek1 ++ other w).
  split; [exact C|]. split; [exact E|].
  intros F. apply (proj1 W) in F. clear W E C. rewrite <- Ew in F.
  destruct w as [|x l]; [discriminate L|]. exact (other_not x l B F).
Qed.
