(** * A machine for the functional tests, with the random bytes of the sample exchange *)

From Coq Require Import ZArith List Bool Lia.
From Verif Require Import CSem ModelArith ModelKeccak ModelKem ModelTests Spec202 Spec203 SpecLink SpecMem SpecApi SpecNoise SpecMachine
  SpecBuilds SpecTests CSemFacts ProofTests Samples SamplesKem SamplesNoise.
Import ListNotations.
Open Scope Z_scope.

(** [exchange_sample] is memory at the addresses 0 to 19999 *)
Definition sample_frame : frame := Frame 0 2000 8000 10000 11000 20000.
Lemma sample_frame_ok : frame_ok ML_KEM_512 exchange_sample sample_frame.
Proof.
  destruct exchange_sample_ok as (B & _). unfold frame_ok, sample_frame. cbn [pk_at sk_at ct_at key_a_at key_b_at fp_at].
  change (ek_size ML_KEM_512) with 800. change (dk_size ML_KEM_512) with 1632. change (ct_size ML_KEM_512) with 768.
  split; [exact B|]. do 5 (split; [apply sample_accessible; lia|]). split; [|apply exchange_vacant; lia].
  unfold all_apart. repeat (constructor; [repeat constructor; unfold apart; cbn; lia|]). constructor.
Qed.
(** d, z and then 255 for ever *)
Definition sample_rng (i : Z) : Z := nth (Z.to_nat i) (sample_d ++ sample_z) 255.
Lemma sample_drawn_d : drawn sample_rng 0 32 = sample_d.
Proof. vm_compute. reflexivity. Qed.
Lemma sample_drawn_msg : drawn sample_rng 64 32 = ones_msg.
Proof. vm_compute. reflexivity. Qed.

Definition late_rng (i : Z) : Z := if i <? 9 then 1 else sample_rng (i - 9).
Lemma late_returns : ML_KEM_KeyGen_internal ML_KEM_512 3 (drawn late_rng (0 + 9) 32) (drawn late_rng (0 + 9 + 32) 32) <> None.
Proof.
  replace (drawn late_rng (0 + 9) 32) with sample_d by (vm_compute; reflexivity).
  destruct sample_noise as (noise & E & _). unfold kem_noise in E. unfold ML_KEM_KeyGen_internal.
  destruct (K_PKE_KeyGen ML_KEM_512 3 sample_d) as [[ek dk]|]; discriminate.
Qed.
