(** * Property C57: the KEM functions of the AArch64 build do not leak their secrets

    As C13 and C14 (PropLeak.v), for the build with the native code in any combination [bd] of
    arithmetic profile and Keccak configuration. [leak f] has the branch conditions, array
    indices, division operands and memcmp operands of the C code, and the addresses accessed by
    the assembly routines; the loops of the routines end after a fixed number of rounds, except
    for those of the rejection sampling, whose jumps are in [leak f].

    The table lookups and loop counts of the rejection sampling depend on the seed rho only,
    which is public. *)

From Coq Require Import ZArith List Bool Lia.
From Verif Require Import ModelA64Indcpa ModelA64Kem ProofA64LeakKem.
From Verif Require Import CSem ModelArith ModelIndcpa ModelKem Spec202 Spec203 SpecLink SpecMem SpecApi
  ProofMem ProofApi Samples SamplesKem PropKem.
Import ListNotations.
Open Scope Z_scope.

(** ** Decapsulation

    The public data are the ciphertext [c] and the encapsulation key with its hash, which are
    bytes [384 k, 768 k + 64) of the decapsulation key. Not public are the vector s (bytes [0, 384 k)),
    z (the last 32 bytes), the message, and whether the ciphertext is accepted. *)
Theorem C57_dec_leakage : forall bd fuel p ss ct sk, exists sim : list Z -> list Z -> list event,
  forall J m dk c, dec_call (set_of p) m ss ct sk dk c ->
  leak (crypto_kem_dec_aarch64 bd J fuel p m ss ct sk) =
  sim (slice dk (384 * k (set_of p)) (768 * k (set_of p) + 64)) c.
Proof. intros. exact (ex_intro _ _ (dec_simulated_a64 bd fuel p ss ct sk)). Qed.
Print Assumptions C57_dec_leakage.

Theorem C57_dec_pair : forall bd J1 J2 fuel p m1 m2 ss ct sk dk1 dk2 c,
  dec_call (set_of p) m1 ss ct sk dk1 c -> dec_call (set_of p) m2 ss ct sk dk2 c ->
  slice dk1 (384 * k (set_of p)) (768 * k (set_of p) + 64) = slice dk2 (384 * k (set_of p)) (768 * k (set_of p) + 64) ->
  leak (crypto_kem_dec_aarch64 bd J1 fuel p m1 ss ct sk) = leak (crypto_kem_dec_aarch64 bd J2 fuel p m2 ss ct sk).
Proof. exact l_dec_a64. Qed.
Print Assumptions C57_dec_pair.

(** two keys with the same public part and different secret vectors *)
Example C57_case_dec : forall bd,
  slice sample_dk 0 768 <> slice other_dk 0 768 /\
  leak (crypto_kem_dec_aarch64 bd (fun _ => 1) 0 MLKEM512 (dec_memory sample_dk) 0 2000 6000) =
  leak (crypto_kem_dec_aarch64 bd (fun _ => 2) 0 MLKEM512 (dec_memory other_dk) 0 2000 6000).
Proof.
  intros bd. split; [exact other_dk_secret|].
  apply (C57_dec_pair _ _ _ _ MLKEM512 _ _ _ _ _ _ _ _
    (sample_dec_call _ (proj1 sample_dk_ok) (proj2 sample_dk_ok))
    (sample_dec_call _ (proj1 other_dk_ok) (proj2 other_dk_ok)) other_dk_public).
Qed.

(** ** Key generation and encapsulation

    The public data of key generation is the seed rho, which is part of the encapsulation key. *)
Theorem C57_keypair_derand_leakage : forall bd fuel p pk sk coins, exists sim : list Z -> list event,
  forall J m d z, keypair_call (set_of p) m pk sk coins d z ->
  leak (crypto_kem_keypair_derand_aarch64 bd J fuel p m pk sk coins) = sim (keygen_rho (set_of p) d).
Proof. intros. exact (ex_intro _ _ (keypair_simulated_a64 bd fuel p pk sk coins)). Qed.
Print Assumptions C57_keypair_derand_leakage.

Theorem C57_keypair_derand_pair : forall bd J1 J2 fuel p m1 m2 pk sk coins d1 z1 d2 z2,
  keypair_call (set_of p) m1 pk sk coins d1 z1 -> keypair_call (set_of p) m2 pk sk coins d2 z2 ->
  keygen_rho (set_of p) d1 = keygen_rho (set_of p) d2 ->
  leak (crypto_kem_keypair_derand_aarch64 bd J1 fuel p m1 pk sk coins) = leak (crypto_kem_keypair_derand_aarch64 bd J2 fuel p m2 pk sk coins).
Proof. exact l_keypair_a64. Qed.
Print Assumptions C57_keypair_derand_pair.

Theorem C57_keypair_leakage : forall bd fuel p fp pk sk, exists sim : list Z -> list event,
  forall J rng m pos, keypair_rand_call (set_of p) m fp pk sk ->
  leak (crypto_kem_keypair_aarch64 bd J fuel p rng m pos fp pk sk) = sim (keygen_rho (set_of p) (drawn rng pos 32)).
Proof. intros. exact (ex_intro _ _ (keypair_rand_simulated_a64 bd fuel p fp pk sk)). Qed.
Print Assumptions C57_keypair_leakage.

(** The public data of encapsulation is the encapsulation key. *)
Theorem C57_enc_derand_leakage : forall bd fuel p ct ss pk coins, exists sim : list Z -> list event,
  forall J m ek msg, enc_call (set_of p) m ct ss pk coins ek msg ->
  leak (crypto_kem_enc_derand_aarch64 bd J fuel p m ct ss pk coins) = sim ek.
Proof. intros. exact (ex_intro _ _ (enc_simulated_a64 bd fuel p ct ss pk coins)). Qed.
Print Assumptions C57_enc_derand_leakage.

Theorem C57_enc_derand_pair : forall bd J1 J2 fuel p m1 m2 ct ss pk coins ek msg1 msg2,
  enc_call (set_of p) m1 ct ss pk coins ek msg1 -> enc_call (set_of p) m2 ct ss pk coins ek msg2 ->
  leak (crypto_kem_enc_derand_aarch64 bd J1 fuel p m1 ct ss pk coins) = leak (crypto_kem_enc_derand_aarch64 bd J2 fuel p m2 ct ss pk coins).
Proof. exact l_enc_derand_a64. Qed.
Print Assumptions C57_enc_derand_pair.

Theorem C57_enc_leakage : forall bd fuel p fp ct ss pk, exists sim : list Z -> list event,
  forall J rng m pos ek, enc_rand_call (set_of p) m fp ct ss pk ek ->
  leak (crypto_kem_enc_aarch64 bd J fuel p rng m pos fp ct ss pk) = sim ek.
Proof. intros. exact (ex_intro _ _ (enc_rand_simulated_a64 bd fuel p fp ct ss pk)). Qed.
Print Assumptions C57_enc_leakage.

Example C57_case_keypair_enc : forall bd,
  leak (crypto_kem_keypair_derand_aarch64 bd (fun _ => 1) 0 MLKEM512 keypair_memory 0 2000 6000) =
  leak (crypto_kem_keypair_derand_aarch64 bd (fun _ => 2) 0 MLKEM512 other_keypair_memory 0 2000 6000) /\
  leak (crypto_kem_enc_derand_aarch64 bd (fun _ => 1) 0 MLKEM512 (enc_memory_of sample_ek sample_msg) 0 2000 4000 6000) =
  leak (crypto_kem_enc_derand_aarch64 bd (fun _ => 2) 0 MLKEM512 (enc_memory_of sample_ek (repeat 255 32)) 0 2000 4000 6000).
Proof.
  intros bd. destruct sample_ek_ok as [L B], other_msg as [L' B']. split.
  - exact (C57_keypair_derand_pair _ _ _ _ MLKEM512 _ _ _ _ _ _ _ _ _ sample_keypair_call other_keypair_call eq_refl).
  - exact (C57_enc_derand_pair _ _ _ _ MLKEM512 _ _ _ _ _ _ _ _ _ (sample_enc_call _ L B) (enc_call_of _ _ L B L' B')).
Qed.
