(** * Properties C13, C14: the KEM functions do not leak their secrets

    [leak f] is everything an observer of the source-level execution of [f] sees: each branch
    condition, each array index, each division operand, and the operands of each memcmp
    (type [event] of CSem.v). Loop counts show as the lists of such events.

    The theorems come in two forms. "There is [sim] such that the leakage is [sim public]"
    says that the whole leakage can be computed from the public data only; [sim] is chosen
    before the memory, the secrets and the contents [J] of uninitialised locals. The pairwise form says
    that two runs on different secrets and equal public data leak the same. *)

From Coq Require Import ZArith List Bool Lia.
From Verif Require Import ModelKeccak.
From Verif Require Import CSem ModelArith ModelIndcpa ModelKem Spec202 Spec203 SpecLink SpecMem SpecApi
  ProofMem ProofApi ProofLeakKem Samples SamplesKem PropKem.
Import ListNotations.
Open Scope Z_scope.

(** ** C13: decapsulation

    The public data are the ciphertext [c] and the encapsulation key with its hash, which are
    bytes [384 k, 768 k + 64) of the decapsulation key. Not public are the vector s (bytes [0, 384 k)),
    z (the last 32 bytes), the message, and whether the ciphertext is accepted. *)
Theorem C13_dec_leakage : forall {bo : byte_order} fuel p ss ct sk, exists sim : list Z -> list Z -> list event,
  forall J m dk c, dec_call (set_of p) m ss ct sk dk c ->
  leak (crypto_kem_dec J fuel p m ss ct sk) =
  sim (slice dk (384 * k (set_of p)) (768 * k (set_of p) + 64)) c.
Proof. intros bo. intros. exact (ex_intro _ _ (dec_simulated fuel p ss ct sk)). Qed.
Print Assumptions C13_dec_leakage.

Theorem C13_dec_pair : forall {bo : byte_order} J1 J2 fuel p m1 m2 ss ct sk dk1 dk2 c,
  dec_call (set_of p) m1 ss ct sk dk1 c -> dec_call (set_of p) m2 ss ct sk dk2 c ->
  slice dk1 (384 * k (set_of p)) (768 * k (set_of p) + 64) = slice dk2 (384 * k (set_of p)) (768 * k (set_of p) + 64) ->
  leak (crypto_kem_dec J1 fuel p m1 ss ct sk) = leak (crypto_kem_dec J2 fuel p m2 ss ct sk).
Proof. intros bo. exact l_dec. Qed.
Print Assumptions C13_dec_pair.

(** two keys with the same public part and different secret vectors *)
Example C13_case :
  forall {bo : byte_order}, slice sample_dk 0 768 <> slice other_dk 0 768 /\
  leak (crypto_kem_dec (fun _ => 1) 0 MLKEM512 (dec_memory sample_dk) 0 2000 6000) =
  leak (crypto_kem_dec (fun _ => 2) 0 MLKEM512 (dec_memory other_dk) 0 2000 6000).
Proof. intros bo.
  split; [exact other_dk_secret|].
  apply (C13_dec_pair _ _ _ MLKEM512 _ _ _ _ _ _ _ _
    (sample_dec_call _ (proj1 sample_dk_ok) (proj2 sample_dk_ok))
    (sample_dec_call _ (proj1 other_dk_ok) (proj2 other_dk_ok)) other_dk_public).
Qed.

(** the leakage model tells runs apart: a variable-time comparison, a secret index, a secret
    branch, a secret division each show *)
Example C13_model_sees :
  leak (memcmp [1] [2]) <> leak (memcmp [3] [2]) /\
  leak (aget [5; 5] 0) <> leak (aget [5; 5] 1) /\
  leak (branch true (ret 0) (ret 0)) <> leak (branch false (ret 0) (ret 0)) /\
  leak (div_c 3 5) <> leak (div_c 4 5).
Proof. repeat split; discriminate. Qed.

(** ** C14: key generation and encapsulation

    The public data of key generation is the seed rho, which is part of the encapsulation key. *)
Theorem C14_keypair_derand_leakage : forall {bo : byte_order} fuel p pk sk coins, exists sim : list Z -> list event,
  forall J m d z, keypair_call (set_of p) m pk sk coins d z ->
  leak (crypto_kem_keypair_derand J fuel p m pk sk coins) = sim (keygen_rho (set_of p) d).
Proof. intros bo. intros. exact (ex_intro _ _ (keypair_simulated fuel p pk sk coins)). Qed.
Print Assumptions C14_keypair_derand_leakage.

Theorem C14_keypair_derand_pair : forall {bo : byte_order} J1 J2 fuel p m1 m2 pk sk coins d1 z1 d2 z2,
  keypair_call (set_of p) m1 pk sk coins d1 z1 -> keypair_call (set_of p) m2 pk sk coins d2 z2 ->
  keygen_rho (set_of p) d1 = keygen_rho (set_of p) d2 ->
  leak (crypto_kem_keypair_derand J1 fuel p m1 pk sk coins) = leak (crypto_kem_keypair_derand J2 fuel p m2 pk sk coins).
Proof. intros bo. exact l_keypair. Qed.
Print Assumptions C14_keypair_derand_pair.

Theorem C14_keypair_leakage : forall {bo : byte_order} fuel p fp pk sk, exists sim : list Z -> list event,
  forall J rng m pos, keypair_rand_call (set_of p) m fp pk sk ->
  leak (crypto_kem_keypair J fuel p rng m pos fp pk sk) = sim (keygen_rho (set_of p) (drawn rng pos 32)).
Proof. intros bo. intros. exact (ex_intro _ _ (keypair_rand_simulated fuel p fp pk sk)). Qed.
Print Assumptions C14_keypair_leakage.

(** The public data of encapsulation is the encapsulation key. *)
Theorem C14_enc_derand_leakage : forall {bo : byte_order} fuel p ct ss pk coins, exists sim : list Z -> list event,
  forall J m ek msg, enc_call (set_of p) m ct ss pk coins ek msg ->
  leak (crypto_kem_enc_derand J fuel p m ct ss pk coins) = sim ek.
Proof. intros bo. intros. exact (ex_intro _ _ (enc_simulated fuel p ct ss pk coins)). Qed.
Print Assumptions C14_enc_derand_leakage.

Theorem C14_enc_derand_pair : forall {bo : byte_order} J1 J2 fuel p m1 m2 ct ss pk coins ek msg1 msg2,
  enc_call (set_of p) m1 ct ss pk coins ek msg1 -> enc_call (set_of p) m2 ct ss pk coins ek msg2 ->
  leak (crypto_kem_enc_derand J1 fuel p m1 ct ss pk coins) = leak (crypto_kem_enc_derand J2 fuel p m2 ct ss pk coins).
Proof. intros bo. exact l_enc_derand. Qed.
Print Assumptions C14_enc_derand_pair.

Theorem C14_enc_leakage : forall {bo : byte_order} fuel p fp ct ss pk, exists sim : list Z -> list event,
  forall J rng m pos ek, enc_rand_call (set_of p) m fp ct ss pk ek ->
  leak (crypto_kem_enc J fuel p rng m pos fp ct ss pk) = sim ek.
Proof. intros bo. intros. exact (ex_intro _ _ (enc_rand_simulated fuel p fp ct ss pk)). Qed.
Print Assumptions C14_enc_leakage.

Example C14_case :
  forall {bo : byte_order}, leak (crypto_kem_keypair_derand (fun _ => 1) 0 MLKEM512 keypair_memory 0 2000 6000) =
  leak (crypto_kem_keypair_derand (fun _ => 2) 0 MLKEM512 other_keypair_memory 0 2000 6000) /\
  leak (crypto_kem_enc_derand (fun _ => 1) 0 MLKEM512 (enc_memory_of sample_ek sample_msg) 0 2000 4000 6000) =
  leak (crypto_kem_enc_derand (fun _ => 2) 0 MLKEM512 (enc_memory_of sample_ek (repeat 255 32)) 0 2000 4000 6000).
Proof. intros bo.
  destruct sample_ek_ok as [L B], other_msg as [L' B']. split.
  - exact (C14_keypair_derand_pair _ _ _ MLKEM512 _ _ _ _ _ _ _ _ _ sample_keypair_call other_keypair_call eq_refl).
  - exact (C14_enc_derand_pair _ _ _ MLKEM512 _ _ _ _ _ _ _ _ _ (sample_enc_call _ L B) (enc_call_of _ _ L B L' B')).
Qed.
