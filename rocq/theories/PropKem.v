(** * Properties C01-C05, C07-C12, C33-C35: the KEM functions

    The words [keypair_call], [enc_call], [dec_call] (a call on buffers of the documented
    sizes that do not overlap), [finished], [overwrite], [contains] are explained in
    SpecMem.v and SpecApi.v. [fuel] is the number of refill rounds the matrix sampling loops may
    run; the outcome [NoFuel] means that a loop is still running after them. [J] is the
    contents of all uninitialised local memory. *)

From Coq Require Import ZArith List Bool Lia.
From Verif Require Import ModelKeccak.
From Verif Require Import CSem ModelArith ModelIndcpa ModelKem Spec202 Spec203 SpecLink SpecMem SpecApi
  ProofKeys ProofApi ProofReturn Samples SamplesKem.
Import ListNotations.
Open Scope Z_scope.

(** ** C01: key generation is Algorithm 16 *)
Theorem C01_keypair_derand : forall {bo : byte_order} J fuel p m pk sk coins d z,
  keypair_call (set_of p) m pk sk coins d z ->
  match ML_KEM_KeyGen_internal (set_of p) (3 + Z.of_nat fuel) d z with
  | Some (ek, dk) => finished (val (crypto_kem_keypair_derand J fuel p m pk sk coins)) m 0 [(pk, ek); (sk, dk)]
  | None => val (crypto_kem_keypair_derand J fuel p m pk sk coins) = NoFuel
  end.
Proof. intros bo. exact keypair_derand_exact. Qed.
Print Assumptions C01_keypair_derand.

(** the key pair has the sizes of FIPS 203 Table 3 *)
Theorem C01_sizes : forall p b d z ek dk,
  bytes d -> bytes z -> zlen z = 32 -> 0 <= b ->
  ML_KEM_KeyGen_internal (set_of p) b d z = Some (ek, dk) ->
  zlen ek = ek_size (set_of p) /\ zlen dk = dk_size (set_of p) /\ bytes ek /\ bytes dk.
Proof. exact keygen_sizes. Qed.
Print Assumptions C01_sizes.

Example C01_case : forall {bo : byte_order}, exists ek dk,
  ML_KEM_KeyGen_internal ML_KEM_512 3 sample_d sample_z = Some (ek, dk) /\
  finished (val (crypto_kem_keypair_derand (fun _ => 77) 0 MLKEM512 keypair_memory 0 2000 6000))
    keypair_memory 0 [(0, ek); (2000, dk)].
Proof. intros bo.
  pose proof (C01_keypair_derand (fun _ => 77) 0 MLKEM512 _ _ _ _ _ _ sample_keypair_call) as H.
  destruct (proj2 (keygen_iff ML_KEM_512 3 sample_d sample_z ltac:(discriminate)) (sample_suffices 3 ltac:(lia))) as [[ek dk] E].
  change (set_of MLKEM512) with ML_KEM_512 in H. change (3 + Z.of_nat 0) with 3 in H. rewrite E in H. eauto.
Qed.

(** ** C02: encapsulation under an acceptable key is Algorithm 17 *)
Theorem C02_enc_derand : forall {bo : byte_order} J fuel p m ct ss pk coins ek msg,
  enc_call (set_of p) m ct ss pk coins ek msg -> modulus_check (set_of p) ek ->
  match ML_KEM_Encaps_internal (set_of p) (3 + Z.of_nat fuel) ek msg with
  | Some (K, c) => finished (val (crypto_kem_enc_derand J fuel p m ct ss pk coins)) m 0 [(ct, c); (ss, K)]
  | None => val (crypto_kem_enc_derand J fuel p m ct ss pk coins) = NoFuel
  end.
Proof. intros bo. exact enc_derand_exact. Qed.
Print Assumptions C02_enc_derand.

Theorem C02_sizes : forall p b ek msg K c,
  bytes ek -> bytes msg -> zlen ek = ek_size (set_of p) -> zlen msg = 32 -> 0 <= b ->
  ML_KEM_Encaps_internal (set_of p) b ek msg = Some (K, c) ->
  zlen K = 32 /\ bytes K /\ zlen c = ct_size (set_of p) /\ bytes c.
Proof. exact encaps_out. Qed.
Print Assumptions C02_sizes.

Example C02_case : forall {bo : byte_order}, exists K c,
  ML_KEM_Encaps_internal ML_KEM_512 3 sample_ek sample_msg = Some (K, c) /\
  finished (val (crypto_kem_enc_derand (fun _ => 77) 0 MLKEM512 (enc_memory sample_ek) 0 2000 4000 6000))
    (enc_memory sample_ek) 0 [(0, c); (2000, K)].
Proof. intros bo.
  destruct sample_ek_ok as [L B].
  pose proof (C02_enc_derand (fun _ => 77) 0 MLKEM512 _ _ _ _ _ _ _ (sample_enc_call _ L B) sample_ek_check) as H.
  pose proof (sample_suffices 3 ltac:(lia)) as S. rewrite <- sample_ek_rho in S.
  destruct (proj2 (encaps_iff ML_KEM_512 3 sample_ek sample_msg ltac:(discriminate)) S) as [[K c] E].
  change (set_of MLKEM512) with ML_KEM_512 in H. change (3 + Z.of_nat 0) with 3 in H. rewrite E in H. eauto.
Qed.

(** ** C03: encapsulation rejects exactly the keys with an encoded value of 3329 or more *)
Theorem C03_rejects_iff : forall {bo : byte_order} J fuel p m ct ss pk coins ek msg,
  enc_call (set_of p) m ct ss pk coins ek msg ->
  ((exists m', val (crypto_kem_enc_derand J fuel p m ct ss pk coins) = Ok (-1, m')) <->
   Exists (fun v => 3329 <= v) (candidates (slice ek 0 (384 * k (set_of p))))).
Proof. intros bo. exact enc_rejects_iff. Qed.
Print Assumptions C03_rejects_iff.

(** this is the modulus check of FIPS 203 *)
Theorem C03_modulus_check : forall p ek,
  zlen ek = ek_size (set_of p) -> bytes ek ->
  (~ modulus_check (set_of p) ek <-> Exists (fun v => 3329 <= v) (candidates (slice ek 0 (384 * k (set_of p))))).
Proof. exact not_modulus_check. Qed.
Print Assumptions C03_modulus_check.

(** and nothing is written *)
Theorem C03_writes_nothing : forall {bo : byte_order} J fuel p m ct ss pk coins ek msg m',
  enc_call (set_of p) m ct ss pk coins ek msg ->
  val (crypto_kem_enc_derand J fuel p m ct ss pk coins) = Ok (-1, m') -> forall x, m' x = m x.
Proof. intros bo. exact enc_rejects_nothing. Qed.
Print Assumptions C03_writes_nothing.

(** the randomised function rejects the same keys *)
Theorem C03_enc : forall {bo : byte_order} J fuel p rng m pos fp ct ss pk ek,
  enc_rand_call (set_of p) m fp ct ss pk ek ->
  Exists (fun v => 3329 <= v) (candidates (slice ek 0 (384 * k (set_of p)))) ->
  finished_at (val (crypto_kem_enc J fuel p rng m pos fp ct ss pk)) m (-1) (pos + 32) [].
Proof. intros bo. exact enc_rejects. Qed.
Print Assumptions C03_enc.

Example C03_bad_case : forall {bo : byte_order}, exists m',
  val (crypto_kem_enc_derand (fun _ => 77) 0 MLKEM512 (enc_memory bad_ek) 0 2000 4000 6000) = Ok (-1, m').
Proof. intros bo.
  destruct bad_ek_ok as [L B]. apply (C03_rejects_iff _ _ MLKEM512 _ _ _ _ _ _ _ (sample_enc_call _ L B)).
  exact bad_ek_value.
Qed.
Example C03_good_case : forall {bo : byte_order}, ~ exists m',
  val (crypto_kem_enc_derand (fun _ => 77) 0 MLKEM512 (enc_memory sample_ek) 0 2000 4000 6000) = Ok (-1, m').
Proof. intros bo.
  destruct sample_ek_ok as [L B]. rewrite (C03_rejects_iff _ _ MLKEM512 _ _ _ _ _ _ _ (sample_enc_call _ L B)).
  rewrite <- (C03_modulus_check MLKEM512) by auto. intros H. apply H, sample_ek_check.
Qed.

(** ** C04: decapsulation with a key that passes the hash check is Algorithm 18 *)
Theorem C04_dec : forall {bo : byte_order} J fuel p m ss ct sk dk c,
  dec_call (set_of p) m ss ct sk dk c -> hash_check (set_of p) dk ->
  match ML_KEM_Decaps_internal (set_of p) (3 + Z.of_nat fuel) dk c with
  | Some K => finished (val (crypto_kem_dec J fuel p m ss ct sk)) m 0 [(ss, K)]
  | None => val (crypto_kem_dec J fuel p m ss ct sk) = NoFuel
  end.
Proof. intros bo. exact dec_exact. Qed.
Print Assumptions C04_dec.

Theorem C04_sizes : forall p b dk c K,
  bytes dk -> bytes c -> 0 <= b -> ML_KEM_Decaps_internal (set_of p) b dk c = Some K -> zlen K = 32 /\ bytes K.
Proof. exact decaps_out. Qed.
Print Assumptions C04_sizes.

Example C04_case : forall {bo : byte_order}, exists K,
  ML_KEM_Decaps_internal ML_KEM_512 3 sample_dk sample_ct = Some K /\
  finished (val (crypto_kem_dec (fun _ => 77) 0 MLKEM512 (dec_memory sample_dk) 0 2000 6000))
    (dec_memory sample_dk) 0 [(0, K)].
Proof. intros bo.
  destruct sample_dk_ok as [L B].
  pose proof (C04_dec (fun _ => 77) 0 MLKEM512 _ _ _ _ _ _ (sample_dec_call _ L B) sample_dk_check) as H.
  pose proof (sample_suffices 3 ltac:(lia)) as S. rewrite <- sample_dk_rho in S.
  destruct (proj2 (decaps_iff ML_KEM_512 3 sample_dk sample_ct ltac:(discriminate)) S) as [K E].
  change (set_of MLKEM512) with ML_KEM_512 in H. change (3 + Z.of_nat 0) with 3 in H. rewrite E in H. eauto.
Qed.

(** ** C05: decapsulation returns -1 exactly if the hash check fails, and then writes nothing *)
Theorem C05_rejects_iff : forall {bo : byte_order} J fuel p m ss ct sk dk c,
  dec_call (set_of p) m ss ct sk dk c ->
  ((exists m', val (crypto_kem_dec J fuel p m ss ct sk) = Ok (-1, m')) <->
   SHA3_256 (slice dk (384 * k (set_of p)) (768 * k (set_of p) + 32))
   <> slice dk (768 * k (set_of p) + 32) (768 * k (set_of p) + 64)).
Proof. intros bo. exact dec_rejects_iff. Qed.
Print Assumptions C05_rejects_iff.

Theorem C05_writes_nothing : forall {bo : byte_order} J fuel p m ss ct sk dk c m',
  dec_call (set_of p) m ss ct sk dk c ->
  val (crypto_kem_dec J fuel p m ss ct sk) = Ok (-1, m') -> forall x, m' x = m x.
Proof. intros bo. exact dec_rejects_nothing. Qed.
Print Assumptions C05_writes_nothing.

Example C05_bad_case : forall {bo : byte_order}, exists m',
  val (crypto_kem_dec (fun _ => 77) 0 MLKEM512 (dec_memory bad_dk) 0 2000 6000) = Ok (-1, m').
Proof. intros bo.
  destruct bad_dk_ok as (L & B & H). apply (C05_rejects_iff _ _ MLKEM512 _ _ _ _ _ _ (sample_dec_call _ L B)).
  exact H.
Qed.

(** ** C07: implicit rejection. The secret keys that pass the hash check are those of the
    form dk_pke || ek || H(ek) || z. *)
Theorem C07_implicit_rejection : forall {bo : byte_order} J fuel p m ss ct sk dkp ek z c r m',
  let P := set_of p in
  let msg := K_PKE_Decrypt P dkp c in
  let K := fst (G (msg ++ Spec203.H ek)) in
  let Kbar := SHAKE256 (z ++ c) 32 in
  zlen dkp = 384 * k P -> zlen ek = ek_size P -> zlen z = 32 ->
  dec_call P m ss ct sk (dkp ++ ek ++ Spec203.H ek ++ z) c ->
  val (crypto_kem_dec J fuel p m ss ct sk) = Ok (r, m') ->
  r = 0 /\
  exists c', K_PKE_Encrypt P (3 + Z.of_nat fuel) ek msg (snd (G (msg ++ Spec203.H ek))) = Some c' /\
    (c = c' -> contains m' ss K) /\
    (c <> c' -> contains m' ss Kbar) /\
    (contains m' ss K -> c = c' \/ K = Kbar).
Proof. intros bo. exact implicit_rejection. Qed.
Print Assumptions C07_implicit_rejection.

Example C07_case : forall {bo : byte_order}, exists m' c',
  val (crypto_kem_dec (fun _ => 77) 0 MLKEM512 (dec_memory sample_dk) 0 2000 6000) = Ok (0, m') /\
  (sample_ct <> c' -> contains m' 0 (SHAKE256 (sample_z ++ sample_ct) 32)).
Proof. intros bo.
  destruct C04_case as (K & _ & m' & E & _). destruct sample_dk_ok as [L B].
  destruct (C07_implicit_rejection _ _ MLKEM512 _ _ _ _ (repeat 1 768) sample_ek sample_z sample_ct _ _
    eq_refl (proj1 sample_ek_ok) (proj2 sample_bytes_z) (sample_dec_call _ L B) E) as (_ & c' & _ & _ & H & _).
  exists m', c'. split; [exact E|exact H].
Qed.

(** ** C08: generated keys are accepted, wherever they are copied *)
Theorem C08_public_key : forall {bo : byte_order} J fuel p m pk sk coins d z r m' ek J2 fuel2 m2 ct ss pk2 coins2 msg m3,
  keypair_call (set_of p) m pk sk coins d z ->
  val (crypto_kem_keypair_derand J fuel p m pk sk coins) = Ok (r, m') ->
  contains m' pk ek -> enc_call (set_of p) m2 ct ss pk2 coins2 ek msg ->
  val (crypto_kem_enc_derand J2 fuel2 p m2 ct ss pk2 coins2) <> Ok (-1, m3).
Proof. intros bo. exact generated_ek_accepted. Qed.
Print Assumptions C08_public_key.

Theorem C08_secret_key : forall {bo : byte_order} J fuel p m pk sk coins d z r m' dk J2 fuel2 m2 ss ct sk2 c m3,
  keypair_call (set_of p) m pk sk coins d z ->
  val (crypto_kem_keypair_derand J fuel p m pk sk coins) = Ok (r, m') ->
  contains m' sk dk -> dec_call (set_of p) m2 ss ct sk2 dk c ->
  val (crypto_kem_dec J2 fuel2 p m2 ss ct sk2) <> Ok (-1, m3).
Proof. intros bo. exact generated_dk_accepted. Qed.
Print Assumptions C08_secret_key.

(** the written bytes pass the two checks of FIPS 203 *)
Theorem C08_checks : forall {bo : byte_order} J fuel p m pk sk coins d z r m' ek dk,
  keypair_call (set_of p) m pk sk coins d z ->
  val (crypto_kem_keypair_derand J fuel p m pk sk coins) = Ok (r, m') ->
  contains m' pk ek -> zlen ek = ek_size (set_of p) ->
  contains m' sk dk -> zlen dk = dk_size (set_of p) ->
  modulus_check (set_of p) ek /\ hash_check (set_of p) dk.
Proof. intros bo. exact generated_accepted. Qed.
Print Assumptions C08_checks.

Example C08_case : forall {bo : byte_order}, exists m' ek dk, val (crypto_kem_keypair_derand (fun _ => 77) 0 MLKEM512 keypair_memory 0 2000 6000) = Ok (0, m') /\
  contains m' 0 ek /\ contains m' 2000 dk /\
  enc_call ML_KEM_512 (enc_memory ek) 0 2000 4000 6000 ek sample_msg /\
  dec_call ML_KEM_512 (dec_memory dk) 0 2000 6000 dk sample_ct /\
  modulus_check ML_KEM_512 ek /\ hash_check ML_KEM_512 dk.
Proof. intros bo.
  destruct C01_case as (ek & dk & E & m' & Em & Hm).
  destruct (C01_sizes MLKEM512 3 sample_d sample_z ek dk (proj1 sample_bytes_d) (proj1 sample_bytes_z) (proj2 sample_bytes_z)
    ltac:(lia) E) as (L1 & L2 & B1 & B2). change (set_of MLKEM512) with ML_KEM_512 in L1, L2.
  assert (H1 : contains m' 0 ek) by apply (stored_first _ _ _ _ _ Hm).
  assert (H2 : contains m' 2000 dk).
  { eapply stored_second; [|exact Hm]. rewrite L1, L2. left. discriminate. }
  exists m', ek, dk. split; [exact Em|split; [exact H1|split; [exact H2|]]].
  split; [now apply sample_enc_call|]. split; [now apply sample_dec_call|].
  apply (C08_checks _ _ MLKEM512 _ _ _ _ _ _ _ _ _ _ sample_keypair_call Em); auto.
Qed.

(** ** C09: no undefined behaviour (and no failing check of a debug build, C35): the
    outcome is a result, or the sampling loop is still running *)
Theorem C09_keypair_derand : forall {bo : byte_order} J fuel p m pk sk coins d z e,
  keypair_call (set_of p) m pk sk coins d z ->
  val (crypto_kem_keypair_derand J fuel p m pk sk coins) <> UB e.
Proof. intros bo. exact keypair_derand_no_ub. Qed.
Print Assumptions C09_keypair_derand.

Theorem C09_enc_derand : forall {bo : byte_order} J fuel p m ct ss pk coins ek msg e,
  enc_call (set_of p) m ct ss pk coins ek msg ->
  val (crypto_kem_enc_derand J fuel p m ct ss pk coins) <> UB e.
Proof. intros bo. exact enc_derand_no_ub. Qed.
Print Assumptions C09_enc_derand.

Theorem C09_dec : forall {bo : byte_order} J fuel p m ss ct sk dk c e,
  dec_call (set_of p) m ss ct sk dk c ->
  val (crypto_kem_dec J fuel p m ss ct sk) <> UB e.
Proof. intros bo. exact dec_no_ub. Qed.
Print Assumptions C09_dec.

Theorem C09_keypair : forall {bo : byte_order} J fuel p rng m pos fp pk sk e,
  keypair_rand_call (set_of p) m fp pk sk ->
  val (crypto_kem_keypair J fuel p rng m pos fp pk sk) <> UB e.
Proof. intros bo. exact keypair_no_ub. Qed.
Print Assumptions C09_keypair.

Theorem C09_enc : forall {bo : byte_order} J fuel p rng m pos fp ct ss pk ek e,
  enc_rand_call (set_of p) m fp ct ss pk ek ->
  val (crypto_kem_enc J fuel p rng m pos fp ct ss pk) <> UB e.
Proof. intros bo. exact enc_no_ub. Qed.
Print Assumptions C09_enc.

(** a malformed key and a wrong hash are among the inputs *)
Example C09_case : forall {bo : byte_order} e,
  val (crypto_kem_enc_derand (fun _ => -5) 0 MLKEM512 (enc_memory bad_ek) 0 2000 4000 6000) <> UB e /\
  val (crypto_kem_dec (fun _ => -5) 0 MLKEM512 (dec_memory bad_dk) 0 2000 6000) <> UB e /\
  val (crypto_kem_keypair (fun _ => -5) 0 MLKEM512 (fun i => i * i) (sample_memory []) 0 30000 0 2000) <> UB e.
Proof. intros bo.
  intros e. destruct bad_ek_ok as [L B]. destruct bad_dk_ok as (L' & B' & _). split; [|split].
  - eapply (C09_enc_derand _ _ MLKEM512). now apply sample_enc_call.
  - eapply (C09_dec _ _ MLKEM512). now apply sample_dec_call.
  - apply (C09_keypair _ _ MLKEM512), sample_keypair_rand_call.
Qed.

(** ** C35: the bound checks of debug builds never fire *)
Theorem C35_no_debug_failure : forall {bo : byte_order} J fuel p,
  (forall m pk sk coins d z, keypair_call (set_of p) m pk sk coins d z ->
     val (crypto_kem_keypair_derand J fuel p m pk sk coins) <> UB DebugCheck) /\
  (forall m ct ss pk coins ek msg, enc_call (set_of p) m ct ss pk coins ek msg ->
     val (crypto_kem_enc_derand J fuel p m ct ss pk coins) <> UB DebugCheck) /\
  (forall m ss ct sk dk c, dec_call (set_of p) m ss ct sk dk c ->
     val (crypto_kem_dec J fuel p m ss ct sk) <> UB DebugCheck) /\
  (forall rng m pos fp pk sk, keypair_rand_call (set_of p) m fp pk sk ->
     val (crypto_kem_keypair J fuel p rng m pos fp pk sk) <> UB DebugCheck) /\
  (forall rng m pos fp ct ss pk ek, enc_rand_call (set_of p) m fp ct ss pk ek ->
     val (crypto_kem_enc J fuel p rng m pos fp ct ss pk) <> UB DebugCheck).
Proof. intros bo. exact no_debug_failure. Qed.
Print Assumptions C35_no_debug_failure.

Example C35_case : forall {bo : byte_order}, val (crypto_kem_dec (fun _ => 9) 0 MLKEM512 (dec_memory sample_dk) 0 2000 6000) <> UB DebugCheck.
Proof. intros bo.
  destruct sample_dk_ok as [L B]. destruct (C35_no_debug_failure (fun _ => 9) 0 MLKEM512) as (_ & _ & H & _).
  eapply H. now apply sample_dec_call.
Qed.

(** ** C10: only the outputs change *)
Theorem C10_keypair_derand : forall {bo : byte_order} J fuel p m pk sk coins d z r m' x,
  keypair_call (set_of p) m pk sk coins d z ->
  val (crypto_kem_keypair_derand J fuel p m pk sk coins) = Ok (r, m') ->
  ~ (pk <= x < pk + ek_size (set_of p)) -> ~ (sk <= x < sk + dk_size (set_of p)) -> m' x = m x.
Proof. intros bo. exact keypair_derand_frame. Qed.
Print Assumptions C10_keypair_derand.

Theorem C10_enc_derand : forall {bo : byte_order} J fuel p m ct ss pk coins ek msg r m' x,
  enc_call (set_of p) m ct ss pk coins ek msg ->
  val (crypto_kem_enc_derand J fuel p m ct ss pk coins) = Ok (r, m') ->
  ~ (ct <= x < ct + ct_size (set_of p)) -> ~ (ss <= x < ss + 32) -> m' x = m x.
Proof. intros bo. exact enc_derand_frame. Qed.
Print Assumptions C10_enc_derand.

Theorem C10_dec : forall {bo : byte_order} J fuel p m ss ct sk dk c r m' x,
  dec_call (set_of p) m ss ct sk dk c ->
  val (crypto_kem_dec J fuel p m ss ct sk) = Ok (r, m') ->
  ~ (ss <= x < ss + 32) -> m' x = m x.
Proof. intros bo. exact dec_frame. Qed.
Print Assumptions C10_dec.

Theorem C10_keypair : forall {bo : byte_order} J fuel p rng m pos fp pk sk r m' pos' x,
  keypair_rand_call (set_of p) m fp pk sk ->
  val (crypto_kem_keypair J fuel p rng m pos fp pk sk) = Ok (r, m', pos') ->
  ~ (pk <= x < pk + ek_size (set_of p)) -> ~ (sk <= x < sk + dk_size (set_of p)) -> m' x = m x.
Proof. intros bo. exact keypair_frame. Qed.
Print Assumptions C10_keypair.

Theorem C10_enc : forall {bo : byte_order} J fuel p rng m pos fp ct ss pk ek r m' pos' x,
  enc_rand_call (set_of p) m fp ct ss pk ek ->
  val (crypto_kem_enc J fuel p rng m pos fp ct ss pk) = Ok (r, m', pos') ->
  ~ (ct <= x < ct + ct_size (set_of p)) -> ~ (ss <= x < ss + 32) -> m' x = m x.
Proof. intros bo. exact enc_frame. Qed.
Print Assumptions C10_enc.

Example C10_case : forall {bo : byte_order}, exists m',
  val (crypto_kem_dec (fun _ => 9) 0 MLKEM512 (dec_memory sample_dk) 0 2000 6000) = Ok (0, m') /\
  forall x, 32 <= x -> m' x = dec_memory sample_dk x.
Proof. intros bo.
  destruct sample_dk_ok as [L B]. pose proof (sample_dec_call _ L B) as C.
  pose proof (C04_dec (fun _ => 9) 0 MLKEM512 _ _ _ _ _ _ C sample_dk_check) as H.
  pose proof (sample_suffices 3 ltac:(lia)) as S. rewrite <- sample_dk_rho in S.
  destruct (proj2 (decaps_iff ML_KEM_512 3 sample_dk sample_ct ltac:(discriminate)) S) as [K E].
  change (set_of MLKEM512) with ML_KEM_512 in H. change (3 + Z.of_nat 0) with 3 in H. rewrite E in H.
  destruct H as (m' & Em & _). exists m'. split; [exact Em|]. intros x Hx.
  apply (C10_dec _ _ MLKEM512 _ _ _ _ _ _ _ _ x C Em). lia.
Qed.

(** ** C11: the results depend on the inputs only: not on old contents of the outputs,
    not on other memory, not on addresses, not on uninitialised locals, not on how often
    the loops were allowed to run *)
Theorem C11_keypair_derand :
  forall {bo : byte_order} J1 J2 fuel1 fuel2 p m1 m2 pk1 pk2 sk1 sk2 coins1 coins2 d z r1 r2 m1' m2',
  keypair_call (set_of p) m1 pk1 sk1 coins1 d z -> keypair_call (set_of p) m2 pk2 sk2 coins2 d z ->
  val (crypto_kem_keypair_derand J1 fuel1 p m1 pk1 sk1 coins1) = Ok (r1, m1') ->
  val (crypto_kem_keypair_derand J2 fuel2 p m2 pk2 sk2 coins2) = Ok (r2, m2') ->
  r1 = r2 /\ same_bytes m1' pk1 m2' pk2 (ek_size (set_of p)) /\ same_bytes m1' sk1 m2' sk2 (dk_size (set_of p)).
Proof. intros bo. exact keypair_derand_same. Qed.
Print Assumptions C11_keypair_derand.

Theorem C11_enc_derand :
  forall {bo : byte_order} J1 J2 fuel1 fuel2 p m1 m2 ct1 ct2 ss1 ss2 pk1 pk2 coins1 coins2 ek msg r1 r2 m1' m2',
  enc_call (set_of p) m1 ct1 ss1 pk1 coins1 ek msg -> enc_call (set_of p) m2 ct2 ss2 pk2 coins2 ek msg ->
  val (crypto_kem_enc_derand J1 fuel1 p m1 ct1 ss1 pk1 coins1) = Ok (r1, m1') ->
  val (crypto_kem_enc_derand J2 fuel2 p m2 ct2 ss2 pk2 coins2) = Ok (r2, m2') ->
  r1 = r2 /\ (r1 = 0 -> same_bytes m1' ct1 m2' ct2 (ct_size (set_of p)) /\ same_bytes m1' ss1 m2' ss2 32).
Proof. intros bo. exact enc_derand_same. Qed.
Print Assumptions C11_enc_derand.

Theorem C11_dec : forall {bo : byte_order} J1 J2 fuel1 fuel2 p m1 m2 ss1 ss2 ct1 ct2 sk1 sk2 dk c r1 r2 m1' m2',
  dec_call (set_of p) m1 ss1 ct1 sk1 dk c -> dec_call (set_of p) m2 ss2 ct2 sk2 dk c ->
  val (crypto_kem_dec J1 fuel1 p m1 ss1 ct1 sk1) = Ok (r1, m1') ->
  val (crypto_kem_dec J2 fuel2 p m2 ss2 ct2 sk2) = Ok (r2, m2') ->
  r1 = r2 /\ (r1 = 0 -> same_bytes m1' ss1 m2' ss2 32).
Proof. intros bo. exact dec_same. Qed.
Print Assumptions C11_dec.

(** with the same allowance, one run returns exactly if the other does *)
Theorem C11_both_return : forall {bo : byte_order} J1 J2 fuel p,
  (forall m1 m2 pk1 pk2 sk1 sk2 coins1 coins2 d z,
     keypair_call (set_of p) m1 pk1 sk1 coins1 d z -> keypair_call (set_of p) m2 pk2 sk2 coins2 d z ->
     val (crypto_kem_keypair_derand J1 fuel p m1 pk1 sk1 coins1) = NoFuel ->
     val (crypto_kem_keypair_derand J2 fuel p m2 pk2 sk2 coins2) = NoFuel) /\
  (forall m1 m2 ct1 ct2 ss1 ss2 pk1 pk2 coins1 coins2 ek msg,
     enc_call (set_of p) m1 ct1 ss1 pk1 coins1 ek msg -> enc_call (set_of p) m2 ct2 ss2 pk2 coins2 ek msg ->
     val (crypto_kem_enc_derand J1 fuel p m1 ct1 ss1 pk1 coins1) = NoFuel ->
     val (crypto_kem_enc_derand J2 fuel p m2 ct2 ss2 pk2 coins2) = NoFuel) /\
  (forall m1 m2 ss1 ss2 ct1 ct2 sk1 sk2 dk c,
     dec_call (set_of p) m1 ss1 ct1 sk1 dk c -> dec_call (set_of p) m2 ss2 ct2 sk2 dk c ->
     val (crypto_kem_dec J1 fuel p m1 ss1 ct1 sk1) = NoFuel ->
     val (crypto_kem_dec J2 fuel p m2 ss2 ct2 sk2) = NoFuel).
Proof. intros bo. exact both_return. Qed.
Print Assumptions C11_both_return.

Example C11_case : forall {bo : byte_order}, exists m1' m2',
  val (crypto_kem_dec (fun _ => 9) 0 MLKEM512 (dec_memory sample_dk) 0 2000 6000) = Ok (0, m1') /\
  val (crypto_kem_dec (fun _ => 77) 0 MLKEM512 (dec_memory sample_dk) 0 2000 6000) = Ok (0, m2') /\
  same_bytes m1' 0 m2' 0 32.
Proof. intros bo.
  destruct C10_case as (m1 & E1 & _). destruct C04_case as (K & _ & m2 & E2 & _). destruct sample_dk_ok as [L B].
  exists m1, m2. split; [exact E1|split; [exact E2|]].
  destruct (C11_dec _ _ _ _ MLKEM512 _ _ _ _ _ _ _ _ _ _ _ _ _ _ (sample_dec_call _ L B) (sample_dec_call _ L B) E1 E2) as [_ H].
  now apply H.
Qed.

(** ** C12: the randomised functions draw 64 and 32 bytes and are the derandomised ones on
    these bytes *)
Theorem C12_keypair : forall {bo : byte_order} J fuel p rng m pos fp pk sk,
  keypair_rand_call (set_of p) m fp pk sk ->
  match ML_KEM_KeyGen_internal (set_of p) (3 + Z.of_nat fuel) (drawn rng pos 32) (drawn rng (pos + 32) 32) with
  | Some (ek, dk) =>
      finished_at (val (crypto_kem_keypair J fuel p rng m pos fp pk sk)) m 0 (pos + 64) [(pk, ek); (sk, dk)]
  | None => val (crypto_kem_keypair J fuel p rng m pos fp pk sk) = NoFuel
  end.
Proof. intros bo. exact keypair_exact. Qed.
Print Assumptions C12_keypair.

Theorem C12_enc : forall {bo : byte_order} J fuel p rng m pos fp ct ss pk ek,
  enc_rand_call (set_of p) m fp ct ss pk ek -> modulus_check (set_of p) ek ->
  match ML_KEM_Encaps_internal (set_of p) (3 + Z.of_nat fuel) ek (drawn rng pos 32) with
  | Some (K, c) =>
      finished_at (val (crypto_kem_enc J fuel p rng m pos fp ct ss pk)) m 0 (pos + 32) [(ct, c); (ss, K)]
  | None => val (crypto_kem_enc J fuel p rng m pos fp ct ss pk) = NoFuel
  end.
Proof. intros bo. exact enc_exact. Qed.
Print Assumptions C12_enc.

(** the same, comparing two runs of the code: whatever the derandomised function computes
    on the drawn bytes, in any memory, is what the randomised one computes *)
Theorem C12_keypair_is_derand : forall {bo : byte_order} J J2 fuel p rng m pos fp pk sk m2 pk2 sk2 coins2 r m2',
  keypair_rand_call (set_of p) m fp pk sk ->
  keypair_call (set_of p) m2 pk2 sk2 coins2 (drawn rng pos 32) (drawn rng (pos + 32) 32) ->
  val (crypto_kem_keypair_derand J2 fuel p m2 pk2 sk2 coins2) = Ok (r, m2') ->
  exists m', val (crypto_kem_keypair J fuel p rng m pos fp pk sk) = Ok (r, m', pos + 64) /\
    same_bytes m' pk m2' pk2 (ek_size (set_of p)) /\ same_bytes m' sk m2' sk2 (dk_size (set_of p)).
Proof. intros bo. exact keypair_is_derand. Qed.
Print Assumptions C12_keypair_is_derand.

Theorem C12_enc_is_derand : forall {bo : byte_order} J J2 fuel p rng m pos fp ct ss pk ek m2 ct2 ss2 pk2 coins2 r m2',
  enc_rand_call (set_of p) m fp ct ss pk ek ->
  enc_call (set_of p) m2 ct2 ss2 pk2 coins2 ek (drawn rng pos 32) ->
  val (crypto_kem_enc_derand J2 fuel p m2 ct2 ss2 pk2 coins2) = Ok (r, m2') ->
  exists m', val (crypto_kem_enc J fuel p rng m pos fp ct ss pk) = Ok (r, m', pos + 32) /\
    (r = 0 -> same_bytes m' ct m2' ct2 (ct_size (set_of p)) /\ same_bytes m' ss m2' ss2 32).
Proof. intros bo. exact enc_is_derand. Qed.
Print Assumptions C12_enc_is_derand.

(** a source that delivers the sample coins *)
Example C12_case : forall {bo : byte_order}, exists ek dk,
  finished_at (val (crypto_kem_keypair (fun _ => 9) 0 MLKEM512 (fun i => nth (Z.to_nat i) sample_d i) (sample_memory []) 0 30000 0 2000))
    (sample_memory []) 0 64 [(0, ek); (2000, dk)].
Proof. intros bo.
  set (rng := fun i => nth (Z.to_nat i) sample_d i).
  assert (Ed : drawn rng 0 32 = sample_d) by reflexivity.
  pose proof (C12_keypair (fun _ => 9) 0 MLKEM512 rng _ 0 _ _ _ sample_keypair_rand_call) as H. rewrite Ed in H.
  destruct (proj2 (keygen_iff ML_KEM_512 3 sample_d (drawn rng 32 32) ltac:(discriminate)) (sample_suffices 3 ltac:(lia))) as [[ek dk] E].
  change (set_of MLKEM512) with ML_KEM_512 in H. change (3 + Z.of_nat 0) with 3 in H. change (0 + 32) with 32 in H.
  rewrite E in H. exists ek, dk. exact H.
Qed.

(** ** C33: layout of the secret key *)
Theorem C33_key_layout : forall {bo : byte_order} J fuel p m pk sk coins d z r m',
  keypair_call (set_of p) m pk sk coins d z ->
  val (crypto_kem_keypair_derand J fuel p m pk sk coins) = Ok (r, m') ->
  exists dkp ek, zlen dkp = 384 * k (set_of p) /\ zlen ek = ek_size (set_of p) /\
    contains m' pk ek /\ contains m' sk (dkp ++ ek ++ SHA3_256 ek ++ z) /\
    Forall (fun v => 0 <= v < 3329) (candidates dkp).
Proof. intros bo. exact key_layout. Qed.
Print Assumptions C33_key_layout.

Example C33_case : forall {bo : byte_order}, exists m' dkp ek,
  val (crypto_kem_keypair_derand (fun _ => 77) 0 MLKEM512 keypair_memory 0 2000 6000) = Ok (0, m') /\
  contains m' 0 ek /\ contains m' 2000 (dkp ++ ek ++ SHA3_256 ek ++ sample_z).
Proof. intros bo.
  destruct C08_case as (m' & _ & _ & E & _).
  destruct (C33_key_layout _ _ MLKEM512 _ _ _ _ _ _ _ _ sample_keypair_call E) as (dkp & ek & _ & _ & H1 & H2 & _). eauto 6.
Qed.

(** ** C34: the functions return exactly if the matrix can be sampled.
    With a given allowance: exactly if so many blocks suffice for every entry, so the
    number of refills is the least that suffices. *)
Theorem C34_keypair_derand : forall {bo : byte_order} J fuel p m pk sk coins d z,
  keypair_call (set_of p) m pk sk coins d z ->
  ((exists r m', val (crypto_kem_keypair_derand J fuel p m pk sk coins) = Ok (r, m')) <->
   blocks_suffice (set_of p) (keygen_rho (set_of p) d) (3 + Z.of_nat fuel)).
Proof. intros bo. exact keypair_derand_returns. Qed.
Print Assumptions C34_keypair_derand.

Theorem C34_enc_derand : forall {bo : byte_order} J fuel p m ct ss pk coins ek msg,
  enc_call (set_of p) m ct ss pk coins ek msg -> modulus_check (set_of p) ek ->
  ((exists r m', val (crypto_kem_enc_derand J fuel p m ct ss pk coins) = Ok (r, m')) <->
   blocks_suffice (set_of p) (ek_rho (set_of p) ek) (3 + Z.of_nat fuel)).
Proof. intros bo. exact enc_derand_returns. Qed.
Print Assumptions C34_enc_derand.

Theorem C34_dec : forall {bo : byte_order} J fuel p m ss ct sk dk c,
  dec_call (set_of p) m ss ct sk dk c -> hash_check (set_of p) dk ->
  ((exists r m', val (crypto_kem_dec J fuel p m ss ct sk) = Ok (r, m')) <->
   blocks_suffice (set_of p) (dk_rho (set_of p) dk) (3 + Z.of_nat fuel)).
Proof. intros bo. exact dec_returns. Qed.
Print Assumptions C34_dec.

Theorem C34_keypair : forall {bo : byte_order} J fuel p rng m pos fp pk sk,
  keypair_rand_call (set_of p) m fp pk sk ->
  ((exists r m' pos', val (crypto_kem_keypair J fuel p rng m pos fp pk sk) = Ok (r, m', pos')) <->
   blocks_suffice (set_of p) (keygen_rho (set_of p) (drawn rng pos 32)) (3 + Z.of_nat fuel)).
Proof. intros bo. exact keypair_returns. Qed.
Print Assumptions C34_keypair.

Theorem C34_enc : forall {bo : byte_order} J fuel p rng m pos fp ct ss pk ek,
  enc_rand_call (set_of p) m fp ct ss pk ek -> modulus_check (set_of p) ek ->
  ((exists r m' pos', val (crypto_kem_enc J fuel p rng m pos fp ct ss pk) = Ok (r, m', pos')) <->
   blocks_suffice (set_of p) (ek_rho (set_of p) ek) (3 + Z.of_nat fuel)).
Proof. intros bo. exact enc_returns. Qed.
Print Assumptions C34_enc.

(** With any allowance: exactly if each stream contains 256 acceptable values somewhere. *)
Theorem C34_keypair_terminates : forall {bo : byte_order} J p m pk sk coins d z,
  keypair_call (set_of p) m pk sk coins d z ->
  ((exists fuel r m', val (crypto_kem_keypair_derand J fuel p m pk sk coins) = Ok (r, m')) <->
   (forall i j, 0 <= i < k (set_of p) -> 0 <= j < k (set_of p) ->
    exists b, 0 <= b /\ 256 <= zlen (accepted (SHAKE128 (keygen_rho (set_of p) d ++ [j; i]) (168 * b))))).
Proof. intros bo. exact keypair_derand_returns_iff. Qed.
Print Assumptions C34_keypair_terminates.

Theorem C34_enc_terminates : forall {bo : byte_order} J p m ct ss pk coins ek msg,
  enc_call (set_of p) m ct ss pk coins ek msg -> modulus_check (set_of p) ek ->
  ((exists fuel r m', val (crypto_kem_enc_derand J fuel p m ct ss pk coins) = Ok (r, m')) <->
   (forall i j, 0 <= i < k (set_of p) -> 0 <= j < k (set_of p) ->
    exists b, 0 <= b /\ 256 <= zlen (accepted (SHAKE128 (ek_rho (set_of p) ek ++ [j; i]) (168 * b))))).
Proof. intros bo. exact enc_derand_returns_iff. Qed.
Print Assumptions C34_enc_terminates.

Theorem C34_dec_terminates : forall {bo : byte_order} J p m ss ct sk dk c,
  dec_call (set_of p) m ss ct sk dk c -> hash_check (set_of p) dk ->
  ((exists fuel r m', val (crypto_kem_dec J fuel p m ss ct sk) = Ok (r, m')) <->
   (forall i j, 0 <= i < k (set_of p) -> 0 <= j < k (set_of p) ->
    exists b, 0 <= b /\ 256 <= zlen (accepted (SHAKE128 (dk_rho (set_of p) dk ++ [j; i]) (168 * b))))).
Proof. intros bo. exact dec_returns_iff. Qed.
Print Assumptions C34_dec_terminates.

(** A larger allowance gives the same result. *)
Theorem C34_larger_allowance : forall {bo : byte_order} J1 J2 fuel1 fuel2 p, (fuel1 <= fuel2)%nat ->
  (forall m pk sk coins d z r m1, keypair_call (set_of p) m pk sk coins d z ->
     val (crypto_kem_keypair_derand J1 fuel1 p m pk sk coins) = Ok (r, m1) ->
     exists m2, val (crypto_kem_keypair_derand J2 fuel2 p m pk sk coins) = Ok (r, m2) /\ forall x, m2 x = m1 x) /\
  (forall m ct ss pk coins ek msg r m1, enc_call (set_of p) m ct ss pk coins ek msg ->
     val (crypto_kem_enc_derand J1 fuel1 p m ct ss pk coins) = Ok (r, m1) ->
     exists m2, val (crypto_kem_enc_derand J2 fuel2 p m ct ss pk coins) = Ok (r, m2) /\ forall x, m2 x = m1 x) /\
  (forall m ss ct sk dk c r m1, dec_call (set_of p) m ss ct sk dk c ->
     val (crypto_kem_dec J1 fuel1 p m ss ct sk) = Ok (r, m1) ->
     exists m2, val (crypto_kem_dec J2 fuel2 p m ss ct sk) = Ok (r, m2) /\ forall x, m2 x = m1 x).
Proof. intros bo. exact larger_allowance. Qed.
Print Assumptions C34_larger_allowance.

Example C34_case : forall {bo : byte_order} fuel, exists r m',
  val (crypto_kem_keypair_derand (fun _ => 77) fuel MLKEM512 keypair_memory 0 2000 6000) = Ok (r, m').
Proof. intros bo.
  intros fuel. apply (C34_keypair_derand _ fuel MLKEM512 _ _ _ _ _ _ sample_keypair_call). apply sample_suffices. lia.
Qed.
