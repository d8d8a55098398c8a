(** * Property C62: what the functional tests of the library establish

    The verdicts ([keys_verdict] and so on) are statements about the algorithms of FIPS 203 and the
    random bytes; they and [frame_ok] are explained in SpecTests.v. A test ends with the result and
    the number of random bytes of its verdict, and its memory is still the same set of addresses. It
    does not end within the limits of the sampling loops if the verdict is None. *)

From Coq Require Import ZArith List Bool Lia.
From Verif Require Import CSem ModelArith ModelKeccak ModelKem ModelTests Spec202 Spec203 SpecLink SpecMem SpecApi SpecNoise SpecMachine
  SpecBuilds SpecTests ProofTests Samples SamplesKem SamplesNoise SamplesTests.
Import ListNotations.
Open Scope Z_scope.

(** test_keys, run with any build, returns 0 exactly if the FIPS 203 decapsulation gives the secret. *)
Theorem C62_keys : forall S J m pos,
  let P := set_of (the_set S) in
  frame_ok P m (the_frame S) ->
  match keys_verdict P (3 + Z.of_nat (the_fuel S)) (the_rng S) pos with
  | Some (r, pos') => exists m', val (test_keys S J m pos) = Ok (r, m', pos') /\ byte_memory m' /\ (forall x, m' x = None <-> m x = None)
  | None => val (test_keys S J m pos) = NoFuel
  end.
Proof. exact keys_ok. Qed.
Print Assumptions C62_keys.

(** It passes unless the noise is too large. *)
Theorem C62_keys_pass : forall S J m pos noise,
  let P := set_of (the_set S) in
  frame_ok P m (the_frame S) ->
  kem_noise P (3 + Z.of_nat (the_fuel S)) (drawn (the_rng S) pos 32) (drawn (the_rng S) (pos + 64) 32) = Some noise ->
  harmless_noise (drawn (the_rng S) (pos + 64) 32) noise ->
  exists m', val (test_keys S J m pos) = Ok (0, m', pos + 96) /\ byte_memory m' /\ (forall x, m' x = None <-> m x = None).
Proof. exact keys_test_passes. Qed.
Print Assumptions C62_keys_pass.

(** test_invalid_pk always passes. *)
Theorem C62_invalid_pk : forall S J m pos,
  let P := set_of (the_set S) in
  frame_ok P m (the_frame S) ->
  match invalid_pk_verdict P (3 + Z.of_nat (the_fuel S)) (the_rng S) pos with
  | Some (r, pos') => r = 0 /\ exists m', val (test_invalid_pk S J m pos) = Ok (r, m', pos') /\ byte_memory m' /\ (forall x, m' x = None <-> m x = None)
  | None => val (test_invalid_pk S J m pos) = NoFuel
  end.
Proof. exact invalid_pk_passes. Qed.
Print Assumptions C62_invalid_pk.

(** test_invalid_sk_a fails exactly if ten other bytes at the beginning of the secret key do not
    change what the FIPS 203 decapsulation gives. *)
Theorem C62_invalid_sk_a : forall S J m pos,
  let P := set_of (the_set S) in
  frame_ok P m (the_frame S) ->
  match invalid_sk_a_verdict P (3 + Z.of_nat (the_fuel S)) (the_rng S) pos with
  | Some (r, pos') => exists m', val (test_invalid_sk_a S J m pos) = Ok (r, m', pos') /\ byte_memory m' /\ (forall x, m' x = None <-> m x = None)
  | None => val (test_invalid_sk_a S J m pos) = NoFuel
  end.
Proof. exact invalid_sk_a_ok. Qed.
Print Assumptions C62_invalid_sk_a.

(** test_invalid_sk_b fails exactly if 32 random bytes are the hash of the public key. *)
Theorem C62_invalid_sk_b : forall S J m pos,
  let P := set_of (the_set S) in
  frame_ok P m (the_frame S) ->
  match invalid_sk_b_verdict P (3 + Z.of_nat (the_fuel S)) (the_rng S) pos with
  | Some (r, pos') => exists m', val (test_invalid_sk_b S J m pos) = Ok (r, m', pos') /\ byte_memory m' /\ (forall x, m' x = None <-> m x = None)
  | None => val (test_invalid_sk_b S J m pos) = NoFuel
  end.
Proof. exact invalid_sk_b_ok. Qed.
Print Assumptions C62_invalid_sk_b.

(** test_invalid_ciphertext fails exactly if the FIPS 203 decapsulation of the changed ciphertext
    gives the secret. *)
Theorem C62_invalid_ciphertext : forall S J m pos,
  let P := set_of (the_set S) in
  frame_ok P m (the_frame S) ->
  match invalid_ciphertext_verdict (build_order (the_build S)) (the_fuel S) P (3 + Z.of_nat (the_fuel S)) (the_rng S) pos with
  | Some (r, pos') => exists m', val (test_invalid_ciphertext S J m pos) = Ok (r, m', pos') /\ byte_memory m' /\ (forall x, m' x = None <-> m x = None)
  | None => val (test_invalid_ciphertext S J m pos) = NoFuel
  end.
Proof. exact invalid_ciphertext_ok. Qed.
Print Assumptions C62_invalid_ciphertext.

(** The ciphertext is really changed. The test passes unless the rejection secret of the changed
    ciphertext is the secret by chance, or the changed ciphertext is itself the encryption of a
    message that gives the same secret. *)
Theorem C62_invalid_ciphertext_events : forall bo limit p n rng pos r pos', 0 <= n ->
  invalid_ciphertext_verdict bo limit (set_of p) n rng pos = Some (r, pos') ->
  exists e ek dk K c i, first_nonzero limit rng pos = Some e /\ exchange (set_of p) n rng (e + 9) = Some (ek, dk, K, c) /\
    0 <= i < zlen c /\
    let c' := patch c i [Z.lxor (at_ c i) (rng e mod 256)] in
    c' <> c /\
    (r = 0 \/ Spec203.J (drawn rng (e + 41) 32 ++ c') = K \/
     exists m r', K_PKE_Encrypt (set_of p) n ek m r' = Some c' /\ G (m ++ Spec203.H ek) = (K, r')).
Proof. exact ciphertext_events. Qed.
Print Assumptions C62_invalid_ciphertext_events.

(** A test ends exactly if the FIPS 203 key generation does, and test_invalid_ciphertext
    if it also finds a byte that is not 0. *)
Theorem C62_tests_return : forall p n rng pos bo limit e,
  let P := set_of p in 0 <= n ->
  let returns pos := ML_KEM_KeyGen_internal P n (drawn rng pos 32) (drawn rng (pos + 32) 32) <> None in
  (keys_verdict P n rng pos <> None <-> returns pos) /\ (invalid_pk_verdict P n rng pos <> None <-> returns pos) /\
  (invalid_sk_a_verdict P n rng pos <> None <-> returns pos) /\ (invalid_sk_b_verdict P n rng pos <> None <-> returns pos) /\
  (first_nonzero limit rng pos = Some e -> (invalid_ciphertext_verdict bo limit P n rng pos <> None <-> returns (e + 9))).
Proof. exact tests_return. Qed.
Print Assumptions C62_tests_return.

(** The whole program, with any number of rounds: it returns 0 exactly if all five tests pass in
    every round, and stops with 1 after the first round in which one fails. *)
Theorem C62_main : forall ntests S J m pos,
  let P := set_of (the_set S) in
  frame_ok P m (the_frame S) ->
  match main_verdict ntests (build_order (the_build S)) (the_fuel S) P (3 + Z.of_nat (the_fuel S)) (the_rng S) pos with
  | Some (r, pos') => exists m', val (test_main ntests S J m pos) = Ok (r, m', pos') /\ byte_memory m' /\ (forall x, m' x = None <-> m x = None)
  | None => val (test_main ntests S J m pos) = NoFuel
  end.
Proof. exact main_follows. Qed.
Print Assumptions C62_main.

(** A machine of every kind, with the random bytes of the sample exchange (SamplesTests.v) *)
Example C62_frame : frame_ok ML_KEM_512 exchange_sample sample_frame.
Proof. exact sample_frame_ok. Qed.
Example C62_case : forall b J, exists m',
  val (test_keys (Setting b 0 MLKEM512 sample_rng sample_frame) J exchange_sample 0) = Ok (0, m', 96).
Proof.
  intros b J. destruct sample_noise as (noise & E & Sm). rewrite <- sample_drawn_d in E at 1.
  rewrite <- sample_drawn_msg in E.
  destruct (C62_keys_pass (Setting b 0 MLKEM512 sample_rng sample_frame) J exchange_sample 0 noise C62_frame E (ProofCorrect.small_harmless _ _ Sm))
    as (m' & R & _). eauto.
Qed.
(** A verdict on a changed ciphertext: the random bytes are nine times 1 and then as before. *)
Example C62_ciphertext_case : exists r pos', invalid_ciphertext_verdict LittleEndian 1 ML_KEM_512 3 late_rng 0 = Some (r, pos').
Proof.
  pose proof (C62_tests_return MLKEM512 3 late_rng 0 LittleEndian 1 0 ltac:(lia)) as (_ & _ & _ & _ & R).
  specialize (R eq_refl). change (set_of MLKEM512) with ML_KEM_512 in R.
  destruct (invalid_ciphertext_verdict LittleEndian 1 ML_KEM_512 3 late_rng 0) as [[r pos']|]; [eauto|].
  exfalso. apply (proj2 R); [exact late_returns|reflexivity].
Qed.
