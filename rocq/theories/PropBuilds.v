(** * Property C59: machines that run different builds understand each other

    [builds] (API calls made one after the other, each by its own build), [build_fits] and
    [same_calls] are explained in SpecBuilds.v, [machine] in SpecMachine.v, [kem_noise],
    [harmless_noise] and [exchange_memory] in SpecNoise.v. *)

From Coq Require Import ZArith List Bool Lia.
From Verif Require Import ModelKeccak ModelA64Indcpa.
From Verif Require Import CSem ModelArith ModelKem Spec202 Spec203 SpecLink SpecMem SpecApi SpecNoise SpecMachine
  SpecBuilds ProofBuilds Samples SamplesKem SamplesNoise PropCorrect PropMachine.
Import ListNotations.
Open Scope Z_scope.

(** After any history of calls, whichever build makes each of them, the return codes, the
    memory and the random position are those of the FIPS 203 machine, which knows nothing
    of builds. *)
Theorem C59_history : forall rng h m pos,
  byte_memory m -> build_fits m h ->
  match machine rng (map step_of h) m pos with
  | Some (codes, m', pos') => exists m'', val (builds rng h m pos) = Ok (codes, m'', pos') /\ forall x, m'' x = m' x
  | None => val (builds rng h m pos) = NoFuel
  end.
Proof. exact builds_exact. Qed.
Print Assumptions C59_history.

Theorem C59_no_undefined_behaviour : forall rng h m pos e,
  byte_memory m -> build_fits m h -> val (builds rng h m pos) <> UB e.
Proof. exact builds_no_ub. Qed.
Print Assumptions C59_no_undefined_behaviour.

(** Exchanging the build that makes a call, or what is left in its uninitialised memory, is
    not noticed by any later call. *)
Theorem C59_any_builds : forall rng h h' m pos,
  byte_memory m -> build_fits m h -> same_calls h h' ->
  match val (builds rng h m pos), val (builds rng h' m pos) with
  | Ok (codes, m1, pos1), Ok (codes', m1', pos1') => codes = codes' /\ (forall x, m1 x = m1' x) /\ pos1 = pos1'
  | NoFuel, NoFuel => True
  | _, _ => False
  end.
Proof. exact builds_agree. Qed.
Print Assumptions C59_any_builds.

(** Keys made by one build, a shared secret encapsulated by a second one and decapsulated by
    a third one: both sides hold the same secret, unless the noise is too large. *)
Theorem C59_exchange : forall b1 b2 b3 J1 J2 J3 fuel p rng m pos pk sk coins ct ss coins2 ss2 d z msg noise,
  exchange_memory (set_of p) m pk sk coins ct ss coins2 ss2 d z msg ->
  kem_noise (set_of p) (3 + Z.of_nat fuel) d msg = Some noise -> harmless_noise msg noise ->
  exists m' K,
    val (builds rng
      [ {| build_of := b1; step_of := {| junk_of := J1; fuel_of := fuel; pset_of := p; call_of := KeypairDerand pk sk coins |} |};
        {| build_of := b2; step_of := {| junk_of := J2; fuel_of := fuel; pset_of := p; call_of := EncDerand ct ss pk coins2 |} |};
        {| build_of := b3; step_of := {| junk_of := J3; fuel_of := fuel; pset_of := p; call_of := Dec ss2 ct sk |} |} ] m pos)
      = Ok ([0; 0; 0], m', pos) /\
    zlen K = 32 /\ contains m' ss K /\ contains m' ss2 K.
Proof. exact builds_exchange. Qed.
Print Assumptions C59_exchange.

(** The history of C37 with all functions and parameter sets, spread over four builds *)
Definition mixed_builds (bd : a64_build) : list build_step :=
  map (fun x => {| build_of := fst x; step_of := snd x |})
    (combine [AArch64 bd; X86_64; Portable BigEndian; X86_64; AArch64 bd; Portable LittleEndian] mixed_history).
Definition portable_builds : list build_step :=
  map (fun s => {| build_of := Portable LittleEndian; step_of := s |}) mixed_history.
Example C59_fits : forall bd,
  byte_memory exchange_sample /\ build_fits exchange_sample (mixed_builds bd) /\ same_calls (mixed_builds bd) portable_builds.
Proof.
  intros bd. destruct C37_fits as [B F]. split; [exact B|]. split.
  - unfold build_fits, mixed_builds, mixed_history, exchange_history in *. cbn [combine app map fst snd step_of] in *.
    repeat match goal with F : Forall _ (_ :: _) |- _ => apply Forall_cons_iff in F as [? F] end.
    repeat (constructor; [assumption|]). constructor.
  - unfold same_calls, mixed_builds, portable_builds, mixed_history, exchange_history. cbn [combine app map fst snd].
    repeat (constructor; [cbn [step_of fuel_of pset_of call_of]; auto|]). constructor.
Qed.
(** An exchange between an AArch64 machine, an x86_64 machine and a big-endian machine *)
Example C59_case : forall bd rng, exists m' K,
  val (builds rng (firstn 3 (mixed_builds bd)) exchange_sample 9) = Ok ([0; 0; 0], m', 9) /\
  zlen K = 32 /\ contains m' 10000 K /\ contains m' 12000 K.
Proof.
  intros bd rng. destruct sample_noise as (noise & E & S).
  exact (C59_exchange (AArch64 bd) X86_64 (Portable BigEndian) _ _ _ 0 MLKEM512 rng _ 9 _ _ _ _ _ _ _ _ _ _ _
    exchange_sample_ok E (ProofCorrect.small_harmless _ _ S)).
Qed.
