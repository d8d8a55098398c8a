(** * Property C37: sequences of API calls behave like the abstract machine

    [machine] (the FIPS 203 machine on memory), [code] (the functions of kem.c called one
    after the other) and [fits] (a call on disjoint buffers inside the memory) are explained
    in SpecMachine.v. Every call of a history has its own parameter set, its own contents of
    uninitialised local memory and its own allowance of refill rounds. *)

From Coq Require Import ZArith List Bool Lia.
From Verif Require Import ModelKeccak.
From Verif Require Import CSem ModelArith ModelKem Spec202 Spec203 SpecLink SpecMem SpecApi SpecNoise SpecMachine
  ProofApi ProofMachine Samples SamplesKem SamplesNoise PropCorrect.
Import ListNotations.
Open Scope Z_scope.

(** After any history of calls on buffers inside the initial memory the return codes, the
    memory and the random position are those of the machine. *)
Theorem C37_history : forall {bo : byte_order} rng h m pos,
  byte_memory m -> Forall (fun s => fits (set_of (pset_of s)) m (call_of s)) h ->
  match machine rng h m pos with
  | Some (codes, m', pos') => exists m'', val (code rng h m pos) = Ok (codes, m'', pos') /\ forall x, m'' x = m' x
  | None => val (code rng h m pos) = NoFuel
  end.
Proof. intros bo. exact history_exact. Qed.
Print Assumptions C37_history.

Theorem C37_no_undefined_behaviour : forall {bo : byte_order} rng h m pos e,
  byte_memory m -> Forall (fun s => fits (set_of (pset_of s)) m (call_of s)) h ->
  val (code rng h m pos) <> UB e.
Proof. intros bo. exact history_no_ub. Qed.
Print Assumptions C37_no_undefined_behaviour.

(** What was left in uninitialised local memory makes no difference. *)
Theorem C37_no_hidden_state : forall {bo : byte_order} rng h h' m pos codes m1 pos1,
  byte_memory m -> Forall (fun s => fits (set_of (pset_of s)) m (call_of s)) h ->
  Forall2 (fun s s' => fuel_of s = fuel_of s' /\ pset_of s = pset_of s' /\ call_of s = call_of s') h h' ->
  val (code rng h m pos) = Ok (codes, m1, pos1) ->
  exists m2, val (code rng h' m pos) = Ok (codes, m2, pos1) /\ forall x, m2 x = m1 x.
Proof. intros bo. exact history_junk. Qed.
Print Assumptions C37_no_hidden_state.

(** Key generation, encapsulation and decapsulation: all three succeed. *)
Definition exchange_history : list step :=
  [ {| junk_of := fun _ => 77; fuel_of := 0; pset_of := MLKEM512; call_of := KeypairDerand 0 2000 6000 |};
    {| junk_of := fun _ => 78; fuel_of := 0; pset_of := MLKEM512; call_of := EncDerand 8000 10000 0 11000 |};
    {| junk_of := fun _ => 79; fuel_of := 0; pset_of := MLKEM512; call_of := Dec 12000 8000 2000 |} ].
(** All five functions, for all parameter sets *)
Definition mixed_history : list step :=
  exchange_history ++
  [ {| junk_of := fun _ => 80; fuel_of := 5; pset_of := MLKEM768; call_of := Keypair 20000 0 2000 |};
    {| junk_of := fun _ => 81; fuel_of := 5; pset_of := MLKEM768; call_of := Enc 30000 8000 10000 0 |};
    {| junk_of := fun _ => 82; fuel_of := 5; pset_of := MLKEM1024; call_of := Dec 10000 0 2000 |} ].

Example C37_fits : byte_memory exchange_sample /\
  Forall (fun s => fits (set_of (pset_of s)) exchange_sample (call_of s)) mixed_history.
Proof.
  split; [apply exchange_sample_ok|]. unfold mixed_history, exchange_history.
  assert (A : forall a n, 0 <= a -> a + n <= 20000 -> accessible exchange_sample a n) by (intros; now apply sample_accessible).
  assert (V : forall a n, 20000 <= a -> vacant exchange_sample a n) by (intros; now apply exchange_vacant).
  repeat (constructor; [unfold fits; cbn [pset_of call_of set_of];
    repeat (split; [now apply A|]); try (split; [|now apply V]);
    unfold all_apart; repeat (constructor; [repeat constructor; unfold apart; cbn; lia|]); constructor|]).
  constructor.
Qed.
Example C37_case : forall {bo : byte_order}, exists m pos,
  val (code (fun _ => 0) exchange_history exchange_sample 9) = Ok ([0; 0; 0], m, pos) /\ pos = 9.
Proof. intros bo.
  destruct C06_case as (m1 & m2 & m3 & K & E1 & E2 & E3 & _). exists m3, 9. split; [|reflexivity].
  unfold exchange_history.
  rewrite val_cons. unfold code_call at 1. cbn [call_of junk_of fuel_of pset_of]. rewrite val_lift, E1. cbv beta iota.
  rewrite val_cons. unfold code_call at 1. cbn [call_of junk_of fuel_of pset_of]. rewrite val_lift, E2. cbv beta iota.
  rewrite val_cons. unfold code_call at 1. cbn [call_of junk_of fuel_of pset_of]. rewrite val_lift, E3. reflexivity.
Qed.
