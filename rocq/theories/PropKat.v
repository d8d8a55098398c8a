(** * C67: the known-answer programs print the values of FIPS 203 *)

From Coq Require Import ZArith List Bool Lia.
From Verif Require Import CSem ModelArith ModelKeccak ModelKem ModelTests ModelKat Spec202 Spec203 SpecLink SpecMem SpecApi
  SpecMachine SpecBuilds SpecTests SpecDrbg SpecKat SamplesKem SamplesTests ProofNistKat SamplesKat.
Import ListNotations.
Open Scope Z_scope.

(** gen_KAT, in every build, with any number of rounds and whatever its buffers and the uninitialised
    memory contain at the beginning: it prints, round by round, the keys, the ciphertext and the shared
    secret of FIPS 203 for the bytes of one SHAKE256 stream. It returns 0 after the last round, and -1 in
    a round in which decapsulation does not give the shared secret. It has no undefined behaviour. *)
Theorem C67_gen_kat : forall rounds T coins J m,
  let P := set_of (kat_set T) in
  frame_ok P m (kat_frame T) -> coins_ok P m (kat_frame T) coins ->
  match kat_output rounds P (3 + Z.of_nat (kat_fuel T)) 0 with
  | Some (r, out) => val (gen_kat rounds T coins J m) = Ok (r, out)
  | None => val (gen_kat rounds T coins J m) = NoFuel
  end.
Proof. exact gen_kat_follows. Qed.
Print Assumptions C67_gen_kat.

(** gen_NISTKAT: the same, for d, z and m from CTR_DRBG, with the name of the algorithm in the first
    line. It returns -4 in a round in which the shared secrets differ; -1, -2 and -3 are never
    returned. The number of rounds must fit in an int. *)
Theorem C67_gen_nistkat : forall rounds T J m,
  let P := set_of (kat_set T) in
  Z.of_nat rounds < 2 ^ 31 -> frame_ok P m (kat_frame T) ->
  match nistkat_output rounds P (3 + Z.of_nat (kat_fuel T)) 0 with
  | Some (r, out) => val (gen_nistkat rounds T J m) = Ok (r, Algorithm (kat_set T) :: out)
  | None => val (gen_nistkat rounds T J m) = NoFuel
  end.
Proof. exact gen_nistkat_follows. Qed.
Print Assumptions C67_gen_nistkat.

(** Two builds of the library, on machines of either byte order, print the same. *)
Theorem C67_same : forall rounds T T' coins coins' J J' m m',
  kat_set T = kat_set T' -> kat_fuel T = kat_fuel T' ->
  frame_ok (set_of (kat_set T)) m (kat_frame T) -> coins_ok (set_of (kat_set T)) m (kat_frame T) coins ->
  frame_ok (set_of (kat_set T)) m' (kat_frame T') -> coins_ok (set_of (kat_set T)) m' (kat_frame T') coins' ->
  val (gen_kat rounds T coins J m) = val (gen_kat rounds T' coins' J' m') /\
  (Z.of_nat rounds < 2 ^ 31 -> val (gen_nistkat rounds T J m) = val (gen_nistkat rounds T' J' m')).
Proof. exact kat_same. Qed.
Print Assumptions C67_same.

(** A machine for the programs *)
Example C67_frame : frame_ok ML_KEM_512 sample_base sample_frame /\ coins_ok ML_KEM_512 sample_base sample_frame 12000.
Proof.
  unfold frame_ok, coins_ok, sample_frame. cbn [pk_at sk_at ct_at key_a_at key_b_at fp_at].
  change (ek_size ML_KEM_512) with 800. change (dk_size ML_KEM_512) with 1632. change (ct_size ML_KEM_512) with 768.
  split; [split; [exact sample_base_bytes|]; do 5 (split; [apply (sample_accessible []); lia|]); split; [|apply sample_vacant; lia]|].
  - unfold all_apart. repeat (constructor; [repeat constructor; unfold apart; cbn; lia|]). constructor.
  - split; [apply (sample_accessible []); lia|]. repeat (constructor; [unfold apart; cbn; lia|]). constructor.
Qed.

(** The first round of gen_KAT: the XOF blocks suffice, and a key pair and a ciphertext are printed. *)
Example C67_case : exists r ek dk c rest, kat_output 1 ML_KEM_512 3 0 = Some (r, [Pk ek; Sk dk; Ct c] ++ rest).
Proof. exact first_round. Qed.
