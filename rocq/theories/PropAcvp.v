(** * C68: the ACVP program reads its arguments and prints the values of FIPS 203 *)

From Coq Require Import ZArith List Bool Lia String.
From Verif Require Import CSem ModelArith ModelKeccak ModelKem ModelTests ModelKat ModelAcvp Spec202 Spec203 SpecLink SpecMem SpecApi
  SpecMachine SpecBuilds SpecTests SpecKat SpecAcvp ProofKem ProofApi ProofMem ProofTests ProofMachine ProofKat ProofAcvp SamplesKem SamplesTests PropKat.
Import ListNotations.
Open Scope Z_scope.
Open Scope list_scope.

(** In every build, for all arguments, and whatever the buffers of the program and the uninitialised
    memory contain at the beginning. Arguments that ask for a key pair: the program prints ek and dk. *)
Theorem C68_keygen : forall T coins J argv m,
  let P := set_of (kat_set T) in
  frame_ok P m (kat_frame T) -> coins_ok P m (kat_frame T) coins ->
  forall d z, asks P argv (AskKeyGen d z) ->
  match ML_KEM_KeyGen_internal P (3 + Z.of_nat (kat_fuel T)) d z with
  | Some (ek, dk) => val (acvp_main T coins J argv m) = Ok (0, text "ek" ek ++ text "dk" dk)
  | None => val (acvp_main T coins J argv m) = NoFuel
  end.
Proof. exact main_keygen. Qed.
Print Assumptions C68_keygen.

(** Encapsulation. For a key that fails the modulus check, the program prints the contents of its
    uninitialised arrays and its exit code is 0 as well. *)
Theorem C68_encaps : forall T coins J argv m,
  let P := set_of (kat_set T) in
  frame_ok P m (kat_frame T) -> coins_ok P m (kat_frame T) coins ->
  forall ek r, asks P argv (AskEncaps ek r) ->
  (modulus_check P ek ->
   match ML_KEM_Encaps_internal P (3 + Z.of_nat (kat_fuel T)) ek r with
   | Some (K, c) => val (acvp_main T coins J argv m) = Ok (0, text "c" c ++ text "k" K)
   | None => val (acvp_main T coins J argv m) = NoFuel
   end) /\
  (~ modulus_check P ek ->
   val (acvp_main T coins J argv m) =
   Ok (0, text "c" (read m (ct_at (kat_frame T)) (ct_size P)) ++ text "k" (read m (key_b_at (kat_frame T)) 32))).
Proof. exact main_encaps. Qed.
Print Assumptions C68_encaps.

(** Decapsulation, in the same way *)
Theorem C68_decaps : forall T coins J argv m,
  let P := set_of (kat_set T) in
  frame_ok P m (kat_frame T) -> coins_ok P m (kat_frame T) coins ->
  forall dk c, asks P argv (AskDecaps dk c) ->
  (hash_check P dk ->
   match ML_KEM_Decaps_internal P (3 + Z.of_nat (kat_fuel T)) dk c with
   | Some K => val (acvp_main T coins J argv m) = Ok (0, text "k" K)
   | None => val (acvp_main T coins J argv m) = NoFuel
   end) /\
  (~ hash_check P dk -> val (acvp_main T coins J argv m) = Ok (0, text "k" (read m (key_a_at (kat_frame T)) 32))).
Proof. exact main_decaps. Qed.
Print Assumptions C68_decaps.

(** All other arguments: the exit code is 1 and nothing is printed. *)
Theorem C68_usage : forall T coins J argv m,
  let P := set_of (kat_set T) in
  frame_ok P m (kat_frame T) -> coins_ok P m (kat_frame T) coins ->
  (forall r, ~ asks P argv r) -> val (acvp_main T coins J argv m) = Ok (1, []).
Proof. exact main_usage. Qed.
Print Assumptions C68_usage.

(** Arguments ask for one thing at most. *)
Theorem C68_one : forall P argv r r', asks P argv r -> asks P argv r' -> r = r'.
Proof. exact asks_same. Qed.
Print Assumptions C68_one.

(** A line that the program prints, without its newline, is an argument for these bytes. *)
Theorem C68_printed : forall name l, bytes l -> argument name (zlen l) (removelast (text name l)) l.
Proof. exact printed_argument. Qed.
Print Assumptions C68_printed.

(** So the output is not determined by the arguments: they can be such that it depends on what is in
    uninitialised memory. *)
Theorem C68_determined_refuted : exists T coins J argv m m',
  let P := set_of (kat_set T) in
  frame_ok P m (kat_frame T) /\ coins_ok P m (kat_frame T) coins /\
  frame_ok P m' (kat_frame T) /\ coins_ok P m' (kat_frame T) coins /\
  (exists ek r, asks P argv (AskEncaps ek r)) /\
  val (acvp_main T coins J argv m) <> val (acvp_main T coins J argv m').
Proof.
  set (T := KatSetting (Portable LittleEndian) 0 MLKEM512 sample_frame).
  set (arg := fun name l => removelast (text name l)).
  set (argv := [ascii "acvp"; ascii "encapDecap"; ascii "AFT"; ascii "encapsulation"; arg "ek"%string bad_ek; arg "m"%string (repeat 7 32)]).
  destruct C67_frame as (F & Fc). destruct bad_ek_ok as (L & B).
  assert (A : asks ML_KEM_512 argv (AskEncaps bad_ek (repeat 7 32))).
  { constructor; [rewrite <- L|change 32 with (zlen (repeat 7 32))]; apply C68_printed; [exact B|].
    apply Forall_forall. intros x Hx. apply repeat_spec in Hx. subst x. unfold is_byte. lia. }
  assert (N : ~ modulus_check ML_KEM_512 bad_ek) by (apply (not_modulus_check MLKEM512 bad_ek L B); exact bad_ek_value).
  assert (W : forall b, is_byte b -> let m := mwrite sample_base 8000 [b] in
    frame_ok ML_KEM_512 m sample_frame /\ coins_ok ML_KEM_512 m sample_frame 12000).
  { intros b Hb m. assert (A8 : accessible sample_base 8000 (zlen [b])) by (apply (sample_accessible []); change (zlen [b]) with 1; lia).
    pose proof (domain_mwrite sample_base 8000 [b] A8) as D. split.
    - apply (frame_kept _ _ _ _ F); [|exact D]. apply byte_mwrite; [apply F|]. constructor; [exact Hb|constructor].
    - exact (coins_kept (with_rng T (fun _ => 0)) sample_base m 12000 Fc D). }
  exists T, 12000, (fun _ => 0), argv, (mwrite sample_base 8000 [1]), (mwrite sample_base 8000 [2]).
  destruct (W 1 ltac:(unfold is_byte; lia)) as (F1 & Fc1). destruct (W 2 ltac:(unfold is_byte; lia)) as (F2 & Fc2).
  refine (conj F1 (conj Fc1 (conj F2 (conj Fc2 (conj _ _))))); [now exists bad_ek, (repeat 7 32)|].
  destruct (C68_encaps T 12000 (fun _ => 0) argv _ F1 Fc1 _ _ A) as (_ & H1).
  destruct (C68_encaps T 12000 (fun _ => 0) argv _ F2 Fc2 _ _ A) as (_ & H2).
  rewrite (H1 N), (H2 N). intros E. apply (f_equal (fun o => match o with Ok (_, l) => firstn 4 l | _ => [] end)) in E.
  vm_compute in E. discriminate.
Qed.
Print Assumptions C68_determined_refuted.

(** Arguments that ask for a key pair, with digits in either case; and some that do not *)
Example C68_case : asks ML_KEM_512 [ascii "acvp"; ascii "keyGen"; ascii "AFT"; ascii "z=000102030405060708090a0b0c0d0e0f101112131415161718191A1B1C1D1E1F";
    ascii "d=FFfffefdfcfbfaf9f8f7f6f5f4f3f2f1f0efeeedecebeae9e8e7e6e5e4e3e2e1"; ascii "more"]
  (AskKeyGen ([255; 255; 254; 253; 252; 251; 250; 249; 248; 247; 246; 245; 244; 243; 242; 241; 240; 239; 238; 237; 236; 235; 234; 233; 232; 231; 230; 229;
               228; 227; 226; 225]) (range 32)).
Proof.
  constructor.
  - exists (ascii "000102030405060708090a0b0c0d0e0f101112131415161718191A1B1C1D1E1F"). repeat split; vm_compute; reflexivity.
  - exists (ascii "FFfffefdfcfbfaf9f8f7f6f5f4f3f2f1f0efeeedecebeae9e8e7e6e5e4e3e2e1"). repeat split; vm_compute; reflexivity.
Qed.
Example C68_no_case : forall r, ~ asks ML_KEM_512 [ascii "acvp"; ascii "keyGen"; ascii "AFT"; ascii "z=00"; ascii "d=00"] r.
Proof.
  intros r A. inversion A; subst. match goal with H : argument "z" 32 _ _ |- _ => destruct H as (ds & E & D & L) end.
  apply from_hex_len in D. rewrite L in D. apply (f_equal (@zlen Z)) in E. rewrite !CSemFacts.zlen_app, D in E. vm_compute in E. discriminate.
Qed.
(** Keys that pass the checks, and keys that do not *)
Example C68_keys : modulus_check ML_KEM_512 sample_ek /\ hash_check ML_KEM_512 sample_dk /\
  ~ modulus_check ML_KEM_512 bad_ek /\ ~ hash_check ML_KEM_512 bad_dk.
Proof.
  destruct bad_ek_ok as (L & B). split; [exact sample_ek_check|]. split; [exact sample_dk_check|]. split; [|apply bad_dk_ok].
  apply (not_modulus_check MLKEM512 bad_ek L B). exact bad_ek_value.
Qed.
