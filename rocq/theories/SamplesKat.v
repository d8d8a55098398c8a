(** * The first round of gen_KAT *)

From Coq Require Import ZArith List Bool Lia ZifyBool.
From Verif Require Import CSem ModelArith ModelKeccak ModelIndcpa ModelKem ModelTests ModelKat Spec202 Spec203 SpecLink SpecApi SpecMachine SpecTests SpecKat
  CSemFacts ProofSponge ProofHash ProofHistory ProofMatrix ProofNoise ProofPke ProofReturn ProofTests ProofKat ProofNistKat.
Import ListNotations.
Open Scope Z_scope.
#[local] Existing Instance BigEndian.
Ltac Zify.zify_post_hook ::= idtac.
#[local] Opaque KECCAK_f1600 fb SHAKE256 SHA3_512.

(** The coins of the first round and the hash of d and 2 *)
Definition first_coins : list Z :=
  [51; 241; 118; 233; 100; 15; 33; 14; 11; 233; 0; 78; 86; 217; 209; 106; 237; 113; 12; 31; 111; 251; 169; 179;
   56; 192; 33; 84; 59; 164; 151; 209; 102; 25; 97; 86; 78; 178; 181; 243; 67; 33; 73; 10; 64; 234; 109; 97;
   209; 105; 222; 17; 18; 101; 166; 229; 8; 178; 212; 116; 83; 246; 151; 3; 164; 142; 96; 145; 191; 101; 188; 138;
   8; 146; 61; 203; 254; 15; 169; 199; 171; 224; 186; 12; 188; 77; 50; 37; 8; 79; 194; 246; 192; 187; 83; 110].
Definition first_hash : list Z :=
  [215; 86; 89; 150; 175; 207; 26; 247; 50; 157; 24; 121; 90; 200; 40; 227; 138; 96; 123; 153; 92; 33; 244; 109;
   155; 83; 31; 176; 173; 220; 206; 166; 2; 85; 247; 110; 239; 162; 71; 203; 30; 234; 197; 163; 92; 21; 48; 217;
   223; 126; 161; 188; 52; 136; 213; 139; 63; 240; 120; 9; 74; 116; 231; 35].
Lemma first_coins_run : val (shake256 (fun _ => 0) (repeat 0 96) 96 kat_seed 64) = Ok first_coins.
Proof. vm_cast_no_check (eq_refl (Ok first_coins)). Qed.
Lemma first_hash_run : val (sha3_512 (fun _ => 0) (repeat 0 64) (slice first_coins 0 32 ++ [2]) 33) = Ok first_hash.
Proof. vm_cast_no_check (eq_refl (Ok first_hash)). Qed.
(** Three blocks suffice for the matrix of the first key. *)
Definition is_ok {A} (o : outcome A) : bool := match o with Ok _ => true | _ => false end.
Lemma first_matrix_run : is_ok (val (gen_matrix (fun _ => 0) 0 MLKEM512 (repeat (repeat 0 256) 4) (slice first_hash 0 32) false)) = true.
Proof. vm_cast_no_check (eq_refl true). Qed.

Lemma ok_eq {A} (a b : A) : Ok a = Ok b -> a = b.
Proof. congruence. Qed.
Lemma lits_bytes l : forallb (fun x => (0 <=? x) && (x <? 256)) l = true -> bytes l.
Proof. intros H. apply Forall_forall. intros x Hx. rewrite forallb_forall in H. specialize (H x Hx). unfold is_byte. lia. Qed.
Lemma first_coins_eq : kat_coins 0 = first_coins.
Proof.
  apply ok_eq. rewrite <- first_coins_run. rewrite (eq_refl : kat_seed = seed64).
  rewrite shake256_correct; [|apply seed64_bytes|change (zlen seed64) with 64; lia|lia|change (zlen (repeat 0 96)) with 96; lia|lia].
  apply f_equal. rewrite (eq_refl : slice seed64 0 64 = seed64), (eq_refl : skipn (Z.to_nat 96) (repeat 0 96) = @nil Z), app_nil_r.
  unfold kat_coins. fold seed64. rewrite (eq_refl : 96 * (0 + 1) = 96), (eq_refl : 96 * 0 = 0).
  apply slice_zlen. symmetry. apply zlen_SHAKE256; [apply seed64_bytes|lia].
Qed.
Lemma first_hash_eq : SHA3_512 (slice first_coins 0 32 ++ [2]) = first_hash.
Proof.
  apply ok_eq. rewrite <- first_hash_run.
  assert (B : bytes (slice first_coins 0 32 ++ [2])) by (apply lits_bytes; reflexivity).
  assert (L : zlen (slice first_coins 0 32 ++ [2]) = 33) by reflexivity.
  set (m := slice first_coins 0 32 ++ [2]) in *. clearbody m.
  rewrite sha3_512_correct; [|exact B|lia|lia|change (zlen (repeat 0 64)) with 64; lia].
  rewrite (slice_zlen m) by (symmetry; exact L). rewrite (eq_refl : skipn 64 (repeat 0 64) = @nil Z), app_nil_r. reflexivity.
Qed.
Lemma first_rho : keygen_rho ML_KEM_512 (slice first_coins 0 32) = slice first_hash 0 32.
Proof.
  rewrite <- first_hash_eq. set (d := slice first_coins 0 32). clearbody d. reflexivity.
Qed.

Lemma first_suffices : blocks_suffice ML_KEM_512 (keygen_rho ML_KEM_512 (slice (kat_coins 0) 0 32)) 3.
Proof.
  rewrite first_coins_eq, first_rho. apply ExpandA_iff; [cbn; lia|].
  pose proof first_matrix_run as H.
  assert (L : zlen (slice first_hash 0 32) = 32) by reflexivity.
  assert (B : bytes (slice first_hash 0 32)) by (apply lits_bytes; reflexivity).
  set (rho := slice first_hash 0 32) in *. clearbody rho.
  rewrite (gen_matrix_correct (fun _ => 0) 0 MLKEM512) in H; try assumption.
  - rewrite (eq_refl : set_of MLKEM512 = ML_KEM_512), (eq_refl : 3 + Z.of_nat 0 = 3) in H.
    destruct (ExpandA ML_KEM_512 3 rho) as [A|]; [eauto|discriminate].
  - reflexivity.
  - repeat constructor.
Qed.

Lemma first_round : exists r ek dk c rest, kat_output 1 ML_KEM_512 3 0 = Some (r, [Pk ek; Sk dk; Ct c] ++ rest).
Proof.
  pose proof (zlen_coins 0 ltac:(lia)) as L96. pose proof (bytes_coins 0 ltac:(lia)) as B96.
  destruct (tests_return MLKEM512 3 (fun i => nth (Z.to_nat i) (kat_coins 0) 0) 0 LittleEndian 1 0 ltac:(lia)) as (R & _).
  change (set_of MLKEM512) with ML_KEM_512 in R. unfold keys_verdict, exchange in R.
  rewrite !drawn_slice in R by (auto; lia).
  change (0 + 32) with 32 in R. change (32 + 32) with 64 in R. change (0 + 64) with 64 in R. change (64 + 32) with 96 in R.
  cbn [kat_output]. unfold answer.
  set (d := slice (kat_coins 0) 0 32) in *. set (z := slice (kat_coins 0) 32 64) in *. set (m := slice (kat_coins 0) 64 96) in *.
  destruct (proj2 (keygen_iff ML_KEM_512 3 d z ltac:(cbn; lia)) first_suffices) as [x Ex].
  rewrite Ex in R |- *. destruct x as [ek dk]. destruct R as [_ R]. specialize (R ltac:(discriminate)).
  destruct (ML_KEM_Encaps_internal ML_KEM_512 3 ek m) as [[K c]|]; [|now elim R].
  destruct (ML_KEM_Decaps_internal ML_KEM_512 3 dk c) as [K'|]; [|now elim R].
  destruct (same K K'); [exists 0, ek, dk, c, [Ss K]|exists (-1), ek, dk, c, []]; reflexivity.
Qed.
