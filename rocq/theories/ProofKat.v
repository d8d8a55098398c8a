(** * The known-answer programs *)

From Coq Require Import ZArith List Bool Lia.
From Verif Require Import CSem ModelArith ModelKeccak ModelKem ModelA64Sponge ModelAes ModelDrbg ModelTests ModelKat
  Spec202 Spec203 SpecLink SpecMem SpecApi SpecMachine SpecBuilds SpecTests SpecDrbg SpecKat
  CSemFacts ProofMem ProofSponge ProofHash ProofA64Hash ProofNoise ProofKeys ProofApi ProofReturn ProofCorrect ProofMachine ProofBuilds ProofTests.
Import ListNotations.
Open Scope Z_scope.
Ltac Zify.zify_post_hook ::= idtac.
#[local] Opaque KECCAK_f1600 fb.

Lemma apart_less x n a o k : apart (x, n) (a, o) -> k <= n -> apart (x, k) (a, o).
Proof. unfold apart. cbn. lia. Qed.
Lemma apart_part x n a o j k : apart (x, n) (a, o) -> 0 <= j -> j + k <= n -> apart (x + j, k) (a, o).
Proof. unfold apart. cbn. lia. Qed.
Lemma accessible_part m a n j k : accessible m a n -> 0 <= j -> j + k <= n -> accessible m (a + j) k.
Proof. intros A Hj Hk x Hx. apply A. lia. Qed.
Lemma val_mread m a n : 0 <= n -> accessible m a n -> val (mload m a n) = Ok (read m a n).
Proof.
  intros Hn A. apply val_mload; [now apply contains_read|].
  unfold read. rewrite zlen_map, zlen_range; lia.
Qed.

(** ** The stream of gen_KAT *)

Definition seed64 : list Z := map (fun j => 32 + j) (range 64).
Lemma seed64_bytes : bytes seed64.
Proof. unfold seed64. apply Forall_map_range. intros i Hi. unfold is_byte. lia. Qed.
Definition at_round (i : Z) (state : list Z) : Prop := squeezing_inc 136 (final 136 31 seed64) (96 * i) state.

Lemma wp_seed b J state : zlen state = 26 -> wp (kat_shake256_absorb b J state kat_seed 64) (at_round 0).
Proof.
  intros L. unfold kat_shake256_absorb, shake256_inc_init.
  apply wp_bind, (wp_inc_init _ _ 136); [exact L|lia|]. intros s0 H0.
  apply wp_bind. change kat_seed with seed64. pose proof seed64_bytes as B.
  assert (L64 : zlen seed64 = 64) by reflexivity.
  assert (X : wp (inc_absorb b J s0 seed64 64) (absorbing 136 seed64)).
  { destruct b as [bo| |bd]; cbn [inc_absorb]; unfold shake256_inc_absorb, shake256_inc_absorb_aarch64, SHAKE256_RATE.
    - apply (wp_inc_absorb _ _ _ []); auto; lia.
    - apply (wp_inc_absorb _ _ _ []); auto; lia.
    - apply (wp_inc_absorb_a64 _ _ _ _ _ []); auto; lia. }
  eapply wp_mono; [exact X|]. intros s1 H1. unfold shake256_inc_finalize, SHAKE256_RATE.
  apply (wp_inc_finalize _ _ _ _ seed64); auto; lia.
Qed.
Lemma wp_coins b J h state i : at_round i state -> 0 <= i -> zlen h = 96 ->
  wp (inc_squeeze b J h 96 state) (fun '(out, state) => out = kat_coins i /\ at_round (i + 1) state).
Proof.
  intros Hs Hi L. unfold kat_coins. fold seed64.
  assert (E : map (fun j => stream 136 (fb (final 136 31 seed64)) (96 * i + j)) (range 96) ++ skipn (Z.to_nat 96) h =
     slice (SHAKE256 seed64 (96 * (i + 1))) (96 * i) (96 * (i + 1))).
  { replace (Z.to_nat 96) with (length h) by (unfold zlen in L; lia). rewrite skipn_all, app_nil_r.
    rewrite stream_SHAKE256 by (try apply seed64_bytes; lia). replace (96 * (i + 1)) with (96 * i + 96) by lia. reflexivity. }
  assert (C : forall st', squeezing_inc 136 (final 136 31 seed64) (96 * i + 96) st' -> at_round (i + 1) st').
  { intros st'. unfold at_round. replace (96 * (i + 1)) with (96 * i + 96) by lia. auto. }
  destruct b as [bo| |bd]; cbn [inc_squeeze]; unfold shake256_inc_squeeze, shake256_inc_squeeze_aarch64, SHAKE256_RATE.
  - eapply wp_inc_squeeze; [exact Hs|lia|lia|lia|]. intros st' H'. rewrite E. auto.
  - eapply wp_inc_squeeze; [exact Hs|lia|lia|lia|]. intros st' H'. rewrite E. auto.
  - eapply wp_inc_squeeze_a64; [exact Hs|lia|lia|lia|]. intros st' H'. rewrite E. auto.
Qed.
Lemma zlen_coins i : 0 <= i -> zlen (kat_coins i) = 96.
Proof.
  intros Hi. unfold kat_coins. fold seed64. rewrite zlen_slice; [lia|lia|].
  rewrite SHAKE256_stream by (try apply seed64_bytes; lia). rewrite zlen_map, zlen_range; lia.
Qed.
Lemma bytes_coins i : 0 <= i -> bytes (kat_coins i).
Proof. intros Hi. unfold kat_coins. apply bytes_slice'. apply bytes_SHAKE256; [apply seed64_bytes|lia]. Qed.

(** ** Calls with coins in memory *)

Section Derand.
Variables (St : setting).
Let P := set_of (the_set St).
Let n := 3 + Z.of_nat (the_fuel St).
Let f := the_frame St.
Let Hn : 0 <= n.
Proof. unfold n. lia. Qed.

Lemma coins_apart m coins : coins_ok P m f coins ->
  apart (coins, 96) (pk_at f, ek_size P) /\ apart (coins, 96) (sk_at f, dk_size P) /\ apart (coins, 96) (ct_at f, ct_size P) /\
  apart (coins, 96) (key_a_at f, 32) /\ apart (coins, 96) (key_b_at f, 32).
Proof.
  intros (_ & A). repeat match goal with F : Forall _ (_ :: _) |- _ => apply Forall_cons_iff in F as [? F] end. tauto.
Qed.
Lemma coins_kept m m' coins : coins_ok P m f coins -> same_domain m m' -> coins_ok P m' f coins.
Proof. intros (A & Ap) D. split; [eapply domain_accessible; eassumption|exact Ap]. Qed.

Lemma keypair_derand_step J m pos coins d z r : frame_ok P m f -> coins_ok P m f coins ->
  contains m coins (d ++ z ++ r) -> zlen d = 32 -> zlen z = 32 -> zlen r = 32 -> bytes d -> bytes z ->
  match ML_KEM_KeyGen_internal P n d z with
  | Some (ek, dk) => exists m', val (api_call St J (KeypairDerand (pk_at f) (sk_at f) coins) m pos) = Ok (0, m', pos) /\
      byte_memory m' /\ same_domain m m' /\ contains m' (pk_at f) ek /\ contains m' (sk_at f) dk /\
      contains m' coins (d ++ z ++ r) /\
      zlen ek = ek_size P /\ zlen dk = dk_size P /\ bytes ek /\ bytes dk /\ modulus_check P ek /\ hash_check P dk
  | None => val (api_call St J (KeypairDerand (pk_at f) (sk_at f) coins) m pos) = NoFuel
  end.
Proof.
  intros F Fc C Ld Lz Lr Bd Bz. pose proof (frame_apart _ _ _ F) as (Ap & _).
  pose proof (coins_apart _ _ Fc) as (Q1 & Q2 & _). destruct F as (B & A1 & A2 & _).
  assert (Fi : fits P m (KeypairDerand (pk_at f) (sk_at f) coins)).
  { cbn [fits]. refine (conj A1 (conj A2 (conj _ _))).
    - intros x Hx. apply (proj1 Fc). lia.
    - apply all_apart3; [exact Ap| |]; apply apart_sym; (eapply apart_less; [eassumption|lia]). }
  pose proof (build_call_follows (the_build St) {| junk_of := J; fuel_of := the_fuel St; pset_of := the_set St;
    call_of := KeypairDerand (pk_at f) (sk_at f) coins |} (the_rng St) m pos B Fi) as G.
  cbn [pset_of fuel_of call_of machine_call] in G. fold P n in G. unfold api_call.
  pose proof C as C0. apply ProofMem.contains_app in C as [Cd C]. apply ProofMem.contains_app in C as [Cz _]. rewrite Ld in Cz.
  rewrite (read_contains m _ d _ Cd Ld), (read_contains m _ z _ Cz Lz) in G.
  destruct (ML_KEM_KeyGen_internal P n d z) as [[ek dk]|] eqn:E; [|exact G].
  cbn [good] in G. destruct G as (m' & G & X & B' & D). exists m'. split; [exact G|]. split; [exact B'|]. split; [exact D|].
  destruct (keygen_keys _ _ _ _ _ _ Bd Bz Lz Hn E) as (L1 & Be & L2 & Bdk & _ & HM & HH & _).
  fold P in L1, L2, HM, HH.
  split; [exact (stored_first _ _ _ _ _ X)|]. split; [refine (stored_second _ _ _ _ _ _ _ _ X); now rewrite L1, L2|].
  split; [|repeat (split; [assumption|]); assumption].
  refine (contains_kept _ _ _ _ _ C0 X _). assert (L96 : zlen (d ++ z ++ r) = 96) by (rewrite !zlen_app; lia).
  intros x o [Ex|[Ex|[]]]; injection Ex as <- <-; rewrite L96, ?L1, ?L2; now apply apart_sym.
Qed.

Lemma enc_derand_step J m pos coins r ek : frame_ok P m f -> coins_ok P m f coins -> contains m (pk_at f) ek -> zlen ek = ek_size P ->
  bytes ek -> modulus_check P ek -> contains m (coins + 64) r -> zlen r = 32 -> bytes r ->
  match ML_KEM_Encaps_internal P n ek r with
  | Some (K, c) => exists m', val (api_call St J (EncDerand (ct_at f) (key_b_at f) (pk_at f) (coins + 64)) m pos) = Ok (0, m', pos) /\
      byte_memory m' /\ same_domain m m' /\
      contains m' (ct_at f) c /\ contains m' (key_b_at f) K /\ zlen c = ct_size P /\ zlen K = 32 /\ bytes c /\ bytes K /\
      (forall a l, apart (ct_at f, ct_size P) (a, zlen l) -> apart (key_b_at f, 32) (a, zlen l) -> contains m a l -> contains m' a l)
  | None => val (api_call St J (EncDerand (ct_at f) (key_b_at f) (pk_at f) (coins + 64)) m pos) = NoFuel
  end.
Proof.
  intros F Fc C L Be HM Cr Lr Br. pose proof (frame_apart _ _ _ F) as (Ap1 & Ap2 & Ap3 & Ap4 & Ap5 & Ap6 & Ap7 & Ap8 & Ap9 & Ap10).
  pose proof (coins_apart _ _ Fc) as (Q1 & Q2 & Q3 & Q4 & Q5).
  destruct F as (B & A1 & A2 & A3 & A4 & A5 & _ & V).
  assert (Fi : fits P m (EncDerand (ct_at f) (key_b_at f) (pk_at f) (coins + 64))).
  { cbn [fits]. refine (conj A3 (conj A5 (conj A1 (conj _ _)))).
    - apply (accessible_part _ _ 96); [apply Fc|lia|lia].
    - assert (R : forall a o, apart (coins, 96) (a, o) -> apart (a, o) (coins + 64, 32)).
      { intros a o H. apply apart_sym. eapply apart_part; [exact H|lia|lia]. }
      unfold all_apart. repeat (constructor; [repeat (constructor; [first [assumption|now apply apart_sym|now apply R]|]); constructor|]).
      constructor. }
  pose proof (build_call_follows (the_build St) {| junk_of := J; fuel_of := the_fuel St; pset_of := the_set St;
    call_of := EncDerand (ct_at f) (key_b_at f) (pk_at f) (coins + 64) |} (the_rng St) m pos B Fi) as G.
  cbn [pset_of fuel_of call_of machine_call] in G. fold P n in G. unfold api_call.
  rewrite (read_contains m _ ek _ C L), (read_contains m _ r _ Cr Lr) in G. unfold modulus_check in HM.
  rewrite (proj2 (same_true _ _) HM) in G.
  destruct (ML_KEM_Encaps_internal P n ek r) as [[K c]|] eqn:E; [|exact G].
  cbn [good] in G. destruct G as (m' & G & X & B' & D). exists m'. split; [exact G|]. split; [exact B'|]. split; [exact D|].
  destruct (encaps_out _ _ _ _ _ _ Be Br L Lr Hn E) as (L1 & B1 & L2 & B2). fold P in L2.
  split; [exact (stored_first _ _ _ _ _ X)|]. split; [refine (stored_second _ _ _ _ _ _ _ _ X); now rewrite L1, L2|].
  repeat (split; [assumption|]). intros a l Ha Hb Hc. refine (contains_kept _ _ _ _ _ Hc X _).
  intros x o [Ex|[Ex|[]]]; injection Ex as <- <-; now rewrite ?L1, ?L2.
Qed.
End Derand.

(** ** gen_KAT *)

Definition printed (o : outcome (Z * list line)) (v : option (Z * list line)) : Prop :=
  match v with Some r => o = Ok r | None => o = NoFuel end.

Lemma three (l : list Z) : zlen l = 96 -> l = slice l 0 32 ++ slice l 32 64 ++ slice l 64 96.
Proof.
  intros L. rewrite <- (slice_zlen l 96) at 1 by auto.
  rewrite <- (slice_cat l 0 32 96), <- (slice_cat l 32 64 96) by lia. reflexivity.
Qed.
Lemma pk_bytes p : MLKEM_PUBLICKEYBYTES p = ek_size (set_of p).
Proof. now destruct p. Qed.

Lemma gen_kat_rounds_ok T coins rounds : forall J state m i,
  let P := set_of (kat_set T) in
  at_round i state -> 0 <= i -> frame_ok P m (kat_frame T) -> coins_ok P m (kat_frame T) coins ->
  printed (val (gen_kat_rounds rounds T coins J state m)) (kat_output rounds P (3 + Z.of_nat (kat_fuel T)) i).
Proof.
  induction rounds as [|rounds IH]; intros J state m i P Hs Hi F Fc; [reflexivity|].
  cbn [gen_kat_rounds kat_output]. set (n := 3 + Z.of_nat (kat_fuel T)). set (f := kat_frame T) in *.
  set (St := with_rng T (fun _ => 0)).
  unfold MLKEM_SYMBYTES. change (3 * 32) with 96. change (2 * 32) with 64.
  rewrite (val_ok _ _ _ (val_mread m coins 96 ltac:(lia) (proj1 Fc))).
  destruct (wp_ex _ _ (wp_coins (kat_build T) (sub J 0) (read m coins 96) state i Hs Hi
     ltac:(unfold read; rewrite zlen_map, zlen_range; lia))) as ([b state'] & R0 & -> & Hs').
  rewrite (val_ok _ _ _ R0). cbv beta iota.
  pose proof (zlen_coins i Hi) as L96. pose proof (bytes_coins i Hi) as B96. pose proof (three _ L96) as Split.
  set (d := slice (kat_coins i) 0 32) in *. set (z := slice (kat_coins i) 32 64) in *. set (r := slice (kat_coins i) 64 96) in *.
  assert (Ld : zlen d = 32) by (unfold d; rewrite zlen_slice; lia).
  assert (Lz : zlen z = 32) by (unfold z; rewrite zlen_slice; lia).
  assert (Lr : zlen r = 32) by (unfold r; rewrite zlen_slice; lia).
  assert (Bd : bytes d) by now apply bytes_slice'. assert (Bz : bytes z) by now apply bytes_slice'.
  assert (Br : bytes r) by now apply bytes_slice'.
  set (cs := kat_coins i) in *.
  assert (Ac : accessible m coins (zlen cs)) by (rewrite L96; apply Fc).
  rewrite (val_ok _ _ _ (val_mstore m coins cs Ac)).
  pose proof (contains_same m coins cs) as C. pose proof (domain_mwrite m coins cs Ac) as D0.
  assert (B0 : byte_memory (mwrite m coins cs)) by (apply byte_mwrite; [apply F|exact B96]).
  set (m0 := mwrite m coins cs) in *. clearbody m0. clear Ac R0 Hs.
  assert (F0 : frame_ok P m0 f) by exact (frame_kept _ _ _ _ F B0 D0).
  assert (Fc0 : coins_ok P m0 f coins) by (apply (coins_kept St m m0); auto).
  rewrite Split in C. clearbody cs d z r. clear Split L96 B96.
  pose proof (keypair_derand_step St (sub J 1) m0 0 coins d z r F0 Fc0 C Ld Lz Lr Bd Bz) as H1.
  unfold answer. change (set_of (the_set St)) with P in H1. change (the_frame St) with f in H1. change (3 + Z.of_nat (the_fuel St)) with n in H1.
  destruct (ML_KEM_KeyGen_internal P n d z) as [[ek dk]|] eqn:EK; [|apply val_nofuel; exact H1].
  destruct H1 as (m1 & R1 & B1 & D1 & C1 & C2 & C3 & L1 & L2 & Be & Bdk & HM & HH).
  rewrite (val_ok _ _ _ R1). cbv beta iota.
  assert (F1 : frame_ok P m1 f) by exact (frame_kept _ _ _ _ F0 B1 D1).
  assert (Fc1 : coins_ok P m1 f coins) by (apply (coins_kept St m0 m1); auto).
  rewrite (val_ok _ _ _ (val_mload m1 (pk_at f) ek _ C1 ltac:(rewrite L1; symmetry; apply pk_bytes))). cbv beta.
  destruct (sizes (kat_set T)) as (_ & _ & _ & Esk & Ect & _). fold P in Esk, Ect.
  rewrite (val_ok _ _ _ (val_mload m1 (sk_at f) dk _ C2 ltac:(rewrite L2; symmetry; exact Esk))). cbv beta.
  apply ProofMem.contains_app in C3 as [_ C3]. apply ProofMem.contains_app in C3 as [_ C3].
  rewrite Ld, Lz in C3. replace (coins + 32 + 32) with (coins + 64) in C3 by lia.
  pose proof (enc_derand_step St (sub J 2) m1 0 coins r ek F1 Fc1 C1 L1 Be HM C3 Lr Br) as H2.
  change (set_of (the_set St)) with P in H2. change (the_frame St) with f in H2. change (3 + Z.of_nat (the_fuel St)) with n in H2.
  destruct (ML_KEM_Encaps_internal P n ek r) as [[K c]|]; [|apply val_nofuel; exact H2].
  destruct H2 as (m2 & R2 & B2 & D2 & C4 & C5 & L3 & L4 & Bc & BK & Kept). rewrite (val_ok _ _ _ R2). cbv beta iota.
  rewrite (val_ok _ _ _ (val_mload m2 (ct_at f) c _ C4 ltac:(rewrite L3; symmetry; exact Ect))). cbv beta.
  pose proof (frame_apart _ _ _ F) as (Ap1 & Ap2 & Ap3 & Ap4 & Ap5 & Ap6 & Ap7 & Ap8 & Ap9 & Ap10).
  assert (C2' : contains m2 (sk_at f) dk) by (apply Kept; [rewrite L2; now apply apart_sym|rewrite L2; now apply apart_sym|exact C2]).
  assert (F2 : frame_ok P m2 f) by exact (frame_kept _ _ _ _ F1 B2 D2).
  destruct (dec_step St (sub J 3) m2 0 dk c F2 C2' L2 Bdk C4 L3 Bc) as (H3 & _). specialize (H3 HH).
  change (set_of (the_set St)) with P in H3. change (the_frame St) with f in H3. change (3 + Z.of_nat (the_fuel St)) with n in H3.
  unfold call_dec in H3. change (the_frame St) with f in H3.
  destruct (ML_KEM_Decaps_internal P n dk c) as [K'|]; [|apply val_nofuel; exact H3].
  destruct H3 as (m3 & R3 & B3 & D3 & Ca & La & Kept3). rewrite (val_ok _ _ _ R3). cbv beta iota.
  assert (Cb : contains m3 (key_b_at f) K) by (apply Kept3; [rewrite L4; exact Ap10|exact C5]).
  rewrite (val_ok _ _ _ (val_mload m3 (key_b_at f) K _ Cb L4)). rewrite (val_ok _ _ _ (val_mload m3 (key_a_at f) K' _ Ca La)).
  rewrite (val_ok _ _ _ (val_memcmp K K')). cbv beta. rewrite val_branch.
  destruct (same K K'); cbn [negb Z.eqb]; [|reflexivity].
  assert (F3 : frame_ok P m3 f) by exact (frame_kept _ _ _ _ F2 B3 D3).
  assert (Fc3 : coins_ok P m3 f coins) by (apply (coins_kept St m2 m3); [apply (coins_kept St m1 m2)|]; auto).
  pose proof (IH (sub J 4) state' m3 (i + 1) Hs' ltac:(lia) F3 Fc3) as H4. fold P n in H4.
  destruct (kat_output rounds P n (i + 1)) as [[rc rest]|]; cbn [printed] in H4 |- *.
  - rewrite (val_ok _ _ _ H4). reflexivity.
  - apply val_nofuel; exact H4.
Qed.

Lemma gen_kat_ok rounds T coins J m : let P := set_of (kat_set T) in
  frame_ok P m (kat_frame T) -> coins_ok P m (kat_frame T) coins ->
  printed (val (gen_kat rounds T coins J m)) (kat_output rounds P (3 + Z.of_nat (kat_fuel T)) 0).
Proof.
  intros P F Fc. unfold gen_kat.
  destruct (wp_ex _ _ (wp_seed (kat_build T) (sub J 0) (uninit_inc J) ltac:(apply zlen_uninit; lia))) as (s & R & Hs).
  rewrite (val_ok _ _ _ R). apply gen_kat_rounds_ok; auto. lia.
Qed.
