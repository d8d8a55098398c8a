(** * C47: the leakage of the KEM functions of the x86_64 build does not depend on secrets *)

From Coq Require Import ZArith List Bool Lia.
From Verif Require Import CSem ModelArith ModelKeccak ModelIndcpa ModelKem ModelAvx2 ModelX86 ModelX86Asm ModelX86Poly
  ModelX86Keccak ModelX86Indcpa ModelX86Kem Spec202 Spec203 SpecLink SpecMem SpecApi SpecX86 SpecX86Build
  ProofX86Ntt ProofX86Word CSemFacts ProofScalar ProofBits ProofPack ProofCbd ProofSponge ProofHash ProofNttSpec
  ProofRing ProofNtt ProofMul ProofMatrix ProofNoise ProofPke ProofMem ProofKem ProofKeys ProofApi ProofReturn
  ProofX86Poly ProofX86Pke ProofX86Kem ProofLeak ProofLeakHash ProofLeakKem ProofX86Leak.
Import ListNotations.
Open Scope Z_scope.
#[local] Existing Instance LittleEndian.
Ltac Zify.zify_post_hook ::= idtac.

Lemma l_check_pk_x86 J J' p m m' pk ek : contains m pk ek -> contains m' pk ek -> zlen ek = ek_size (set_of p) -> bytes ek ->
  same eq (check_pk_x86_64 J p m pk) (check_pk_x86_64 J' p m' pk).
Proof.
  intros H1 H2 L B. pose proof (MLKEM_K_range p) as HK. pose proof (MLKEM_K_k p) as EK. unfold ek_size in L.
  unfold check_pk_x86_64, MLKEM_N. destruct (sizes p) as (_ & _ & _ & _ & E & _). rewrite E. clear E.
  set (P := set_of p) in *. rewrite EK in *.
  assert (Hs : forall m, contains m pk ek -> contains m pk (slice ek 0 (384 * k P))).
  { intros m0 H0. replace pk with (pk + 0) by lia. apply contains_slice; auto; lia. }
  assert (Ls : zlen (slice ek 0 (384 * k P)) = 384 * k P) by (rewrite zlen_slice; lia).
  assert (Bs : bytes (slice ek 0 (384 * k P))) by (apply bytes_slice; auto; lia).
  pose proof (decode_each p ek ltac:(rewrite EK; lia) B) as Hd. fold P in Hd. rewrite EK in Hd.
  destruct (each_custom _ _ Hd) as [V1 V2].
  apply (same_bind_mload eq _ _ _ _ (slice ek 0 (384 * k P))); auto.
  set (F := map (fun i => custom_order (fields 12 (slice (slice ek 0 (384 * k P)) (384 * i) (384 * i + 384)))) (range (k P))).
  apply (same_bind_wp (fun v => v = F) (fun v => v = F)).
  { apply l_polyvec_frombytes_x86. }
  { apply wp_polyvec_frombytes_x86; rewrite ?EK; auto; [apply uninit_polys; lia|lia]. }
  { apply wp_polyvec_frombytes_x86; rewrite ?EK; auto; [apply uninit_polys; lia|lia]. }
  intros v v' -> ->.
  apply (same_bind_wp (fun v => v = map custom_order (decode_vec P 12 ek)) (fun v => v = map custom_order (decode_vec P 12 ek))).
  { apply l_polyvec_reduce_x86. }
  1, 2: (apply wp_polyvec_reduce_x86; [unfold F; rewrite <- EK; apply fields_each_x86; rewrite EK; lia|];
    unfold F; rewrite <- EK, fields_decode_x86; rewrite decode_prefix by (fold P; lia); reflexivity).
  intros v v' -> ->.
  set (E := concat (map (fun x => ByteEncode 12 (fips_order x)) (map custom_order (decode_vec P 12 ek)))).
  apply (same_bind_wp (fun v => v = E) (fun v => v = E)).
  { apply l_polyvec_tobytes_x86. }
  1, 2: (apply wp_polyvec_tobytes_x86; rewrite ?EK; auto; apply zlen_uninit; lia).
  intros v v' -> ->. apply (same_bind_mload eq _ _ _ _ (slice ek 0 (384 * k P))); auto. apply same_refl.
Qed.

(** ** Decapsulation *)
Lemma l_dec_x86 J1 J2 fuel p m1 m2 ss ct sk dk1 dk2 c :
  dec_call (set_of p) m1 ss ct sk dk1 c -> dec_call (set_of p) m2 ss ct sk dk2 c ->
  slice dk1 (384 * k (set_of p)) (768 * k (set_of p) + 64) = slice dk2 (384 * k (set_of p)) (768 * k (set_of p) + 64) ->
  leak (crypto_kem_dec_x86_64 J1 fuel p m1 ss ct sk) = leak (crypto_kem_dec_x86_64 J2 fuel p m2 ss ct sk).
Proof.
  intros C1 C2 E. pose proof (fun e => dec_no_ub_x86 J1 fuel p m1 ss ct sk dk1 c e C1) as N1.
  pose proof (fun e => dec_no_ub_x86 J2 fuel p m2 ss ct sk dk2 c e C2) as N2.
  destruct C1 as (Bm1 & _ & D1 & L1 & D2 & L2 & _). destruct C2 as (Bm2 & _ & F1 & M1 & F2 & M2 & _).
  pose proof (contains_bytes _ _ _ Bm1 D1) as B1. pose proof (k_range p) as HK.
  enough (G : same any (crypto_kem_dec_x86_64 J1 fuel p m1 ss ct sk) (crypto_kem_dec_x86_64 J2 fuel p m2 ss ct sk)).
  { exact (proj1 (G N1 N2)). }
  clear N1 N2. unfold crypto_kem_dec_x86_64, MLKEM_INDCPA_MSGBYTES, MLKEM_SYMBYTES, MLKEM_SSBYTES.
  leak_step. cbv zeta. eapply same_bind'; [now apply (l_check_sk _ _ p m1 m2 sk dk1 dk2)|]. intros b ? <-.
  apply same_branch; [apply same_ret; exact I|].
  apply (same_bind_mload any _ _ _ _ c); auto. { destruct (sizes p) as (_ & _ & _ & _ & _ & _ & ->). exact L2. }
  do 9 leak_step.
  apply (same_bind_mload any _ _ _ _ (slice dk1 (384 * k (set_of p)) (768 * k (set_of p) + 32))).
  { destruct (sizes p) as (_ & _ & _ & -> & _). apply contains_slice; auto; unfold dk_size in *; lia. }
  { destruct (sizes p) as (_ & _ & _ & -> & _). rewrite (proj1 (public_part (k (set_of p)) dk1 dk2 ltac:(lia) E)).
    apply contains_slice; auto; unfold dk_size in *; lia. }
  { destruct (sizes p) as (_ & -> & _). unfold dk_size, ek_size in *. rewrite zlen_slice; lia. }
  leak.
Qed.

(** ** Encapsulation *)
Lemma s_enc_derand_x86 J1 J2 fuel p m1 m2 ct ss pk coins ek msg1 msg2 :
  enc_call (set_of p) m1 ct ss pk coins ek msg1 -> enc_call (set_of p) m2 ct ss pk coins ek msg2 ->
  same any (crypto_kem_enc_derand_x86_64 J1 fuel p m1 ct ss pk coins) (crypto_kem_enc_derand_x86_64 J2 fuel p m2 ct ss pk coins).
Proof.
  intros (Bm1 & _ & _ & D1 & L1 & _) (Bm2 & _ & _ & F1 & _).
  pose proof (contains_bytes _ _ _ Bm1 D1) as B1.
  unfold crypto_kem_enc_derand_x86_64, MLKEM_INDCPA_MSGBYTES, MLKEM_SYMBYTES, MLKEM_SSBYTES.
  leak_step. cbv zeta. eapply same_bind'; [now apply (l_check_pk_x86 _ _ p m1 m2 pk ek)|]. intros b ? <-.
  apply same_branch; [apply same_ret; exact I|].
  do 9 leak_step.
  apply (same_bind_mload any _ _ _ _ ek); auto. { destruct (sizes p) as (_ & -> & _). exact L1. }
  leak.
Qed.
Lemma l_enc_derand_x86 J1 J2 fuel p m1 m2 ct ss pk coins ek msg1 msg2 :
  enc_call (set_of p) m1 ct ss pk coins ek msg1 -> enc_call (set_of p) m2 ct ss pk coins ek msg2 ->
  leak (crypto_kem_enc_derand_x86_64 J1 fuel p m1 ct ss pk coins) = leak (crypto_kem_enc_derand_x86_64 J2 fuel p m2 ct ss pk coins).
Proof.
  intros C1 C2. apply (s_enc_derand_x86 J1 J2 fuel p m1 m2 ct ss pk coins ek msg1 msg2 C1 C2).
  - intros e. exact (enc_derand_no_ub_x86 J1 fuel p m1 ct ss pk coins ek msg1 e C1).
  - intros e. exact (enc_derand_no_ub_x86 J2 fuel p m2 ct ss pk coins ek msg2 e C2).
Qed.
Lemma enc_leak_x86 J fuel p rng m pos fp ct ss pk ek : enc_rand_call (set_of p) m fp ct ss pk ek ->
  leak (crypto_kem_enc_x86_64 J fuel p rng m pos fp ct ss pk) =
  leak (crypto_kem_enc_derand_x86_64 (sub J 0) fuel p (mwrite m fp (drawn rng pos 32)) ct ss pk fp).
Proof.
  intros (_ & _ & _ & _ & _ & _ & V). unfold crypto_kem_enc_x86_64, MLKEM_SYMBYTES.
  rewrite unused_vacant by (auto; lia). rewrite randombytes_drawn by lia. unfold leak, bind.
  destruct (crypto_kem_enc_derand_x86_64 _ _ _ _ _ _ _ _) as [[[r m']|r|] t]; cbn; now rewrite ?app_nil_r.
Qed.
Lemma l_enc_x86 J1 J2 fuel p rng1 rng2 m1 m2 pos1 pos2 fp ct ss pk ek :
  enc_rand_call (set_of p) m1 fp ct ss pk ek -> enc_rand_call (set_of p) m2 fp ct ss pk ek ->
  leak (crypto_kem_enc_x86_64 J1 fuel p rng1 m1 pos1 fp ct ss pk) = leak (crypto_kem_enc_x86_64 J2 fuel p rng2 m2 pos2 fp ct ss pk).
Proof.
  intros C1 C2. rewrite (enc_leak_x86 J1 fuel p rng1 m1 pos1 fp ct ss pk ek C1), (enc_leak_x86 J2 fuel p rng2 m2 pos2 fp ct ss pk ek C2).
  eapply l_enc_derand_x86; apply enc_call_alloc; eassumption.
Qed.

(** ** Simulators: the leakage computed from the public data alone *)

Definition dec_sim_x86 fuel p ss ct sk (public c : list Z) : list event :=
  leak (crypto_kem_dec_x86_64 no_junk fuel p
    (overwrite zeros_memory [(ct, c); (sk, repeat 0 (Z.to_nat (384 * k (set_of p))) ++ public ++ repeat 0 32)]) ss ct sk).
Lemma dec_simulated_x86 fuel p ss ct sk : forall J m dk c, dec_call (set_of p) m ss ct sk dk c ->
  leak (crypto_kem_dec_x86_64 J fuel p m ss ct sk) =
  dec_sim_x86 fuel p ss ct sk (slice dk (384 * k (set_of p)) (768 * k (set_of p) + 64)) c.
Proof.
  intros J m dk c C. pose proof (dec_call_bytes _ _ _ _ _ _ _ C) as [Bdk Bc]. pose proof (k_range p) as HK.
  unfold dec_sim_x86. set (P := set_of p) in *. set (K := k P) in *.
  set (pub := slice dk (384 * K) (768 * K + 64)). set (dk0 := repeat 0 (Z.to_nat (384 * K)) ++ pub ++ repeat 0 32).
  pose proof C as (_ & _ & _ & Ldk & _ & Lc & Ap). fold P in Ap. unfold dk_size in Ldk. fold K in Ldk.
  assert (Lpub : zlen pub = 384 * K + 64) by (unfold pub; rewrite zlen_slice; lia).
  assert (L0 : zlen dk0 = 768 * K + 96).
  { unfold dk0. rewrite !zlen_app, !zlen_repeat, Lpub. lia. }
  assert (Bp : bytes pub) by (apply bytes_slice; auto; lia).
  assert (B0 : bytes dk0).
  { unfold dk0. apply Forall_app; split; [apply bytes_zeros|]. apply Forall_app; split; [exact Bp|apply bytes_zeros]. }
  apply (l_dec_x86 J no_junk fuel p _ _ ss ct sk dk dk0 c C).
  - apply all_apart3 in Ap as (A1 & A2 & A3). unfold dec_call. refine (conj _ (conj _ (conj _ (conj L0 (conj _ (conj Lc _)))))).
    + apply over_bytes; [apply zeros_bytes|]. repeat constructor; auto.
    + apply over_accessible. discriminate.
    + apply (stored_second zeros_memory _ ct c sk dk0 []); [|reflexivity]. rewrite L0, Lc. exact A3.
    + apply (stored_first zeros_memory _ _ _ [(sk, dk0)]). reflexivity.
    + now apply apart3.
  - fold P K. fold pub. unfold dk0.
    pose proof (CSemFacts.slice_app_mid (repeat 0 (Z.to_nat (384 * K))) pub (repeat 0 32)) as X.
    rewrite zlen_repeat, Lpub, Z2Nat.id in X by lia. replace (384 * K + (384 * K + 64)) with (768 * K + 64) in X by lia.
    symmetry. exact X.
Qed.

Definition enc_sim_x86 fuel p ct ss pk coins (ek : list Z) : list event :=
  leak (crypto_kem_enc_derand_x86_64 no_junk fuel p (overwrite zeros_memory [(pk, ek)]) ct ss pk coins).
Lemma enc_simulated_x86 fuel p ct ss pk coins : forall J m ek msg, enc_call (set_of p) m ct ss pk coins ek msg ->
  leak (crypto_kem_enc_derand_x86_64 J fuel p m ct ss pk coins) = enc_sim_x86 fuel p ct ss pk coins ek.
Proof.
  intros J m ek msg C. pose proof (enc_call_bytes _ _ _ _ _ _ _ _ C) as [Bek _].
  unfold enc_sim_x86. apply (l_enc_derand_x86 J no_junk fuel p m _ ct ss pk coins ek msg (repeat 0 32) C).
  destruct C as (_ & _ & _ & _ & Lek & _ & _ & Ap). pose proof (all_apart4 _ _ _ _ Ap) as (_ & _ & _ & _ & _ & A6).
  unfold enc_call. refine (conj _ (conj _ (conj _ (conj _ (conj Lek (conj _ (conj eq_refl Ap))))))).
  - apply over_bytes; [apply zeros_bytes|]. repeat constructor; auto.
  - apply over_accessible. discriminate.
  - apply over_accessible. discriminate.
  - apply (stored_first zeros_memory _ _ _ []). reflexivity.
  - apply over_other; [|apply zeros_contains]. intros b l' [HI|[]]. injection HI as <- <-. rewrite Lek. exact A6.
Qed.

(** ** Key generation *)

(** indcpa_keypair_derand_x86_64 with a given public seed in place of the derived one *)
Definition indcpa_keypair_seed_x86 (rho : list Z) (J : junk) (fuel : nat) (p : pset) (pk sk coins : list Z)
  : M (list Z * list Z) :=
  let K := MLKEM_K p in
  let buf := uninit J 0 (2 * MLKEM_SYMBYTES) in
  let coins_ds := uninit J 6 (MLKEM_SYMBYTES + 1) in
  coins_ds <- memcpy coins_ds 0 coins 0 MLKEM_SYMBYTES ;;
  coins_ds <- aset coins_ds MLKEM_SYMBYTES K ;;
  buf <- hash_g (sub J 7) buf coins_ds (MLKEM_SYMBYTES + 1) ;;
  publicseed <- aslice buf 0 MLKEM_SYMBYTES ;;
  noiseseed <- aslice buf MLKEM_SYMBYTES MLKEM_SYMBYTES ;;
  keypair_tail_x86 J fuel p pk sk rho noiseseed.
Lemma l_keypair_tail_x86 J J' fuel p pk pk' sk sk' rho s s' :
  same any (keypair_tail_x86 J fuel p pk sk rho s) (keypair_tail_x86 J' fuel p pk' sk' rho s').
Proof. unfold keypair_tail_x86. leak. Qed.
Lemma l_indcpa_keypair_x86 J J' fuel p pk pk' sk sk' d d' : zlen d = 32 -> bytes d ->
  same any (indcpa_keypair_derand_x86_64 J fuel p pk sk d) (indcpa_keypair_seed_x86 (keygen_rho (set_of p) d) J' fuel p pk' sk' d').
Proof.
  intros L B. pose proof (MLKEM_K_range p) as HK. unfold indcpa_keypair_derand_x86_64, indcpa_keypair_seed_x86. cbv zeta.
  set (K := MLKEM_K p) in *.
  assert (EG : keygen_rho (set_of p) d = slice (SHA3_512 (d ++ [K])) 0 32).
  { unfold keygen_rho, K. now rewrite MLKEM_K_k. }
  apply (same_bind_wpl (fun e => forall N (Q : list Z -> Prop), Q (d ++ [K]) -> wpn N (aset e MLKEM_SYMBYTES K) Q)).
  { apply same_memcpy. } { apply (wp_ext True J d K); auto. }
  intros e e' He.
  apply (same_bind_wpl (fun x => x = d ++ [K])); [apply same_aset|now apply He|].
  intros x x' ->.
  apply (same_bind_wpl (fun g => slice g 0 32 = keygen_rho (set_of p) d /\ zlen g = 64)).
  { apply l_hash_g. }
  - apply wp_G.
    + apply Forall_app; split; [exact B|repeat constructor; lia].
    + rewrite zlen_app, L. reflexivity.
    + unfold MLKEM_SYMBYTES. lia.
    + apply zlen_uninit. unfold MLKEM_SYMBYTES. lia.
    + intros kr Lk _ EQ. split; [|exact Lk]. rewrite EG. unfold G in EQ. congruence.
  - intros g g' [G1 G2].
    apply (same_bind_wpl (fun x => x = keygen_rho (set_of p) d)).
    { eapply same_any, same_aslice. }
    { apply wp_aslice; unfold MLKEM_SYMBYTES; [lia|lia|lia|exact G1]. }
    intros ? ? ->. leak_step. apply l_keypair_tail_x86.
Qed.
Lemma wp_indcpa_keypair_seed_x86 p fuel rho pk0 sk0 d : zlen rho = 32 -> bytes rho -> zlen d = 32 -> bytes d ->
  zlen pk0 = ek_size (set_of p) -> zlen sk0 = 384 * k (set_of p) ->
  wpn True (indcpa_keypair_seed_x86 rho no_junk fuel p pk0 sk0 d)
    (fun '(ek, dk) => exists sigma, keys_from_seeds (set_of p) (3 + Z.of_nat fuel) rho sigma = Some (ek, dk)).
Proof.
  intros Lr Br L B L1 L2. pose proof (MLKEM_K_range p) as HK. pose proof (MLKEM_K_k p) as EK.
  unfold indcpa_keypair_seed_x86. cbv zeta. apply wp_bind, (wp_ext True no_junk d (MLKEM_K p)); auto. intros e _ He. apply wp_bind, He.
  apply wp_bind, wp_G.
  - apply Forall_app; split; [exact B|repeat constructor; lia].
  - rewrite zlen_app, L. reflexivity.
  - unfold MLKEM_SYMBYTES. lia.
  - apply zlen_uninit. unfold MLKEM_SYMBYTES. lia.
  - intros kr Lk Bk _. unfold MLKEM_SYMBYTES. apply wp_bind, wp_aslice; try lia. apply wp_bind, wp_aslice; try lia.
    apply wp_keypair_tail_x86; auto; rewrite ?EK; try (unfold ek_size in *; lia).
    + rewrite zlen_slice; lia.
    + apply bytes_slice; auto; lia.
    + intros ek dk E. eexists. exact E.
Qed.

Definition keypair_sim_x86 fuel p pk sk coins (rho : list Z) : list event :=
  leak (keypair_with (indcpa_keypair_seed_x86 rho no_junk fuel p) no_junk p zeros_memory pk sk coins).
Lemma keypair_simulated_x86 fuel p pk sk coins : forall J m d z, keypair_call (set_of p) m pk sk coins d z ->
  leak (crypto_kem_keypair_derand_x86_64 J fuel p m pk sk coins) = keypair_sim_x86 fuel p pk sk coins (keygen_rho (set_of p) d).
Proof.
  intros J m d z C. pose proof (keypair_call_bytes _ _ _ _ _ _ _ C) as [Bd _].
  pose proof (fun e => keypair_derand_no_ub_x86 J fuel p m pk sk coins d z e C) as N1.
  destruct C as (_ & _ & _ & D1 & L1 & _ & Ap). apply contains_app in D1 as [D1 _]. pose proof (k_range p) as HK.
  assert (Bd' : bytes (d ++ [k (set_of p)])) by (apply Forall_app; split; [exact Bd|repeat constructor; lia]).
  assert (Lr : zlen (keygen_rho (set_of p) d) = 32).
  { unfold keygen_rho, G. cbn [fst]. rewrite zlen_slice; rewrite ?zlen_SHA3_512; auto; lia. }
  assert (Br : bytes (keygen_rho (set_of p) d)).
  { apply rho_bytes_keygen; auto; lia. }
  set (rho := keygen_rho (set_of p) d) in *.
  assert (N2 : safe (keypair_with (indcpa_keypair_seed_x86 rho no_junk fuel p) no_junk p zeros_memory pk sk coins)).
  { intros e E.
    assert (W : wpn True (keypair_with (indcpa_keypair_seed_x86 rho no_junk fuel p) no_junk p zeros_memory pk sk coins) (fun _ => True)).
    { apply (wp_keypair_with True _ _ p zeros_memory pk sk coins (repeat 0 32) (repeat 0 32)
        (fun ek dk => exists sigma, keys_from_seeds (set_of p) (3 + Z.of_nat fuel) rho sigma = Some (ek, dk))); auto.
      - apply zeros_bytes.
      - discriminate.
      - discriminate.
      - apply (zeros_contains coins 64).
      - intros pk0 sk0 X1 X2. apply wp_indcpa_keypair_seed_x86; auto. apply bytes_zeros.
      - intros ek dk [sigma X]. eapply keys_out; eauto. lia. }
    unfold wpn, val in W. rewrite E in W. exact W. }
  unfold keypair_sim_x86. rewrite keypair_derand_with_x86 in *.
  enough (G : same any (keypair_with (indcpa_keypair_derand_x86_64 (sub J 0) fuel p) J p m pk sk coins)
     (keypair_with (indcpa_keypair_seed_x86 rho no_junk fuel p) no_junk p zeros_memory pk sk coins)).
  { exact (proj1 (G N1 N2)). }
  clear N1 N2. unfold keypair_with. do 3 leak_step.
  apply (same_bind_wpl (fun x => x = d)).
  { apply same_mload. } { now apply (wp_mload True m coins d). }
  intros ? x' ->. eapply same_bind'; [now apply l_indcpa_keypair_x86|]. intros [? ?] [? ?] _. leak.
Qed.
Lemma keypair_leak_x86 J fuel p rng m pos fp pk sk : keypair_rand_call (set_of p) m fp pk sk ->
  leak (crypto_kem_keypair_x86_64 J fuel p rng m pos fp pk sk) =
  leak (crypto_kem_keypair_derand_x86_64 (sub J 0) fuel p (mwrite m fp (drawn rng pos 32 ++ drawn rng (pos + 32) 32)) pk sk fp).
Proof.
  intros (_ & _ & _ & _ & V). unfold crypto_kem_keypair_x86_64, MLKEM_SYMBYTES. change (2 * 32) with 64.
  rewrite unused_vacant by (auto; lia). rewrite randombytes_drawn by lia.
  replace (drawn rng pos 64) with (drawn rng pos 32 ++ drawn rng (pos + 32) 32) by (symmetry; apply (drawn_app rng pos 32 32); lia).
  unfold leak, bind.
  destruct (crypto_kem_keypair_derand_x86_64 _ _ _ _ _ _ _) as [[[r m']|r|] t]; cbn; now rewrite ?app_nil_r.
Qed.
Lemma l_keypair_x86 J1 J2 fuel p m1 m2 pk sk coins d1 z1 d2 z2 :
  keypair_call (set_of p) m1 pk sk coins d1 z1 -> keypair_call (set_of p) m2 pk sk coins d2 z2 ->
  keygen_rho (set_of p) d1 = keygen_rho (set_of p) d2 ->
  leak (crypto_kem_keypair_derand_x86_64 J1 fuel p m1 pk sk coins) = leak (crypto_kem_keypair_derand_x86_64 J2 fuel p m2 pk sk coins).
Proof.
  intros C1 C2 E. rewrite (keypair_simulated_x86 fuel p pk sk coins J1 m1 d1 z1 C1).
  rewrite (keypair_simulated_x86 fuel p pk sk coins J2 m2 d2 z2 C2), E. reflexivity.
Qed.
Lemma keypair_rand_simulated_x86 fuel p fp pk sk : forall J rng m pos, keypair_rand_call (set_of p) m fp pk sk ->
  leak (crypto_kem_keypair_x86_64 J fuel p rng m pos fp pk sk) =
  keypair_sim_x86 fuel p pk sk fp (keygen_rho (set_of p) (drawn rng pos 32)).
Proof.
  intros J rng m pos C. rewrite (keypair_leak_x86 J fuel p rng m pos fp pk sk C).
  exact (keypair_simulated_x86 fuel p pk sk fp _ _ _ _ (keypair_call_alloc p rng m pos fp pk sk C)).
Qed.
Lemma enc_rand_simulated_x86 fuel p fp ct ss pk : forall J rng m pos ek, enc_rand_call (set_of p) m fp ct ss pk ek ->
  leak (crypto_kem_enc_x86_64 J fuel p rng m pos fp ct ss pk) = enc_sim_x86 fuel p ct ss pk fp ek.
Proof.
  intros J rng m pos ek C. rewrite (enc_leak_x86 J fuel p rng m pos fp ct ss pk ek C).
  exact (enc_simulated_x86 fuel p ct ss pk fp _ _ _ _ (enc_call_alloc p rng m pos fp ct ss pk ek C)).
Qed.
