(** * When the API functions return, and that larger allowances change nothing *)

From Coq Require Import ZArith List Bool Lia.
From Verif Require Import CSem ModelArith ModelKeccak ModelIndcpa ModelKem Spec202 Spec203 SpecLink SpecMem SpecApi
  CSemFacts ProofScalar ProofRej ProofSponge ProofHash ProofMatrix ProofNoise ProofPke ProofMem ProofKem ProofKeys ProofApi.
Import ListNotations.
Open Scope Z_scope.
Ltac Zify.zify_post_hook ::= idtac.

Lemma SampleNTT_iff b m : (exists a, SampleNTT b m = Some a) <-> 256 <= zlen (accepted (SHAKE128 m (168 * b))).
Proof.
  rewrite SampleNTT_vals. assert (E : zlen (vals m b) = Z.min 256 (zlen (accepted (SHAKE128 m (168 * b))))).
  { unfold vals, zlen. rewrite firstn_length. lia. }
  destruct (Z.eqb_spec (zlen (vals m b)) 256) as [H|H]; split.
  - lia.
  - eauto.
  - intros [a Ha]. discriminate.
  - lia.
Qed.
Lemma seed_bytes P rho i j : bytes rho -> 0 <= k P <= 256 -> 0 <= i < k P -> 0 <= j < k P -> bytes (rho ++ [j; i]).
Proof. intros B Hk Hi Hj. apply Forall_app. split; [exact B|]. repeat constructor; lia. Qed.

Lemma ExpandA_iff P rho b : 0 <= k P ->
  ((exists A, ExpandA P b rho = Some A) <-> blocks_suffice P rho b).
Proof.
  intros Hk. split.
  - intros [A E] i j Hi Hj. apply ExpandA_entry in E as [_ E]; [|lia]. destruct (E i Hi) as [_ Ei].
    apply SampleNTT_iff. eauto.
  - intros H. exists (map (fun i => map (fun j => vals (rho ++ [j; i]) b) (range (k P))) (range (k P))).
    apply (ExpandA_Some P b rho (fun i j => vals (rho ++ [j; i]) b)). intros i j Hi Hj.
    specialize (H i j Hi Hj). apply SampleNTT_iff in H as [a Ha]. rewrite Ha. rewrite SampleNTT_vals in Ha.
    destruct (_ =? _); congruence.
Qed.
Lemma suffice_mono P rho b c : bytes rho -> 0 <= k P <= 256 -> 0 <= b <= c -> blocks_suffice P rho b -> blocks_suffice P rho c.
Proof.
  intros B Hk Hb H. apply ExpandA_iff in H as [A H]; [|lia]. apply ExpandA_iff; [lia|]. exists A.
  eapply ExpandA_mono; eauto.
Qed.
Lemma accepted_mono m b c : bytes m -> 0 <= b <= c -> 256 <= zlen (accepted (SHAKE128 m (168 * b))) ->
  256 <= zlen (accepted (SHAKE128 m (168 * c))).
Proof.
  intros B H E. apply SampleNTT_iff in E as [a E]. apply SampleNTT_iff. exists a. eapply SampleNTT_mono; eauto.
Qed.

(** A bound for each of finitely many monotone conditions gives one for all *)
Lemma common_bound (R : Z -> Z -> Prop) K : 0 <= K ->
  (forall i b c, 0 <= i < K -> 0 <= b <= c -> R i b -> R i c) ->
  (forall i, 0 <= i < K -> exists b, 0 <= b /\ R i b) ->
  exists b, 0 <= b /\ forall i, 0 <= i < K -> R i b.
Proof.
  intros HK. pattern K. apply natlike_ind; [|clear K HK; intros K HK IH|exact HK]; intros M E.
  - exists 0. split; [lia|]. intros i Hi. lia.
  - unfold Z.succ in *. destruct IH as (b & Hb & Hr).
    + intros i b c Hi. apply M. lia.
    + intros i Hi. apply E. lia.
    + destruct (E K ltac:(lia)) as (b' & Hb' & Hr'). exists (Z.max b b'). split; [lia|]. intros i Hi.
      destruct (Z.eq_dec i K) as [->|Hne].
      * apply (M K b'); auto; lia.
      * apply (M i b); [lia|lia|]. apply Hr. lia.
Qed.
Lemma suffice_all P rho : bytes rho -> 0 <= k P <= 256 ->
  ((forall i j, 0 <= i < k P -> 0 <= j < k P -> exists b, 0 <= b /\ 256 <= zlen (accepted (SHAKE128 (rho ++ [j; i]) (168 * b))))
   <-> exists fuel, blocks_suffice P rho (3 + Z.of_nat fuel)).
Proof.
  intros B Hk. split.
  - intros H. assert (H' : forall i, 0 <= i < k P -> exists b, 0 <= b /\ forall j, 0 <= j < k P -> 256 <= zlen (accepted (SHAKE128 (rho ++ [j; i]) (168 * b)))).
    { intros i Hi. apply (common_bound (fun j b => 256 <= zlen (accepted (SHAKE128 (rho ++ [j; i]) (168 * b))))); [lia| |auto].
      intros j b c Hj Hb. apply accepted_mono; auto. now apply (seed_bytes P). }
    apply (common_bound (fun i b => forall j, 0 <= j < k P -> 256 <= zlen (accepted (SHAKE128 (rho ++ [j; i]) (168 * b))))) in H' as (b & Hb & Hr); [|lia|].
    + exists (Z.to_nat b). apply (suffice_mono P rho b); auto; [lia|]. intros i j Hi Hj. now apply Hr.
    + intros i b c Hi Hb HR j Hj. apply (accepted_mono _ b); auto. now apply (seed_bytes P).
  - intros [fuel H] i j Hi Hj. exists (3 + Z.of_nat fuel). split; [lia|]. now apply H.
Qed.

Lemma skipn_skipn' {A} (l : list A) a b : skipn a (skipn b l) = skipn (b + a) l.
Proof. revert l. induction b as [|b IH]; intros l; [reflexivity|]. destruct l; [now rewrite !skipn_nil|]. apply IH. Qed.
Lemma slice_slice {A} (c : list A) x y a b : 0 <= x -> 0 <= a <= b -> x + b <= y ->
  slice (slice c x y) a b = slice c (x + a) (x + b).
Proof.
  intros Hx Ha Hb. unfold slice. rewrite skipn_firstn_comm, firstn_firstn, skipn_skipn'.
  replace (Z.to_nat x + Z.to_nat a)%nat with (Z.to_nat (x + a)) by lia. f_equal. lia.
Qed.

(** ** The algorithms return a result exactly if the matrix can be sampled *)
Lemma keygen_iff P b d z : 0 <= k P ->
  ((exists x, ML_KEM_KeyGen_internal P b d z = Some x) <-> blocks_suffice P (keygen_rho P d) b).
Proof.
  intros Hk. rewrite <- ExpandA_iff by auto. unfold ML_KEM_KeyGen_internal, keygen_rho.
  Transparent K_PKE_KeyGen. unfold K_PKE_KeyGen. Opaque K_PKE_KeyGen.
  destruct (G (d ++ [k P])) as [rho sigma]. cbn [fst]. destruct (ExpandA P b rho) as [A|].
  - split; eauto.
  - split; intros [x Hx]; discriminate.
Qed.
Lemma encaps_iff P b ek msg : 0 <= k P ->
  ((exists x, ML_KEM_Encaps_internal P b ek msg = Some x) <-> blocks_suffice P (ek_rho P ek) b).
Proof.
  intros Hk. rewrite <- ExpandA_iff by auto. unfold ML_KEM_Encaps_internal, ek_rho.
  Transparent K_PKE_Encrypt. unfold K_PKE_Encrypt. Opaque K_PKE_Encrypt.
  destruct (G (msg ++ Spec203.H ek)) as [K r]. cbv zeta.
  destruct (ExpandA P b (slice ek (384 * k P) (384 * k P + 32))) as [A|].
  - split; eauto.
  - split; intros [x Hx]; discriminate.
Qed.
Lemma decaps_iff P b dk c : 0 <= k P ->
  ((exists x, ML_KEM_Decaps_internal P b dk c = Some x) <-> blocks_suffice P (dk_rho P dk) b).
Proof.
  intros Hk. rewrite <- ExpandA_iff by auto. unfold ML_KEM_Decaps_internal, dk_rho. cbv zeta.
  match goal with |- context [G ?x] => destruct (G x) as [K r] end.
  Transparent K_PKE_Encrypt. unfold K_PKE_Encrypt. Opaque K_PKE_Encrypt. cbv zeta.
  rewrite slice_slice; [|lia..]. replace (384 * k P + 384 * k P) with (768 * k P) by lia.
  replace (384 * k P + (384 * k P + 32)) with (768 * k P + 32) by lia.
  destruct (ExpandA P b (slice dk (768 * k P) (768 * k P + 32))) as [A|].
  - split; eauto.
  - split; intros [x Hx]; discriminate.
Qed.

(** ** More blocks change nothing *)
Lemma keygen_mono P b c d z x : bytes d -> 0 <= k P < 256 -> 0 <= b <= c ->
  ML_KEM_KeyGen_internal P b d z = Some x -> ML_KEM_KeyGen_internal P c d z = Some x.
Proof.
  intros Bd Hk Hb. unfold ML_KEM_KeyGen_internal.
  Transparent K_PKE_KeyGen. unfold K_PKE_KeyGen. Opaque K_PKE_KeyGen.
  destruct (G (d ++ [k P])) as [rho sigma] eqn:EG. destruct (ExpandA P b rho) as [A|] eqn:EA; [|discriminate].
  assert (Br : bytes rho).
  { unfold G in EG. injection EG as <- _. apply bytes_slice', bytes_SHA3_512. apply Forall_app; split; [exact Bd|].
    repeat constructor; lia. }
  rewrite (ExpandA_mono P b c rho A Br ltac:(lia) Hb EA). auto.
Qed.
Lemma encrypt_mono P b c ek msg r x : bytes ek -> 0 <= k P < 256 -> 0 <= b <= c ->
  K_PKE_Encrypt P b ek msg r = Some x -> K_PKE_Encrypt P c ek msg r = Some x.
Proof.
  intros Be Hk Hb. Transparent K_PKE_Encrypt. unfold K_PKE_Encrypt. Opaque K_PKE_Encrypt. cbv zeta.
  destruct (ExpandA P b _) as [A|] eqn:EA; [|discriminate].
  rewrite (ExpandA_mono P b c _ A (bytes_slice' _ _ _ Be) ltac:(lia) Hb EA). auto.
Qed.
Lemma encaps_mono P b c ek msg x : bytes ek -> 0 <= k P < 256 -> 0 <= b <= c ->
  ML_KEM_Encaps_internal P b ek msg = Some x -> ML_KEM_Encaps_internal P c ek msg = Some x.
Proof.
  intros Be Hk Hb. unfold ML_KEM_Encaps_internal. destruct (G (msg ++ Spec203.H ek)) as [K r].
  destruct (K_PKE_Encrypt P b ek msg r) as [ct|] eqn:E; [|discriminate]. now rewrite (encrypt_mono P b c _ _ _ _ Be Hk Hb E).
Qed.
Lemma decaps_mono P b c dk ct x : bytes dk -> 0 <= k P < 256 -> 0 <= b <= c ->
  ML_KEM_Decaps_internal P b dk ct = Some x -> ML_KEM_Decaps_internal P c dk ct = Some x.
Proof.
  intros Be Hk Hb. unfold ML_KEM_Decaps_internal. cbv zeta.
  match goal with |- context [G ?x] => destruct (G x) as [K r] end.
  destruct (K_PKE_Encrypt P b _ _ r) as [ct'|] eqn:E; [|discriminate].
  now rewrite (encrypt_mono P b c _ _ _ _ (bytes_slice' _ _ _ Be) Hk Hb E).
Qed.

(** ** API level *)
Lemma k_small p : 0 <= k (set_of p) < 256. Proof. pose proof (k_range p). lia. Qed.


Lemma keypair_derand_returns {bo : byte_order} J fuel p m pk sk coins d z : keypair_call (set_of p) m pk sk coins d z ->
  ((exists r m', val (crypto_kem_keypair_derand J fuel p m pk sk coins) = Ok (r, m')) <->
   blocks_suffice (set_of p) (keygen_rho (set_of p) d) (3 + Z.of_nat fuel)).
Proof.
  intros C. pose proof (k_small p) as Hk. rewrite <- (keygen_iff _ _ _ z) by lia.
  pose proof (keypair_derand_exact J fuel p m pk sk coins d z C) as H.
  destruct (ML_KEM_KeyGen_internal (set_of p) (3 + Z.of_nat fuel) d z) as [[ek dk]|].
  - destruct H as (m' & E & _). split; eauto.
  - rewrite H. split; [intros (r & m' & E)|intros (x & E)]; discriminate.
Qed.
Lemma enc_derand_returns {bo : byte_order} J fuel p m ct ss pk coins ek msg : enc_call (set_of p) m ct ss pk coins ek msg ->
  modulus_check (set_of p) ek ->
  ((exists r m', val (crypto_kem_enc_derand J fuel p m ct ss pk coins) = Ok (r, m')) <->
   blocks_suffice (set_of p) (ek_rho (set_of p) ek) (3 + Z.of_nat fuel)).
Proof.
  intros C HM. pose proof (k_small p) as Hk. rewrite <- (encaps_iff _ _ _ msg) by lia.
  pose proof (enc_derand_exact J fuel p m ct ss pk coins ek msg C HM) as H.
  destruct (ML_KEM_Encaps_internal (set_of p) (3 + Z.of_nat fuel) ek msg) as [[K c]|].
  - destruct H as (m' & E & _). split; eauto.
  - rewrite H. split; [intros (r & m' & E)|intros (x & E)]; discriminate.
Qed.
Lemma dec_returns {bo : byte_order} J fuel p m ss ct sk dk c : dec_call (set_of p) m ss ct sk dk c ->
  hash_check (set_of p) dk ->
  ((exists r m', val (crypto_kem_dec J fuel p m ss ct sk) = Ok (r, m')) <->
   blocks_suffice (set_of p) (dk_rho (set_of p) dk) (3 + Z.of_nat fuel)).
Proof.
  intros C HM. pose proof (k_small p) as Hk. rewrite <- (decaps_iff _ _ _ c) by lia.
  pose proof (dec_exact J fuel p m ss ct sk dk c C HM) as H.
  destruct (ML_KEM_Decaps_internal (set_of p) (3 + Z.of_nat fuel) dk c) as [K|].
  - destruct H as (m' & E & _). split; eauto.
  - rewrite H. split; [intros (r & m' & E)|intros (x & E)]; discriminate.
Qed.
Lemma keypair_returns {bo : byte_order} J fuel p rng m pos fp pk sk : keypair_rand_call (set_of p) m fp pk sk ->
  ((exists r m' pos', val (crypto_kem_keypair J fuel p rng m pos fp pk sk) = Ok (r, m', pos')) <->
   blocks_suffice (set_of p) (keygen_rho (set_of p) (drawn rng pos 32)) (3 + Z.of_nat fuel)).
Proof.
  intros C. pose proof (k_small p) as Hk. rewrite <- (keygen_iff _ _ _ (drawn rng (pos + 32) 32)) by lia.
  pose proof (keypair_exact J fuel p rng m pos fp pk sk C) as H.
  destruct (ML_KEM_KeyGen_internal (set_of p) (3 + Z.of_nat fuel) _ _) as [[ek dk]|].
  - destruct H as (m' & E & _). split; eauto.
  - rewrite H. split; [intros (r & m' & pos' & E)|intros (x & E)]; discriminate.
Qed.
Lemma enc_returns {bo : byte_order} J fuel p rng m pos fp ct ss pk ek : enc_rand_call (set_of p) m fp ct ss pk ek ->
  modulus_check (set_of p) ek ->
  ((exists r m' pos', val (crypto_kem_enc J fuel p rng m pos fp ct ss pk) = Ok (r, m', pos')) <->
   blocks_suffice (set_of p) (ek_rho (set_of p) ek) (3 + Z.of_nat fuel)).
Proof.
  intros C HM. pose proof (k_small p) as Hk. rewrite <- (encaps_iff _ _ _ (drawn rng pos 32)) by lia.
  pose proof (enc_exact J fuel p rng m pos fp ct ss pk ek C HM) as H.
  destruct (ML_KEM_Encaps_internal (set_of p) (3 + Z.of_nat fuel) ek _) as [[K c]|].
  - destruct H as (m' & E & _). split; eauto.
  - rewrite H. split; [intros (r & m' & pos' & E)|intros (x & E)]; discriminate.
Qed.

(** The streams of all entries contain 256 acceptable values *)
Lemma rho_bytes_keygen P d : bytes d -> 0 <= k P < 256 -> bytes (keygen_rho P d).
Proof.
  intros Bd Hk. unfold keygen_rho, G. cbn [fst]. apply bytes_slice', bytes_SHA3_512. apply Forall_app; split; [exact Bd|].
  repeat constructor; lia.
Qed.
Lemma keypair_derand_returns_iff {bo : byte_order} J p m pk sk coins d z : keypair_call (set_of p) m pk sk coins d z ->
  ((exists fuel r m', val (crypto_kem_keypair_derand J fuel p m pk sk coins) = Ok (r, m')) <->
   (forall i j, 0 <= i < k (set_of p) -> 0 <= j < k (set_of p) ->
    exists b, 0 <= b /\ 256 <= zlen (accepted (SHAKE128 (keygen_rho (set_of p) d ++ [j; i]) (168 * b))))).
Proof.
  intros C. pose proof (k_small p) as Hk. destruct (keypair_call_bytes _ _ _ _ _ _ _ C) as [Bd _].
  rewrite suffice_all by (auto using rho_bytes_keygen; lia).
  split; intros [fuel H]; exists fuel; apply (keypair_derand_returns J fuel p m pk sk coins d z C); auto.
Qed.
Lemma enc_derand_returns_iff {bo : byte_order} J p m ct ss pk coins ek msg : enc_call (set_of p) m ct ss pk coins ek msg ->
  modulus_check (set_of p) ek ->
  ((exists fuel r m', val (crypto_kem_enc_derand J fuel p m ct ss pk coins) = Ok (r, m')) <->
   (forall i j, 0 <= i < k (set_of p) -> 0 <= j < k (set_of p) ->
    exists b, 0 <= b /\ 256 <= zlen (accepted (SHAKE128 (ek_rho (set_of p) ek ++ [j; i]) (168 * b))))).
Proof.
  intros C HM. pose proof (k_small p) as Hk. destruct (enc_call_bytes _ _ _ _ _ _ _ _ C) as [Be _].
  rewrite suffice_all by (try apply bytes_slice'; auto; lia).
  split; intros [fuel H]; exists fuel; apply (enc_derand_returns J fuel p m ct ss pk coins ek msg C HM); auto.
Qed.
Lemma dec_returns_iff {bo : byte_order} J p m ss ct sk dk c : dec_call (set_of p) m ss ct sk dk c ->
  hash_check (set_of p) dk ->
  ((exists fuel r m', val (crypto_kem_dec J fuel p m ss ct sk) = Ok (r, m')) <->
   (forall i j, 0 <= i < k (set_of p) -> 0 <= j < k (set_of p) ->
    exists b, 0 <= b /\ 256 <= zlen (accepted (SHAKE128 (dk_rho (set_of p) dk ++ [j; i]) (168 * b))))).
Proof.
  intros C HM. pose proof (k_small p) as Hk. destruct (dec_call_bytes _ _ _ _ _ _ _ C) as [Bd _].
  rewrite suffice_all by (try apply bytes_slice'; auto; lia).
  split; intros [fuel H]; exists fuel; apply (dec_returns J fuel p m ss ct sk dk c C HM); auto.
Qed.

(** ** C11: the results are determined by the inputs *)
Lemma contains_same_bytes m1 a1 m2 a2 l n : contains m1 a1 l -> contains m2 a2 l -> zlen l = n -> same_bytes m1 a1 m2 a2 n.
Proof. intros H1 H2 <- i Hi. now rewrite H1, H2. Qed.

Lemma some_eq {A} (f : Z -> option A) b1 b2 x1 x2 : (forall b c x, 0 <= b <= c -> f b = Some x -> f c = Some x) ->
  0 <= b1 -> 0 <= b2 -> f b1 = Some x1 -> f b2 = Some x2 -> x1 = x2.
Proof.
  intros M H1 H2 E1 E2. destruct (Z_le_gt_dec b1 b2).
  - rewrite (M b1 b2 x1 ltac:(lia) E1) in E2. congruence.
  - rewrite (M b2 b1 x2 ltac:(lia) E2) in E1. congruence.
Qed.

Lemma keypair_derand_same {bo : byte_order} J1 J2 fuel1 fuel2 p m1 m2 pk1 pk2 sk1 sk2 coins1 coins2 d z r1 r2 m1' m2' :
  keypair_call (set_of p) m1 pk1 sk1 coins1 d z -> keypair_call (set_of p) m2 pk2 sk2 coins2 d z ->
  val (crypto_kem_keypair_derand J1 fuel1 p m1 pk1 sk1 coins1) = Ok (r1, m1') ->
  val (crypto_kem_keypair_derand J2 fuel2 p m2 pk2 sk2 coins2) = Ok (r2, m2') ->
  r1 = r2 /\ same_bytes m1' pk1 m2' pk2 (ek_size (set_of p)) /\ same_bytes m1' sk1 m2' sk2 (dk_size (set_of p)).
Proof.
  intros C1 C2 E1 E2. destruct (keypair_call_bytes _ _ _ _ _ _ _ C1) as [Bd _]. pose proof (k_small p) as Hk.
  destruct (keypair_written _ _ _ _ _ _ _ _ _ _ _ C1 E1) as (-> & ek1 & dkp1 & G1 & P1 & S1 & L1 & _ & _ & _ & _ & _ & _ & _ & L1').
  destruct (keypair_written _ _ _ _ _ _ _ _ _ _ _ C2 E2) as (-> & ek2 & dkp2 & G2 & P2 & S2 & L2 & _ & _ & _ & _ & _ & _ & _ & L2').
  split; [reflexivity|].
  pose proof (some_eq (fun b => ML_KEM_KeyGen_internal (set_of p) b d z) (3 + Z.of_nat fuel1) (3 + Z.of_nat fuel2) _ _
    (fun b c x H => keygen_mono _ b c d z x Bd Hk H) ltac:(lia) ltac:(lia) G1 G2) as E.
  assert (Ek : ek1 = ek2) by congruence.
  assert (Ed : dkp1 ++ ek1 ++ Spec203.H ek1 ++ z = dkp2 ++ ek2 ++ Spec203.H ek2 ++ z) by congruence.
  split; eapply contains_same_bytes; eauto; [now rewrite Ek|now rewrite Ed].
Qed.

Lemma enc_derand_same {bo : byte_order} J1 J2 fuel1 fuel2 p m1 m2 ct1 ct2 ss1 ss2 pk1 pk2 coins1 coins2 ek msg r1 r2 m1' m2' :
  enc_call (set_of p) m1 ct1 ss1 pk1 coins1 ek msg -> enc_call (set_of p) m2 ct2 ss2 pk2 coins2 ek msg ->
  val (crypto_kem_enc_derand J1 fuel1 p m1 ct1 ss1 pk1 coins1) = Ok (r1, m1') ->
  val (crypto_kem_enc_derand J2 fuel2 p m2 ct2 ss2 pk2 coins2) = Ok (r2, m2') ->
  r1 = r2 /\ (r1 = 0 -> same_bytes m1' ct1 m2' ct2 (ct_size (set_of p)) /\ same_bytes m1' ss1 m2' ss2 32).
Proof.
  intros C1 C2 E1 E2. destruct (enc_call_bytes _ _ _ _ _ _ _ _ C1) as [Be Bm]. pose proof (k_small p) as Hk.
  destruct (modulus_check_dec (set_of p) ek) as [HM|HM].
  - pose proof (enc_derand_exact J1 fuel1 p m1 ct1 ss1 pk1 coins1 ek msg C1 HM) as H1.
    pose proof (enc_derand_exact J2 fuel2 p m2 ct2 ss2 pk2 coins2 ek msg C2 HM) as H2.
    destruct (ML_KEM_Encaps_internal (set_of p) (3 + Z.of_nat fuel1) ek msg) as [[K1 c1]|] eqn:G1; [|rewrite E1 in H1; discriminate].
    destruct (ML_KEM_Encaps_internal (set_of p) (3 + Z.of_nat fuel2) ek msg) as [[K2 c2]|] eqn:G2; [|rewrite E2 in H2; discriminate].
    pose proof (some_eq (fun b => ML_KEM_Encaps_internal (set_of p) b ek msg) (3 + Z.of_nat fuel1) (3 + Z.of_nat fuel2) _ _
      (fun b c x H => encaps_mono _ b c ek msg x Be Hk H) ltac:(lia) ltac:(lia) G1 G2) as E.
    injection E as <- <-.
    destruct H1 as (m1'' & E1' & H1). destruct H2 as (m2'' & E2' & H2). rewrite E1 in E1'. rewrite E2 in E2'.
    injection E1' as -> <-. injection E2' as -> <-. split; [reflexivity|intros _].
    apply encaps_out in G1 as (L1 & _ & L2 & _); auto; [|apply C1|apply C1|lia].
    assert (A1 : apart (ct1, zlen c1) (ss1, zlen K1)).
    { rewrite L1, L2. destruct C1 as (_ & _ & _ & _ & _ & _ & _ & Ap). now apply all_apart4 in Ap as (? & _). }
    assert (A2 : apart (ct2, zlen c1) (ss2, zlen K1)).
    { rewrite L1, L2. destruct C2 as (_ & _ & _ & _ & _ & _ & _ & Ap). now apply all_apart4 in Ap as (? & _). }
    split.
    + eapply contains_same_bytes; [apply (stored_first _ _ _ _ _ H1)|apply (stored_first _ _ _ _ _ H2)|exact L2].
    + eapply contains_same_bytes; [apply (stored_second _ _ _ _ _ _ _ A1 H1)|apply (stored_second _ _ _ _ _ _ _ A2 H2)|exact L1].
  - rewrite (enc_derand_reject J1 fuel1 p m1 ct1 ss1 pk1 coins1 ek msg C1 HM) in E1.
    rewrite (enc_derand_reject J2 fuel2 p m2 ct2 ss2 pk2 coins2 ek msg C2 HM) in E2. injection E1 as <- _. injection E2 as <- _.
    split; [reflexivity|lia].
Qed.

Lemma dec_same {bo : byte_order} J1 J2 fuel1 fuel2 p m1 m2 ss1 ss2 ct1 ct2 sk1 sk2 dk c r1 r2 m1' m2' :
  dec_call (set_of p) m1 ss1 ct1 sk1 dk c -> dec_call (set_of p) m2 ss2 ct2 sk2 dk c ->
  val (crypto_kem_dec J1 fuel1 p m1 ss1 ct1 sk1) = Ok (r1, m1') ->
  val (crypto_kem_dec J2 fuel2 p m2 ss2 ct2 sk2) = Ok (r2, m2') ->
  r1 = r2 /\ (r1 = 0 -> same_bytes m1' ss1 m2' ss2 32).
Proof.
  intros C1 C2 E1 E2. destruct (dec_call_bytes _ _ _ _ _ _ _ C1) as [Bd Bc]. pose proof (k_small p) as Hk.
  destruct (hash_check_dec (set_of p) dk) as [HM|HM].
  - pose proof (dec_exact J1 fuel1 p m1 ss1 ct1 sk1 dk c C1 HM) as H1.
    pose proof (dec_exact J2 fuel2 p m2 ss2 ct2 sk2 dk c C2 HM) as H2.
    destruct (ML_KEM_Decaps_internal (set_of p) (3 + Z.of_nat fuel1) dk c) as [K1|] eqn:G1; [|rewrite E1 in H1; discriminate].
    destruct (ML_KEM_Decaps_internal (set_of p) (3 + Z.of_nat fuel2) dk c) as [K2|] eqn:G2; [|rewrite E2 in H2; discriminate].
    pose proof (some_eq (fun b => ML_KEM_Decaps_internal (set_of p) b dk c) (3 + Z.of_nat fuel1) (3 + Z.of_nat fuel2) _ _
      (fun b c' x H => decaps_mono _ b c' dk c x Bd Hk H) ltac:(lia) ltac:(lia) G1 G2) as E. subst K2.
    destruct H1 as (m1'' & E1' & H1). destruct H2 as (m2'' & E2' & H2). rewrite E1 in E1'. rewrite E2 in E2'.
    injection E1' as -> <-. injection E2' as -> <-. split; [reflexivity|intros _].
    apply decaps_out in G1 as (L1 & _); auto; [|lia].
    eapply contains_same_bytes; [apply (stored_first _ _ _ _ _ H1)|apply (stored_first _ _ _ _ _ H2)|exact L1].
  - rewrite (dec_reject J1 fuel1 p m1 ss1 ct1 sk1 dk c C1 HM) in E1.
    rewrite (dec_reject J2 fuel2 p m2 ss2 ct2 sk2 dk c C2 HM) in E2. injection E1 as <- _. injection E2 as <- _.
    split; [reflexivity|lia].
Qed.

(** ** C34: a larger allowance gives the same result *)
Lemma keypair_derand_more {bo : byte_order} J1 J2 fuel1 fuel2 p m pk sk coins d z r m1 : (fuel1 <= fuel2)%nat ->
  keypair_call (set_of p) m pk sk coins d z ->
  val (crypto_kem_keypair_derand J1 fuel1 p m pk sk coins) = Ok (r, m1) ->
  exists m2, val (crypto_kem_keypair_derand J2 fuel2 p m pk sk coins) = Ok (r, m2) /\ forall x, m2 x = m1 x.
Proof.
  intros Hf C E. destruct (keypair_call_bytes _ _ _ _ _ _ _ C) as [Bd _]. pose proof (k_small p) as Hk.
  pose proof (keypair_derand_exact J1 fuel1 p m pk sk coins d z C) as H1.
  pose proof (keypair_derand_exact J2 fuel2 p m pk sk coins d z C) as H2.
  destruct (ML_KEM_KeyGen_internal (set_of p) (3 + Z.of_nat fuel1) d z) as [[ek dk]|] eqn:G1; [|rewrite E in H1; discriminate].
  rewrite (keygen_mono _ (3 + Z.of_nat fuel1) (3 + Z.of_nat fuel2) _ _ _ Bd Hk ltac:(lia) G1) in H2.
  destruct H1 as (m1' & E1 & H1). destruct H2 as (m2 & E2 & H2). rewrite E in E1. injection E1 as -> <-.
  exists m2. split; [exact E2|]. intros x. now rewrite H1, H2.
Qed.
Lemma enc_derand_more {bo : byte_order} J1 J2 fuel1 fuel2 p m ct ss pk coins ek msg r m1 : (fuel1 <= fuel2)%nat ->
  enc_call (set_of p) m ct ss pk coins ek msg ->
  val (crypto_kem_enc_derand J1 fuel1 p m ct ss pk coins) = Ok (r, m1) ->
  exists m2, val (crypto_kem_enc_derand J2 fuel2 p m ct ss pk coins) = Ok (r, m2) /\ forall x, m2 x = m1 x.
Proof.
  intros Hf C E. destruct (enc_call_bytes _ _ _ _ _ _ _ _ C) as [Be _]. pose proof (k_small p) as Hk.
  destruct (modulus_check_dec (set_of p) ek) as [HM|HM].
  - pose proof (enc_derand_exact J1 fuel1 p m ct ss pk coins ek msg C HM) as H1.
    pose proof (enc_derand_exact J2 fuel2 p m ct ss pk coins ek msg C HM) as H2.
    destruct (ML_KEM_Encaps_internal (set_of p) (3 + Z.of_nat fuel1) ek msg) as [[K c]|] eqn:G1; [|rewrite E in H1; discriminate].
    rewrite (encaps_mono _ (3 + Z.of_nat fuel1) (3 + Z.of_nat fuel2) _ _ _ Be Hk ltac:(lia) G1) in H2.
    destruct H1 as (m1' & E1 & H1). destruct H2 as (m2 & E2 & H2). rewrite E in E1. injection E1 as -> <-.
    exists m2. split; [exact E2|]. intros x. now rewrite H1, H2.
  - rewrite (enc_derand_reject J1 fuel1 p m ct ss pk coins ek msg C HM) in E. injection E as <- <-.
    exists m. split; [now apply (enc_derand_reject J2 fuel2 p m ct ss pk coins ek msg)|auto].
Qed.
Lemma dec_more {bo : byte_order} J1 J2 fuel1 fuel2 p m ss ct sk dk c r m1 : (fuel1 <= fuel2)%nat ->
  dec_call (set_of p) m ss ct sk dk c ->
  val (crypto_kem_dec J1 fuel1 p m ss ct sk) = Ok (r, m1) ->
  exists m2, val (crypto_kem_dec J2 fuel2 p m ss ct sk) = Ok (r, m2) /\ forall x, m2 x = m1 x.
Proof.
  intros Hf C E. destruct (dec_call_bytes _ _ _ _ _ _ _ C) as [Bd _]. pose proof (k_small p) as Hk.
  destruct (hash_check_dec (set_of p) dk) as [HM|HM].
  - pose proof (dec_exact J1 fuel1 p m ss ct sk dk c C HM) as H1.
    pose proof (dec_exact J2 fuel2 p m ss ct sk dk c C HM) as H2.
    destruct (ML_KEM_Decaps_internal (set_of p) (3 + Z.of_nat fuel1) dk c) as [K|] eqn:G1; [|rewrite E in H1; discriminate].
    rewrite (decaps_mono _ (3 + Z.of_nat fuel1) (3 + Z.of_nat fuel2) _ _ _ Bd Hk ltac:(lia) G1) in H2.
    destruct H1 as (m1' & E1 & H1). destruct H2 as (m2 & E2 & H2). rewrite E in E1. injection E1 as -> <-.
    exists m2. split; [exact E2|]. intros x. now rewrite H1, H2.
  - rewrite (dec_reject J1 fuel1 p m ss ct sk dk c C HM) in E. injection E as <- <-.
    exists m. split; [now apply (dec_reject J2 fuel2 p m ss ct sk dk c)|auto].
Qed.
Lemma larger_allowance {bo : byte_order} J1 J2 fuel1 fuel2 p : (fuel1 <= fuel2)%nat ->
  (forall m pk sk coins d z r m1, keypair_call (set_of p) m pk sk coins d z ->
     val (crypto_kem_keypair_derand J1 fuel1 p m pk sk coins) = Ok (r, m1) ->
     exists m2, val (crypto_kem_keypair_derand J2 fuel2 p m pk sk coins) = Ok (r, m2) /\ forall x, m2 x = m1 x) /\
  (forall m ct ss pk coins ek msg r m1, enc_call (set_of p) m ct ss pk coins ek msg ->
     val (crypto_kem_enc_derand J1 fuel1 p m ct ss pk coins) = Ok (r, m1) ->
     exists m2, val (crypto_kem_enc_derand J2 fuel2 p m ct ss pk coins) = Ok (r, m2) /\ forall x, m2 x = m1 x) /\
  (forall m ss ct sk dk c r m1, dec_call (set_of p) m ss ct sk dk c ->
     val (crypto_kem_dec J1 fuel1 p m ss ct sk) = Ok (r, m1) ->
     exists m2, val (crypto_kem_dec J2 fuel2 p m ss ct sk) = Ok (r, m2) /\ forall x, m2 x = m1 x).
Proof.
  intros Hf. split; [|split]; intros.
  - eapply keypair_derand_more; eauto.
  - eapply enc_derand_more; eauto.
  - eapply dec_more; eauto.
Qed.

Lemma both_return {bo : byte_order} J1 J2 fuel p :
  (forall m1 m2 pk1 pk2 sk1 sk2 coins1 coins2 d z,
     keypair_call (set_of p) m1 pk1 sk1 coins1 d z -> keypair_call (set_of p) m2 pk2 sk2 coins2 d z ->
     val (crypto_kem_keypair_derand J1 fuel p m1 pk1 sk1 coins1) = NoFuel ->
     val (crypto_kem_keypair_derand J2 fuel p m2 pk2 sk2 coins2) = NoFuel) /\
  (forall m1 m2 ct1 ct2 ss1 ss2 pk1 pk2 coins1 coins2 ek msg,
     enc_call (set_of p) m1 ct1 ss1 pk1 coins1 ek msg -> enc_call (set_of p) m2 ct2 ss2 pk2 coins2 ek msg ->
     val (crypto_kem_enc_derand J1 fuel p m1 ct1 ss1 pk1 coins1) = NoFuel ->
     val (crypto_kem_enc_derand J2 fuel p m2 ct2 ss2 pk2 coins2) = NoFuel) /\
  (forall m1 m2 ss1 ss2 ct1 ct2 sk1 sk2 dk c,
     dec_call (set_of p) m1 ss1 ct1 sk1 dk c -> dec_call (set_of p) m2 ss2 ct2 sk2 dk c ->
     val (crypto_kem_dec J1 fuel p m1 ss1 ct1 sk1) = NoFuel ->
     val (crypto_kem_dec J2 fuel p m2 ss2 ct2 sk2) = NoFuel).
Proof.
  split; [|split].
  - intros m1 m2 pk1 pk2 sk1 sk2 coins1 coins2 d z C1 C2 E.
    pose proof (keypair_derand_exact J1 fuel p _ _ _ _ _ _ C1) as H1. pose proof (keypair_derand_exact J2 fuel p _ _ _ _ _ _ C2) as H2.
    destruct (ML_KEM_KeyGen_internal _ _ _ _) as [[ek dk]|]; [|exact H2].
    destruct H1 as (m' & E' & _). rewrite E in E'. discriminate.
  - intros m1 m2 ct1 ct2 ss1 ss2 pk1 pk2 coins1 coins2 ek msg C1 C2 E.
    destruct (modulus_check_dec (set_of p) ek) as [HM|HM].
    2: { rewrite (enc_derand_reject J1 fuel p _ _ _ _ _ _ _ C1 HM) in E. discriminate. }
    pose proof (enc_derand_exact J1 fuel p _ _ _ _ _ _ _ C1 HM) as H1. pose proof (enc_derand_exact J2 fuel p _ _ _ _ _ _ _ C2 HM) as H2.
    destruct (ML_KEM_Encaps_internal _ _ _ _) as [[K c]|]; [|exact H2].
    destruct H1 as (m' & E' & _). rewrite E in E'. discriminate.
  - intros m1 m2 ss1 ss2 ct1 ct2 sk1 sk2 dk c C1 C2 E.
    destruct (hash_check_dec (set_of p) dk) as [HM|HM].
    2: { rewrite (dec_reject J1 fuel p _ _ _ _ _ _ C1 HM) in E. discriminate. }
    pose proof (dec_exact J1 fuel p _ _ _ _ _ _ C1 HM) as H1. pose proof (dec_exact J2 fuel p _ _ _ _ _ _ C2 HM) as H2.
    destruct (ML_KEM_Decaps_internal _ _ _ _) as [K|]; [|exact H2].
    destruct H1 as (m' & E' & _). rewrite E in E'. discriminate.
Qed.

(** ** C12: the randomised functions against the derandomised ones *)
Lemma keypair_is_derand {bo : byte_order} J J2 fuel p rng m pos fp pk sk m2 pk2 sk2 coins2 r m2' :
  keypair_rand_call (set_of p) m fp pk sk ->
  keypair_call (set_of p) m2 pk2 sk2 coins2 (drawn rng pos 32) (drawn rng (pos + 32) 32) ->
  val (crypto_kem_keypair_derand J2 fuel p m2 pk2 sk2 coins2) = Ok (r, m2') ->
  exists m', val (crypto_kem_keypair J fuel p rng m pos fp pk sk) = Ok (r, m', pos + 64) /\
    same_bytes m' pk m2' pk2 (ek_size (set_of p)) /\ same_bytes m' sk m2' sk2 (dk_size (set_of p)).
Proof.
  intros C1 C2 E. pose proof (keypair_exact J fuel p rng m pos fp pk sk C1) as H1.
  destruct (keypair_written _ _ _ _ _ _ _ _ _ _ _ C2 E) as (-> & ek & dkp & G & P2 & S2 & L1 & _ & _ & _ & _ & _ & _ & _ & L2).
  rewrite G in H1. destruct H1 as (m' & E' & Hm). exists m'. split; [exact E'|]. split.
  - eapply contains_same_bytes; [apply (stored_first _ _ _ _ _ Hm)|exact P2|exact L1].
  - eapply contains_same_bytes; [|exact S2|exact L2]. eapply stored_second; [|exact Hm]. rewrite L1, L2.
    destruct C1 as (_ & _ & _ & Ap & _). inversion_clear Ap as [|? ? F1 F2]. now apply Forall_cons_iff in F1 as [F1 _].
Qed.
Lemma enc_is_derand {bo : byte_order} J J2 fuel p rng m pos fp ct ss pk ek m2 ct2 ss2 pk2 coins2 r m2' :
  enc_rand_call (set_of p) m fp ct ss pk ek ->
  enc_call (set_of p) m2 ct2 ss2 pk2 coins2 ek (drawn rng pos 32) ->
  val (crypto_kem_enc_derand J2 fuel p m2 ct2 ss2 pk2 coins2) = Ok (r, m2') ->
  exists m', val (crypto_kem_enc J fuel p rng m pos fp ct ss pk) = Ok (r, m', pos + 32) /\
    (r = 0 -> same_bytes m' ct m2' ct2 (ct_size (set_of p)) /\ same_bytes m' ss m2' ss2 32).
Proof.
  intros C1 C2 E. destruct (enc_call_bytes _ _ _ _ _ _ _ _ C2) as [Be Bm].
  destruct (modulus_check_dec (set_of p) ek) as [HM|HM].
  - pose proof (enc_exact J fuel p rng m pos fp ct ss pk ek C1 HM) as H1.
    pose proof (enc_derand_exact J2 fuel p _ _ _ _ _ _ _ C2 HM) as H2.
    destruct (ML_KEM_Encaps_internal (set_of p) (3 + Z.of_nat fuel) ek (drawn rng pos 32)) as [[K c]|] eqn:G; [|rewrite E in H2; discriminate].
    destruct H2 as (m2'' & E2 & H2). rewrite E in E2. injection E2 as -> <-.
    destruct H1 as (m' & E1 & H1). exists m'. split; [exact E1|intros _].
    destruct (encaps_out p (3 + Z.of_nat fuel) ek _ K c Be Bm (proj1 (proj2 (proj2 (proj2 (proj2 C2))))) (proj1 (proj2 (proj2 (proj2 (proj2 (proj2 (proj2 C2))))))) ltac:(lia) G) as (L1 & _ & L2 & _). split.
    + eapply contains_same_bytes; [apply (stored_first _ _ _ _ _ H1)|apply (stored_first _ _ _ _ _ H2)|exact L2].
    + eapply contains_same_bytes; [eapply stored_second; [|exact H1]|eapply stored_second; [|exact H2]|exact L1]; rewrite L1, L2.
      * destruct C1 as (_ & _ & _ & _ & _ & Ap & _). now apply all_apart3 in Ap as (? & _).
      * destruct C2 as (_ & _ & _ & _ & _ & _ & _ & Ap). now apply all_apart4 in Ap as (? & _).
  - rewrite (enc_derand_reject J2 fuel p _ _ _ _ _ _ _ C2 HM) in E. injection E as <- _.
    destruct (enc_reject J fuel p rng m pos fp ct ss pk ek C1 HM) as (m' & E1 & _). exists m'. split; [exact E1|lia].
Qed.
