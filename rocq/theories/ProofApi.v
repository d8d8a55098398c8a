(** * The API functions: exact outcomes, and what follows from them *)

From Coq Require Import ZArith List Bool Lia.
From Verif Require Import CSem ModelArith ModelKeccak ModelIndcpa ModelKem Spec202 Spec203 SpecLink SpecMem SpecApi
  CSemFacts ProofScalar ProofBits ProofChunk ProofPack ProofCbd ProofRej ProofSponge ProofHash ProofNttSpec
  ProofRing ProofNtt ProofMul ProofMatrix ProofNoise ProofPke ProofMem ProofKem ProofKeys.
Import ListNotations.
Open Scope Z_scope.
Ltac Zify.zify_post_hook ::= idtac.

(** From a triple to the outcome *)
Lemma exact1 (c : M (Z * mem)) {A} (o : option A) (R : A -> Z * mem -> Prop) :
  wpn (o = None) c (fun y => exists a, o = Some a /\ R a y) ->
  match o with Some a => exists y, val c = Ok y /\ R a y | None => val c = NoFuel end.
Proof.
  unfold wpn. destruct (val c) as [y| |].
  - intros (a & -> & Ha). eauto.
  - intros [].
  - intros ->. reflexivity.
Qed.

(** ** C01, C02, C04: exact outcomes *)

Lemma keypair_derand_exact {bo : byte_order} J fuel p m pk sk coins d z : keypair_call (set_of p) m pk sk coins d z ->
  match ML_KEM_KeyGen_internal (set_of p) (3 + Z.of_nat fuel) d z with
  | Some (ek, dk) => finished (val (crypto_kem_keypair_derand J fuel p m pk sk coins)) m 0 [(pk, ek); (sk, dk)]
  | None => val (crypto_kem_keypair_derand J fuel p m pk sk coins) = NoFuel
  end.
Proof.
  intros (Bm & A1 & A2 & C & L1 & L2 & Ap).
  pose proof (exact1 (crypto_kem_keypair_derand J fuel p m pk sk coins)
    (ML_KEM_KeyGen_internal (set_of p) (3 + Z.of_nat fuel) d z)
    (fun '(ek, dk) '(r, m') => r = 0 /\ forall x, m' x = overwrite m [(pk, ek); (sk, dk)] x)) as H.
  destruct (ML_KEM_KeyGen_internal (set_of p) (3 + Z.of_nat fuel) d z) as [[ek dk]|] eqn:E.
  - destruct H as ([r m'] & H1 & -> & H2); [|exists m'; auto].
    apply (wp_keypair_derand _ J fuel p m pk sk coins d z); auto; try (rewrite E; discriminate).
    intros ek' dk' m' E' Hm'. rewrite E in E'. injection E' as <- <-. exists (ek, dk). auto.
  - apply H. apply (wp_keypair_derand _ J fuel p m pk sk coins d z); auto.
    intros ek' dk' m' E' Hm'. rewrite E in E'. discriminate.
Qed.

Lemma enc_derand_exact {bo : byte_order} J fuel p m ct ss pk coins ek msg : enc_call (set_of p) m ct ss pk coins ek msg ->
  modulus_check (set_of p) ek ->
  match ML_KEM_Encaps_internal (set_of p) (3 + Z.of_nat fuel) ek msg with
  | Some (K, c) => finished (val (crypto_kem_enc_derand J fuel p m ct ss pk coins)) m 0 [(ct, c); (ss, K)]
  | None => val (crypto_kem_enc_derand J fuel p m ct ss pk coins) = NoFuel
  end.
Proof.
  intros (Bm & A1 & A2 & C1 & L1 & C2 & L2 & Ap) HM.
  pose proof (exact1 (crypto_kem_enc_derand J fuel p m ct ss pk coins)
    (ML_KEM_Encaps_internal (set_of p) (3 + Z.of_nat fuel) ek msg)
    (fun '(K, c) '(r, m') => r = 0 /\ forall x, m' x = overwrite m [(ct, c); (ss, K)] x)) as H.
  destruct (ML_KEM_Encaps_internal (set_of p) (3 + Z.of_nat fuel) ek msg) as [[K c]|] eqn:E.
  - destruct H as ([r m'] & H1 & -> & H2); [|exists m'; auto].
    apply (wp_enc_derand _ J fuel p m ct ss pk coins ek msg); auto; try (rewrite E; discriminate).
    + intros HM'. tauto.
    + intros K' c' m' _ E' Hm'. rewrite E in E'. injection E' as <- <-. exists (K, c). auto.
  - apply H. apply (wp_enc_derand _ J fuel p m ct ss pk coins ek msg); auto.
    + intros HM'. tauto.
    + intros K' c' m' _ E' Hm'. rewrite E in E'. discriminate.
Qed.
Lemma enc_derand_reject {bo : byte_order} J fuel p m ct ss pk coins ek msg : enc_call (set_of p) m ct ss pk coins ek msg ->
  ~ modulus_check (set_of p) ek ->
  val (crypto_kem_enc_derand J fuel p m ct ss pk coins) = Ok (-1, m).
Proof.
  intros (Bm & A1 & A2 & C1 & L1 & C2 & L2 & Ap) HM. apply wp_val.
  apply (wp_enc_derand _ J fuel p m ct ss pk coins ek msg); auto; intros; tauto.
Qed.

Lemma dec_exact {bo : byte_order} J fuel p m ss ct sk dk c : dec_call (set_of p) m ss ct sk dk c ->
  hash_check (set_of p) dk ->
  match ML_KEM_Decaps_internal (set_of p) (3 + Z.of_nat fuel) dk c with
  | Some K => finished (val (crypto_kem_dec J fuel p m ss ct sk)) m 0 [(ss, K)]
  | None => val (crypto_kem_dec J fuel p m ss ct sk) = NoFuel
  end.
Proof.
  intros (Bm & A1 & C1 & L1 & C2 & L2 & Ap) HM.
  pose proof (exact1 (crypto_kem_dec J fuel p m ss ct sk)
    (ML_KEM_Decaps_internal (set_of p) (3 + Z.of_nat fuel) dk c)
    (fun K '(r, m') => r = 0 /\ forall x, m' x = overwrite m [(ss, K)] x)) as H.
  destruct (ML_KEM_Decaps_internal (set_of p) (3 + Z.of_nat fuel) dk c) as [K|] eqn:E.
  - destruct H as ([r m'] & H1 & -> & H2); [|exists m'; auto].
    apply (wp_dec _ J fuel p m ss ct sk dk c); auto; try (rewrite E; discriminate).
    + intros HM'. tauto.
    + intros K' m' _ E' Hm'. rewrite E in E'. injection E' as <-. exists K. auto.
  - apply H. apply (wp_dec _ J fuel p m ss ct sk dk c); auto.
    + intros HM'. tauto.
    + intros K' m' _ E' Hm'. rewrite E in E'. discriminate.
Qed.
Lemma dec_reject {bo : byte_order} J fuel p m ss ct sk dk c : dec_call (set_of p) m ss ct sk dk c ->
  ~ hash_check (set_of p) dk ->
  val (crypto_kem_dec J fuel p m ss ct sk) = Ok (-1, m).
Proof.
  intros (Bm & A1 & C1 & L1 & C2 & L2 & Ap) HM. apply wp_val.
  apply (wp_dec _ J fuel p m ss ct sk dk c); auto; intros; tauto.
Qed.
Lemma hash_check_dec P dk : {hash_check P dk} + {~ hash_check P dk}.
Proof. apply (list_eq_dec Z.eq_dec). Qed.
Lemma modulus_check_dec P ek : {modulus_check P ek} + {~ modulus_check P ek}.
Proof. apply (list_eq_dec Z.eq_dec). Qed.

(** ** Sizes of the results *)
Lemma encaps_out p b ek msg K c : bytes ek -> bytes msg -> zlen ek = ek_size (set_of p) -> zlen msg = 32 -> 0 <= b ->
  ML_KEM_Encaps_internal (set_of p) b ek msg = Some (K, c) ->
  zlen K = 32 /\ bytes K /\ zlen c = ct_size (set_of p) /\ bytes c.
Proof.
  intros Be Bm Le Lm Hb E. unfold ML_KEM_Encaps_internal, G in E.
  assert (B : bytes (msg ++ Spec203.H ek)) by (apply Forall_app; split; [exact Bm|now apply bytes_SHA3_256]).
  set (g := SHA3_512 (msg ++ Spec203.H ek)) in *.
  assert (Lg : zlen g = 64) by now apply zlen_SHA3_512. assert (Bg : bytes g) by now apply bytes_SHA3_512.
  destruct (K_PKE_Encrypt _ _ _ _ _) as [c'|] eqn:EE; [|discriminate]. injection E as <- <-.
  apply encrypt_out in EE as [L' B']; auto.
  split; [rewrite zlen_slice; lia|split; [now apply bytes_slice'|auto]].
Qed.
Lemma decaps_out p b dk c K : bytes dk -> bytes c -> 0 <= b ->
  ML_KEM_Decaps_internal (set_of p) b dk c = Some K -> zlen K = 32 /\ bytes K.
Proof.
  intros Bd Bc Hb E. unfold ML_KEM_Decaps_internal, G in E. cbv zeta in E.
  match type of E with context [SHA3_512 ?x] => assert (B : bytes x) end.
  { apply Forall_app; split; [apply decrypt_out|now apply bytes_slice']. }
  match type of E with context [SHA3_512 ?x] => set (g := SHA3_512 x) in * end.
  assert (Lg : zlen g = 64) by now apply zlen_SHA3_512. assert (Bg : bytes g) by now apply bytes_SHA3_512.
  destruct (K_PKE_Encrypt _ _ _ _ _) as [c'|] eqn:EE; [|discriminate]. injection E as <-.
  destruct (list_eq_dec _ _ _).
  - split; [rewrite zlen_slice; lia|now apply bytes_slice'].
  - split; [apply zlen_SHAKE256|apply bytes_SHAKE256]; try lia; apply Forall_app; split; auto; now apply bytes_slice'.
Qed.

(** ** Calls hold bytes *)
Lemma keypair_call_bytes P m pk sk coins d z : keypair_call P m pk sk coins d z -> bytes d /\ bytes z.
Proof.
  intros (Bm & A1 & A2 & C & _). pose proof (contains_bytes _ _ _ Bm C) as B. now apply Forall_app in B.
Qed.
Lemma enc_call_bytes P m ct ss pk coins ek msg : enc_call P m ct ss pk coins ek msg -> bytes ek /\ bytes msg.
Proof.
  intros (Bm & A1 & A2 & C1 & L1 & C2 & _). split; eapply contains_bytes; eauto.
Qed.
Lemma dec_call_bytes P m ss ct sk dk c : dec_call P m ss ct sk dk c -> bytes dk /\ bytes c.
Proof.
  intros (Bm & A1 & C1 & L1 & C2 & _). split; eapply contains_bytes; eauto.
Qed.

(** ** What is stored after a run *)
Lemma stored_first m m' a l outs : (forall x, m' x = overwrite m ((a, l) :: outs) x) -> contains m' a l.
Proof.
  intros H i Hi. rewrite H. cbn [overwrite].
  replace ((a <=? a + i) && (a + i <? a + zlen l)) with true by (symmetry; apply andb_true_intro; split; lia).
  do 2 f_equal. lia.
Qed.
Lemma stored_second m m' a l b l' outs : apart (a, zlen l) (b, zlen l') ->
  (forall x, m' x = overwrite m ((a, l) :: (b, l') :: outs) x) -> contains m' b l'.
Proof.
  intros Ap H i Hi. rewrite H. cbn [overwrite]. unfold apart in Ap. cbn [fst snd] in Ap.
  replace ((a <=? b + i) && (b + i <? a + zlen l)) with false by (symmetry; apply andb_false_iff; lia).
  replace ((b <=? b + i) && (b + i <? b + zlen l')) with true by (symmetry; apply andb_true_intro; split; lia).
  do 2 f_equal. lia.
Qed.
Lemma contains_unique m a l l' : contains m a l -> contains m a l' -> zlen l = zlen l' -> l = l'.
Proof.
  intros H1 H2 L. apply (zlist_ext 0); [exact L|]. intros i Hi. pose proof (H1 i Hi) as E1.
  rewrite (H2 i) in E1 by lia. unfold zget. now injection E1.
Qed.

(** ** C03, C05: which inputs are rejected *)
Lemma not_modulus_check p ek : zlen ek = ek_size (set_of p) -> bytes ek ->
  (~ modulus_check (set_of p) ek <-> Exists (fun v => q <= v) (candidates (slice ek 0 (384 * k (set_of p))))).
Proof.
  intros L B. rewrite modulus_check_iff by auto. split; intros H.
  - apply neg_Forall_Exists_neg in H; [|intros x; apply Z_lt_dec]. eapply Exists_impl; [|exact H]. cbv beta. intros; lia.
  - intros F. apply Exists_exists in H as (x & Hx & Hq). rewrite Forall_forall in F. specialize (F x Hx). cbv beta in F. lia.
Qed.

Lemma enc_rejects_iff {bo : byte_order} J fuel p m ct ss pk coins ek msg : enc_call (set_of p) m ct ss pk coins ek msg ->
  ((exists m', val (crypto_kem_enc_derand J fuel p m ct ss pk coins) = Ok (-1, m')) <->
   Exists (fun v => q <= v) (candidates (slice ek 0 (384 * k (set_of p))))).
Proof.
  intros C. destruct (enc_call_bytes _ _ _ _ _ _ _ _ C) as [Be Bm].
  assert (Le : zlen ek = ek_size (set_of p)) by apply C.
  rewrite <- not_modulus_check by auto. split.
  - intros [m' E] HM. pose proof (enc_derand_exact J fuel p m ct ss pk coins ek msg C HM) as H.
    destruct (ML_KEM_Encaps_internal _ _ _ _) as [[K c]|].
    + destruct H as (m'' & E' & _). rewrite E in E'. injection E' as E' _. lia.
    + rewrite E in H. discriminate.
  - intros HM. exists m. now apply (enc_derand_reject J fuel p m ct ss pk coins ek msg).
Qed.
Lemma enc_rejects_nothing {bo : byte_order} J fuel p m ct ss pk coins ek msg m' : enc_call (set_of p) m ct ss pk coins ek msg ->
  val (crypto_kem_enc_derand J fuel p m ct ss pk coins) = Ok (-1, m') -> forall x, m' x = m x.
Proof.
  intros C E. destruct (modulus_check_dec (set_of p) ek) as [HM|HM].
  - pose proof (enc_derand_exact J fuel p m ct ss pk coins ek msg C HM) as H.
    destruct (ML_KEM_Encaps_internal _ _ _ _) as [[K c]|].
    + destruct H as (m'' & E' & _). rewrite E in E'. injection E' as E' _. lia.
    + rewrite E in H. discriminate.
  - rewrite (enc_derand_reject J fuel p m ct ss pk coins ek msg C HM) in E. injection E as <-. auto.
Qed.
Lemma dec_rejects_iff {bo : byte_order} J fuel p m ss ct sk dk c : dec_call (set_of p) m ss ct sk dk c ->
  ((exists m', val (crypto_kem_dec J fuel p m ss ct sk) = Ok (-1, m')) <-> ~ hash_check (set_of p) dk).
Proof.
  intros C. split.
  - intros [m' E] HM. pose proof (dec_exact J fuel p m ss ct sk dk c C HM) as H.
    destruct (ML_KEM_Decaps_internal _ _ _ _) as [K|].
    + destruct H as (m'' & E' & _). rewrite E in E'. injection E' as E' _. lia.
    + rewrite E in H. discriminate.
  - intros HM. exists m. now apply (dec_reject J fuel p m ss ct sk dk c).
Qed.
Lemma dec_rejects_nothing {bo : byte_order} J fuel p m ss ct sk dk c m' : dec_call (set_of p) m ss ct sk dk c ->
  val (crypto_kem_dec J fuel p m ss ct sk) = Ok (-1, m') -> forall x, m' x = m x.
Proof.
  intros C E. destruct (hash_check_dec (set_of p) dk) as [HM|HM].
  - pose proof (dec_exact J fuel p m ss ct sk dk c C HM) as H.
    destruct (ML_KEM_Decaps_internal _ _ _ _) as [K|].
    + destruct H as (m'' & E' & _). rewrite E in E'. injection E' as E' _. lia.
    + rewrite E in H. discriminate.
  - rewrite (dec_reject J fuel p m ss ct sk dk c C HM) in E. injection E as <-. auto.
Qed.

(** ** The randomised functions *)
Lemma randombytes_drawn rng pos len : 0 <= len -> randombytes rng pos len = drawn rng pos len.
Proof.
  intros H. unfold drawn. rewrite range_seq, map_map. reflexivity.
Qed.
Lemma zlen_drawn rng pos len : 0 <= len -> zlen (drawn rng pos len) = len.
Proof. intros H. unfold drawn. now rewrite zlen_map, zlen_range. Qed.
Lemma bytes_drawn rng pos len : bytes (drawn rng pos len).
Proof. unfold drawn. apply Forall_map, Forall_forall. intros x _. unfold is_byte. apply Z.mod_pos_bound. lia. Qed.
Lemma drawn_app rng pos a b : 0 <= a -> 0 <= b -> drawn rng pos (a + b) = drawn rng pos a ++ drawn rng (pos + a) b.
Proof.
  intros Ha Hb. unfold drawn. rewrite range_app, map_app, map_map by auto. f_equal. apply map_ext.
  intros i. do 2 f_equal. lia.
Qed.
Lemma unused_vacant m a len : 0 <= len -> vacant m a len -> unused m a len = true.
Proof.
  intros Hl H. unfold unused. apply forallb_forall. intros x Hx. unfold addresses in Hx.
  apply in_map_iff in Hx as (i & <- & Hi). apply in_seq in Hi. rewrite H by lia. reflexivity.
Qed.

(** Storing a local array where no memory was in use *)
Lemma alloc_accessible m fp l a len : vacant m fp (zlen l) -> accessible m a len ->
  accessible (mwrite m fp l) a len.
Proof. intros V A x Hx. rewrite mwrite_eq. cbn [overwrite]. destruct (_ && _); [discriminate|now apply A]. Qed.
Lemma alloc_apart m fp n a len : vacant m fp n -> accessible m a len -> 0 < len -> 0 < n -> apart (a, len) (fp, n).
Proof.
  intros V A Hl Hn. unfold apart. cbn [fst snd].
  destruct (Z_le_gt_dec (a + len) fp); [now left|]. destruct (Z_le_gt_dec (fp + n) a); [now right|].
  exfalso. apply (A (Z.max a fp)); [lia|]. apply V. lia.
Qed.
Lemma alloc_contains m fp l a c : vacant m fp (zlen l) -> contains m a c -> contains (mwrite m fp l) a c.
Proof.
  intros V C i Hi. rewrite mwrite_eq. cbn [overwrite].
  destruct ((fp <=? a + i) && (a + i <? fp + zlen l)) eqn:E; [|now apply C].
  pose proof (V (a + i) ltac:(lia)) as F. rewrite C in F by auto. discriminate.
Qed.
Lemma alloc_self m fp l : contains (mwrite m fp l) fp l.
Proof. apply (stored_first m _ fp l []). intros x. apply mwrite_eq. Qed.

Lemma free_overwrite m fp n l m2 outs : vacant m fp n -> zlen l = n ->
  (forall a o, In (a, o) outs -> accessible m a (zlen o)) ->
  (forall x, m2 x = overwrite (mwrite m fp l) outs x) ->
  forall x, mfree m2 fp n x = overwrite m outs x.
Proof.
  intros V L A H x. unfold mfree. destruct ((fp <=? x) && (x <? fp + n)) eqn:E.
  - clear H. induction outs as [|[a o] outs IH]; cbn [overwrite].
    + symmetry. apply V. lia.
    + destruct ((a <=? x) && (x <? a + zlen o)) eqn:E2.
      * exfalso. apply (A a o (or_introl eq_refl) x); [lia|]. apply V. lia.
      * apply IH. intros a' o' Hi. apply A. now right.
  - rewrite H. clear H A. induction outs as [|[a o] outs IH]; cbn [overwrite].
    + rewrite mwrite_eq. cbn [overwrite]. rewrite L, E. reflexivity.
    + destruct ((a <=? x) && (x <? a + zlen o)); [reflexivity|exact IH].
Qed.

Lemma apart3 a b c : apart a b -> apart a c -> apart b c -> all_apart [a; b; c].
Proof. intros. unfold all_apart. constructor; [|constructor; [|constructor; [|constructor]]]; auto. Qed.
Lemma apart4 a b c d : apart a b -> apart a c -> apart b c -> apart a d -> apart b d -> apart c d -> all_apart [a; b; c; d].
Proof. intros. unfold all_apart. constructor; [|constructor; [|constructor; [|constructor; [|constructor]]]]; auto. Qed.

Lemma keypair_call_alloc p rng m pos fp pk sk : keypair_rand_call (set_of p) m fp pk sk ->
  keypair_call (set_of p) (mwrite m fp (drawn rng pos 32 ++ drawn rng (pos + 32) 32)) pk sk fp
    (drawn rng pos 32) (drawn rng (pos + 32) 32).
Proof.
  intros (Bm & A1 & A2 & Ap & V). pose proof (k_range p) as HK.
  set (d := drawn rng pos 32). set (z := drawn rng (pos + 32) 32).
  assert (Ld : zlen d = 32) by (apply zlen_drawn; lia). assert (Lz : zlen z = 32) by (apply zlen_drawn; lia).
  assert (Bd : bytes d) by apply bytes_drawn. assert (Bz : bytes z) by apply bytes_drawn.
  assert (V' : vacant m fp (zlen (d ++ z))) by (rewrite zlen_app, Ld, Lz; exact V).
  unfold keypair_call. refine (conj _ (conj _ (conj _ (conj _ (conj Ld (conj Lz _)))))).
  - apply byte_mwrite; auto. apply Forall_app; auto.
  - now apply alloc_accessible.
  - now apply alloc_accessible.
  - apply alloc_self.
  - inversion_clear Ap as [|? ? F1 F2]. apply Forall_cons_iff in F1 as [F1 _].
    apply apart3; auto; apply (alloc_apart m); auto; unfold ek_size, dk_size; lia.
Qed.
Lemma keypair_exact {bo : byte_order} J fuel p rng m pos fp pk sk : keypair_rand_call (set_of p) m fp pk sk ->
  match ML_KEM_KeyGen_internal (set_of p) (3 + Z.of_nat fuel) (drawn rng pos 32) (drawn rng (pos + 32) 32) with
  | Some (ek, dk) =>
      finished_at (val (crypto_kem_keypair J fuel p rng m pos fp pk sk)) m 0 (pos + 64) [(pk, ek); (sk, dk)]
  | None => val (crypto_kem_keypair J fuel p rng m pos fp pk sk) = NoFuel
  end.
Proof.
  intros (Bm & A1 & A2 & Ap & V). unfold crypto_kem_keypair, MLKEM_SYMBYTES. change (2 * 32) with 64.
  rewrite unused_vacant by (auto; lia). rewrite randombytes_drawn by lia.
  set (d := drawn rng pos 32). set (z := drawn rng (pos + 32) 32).
  assert (Edz : drawn rng pos 64 = d ++ z) by (apply (drawn_app rng pos 32 32); lia). rewrite Edz.
  assert (Ld : zlen d = 32) by (apply zlen_drawn; lia). assert (Lz : zlen z = 32) by (apply zlen_drawn; lia).
  assert (Bd : bytes d) by apply bytes_drawn. assert (Bz : bytes z) by apply bytes_drawn.
  assert (Ldz : zlen (d ++ z) = 64) by (rewrite zlen_app; lia).
  set (m1 := mwrite m fp (d ++ z)). pose proof (k_range p) as HK.
  assert (HA : keypair_call (set_of p) m1 pk sk fp d z) by (apply keypair_call_alloc; unfold keypair_rand_call; auto).
  pose proof (keypair_derand_exact (sub J 0) fuel p m1 pk sk fp d z HA) as H.
  destruct (ML_KEM_KeyGen_internal (set_of p) (3 + Z.of_nat fuel) d z) as [[ek dk]|] eqn:EK.
  - destruct H as (m2 & E & Hm2). unfold val in *. unfold bind.
    destruct (crypto_kem_keypair_derand (sub J 0) fuel p m1 pk sk fp) as [o t]. cbn [fst] in E. subst o. cbn [ret fst].
    apply keygen_keys in EK as (L1 & _ & L2 & _); [|auto..|lia].
    eexists; split; [reflexivity|]. apply (free_overwrite m fp 64 (d ++ z)); auto.
    intros a o [Hi|[Hi|[]]]; injection Hi as <- <-; [now rewrite L1|now rewrite L2].
  - unfold val in *. unfold bind. destruct (crypto_kem_keypair_derand _ _ _ _ _ _ _) as [o t]. cbn [fst] in H. now subst o.
Qed.

Lemma enc_call_alloc p rng m pos fp ct ss pk ek : enc_rand_call (set_of p) m fp ct ss pk ek ->
  enc_call (set_of p) (mwrite m fp (drawn rng pos 32)) ct ss pk fp ek (drawn rng pos 32).
Proof.
  intros (Bm & A1 & A2 & C & L & Ap & V). pose proof (k_range p) as HK. pose proof (ct_size_range p) as Hct.
  assert (Ld : zlen (drawn rng pos 32) = 32) by (apply zlen_drawn; lia).
  assert (V' : vacant m fp (zlen (drawn rng pos 32))) by now rewrite Ld.
  assert (A3 : accessible m pk (ek_size (set_of p))) by (rewrite <- L; now apply (contains_accessible m)).
  unfold enc_call. refine (conj _ (conj _ (conj _ (conj _ (conj L (conj _ (conj Ld _))))))).
  - apply byte_mwrite; auto. apply bytes_drawn.
  - now apply alloc_accessible.
  - now apply alloc_accessible.
  - now apply alloc_contains.
  - apply alloc_self.
  - inversion_clear Ap as [|? ? F1 F2]. inversion_clear F2 as [|? ? F3 _].
    apply Forall_cons_iff in F1 as [F1 F1']. apply Forall_cons_iff in F1' as [F1' _]. apply Forall_cons_iff in F3 as [F3 _].
    assert (0 < ct_size (set_of p)) by (destruct p; reflexivity).
    apply apart4; auto; apply (alloc_apart m); auto; unfold ek_size; lia.
Qed.
Lemma enc_exact {bo : byte_order} J fuel p rng m pos fp ct ss pk ek : enc_rand_call (set_of p) m fp ct ss pk ek ->
  modulus_check (set_of p) ek ->
  match ML_KEM_Encaps_internal (set_of p) (3 + Z.of_nat fuel) ek (drawn rng pos 32) with
  | Some (K, c) =>
      finished_at (val (crypto_kem_enc J fuel p rng m pos fp ct ss pk)) m 0 (pos + 32) [(ct, c); (ss, K)]
  | None => val (crypto_kem_enc J fuel p rng m pos fp ct ss pk) = NoFuel
  end.
Proof.
  intros CA HM. pose proof (enc_call_alloc p rng m pos fp ct ss pk ek CA) as HA.
  destruct CA as (Bm & A1 & A2 & C & L & Ap & V). unfold crypto_kem_enc, MLKEM_SYMBYTES.
  rewrite unused_vacant by (auto; lia). rewrite randombytes_drawn by lia.
  set (d := drawn rng pos 32) in *.
  assert (Ld : zlen d = 32) by (apply zlen_drawn; lia).
  set (m1 := mwrite m fp d) in *.
  pose proof (enc_derand_exact (sub J 0) fuel p m1 ct ss pk fp ek d HA HM) as H.
  destruct (ML_KEM_Encaps_internal (set_of p) (3 + Z.of_nat fuel) ek d) as [[K c]|] eqn:EK.
  - destruct H as (m2 & E & Hm2). unfold val in *. unfold bind.
    destruct (crypto_kem_enc_derand (sub J 0) fuel p m1 ct ss pk fp) as [o t]. cbn [fst] in E. subst o. cbn [ret fst].
    apply encaps_out in EK as (L1 & _ & L2 & _); [|apply (enc_call_bytes _ _ _ _ _ _ _ _ HA)|apply bytes_drawn|exact L|auto|lia].
    eexists; split; [reflexivity|]. apply (free_overwrite m fp 32 d); auto.
    intros a o [Hi|[Hi|[]]]; injection Hi as <- <-; [now rewrite L2|now rewrite L1].
  - unfold val in *. unfold bind. destruct (crypto_kem_enc_derand _ _ _ _ _ _ _ _) as [o t]. cbn [fst] in H. now subst o.
Qed.
Lemma enc_reject {bo : byte_order} J fuel p rng m pos fp ct ss pk ek : enc_rand_call (set_of p) m fp ct ss pk ek ->
  ~ modulus_check (set_of p) ek ->
  finished_at (val (crypto_kem_enc J fuel p rng m pos fp ct ss pk)) m (-1) (pos + 32) [].
Proof.
  intros CA HM. pose proof (enc_call_alloc p rng m pos fp ct ss pk ek CA) as HA.
  destruct CA as (Bm & A1 & A2 & C & L & Ap & V). unfold crypto_kem_enc, MLKEM_SYMBYTES.
  rewrite unused_vacant by (auto; lia). rewrite randombytes_drawn by lia.
  set (d := drawn rng pos 32) in *.
  assert (Ld : zlen d = 32) by (apply zlen_drawn; lia).
  set (m1 := mwrite m fp d) in *.
  pose proof (enc_derand_reject (sub J 0) fuel p m1 ct ss pk fp ek d HA HM) as H.
  unfold val in *. unfold bind. destruct (crypto_kem_enc_derand _ _ _ _ _ _ _ _) as [o t]. cbn [fst] in H. subst o. cbn [ret fst].
  eexists; split; [reflexivity|]. apply (free_overwrite m fp 32 d); auto. intros a o [].
Qed.

(** ** C07: implicit rejection *)
Lemma dk_parts P (dkp ek h z : list Z) : zlen dkp = 384 * k P -> zlen ek = ek_size P -> zlen h = 32 -> zlen z = 32 -> 0 <= k P ->
  let dk := dkp ++ ek ++ h ++ z in
  slice dk 0 (384 * k P) = dkp /\ slice dk (384 * k P) (768 * k P + 32) = ek /\
  slice dk (768 * k P + 32) (768 * k P + 64) = h /\ slice dk (768 * k P + 64) (768 * k P + 96) = z.
Proof.
  intros L1 L2 L3 L4 Hk dk. unfold ek_size in L2. unfold dk. repeat split.
  - apply slice_app_l. exact L1.
  - rewrite <- L1. replace (768 * k P + 32) with (zlen dkp + zlen ek) by lia. apply slice_app_mid.
  - rewrite app_assoc. replace (768 * k P + 32) with (zlen (dkp ++ ek)) by (rewrite zlen_app; lia).
    replace (768 * k P + 64) with (zlen (dkp ++ ek) + zlen h) by (rewrite zlen_app; lia). apply slice_app_mid.
  - rewrite !app_assoc. apply slice_app_r; rewrite ?zlen_app; lia.
Qed.

Lemma implicit_rejection {bo : byte_order} J fuel p m ss ct sk dkp ek z c r m' :
  let P := set_of p in
  let msg := K_PKE_Decrypt P dkp c in
  let K := fst (G (msg ++ Spec203.H ek)) in
  let Kbar := SHAKE256 (z ++ c) 32 in
  zlen dkp = 384 * k P -> zlen ek = ek_size P -> zlen z = 32 ->
  dec_call P m ss ct sk (dkp ++ ek ++ Spec203.H ek ++ z) c ->
  val (crypto_kem_dec J fuel p m ss ct sk) = Ok (r, m') ->
  r = 0 /\
  exists c', K_PKE_Encrypt P (3 + Z.of_nat fuel) ek msg (snd (G (msg ++ Spec203.H ek))) = Some c' /\
    (c = c' -> contains m' ss K) /\
    (c <> c' -> contains m' ss Kbar) /\
    (contains m' ss K -> c = c' \/ K = Kbar).
Proof.
  intros P msg K Kbar L1 L2 L3 C E. pose proof (k_range p) as HK. fold P in HK.
  destruct (dec_call_bytes _ _ _ _ _ _ _ C) as [Bdk Bc].
  assert (Bek : bytes ek). { apply Forall_app in Bdk as [_ Bdk]. now apply Forall_app in Bdk as [? _]. }
  assert (Bz : bytes z). { rewrite !app_assoc in Bdk. now apply Forall_app in Bdk as [_ ?]. }
  assert (LH : zlen (Spec203.H ek) = 32) by now apply zlen_SHA3_256.
  assert (BH : bytes (Spec203.H ek)) by now apply bytes_SHA3_256.
  destruct (dk_parts P dkp ek (Spec203.H ek) z L1 L2 LH L3 ltac:(lia)) as (D1 & D2 & D3 & D4).
  assert (HC : hash_check P (dkp ++ ek ++ Spec203.H ek ++ z)) by (unfold hash_check; now rewrite D2, D3).
  pose proof (dec_exact J fuel p m ss ct sk _ c C HC) as H. fold P in H.
  unfold ML_KEM_Decaps_internal in H. rewrite D1, D2, D3, D4 in H. cbv zeta in H. fold msg in H.
  assert (Bmsg : bytes (msg ++ Spec203.H ek)) by (apply Forall_app; split; [apply decrypt_out|exact BH]).
  assert (LK : zlen K = 32).
  { unfold K, G. cbn [fst]. rewrite zlen_slice; rewrite ?zlen_SHA3_512 by auto; lia. }
  assert (LB : zlen Kbar = 32) by (apply zlen_SHAKE256; [apply Forall_app; auto|lia]).
  unfold K in *. destruct (G (msg ++ Spec203.H ek)) as [K1 r1]. cbn [fst snd] in *.
  destruct (K_PKE_Encrypt P (3 + Z.of_nat fuel) ek msg r1) as [c'|] eqn:EE; [|rewrite E in H; discriminate].
  destruct H as (m'' & E' & Hm). rewrite E in E'. injection E' as -> <-. split; [reflexivity|].
  exists c'. split; [reflexivity|]. apply stored_first in Hm.
  destruct (list_eq_dec Z.eq_dec c c') as [Ec|Ec].
  - split; [auto|split; [tauto|auto]].
  - split; [tauto|split; [auto|]]. intros HK1. right. apply (contains_unique m' ss); auto. unfold Spec203.J in Hm. fold Kbar in Hm. lia.
Qed.

(** ** C08, C33: the keys that were written *)
Lemma keypair_written {bo : byte_order} J fuel p m pk sk coins d z r m' : keypair_call (set_of p) m pk sk coins d z ->
  val (crypto_kem_keypair_derand J fuel p m pk sk coins) = Ok (r, m') ->
  r = 0 /\ exists ek dkp,
    ML_KEM_KeyGen_internal (set_of p) (3 + Z.of_nat fuel) d z = Some (ek, dkp ++ ek ++ Spec203.H ek ++ z) /\
    contains m' pk ek /\ contains m' sk (dkp ++ ek ++ Spec203.H ek ++ z) /\
    zlen ek = ek_size (set_of p) /\ zlen dkp = 384 * k (set_of p) /\ bytes ek /\ bytes dkp /\
    Forall (fun v => v < q) (candidates dkp) /\
    Forall (fun v => v < q) (candidates (slice ek 0 (384 * k (set_of p)))) /\
    modulus_check (set_of p) ek /\ hash_check (set_of p) (dkp ++ ek ++ Spec203.H ek ++ z) /\
    zlen (dkp ++ ek ++ Spec203.H ek ++ z) = dk_size (set_of p).
Proof.
  intros C E. destruct (keypair_call_bytes _ _ _ _ _ _ _ C) as [Bd Bz].
  pose proof (keypair_derand_exact J fuel p m pk sk coins d z C) as H.
  destruct (ML_KEM_KeyGen_internal (set_of p) (3 + Z.of_nat fuel) d z) as [[ek dk]|] eqn:EK; [|rewrite E in H; discriminate].
  destruct H as (m'' & E' & Hm). rewrite E in E'. injection E' as -> <-. split; [reflexivity|].
  destruct C as (Bm & A1 & A2 & C & L1 & L2 & Ap).
  apply keygen_keys in EK as (Lek & Bek & Ldk & Bdk & S1 & M1 & H1 & dkp & -> & Ldkp & Bdkp & S2); auto; [|lia].
  exists ek, dkp. split; [reflexivity|].
  split; [now apply (stored_first _ _ _ _ _ Hm)|].
  split. { eapply stored_second; [|exact Hm]. rewrite Lek, Ldk. inversion_clear Ap as [|? ? F1 F2].
           now apply Forall_cons_iff in F1 as [F1 _]. }
  repeat (split; [assumption|]). assumption.
Qed.

Lemma key_layout {bo : byte_order} J fuel p m pk sk coins d z r m' : keypair_call (set_of p) m pk sk coins d z ->
  val (crypto_kem_keypair_derand J fuel p m pk sk coins) = Ok (r, m') ->
  exists dkp ek, zlen dkp = 384 * k (set_of p) /\ zlen ek = ek_size (set_of p) /\
    contains m' pk ek /\ contains m' sk (dkp ++ ek ++ SHA3_256 ek ++ z) /\
    Forall (fun v => 0 <= v < q) (candidates dkp).
Proof.
  intros C E. destruct (keypair_written _ _ _ _ _ _ _ _ _ _ _ C E) as (_ & ek & dkp & _ & C1 & C2 & L1 & L2 & _ & B & F & _).
  exists dkp, ek. repeat (split; [assumption|]).
  pose proof (k_range p) as HK.
  rewrite <- (slice_all dkp), L2 in F |- *. rewrite candidates_pieces in F |- * by (auto; lia).
  rewrite Forall_concat, Forall_map in F |- *.
  apply Forall_forall. rewrite Forall_forall in F. intros i Hi. specialize (F i Hi). apply in_range in Hi.
  assert (HF : ubounded (2 ^ 12) (fields 12 (slice dkp (384 * i) (384 * i + 384)))).
  { apply fields_range; [lia|]. rewrite zlen_slice by lia. lia. }
  unfold ubounded in HF. apply Forall_forall. rewrite Forall_forall in HF, F. intros x Hx.
  specialize (F x Hx). specialize (HF x Hx). cbv beta in *. lia.
Qed.

Lemma generated_accepted {bo : byte_order} J fuel p m pk sk coins d z r m' ek dk : keypair_call (set_of p) m pk sk coins d z ->
  val (crypto_kem_keypair_derand J fuel p m pk sk coins) = Ok (r, m') ->
  contains m' pk ek -> zlen ek = ek_size (set_of p) ->
  contains m' sk dk -> zlen dk = dk_size (set_of p) ->
  modulus_check (set_of p) ek /\ hash_check (set_of p) dk.
Proof.
  intros C E C1 L1 C2 L2.
  destruct (keypair_written _ _ _ _ _ _ _ _ _ _ _ C E) as (_ & ek' & dkp & _ & C1' & C2' & L1' & _ & _ & _ & _ & _ & M & H & L2').
  rewrite (contains_unique _ _ _ _ C1 C1' ltac:(lia)), (contains_unique _ _ _ _ C2 C2' ltac:(lia)). auto.
Qed.
Lemma generated_ek_accepted {bo : byte_order} J fuel p m pk sk coins d z r m' ek J2 fuel2 m2 ct ss pk2 coins2 msg m3 :
  keypair_call (set_of p) m pk sk coins d z ->
  val (crypto_kem_keypair_derand J fuel p m pk sk coins) = Ok (r, m') ->
  contains m' pk ek -> enc_call (set_of p) m2 ct ss pk2 coins2 ek msg ->
  val (crypto_kem_enc_derand J2 fuel2 p m2 ct ss pk2 coins2) <> Ok (-1, m3).
Proof.
  intros C E C1 C2 E2.
  destruct (keypair_written _ _ _ _ _ _ _ _ _ _ _ C E) as (_ & ek' & dkp & _ & C1' & C2' & L1' & _ & _ & _ & _ & _ & M & _).
  assert (Le : zlen ek = ek_size (set_of p)) by apply C2.
  rewrite <- (contains_unique _ _ _ _ C1 C1' ltac:(lia)) in M.
  pose proof (enc_derand_exact J2 fuel2 p m2 ct ss pk2 coins2 ek msg C2 M) as H.
  destruct (ML_KEM_Encaps_internal _ _ _ _) as [[K c]|].
  - destruct H as (m'' & E' & _). rewrite E2 in E'. injection E' as E' _. lia.
  - rewrite E2 in H. discriminate.
Qed.
Lemma generated_dk_accepted {bo : byte_order} J fuel p m pk sk coins d z r m' dk J2 fuel2 m2 ss ct sk2 c m3 :
  keypair_call (set_of p) m pk sk coins d z ->
  val (crypto_kem_keypair_derand J fuel p m pk sk coins) = Ok (r, m') ->
  contains m' sk dk -> dec_call (set_of p) m2 ss ct sk2 dk c ->
  val (crypto_kem_dec J2 fuel2 p m2 ss ct sk2) <> Ok (-1, m3).
Proof.
  intros C E C1 C2 E2.
  destruct (keypair_written _ _ _ _ _ _ _ _ _ _ _ C E) as (_ & ek' & dkp & _ & C1' & C2' & L1' & _ & _ & _ & _ & _ & _ & M & L2).
  assert (Le : zlen dk = dk_size (set_of p)) by apply C2.
  rewrite <- (contains_unique _ _ _ _ C1 C2' ltac:(lia)) in M.
  pose proof (dec_exact J2 fuel2 p m2 ss ct sk2 dk c C2 M) as H.
  destruct (ML_KEM_Decaps_internal _ _ _ _) as [K|].
  - destruct H as (m'' & E' & _). rewrite E2 in E'. injection E' as E' _. lia.
  - rewrite E2 in H. discriminate.
Qed.

(** ** C09, C35: no undefined behaviour, no failing debug check *)
Lemma keypair_derand_no_ub {bo : byte_order} J fuel p m pk sk coins d z e : keypair_call (set_of p) m pk sk coins d z ->
  val (crypto_kem_keypair_derand J fuel p m pk sk coins) <> UB e.
Proof.
  intros C E. pose proof (keypair_derand_exact J fuel p m pk sk coins d z C) as H.
  destruct (ML_KEM_KeyGen_internal _ _ _ _) as [[ek dk]|]; [destruct H as (? & H & _)|]; rewrite E in H; discriminate.
Qed.
Lemma enc_derand_no_ub {bo : byte_order} J fuel p m ct ss pk coins ek msg e : enc_call (set_of p) m ct ss pk coins ek msg ->
  val (crypto_kem_enc_derand J fuel p m ct ss pk coins) <> UB e.
Proof.
  intros C E. destruct (modulus_check_dec (set_of p) ek) as [HM|HM].
  - pose proof (enc_derand_exact J fuel p m ct ss pk coins ek msg C HM) as H.
    destruct (ML_KEM_Encaps_internal _ _ _ _) as [[K c]|]; [destruct H as (? & H & _)|]; rewrite E in H; discriminate.
  - rewrite (enc_derand_reject J fuel p m ct ss pk coins ek msg C HM) in E. discriminate.
Qed.
Lemma dec_no_ub {bo : byte_order} J fuel p m ss ct sk dk c e : dec_call (set_of p) m ss ct sk dk c ->
  val (crypto_kem_dec J fuel p m ss ct sk) <> UB e.
Proof.
  intros C E. destruct (hash_check_dec (set_of p) dk) as [HM|HM].
  - pose proof (dec_exact J fuel p m ss ct sk dk c C HM) as H.
    destruct (ML_KEM_Decaps_internal _ _ _ _) as [K|]; [destruct H as (? & H & _)|]; rewrite E in H; discriminate.
  - rewrite (dec_reject J fuel p m ss ct sk dk c C HM) in E. discriminate.
Qed.
Lemma keypair_no_ub {bo : byte_order} J fuel p rng m pos fp pk sk e : keypair_rand_call (set_of p) m fp pk sk ->
  val (crypto_kem_keypair J fuel p rng m pos fp pk sk) <> UB e.
Proof.
  intros C E. pose proof (keypair_exact J fuel p rng m pos fp pk sk C) as H.
  destruct (ML_KEM_KeyGen_internal _ _ _ _) as [[ek dk]|]; [destruct H as (? & H & _)|]; rewrite E in H; discriminate.
Qed.
Lemma enc_no_ub {bo : byte_order} J fuel p rng m pos fp ct ss pk ek e : enc_rand_call (set_of p) m fp ct ss pk ek ->
  val (crypto_kem_enc J fuel p rng m pos fp ct ss pk) <> UB e.
Proof.
  intros C E. destruct (modulus_check_dec (set_of p) ek) as [HM|HM].
  - pose proof (enc_exact J fuel p rng m pos fp ct ss pk ek C HM) as H.
    destruct (ML_KEM_Encaps_internal _ _ _ _) as [[K c]|]; [destruct H as (? & H & _)|]; rewrite E in H; discriminate.
  - destruct (enc_reject J fuel p rng m pos fp ct ss pk ek C HM) as (? & H & _). rewrite E in H. discriminate.
Qed.

(** ** C10: only the outputs change *)
Lemma overwrite_outside m outs x : (forall a l, In (a, l) outs -> ~ (a <= x < a + zlen l)) -> overwrite m outs x = m x.
Proof.
  induction outs as [|[a l] outs IH]; intros H; [reflexivity|]. cbn [overwrite].
  destruct ((a <=? x) && (x <? a + zlen l)) eqn:E.
  - exfalso. apply (H a l (or_introl eq_refl)). lia.
  - apply IH. intros a' l' Hi. apply H. now right.
Qed.
Lemma keypair_derand_frame {bo : byte_order} J fuel p m pk sk coins d z r m' x : keypair_call (set_of p) m pk sk coins d z ->
  val (crypto_kem_keypair_derand J fuel p m pk sk coins) = Ok (r, m') ->
  ~ (pk <= x < pk + ek_size (set_of p)) -> ~ (sk <= x < sk + dk_size (set_of p)) -> m' x = m x.
Proof.
  intros C E N1 N2. pose proof (keypair_derand_exact J fuel p m pk sk coins d z C) as H.
  destruct (keypair_call_bytes _ _ _ _ _ _ _ C) as [Bd Bz].
  destruct (ML_KEM_KeyGen_internal (set_of p) (3 + Z.of_nat fuel) d z) as [[ek dk]|] eqn:EK; [|rewrite E in H; discriminate].
  destruct H as (m'' & E' & Hm). rewrite E in E'. injection E' as _ <-. rewrite Hm.
  apply keygen_keys in EK as (L1 & _ & L2 & _); auto; [|apply C|lia].
  apply overwrite_outside. intros a l [Hi|[Hi|[]]]; injection Hi as <- <-; lia.
Qed.
Lemma enc_derand_frame {bo : byte_order} J fuel p m ct ss pk coins ek msg r m' x : enc_call (set_of p) m ct ss pk coins ek msg ->
  val (crypto_kem_enc_derand J fuel p m ct ss pk coins) = Ok (r, m') ->
  ~ (ct <= x < ct + ct_size (set_of p)) -> ~ (ss <= x < ss + 32) -> m' x = m x.
Proof.
  intros C E N1 N2. destruct (enc_call_bytes _ _ _ _ _ _ _ _ C) as [Be Bm].
  destruct (modulus_check_dec (set_of p) ek) as [HM|HM].
  - pose proof (enc_derand_exact J fuel p m ct ss pk coins ek msg C HM) as H.
    destruct (ML_KEM_Encaps_internal (set_of p) (3 + Z.of_nat fuel) ek msg) as [[K c]|] eqn:EK; [|rewrite E in H; discriminate].
    destruct H as (m'' & E' & Hm). rewrite E in E'. injection E' as _ <-. rewrite Hm.
    apply encaps_out in EK as (L1 & _ & L2 & _); auto; [|apply C|apply C|lia].
    apply overwrite_outside. intros a l [Hi|[Hi|[]]]; injection Hi as <- <-; lia.
  - rewrite (enc_derand_reject J fuel p m ct ss pk coins ek msg C HM) in E. injection E as _ <-. reflexivity.
Qed.
Lemma dec_frame {bo : byte_order} J fuel p m ss ct sk dk c r m' x : dec_call (set_of p) m ss ct sk dk c ->
  val (crypto_kem_dec J fuel p m ss ct sk) = Ok (r, m') ->
  ~ (ss <= x < ss + 32) -> m' x = m x.
Proof.
  intros C E N1. destruct (dec_call_bytes _ _ _ _ _ _ _ C) as [Bd Bc].
  destruct (hash_check_dec (set_of p) dk) as [HM|HM].
  - pose proof (dec_exact J fuel p m ss ct sk dk c C HM) as H.
    destruct (ML_KEM_Decaps_internal (set_of p) (3 + Z.of_nat fuel) dk c) as [K|] eqn:EK; [|rewrite E in H; discriminate].
    destruct H as (m'' & E' & Hm). rewrite E in E'. injection E' as _ <-. rewrite Hm.
    apply decaps_out in EK as (L1 & _); auto; [|lia].
    apply overwrite_outside. intros a l [Hi|[]]; injection Hi as <- <-; lia.
  - rewrite (dec_reject J fuel p m ss ct sk dk c C HM) in E. injection E as _ <-. reflexivity.
Qed.
Lemma keypair_frame {bo : byte_order} J fuel p rng m pos fp pk sk r m' pos' x : keypair_rand_call (set_of p) m fp pk sk ->
  val (crypto_kem_keypair J fuel p rng m pos fp pk sk) = Ok (r, m', pos') ->
  ~ (pk <= x < pk + ek_size (set_of p)) -> ~ (sk <= x < sk + dk_size (set_of p)) -> m' x = m x.
Proof.
  intros C E N1 N2. pose proof (keypair_exact J fuel p rng m pos fp pk sk C) as H.
  destruct (ML_KEM_KeyGen_internal (set_of p) (3 + Z.of_nat fuel) _ _) as [[ek dk]|] eqn:EK; [|rewrite E in H; discriminate].
  destruct H as (m'' & E' & Hm). rewrite E in E'. injection E' as _ <- _. rewrite Hm.
  apply keygen_keys in EK as (L1 & _ & L2 & _); try apply bytes_drawn; try (apply zlen_drawn; lia); try lia.
  apply overwrite_outside. intros a l [Hi|[Hi|[]]]; injection Hi as <- <-; lia.
Qed.
Lemma enc_frame {bo : byte_order} J fuel p rng m pos fp ct ss pk ek r m' pos' x : enc_rand_call (set_of p) m fp ct ss pk ek ->
  val (crypto_kem_enc J fuel p rng m pos fp ct ss pk) = Ok (r, m', pos') ->
  ~ (ct <= x < ct + ct_size (set_of p)) -> ~ (ss <= x < ss + 32) -> m' x = m x.
Proof.
  intros C E N1 N2.
  assert (Be : bytes ek). { destruct C as (Bm & A1 & A2 & C1 & _). now apply (contains_bytes _ _ _ Bm C1). }
  destruct (modulus_check_dec (set_of p) ek) as [HM|HM].
  - pose proof (enc_exact J fuel p rng m pos fp ct ss pk ek C HM) as H.
    destruct (ML_KEM_Encaps_internal (set_of p) (3 + Z.of_nat fuel) ek _) as [[K c]|] eqn:EK; [|rewrite E in H; discriminate].
    destruct H as (m'' & E' & Hm). rewrite E in E'. injection E' as _ <- _. rewrite Hm.
    apply encaps_out in EK as (L1 & _ & L2 & _); try apply bytes_drawn; try (apply zlen_drawn; lia); try lia; try apply C; auto.
    apply overwrite_outside. intros a l [Hi|[Hi|[]]]; injection Hi as <- <-; lia.
  - destruct (enc_reject J fuel p rng m pos fp ct ss pk ek C HM) as (m'' & E' & Hm). rewrite E in E'.
    injection E' as _ <- _. apply Hm.
Qed.

Lemma keygen_sizes p b d z ek dk : bytes d -> bytes z -> zlen z = 32 -> 0 <= b ->
  ML_KEM_KeyGen_internal (set_of p) b d z = Some (ek, dk) ->
  zlen ek = ek_size (set_of p) /\ zlen dk = dk_size (set_of p) /\ bytes ek /\ bytes dk.
Proof. intros Bd Bz L Hb E. apply keygen_keys in E as (L1 & B1 & L2 & B2 & _); auto. Qed.
Lemma enc_rejects {bo : byte_order} J fuel p rng m pos fp ct ss pk ek : enc_rand_call (set_of p) m fp ct ss pk ek ->
  Exists (fun v => q <= v) (candidates (slice ek 0 (384 * k (set_of p)))) ->
  finished_at (val (crypto_kem_enc J fuel p rng m pos fp ct ss pk)) m (-1) (pos + 32) [].
Proof.
  intros C H. apply (enc_reject J fuel p rng m pos fp ct ss pk ek); auto. apply not_modulus_check; auto; [apply C|].
  destruct C as (Bm & A1 & A2 & C1 & _). now apply (contains_bytes _ _ _ Bm C1).
Qed.
Lemma no_debug_failure {bo : byte_order} J fuel p :
  (forall m pk sk coins d z, keypair_call (set_of p) m pk sk coins d z ->
     val (crypto_kem_keypair_derand J fuel p m pk sk coins) <> UB DebugCheck) /\
  (forall m ct ss pk coins ek msg, enc_call (set_of p) m ct ss pk coins ek msg ->
     val (crypto_kem_enc_derand J fuel p m ct ss pk coins) <> UB DebugCheck) /\
  (forall m ss ct sk dk c, dec_call (set_of p) m ss ct sk dk c ->
     val (crypto_kem_dec J fuel p m ss ct sk) <> UB DebugCheck) /\
  (forall rng m pos fp pk sk, keypair_rand_call (set_of p) m fp pk sk ->
     val (crypto_kem_keypair J fuel p rng m pos fp pk sk) <> UB DebugCheck) /\
  (forall rng m pos fp ct ss pk ek, enc_rand_call (set_of p) m fp ct ss pk ek ->
     val (crypto_kem_enc J fuel p rng m pos fp ct ss pk) <> UB DebugCheck).
Proof.
  repeat split; intros; eauto using keypair_derand_no_ub, enc_derand_no_ub, dec_no_ub, keypair_no_ub, enc_no_ub.
Qed.
