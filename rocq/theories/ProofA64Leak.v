(** * Leakage of the AArch64 build: hash functions, matrix sampling, K-PKE

    The accesses of the routines do not depend on the data (ProofA64LeakAsm.v and
    ProofA64Permute.v). The sponge and the K-PKE functions follow ProofLeakHash.v. *)

From Coq Require Import ZArith List Bool Lia.
From Verif Require Import ModelA64Poly ModelA64Rej ModelA64Fips202 ModelA64Sponge ModelA64Indcpa ProofA64LeakAsm.
From Verif Require Import ProofKeccakF ProofHash ProofA64Permute.
From Verif Require Import CSem ModelArith ModelKeccak ModelIndcpa ModelKem Spec202 CSemFacts ProofMatrix ProofLeak ProofLeakHash.
Import ListNotations.
Open Scope Z_scope.
#[local] Existing Instance LittleEndian.
Ltac Zify.zify_post_hook ::= idtac.
#[local] Opaque KECCAK_f1600 KeccakF1600_StatePermute_aarch64 KeccakF1600x4_StatePermute_aarch64.
#[export] Hint Resolve l_permute_a64 l_permute4_a64 : leak.

(** ** Sponge: any data *)
Lemma l_absorb_a64 c J J' s s' r m m' mlen p :
  same any (keccak_absorb_aarch64 c J s r m mlen p) (keccak_absorb_aarch64 c J' s' r m' mlen p).
Proof.
  unfold keccak_absorb_aarch64. apply (same_bind' (fun '(_, pos, l) '(_, pos', l') => pos = pos' /\ l = l')).
  - apply same_while; [now split| |]; intros [[a pos] l] [[b pos'] l'] [<- <-]; [reflexivity|]. leak. now apply same_ret.
  - intros [[a pos] l] [[b pos'] l'] [<- <-]. apply (same_bind' any); [|intros; leak]. leak.
Qed.
Lemma l_inc_absorb_a64 cf J J' st st' r m m' mlen : samecnt st st' ->
  same samecnt (keccak_inc_absorb_aarch64 cf J st r m mlen) (keccak_inc_absorb_aarch64 cf J' st' r m' mlen).
Proof.
  intros E. unfold keccak_inc_absorb_aarch64. eapply same_bind'; [apply l_get_cnt, E|]. intros c ? <-.
  apply (same_bind' (fun '(s, c, pos, l) '(s', c', pos', l') => samecnt s s' /\ c = c' /\ pos = pos' /\ l = l')).
  - apply same_while; [auto| |]; intros [[[a k] pos] l] [[[b k'] pos'] l'] (H & <- & <- & <-); [reflexivity|].
    cbv zeta. eapply same_bind'; [apply same_aslice|]. intros d d' _.
    eapply same_bind'; [apply l_on_cnt; [exact H|intros; apply l_xor]|]. intros s1 t1 H1.
    eapply same_bind'; [apply l_set_cnt|]. intros s2 t2 H2.
    eapply same_bind'; [apply l_on_cnt; [exact H2|intros; apply l_permute_a64]|]. intros s3 t3 H3.
    eapply same_bind'; [apply l_get_cnt, H3|]. intros c3 ? <-. now apply same_ret.
  - intros [[[a k] pos] l] [[[b k'] pos'] l'] (H & <- & <- & <-).
    eapply same_bind'; [apply same_aslice|]. intros d d' _.
    eapply same_bind'; [apply l_on_cnt; [exact H|intros; apply l_xor]|]. intros s1 t1 H1. apply l_set_cnt.
Qed.
Lemma l_inc_squeeze_a64 cf J J' h h' outlen st st' r : samecnt st st' ->
  same any (keccak_inc_squeeze_aarch64 cf J h outlen st r) (keccak_inc_squeeze_aarch64 cf J' h' outlen st' r).
Proof.
  intros E. unfold keccak_inc_squeeze_aarch64. eapply same_bind'; [apply l_get_cnt, E|]. intros c ? <-.
  leak_step. leak_step. leak_step. leak_step. leak_step. cbv zeta. leak_step.
  apply (same_bind' (fun '(_, pos, l, _) '(_, pos', l', _) => pos = pos' /\ l = l')).
  - apply same_while; [auto| |]; intros [[[? pos0] n] ?] [[[? pos'] n'] ?] (<- & <-); [reflexivity|].
    apply (same_bind' any); [apply l_on; intros; apply l_permute_a64|]. intros ? ? _.
    leak. now apply same_ret.
  - intros [[[? ?] ?] ?] [[[? ?] ?] ?] _. leak.
Qed.
Lemma l_sponge_a64 c J J' K K' L L' h h' outlen m m' mlen r p : same any
  (st <- keccak_inc_init (uninit_inc J) ;; st <- keccak_inc_absorb_aarch64 c K st r m mlen ;;
   st <- keccak_inc_finalize st r p ;; '(output, _) <- keccak_inc_squeeze_aarch64 c L h outlen st r ;; ret output)
  (st <- keccak_inc_init (uninit_inc J') ;; st <- keccak_inc_absorb_aarch64 c K' st r m' mlen ;;
   st <- keccak_inc_finalize st r p ;; '(output, _) <- keccak_inc_squeeze_aarch64 c L' h' outlen st r ;; ret output).
Proof.
  apply (same_bind' samecnt); [apply l_inc_init|]. intros a b E1.
  apply (same_bind' samecnt); [now apply l_inc_absorb_a64|]. intros a' b' E2.
  apply (same_bind' samecnt); [now apply l_inc_finalize|]. intros a2 b2 E3.
  apply (same_bind' any); [now apply l_inc_squeeze_a64|]. intros [? ?] [? ?] _. leak.
Qed.
Lemma l_shake256_a64 c J J' h h' n m m' mlen : same any (shake256_aarch64 c J h n m mlen) (shake256_aarch64 c J' h' n m' mlen).
Proof. apply l_sponge_a64. Qed.
Lemma l_hash_h_a64 bd J J' h h' m m' mlen : same any (hash_h_aarch64 bd J h m mlen) (hash_h_aarch64 bd J' h' m' mlen).
Proof. apply l_sponge_a64. Qed.
Lemma l_hash_g_a64 bd J J' h h' m m' mlen : same any (hash_g_aarch64 bd J h m mlen) (hash_g_aarch64 bd J' h' m' mlen).
Proof. apply l_sponge_a64. Qed.
#[export] Hint Resolve l_absorb_a64 l_shake256_a64 l_hash_h_a64 l_hash_g_a64 : leak.
Lemma l_prf_a64 bd J J' h h' n k k' x x' :
  same any (mlkem_shake256_prf_aarch64 bd J h n k x) (mlkem_shake256_prf_aarch64 bd J' h' n k' x').
Proof. unfold mlkem_shake256_prf_aarch64. leak. Qed.
Lemma l_rkprf_a64 bd J J' p h h' k k' c c' :
  same any (mlkem_shake256_rkprf_aarch64 bd J p h k c) (mlkem_shake256_rkprf_aarch64 bd J' p h' k' c').
Proof.
  unfold mlkem_shake256_rkprf_aarch64.
  apply (same_bind' samecnt); [apply l_inc_init|]. intros a b E1.
  apply (same_bind' samecnt); [now apply l_inc_absorb_a64|]. intros a' b' E2.
  apply (same_bind' samecnt); [now apply l_inc_absorb_a64|]. intros a1 b1 E2'.
  apply (same_bind' samecnt); [now apply l_inc_finalize|]. intros a2 b2 E3.
  apply (same_bind' any); [now apply l_inc_squeeze_a64|]. intros [? ?] [? ?] _. leak.
Qed.
#[export] Hint Resolve l_prf_a64 l_rkprf_a64 : leak.
Lemma l_absorb4_a64 c J J' s s' r m0 m1 m2 m3 m0' m1' m2' m3' mlen p :
  same any (keccak_absorb_x4_aarch64 c J s r m0 m1 m2 m3 mlen p) (keccak_absorb_x4_aarch64 c J' s' r m0' m1' m2' m3' mlen p).
Proof.
  unfold keccak_absorb_x4_aarch64. apply (same_bind' (fun '(_, pos, l) '(_, pos', l') => pos = pos' /\ l = l')).
  - apply same_while; [now split| |]; intros [[a pos] l] [[b pos'] l'] [<- <-]; [reflexivity|]. leak. now apply same_ret.
  - intros [[a pos] l] [[b pos'] l'] [<- <-]. apply (same_bind' any); [|intros; leak]. leak.
Qed.
#[export] Hint Resolve l_absorb4_a64 : leak.
Lemma l_squeezeblocks4_a64 c J J' h0 h1 h2 h3 h0' h1' h2' h3' nb s s' r :
  same any (keccak_squeezeblocks_x4_aarch64 c J h0 h1 h2 h3 nb s r) (keccak_squeezeblocks_x4_aarch64 c J' h0' h1' h2' h3' nb s' r).
Proof.
  unfold keccak_squeezeblocks_x4_aarch64.
  apply (same_bind' (fun '(_, pos, n, _) '(_, pos', n', _) => pos = pos' /\ n = n')).
  - apply same_while; [now split| |]; intros [[[[[[? ?] ?] ?] pos] n] s1] [[[[[[? ?] ?] ?] pos'] n'] s2] [<- <-]; [reflexivity|].
    leak. now apply same_ret.
  - intros [[[? ?] ?] ?] [[[? ?] ?] ?] _. leak.
Qed.
Lemma l_shake256x4_absorb_a64 c J J' m0 m1 m2 m3 m0' m1' m2' m3' mlen :
  same any (shake256x4_absorb_aarch64 c J m0 m1 m2 m3 mlen) (shake256x4_absorb_aarch64 c J' m0' m1' m2' m3' mlen).
Proof. unfold shake256x4_absorb_aarch64. leak. Qed.
Lemma l_shake256x4_squeeze_a64 c J J' h0 h1 h2 h3 h0' h1' h2' h3' nb s s' :
  same any (shake256x4_squeezeblocks_aarch64 c J h0 h1 h2 h3 nb s) (shake256x4_squeezeblocks_aarch64 c J' h0' h1' h2' h3' nb s').
Proof. apply l_squeezeblocks4_a64. Qed.
#[export] Hint Resolve l_shake256x4_absorb_a64 l_shake256x4_squeeze_a64 : leak.
Lemma l_shake256x4_a64 c J J' h0 h1 h2 h3 h0' h1' h2' h3' n m0 m1 m2 m3 m0' m1' m2' m3' mlen :
  same any (shake256x4_aarch64 c J h0 h1 h2 h3 n m0 m1 m2 m3 mlen) (shake256x4_aarch64 c J' h0' h1' h2' h3' n m0' m1' m2' m3' mlen).
Proof. unfold shake256x4_aarch64. leak. Qed.
#[export] Hint Resolve l_shake256x4_a64 : leak.

(** ** Sponge: the same data with different junk *)
(** the same array of 25 lanes *)
Definition eqw (s t : list Z) : Prop := s = t /\ wfs s.
(** the same array of 100 lanes *)
Definition wfs4 (s : list Z) : Prop := zlen s = 100 /\ Forall wf64 s.
Definition eqw4 (s t : list Z) : Prop := s = t /\ wfs4 s.
Lemma same_val {A} (P : A -> Prop) m1 m2 a : same any m1 m2 -> fst m1 = Ok a -> fst m2 = Ok a -> P a ->
  same (fun x y => x = y /\ P x) m1 m2.
Proof.
  intros H E1 E2 HP S1 S2. destruct (H S1 S2) as [T _]. split; [exact T|]. rewrite E1, E2. split; [reflexivity|exact HP].
Qed.
Lemma l_permute_eq c J J' s : wfs s ->
  same eqw (KeccakF1600_StatePermute_aarch64 c J s) (KeccakF1600_StatePermute_aarch64 c J' s).
Proof.
  intros W. destruct (permute_a64_correct c J s W) as (t & E & Wt & _).
  pose proof (permute_a64_agrees c J s W) as E1. pose proof (permute_a64_agrees c J' s W) as E2.
  rewrite <- E1, E in E2. exact (same_val wfs _ _ t (l_permute_a64 c J J' s s) E E2 Wt).
Qed.
Lemma l_permute4_eq c J J' s t : eqw4 s t ->
  same eqw4 (KeccakF1600x4_StatePermute_aarch64 c J s) (KeccakF1600x4_StatePermute_aarch64 c J' t).
Proof.
  intros [<- W]. destruct (array_join4 s W) as (s0 & s1 & s2 & s3 & -> & W0 & W1 & W2 & W3).
  destruct (permute_x4_a64_correct c J s0 s1 s2 s3 W0 W1 W2 W3) as (t0 & t1 & t2 & t3 & E & (V0 & _) & (V1 & _) & (V2 & _) & V3 & _).
  pose proof (permute_x4_a64_agrees c J s0 s1 s2 s3 W0 W1 W2 W3) as E1.
  pose proof (permute_x4_a64_agrees c J' s0 s1 s2 s3 W0 W1 W2 W3) as E2.
  rewrite <- E1, E in E2.
  exact (same_val wfs4 _ _ (t0 ++ t1 ++ t2 ++ t3) (l_permute4_a64 c J J' _ _) E E2 (join4_array _ _ _ _ V0 V1 V2 V3)).
Qed.
Lemma upd_Forall {A} (P : A -> Prop) l n x l' : Forall P l -> P x -> upd l n x = Some l' -> Forall P l'.
Proof.
  intros HF HP. revert n l'. induction HF as [|h t Hh Ht IH]; intros n l'; [discriminate|]. destruct n; cbn [upd].
  - intros [= <-]. now constructor.
  - destruct (upd t n x) eqn:E; [|discriminate]. intros [= <-]. constructor; eauto.
Qed.
Lemma aset_wfs s i x t : wfs s -> wf64 x -> fst (aset s i x) = Ok t -> wfs t.
Proof.
  intros [L W] Hx. unfold aset, emit, bind. cbn. destruct (i <? 0); [discriminate|].
  destruct (upd s _ x) eqn:E; [|discriminate]. intros [= <-]. split.
  - unfold zlen. rewrite (upd_length _ _ _ _ E). exact L.
  - exact (upd_Forall _ _ _ _ _ W Hx E).
Qed.
Lemma aget_wf64 s i x : wfs s -> fst (aget s i) = Ok x -> wf64 x.
Proof.
  intros [_ W]. unfold aget, emit, bind. cbn. destruct (i <? 0); [discriminate|].
  destruct (nth_error s _) eqn:E; [|discriminate]. intros [= <-]. rewrite Forall_forall in W. eapply W, nth_error_In, E.
Qed.
Lemma same_know {A} (P : A -> Prop) (m : M A) : (forall a, fst m = Ok a -> P a) -> same (fun x y => x = y /\ P x) m m.
Proof. intros H S _. split; [reflexivity|]. destruct (fst m) eqn:E; auto. now apply (S r). Qed.
Lemma bytes_lane_bound l : bytes l -> 0 <= bytes_lane l < 2 ^ (8 * zlen l).
Proof.
  induction l as [|b l IH]; intros B; [cbn [bytes_lane]; change (2 ^ (8 * zlen (@nil Z))) with 1; lia|]. apply Forall_cons_iff in B as [Hb B]. specialize (IH B).
  cbn [bytes_lane]. rewrite zlen_cons. replace (8 * (1 + zlen l)) with (8 + 8 * zlen l) by lia.
  pose proof (zlen_nonneg l). rewrite Z.pow_add_r by lia. change (2 ^ 8) with 256. unfold is_byte in Hb. lia.
Qed.
Lemma bytes_state_wfs B : bytes B -> wfs (bytes_state B).
Proof.
  intros H. split; [reflexivity|]. unfold bytes_state. apply Forall_forall. intros x Hx. apply in_map_iff in Hx as (j & <- & _).
  assert (Hb : bytes (firstn 8 (skipn (8 * j) B))) by now apply Forall_firstn', Forall_skipn'.
  pose proof (bytes_lane_bound _ Hb) as [H1 H2]. split; [exact H1|]. eapply Z.lt_le_trans; [exact H2|].
  apply Z.pow_le_mono_r; [lia|]. unfold zlen. rewrite firstn_length. lia.
Qed.
Lemma aset_bytes s i x t : bytes s -> is_byte x -> fst (aset s i x) = Ok t -> bytes t.
Proof.
  intros B Hx. unfold aset, emit, bind. cbn. destruct (i <? 0); [discriminate|].
  destruct (upd _ _ _) eqn:E; [|discriminate]. intros [= <-]. exact (upd_Forall _ _ _ _ _ B Hx E).
Qed.
Lemma l_xor_eq s t d off len : eqw s t ->
  same eqw (KeccakF1600_StateXORBytes s d off len) (KeccakF1600_StateXORBytes t d off len).
Proof.
  intros [<- W]. unfold KeccakF1600_StateXORBytes, KeccakF1600_StateXORBytes_le. cbv zeta.
  eapply (same_bind' (fun a b => a = b /\ bytes a)).
  - apply same_for; [split; [reflexivity|]; apply (wfb_state s), W|]. intros j a b [<- B].
    pub. pub. apply (same_know bytes). intros u. apply aset_bytes; [exact B|]. unfold u8, is_byte. apply Z.mod_pos_bound. lia.
  - intros a b [<- B]. apply same_ret. split; [reflexivity|now apply bytes_state_wfs].
Qed.
Lemma bind_ok {A B} (m : M A) (f : A -> M B) b : fst (bind m f) = Ok b -> exists a, fst m = Ok a /\ fst (f a) = Ok b.
Proof.
  unfold bind. destruct m as [[a|r|] t]; [|discriminate|discriminate]. destruct (f a) as [o t'] eqn:E. cbn [fst]. intros H.
  exists a. now rewrite E.
Qed.
Lemma aslice_ok {A} (P : A -> Prop) l o n t : Forall P l -> fst (aslice l o n) = Ok t -> zlen t = n /\ Forall P t.
Proof.
  intros F H. apply bind_ok in H as (_ & _ & H). destruct (_ && _) eqn:E; [|discriminate]. injection H as <-.
  apply andb_true_iff in E as [E E3]. apply andb_true_iff in E as [E1 E2]. apply Z.leb_le in E1, E2, E3. split.
  - unfold zlen. rewrite firstn_length, skipn_length. lia.
  - now apply Forall_firstn', Forall_skipn'.
Qed.
Lemma asplice_ok {A} (P : A -> Prop) l o d t : Forall P l -> Forall P d -> fst (asplice l o d) = Ok t ->
  zlen t = zlen l /\ Forall P t.
Proof.
  intros F G H. apply bind_ok in H as (_ & _ & H). destruct (_ && _) eqn:E; [|discriminate]. injection H as <-.
  apply andb_true_iff in E as [E1 E2]. apply Z.leb_le in E1, E2. split.
  - unfold zlen. rewrite !app_length, firstn_length, skipn_length. lia.
  - apply Forall_app. split; [now apply Forall_firstn'|]. apply Forall_app. split; [exact G|now apply Forall_skipn'].
Qed.
Lemma on_wfs4 s o f t : wfs4 s -> (forall a b, wfs a -> fst (f a) = Ok b -> wfs b) ->
  fst (on_state s o f) = Ok t -> wfs4 t.
Proof.
  intros [L F] H E. apply bind_ok in E as (a & Ea & E). apply bind_ok in E as (b & Eb & E).
  destruct (H a b (aslice_ok _ _ _ _ _ F Ea) Eb) as [Lb Fb].
  destruct (asplice_ok wf64 s o _ t F (Forall_firstn' _ _ _ Fb) E) as [Lt Ft]. split; [congruence|exact Ft].
Qed.
Lemma xor_wfs s d off len t : wfs s -> fst (KeccakF1600_StateXORBytes s d off len) = Ok t -> wfs t.
Proof.
  intros W E. destruct (l_xor_eq s s d off len (conj eq_refl W)) as [_ H]; try (intros r; rewrite E; discriminate).
  rewrite E in H. apply H.
Qed.
Lemma l_xor4_eq s t d0 d1 d2 d3 off len : eqw4 s t ->
  same eqw4 (KeccakF1600x4_StateXORBytes s d0 d1 d2 d3 off len) (KeccakF1600x4_StateXORBytes t d0 d1 d2 d3 off len).
Proof.
  intros [<- W]. apply (same_know wfs4). intros u E. unfold KeccakF1600x4_StateXORBytes in E.
  apply bind_ok in E as (s0 & E0 & E). apply bind_ok in E as (s1 & E1 & E). apply bind_ok in E as (s2 & E2 & E).
  apply on_wfs4 in E0; [|exact W|intros; eapply xor_wfs; eauto].
  apply on_wfs4 in E1; [|exact E0|intros; eapply xor_wfs; eauto].
  apply on_wfs4 in E2; [|exact E1|intros; eapply xor_wfs; eauto].
  apply on_wfs4 in E; [|exact E2|intros; eapply xor_wfs; eauto]. exact E.
Qed.
Lemma l_absorb_eq_a64 c J J' s r m mlen p : wfs s ->
  same eqw (keccak_absorb_aarch64 c J s r m mlen p) (keccak_absorb_aarch64 c J' s r m mlen p).
Proof.
  intros W. unfold keccak_absorb_aarch64.
  apply (same_bind' (fun '(s, pos, l) '(s', pos', l') => eqw s s' /\ pos = pos' /\ l = l')).
  - apply same_while; [now repeat split; try apply W| |]; intros [[a pos] l] [[b pos'] l'] (E & <- & <-); [reflexivity|]. pub.
    eapply same_bind'; [apply l_xor_eq, E|]. intros x y [<- Wx].
    eapply same_bind'; [apply l_permute_eq, Wx|]. intros u v E'. apply same_ret. auto.
  - intros [[a pos] l] [[b pos'] l'] (E & <- & <-). apply (same_bind' eqw).
    { apply same_branch; [|now apply same_ret]. pub. now apply l_xor_eq. }
    intros x y E'. apply same_branch; [now apply l_xor_eq|].
    eapply same_bind'; [apply l_xor_eq, E'|]. intros u v E2. now apply l_xor_eq.
Qed.
Lemma l_absorb4_eq_a64 c J J' s r m0 m1 m2 m3 mlen p : eqw4 s s ->
  same eqw4 (keccak_absorb_x4_aarch64 c J s r m0 m1 m2 m3 mlen p) (keccak_absorb_x4_aarch64 c J' s r m0 m1 m2 m3 mlen p).
Proof.
  intros W. unfold keccak_absorb_x4_aarch64.
  apply (same_bind' (fun '(s, pos, l) '(s', pos', l') => eqw4 s s' /\ pos = pos' /\ l = l')).
  - apply same_while; [auto| |]; intros [[a pos] l] [[b pos'] l'] (E & <- & <-); [reflexivity|]. do 4 pub.
    eapply same_bind'; [apply l_xor4_eq, E|]. intros x y Ex.
    eapply same_bind'; [apply l_permute4_eq, Ex|]. intros u v E'. apply same_ret. auto.
  - intros [[a pos] l] [[b pos'] l'] (E & <- & <-). apply (same_bind' eqw4).
    { apply same_branch; [|now apply same_ret]. do 4 pub. now apply l_xor4_eq. }
    intros x y E'. apply same_branch; [now apply l_xor4_eq|].
    eapply same_bind'; [apply l_xor4_eq, E'|]. intros u v E2. now apply l_xor4_eq.
Qed.
(** blocks written to the same buffer *)
Definition eq_eqw (x y : list Z * list Z) : Prop := fst x = fst y /\ eqw (snd x) (snd y).
Definition eq_eqw4 (x y : x4 (list Z) * list Z) : Prop := fst x = fst y /\ eqw4 (snd x) (snd y).
Lemma l_squeeze_same_a64 c J J' h n s r : wfs s ->
  same eq_eqw (keccak_squeezeblocks_aarch64 c J h n s r) (keccak_squeezeblocks_aarch64 c J' h n s r).
Proof.
  intros W. unfold keccak_squeezeblocks_aarch64.
  apply (same_bind' (fun '(h, pos, l, s) '(h', pos', l', s') => h = h' /\ pos = pos' /\ l = l' /\ eqw s s')).
  - apply same_while; [now repeat split; try apply W| |]; intros [[[a pos] l] u] [[[b pos'] l'] v] (<- & <- & <- & E & Wu); [reflexivity|]. subst v.
    eapply same_bind'; [apply l_permute_eq, Wu|]. intros x y [<- Wx]. do 3 pub. apply same_ret. repeat split; auto; apply Wx.
  - intros [[[a pos] l] u] [[[b pos'] l'] v] (<- & <- & <- & E). apply same_ret. split; [reflexivity|exact E].
Qed.
Lemma l_squeeze4_same_a64 c J J' h0 h1 h2 h3 n s r : eqw4 s s ->
  same eq_eqw4 (keccak_squeezeblocks_x4_aarch64 c J h0 h1 h2 h3 n s r) (keccak_squeezeblocks_x4_aarch64 c J' h0 h1 h2 h3 n s r).
Proof.
  intros W. unfold keccak_squeezeblocks_x4_aarch64.
  apply (same_bind' (fun '(h, pos, l, s) '(h', pos', l', s') => h = h' /\ pos = pos' /\ l = l' /\ eqw4 s s')).
  - apply same_while; [auto| |]; intros [[[a pos] l] u] [[[b pos'] l'] v] (<- & <- & <- & E); [reflexivity|].
    destruct a as [[[a0 a1] a2] a3].
    eapply same_bind'; [apply l_permute4_eq, E|]. intros x y [<- Wx]. do 5 pub.
    match goal with |- same _ match ?e with _ => _ end _ => destruct e as [[[? ?] ?] ?] end.
    do 4 pub. apply same_ret. split; [reflexivity|]. split; [reflexivity|]. split; [reflexivity|]. split; [reflexivity|exact Wx].
  - intros [[[a pos] l] u] [[[b pos'] l'] v] (<- & <- & <- & E). apply same_ret. split; [reflexivity|exact E].
Qed.
(** blocks filling two buffers that may differ *)
Lemma l_squeeze_eq_a64 c J J' h h' n s r L : 0 <= r -> 0 <= n -> zlen h = L -> zlen h' = L -> L <= n * r -> wfs s ->
  same eq_eqw (keccak_squeezeblocks_aarch64 c J h n s r) (keccak_squeezeblocks_aarch64 c J' h' n s r).
Proof.
  intros Hr Hn L1 L2 HL W. unfold keccak_squeezeblocks_aarch64.
  apply (same_bind' (fun x y => (squeezed L x y r n /\ wfs (snd x)) /\ (let '(_, _, nb, _) := x in 0 <? nb) = false)).
  - apply same_while_exit.
    + split; [|exact W]. do 3 (split; [reflexivity|]). split; [now apply agree_0|]. lia.
    + intros [[[a pos] nb] t] [[[b pos'] nb'] t'] ((<- & <- & _) & _). reflexivity.
    + intros [[[a pos] nb] t] [[[b pos'] nb'] t'] ((<- & <- & <- & E & EP & Hb) & Wt) C. cbn [snd] in Wt.
      eapply same_bind'; [apply l_permute_eq, Wt|]. intros x ? [<- Wx].
      eapply same_bind'; [apply same_aslice|]. intros d1 d2 [D1 D2].
      eapply same_bind'; [now apply l_extract_eq|]. intros e1 e2 [<- HE].
      eapply same_bind'; [apply same_asplice_next, E|]. intros k1 k2 K. apply same_ret. rewrite HE in K.
      apply Z.ltb_lt in C. split; [|exact Wx]. split; [reflexivity|]. split; [reflexivity|]. split; [reflexivity|]. split; [exact K|].
      split; [rewrite EP; ring|lia].
  - intros [[[a pos] nb] t] [[[b pos'] nb'] t'] (((<- & <- & <- & E & EP & Hb) & Wt) & C). apply same_ret.
    apply Z.ltb_ge in C. split; [|split; [reflexivity|exact Wt]]. apply (agree_all L pos); auto. replace nb with 0 in EP by lia. lia.
Qed.
Lemma l_squeeze4_eq_a64 c J J' h0 h1 h2 h3 g0 g1 g2 g3 n s r L : 0 <= r -> 0 <= n ->
  zlen h0 = L -> zlen h1 = L -> zlen h2 = L -> zlen h3 = L -> zlen g0 = L -> zlen g1 = L -> zlen g2 = L -> zlen g3 = L ->
  L <= n * r -> eqw4 s s ->
  same eq_eqw4 (keccak_squeezeblocks_x4_aarch64 c J h0 h1 h2 h3 n s r) (keccak_squeezeblocks_x4_aarch64 c J' g0 g1 g2 g3 n s r).
Proof.
  intros Hr Hn L0 L1 L2 L3 M0 M1 M2 M3 HL W. unfold keccak_squeezeblocks_x4_aarch64.
  apply (same_bind' (fun x y => (squeezed4 L x y r n /\ eqw4 (snd x) (snd x)) /\ (let '(_, _, nb, _) := x in 0 <? nb) = false)).
  - apply same_while_exit.
    + split; [|exact W]. do 3 (split; [reflexivity|]). do 4 (split; [now apply agree_0|]). lia.
    + intros [[[[[[? ?] ?] ?] pos] nb] t] [[[[[[? ?] ?] ?] pos'] nb'] t'] ((<- & <- & _) & _). reflexivity.
    + intros [[[[[[a0 a1] a2] a3] pos] nb] t] [[[[[[b0 b1] b2] b3] pos'] nb'] t'] ((<- & <- & <- & E0 & E1 & E2 & E3 & EP & Hb) & Wt) C.
      cbn [snd] in Wt. eapply same_bind'; [apply l_permute4_eq, Wt|]. intros x ? [<- Wx].
      eapply same_bind'; [apply same_aslice|]. intros d0 d0' [D0 D0'].
      eapply same_bind'; [apply same_aslice|]. intros d1 d1' [D1 D1'].
      eapply same_bind'; [apply same_aslice|]. intros d2 d2' [D2 D2'].
      eapply same_bind'; [apply same_aslice|]. intros d3 d3' [D3 D3'].
      apply (same_bind' (fun '(e0, e1, e2, e3) f => (e0, e1, e2, e3) = f /\ zlen e0 = r /\ zlen e1 = r /\ zlen e2 = r /\ zlen e3 = r)).
      { unfold KeccakF1600x4_StateExtractBytes.
        eapply same_bind'; [apply same_refl|]. intros s0 ? <-.
        eapply same_bind'; [now apply l_extract_eq|]. intros e0 f0 [<- X0].
        eapply same_bind'; [apply same_refl|]. intros s1 ? <-.
        eapply same_bind'; [now apply l_extract_eq|]. intros e1 f1 [<- X1].
        eapply same_bind'; [apply same_refl|]. intros s2 ? <-.
        eapply same_bind'; [now apply l_extract_eq|]. intros e2 f2 [<- X2].
        eapply same_bind'; [apply same_refl|]. intros s3 ? <-.
        eapply same_bind'; [now apply l_extract_eq|]. intros e3 f3 [<- X3].
        apply same_ret. auto. }
      intros [[[e0 e1] e2] e3] f (<- & X0 & X1 & X2 & X3).
      eapply same_bind'; [apply same_asplice_next, E0|]. intros k0 k0' K0. rewrite X0 in K0.
      eapply same_bind'; [apply same_asplice_next, E1|]. intros k1 k1' K1. rewrite X1 in K1.
      eapply same_bind'; [apply same_asplice_next, E2|]. intros k2 k2' K2. rewrite X2 in K2.
      eapply same_bind'; [apply same_asplice_next, E3|]. intros k3 k3' K3. rewrite X3 in K3.
      apply same_ret. apply Z.ltb_lt in C. split; [|split; [reflexivity|exact Wx]]. do 3 (split; [reflexivity|]).
      do 4 (split; [assumption|]). split; [rewrite EP; ring|lia].
  - intros [[[[[[a0 a1] a2] a3] pos] nb] t] [[[[[[b0 b1] b2] b3] pos'] nb'] t'] (((<- & <- & <- & E0 & E1 & E2 & E3 & EP & Hb) & Wt) & C).
    apply same_ret. apply Z.ltb_ge in C. replace nb with 0 in EP by lia.
    assert (HP : L <= pos) by lia.
    rewrite (agree_all L pos _ _ E0 HP), (agree_all L pos _ _ E1 HP), (agree_all L pos _ _ E2 HP), (agree_all L pos _ _ E3 HP).
    split; [reflexivity|exact Wt].
Qed.
Lemma zeros_wfs J t u : fst (for_up 0 25 1 (fun i s => aset s i 0) (uninit J t 25)) = Ok u -> wfs u.
Proof.
  apply (wp_fst _ wfs). apply wp_zero_loop; [now apply zlen_uninit|auto].
Qed.
Lemma l_shake128_absorb_a64 c K K' J J' t seed n :
  same eqw (shake128_absorb_aarch64 c K (uninit J t 25) seed n) (shake128_absorb_aarch64 c K' (uninit J' t 25) seed n).
Proof.
  unfold shake128_absorb_aarch64. apply (same_bind eq).
  { apply (same_mono (agree 25 25)).
    - apply (same_for_to (agree 25)); [lia|now apply uninit_agree|]. intros j s1 s2 E. now apply same_aset_next.
    - intros a b E. apply (agree_all 25 25 a b E). lia. }
  intros a b E _ <-. apply l_absorb_eq_a64. exact (zeros_wfs _ _ _ E).
Qed.
Lemma l_shake128x4_absorb_a64 c K K' s0 s1 s2 s3 n :
  same eqw4 (shake128x4_absorb_aarch64 c K s0 s1 s2 s3 n) (shake128x4_absorb_aarch64 c K' s0 s1 s2 s3 n).
Proof.
  unfold shake128x4_absorb_aarch64. apply (same_bind eq); [apply same_refl|]. intros a b E _ <-. apply l_absorb4_eq_a64.
  split; [reflexivity|]. injection E as <-. split; [reflexivity|]. repeat constructor; vm_compute; congruence.
Qed.

(** ** Rejection sampling of the public matrix *)
Lemma same_aslice_len {A} (l1 l2 : list A) o n1 n2 : same any (aslice l1 o n1) (aslice l2 o n2).
Proof.
  unfold aslice. apply (same_bind' any); [apply same_emit|]. intros _ _ _.
  destruct (_ && _) eqn:E1; [|apply same_fail_l]. destruct (_ && (_ <=? Z.of_nat (length l2))) eqn:E2; [|apply same_fail_r].
  apply same_ret. exact I.
Qed.
Lemma l_rej_str_q r r' i a a' : same any (ModelA64Rej.str_q r i a) (ModelA64Rej.str_q r' i a').
Proof. apply same_asplice. Qed.
Lemma l_rej_ldr_q r r' i : same any (ModelA64Rej.ldr_q r i) (ModelA64Rej.ldr_q r' i).
Proof. unfold ModelA64Rej.ldr_q. leak. Qed.
#[export] Hint Resolve l_rej_str_q l_rej_ldr_q : leak.
(** all but the temporary output *)
Definition counters (x y : list Z * Z * Z * Z * Z) : Prop :=
  let '(_, o, c, p, n) := x in let '(_, o', c', p', n') := y in o = o' /\ c = c' /\ p = p' /\ n = n'.
#[local] Opaque table_data.
Lemma l_loop48 t t' buf q bits len o c p n :
  same counters (loop48 buf q bits len (t, o, c, p, n)) (loop48 buf q bits len (t', o, c, p, n)).
Proof.
  unfold loop48. cbn [snd]. apply same_while; [unfold counters; auto| |];
    intros [[[[a o1] c1] p1] n1] [[[[b o2] c2] p2] n2] (<- & <- & <- & <-); [reflexivity|].
  pub. match goal with x : (_ * _ * _)%type |- _ => destruct x as [[? ?] ?] end. do 4 pub.
  do 4 (eapply same_bind'; [apply l_rej_str_q|intros ? ? _]). apply same_ret. unfold counters. auto.
Qed.
Lemma l_tail24 st st' buf q bits len : counters st st' ->
  same same2 (tail24 buf q bits len st) (tail24 buf q bits len st').
Proof.
  destruct st as [[[[a o] c] p] n], st' as [[[[b o'] c'] p'] n']. intros (<- & <- & <- & <-). unfold tail24.
  apply same_branch; [now apply same_ret|]. apply same_branch; [now apply same_ret|].
  pub. match goal with x : (_ * _ * _)%type |- _ => destruct x as [[? ?] ?] end. do 2 pub.
  do 2 (eapply same_bind'; [apply l_rej_str_q|intros ? ? _]). now apply same_ret.
Qed.
Lemma l_rej_asm J J' r r' buf n : same same2 (rej_uniform_asm_clean J r buf n) (rej_uniform_asm_clean J' r' buf n).
Proof.
  unfold rej_uniform_asm_clean. eapply same_bind'; [apply l_loop48|]. intros st st' E.
  eapply same_bind'; [apply l_tail24, E|]. intros [? c] [? c'] E'. cbv [same2 snd] in E'. subst c'.
  apply (same_bind' any); [leak|]. intros ? ? _. now apply same_ret.
Qed.
Lemma l_rej_a64 J J' r r' target offset buf buflen :
  same same2 (rej_uniform_aarch64 J r target offset buf buflen) (rej_uniform_aarch64 J' r' target offset buf buflen).
Proof.
  unfold rej_uniform_aarch64. apply (same_bind' any); [apply same_aslice_len|]. intros t t' _.
  apply (same_bind' same2).
  { unfold rej_uniform_native_aarch64. apply same_branch; [now apply same_ret|apply l_rej_asm]. }
  intros [? ?] [? ?] E. cbv [same2 snd] in E. subst. leak_step.
  apply same_branch; [now apply same_ret|exact (l_rej _ _ target offset buf buflen)].
Qed.
Ltac rej_a64 := eapply same_bind'; [apply l_rej_a64|]; let E := fresh in intros [? ?] [? ?] E; cbv [same2 snd] in E; subst.
Lemma l_gen_matrix_entry_a64 bd J J' fuel e e' seed :
  same any (gen_matrix_entry_aarch64 bd J fuel e seed) (gen_matrix_entry_aarch64 bd J' fuel e' seed).
Proof.
  unfold gen_matrix_entry_aarch64. eapply same_bind'; [apply l_shake128_absorb_a64|]. intros s s' [<- W].
  eapply same_bind'.
  { apply (l_squeeze_eq_a64 _ _ _ _ _ _ _ _ (MLKEM_GEN_MATRIX_NBLOCKS * SHAKE128_RATE));
      [vm_compute; discriminate|vm_compute; discriminate|apply zlen_uninit; vm_compute; discriminate|apply zlen_uninit; vm_compute; discriminate|vm_compute; discriminate|exact W]. }
  intros [buf st] [? ?] [E1 [E2 W2]]. cbn [fst snd] in E1, E2, W2. subst. rej_a64.
  apply (same_bind' (fun '(_, s, b, c, _) '(_, s', b', c', _) => eqw s s' /\ b = b' /\ c = c')).
  - apply same_while; [unfold eqw; auto| |]; intros [[[[? a] b] c] x] [[[[? a'] b'] c'] x'] ([<- Wa] & <- & <-); [reflexivity|].
    eapply same_bind'; [apply (l_squeeze_same_a64 _ _ _ _ _ _ _ Wa)|].
    intros [? ?] [? ?] [E1 E2]. cbn [fst snd] in E1, E2. subst. rej_a64. now apply same_ret.
  - intros [[[[? a] b] c] x] [[[[? a'] b'] c'] x'] _. leak.
Qed.
Lemma l_gen_matrix_entry_x4_a64 bd J J' fuel v v' seed :
  same any (gen_matrix_entry_x4_aarch64 bd J fuel v seed) (gen_matrix_entry_x4_aarch64 bd J' fuel v' seed).
Proof.
  unfold gen_matrix_entry_x4_aarch64. do 4 pub. eapply same_bind'; [apply l_shake128x4_absorb_a64|]. intros s s' [<- W].
  eapply same_bind'.
  { apply (l_squeeze4_eq_a64 _ _ _ _ _ _ _ _ _ _ _ _ _ _ (MLKEM_GEN_MATRIX_NBLOCKS * SHAKE128_RATE));
      [vm_compute; discriminate|vm_compute; discriminate|apply zlen_uninit; vm_compute; discriminate|apply zlen_uninit; vm_compute; discriminate|apply zlen_uninit; vm_compute; discriminate|apply zlen_uninit; vm_compute; discriminate|apply zlen_uninit; vm_compute; discriminate|apply zlen_uninit; vm_compute; discriminate|apply zlen_uninit; vm_compute; discriminate|apply zlen_uninit; vm_compute; discriminate|vm_compute; discriminate|split; [reflexivity|exact W]]. }
  intros [[[[b0 b1] b2] b3] st] [[[[? ?] ?] ?] ?] [E1 E2]. cbn [fst snd] in E1, E2. injection E1 as <- <- <- <-.
  do 4 leak_step. do 4 rej_a64.
  apply (same_bind' (fun '(_, s, b, c, _) '(_, s', b', c', _) => eqw4 s s' /\ b = b' /\ c = c')).
  - apply same_while; [auto| |].
    + intros [[[[? ?] ?] [[[? ?] ?] ?]] ?] [[[[? ?] ?] [[[? ?] ?] ?]] ?] (_ & <- & E). injection E as <- <- <- <-. reflexivity.
    + intros [[[[? ?] [[[? ?] ?] ?]] [[[? ?] ?] ?]] [[[? ?] ?] ?]] [[[[? ?] [[[? ?] ?] ?]] [[[? ?] ?] ?]] [[[? ?] ?] ?]] ([<- W2] & E & E').
      injection E as <- <- <- <-. injection E' as <- <- <- <-.
      eapply same_bind'; [apply l_squeeze4_same_a64; split; [reflexivity|exact W2]|].
      intros [[[[? ?] ?] ?] ?] [[[[? ?] ?] ?] ?] [E1 E3]. cbn [fst snd] in E1, E3. injection E1 as <- <- <- <-.
      do 4 rej_a64. now apply same_ret.
  - intros [[[[? ?] ?] ?] [[[? ?] ?] ?]] [[[[? ?] ?] ?] [[[? ?] ?] ?]] _. leak.
Qed.
#[export] Hint Resolve l_gen_matrix_entry_a64 l_gen_matrix_entry_x4_a64 : leak.
Lemma l_gen_matrix_a64 bd J J' fuel p a a' seed tr : same any (gen_matrix_aarch64 bd J fuel p a seed tr) (gen_matrix_aarch64 bd J' fuel p a' seed tr).
Proof.
  unfold gen_matrix_aarch64. cbv zeta.
  apply (same_bind' (rows (fun _ => 32))).
  { apply (same_mono (rows (fun k => if k <? 4 then 32 else 0))).
    - apply (same_for_to (fun j => rows (fun k => if k <? j then 32 else 0))); [lia| |].
      + split; [|split]; try (apply zlen_uninit2; lia). intros k x y Hk E1 E2. destruct (Z.ltb_spec k 0); [lia|].
        unfold uninit2 in E1, E2. apply nth_error_In, in_map_iff in E1 as (i & <- & _).
        apply nth_error_In, in_map_iff in E2 as (i' & <- & _). apply agree_0; now apply zlen_uninit.
      + intros j s t H. eapply same_bind'; [apply rows_aget, H|]. intros x y E. cbv beta in E. rewrite Z.ltb_irrefl in E.
        eapply same_bind'; [apply same_memcpy_next, E|]. intros x1 y1 E1.
        eapply same_mono; [apply rows_aset; [exact H|exact E1]|]. intros l1 l2 G. eapply rows_le; [exact G|].
        intros k Hk. cbv beta. destruct (Z.eqb_spec k j), (Z.ltb_spec k (j+1)), (Z.ltb_spec k j); unfold MLKEM_SYMBYTES; lia.
    - intros l1 l2 G. eapply rows_le; [exact G|]. intros k Hk. cbv beta. destruct (Z.ltb_spec k 4); lia. }
  intros sx sx' HS.
  apply (same_bind' (fun x y => rows (fun _ => 32) (snd x) (snd y))).
  { apply same_for; [exact HS|]. intros i [b s] [b' t] HR. cbn [snd] in HR.
    apply (same_bind' (rows (fun _ => 34))).
    { apply (same_mono (rows (fun k => if k <? 4 then 34 else 32))).
      - apply (same_for_to (fun j => rows (fun k => if k <? j then 34 else 32))); [lia| |].
        + eapply rows_le; [exact HR|]. intros k Hk. destruct (Z.ltb_spec k 0); lia.
        + intros j s1 t1 H. do 2 pub. eapply same_bind'; [apply rows_aget, H|]. intros x y E. cbv beta in E. rewrite Z.ltb_irrefl in E.
          eapply same_bind'; [apply l_set_xy, E|]. intros x1 y1 E1.
          eapply same_mono; [apply rows_aset; [exact H|exact E1]|]. intros l1 l2 G. eapply rows_le; [exact G|].
          intros k Hk. cbv beta. destruct (Z.eqb_spec k j), (Z.ltb_spec k (j+1)), (Z.ltb_spec k j); lia.
      - intros l1 l2 G. eapply rows_le; [exact G|]. intros k Hk. cbv beta. destruct (Z.ltb_spec k 4); lia. }
    intros l1 l2 G. pose proof (rows_eq _ _ G) as <-. leak. apply same_ret. cbn [snd].
    eapply rows_le; [exact G|]. intros. lia. }
  intros [b s] [b' t] HR. cbn [snd] in HR. apply same_branch; [|leak].
  do 2 pub. eapply same_bind'; [apply rows_aget, HR|]. intros x y E.
  eapply same_bind'; [apply l_set_xy, E|]. intros x1 y1 E1. apply agree_all in E1; [subst y1|lia]. leak.
Qed.
#[export] Hint Resolve l_gen_matrix_a64 : leak.

(** ** Noise, packing and matrix-vector products *)
Lemma l_eta1_4x_a64 bd J J' p r0 r1 r2 r3 r0' r1' r2' r3' s s' n0 n1 n2 n3 n0' n1' n2' n3' :
  same any (poly_getnoise_eta1_4x_aarch64 bd J p r0 r1 r2 r3 s n0 n1 n2 n3) (poly_getnoise_eta1_4x_aarch64 bd J' p r0' r1' r2' r3' s' n0' n1' n2' n3').
Proof. unfold poly_getnoise_eta1_4x_aarch64. leak. Qed.
Lemma l_eta2_4x_a64 bd J J' p r0 r1 r2 r3 r0' r1' r2' r3' s s' n0 n1 n2 n3 n0' n1' n2' n3' :
  same any (poly_getnoise_eta2_4x_aarch64 bd J p r0 r1 r2 r3 s n0 n1 n2 n3) (poly_getnoise_eta2_4x_aarch64 bd J' p r0' r1' r2' r3' s' n0' n1' n2' n3').
Proof. apply l_eta1_4x_a64. Qed.
Lemma l_eta2_a64 bd J J' p r r' s s' n n' : same any (poly_getnoise_eta2_aarch64 bd J p r s n) (poly_getnoise_eta2_aarch64 bd J' p r' s' n').
Proof. unfold poly_getnoise_eta2_aarch64. leak. Qed.
Lemma l_eta1122_a64 bd J J' p r0 r1 r2 r3 r0' r1' r2' r3' s s' n0 n1 n2 n3 n0' n1' n2' n3' :
  same any (poly_getnoise_eta1122_4x_aarch64 bd J p r0 r1 r2 r3 s n0 n1 n2 n3) (poly_getnoise_eta1122_4x_aarch64 bd J' p r0' r1' r2' r3' s' n0' n1' n2' n3').
Proof.
  unfold poly_getnoise_eta1122_4x_aarch64. leak_step. cbv beta zeta; pairs.
  apply (same_bind' any); [destruct p; [leak|apply l_shake256x4_a64|apply l_shake256x4_a64]|]. intros ? ? _. leak.
Qed.
#[export] Hint Resolve l_eta1_4x_a64 l_eta2_4x_a64 l_eta2_a64 l_eta1122_a64 : leak.
Lemma l_keypair_noise_a64 bd J J' p s s' e e' k k' n n' : same any (keypair_noise_aarch64 bd J p s e k n) (keypair_noise_aarch64 bd J' p s' e' k' n').
Proof. unfold keypair_noise_aarch64. destruct p; leak. Qed.
Lemma l_enc_noise_a64 bd J J' p s s' e e' f f' b b' c c' : same any (enc_noise_aarch64 bd J p s e f b c) (enc_noise_aarch64 bd J' p s' e' f' b' c').
Proof. unfold enc_noise_aarch64. destruct p; leak. Qed.
Lemma l_matvec_a64 bd J J' p o o' a a' v v' c c' : same any (matvec_mul_aarch64 bd J p o a v c) (matvec_mul_aarch64 bd J' p o' a' v' c').
Proof. unfold matvec_mul_aarch64. leak. Qed.
Lemma l_pack_pk_a64 bd J J' p r r' k k' s s' : same any (pack_pk_aarch64 bd J p r k s) (pack_pk_aarch64 bd J' p r' k' s').
Proof. unfold pack_pk_aarch64. leak. Qed.
Lemma l_pack_sk_a64 bd J J' p r r' k k' : same any (pack_sk_aarch64 bd J p r k) (pack_sk_aarch64 bd J' p r' k').
Proof. unfold pack_sk_aarch64. leak. Qed.
Lemma l_unpack_sk_a64 bd J J' p r r' k k' : same any (unpack_sk_aarch64 bd J p r k) (unpack_sk_aarch64 bd J' p r' k').
Proof. unfold unpack_sk_aarch64. leak. Qed.
#[export] Hint Resolve l_pack_pk_a64 l_pack_sk_a64 l_unpack_sk_a64 : leak.
Lemma l_unpack_pk_a64 bd L L' p v v' J J' t k :
  same (fun x y => snd x = snd y) (unpack_pk_aarch64 bd L p v (uninit J t 32) k) (unpack_pk_aarch64 bd L' p v' (uninit J' t 32) k).
Proof.
  unfold unpack_pk_aarch64. leak_step. eapply same_bind'; [apply same_memcpy_next, uninit_agree; lia|]. intros x y E.
  apply agree_all in E; [subst y|unfold MLKEM_SYMBYTES; lia]. leak. now apply same_ret.
Qed.
#[export] Hint Resolve l_keypair_noise_a64 l_enc_noise_a64 l_matvec_a64 : leak.
Lemma l_indcpa_enc_a64 bd J J' fuel p c c' m m' pk k k' : same any (indcpa_enc_aarch64 bd J fuel p c m pk k) (indcpa_enc_aarch64 bd J' fuel p c' m' pk k').
Proof.
  unfold indcpa_enc_aarch64. cbv zeta. eapply same_bind'; [apply l_unpack_pk_a64|]. intros [x sd] [y ?] E. cbn [snd] in E. subst. leak.
Qed.
Lemma l_indcpa_dec_a64 bd J J' p m m' c k k' : same any (indcpa_dec_aarch64 bd J p m c k) (indcpa_dec_aarch64 bd J' p m' c k').
Proof. unfold indcpa_dec_aarch64. leak. Qed.
#[export] Hint Resolve l_indcpa_enc_a64 l_indcpa_dec_a64 : leak.
