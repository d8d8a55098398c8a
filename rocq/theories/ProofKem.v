(** * The KEM functions of kem.c compute the algorithms of FIPS 203, section 6 *)

From Coq Require Import ZArith List Bool Lia.
From Verif Require Import CSem ModelArith ModelKeccak ModelIndcpa ModelKem Spec202 Spec203 SpecLink SpecMem
  CSemFacts ProofScalar ProofBits ProofPack ProofCbd ProofSponge ProofHash ProofNttSpec
  ProofRing ProofNtt ProofMul ProofMatrix ProofNoise ProofPke ProofMem.
Import ListNotations.
Open Scope Z_scope.
Ltac Zify.zify_post_hook ::= idtac.
Global Opaque decode_vec K_PKE_KeyGen K_PKE_Encrypt K_PKE_Decrypt.

(** ** Sizes *)

Lemma sizes p : let P := set_of p in
  MLKEM_PUBLICKEYBYTES p = ek_size P /\ MLKEM_INDCPA_PUBLICKEYBYTES p = ek_size P /\
  MLKEM_SECRETKEYBYTES p = dk_size P /\ MLKEM_INDCPA_SECRETKEYBYTES p = 384 * k P /\
  MLKEM_POLYVECBYTES p = 384 * k P /\ MLKEM_CIPHERTEXTBYTES p = ct_size P /\ MLKEM_INDCPA_BYTES p = ct_size P.
Proof. destruct p; cbn; repeat split; reflexivity. Qed.

Lemma keys_out p b rho sigma ek dk : zlen rho = 32 -> bytes rho ->
  keys_from_seeds (set_of p) b rho sigma = Some (ek, dk) -> 0 <= b ->
  zlen ek = ek_size (set_of p) /\ bytes ek /\ zlen dk = 384 * k (set_of p) /\ bytes dk.
Proof.
  intros Lr Br E Hb. pose proof (MLKEM_K_range p) as HK. rewrite MLKEM_K_k in HK. set (P := set_of p) in *.
  unfold keys_from_seeds in E.
  destruct (ExpandA P b rho) as [A|] eqn:EA; [|discriminate].
  apply ExpandA_rows in EA as [[LA _] _]; [|exact Br|lia]. rewrite MLKEM_K_k in LA. fold P in LA.
  cbv zeta in E. set (s_hat := map NTT (noise_vec P (eta1 P) sigma 0)) in E.
  set (e_hat := map NTT (noise_vec P (eta1 P) sigma (k P))) in E.
  assert (Ls : zlen s_hat = k P) by (unfold s_hat, noise_vec; rewrite !zlen_map; apply zlen_range; lia).
  assert (Le : zlen e_hat = k P) by (unfold e_hat, noise_vec; rewrite !zlen_map; apply zlen_range; lia).
  assert (LM : zlen (mat_vec A s_hat) = k P) by now apply zlen_mat_vec.
  assert (LT : zlen (vec_plus (mat_vec A s_hat) e_hat) = k P) by (rewrite zlen_vec_plus; unfold vec in *; congruence).
  assert (F1 : forall x, In x (vec_plus (mat_vec A s_hat) e_hat) -> zlen x = 256).
  { intros x Hx. unfold vec_plus in Hx. apply in_map_iff in Hx as ([x1 x2] & <- & _). apply poly_plus_reduced. }
  assert (F2 : forall x, In x s_hat -> zlen x = 256).
  { intros x Hx. unfold s_hat in Hx. apply in_map_iff in Hx as (x1 & <- & _). apply NTT_reduced. }
  clearbody s_hat e_hat. injection E as <- <-.
  pose proof (zlen_concat_enc (k P) 12 (fun x => x) _ ltac:(lia) LT F1) as L1.
  pose proof (bytes_concat_enc 12 (fun x => x) _ ltac:(lia) F1) as B1.
  pose proof (zlen_concat_enc (k P) 12 (fun x => x) _ ltac:(lia) Ls F2) as L2.
  pose proof (bytes_concat_enc 12 (fun x => x) _ ltac:(lia) F2) as B2.
  cbv beta in L1, B1, L2, B2. change (fun x => ByteEncode 12 x) with (ByteEncode 12) in L1, B1, L2, B2.
  unfold ek_size. split; [|split; [|split]].
  - rewrite zlen_app. unfold vec in *. lia.
  - apply Forall_app; split; [exact B1|exact Br].
  - unfold vec in *. lia.
  - exact B2.
Qed.

Lemma keygen_out p b d ek dk : bytes d ->
  K_PKE_KeyGen (set_of p) b d = Some (ek, dk) -> 0 <= b ->
  zlen ek = ek_size (set_of p) /\ bytes ek /\ zlen dk = 384 * k (set_of p) /\ bytes dk.
Proof.
  intros Bd E Hb. pose proof (MLKEM_K_range p) as HK. rewrite MLKEM_K_k in HK. rewrite KeyGen_seeds in E. unfold G in E.
  assert (Bd' : bytes (d ++ [k (set_of p)])) by (apply Forall_app; split; [exact Bd|repeat constructor; lia]).
  pose proof (zlen_SHA3_512 _ Bd') as Lg. pose proof (bytes_SHA3_512 _ Bd') as Bg.
  eapply keys_out; [| |exact E|exact Hb].
  - rewrite zlen_slice; lia.
  - apply bytes_slice; auto; lia.
Qed.

Lemma encrypt_out p b ek m r c : K_PKE_Encrypt (set_of p) b ek m r = Some c -> 
  bytes ek -> 0 <= b ->
  zlen c = ct_size (set_of p) /\ bytes c.
Proof.
  intros E Bek Hb. pose proof (MLKEM_K_range p) as HK. rewrite MLKEM_K_k in HK.
  destruct (du_dv p) as (_ & _ & Hdu & Hdv). set (P := set_of p) in *.
  Transparent K_PKE_Encrypt. unfold K_PKE_Encrypt in E. Opaque K_PKE_Encrypt.
  cbv zeta in E. destruct (ExpandA P b _) as [A|] eqn:EA; [|discriminate].
  apply ExpandA_rows in EA as [_ [LA _]]; [|now apply bytes_slice'|lia]. rewrite MLKEM_K_k in LA. fold P in LA.
  injection E as <-. set (y := map NTT (noise_vec P (eta1 P) r 0)).
  set (e1 := noise_vec P (eta2 P) r (k P)).
  assert (Le : zlen e1 = k P) by (unfold e1, noise_vec; rewrite !zlen_map; apply zlen_range; lia).
  assert (LM : zlen (map NTT_inv (mat_vec (transpose A) y)) = k P) by (rewrite zlen_map; now apply zlen_mat_vec).
  assert (LT : zlen (vec_plus (map NTT_inv (mat_vec (transpose A) y)) e1) = k P) by (rewrite zlen_vec_plus; unfold vec in *; congruence).
  set (u := vec_plus (map NTT_inv (mat_vec (transpose A) y)) e1) in *.
  assert (F1 : forall x, In x u -> zlen (map (Compress (du P)) x) = 256).
  { intros x Hx. rewrite zlen_map. unfold u, vec_plus in Hx. apply in_map_iff in Hx as ([x1 x2] & <- & _). apply poly_plus_reduced. }
  pose proof (zlen_concat_enc (k P) (du P) (map (Compress (du P))) u ltac:(lia) LT F1) as L1.
  pose proof (bytes_concat_enc (du P) (map (Compress (du P))) u ltac:(lia) F1) as B1.
  clearbody u. match goal with |- context [poly_plus ?a ?b] => set (v := poly_plus a b) end.
  assert (Lv : zlen v = 256) by apply poly_plus_reduced. clearbody v.
  split.
  - rewrite zlen_app, (zlen_ByteEncode (dv P) _ (32 * dv P)) by (rewrite ?zlen_map; lia).
    unfold ct_size. unfold vec in *. lia.
  - apply Forall_app; split; [exact B1|]. apply (bytes_ByteEncode (dv P) _ (32 * dv P)); rewrite ?zlen_map; lia.
Qed.

Lemma decrypt_out P dk c : zlen (K_PKE_Decrypt P dk c) = 32 /\ bytes (K_PKE_Decrypt P dk c).
Proof.
  Transparent K_PKE_Decrypt. unfold K_PKE_Decrypt. Opaque K_PKE_Decrypt. cbv zeta. match goal with |- context [poly_minus ?a ?b] => set (w := poly_minus a b) end.
  assert (Lw : zlen w = 256) by apply poly_minus_reduced. clearbody w.
  split; [apply zlen_ByteEncode|apply (bytes_ByteEncode 1 _ 32)]; rewrite ?zlen_map; lia.
Qed.

(** ** Checks *)

Lemma decode_prefix p B y : 384 * k (set_of p) <= y ->
  decode_vec (set_of p) 12 (slice B 0 y) = decode_vec (set_of p) 12 B.
Proof.
  intros H. pose proof (MLKEM_K_range p) as HK. rewrite MLKEM_K_k in HK.
  Transparent decode_vec. unfold decode_vec. Opaque decode_vec. apply map_range_ext. intros i Hi.
  rewrite slice_slice0 by lia. reflexivity.
Qed.

Lemma wp_memcmp N a b (Q : Z -> Prop) : (a = b -> Q 0) -> (a <> b -> Q 1) -> wpn N (memcmp a b) Q.
Proof.
  intros H1 H2. unfold memcmp. apply wp_bind, wp_emit, wp_ret. destruct (list_eq_dec Z.eq_dec a b); auto.
Qed.

Lemma wp_check_pk N J p m pk ek (Q : Z -> Prop) : let P := set_of p in
  contains m pk ek -> zlen ek = ek_size P -> bytes ek ->
  (modulus_check P ek -> Q 0) -> (~ modulus_check P ek -> Q (-1)) ->
  wpn N (check_pk J p m pk) Q.
Proof.
  intros P Hc L B H0 H1. pose proof (MLKEM_K_range p) as HK. pose proof (MLKEM_K_k p) as EK.
  unfold check_pk, MLKEM_N. destruct (sizes p) as (_ & _ & _ & _ & E & _). rewrite E. clear E. fold P in EK |- *.
  unfold ek_size in L. rewrite EK in *.
  assert (Hs : contains m pk (slice ek 0 (384 * k P))).
  { replace pk with (pk + 0) by lia. apply contains_slice; auto; lia. }
  assert (Ls : zlen (slice ek 0 (384 * k P)) = 384 * k P) by (rewrite zlen_slice; lia).
  apply wp_bind, (wp_mload N _ _ _ _ _ Hs Ls).
  assert (Bs : bytes (slice ek 0 (384 * k P))) by (apply bytes_slice; auto; lia).
  apply wp_bind, wp_polyvec_frombytes; rewrite ?EK; auto; [apply uninit_polys; lia|lia|].
  apply wp_bind, wp_polyvec_reduce; [rewrite <- EK; apply fields_each; rewrite EK; lia|].
  rewrite <- EK, fields_decode. fold P. rewrite EK. unfold P at 2. rewrite decode_prefix by (fold P; lia). fold P.
  pose proof (decode_each p ek ltac:(rewrite EK; lia) B) as Hd. fold P in Hd. rewrite EK in Hd.
  destruct (each_vec _ _ _ Hd) as [V1 V2].
  apply wp_bind, wp_polyvec_tobytes; rewrite ?EK; auto. { apply zlen_uninit; lia. }
  apply wp_bind, (wp_mload N _ _ _ _ _ Hs Ls).
  apply wp_bind, wp_memcmp; intros HE; apply wp_branch; cbn [negb Z.eqb]; intros Eb; try discriminate; apply wp_ret.
  - apply H0. symmetry. exact HE.
  - apply H1. intros HM. apply HE. symmetry. exact HM.
Qed.

Lemma splice_all (l out : list Z) nn : zlen l = nn -> zlen out = nn -> l ++ skipn (Z.to_nat nn) out = l.
Proof. intros Ll Lo. rewrite skipn_all2; [apply app_nil_r|]. unfold zlen in *. lia. Qed.

Lemma wp_H {bo : byte_order} N J out m nn (Q : list Z -> Prop) : bytes m -> zlen m = nn -> nn < 2 ^ 63 -> zlen out = 32 ->
  Q (H m) -> wpn N (hash_h J out m nn) Q.
Proof.
  intros Bm <- Hl Lo HQ. unfold hash_h. apply wp_sha3_256; auto; try (pose proof (zlen_nonneg m); lia).
  rewrite slice_zlen by auto. change (skipn 32 out) with (skipn (Z.to_nat 32) out).
  rewrite splice_all; auto. now apply zlen_SHA3_256.
Qed.
Lemma wp_G {bo : byte_order} N J out m nn (Q : list Z -> Prop) : bytes m -> zlen m = nn -> nn < 2 ^ 63 -> zlen out = 64 ->
  (forall kr, zlen kr = 64 -> bytes kr -> G m = (slice kr 0 32, slice kr 32 64) -> Q kr) -> wpn N (hash_g J out m nn) Q.
Proof.
  intros Bm <- Hl Lo HQ. unfold hash_g. apply wp_sha3_512; auto; try (pose proof (zlen_nonneg m); lia).
  rewrite slice_zlen by auto. change (skipn 64 out) with (skipn (Z.to_nat 64) out).
  rewrite splice_all; auto.
  - apply HQ; [now apply zlen_SHA3_512|now apply bytes_SHA3_512|reflexivity].
  - now apply zlen_SHA3_512.
Qed.

Lemma k_range p : 2 <= k (set_of p) <= 4.
Proof. destruct p; cbn; lia. Qed.

Lemma wp_check_sk {bo : byte_order} N J p m sk dk (Q : Z -> Prop) : let P := set_of p in
  contains m sk dk -> zlen dk = dk_size P -> bytes dk ->
  (hash_check P dk -> Q 0) -> (~ hash_check P dk -> Q (-1)) ->
  wpn N (check_sk J p m sk) Q.
Proof.
  intros P Hc L B H0 H1. pose proof (k_range p) as HK. fold P in HK.
  unfold check_sk, MLKEM_SYMBYTES. destruct (sizes p) as (E1 & E2 & E3 & E4 & _). rewrite E1, E3, E4. clear E1 E2 E3 E4. fold P.
  unfold dk_size, ek_size in *.
  apply wp_bind, (wp_mload N _ _ (slice dk (384 * k P) (768 * k P + 32))).
  { apply contains_slice; auto; lia. } { rewrite zlen_slice; lia. }
  apply wp_bind, wp_H; [apply bytes_slice; auto; lia|rewrite zlen_slice; lia|lia|apply zlen_uninit; lia|].
  apply wp_bind, (wp_mload N _ _ (slice dk (768 * k P + 32) (768 * k P + 64))).
  { replace (sk + (768 * k P + 96) - 2 * 32) with (sk + (768 * k P + 32)) by lia. apply contains_slice; auto; lia. }
  { rewrite zlen_slice; lia. }
  apply wp_bind, wp_memcmp; intros HE; apply wp_branch; cbn [negb Z.eqb]; intros Eb; try discriminate; apply wp_ret.
  - apply H0. symmetry. exact HE.
  - apply H1. intros HM. apply HE. symmetry. exact HM.
Qed.

Lemma wp_rkprf {bo : byte_order} N J p out key c (Q : list Z -> Prop) : let P := set_of p in
  zlen out = 32 -> zlen key = 32 -> bytes key -> zlen c = ct_size P -> bytes c ->
  Q (Spec203.J (key ++ c)) -> wpn N (mlkem_shake256_rkprf J p out key c) Q.
Proof.
  intros P Lo Lk Bk Lc Bc HQ. pose proof (k_range p) as HK. fold P in HK. destruct (du_dv p) as (_ & _ & Hdu & Hdv). fold P in Hdu, Hdv.
  assert (Hct : 0 <= ct_size P < 9223372036854775808) by (unfold ct_size; nia).
  unfold mlkem_shake256_rkprf, MLKEM_SYMBYTES, MLKEM_SSBYTES. destruct (sizes p) as (_ & _ & _ & _ & _ & E & _). rewrite E. fold P.
  unfold shake256_inc_init, uninit_inc. apply wp_bind, (wp_inc_init N _ 136); [apply zlen_uninit; lia|lia|]. intros s1 H1.
  unfold shake256_inc_absorb, SHAKE256_RATE. apply wp_bind.
  eapply wp_inc_absorb; [exact H1|lia|exact Bk|lia|lia|]. intros s2 H2. cbn [app] in H2. rewrite slice_zlen in H2 by auto.
  apply wp_bind. eapply wp_inc_absorb; [exact H2|lia|exact Bc|lia|change (2 ^ 63) with 9223372036854775808; lia|]. intros s3 H3. rewrite slice_zlen in H3 by auto.
  apply wp_bind. unfold shake256_inc_finalize, SHAKE256_RATE. eapply wp_inc_finalize; [exact H3|lia|lia|]. intros s4 H4.
  apply wp_bind. unfold shake256_inc_squeeze, SHAKE256_RATE. eapply wp_inc_squeeze; [exact H4|lia|lia|lia|]. intros s5 _.
  apply wp_ret. rewrite splice_all; auto.
  unfold Spec203.J in HQ. rewrite SHAKE256_stream in HQ; [exact HQ|apply Forall_app; auto|lia].
Qed.

(** ** The three derandomised functions *)

Ltac apart_inv H := unfold all_apart in H;
  repeat match goal with
  | H : ForallOrdPairs apart (_ :: _) |- _ => inversion H; clear H; subst
  | H : Forall (apart _) (_ :: _) |- _ => inversion H; clear H; subst
  | H : Forall (apart _) [] |- _ => clear H
  | H : ForallOrdPairs apart [] |- _ => clear H
  end.
Ltac ua := unfold apart in *; cbn [fst snd] in *.

Lemma all_apart3 a b c : all_apart [a; b; c] -> apart a b /\ apart a c /\ apart b c.
Proof. intros H. apart_inv H. auto. Qed.
Lemma all_apart4 a b c d : all_apart [a; b; c; d] ->
  apart a b /\ apart a c /\ apart a d /\ apart b c /\ apart b d /\ apart c d.
Proof. intros H. apart_inv H. auto 10. Qed.

Ltac cases_if := repeat match goal with
  | |- context [(?a <=? ?b) && (?c <? ?d)] =>
     destruct (Z.leb_spec a b); destruct (Z.ltb_spec c d); cbn [andb]; try lia
  end.

Lemma accessible_sub m a nn b kk : accessible m a nn -> a <= b -> b + kk <= a + nn -> accessible m b kk.
Proof. intros H H1 H2 x Hx. apply H. lia. Qed.

Lemma overwrite_cons m a l t x : overwrite m ((a, l) :: t) x =
  if (a <=? x) && (x <? a + zlen l) then Some (nth (Z.to_nat (x - a)) l 0) else overwrite m t x.
Proof. reflexivity. Qed.
Lemma overwrite_app4 m a l1 l2 l3 l4 x : overwrite m [(a, l1 ++ l2 ++ l3 ++ l4)] x =
  overwrite m [(a, l1); (a + zlen l1, l2); (a + zlen l1 + zlen l2, l3); (a + zlen l1 + zlen l2 + zlen l3, l4)] x.
Proof.
  rewrite overwrite_app. rewrite !(overwrite_cons m a l1). rewrite overwrite_app.
  rewrite !(overwrite_cons m (a + zlen l1) l2). now rewrite overwrite_app.
Qed.

(** crypto_kem_keypair_derand with another way to make the K-PKE keys *)
Definition keypair_with {bo : byte_order} (inner : list Z -> list Z -> list Z -> M (list Z * list Z)) (J : junk) (p : pset) (m : mem)
  (pk sk coins : Z) : M (Z * mem) :=
  no_alias [(pk, MLKEM_PUBLICKEYBYTES p); (sk, MLKEM_SECRETKEYBYTES p);
            (coins, 2 * MLKEM_SYMBYTES)] ;;;
  pkb <- mload m pk (MLKEM_INDCPA_PUBLICKEYBYTES p) ;;
  skb <- mload m sk (MLKEM_INDCPA_SECRETKEYBYTES p) ;;
  c <- mload m coins MLKEM_SYMBYTES ;;
  '(pkb, skb) <- inner pkb skb c ;;
  m <- mstore m pk pkb ;;
  m <- mstore m sk skb ;;
  emit (ECopy (MLKEM_PUBLICKEYBYTES p)) ;;;
  b <- mload m pk (MLKEM_PUBLICKEYBYTES p) ;;
  m <- mstore m (sk + MLKEM_INDCPA_SECRETKEYBYTES p) b ;;
  b <- mload m pk (MLKEM_PUBLICKEYBYTES p) ;;
  h <- mload m (sk + MLKEM_SECRETKEYBYTES p - 2 * MLKEM_SYMBYTES) MLKEM_SYMBYTES ;;
  h <- hash_h (sub J 1) h b (MLKEM_PUBLICKEYBYTES p) ;;
  m <- mstore m (sk + MLKEM_SECRETKEYBYTES p - 2 * MLKEM_SYMBYTES) h ;;
  emit (ECopy MLKEM_SYMBYTES) ;;;
  z <- mload m (coins + MLKEM_SYMBYTES) MLKEM_SYMBYTES ;;
  m <- mstore m (sk + MLKEM_SECRETKEYBYTES p - MLKEM_SYMBYTES) z ;;
  ret (0, m).
Lemma keypair_derand_with {bo : byte_order} J fuel p m pk sk coins : crypto_kem_keypair_derand J fuel p m pk sk coins =
  keypair_with (indcpa_keypair_derand (sub J 0) fuel p) J p m pk sk coins.
Proof. reflexivity. Qed.

Lemma wp_keypair_with {bo : byte_order} (N : Prop) inner J p m pk sk coins d z (R : list Z -> list Z -> Prop) (Q : Z * mem -> Prop) :
  let P := set_of p in
  byte_memory m -> accessible m pk (ek_size P) -> accessible m sk (dk_size P) ->
  contains m coins (d ++ z) -> zlen d = 32 -> zlen z = 32 ->
  all_apart [(pk, ek_size P); (sk, dk_size P); (coins, 64)] ->
  (forall pk0 sk0, zlen pk0 = ek_size P -> zlen sk0 = 384 * k P -> wpn N (inner pk0 sk0 d) (fun '(ek, dk) => R ek dk)) ->
  (forall ek dk, R ek dk -> zlen ek = ek_size P /\ bytes ek /\ zlen dk = 384 * k P /\ bytes dk) ->
  (forall ek dk m', R ek dk ->
     (forall x, m' x = overwrite m [(pk, ek); (sk, dk ++ ek ++ H ek ++ z)] x) -> Q (0, m')) ->
  wpn N (keypair_with inner J p m pk sk coins) Q.
Proof.
  intros P Bm Apk Ask Hc Ld Lz Hap HI HR HQ. pose proof (k_range p) as HK. fold P in HK.
  unfold keypair_with, MLKEM_SYMBYTES. destruct (sizes p) as (E1 & E2 & E3 & E4 & _).
  rewrite E1, E2, E3, E4. clear E1 E2 E3 E4. fold P. change (2 * 32) with 64.
  apply wp_bind, wp_no_alias; auto. apply all_apart3 in Hap as (A1 & A2 & A3).
  pose proof (contains_bytes _ _ _ Bm Hc) as Bdz. apply Forall_app in Bdz as [Bd Bz].
  apply contains_app in Hc as [Hd Hz]. rewrite Ld in Hz.
  assert (Hek : 0 <= ek_size P) by (unfold ek_size; lia). assert (Hdk : 0 <= dk_size P) by (unfold dk_size; lia).
  destruct (contents m pk _ Hek Apk) as (pk0 & Lpk0 & Cpk0).
  apply wp_bind, (wp_mload N _ _ _ _ _ Cpk0 Lpk0).
  destruct (contents m sk (384 * k P)) as (sk0 & Lsk0 & Csk0); [lia|eapply accessible_sub; [exact Ask|lia|unfold dk_size; lia]|].
  apply wp_bind, (wp_mload N _ _ _ _ _ Csk0 Lsk0).
  apply wp_bind, (wp_mload N _ _ _ _ _ Hd Ld).
  apply wp_bind. eapply wp_mono; [apply HI; [exact Lpk0|exact Lsk0]|]. intros [ek dk] HE.
  destruct (HR ek dk HE) as (Lek & Bek & Ldk & Bdk).
  specialize (fun m' => HQ ek dk m' HE).
  assert (LH : zlen (H ek) = 32) by now apply zlen_SHA3_256.
  assert (BH : bytes (H ek)) by now apply bytes_SHA3_256.
  ua. unfold ek_size, dk_size in *. set (K := k P) in *. clearbody K.
  apply wp_bind, wp_mstore; [now rewrite Lek|]. set (m1 := mwrite m pk ek).
  apply wp_bind, wp_mstore.
  { apply accessible_mwrite. rewrite Ldk. eapply accessible_sub; [exact Ask|lia|lia]. } set (m2 := mwrite m1 sk dk).
  assert (C1 : contains m1 pk ek) by apply contains_same.
  assert (C2 : contains m2 pk ek) by (apply contains_other; [ua; lia|exact C1]).
  apply wp_bind, wp_emit. apply wp_bind, (wp_mload N _ _ _ _ _ C2); [lia|].
  apply wp_bind, wp_mstore.
  { do 2 apply accessible_mwrite. rewrite Lek. eapply accessible_sub; [exact Ask|lia|lia]. } set (m3 := mwrite m2 (sk + 384 * K) ek).
  assert (C3 : contains m3 pk ek) by (apply contains_other; [ua; lia|exact C2]).
  apply wp_bind, (wp_mload N _ _ _ _ _ C3); [lia|].
  assert (A3' : accessible m3 sk (768 * K + 96)) by (do 3 apply accessible_mwrite; exact Ask).
  destruct (contents m3 (sk + (768 * K + 96) - 64) 32) as (h0 & Lh0 & Ch0); [lia|eapply accessible_sub; [exact A3'|lia|lia]|].
  apply wp_bind, (wp_mload N _ _ _ _ _ Ch0 Lh0).
  apply wp_bind, wp_H; auto; [lia|].
  apply wp_bind, wp_mstore. { rewrite LH. eapply accessible_sub; [exact A3'|lia|lia]. }
  set (m4 := mwrite m3 _ (H ek)).
  apply wp_bind, wp_emit.
  assert (Cz : contains m4 (coins + 32) z).
  { repeat (apply contains_other; [ua; lia|]). exact Hz. }
  apply wp_bind, (wp_mload N _ _ _ _ _ Cz Lz).
  apply wp_bind, wp_mstore. { apply accessible_mwrite. rewrite Lz. eapply accessible_sub; [exact A3'|lia|lia]. }
  set (m5 := mwrite m4 _ z).
  apply wp_ret, HQ.
  intros x. rewrite overwrite_cons, overwrite_app4, Ldk, Lek, LH.
  unfold m5, m4, m3, m2, m1. repeat (rewrite mwrite_eq; cbn [overwrite]). rewrite ?Ldk, ?Lek, ?LH, ?Lz.
  cases_if; try reflexivity; do 3 f_equal; lia.
Qed.

Lemma wp_keypair_derand {bo : byte_order} (N : Prop) J fuel p m pk sk coins d z (Q : Z * mem -> Prop) : let P := set_of p in
  byte_memory m -> accessible m pk (ek_size P) -> accessible m sk (dk_size P) ->
  contains m coins (d ++ z) -> zlen d = 32 -> zlen z = 32 ->
  all_apart [(pk, ek_size P); (sk, dk_size P); (coins, 64)] ->
  (ML_KEM_KeyGen_internal P (3 + Z.of_nat fuel) d z = None -> N) ->
  (forall ek dk m', ML_KEM_KeyGen_internal P (3 + Z.of_nat fuel) d z = Some (ek, dk) ->
     (forall x, m' x = overwrite m [(pk, ek); (sk, dk)] x) -> Q (0, m')) ->
  wpn N (crypto_kem_keypair_derand J fuel p m pk sk coins) Q.
Proof.
  intros P Bm Apk Ask Hc Ld Lz Hap HN HQ. pose proof (k_range p) as HK. fold P in HK.
  pose proof (contains_bytes _ _ _ Bm Hc) as Bdz. apply Forall_app in Bdz as [Bd Bz].
  pose proof (MLKEM_K_k p) as EK. fold P in EK. rewrite keypair_derand_with.
  apply (wp_keypair_with N _ J p m pk sk coins d z
    (fun ek dk => K_PKE_KeyGen P (3 + Z.of_nat fuel) d = Some (ek, dk))); auto.
  - intros pk0 sk0 L1 L2. fold P in L1, L2. apply wp_indcpa_keypair; auto; rewrite ?EK; try (unfold ek_size in *; lia).
    fold P. intros E. apply HN. unfold ML_KEM_KeyGen_internal. now rewrite E.
  - intros ek dk E. exact (keygen_out p _ d ek dk Bd E ltac:(lia)).
  - intros ek dk m' E Hm. apply (HQ ek (dk ++ ek ++ H ek ++ z) m'); auto. unfold ML_KEM_KeyGen_internal. now rewrite E.
Qed.

Lemma ct_size_range p : 0 <= ct_size (set_of p) < 2147483648.
Proof. destruct p; cbn; lia. Qed.
Lemma splice_prefix (l out : list Z) nn : zlen l = nn -> nn <= zlen out ->
  splice out 0 l = l ++ skipn (Z.to_nat nn) out.
Proof. intros <- _. unfold splice, zlen. cbn [Z.to_nat firstn app Nat.add]. now rewrite Nat2Z.id. Qed.
Lemma slice_app_l (a b : list Z) nn : zlen a = nn -> slice (a ++ b) 0 nn = a.
Proof.
  intros <-. unfold slice, zlen. cbn [Z.to_nat skipn]. rewrite Z.sub_0_r, Nat2Z.id, firstn_app, firstn_all, Nat.sub_diag.
  cbn [firstn]. apply app_nil_r.
Qed.
Lemma slice_app_r (a b : list Z) x y : zlen a = x -> y = x + zlen b -> slice (a ++ b) x y = b.
Proof.
  intros <- ->. unfold slice, zlen. rewrite Nat2Z.id, skipn_app, skipn_all, Nat.sub_diag. cbn [skipn app].
  apply firstn_all2. lia.
Qed.

Lemma wp_enc_derand {bo : byte_order} (N : Prop) J fuel p m ct ss pk coins ek mm (Q : Z * mem -> Prop) : let P := set_of p in
  byte_memory m -> accessible m ct (ct_size P) -> accessible m ss 32 ->
  contains m pk ek -> zlen ek = ek_size P -> contains m coins mm -> zlen mm = 32 ->
  all_apart [(ct, ct_size P); (ss, 32); (pk, ek_size P); (coins, 32)] ->
  (~ modulus_check P ek -> Q (-1, m)) ->
  (modulus_check P ek -> ML_KEM_Encaps_internal P (3 + Z.of_nat fuel) ek mm = None -> N) ->
  (forall K c m', modulus_check P ek -> ML_KEM_Encaps_internal P (3 + Z.of_nat fuel) ek mm = Some (K, c) ->
     (forall x, m' x = overwrite m [(ct, c); (ss, K)] x) -> Q (0, m')) ->
  wpn N (crypto_kem_enc_derand J fuel p m ct ss pk coins) Q.
Proof.
  intros P Bm Act Ass Cpk Lek Cm Lm Hap Hbad HN HQ. pose proof (k_range p) as HK. fold P in HK.
  pose proof (contains_bytes _ _ _ Bm Cpk) as Bek. pose proof (contains_bytes _ _ _ Bm Cm) as Bmm.
  pose proof (ct_size_range p) as Hct. fold P in Hct.
  unfold crypto_kem_enc_derand, MLKEM_INDCPA_MSGBYTES, MLKEM_SYMBYTES, MLKEM_SSBYTES. destruct (sizes p) as (E1 & E2 & E3 & E4 & _ & E5 & E6).
  rewrite E1, E2, E5, E6. clear E1 E2 E3 E4 E5 E6. fold P. change (2 * 32) with 64.
  apply wp_bind, wp_no_alias; auto. apply all_apart4 in Hap as (A1 & A2 & A3 & A4 & A5 & A6).
  assert (Hek : 0 <= ek_size P < 2 ^ 63) by (unfold ek_size; change (2 ^ 63) with 9223372036854775808; lia).
  apply wp_bind, (wp_check_pk N _ p m pk ek); [exact Cpk|exact Lek|exact Bek|..]; fold P; intros HM; apply wp_branch; cbn [negb Z.eqb]; intros Eb; try discriminate; clear Eb.
  2:{ apply wp_ret. now apply Hbad. }
  specialize (HN HM). clear Hbad.
  apply wp_bind, (wp_mload N _ _ _ _ _ Cm Lm).
  apply wp_bind, wp_memcpy; try lia. { rewrite zlen_uninit; lia. }
  change (0 + 32) with 32. rewrite slice_zlen by auto.
  rewrite (splice_prefix mm _ 32) by (auto; rewrite zlen_uninit; lia).
  set (tl := skipn _ _). assert (Ltl : zlen tl = 32) by (unfold tl; rewrite zlen_skipn; rewrite zlen_uninit; lia). clearbody tl.
  apply wp_bind, (wp_mload N _ _ _ _ _ Cpk Lek).
  apply wp_bind, wp_aslice; try (rewrite ?zlen_app; lia). change (32 + 32) with 64.
  rewrite slice_app_r by lia.
  apply wp_bind, wp_H; auto; try lia.
  assert (LH : zlen (H ek) = 32) by now apply zlen_SHA3_256.
  assert (BH : bytes (H ek)) by now apply bytes_SHA3_256.
  apply wp_bind, wp_asplice; [lia|rewrite zlen_app; lia|].
  replace (splice (mm ++ tl) 32 (H ek)) with (mm ++ H ek).
  2:{ rewrite <- (app_nil_r tl). rewrite splice_app by lia. now rewrite app_nil_r. }
  apply wp_bind, wp_G; [apply Forall_app; auto|rewrite zlen_app; lia|lia|apply zlen_uninit; lia|].
  intros kr Lkr Bkr EG. unfold ML_KEM_Encaps_internal in HN, HQ. rewrite EG in HN, HQ. cbv beta iota in HN, HQ.
  destruct (contents m ct (ct_size P)) as (ct0 & Lct0 & Cct0); [lia|exact Act|].
  apply wp_bind, (wp_mload N _ _ _ _ _ Cct0 Lct0).
  apply wp_bind, wp_aslice; try (rewrite ?zlen_app; lia). change (0 + 32) with 32. rewrite slice_app_l by auto.
  apply wp_bind, (wp_mload N _ _ _ _ _ Cpk Lek).
  apply wp_bind, wp_aslice; try lia. change (32 + 32) with 64.
  pose proof (MLKEM_K_k p) as EK. fold P in EK.
  apply wp_bind, wp_indcpa_enc; auto; fold P; rewrite ?EK; unfold ek_size, ct_size in *; auto.
  { rewrite zlen_slice; lia. } { apply bytes_slice; auto; lia. }
  { intros E. apply HN. now rewrite E. }
  intros c E. rewrite E in HQ. clear HN.
  pose proof (encrypt_out p _ _ _ _ _ E Bek ltac:(lia)) as (Lc & Bc). fold P in Lc. unfold ct_size in Lc.
  apply wp_bind, wp_mstore; [now rewrite Lc|].
  apply wp_bind, wp_emit. apply wp_bind, wp_aslice; try lia. change (0 + 32) with 32.
  assert (LK : zlen (slice kr 0 32) = 32) by (rewrite zlen_slice; lia).
  apply wp_bind, wp_mstore; [apply accessible_mwrite; now rewrite LK|].
  apply wp_ret. eapply HQ; [exact HM|reflexivity|]. intros x.
  repeat (rewrite mwrite_eq; cbn [overwrite]). rewrite LK, Lc. ua.
  cases_if; reflexivity.
Qed.

Lemma wp_dec {bo : byte_order} (N : Prop) J fuel p m ss ct sk dk c (Q : Z * mem -> Prop) : let P := set_of p in
  byte_memory m -> accessible m ss 32 ->
  contains m sk dk -> zlen dk = dk_size P -> contains m ct c -> zlen c = ct_size P ->
  all_apart [(ss, 32); (ct, ct_size P); (sk, dk_size P)] ->
  (~ hash_check P dk -> Q (-1, m)) ->
  (hash_check P dk -> ML_KEM_Decaps_internal P (3 + Z.of_nat fuel) dk c = None -> N) ->
  (forall K m', hash_check P dk -> ML_KEM_Decaps_internal P (3 + Z.of_nat fuel) dk c = Some K ->
     (forall x, m' x = overwrite m [(ss, K)] x) -> Q (0, m')) ->
  wpn N (crypto_kem_dec J fuel p m ss ct sk) Q.
Proof.
  intros P Bm Ass Csk Ldk Cct Lc Hap Hbad HN HQ. pose proof (k_range p) as HK. fold P in HK.
  pose proof (contains_bytes _ _ _ Bm Csk) as Bdk. pose proof (contains_bytes _ _ _ Bm Cct) as Bc.
  pose proof (ct_size_range p) as Hct. fold P in Hct.
  unfold crypto_kem_dec, MLKEM_INDCPA_MSGBYTES, MLKEM_SYMBYTES, MLKEM_SSBYTES. destruct (sizes p) as (E1 & E2 & E3 & E4 & _ & E5 & E6).
  rewrite E2, E3, E4, E5, E6. clear E1 E2 E3 E4 E5 E6. fold P. change (2 * 32) with 64.
  apply wp_bind, wp_no_alias; auto. apply all_apart3 in Hap as (A1 & A2 & A3).
  apply wp_bind, (wp_check_sk N _ p m sk dk); [exact Csk|exact Ldk|exact Bdk|..]; fold P; intros HM; apply wp_branch; cbn [negb Z.eqb]; intros Eb; try discriminate; clear Eb.
  2:{ apply wp_ret. now apply Hbad. }
  specialize (HN HM). clear Hbad. unfold dk_size in *.
  unfold ML_KEM_Decaps_internal in HN, HQ. cbv zeta in HN, HQ.
  set (dkp := slice dk 0 (384 * k P)) in *. set (ek := slice dk (384 * k P) (768 * k P + 32)) in *.
  set (h := slice dk (768 * k P + 32) (768 * k P + 64)) in *. set (z := slice dk (768 * k P + 64) (768 * k P + 96)) in *.
  assert (Cdkp : contains m sk dkp) by (replace sk with (sk + 0) by lia; apply contains_slice; auto; lia).
  assert (Cek : contains m (sk + 384 * k P) ek) by (apply contains_slice; auto; lia).
  assert (Ch : contains m (sk + (768 * k P + 96) - 64) h).
  { replace (sk + (768 * k P + 96) - 64) with (sk + (768 * k P + 32)) by lia. apply contains_slice; auto; lia. }
  assert (Cz : contains m (sk + (768 * k P + 96) - 32) z).
  { replace (sk + (768 * k P + 96) - 32) with (sk + (768 * k P + 64)) by lia. apply contains_slice; auto; lia. }
  assert (Ldkp : zlen dkp = 384 * k P) by (unfold dkp; rewrite zlen_slice; lia).
  assert (Lek : zlen ek = 384 * k P + 32) by (unfold ek; rewrite zlen_slice; lia).
  assert (Lh : zlen h = 32) by (unfold h; rewrite zlen_slice; lia).
  assert (Lz : zlen z = 32) by (unfold z; rewrite zlen_slice; lia).
  assert (Bdkp : bytes dkp) by (apply bytes_slice; auto; lia). assert (Bek : bytes ek) by (apply bytes_slice; auto; lia).
  assert (Bh : bytes h) by (apply bytes_slice; auto; lia). assert (Bz : bytes z) by (apply bytes_slice; auto; lia).
  clearbody dkp ek h z.
  pose proof (MLKEM_K_k p) as EK. fold P in EK.
  apply wp_bind, (wp_mload N _ _ _ _ _ Cct Lc). apply wp_bind, (wp_mload N _ _ _ _ _ Cdkp Ldkp).
  apply wp_bind, wp_aslice; try lia. { rewrite zlen_uninit; lia. } change (0 + 32) with 32.
  apply wp_bind, wp_indcpa_dec; fold P; rewrite ?EK; auto.
  destruct (decrypt_out P dkp c) as [Lm Bmm]. set (mm := K_PKE_Decrypt P dkp c) in *. clearbody mm.
  apply wp_bind, wp_asplice; [lia|rewrite zlen_uninit; lia|].
  rewrite (splice_prefix mm _ 32) by (auto; rewrite zlen_uninit; lia).
  set (tl := skipn _ _). assert (Ltl : zlen tl = 32) by (unfold tl; rewrite zlen_skipn; rewrite zlen_uninit; lia). clearbody tl.
  apply wp_bind, (wp_mload N _ _ _ _ _ Ch Lh).
  apply wp_bind, wp_memcpy; try (rewrite ?zlen_app; lia). change (0 + 32) with 32. rewrite slice_zlen by auto.
  replace (splice (mm ++ tl) 32 h) with (mm ++ h).
  2:{ rewrite <- (app_nil_r tl). rewrite splice_app by lia. now rewrite app_nil_r. }
  apply wp_bind, wp_G; [apply Forall_app; auto|rewrite zlen_app; lia|lia|apply zlen_uninit; lia|].
  intros kr Lkr Bkr EG. rewrite EG in HN, HQ. cbv beta iota in HN, HQ.
  apply wp_bind, wp_aslice; try lia. { rewrite zlen_uninit; lia. } rewrite Z.add_0_l.
  apply wp_bind, wp_aslice; try (rewrite ?zlen_app; lia). change (0 + 32) with 32. rewrite slice_app_l by auto.
  apply wp_bind, (wp_mload N _ _ _ _ _ Cek Lek).
  apply wp_bind, wp_aslice; try lia. change (32 + 32) with 64.
  apply wp_bind, wp_indcpa_enc; auto; fold P; rewrite ?EK; auto.
  { rewrite zlen_slice; rewrite ?zlen_uninit; unfold ct_size in *; lia. }
  { rewrite zlen_slice; lia. } { apply bytes_slice; auto; lia. }
  { intros E. apply HN. now rewrite E. }
  intros c' E. rewrite E in HQ. clear HN.
  pose proof (encrypt_out p _ _ _ _ _ E Bek ltac:(lia)) as (Lc' & Bc'). fold P in Lc'.
  apply wp_bind, wp_asplice; [lia|rewrite zlen_uninit; lia|].
  rewrite (splice_prefix c' _ (ct_size P)) by (auto; rewrite zlen_uninit; lia).
  set (tl2 := skipn _ _). assert (Ltl2 : zlen tl2 = 32) by (unfold tl2; rewrite zlen_skipn; rewrite zlen_uninit; lia). clearbody tl2.
  apply wp_bind, (wp_mload N _ _ _ _ _ Cct Lc).
  apply wp_bind, wp_ct_memcmp; try (rewrite ?zlen_app; lia). { now rewrite slice_zlen. } { now rewrite slice_app_l. }
  rewrite (slice_zlen c) by auto. rewrite slice_app_l by auto.
  destruct (contents m ss 32) as (ss0 & Lss0 & Css0); [lia|exact Ass|].
  apply wp_bind, (wp_mload N _ _ _ _ _ Css0 Lss0). apply wp_bind, (wp_mload N _ _ _ _ _ Cz Lz).
  apply wp_bind, (wp_mload N _ _ _ _ _ Cct Lc).
  apply wp_bind, wp_rkprf; auto.
  set (kb := Spec203.J (z ++ c)) in *.
  assert (Bzc : bytes (z ++ c)) by (apply Forall_app; auto).
  assert (Lkb : zlen kb = 32) by (apply zlen_SHAKE256; auto; lia).
  assert (Bkb : bytes kb) by (apply bytes_SHAKE256; auto; lia). clearbody kb.
  apply wp_bind, wp_mstore; [now rewrite Lkb|].
  assert (Ckb : contains (mwrite m ss kb) ss kb) by apply contains_same.
  apply wp_bind, (wp_mload N _ _ _ _ _ Ckb Lkb).
  apply wp_bind, wp_ct_cmov_zero; auto; try lia. { destruct (list_eq_dec Z.eq_dec c c'); unfold is_byte; lia. }
  set (K := if list_eq_dec Z.eq_dec c c' then slice kr 0 32 else kb) in *.
  replace (if (if list_eq_dec Z.eq_dec c c' then 0 else 255) =? 0 then slice kr 0 32 else kb) with K.
  2:{ unfold K. destruct (list_eq_dec Z.eq_dec c c'); reflexivity. }
  assert (LK : zlen K = 32).
  { unfold K. destruct (list_eq_dec Z.eq_dec c c'); [rewrite zlen_slice; lia|exact Lkb]. }
  apply wp_bind, wp_mstore; [apply accessible_mwrite; now rewrite LK|].
  apply wp_ret. eapply HQ; [exact HM|reflexivity|]. fold K. intros x.
  repeat (rewrite mwrite_eq; cbn [overwrite]). rewrite LK, Lkb. cases_if; reflexivity.
Qed.
