(** * Proofs about the KEM functions called with overlapping buffers *)

From Coq Require Import ZArith List Bool Lia.
From Verif Require Import CSem ModelArith ModelKeccak ModelIndcpa ModelKem ModelAlias Spec202 Spec203 SpecLink SpecMem SpecApi SpecAlias
  CSemFacts ProofScalar ProofBits ProofPack ProofCbd ProofSponge ProofHash ProofNttSpec
  ProofRing ProofNtt ProofMul ProofMatrix ProofNoise ProofPke ProofMem ProofKem ProofApi.
Import ListNotations.
Open Scope Z_scope.
Ltac Zify.zify_post_hook ::= idtac.

Lemma all_apart2 a b : all_apart [a; b] -> apart a b.
Proof. intros H. inversion H as [|x l H1 H2]. now inversion H1. Qed.

Lemma apart_two a b : apart a b -> all_apart [a; b].
Proof. intros H. constructor; [constructor; [exact H|constructor]|]. constructor; constructor. Qed.
Lemma overwrite_app3 m a l1 l2 l3 x : overwrite m [(a, l1 ++ l2 ++ l3)] x =
  overwrite m [(a, l1); (a + zlen l1, l2); (a + zlen l1 + zlen l2, l3)] x.
Proof. rewrite overwrite_app. rewrite !(overwrite_cons m a l1). now rewrite overwrite_app. Qed.

(** Key generation: [z'] are the bytes found at coins + 32 when they are read. *)
Lemma wp_keypair_any {bo : byte_order} (N : Prop) J fuel p m pk sk coins d (Z' : list Z -> list Z -> list Z) (Q : Z * mem -> Prop) :
  let P := set_of p in
  byte_memory m -> accessible m pk (ek_size P) -> accessible m sk (dk_size P) ->
  contains m coins d -> zlen d = 32 -> all_apart [(pk, ek_size P); (sk, dk_size P)] ->
  apart (sk + dk_size P - 32, 32) (coins + 32, 32) ->
  (K_PKE_KeyGen P (3 + Z.of_nat fuel) d = None -> N) ->
  (forall ek dk, K_PKE_KeyGen P (3 + Z.of_nat fuel) d = Some (ek, dk) ->
     zlen (Z' ek dk) = 32 /\ contains (overwrite m [(pk, ek); (sk, dk ++ ek ++ H ek)]) (coins + 32) (Z' ek dk)) ->
  (forall ek dk m', K_PKE_KeyGen P (3 + Z.of_nat fuel) d = Some (ek, dk) ->
     (forall x, m' x = overwrite m [(pk, ek); (sk, dk ++ ek ++ H ek ++ Z' ek dk)] x) -> Q (0, m')) ->
  wpn N (keypair_derand_any J fuel p m pk sk coins) Q.
Proof.
  intros P Bm Apk Ask Hd Ld Hap At HN HZ HQ. pose proof (k_range p) as HK. fold P in HK.
  pose proof (MLKEM_K_k p) as EK. fold P in EK.
  unfold keypair_derand_any, MLKEM_SYMBYTES. destruct (sizes p) as (E1 & E2 & E3 & E4 & _).
  rewrite E1, E2, E3, E4. clear E1 E2 E3 E4. fold P. change (2 * 32) with 64.
  apply all_apart2 in Hap as A1.
  pose proof (contains_bytes _ _ _ Bm Hd) as Bd.
  assert (Hek : 0 <= ek_size P) by (unfold ek_size; lia). assert (Hdk : 0 <= dk_size P) by (unfold dk_size; lia).
  destruct (contents m pk _ Hek Apk) as (pk0 & Lpk0 & Cpk0).
  apply wp_bind, (wp_mload N _ _ _ _ _ Cpk0 Lpk0).
  destruct (contents m sk (384 * k P)) as (sk0 & Lsk0 & Csk0); [lia|eapply accessible_sub; [exact Ask|lia|unfold dk_size; lia]|].
  apply wp_bind, (wp_mload N _ _ _ _ _ Csk0 Lsk0).
  apply wp_bind, (wp_mload N _ _ _ _ _ Hd Ld).
  apply wp_bind. eapply wp_mono; [apply wp_indcpa_keypair with (Q := fun r => K_PKE_KeyGen P (3 + Z.of_nat fuel) d = Some r); auto; rewrite ?EK; try (unfold ek_size in *; lia)|].
  intros [ek dk] HE.
  destruct (keygen_out p _ d ek dk Bd HE ltac:(lia)) as (Lek & Bek & Ldk & Bdk). fold P in Lek, Ldk.
  destruct (HZ ek dk HE) as [Lz Cz]. specialize (fun m' => HQ ek dk m' HE). clear HZ HN HE.
  set (z := Z' ek dk) in *. clearbody z.
  assert (LH : zlen (H ek) = 32) by now apply zlen_SHA3_256.
  assert (BH : bytes (H ek)) by now apply bytes_SHA3_256.
  ua. unfold ek_size, dk_size in *. set (K := k P) in *. clearbody K.
  apply wp_bind, wp_mstore.
  { rewrite Ldk. eapply accessible_sub; [exact Ask|lia|lia]. } set (m1 := mwrite m sk dk).
  apply wp_bind, wp_mstore; [apply accessible_mwrite; now rewrite Lek|]. set (m2 := mwrite m1 pk ek).
  assert (C2 : contains m2 pk ek) by apply contains_same.
  apply wp_bind, wp_no_alias. { apply apart_two. ua; lia. }
  apply wp_bind, wp_emit. apply wp_bind, (wp_mload N _ _ _ _ _ C2); [lia|].
  apply wp_bind, wp_mstore.
  { do 2 apply accessible_mwrite. rewrite Lek. eapply accessible_sub; [exact Ask|lia|lia]. } set (m3 := mwrite m2 (sk + 384 * K) ek).
  assert (C3 : contains m3 pk ek) by (apply contains_other; [ua; lia|exact C2]).
  apply wp_bind, (wp_mload N _ _ _ _ _ C3); [lia|].
  assert (A3' : accessible m3 sk (768 * K + 96)) by (do 3 apply accessible_mwrite; exact Ask).
  destruct (contents m3 (sk + (768 * K + 96) - 64) 32) as (h0 & Lh0 & Ch0); [lia|eapply accessible_sub; [exact A3'|lia|lia]|].
  apply wp_bind, (wp_mload N _ _ _ _ _ Ch0 Lh0).
  apply wp_bind, wp_H; auto; [lia|].
  apply wp_bind, wp_mstore. { rewrite LH. eapply accessible_sub; [exact A3'|lia|lia]. }
  set (m4 := mwrite m3 _ (H ek)).
  assert (E4 : forall x, m4 x = overwrite m [(pk, ek); (sk, dk ++ ek ++ H ek)] x).
  { intros x. rewrite overwrite_cons, overwrite_app3, Ldk, Lek.
    unfold m4, m3, m2, m1. repeat (rewrite mwrite_eq; cbn [overwrite]). rewrite ?Ldk, ?Lek, ?LH.
    cases_if; try reflexivity; do 3 f_equal; lia. }
  apply wp_bind, wp_no_alias. { apply apart_two. ua; lia. }
  apply wp_bind, wp_emit.
  assert (Cz' : contains m4 (coins + 32) z) by (intros i Hi; rewrite E4; now apply Cz).
  apply wp_bind, (wp_mload N _ _ _ _ _ Cz' Lz).
  apply wp_bind, wp_mstore. { apply accessible_mwrite. rewrite Lz. eapply accessible_sub; [exact A3'|lia|lia]. }
  set (m5 := mwrite m4 _ z).
  apply wp_ret, HQ.
  intros x. rewrite overwrite_cons, overwrite_app4, Ldk, Lek, LH.
  unfold m5, m4, m3, m2, m1. repeat (rewrite mwrite_eq; cbn [overwrite]). rewrite ?Ldk, ?Lek, ?LH, ?Lz.
  cases_if; try reflexivity; do 3 f_equal; lia.
Qed.

Lemma wp_enc_any {bo : byte_order} (N : Prop) J fuel p m ct ss pk coins ek mm (Q : Z * mem -> Prop) : let P := set_of p in
  byte_memory m -> accessible m ct (ct_size P) -> accessible m ss 32 ->
  contains m pk ek -> zlen ek = ek_size P -> contains m coins mm -> zlen mm = 32 ->
  all_apart [(ct, ct_size P); (ss, 32)] ->
  (~ modulus_check P ek -> Q (-1, m)) ->
  (modulus_check P ek -> ML_KEM_Encaps_internal P (3 + Z.of_nat fuel) ek mm = None -> N) ->
  (forall K c m', modulus_check P ek -> ML_KEM_Encaps_internal P (3 + Z.of_nat fuel) ek mm = Some (K, c) ->
     (forall x, m' x = overwrite m [(ct, c); (ss, K)] x) -> Q (0, m')) ->
  wpn N (enc_derand_any J fuel p m ct ss pk coins) Q.
Proof.
  intros P Bm Act Ass Cpk Lek Cm Lm Hap Hbad HN HQ. pose proof (k_range p) as HK. fold P in HK.
  pose proof (contains_bytes _ _ _ Bm Cpk) as Bek. pose proof (contains_bytes _ _ _ Bm Cm) as Bmm.
  pose proof (ct_size_range p) as Hct. fold P in Hct.
  unfold enc_derand_any, MLKEM_INDCPA_MSGBYTES, MLKEM_SYMBYTES, MLKEM_SSBYTES. destruct (sizes p) as (E1 & E2 & E3 & E4 & _ & E5 & E6).
  rewrite ?E1, ?E2, ?E5, ?E6. clear E1 E2 E3 E4 E5 E6. fold P. change (2 * 32) with 64.
  apply all_apart2 in Hap as A1.
  assert (Hek : 0 <= ek_size P < 2 ^ 63) by (unfold ek_size; change (2 ^ 63) with 9223372036854775808; lia).
  apply wp_bind, (wp_check_pk N _ p m pk ek); [exact Cpk|exact Lek|exact Bek|..]; fold P; intros HM; apply wp_branch; cbn [negb Z.eqb]; intros Eb; try discriminate; clear Eb.
  2:{ apply wp_ret. now apply Hbad. }
  specialize (HN HM). clear Hbad.
  apply wp_bind, (wp_mload N _ _ _ _ _ Cm Lm).
  apply wp_bind, wp_memcpy; try lia. { rewrite zlen_uninit; lia. }
  change (0 + 32) with 32. rewrite slice_zlen by auto.
  rewrite (splice_prefix mm _ 32) by (auto; rewrite zlen_uninit; lia).
  set (tl := skipn _ _). assert (Ltl : zlen tl = 32) by (unfold tl; rewrite zlen_skipn; rewrite zlen_uninit; lia). clearbody tl.
  apply wp_bind, (wp_mload N _ _ _ _ _ Cpk Lek).
  apply wp_bind, wp_aslice; try (rewrite ?zlen_app; lia). change (32 + 32) with 64.
  rewrite slice_app_r by lia.
  apply wp_bind, wp_H; auto; try lia.
  assert (LH : zlen (H ek) = 32) by now apply zlen_SHA3_256.
  assert (BH : bytes (H ek)) by now apply bytes_SHA3_256.
  apply wp_bind, wp_asplice; [lia|rewrite zlen_app; lia|].
  replace (splice (mm ++ tl) 32 (H ek)) with (mm ++ H ek).
  2:{ rewrite <- (app_nil_r tl). rewrite splice_app by lia. now rewrite app_nil_r. }
  apply wp_bind, wp_G; [apply Forall_app; auto|rewrite zlen_app; lia|lia|apply zlen_uninit; lia|].
  intros kr Lkr Bkr EG. unfold ML_KEM_Encaps_internal in HN, HQ. rewrite EG in HN, HQ. cbv beta iota in HN, HQ.
  destruct (contents m ct (ct_size P)) as (ct0 & Lct0 & Cct0); [lia|exact Act|].
  apply wp_bind, (wp_mload N _ _ _ _ _ Cct0 Lct0).
  apply wp_bind, wp_aslice; try (rewrite ?zlen_app; lia). change (0 + 32) with 32. rewrite slice_app_l by auto.
  apply wp_bind, (wp_mload N _ _ _ _ _ Cpk Lek).
  apply wp_bind, wp_aslice; try lia. change (32 + 32) with 64.
  pose proof (MLKEM_K_k p) as EK. fold P in EK.
  apply wp_bind, wp_indcpa_enc; auto; fold P; rewrite ?EK; unfold ek_size, ct_size in *; auto.
  { rewrite zlen_slice; lia. } { apply bytes_slice; auto; lia. }
  { intros E. apply HN. now rewrite E. }
  intros c E. rewrite E in HQ. clear HN.
  pose proof (encrypt_out p _ _ _ _ _ E Bek ltac:(lia)) as (Lc & Bc). fold P in Lc. unfold ct_size in Lc.
  apply wp_bind, wp_mstore; [now rewrite Lc|].
  apply wp_bind, wp_emit. apply wp_bind, wp_aslice; try lia. change (0 + 32) with 32.
  assert (LK : zlen (slice kr 0 32) = 32) by (rewrite zlen_slice; lia).
  apply wp_bind, wp_mstore; [apply accessible_mwrite; now rewrite LK|].
  apply wp_ret. eapply HQ; [exact HM|reflexivity|]. intros x.
  repeat (rewrite mwrite_eq; cbn [overwrite]). rewrite LK, Lc. ua.
  cases_if; reflexivity.
Qed.

Lemma wp_dec_any {bo : byte_order} (N : Prop) J fuel p m ss ct sk dk c (Q : Z * mem -> Prop) : let P := set_of p in
  byte_memory m -> accessible m ss 32 ->
  contains m sk dk -> zlen dk = dk_size P -> contains m ct c -> zlen c = ct_size P ->
  (~ hash_check P dk -> Q (-1, m)) ->
  (hash_check P dk -> ML_KEM_Decaps_internal P (3 + Z.of_nat fuel) dk c = None -> N) ->
  (forall K m', hash_check P dk -> ML_KEM_Decaps_internal P (3 + Z.of_nat fuel) dk c = Some K ->
     (forall x, m' x = overwrite m [(ss, K)] x) -> Q (0, m')) ->
  wpn N (dec_any J fuel p m ss ct sk) Q.
Proof.
  intros P Bm Ass Csk Ldk Cct Lc Hbad HN HQ. pose proof (k_range p) as HK. fold P in HK.
  pose proof (contains_bytes _ _ _ Bm Csk) as Bdk. pose proof (contains_bytes _ _ _ Bm Cct) as Bc.
  pose proof (ct_size_range p) as Hct. fold P in Hct.
  unfold dec_any, MLKEM_INDCPA_MSGBYTES, MLKEM_SYMBYTES, MLKEM_SSBYTES. destruct (sizes p) as (E1 & E2 & E3 & E4 & _ & E5 & E6).
  rewrite ?E2, ?E3, ?E4, ?E5, ?E6. clear E1 E2 E3 E4 E5 E6. fold P. change (2 * 32) with 64.
  apply wp_bind, (wp_check_sk N _ p m sk dk); [exact Csk|exact Ldk|exact Bdk|..]; fold P; intros HM; apply wp_branch; cbn [negb Z.eqb]; intros Eb; try discriminate; clear Eb.
  2:{ apply wp_ret. now apply Hbad. }
  specialize (HN HM). clear Hbad. unfold dk_size in *.
  unfold ML_KEM_Decaps_internal in HN, HQ. cbv zeta in HN, HQ.
  set (dkp := slice dk 0 (384 * k P)) in *. set (ek := slice dk (384 * k P) (768 * k P + 32)) in *.
  set (h := slice dk (768 * k P + 32) (768 * k P + 64)) in *. set (z := slice dk (768 * k P + 64) (768 * k P + 96)) in *.
  assert (Cdkp : contains m sk dkp) by (replace sk with (sk + 0) by lia; apply contains_slice; auto; lia).
  assert (Cek : contains m (sk + 384 * k P) ek) by (apply contains_slice; auto; lia).
  assert (Ch : contains m (sk + (768 * k P + 96) - 64) h).
  { replace (sk + (768 * k P + 96) - 64) with (sk + (768 * k P + 32)) by lia. apply contains_slice; auto; lia. }
  assert (Cz : contains m (sk + (768 * k P + 96) - 32) z).
  { replace (sk + (768 * k P + 96) - 32) with (sk + (768 * k P + 64)) by lia. apply contains_slice; auto; lia. }
  assert (Ldkp : zlen dkp = 384 * k P) by (unfold dkp; rewrite zlen_slice; lia).
  assert (Lek : zlen ek = 384 * k P + 32) by (unfold ek; rewrite zlen_slice; lia).
  assert (Lh : zlen h = 32) by (unfold h; rewrite zlen_slice; lia).
  assert (Lz : zlen z = 32) by (unfold z; rewrite zlen_slice; lia).
  assert (Bdkp : bytes dkp) by (apply bytes_slice; auto; lia). assert (Bek : bytes ek) by (apply bytes_slice; auto; lia).
  assert (Bh : bytes h) by (apply bytes_slice; auto; lia). assert (Bz : bytes z) by (apply bytes_slice; auto; lia).
  clearbody dkp ek h z.
  pose proof (MLKEM_K_k p) as EK. fold P in EK.
  apply wp_bind, (wp_mload N _ _ _ _ _ Cct Lc). apply wp_bind, (wp_mload N _ _ _ _ _ Cdkp Ldkp).
  apply wp_bind, wp_aslice; try lia. { rewrite zlen_uninit; lia. } change (0 + 32) with 32.
  apply wp_bind, wp_indcpa_dec; fold P; rewrite ?EK; auto.
  destruct (decrypt_out P dkp c) as [Lm Bmm]. set (mm := K_PKE_Decrypt P dkp c) in *. clearbody mm.
  apply wp_bind, wp_asplice; [lia|rewrite zlen_uninit; lia|].
  rewrite (splice_prefix mm _ 32) by (auto; rewrite zlen_uninit; lia).
  set (tl := skipn _ _). assert (Ltl : zlen tl = 32) by (unfold tl; rewrite zlen_skipn; rewrite zlen_uninit; lia). clearbody tl.
  apply wp_bind, (wp_mload N _ _ _ _ _ Ch Lh).
  apply wp_bind, wp_memcpy; try (rewrite ?zlen_app; lia). change (0 + 32) with 32. rewrite slice_zlen by auto.
  replace (splice (mm ++ tl) 32 h) with (mm ++ h).
  2:{ rewrite <- (app_nil_r tl). rewrite splice_app by lia. now rewrite app_nil_r. }
  apply wp_bind, wp_G; [apply Forall_app; auto|rewrite zlen_app; lia|lia|apply zlen_uninit; lia|].
  intros kr Lkr Bkr EG. rewrite EG in HN, HQ. cbv beta iota in HN, HQ.
  apply wp_bind, wp_aslice; try lia. { rewrite zlen_uninit; lia. } rewrite Z.add_0_l.
  apply wp_bind, wp_aslice; try (rewrite ?zlen_app; lia). change (0 + 32) with 32. rewrite slice_app_l by auto.
  apply wp_bind, (wp_mload N _ _ _ _ _ Cek Lek).
  apply wp_bind, wp_aslice; try lia. change (32 + 32) with 64.
  apply wp_bind, wp_indcpa_enc; auto; fold P; rewrite ?EK; auto.
  { rewrite zlen_slice; rewrite ?zlen_uninit; unfold ct_size in *; lia. }
  { rewrite zlen_slice; lia. } { apply bytes_slice; auto; lia. }
  { intros E. apply HN. now rewrite E. }
  intros c' E. rewrite E in HQ. clear HN.
  pose proof (encrypt_out p _ _ _ _ _ E Bek ltac:(lia)) as (Lc' & Bc'). fold P in Lc'.
  apply wp_bind, wp_asplice; [lia|rewrite zlen_uninit; lia|].
  rewrite (splice_prefix c' _ (ct_size P)) by (auto; rewrite zlen_uninit; lia).
  set (tl2 := skipn _ _). assert (Ltl2 : zlen tl2 = 32) by (unfold tl2; rewrite zlen_skipn; rewrite zlen_uninit; lia). clearbody tl2.
  apply wp_bind, (wp_mload N _ _ _ _ _ Cct Lc).
  apply wp_bind, wp_ct_memcmp; try (rewrite ?zlen_app; lia). { now rewrite slice_zlen. } { now rewrite slice_app_l. }
  rewrite (slice_zlen c) by auto. rewrite slice_app_l by auto.
  destruct (contents m ss 32) as (ss0 & Lss0 & Css0); [lia|exact Ass|].
  apply wp_bind, (wp_mload N _ _ _ _ _ Css0 Lss0). apply wp_bind, (wp_mload N _ _ _ _ _ Cz Lz).
  apply wp_bind, (wp_mload N _ _ _ _ _ Cct Lc).
  apply wp_bind, wp_rkprf; auto.
  set (kb := Spec203.J (z ++ c)) in *.
  assert (Bzc : bytes (z ++ c)) by (apply Forall_app; auto).
  assert (Lkb : zlen kb = 32) by (apply zlen_SHAKE256; auto; lia).
  assert (Bkb : bytes kb) by (apply bytes_SHAKE256; auto; lia). clearbody kb.
  apply wp_bind, wp_mstore; [now rewrite Lkb|].
  assert (Ckb : contains (mwrite m ss kb) ss kb) by apply contains_same.
  apply wp_bind, (wp_mload N _ _ _ _ _ Ckb Lkb).
  apply wp_bind, wp_ct_cmov_zero; auto; try lia. { destruct (list_eq_dec Z.eq_dec c c'); unfold is_byte; lia. }
  set (K := if list_eq_dec Z.eq_dec c c' then slice kr 0 32 else kb) in *.
  replace (if (if list_eq_dec Z.eq_dec c c' then 0 else 255) =? 0 then slice kr 0 32 else kb) with K.
  2:{ unfold K. destruct (list_eq_dec Z.eq_dec c c'); reflexivity. }
  assert (LK : zlen K = 32).
  { unfold K. destruct (list_eq_dec Z.eq_dec c c'); [rewrite zlen_slice; lia|exact Lkb]. }
  apply wp_bind, wp_mstore; [apply accessible_mwrite; now rewrite LK|].
  apply wp_ret. eapply HQ; [exact HM|reflexivity|]. fold K. intros x.
  repeat (rewrite mwrite_eq; cbn [overwrite]). rewrite LK, Lkb. cases_if; reflexivity.
Qed.

Lemma enc_any_exact {bo : byte_order} J fuel p m ct ss pk coins ek msg : enc_any_call (set_of p) m ct ss pk coins ek msg ->
  modulus_check (set_of p) ek ->
  match ML_KEM_Encaps_internal (set_of p) (3 + Z.of_nat fuel) ek msg with
  | Some (K, c) => finished (val (enc_derand_any J fuel p m ct ss pk coins)) m 0 [(ct, c); (ss, K)]
  | None => val (enc_derand_any J fuel p m ct ss pk coins) = NoFuel
  end.
Proof.
  intros (Bm & A1 & A2 & C1 & L1 & C2 & L2 & Ap) HM.
  pose proof (exact1 (enc_derand_any J fuel p m ct ss pk coins)
    (ML_KEM_Encaps_internal (set_of p) (3 + Z.of_nat fuel) ek msg)
    (fun '(K, c) '(r, m') => r = 0 /\ forall x, m' x = overwrite m [(ct, c); (ss, K)] x)) as H.
  destruct (ML_KEM_Encaps_internal (set_of p) (3 + Z.of_nat fuel) ek msg) as [[K c]|] eqn:E.
  - destruct H as ([r m'] & H1 & -> & H2); [|exists m'; auto].
    apply (wp_enc_any _ J fuel p m ct ss pk coins ek msg); auto; try (rewrite E; discriminate).
    + intros HM'. tauto.
    + intros K' c' m' _ E' Hm'. rewrite E in E'. injection E' as <- <-. exists (K, c). auto.
  - apply H. apply (wp_enc_any _ J fuel p m ct ss pk coins ek msg); auto.
    + intros HM'. tauto.
    + intros K' c' m' _ E' Hm'. rewrite E in E'. discriminate.
Qed.

Lemma enc_any_reject {bo : byte_order} J fuel p m ct ss pk coins ek msg : enc_any_call (set_of p) m ct ss pk coins ek msg ->
  ~ modulus_check (set_of p) ek ->
  val (enc_derand_any J fuel p m ct ss pk coins) = Ok (-1, m).
Proof.
  intros (Bm & A1 & A2 & C1 & L1 & C2 & L2 & Ap) HM. apply wp_val.
  apply (wp_enc_any _ J fuel p m ct ss pk coins ek msg); auto; intros; tauto.
Qed.

Lemma dec_any_exact {bo : byte_order} J fuel p m ss ct sk dk c : dec_any_call (set_of p) m ss ct sk dk c ->
  hash_check (set_of p) dk ->
  match ML_KEM_Decaps_internal (set_of p) (3 + Z.of_nat fuel) dk c with
  | Some K => finished (val (dec_any J fuel p m ss ct sk)) m 0 [(ss, K)]
  | None => val (dec_any J fuel p m ss ct sk) = NoFuel
  end.
Proof.
  intros (Bm & A1 & C1 & L1 & C2 & L2) HM.
  pose proof (exact1 (dec_any J fuel p m ss ct sk)
    (ML_KEM_Decaps_internal (set_of p) (3 + Z.of_nat fuel) dk c)
    (fun K '(r, m') => r = 0 /\ forall x, m' x = overwrite m [(ss, K)] x)) as H.
  destruct (ML_KEM_Decaps_internal (set_of p) (3 + Z.of_nat fuel) dk c) as [K|] eqn:E.
  - destruct H as ([r m'] & H1 & -> & H2); [|exists m'; auto].
    apply (wp_dec_any _ J fuel p m ss ct sk dk c); auto; try (rewrite E; discriminate).
    + intros HM'. tauto.
    + intros K' m' _ E' Hm'. rewrite E in E'. injection E' as <-. exists K. auto.
  - apply H. apply (wp_dec_any _ J fuel p m ss ct sk dk c); auto.
    + intros HM'. tauto.
    + intros K' m' _ E' Hm'. rewrite E in E'. discriminate.
Qed.

Lemma dec_any_reject {bo : byte_order} J fuel p m ss ct sk dk c : dec_any_call (set_of p) m ss ct sk dk c ->
  ~ hash_check (set_of p) dk ->
  val (dec_any J fuel p m ss ct sk) = Ok (-1, m).
Proof.
  intros (Bm & A1 & C1 & L1 & C2 & L2) HM. apply wp_val.
  apply (wp_dec_any _ J fuel p m ss ct sk dk c); auto; intros; tauto.
Qed.

Lemma keypair_any_exact {bo : byte_order} J fuel p m pk sk coins d z : keypair_any_call (set_of p) m pk sk coins d z ->
  match ML_KEM_KeyGen_internal (set_of p) (3 + Z.of_nat fuel) d z with
  | Some (ek, dk) => finished (val (keypair_derand_any J fuel p m pk sk coins)) m 0 [(pk, ek); (sk, dk)]
  | None => val (keypair_derand_any J fuel p m pk sk coins) = NoFuel
  end.
Proof.
  intros (Bm & A1 & A2 & C & L1 & L2 & Ap). pose proof (k_range p) as HK.
  pose proof (contains_bytes _ _ _ Bm C) as Bdz. apply Forall_app in Bdz as [Bd Bz].
  apply contains_app in C as [Cd Cz]. rewrite L1 in Cz.
  apply all_apart3 in Ap as (P1 & P2 & P3).
  assert (HW : forall (N : Prop) (Q : Z * mem -> Prop),
    (ML_KEM_KeyGen_internal (set_of p) (3 + Z.of_nat fuel) d z = None -> N) ->
    (forall ek dk m', ML_KEM_KeyGen_internal (set_of p) (3 + Z.of_nat fuel) d z = Some (ek, dk) ->
       (forall x, m' x = overwrite m [(pk, ek); (sk, dk)] x) -> Q (0, m')) ->
    wpn N (keypair_derand_any J fuel p m pk sk coins) Q).
  { intros N Q HN HQ. unfold ML_KEM_KeyGen_internal in HN, HQ.
    apply (wp_keypair_any N J fuel p m pk sk coins d (fun _ _ => z)); auto.
    - now apply apart_two.
    - ua. unfold dk_size in *. lia.
    - intros E. apply HN. now rewrite E.
    - intros ek dk E. split; [exact L2|].
      destruct (keygen_out p _ d ek dk Bd E ltac:(lia)) as (Lek & Bek & Ldk & Bdk).
      assert (LH : zlen (H ek) = 32) by now apply zlen_SHA3_256.
      intros i Hi. rewrite !overwrite_cons, !zlen_app, Lek, Ldk, LH. cbn [overwrite].
      ua. unfold dk_size, ek_size in *. cases_if; try lia; now apply Cz.
    - intros ek dk m' E Hm. apply (HQ ek (dk ++ ek ++ H ek ++ z) m'); [now rewrite E|exact Hm]. }
  pose proof (exact1 (keypair_derand_any J fuel p m pk sk coins)
    (ML_KEM_KeyGen_internal (set_of p) (3 + Z.of_nat fuel) d z)
    (fun '(ek, dk) '(r, m') => r = 0 /\ forall x, m' x = overwrite m [(pk, ek); (sk, dk)] x)) as H.
  destruct (ML_KEM_KeyGen_internal (set_of p) (3 + Z.of_nat fuel) d z) as [[ek dk]|] eqn:E.
  - destruct H as ([r m'] & H1 & -> & H2); [|exists m'; auto].
    apply HW; [discriminate|]. intros ek' dk' m' E' Hm'. injection E' as <- <-. exists (ek, dk). auto.
  - apply H. apply HW; auto. intros ek' dk' m' E' Hm'. discriminate.
Qed.

(** With the coins in the buffer of the public key, the z of the secret key is bytes 32 to 63
    of the public key. *)
Lemma keypair_in_place_out {bo : byte_order} J fuel p m pk sk d z ek dk :
  keypair_in_place (set_of p) m pk sk d z ->
  K_PKE_KeyGen (set_of p) (3 + Z.of_nat fuel) d = Some (ek, dk) ->
  finished (val (keypair_derand_any J fuel p m pk sk pk)) m 0 [(pk, ek); (sk, dk ++ ek ++ H ek ++ slice ek 32 64)].
Proof.
  intros (Bm & A1 & A2 & C & L1 & L2 & Ap) E. pose proof (k_range p) as HK.
  pose proof (contains_bytes _ _ _ Bm C) as Bdz. apply Forall_app in Bdz as [Bd Bz].
  apply contains_app in C as [Cd _]. pose proof (all_apart2 _ _ Ap) as P1.
  assert (W : wp (keypair_derand_any J fuel p m pk sk pk)
    (fun '(r, m') => r = 0 /\ forall x, m' x = overwrite m [(pk, ek); (sk, dk ++ ek ++ H ek ++ slice ek 32 64)] x)).
  { apply (wp_keypair_any False J fuel p m pk sk pk d (fun ek _ => slice ek 32 64)); auto.
    - ua. unfold dk_size, ek_size in *. lia.
    - rewrite E. discriminate.
    - intros ek' dk' E'. assert (ek' = ek) as -> by congruence. assert (dk' = dk) as -> by congruence.
      destruct (keygen_out p _ d ek dk Bd E ltac:(lia)) as (Lek & Bek & Ldk & Bdk). unfold ek_size in *.
      assert (Lz : zlen (slice ek 32 64) = 32) by (rewrite zlen_slice; lia). split; [exact Lz|].
      intros i Hi. rewrite Lz in Hi. rewrite overwrite_cons, Lek.
      replace ((pk <=? pk + 32 + i) && (pk + 32 + i <? pk + (384 * k (set_of p) + 32))) with true
        by (symmetry; apply andb_true_intro; lia).
      f_equal. replace (pk + 32 + i - pk) with (32 + i) by lia.
      pose proof (zget_slice 0 ek 32 64 i ltac:(lia) ltac:(lia)) as HS. unfold zget in HS. symmetry. exact HS.
    - intros ek' dk' m' E' Hm. assert (ek' = ek) as -> by congruence. assert (dk' = dk) as -> by congruence. auto. }
  apply wp_ex in W as ([r m'] & H1 & -> & H2). exists m'. auto.
Qed.

(** Two runs with the same outcome store the same bytes. *)
Lemma finished_twice o m r r' a b l u u' : finished o m r [(a, l); (b, u)] -> finished o m r' [(a, l); (b, u')] ->
  zlen u = zlen u' -> apart (a, zlen l) (b, zlen u) -> u = u'.
Proof.
  intros (m1 & E1 & H1) (m2 & E2 & H2) L Ap. assert (m1 = m2) as -> by congruence.
  apply (zlist_ext 0); [exact L|]. intros i Hi. specialize (H1 (b + i)). rewrite H2 in H1.
  rewrite !overwrite_cons in H1. rewrite <- L in H1. ua.
  replace ((a <=? b + i) && (b + i <? a + zlen l)) with false in H1
    by (symmetry; apply andb_false_iff; rewrite Z.leb_gt, Z.ltb_ge; lia).
  replace ((b <=? b + i) && (b + i <? b + zlen u)) with true in H1 by (symmetry; apply andb_true_intro; lia).
  replace (b + i - b) with i in H1 by lia. unfold zget. congruence.
Qed.

(** So z is lost, unless it happens to be these bytes. *)
Lemma keypair_in_place_wrong {bo : byte_order} J fuel p m pk sk d z ek dk :
  keypair_in_place (set_of p) m pk sk d z ->
  ML_KEM_KeyGen_internal (set_of p) (3 + Z.of_nat fuel) d z = Some (ek, dk) ->
  (finished (val (keypair_derand_any J fuel p m pk sk pk)) m 0 [(pk, ek); (sk, dk)] <-> z = slice ek 32 64).
Proof.
  intros C E. pose proof (k_range p) as HK. unfold ML_KEM_KeyGen_internal in E.
  destruct (K_PKE_KeyGen (set_of p) (3 + Z.of_nat fuel) d) as [[ek1 dk1]|] eqn:E1; [|discriminate].
  assert (ek1 = ek) as -> by congruence. assert (dk = dk1 ++ ek ++ H ek ++ z) as -> by congruence. clear E.
  pose proof (keypair_in_place_out J fuel p m pk sk d z ek dk1 C E1) as F.
  destruct C as (Bm & A1 & A2 & C & L1 & L2 & Ap).
  pose proof (contains_bytes _ _ _ Bm C) as Bdz. apply Forall_app in Bdz as [Bd Bz].
  destruct (keygen_out p _ d ek dk1 Bd E1 ltac:(lia)) as (Lek & Bek & Ldk & Bdk).
  assert (LH : zlen (H ek) = 32) by now apply zlen_SHA3_256.
  assert (Lz : zlen (slice ek 32 64) = 32) by (unfold ek_size in *; rewrite zlen_slice; lia).
  split; intros HF.
  - pose proof (finished_twice _ _ _ _ _ _ _ _ _ HF F) as T. rewrite !zlen_app in T.
    assert (T' : dk1 ++ ek ++ H ek ++ z = dk1 ++ ek ++ H ek ++ slice ek 32 64).
    { apply T; [lia|]. apply all_apart2 in Ap. ua. unfold dk_size, ek_size in *. lia. }
    do 3 apply app_inv_head in T'. exact T'.
  - rewrite <- HF in F. exact F.
Qed.
