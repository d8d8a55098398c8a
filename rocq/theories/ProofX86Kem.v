(** * The KEM functions of the x86_64 build *)

From Coq Require Import ZArith List Bool Lia.
From Verif Require Import CSem ModelArith ModelKeccak ModelIndcpa ModelKem ModelAvx2 ModelX86 ModelX86Asm ModelX86Poly
  ModelX86Keccak ModelX86Indcpa ModelX86Kem Spec202 Spec203 SpecLink SpecMem SpecApi SpecX86 SpecX86Build
  ProofX86Ntt ProofX86Word CSemFacts ProofScalar ProofBits ProofPack ProofCbd ProofSponge ProofHash ProofNttSpec
  ProofRing ProofNtt ProofMul ProofMatrix ProofNoise ProofPke ProofMem ProofKem ProofKeys ProofApi
  ProofX86Poly ProofX86Pke.
Import ListNotations.
Open Scope Z_scope.
#[local] Existing Instance LittleEndian.
Ltac Zify.zify_post_hook ::= idtac.

Lemma each_custom K v : each K (fun _ x => zlen x = 256 /\ ubounded 3329 x) v ->
  vec_of K (map custom_order v) /\ Forall (ubounded 3329) (map custom_order v).
Proof.
  intros H. apply each_vec. destruct H as [L H]. split; [now rewrite zlen_map|]. intros i Hi.
  rewrite (zget_map _ [] []) by lia. destruct (H i Hi) as [Lx U]. split; [apply zlen_custom_order|].
  unfold ubounded. apply (fips_order_Forall _ _ (zlen_custom_order _)). now rewrite fips_custom_order.
Qed.

Lemma wp_check_pk_x86 N J p m pk ek (Q : Z -> Prop) : let P := set_of p in
  contains m pk ek -> zlen ek = ek_size P -> bytes ek ->
  (modulus_check P ek -> Q 0) -> (~ modulus_check P ek -> Q (-1)) ->
  wpn N (check_pk_x86_64 J p m pk) Q.
Proof.
  intros P Hc L B H0 H1. pose proof (MLKEM_K_range p) as HK. pose proof (MLKEM_K_k p) as EK.
  unfold check_pk_x86_64, MLKEM_N. destruct (sizes p) as (_ & _ & _ & _ & E & _). rewrite E. clear E. fold P in EK |- *.
  unfold ek_size in L. rewrite EK in *.
  assert (Hs : contains m pk (slice ek 0 (384 * k P))).
  { replace pk with (pk + 0) by lia. apply contains_slice; auto; lia. }
  assert (Ls : zlen (slice ek 0 (384 * k P)) = 384 * k P) by (rewrite zlen_slice; lia).
  apply wp_bind, (wp_mload N _ _ _ _ _ Hs Ls).
  assert (Bs : bytes (slice ek 0 (384 * k P))) by (apply bytes_slice; auto; lia).
  apply wp_bind, wp_polyvec_frombytes_x86; rewrite ?EK; auto; [apply uninit_polys; lia|lia|].
  apply wp_bind, wp_polyvec_reduce_x86; [rewrite <- EK; apply fields_each_x86; rewrite EK; lia|].
  rewrite <- EK, fields_decode_x86. rewrite decode_prefix by (fold P; lia). fold P. rewrite EK.
  pose proof (decode_each p ek ltac:(rewrite EK; lia) B) as Hd. fold P in Hd. rewrite EK in Hd.
  destruct (each_custom _ _ Hd) as [V1 V2].
  apply wp_bind, wp_polyvec_tobytes_x86; rewrite ?EK; auto. { apply zlen_uninit; lia. }
  destruct (decode_each_x86 p ek ltac:(rewrite EK; lia) B) as [_ Ed]. fold P in Ed. rewrite concat_ford, Ed.
  apply wp_bind, (wp_mload N _ _ _ _ _ Hs Ls).
  apply wp_bind, wp_memcmp; intros HE; apply wp_branch; cbn [negb Z.eqb]; intros Eb; try discriminate; apply wp_ret.
  - apply H0. symmetry. exact HE.
  - apply H1. intros HM. apply HE. symmetry. exact HM.
Qed.

Lemma keypair_derand_with_x86 J fuel p m pk sk coins : crypto_kem_keypair_derand_x86_64 J fuel p m pk sk coins =
  keypair_with (indcpa_keypair_derand_x86_64 (sub J 0) fuel p) J p m pk sk coins.
Proof. reflexivity. Qed.

Lemma wp_keypair_derand_x86 (N : Prop) J fuel p m pk sk coins d z (Q : Z * memory -> Prop) : let P := set_of p in
  byte_memory m -> accessible m pk (ek_size P) -> accessible m sk (dk_size P) ->
  contains m coins (d ++ z) -> zlen d = 32 -> zlen z = 32 ->
  all_apart [(pk, ek_size P); (sk, dk_size P); (coins, 64)] ->
  (ML_KEM_KeyGen_internal P (3 + Z.of_nat fuel) d z = None -> N) ->
  (forall ek dk m', ML_KEM_KeyGen_internal P (3 + Z.of_nat fuel) d z = Some (ek, dk) ->
     (forall x, m' x = overwrite m [(pk, ek); (sk, dk)] x) -> Q (0, m')) ->
  wpn N (crypto_kem_keypair_derand_x86_64 J fuel p m pk sk coins) Q.
Proof.
  intros P Bm Apk Ask Hc Ld Lz Hap HN HQ. pose proof (k_range p) as HK. fold P in HK.
  pose proof (contains_bytes _ _ _ Bm Hc) as Bdz. apply Forall_app in Bdz as [Bd Bz].
  pose proof (MLKEM_K_k p) as EK. fold P in EK. rewrite keypair_derand_with_x86.
  apply (wp_keypair_with N _ J p m pk sk coins d z
    (fun ek dk => K_PKE_KeyGen P (3 + Z.of_nat fuel) d = Some (ek, dk))); auto.
  - intros pk0 sk0 L1 L2. fold P in L1, L2. apply wp_indcpa_keypair_x86; auto; rewrite ?EK; try (unfold ek_size in *; lia).
    fold P. intros E. apply HN. unfold ML_KEM_KeyGen_internal. now rewrite E.
  - intros ek dk E. exact (keygen_out p _ d ek dk Bd E ltac:(lia)).
  - intros ek dk m' E Hm. apply (HQ ek (dk ++ ek ++ H ek ++ z) m'); auto. unfold ML_KEM_KeyGen_internal. now rewrite E.
Qed.

Lemma wp_enc_derand_x86 (N : Prop) J fuel p m ct ss pk coins ek mm (Q : Z * memory -> Prop) : let P := set_of p in
  byte_memory m -> accessible m ct (ct_size P) -> accessible m ss 32 ->
  contains m pk ek -> zlen ek = ek_size P -> contains m coins mm -> zlen mm = 32 ->
  all_apart [(ct, ct_size P); (ss, 32); (pk, ek_size P); (coins, 32)] ->
  (~ modulus_check P ek -> Q (-1, m)) ->
  (modulus_check P ek -> ML_KEM_Encaps_internal P (3 + Z.of_nat fuel) ek mm = None -> N) ->
  (forall K c m', modulus_check P ek -> ML_KEM_Encaps_internal P (3 + Z.of_nat fuel) ek mm = Some (K, c) ->
     (forall x, m' x = overwrite m [(ct, c); (ss, K)] x) -> Q (0, m')) ->
  wpn N (crypto_kem_enc_derand_x86_64 J fuel p m ct ss pk coins) Q.
Proof.
  intros P Bm Act Ass Cpk Lek Cm Lm Hap Hbad HN HQ. pose proof (k_range p) as HK. fold P in HK.
  pose proof (contains_bytes _ _ _ Bm Cpk) as Bek. pose proof (contains_bytes _ _ _ Bm Cm) as Bmm.
  pose proof (ct_size_range p) as Hct. fold P in Hct.
  unfold crypto_kem_enc_derand_x86_64, MLKEM_INDCPA_MSGBYTES, MLKEM_SYMBYTES, MLKEM_SSBYTES. destruct (sizes p) as (E1 & E2 & E3 & E4 & _ & E5 & E6).
  rewrite E1, E2, E5, E6. clear E1 E2 E3 E4 E5 E6. fold P. change (2 * 32) with 64.
  apply wp_bind, wp_no_alias; auto. apply all_apart4 in Hap as (A1 & A2 & A3 & A4 & A5 & A6).
  assert (Hek : 0 <= ek_size P < 2 ^ 63) by (unfold ek_size; change (2 ^ 63) with 9223372036854775808; lia).
  apply wp_bind, (wp_check_pk_x86 N _ p m pk ek); [exact Cpk|exact Lek|exact Bek|..]; fold P; intros HM; apply wp_branch; cbn [negb Z.eqb]; intros Eb; try discriminate; clear Eb.
  2:{ apply wp_ret. now apply Hbad. }
  specialize (HN HM). clear Hbad.
  apply wp_bind, (wp_mload N _ _ _ _ _ Cm Lm).
  apply wp_bind, wp_memcpy; try lia. { rewrite zlen_uninit; lia. }
  change (0 + 32) with 32. rewrite slice_zlen by auto.
  rewrite (splice_prefix mm _ 32) by (auto; rewrite zlen_uninit; lia).
  set (tl := skipn _ _). assert (Ltl : zlen tl = 32) by (unfold tl; rewrite zlen_skipn; rewrite zlen_uninit; lia). clearbody tl.
  apply wp_bind, (wp_mload N _ _ _ _ _ Cpk Lek).
  apply wp_bind, wp_aslice; try (rewrite ?zlen_app; lia). change (32 + 32) with 64.
  rewrite slice_app_r by lia.
  apply wp_bind, wp_H; auto; try lia.
  assert (LH : zlen (H ek) = 32) by now apply zlen_SHA3_256.
  assert (BH : bytes (H ek)) by now apply bytes_SHA3_256.
  apply wp_bind, wp_asplice; [lia|rewrite zlen_app; lia|].
  replace (splice (mm ++ tl) 32 (H ek)) with (mm ++ H ek).
  2:{ rewrite <- (app_nil_r tl). rewrite splice_app by lia. now rewrite app_nil_r. }
  apply wp_bind, wp_G; [apply Forall_app; auto|rewrite zlen_app; lia|lia|apply zlen_uninit; lia|].
  intros kr Lkr Bkr EG. unfold ML_KEM_Encaps_internal in HN, HQ. rewrite EG in HN, HQ. cbv beta iota in HN, HQ.
  destruct (contents m ct (ct_size P)) as (ct0 & Lct0 & Cct0); [lia|exact Act|].
  apply wp_bind, (wp_mload N _ _ _ _ _ Cct0 Lct0).
  apply wp_bind, wp_aslice; try (rewrite ?zlen_app; lia). change (0 + 32) with 32. rewrite slice_app_l by auto.
  apply wp_bind, (wp_mload N _ _ _ _ _ Cpk Lek).
  apply wp_bind, wp_aslice; try lia. change (32 + 32) with 64.
  pose proof (MLKEM_K_k p) as EK. fold P in EK.
  apply wp_bind, wp_indcpa_enc_x86; auto; fold P; rewrite ?EK; unfold ek_size, ct_size in *; auto.
  { rewrite zlen_slice; lia. } { apply bytes_slice; auto; lia. }
  { intros E. apply HN. now rewrite E. }
  intros c E. rewrite E in HQ. clear HN.
  pose proof (encrypt_out p _ _ _ _ _ E Bek ltac:(lia)) as (Lc & Bc). fold P in Lc. unfold ct_size in Lc.
  apply wp_bind, wp_mstore; [now rewrite Lc|].
  apply wp_bind, wp_emit. apply wp_bind, wp_aslice; try lia. change (0 + 32) with 32.
  assert (LK : zlen (slice kr 0 32) = 32) by (rewrite zlen_slice; lia).
  apply wp_bind, wp_mstore; [apply accessible_mwrite; now rewrite LK|].
  apply wp_ret. eapply HQ; [exact HM|reflexivity|]. intros x.
  repeat (rewrite mwrite_eq; cbn [overwrite]). rewrite LK, Lc. ua.
  cases_if; reflexivity.
Qed.

Lemma wp_dec_x86 (N : Prop) J fuel p m ss ct sk dk c (Q : Z * memory -> Prop) : let P := set_of p in
  byte_memory m -> accessible m ss 32 ->
  contains m sk dk -> zlen dk = dk_size P -> contains m ct c -> zlen c = ct_size P ->
  all_apart [(ss, 32); (ct, ct_size P); (sk, dk_size P)] ->
  (~ hash_check P dk -> Q (-1, m)) ->
  (hash_check P dk -> ML_KEM_Decaps_internal P (3 + Z.of_nat fuel) dk c = None -> N) ->
  (forall K m', hash_check P dk -> ML_KEM_Decaps_internal P (3 + Z.of_nat fuel) dk c = Some K ->
     (forall x, m' x = overwrite m [(ss, K)] x) -> Q (0, m')) ->
  wpn N (crypto_kem_dec_x86_64 J fuel p m ss ct sk) Q.
Proof.
  intros P Bm Ass Csk Ldk Cct Lc Hap Hbad HN HQ. pose proof (k_range p) as HK. fold P in HK.
  pose proof (contains_bytes _ _ _ Bm Csk) as Bdk. pose proof (contains_bytes _ _ _ Bm Cct) as Bc.
  pose proof (ct_size_range p) as Hct. fold P in Hct.
  unfold crypto_kem_dec_x86_64, MLKEM_INDCPA_MSGBYTES, MLKEM_SYMBYTES, MLKEM_SSBYTES. destruct (sizes p) as (E1 & E2 & E3 & E4 & _ & E5 & E6).
  rewrite E2, E3, E4, E5, E6. clear E1 E2 E3 E4 E5 E6. fold P. change (2 * 32) with 64.
  apply wp_bind, wp_no_alias; auto. apply all_apart3 in Hap as (A1 & A2 & A3).
  apply wp_bind, (wp_check_sk N _ p m sk dk); [exact Csk|exact Ldk|exact Bdk|..]; fold P; intros HM; apply wp_branch; cbn [negb Z.eqb]; intros Eb; try discriminate; clear Eb.
  2:{ apply wp_ret. now apply Hbad. }
  specialize (HN HM). clear Hbad. unfold dk_size in *.
  unfold ML_KEM_Decaps_internal in HN, HQ. cbv zeta in HN, HQ.
  set (dkp := slice dk 0 (384 * k P)) in *. set (ek := slice dk (384 * k P) (768 * k P + 32)) in *.
  set (h := slice dk (768 * k P + 32) (768 * k P + 64)) in *. set (z := slice dk (768 * k P + 64) (768 * k P + 96)) in *.
  assert (Cdkp : contains m sk dkp) by (replace sk with (sk + 0) by lia; apply contains_slice; auto; lia).
  assert (Cek : contains m (sk + 384 * k P) ek) by (apply contains_slice; auto; lia).
  assert (Ch : contains m (sk + (768 * k P + 96) - 64) h).
  { replace (sk + (768 * k P + 96) - 64) with (sk + (768 * k P + 32)) by lia. apply contains_slice; auto; lia. }
  assert (Cz : contains m (sk + (768 * k P + 96) - 32) z).
  { replace (sk + (768 * k P + 96) - 32) with (sk + (768 * k P + 64)) by lia. apply contains_slice; auto; lia. }
  assert (Ldkp : zlen dkp = 384 * k P) by (unfold dkp; rewrite zlen_slice; lia).
  assert (Lek : zlen ek = 384 * k P + 32) by (unfold ek; rewrite zlen_slice; lia).
  assert (Lh : zlen h = 32) by (unfold h; rewrite zlen_slice; lia).
  assert (Lz : zlen z = 32) by (unfold z; rewrite zlen_slice; lia).
  assert (Bdkp : bytes dkp) by (apply bytes_slice; auto; lia). assert (Bek : bytes ek) by (apply bytes_slice; auto; lia).
  assert (Bh : bytes h) by (apply bytes_slice; auto; lia). assert (Bz : bytes z) by (apply bytes_slice; auto; lia).
  clearbody dkp ek h z.
  pose proof (MLKEM_K_k p) as EK. fold P in EK.
  apply wp_bind, (wp_mload N _ _ _ _ _ Cct Lc). apply wp_bind, (wp_mload N _ _ _ _ _ Cdkp Ldkp).
  apply wp_bind, wp_aslice; try lia. { rewrite zlen_uninit; lia. } change (0 + 32) with 32.
  apply wp_bind, wp_indcpa_dec_x86; fold P; rewrite ?EK; auto.
  destruct (decrypt_out P dkp c) as [Lm Bmm]. set (mm := K_PKE_Decrypt P dkp c) in *. clearbody mm.
  apply wp_bind, wp_asplice; [lia|rewrite zlen_uninit; lia|].
  rewrite (splice_prefix mm _ 32) by (auto; rewrite zlen_uninit; lia).
  set (tl := skipn _ _). assert (Ltl : zlen tl = 32) by (unfold tl; rewrite zlen_skipn; rewrite zlen_uninit; lia). clearbody tl.
  apply wp_bind, (wp_mload N _ _ _ _ _ Ch Lh).
  apply wp_bind, wp_memcpy; try (rewrite ?zlen_app; lia). change (0 + 32) with 32. rewrite slice_zlen by auto.
  replace (splice (mm ++ tl) 32 h) with (mm ++ h).
  2:{ rewrite <- (app_nil_r tl). rewrite splice_app by lia. now rewrite app_nil_r. }
  apply wp_bind, wp_G; [apply Forall_app; auto|rewrite zlen_app; lia|lia|apply zlen_uninit; lia|].
  intros kr Lkr Bkr EG. rewrite EG in HN, HQ. cbv beta iota in HN, HQ.
  apply wp_bind, wp_aslice; try lia. { rewrite zlen_uninit; lia. } rewrite Z.add_0_l.
  apply wp_bind, wp_aslice; try (rewrite ?zlen_app; lia). change (0 + 32) with 32. rewrite slice_app_l by auto.
  apply wp_bind, (wp_mload N _ _ _ _ _ Cek Lek).
  apply wp_bind, wp_aslice; try lia. change (32 + 32) with 64.
  apply wp_bind, wp_indcpa_enc_x86; auto; fold P; rewrite ?EK; auto.
  { rewrite zlen_slice; rewrite ?zlen_uninit; unfold ct_size in *; lia. }
  { rewrite zlen_slice; lia. } { apply bytes_slice; auto; lia. }
  { intros E. apply HN. now rewrite E. }
  intros c' E. rewrite E in HQ. clear HN.
  pose proof (encrypt_out p _ _ _ _ _ E Bek ltac:(lia)) as (Lc' & Bc'). fold P in Lc'.
  apply wp_bind, wp_asplice; [lia|rewrite zlen_uninit; lia|].
  rewrite (splice_prefix c' _ (ct_size P)) by (auto; rewrite zlen_uninit; lia).
  set (tl2 := skipn _ _). assert (Ltl2 : zlen tl2 = 32) by (unfold tl2; rewrite zlen_skipn; rewrite zlen_uninit; lia). clearbody tl2.
  apply wp_bind, (wp_mload N _ _ _ _ _ Cct Lc).
  apply wp_bind, wp_ct_memcmp; try (rewrite ?zlen_app; lia). { now rewrite slice_zlen. } { now rewrite slice_app_l. }
  rewrite (slice_zlen c) by auto. rewrite slice_app_l by auto.
  destruct (contents m ss 32) as (ss0 & Lss0 & Css0); [lia|exact Ass|].
  apply wp_bind, (wp_mload N _ _ _ _ _ Css0 Lss0). apply wp_bind, (wp_mload N _ _ _ _ _ Cz Lz).
  apply wp_bind, (wp_mload N _ _ _ _ _ Cct Lc).
  apply wp_bind, wp_rkprf; auto.
  set (kb := Spec203.J (z ++ c)) in *.
  assert (Bzc : bytes (z ++ c)) by (apply Forall_app; auto).
  assert (Lkb : zlen kb = 32) by (apply zlen_SHAKE256; auto; lia).
  assert (Bkb : bytes kb) by (apply bytes_SHAKE256; auto; lia). clearbody kb.
  apply wp_bind, wp_mstore; [now rewrite Lkb|].
  assert (Ckb : contains (mwrite m ss kb) ss kb) by apply contains_same.
  apply wp_bind, (wp_mload N _ _ _ _ _ Ckb Lkb).
  apply wp_bind, wp_ct_cmov_zero; auto; try lia. { destruct (list_eq_dec Z.eq_dec c c'); unfold is_byte; lia. }
  set (K := if list_eq_dec Z.eq_dec c c' then slice kr 0 32 else kb) in *.
  replace (if (if list_eq_dec Z.eq_dec c c' then 0 else 255) =? 0 then slice kr 0 32 else kb) with K.
  2:{ unfold K. destruct (list_eq_dec Z.eq_dec c c'); reflexivity. }
  assert (LK : zlen K = 32).
  { unfold K. destruct (list_eq_dec Z.eq_dec c c'); [rewrite zlen_slice; lia|exact Lkb]. }
  apply wp_bind, wp_mstore; [apply accessible_mwrite; now rewrite LK|].
  apply wp_ret. eapply HQ; [exact HM|reflexivity|]. fold K. intros x.
  repeat (rewrite mwrite_eq; cbn [overwrite]). rewrite LK, Lkb. cases_if; reflexivity.
Qed.

(** ** Exact outcomes *)

Lemma keypair_derand_exact_x86 J fuel p m pk sk coins d z : keypair_call (set_of p) m pk sk coins d z ->
  match ML_KEM_KeyGen_internal (set_of p) (3 + Z.of_nat fuel) d z with
  | Some (ek, dk) => finished (val (crypto_kem_keypair_derand_x86_64 J fuel p m pk sk coins)) m 0 [(pk, ek); (sk, dk)]
  | None => val (crypto_kem_keypair_derand_x86_64 J fuel p m pk sk coins) = NoFuel
  end.
Proof.
  intros (Bm & A1 & A2 & C & L1 & L2 & Ap).
  pose proof (exact1 (crypto_kem_keypair_derand_x86_64 J fuel p m pk sk coins)
    (ML_KEM_KeyGen_internal (set_of p) (3 + Z.of_nat fuel) d z)
    (fun '(ek, dk) '(r, m') => r = 0 /\ forall x, m' x = overwrite m [(pk, ek); (sk, dk)] x)) as H.
  destruct (ML_KEM_KeyGen_internal (set_of p) (3 + Z.of_nat fuel) d z) as [[ek dk]|] eqn:E.
  - destruct H as ([r m'] & H1 & -> & H2); [|exists m'; auto].
    apply (wp_keypair_derand_x86 _ J fuel p m pk sk coins d z); auto; try (rewrite E; discriminate).
    intros ek' dk' m' E' Hm'. rewrite E in E'. injection E' as <- <-. exists (ek, dk). auto.
  - apply H. apply (wp_keypair_derand_x86 _ J fuel p m pk sk coins d z); auto.
    intros ek' dk' m' E' Hm'. rewrite E in E'. discriminate.
Qed.

Lemma enc_derand_exact_x86 J fuel p m ct ss pk coins ek msg : enc_call (set_of p) m ct ss pk coins ek msg ->
  modulus_check (set_of p) ek ->
  match ML_KEM_Encaps_internal (set_of p) (3 + Z.of_nat fuel) ek msg with
  | Some (K, c) => finished (val (crypto_kem_enc_derand_x86_64 J fuel p m ct ss pk coins)) m 0 [(ct, c); (ss, K)]
  | None => val (crypto_kem_enc_derand_x86_64 J fuel p m ct ss pk coins) = NoFuel
  end.
Proof.
  intros (Bm & A1 & A2 & C1 & L1 & C2 & L2 & Ap) HM.
  pose proof (exact1 (crypto_kem_enc_derand_x86_64 J fuel p m ct ss pk coins)
    (ML_KEM_Encaps_internal (set_of p) (3 + Z.of_nat fuel) ek msg)
    (fun '(K, c) '(r, m') => r = 0 /\ forall x, m' x = overwrite m [(ct, c); (ss, K)] x)) as H.
  destruct (ML_KEM_Encaps_internal (set_of p) (3 + Z.of_nat fuel) ek msg) as [[K c]|] eqn:E.
  - destruct H as ([r m'] & H1 & -> & H2); [|exists m'; auto].
    apply (wp_enc_derand_x86 _ J fuel p m ct ss pk coins ek msg); auto; try (rewrite E; discriminate).
    + intros HM'. tauto.
    + intros K' c' m' _ E' Hm'. rewrite E in E'. injection E' as <- <-. exists (K, c). auto.
  - apply H. apply (wp_enc_derand_x86 _ J fuel p m ct ss pk coins ek msg); auto.
    + intros HM'. tauto.
    + intros K' c' m' _ E' Hm'. rewrite E in E'. discriminate.
Qed.

Lemma enc_derand_reject_x86 J fuel p m ct ss pk coins ek msg : enc_call (set_of p) m ct ss pk coins ek msg ->
  ~ modulus_check (set_of p) ek ->
  val (crypto_kem_enc_derand_x86_64 J fuel p m ct ss pk coins) = Ok (-1, m).
Proof.
  intros (Bm & A1 & A2 & C1 & L1 & C2 & L2 & Ap) HM. apply wp_val.
  apply (wp_enc_derand_x86 _ J fuel p m ct ss pk coins ek msg); auto; intros; tauto.
Qed.

Lemma dec_exact_x86 J fuel p m ss ct sk dk c : dec_call (set_of p) m ss ct sk dk c ->
  hash_check (set_of p) dk ->
  match ML_KEM_Decaps_internal (set_of p) (3 + Z.of_nat fuel) dk c with
  | Some K => finished (val (crypto_kem_dec_x86_64 J fuel p m ss ct sk)) m 0 [(ss, K)]
  | None => val (crypto_kem_dec_x86_64 J fuel p m ss ct sk) = NoFuel
  end.
Proof.
  intros (Bm & A1 & C1 & L1 & C2 & L2 & Ap) HM.
  pose proof (exact1 (crypto_kem_dec_x86_64 J fuel p m ss ct sk)
    (ML_KEM_Decaps_internal (set_of p) (3 + Z.of_nat fuel) dk c)
    (fun K '(r, m') => r = 0 /\ forall x, m' x = overwrite m [(ss, K)] x)) as H.
  destruct (ML_KEM_Decaps_internal (set_of p) (3 + Z.of_nat fuel) dk c) as [K|] eqn:E.
  - destruct H as ([r m'] & H1 & -> & H2); [|exists m'; auto].
    apply (wp_dec_x86 _ J fuel p m ss ct sk dk c); auto; try (rewrite E; discriminate).
    + intros HM'. tauto.
    + intros K' m' _ E' Hm'. rewrite E in E'. injection E' as <-. exists K. auto.
  - apply H. apply (wp_dec_x86 _ J fuel p m ss ct sk dk c); auto.
    + intros HM'. tauto.
    + intros K' m' _ E' Hm'. rewrite E in E'. discriminate.
Qed.

Lemma dec_reject_x86 J fuel p m ss ct sk dk c : dec_call (set_of p) m ss ct sk dk c ->
  ~ hash_check (set_of p) dk ->
  val (crypto_kem_dec_x86_64 J fuel p m ss ct sk) = Ok (-1, m).
Proof.
  intros (Bm & A1 & C1 & L1 & C2 & L2 & Ap) HM. apply wp_val.
  apply (wp_dec_x86 _ J fuel p m ss ct sk dk c); auto; intros; tauto.
Qed.

Lemma keypair_exact_x86 J fuel p rng m pos fp pk sk : keypair_rand_call (set_of p) m fp pk sk ->
  match ML_KEM_KeyGen_internal (set_of p) (3 + Z.of_nat fuel) (drawn rng pos 32) (drawn rng (pos + 32) 32) with
  | Some (ek, dk) =>
      finished_at (val (crypto_kem_keypair_x86_64 J fuel p rng m pos fp pk sk)) m 0 (pos + 64) [(pk, ek); (sk, dk)]
  | None => val (crypto_kem_keypair_x86_64 J fuel p rng m pos fp pk sk) = NoFuel
  end.
Proof.
  intros (Bm & A1 & A2 & Ap & V). unfold crypto_kem_keypair_x86_64, MLKEM_SYMBYTES. change (2 * 32) with 64.
  rewrite unused_vacant by (auto; lia). rewrite randombytes_drawn by lia.
  set (d := drawn rng pos 32). set (z := drawn rng (pos + 32) 32).
  assert (Edz : drawn rng pos 64 = d ++ z) by (apply (drawn_app rng pos 32 32); lia). rewrite Edz.
  assert (Ld : zlen d = 32) by (apply zlen_drawn; lia). assert (Lz : zlen z = 32) by (apply zlen_drawn; lia).
  assert (Bd : bytes d) by apply bytes_drawn. assert (Bz : bytes z) by apply bytes_drawn.
  assert (Ldz : zlen (d ++ z) = 64) by (rewrite zlen_app; lia).
  set (m1 := mwrite m fp (d ++ z)). pose proof (k_range p) as HK.
  assert (HA : keypair_call (set_of p) m1 pk sk fp d z) by (apply keypair_call_alloc; unfold keypair_rand_call; auto).
  pose proof (keypair_derand_exact_x86 (sub J 0) fuel p m1 pk sk fp d z HA) as H.
  destruct (ML_KEM_KeyGen_internal (set_of p) (3 + Z.of_nat fuel) d z) as [[ek dk]|] eqn:EK.
  - destruct H as (m2 & E & Hm2). unfold val in *. unfold bind.
    destruct (crypto_kem_keypair_derand_x86_64 (sub J 0) fuel p m1 pk sk fp) as [o t]. cbn [fst] in E. subst o. cbn [ret fst].
    apply keygen_keys in EK as (L1 & _ & L2 & _); [|auto..|lia].
    eexists; split; [reflexivity|]. apply (free_overwrite m fp 64 (d ++ z)); auto.
    intros a o [Hi|[Hi|[]]]; injection Hi as <- <-; [now rewrite L1|now rewrite L2].
  - unfold val in *. unfold bind. destruct (crypto_kem_keypair_derand_x86_64 _ _ _ _ _ _ _) as [o t]. cbn [fst] in H. now subst o.
Qed.

Lemma enc_exact_x86 J fuel p rng m pos fp ct ss pk ek : enc_rand_call (set_of p) m fp ct ss pk ek ->
  modulus_check (set_of p) ek ->
  match ML_KEM_Encaps_internal (set_of p) (3 + Z.of_nat fuel) ek (drawn rng pos 32) with
  | Some (K, c) =>
      finished_at (val (crypto_kem_enc_x86_64 J fuel p rng m pos fp ct ss pk)) m 0 (pos + 32) [(ct, c); (ss, K)]
  | None => val (crypto_kem_enc_x86_64 J fuel p rng m pos fp ct ss pk) = NoFuel
  end.
Proof.
  intros CA HM. pose proof (enc_call_alloc p rng m pos fp ct ss pk ek CA) as HA.
  destruct CA as (Bm & A1 & A2 & C & L & Ap & V). unfold crypto_kem_enc_x86_64, MLKEM_SYMBYTES.
  rewrite unused_vacant by (auto; lia). rewrite randombytes_drawn by lia.
  set (d := drawn rng pos 32) in *.
  assert (Ld : zlen d = 32) by (apply zlen_drawn; lia).
  set (m1 := mwrite m fp d) in *.
  pose proof (enc_derand_exact_x86 (sub J 0) fuel p m1 ct ss pk fp ek d HA HM) as H.
  destruct (ML_KEM_Encaps_internal (set_of p) (3 + Z.of_nat fuel) ek d) as [[K c]|] eqn:EK.
  - destruct H as (m2 & E & Hm2). unfold val in *. unfold bind.
    destruct (crypto_kem_enc_derand_x86_64 (sub J 0) fuel p m1 ct ss pk fp) as [o t]. cbn [fst] in E. subst o. cbn [ret fst].
    apply encaps_out in EK as (L1 & _ & L2 & _); [|apply (enc_call_bytes _ _ _ _ _ _ _ _ HA)|apply bytes_drawn|exact L|auto|lia].
    eexists; split; [reflexivity|]. apply (free_overwrite m fp 32 d); auto.
    intros a o [Hi|[Hi|[]]]; injection Hi as <- <-; [now rewrite L2|now rewrite L1].
  - unfold val in *. unfold bind. destruct (crypto_kem_enc_derand_x86_64 _ _ _ _ _ _ _ _) as [o t]. cbn [fst] in H. now subst o.
Qed.

Lemma enc_reject_x86 J fuel p rng m pos fp ct ss pk ek : enc_rand_call (set_of p) m fp ct ss pk ek ->
  ~ modulus_check (set_of p) ek ->
  finished_at (val (crypto_kem_enc_x86_64 J fuel p rng m pos fp ct ss pk)) m (-1) (pos + 32) [].
Proof.
  intros CA HM. pose proof (enc_call_alloc p rng m pos fp ct ss pk ek CA) as HA.
  destruct CA as (Bm & A1 & A2 & C & L & Ap & V). unfold crypto_kem_enc_x86_64, MLKEM_SYMBYTES.
  rewrite unused_vacant by (auto; lia). rewrite randombytes_drawn by lia.
  set (d := drawn rng pos 32) in *.
  assert (Ld : zlen d = 32) by (apply zlen_drawn; lia).
  set (m1 := mwrite m fp d) in *.
  pose proof (enc_derand_reject_x86 (sub J 0) fuel p m1 ct ss pk fp ek d HA HM) as H.
  unfold val in *. unfold bind. destruct (crypto_kem_enc_derand_x86_64 _ _ _ _ _ _ _ _) as [o t]. cbn [fst] in H. subst o. cbn [ret fst].
  eexists; split; [reflexivity|]. apply (free_overwrite m fp 32 d); auto. intros a o [].
Qed.

Lemma keypair_derand_no_ub_x86 J fuel p m pk sk coins d z e : keypair_call (set_of p) m pk sk coins d z ->
  val (crypto_kem_keypair_derand_x86_64 J fuel p m pk sk coins) <> UB e.
Proof.
  intros C E. pose proof (keypair_derand_exact_x86 J fuel p m pk sk coins d z C) as H.
  destruct (ML_KEM_KeyGen_internal _ _ _ _) as [[ek dk]|]; [destruct H as (? & H & _)|]; rewrite E in H; discriminate.
Qed.

Lemma enc_derand_no_ub_x86 J fuel p m ct ss pk coins ek msg e : enc_call (set_of p) m ct ss pk coins ek msg ->
  val (crypto_kem_enc_derand_x86_64 J fuel p m ct ss pk coins) <> UB e.
Proof.
  intros C E. destruct (modulus_check_dec (set_of p) ek) as [HM|HM].
  - pose proof (enc_derand_exact_x86 J fuel p m ct ss pk coins ek msg C HM) as H.
    destruct (ML_KEM_Encaps_internal _ _ _ _) as [[K c]|]; [destruct H as (? & H & _)|]; rewrite E in H; discriminate.
  - rewrite (enc_derand_reject_x86 J fuel p m ct ss pk coins ek msg C HM) in E. discriminate.
Qed.

Lemma dec_no_ub_x86 J fuel p m ss ct sk dk c e : dec_call (set_of p) m ss ct sk dk c ->
  val (crypto_kem_dec_x86_64 J fuel p m ss ct sk) <> UB e.
Proof.
  intros C E. destruct (hash_check_dec (set_of p) dk) as [HM|HM].
  - pose proof (dec_exact_x86 J fuel p m ss ct sk dk c C HM) as H.
    destruct (ML_KEM_Decaps_internal _ _ _ _) as [K|]; [destruct H as (? & H & _)|]; rewrite E in H; discriminate.
  - rewrite (dec_reject_x86 J fuel p m ss ct sk dk c C HM) in E. discriminate.
Qed.

Lemma keypair_no_ub_x86 J fuel p rng m pos fp pk sk e : keypair_rand_call (set_of p) m fp pk sk ->
  val (crypto_kem_keypair_x86_64 J fuel p rng m pos fp pk sk) <> UB e.
Proof.
  intros C E. pose proof (keypair_exact_x86 J fuel p rng m pos fp pk sk C) as H.
  destruct (ML_KEM_KeyGen_internal _ _ _ _) as [[ek dk]|]; [destruct H as (? & H & _)|]; rewrite E in H; discriminate.
Qed.

Lemma enc_no_ub_x86 J fuel p rng m pos fp ct ss pk ek e : enc_rand_call (set_of p) m fp ct ss pk ek ->
  val (crypto_kem_enc_x86_64 J fuel p rng m pos fp ct ss pk) <> UB e.
Proof.
  intros C E. destruct (modulus_check_dec (set_of p) ek) as [HM|HM].
  - pose proof (enc_exact_x86 J fuel p rng m pos fp ct ss pk ek C HM) as H.
    destruct (ML_KEM_Encaps_internal _ _ _ _) as [[K c]|]; [destruct H as (? & H & _)|]; rewrite E in H; discriminate.
  - destruct (enc_reject_x86 J fuel p rng m pos fp ct ss pk ek C HM) as (? & H & _). rewrite E in H. discriminate.
Qed.

(** ** Agreement with the portable build *)

Lemma finished_same o1 o2 m r outs : finished o1 m r outs -> finished o2 m r outs -> same_result o1 o2.
Proof.
  intros (m1 & -> & H1) (m2 & -> & H2). cbn [same_result]. split; [reflexivity|]. intros x. now rewrite H1, H2.
Qed.
Lemma finished_at_same o1 o2 m r pos outs : finished_at o1 m r pos outs -> finished_at o2 m r pos outs -> same_result_at o1 o2.
Proof.
  intros (m1 & -> & H1) (m2 & -> & H2). cbn [same_result_at]. split; [reflexivity|]. split; [reflexivity|].
  intros x. now rewrite H1, H2.
Qed.
Lemma keypair_derand_same {bo : byte_order} J J' fuel p m pk sk coins d z : keypair_call (set_of p) m pk sk coins d z ->
  same_result (val (crypto_kem_keypair_derand_x86_64 J fuel p m pk sk coins))
              (val (crypto_kem_keypair_derand (bo := bo) J' fuel p m pk sk coins)).
Proof.
  intros C. pose proof (keypair_derand_exact_x86 J fuel p m pk sk coins d z C) as H1.
  pose proof (keypair_derand_exact (bo := bo) J' fuel p m pk sk coins d z C) as H2.
  destruct (ML_KEM_KeyGen_internal _ _ _ _) as [[ek dk]|]; [exact (finished_same _ _ _ _ _ H1 H2)|].
  rewrite H1, H2. exact I.
Qed.
Lemma enc_derand_same {bo : byte_order} J J' fuel p m ct ss pk coins ek msg : enc_call (set_of p) m ct ss pk coins ek msg ->
  same_result (val (crypto_kem_enc_derand_x86_64 J fuel p m ct ss pk coins))
              (val (crypto_kem_enc_derand (bo := bo) J' fuel p m ct ss pk coins)).
Proof.
  intros C. destruct (modulus_check_dec (set_of p) ek) as [HM|HM].
  - pose proof (enc_derand_exact_x86 J fuel p m ct ss pk coins ek msg C HM) as H1.
    pose proof (enc_derand_exact (bo := bo) J' fuel p m ct ss pk coins ek msg C HM) as H2.
    destruct (ML_KEM_Encaps_internal _ _ _ _) as [[K c]|]; [exact (finished_same _ _ _ _ _ H1 H2)|].
    rewrite H1, H2. exact I.
  - rewrite (enc_derand_reject_x86 J fuel p m ct ss pk coins ek msg C HM).
    rewrite (enc_derand_reject (bo := bo) J' fuel p m ct ss pk coins ek msg C HM). cbn [same_result]. auto.
Qed.
Lemma dec_same {bo : byte_order} J J' fuel p m ss ct sk dk c : dec_call (set_of p) m ss ct sk dk c ->
  same_result (val (crypto_kem_dec_x86_64 J fuel p m ss ct sk)) (val (crypto_kem_dec (bo := bo) J' fuel p m ss ct sk)).
Proof.
  intros C. destruct (hash_check_dec (set_of p) dk) as [HM|HM].
  - pose proof (dec_exact_x86 J fuel p m ss ct sk dk c C HM) as H1.
    pose proof (dec_exact (bo := bo) J' fuel p m ss ct sk dk c C HM) as H2.
    destruct (ML_KEM_Decaps_internal _ _ _ _) as [K|]; [exact (finished_same _ _ _ _ _ H1 H2)|].
    rewrite H1, H2. exact I.
  - rewrite (dec_reject_x86 J fuel p m ss ct sk dk c C HM), (dec_reject (bo := bo) J' fuel p m ss ct sk dk c C HM).
    cbn [same_result]. auto.
Qed.
Lemma keypair_same {bo : byte_order} J J' fuel p rng m pos fp pk sk : keypair_rand_call (set_of p) m fp pk sk ->
  same_result_at (val (crypto_kem_keypair_x86_64 J fuel p rng m pos fp pk sk))
                 (val (crypto_kem_keypair (bo := bo) J' fuel p rng m pos fp pk sk)).
Proof.
  intros C. pose proof (keypair_exact_x86 J fuel p rng m pos fp pk sk C) as H1.
  pose proof (keypair_exact (bo := bo) J' fuel p rng m pos fp pk sk C) as H2.
  destruct (ML_KEM_KeyGen_internal _ _ _ _) as [[ek dk]|]; [exact (finished_at_same _ _ _ _ _ _ H1 H2)|].
  rewrite H1, H2. exact I.
Qed.
Lemma enc_same {bo : byte_order} J J' fuel p rng m pos fp ct ss pk ek : enc_rand_call (set_of p) m fp ct ss pk ek ->
  same_result_at (val (crypto_kem_enc_x86_64 J fuel p rng m pos fp ct ss pk))
                 (val (crypto_kem_enc (bo := bo) J' fuel p rng m pos fp ct ss pk)).
Proof.
  intros C. destruct (modulus_check_dec (set_of p) ek) as [HM|HM].
  - pose proof (enc_exact_x86 J fuel p rng m pos fp ct ss pk ek C HM) as H1.
    pose proof (enc_exact (bo := bo) J' fuel p rng m pos fp ct ss pk ek C HM) as H2.
    destruct (ML_KEM_Encaps_internal _ _ _ _) as [[K c]|]; [exact (finished_at_same _ _ _ _ _ _ H1 H2)|].
    rewrite H1, H2. exact I.
  - pose proof (enc_reject_x86 J fuel p rng m pos fp ct ss pk ek C HM) as H1.
    pose proof (enc_reject (bo := bo) J' fuel p rng m pos fp ct ss pk ek C HM) as H2.
    exact (finished_at_same _ _ _ _ _ _ H1 H2).
Qed.
