(** * The keys that pass the checks, and the keys that are generated *)

From Coq Require Import ZArith List Bool Lia.
From Verif Require Import CSem ModelArith ModelKeccak ModelIndcpa ModelKem Spec202 Spec203 SpecLink SpecMem
  CSemFacts ProofScalar ProofBits ProofChunk ProofPack ProofCbd ProofRej ProofSponge ProofHash ProofNttSpec
  ProofRing ProofNtt ProofMul ProofMatrix ProofNoise ProofPke ProofMem ProofKem.
Import ListNotations.
Open Scope Z_scope.
Ltac Zify.zify_post_hook ::= idtac.
Local Transparent range.

Lemma range_head m : range (Z.of_nat (S m)) = 0 :: map (Z.add 1) (range (Z.of_nat m)).
Proof.
  unfold range. rewrite !Nat2Z.id. cbn [seq map]. f_equal. rewrite <- seq_shift, !map_map.
  apply map_ext. intros a. lia.
Qed.
Lemma range_seq m : range m = map Z.of_nat (seq 0 (Z.to_nat m)). Proof. reflexivity. Qed.
Local Opaque range.

Definition two12 (a b c : Z) : list Z := [a + 256 * (b mod 16); b / 16 + 16 * c].

Lemma flat_map_map {A B C} (f : B -> list C) (g : A -> B) l : flat_map f (map g l) = flat_map (fun x => f (g x)) l.
Proof. rewrite !flat_map_concat_map, map_map. reflexivity. Qed.
Lemma flat_map_ext_in {A B} (f g : A -> list B) l : (forall a, In a l -> f a = g a) -> flat_map f l = flat_map g l.
Proof. intros H. rewrite !flat_map_concat_map. f_equal. now apply map_ext_in. Qed.

Lemma candidates_flat m : forall B, length B = (3 * m)%nat ->
  candidates B = flat_map (fun i => two12 (zget 0 B (3 * i)) (zget 0 B (3 * i + 1)) (zget 0 B (3 * i + 2))) (range (Z.of_nat m)).
Proof.
  induction m as [|m IH]; intros B L.
  - destruct B; [reflexivity|discriminate].
  - destruct B as [|a [|b [|c B]]]; try (cbn in L; lia).
    assert (LB : length B = (3 * m)%nat) by (cbn [length] in L; lia).
    rewrite range_head. cbn [candidates flat_map]. rewrite IH by exact LB. rewrite flat_map_map. cbn [two12 app].
    do 2 f_equal. apply flat_map_ext_in. intros i Hi. apply in_range in Hi.
    assert (S3 : forall j, 0 <= j -> zget 0 (a :: b :: c :: B) (3 + j) = zget 0 B j).
    { intros j Hj. unfold zget. replace (Z.to_nat (3 + j)) with (S (S (S (Z.to_nat j)))) by lia. reflexivity. }
    replace (3 * (1 + i)) with (3 + 3 * i) by lia. rewrite <- !Z.add_assoc, !S3 by lia. reflexivity.
Qed.

Lemma chunk12 g : (forall i, 0 <= i < 3 -> is_byte (g i)) -> dec_chunk 12 2 g = two12 (g 0) (g 1) (g 2).
Proof.
  intros Hg.
  pose proof (Hg 0 ltac:(lia)) as H0. pose proof (Hg 1 ltac:(lia)) as H1. pose proof (Hg 2 ltac:(lia)) as H2.
  rewrite dec_chunk_12 by exact Hg.
  unfold is_byte in *. unfold two12. f_equal; [|f_equal].
  - rewrite Z.shiftl_mul_pow2 by lia.
    change 4095 with (Z.ones 12). rewrite Z.land_ones by lia. change (2 ^ 12) with (16 * 2 ^ 8).
    rewrite Z.mul_mod_distr_r by lia. rewrite lor_add by lia. change (2 ^ 8) with 256. lia.
  - rewrite Z.shiftl_mul_pow2, Z.shiftr_div_pow2 by lia. change (2 ^ 4) with 16.
    assert (0 <= g 1 / 16 < 16) by (split; [apply Z.div_pos; lia|apply Z.div_lt_upper_bound; lia]).
    change 16 with (2 ^ 4) at 2. rewrite lor_add by lia. change (2 ^ 4) with 16. lia.
Qed.

(** The candidates of the 384 bytes of an encoded polynomial are its twelve-bit fields. *)
Lemma candidates_fields B : zlen B = 384 -> bytes B -> candidates B = fields 12 B.
Proof.
  intros L HB. rewrite (fields_dec 12 2 3 128) by lia.
  rewrite (candidates_flat 128) by (unfold zlen in L; lia). change (Z.of_nat 128) with 128.
  apply flat_map_ext_in. intros i Hi. apply in_range in Hi. rewrite chunk12.
  - rewrite Z.add_0_r. reflexivity.
  - intros j Hj. unfold bytes in HB. rewrite Forall_forall in HB. apply HB. unfold zget. apply nth_In. unfold zlen in L. lia.
Qed.

Lemma candidates_app A B : zlen A mod 3 = 0 -> candidates (A ++ B) = candidates A ++ candidates B.
Proof.
  intros H. assert (E : exists m, length A = (3 * m)%nat).
  { exists (Z.to_nat (zlen A / 3)). pose proof (Z.div_mod (zlen A) 3 ltac:(lia)). unfold zlen in *. lia. }
  clear H. destruct E as [m E]. revert A E. induction m as [|m IH]; intros A E.
  - destruct A; [reflexivity|discriminate].
  - destruct A as [|a [|b [|c A]]]; try (cbn in E; lia). cbn [app candidates]. rewrite IH; [reflexivity|].
    cbn [length] in E. lia.
Qed.

(** ** The pieces of a key *)

Lemma slice_pieces (B : list Z) m : 0 <= m -> 384 * m <= zlen B ->
  slice B 0 (384 * m) = concat (map (fun i => slice B (384 * i) (384 * i + 384)) (range m)).
Proof.
  intros Hm. pattern m. apply natlike_ind; [|clear m Hm; intros m Hm IH|exact Hm]; intros L.
  - reflexivity.
  - unfold Z.succ in *. rewrite range_S, map_app, concat_app by lia. rewrite <- IH by lia. cbn [map concat].
    rewrite app_nil_r. rewrite slice_cat by lia. f_equal. lia.
Qed.

Lemma Forall_concat {A} (Q : A -> Prop) l : Forall Q (concat l) <-> Forall (Forall Q) l.
Proof.
  induction l as [|x l IH]; cbn [concat]; split; intros H; try constructor.
  - apply Forall_app in H. tauto.
  - apply Forall_app in H. tauto.
  - apply Forall_cons_iff in H. apply Forall_app. tauto.
Qed.

Lemma candidates_pieces (B : list Z) m : 0 <= m -> 384 * m <= zlen B -> bytes B ->
  candidates (slice B 0 (384 * m)) = concat (map (fun i => fields 12 (slice B (384 * i) (384 * i + 384))) (range m)).
Proof.
  intros Hm. pattern m. apply natlike_ind; [|clear m Hm; intros m Hm IH|exact Hm]; intros L HB.
  - reflexivity.
  - unfold Z.succ in *. rewrite range_S, map_app, concat_app by lia. rewrite <- IH by (auto; lia). cbn [map concat].
    rewrite app_nil_r. rewrite <- (slice_cat B 0 (384 * m)) by lia.
    rewrite candidates_app.
    + f_equal. rewrite candidates_fields; [f_equal; f_equal; lia|rewrite zlen_slice by lia; lia|now apply bytes_slice'].
    + rewrite zlen_slice by lia. replace (384 * m - 0) with (128 * m * 3) by lia. apply Z.mod_mul. lia.
Qed.

Lemma reencode B : zlen B = 384 -> bytes B ->
  (ByteEncode 12 (ByteDecode 12 B) = B <-> Forall (fun v => v < q) (fields 12 B)).
Proof.
  intros L HB. rewrite ByteDecode_12.
  assert (HF : ubounded (2 ^ 12) (fields 12 B)) by (apply fields_range; lia).
  split; intros H.
  - assert (E : map (fun x => x mod q) (fields 12 B) = fields 12 B).
    { rewrite <- H at 2. rewrite fields_ByteEncode; [reflexivity|lia|rewrite zlen_map; apply zlen_fields|].
      apply Forall_map. apply Forall_forall. intros x _. pose proof (Z.mod_pos_bound x q ltac:(reflexivity)).
      unfold q in *. change (2 ^ 12) with 4096. lia. }
    rewrite <- E. apply Forall_map, Forall_forall. intros x _. now apply Z.mod_pos_bound.
  - rewrite <- (ByteEncode_fields 12 B) at 2 by (auto; lia). f_equal.
    rewrite <- (map_id (fields 12 B)) at 2. apply map_ext_in. intros x Hx.
    rewrite Forall_forall in H. pose proof (H x Hx). unfold ubounded in HF. rewrite Forall_forall in HF.
    pose proof (HF x Hx). apply Z.mod_small. cbn beta in *. lia.
Qed.

(** The modulus check of FIPS 203 section 7.2 passes exactly if no encoded value is q or more. *)
Lemma modulus_check_iff p ek : zlen ek = ek_size (set_of p) -> bytes ek ->
  (modulus_check (set_of p) ek <-> Forall (fun v => v < q) (candidates (slice ek 0 (384 * k (set_of p))))).
Proof.
  intros L HB. pose proof (k_range p) as HK. unfold ek_size in L. unfold modulus_check.
  Transparent decode_vec. unfold decode_vec. Opaque decode_vec.
  rewrite candidates_pieces by (auto; lia). rewrite Forall_concat, Forall_map.
  rewrite slice_pieces by (auto; lia). rewrite map_map. change (32 * 12) with 384.
  set (K := k (set_of p)) in *.
  assert (P : forall i, In i (range K) -> zlen (slice ek (384 * i) (384 * i + 384)) = 384 /\ bytes (slice ek (384 * i) (384 * i + 384))).
  { intros i Hi. apply in_range in Hi. split; [rewrite zlen_slice by lia; lia|now apply bytes_slice']. }
  split; intros H.
  - apply Forall_forall. intros i Hi. destruct (P i Hi) as [P1 P2]. apply reencode; auto.
    assert (S : forall f : Z -> list Z, (forall i, In i (range K) -> zlen (f i) = 384) ->
      slice (concat (map f (range K))) (384 * i) (384 * i + 384) = f i).
    { intros f Hf. rewrite slice_concat_const; [|lia| |].
      - apply zget_map_range. now apply in_range.
      - apply Forall_map, Forall_forall. exact Hf.
      - rewrite zlen_map, zlen_range by lia. now apply in_range. }
    rewrite <- (S (fun i => slice ek (384 * i) (384 * i + 384))) at 2 by apply P.
    rewrite <- H. symmetry. apply (S (fun i => ByteEncode 12 (ByteDecode 12 (slice ek (384 * i) (384 * i + 384))))).
    intros j Hj. apply zlen_ByteEncode; rewrite ?zlen_ByteDecode; lia.
  - f_equal. apply map_ext_in. intros i Hi. destruct (P i Hi) as [P1 P2]. apply reencode; auto.
    rewrite Forall_forall in H. now apply H.
Qed.

(** ** Generated keys *)

Lemma candidates_encode (v : list (list Z)) : Forall reduced v ->
  candidates (concat (map (ByteEncode 12) v)) = concat v.
Proof.
  induction 1 as [|f v [L R] Hv IH]; [reflexivity|]. cbn [map concat].
  assert (LE : zlen (ByteEncode 12 f) = 384) by (apply zlen_ByteEncode; rewrite ?L; unfold n; lia).
  rewrite candidates_app by (rewrite LE; reflexivity). rewrite IH. f_equal.
  rewrite candidates_fields; [|exact LE|apply (bytes_ByteEncode 12 _ 384); rewrite ?L; unfold n; lia].
  apply fields_ByteEncode; [lia|exact L|]. apply Forall_forall. rewrite Forall_forall in R.
  intros x Hx. specialize (R x Hx). unfold q in R. change (2 ^ 12) with 4096. lia.
Qed.
Lemma reduced_below v : Forall reduced v -> Forall (fun x => x < q) (concat v).
Proof.
  intros H. apply Forall_concat. apply Forall_forall. rewrite Forall_forall in H. intros f Hf.
  destruct (H f Hf) as [_ R]. apply Forall_forall. rewrite Forall_forall in R. intros x Hx. apply R in Hx. lia.
Qed.
Lemma vec_plus_reduced u v : Forall reduced (vec_plus u v).
Proof.
  apply Forall_forall. intros x Hx. unfold vec_plus in Hx. apply in_map_iff in Hx as ([x1 x2] & <- & _).
  apply poly_plus_reduced.
Qed.
Lemma map_NTT_reduced v : Forall reduced (map NTT v).
Proof. apply Forall_map, Forall_forall. intros x _. apply NTT_reduced. Qed.

Lemma keygen_small p b d ek dk : bytes d -> 0 <= b ->
  K_PKE_KeyGen (set_of p) b d = Some (ek, dk) ->
  Forall (fun v => v < q) (candidates (slice ek 0 (384 * k (set_of p)))) /\
  Forall (fun v => v < q) (candidates dk) /\
  exists A, ExpandA (set_of p) b (fst (G (d ++ [k (set_of p)]))) = Some A.
Proof.
  intros Bd Hb E. pose proof (keygen_out p b d ek dk Bd E Hb) as (L1 & _ & _ & _). set (P := set_of p) in *.
  pose proof (k_range p) as HK. fold P in HK.
  Transparent K_PKE_KeyGen. unfold K_PKE_KeyGen in E. Opaque K_PKE_KeyGen.
  destruct (G (d ++ [k P])) as [rho sigma] eqn:EG. destruct (ExpandA P b rho) as [A|] eqn:EA; [|discriminate].
  cbv zeta in E. injection E as <- <-.
  assert (Lr : zlen rho = 32).
  { unfold G in EG. injection EG as <- _. rewrite zlen_slice; rewrite ?zlen_SHA3_512 by (apply Forall_app; split; [exact Bd|repeat constructor; lia]); lia. }
  rewrite zlen_app in L1. unfold ek_size in L1.
  rewrite slice_app_l by lia. rewrite !candidates_encode by (apply vec_plus_reduced || apply map_NTT_reduced).
  split; [apply reduced_below, vec_plus_reduced|split; [apply reduced_below, map_NTT_reduced|exists A; exact EA]].
Qed.

(** What a generated key pair looks like *)
Lemma keygen_keys p b d z ek dk : bytes d -> bytes z -> zlen z = 32 -> 0 <= b ->
  ML_KEM_KeyGen_internal (set_of p) b d z = Some (ek, dk) ->
  zlen ek = ek_size (set_of p) /\ bytes ek /\ zlen dk = dk_size (set_of p) /\ bytes dk /\
  Forall (fun v => v < q) (candidates (slice ek 0 (384 * k (set_of p)))) /\
  modulus_check (set_of p) ek /\ hash_check (set_of p) dk /\
  exists dkp, dk = dkp ++ ek ++ Spec203.H ek ++ z /\ zlen dkp = 384 * k (set_of p) /\ bytes dkp /\
    Forall (fun v => v < q) (candidates dkp).
Proof.
  intros Bd Bz Lz Hb E. unfold ML_KEM_KeyGen_internal in E.
  destruct (K_PKE_KeyGen (set_of p) b d) as [[ek' dkp]|] eqn:EK; [|discriminate]. injection E as <- <-.
  pose proof (keygen_out _ _ _ _ _ Bd EK Hb) as (L1 & B1 & L2 & B2).
  pose proof (keygen_small _ _ _ _ _ Bd Hb EK) as (S1 & S2 & _).
  pose proof (k_range p) as HK. set (P := set_of p) in *.
  assert (LH : zlen (Spec203.H ek') = 32) by now apply zlen_SHA3_256.
  assert (BH : bytes (Spec203.H ek')) by now apply bytes_SHA3_256.
  unfold dk_size, ek_size in *.
  split; [exact L1|split; [exact B1|split; [rewrite !zlen_app; lia|split; [repeat (apply Forall_app; split); auto|]]]].
  split; [exact S1|split; [|split]].
  - apply modulus_check_iff; auto.
  - unfold hash_check.
    replace (slice (dkp ++ ek' ++ Spec203.H ek' ++ z) (384 * k P) (768 * k P + 32)) with ek'.
    2: { symmetry. replace (384 * k P) with (zlen dkp). replace (768 * k P + 32) with (zlen dkp + zlen ek') by lia.
         apply slice_app_mid. }
    rewrite app_assoc. replace (768 * k P + 32) with (zlen (dkp ++ ek')) by (rewrite zlen_app; lia).
    replace (768 * k P + 64) with (zlen (dkp ++ ek') + zlen (Spec203.H ek')) by (rewrite zlen_app; lia).
    symmetry. apply slice_app_mid.
  - exists dkp. auto.
Qed.
