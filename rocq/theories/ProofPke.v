(** * The K-PKE component scheme: indcpa_keypair_derand, indcpa_enc, indcpa_dec *)

From Coq Require Import ZArith List Bool Lia.
From Verif Require Import CSem ModelArith ModelKeccak ModelIndcpa Spec202 Spec203 SpecLink
  CSemFacts ProofScalar ProofBits ProofPack ProofCbd ProofSponge ProofHash ProofSum ProofNttSpec
  ProofRing ProofNtt ProofMul ProofMatrix ProofNoise.
Import ListNotations.
Open Scope Z_scope.
Ltac Zify.zify_post_hook ::= idtac.
Global Opaque SampleNTT ExpandA SHA3_512 SHA3_256 SHAKE256.

(** ** Matrix times vector *)

Lemma slice_concat_const {A} (K : Z) (l : list (list A)) : 0 < K -> Forall (fun r => zlen r = K) l ->
  forall i, 0 <= i < zlen l -> slice (concat l) (K * i) (K * i + K) = zget [] l i.
Proof.
  intros HK. induction 1 as [|r l Hr Hl IH]; intros i Hi.
  - change (zlen (@nil (list A))) with 0 in Hi. lia.
  - cbn [concat]. rewrite zlen_cons in Hi. rewrite zget_cons by lia.
    destruct (Z.eqb_spec i 0) as [->|Hne].
    + rewrite Z.mul_0_r, Z.add_0_l. unfold slice. rewrite Z.sub_0_r. cbn [Z.to_nat skipn].
      unfold zlen in Hr. rewrite firstn_app. replace (Z.to_nat K) with (length r) by lia.
      rewrite Nat.sub_diag, firstn_all. cbn [firstn]. apply app_nil_r.
    + rewrite <- (IH (i - 1)) by lia. unfold slice. unfold zlen in Hr.
      rewrite skipn_app. replace (Z.to_nat (K * i) - length r)%nat with (Z.to_nat (K * (i - 1))) by nia.
      rewrite skipn_all2 by nia. cbn [app]. f_equal. lia.
Qed.

Definition rows_ok (K : Z) (A : list (list (list Z))) : Prop :=
  zlen A = K /\ forall i, 0 <= i < K ->
    each K (fun _ x => zlen x = 256 /\ bounded 3329 x) (zget [] A i).

Lemma rows_lens K A : rows_ok K A -> Forall (fun r => zlen r = K) A.
Proof. intros [L H]. apply (Forall_zget _ []). rewrite L. intros i Hi. apply H; auto. Qed.

Lemma wp_matvec N J p out A v vc (Q : list (list Z) -> Prop) :
  let K := MLKEM_K p in
  each K (fun _ x => zlen x = 256) out -> rows_ok K A ->
  each K (fun _ x => zlen x = 256 /\ bounded 26632 x) v ->
  each K (fun i x => is_cache x (zget [] v i)) vc ->
  (forall r, each K (fun i x => zlen x = 256 /\ bounded 19969 x /\
       repr (scale 65536 x) (dot (zget [] A i) v)) r -> Q r) ->
  wpn N (matvec_mul J p out (concat A) v vc) Q.
Proof.
  intros K Ho HA Hv Hc HQ. pose proof (MLKEM_K_range p) as HK. fold K in HK. unfold matvec_mul. fold K.
  eapply wp_for_rel; [apply Ho| |exact HQ].
  intros i s Hi Ls Es. apply wp_bind, (wp_aget []); [lia|]. rewrite Es.
  assert (LA : zlen (concat A) = K * K).
  { rewrite (concat_const K); [|lia|now apply rows_lens]. destruct HA as [-> _]. reflexivity. }
  apply wp_bind, wp_aslice; [nia|lia|nia|].
  rewrite slice_concat_const; [|lia|now apply rows_lens|destruct HA as [-> _]; lia].
  apply wp_bind, wp_basemul_acc; [now apply Ho|now apply HA|exact Hv|exact Hc|].
  intros r' L' B' E'. apply wp_aset; [lia|]. exists r'. auto.
Qed.

(** ** The matrix of the standard as used by the code *)

Lemma SampleNTT_entry b rho i j a : bytes rho -> 0 <= i < 256 -> 0 <= j < 256 -> 0 <= b ->
  SampleNTT b (rho ++ [j; i]) = Some a -> zlen a = 256 /\ bounded 3329 a.
Proof.
  intros Br Hi Hj Hb H. apply SampleNTT_ok in H; auto.
  - split; [apply H|]. apply ubounded_bounded, H.
  - apply Forall_app; split; auto.
Qed.
Lemma ExpandA_rows p b rho A : bytes rho -> 0 <= b -> ExpandA (set_of p) b rho = Some A ->
  rows_ok (MLKEM_K p) A /\ rows_ok (MLKEM_K p) (transpose A).
Proof.
  intros Br Hb H. pose proof (MLKEM_K_range p) as HK.
  apply ExpandA_entry in H; rewrite <- ?MLKEM_K_k in *; [|lia]. destruct H as [LA HA].
  assert (R : rows_ok (MLKEM_K p) A).
  { split; [exact LA|]. intros i Hi. destruct (HA i Hi) as [Li Hj]. split; [exact Li|].
    intros j Hj'. eapply SampleNTT_entry; [| | | |apply Hj]; auto; lia. }
  split; [exact R|]. unfold transpose, vec in *. fold (zlen A). rewrite LA. split.
  - rewrite zlen_map, zlen_range; lia.
  - intros i Hi. rewrite zget_map_range by lia. split; [rewrite zlen_map; lia|].
    intros j Hj. rewrite (zget_map (fun row : list (list Z) => nth (Z.to_nat i) row []) [] []) by lia.
    destruct R as [_ R]. apply (R j Hj). exact Hi.
Qed.

(** ** Vectors up to residues *)

Definition vrepr (K : Z) (v V : list (list Z)) : Prop :=
  zlen v = K /\ zlen V = K /\ forall i, 0 <= i < K -> repr (zget [] v i) (zget [] V i).

Lemma dot_vrepr K u v V : zlen u = K -> vrepr K v V -> dot u v = dot u V.
Proof.
  intros Lu (Lv & LV & H). apply (dot_cg K); auto.
  - intros i Hi. apply eqf_refl.
  - intros i Hi. apply (H i Hi).
Qed.
Lemma dot_vrepr2 K u U v V : vrepr K u U -> vrepr K v V -> dot u v = dot U V.
Proof.
  intros (Lu & LU & HU) (Lv & LV & H). apply (dot_cg K); auto.
  - intros i Hi. apply (HU i Hi).
  - intros i Hi. apply (H i Hi).
Qed.

Lemma zget_mat_vec A u i : 0 <= i < zlen A -> zget [] (mat_vec A u) i = dot (zget [] A i) u.
Proof. intros. unfold mat_vec. now apply (zget_map (fun r => dot r u) [] []). Qed.
Lemma zlen_mat_vec K (A : list (list (list Z))) u : zlen A = K -> zlen (mat_vec A u) = K.
Proof. intros <-. unfold mat_vec. apply zlen_map. Qed.
Lemma zget_vec_plus u v i : zlen u = zlen v -> 0 <= i < zlen u ->
  zget [] (vec_plus u v) i = poly_plus (zget [] u i) (zget [] v i).
Proof.
  intros L Hi. unfold vec_plus, vec in *. etransitivity; [apply (zget_map _ ([], []) [])|].
  - rewrite zlen_combine; lia.
  - rewrite (zget_combine [] []) by auto. reflexivity.
Qed.
Lemma zlen_vec_plus u v : zlen u = zlen v -> zlen (vec_plus u v) = zlen u.
Proof. intros. unfold vec_plus. rewrite zlen_map, zlen_combine; auto. Qed.

Lemma repr_scale_inv x y D : repr x (scale 65536 y) -> repr (scale 65536 y) D -> repr x D.
Proof. intros [L E] [L' E']. split; auto. intros i Hi. rewrite (E i Hi). apply (E' i Hi). Qed.

(** ** Layout of keys and ciphertexts *)

Lemma wp_pack_pk N p r v seed (Q : list Z -> Prop) :
  zlen r = 384 * MLKEM_K p + 32 -> vec_of (MLKEM_K p) v -> Forall (ubounded 3329) v -> zlen seed = 32 ->
  Q (concat (map (ByteEncode 12) v) ++ seed) -> wpn N (pack_pk p r v seed) Q.
Proof.
  intros Lr Hv Bv Ls HQ. pose proof (MLKEM_K_range p) as HK. unfold pack_pk, MLKEM_SYMBYTES.
  assert (E : MLKEM_POLYVECBYTES p = 384 * MLKEM_K p) by (destruct p; reflexivity). rewrite E.
  apply wp_bind, wp_POLYVEC_BOUND.
  { eapply Forall_impl; [|exact Bv]. intros. now apply ubounded_bounded. }
  apply wp_bind, wp_aslice; try lia. apply wp_bind, wp_polyvec_tobytes; auto.
  { rewrite zlen_slice; lia. }
  set (T := concat _) in *.
  assert (LT : zlen T = 384 * MLKEM_K p).
  { unfold T. rewrite (concat_const 384); [|lia|].
    - rewrite zlen_map. destruct Hv as [-> _]. reflexivity.
    - apply Forall_forall. intros x Hx. apply in_map_iff in Hx as (f & <- & Hf).
      apply zlen_ByteEncode; [lia|]. destruct Hv as [_ Hv]. rewrite Forall_forall in Hv. rewrite (Hv f Hf). reflexivity. }
  clearbody T. apply wp_bind, wp_asplice; try lia.
  apply wp_memcpy; try lia. { rewrite zlen_splice; lia. }
  change (0 + 32) with 32. rewrite slice_zlen by auto.
  replace (splice (splice r 0 T) (384 * MLKEM_K p) seed) with (T ++ seed); [exact HQ|].
  symmetry. unfold splice at 2. cbn [Z.to_nat firstn app Nat.add].
  replace (length T) with (Z.to_nat (384 * MLKEM_K p)) by (unfold zlen in LT; lia).
  set (rest := skipn _ r). assert (Lrest : zlen rest = 32) by (unfold rest; rewrite zlen_skipn; lia).
  rewrite <- (app_nil_r rest). rewrite splice_app by lia. now rewrite app_nil_r.
Qed.

Lemma du_dv p : MLKEM_POLYVECCOMPRESSEDBYTES_DU p = 32 * du (set_of p) * MLKEM_K p /\
  MLKEM_POLYCOMPRESSEDBYTES_DV p = 32 * dv (set_of p) /\ 10 <= du (set_of p) <= 11 /\ 4 <= dv (set_of p) <= 5.
Proof. destruct p; cbn; lia. Qed.

Lemma zlen_concat_enc K d (f : list Z -> list Z) v : 0 < d -> zlen v = K -> 
  (forall x, In x v -> zlen (f x) = 256) ->
  zlen (concat (map (fun x => ByteEncode d (f x)) v)) = 32 * d * K.
Proof.
  intros Hd L H. rewrite (concat_const (32 * d)); [|lia|].
  - rewrite zlen_map, L. lia.
  - apply Forall_forall. intros x Hx. apply in_map_iff in Hx as (g & <- & Hg).
    apply zlen_ByteEncode; [lia|]. rewrite H by auto. lia.
Qed.
Lemma bytes_concat_enc d (f : list Z -> list Z) v : 0 < d -> (forall x, In x v -> zlen (f x) = 256) ->
  bytes (concat (map (fun x => ByteEncode d (f x)) v)).
Proof.
  intros Hd H. unfold bytes. apply Forall_concat. apply Forall_forall. intros x Hx.
  apply in_map_iff in Hx as (g & <- & Hg). apply (bytes_ByteEncode d _ (32 * d)); [lia|]. rewrite H by auto. lia.
Qed.

Lemma wp_pack_ciphertext N J p r b v (Q : list Z -> Prop) :
  let P := set_of p in
  zlen r = 32 * (du P * MLKEM_K p + dv P) -> vec_of (MLKEM_K p) b -> Forall (ubounded 3329) b ->
  zlen v = 256 -> ubounded 3329 v ->
  Q (concat (map (fun f => ByteEncode (du P) (map (Compress (du P)) f)) b) ++ ByteEncode (dv P) (map (Compress (dv P)) v)) ->
  wpn N (pack_ciphertext J p r b v) Q.
Proof.
  intros P Lr Hb Bb Lv Bv HQ. pose proof (MLKEM_K_range p) as HK.
  destruct (du_dv p) as (E1 & E2 & Hdu & Hdv). unfold pack_ciphertext. rewrite E1, E2. fold P in Hdu, Hdv |- *.
  apply wp_bind, wp_aslice; try nia. apply wp_bind, wp_polyvec_compress_du; auto.
  { fold P. rewrite zlen_slice; nia. }
  fold P. set (T := concat _) in *.
  assert (LT : zlen T = 32 * du P * MLKEM_K p).
  { unfold T. apply (zlen_concat_enc _ _ (map (Compress (du P)))); [lia|apply Hb|]. intros x Hx. rewrite zlen_map.
    destruct Hb as [_ Hb]. rewrite Forall_forall in Hb. auto. }
  clearbody T. apply wp_bind, wp_asplice; try nia.
  set (r1 := splice r 0 T).
  assert (L1 : zlen r1 = zlen r) by (unfold r1; rewrite zlen_splice; nia).
  apply wp_bind, wp_aslice; try nia. apply wp_bind, wp_poly_compress_dv; auto.
  { fold P. rewrite zlen_slice; nia. }
  fold P. set (U := ByteEncode _ _) in *.
  assert (LU : zlen U = 32 * dv P).
  { unfold U. apply zlen_ByteEncode; [lia|]. rewrite zlen_map. lia. }
  clearbody U. apply wp_asplice; [nia|nia|].
  replace (splice r1 (32 * du P * MLKEM_K p) U) with (T ++ U); [exact HQ|].
  symmetry. unfold r1, splice at 2. cbn [Z.to_nat firstn app Nat.add].
  replace (length T) with (Z.to_nat (32 * du P * MLKEM_K p)) by (unfold zlen in LT; lia).
  set (rest := skipn _ r). assert (Lrest : zlen rest = 32 * dv P) by (unfold rest; rewrite zlen_skipn; nia).
  rewrite <- (app_nil_r rest). rewrite splice_app by lia. now rewrite app_nil_r.
Qed.

(** ** Decoding *)

Lemma decode_len P d B : 0 <= k P -> zlen (decode_vec P d B) = k P.
Proof. intros. unfold decode_vec. rewrite zlen_map, zlen_range; auto. Qed.

Lemma zlen_fields12 B : zlen B = 384 -> zlen (fields 12 B) = 256.
Proof. intros _. apply zlen_fields. Qed.

Lemma decode_each p B : 384 * MLKEM_K p <= zlen B -> bytes B ->
  each (MLKEM_K p) (fun _ x => zlen x = 256 /\ ubounded 3329 x) (decode_vec (set_of p) 12 B).
Proof.
  intros LB HB. pose proof (MLKEM_K_range p) as HK. unfold decode_vec. rewrite <- MLKEM_K_k. apply each_map; [lia|].
  intros i Hi. cbv beta. change (32 * 12) with 384.
  assert (L : zlen (slice B (384 * i) (384 * i + 384)) = 384) by (rewrite zlen_slice; lia).
  rewrite ByteDecode_12. split; [rewrite zlen_map; now apply zlen_fields12|].
  apply Forall_forall. intros x Hx. apply in_map_iff in Hx as (y & <- & _). apply Z.mod_pos_bound. reflexivity.
Qed.

Lemma each_vec K P v : each K (fun _ x => zlen x = 256 /\ P x) v -> vec_of K v /\ Forall P v.
Proof.
  intros H. split.
  - eapply each_vec_of; [|exact H]. cbv beta. tauto.
  - apply each_Forall with (k := K). eapply each_weaken; [|exact H]. cbv beta. tauto.
Qed.

Lemma fields_each p B : 384 * MLKEM_K p <= zlen B ->
  each (MLKEM_K p) (fun _ x => zlen x = 256 /\ int16s x)
    (map (fun i => fields 12 (slice B (384 * i) (384 * i + 384))) (range (MLKEM_K p))).
Proof.
  intros LB. pose proof (MLKEM_K_range p) as HK. apply each_map; [lia|]. intros i Hi.
  assert (L : zlen (slice B (384 * i) (384 * i + 384)) = 384) by (rewrite zlen_slice; lia).
  split; [now apply zlen_fields12|]. pose proof (fields_range 12 (slice B (384 * i) (384 * i + 384)) ltac:(lia) ltac:(lia)) as F.
  eapply Forall_impl; [|exact F]. cbv beta. change (2 ^ 12) with 4096. intros. lia.
Qed.
Lemma fields_decode p B : map residues (map (fun i => fields 12 (slice B (384 * i) (384 * i + 384))) (range (MLKEM_K p))) =
  decode_vec (set_of p) 12 B.
Proof.
  unfold decode_vec. rewrite map_map, <- MLKEM_K_k. apply map_ext. intros i.
  rewrite ByteDecode_12. reflexivity.
Qed.

Lemma wp_unpack N p r B (Q : list (list Z) -> Prop) : vec_of (MLKEM_K p) r ->
  384 * MLKEM_K p <= zlen B -> bytes B -> Q (decode_vec (set_of p) 12 B) ->
  wpn N (unpack_sk p r B) Q.
Proof.
  intros Hr LB HB HQ. unfold unpack_sk.
  apply wp_bind, wp_polyvec_frombytes; auto. apply wp_polyvec_reduce; [now apply fields_each|].
  now rewrite fields_decode.
Qed.

(** ** Key generation *)

Lemma zlen_SHA3_512 m : bytes m -> zlen (SHA3_512 m) = 64.
Proof. intros. rewrite SHA3_512_stream by auto. rewrite zlen_map, zlen_range; lia. Qed.
Lemma bytes_SHA3_512 m : bytes m -> bytes (SHA3_512 m).
Proof.
  intros Bm. rewrite SHA3_512_stream by auto. apply Forall_forall. intros x Hx.
  apply in_map_iff in Hx as (i & <- & _). apply stream_byte. apply wfb_fb, wfb_final; auto; lia.
Qed.
Lemma zlen_SHA3_256 m : bytes m -> zlen (SHA3_256 m) = 32.
Proof. intros. rewrite SHA3_256_stream by auto. rewrite zlen_map, zlen_range; lia. Qed.
Lemma bytes_SHA3_256 m : bytes m -> bytes (SHA3_256 m).
Proof.
  intros Bm. rewrite SHA3_256_stream by auto. apply Forall_forall. intros x Hx.
  apply in_map_iff in Hx as (i & <- & _). apply stream_byte. apply wfb_fb, wfb_final; auto; lia.
Qed.

Lemma vec_eq K (u v : list (list Z)) : zlen u = K -> zlen v = K ->
  (forall i, 0 <= i < K -> zget [] u i = zget [] v i) -> u = v.
Proof. intros Lu Lv H. apply (zlist_ext []); [lia|]. rewrite Lu. exact H. Qed.

Lemma ntt_noise p eta seed first r : bytes seed -> 0 <= first -> first + MLKEM_K p <= 256 ->
  map residues (nvec eta seed first (MLKEM_K p)) = noise_vec (set_of p) eta seed first ->
  each (MLKEM_K p) (fun i x => zlen x = 256 /\ bounded 20801 x /\
       residues x = NTT (zget [] (nvec eta seed first (MLKEM_K p)) i)) r ->
  map residues r = map NTT (noise_vec (set_of p) eta seed first) /\
  vrepr (MLKEM_K p) r (map NTT (noise_vec (set_of p) eta seed first)).
Proof.
  intros Bs Hf Hf' E H. pose proof (MLKEM_K_range p) as HK. set (K := MLKEM_K p) in *.
  destruct (nvec_polys eta seed first K ltac:(lia)) as [Ln Hn].
  assert (X : forall i, 0 <= i < K -> zget [] (map NTT (noise_vec (set_of p) eta seed first)) i = residues (zget [] r i)).
  { intros i Hi. rewrite <- E. rewrite map_map. rewrite (zget_map _ [] []) by lia.
    destruct H as [_ H]. destruct (H i Hi) as (_ & _ & ->). symmetry. apply NTT_repr.
    apply residues_repr; [|reflexivity]. rewrite (Forall_zget _ []) in Hn. apply Hn. lia. }
  assert (LN : zlen (map NTT (noise_vec (set_of p) eta seed first)) = K).
  { rewrite <- E, !zlen_map. exact Ln. }
  destruct H as [Lr H]. split.
  - apply (vec_eq K); [now rewrite zlen_map|exact LN|]. intros i Hi. rewrite (zget_map _ [] []) by lia. now rewrite X.
  - split; [exact Lr|]. split; [exact LN|]. intros i Hi. rewrite X by auto. apply residues_repr; auto. now apply H.
Qed.

Lemma small_bounded eta l b : eta < b -> Forall (fun x => - eta <= x <= eta) l -> bounded b l.
Proof. intros Hb. apply Forall_impl. intros. lia. Qed.

Lemma nvec_each p eta seed first : eta = 2 \/ eta = 3 ->
  each (MLKEM_K p) (fun _ x => zlen x = 256 /\ bounded 4 x) (nvec eta seed first (MLKEM_K p)).
Proof.
  intros He. pose proof (MLKEM_K_range p) as HK. apply vec_each.
  - apply (nvec_polys eta seed first); lia.
  - destruct (nvec_polys eta seed first (MLKEM_K p) ltac:(lia)) as [_ H1].
    pose proof (nvec_small eta seed first (MLKEM_K p) He) as H2. rewrite Forall_forall in *.
    intros x Hx. split; [now apply H1|]. apply (small_bounded eta); [lia|now apply H2].
Qed.
Lemma bounded_weaken b b' l : b <= b' -> bounded b l -> bounded b' l.
Proof. intros Hb. apply Forall_impl. intros. lia. Qed.
Lemma each_bw K b b' v : b <= b' -> each K (fun _ x => zlen x = 256 /\ bounded b x) v ->
  each K (fun _ x => zlen x = 256 /\ bounded b' x) v.
Proof. intros Hb. apply each_weaken. intros i x Hi [L B]. split; auto. eapply bounded_weaken; eauto. Qed.
Lemma each_i16 K b v : b <= 32768 -> each K (fun _ x => zlen x = 256 /\ bounded b x) v ->
  each K (fun _ x => zlen x = 256 /\ int16s x) v.
Proof. intros Hb. apply each_weaken. intros i x Hi [L B]. split; auto. eapply bounded_int16s; eauto. Qed.
Lemma eta_ok p : (eta1 (set_of p) = 2 \/ eta1 (set_of p) = 3) /\ (eta2 (set_of p) = 2 \/ eta2 (set_of p) = 3).
Proof. destruct p; cbn; auto. Qed.
Lemma stored_false A : stored false A = concat A. Proof. reflexivity. Qed.
Lemma stored_true A : stored true A = concat (transpose A). Proof. reflexivity. Qed.
Lemma uninit_polys J i K : 0 <= K -> polys K (uninit2 J i K 256).
Proof.
  intros HK. pose proof (uninit2_each J i K 256 HK ltac:(lia)) as H. split; [apply H|].
  now apply each_Forall in H.
Qed.
Lemma map_residues_ok K v : each K (fun _ x => zlen x = 256) v -> vec_of K (map residues v) /\ Forall (ubounded 3329) (map residues v).
Proof.
  intros [L H]. assert (F : Forall (fun x => zlen x = 256) v) by (apply (Forall_zget _ []); now rewrite L).
  rewrite Forall_forall in F. split; [split; [now rewrite zlen_map|]|];
    apply Forall_forall; intros x Hx; apply in_map_iff in Hx as (y & <- & Hy); destruct (residues_reduced y (F y Hy)); auto.
Qed.

(** indcpa_keypair_derand after the two seeds have been computed *)
Definition keypair_tail {bo : byte_order} (J : junk) (fuel : nat) (p : pset) (pk sk publicseed noiseseed : list Z) : M (list Z * list Z) :=
  let K := MLKEM_K p in
  let a := uninit2 J 1 (K * K) MLKEM_N in
  let e := uninit2 J 2 K MLKEM_N in
  let pkpv := uninit2 J 3 K MLKEM_N in
  let skpv := uninit2 J 4 K MLKEM_N in
  let skpv_cache := uninit2 J 5 K (MLKEM_N / 2) in
  a <- gen_matrix (sub J 8) fuel p a publicseed false ;;
  '(skpv, e, pkpv) <- keypair_noise (sub J 9) p skpv e pkpv noiseseed ;;
  skpv <- polyvec_ntt p skpv ;;
  e <- polyvec_ntt p e ;;
  skpv_cache <- polyvec_mulcache_compute p skpv_cache skpv ;;
  pkpv <- matvec_mul (sub J 10) p pkpv a skpv skpv_cache ;;
  pkpv <- polyvec_tomont p pkpv ;;
  pkpv <- polyvec_add p pkpv e ;;
  pkpv <- polyvec_reduce p pkpv ;;
  skpv <- polyvec_reduce p skpv ;;
  sk <- pack_sk p sk skpv ;;
  pk <- pack_pk p pk pkpv publicseed ;;
  ret (pk, sk).

(** What lines 3 to 20 of algorithm 13 make of the two seeds *)
Definition keys_from_seeds (P : params) (blocks : Z) (rho sigma : list Z) : option (list Z * list Z) :=
  match ExpandA P blocks rho with
  | None => None
  | Some A =>
      let s_hat := map NTT (noise_vec P (eta1 P) sigma 0) in
      let e_hat := map NTT (noise_vec P (eta1 P) sigma (k P)) in
      Some (concat (map (ByteEncode 12) (vec_plus (mat_vec A s_hat) e_hat)) ++ rho,
            concat (map (ByteEncode 12) s_hat))
  end.

Lemma KeyGen_seeds P b d : K_PKE_KeyGen P b d = let '(rho, sigma) := G (d ++ [k P]) in keys_from_seeds P b rho sigma.
Proof. reflexivity. Qed.

Lemma wp_keypair_tail {bo : byte_order} (N : Prop) J fuel p pk sk rho sigma (Q : list Z * list Z -> Prop) :
  let P := set_of p in
  zlen pk = 384 * MLKEM_K p + 32 -> zlen sk = 384 * MLKEM_K p -> zlen rho = 32 -> bytes rho -> zlen sigma = 32 -> bytes sigma ->
  (keys_from_seeds P (3 + Z.of_nat fuel) rho sigma = None -> N) ->
  (forall ek dk, keys_from_seeds P (3 + Z.of_nat fuel) rho sigma = Some (ek, dk) -> Q (ek, dk)) ->
  wpn N (keypair_tail J fuel p pk sk rho sigma) Q.
Proof.
  intros P Lpk Lsk Lr Br Ls Bs HN HQ. pose proof (MLKEM_K_range p) as HK.
  unfold keys_from_seeds in HN, HQ. unfold P in *. clear P. rewrite <- MLKEM_K_k in HN, HQ. unfold keypair_tail. cbv zeta.
  unfold MLKEM_SYMBYTES, MLKEM_N. set (K := MLKEM_K p) in *. change (256 / 2) with 128.
  set (P := set_of p) in *. cbv zeta in HN, HQ.
  apply wp_bind, wp_matrix; fold K; fold P; auto.
  { apply (uninit2_each J 1 (K * K) 256); nia. } { apply (uninit2_each J 1 (K * K) 256); nia. }
  { intros E. apply HN. now rewrite E. }
  intros A EA. rewrite EA in HN, HQ. destruct (ExpandA_rows p (3 + Z.of_nat fuel) rho A Br ltac:(lia) EA) as [RA _]. fold K in RA. rewrite stored_false.
  apply wp_bind, wp_keypair_noise; auto; try (apply uninit_polys; lia). intros pkpv Hpk. fold K P in Hpk |- *. cbv beta iota.
  destruct (eta_ok p) as [He _]. fold P in He.
  apply wp_bind, wp_polyvec_ntt. { eapply each_bw; [|apply nvec_each; auto]. lia. } intros sh Hsh.
  apply wp_bind, wp_polyvec_ntt. { eapply each_bw; [|apply nvec_each; auto]. lia. } intros eh Heh.
  destruct (ntt_noise p (eta1 P) sigma 0 sh Bs ltac:(lia) ltac:(fold K; lia) ltac:(apply nvec_spec1; auto; lia) Hsh) as [Es Vs].
  destruct (ntt_noise p (eta1 P) sigma K eh Bs ltac:(lia) ltac:(fold K; lia) ltac:(apply nvec_spec1; auto; lia) Heh) as [Ee Ve].
  fold K P in Es, Vs, Ee, Ve, Hsh, Heh.
  assert (Hs1 : each K (fun _ x => zlen x = 256 /\ bounded 20801 x) sh) by (eapply each_weaken; [|exact Hsh]; cbv beta; tauto).
  assert (He1 : each K (fun _ x => zlen x = 256 /\ bounded 20801 x) eh) by (eapply each_weaken; [|exact Heh]; cbv beta; tauto).
  clear Hsh Heh.
  apply wp_bind, wp_polyvec_mulcache; [apply uninit2_each; lia|eapply each_i16; [|exact Hs1]; lia|]. intros ca Hca.
  apply wp_bind, (wp_matvec N); auto. { apply vec_each; apply Hpk. } { eapply each_bw; [|exact Hs1]. lia. }
  fold K. intros b Hb. apply wp_bind, wp_polyvec_tomont.
  { eapply each_weaken; [|exact Hb]. cbv beta. intros i x _ (L & B & _). split; auto. eapply bounded_int16s; [|exact B]. lia. }
  fold K. intros t Ht. apply wp_bind, (wp_polyvec_add N 3329 20801); [lia| |exact He1|].
  { eapply each_weaken; [|exact Ht]. cbv beta. tauto. }
  fold K. intros t1 Ht1.
  apply wp_bind, wp_polyvec_reduce.
  { fold K. split; [apply Ht1|]. intros i Hi. destruct Ht1 as [_ Ht1]. rewrite (Ht1 i Hi). split; [apply zlen_zadd|].
    apply (bounded_int16s (3329 + 20801 - 1)); [lia|]. apply bounded_zadd; try apply Ht; try apply He1; auto. }
  apply wp_bind, wp_polyvec_reduce. { eapply each_i16; [|exact Hs1]. lia. }
  destruct (map_residues_ok K sh) as [Vsh Ush]. { eapply each_weaken; [|exact Hs1]. cbv beta. tauto. }
  destruct (map_residues_ok K t1) as [Vt1 Ut1]. { eapply each_weaken; [|exact Ht1]. cbv beta. intros i x _ ->. apply zlen_zadd. }
  apply wp_bind. unfold pack_sk. apply wp_bind, wp_POLYVEC_BOUND.
  { eapply Forall_impl; [|exact Ush]. intros. now apply ubounded_bounded. }
  apply wp_polyvec_tobytes; auto. apply wp_bind, wp_pack_pk; auto. apply wp_ret. apply HQ. do 2 f_equal.
  - do 2 f_equal. f_equal. destruct RA as [LA RA]. destruct Ve as (_ & LV & Ve).
    assert (LM : zlen (mat_vec A (map NTT (noise_vec P (eta1 P) sigma 0))) = K) by now apply zlen_mat_vec.
    apply (vec_eq K).
    + rewrite zlen_vec_plus; [exact LM|]. unfold vec in *. congruence.
    + apply Vt1.
    + intros i Hi. rewrite zget_vec_plus; unfold vec in *; [|congruence|now rewrite LM].
      rewrite zget_mat_vec by (unfold vec; now rewrite LA).
      destruct Ht1 as [Lt1 Ht1]. rewrite (zget_map residues [] []) by lia. rewrite (Ht1 i Hi).
      symmetry. apply repr_residues; [|apply poly_plus_reduced].
      apply repr_zadd; [|now apply Ve]. rewrite <- (dot_vrepr K _ sh); [|now apply RA|exact Vs].
      destruct Hb as [_ Hb]. destruct (Hb i Hi) as (_ & _ & Rb). eapply repr_scale_inv; [|exact Rb]. now apply Ht.
  - now rewrite <- Es.
Qed.

Lemma wp_indcpa_keypair {bo : byte_order} (N : Prop) J fuel p pk sk coins (Q : list Z * list Z -> Prop) :
  let P := set_of p in
  zlen pk = 384 * MLKEM_K p + 32 -> zlen sk = 384 * MLKEM_K p -> zlen coins = 32 -> bytes coins ->
  (K_PKE_KeyGen P (3 + Z.of_nat fuel) coins = None -> N) ->
  (forall ek dk, K_PKE_KeyGen P (3 + Z.of_nat fuel) coins = Some (ek, dk) -> Q (ek, dk)) ->
  wpn N (indcpa_keypair_derand J fuel p pk sk coins) Q.
Proof.
  intros P Lpk Lsk Lc Bc HN HQ. pose proof (MLKEM_K_range p) as HK.
  rewrite KeyGen_seeds in HN, HQ. unfold P in *. clear P. rewrite <- MLKEM_K_k in HN, HQ. unfold indcpa_keypair_derand.
  unfold MLKEM_SYMBYTES, MLKEM_N. set (K := MLKEM_K p) in *. change (256 / 2) with 128. change (2 * 32) with 64. change (32 + 1) with 33.
  set (P := set_of p) in *. 
  rename coins into d, Lc into Ld, Bc into Bd.
  apply wp_bind, ext_copy; auto. intros e0 Le0 He0.
  apply wp_bind, wp_aset; [lia|]. rewrite He0. clear e0 Le0 He0.
  assert (BdK : bytes (d ++ [K])).
  { apply Forall_app; split; [exact Bd|]. constructor; [unfold is_byte; lia|constructor]. }
  apply wp_bind. unfold hash_g. apply wp_sha3_512; auto; try lia.
  { rewrite zlen_app, Ld. change (zlen [K]) with 1. lia. } { rewrite zlen_uninit; lia. }
  rewrite (slice_zlen (d ++ [K])) by (rewrite zlen_app, Ld; reflexivity).
  unfold G in HN, HQ. set (g := SHA3_512 (d ++ [K])) in *.
  assert (Lg : zlen g = 64) by now apply zlen_SHA3_512. assert (Bg : bytes g) by now apply bytes_SHA3_512.
  replace (g ++ skipn 64 _) with g.
  2:{ rewrite skipn_all2; [now rewrite app_nil_r|]. pose proof (zlen_uninit J 0 64). unfold zlen in *. lia. }
  clearbody g. apply wp_bind, wp_aslice; try lia. apply wp_bind, wp_aslice; try lia.
  change (0 + 32) with 32. change (32 + 32) with 64.
  set (rho := slice g 0 32) in *. set (sigma := slice g 32 64) in *.
  assert (Lr : zlen rho = 32) by (unfold rho; rewrite zlen_slice; lia).
  assert (Ls : zlen sigma = 32) by (unfold sigma; rewrite zlen_slice; lia).
  assert (Br : bytes rho) by (apply bytes_slice; auto; lia). assert (Bs : bytes sigma) by (apply bytes_slice; auto; lia).
  clearbody rho sigma. clear g Lg Bg. cbv beta iota in HN, HQ.
  apply (wp_keypair_tail (bo := bo) N J fuel p pk sk rho sigma Q); auto.
Qed.

(** ** Encryption *)

Lemma wp_unpack_pk N p r seed B (Q : list (list Z) * list Z -> Prop) : vec_of (MLKEM_K p) r -> zlen seed = 32 ->
  zlen B = 384 * MLKEM_K p + 32 -> bytes B ->
  Q (decode_vec (set_of p) 12 B, slice B (384 * MLKEM_K p) (384 * MLKEM_K p + 32)) ->
  wpn N (unpack_pk p r seed B) Q.
Proof.
  intros Hr Ls LB HB HQ. pose proof (MLKEM_K_range p) as HK. unfold unpack_pk, MLKEM_SYMBYTES.
  assert (E : MLKEM_POLYVECBYTES p = 384 * MLKEM_K p) by (destruct p; reflexivity). rewrite E.
  apply wp_bind, wp_polyvec_frombytes; auto; [lia|].
  apply wp_bind, wp_memcpy; try lia.
  set (rho := slice B _ _) in *. assert (Lr : zlen rho = 32) by (unfold rho; rewrite zlen_slice; lia).
  replace (splice seed 0 rho) with rho.
  2:{ unfold splice. cbn [Z.to_nat firstn app Nat.add]. rewrite skipn_all2; [now rewrite app_nil_r|]. unfold zlen in *. lia. }
  apply wp_bind, wp_polyvec_reduce; [apply fields_each; lia|].
  apply wp_ret. now rewrite fields_decode.
Qed.

Lemma frommsg_ok m : zlen m = 32 -> bytes m -> let mu := map (Decompress 1) (ByteDecode 1 m) in
  map (Decompress 1) (fields 1 m) = mu /\ zlen mu = 256 /\ ubounded 3329 mu.
Proof.
  intros Lm Bm mu. assert (E : map (Decompress 1) (fields 1 m) = mu) by (unfold mu; rewrite ByteDecode_fields; auto; lia).
  split; [exact E|]. rewrite <- E. split; [rewrite zlen_map; apply zlen_fields|].
  apply Decompress_fields_range; lia.
Qed.

Lemma reduced_of f : zlen f = 256 -> ubounded 3329 f -> reduced f.
Proof. intros L B. split; [exact L|exact B]. Qed.

Lemma noise_repr p seed x : bytes seed -> 0 <= x < 256 ->
  repr (noise (eta2 (set_of p)) seed x) (SamplePolyCBD (eta2 (set_of p)) (PRF (eta2 (set_of p)) seed x)).
Proof.
  intros Bs Hx. apply residues_repr; [apply zlen_noise|]. now apply residues_noise2.
Qed.

Lemma wp_indcpa_enc {bo : byte_order} (N : Prop) J fuel p c m pk coins (Q : list Z -> Prop) :
  let P := set_of p in
  zlen c = 32 * (du P * MLKEM_K p + dv P) -> zlen m = 32 -> bytes m ->
  zlen pk = 384 * MLKEM_K p + 32 -> bytes pk -> zlen coins = 32 -> bytes coins ->
  (K_PKE_Encrypt P (3 + Z.of_nat fuel) pk m coins = None -> N) ->
  (forall ct, K_PKE_Encrypt P (3 + Z.of_nat fuel) pk m coins = Some ct -> Q ct) ->
  wpn N (indcpa_enc J fuel p c m pk coins) Q.
Proof.
  intros P Lc Lm Bm Lpk Bpk Lco Bco HN HQ. pose proof (MLKEM_K_range p) as HK.
  unfold K_PKE_Encrypt in HN, HQ. unfold P in *. clear P. rewrite <- MLKEM_K_k in HN, HQ. unfold indcpa_enc.
  unfold MLKEM_SYMBYTES, MLKEM_N. set (K := MLKEM_K p) in *. change (256 / 2) with 128.
  set (P := set_of p) in *. set (rho := slice pk (384 * K) (384 * K + 32)) in *.
  assert (Lr : zlen rho = 32) by (unfold rho; rewrite zlen_slice; lia).
  assert (Br : bytes rho) by (apply bytes_slice; auto; lia).
  apply wp_bind, wp_unpack_pk; fold K; auto. { apply uninit_polys; lia. }
  fold P rho. cbv beta iota.
  destruct (frommsg_ok m Lm Bm) as (Em & Lmu & Bmu). set (mu := map (Decompress 1) (ByteDecode 1 m)) in *.
  apply wp_bind, wp_poly_frommsg; auto. rewrite Em.
  cbv zeta in HN, HQ. fold mu in HQ. clearbody mu rho.
  apply wp_bind, wp_matrix; fold K; fold P; auto.
  { apply (uninit2_each J 4 (K * K) 256); nia. } { apply (uninit2_each J 4 (K * K) 256); nia. }
  { intros E. apply HN. now rewrite E. }
  intros A EA. rewrite EA in HN, HQ.
  destruct (ExpandA_rows p (3 + Z.of_nat fuel) rho A Br ltac:(lia) EA) as [_ RA]. fold K in RA. rewrite stored_true.
  apply wp_bind, wp_enc_noise; auto; try (apply uninit_polys; lia).
  intros b0 Hb0. fold K P in Hb0 |- *. cbv beta iota.
  destruct (eta_ok p) as [He He2]. fold P in He, He2.
  apply wp_bind, wp_polyvec_ntt. { eapply each_bw; [|apply nvec_each; auto]. lia. } intros sh Hsh.
  destruct (ntt_noise p (eta1 P) coins 0 sh Bco ltac:(lia) ltac:(fold K; lia) ltac:(apply nvec_spec1; auto; lia) Hsh) as [Es Vs].
  fold K P in Es, Vs, Hsh.
  assert (Hs1 : each K (fun _ x => zlen x = 256 /\ bounded 20801 x) sh) by (eapply each_weaken; [|exact Hsh]; cbv beta; tauto).
  clear Hsh.
  apply wp_bind, wp_polyvec_mulcache; [apply uninit2_each; lia|eapply each_i16; [|exact Hs1]; lia|]. intros ca Hca.
  apply wp_bind, (wp_matvec N); auto. { apply vec_each; apply Hb0. } { eapply each_bw; [|exact Hs1]. lia. }
  fold K. intros b Hb.
  pose proof (decode_each p pk ltac:(fold K; lia) Bpk) as Hd. fold K P in Hd.
  apply wp_bind, wp_basemul_acc; auto.
  { fold K. eapply each_weaken; [|exact Hd]. cbv beta. intros i x _ [L B]. split; auto. now apply ubounded_bounded. }
  { fold K. eapply each_bw; [|exact Hs1]. lia. }
  intros v Lv Bv Rv.
  apply wp_bind, wp_polyvec_invntt.
  { fold K. eapply each_weaken; [|exact Hb]. cbv beta. intros i x _ (L & B & _). split; auto. eapply bounded_int16s; [|exact B]. lia. }
  fold K. intros b1 Hb1. apply wp_bind, wp_poly_invntt; auto. { eapply bounded_int16s; [|exact Bv]. lia. }
  intros v1 Lv1 Bv1 Ev1.
  pose proof (nvec_each p (eta2 P) coins K He2) as Hn2. fold K in Hn2.
  apply wp_bind, (wp_polyvec_add N 1801 4); [lia| |exact Hn2|]. { fold K. eapply each_weaken; [|exact Hb1]. cbv beta. tauto. }
  fold K. intros b2 Hb2.
  assert (Bn : bounded 4 (noise (eta2 P) coins (2 * K))).
  { apply bounded_noise; auto; lia. }
  apply wp_bind, (wp_poly_add_b N 1801 4); try apply zlen_noise; try lia; try assumption.
  apply wp_bind, (wp_poly_add_b N 1804 3329); try apply zlen_zadd; try assumption; [|now apply ubounded_bounded|lia|].
  { apply (bounded_zadd 1801 4); auto. }
  apply wp_bind, wp_polyvec_reduce.
  { fold K. split; [apply Hb2|]. intros i Hi. destruct Hb2 as [_ Hb2]. rewrite (Hb2 i Hi). split; [apply zlen_zadd|].
    apply (bounded_int16s 1804); [lia|]. apply (bounded_zadd 1801 4); try apply Hb1; try apply Hn2; auto. }
  apply wp_bind, wp_poly_reduce. { apply zlen_zadd. }
  { apply (bounded_int16s 5132); [lia|]. apply (bounded_zadd 1804 3329); auto; [|now apply ubounded_bounded].
    apply (bounded_zadd 1801 4); auto. }
  destruct (map_residues_ok K b2) as [Vb2 Ub2]. { eapply each_weaken; [|exact Hb2]. cbv beta. intros i x _ ->. apply zlen_zadd. }
  assert (EV : residues (zadd (zadd v1 (noise (eta2 P) coins (2 * K))) mu) =
    poly_plus (poly_plus (NTT_inv (dot (decode_vec P 12 pk) (map NTT (noise_vec P (eta1 P) coins 0))))
       (SamplePolyCBD (eta2 P) (PRF (eta2 P) coins (2 * K)))) mu).
  { apply repr_residues; [|apply poly_plus_reduced]. apply repr_zadd; [|now apply repr_refl].
    apply repr_zadd; [|apply noise_repr; auto; lia].
    apply residues_repr; [exact Lv1|]. rewrite <- (dot_vrepr K _ sh); [|apply Hd|exact Vs].
    eapply invntt_of_basemul; [exact Lv1|exact Rv|exact Ev1]. }
  assert (EU : map residues b2 =
    vec_plus (map NTT_inv (mat_vec (transpose A) (map NTT (noise_vec P (eta1 P) coins 0)))) (noise_vec P (eta2 P) coins K)).
  { pose proof (nvec_spec2 p coins K Bco ltac:(lia) ltac:(fold K; lia)) as E2. fold P K in E2. rewrite <- E2.
    destruct RA as [LA RA].
    assert (LM : zlen (map NTT_inv (mat_vec (transpose A) (map NTT (noise_vec P (eta1 P) coins 0)))) = K).
    { rewrite zlen_map. now apply zlen_mat_vec. }
    assert (LN : zlen (map residues (nvec (eta2 P) coins K K)) = K) by (rewrite zlen_map; apply Hn2).
    apply (vec_eq K).
    - apply Vb2.
    - rewrite zlen_vec_plus; [exact LM|]. unfold vec in *. congruence.
    - intros i Hi. rewrite zget_vec_plus; unfold vec in *; [|congruence|now rewrite LM].
      rewrite (zget_map NTT_inv [] []) by (rewrite zlen_map in LM; now rewrite LM).
      rewrite zget_mat_vec by (unfold vec; now rewrite LA).
      rewrite (zget_map residues [] [] b2) by (destruct Hb2; lia).
      rewrite (zget_map residues [] [] (nvec _ _ _ _)) by (destruct Hn2; lia).
      destruct Hb2 as [_ Hb2]. rewrite (Hb2 i Hi).
      apply repr_residues; [|apply poly_plus_reduced].
      destruct Hb1 as [_ Hb1]. destruct (Hb1 i Hi) as (Lx & _ & Ex). destruct Hb as [_ Hb]. destruct (Hb i Hi) as (_ & _ & Rx).
      apply repr_zadd.
      + apply residues_repr; [exact Lx|]. rewrite <- (dot_vrepr K _ sh); [|now apply RA|exact Vs].
        eapply invntt_of_basemul; [exact Lx|exact Rx|exact Ex].
      + apply residues_repr; [|reflexivity]. now apply Hn2. }
  apply wp_pack_ciphertext; fold P; fold K; auto.
  { rewrite EV. apply poly_plus_reduced. }
  rewrite EV, EU. apply HQ. reflexivity.
Qed.

(** ** Decryption *)

Lemma slice_slice0 {A} (c : list A) y a b : 0 <= a <= b -> b <= y -> slice (slice c 0 y) a b = slice c a b.
Proof.
  intros Ha Hb. unfold slice. rewrite Z.sub_0_r. cbn [Z.to_nat skipn].
  rewrite skipn_firstn_comm, firstn_firstn. f_equal. lia.
Qed.
Lemma decode_du p c : let P := set_of p in 32 * du P * MLKEM_K p <= zlen c ->
  map (map (Decompress (du P))) (decode_vec P (du P) (slice c 0 (32 * du P * MLKEM_K p))) =
  map (fun i => map (Decompress (du P)) (fields (du P) (slice c (32 * du P * i) (32 * du P * i + 32 * du P)))) (range (MLKEM_K p)).
Proof.
  intros P Lc. destruct (du_dv p) as (_ & _ & Hdu & _). fold P in Hdu. pose proof (MLKEM_K_range p) as HK.
  unfold decode_vec. rewrite map_map. replace (k P) with (MLKEM_K p) by apply MLKEM_K_k. apply map_range_ext. intros i Hi. f_equal.
  rewrite slice_slice0 by nia.
  apply ByteDecode_fields; try lia. rewrite zlen_slice; nia.
Qed.

Lemma wp_unpack_ciphertext N J p b v c (Q : list (list Z) * list Z -> Prop) : let P := set_of p in
  vec_of (MLKEM_K p) b -> zlen v = 256 -> zlen c = 32 * (du P * MLKEM_K p + dv P) -> bytes c ->
  Q (map (map (Decompress (du P))) (decode_vec P (du P) (slice c 0 (32 * du P * MLKEM_K p))),
     map (Decompress (dv P)) (ByteDecode (dv P) (slice c (32 * du P * MLKEM_K p) (32 * (du P * MLKEM_K p + dv P))))) ->
  wpn N (unpack_ciphertext J p b v c) Q.
Proof.
  intros P Hb Lv Lc Bc HQ. destruct (du_dv p) as (E1 & E2 & Hdu & Hdv). pose proof (MLKEM_K_range p) as HK.
  unfold unpack_ciphertext. rewrite E1, E2. fold P in Hdu, Hdv |- *.
  apply wp_bind, wp_polyvec_decompress_du; auto. { fold P. nia. }
  fold P. unfold P in HQ at 1 2 3 4. rewrite decode_du in HQ by (fold P; nia). fold P in HQ.
  apply wp_bind, wp_aslice; try nia.
  replace (32 * du P * MLKEM_K p + 32 * dv P) with (32 * (du P * MLKEM_K p + dv P)) by ring.
  set (c2 := slice c _ (32 * (du P * MLKEM_K p + dv P))) in *.
  assert (L2 : zlen c2 = 32 * dv P) by (unfold c2; rewrite zlen_slice; nia).
  assert (B2 : bytes c2) by (apply bytes_slice; auto; nia). clearbody c2.
  apply wp_bind, wp_poly_decompress_dv; auto. apply wp_ret. fold P.
  rewrite <- ByteDecode_fields by lia. exact HQ.
Qed.

Lemma wp_indcpa_dec N J p m c sk (Q : list Z -> Prop) :
  let P := set_of p in
  zlen m = 32 -> zlen c = 32 * (du P * MLKEM_K p + dv P) -> bytes c ->
  zlen sk = 384 * MLKEM_K p -> bytes sk ->
  Q (K_PKE_Decrypt P sk c) -> wpn N (indcpa_dec J p m c sk) Q.
Proof.
  intros P Lm Lc Bc Lsk Bsk HQ. pose proof (MLKEM_K_range p) as HK. destruct (du_dv p) as (_ & _ & Hdu & Hdv).
  unfold K_PKE_Decrypt in HQ. cbv zeta in HQ. unfold indcpa_dec, MLKEM_N. set (K := MLKEM_K p) in *.
  assert (EK : k P = K) by (symmetry; apply MLKEM_K_k). rewrite EK in HQ. fold P in Hdu, Hdv.
  apply wp_bind, wp_unpack_ciphertext; fold K; auto. { apply uninit_polys; lia. }
  fold P. set (c2 := slice c _ (32 * (du P * K + dv P))) in *.
  assert (Hu : each K (fun _ x => zlen x = 256 /\ ubounded 3329 x)
    (map (map (Decompress (du P))) (decode_vec P (du P) (slice c 0 (32 * du P * K))))).
  { unfold P, K. rewrite decode_du by (fold P K; nia). fold P K. apply each_map; [lia|]. intros i Hi.
    split; [rewrite zlen_map; apply zlen_fields|]. apply Decompress_fields_range; [lia|]. rewrite zlen_slice; nia. }
  assert (L2 : zlen c2 = 32 * dv P) by (unfold c2; rewrite zlen_slice; nia).
  assert (Hv : zlen (map (Decompress (dv P)) (ByteDecode (dv P) c2)) = 256 /\ ubounded 3329 (map (Decompress (dv P)) (ByteDecode (dv P) c2))).
  { rewrite ByteDecode_fields by lia. split; [rewrite zlen_map; apply zlen_fields|]. apply Decompress_fields_range; lia. }
  set (u := map (map (Decompress (du P))) _) in *. set (v := map (Decompress (dv P)) _) in *. clearbody u v. destruct Hv as [Lv Bv].
  apply wp_bind, wp_unpack; auto. { apply uninit_polys; lia. } { fold K; lia. }
  fold P. pose proof (decode_each p sk ltac:(fold K; lia) Bsk) as Hd. fold P K in Hd.
  apply wp_bind, wp_polyvec_ntt.
  { fold K. eapply each_weaken; [|exact Hu]. cbv beta. intros i x _ [L B]. split; auto. now apply ubounded_bounded. }
  fold K. intros uh Huh. apply wp_bind, wp_basemul_acc'; auto.
  { fold K. eapply each_weaken; [|exact Hd]. cbv beta. intros i x _ [L B]. split; auto. now apply ubounded_bounded. }
  { fold K. eapply each_weaken; [|exact Huh]. cbv beta. intros i x _ (L & B & _). split; auto. eapply bounded_weaken; [|exact B]. lia. }
  intros sb Lsb Bsb Rsb.
  apply wp_bind, wp_poly_invntt; auto. { eapply bounded_int16s; [|exact Bsb]. lia. } intros w Lw Bw Ew.
  apply wp_bind, (wp_poly_sub_b N 3329 1801); auto; [now apply ubounded_bounded|lia|].
  apply wp_bind, wp_poly_reduce. { apply zlen_zsub. }
  { apply (bounded_int16s (3329 + 1801 - 1)); [lia|]. apply bounded_zsub; auto. now apply ubounded_bounded. }
  assert (E : residues (zsub v w) = poly_minus v (NTT_inv (dot (decode_vec P 12 sk) (map NTT u)))).
  { apply repr_residues; [|apply poly_minus_reduced]. apply repr_zsub; [now apply repr_refl|].
    apply residues_repr; [exact Lw|]. rewrite <- (dot_vrepr K _ uh); [|apply Hd|].
    - eapply invntt_of_basemul; [exact Lw|exact Rsb|exact Ew].
    - destruct Huh as [Luh Huh]. split; [exact Luh|]. split; [rewrite zlen_map; apply Hu|]. intros i Hi.
      destruct (Huh i Hi) as (Lx & _ & Ex). apply residues_repr; [exact Lx|]. rewrite Ex.
      symmetry. apply (zget_map NTT [] []). destruct Hu as [-> _]. lia. }
  apply wp_poly_tomsg; auto; [rewrite E; apply poly_minus_reduced|]. rewrite E. exact HQ.
Qed.
