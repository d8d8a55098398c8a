(** * The polynomials and vectors of the x86_64 build *)

From Coq Require Import ZArith List Bool Lia.
From Verif Require Import CSem ModelArith ModelAvx2 ModelX86 ModelX86Asm ModelX86Poly Spec202 Spec203 SpecLink SpecX86
  ProofX86Ntt ProofX86Word CSemFacts ProofScalar ProofBits ProofPack ProofSum ProofNttSpec ProofRing ProofNtt
  ProofMul ProofMatrix.
Import ListNotations.
Open Scope Z_scope.
Ltac Zify.zify_post_hook ::= idtac.

(** ** The transforms *)

Lemma residues_fips r : zlen r = 256 -> residues (fips_order r) = fips_order (residues r).
Proof.
  intros L. assert (L' : zlen (residues r) = 256) by (unfold residues; now rewrite zlen_map).
  apply (zlist_ext 0); unfold residues at 1; rewrite zlen_map, zlen_fips_order; [now rewrite zlen_fips_order|].
  intros i Hi. pose proof (custom_index_range i Hi). unfold residues.
  rewrite (zget_map _ 0) by (rewrite zlen_fips_order; lia).
  rewrite !zget_fips_order by auto. rewrite (zget_map _ 0) by lia. reflexivity.
Qed.

Lemma wp_ntt_x86 N J r (Q : list Z -> Prop) : zlen r = 256 -> bounded 3329 r ->
  (forall r', zlen r' = 256 -> bounded 26632 r' -> residues (fips_order r') = NTT r -> Q r') ->
  wpn N (poly_ntt_x86_64 J r) Q.
Proof.
  intros L B HQ. unfold poly_ntt_x86_64. apply wp_bind, wp_POLY_BOUND; [exact B|].
  rewrite (bounded_abs _ _ L) in B.
  destruct (ntt_avx2_run _ r (vregs_uninit J) L B) as (st & r' & E & Em & L' & B' & V).
  assert (B2 : bounded 26632 r') by (apply (bounded_abs _ _ L'); exact B').
  apply wp_bind. eapply wp_call_run; [exact E|exact Em|].
  apply wp_bind, wp_POLY_BOUND; [exact B2|]. apply wp_ret, HQ; auto.
  apply residues_ext; [apply zlen_fips_order|apply NTT_reduced|].
  intros s Hs. pose proof (custom_index_range s Hs). rewrite zget_fips_order by auto.
  rewrite <- at_zget, V by auto. destruct (index_inv s Hs) as (-> & _). reflexivity.
Qed.

Lemma wp_invntt_x86 N J r (Q : list Z -> Prop) : zlen r = 256 -> int16s r ->
  (forall r', zlen r' = 256 -> bounded 26632 r' ->
     residues r' = residues (scale 65536 (NTT_inv (fips_order r))) -> Q r') ->
  wpn N (poly_invntt_tomont_x86_64 J r) Q.
Proof.
  intros L B HQ. unfold poly_invntt_tomont_x86_64.
  unfold int16s in B. rewrite (Forall_zget _ 0), L in B.
  assert (R : reduced (residues (fips_order r))) by (apply residues_reduced, zlen_fips_order).
  assert (EQ : forall i, 0 <= i < 256 -> at_ r i == at_ (residues (fips_order r)) (fips_index i)).
  { intros i Hi. pose proof (fips_index_range i Hi). rewrite (at_zget (residues _)). unfold residues.
    rewrite (zget_map _ 0) by (rewrite zlen_fips_order; auto). unfold q. rewrite cg_mod, zget_fips_order by auto.
    destruct (index_inv i Hi) as (_ & ->). reflexivity. }
  destruct (invntt_avx2_run _ r _ (vregs_uninit J) L B R EQ) as (st & r' & E & Em & L' & B' & V).
  assert (B2 : bounded 26632 r') by (apply (bounded_abs _ _ L'); exact B').
  apply wp_bind. eapply wp_call_run; [exact E|exact Em|].
  apply wp_bind, wp_POLY_BOUND; [exact B2|]. apply wp_ret, HQ; auto.
  pose proof (NTT_inv_reduced (fips_order r)) as [LI _].
  apply residues_ext; [exact L'|apply residues_reduced; rewrite zlen_scale; exact LI|].
  intros i Hi. rewrite <- at_zget, V by auto. rewrite (at_zget (residues _)). unfold residues at 2.
  rewrite (zget_map _ 0) by (rewrite zlen_scale; unfold n in LI; lia). unfold q. rewrite cg_mod, zget_scale.
  rewrite (NTT_inv_repr (residues (fips_order r)) (fips_order r)); [reflexivity|].
  split; [apply R|]. intros j Hj. unfold residues. rewrite (zget_map _ 0) by (rewrite zlen_fips_order; lia).
  unfold q. apply cg_mod.
Qed.

(** ** The accumulated products *)

Lemma zget_map2 f a b i : zlen a = zlen b -> 0 <= i < zlen a -> zget 0 (map2 f a b) i = f (zget 0 a i) (zget 0 b i).
Proof.
  intros L Hi. unfold map2.
  rewrite (zget_map _ (0, 0)) by (unfold zlen in *; rewrite combine_length; lia).
  unfold zget. rewrite combine_nth by (unfold zlen in L; lia). reflexivity.
Qed.
Lemma zlen_map2 f a b : zlen a = zlen b -> zlen (map2 f a b) = zlen a.
Proof. intros L. unfold map2, zlen in *. rewrite map_length, combine_length. lia. Qed.

Lemma wp_add_avx2 N b1 b2 r b (Q : list Z -> Prop) : zlen r = 256 -> zlen b = 256 ->
  bounded b1 r -> bounded b2 b -> b1 + b2 <= 32769 -> Q (zadd r b) -> wpn N (poly_add_avx2 r b) Q.
Proof.
  intros L1 L2 B1 B2 Hs HQ. rewrite bounded_abs in B1, B2 by auto. unfold poly_add_avx2, _mm256_add_epi16.
  apply (wp_for_step N (fun k s => zlen s = 256 /\ forall j, 0 <= j < 256 ->
     zget 0 s j = if j <? 16 * k then zget 0 r j + zget 0 b j else zget 0 r j) 0 256 16 16);
    [reflexivity|lia| | |].
  - split; [auto|]. intros j Hj. replace (j <? 16 * 0) with false by (symmetry; apply Z.ltb_ge; lia). reflexivity.
  - intros k s Hk (Ls & Es).
    apply wp_bind, wp_aslice; [lia|lia|lia|]. apply wp_bind, wp_aslice; [lia|lia|lia|].
    set (o := 0 + k * 16) in *.
    assert (S1 : zlen (slice s o (o + 16)) = 16) by (rewrite zlen_slice; lia).
    assert (S2 : zlen (slice b o (o + 16)) = 16) by (rewrite zlen_slice; lia).
    assert (S3 : zlen (map2 (fun x y => s16 (x + y)) (slice s o (o + 16)) (slice b o (o + 16))) = 16)
      by (rewrite zlen_map2; lia).
    apply wp_asplice; [lia|rewrite S3; lia|].
    split; [rewrite zlen_splice; rewrite ?S3; lia|].
    intros j Hj. rewrite zget_splice by (rewrite ?S3; lia). rewrite S3.
    destruct (Z.leb_spec o j); cbn [andb].
    + destruct (Z.ltb_spec j (o + 16)).
      * rewrite zget_map2 by lia. rewrite !zget_slice by lia. replace (o + (j - o)) with j by lia.
        rewrite Es by auto. replace (j <? 16 * k) with false by (symmetry; apply Z.ltb_ge; lia).
        replace (j <? 16 * (k + 1)) with true by (symmetry; apply Z.ltb_lt; lia).
        specialize (B1 j Hj). specialize (B2 j Hj). apply s16_id. lia.
      * rewrite Es by auto. replace (j <? 16 * k) with false by (symmetry; apply Z.ltb_ge; lia).
        replace (j <? 16 * (k + 1)) with false by (symmetry; apply Z.ltb_ge; lia). reflexivity.
    + rewrite Es by auto. replace (j <? 16 * k) with true by (symmetry; apply Z.ltb_lt; lia).
      replace (j <? 16 * (k + 1)) with true by (symmetry; apply Z.ltb_lt; lia). reflexivity.
  - intros s (Ls & Es). replace s with (zadd r b); [exact HQ|].
    apply (zlist_ext 0); rewrite zlen_zadd; [lia|]. intros j Hj. rewrite Es by auto. unfold zadd.
    rewrite zget_map_range by auto. replace (j <? 16 * 16) with true by (symmetry; apply Z.ltb_lt; lia). reflexivity.
Qed.

Lemma wp_basemul_acc_x86 N J p r a b c (Q : list Z -> Prop) :
  zlen r = 256 ->
  each (MLKEM_K p) (fun _ x => zlen x = 256 /\ bounded 3329 x) a ->
  each (MLKEM_K p) (fun _ x => zlen x = 256 /\ bounded 26632 x) b ->
  (forall r', zlen r' = 256 -> bounded 26632 r' ->
     repr (scale 65536 (fips_order r')) (dot (map fips_order a) (map fips_order b)) -> Q r') ->
  wpn N (polyvec_basemul_acc_montgomery_cached_x86_64 J p r a b c) Q.
Proof.
  intros Lr Ha Hb HQ. pose proof (K_range p) as Hk. unfold polyvec_basemul_acc_montgomery_cached_x86_64.
  apply wp_bind, wp_POLYVEC_BOUND.
  { apply (each_Forall (MLKEM_K p)). eapply each_weaken; [|exact Ha]. cbv beta. tauto. }
  apply wp_bind, wp_POLYVEC_BOUND.
  { apply (each_Forall (MLKEM_K p)). eapply each_weaken; [|exact Hb]. cbv beta. intros i x _ [_ H]. exact H. }
  unfold polyvec_basemul_acc_montgomery_cached_avx2. cbv zeta.
  destruct Ha as [La Ha], Hb as [Lb Hb].
  set (G := fun i => MultiplyNTTs (fips_order (zget [] a i)) (fips_order (zget [] b i))).
  assert (W : forall J t i (Q : list Z -> Prop), zlen t = 256 -> 0 <= i < MLKEM_K p ->
    (forall t', zlen t' = 256 -> bounded 6658 t' ->
       (forall s, 0 <= s < 256 -> 65536 * zget 0 (fips_order t') s == at_ (G i) s) -> Q t') ->
    wpn N (poly_basemul_montgomery_avx2 J t (zget [] a i) (zget [] b i)) Q).
  { intros J' t i Q' Lt Hi H. destruct (Ha i Hi) as (A1 & A2), (Hb i Hi) as (C1 & C2).
    apply wp_basemul_x86; auto. now apply (bounded_int16s 26632). }
  do 2 (apply wp_bind, (wp_aget []); [lia|]).
  apply wp_bind, W; [auto|lia|]. intros r0 L0 B0 R0.
  apply wp_bind.
  apply (wp_for N (fun m '(s, t) => zlen s = 256 /\ zlen t = 256 /\ bounded (6657 * m + 1) s /\
     forall j, 0 <= j < 256 -> 65536 * zget 0 (fips_order s) j == sum m (fun i => at_ (G i) j))).
  - lia.
  - split; auto. split; [apply zlen_uninit; unfold MLKEM_N; lia|]. split; [exact B0|].
    intros j Hj. change 1 with (0 + 1). rewrite sum_S, sum_0 by lia. rewrite (R0 j Hj). apply cg_of_eq. ring.
  - intros i [s t] Hi (Ls & Lt & Bs & Es). cbv beta iota.
    do 2 (apply wp_bind, (wp_aget []); [lia|]).
    apply wp_bind, W; [auto|lia|]. intros t' Lt' Bt Rt.
    apply wp_bind, (wp_add_avx2 _ (6657 * i + 1) 6658); auto; [lia|]. apply wp_ret.
    split; [apply zlen_zadd|]. split; auto. split.
    + replace (6657 * (i + 1) + 1) with (6657 * i + 1 + 6658 - 1) by ring. now apply bounded_zadd.
    + intros j Hj. rewrite sum_S by lia. rewrite <- (Es j Hj), <- (Rt j Hj).
      pose proof (custom_index_range j Hj). rewrite !zget_fips_order by auto. unfold zadd.
      rewrite zget_map_range by lia. apply cg_of_eq. ring.
  - intros [s t] (Ls & _ & Bs & Es). cbv beta iota.
    apply wp_ret, HQ; auto. { apply (bounded_weaken (6657 * MLKEM_K p + 1)); auto. lia. }
    split; [now rewrite zlen_scale, zlen_fips_order|]. intros j Hj. rewrite zget_scale, (Es j Hj).
    rewrite (dot_at (MLKEM_K p)) by (rewrite ?zlen_map; auto). apply sum_cg; [lia|].
    intros i Hi. rewrite !(zget_map _ []) by lia. reflexivity.
Qed.

(** ** Vectors *)

Lemma wp_polyvec_ntt_x86 N J p r (Q : list (list Z) -> Prop) :
  each (MLKEM_K p) (fun _ x => zlen x = 256 /\ bounded 3329 x) r ->
  (forall r', each (MLKEM_K p) (fun i x => zlen x = 256 /\ bounded 26632 x /\
       residues (fips_order x) = NTT (zget [] r i)) r' -> Q r') ->
  wpn N (polyvec_ntt_x86_64 J p r) Q.
Proof.
  intros [Lr Hr] HQ. unfold polyvec_ntt_x86_64.
  eapply wp_for_rel; [exact Lr| |exact HQ].
  intros i s Hi Ls Es. destruct (Hr i Hi) as [L B].
  apply wp_bind, (wp_aget []); [lia|]. rewrite Es. apply wp_bind, wp_ntt_x86; auto.
  intros x Lx Bx Ex. apply wp_aset; [lia|]. exists x; auto.
Qed.
Lemma wp_polyvec_invntt_x86 N J p r (Q : list (list Z) -> Prop) :
  each (MLKEM_K p) (fun _ x => zlen x = 256 /\ int16s x) r ->
  (forall r', each (MLKEM_K p) (fun i x => zlen x = 256 /\ bounded 26632 x /\
       residues x = residues (scale 65536 (NTT_inv (fips_order (zget [] r i))))) r' -> Q r') ->
  wpn N (polyvec_invntt_tomont_x86_64 J p r) Q.
Proof.
  intros [Lr Hr] HQ. unfold polyvec_invntt_tomont_x86_64.
  eapply wp_for_rel; [exact Lr| |exact HQ].
  intros i s Hi Ls Es. destruct (Hr i Hi) as [L B].
  apply wp_bind, (wp_aget []); [lia|]. rewrite Es. apply wp_bind, wp_invntt_x86; auto.
  intros x Lx Bx Ex. apply wp_aset; [lia|]. exists x; auto.
Qed.
Lemma wp_polyvec_mulcache_x86 N p x a (Q : list (list Z) -> Prop) :
  zlen x = MLKEM_K p -> zlen a = MLKEM_K p -> (forall x', zlen x' = MLKEM_K p -> Q x') ->
  wpn N (polyvec_mulcache_compute_x86_64 p x a) Q.
Proof.
  intros Lx La HQ. unfold polyvec_mulcache_compute_x86_64.
  eapply (wp_for_rel N (fun _ _ => True)); [exact Lx| |].
  - intros i s Hi Ls Es. do 2 (apply wp_bind, (wp_aget []); [lia|]).
    unfold poly_mulcache_compute_x86_64. apply wp_bind, wp_ret. apply wp_aset; [lia|]. eexists; eauto.
  - intros r (L & _). now apply HQ.
Qed.
Lemma wp_polyvec_reduce_x86 N J p r (Q : list (list Z) -> Prop) :
  each (MLKEM_K p) (fun _ x => zlen x = 256 /\ int16s x) r -> Q (map residues r) ->
  wpn N (polyvec_reduce_x86_64 J p r) Q.
Proof.
  intros [Lr Hr] HQ. unfold polyvec_reduce_x86_64.
  eapply (wp_for_rel _ (fun i x => x = residues (zget [] r i))); [exact Lr| |].
  - intros i s Hi Ls Es. destruct (Hr i Hi) as [L B].
    apply wp_bind, (wp_aget []); [lia|]. rewrite Es. apply wp_bind, wp_reduce_x86; auto.
    apply wp_aset; [lia|]. eexists; eauto.
  - intros r' [L H]. replace r' with (map residues r); auto. apply (zlist_ext []); [rewrite zlen_map; lia|].
    rewrite zlen_map. intros i Hi. rewrite (zget_map _ []) by auto. symmetry. apply H. lia.
Qed.
Lemma wp_polyvec_tomont_x86 N J p r (Q : list (list Z) -> Prop) :
  each (MLKEM_K p) (fun _ x => zlen x = 256 /\ int16s x) r ->
  (forall r', each (MLKEM_K p) (fun i x => zlen x = 256 /\ bounded 3329 x /\
       repr x (scale 65536 (zget [] r i))) r' -> Q r') ->
  wpn N (polyvec_tomont_x86_64 J p r) Q.
Proof.
  intros [Lr Hr] HQ. unfold polyvec_tomont_x86_64.
  eapply wp_for_rel; [exact Lr| |exact HQ].
  intros i s Hi Ls Es. destruct (Hr i Hi) as [L B].
  apply wp_bind, (wp_aget []); [lia|]. rewrite Es. apply wp_bind, wp_tomont_x86; auto.
  intros x Lx Bx Ex. apply wp_aset; [lia|]. exists x; split; auto. split; auto. split; auto.
  split; auto. intros j Hj. rewrite (Ex j Hj). rewrite (at_zget (scale _ _)), zget_scale. reflexivity.
Qed.

Lemma wp_polyvec_tobytes_x86 N J p r a (Q : list Z -> Prop) :
  zlen r = 384 * MLKEM_K p -> vec_of (MLKEM_K p) a -> Forall (ubounded 3329) a ->
  Q (concat (map (fun x => ByteEncode 12 (fips_order x)) a)) -> wpn N (polyvec_tobytes_x86_64 J p r a) Q.
Proof.
  intros Hr Ha Hb HQ. pose proof (K_range p) as Hk. destruct Ha as [Hl Hf] eqn:Ea.
  unfold polyvec_tobytes_x86_64.
  assert (LE : forall i, zlen (ByteEncode 12 (fips_order (zget [] a i))) = 384).
  { intros i. apply zlen_ByteEncode; [lia|]. rewrite zlen_fips_order. lia. }
  apply (wp_for_chunks N (fun i => ByteEncode 12 (fips_order (zget [] a i))) 384); try lia.
  - intros i Hi. apply LE.
  - intros i pre mid rest Hi Hp Hm. pose proof (vec_get _ _ _ Ha Hi) as Hz.
    unfold MLKEM_POLYBYTES.
    apply wp_bind, (wp_aget []); [lia|]. apply wp_bind, wp_aslice; try lia.
    { rewrite !zlen_app. pose proof (zlen_nonneg rest). lia. }
    rewrite slice_mid by lia.
    apply wp_bind, wp_tobytes_x86; auto; [apply vec_all; auto; lia|].
    apply wp_asplice; [lia| |].
    { rewrite !zlen_app, LE. pose proof (zlen_nonneg rest). lia. }
    apply splice_app; [lia|]. now rewrite LE.
  - rewrite skipn_all_z, app_nil_r by lia. rewrite <- Hl.
    rewrite flat_map_concat_map, <- (map_map (fun i => zget [] a i) (fun x => ByteEncode 12 (fips_order x))).
    rewrite <- zlist_get. exact HQ.
Qed.
Lemma wp_polyvec_frombytes_x86 N J p r a (Q : list (list Z) -> Prop) :
  vec_of (MLKEM_K p) r -> 384 * MLKEM_K p <= zlen a -> bytes a ->
  Q (map (fun i => custom_order (fields 12 (slice a (384 * i) (384 * i + 384)))) (range (MLKEM_K p))) ->
  wpn N (polyvec_frombytes_x86_64 J p r a) Q.
Proof.
  intros Hr Ha Hb HQ. pose proof (K_range p) as Hk. unfold polyvec_frombytes_x86_64.
  apply (wp_for_inplace [] N (fun i _ => custom_order (fields 12 (slice a (384 * i) (384 * i + 384)))));
    [apply Hr| |exact HQ].
  intros i pre rest Hi Hp. pose proof (vec_get _ _ _ Hr Hi) as Hz. unfold MLKEM_POLYBYTES.
  wgo. apply wp_aslice; try lia. wstep. rewrite (Z.mul_comm i 384).
  apply wp_frombytes_x86; auto.
  - rewrite zlen_slice by lia. lia.
  - unfold bytes. apply (Forall_zget _ 0). intros x Hx. rewrite zlen_slice in Hx by lia.
    rewrite zget_slice by lia. apply byte_range; auto; lia.
  - apply wp_aset_app; [zl|]. now rewrite <- app_assoc.
Qed.

(** ** Statements *)

Lemma wp_basemul_acc_x86' N J p r a b (Q : list Z -> Prop) :
  zlen r = 256 ->
  each (MLKEM_K p) (fun _ x => zlen x = 256 /\ bounded 3329 x) a ->
  each (MLKEM_K p) (fun _ x => zlen x = 256 /\ bounded 26632 x) b ->
  (forall r', zlen r' = 256 -> bounded 26632 r' ->
     repr (scale 65536 (fips_order r')) (dot (map fips_order a) (map fips_order b)) -> Q r') ->
  wpn N (polyvec_basemul_acc_montgomery_x86_64 J p r a b) Q.
Proof.
  intros Lr Ha Hb HQ. pose proof (K_range p). unfold polyvec_basemul_acc_montgomery_x86_64. cbv zeta.
  apply wp_bind, wp_polyvec_mulcache_x86; [apply zlen_uninit2; lia|apply Hb|].
  intros c _. now apply wp_basemul_acc_x86.
Qed.

Lemma at_residues r i : zlen r = 256 -> 0 <= i < 256 -> at_ (residues r) i = at_ r i mod q.
Proof. intros L Hi. rewrite at_zget. unfold residues. rewrite (zget_map _ 0) by lia. reflexivity. Qed.

Lemma ntt_x86_correct J f : zlen f = 256 -> (forall i, 0 <= i < 256 -> Z.abs (at_ f i) < q) ->
  exists r, val (poly_ntt_x86_64 J f) = Ok r /\ zlen r = 256 /\
    (forall i, 0 <= i < 256 -> Z.abs (at_ r i) < 8 * q) /\
    (forall i, 0 <= i < 256 -> at_ (fips_order r) i mod q = at_ (NTT f) i).
Proof.
  intros L B. apply wp_ex, wp_ntt_x86; auto. { now apply bounded_at. }
  intros r Lr Br E. split; auto. split.
  - apply bounded_at; auto.
  - intros i Hi. rewrite <- E. symmetry. apply at_residues; auto using zlen_fips_order.
Qed.
Lemma invntt_x86_correct J f : zlen f = 256 -> (forall i, 0 <= i < 256 -> - 2 ^ 15 <= at_ f i < 2 ^ 15) ->
  exists r, val (poly_invntt_tomont_x86_64 J f) = Ok r /\ zlen r = 256 /\
    (forall i, 0 <= i < 256 -> Z.abs (at_ r i) < 8 * q) /\
    (forall i, 0 <= i < 256 -> at_ r i mod q = (2 ^ 16 * at_ (NTT_inv (fips_order f)) i) mod q).
Proof.
  intros L B. apply wp_ex, wp_invntt_x86; auto using int16s_at.
  intros r Lr Br E. split; auto. split.
  - apply bounded_at; auto.
  - intros i Hi. rewrite <- at_residues by auto. rewrite E.
    pose proof (NTT_inv_reduced (fips_order f)) as [LI _].
    rewrite at_residues by (rewrite ?zlen_scale; auto). now rewrite (at_zget (scale _ _)), zget_scale.
Qed.
Lemma fips_order_eqf a b : eqf (at_ a) (at_ b) -> eqf (at_ (fips_order a)) (at_ (fips_order b)).
Proof.
  intros H s Hs. pose proof (custom_index_range s Hs). rewrite !at_zget, !zget_fips_order by auto.
  now apply H.
Qed.
Lemma invntt_ntt_x86 J J' f : zlen f = 256 -> (forall i, 0 <= i < 256 -> Z.abs (at_ f i) < q) ->
  exists r, val (g <- poly_ntt_x86_64 J f ;; poly_invntt_tomont_x86_64 J' g) = Ok r /\ zlen r = 256 /\
    (forall i, 0 <= i < 256 -> at_ r i mod q = (2 ^ 16 * at_ f i) mod q).
Proof.
  intros L B. apply wp_ex, wp_bind, wp_ntt_x86; auto. { now apply bounded_at. }
  intros g Lg Bg Eg. apply wp_invntt_x86; auto. { apply (bounded_int16s 26632); auto; lia. }
  intros r Lr _ E. split; auto. intros i Hi. rewrite <- at_residues by auto. rewrite E.
  assert (EI : NTT_inv (fips_order g) = residues f).
  { rewrite <- (NTT_inv_NTT (residues f)) by now apply residues_reduced.
    apply NTT_inv_repr. split; [apply zlen_fips_order|].
    replace (NTT (residues f)) with (NTT f).
    2:{ apply NTT_mod. intros j Hj. rewrite at_residues by auto. unfold q. now rewrite cg_mod. }
    rewrite <- Eg. intros j Hj. rewrite at_residues by auto using zlen_fips_order. unfold q. now rewrite cg_mod. }
  rewrite EI. assert (LS : zlen (scale 65536 (residues f)) = 256).
  { rewrite zlen_scale. unfold residues. now rewrite zlen_map. }
  rewrite at_residues by auto. rewrite (at_zget (scale _ _)), zget_scale. rewrite <- at_zget, at_residues by auto.
  unfold q. change (2 ^ 16) with 65536. now rewrite Z.mul_mod_idemp_r by lia.
Qed.

Lemma basemul_x86_correct J r0 a b : zlen r0 = 256 -> zlen a = 256 -> zlen b = 256 ->
  (forall i, 0 <= i < 256 -> Z.abs (at_ a i) < q) ->
  (forall i, 0 <= i < 256 -> - 2 ^ 15 <= at_ b i < 2 ^ 15) ->
  exists r, val (poly_basemul_montgomery_avx2 J r0 a b) = Ok r /\ zlen r = 256 /\
    (forall i, 0 <= i < 256 -> Z.abs (at_ r i) < 2 * q) /\
    (forall i, 0 <= i < 256 -> (2 ^ 16 * at_ (fips_order r) i) mod q
                               = at_ (MultiplyNTTs (fips_order a) (fips_order b)) i).
Proof.
  intros Lr La Lb Ba Bb. apply wp_ex. apply wp_basemul_x86; auto using int16s_at. { now apply bounded_at. }
  intros r L Br R. split; auto. split.
  - apply bounded_at; auto.
  - intros i Hi. pose proof (MultiplyNTTs_reduced (fips_order a) (fips_order b)) as RM.
    rewrite <- (residues_ext (scale 65536 (fips_order r)) _ ltac:(now rewrite zlen_scale, zlen_fips_order) RM).
    + rewrite at_residues by (rewrite ?zlen_scale, ?zlen_fips_order; auto). now rewrite (at_zget (scale _ _)), zget_scale.
    + intros j Hj. rewrite zget_scale. apply R; auto.
Qed.

Lemma inner_x86_correct J p r0 u v : zlen r0 = 256 ->
  zlen u = k (set_of p) -> zlen v = k (set_of p) ->
  Forall (fun f => zlen f = 256 /\ forall i, 0 <= i < 256 -> Z.abs (at_ f i) < q) u ->
  Forall (fun f => zlen f = 256 /\ forall i, 0 <= i < 256 -> Z.abs (at_ f i) < q) v ->
  exists r, val (u <- polyvec_ntt_x86_64 J p u ;; u <- polyvec_reduce_x86_64 J p u ;;
                 v <- polyvec_ntt_x86_64 J p v ;;
                 r <- polyvec_basemul_acc_montgomery_x86_64 J p r0 u v ;;
                 poly_invntt_tomont_x86_64 J r) = Ok r /\
    zlen r = 256 /\ (forall i, 0 <= i < 256 -> at_ r i mod q = at_ (inner u v) i).
Proof.
  intros Lr Lu Lv Bu Bv. rewrite k_set in Lu, Lv. pose proof (K_range p) as Hk.
  assert (C : forall w, Forall (fun f => zlen f = 256 /\ forall i, 0 <= i < 256 -> Z.abs (at_ f i) < q) w ->
     Forall (fun x => zlen x = 256 /\ bounded 3329 x) w).
  { intros w. apply Forall_impl. intros x [Lx Hx]. split; auto. now apply bounded_at. }
  apply C in Bu, Bv. clear C.
  apply wp_ex. apply wp_bind, wp_polyvec_ntt_x86; [now apply vec_each|].
  intros u1 H1. apply wp_bind, wp_polyvec_reduce_x86.
  { eapply each_weaken; [|exact H1]. cbv beta. intros i x _ (L & B & _). split; auto.
    apply (bounded_int16s 26632); auto; lia. }
  apply wp_bind, wp_polyvec_ntt_x86; [now apply vec_each|].
  intros v1 H2. apply wp_bind.
  assert (E1 : map fips_order (map residues u1) = map NTT u).
  { destruct H1 as [L1 H1]. apply (zlist_ext []); [rewrite !zlen_map; lia|]. rewrite !zlen_map.
    intros i Hi. rewrite !(zget_map _ []) by (rewrite ?zlen_map; lia). destruct (H1 i ltac:(lia)) as (L & _ & E).
    now rewrite <- residues_fips. }
  apply wp_basemul_acc_x86'; auto.
  { split; [rewrite zlen_map; apply H1|]. intros i Hi. destruct H1 as [L1 H1].
    rewrite (zget_map _ []) by lia. destruct (H1 i Hi) as (L & _ & _).
    destruct (residues_reduced _ L) as [L' R']. split; auto. now apply ubounded_bounded. }
  { eapply each_weaken; [|exact H2]. cbv beta. intros i x _ (L & B & _). split; auto. }
  intros r L Br R. apply wp_invntt_x86; auto. { apply (bounded_int16s 26632); auto; lia. }
  intros x Lx Bx Ex. split; auto. intros i Hi.
  pose proof (invntt_of_basemul _ _ _ Lx R Ex) as Er.
  destruct H2 as [L2 H2].
  rewrite E1, (dot_cg (MLKEM_K p) _ (map fips_order v1) (map NTT u) (map NTT v)), NTT_inv_dot in Er.
  - rewrite <- Er. now rewrite at_residues.
  - rewrite zlen_map; lia.
  - rewrite zlen_map; lia.
  - rewrite zlen_map; lia.
  - rewrite zlen_map; lia.
  - intros j _ l _. reflexivity.
  - intros j Hj l Hl. rewrite !(zget_map _ []) by lia. destruct (H2 j Hj) as (Lj & _ & <-).
    rewrite at_residues by auto using zlen_fips_order. unfold q. now rewrite cg_mod.
Qed.

Lemma reduce_x86_correct J f : zlen f = 256 -> (forall i, 0 <= i < 256 -> - 2 ^ 15 <= at_ f i < 2 ^ 15) ->
  val (poly_reduce_x86_64 J f) = Ok (map (fun x => x mod q) f).
Proof.
  intros L B. apply wp_val. apply wp_reduce_x86; auto using int16s_at.
Qed.
Lemma reduce_x86_agrees J f : zlen f = 256 -> (forall i, 0 <= i < 256 -> - 2 ^ 15 <= at_ f i < 2 ^ 15) ->
  val (poly_reduce_x86_64 J f) = val (poly_reduce f).
Proof.
  intros L B. rewrite reduce_x86_correct by auto. symmetry. apply wp_val.
  apply wp_poly_reduce; auto using int16s_at.
Qed.
Lemma tomont_x86_correct J f : zlen f = 256 -> (forall i, 0 <= i < 256 -> - 2 ^ 15 <= at_ f i < 2 ^ 15) ->
  exists r, val (poly_tomont_x86_64 J f) = Ok r /\ zlen r = 256 /\
    (forall i, 0 <= i < 256 -> Z.abs (at_ r i) < q) /\
    (forall i, 0 <= i < 256 -> at_ r i mod q = (2 ^ 16 * at_ f i) mod q).
Proof.
  intros L B. apply wp_ex, wp_tomont_x86; auto using int16s_at.
  intros r Lr Br E. split; auto. split; [now apply bounded_at|].
  intros i Hi. apply cg_out. exact (E i Hi).
Qed.

Lemma tobytes_x86_correct J r a : zlen r = 384 -> reduced a ->
  val (poly_tobytes_x86_64 J r a) = Ok (ByteEncode 12 (fips_order a)).
Proof. intros Lr [La Ha]. apply wp_val. now apply wp_tobytes_x86. Qed.
Lemma frombytes_x86_correct J r b : zlen r = 256 -> zlen b = 384 -> bytes b ->
  exists r', val (poly_frombytes_x86_64 J r b) = Ok r' /\ zlen r' = 256 /\ fips_order r' = fields 12 b.
Proof.
  intros Lr Lb Hb. apply wp_ex, wp_frombytes_x86; [exact Lr|exact Lb|exact Hb|]. split; [apply zlen_custom_order|].
  apply fips_custom_order, zlen_fields.
Qed.
Lemma unpack_x86_correct J f : zlen f = 256 ->
  exists r, val (poly_permute_bitrev_to_custom J f) = Ok r /\ zlen r = 256 /\ fips_order r = f.
Proof.
  intros L. apply wp_ex, wp_unpack_x86; [exact L|]. split; [apply zlen_custom_order|]. now apply fips_custom_order.
Qed.
Lemma fips_order_inj r r' : zlen r = 256 -> zlen r' = 256 -> fips_order r = fips_order r' -> r = r'.
Proof. intros L L' E. rewrite <- (custom_fips_order r L), <- (custom_fips_order r' L'). now rewrite E. Qed.
Lemma serialise_x86 J J' r r' a : zlen r = 384 -> zlen r' = 256 -> reduced a ->
  val (b <- poly_tobytes_x86_64 J r a ;; poly_frombytes_x86_64 J' r' b) = Ok a.
Proof.
  intros Lr Lr' [La Ha]. apply wp_val. apply wp_bind, wp_tobytes_x86; auto.
  assert (LE : zlen (ByteEncode 12 (fips_order a)) = 384) by (apply zlen_ByteEncode; rewrite ?zlen_fips_order; lia).
  apply wp_frombytes_x86; auto.
  { apply (bytes_ByteEncode 12 (fips_order a) 384); rewrite ?zlen_fips_order; lia. }
  rewrite fields_ByteEncode; rewrite ?zlen_fips_order; try lia.
  - now apply custom_fips_order.
  - apply (fips_order_Forall _ a La) in Ha. eapply Forall_impl; [|exact Ha]. cbv beta. change (2 ^ 12) with 4096.
    unfold q. intros; lia.
Qed.
