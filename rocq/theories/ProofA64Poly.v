(** * The polynomials and vectors of the AArch64 build *)

From Coq Require Import ZArith List Bool Lia.
From Verif Require Import ProofX86Ntt ProofX86Poly.
From Verif Require Import ModelA64 ModelA64Asm ProofA64 ProofA64Ntt ProofA64Sym ProofA64Word.
From Verif Require Import CSem ModelArith ModelAvx2 ModelA64Poly Spec202 Spec203 SpecLink CSemFacts ProofBits
  ProofChunk ProofPack ProofSum ProofNttSpec ProofRing ProofNtt ProofMul ProofMatrix.
Import ListNotations.
Open Scope Z_scope.
Ltac Zify.zify_post_hook ::= idtac.

(** ** The transforms *)

Lemma ntt_checked b : ntt_check (analyse (of_profile b ntt_asm_clean ntt_asm_opt) 3 64 ntt_in) = true.
Proof. destruct b; [exact ntt_clean_checked|exact ntt_opt_checked]. Qed.
Lemma intt_checked b : intt_check (analyse (of_profile b intt_asm_clean intt_asm_opt) 3 64 intt_in) = true.
Proof. destruct b; [exact intt_clean_checked|exact intt_opt_checked]. Qed.
Lemma ntt_tables_profile b : [aarch64_ntt_zetas_layer01234; aarch64_ntt_zetas_layer56;
  of_profile b ntt_clean_const_addr ntt_opt_const_addr] = ntt_tables.
Proof. destruct b; reflexivity. Qed.
Lemma intt_tables_profile b : [aarch64_invntt_zetas_layer01234; aarch64_invntt_zetas_layer56;
  of_profile b intt_clean_const_addr intt_opt_const_addr; of_profile b intt_clean_ninv_addr intt_opt_ninv_addr;
  of_profile b intt_clean_ninv_tw_addr intt_opt_ninv_tw_addr] = intt_tables.
Proof. destruct b; reflexivity. Qed.

Lemma wp_ntt_a64 N b J r (Q : list Z -> Prop) : zlen r = 256 -> bounded 3329 r ->
  (forall r', zlen r' = 256 -> bounded 19974 r' -> residues r' = NTT r -> Q r') ->
  wpn N (poly_ntt_aarch64 b J r) Q.
Proof.
  intros L B HQ. unfold poly_ntt_aarch64, ntt_native. rewrite ntt_tables_profile.
  apply wp_bind, wp_POLY_BOUND; [exact B|]. rewrite (bounded_abs _ _ L) in B.
  destruct (ntt_run _ _ _ _ r eq_refl (ntt_checked b) (vregs_uninit J) (stack_uninit J) L B)
    as (st & stk & r' & E & Em & _ & L' & B' & V).
  assert (B2 : bounded 19974 r') by (apply (bounded_abs _ _ L'); exact B').
  apply wp_bind. eapply wp_call_run; [exact E|exact Em|].
  apply wp_bind, wp_POLY_BOUND; [exact B2|]. apply wp_ret, HQ; auto.
  apply residues_ext; [exact L'|apply NTT_reduced|]. intros s Hs. rewrite <- at_zget. now apply V.
Qed.

Lemma wp_invntt_a64 N b J r (Q : list Z -> Prop) : zlen r = 256 -> int16s r ->
  (forall r', zlen r' = 256 -> bounded 26632 r' ->
     residues r' = residues (scale 65536 (NTT_inv r)) -> Q r') ->
  wpn N (poly_invntt_tomont_aarch64 b J r) Q.
Proof.
  intros L B HQ. unfold poly_invntt_tomont_aarch64, intt_native. rewrite intt_tables_profile.
  unfold int16s in B. rewrite (Forall_zget _ 0), L in B.
  assert (R : reduced (residues r)) by now apply residues_reduced.
  assert (EQ : forall i, 0 <= i < 256 -> at_ r i == at_ (residues r) i).
  { intros i Hi. rewrite at_residues by auto. unfold q. now rewrite cg_mod. }
  destruct (intt_run _ _ _ _ r _ eq_refl (intt_checked b) (vregs_uninit J) (stack_uninit J) L B R EQ)
    as (st & stk & r' & E & Em & _ & L' & B' & V).
  assert (B2 : bounded 26632 r') by (apply (bounded_abs _ _ L'); exact B').
  apply wp_bind. eapply wp_call_run; [exact E|exact Em|].
  apply wp_bind, wp_POLY_BOUND; [exact B2|]. apply wp_ret, HQ; auto.
  pose proof (NTT_inv_reduced r) as [LI _].
  apply residues_ext; [exact L'|apply residues_reduced; rewrite zlen_scale; exact LI|].
  intros i Hi. rewrite <- at_zget, V by auto. rewrite (at_zget (residues _)). unfold residues at 2.
  rewrite (zget_map _ 0) by (rewrite zlen_scale; unfold n in LI; lia). unfold q. rewrite cg_mod, zget_scale.
  rewrite (NTT_inv_repr (residues r) r); [reflexivity|].
  split; [apply R|]. intros j Hj. symmetry. exact (EQ j Hj).
Qed.

(** ** Vectors *)

Lemma wp_polyvec_ntt_a64 N pf J p r (Q : list (list Z) -> Prop) :
  each (MLKEM_K p) (fun _ x => zlen x = 256 /\ bounded 3329 x) r ->
  (forall r', each (MLKEM_K p) (fun i x => zlen x = 256 /\ bounded 19974 x /\
       residues x = NTT (zget [] r i)) r' -> Q r') ->
  wpn N (polyvec_ntt_aarch64 pf J p r) Q.
Proof.
  intros [Lr Hr] HQ. unfold polyvec_ntt_aarch64.
  eapply wp_for_rel; [exact Lr| |exact HQ].
  intros i s Hi Ls Es. destruct (Hr i Hi) as [L B].
  apply wp_bind, (wp_aget []); [lia|]. rewrite Es. apply wp_bind, wp_ntt_a64; auto.
  intros x Lx Bx Ex. apply wp_aset; [lia|]. exists x; auto.
Qed.

Lemma wp_polyvec_invntt_a64 N pf J p r (Q : list (list Z) -> Prop) :
  each (MLKEM_K p) (fun _ x => zlen x = 256 /\ int16s x) r ->
  (forall r', each (MLKEM_K p) (fun i x => zlen x = 256 /\ bounded 26632 x /\
       residues x = residues (scale 65536 (NTT_inv (zget [] r i)))) r' -> Q r') ->
  wpn N (polyvec_invntt_tomont_aarch64 pf J p r) Q.
Proof.
  intros [Lr Hr] HQ. unfold polyvec_invntt_tomont_aarch64.
  eapply wp_for_rel; [exact Lr| |exact HQ].
  intros i s Hi Ls Es. destruct (Hr i Hi) as [L B].
  apply wp_bind, (wp_aget []); [lia|]. rewrite Es. apply wp_bind, wp_invntt_a64; auto.
  intros x Lx Bx Ex. apply wp_aset; [lia|]. exists x; auto.
Qed.

Lemma wp_polyvec_mulcache_a64 N pf J p x a (Q : list (list Z) -> Prop) :
  each (MLKEM_K p) (fun _ x => zlen x = 128) x ->
  each (MLKEM_K p) (fun _ x => zlen x = 256 /\ int16s x) a ->
  (forall x', each (MLKEM_K p) (fun i c => is_cache c (zget [] a i)) x' -> Q x') ->
  wpn N (polyvec_mulcache_compute_aarch64 pf J p x a) Q.
Proof.
  intros [Lx Hx] [La Ha] HQ. unfold polyvec_mulcache_compute_aarch64.
  eapply wp_for_rel; [exact Lx| |exact HQ].
  intros i s Hi Ls Es. destruct (Ha i Hi) as [L B]. specialize (Hx i Hi).
  do 2 (apply wp_bind, (wp_aget []); [lia|]). rewrite Es. apply wp_bind, wp_mulcache_a64; auto.
  intros c Hc. apply wp_aset; [lia|]. exists c; auto.
Qed.

Lemma wp_polyvec_reduce_a64 N pf J p r (Q : list (list Z) -> Prop) :
  each (MLKEM_K p) (fun _ x => zlen x = 256 /\ int16s x) r -> Q (map residues r) ->
  wpn N (polyvec_reduce_aarch64 pf J p r) Q.
Proof.
  intros [Lr Hr] HQ. unfold polyvec_reduce_aarch64.
  eapply (wp_for_rel _ (fun i x => x = residues (zget [] r i))); [exact Lr| |].
  - intros i s Hi Ls Es. destruct (Hr i Hi) as [L B].
    apply wp_bind, (wp_aget []); [lia|]. rewrite Es. apply wp_bind, wp_reduce_a64; auto.
    apply wp_aset; [lia|]. eexists; eauto.
  - intros r' [L H]. replace r' with (map residues r); auto. apply (zlist_ext []); [rewrite zlen_map; lia|].
    rewrite zlen_map. intros i Hi. rewrite (zget_map _ []) by auto. symmetry. apply H. lia.
Qed.

Lemma wp_polyvec_tomont_a64 N pf J p r (Q : list (list Z) -> Prop) :
  each (MLKEM_K p) (fun _ x => zlen x = 256 /\ int16s x) r ->
  (forall r', each (MLKEM_K p) (fun i x => zlen x = 256 /\ bounded 3329 x /\
       repr x (scale 65536 (zget [] r i))) r' -> Q r') ->
  wpn N (polyvec_tomont_aarch64 pf J p r) Q.
Proof.
  intros [Lr Hr] HQ. unfold polyvec_tomont_aarch64.
  eapply wp_for_rel; [exact Lr| |exact HQ].
  intros i s Hi Ls Es. destruct (Hr i Hi) as [L B].
  apply wp_bind, (wp_aget []); [lia|]. rewrite Es. apply wp_bind, wp_tomont_a64; auto.
  intros x Lx Bx Ex. apply wp_aset; [lia|]. exists x; auto.
Qed.

Lemma wp_polyvec_tobytes_a64 N J p r a (Q : list Z -> Prop) :
  zlen r = 384 * MLKEM_K p -> vec_of (MLKEM_K p) a -> Forall (ubounded 3329) a ->
  Q (concat (map (ByteEncode 12) a)) -> wpn N (polyvec_tobytes_aarch64 J p r a) Q.
Proof.
  intros Hr Ha Hb HQ. pose proof (K_range p) as Hk. destruct Ha as [Hl Hf] eqn:Ea.
  unfold polyvec_tobytes_aarch64.
  apply (wp_for_chunks N (fun i => ByteEncode 12 (zget [] a i)) 384); try lia.
  - intros i Hi. apply zlen_ByteEncode; [lia|]. rewrite (vec_get _ _ _ Ha Hi). lia.
  - intros i pre mid rest Hi Hp Hm. pose proof (vec_get _ _ _ Ha Hi) as Hz.
    unfold MLKEM_POLYBYTES.
    wstep. apply (wp_aget []); [lia|]. wstep. apply wp_aslice; try lia.
    { rewrite !zlen_app. pose proof (zlen_nonneg rest). lia. }
    rewrite slice_mid by lia.
    wstep. apply wp_tobytes_a64; auto; [apply vec_all; auto; lia|].
    assert (zlen (ByteEncode 12 (zget [] a i)) = 384) by (apply zlen_ByteEncode; lia).
    apply wp_asplice; [lia| |].
    { rewrite !zlen_app. pose proof (zlen_nonneg rest). lia. }
    apply splice_app; lia.
  - rewrite skipn_all_z, app_nil_r by lia. rewrite <- Hl, <- (concat_map_range []). exact HQ.
Qed.

Lemma wp_basemul_acc_a64' N pf J p r a b (Q : list Z -> Prop) :
  zlen r = 256 ->
  each (MLKEM_K p) (fun _ x => zlen x = 256 /\ bounded 3329 x) a ->
  each (MLKEM_K p) (fun _ x => zlen x = 256 /\ bounded 26632 x) b ->
  (forall r', zlen r' = 256 -> bounded 13316 r' -> repr (scale 65536 r') (dot a b) -> Q r') ->
  wpn N (polyvec_basemul_acc_montgomery_aarch64 pf J p r a b) Q.
Proof.
  intros Lr Ha Hb HQ. pose proof (K_range p). unfold polyvec_basemul_acc_montgomery_aarch64. cbv zeta.
  apply wp_bind, wp_polyvec_mulcache_a64.
  - apply uninit2_each; [lia|]. vm_compute; discriminate.
  - eapply each_weaken; [|exact Hb]. cbv beta. intros i x _ [L B]. split; auto.
    now apply (bounded_int16s 26632).
  - intros c Hc. now apply wp_basemul_acc_a64.
Qed.

(** ** Statements *)

Lemma ntt_a64_correct b J f : zlen f = 256 -> (forall i, 0 <= i < 256 -> Z.abs (at_ f i) < q) ->
  exists r, val (poly_ntt_aarch64 b J f) = Ok r /\ zlen r = 256 /\
    (forall i, 0 <= i < 256 -> Z.abs (at_ r i) < 6 * q) /\
    (forall i, 0 <= i < 256 -> at_ r i mod q = at_ (NTT f) i).
Proof.
  intros L B. apply wp_ex, wp_ntt_a64; auto. { now apply bounded_at. }
  intros r Lr Br E. split; auto. split.
  - apply bounded_at; auto.
  - intros i Hi. rewrite <- E. symmetry. now apply at_residues.
Qed.
Lemma invntt_a64_correct b J f : zlen f = 256 -> (forall i, 0 <= i < 256 -> - 2 ^ 15 <= at_ f i < 2 ^ 15) ->
  exists r, val (poly_invntt_tomont_aarch64 b J f) = Ok r /\ zlen r = 256 /\
    (forall i, 0 <= i < 256 -> Z.abs (at_ r i) < 8 * q) /\
    (forall i, 0 <= i < 256 -> at_ r i mod q = (2 ^ 16 * at_ (NTT_inv f) i) mod q).
Proof.
  intros L B. apply wp_ex, wp_invntt_a64; auto using int16s_at.
  intros r Lr Br E. split; auto. split.
  - apply bounded_at; auto.
  - intros i Hi. rewrite <- at_residues by auto. rewrite E.
    pose proof (NTT_inv_reduced f) as [LI _].
    rewrite at_residues by (rewrite ?zlen_scale; auto). now rewrite (at_zget (scale _ _)), zget_scale.
Qed.
Lemma invntt_ntt_a64 b J J' f : zlen f = 256 -> (forall i, 0 <= i < 256 -> Z.abs (at_ f i) < q) ->
  exists r, val (g <- poly_ntt_aarch64 b J f ;; poly_invntt_tomont_aarch64 b J' g) = Ok r /\ zlen r = 256 /\
    (forall i, 0 <= i < 256 -> at_ r i mod q = (2 ^ 16 * at_ f i) mod q).
Proof.
  intros L B. apply wp_ex, wp_bind, wp_ntt_a64; auto. { now apply bounded_at. }
  intros g Lg Bg Eg. apply wp_invntt_a64; auto. { apply (bounded_int16s 19974); auto; lia. }
  intros r Lr _ E. split; auto. intros i Hi. rewrite <- at_residues by auto. rewrite E.
  assert (EI : NTT_inv g = residues f).
  { rewrite <- (NTT_inv_NTT (residues f)) by now apply residues_reduced.
    apply NTT_inv_repr. split; [exact Lg|].
    replace (NTT (residues f)) with (NTT f).
    2:{ apply NTT_mod. intros j Hj. rewrite at_residues by auto. unfold q. now rewrite cg_mod. }
    rewrite <- Eg. intros j Hj. rewrite at_residues by auto. unfold q. now rewrite cg_mod. }
  rewrite EI. assert (LS : zlen (scale 65536 (residues f)) = 256).
  { rewrite zlen_scale. unfold residues. now rewrite zlen_map. }
  rewrite at_residues by auto. rewrite (at_zget (scale _ _)), zget_scale. rewrite <- at_zget, at_residues by auto.
  unfold q. change (2 ^ 16) with 65536. now rewrite Z.mul_mod_idemp_r by lia.
Qed.

(** 2^16 times the accumulated products is their sum *)
Lemma basemul_a64_correct b J p r0 u v : zlen r0 = 256 ->
  zlen u = k (set_of p) -> zlen v = k (set_of p) ->
  Forall (fun f => zlen f = 256 /\ forall i, 0 <= i < 256 -> Z.abs (at_ f i) < q) u ->
  Forall (fun f => zlen f = 256 /\ forall i, 0 <= i < 256 -> Z.abs (at_ f i) < 8 * q) v ->
  exists r, val (polyvec_basemul_acc_montgomery_aarch64 b J p r0 u v) = Ok r /\ zlen r = 256 /\
    (forall i, 0 <= i < 256 -> Z.abs (at_ r i) < 4 * q) /\
    (forall i, 0 <= i < 256 -> (2 ^ 16 * at_ r i) mod q = at_ (dot u v) i).
Proof.
  intros Lr Lu Lv Bu Bv. rewrite k_set in Lu, Lv. apply wp_ex. apply wp_basemul_acc_a64'; auto.
  { apply vec_each; auto. eapply Forall_impl; [|exact Bu]. intros x [Lx Hx]. split; auto. now apply bounded_at. }
  { apply vec_each; auto. eapply Forall_impl; [|exact Bv]. intros x [Lx Hx]. split; auto. now apply bounded_at. }
  intros r L Br R. split; auto. split; [now apply bounded_at|].
  intros i Hi. pose proof (dot_reduced u v) as RM.
  rewrite <- (repr_residues _ _ R RM).
  rewrite at_residues by (rewrite ?zlen_scale; auto). now rewrite (at_zget (scale _ _)), zget_scale.
Qed.

Lemma inner_a64_correct b J p r0 u v : zlen r0 = 256 ->
  zlen u = k (set_of p) -> zlen v = k (set_of p) ->
  Forall (fun f => zlen f = 256 /\ forall i, 0 <= i < 256 -> Z.abs (at_ f i) < q) u ->
  Forall (fun f => zlen f = 256 /\ forall i, 0 <= i < 256 -> Z.abs (at_ f i) < q) v ->
  exists r, val (u <- polyvec_ntt_aarch64 b J p u ;; u <- polyvec_reduce_aarch64 b J p u ;;
                 v <- polyvec_ntt_aarch64 b J p v ;;
                 r <- polyvec_basemul_acc_montgomery_aarch64 b J p r0 u v ;;
                 poly_invntt_tomont_aarch64 b J r) = Ok r /\
    zlen r = 256 /\ (forall i, 0 <= i < 256 -> at_ r i mod q = at_ (inner u v) i).
Proof.
  intros Lr Lu Lv Bu Bv. rewrite k_set in Lu, Lv. pose proof (K_range p) as Hk.
  assert (C : forall w, Forall (fun f => zlen f = 256 /\ forall i, 0 <= i < 256 -> Z.abs (at_ f i) < q) w ->
     Forall (fun x => zlen x = 256 /\ bounded 3329 x) w).
  { intros w. apply Forall_impl. intros x [Lx Hx]. split; auto. now apply bounded_at. }
  apply C in Bu, Bv. clear C.
  apply wp_ex. apply wp_bind, wp_polyvec_ntt_a64; [now apply vec_each|].
  intros u1 H1. apply wp_bind, wp_polyvec_reduce_a64.
  { eapply each_weaken; [|exact H1]. cbv beta. intros i x _ (L & B & _). split; auto.
    apply (bounded_int16s 19974); auto; lia. }
  apply wp_bind, wp_polyvec_ntt_a64; [now apply vec_each|].
  intros v1 H2. apply wp_bind.
  assert (E1 : map residues u1 = map NTT u).
  { destruct H1 as [L1 H1]. apply (zlist_ext []); [rewrite !zlen_map; lia|]. rewrite zlen_map.
    intros i Hi. rewrite !(zget_map _ []) by lia. apply H1; lia. }
  apply wp_basemul_acc_a64'; auto.
  { rewrite E1. apply vec_each; [rewrite zlen_map; lia|]. apply Forall_map, Forall_forall. intros x _.
    pose proof (NTT_reduced x) as [L R]. split; auto. now apply ubounded_bounded. }
  { eapply each_weaken; [|exact H2]. cbv beta. intros i x _ (L & B & _). split; auto.
    apply (bounded_weaken 19974); auto; lia. }
  intros r L Br R. apply wp_invntt_a64; auto. { apply (bounded_int16s 13316); auto; lia. }
  intros x Lx Bx Ex. split; auto. intros i Hi.
  pose proof (invntt_of_basemul _ _ _ Lx R Ex) as Er.
  destruct H2 as [L2 H2].
  rewrite E1, (dot_cg (MLKEM_K p) _ v1 (map NTT u) (map NTT v)), NTT_inv_dot in Er.
  - rewrite <- Er. now rewrite at_residues.
  - rewrite zlen_map; lia.
  - lia.
  - rewrite zlen_map; lia.
  - rewrite zlen_map; lia.
  - intros j _ l _. reflexivity.
  - intros j Hj l Hl. rewrite !(zget_map _ []) by lia. destruct (H2 j Hj) as (Lj & _ & <-).
    rewrite at_residues by auto. unfold q. now rewrite cg_mod.
Qed.

Lemma reduce_a64_correct b J f : zlen f = 256 -> (forall i, 0 <= i < 256 -> - 2 ^ 15 <= at_ f i < 2 ^ 15) ->
  val (poly_reduce_aarch64 b J f) = Ok (map (fun x => x mod q) f).
Proof. intros L B. apply wp_val. apply wp_reduce_a64; auto using int16s_at. Qed.
Lemma reduce_a64_agrees b J f : zlen f = 256 -> (forall i, 0 <= i < 256 -> - 2 ^ 15 <= at_ f i < 2 ^ 15) ->
  val (poly_reduce_aarch64 b J f) = val (poly_reduce f).
Proof.
  intros L B. rewrite reduce_a64_correct by auto. symmetry. apply wp_val.
  apply wp_poly_reduce; auto using int16s_at.
Qed.
Lemma tomont_a64_correct b J f : zlen f = 256 -> (forall i, 0 <= i < 256 -> - 2 ^ 15 <= at_ f i < 2 ^ 15) ->
  exists r, val (poly_tomont_aarch64 b J f) = Ok r /\ zlen r = 256 /\
    (forall i, 0 <= i < 256 -> Z.abs (at_ r i) < q) /\
    (forall i, 0 <= i < 256 -> at_ r i mod q = (2 ^ 16 * at_ f i) mod q).
Proof.
  intros L B. apply wp_ex, wp_tomont_a64; auto using int16s_at.
  intros r Lr Br [_ E]. split; auto. split; [now apply bounded_at|].
  intros i Hi. apply cg_out. specialize (E i Hi). rewrite (at_zget (scale _ _)), zget_scale in E. exact E.
Qed.
Lemma mulcache_a64_correct b J x a : zlen x = 128 -> zlen a = 256 ->
  (forall i, 0 <= i < 256 -> - 2 ^ 15 <= at_ a i < 2 ^ 15) ->
  exists c, val (poly_mulcache_compute_aarch64 b J x a) = Ok c /\ zlen c = 128 /\
    (forall i, 0 <= i < 128 -> Z.abs (at_ c i) < q) /\
    (forall i, 0 <= i < 128 -> at_ c i mod q = (at_ a (2 * i + 1) * zeta ^ (2 * BitRev7 i + 1)) mod q).
Proof.
  intros Lx La Ba. apply wp_ex, wp_mulcache_a64; auto using int16s_at.
  intros c (Lc & Bc & Vc). split; auto. split.
  - intros i Hi. unfold bounded in Bc. rewrite (Forall_zget _ 0), Lc in Bc. specialize (Bc i Hi).
    change (at_ c i) with (zget 0 c i). unfold q. lia.
  - intros i Hi. apply cg_out. rewrite BitRev7_brv. exact (Vc i Hi).
Qed.
Lemma tobytes_a64_correct J r a : zlen r = 384 -> reduced a ->
  val (poly_tobytes_aarch64 J r a) = Ok (ByteEncode 12 a).
Proof. intros Lr [La Ha]. apply wp_val. now apply wp_tobytes_a64. Qed.
