(** * Sampling of the matrix in the AArch64 build

    The proofs of ProofMatrix.v with the hash functions and the sampler of the AArch64 build. *)

From Coq Require Import ZArith List Bool Lia ZifyBool.
From Verif Require Import ModelA64Poly ModelA64Rej ModelA64Fips202 ModelA64Sponge ModelA64Indcpa ProofA64Rej ProofA64Hash.
From Verif Require Import CSem ModelArith ModelKeccak ModelIndcpa Spec202 Spec203 SpecLink
  CSemFacts ProofScalar ProofBits ProofChunk ProofPack ProofRej ProofKeccakF ProofSponge ProofHash ProofMatrix.
Import ListNotations.
Open Scope Z_scope.
#[local] Existing Instance LittleEndian.
Ltac Zify.zify_post_hook ::= idtac.

Lemma wp_lane_a64 N J m b c entry ctr rest (Q : list Z * Z -> Prop) :
  bytes m -> 0 <= b -> 0 <= c < 1000 -> lane_inv m b entry ctr -> bytes rest ->
  (forall entry' ctr', lane_inv m (b + c) entry' ctr' -> Q (entry', ctr')) ->
  wpn N (rej_uniform_aarch64 J entry 256 ctr
          (slice (SHAKE128 m (168 * b + 168 * c)) (168 * b) (168 * b + 168 * c) ++ rest) (168 * c)) Q.
Proof.
  intros Bm Hb Hc HI Br HQ. pose proof (lane_ctr _ _ _ _ HI) as Hctr. destruct HI as (L & Ec & E).
  set (B := slice _ _ _).
  assert (LB : zlen B = 168 * c).
  { unfold B. rewrite zlen_slice; rewrite ?zlen_SHAKE128; auto; lia. }
  apply wp_rej_uniform_a64; try lia.
  - rewrite zlen_app. pose proof (zlen_nonneg rest). lia.
  - apply Forall_app; split; auto. apply bytes_slice', bytes_SHAKE128; auto; lia.
  - cbv zeta. rewrite E. replace (firstn (Z.to_nat (168 * c)) (B ++ rest)) with B.
    2: { rewrite <- LB. unfold zlen. rewrite Nat2Z.id, firstn_app, Nat.sub_diag, firstn_all.
         cbn [firstn]. now rewrite app_nil_r. }
    change (Z.to_nat 256) with 256%nat. unfold B. rewrite <- vals_add by (auto; lia).
    intros s (tl & ->) Ls _. apply HQ. split; [lia|split; [reflexivity|]].
    unfold zlen. rewrite Nat2Z.id, firstn_app, Nat.sub_diag, firstn_all.
    cbn [firstn]. now rewrite app_nil_r.
Qed.

Lemma wp_gen_matrix_entry_a64 bd (N : Prop) J fuel entry seed (Q : list Z -> Prop) :
  zlen entry = 256 -> zlen seed = 34 -> bytes seed ->
  (SampleNTT (3 + Z.of_nat fuel) seed = None -> N) ->
  (forall a, SampleNTT (3 + Z.of_nat fuel) seed = Some a -> Q a) ->
  wpn N (gen_matrix_entry_aarch64 bd J fuel entry seed) Q.
Proof.
  intros Le Ls Bs HN HQ. unfold gen_matrix_entry_aarch64, MLKEM_SYMBYTES, MLKEM_N.
  change (MLKEM_GEN_MATRIX_NBLOCKS * SHAKE128_RATE) with 504.
  change MLKEM_GEN_MATRIX_NBLOCKS with 3. cbv zeta. change (32 + 2) with 34.
  apply wp_bind, wp_shake128_absorb_a64; auto; try lia.
  assert (Es : slice seed 0 34 = seed) by (apply slice_zlen; lia). rewrite Es. intros s0 H0.
  apply wp_bind. eapply wp_shake128_squeezeblocks_a64; [exact H0|lia|lia|rewrite zlen_uninit; lia|].
  intros s1 H1. cbv beta iota. rewrite skipn_all2 by (pose proof (zlen_uninit J 1 504); unfold zlen in *; lia).
  apply wp_bind. change (0 + 168 * 3) with (168 * 0 + 168 * 3) in H1 |- *.
  change 504 with (168 * 3).
  change (slice (SHAKE128 seed (168 * 0 + 168 * 3)) 0 (168 * 0 + 168 * 3)) with
    (slice (SHAKE128 seed (168 * 0 + 168 * 3)) (168 * 0) (168 * 0 + 168 * 3)).
  apply (wp_lane_a64 N (sub J 8) seed 0 3 entry 0 []); auto; try lia.
  { now apply lane_start. }
  { constructor. }
  intros e1 c1 I1. rewrite app_nil_r. change (0 + 3) with 3 in I1.
  change (168 * 0 + 168 * 3) with (168 * 3) in H1 |- *.
  set (buf := slice _ _ _). assert (Lb : zlen buf = 504).
  { unfold buf. rewrite zlen_slice; rewrite ?zlen_SHAKE128; auto; lia. }
  assert (Bb : bytes buf).
  { unfold buf. apply bytes_slice', bytes_SHAKE128; auto; lia. }
  clearbody buf. apply wp_bind.
  assert (G : forall fuel J b s buf c e, 3 <= b -> zlen buf = 504 -> bytes buf -> xof 168 seed (168 * b) s ->
    lane_inv seed b e c -> (SampleNTT (b + Z.of_nat fuel) seed = None -> N) ->
    (forall a, SampleNTT (b + Z.of_nat fuel) seed = Some a -> Q a) ->
    wpn N (while fuel (fun '(J, state, buf, ctr, entry) => ctr <? 256)
      (fun '(J, state, buf, ctr, entry) =>
         '(buf0, state0) <- shake128_squeezeblocks_aarch64 (b_fips bd) (sub J 7) buf 1 state ;;
         '(entry0, ctr0) <- rej_uniform_aarch64 (sub J 9) entry 256 ctr buf0 SHAKE128_RATE ;;
         ret (sub J 16, state0, buf0, ctr0, entry0)) (J, s, buf, c, e))
      (fun a => wpn N (let '(_, _, _, _, entry0) := a in ret entry0) Q)).
  { clear - bd. intros fuel0. induction fuel0 as [|f IH]; intros J b s buf c e Hb Lb Bb Hx HI HN HQ.
    - assert (Bs : bytes seed) by apply Hx.
      apply wp_while_0; intros Hc.
      + apply HN. rewrite Z.add_0_r. eapply lane_short; eauto.
      + apply wp_ret, HQ. eapply lane_done; eauto; lia.
    - assert (Bs : bytes seed) by apply Hx. apply wp_while_S; intros Hc.
      + apply wp_bind. eapply wp_shake128_squeezeblocks_a64; [exact Hx|lia|lia|lia|].
        intros s' Hx'. cbv beta iota.
        assert (Bk : bytes (skipn (Z.to_nat (168 * 1)) buf)) by now apply Forall_skipn.
        set (rest := skipn (Z.to_nat (168 * 1)) buf) in *.
        assert (Lr : zlen rest = 336) by (unfold rest; rewrite zlen_skipn; lia).
        clearbody rest. change SHAKE128_RATE with (168 * 1).
        apply wp_bind. apply (wp_lane_a64 N (sub J 9) seed b 1 e c rest); auto; try lia.
        intros e' c' I'. apply wp_ret. apply (IH (sub J 16) (b + 1)); auto; try lia.
        * rewrite zlen_app, zlen_slice, Lr; [lia|lia|rewrite zlen_SHAKE128; auto; lia].
        * apply Forall_app; split; auto. apply bytes_slice', bytes_SHAKE128; auto; lia.
        * now replace (168 * (b + 1)) with (168 * b + 168 * 1) by lia.
        * now replace (b + 1 + Z.of_nat f) with (b + Z.of_nat (Datatypes.S f)) by lia.
        * now replace (b + 1 + Z.of_nat f) with (b + Z.of_nat (Datatypes.S f)) by lia.
      + apply wp_ret, HQ. eapply lane_done; eauto; lia. }
  exact (G fuel (sub J 16) 3 s1 buf c1 e1 ltac:(lia) Lb Bb H1 I1 HN HQ).
Qed.

Lemma wp_gen_matrix_entry_x4_a64 bd (N : Prop) J fuel e0 e1 e2 e3 sd0 sd1 sd2 sd3 (Q : list (list Z) -> Prop) :
  zlen e0 = 256 -> zlen e1 = 256 -> zlen e2 = 256 -> zlen e3 = 256 ->
  zlen sd0 = 34 -> zlen sd1 = 34 -> zlen sd2 = 34 -> zlen sd3 = 34 ->
  bytes sd0 -> bytes sd1 -> bytes sd2 -> bytes sd3 ->
  (forall s, In s [sd0; sd1; sd2; sd3] -> SampleNTT (3 + Z.of_nat fuel) s = None -> N) ->
  (forall v0 v1 v2 v3, sample4 (3 + Z.of_nat fuel) sd0 sd1 sd2 sd3 v0 v1 v2 v3 -> Q [v0; v1; v2; v3]) ->
  wpn N (gen_matrix_entry_x4_aarch64 bd J fuel [e0; e1; e2; e3] [sd0; sd1; sd2; sd3]) Q.
Proof.
  intros Le0 Le1 Le2 Le3 Ls0 Ls1 Ls2 Ls3 B0 B1 B2 B3 HN HQ.
  unfold gen_matrix_entry_x4_aarch64, MLKEM_SYMBYTES, MLKEM_N.
  change (MLKEM_GEN_MATRIX_NBLOCKS * SHAKE128_RATE) with 504.
  change MLKEM_GEN_MATRIX_NBLOCKS with 3. cbv zeta. change (32 + 2) with 34.
  do 4 (apply wp_bind, (wp_aget []); [rewrite !zlen_cons; change (zlen (@nil (list Z))) with 0; lia|]).
  cbv [zget nth Z.to_nat Pos.to_nat Pos.iter_op Nat.add].
  apply wp_bind, wp_shake128x4_absorb_a64; auto; try lia.
  rewrite !slice_zlen by lia. intros s0 H0.
  apply wp_bind. eapply wp_shake128x4_squeezeblocks_a64; [exact H0|lia|lia|rewrite zlen_uninit; lia..|].
  intros out s1 H1. unfold out. clear out. cbv beta iota.
  assert (Ek : forall k, skipn (Z.to_nat (168 * 3)) (uninit J k 504) = []).
  { intros k. apply skipn_all2. pose proof (zlen_uninit J k 504). unfold zlen in *. lia. }
  rewrite !Ek. clear Ek.
  do 4 (apply wp_bind, (wp_aget []); [rewrite !zlen_cons; change (zlen (@nil (list Z))) with 0; lia|]).
  cbv [zget nth Z.to_nat Pos.to_nat Pos.iter_op Nat.add].
  change (0 + 168 * 3) with (168 * 0 + 168 * 3) in H1 |- *.
  change 504 with (168 * 3).
  change (fun m => slice (SHAKE128 m (168 * 0 + 168 * 3)) 0 (168 * 0 + 168 * 3)) with
    (fun m => slice (SHAKE128 m (168 * 0 + 168 * 3)) (168 * 0) (168 * 0 + 168 * 3)).
  apply wp_bind, (wp_lane_a64 N (sub J 8) sd0 0 3 e0 0 []); auto; try lia; [now apply lane_start|constructor|].
  intros f0 c0 I0.
  apply wp_bind, (wp_lane_a64 N (sub J 9) sd1 0 3 e1 0 []); auto; try lia; [now apply lane_start|constructor|].
  intros f1 c1 I1.
  apply wp_bind, (wp_lane_a64 N (sub J 10) sd2 0 3 e2 0 []); auto; try lia; [now apply lane_start|constructor|].
  intros f2 c2 I2.
  apply wp_bind, (wp_lane_a64 N (sub J 11) sd3 0 3 e3 0 []); auto; try lia; [now apply lane_start|constructor|].
  intros f3 c3 I3.
  rewrite !app_nil_r. change (0 + 3) with 3 in I0, I1, I2, I3.
  change (168 * 0 + 168 * 3) with (168 * 3) in H1 |- *.
  assert (Hb : forall m, bytes m -> zlen (slice (SHAKE128 m (168 * 3)) 0 (168 * 3)) = 504 /\
                bytes (slice (SHAKE128 m (168 * 3)) 0 (168 * 3))).
  { intros m Bm. split.
    - rewrite zlen_slice; rewrite ?zlen_SHAKE128; auto; lia.
    - apply bytes_slice', bytes_SHAKE128; auto; lia. }
  pose proof (Hb _ B0) as [L0 C0]. pose proof (Hb _ B1) as [L1 C1].
  pose proof (Hb _ B2) as [L2 C2]. pose proof (Hb _ B3) as [L3 C3]. clear Hb.
  set (b0 := slice (SHAKE128 sd0 _) _ _) in *. set (b1 := slice (SHAKE128 sd1 _) _ _) in *.
  set (b2 := slice (SHAKE128 sd2 _) _ _) in *. set (b3 := slice (SHAKE128 sd3 _) _ _) in *.
  clearbody b0 b1 b2 b3. apply wp_bind.
  assert (G : forall fuel J b s b0 b1 b2 b3 c0 c1 c2 c3 e0 e1 e2 e3, 3 <= b ->
    zlen b0 = 504 -> zlen b1 = 504 -> zlen b2 = 504 -> zlen b3 = 504 ->
    bytes b0 -> bytes b1 -> bytes b2 -> bytes b3 -> xof4 168 sd0 sd1 sd2 sd3 (168 * b) s ->
    lane_inv sd0 b e0 c0 -> lane_inv sd1 b e1 c1 -> lane_inv sd2 b e2 c2 -> lane_inv sd3 b e3 c3 ->
    (forall s, In s [sd0; sd1; sd2; sd3] -> SampleNTT (b + Z.of_nat fuel) s = None -> N) ->
    (forall v0 v1 v2 v3, sample4 (b + Z.of_nat fuel) sd0 sd1 sd2 sd3 v0 v1 v2 v3 -> Q [v0; v1; v2; v3]) ->
    wpn N (while fuel
    (fun '(_, _, _, (ctr0, ctr1, ctr2, ctr3), _) =>
      (ctr0 <? 256) || (ctr1 <? 256) || (ctr2 <? 256) || (ctr3 <? 256))
    (fun '(J, statex, (buf0, buf1, buf2, buf3), (ctr0, ctr1, ctr2, ctr3), (v0, v1, v2, v3)) =>
      '((buf0, buf1, buf2, buf3), statex) <-
         shake128x4_squeezeblocks_aarch64 (b_fips bd) (sub J 7) buf0 buf1 buf2 buf3 1 statex ;;
      '(v0, ctr0) <- rej_uniform_aarch64 (sub J 12) v0 256 ctr0 buf0 SHAKE128_RATE ;;
      '(v1, ctr1) <- rej_uniform_aarch64 (sub J 13) v1 256 ctr1 buf1 SHAKE128_RATE ;;
      '(v2, ctr2) <- rej_uniform_aarch64 (sub J 14) v2 256 ctr2 buf2 SHAKE128_RATE ;;
      '(v3, ctr3) <- rej_uniform_aarch64 (sub J 15) v3 256 ctr3 buf3 SHAKE128_RATE ;;
      ret (sub J 16, statex, (buf0, buf1, buf2, buf3), (ctr0, ctr1, ctr2, ctr3), (v0, v1, v2, v3)))
      (J, s, (b0, b1, b2, b3), (c0, c1, c2, c3), (e0, e1, e2, e3)))
      (fun a => wpn N (let '(_, _, _, _, (v0, v1, v2, v3)) := a in ret [v0; v1; v2; v3]) Q)).
  { clear - bd B0 B1 B2 B3. intros fuel0.
    induction fuel0 as [|f IH]; intros J b s b0 b1 b2 b3 c0 c1 c2 c3 e0 e1 e2 e3
      Hb L0 L1 L2 L3 C0 C1 C2 C3 Hx I0 I1 I2 I3 HN HQ.
    - apply wp_while_0; intros Hc.
      + rewrite Z.add_0_r in HN. rewrite !orb_true_iff in Hc.
        destruct Hc as [[[Hc|Hc]|Hc]|Hc].
        * apply (HN sd0); [cbn; tauto|]. exact (lane_short _ _ _ _ I0 Hc).
        * apply (HN sd1); [cbn; tauto|]. exact (lane_short _ _ _ _ I1 Hc).
        * apply (HN sd2); [cbn; tauto|]. exact (lane_short _ _ _ _ I2 Hc).
        * apply (HN sd3); [cbn; tauto|]. exact (lane_short _ _ _ _ I3 Hc).
      + rewrite !orb_false_iff in Hc. destruct Hc as [[[H0 H1] H2] H3].
        apply wp_ret, HQ. unfold sample4.
        repeat split; [eapply (lane_done sd0 b e0 c0)|eapply (lane_done sd1 b e1 c1)|eapply (lane_done sd2 b e2 c2)|
          eapply (lane_done sd3 b e3 c3)]; try assumption; lia.
    - apply wp_while_S; intros Hc.
      + apply wp_bind. eapply wp_shake128x4_squeezeblocks_a64; [exact Hx|lia..|].
        intros out s' Hx'. unfold out. clear out. cbv beta iota.
        assert (Hr : forall buf, zlen buf = 504 -> bytes buf -> bytes (skipn (Z.to_nat (168 * 1)) buf) /\
                       zlen (skipn (Z.to_nat (168 * 1)) buf) = 336).
        { intros buf Lb Bb. split; [now apply Forall_skipn|]. rewrite zlen_skipn; lia. }
        pose proof (Hr _ L0 C0) as [K0 M0]. pose proof (Hr _ L1 C1) as [K1 M1].
        pose proof (Hr _ L2 C2) as [K2 M2]. pose proof (Hr _ L3 C3) as [K3 M3]. clear Hr.
        set (r0 := skipn _ b0) in *. set (r1 := skipn _ b1) in *.
        set (r2 := skipn _ b2) in *. set (r3 := skipn _ b3) in *. clearbody r0 r1 r2 r3.
        change SHAKE128_RATE with (168 * 1).
        apply wp_bind, (wp_lane_a64 N (sub J 12) sd0 b 1 e0 c0 r0); auto; try lia. intros f0 d0 I0'.
        apply wp_bind, (wp_lane_a64 N (sub J 13) sd1 b 1 e1 c1 r1); auto; try lia. intros f1 d1 I1'.
        apply wp_bind, (wp_lane_a64 N (sub J 14) sd2 b 1 e2 c2 r2); auto; try lia. intros f2 d2 I2'.
        apply wp_bind, (wp_lane_a64 N (sub J 15) sd3 b 1 e3 c3 r3); auto; try lia. intros f3 d3 I3'.
        apply wp_ret.
        assert (Hl : forall m r, bytes m -> zlen r = 336 ->
          zlen (slice (SHAKE128 m (168 * b + 168 * 1)) (168 * b) (168 * b + 168 * 1) ++ r) = 504).
        { intros m r Bm Lr. rewrite zlen_app, zlen_slice, Lr; [lia|lia|rewrite zlen_SHAKE128; auto; lia]. }
        assert (Hbb : forall m r, bytes m -> bytes r ->
          bytes (slice (SHAKE128 m (168 * b + 168 * 1)) (168 * b) (168 * b + 168 * 1) ++ r)).
        { intros m r Bm Lr. apply Forall_app; split; auto. apply bytes_slice', bytes_SHAKE128; auto; lia. }
        apply (IH (sub J 16) (b + 1)); auto; try lia.
        * now replace (168 * (b + 1)) with (168 * b + 168 * 1) by lia.
        * now replace (b + 1 + Z.of_nat f) with (b + Z.of_nat (Datatypes.S f)) by lia.
        * now replace (b + 1 + Z.of_nat f) with (b + Z.of_nat (Datatypes.S f)) by lia.
      + rewrite !orb_false_iff in Hc. destruct Hc as [[[H0 H1] H2] H3].
        apply wp_ret, HQ. unfold sample4.
        repeat split; [eapply (lane_done sd0 b e0 c0)|eapply (lane_done sd1 b e1 c1)|eapply (lane_done sd2 b e2 c2)|
          eapply (lane_done sd3 b e3 c3)]; try assumption; lia. }
  apply (G fuel (sub J 16) 3 s1); auto; lia.
Qed.

Lemma gen_matrix_entry_a64_correct bd J fuel entry seed :
  zlen entry = 256 -> zlen seed = 34 -> bytes seed ->
  val (gen_matrix_entry_aarch64 bd J fuel entry seed) =
  match SampleNTT (3 + Z.of_nat fuel) seed with Some a => Ok a | None => NoFuel end.
Proof. intros. apply wpn_exact. apply wp_gen_matrix_entry_a64; auto. Qed.

Lemma gen_matrix_entry_x4_a64_correct bd J fuel vec seeds :
  zlen vec = 4 -> Forall (fun e => zlen e = 256) vec ->
  zlen seeds = 4 -> Forall (fun s => zlen s = 34 /\ bytes s) seeds ->
  val (gen_matrix_entry_x4_aarch64 bd J fuel vec seeds) =
  match all_some (map (SampleNTT (3 + Z.of_nat fuel)) seeds) with Some v => Ok v | None => NoFuel end.
Proof.
  intros Lv Fv Lss Fs. apply wpn_exact.
  rewrite (four [] vec Lv) in *. rewrite (four [] seeds Lss) in *.
  repeat match goal with H : Forall _ (_ :: _) |- _ => apply Forall_cons_iff in H as [? H] end.
  repeat match goal with H : _ /\ _ |- _ => destruct H end.
  apply wp_gen_matrix_entry_x4_a64; try assumption.
  - intros s Hs HNone. apply all_some_None. apply in_map_iff. eauto.
  - intros v0 v1 v2 v3 (E0 & E1 & E2 & E3). cbn [map]. rewrite E0, E1, E2, E3. reflexivity.
Qed.

Lemma wp_gen_matrix_a64 bd (N : Prop) J fuel p a seed tr (Q : list (list Z) -> Prop) :
  let K := MLKEM_K p in
  zlen a = K * K -> (forall i, 0 <= i < K * K -> zlen (zget [] a i) = 256) ->
  zlen seed = 32 -> bytes seed ->
  (forall i, 0 <= i < K * K -> SampleNTT (3 + Z.of_nat fuel) (mseed seed tr K i) = None -> N) ->
  (forall a', zlen a' = K * K ->
     (forall i, 0 <= i < K * K -> SampleNTT (3 + Z.of_nat fuel) (mseed seed tr K i) = Some (zget [] a' i)) ->
     Q a') ->
  wpn N (gen_matrix_aarch64 bd J fuel p a seed tr) Q.
Proof.
  intros K La Ea Ls Bs HN HQ. unfold gen_matrix_aarch64. fold K.
  pose proof (MLKEM_K_range p) as HK. fold K in HK. unfold MLKEM_SYMBYTES. change (32 + 2) with 34. cbv zeta.
  set (b := 3 + Z.of_nat fuel) in *. assert (Hb : 3 <= b) by lia.
  apply wp_bind.
  apply (wp_for N (fun j s => zlen s = 4 /\ (forall i, 0 <= i < 4 -> zlen (zget [] s i) = 34) /\
     forall i, 0 <= i < j -> firstn 32 (zget [] s i) = seed)); [lia| | |].
  { split; [now rewrite zlen_uninit2|]. split; intros; [|lia]. apply zget_uninit2; lia. }
  { intros j s Hj (L4 & L34 & E). apply wp_bind, (wp_aget []); [lia|].
    apply wp_bind, wp_memcpy; rewrite ?L34; try lia. change (0 + 32) with 32.
    rewrite slice_zlen by auto. apply wp_aset; [lia|].
    split; [rewrite zlen_set; lia|]. split.
    - intros i Hi. rewrite zget_set by lia. destruct (Z.eqb_spec i j); auto.
      rewrite zlen_splice; rewrite ?L34; lia.
    - intros i Hi. rewrite zget_set by lia. destruct (Z.eqb_spec i j); [|apply E; lia].
      unfold splice. rewrite firstn_O. unfold zlen in Ls. cbn [app]. rewrite firstn_app_full by lia.
      apply firstn_all2. lia. }
  intros s0 (L4 & L34 & E32).
  assert (S0 : seeds_ok seed s0) by (split; auto). clear L4 L34 E32.
  set (cnt := K * K / 4).
  assert (Hcnt : 0 <= cnt /\ cnt * 4 <= K * K < cnt * 4 + 4).
  { unfold cnt. pose proof (Z.div_mod (K * K) 4). pose proof (Z.mod_pos_bound (K * K) 4). 
    assert (0 <= K * K / 4) by (apply Z.div_pos; lia). lia. }
  clearbody cnt.
  apply wp_bind.
  apply (wp_for_step N (fun kk '(a, s) => zlen a = K * K /\
     (forall i, 0 <= i < K * K -> zlen (zget [] a i) = 256) /\
     (forall i, 0 <= i < 4 * kk -> SampleNTT b (mseed seed tr K i) = Some (zget [] a i)) /\
     seeds_ok seed s) 0 (cnt * 4) 4 cnt).
  { replace (cnt * 4 - 0 + 4 - 1) with (3 + cnt * 4) by lia. rewrite Z.div_add by lia. reflexivity. }
  { lia. }
  { split; [auto|]. split; [auto|]. split; [lia|auto]. }
  - intros kk [a1 s1] Hk (La1 & Ea1 & Sa1 & So1). replace (0 + kk * 4) with (4 * kk) by lia.
    apply wp_bind.
    apply (wp_for N (fun j s => seeds_ok seed s /\
       forall j', 0 <= j' < j -> zget [] s j' = mseed seed tr K (4 * kk + j'))); [lia| | |].
    { split; auto. lia. }
    { intros j s Hj (So & E). destruct So as [L4 H4].
      apply wp_bind, wp_div. apply wp_bind, wp_modc. cbv zeta.
      apply wp_bind, (wp_aget []); [lia|]. destruct (H4 j Hj) as [L34 E32].
      assert (Hidx : 0 <= 4 * kk + j < K * K) by lia.
      apply wp_bind, (wp_set_xy N _ seed); auto.
      apply wp_aset; [lia|]. split.
      - split; [rewrite zlen_set; lia|]. intros j' Hj'. rewrite zget_set by lia.
        destruct (Z.eqb_spec j' j); [|now apply H4].
        split; [now apply mseed_ok|now apply firstn_mseed].
      - intros j' Hj'. rewrite zget_set by lia. destruct (Z.eqb_spec j' j) as [->|]; auto.
        apply E. lia. }
    intros s2 (So2 & E2). apply wp_bind, wp_aslice; try lia.
    destruct So2 as [L4 H4].
    rewrite (four [] s2 L4). rewrite !E2 by lia.
    rewrite (four [] (slice a1 (4 * kk) (4 * kk + 4))) by (rewrite zlen_slice; lia).
    rewrite !zget_slice by lia.
    assert (Hm : forall j, 0 <= j < 4 -> zlen (mseed seed tr K (4 * kk + j)) = 34 /\ bytes (mseed seed tr K (4 * kk + j))).
    { intros j Hj. apply mseed_ok; auto. lia. }
    apply wp_bind, wp_gen_matrix_entry_x4_a64; try (apply Ea1; lia); try (apply Hm; lia).
    { intros s Hs HNone. cbn [In] in Hs. destruct Hs as [<-|[<-|[<-|[<-|[]]]]].
      - apply (HN (4 * kk + 0)); [lia|exact HNone].
      - apply (HN (4 * kk + 1)); [lia|exact HNone].
      - apply (HN (4 * kk + 2)); [lia|exact HNone].
      - apply (HN (4 * kk + 3)); [lia|exact HNone]. }
    fold b. intros v0 v1 v2 v3 (H0 & H1 & H2 & H3).
    apply wp_bind, wp_asplice; [lia|change (zlen [v0; v1; v2; v3]) with 4; lia|]. apply wp_ret.
    assert (Hv : forall j, 0 <= j < 4 -> SampleNTT b (mseed seed tr K (4 * kk + j)) = Some (zget [] [v0; v1; v2; v3] j)).
    { intros j Hj. assert (j = 0 \/ j = 1 \/ j = 2 \/ j = 3) as [->|[->|[->| ->]]] by lia; assumption. }
    clear H0 H1 H2 H3. set (vv := [v0; v1; v2; v3]) in *.
    assert (Lv : zlen vv = 4) by reflexivity. clearbody vv.
    split; [rewrite zlen_splice; lia|]. split; [|split].
    + intros i Hi. rewrite zget_splice by lia. rewrite Lv.
      destruct (Z.leb_spec (4 * kk) i); cbn [andb]; [|now apply Ea1].
      destruct (Z.ltb_spec i (4 * kk + 4)); [|now apply Ea1].
      assert (Hi' : 0 <= i - 4 * kk < 4) by lia. specialize (Hv _ Hi').
      replace (4 * kk + (i - 4 * kk)) with i in Hv by lia.
      apply SampleNTT_ok in Hv; [tauto| |lia]. now apply mseed_ok.
    + intros i Hi. rewrite zget_splice by lia. rewrite Lv.
      destruct (Z.leb_spec (4 * kk) i); cbn [andb]; [|apply Sa1; lia].
      destruct (Z.ltb_spec i (4 * kk + 4)); [|lia].
      assert (Hi' : 0 <= i - 4 * kk < 4) by lia. specialize (Hv _ Hi').
      replace (4 * kk + (i - 4 * kk)) with i in Hv by lia. exact Hv.
    + split; [reflexivity|]. intros j Hj.
      assert (j = 0 \/ j = 1 \/ j = 2 \/ j = 3) as [->|[->|[->| ->]]] by lia;
        (split; [apply Hm; lia|now apply firstn_mseed]).
  - intros [a1 s1] (La1 & Ea1 & Sa1 & So1). apply wp_branch; intros Hbr.
    + assert (E9 : K * K = cnt * 4 + 1).
      { destruct p; unfold K in *; cbn in *; lia. }
      cbv zeta. apply wp_bind, wp_div. apply wp_bind, wp_modc.
      destruct So1 as [L4 H4]. destruct (H4 0 ltac:(lia)) as [L34 E32].
      apply wp_bind, (wp_aget []); [lia|].
      apply wp_bind, (wp_set_xy N _ seed); auto; [lia|].
      apply wp_bind, (wp_aget []); [lia|].
      assert (Hidx : 0 <= cnt * 4 < K * K) by lia.
      apply wp_bind, wp_gen_matrix_entry_a64; [now apply Ea1|now apply mseed_ok|now apply mseed_ok|now apply HN|].
      fold b. intros v Hv. apply wp_aset; [lia|]. apply HQ; [rewrite zlen_set; lia|].
      intros i Hi. rewrite zget_set by lia. destruct (Z.eqb_spec i (cnt * 4)) as [->|]; [exact Hv|].
      apply Sa1. lia.
    + apply wp_ret, HQ; auto. intros i Hi. apply Sa1. lia.
Qed.

Lemma wp_matrix_a64 bd (N : Prop) J fuel p a seed tr (Q : list (list Z) -> Prop) :
  let K := MLKEM_K p in
  zlen a = K * K -> (forall i, 0 <= i < K * K -> zlen (zget [] a i) = 256) ->
  zlen seed = 32 -> bytes seed ->
  (ExpandA (set_of p) (3 + Z.of_nat fuel) seed = None -> N) ->
  (forall A, ExpandA (set_of p) (3 + Z.of_nat fuel) seed = Some A -> Q (stored tr A)) ->
  wpn N (gen_matrix_aarch64 bd J fuel p a seed tr) Q.
Proof.
  intros K La Ea Ls Bs HN HQ. apply wp_gen_matrix_a64; auto.
  - intros i Hi H. apply HN. exact (mseed_None p _ seed tr i Hi H).
  - intros a' La' Ha'. destruct (gen_matrix_ExpandA p _ seed tr a' La' Ha') as (A & EA & ->). auto.
Qed.

Lemma gen_matrix_a64_correct bd J fuel p a rho tr :
  let K := k (set_of p) in
  zlen a = K * K -> Forall (fun e => zlen e = 256) a -> zlen rho = 32 -> bytes rho ->
  val (gen_matrix_aarch64 bd J fuel p a rho tr) =
  match ExpandA (set_of p) (3 + Z.of_nat fuel) rho with
  | Some A => Ok (concat (if tr then transpose A else A))
  | None => NoFuel
  end.
Proof.
  intros K La Fa Lr Br. unfold K in *. rewrite <- MLKEM_K_k in La.
  transitivity (match option_map (stored tr) (ExpandA (set_of p) (3 + Z.of_nat fuel) rho) with
                | Some A => Ok A | None => NoFuel end).
  2: { destruct (ExpandA _ _ _); reflexivity. }
  apply wpn_exact. apply wp_matrix_a64; auto.
  - intros i Hi. rewrite Forall_forall in Fa. apply Fa. unfold zget. apply nth_In. unfold zlen in La. lia.
  - intros ->. reflexivity.
  - intros A ->. reflexivity.
Qed.
