(** * Matrix sampling: gen_matrix_entry, gen_matrix_entry_x4, gen_matrix *)

From Coq Require Import ZArith List Bool Lia.
From Verif Require Import CSem ModelArith ModelKeccak ModelIndcpa Spec202 Spec203 SpecLink
  CSemFacts ProofScalar ProofBits ProofRej ProofSponge ProofHash.
Import ListNotations.
Open Scope Z_scope.
Ltac Zify.zify_post_hook ::= idtac.

Lemma Forall_firstn {A} (P : A -> Prop) n l : Forall P l -> Forall P (firstn n l).
Proof.
  intros H. rewrite <- (firstn_skipn n l) in H. now apply Forall_app in H.
Qed.
Lemma Forall_skipn {A} (P : A -> Prop) n l : Forall P l -> Forall P (skipn n l).
Proof.
  intros H. rewrite <- (firstn_skipn n l) in H. now apply Forall_app in H.
Qed.

(** ** The byte stream and the values sampled from its first blocks *)

Lemma zlen_SHAKE128 m n : bytes m -> 0 <= n -> zlen (SHAKE128 m n) = n.
Proof. intros. rewrite SHAKE128_stream by auto. rewrite zlen_map, zlen_range; lia. Qed.
Lemma bytes_SHAKE128 m n : bytes m -> 0 <= n -> bytes (SHAKE128 m n).
Proof.
  intros Bm Hn. rewrite SHAKE128_stream by auto. apply Forall_forall. intros x Hx.
  apply in_map_iff in Hx as (i & <- & _).
  apply stream_byte. apply wfb_fb, wfb_final; auto; lia.
Qed.
Lemma SHAKE128_prefix m a b : bytes m -> 0 <= a -> 0 <= b ->
  SHAKE128 m (a + b) = SHAKE128 m a ++ slice (SHAKE128 m (a + b)) a (a + b).
Proof.
  intros Bm Ha Hb. rewrite <- stream_SHAKE128 by auto.
  rewrite !SHAKE128_stream by (auto; lia).
  rewrite range_app, map_app, map_map by lia. reflexivity.
Qed.

(** the values sampled from the first [b] blocks *)
Definition vals (m : list Z) (b : Z) : list Z := firstn 256 (accepted (SHAKE128 m (168 * b))).

Lemma zlen_vals m b : 0 <= zlen (vals m b) <= 256.
Proof. unfold vals, zlen. rewrite firstn_length. lia. Qed.
Lemma vals_0 m : bytes m -> vals m 0 = [].
Proof.
  intros. unfold vals. rewrite Z.mul_0_r. rewrite SHAKE128_stream by (auto; lia). reflexivity.
Qed.
Lemma vals_add m b c : bytes m -> 0 <= b -> 0 <= c ->
  vals m (b + c) = firstn 256 (vals m b ++
     accepted (slice (SHAKE128 m (168 * b + 168 * c)) (168 * b) (168 * b + 168 * c))).
Proof.
  intros Bm Hb Hc. unfold vals. rewrite Z.mul_add_distr_l.
  rewrite SHAKE128_prefix at 1 by (auto; lia).
  rewrite accepted_app.
  2: { rewrite zlen_SHAKE128 by (auto; lia). replace (168 * b) with (56 * b * 3) by lia.
       apply Z.mod_mul. lia. }
  set (x := accepted (SHAKE128 m (168 * b))). set (y := accepted _).
  rewrite firstn_app, (firstn_app 256 (firstn 256 x)), firstn_firstn, firstn_length.
  change (Nat.min 256 256) with 256%nat. f_equal.
  destruct (Nat.le_gt_cases 256 (length x)).
  - replace (256 - length x)%nat with 0%nat by lia.
    replace (256 - Nat.min 256 (length x))%nat with 0%nat by lia. reflexivity.
  - replace (Nat.min 256 (length x)) with (length x) by lia. reflexivity.
Qed.
Lemma vals_full m b c : bytes m -> 0 <= b -> 0 <= c -> zlen (vals m b) = 256 ->
  vals m (b + c) = vals m b.
Proof.
  intros. rewrite vals_add by auto. unfold zlen in *. rewrite firstn_app_full by lia.
  apply firstn_all2. lia.
Qed.
Lemma SampleNTT_vals b m : SampleNTT b m = if zlen (vals m b) =? 256 then Some (vals m b) else None.
Proof. unfold SampleNTT. rewrite loop_first256. reflexivity. Qed.

Lemma SampleNTT_mono b c m a : bytes m -> 0 <= b <= c ->
  SampleNTT b m = Some a -> SampleNTT c m = Some a.
Proof.
  intros Bm Hc. rewrite !SampleNTT_vals. destruct (Z.eqb_spec (zlen (vals m b)) 256) as [E|E]; [|discriminate].
  intros [= <-]. replace c with (b + (c - b)) by lia. rewrite vals_full by (auto; lia).
  now rewrite E.
Qed.
Lemma SampleNTT_ok b m a : bytes m -> 0 <= b -> SampleNTT b m = Some a ->
  zlen a = 256 /\ ubounded 3329 a.
Proof.
  intros Bm Hb. rewrite SampleNTT_vals. destruct (Z.eqb_spec (zlen (vals m b)) 256) as [E|E]; [|discriminate].
  intros [= <-]. split; auto. unfold vals, ubounded. apply Forall_firstn, accepted_range, bytes_SHAKE128; auto; lia.
Qed.

(** ** One lane: the polynomial holds the values sampled so far *)

Definition lane_inv (m : list Z) (b : Z) (entry : list Z) (ctr : Z) : Prop :=
  zlen entry = 256 /\ ctr = zlen (vals m b) /\ firstn (Z.to_nat ctr) entry = vals m b.

Lemma lane_start m entry : bytes m -> zlen entry = 256 -> lane_inv m 0 entry 0.
Proof. intros. unfold lane_inv. rewrite vals_0 by auto. auto. Qed.
Lemma lane_ctr m b entry ctr : lane_inv m b entry ctr -> 0 <= ctr <= 256.
Proof. intros (_ & -> & _). apply zlen_vals. Qed.
Lemma lane_done m b entry ctr c : bytes m -> 0 <= b -> 0 <= c -> lane_inv m b entry ctr ->
  ctr <? 256 = false -> SampleNTT (b + c) m = Some entry.
Proof.
  intros Bm Hb Hc (L & -> & E) H. pose proof (zlen_vals m b). rewrite SampleNTT_vals.
  assert (E2 : zlen (vals m b) = 256) by lia.
  rewrite vals_full by auto. rewrite E2. cbn [Z.eqb Pos.eqb]. f_equal. rewrite <- E.
  apply firstn_all2. unfold zlen in L. lia.
Qed.
Lemma lane_short m b entry ctr : lane_inv m b entry ctr -> ctr <? 256 = true ->
  SampleNTT b m = None.
Proof.
  intros (L & -> & E) H. rewrite SampleNTT_vals.
  destruct (Z.eqb_spec (zlen (vals m b)) 256); [lia|reflexivity].
Qed.

Lemma wp_lane N m b c entry ctr rest (Q : list Z * Z -> Prop) :
  bytes m -> 0 <= b -> 0 <= c < 1000 -> lane_inv m b entry ctr -> bytes rest ->
  (forall entry' ctr', lane_inv m (b + c) entry' ctr' -> Q (entry', ctr')) ->
  wpn N (rej_uniform entry 256 ctr
          (slice (SHAKE128 m (168 * b + 168 * c)) (168 * b) (168 * b + 168 * c) ++ rest) (168 * c)) Q.
Proof.
  intros Bm Hb Hc HI Br HQ. pose proof (lane_ctr _ _ _ _ HI) as Hctr. destruct HI as (L & Ec & E).
  set (B := slice _ _ _).
  assert (LB : zlen B = 168 * c).
  { unfold B. rewrite zlen_slice; rewrite ?zlen_SHAKE128; auto; lia. }
  apply wp_rej; try lia.
  - rewrite zlen_app. pose proof (zlen_nonneg rest). lia.
  - apply Forall_app; split; auto. apply bytes_slice', bytes_SHAKE128; auto; lia.
  - cbv zeta. rewrite E. replace (firstn (Z.to_nat (168 * c)) (B ++ rest)) with B.
    2: { rewrite <- LB. unfold zlen. rewrite Nat2Z.id, firstn_app, Nat.sub_diag, firstn_all.
         cbn [firstn]. now rewrite app_nil_r. }
    change (Z.to_nat 256) with 256%nat. unfold B. rewrite <- vals_add by (auto; lia).
    apply HQ. pose proof (zlen_vals m (b + c)). split; [|split; [reflexivity|]].
    + rewrite zlen_put by lia. lia.
    + unfold put, zlen. rewrite Nat2Z.id, firstn_app, Nat.sub_diag, firstn_all.
      cbn [firstn]. now rewrite app_nil_r.
Qed.

(** ** gen_matrix_entry *)

Lemma wp_while_0 {S} (N : Prop) cond (body : S -> M S) s (Q : S -> Prop) :
  (cond s = true -> N) -> (cond s = false -> Q s) -> wpn N (while 0 cond body s) Q.
Proof.
  intros H1 H2. cbn [while]. apply wp_bind. apply wp_emit. destruct (cond s).
  - unfold wpn. cbn. auto.
  - apply wp_ret. auto.
Qed.
Lemma wp_while_S {S} (N : Prop) fuel cond (body : S -> M S) s (Q : S -> Prop) :
  (cond s = true -> wpn N (body s) (fun s' => wpn N (while fuel cond body s') Q)) ->
  (cond s = false -> Q s) -> wpn N (while (Datatypes.S fuel) cond body s) Q.
Proof.
  intros H1 H2. cbn [while]. apply wp_bind. apply wp_emit. destruct (cond s).
  - apply wp_bind. auto.
  - apply wp_ret. auto.
Qed.

Lemma zlen_uninit J k n : 0 <= n -> zlen (uninit J k n) = n.
Proof. intros. unfold uninit. rewrite zlen_map. unfold zlen. rewrite seq_length. lia. Qed.

Lemma wp_gen_matrix_entry {bo : byte_order} (N : Prop) J fuel entry seed (Q : list Z -> Prop) :
  zlen entry = 256 -> zlen seed = 34 -> bytes seed ->
  (SampleNTT (3 + Z.of_nat fuel) seed = None -> N) ->
  (forall a, SampleNTT (3 + Z.of_nat fuel) seed = Some a -> Q a) ->
  wpn N (gen_matrix_entry J fuel entry seed) Q.
Proof.
  intros Le Ls Bs HN HQ. unfold gen_matrix_entry, MLKEM_SYMBYTES, MLKEM_N.
  change (MLKEM_GEN_MATRIX_NBLOCKS * SHAKE128_RATE) with 504.
  change MLKEM_GEN_MATRIX_NBLOCKS with 3. cbv zeta. change (32 + 2) with 34.
  apply wp_bind, wp_shake128_absorb; auto; try lia.
  assert (Es : slice seed 0 34 = seed) by (apply slice_zlen; lia). rewrite Es. intros s0 H0.
  apply wp_bind. eapply wp_shake128_squeezeblocks; [exact H0|lia|lia|rewrite zlen_uninit; lia|].
  intros s1 H1. cbv beta iota. rewrite skipn_all2 by (pose proof (zlen_uninit J 1 504); unfold zlen in *; lia).
  apply wp_bind. change (0 + 168 * 3) with (168 * 0 + 168 * 3) in H1 |- *.
  change 504 with (168 * 3).
  change (slice (SHAKE128 seed (168 * 0 + 168 * 3)) 0 (168 * 0 + 168 * 3)) with
    (slice (SHAKE128 seed (168 * 0 + 168 * 3)) (168 * 0) (168 * 0 + 168 * 3)).
  apply (wp_lane N seed 0 3 entry 0 []); auto; try lia.
  { now apply lane_start. }
  { constructor. }
  intros e1 c1 I1. rewrite app_nil_r. change (0 + 3) with 3 in I1.
  change (168 * 0 + 168 * 3) with (168 * 3) in H1 |- *.
  set (buf := slice _ _ _). assert (Lb : zlen buf = 504).
  { unfold buf. rewrite zlen_slice; rewrite ?zlen_SHAKE128; auto; lia. }
  assert (Bb : bytes buf).
  { unfold buf. apply bytes_slice', bytes_SHAKE128; auto; lia. }
  clearbody buf. apply wp_bind.
  assert (G : forall fuel b s buf c e, 3 <= b -> zlen buf = 504 -> bytes buf -> xof 168 seed (168 * b) s ->
    lane_inv seed b e c -> (SampleNTT (b + Z.of_nat fuel) seed = None -> N) ->
    (forall a, SampleNTT (b + Z.of_nat fuel) seed = Some a -> Q a) ->
    wpn N (while fuel (fun '(state, buf, ctr, entry) => ctr <? 256)
      (fun '(state, buf, ctr, entry) =>
         '(buf0, state0) <- shake128_squeezeblocks buf 1 state ;;
         '(entry0, ctr0) <- rej_uniform entry 256 ctr buf0 SHAKE128_RATE ;;
         ret (state0, buf0, ctr0, entry0)) (s, buf, c, e))
      (fun a => wpn N (let '(_, _, _, entry0) := a in ret entry0) Q)).
  { clear. intros fuel0. induction fuel0 as [|f IH]; intros b s buf c e Hb Lb Bb Hx HI HN HQ.
    - assert (Bs : bytes seed) by apply Hx.
      apply wp_while_0; intros Hc.
      + apply HN. rewrite Z.add_0_r. eapply lane_short; eauto.
      + apply wp_ret, HQ. eapply lane_done; eauto; lia.
    - assert (Bs : bytes seed) by apply Hx. apply wp_while_S; intros Hc.
      + apply wp_bind. eapply wp_shake128_squeezeblocks; [exact Hx|lia|lia|lia|].
        intros s' Hx'. cbv beta iota.
        assert (Bk : bytes (skipn (Z.to_nat (168 * 1)) buf)) by now apply Forall_skipn.
        set (rest := skipn (Z.to_nat (168 * 1)) buf) in *.
        assert (Lr : zlen rest = 336) by (unfold rest; rewrite zlen_skipn; lia).
        clearbody rest. change SHAKE128_RATE with (168 * 1).
        apply wp_bind. apply (wp_lane N seed b 1 e c rest); auto; try lia.
        intros e' c' I'. apply wp_ret. apply (IH (b + 1)); auto; try lia.
        * rewrite zlen_app, zlen_slice, Lr; [lia|lia|rewrite zlen_SHAKE128; auto; lia].
        * apply Forall_app; split; auto. apply bytes_slice', bytes_SHAKE128; auto; lia.
        * now replace (168 * (b + 1)) with (168 * b + 168 * 1) by lia.
        * now replace (b + 1 + Z.of_nat f) with (b + Z.of_nat (Datatypes.S f)) by lia.
        * now replace (b + 1 + Z.of_nat f) with (b + Z.of_nat (Datatypes.S f)) by lia.
      + apply wp_ret, HQ. eapply lane_done; eauto; lia. }
  exact (G fuel 3 s1 buf c1 e1 ltac:(lia) Lb Bb H1 I1 HN HQ).
Qed.

(** ** gen_matrix_entry_x4: the four lanes go on until all of them are complete *)

Definition sample4 (b : Z) (m0 m1 m2 m3 : list Z) (v0 v1 v2 v3 : list Z) : Prop :=
  SampleNTT b m0 = Some v0 /\ SampleNTT b m1 = Some v1 /\
  SampleNTT b m2 = Some v2 /\ SampleNTT b m3 = Some v3.

Lemma wp_gen_matrix_entry_x4 {bo : byte_order} (N : Prop) J fuel e0 e1 e2 e3 sd0 sd1 sd2 sd3 (Q : list (list Z) -> Prop) :
  zlen e0 = 256 -> zlen e1 = 256 -> zlen e2 = 256 -> zlen e3 = 256 ->
  zlen sd0 = 34 -> zlen sd1 = 34 -> zlen sd2 = 34 -> zlen sd3 = 34 ->
  bytes sd0 -> bytes sd1 -> bytes sd2 -> bytes sd3 ->
  (forall s, In s [sd0; sd1; sd2; sd3] -> SampleNTT (3 + Z.of_nat fuel) s = None -> N) ->
  (forall v0 v1 v2 v3, sample4 (3 + Z.of_nat fuel) sd0 sd1 sd2 sd3 v0 v1 v2 v3 -> Q [v0; v1; v2; v3]) ->
  wpn N (gen_matrix_entry_x4 J fuel [e0; e1; e2; e3] [sd0; sd1; sd2; sd3]) Q.
Proof.
  intros Le0 Le1 Le2 Le3 Ls0 Ls1 Ls2 Ls3 B0 B1 B2 B3 HN HQ.
  unfold gen_matrix_entry_x4, MLKEM_SYMBYTES, MLKEM_N.
  change (MLKEM_GEN_MATRIX_NBLOCKS * SHAKE128_RATE) with 504.
  change MLKEM_GEN_MATRIX_NBLOCKS with 3. cbv zeta. change (32 + 2) with 34.
  do 4 (apply wp_bind, (wp_aget []); [rewrite !zlen_cons; change (zlen (@nil (list Z))) with 0; lia|]).
  cbv [zget nth Z.to_nat Pos.to_nat Pos.iter_op Nat.add].
  apply wp_bind, wp_shake128x4_absorb; auto; try lia.
  rewrite !slice_zlen by lia. intros s0 H0.
  apply wp_bind. eapply wp_shake128x4_squeezeblocks; [exact H0|lia|lia|rewrite zlen_uninit; lia..|].
  intros out s1 H1. unfold out. clear out. cbv beta iota.
  assert (Ek : forall k, skipn (Z.to_nat (168 * 3)) (uninit J k 504) = []).
  { intros k. apply skipn_all2. pose proof (zlen_uninit J k 504). unfold zlen in *. lia. }
  rewrite !Ek. clear Ek.
  do 4 (apply wp_bind, (wp_aget []); [rewrite !zlen_cons; change (zlen (@nil (list Z))) with 0; lia|]).
  cbv [zget nth Z.to_nat Pos.to_nat Pos.iter_op Nat.add].
  change (0 + 168 * 3) with (168 * 0 + 168 * 3) in H1 |- *.
  change 504 with (168 * 3).
  change (fun m => slice (SHAKE128 m (168 * 0 + 168 * 3)) 0 (168 * 0 + 168 * 3)) with
    (fun m => slice (SHAKE128 m (168 * 0 + 168 * 3)) (168 * 0) (168 * 0 + 168 * 3)).
  apply wp_bind, (wp_lane N sd0 0 3 e0 0 []); auto; try lia; [now apply lane_start|constructor|].
  intros f0 c0 I0.
  apply wp_bind, (wp_lane N sd1 0 3 e1 0 []); auto; try lia; [now apply lane_start|constructor|].
  intros f1 c1 I1.
  apply wp_bind, (wp_lane N sd2 0 3 e2 0 []); auto; try lia; [now apply lane_start|constructor|].
  intros f2 c2 I2.
  apply wp_bind, (wp_lane N sd3 0 3 e3 0 []); auto; try lia; [now apply lane_start|constructor|].
  intros f3 c3 I3.
  rewrite !app_nil_r. change (0 + 3) with 3 in I0, I1, I2, I3.
  change (168 * 0 + 168 * 3) with (168 * 3) in H1 |- *.
  assert (Hb : forall m, bytes m -> zlen (slice (SHAKE128 m (168 * 3)) 0 (168 * 3)) = 504 /\
                bytes (slice (SHAKE128 m (168 * 3)) 0 (168 * 3))).
  { intros m Bm. split.
    - rewrite zlen_slice; rewrite ?zlen_SHAKE128; auto; lia.
    - apply bytes_slice', bytes_SHAKE128; auto; lia. }
  pose proof (Hb _ B0) as [L0 C0]. pose proof (Hb _ B1) as [L1 C1].
  pose proof (Hb _ B2) as [L2 C2]. pose proof (Hb _ B3) as [L3 C3]. clear Hb.
  set (b0 := slice (SHAKE128 sd0 _) _ _) in *. set (b1 := slice (SHAKE128 sd1 _) _ _) in *.
  set (b2 := slice (SHAKE128 sd2 _) _ _) in *. set (b3 := slice (SHAKE128 sd3 _) _ _) in *.
  clearbody b0 b1 b2 b3. apply wp_bind.
  assert (G : forall fuel b s b0 b1 b2 b3 c0 c1 c2 c3 e0 e1 e2 e3, 3 <= b ->
    zlen b0 = 504 -> zlen b1 = 504 -> zlen b2 = 504 -> zlen b3 = 504 ->
    bytes b0 -> bytes b1 -> bytes b2 -> bytes b3 -> xof4 168 sd0 sd1 sd2 sd3 (168 * b) s ->
    lane_inv sd0 b e0 c0 -> lane_inv sd1 b e1 c1 -> lane_inv sd2 b e2 c2 -> lane_inv sd3 b e3 c3 ->
    (forall s, In s [sd0; sd1; sd2; sd3] -> SampleNTT (b + Z.of_nat fuel) s = None -> N) ->
    (forall v0 v1 v2 v3, sample4 (b + Z.of_nat fuel) sd0 sd1 sd2 sd3 v0 v1 v2 v3 -> Q [v0; v1; v2; v3]) ->
    wpn N (while fuel
    (fun '(_, _, (ctr0, ctr1, ctr2, ctr3), _) =>
      (ctr0 <? 256) || (ctr1 <? 256) || (ctr2 <? 256) || (ctr3 <? 256))
    (fun '(statex, (buf0, buf1, buf2, buf3), (ctr0, ctr1, ctr2, ctr3), (v0, v1, v2, v3)) =>
      '((buf0, buf1, buf2, buf3), statex) <-
         shake128x4_squeezeblocks buf0 buf1 buf2 buf3 1 statex ;;
      '(v0, ctr0) <- rej_uniform v0 256 ctr0 buf0 SHAKE128_RATE ;;
      '(v1, ctr1) <- rej_uniform v1 256 ctr1 buf1 SHAKE128_RATE ;;
      '(v2, ctr2) <- rej_uniform v2 256 ctr2 buf2 SHAKE128_RATE ;;
      '(v3, ctr3) <- rej_uniform v3 256 ctr3 buf3 SHAKE128_RATE ;;
      ret (statex, (buf0, buf1, buf2, buf3), (ctr0, ctr1, ctr2, ctr3), (v0, v1, v2, v3)))
      (s, (b0, b1, b2, b3), (c0, c1, c2, c3), (e0, e1, e2, e3)))
      (fun a => wpn N (let '(_, _, _, (v0, v1, v2, v3)) := a in ret [v0; v1; v2; v3]) Q)).
  { clear - B0 B1 B2 B3. intros fuel0.
    induction fuel0 as [|f IH]; intros b s b0 b1 b2 b3 c0 c1 c2 c3 e0 e1 e2 e3
      Hb L0 L1 L2 L3 C0 C1 C2 C3 Hx I0 I1 I2 I3 HN HQ.
    - apply wp_while_0; intros Hc.
      + rewrite Z.add_0_r in HN. rewrite !orb_true_iff in Hc.
        destruct Hc as [[[Hc|Hc]|Hc]|Hc].
        * apply (HN sd0); [cbn; tauto|]. exact (lane_short _ _ _ _ I0 Hc).
        * apply (HN sd1); [cbn; tauto|]. exact (lane_short _ _ _ _ I1 Hc).
        * apply (HN sd2); [cbn; tauto|]. exact (lane_short _ _ _ _ I2 Hc).
        * apply (HN sd3); [cbn; tauto|]. exact (lane_short _ _ _ _ I3 Hc).
      + rewrite !orb_false_iff in Hc. destruct Hc as [[[H0 H1] H2] H3].
        apply wp_ret, HQ. unfold sample4.
        repeat split; [eapply (lane_done sd0 b e0 c0)|eapply (lane_done sd1 b e1 c1)|eapply (lane_done sd2 b e2 c2)|
          eapply (lane_done sd3 b e3 c3)]; try assumption; lia.
    - apply wp_while_S; intros Hc.
      + apply wp_bind. eapply wp_shake128x4_squeezeblocks; [exact Hx|lia..|].
        intros out s' Hx'. unfold out. clear out. cbv beta iota.
        assert (Hr : forall buf, zlen buf = 504 -> bytes buf -> bytes (skipn (Z.to_nat (168 * 1)) buf) /\
                       zlen (skipn (Z.to_nat (168 * 1)) buf) = 336).
        { intros buf Lb Bb. split; [now apply Forall_skipn|]. rewrite zlen_skipn; lia. }
        pose proof (Hr _ L0 C0) as [K0 M0]. pose proof (Hr _ L1 C1) as [K1 M1].
        pose proof (Hr _ L2 C2) as [K2 M2]. pose proof (Hr _ L3 C3) as [K3 M3]. clear Hr.
        set (r0 := skipn _ b0) in *. set (r1 := skipn _ b1) in *.
        set (r2 := skipn _ b2) in *. set (r3 := skipn _ b3) in *. clearbody r0 r1 r2 r3.
        change SHAKE128_RATE with (168 * 1).
        apply wp_bind, (wp_lane N sd0 b 1 e0 c0 r0); auto; try lia. intros f0 d0 I0'.
        apply wp_bind, (wp_lane N sd1 b 1 e1 c1 r1); auto; try lia. intros f1 d1 I1'.
        apply wp_bind, (wp_lane N sd2 b 1 e2 c2 r2); auto; try lia. intros f2 d2 I2'.
        apply wp_bind, (wp_lane N sd3 b 1 e3 c3 r3); auto; try lia. intros f3 d3 I3'.
        apply wp_ret.
        assert (Hl : forall m r, bytes m -> zlen r = 336 ->
          zlen (slice (SHAKE128 m (168 * b + 168 * 1)) (168 * b) (168 * b + 168 * 1) ++ r) = 504).
        { intros m r Bm Lr. rewrite zlen_app, zlen_slice, Lr; [lia|lia|rewrite zlen_SHAKE128; auto; lia]. }
        assert (Hbb : forall m r, bytes m -> bytes r ->
          bytes (slice (SHAKE128 m (168 * b + 168 * 1)) (168 * b) (168 * b + 168 * 1) ++ r)).
        { intros m r Bm Lr. apply Forall_app; split; auto. apply bytes_slice', bytes_SHAKE128; auto; lia. }
        apply (IH (b + 1)); auto; try lia.
        * now replace (168 * (b + 1)) with (168 * b + 168 * 1) by lia.
        * now replace (b + 1 + Z.of_nat f) with (b + Z.of_nat (Datatypes.S f)) by lia.
        * now replace (b + 1 + Z.of_nat f) with (b + Z.of_nat (Datatypes.S f)) by lia.
      + rewrite !orb_false_iff in Hc. destruct Hc as [[[H0 H1] H2] H3].
        apply wp_ret, HQ. unfold sample4.
        repeat split; [eapply (lane_done sd0 b e0 c0)|eapply (lane_done sd1 b e1 c1)|eapply (lane_done sd2 b e2 c2)|
          eapply (lane_done sd3 b e3 c3)]; try assumption; lia. }
  apply (G fuel 3 s1); auto; lia.
Qed.

(** ** gen_matrix *)

(** the extended seed of entry number [idx] of the matrix stored by rows *)
Definition mseed (rho : list Z) (tr : bool) (K idx : Z) : list Z :=
  rho ++ (if tr then [idx / K; idx mod K] else [idx mod K; idx / K]).

Lemma MLKEM_K_range p : 2 <= MLKEM_K p <= 4.
Proof. destruct p; cbv; split; discriminate. Qed.
Lemma MLKEM_K_k p : MLKEM_K p = k (set_of p).
Proof. destruct p; reflexivity. Qed.

Lemma idx_bounds K idx : 2 <= K <= 4 -> 0 <= idx < K * K -> 0 <= idx / K < K /\ 0 <= idx mod K < K.
Proof.
  intros HK Hi. split; [|apply Z.mod_pos_bound; lia]. split; [apply Z.div_pos; lia|].
  apply Z.div_lt_upper_bound; lia.
Qed.
Lemma mseed_ok rho tr K idx : zlen rho = 32 -> bytes rho -> 2 <= K <= 4 -> 0 <= idx < K * K ->
  zlen (mseed rho tr K idx) = 34 /\ bytes (mseed rho tr K idx).
Proof.
  intros L B HK Hi. pose proof (idx_bounds K idx HK Hi) as [H1 H2]. unfold mseed. split.
  - rewrite zlen_app, L. destruct tr; reflexivity.
  - apply Forall_app; split; auto. destruct tr; repeat constructor; unfold is_byte; lia.
Qed.

Lemma set2 (s : list Z) (rho : list Z) x y : zlen s = 34 -> zlen rho = 32 -> firstn 32 s = rho ->
  zset (zset s 32 x) 33 y = rho ++ [x; y].
Proof.
  intros Ls Lr E. apply (zlist_ext 0).
  - rewrite !zlen_set, zlen_app; rewrite ?zlen_set; try lia. change (zlen [x; y]) with 2. lia.
  - intros i. rewrite !zlen_set by (rewrite ?zlen_set; lia). intros Hi.
    rewrite !zget_set by (rewrite ?zlen_set; lia). rewrite zget_app by lia.
    destruct (Z.eqb_spec i 33) as [->|]. { rewrite Lr. reflexivity. }
    destruct (Z.eqb_spec i 32) as [->|]. { rewrite Lr. reflexivity. }
    destruct (Z.ltb_spec i (zlen rho)); [|lia].
    rewrite <- E. change 32%nat with (Z.to_nat 32). now rewrite zget_firstn by lia.
Qed.
Lemma wp_set_xy N s rho tr K idx (Q : list Z -> Prop) :
  zlen s = 34 -> zlen rho = 32 -> firstn 32 s = rho -> 2 <= K <= 4 -> 0 <= idx < K * K ->
  Q (mseed rho tr K idx) ->
  wpn N (set_xy s (u8 (idx / K)) (u8 (idx mod K)) tr) Q.
Proof.
  intros Ls Lr E HK Hi HQ. pose proof (idx_bounds K idx HK Hi) as [H1 H2].
  unfold set_xy, MLKEM_SYMBYTES, u8. rewrite !Z.mod_small by lia.
  change (32 + 0) with 32. change (32 + 1) with 33.
  apply wp_branch; intros ->; apply wp_bind, wp_aset; try lia;
    (apply wp_aset; [rewrite zlen_set; lia|]); rewrite (set2 s rho) by auto; exact HQ.
Qed.

Definition seeds_ok (rho : list Z) (s : list (list Z)) : Prop :=
  zlen s = 4 /\ forall j, 0 <= j < 4 -> zlen (zget [] s j) = 34 /\ firstn 32 (zget [] s j) = rho.

Lemma firstn_mseed rho tr K idx : zlen rho = 32 -> firstn 32 (mseed rho tr K idx) = rho.
Proof.
  intros L. unfold mseed. unfold zlen in L. rewrite firstn_app_full by lia. apply firstn_all2. lia.
Qed.

Lemma four {A} (d : A) l : zlen l = 4 -> l = [zget d l 0; zget d l 1; zget d l 2; zget d l 3].
Proof.
  intros H. destruct l as [|a [|b [|c [|e [|f l]]]]]; try discriminate H; [reflexivity|].
  exfalso. unfold zlen in H. cbn [length] in H. lia.
Qed.
Lemma zlen_uninit2 J k m n : 0 <= m -> zlen (uninit2 J k m n) = m.
Proof. intros. unfold uninit2. rewrite zlen_map. unfold zlen. rewrite seq_length. lia. Qed.
Lemma zget_uninit2 J k m n i : 0 <= i < m -> 0 <= n -> zlen (zget [] (uninit2 J k m n) i) = n.
Proof.
  intros. unfold uninit2, zget. rewrite nth_indep with (d' := uninit (sub J k) (Z.of_nat 0) n).
  2: { rewrite map_length, seq_length. lia. }
  rewrite map_nth with (f := fun i => uninit (sub J k) (Z.of_nat i) n). apply zlen_uninit; lia.
Qed.
Lemma zget_splice {A} (d : A) l o new i : 0 <= o -> o + zlen new <= zlen l -> 0 <= i < zlen l ->
  zget d (splice l o new) i =
  if (o <=? i) && (i <? o + zlen new) then zget d new (i - o) else zget d l i.
Proof.
  intros Ho Hn Hi. pose proof (zlen_nonneg new). unfold splice.
  rewrite zget_app by lia.
  assert (E : zlen (firstn (Z.to_nat o) l) = o) by (rewrite zlen_firstn; lia).
  rewrite E. destruct (Z.ltb_spec i o).
  - destruct (Z.leb_spec o i); [lia|]. cbn [andb]. now rewrite zget_firstn by lia.
  - destruct (Z.leb_spec o i); [|lia]. cbn [andb]. rewrite zget_app by lia.
    destruct (Z.ltb_spec (i - o) (zlen new)), (Z.ltb_spec i (o + zlen new)); try lia; auto.
    replace (Z.to_nat o + length new)%nat with (Z.to_nat (o + zlen new)) by (unfold zlen; lia).
    rewrite zget_skipn by lia. f_equal. lia.
Qed.

Lemma wp_gen_matrix {bo : byte_order} (N : Prop) J fuel p a seed tr (Q : list (list Z) -> Prop) :
  let K := MLKEM_K p in
  zlen a = K * K -> (forall i, 0 <= i < K * K -> zlen (zget [] a i) = 256) ->
  zlen seed = 32 -> bytes seed ->
  (forall i, 0 <= i < K * K -> SampleNTT (3 + Z.of_nat fuel) (mseed seed tr K i) = None -> N) ->
  (forall a', zlen a' = K * K ->
     (forall i, 0 <= i < K * K -> SampleNTT (3 + Z.of_nat fuel) (mseed seed tr K i) = Some (zget [] a' i)) ->
     Q a') ->
  wpn N (gen_matrix J fuel p a seed tr) Q.
Proof.
  intros K La Ea Ls Bs HN HQ. unfold gen_matrix. fold K.
  pose proof (MLKEM_K_range p) as HK. fold K in HK. unfold MLKEM_SYMBYTES. change (32 + 2) with 34. cbv zeta.
  set (b := 3 + Z.of_nat fuel) in *. assert (Hb : 3 <= b) by lia.
  apply wp_bind.
  apply (wp_for N (fun j s => zlen s = 4 /\ (forall i, 0 <= i < 4 -> zlen (zget [] s i) = 34) /\
     forall i, 0 <= i < j -> firstn 32 (zget [] s i) = seed)); [lia| | |].
  { split; [now rewrite zlen_uninit2|]. split; intros; [|lia]. apply zget_uninit2; lia. }
  { intros j s Hj (L4 & L34 & E). apply wp_bind, (wp_aget []); [lia|].
    apply wp_bind, wp_memcpy; rewrite ?L34; try lia. change (0 + 32) with 32.
    rewrite slice_zlen by auto. apply wp_aset; [lia|].
    split; [rewrite zlen_set; lia|]. split.
    - intros i Hi. rewrite zget_set by lia. destruct (Z.eqb_spec i j); auto.
      rewrite zlen_splice; rewrite ?L34; lia.
    - intros i Hi. rewrite zget_set by lia. destruct (Z.eqb_spec i j); [|apply E; lia].
      unfold splice. rewrite firstn_O. unfold zlen in Ls. cbn [app]. rewrite firstn_app_full by lia.
      apply firstn_all2. lia. }
  intros s0 (L4 & L34 & E32).
  assert (S0 : seeds_ok seed s0) by (split; auto). clear L4 L34 E32.
  set (cnt := K * K / 4).
  assert (Hcnt : 0 <= cnt /\ cnt * 4 <= K * K < cnt * 4 + 4).
  { unfold cnt. pose proof (Z.div_mod (K * K) 4). pose proof (Z.mod_pos_bound (K * K) 4). 
    assert (0 <= K * K / 4) by (apply Z.div_pos; lia). lia. }
  clearbody cnt.
  apply wp_bind.
  apply (wp_for_step N (fun kk '(a, s) => zlen a = K * K /\
     (forall i, 0 <= i < K * K -> zlen (zget [] a i) = 256) /\
     (forall i, 0 <= i < 4 * kk -> SampleNTT b (mseed seed tr K i) = Some (zget [] a i)) /\
     seeds_ok seed s) 0 (cnt * 4) 4 cnt).
  { replace (cnt * 4 - 0 + 4 - 1) with (3 + cnt * 4) by lia. rewrite Z.div_add by lia. reflexivity. }
  { lia. }
  { split; [auto|]. split; [auto|]. split; [lia|auto]. }
  - intros kk [a1 s1] Hk (La1 & Ea1 & Sa1 & So1). replace (0 + kk * 4) with (4 * kk) by lia.
    apply wp_bind.
    apply (wp_for N (fun j s => seeds_ok seed s /\
       forall j', 0 <= j' < j -> zget [] s j' = mseed seed tr K (4 * kk + j'))); [lia| | |].
    { split; auto. lia. }
    { intros j s Hj (So & E). destruct So as [L4 H4].
      apply wp_bind, wp_div. apply wp_bind, wp_modc. cbv zeta.
      apply wp_bind, (wp_aget []); [lia|]. destruct (H4 j Hj) as [L34 E32].
      assert (Hidx : 0 <= 4 * kk + j < K * K) by lia.
      apply wp_bind, (wp_set_xy N _ seed); auto.
      apply wp_aset; [lia|]. split.
      - split; [rewrite zlen_set; lia|]. intros j' Hj'. rewrite zget_set by lia.
        destruct (Z.eqb_spec j' j); [|now apply H4].
        split; [now apply mseed_ok|now apply firstn_mseed].
      - intros j' Hj'. rewrite zget_set by lia. destruct (Z.eqb_spec j' j) as [->|]; auto.
        apply E. lia. }
    intros s2 (So2 & E2). apply wp_bind, wp_aslice; try lia.
    destruct So2 as [L4 H4].
    rewrite (four [] s2 L4). rewrite !E2 by lia.
    rewrite (four [] (slice a1 (4 * kk) (4 * kk + 4))) by (rewrite zlen_slice; lia).
    rewrite !zget_slice by lia.
    assert (Hm : forall j, 0 <= j < 4 -> zlen (mseed seed tr K (4 * kk + j)) = 34 /\ bytes (mseed seed tr K (4 * kk + j))).
    { intros j Hj. apply mseed_ok; auto. lia. }
    apply wp_bind, wp_gen_matrix_entry_x4; try (apply Ea1; lia); try (apply Hm; lia).
    { intros s Hs HNone. cbn [In] in Hs. destruct Hs as [<-|[<-|[<-|[<-|[]]]]].
      - apply (HN (4 * kk + 0)); [lia|exact HNone].
      - apply (HN (4 * kk + 1)); [lia|exact HNone].
      - apply (HN (4 * kk + 2)); [lia|exact HNone].
      - apply (HN (4 * kk + 3)); [lia|exact HNone]. }
    fold b. intros v0 v1 v2 v3 (H0 & H1 & H2 & H3).
    apply wp_bind, wp_asplice; [lia|change (zlen [v0; v1; v2; v3]) with 4; lia|]. apply wp_ret.
    assert (Hv : forall j, 0 <= j < 4 -> SampleNTT b (mseed seed tr K (4 * kk + j)) = Some (zget [] [v0; v1; v2; v3] j)).
    { intros j Hj. assert (j = 0 \/ j = 1 \/ j = 2 \/ j = 3) as [->|[->|[->| ->]]] by lia; assumption. }
    clear H0 H1 H2 H3. set (vv := [v0; v1; v2; v3]) in *.
    assert (Lv : zlen vv = 4) by reflexivity. clearbody vv.
    split; [rewrite zlen_splice; lia|]. split; [|split].
    + intros i Hi. rewrite zget_splice by lia. rewrite Lv.
      destruct (Z.leb_spec (4 * kk) i); cbn [andb]; [|now apply Ea1].
      destruct (Z.ltb_spec i (4 * kk + 4)); [|now apply Ea1].
      assert (Hi' : 0 <= i - 4 * kk < 4) by lia. specialize (Hv _ Hi').
      replace (4 * kk + (i - 4 * kk)) with i in Hv by lia.
      apply SampleNTT_ok in Hv; [tauto| |lia]. now apply mseed_ok.
    + intros i Hi. rewrite zget_splice by lia. rewrite Lv.
      destruct (Z.leb_spec (4 * kk) i); cbn [andb]; [|apply Sa1; lia].
      destruct (Z.ltb_spec i (4 * kk + 4)); [|lia].
      assert (Hi' : 0 <= i - 4 * kk < 4) by lia. specialize (Hv _ Hi').
      replace (4 * kk + (i - 4 * kk)) with i in Hv by lia. exact Hv.
    + split; [reflexivity|]. intros j Hj.
      assert (j = 0 \/ j = 1 \/ j = 2 \/ j = 3) as [->|[->|[->| ->]]] by lia;
        (split; [apply Hm; lia|now apply firstn_mseed]).
  - intros [a1 s1] (La1 & Ea1 & Sa1 & So1). apply wp_branch; intros Hbr.
    + assert (E9 : K * K = cnt * 4 + 1).
      { destruct p; unfold K in *; cbn in *; lia. }
      cbv zeta. apply wp_bind, wp_div. apply wp_bind, wp_modc.
      destruct So1 as [L4 H4]. destruct (H4 0 ltac:(lia)) as [L34 E32].
      apply wp_bind, (wp_aget []); [lia|].
      apply wp_bind, (wp_set_xy N _ seed); auto; [lia|].
      apply wp_bind, (wp_aget []); [lia|].
      assert (Hidx : 0 <= cnt * 4 < K * K) by lia.
      apply wp_bind, wp_gen_matrix_entry; [now apply Ea1|now apply mseed_ok|now apply mseed_ok|now apply HN|].
      fold b. intros v Hv. apply wp_aset; [lia|]. apply HQ; [rewrite zlen_set; lia|].
      intros i Hi. rewrite zget_set by lia. destruct (Z.eqb_spec i (cnt * 4)) as [->|]; [exact Hv|].
      apply Sa1. lia.
    + apply wp_ret, HQ; auto. intros i Hi. apply Sa1. lia.
Qed.

(** ** The matrix of FIPS 203 *)

Lemma all_some_map {A} (l : list A) : all_some (map Some l) = Some l.
Proof. induction l as [|x l IH]; [reflexivity|]. cbn [map all_some]. now rewrite IH. Qed.
Lemma all_some_Some {A} (l : list (option A)) r : all_some l = Some r -> l = map Some r.
Proof.
  revert r. induction l as [|[x|] l IH]; intros r H; cbn [all_some] in H.
  - injection H as <-. reflexivity.
  - destruct (all_some l) as [t|]; [|discriminate]. injection H as <-. cbn [map]. f_equal. now apply IH.
  - discriminate.
Qed.
Lemma all_some_None {A} (l : list (option A)) : In None l -> all_some l = None.
Proof.
  induction l as [|[x|] l IH]; intros H; cbn [all_some].
  - destruct H.
  - destruct H as [H|H]; [discriminate|]. now rewrite IH.
  - reflexivity.
Qed.
Lemma all_some_map_eq {A B} (f : A -> option B) (g : A -> B) l :
  (forall x, In x l -> f x = Some (g x)) -> all_some (map f l) = Some (map g l).
Proof.
  intros H. rewrite <- all_some_map, map_map. f_equal. now apply map_ext_in.
Qed.
Lemma In_range i n : 0 <= i < n -> In i (range n).
Proof. apply in_range. Qed.
Lemma range_In i n : In i (range n) -> 0 <= i < n.
Proof. apply in_range. Qed.

Lemma idx_div K i j : 0 <= j < K -> (K * i + j) / K = i.
Proof. intros. symmetry. apply (Z.div_unique _ K i j); lia. Qed.
Lemma idx_mod K i j : 0 <= j < K -> (K * i + j) mod K = j.
Proof. intros. symmetry. apply (Z.mod_unique _ K i j); lia. Qed.
Lemma idx_lt K i j : 0 <= i < K -> 0 <= j < K -> 0 <= K * i + j < K * K.
Proof. intros. nia. Qed.

(** entry (i, j) sampled *)
Lemma ExpandA_None P b rho i j : 0 <= i < k P -> 0 <= j < k P ->
  SampleNTT b (rho ++ [j; i]) = None -> ExpandA P b rho = None.
Proof.
  intros Hi Hj H. unfold ExpandA. apply all_some_None. apply in_map_iff. exists i.
  split; [|now apply In_range]. apply all_some_None. apply in_map_iff. exists j.
  split; [exact H|now apply In_range].
Qed.
Lemma ExpandA_Some P b rho (F : Z -> Z -> list Z) :
  (forall i j, 0 <= i < k P -> 0 <= j < k P -> SampleNTT b (rho ++ [j; i]) = Some (F i j)) ->
  ExpandA P b rho = Some (map (fun i => map (fun j => F i j) (range (k P))) (range (k P))).
Proof.
  intros H. unfold ExpandA. apply all_some_map_eq. intros i Hi. apply range_In in Hi.
  apply all_some_map_eq. intros j Hj. apply range_In in Hj. auto.
Qed.

(** a matrix stored by rows *)
Definition by_rows {A} (K : Z) (F : Z -> Z -> A) : list (list A) :=
  map (fun i => map (fun j => F i j) (range K)) (range K).
Lemma concat_const {A} (K : Z) (l : list (list A)) : 0 <= K -> Forall (fun r => zlen r = K) l ->
  zlen (concat l) = K * zlen l.
Proof.
  intros HK. induction 1 as [|r l Hr _ IH]; [cbn; change (zlen (@nil A)) with 0; change (zlen (@nil (list A))) with 0; lia|].
  cbn [concat]. rewrite zlen_app, zlen_cons, IH, Hr. lia.
Qed.
Lemma zget_concat_const {A} (d : A) (K : Z) (l : list (list A)) : 0 < K -> Forall (fun r => zlen r = K) l ->
  forall i j, 0 <= i < zlen l -> 0 <= j < K -> zget d (concat l) (K * i + j) = zget d (zget [] l i) j.
Proof.
  intros HK. induction 1 as [|r l Hr Hl IH]; intros i j Hi Hj.
  - change (zlen (@nil (list A))) with 0 in Hi. lia.
  - cbn [concat]. rewrite zlen_cons in Hi. rewrite zget_cons by lia. rewrite zget_app by nia. rewrite Hr.
    destruct (Z.eqb_spec i 0) as [->|Hne].
    + rewrite Z.mul_0_r, Z.add_0_l. destruct (Z.ltb_spec j K); [|lia]. reflexivity.
    + destruct (Z.ltb_spec (K * i + j) K); [nia|].
      replace (K * i + j - K) with (K * (i - 1) + j) by lia. apply IH; lia.
Qed.
Lemma concat_by_rows {A} (d : A) K F (a : list A) : 0 < K -> zlen a = K * K ->
  (forall i j, 0 <= i < K -> 0 <= j < K -> zget d a (K * i + j) = F i j) -> a = concat (by_rows K F).
Proof.
  intros HK La H.
  assert (HF : Forall (fun r => zlen r = K) (by_rows K F)).
  { apply Forall_forall. intros r Hr. apply in_map_iff in Hr as (i & <- & _). rewrite zlen_map, zlen_range; lia. }
  assert (Lr : zlen (by_rows K F) = K) by (unfold by_rows; rewrite zlen_map, zlen_range; lia).
  apply (zlist_ext d).
  - rewrite (concat_const K) by (auto; lia). lia.
  - rewrite La. intros x Hx. pose proof (Z.div_mod x K ltac:(lia)) as E.
    pose proof (Z.mod_pos_bound x K HK). assert (0 <= x / K < K).
    { split; [apply Z.div_pos; lia|apply Z.div_lt_upper_bound; lia]. }
    rewrite E. rewrite (zget_concat_const d K) by (auto; lia). rewrite H by lia.
    unfold by_rows. rewrite zget_map_range by lia. rewrite zget_map_range by lia. reflexivity.
Qed.
Lemma transpose_by_rows K (F : Z -> Z -> list Z) : 0 <= K ->
  transpose (by_rows K F) = by_rows K (fun i j => F j i).
Proof.
  intros HK. unfold transpose.
  assert (E : Z.of_nat (@length vec (by_rows K F)) = K) by (unfold by_rows; rewrite map_length; apply zlen_range; lia).
  rewrite E. unfold by_rows. apply map_range_ext. intros j Hj. rewrite map_map. apply map_range_ext. intros i Hi.
  change (zget [] (map (fun j => F i j) (range K)) j = F i j). now rewrite zget_map_range by lia.
Qed.

Definition stored (tr : bool) (A : list vec) : list (list Z) := concat (if tr then transpose A else A).

Lemma gen_matrix_ExpandA p b seed tr a :
  let K := MLKEM_K p in zlen a = K * K ->
  (forall i, 0 <= i < K * K -> SampleNTT b (mseed seed tr K i) = Some (zget [] a i)) ->
  exists A, ExpandA (set_of p) b seed = Some A /\ a = stored tr A.
Proof.
  intros K La Ha. pose proof (MLKEM_K_range p) as HK. fold K in HK.
  assert (Ek : k (set_of p) = K) by (unfold K; now rewrite MLKEM_K_k).
  set (F i j := if tr then zget [] a (K * j + i) else zget [] a (K * i + j)).
  exists (by_rows K F). split.
  - unfold by_rows. rewrite <- Ek. apply ExpandA_Some. rewrite Ek. intros i j Hi Hj. unfold F.
    assert (Hs : mseed seed tr K (if tr then K * j + i else K * i + j) = seed ++ [j; i]).
    { unfold mseed. destruct tr; rewrite idx_div, idx_mod by lia; reflexivity. }
    destruct tr; rewrite <- Hs; apply Ha, idx_lt; lia.
  - unfold stored. destruct tr.
    + rewrite transpose_by_rows by lia. apply (concat_by_rows []); [lia|exact La|]. reflexivity.
    + apply (concat_by_rows []); [lia|exact La|]. reflexivity.
Qed.
Lemma mseed_None p b seed tr i : let K := MLKEM_K p in 0 <= i < K * K ->
  SampleNTT b (mseed seed tr K i) = None -> ExpandA (set_of p) b seed = None.
Proof.
  intros K Hi. pose proof (MLKEM_K_range p) as HK. fold K in HK.
  assert (Ek : k (set_of p) = K) by (unfold K; now rewrite MLKEM_K_k).
  pose proof (idx_bounds K i HK Hi) as [H1 H2].
  unfold mseed. destruct tr; intros E.
  - apply (ExpandA_None _ _ _ (i mod K) (i / K)); rewrite ?Ek; auto.
  - apply (ExpandA_None _ _ _ (i / K) (i mod K)); rewrite ?Ek; auto.
Qed.

(** The form used by the callers *)
Lemma wp_matrix {bo : byte_order} (N : Prop) J fuel p a seed tr (Q : list (list Z) -> Prop) :
  let K := MLKEM_K p in
  zlen a = K * K -> (forall i, 0 <= i < K * K -> zlen (zget [] a i) = 256) ->
  zlen seed = 32 -> bytes seed ->
  (ExpandA (set_of p) (3 + Z.of_nat fuel) seed = None -> N) ->
  (forall A, ExpandA (set_of p) (3 + Z.of_nat fuel) seed = Some A -> Q (stored tr A)) ->
  wpn N (gen_matrix J fuel p a seed tr) Q.
Proof.
  intros K La Ea Ls Bs HN HQ. apply wp_gen_matrix; auto.
  - intros i Hi H. apply HN. exact (mseed_None p _ seed tr i Hi H).
  - intros a' La' Ha'. destruct (gen_matrix_ExpandA p _ seed tr a' La' Ha') as (A & EA & ->). auto.
Qed.

Lemma ExpandA_entry P b rho A : ExpandA P b rho = Some A -> 0 <= k P ->
  zlen A = k P /\ forall i, 0 <= i < k P -> zlen (zget [] A i) = k P /\
  forall j, 0 <= j < k P -> SampleNTT b (rho ++ [j; i]) = Some (zget [] (zget [] A i) j).
Proof.
  intros H Hk. unfold ExpandA, vec in *. apply all_some_Some in H.
  assert (LA : zlen A = k P).
  { apply (f_equal zlen) in H. rewrite !zlen_map, zlen_range in H; lia. }
  split; auto. intros i Hi.
  assert (Hr : all_some (map (fun j => SampleNTT b (rho ++ [j; i])) (range (k P))) = Some (zget [] A i)).
  { apply (f_equal (fun l => zget None l i)) in H. rewrite zget_map_range in H by lia.
    rewrite H. apply (zget_map Some [] None). lia. }
  apply all_some_Some in Hr. split.
  { apply (f_equal zlen) in Hr. rewrite !zlen_map, zlen_range in Hr; lia. }
  intros j Hj. assert (Lj : zlen (zget [] A i) = k P).
  { apply (f_equal zlen) in Hr. rewrite !zlen_map, zlen_range in Hr; lia. }
  apply (f_equal (fun l => zget None l j)) in Hr. rewrite zget_map_range in Hr by lia.
  rewrite Hr. apply (zget_map Some [] None). lia.
Qed.
Lemma ExpandA_mono P b c rho A : bytes rho -> 0 <= k P <= 256 -> 0 <= b <= c ->
  ExpandA P b rho = Some A -> ExpandA P c rho = Some A.
Proof.
  intros Br Hk Hc H. pose proof (ExpandA_entry _ _ _ _ H ltac:(lia)) as [LA HA].
  unfold vec in *. rewrite (ExpandA_Some P c rho (fun i j => zget [] (zget [] A i) j)).
  - unfold vec. f_equal. apply (zlist_ext []). { rewrite zlen_map, zlen_range; lia. }
    rewrite zlen_map, zlen_range by lia. intros i Hi. rewrite zget_map_range by lia.
    destruct (HA i Hi) as [Li _]. apply (zlist_ext []). { rewrite zlen_map, zlen_range; lia. }
    rewrite zlen_map, zlen_range by lia. intros j Hj. now rewrite zget_map_range by lia.
  - intros i j Hi Hj. apply (SampleNTT_mono b); auto.
    + apply Forall_app; split; auto. repeat constructor; unfold is_byte; lia.
    + now apply HA.
Qed.

(** ** Exact outcomes *)

Lemma wpn_exact {A} (m : M A) (o : option A) :
  wpn (o = None) m (fun a => o = Some a) ->
  val m = match o with Some a => Ok a | None => NoFuel end.
Proof.
  unfold wpn. destruct (val m) as [a| |]; [intros ->; reflexivity|intros []|intros ->; reflexivity].
Qed.

Lemma gen_matrix_entry_correct {bo : byte_order} J fuel entry seed :
  zlen entry = 256 -> zlen seed = 34 -> bytes seed ->
  val (gen_matrix_entry J fuel entry seed) =
  match SampleNTT (3 + Z.of_nat fuel) seed with Some a => Ok a | None => NoFuel end.
Proof. intros. apply wpn_exact. apply wp_gen_matrix_entry; auto. Qed.

Lemma gen_matrix_entry_first {bo : byte_order} J fuel entry seed a :
  zlen entry = 256 -> zlen seed = 34 -> bytes seed ->
  val (gen_matrix_entry J fuel entry seed) = Ok a <->
  256 <= zlen (accepted (SHAKE128 seed (168 * (3 + Z.of_nat fuel)))) /\
  a = firstn 256 (accepted (SHAKE128 seed (168 * (3 + Z.of_nat fuel)))).
Proof.
  intros. rewrite gen_matrix_entry_correct by auto. rewrite SampleNTT_vals. unfold vals.
  set (x := accepted _). unfold zlen. rewrite firstn_length.
  destruct (Z.eqb_spec (Z.of_nat (Nat.min 256 (length x))) 256); split.
  - intros [= <-]. split; [lia|reflexivity].
  - intros [_ ->]. reflexivity.
  - discriminate.
  - intros [Hx _]. lia.
Qed.

Lemma gen_matrix_entry_returns {bo : byte_order} J seed :
  zlen seed = 34 -> bytes seed ->
  (exists b, 0 <= b /\ 256 <= zlen (accepted (SHAKE128 seed (168 * b)))) <->
  (exists fuel, forall entry, zlen entry = 256 ->
     exists a, val (gen_matrix_entry J fuel entry seed) = Ok a).
Proof.
  intros Ls Bs. split.
  - intros (b & Hb & Hx).
    assert (H : SampleNTT b seed = Some (vals seed b)).
    { rewrite SampleNTT_vals. replace (zlen (vals seed b)) with 256; [reflexivity|].
      unfold vals, zlen in *. rewrite firstn_length. lia. }
    exists (Z.to_nat b). intros entry Le. eexists. rewrite gen_matrix_entry_correct by auto.
    rewrite (SampleNTT_mono b (3 + Z.of_nat (Z.to_nat b)) seed _ Bs ltac:(lia) H). reflexivity.
  - intros (fuel & H). destruct (H (repeat 0 256)) as (a & Ha); [reflexivity|].
    apply gen_matrix_entry_first in Ha; auto. exists (3 + Z.of_nat fuel). split; [lia|tauto].
Qed.

Lemma gen_matrix_entry_x4_correct {bo : byte_order} J fuel vec seeds :
  zlen vec = 4 -> Forall (fun e => zlen e = 256) vec ->
  zlen seeds = 4 -> Forall (fun s => zlen s = 34 /\ bytes s) seeds ->
  val (gen_matrix_entry_x4 J fuel vec seeds) =
  match all_some (map (SampleNTT (3 + Z.of_nat fuel)) seeds) with Some v => Ok v | None => NoFuel end.
Proof.
  intros Lv Fv Lss Fs. apply wpn_exact.
  rewrite (four [] vec Lv) in *. rewrite (four [] seeds Lss) in *.
  repeat match goal with H : Forall _ (_ :: _) |- _ => apply Forall_cons_iff in H as [? H] end.
  repeat match goal with H : _ /\ _ |- _ => destruct H end.
  apply wp_gen_matrix_entry_x4; try assumption.
  - intros s Hs HNone. apply all_some_None. apply in_map_iff. eauto.
  - intros v0 v1 v2 v3 (E0 & E1 & E2 & E3). cbn [map]. rewrite E0, E1, E2, E3. reflexivity.
Qed.

Lemma gen_matrix_correct {bo : byte_order} J fuel p a rho tr :
  let K := k (set_of p) in
  zlen a = K * K -> Forall (fun e => zlen e = 256) a -> zlen rho = 32 -> bytes rho ->
  val (gen_matrix J fuel p a rho tr) =
  match ExpandA (set_of p) (3 + Z.of_nat fuel) rho with
  | Some A => Ok (concat (if tr then transpose A else A))
  | None => NoFuel
  end.
Proof.
  intros K La Fa Lr Br. unfold K in *. rewrite <- MLKEM_K_k in La.
  transitivity (match option_map (stored tr) (ExpandA (set_of p) (3 + Z.of_nat fuel) rho) with
                | Some A => Ok A | None => NoFuel end).
  2: { destruct (ExpandA _ _ _); reflexivity. }
  apply wpn_exact. apply wp_matrix; auto.
  - intros i Hi. rewrite Forall_forall in Fa. apply Fa. unfold zget. apply nth_In. unfold zlen in La. lia.
  - intros ->. reflexivity.
  - intros A ->. reflexivity.
Qed.

Lemma gen_matrix_entries {bo : byte_order} J fuel p a rho tr r :
  let K := k (set_of p) in
  zlen a = K * K -> Forall (fun e => zlen e = 256) a -> zlen rho = 32 -> bytes rho ->
  val (gen_matrix J fuel p a rho tr) = Ok r ->
  zlen r = K * K /\
  forall i j, 0 <= i < K -> 0 <= j < K ->
    SampleNTT (3 + Z.of_nat fuel) (rho ++ (if tr then [i; j] else [j; i])) =
    Some (nth (Z.to_nat (K * i + j)) r []).
Proof.
  intros K La Fa Lr Br H. unfold K in *. rewrite <- MLKEM_K_k in *.
  pose proof (MLKEM_K_range p) as HK. set (K' := MLKEM_K p) in *.
  enough (G : wpn True (gen_matrix J fuel p a rho tr) (fun r => zlen r = K' * K' /\
    forall i j, 0 <= i < K' -> 0 <= j < K' ->
    SampleNTT (3 + Z.of_nat fuel) (rho ++ (if tr then [i; j] else [j; i])) =
    Some (nth (Z.to_nat (K' * i + j)) r []))).
  { unfold wpn in G. now rewrite H in G. }
  apply wp_gen_matrix; auto.
  - intros i Hi. rewrite Forall_forall in Fa. apply Fa. unfold zget. apply nth_In. unfold zlen in La. lia.
  - intros a' La' Ha'. split; [exact La'|]. intros i j Hi Hj.
    specialize (Ha' (K' * i + j) (idx_lt _ _ _ Hi Hj)). fold K' in Ha'. unfold mseed in Ha'.
    rewrite idx_div, idx_mod in Ha' by auto. destruct tr; exact Ha'.
Qed.

Lemma gen_matrix_transposed {bo : byte_order} J J' fuel fuel' p a a' rho r r' :
  let K := k (set_of p) in
  zlen a = K * K -> Forall (fun e => zlen e = 256) a ->
  zlen a' = K * K -> Forall (fun e => zlen e = 256) a' -> zlen rho = 32 -> bytes rho ->
  val (gen_matrix J fuel p a rho false) = Ok r ->
  val (gen_matrix J' fuel' p a' rho true) = Ok r' ->
  forall i j, 0 <= i < K -> 0 <= j < K ->
    nth (Z.to_nat (K * i + j)) r [] = nth (Z.to_nat (K * j + i)) r' [].
Proof.
  intros K La Fa La' Fa' Lr Br H H' i j Hi Hj.
  apply gen_matrix_entries in H as [_ H]; auto. apply gen_matrix_entries in H' as [_ H']; auto.
  fold K in H, H'. specialize (H i j Hi Hj). specialize (H' j i Hj Hi). cbv beta iota in H, H'.
  assert (Bm : bytes (rho ++ [j; i])).
  { apply Forall_app; split; auto. unfold K in *. rewrite <- MLKEM_K_k in *. pose proof (MLKEM_K_range p).
    repeat constructor; unfold is_byte; lia. }
  set (c := Z.max (3 + Z.of_nat fuel) (3 + Z.of_nat fuel')).
  apply (SampleNTT_mono _ c) in H; [|exact Bm|lia].
  apply (SampleNTT_mono _ c) in H'; [|exact Bm|lia]. congruence.
Qed.
