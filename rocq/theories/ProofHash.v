(** * The hash functions of fips202.c, keccakf1600.c and fips202x4.c *)

From Coq Require Import ZArith List Bool Lia ZifyBool.
From Verif Require Import CSem ModelArith ModelKeccak Spec202 CSemFacts ProofScalar ProofBits ProofKeccakF
  ProofSponge.
Import ListNotations.
Open Scope Z_scope.
Ltac Zify.zify_post_hook ::= idtac.
#[local] Opaque KECCAK_f1600 fb.

(** ** The bytes of a state *)

Lemma state_bytes_map s : state_bytes s = flat_map (fun i => lane_bytes (zget 0 s i)) (range (zlen s)).
Proof.
  unfold state_bytes. rewrite !flat_map_concat_map. f_equal. apply (zmap_get 0 lane_bytes).
Qed.
Lemma zlen_lane_bytes a : zlen (lane_bytes a) = 8. Proof. reflexivity. Qed.
Lemma zlen_state_bytes s : zlen s = 25 -> zlen (state_bytes s) = 200.
Proof. intros H. unfold state_bytes. rewrite (zlen_flat_map _ 8); [rewrite H; reflexivity|reflexivity]. Qed.
Lemma zget_lane_bytes a i : 0 <= i < 8 -> zget 0 (lane_bytes a) i = u8 (a >> (8 * i)).
Proof.
  intros Hi. assert (C : i = 0 \/ i = 1 \/ i = 2 \/ i = 3 \/ i = 4 \/ i = 5 \/ i = 6 \/ i = 7) by lia.
  destruct C as [-> |[-> |[-> |[-> |[-> |[-> |[-> | ->]]]]]]]; reflexivity.
Qed.
Lemma zget_state_bytes s i : zlen s = 25 -> 0 <= i < 200 ->
  zget 0 (state_bytes s) i = u8 (zget 0 s (i / 8) >> (8 * (i mod 8))).
Proof.
  intros H Hi. rewrite state_bytes_map, H, (zget_flat_map _ _ 8); try (intros; apply zlen_lane_bytes); try lia.
  apply zget_lane_bytes. apply Z.mod_pos_bound. lia.
Qed.
Lemma testbit_u8 a j : 0 <= j < 8 -> Z.testbit (u8 a) j = Z.testbit a j.
Proof. intros. unfold u8. change 256 with (2 ^ 8). now rewrite Z.mod_pow2_bits_low by lia. Qed.
Lemma is_byte_u8 a : is_byte (u8 a).
Proof. unfold is_byte, u8. apply Z.mod_pos_bound. lia. Qed.
Lemma bits_state_bytes s i j : zlen s = 25 -> 0 <= i < 200 -> 0 <= j < 8 ->
  Z.testbit (zget 0 (state_bytes s) i) j = Z.testbit (zget 0 s (i / 8)) (8 * (i mod 8) + j).
Proof.
  intros. pose proof (Z.mod_pos_bound i 8 ltac:(lia)).
  rewrite zget_state_bytes by auto. rewrite testbit_u8 by auto.
  rewrite Z.shiftr_spec by lia. f_equal. lia.
Qed.
Lemma wfb_state s : zlen s = 25 -> wfb (state_bytes s).
Proof.
  intros H. split; [now apply zlen_state_bytes|]. unfold bytes. apply (Forall_zget _ 0). intros i Hi.
  rewrite zlen_state_bytes in Hi by auto. rewrite zget_state_bytes by auto. apply is_byte_u8.
Qed.
Lemma sbits_bytes s : zlen s = 25 -> sbits s = bytes_to_bits (state_bytes s).
Proof.
  intros H. apply (zlist_ext false).
  - rewrite zlen_sbits, zlen_bytes_to_bits, zlen_state_bytes by auto. reflexivity.
  - rewrite zlen_sbits by auto. intros i Hi. rewrite zget_sbits by auto.
    pose proof (Z.div_mod i 8 ltac:(lia)). pose proof (Z.mod_pos_bound i 8 ltac:(lia)).
    rewrite zget_bytes_to_bits by (rewrite zlen_state_bytes by auto; lia).
    rewrite bits_state_bytes by (auto; lia). rewrite Z.div_div by lia. f_equal.
    change (8 * 8) with 64. rewrite (Z.mod_eq i 64), (Z.mod_eq (i / 8) 8), Z.div_div by lia.
    change (8 * 8) with 64. rewrite (Z.mod_eq i 8) by lia. ring.
Qed.

Lemma wp_permute_bytes N s (Q : list Z -> Prop) : wfs s ->
  (forall s', wfs s' -> state_bytes s' = fb (state_bytes s) -> Q s') ->
  wpn N (KeccakF1600_StatePermute s) Q.
Proof.
  intros W HQ. apply wp_permute; auto. intros s' W' E. apply HQ; auto.
  rewrite !sbits_bytes in E by apply W || apply W'.
  rewrite <- (bits_to_bytes_to_bits (state_bytes s')) by apply wfb_state, W'.
  rewrite E. rewrite <- bits_fb by apply zlen_state_bytes, W.
  apply bits_to_bytes_to_bits. apply wfb_fb. apply zlen_state_bytes, W.
Qed.

(** ** Reading and xoring bytes *)

Lemma shr3 a : a >> 3 = a / 8. Proof. apply Z.shiftr_div_pow2. lia. Qed.
Lemma land7 a : a .& 7 = a mod 8. Proof. apply (Z.land_ones a 3). lia. Qed.

Lemma Forall_set {A} (P : A -> Prop) l i x : Forall P l -> P x -> 0 <= i < zlen l -> Forall P (zset l i x).
Proof.
  intros H Hx Hi. apply (Forall_zget _ x). rewrite zlen_set by auto. intros j Hj.
  rewrite zget_set by lia. destruct (_ =? _); auto. rewrite (Forall_zget _ x) in H. auto.
Qed.

Lemma xor_byte s o d : wfs s -> 0 <= o < 200 -> is_byte d ->
  let s' := zset s (o / 8) (zget 0 s (o / 8) .^ u64 (d << (8 * (o mod 8)))) in
  wfs s' /\ state_bytes s' = xat (state_bytes s) o [d].
Proof.
  intros [L W] Ho Hd. cbn zeta.
  pose proof (Z.div_mod o 8 ltac:(lia)) as Do. pose proof (Z.mod_pos_bound o 8 ltac:(lia)) as Mo.
  assert (Hk : 0 <= o / 8 < 25) by lia.
  set (v := zget 0 s (o / 8) .^ u64 (d << (8 * (o mod 8)))).
  assert (Ls : zlen (zset s (o / 8) v) = 25) by (rewrite zlen_set; lia).
  assert (Wv : wf64 v).
  { apply wf64_lxor; [|apply wf64_u64]. rewrite (Forall_zget _ 0) in W. apply W. lia. }
  split; [split; [auto|apply Forall_set; auto; lia]|].
  apply xat_ext; [now apply wfb_state|]. intros i Hi. change (zlen [d]) with 1.
  assert (Ld : is_byte (if (o <=? i) && (i <? o + 1) then zget 0 [d] (i - o) else 0)).
  { destruct (_ && _) eqn:C; [|unfold is_byte; lia]. replace (i - o) with 0 by lia. exact Hd. }
  apply byte_ext.
  - apply bytes_zget. apply wfb_state; auto.
  - apply is_byte_lxor; auto. apply bytes_zget. apply wfb_state; auto.
  - intros j Hj. rewrite Z.lxor_spec, !bits_state_bytes by auto.
    pose proof (Z.div_mod i 8 ltac:(lia)) as Di. pose proof (Z.mod_pos_bound i 8 ltac:(lia)) as Mi.
    assert (Hi8 : 0 <= i / 8) by (apply Z.div_pos; lia).
    rewrite zget_set by lia.
    destruct (Z.eqb_spec (i / 8) (o / 8)) as [E|E].
    + unfold v. rewrite Z.lxor_spec, E. f_equal. rewrite testbit_u64 by lia.
      rewrite Z.shiftl_spec by lia.
      destruct (Z.eq_dec i o) as [-> |Ni].
      * replace ((o <=? o) && (o <? o + 1)) with true by lia. rewrite Z.sub_diag.
        change (zget 0 [d] 0) with d. replace (8 * (o mod 8) + j - 8 * (o mod 8)) with j by lia.
        reflexivity.
      * replace ((o <=? i) && (i <? o + 1)) with false by lia. rewrite Z.bits_0.
        assert (i mod 8 <> o mod 8) by lia.
        destruct (Z.lt_ge_cases (i mod 8) (o mod 8)).
        -- rewrite (Z.testbit_neg_r d) by lia. apply andb_false_r || reflexivity.
        -- rewrite (testbit_high d 8) by (unfold is_byte in Hd; change (2 ^ 8) with 256; lia).
           apply andb_false_r || reflexivity.
    + replace ((o <=? i) && (i <? o + 1)) with false.
      * rewrite Z.bits_0. now rewrite xorb_false_r.
      * destruct (Z.eq_dec i o); [subst; lia|]. lia.
Qed.

Lemma firstn_S_zget (l : list Z) i : 0 <= i < zlen l ->
  slice l 0 (i + 1) = slice l 0 i ++ [zget 0 l i].
Proof.
  intros Hi. apply (zlist_ext 0).
  - rewrite zlen_app, !zlen_slice by lia. change (zlen [zget 0 l i]) with 1. lia.
  - rewrite zlen_slice by lia. intros j Hj. rewrite zget_slice, zget_app by lia.
    rewrite zlen_slice by lia. destruct (Z.ltb_spec j (i - 0)).
    + now rewrite zget_slice by lia.
    + replace j with i by lia. replace (i - (i - 0)) with 0 by lia. reflexivity.
Qed.

Lemma wp_xor_be N s data off len (Q : list Z -> Prop) : wfs s -> bytes data ->
  0 <= off -> 0 <= len <= zlen data -> off + len <= 200 ->
  (forall s', wfs s' -> state_bytes s' = xat (state_bytes s) off (slice data 0 len) -> Q s') ->
  wpn N (KeccakF1600_StateXORBytes_be s data off len) Q.
Proof.
  intros W HB Ho Hl H2 HQ. unfold KeccakF1600_StateXORBytes_be.
  apply (wp_for N (fun i st => wfs st /\ state_bytes st = xat (state_bytes s) off (slice data 0 i))).
  - lia.
  - split; auto. change (slice data 0 0) with (@nil Z). symmetry. apply xat_nil, wfb_state, W.
  - intros i st Hi [Wt Et]. rewrite shr3, land7.
    assert (Hd : 0 <= (off + i) / 8 < 25).
    { split; [apply Z.div_pos; lia|]. apply Z.div_lt_upper_bound; lia. }
    apply wp_bind, (wp_aget 0); [lia|]. apply wp_bind, (wp_aget 0); [rewrite (proj1 Wt); lia|].
    apply wp_aset; [rewrite (proj1 Wt); lia|].
    destruct (xor_byte st (off + i) (zget 0 data i)) as [W' E']; auto; [lia|now apply bytes_zget|].
    split; [exact W'|]. rewrite E', Et, firstn_S_zget by lia.
    rewrite <- xat_xat by lia. f_equal. rewrite zlen_slice by lia. lia.
  - intros st [Wt Et]. now apply HQ.
Qed.

Lemma wp_extract_be N s data off len (Q : list Z -> Prop) : wfs s ->
  0 <= off -> 0 <= len <= zlen data -> off + len <= 200 ->
  Q (slice (state_bytes s) off (off + len) ++ skipn (Z.to_nat len) data) ->
  wpn N (KeccakF1600_StateExtractBytes_be s data off len) Q.
Proof.
  intros W Ho Hl H2 HQ. unfold KeccakF1600_StateExtractBytes_be.
  pose proof (zlen_state_bytes s (proj1 W)) as LS.
  apply (wp_for_fill N (fun i => zget 0 (state_bytes s) (off + i))).
  - lia.
  - intros i pre x rest Hi Hp. rewrite shr3, land7.
    assert (Hd : 0 <= (off + i) / 8 < 25).
    { split; [apply Z.div_pos; lia|]. apply Z.div_lt_upper_bound; lia. }
    apply wp_bind, (wp_aget 0); [rewrite (proj1 W); lia|]. apply wp_aset_app; auto.
    rewrite zget_state_bytes by (lia || apply W). now rewrite <- app_assoc.
  - replace (map (fun i => zget 0 (state_bytes s) (off + i)) (range len)) with (slice (state_bytes s) off (off + len)); auto.
    apply (zlist_ext 0); [rewrite zlen_slice, zlen_map, zlen_range; lia|].
    rewrite zlen_slice by lia. intros i Hi. rewrite zget_slice, zget_map_range by lia. reflexivity.
Qed.

(** ** The little-endian byte accesses *)
Lemma slice_nil {A} (l : list A) a : slice l a a = [].
Proof. unfold slice. now rewrite Z.sub_diag. Qed.
Lemma u8_id a : 0 <= a < 256 -> u8 a = a.
Proof. intros. unfold u8. now apply Z.mod_small. Qed.

Lemma bytes_lane_shifts a m : forall k, 0 <= a ->
  bytes_lane (map (fun j => u8 (a >> (8 * Z.of_nat j))) (seq k m)) =
  (a >> (8 * Z.of_nat k)) mod 2 ^ (8 * Z.of_nat m).
Proof.
  induction m as [|m IH]; intros k Ha; cbn [seq map bytes_lane].
  - now rewrite Z.mod_1_r.
  - rewrite IH by auto. replace (8 * Z.of_nat (S m)) with (8 + 8 * Z.of_nat m) by lia.
    rewrite Z.pow_add_r by lia. change (2 ^ 8) with 256.
    rewrite Z.rem_mul_r by (try apply Z.pow_pos_nonneg; lia). unfold u8. f_equal. f_equal. f_equal.
    rewrite !Z.shiftr_div_pow2 by lia. change 256 with (2 ^ 8). rewrite Z.div_div by (try apply Z.pow_pos_nonneg; try apply Z.pow_nonzero; lia).
    rewrite <- Z.pow_add_r by lia. f_equal. f_equal. lia.
Qed.
Lemma bytes_lane_bytes a : wf64 a -> bytes_lane (lane_bytes a) = a.
Proof.
  intros Ha. unfold lane_bytes. rewrite bytes_lane_shifts by apply Ha. rewrite Z.shiftr_0_r. apply Z.mod_small, Ha.
Qed.
Lemma bytes_state_bytes s : wfs s -> bytes_state (state_bytes s) = s.
Proof.
  intros [L W]. unfold bytes_state.
  assert (E : forall j, In j (seq 0 25) -> bytes_lane (firstn 8 (skipn (8 * j) (state_bytes s))) = zget 0 s (Z.of_nat j)).
  { intros j Hj. apply in_seq in Hj.
    rewrite <- (bytes_lane_bytes (zget 0 s (Z.of_nat j))).
    2: { rewrite (Forall_zget _ 0) in W. apply W. lia. }
    f_equal.
    assert (Es : firstn 8 (skipn (8 * j) (state_bytes s)) = slice (state_bytes s) (8 * Z.of_nat j) (8 * Z.of_nat j + 8)).
    { unfold slice. f_equal; [lia|]. f_equal. lia. }
    rewrite Es. pose proof (zlen_state_bytes s L) as LS. apply (zlist_ext 0).
    - rewrite zlen_slice by lia. rewrite zlen_lane_bytes. lia.
    - rewrite zlen_slice by lia. intros i Hi. rewrite zget_slice by lia.
      rewrite zget_lane_bytes by lia. rewrite zget_state_bytes by lia.
      replace ((8 * Z.of_nat j + i) / 8) with (Z.of_nat j) by (apply (Z.div_unique _ _ _ i); lia).
      replace ((8 * Z.of_nat j + i) mod 8) with i by (apply (Z.mod_unique _ _ (Z.of_nat j)); lia). reflexivity. }
  rewrite (map_ext_in _ (fun j => zget 0 s (Z.of_nat j)) _ E).
  do 25 (destruct s as [|? s]; [discriminate L|]). destruct s as [|? s]; [reflexivity|].
  exfalso. rewrite !zlen_cons in L. pose proof (zlen_nonneg s). lia.
Qed.

Lemma wp_extract_le N s data off len (Q : list Z -> Prop) : wfs s ->
  0 <= off -> 0 <= len <= zlen data -> off + len <= 200 ->
  Q (slice (state_bytes s) off (off + len) ++ skipn (Z.to_nat len) data) ->
  wpn N (KeccakF1600_StateExtractBytes_le s data off len) Q.
Proof.
  intros W Ho Hl H2 HQ. unfold KeccakF1600_StateExtractBytes_le.
  pose proof (zlen_state_bytes s (proj1 W)) as LS.
  apply (wp_for_fill N (fun i => zget 0 (state_bytes s) (off + i))).
  - lia.
  - intros i pre x rest Hi Hp.
    apply wp_bind, (wp_aget 0); [lia|]. apply wp_aset_app; auto. now rewrite <- app_assoc.
  - replace (map (fun i => zget 0 (state_bytes s) (off + i)) (range len)) with (slice (state_bytes s) off (off + len)); auto.
    apply (zlist_ext 0); [rewrite zlen_slice, zlen_map, zlen_range; lia|].
    rewrite zlen_slice by lia. intros i Hi. rewrite zget_slice, zget_map_range by lia. reflexivity.
Qed.

Lemma xat_set S o d : wfb S -> 0 <= o < 200 -> is_byte d ->
  zset S o (u8 (Z.lxor (zget 0 S o) d)) = xat S o [d].
Proof.
  intros [L B] Ho Hd. pose proof (bytes_zget S o B) as Bo.
  apply (zlist_ext 0); [rewrite zlen_set, zlen_xat; lia|]. rewrite zlen_set by lia. intros i Hi.
  rewrite zget_set by lia. rewrite zget_xat by lia. change (zlen [d]) with 1.
  destruct (Z.eqb_spec i o) as [-> |].
  - replace ((o <=? o) && (o <? o + 1)) with true by lia. rewrite Z.sub_diag.
    change (zget 0 [d] 0) with d. apply u8_id. now apply is_byte_lxor.
  - replace ((o <=? i) && (i <? o + 1)) with false by lia. now rewrite Z.lxor_0_r.
Qed.

Lemma wp_xor_le N s data off len (Q : list Z -> Prop) : wfs s -> bytes data ->
  0 <= off -> 0 <= len <= zlen data -> off + len <= 200 ->
  Q (bytes_state (xat (state_bytes s) off (slice data 0 len))) ->
  wpn N (KeccakF1600_StateXORBytes_le s data off len) Q.
Proof.
  intros W HB Ho Hl H2 HQ. unfold KeccakF1600_StateXORBytes_le. apply wp_bind.
  pose proof (wfb_state s (proj1 W)) as WS.
  apply (wp_for N (fun i st => st = xat (state_bytes s) off (slice data 0 i))).
  - lia.
  - rewrite slice_nil. symmetry. now apply xat_nil.
  - intros i st Hi ->. pose proof (wfb_xat (state_bytes s) off (slice data 0 i) WS (bytes_slice' _ _ _ HB)) as WX.
    pose proof (proj1 WX) as LX.
    apply wp_bind, (wp_aget 0); [lia|]. apply wp_bind, (wp_aget 0); [lia|].
    apply wp_aset; [lia|]. rewrite xat_set by (auto; try lia; now apply bytes_zget).
    rewrite firstn_S_zget by lia. rewrite <- xat_xat by lia. f_equal. rewrite zlen_slice by lia. lia.
  - intros st ->. now apply wp_ret.
Qed.

Lemma wp_xor {bo : byte_order} N s data off len (Q : list Z -> Prop) : wfs s -> bytes data ->
  0 <= off -> 0 <= len <= zlen data -> off + len <= 200 ->
  (forall s', wfs s' -> state_bytes s' = xat (state_bytes s) off (slice data 0 len) -> Q s') ->
  wpn N (KeccakF1600_StateXORBytes s data off len) Q.
Proof.
  intros W HB Ho Hl H2 HQ. destruct bo; [|now apply wp_xor_be]. apply wp_xor_le; auto.
  destruct (wp_ex (KeccakF1600_StateXORBytes_be s data off len)
    (fun s' => wfs s' /\ state_bytes s' = xat (state_bytes s) off (slice data 0 len))) as (s' & _ & W' & E').
  { apply wp_xor_be; auto. }
  rewrite <- E', bytes_state_bytes by exact W'. now apply HQ.
Qed.
Lemma wp_extract {bo : byte_order} N s data off len (Q : list Z -> Prop) : wfs s ->
  0 <= off -> 0 <= len <= zlen data -> off + len <= 200 ->
  Q (slice (state_bytes s) off (off + len) ++ skipn (Z.to_nat len) data) ->
  wpn N (KeccakF1600_StateExtractBytes s data off len) Q.
Proof. intros. destruct bo; [now apply wp_extract_le|now apply wp_extract_be]. Qed.

(** ** States inside larger arrays *)

Lemma wp_slice_at {A} N (a s b : list A) off n (Q : list A -> Prop) : zlen a = off -> zlen s = n ->
  Q s -> wpn N (aslice (a ++ s ++ b) off n) Q.
Proof.
  intros <- <- HQ. pose proof (zlen_nonneg a). pose proof (zlen_nonneg s). pose proof (zlen_nonneg b).
  apply wp_aslice; [lia|lia|rewrite !zlen_app; lia|].
  replace (slice (a ++ s ++ b) (zlen a) (zlen a + zlen s)) with s; [exact HQ|].
  unfold slice. replace (zlen a + zlen s - zlen a) with (zlen s) by lia. unfold zlen. rewrite !Nat2Z.id.
  rewrite skipn_app, skipn_all, Nat.sub_diag. cbn [app skipn].
  now rewrite firstn_app, firstn_all, Nat.sub_diag, app_nil_r.
Qed.
Lemma wp_on_at N a s b off f (Q : list Z -> Prop) : zlen a = off -> zlen s = 25 ->
  wpn N (f s) (fun s' => zlen s' = 25 /\ Q (a ++ s' ++ b)) -> wpn N (on_state (a ++ s ++ b) off f) Q.
Proof.
  intros Ha Hs H. unfold on_state, KECCAK_LANES. apply wp_bind, wp_slice_at; auto.
  apply wp_bind. eapply wp_mono; [exact H|]. intros s' [L HQ]. 
  replace (Z.to_nat 25) with (length s') by (unfold zlen in L; lia). rewrite firstn_all.
  pose proof (zlen_nonneg a). pose proof (zlen_nonneg b). apply wp_asplice; [lia|rewrite !zlen_app; lia|].
  rewrite splice_app; auto. lia.
Qed.

(** The four states of 4-way Keccak *)
Definition join4 (s0 s1 s2 s3 : list Z) : list Z := s0 ++ s1 ++ s2 ++ s3.
Lemma wp_on0 N s0 s1 s2 s3 f (Q : list Z -> Prop) : zlen s0 = 25 ->
  wpn N (f s0) (fun s => zlen s = 25 /\ Q (join4 s s1 s2 s3)) ->
  wpn N (on_state (join4 s0 s1 s2 s3) (KECCAK_LANES * 0) f) Q.
Proof. intros L0 H. now apply (wp_on_at N [] s0 (s1 ++ s2 ++ s3)). Qed.
Lemma wp_on1 N s0 s1 s2 s3 f (Q : list Z -> Prop) : zlen s0 = 25 -> zlen s1 = 25 ->
  wpn N (f s1) (fun s => zlen s = 25 /\ Q (join4 s0 s s2 s3)) ->
  wpn N (on_state (join4 s0 s1 s2 s3) (KECCAK_LANES * 1) f) Q.
Proof. intros L0 L1 H. now apply (wp_on_at N s0 s1 (s2 ++ s3)). Qed.
Lemma wp_on2 N s0 s1 s2 s3 f (Q : list Z -> Prop) : zlen s0 = 25 -> zlen s1 = 25 -> zlen s2 = 25 ->
  wpn N (f s2) (fun s => zlen s = 25 /\ Q (join4 s0 s1 s s3)) ->
  wpn N (on_state (join4 s0 s1 s2 s3) (KECCAK_LANES * 2) f) Q.
Proof.
  intros L0 L1 L2 H. unfold join4. rewrite app_assoc. apply wp_on_at; [rewrite zlen_app, L0, L1; reflexivity|auto|].
  eapply wp_mono; [exact H|]. intros s [L HQ]. split; auto. rewrite <- app_assoc. exact HQ.
Qed.
Lemma wp_on3 N s0 s1 s2 s3 f (Q : list Z -> Prop) : zlen s0 = 25 -> zlen s1 = 25 -> zlen s2 = 25 -> zlen s3 = 25 ->
  wpn N (f s3) (fun s => zlen s = 25 /\ Q (join4 s0 s1 s2 s)) ->
  wpn N (on_state (join4 s0 s1 s2 s3) (KECCAK_LANES * 3) f) Q.
Proof.
  intros L0 L1 L2 L3 H. unfold join4.
  replace (s0 ++ s1 ++ s2 ++ s3) with ((s0 ++ s1 ++ s2) ++ s3 ++ []) by (now rewrite app_nil_r, <- !app_assoc).
  apply wp_on_at; [rewrite !zlen_app, L0, L1, L2; reflexivity|auto|].
  eapply wp_mono; [exact H|]. intros s [L HQ]. split; auto. rewrite app_nil_r, <- !app_assoc. exact HQ.
Qed.
Lemma wp_at0 N s0 s1 s2 s3 (Q : list Z -> Prop) : zlen s0 = 25 -> Q s0 ->
  wpn N (aslice (join4 s0 s1 s2 s3) (KECCAK_LANES * 0) KECCAK_LANES) Q.
Proof. intros L0 H. now apply (wp_slice_at N [] s0 (s1 ++ s2 ++ s3)). Qed.
Lemma wp_at1 N s0 s1 s2 s3 (Q : list Z -> Prop) : zlen s0 = 25 -> zlen s1 = 25 -> Q s1 ->
  wpn N (aslice (join4 s0 s1 s2 s3) (KECCAK_LANES * 1) KECCAK_LANES) Q.
Proof. intros L0 L1 H. now apply (wp_slice_at N s0 s1 (s2 ++ s3)). Qed.
Lemma wp_at2 N s0 s1 s2 s3 (Q : list Z -> Prop) : zlen s0 = 25 -> zlen s1 = 25 -> zlen s2 = 25 -> Q s2 ->
  wpn N (aslice (join4 s0 s1 s2 s3) (KECCAK_LANES * 2) KECCAK_LANES) Q.
Proof.
  intros L0 L1 L2 H. unfold join4. rewrite app_assoc. apply wp_slice_at; auto. rewrite zlen_app, L0, L1; reflexivity.
Qed.
Lemma wp_at3 N s0 s1 s2 s3 (Q : list Z -> Prop) : zlen s0 = 25 -> zlen s1 = 25 -> zlen s2 = 25 -> zlen s3 = 25 ->
  Q s3 -> wpn N (aslice (join4 s0 s1 s2 s3) (KECCAK_LANES * 3) KECCAK_LANES) Q.
Proof.
  intros L0 L1 L2 L3 H. unfold join4.
  replace (s0 ++ s1 ++ s2 ++ s3) with ((s0 ++ s1 ++ s2) ++ s3 ++ []) by (now rewrite app_nil_r, <- !app_assoc).
  apply wp_slice_at; auto. rewrite !zlen_app, L0, L1, L2; reflexivity.
Qed.

Lemma join4_array s0 s1 s2 s3 : wfs s0 -> wfs s1 -> wfs s2 -> wfs s3 -> zlen (join4 s0 s1 s2 s3) = 100 /\ Forall wf64 (join4 s0 s1 s2 s3).
Proof.
  intros [L0 F0] [L1 F1] [L2 F2] [L3 F3]. unfold join4. split.
  - rewrite !zlen_app, L0, L1, L2, L3. reflexivity.
  - repeat (apply Forall_app; split); auto.
Qed.
Lemma Forall_firstn' {A} (P : A -> Prop) n l : Forall P l -> Forall P (firstn n l).
Proof. intros F. apply Forall_forall. intros x Hx. apply (proj1 (Forall_forall _ _) F). rewrite <- (firstn_skipn n l). apply in_or_app. now left. Qed.
Lemma Forall_skipn' {A} (P : A -> Prop) n l : Forall P l -> Forall P (skipn n l).
Proof. intros F. apply Forall_forall. intros x Hx. apply (proj1 (Forall_forall _ _) F). rewrite <- (firstn_skipn n l). apply in_or_app. now right. Qed.
Lemma array_join4 s : zlen s = 100 /\ Forall wf64 s -> exists s0 s1 s2 s3,
  s = join4 s0 s1 s2 s3 /\ wfs s0 /\ wfs s1 /\ wfs s2 /\ wfs s3.
Proof.
  intros [L F]. assert (Ls : length s = 100%nat) by (unfold zlen in L; lia).
  exists (firstn 25 s), (firstn 25 (skipn 25 s)), (firstn 25 (skipn 50 s)), (skipn 75 s).
  split.
  - unfold join4. clear F L. do 100 (destruct s as [|? s]; [discriminate|]). destruct s; [reflexivity|discriminate].
  - assert (Fs : forall n, Forall wf64 (skipn n s)) by (intros; now apply Forall_skipn').
    repeat split; try (apply Forall_firstn'; apply Fs || exact F); try apply Fs;
      unfold zlen; rewrite ?firstn_length, ?skipn_length; lia.
Qed.

(** The incremental state: 25 lanes and the counter *)
Definition inc (s : list Z) (c : Z) : list Z := s ++ [c].
Lemma wp_inc_on N s c f (Q : list Z -> Prop) : zlen s = 25 ->
  wpn N (f s) (fun s' => zlen s' = 25 /\ Q (inc s' c)) -> wpn N (on_state (inc s c) 0 f) Q.
Proof. intros L H. now apply (wp_on_at N [] s [c]). Qed.
Lemma wp_inc_at N s c (Q : list Z -> Prop) : zlen s = 25 -> Q s -> wpn N (aslice (inc s c) 0 KECCAK_LANES) Q.
Proof. intros L H. now apply (wp_slice_at N [] s [c]). Qed.
Lemma wp_inc_get N s c (Q : Z -> Prop) : zlen s = 25 -> Q c -> wpn N (aget (inc s c) 25) Q.
Proof.
  intros L H. apply (wp_aget 0); unfold inc; [rewrite zlen_app, L; change (zlen [c]) with 1; lia|].
  rewrite zget_app, L by lia. exact H.
Qed.
Lemma wp_inc_set N s c x (Q : list Z -> Prop) : zlen s = 25 -> Q (inc s x) -> wpn N (aset (inc s c) 25 x) Q.
Proof.
  intros L H. apply (wp_aset_app N s c []); [exact L|]. rewrite app_nil_r. exact H.
Qed.

(** ** Absorbing *)

(** [s] has absorbed the bytes [m] at rate [r] *)
Definition holds (r : Z) (m : list Z) (s : list Z) : Prop :=
  wfs s /\ bytes m /\ state_bytes s = xat (absb r m) 0 (tailb r m).

Lemma u64_id a : 0 <= a < 2 ^ 64 -> u64 a = a.
Proof. intros. unfold u64. apply Z.mod_small. change (2 ^ 64) with 18446744073709551616 in H. lia. Qed.
Lemma u32_id a : 0 <= a < 2 ^ 32 -> u32 a = a.
Proof. intros. unfold u32. apply Z.mod_small. change (2 ^ 32) with 4294967296 in H. lia. Qed.

Lemma state_bytes_zero s : zlen s = 25 -> (forall i, 0 <= i < 25 -> zget 0 s i = 0) -> state_bytes s = zeros.
Proof.
  intros L H. apply (zlist_ext 0); [now rewrite zlen_state_bytes, (proj1 wfb_zeros)|].
  rewrite zlen_state_bytes by auto. intros i Hi. rewrite zget_state_bytes by auto.
  rewrite H by (split; [apply Z.div_pos|apply Z.div_lt_upper_bound]; lia).
  rewrite Z.shiftr_0_l. unfold zeros. now rewrite zget_map_range by auto.
Qed.
Lemma holds_zero r s : 0 < r -> wfs s -> (forall i, 0 <= i < 25 -> zget 0 s i = 0) -> holds r [] s.
Proof.
  intros Hr W H. repeat split; [apply W|apply W|constructor|].
  rewrite state_bytes_zero by (auto; apply W).
  unfold absb, tailb. change (zlen (@nil Z)) with 0. rewrite Z.div_0_l by lia. rewrite range_0, Z.mul_0_r.
  cbn [fold_left]. change (slice [] 0 0) with (@nil Z). symmetry. apply xat_nil, wfb_zeros.
Qed.

Lemma bytes_app a b : bytes a -> bytes b -> bytes (a ++ b).
Proof. apply Forall_app'. Qed.

(** one call that does not complete a block *)
Lemma wp_xor_part {bo : byte_order} N r m s x len off (Q : list Z -> Prop) : holds r m s -> 0 < r <= 200 -> bytes x ->
  off = zlen m mod r -> len = zlen x -> off + zlen x < r ->
  (forall s', holds r (m ++ x) s' -> Q s') ->
  wpn N (KeccakF1600_StateXORBytes s x off len) Q.
Proof.
  intros (W & Bm & E) Hr Bx -> -> Hlt HQ. pose proof (Z.mod_pos_bound (zlen m) r ltac:(lia)).
  pose proof (zlen_nonneg x). apply wp_xor; auto; try lia. intros s' W' E'. apply HQ.
  split; [auto|]. split; [now apply bytes_app|].
  destruct (absb_same r m x) as [-> ->]; [lia|lia|].
  rewrite E', slice_all, E. rewrite <- (Z.add_0_l (zlen m mod r)), <- (zlen_tailb r m) by lia.
  apply xat_xat. lia.
Qed.
(** one call that completes a block, and the permutation *)
Lemma wp_xor_full {bo : byte_order} {A} N r m s x len off (f : list Z -> M A) (Q : A -> Prop) :
  holds r m s -> 0 < r <= 200 -> bytes x ->
  off = zlen m mod r -> len = zlen x -> 0 < zlen x -> off + zlen x = r ->
  (forall s', holds r (m ++ x) s' -> wpn N (f s') Q) ->
  wpn N (bind (KeccakF1600_StateXORBytes s x off len) (fun s => bind (KeccakF1600_StatePermute s) f)) Q.
Proof.
  intros (W & Bm & E) Hr Bx -> -> Hp Hlt HQ. pose proof (Z.mod_pos_bound (zlen m) r ltac:(lia)).
  apply wp_bind, wp_xor; auto; try lia. intros s1 W1 E1.
  apply wp_bind, wp_permute_bytes; auto. intros s2 W2 E2. apply HQ.
  split; [auto|]. split; [now apply bytes_app|].
  destruct (absb_full r m x) as [-> ->]; [lia|lia|lia|].
  rewrite xat_nil by (apply wfb_fb, zlen_xat).
  rewrite E2, E1, slice_all, E. f_equal.
  rewrite <- (Z.add_0_l (zlen m mod r)), <- (zlen_tailb r m) by lia. apply xat_xat. lia.
Qed.

(** padding *)
Lemma wp_pad {bo : byte_order} {A} N r m s p off (f : list Z -> M A) (Q : A -> Prop) : holds r m s -> 0 < r <= 200 -> 0 <= p < 128 ->
  off = zlen m mod r ->
  (forall s', wfs s' -> bytes m -> state_bytes s' = final r p m -> wpn N (f s') Q) ->
  wpn N (bind (branch (off =? r - 1)
           (KeccakF1600_StateXORBytes s [u8 (p .| 128)] off 1)
           (bind (KeccakF1600_StateXORBytes s [p] off 1)
              (fun s => KeccakF1600_StateXORBytes s [128] (r - 1) 1))) f) Q.
Proof.
  intros (W & Bm & E) Hr Hp -> HQ. pose proof (Z.mod_pos_bound (zlen m) r ltac:(lia)) as Hc.
  assert (Hpor : p .| 128 = Z.lxor p 128).
  { apply Z.bits_inj'. intros j Hj. rewrite Z.lor_spec, Z.lxor_spec.
    destruct (Z.eq_dec j 7) as [-> |N7].
    - rewrite (testbit_high p 7) by (change (2 ^ 7) with 128; lia). reflexivity.
    - replace (Z.testbit 128 j) with false.
      + now rewrite orb_false_r, xorb_false_r.
      + symmetry. change 128 with (2 ^ 7). apply Z.pow2_bits_false. auto. }
  assert (Bp : is_byte (Z.lxor p 128)) by (apply is_byte_lxor; unfold is_byte; lia).
  apply wp_bind.
  apply wp_branch; intros C.
  - rewrite Hpor, u8_id by apply Bp. apply wp_xor; auto; try (repeat constructor; apply Bp); try lia.
    + change (zlen [Z.lxor p 128]) with 1. lia.
    + intros s' W' E'. apply HQ; auto. rewrite E', E. rewrite final_padb by auto.
      apply Z.eqb_eq in C. rewrite C. replace (r - (r - 1)) with 1 by lia. change (padb p 1) with [Z.lxor p 128].
      change (slice [Z.lxor p 128] 0 1) with [Z.lxor p 128].
      rewrite <- xat_xat by lia. rewrite zlen_tailb, C by lia. reflexivity.
  - apply wp_bind, wp_xor; auto; try lia.
    + repeat constructor; lia.
    + change (zlen [p]) with 1. lia.
    + intros s1 W1 E1. apply wp_xor; auto; try lia.
      * repeat constructor; lia.
      * change (zlen [128]) with 1. lia.
      * intros s2 W2 E2. apply HQ; auto. rewrite E2, E1, E. reflexivity.
Qed.

Lemma slice_cat {A} (l : list A) a b c : 0 <= a <= b -> b <= c <= zlen l ->
  slice l a b ++ slice l b c = slice l a c.
Proof.
  intros H1 H2. unfold slice. replace (Z.to_nat (c - a)) with (Z.to_nat (b - a) + Z.to_nat (c - b))%nat by lia.
  replace (skipn (Z.to_nat b) l) with (skipn (Z.to_nat (b - a)) (skipn (Z.to_nat a) l)).
  - generalize (skipn (Z.to_nat a) l) as m, (Z.to_nat (b - a)) as x, (Z.to_nat (c - b)) as y. clear.
    intros m x y. revert m. induction x; intros m; [reflexivity|]. destruct m; cbn; [now rewrite firstn_nil|].
    f_equal. apply IHx.
  - rewrite skipn_skipn'. f_equal. lia.
Qed.

Ltac uid := rewrite ?u64_id, ?u32_id by
  (change (2 ^ 64) with 18446744073709551616 in *; change (2 ^ 63) with 9223372036854775808 in *;
   change (2 ^ 32) with 4294967296 in *; lia).

(** fips202.c, keccak_absorb *)
Lemma wp_keccak_absorb {bo : byte_order} N s r m mlen p (Q : list Z -> Prop) :
  wfs s -> (forall i, 0 <= i < 25 -> zget 0 s i = 0) -> 0 < r <= 200 -> 0 <= p < 128 -> bytes m ->
  0 <= mlen <= zlen m -> mlen < 2 ^ 63 ->
  (forall s', wfs s' -> state_bytes s' = final r p (slice m 0 mlen) -> Q s') ->
  wpn N (keccak_absorb s r m mlen p) Q.
Proof.
  intros W0 Z0 Hr Hp Bm Hl Hb HQ. unfold keccak_absorb. apply wp_bind.
  apply (wp_while_measure N (fun '(s, pos, ml) => exists k, pos = r * k /\ 0 <= k /\ 0 <= ml /\ pos + ml = mlen /\
            holds r (slice m 0 pos) s)
          (fun '(s, pos, ml) => ml)).
  - exists 0. do 4 (split; [lia|]). rewrite slice_nil. apply holds_zero; auto; lia.
  - lia.
  - intros [[st pos] ml] (k & Ep & Hk & Hml & Esum & HH) Hc.
    assert (0 <= pos) by nia.
    split; [lia|]. uid. apply wp_bind, wp_aslice; try lia.
    eapply (wp_xor_full N r (slice m 0 pos)); eauto; try (rewrite ?zlen_slice; lia).
    + now apply bytes_slice'.
    + rewrite zlen_slice by lia. rewrite Z.sub_0_r, Ep. rewrite Z.mul_comm, Z.mod_mul; lia.
    + intros s' HH'. apply wp_ret. split; [|lia]. exists (k + 1). do 4 (split; [lia|]).
      rewrite <- (slice_cat m 0 pos (pos + r)) by lia. exact HH'.
  - intros [[st pos] ml] (k & Ep & Hk & Hml & Esum & HH) Hc.
    assert (0 <= pos) by nia.
    assert (Em : zlen (slice m 0 pos) mod r = 0).
    { rewrite zlen_slice by lia. rewrite Z.sub_0_r, Ep, Z.mul_comm. apply Z.mod_mul; lia. }
    assert (Em' : ml = zlen (slice m 0 mlen) mod r).
    { rewrite zlen_slice by lia. apply (Z.mod_unique _ _ k); lia. }
    uid. apply wp_bind. cbv zeta.
    assert (P : forall s', holds r (slice m 0 mlen) s' ->
       wpn N (branch (ml =? r - 1)
           (KeccakF1600_StateXORBytes s' [u8 (p .| 128)] ml 1)
           (bind (KeccakF1600_StateXORBytes s' [p] ml 1)
              (fun s => KeccakF1600_StateXORBytes s [128] (r - 1) 1))) Q).
    { intros s' HH'.
      enough (G : wpn N (bind (branch (ml =? r - 1)
           (KeccakF1600_StateXORBytes s' [u8 (p .| 128)] ml 1)
           (bind (KeccakF1600_StateXORBytes s' [p] ml 1)
              (fun s => KeccakF1600_StateXORBytes s [128] (r - 1) 1))) ret) Q).
      { unfold wpn in *. unfold bind in G. destruct (branch _ _ _) as [[a| |] e]; cbn in *; auto. }
      eapply wp_pad; eauto. intros s2 W2 _ E2. apply wp_ret. now apply HQ. }
    apply wp_branch; intros C.
    + apply wp_bind, wp_aslice; try lia.
      apply (wp_xor_part N r (slice m 0 pos));
        [exact HH|lia|now apply bytes_slice'|symmetry; exact Em|rewrite zlen_slice; lia|rewrite zlen_slice; lia|].
      intros s' HH'. apply P. rewrite slice_cat in HH' by lia. now rewrite <- Esum.
    + apply wp_ret. apply P. replace mlen with pos by lia. exact HH.
Qed.

(** fips202.c, the incremental functions *)

Lemma wp_xor_then {bo : byte_order} N s x len off (Q : list Z -> Prop) : wfs s -> bytes x -> 0 <= off -> len = zlen x ->
  off + len <= 200 -> (forall s', wfs s' -> state_bytes s' = xat (state_bytes s) off x -> Q s') ->
  wpn N (KeccakF1600_StateXORBytes s x off len) Q.
Proof.
  intros W B Ho -> Hl HQ. pose proof (zlen_nonneg x). apply wp_xor; auto; try lia.
  intros s' W' E'. apply HQ; auto. now rewrite slice_all in E'.
Qed.
Lemma holds_xor_full r m s x s1 s2 off : holds r m s -> 0 < r <= 200 -> bytes x ->
  off = zlen m mod r -> 0 < zlen x -> off + zlen x = r ->
  state_bytes s1 = xat (state_bytes s) off x -> wfs s2 -> state_bytes s2 = fb (state_bytes s1) ->
  holds r (m ++ x) s2.
Proof.
  intros (W & Bm & E) Hr Bx -> Hp Hlt E1 W2 E2.
  split; [auto|]. split; [now apply bytes_app|].
  destruct (absb_full r m x) as [-> ->]; [lia|lia|lia|].
  rewrite xat_nil by (apply wfb_fb, zlen_xat).
  rewrite E2, E1, E. f_equal.
  rewrite <- (Z.add_0_l (zlen m mod r)), <- (zlen_tailb r m) by lia. apply xat_xat. lia.
Qed.
Lemma lor_128 p : 0 <= p < 128 -> p .| 128 = Z.lxor p 128.
Proof.
  intros Hp. apply Z.bits_inj'. intros j Hj. rewrite Z.lor_spec, Z.lxor_spec.
  destruct (Z.eq_dec j 7) as [-> |N7].
  - rewrite (testbit_high p 7) by (change (2 ^ 7) with 128; lia). reflexivity.
  - replace (Z.testbit 128 j) with false.
    + now rewrite orb_false_r, xorb_false_r.
    + symmetry. change 128 with (2 ^ 7). apply Z.pow2_bits_false. auto.
Qed.
(** the padding of one state *)
Lemma final_long r p m s s' : holds r m s -> 0 < r <= 200 -> zlen m mod r = r - 1 ->
  state_bytes s' = xat (state_bytes s) (zlen m mod r) [Z.lxor p 128] -> state_bytes s' = final r p m.
Proof.
  intros (W & Bm & E) Hr C ->. rewrite E, final_padb by auto. rewrite C.
  replace (r - (r - 1)) with 1 by lia. change (padb p 1) with [Z.lxor p 128].
  rewrite <- xat_xat by lia. rewrite zlen_tailb, C by lia. reflexivity.
Qed.
Lemma final_short r p m s s1 s' : holds r m s ->
  state_bytes s1 = xat (state_bytes s) (zlen m mod r) [p] ->
  state_bytes s' = xat (state_bytes s1) (r - 1) [128] -> state_bytes s' = final r p m.
Proof. intros (W & Bm & E) E1 ->. rewrite E1, E. reflexivity. Qed.

(** The incremental state [st] has absorbed [m] *)
Definition absorbing (r : Z) (m : list Z) (st : list Z) : Prop :=
  exists s c, st = inc s c /\ holds r m s /\ c = zlen m mod r.

Lemma wp_zero_loop N s (Q : list Z -> Prop) : zlen s = 25 ->
  (forall s', wfs s' -> (forall i, 0 <= i < 25 -> zget 0 s' i = 0) -> Q s') ->
  wpn N (for_up 0 25 1 (fun i s => aset s i 0) s) Q.
Proof.
  intros L HQ. apply (wp_for_fill N (fun _ => 0)); [lia| |].
  - intros i pre x rest Hi Hp. apply wp_aset_app; auto. now rewrite <- app_assoc.
  - replace (Z.to_nat 25) with (length s) by (unfold zlen in L; lia). rewrite skipn_all, app_nil_r. apply HQ.
    + split; [reflexivity|]. apply Forall_map_range. intros; unfold wf64; lia.
    + intros i Hi. now rewrite zget_map_range by auto.
Qed.

Lemma wp_inc_init N s r (Q : list Z -> Prop) : zlen s = 26 -> 0 < r ->
  (forall st, absorbing r [] st -> Q st) -> wpn N (keccak_inc_init s) Q.
Proof.
  intros L Hr HQ. unfold keccak_inc_init. apply wp_bind.
  apply (wp_for_fill N (fun _ => 0)); [lia| |].
  - intros i pre x rest Hi Hp. apply wp_aset_app; auto. now rewrite <- app_assoc.
  - assert (E : exists c, skipn (Z.to_nat 25) s = [c]).
    { assert (Ls : length (skipn (Z.to_nat 25) s) = 1%nat) by (rewrite skipn_length; unfold zlen in L; lia).
      destruct (skipn (Z.to_nat 25) s) as [|c [|? ?]]; try discriminate. now exists c. }
    destruct E as [c ->]. apply (wp_inc_set N (map (fun _ => 0) (range 25)) c); [reflexivity|]. apply HQ.
    exists (map (fun _ => 0) (range 25)), 0. split; [reflexivity|]. split.
    + apply holds_zero; [auto| |].
      * split; [reflexivity|]. apply Forall_map_range. intros; unfold wf64; lia.
      * intros i Hi. now rewrite zget_map_range by auto.
    + change (zlen (@nil Z)) with 0. now rewrite Z.mod_0_l by lia.
Qed.

Lemma wp_inc_absorb {bo : byte_order} N st r m0 m mlen (Q : list Z -> Prop) :
  absorbing r m0 st -> 0 < r <= 200 -> bytes m -> 0 <= mlen <= zlen m -> mlen < 2 ^ 63 ->
  (forall st', absorbing r (m0 ++ slice m 0 mlen) st' -> Q st') ->
  wpn N (keccak_inc_absorb st r m mlen) Q.
Proof.
  intros (s & cnt & -> & H0 & C0) Hr Bm Hl Hb HQ. unfold keccak_inc_absorb.
  apply wp_bind, wp_inc_get; [apply H0|]. apply wp_bind.
  apply (wp_while_measure N (fun '(st, cnt, pos, ml) => 0 <= pos /\ 0 <= ml /\ pos + ml = mlen /\
            exists s, st = inc s cnt /\
            holds r (m0 ++ slice m 0 pos) s /\ cnt = zlen (m0 ++ slice m 0 pos) mod r)
          (fun '(s, cnt, pos, ml) => ml)).
  - do 3 (split; [lia|]). exists s. rewrite slice_nil, app_nil_r. now repeat split; try apply H0.
  - lia.
  - intros [[[st' c] pos] ml] (Hp & Hml & Esum & st & -> & HH & Ec) Hc.
    set (M := m0 ++ slice m 0 pos) in *.
    pose proof (Z.mod_pos_bound (zlen M) r ltac:(lia)) as Hm.
    assert (Hc' : r <= ml + c).
    { rewrite u64_id in Hc; [lia|]. change (2 ^ 63) with 9223372036854775808 in Hb.
      change (2 ^ 64) with 18446744073709551616. lia. }
    split; [lia|]. uid. apply wp_bind, wp_aslice; try lia. uid.
    apply wp_bind, wp_inc_on; [apply HH|].
    apply wp_xor_then; [apply HH|now apply bytes_slice'|lia|rewrite zlen_slice; lia|lia|].
    intros s1 W1 E1. split; [apply W1|]. apply wp_bind, wp_inc_set; [apply W1|].
    apply wp_bind, wp_inc_on; [apply W1|]. apply wp_permute_bytes; auto. intros s' W2 E2. split; [apply W2|].
    assert (HH' : holds r (M ++ slice m pos (pos + (r - c))) s').
    { apply (holds_xor_full r M st _ s1 s' c);
      [exact HH|lia|now apply bytes_slice'|exact Ec|rewrite zlen_slice; lia|rewrite zlen_slice; lia
      |exact E1|exact W2|exact E2]. }
    apply wp_bind, wp_inc_get; [apply W2|].
    uid. apply wp_ret. split; [|lia]. do 3 (split; [lia|]). exists s'. split; [reflexivity|].
    unfold M in HH'. rewrite <- app_assoc, slice_cat in HH' by lia. split; [exact HH'|].
    symmetry. rewrite <- (slice_cat m 0 pos (pos + (r - c))) by lia. rewrite app_assoc. fold M.
    rewrite zlen_app, zlen_slice by lia. symmetry. apply (Z.mod_unique _ _ (zlen M / r + 1)); [lia|].
    pose proof (Z.div_mod (zlen M) r ltac:(lia)). lia.
  - intros [[[st' c] pos] ml] (Hp & Hml & Esum & st & -> & HH & Ec) Hc.
    set (M := m0 ++ slice m 0 pos) in *.
    pose proof (Z.mod_pos_bound (zlen M) r ltac:(lia)) as Hm.
    assert (Hc' : ml + c < r).
    { rewrite u64_id in Hc; [lia|]. change (2 ^ 63) with 9223372036854775808 in Hb.
      change (2 ^ 64) with 18446744073709551616. lia. }
    uid. apply wp_bind, wp_aslice; try lia.
    apply wp_bind, wp_inc_on; [apply HH|]. apply (wp_xor_part N r M);
      [exact HH|lia|now apply bytes_slice'|exact Ec|rewrite zlen_slice; lia|rewrite zlen_slice; lia|].
    intros s' HH'. split; [apply HH'|]. apply wp_inc_set; [apply HH'|]. apply HQ. unfold M in HH'.
    rewrite <- app_assoc, slice_cat, Esum in HH' by lia.
    exists s', (c + ml). split; [reflexivity|]. split; [exact HH'|].
    rewrite <- (slice_cat m 0 pos mlen) by lia. rewrite app_assoc. fold M.
    rewrite zlen_app, zlen_slice by lia. apply (Z.mod_unique _ _ (zlen M / r)); [lia|].
    pose proof (Z.div_mod (zlen M) r ltac:(lia)). lia.
Qed.

(** The incremental state has given [j] bytes of the stream that follows [S0] *)
Definition squeezing (r : Z) (S0 : list Z) (j : Z) (st : list Z * Z) : Prop :=
  wfs (fst st) /\ wfb S0 /\ 0 <= snd st < r /\ 0 <= j /\
  exists q, 0 <= q /\ state_bytes (fst st) = Nat.iter (Z.to_nat q) fb S0 /\ snd st = q * r - j.

Definition squeezing_inc (r : Z) (S0 : list Z) (j : Z) (st : list Z) : Prop :=
  exists s c, st = inc s c /\ squeezing r S0 j (s, c).

Lemma wp_inc_finalize {bo : byte_order} N st r p m (Q : list Z -> Prop) :
  absorbing r m st -> 0 < r <= 200 -> 0 <= p < 128 ->
  (forall st', squeezing_inc r (final r p m) 0 st' -> Q st') ->
  wpn N (keccak_inc_finalize st r p) Q.
Proof.
  intros (s & cnt & -> & H0 & C0) Hr Hp HQ. unfold keccak_inc_finalize.
  pose proof (Z.mod_pos_bound (zlen m) r ltac:(lia)) as Hm.
  assert (Bp : is_byte (Z.lxor p 128)) by (apply is_byte_lxor; unfold is_byte; lia).
  assert (B1 : bytes [Z.lxor p 128]) by (repeat constructor; apply Bp).
  assert (B2 : bytes [p]) by (repeat constructor; lia).
  assert (B3 : bytes [128]) by (repeat constructor; lia).
  apply wp_bind, wp_inc_get; [apply H0|]. uid. cbv zeta. rewrite lor_128, u8_id by (auto; apply Bp).
  assert (F : forall s', wfs s' -> state_bytes s' = final r p m -> wpn N (aset (inc s' cnt) 25 0) Q).
  { intros s' W' E. apply wp_inc_set; [apply W'|]. apply HQ. exists s', 0. split; [reflexivity|].
    split; [exact W'|]. split; [apply wfb_final; auto; apply H0|]. cbn [fst snd]. split; [lia|]. split; [lia|].
    exists 0. split; [lia|]. split; [exact E|lia]. }
  apply wp_bind, wp_branch; intros C.
  - apply Z.eqb_eq in C. apply wp_inc_on; [apply H0|].
    apply wp_xor_then; auto; try lia; [apply H0|]. intros t0 W0 T0. split; [apply W0|].
    apply F; auto. apply (final_long r p m s); auto; congruence.
  - apply wp_bind, wp_inc_on; [apply H0|].
    apply wp_xor_then; auto; try lia; [apply H0|]. intros t0 W0 T0. split; [apply W0|].
    apply wp_inc_on; [apply W0|]. apply wp_xor_then; auto; try lia. intros u0 V0 U0. split; [apply V0|].
    apply F; auto. apply (final_short r p m s t0); auto; congruence.
Qed.

(** the bytes of a state that has given [j] bytes, from position [r - cnt] *)
Lemma squeeze_slice r S0 j s cnt len : squeezing r S0 j (s, cnt) -> 0 < r <= 200 -> 0 <= len <= cnt ->
  slice (state_bytes s) (r - cnt) (r - cnt + len) =
  map (fun i => stream r (fb S0) (j + i)) (range len).
Proof.
  intros (W & WS & Hc & Hj & q & Hq & E & C) Hr Hl. cbn [fst snd] in *.
  pose proof (zlen_state_bytes s (proj1 W)) as L.
  apply (zlist_ext 0); [rewrite zlen_slice, zlen_map, zlen_range; lia|].
  rewrite zlen_slice by lia. intros i Hi. rewrite zget_slice, zget_map_range by lia.
  unfold stream. rewrite E.
  assert (Hq1 : 1 <= q) by nia.
  assert (Ed : (j + i) / r = q - 1).
  { symmetry. apply (Z.div_unique _ _ _ (r - cnt + i)); [lia|]. nia. }
  assert (Em : (j + i) mod r = r - cnt + i).
  { symmetry. apply (Z.mod_unique _ _ (q - 1)); [lia|]. nia. }
  rewrite Ed, Em, iter_fb_r.
  replace (Z.to_nat q) with (Datatypes.S (Z.to_nat (q - 1))) by lia. reflexivity.
Qed.
Lemma fresh_slice r S0 j s s' len : squeezing r S0 j (s, 0) -> 0 < r <= 200 -> 0 <= len <= r ->
  wfs s' -> state_bytes s' = fb (state_bytes s) ->
  slice (state_bytes s') 0 len = map (fun i => stream r (fb S0) (j + i)) (range len).
Proof.
  intros (W & WS & Hc & Hj & q & Hq & E & C) Hr Hl W' E'. cbn [fst snd] in *.
  pose proof (zlen_state_bytes s' (proj1 W')) as L.
  apply (zlist_ext 0); [rewrite zlen_slice, zlen_map, zlen_range; lia|].
  rewrite zlen_slice by lia. intros i Hi. rewrite zget_slice, zget_map_range by lia.
  unfold stream.
  assert (Ed : (j + i) / r = q).
  { symmetry. apply (Z.div_unique _ _ _ i); [lia|]. lia. }
  assert (Em : (j + i) mod r = i).
  { symmetry. apply (Z.mod_unique _ _ q); [lia|]. lia. }
  rewrite Ed, Em, iter_fb_r, E', E. reflexivity.
Qed.

Lemma skipn_app_exact {A} (a b : list A) n : zlen a = n -> skipn (Z.to_nat n) (a ++ b) = b.
Proof.
  intros <-. unfold zlen. rewrite Nat2Z.id, skipn_app, skipn_all, Nat.sub_diag. reflexivity.
Qed.
Lemma slice_mid {A} (a b : list A) p n : zlen a = p -> 0 <= n <= zlen b -> slice (a ++ b) p (p + n) = slice b 0 n.
Proof.
  intros <- Hn. unfold slice. rewrite skipn_app_exact by reflexivity. rewrite skipn_O. f_equal. f_equal. lia.
Qed.
Lemma skipn_slice_end {A} (l : list A) a n : 0 <= a -> 0 <= n -> a + n <= zlen l ->
  skipn (Z.to_nat n) (skipn (Z.to_nat a) l) = skipn (Z.to_nat (a + n)) l.
Proof. intros. rewrite skipn_skipn'. f_equal. lia. Qed.

(** Writing the next bytes of an output buffer *)
Lemma wp_emit_bytes {A B} N (F : Z -> A) h0 pos len (d : M (list A)) (f : list A -> M B) (Q : B -> Prop) :
  0 <= pos -> 0 <= len -> pos + len <= zlen h0 ->
  wpn N d (fun d => d = map (fun i => F (pos + i)) (range len)) ->
  wpn N (f (map F (range (pos + len)) ++ skipn (Z.to_nat (pos + len)) h0)) Q ->
  wpn N (bind d (fun d => bind (asplice (map F (range pos) ++ skipn (Z.to_nat pos) h0) pos d) f)) Q.
Proof.
  intros Hp Hl H Hd HQ. apply wp_bind. eapply wp_mono; [exact Hd|]. intros x ->. clear Hd.
  assert (Lp : zlen (map F (range pos)) = pos) by (rewrite zlen_map, zlen_range; lia).
  assert (Ll : zlen (map (fun i => F (pos + i)) (range len)) = len) by (rewrite zlen_map, zlen_range; lia).
  rewrite (skipn_slice h0 pos len) by lia.
  apply wp_bind, wp_asplice.
  - lia.
  - rewrite !zlen_app, zlen_slice, zlen_skipn by lia. lia.
  - rewrite splice_app; [|exact Lp|rewrite zlen_slice; lia].
    rewrite app_assoc. rewrite range_app, map_app, map_map in HQ by lia. exact HQ.
Qed.

(** Reading a prefix of the state into a slice of a buffer of the same length *)
Lemma wp_extract_all {bo : byte_order} N s (d : list Z) off len (Q : list Z -> Prop) : wfs s -> 0 <= off -> zlen d = len ->
  off + len <= 200 -> Q (slice (state_bytes s) off (off + len)) ->
  wpn N (KeccakF1600_StateExtractBytes s d off len) Q.
Proof.
  intros W Ho Hl H2 HQ. pose proof (zlen_nonneg d). apply wp_extract; auto; try lia.
  replace (Z.to_nat len) with (length d) by (unfold zlen in *; lia). now rewrite skipn_all, app_nil_r.
Qed.

Lemma wp_inc_squeeze {bo : byte_order} N h outlen st r S0 j (Q : list Z * list Z -> Prop) :
  squeezing_inc r S0 j st -> 0 < r <= 200 -> 0 <= outlen <= zlen h -> outlen < 2 ^ 63 ->
  (forall st', squeezing_inc r S0 (j + outlen) st' ->
     Q (map (fun i => stream r (fb S0) (j + i)) (range outlen) ++ skipn (Z.to_nat outlen) h, st')) ->
  wpn N (keccak_inc_squeeze h outlen st r) Q.
Proof.
  intros (s & cnt & -> & Hs) Hr Ho Hb HQ. unfold keccak_inc_squeeze.
  pose proof Hs as (W & WS & Hc & Hj & q & Hq & E & C). cbn [fst snd] in *.
  change (2 ^ 63) with 9223372036854775808 in Hb. apply wp_bind, wp_inc_get; [apply W|].
  apply wp_bind. apply wp_mono with (Q := fun len => len = Z.min outlen cnt).
  { apply wp_branch; intros; apply wp_ret; lia. }
  intros len ->. set (len := Z.min outlen cnt).
  assert (Hlen : 0 <= len /\ len <= cnt /\ len <= outlen /\ (len = cnt \/ len = outlen)) by lia.
  clearbody len. destruct Hlen as (L1 & L2 & L3 & L4).
  apply wp_bind, wp_aslice; try lia. apply wp_bind, wp_inc_at; [apply W|]. uid.
  set (F := fun i => stream r (fb S0) (j + i)) in *.
  change h with (map F (range 0) ++ skipn (Z.to_nat 0) h) at 2.
  apply (wp_emit_bytes N F h 0 len); try lia.
  { apply wp_extract_all; auto; try lia; [rewrite zlen_slice; lia|].
    rewrite (squeeze_slice r S0 j) by (auto; lia). reflexivity. }
  rewrite Z.add_0_l. apply wp_bind, wp_inc_set; [apply W|]. apply wp_bind.
  apply (wp_while_measure N (fun '(h', pos, ol, st) => 0 <= pos /\ 0 <= ol /\ pos + ol = outlen /\
            h' = map F (range pos) ++ skipn (Z.to_nat pos) h /\
            exists s c, st = inc s c /\ squeezing r S0 (j + pos) (s, c) /\ (c = 0 \/ ol = 0))
          (fun '(h', pos, ol, st) => ol)).
  - do 3 (split; [lia|]). split; [reflexivity|]. exists s, (cnt - len). split; [reflexivity|]. split; [|lia].
    split; [exact W|]. split; [exact WS|]. cbn [fst snd]. split; [lia|]. split; [lia|].
    exists q. split; [lia|]. split; [exact E|]. lia.
  - lia.
  - intros [[[h' pos] ol] st1] (Hp & Hol & Es & Eh & s1 & c1 & -> & Hs1 & Hc1) Hcond.
    split; [lia|]. assert (c1 = 0) by lia. subst c1.
    pose proof Hs1 as (W1 & _ & _ & Hj1 & q1 & Hq1 & E1 & C1). cbn [fst snd] in *.
    apply wp_bind, wp_inc_on; [apply W1|]. apply wp_permute_bytes; auto. intros s2 W2 E2. split; [apply W2|].
    apply wp_bind. apply wp_mono with (Q := fun len => len = Z.min ol r).
    { apply wp_branch; intros; apply wp_ret; lia. }
    intros n ->. set (n := Z.min ol r).
    assert (Hn : 0 < n /\ n <= r /\ n <= ol /\ (n = r \/ n = ol)) by lia.
    clearbody n. destruct Hn as (N1 & N2 & N3 & N4).
    assert (Lh : zlen h' = zlen h).
    { rewrite Eh, zlen_app, zlen_map, zlen_range, zlen_skipn by lia. lia. }
    apply wp_bind, wp_aslice; try lia. apply wp_bind, wp_inc_at; [apply W2|].
    uid. subst h'. apply (wp_emit_bytes N F h pos n); try lia.
    { apply wp_extract_all; auto; try lia; [rewrite zlen_slice; lia|].
      rewrite Z.add_0_l, (fresh_slice r S0 (j + pos) s1) by (auto; lia). apply map_range_ext.
      intros i Hi. unfold F. f_equal. lia. }
    apply wp_bind, wp_inc_set; [apply W2|].
    apply wp_ret. split; [|lia]. do 3 (split; [lia|]). split; [reflexivity|].
    exists s2, (r - n). split; [reflexivity|]. split; [|lia].
    split; [exact W2|]. split; [exact WS|]. cbn [fst snd]. split; [lia|]. split; [lia|].
    exists (q1 + 1). split; [lia|]. split; [|lia].
    rewrite E2, E1. replace (Z.to_nat (q1 + 1)) with (Datatypes.S (Z.to_nat q1)) by lia. reflexivity.
  - intros [[[h' pos] ol] st1] (Hp & Hol & Es & Eh & s1 & c1 & -> & Hs1 & Hc1) Hcond.
    apply wp_ret. assert (pos = outlen) by lia. subst pos. rewrite Eh. apply HQ. now exists s1, c1.
Qed.

(** fips202.c, keccak_squeezeblocks *)
Lemma wp_squeezeblocks {bo : byte_order} N h nblocks s r S0 j (Q : list Z * list Z -> Prop) :
  squeezing r S0 j (s, 0) -> 0 < r <= 200 -> 0 <= nblocks -> r * nblocks <= zlen h ->
  (forall s', squeezing r S0 (j + r * nblocks) (s', 0) ->
     Q (map (fun i => stream r (fb S0) (j + i)) (range (r * nblocks)) ++
          skipn (Z.to_nat (r * nblocks)) h, s')) ->
  wpn N (keccak_squeezeblocks h nblocks s r) Q.
Proof.
  intros Hs Hr Hn Hh HQ. unfold keccak_squeezeblocks. apply wp_bind.
  set (F := fun i => stream r (fb S0) (j + i)) in *.
  apply (wp_while N (fun k '(h', pos, nb, s) => pos = r * k /\ nb = nblocks - k /\
            h' = map F (range pos) ++ skipn (Z.to_nat pos) h /\ squeezing r S0 (j + pos) (s, 0)) nblocks).
  - lia.
  - lia.
  - split; [lia|]. split; [lia|]. split; [reflexivity|]. now rewrite Z.add_0_r.
  - intros k [[[h' pos] nb] s1] Hk (Ep & En & Eh & Hs1). split; [lia|].
    pose proof Hs1 as (W1 & WS & _ & Hj1 & q1 & Hq1 & E1 & C1). cbn [fst snd] in *.
    assert (0 <= pos) by nia. assert (pos + r <= zlen h) by nia.
    assert (Lh : zlen h' = zlen h).
    { rewrite Eh, zlen_app, zlen_map, zlen_range, zlen_skipn by lia. lia. }
    apply wp_bind, wp_permute_bytes; auto. intros s2 W2 E2.
    apply wp_bind, wp_aslice; try lia. subst h'. apply (wp_emit_bytes N F h pos r); try lia.
    { apply wp_extract_all; auto; try lia; [rewrite zlen_slice; lia|].
      rewrite Z.add_0_l, (fresh_slice r S0 (j + pos) s1) by (auto; lia). apply map_range_ext.
      intros i Hi. unfold F. f_equal. lia. }
    apply wp_ret. split; [lia|]. split; [lia|]. split; [reflexivity|].
    split; [exact W2|]. split; [exact WS|]. cbn [fst snd]. split; [lia|]. split; [lia|].
    exists (q1 + 1). split; [lia|]. split; [|lia].
    rewrite E2, E1. replace (Z.to_nat (q1 + 1)) with (Datatypes.S (Z.to_nat q1)) by lia. reflexivity.
  - intros [[[h' pos] nb] s1] (Ep & En & Eh & Hs1). split; [lia|].
    apply wp_ret. rewrite Eh, Ep. apply HQ. now rewrite <- Ep.
Qed.

(** ** The hash functions *)

Lemma slice_zlen {A} (m : list A) n : n = zlen m -> slice m 0 n = m.
Proof. intros ->. apply slice_all. Qed.

Lemma stream_at_0 r S n : map (fun i => stream r S (0 + i)) (range n) = map (stream r S) (range n).
Proof. apply map_range_ext. intros. now rewrite Z.add_0_l. Qed.

Lemma wp_sponge {bo : byte_order} N J out outlen m mlen r p (Q : list Z -> Prop) :
  0 < r <= 200 -> 0 <= p < 128 -> bytes m -> 0 <= mlen <= zlen m -> mlen < 2 ^ 63 ->
  0 <= outlen <= zlen out -> outlen < 2 ^ 63 ->
  Q (map (stream r (fb (final r p (slice m 0 mlen)))) (range outlen) ++ skipn (Z.to_nat outlen) out) ->
  wpn N (bind (keccak_inc_init (uninit_inc J)) (fun st =>
         bind (keccak_inc_absorb st r m mlen) (fun st =>
         bind (keccak_inc_finalize st r p) (fun st =>
         bind (keccak_inc_squeeze out outlen st r) (fun '(out, _) => ret out))))) Q.
Proof.
  intros Hr Hp Bm Hm Hm' Ho Ho' HQ. unfold uninit_inc.
  apply wp_bind, (wp_inc_init _ _ r); [apply zlen_uninit; lia|lia|]. intros s0 H0.
  apply wp_bind, (wp_inc_absorb _ _ _ []); auto. intros s1 H1. cbn [app] in H1.
  apply wp_bind, (wp_inc_finalize _ _ _ _ (slice m 0 mlen)); auto. intros s2 H2.
  apply wp_bind. eapply wp_inc_squeeze; [exact H2|lia|lia|lia|]. intros s3 _. apply wp_ret.
  rewrite stream_at_0. exact HQ.
Qed.

Lemma wp_shake256 {bo : byte_order} N J out outlen m mlen (Q : list Z -> Prop) :
  bytes m -> 0 <= mlen <= zlen m -> mlen < 2 ^ 63 -> 0 <= outlen <= zlen out -> outlen < 2 ^ 63 ->
  Q (SHAKE256 (slice m 0 mlen) outlen ++ skipn (Z.to_nat outlen) out) ->
  wpn N (shake256 J out outlen m mlen) Q.
Proof.
  intros Bm Hm Hm' Ho Ho' HQ. unfold shake256, SHAKE256_RATE. apply wp_sponge; auto; try lia.
  rewrite SHAKE256_stream in HQ by (auto; lia || now apply bytes_slice'). exact HQ.
Qed.
Lemma wp_sha3_256 {bo : byte_order} N J out m mlen (Q : list Z -> Prop) :
  bytes m -> 0 <= mlen <= zlen m -> mlen < 2 ^ 63 -> 32 <= zlen out ->
  Q (SHA3_256 (slice m 0 mlen) ++ skipn 32 out) ->
  wpn N (sha3_256 J out m mlen) Q.
Proof.
  intros Bm Hm Hm' Ho HQ. unfold sha3_256, SHA3_256_RATE. apply wp_sponge; auto; try lia.
  rewrite SHA3_256_stream in HQ by (now apply bytes_slice'). exact HQ.
Qed.
Lemma wp_sha3_512 {bo : byte_order} N J out m mlen (Q : list Z -> Prop) :
  bytes m -> 0 <= mlen <= zlen m -> mlen < 2 ^ 63 -> 64 <= zlen out ->
  Q (SHA3_512 (slice m 0 mlen) ++ skipn 64 out) ->
  wpn N (sha3_512 J out m mlen) Q.
Proof.
  intros Bm Hm Hm' Ho HQ. unfold sha3_512, SHA3_512_RATE. apply wp_sponge; auto; try lia.
  rewrite SHA3_512_stream in HQ by (now apply bytes_slice'). exact HQ.
Qed.

(** The state [s] of SHAKE128 or SHAKE256 has absorbed [m] and given [j] bytes *)
Definition xof (r : Z) (m : list Z) (j : Z) (s : list Z) : Prop :=
  bytes m /\ squeezing r (final r 31 m) j (s, 0).

Lemma squeezing_start r S0 s : 0 < r -> wfs s -> wfb S0 -> state_bytes s = S0 -> squeezing r S0 0 (s, 0).
Proof.
  intros Hr W WS E. split; [exact W|]. split; [exact WS|]. cbn [fst snd]. split; [lia|]. split; [lia|].
  exists 0. split; [lia|]. split; [exact E|lia].
Qed.

Lemma wp_shake128_absorb {bo : byte_order} N s m mlen (Q : list Z -> Prop) :
  zlen s = 25 -> bytes m -> 0 <= mlen <= zlen m -> mlen < 2 ^ 63 ->
  (forall s', xof 168 (slice m 0 mlen) 0 s' -> Q s') ->
  wpn N (shake128_absorb s m mlen) Q.
Proof.
  intros L Bm Hm Hm' HQ. unfold shake128_absorb, SHAKE128_RATE.
  apply wp_bind, wp_zero_loop; auto. intros s' W Z0.
  apply wp_keccak_absorb; auto; try lia. intros s2 W2 E2. apply HQ.
  assert (bytes (slice m 0 mlen)) by now apply bytes_slice'.
  split; auto. apply squeezing_start; auto; [lia|]. apply wfb_final; auto; lia.
Qed.

(** the next [n] bytes of the output *)
Lemma stream_SHAKE128 m j n : bytes m -> 0 <= j -> 0 <= n ->
  map (fun i => stream 168 (fb (final 168 31 m)) (j + i)) (range n) =
  slice (SHAKE128 m (j + n)) j (j + n).
Proof.
  intros Bm Hj Hn. rewrite SHAKE128_stream by (auto; lia). apply (zlist_ext 0).
  - rewrite zlen_slice; rewrite ?zlen_map, ?zlen_range; lia.
  - rewrite zlen_map, zlen_range by lia. intros i Hi.
    rewrite zget_slice, !zget_map_range by lia. reflexivity.
Qed.
Lemma stream_SHAKE256 m j n : bytes m -> 0 <= j -> 0 <= n ->
  map (fun i => stream 136 (fb (final 136 31 m)) (j + i)) (range n) =
  slice (SHAKE256 m (j + n)) j (j + n).
Proof.
  intros Bm Hj Hn. rewrite SHAKE256_stream by (auto; lia). apply (zlist_ext 0).
  - rewrite zlen_slice; rewrite ?zlen_map, ?zlen_range; lia.
  - rewrite zlen_map, zlen_range by lia. intros i Hi.
    rewrite zget_slice, !zget_map_range by lia. reflexivity.
Qed.

Lemma wp_shake128_squeezeblocks {bo : byte_order} N h nblocks s m j (Q : list Z * list Z -> Prop) :
  xof 168 m j s -> 0 <= j -> 0 <= nblocks -> 168 * nblocks <= zlen h ->
  (forall s', xof 168 m (j + 168 * nblocks) s' ->
     Q (slice (SHAKE128 m (j + 168 * nblocks)) j (j + 168 * nblocks) ++
        skipn (Z.to_nat (168 * nblocks)) h, s')) ->
  wpn N (shake128_squeezeblocks h nblocks s) Q.
Proof.
  intros [Bm Hs] Hj Hn Hh HQ. unfold shake128_squeezeblocks, SHAKE128_RATE.
  eapply wp_squeezeblocks; eauto; try lia. intros s' Hs'. rewrite stream_SHAKE128 by (auto; lia).
  apply HQ. split; auto.
Qed.

(** ** Four states at a time *)

Definition all4 {A} (P : A -> Prop) (t : x4 A) : Prop :=
  let '(a, b, c, d) := t in P a /\ P b /\ P c /\ P d.
Definition holds4 (r : Z) (m0 m1 m2 m3 : list Z) (s : list Z) : Prop :=
  exists s0 s1 s2 s3, s = join4 s0 s1 s2 s3 /\ holds r m0 s0 /\ holds r m1 s1 /\ holds r m2 s2 /\ holds r m3 s3.
Definition states4 (S0 S1 S2 S3 : list Z) (s : list Z) : Prop :=
  exists s0 s1 s2 s3, s = join4 s0 s1 s2 s3 /\
  (wfs s0 /\ state_bytes s0 = S0) /\ (wfs s1 /\ state_bytes s1 = S1) /\
  (wfs s2 /\ state_bytes s2 = S2) /\ (wfs s3 /\ state_bytes s3 = S3).

Lemma wp_xor4_part {bo : byte_order} N r m0 m1 m2 m3 s x0 x1 x2 x3 len off (Q : list Z -> Prop) :
  holds4 r m0 m1 m2 m3 s -> 0 < r <= 200 -> bytes x0 -> bytes x1 -> bytes x2 -> bytes x3 ->
  off = zlen m0 mod r -> off = zlen m1 mod r -> off = zlen m2 mod r -> off = zlen m3 mod r ->
  len = zlen x0 -> len = zlen x1 -> len = zlen x2 -> len = zlen x3 -> off + len < r ->
  (forall s', holds4 r (m0 ++ x0) (m1 ++ x1) (m2 ++ x2) (m3 ++ x3) s' -> Q s') ->
  wpn N (KeccakF1600x4_StateXORBytes s x0 x1 x2 x3 off len) Q.
Proof.
  intros (s0 & s1 & s2 & s3 & -> & H0 & H1 & H2 & H3) Hr B0 B1 B2 B3 O0 O1 O2 O3 L0 L1 L2 L3 Hlt HQ.
  unfold KeccakF1600x4_StateXORBytes.
  pose proof (proj1 (proj1 H0)). pose proof (proj1 (proj1 H1)). pose proof (proj1 (proj1 H2)). pose proof (proj1 (proj1 H3)).
  apply wp_bind, wp_on0; auto. apply (wp_xor_part N r m0); auto; [lia|]. intros t0 T0. pose proof (proj1 (proj1 T0)). split; [auto|].
  apply wp_bind, wp_on1; auto. apply (wp_xor_part N r m1); auto; [lia|]. intros t1 T1. pose proof (proj1 (proj1 T1)). split; [auto|].
  apply wp_bind, wp_on2; auto. apply (wp_xor_part N r m2); auto; [lia|]. intros t2 T2. pose proof (proj1 (proj1 T2)). split; [auto|].
  apply wp_on3; auto. apply (wp_xor_part N r m3); auto; [lia|]. intros t3 T3. pose proof (proj1 (proj1 T3)). split; [auto|].
  apply HQ. exists t0, t1, t2, t3. exact (conj eq_refl (conj T0 (conj T1 (conj T2 T3)))).
Qed.

Lemma wp_bind_assoc {A B C} N (m : M A) (f : A -> M B) (g : B -> M C) (Q : C -> Prop) :
  wpn N (bind m (fun a => bind (f a) g)) Q -> wpn N (bind (bind m f) g) Q.
Proof.
  unfold wpn, bind. destruct m as [[a|u|] e]; cbn; auto.
  destruct (f a) as [[b|u|] e']; cbn; auto. destruct (g b) as [[c|u|] e'']; cbn; auto.
Qed.

Lemma wp_xor4_full {bo : byte_order} {A} N r m0 m1 m2 m3 s x0 x1 x2 x3 len off (f : list Z -> M A) (Q : A -> Prop) :
  holds4 r m0 m1 m2 m3 s -> 0 < r <= 200 -> bytes x0 -> bytes x1 -> bytes x2 -> bytes x3 ->
  off = zlen m0 mod r -> off = zlen m1 mod r -> off = zlen m2 mod r -> off = zlen m3 mod r ->
  len = zlen x0 -> len = zlen x1 -> len = zlen x2 -> len = zlen x3 -> 0 < len -> off + len = r ->
  (forall s', holds4 r (m0 ++ x0) (m1 ++ x1) (m2 ++ x2) (m3 ++ x3) s' -> wpn N (f s') Q) ->
  wpn N (bind (KeccakF1600x4_StateXORBytes s x0 x1 x2 x3 off len)
           (fun s => bind (KeccakF1600x4_StatePermute s) f)) Q.
Proof.
  intros (s0 & s1 & s2 & s3 & -> & H0 & H1 & H2 & H3) Hr B0 B1 B2 B3 O0 O1 O2 O3 L0 L1 L2 L3 Hp Hlt HQ.
  pose proof (Z.mod_pos_bound (zlen m0) r ltac:(lia)) as Hm.
  pose proof (proj1 (proj1 H0)). pose proof (proj1 (proj1 H1)). pose proof (proj1 (proj1 H2)). pose proof (proj1 (proj1 H3)).
  unfold KeccakF1600x4_StateXORBytes.
  apply wp_bind.
  apply wp_bind, wp_on0; auto. apply wp_xor_then; auto; try lia; [apply H0|]. intros t0 W0 T0. pose proof (proj1 W0). split; [auto|].
  apply wp_bind, wp_on1; auto. apply wp_xor_then; auto; try lia; [apply H1|]. intros t1 W1 T1. pose proof (proj1 W1). split; [auto|].
  apply wp_bind, wp_on2; auto. apply wp_xor_then; auto; try lia; [apply H2|]. intros t2 W2 T2. pose proof (proj1 W2). split; [auto|].
  apply wp_on3; auto. apply wp_xor_then; auto; try lia; [apply H3|]. intros t3 W3 T3. pose proof (proj1 W3). split; [auto|].
  unfold KeccakF1600x4_StatePermute. apply wp_bind.
  apply wp_bind, wp_on0; auto. apply wp_permute_bytes; auto. intros u0 V0 U0. pose proof (proj1 V0). split; [auto|].
  apply wp_bind, wp_on1; auto. apply wp_permute_bytes; auto. intros u1 V1 U1. pose proof (proj1 V1). split; [auto|].
  apply wp_bind, wp_on2; auto. apply wp_permute_bytes; auto. intros u2 V2 U2. pose proof (proj1 V2). split; [auto|].
  apply wp_on3; auto. apply wp_permute_bytes; auto. intros u3 V3 U3. pose proof (proj1 V3). split; [auto|].
  apply HQ. exists u0, u1, u2, u3. split; [reflexivity|]. split; [|split; [|split]].
  - apply (holds_xor_full r m0 s0 x0 t0 u0 off); auto; lia.
  - apply (holds_xor_full r m1 s1 x1 t1 u1 off); auto; lia.
  - apply (holds_xor_full r m2 s2 x2 t2 u2 off); auto; lia.
  - apply (holds_xor_full r m3 s3 x3 t3 u3 off); auto; lia.
Qed.

Lemma wp_pad4 {bo : byte_order} N r m0 m1 m2 m3 s p off (Q : list Z -> Prop) :
  holds4 r m0 m1 m2 m3 s -> 0 < r <= 200 -> 0 <= p < 128 ->
  off = zlen m0 mod r -> off = zlen m1 mod r -> off = zlen m2 mod r -> off = zlen m3 mod r ->
  (forall s', states4 (final r p m0) (final r p m1) (final r p m2) (final r p m3) s' -> Q s') ->
  wpn N (branch (off =? r - 1)
           (KeccakF1600x4_StateXORBytes s [u8 (p .| 128)] [u8 (p .| 128)] [u8 (p .| 128)] [u8 (p .| 128)] off 1)
           (bind (KeccakF1600x4_StateXORBytes s [p] [p] [p] [p] off 1)
              (fun s => KeccakF1600x4_StateXORBytes s [128] [128] [128] [128] (r - 1) 1))) Q.
Proof.
  intros (s0 & s1 & s2 & s3 & -> & H0 & H1 & H2 & H3) Hr Hp O0 O1 O2 O3 HQ.
  pose proof (Z.mod_pos_bound (zlen m0) r ltac:(lia)) as Hm.
  assert (Bp : is_byte (Z.lxor p 128)) by (apply is_byte_lxor; unfold is_byte; lia).
  assert (B1 : bytes [Z.lxor p 128]) by (repeat constructor; apply Bp).
  assert (B2 : bytes [p]) by (repeat constructor; lia).
  assert (B3 : bytes [128]) by (repeat constructor; lia).
  rewrite lor_128, u8_id by (auto; apply Bp).
  pose proof (proj1 (proj1 H0)). pose proof (proj1 (proj1 H1)). pose proof (proj1 (proj1 H2)). pose proof (proj1 (proj1 H3)).
  unfold KeccakF1600x4_StateXORBytes. apply wp_branch; intros C.
  - apply Z.eqb_eq in C.
    apply wp_bind, wp_on0; auto. apply wp_xor_then; auto; try lia; [apply H0|]. intros t0 W0 T0. pose proof (proj1 W0). split; [auto|].
    apply wp_bind, wp_on1; auto. apply wp_xor_then; auto; try lia; [apply H1|]. intros t1 W1 T1. pose proof (proj1 W1). split; [auto|].
    apply wp_bind, wp_on2; auto. apply wp_xor_then; auto; try lia; [apply H2|]. intros t2 W2 T2. pose proof (proj1 W2). split; [auto|].
    apply wp_on3; auto. apply wp_xor_then; auto; try lia; [apply H3|]. intros t3 W3 T3. pose proof (proj1 W3). split; [auto|].
    apply HQ. exists t0, t1, t2, t3. split; [reflexivity|]. split; [|split; [|split]]; (split; [assumption|]).
    + apply (final_long r p m0 s0); auto; congruence.
    + apply (final_long r p m1 s1); auto; congruence.
    + apply (final_long r p m2 s2); auto; congruence.
    + apply (final_long r p m3 s3); auto; congruence.
  - apply wp_bind.
    apply wp_bind, wp_on0; auto. apply wp_xor_then; auto; try lia; [apply H0|]. intros t0 W0 T0. pose proof (proj1 W0). split; [auto|].
    apply wp_bind, wp_on1; auto. apply wp_xor_then; auto; try lia; [apply H1|]. intros t1 W1 T1. pose proof (proj1 W1). split; [auto|].
    apply wp_bind, wp_on2; auto. apply wp_xor_then; auto; try lia; [apply H2|]. intros t2 W2 T2. pose proof (proj1 W2). split; [auto|].
    apply wp_on3; auto. apply wp_xor_then; auto; try lia; [apply H3|]. intros t3 W3 T3. pose proof (proj1 W3). split; [auto|].
    apply wp_bind, wp_on0; auto. apply wp_xor_then; auto; try lia. intros u0 V0 U0. pose proof (proj1 V0). split; [auto|].
    apply wp_bind, wp_on1; auto. apply wp_xor_then; auto; try lia. intros u1 V1 U1. pose proof (proj1 V1). split; [auto|].
    apply wp_bind, wp_on2; auto. apply wp_xor_then; auto; try lia. intros u2 V2 U2. pose proof (proj1 V2). split; [auto|].
    apply wp_on3; auto. apply wp_xor_then; auto; try lia. intros u3 V3 U3. pose proof (proj1 V3). split; [auto|].
    apply HQ. exists u0, u1, u2, u3. split; [reflexivity|]. split; [|split; [|split]]; (split; [assumption|]).
    + apply (final_short r p m0 s0 t0); auto; congruence.
    + apply (final_short r p m1 s1 t1); auto; congruence.
    + apply (final_short r p m2 s2 t2); auto; congruence.
    + apply (final_short r p m3 s3 t3); auto; congruence.
Qed.

Lemma wp_keccak_absorb_x4 {bo : byte_order} N r in0 in1 in2 in3 inlen p (Q : list Z -> Prop) :
  0 < r <= 200 -> 0 <= p < 128 -> bytes in0 -> bytes in1 -> bytes in2 -> bytes in3 ->
  0 <= inlen < 2 ^ 63 -> inlen <= zlen in0 -> inlen <= zlen in1 -> inlen <= zlen in2 -> inlen <= zlen in3 ->
  (forall s', states4 (final r p (slice in0 0 inlen)) (final r p (slice in1 0 inlen))
                      (final r p (slice in2 0 inlen)) (final r p (slice in3 0 inlen)) s' -> Q s') ->
  wpn N (bind zero_x4 (fun s => keccak_absorb_x4 s r in0 in1 in2 in3 inlen p)) Q.
Proof.
  intros Hr Hp B0 B1 B2 B3 Hi L0 L1 L2 L3 HQ. apply wp_bind. unfold zero_x4.
  apply wp_bind, wp_emit, wp_ret. unfold keccak_absorb_x4. apply wp_bind.
  assert (Z0 : holds r [] (repeat 0 25)).
  { apply holds_zero; [lia| |].
    - split; [reflexivity|]. apply Forall_forall. intros x Hx. apply repeat_spec in Hx. subst. unfold wf64; lia.
    - intros i Hi'. apply zget_repeat. lia. }
  apply (wp_while_measure N (fun '(s, pos, ml) => exists k, pos = r * k /\ 0 <= k /\ 0 <= ml /\ pos + ml = inlen /\
            holds4 r (slice in0 0 pos) (slice in1 0 pos) (slice in2 0 pos) (slice in3 0 pos) s)
          (fun '(s, pos, ml) => ml)).
  - exists 0. do 4 (split; [lia|]). rewrite !slice_nil.
    exists (repeat 0 25), (repeat 0 25), (repeat 0 25), (repeat 0 25). split; [reflexivity|].
    split; [|split; [|split]]; exact Z0.
  - lia.
  - intros [[st pos] ml] (k & Ep & Hk & Hml & Esum & HH) Hc.
    assert (0 <= pos) by nia.
    split; [lia|]. uid. do 4 (apply wp_bind, wp_aslice; try lia).
    assert (Em : 0 = pos mod r) by (rewrite Ep, Z.mul_comm, Z.mod_mul; lia).
    eapply (wp_xor4_full N r); [exact HH| ..]; try (apply bytes_slice'; assumption);
      try (rewrite ?zlen_slice; lia); try (rewrite zlen_slice, Z.sub_0_r by lia; exact Em).
    intros s' HH'. apply wp_ret. split; [|lia]. exists (k + 1). do 4 (split; [lia|]).
    rewrite !slice_cat in HH' by lia. exact HH'.
  - intros [[st pos] ml] (k & Ep & Hk & Hml & Esum & HH) Hc.
    assert (0 <= pos) by nia.
    assert (Em : 0 = pos mod r) by (rewrite Ep, Z.mul_comm, Z.mod_mul; lia).
    assert (Em' : ml = inlen mod r) by (apply (Z.mod_unique _ _ k); lia).
    uid. apply wp_bind. cbv zeta.
    assert (P : forall s', holds4 r (slice in0 0 inlen) (slice in1 0 inlen) (slice in2 0 inlen) (slice in3 0 inlen) s' ->
       wpn N (branch (ml =? r - 1)
           (KeccakF1600x4_StateXORBytes s' [u8 (p .| 128)] [u8 (p .| 128)] [u8 (p .| 128)] [u8 (p .| 128)] ml 1)
           (bind (KeccakF1600x4_StateXORBytes s' [p] [p] [p] [p] ml 1)
              (fun s => KeccakF1600x4_StateXORBytes s [128] [128] [128] [128] (r - 1) 1))) Q).
    { intros s' HH'. eapply wp_pad4; [exact HH'|lia|lia| | | | |exact HQ];
        rewrite zlen_slice, Z.sub_0_r by lia; exact Em'. }
    apply wp_branch; intros C.
    + do 4 (apply wp_bind, wp_aslice; try lia).
      eapply (wp_xor4_part N r); [exact HH| ..]; try (apply bytes_slice'; assumption);
        try (rewrite ?zlen_slice; lia); try (rewrite zlen_slice, Z.sub_0_r by lia; exact Em).
      intros s' HH'. apply P. rewrite !slice_cat, !Esum in HH' by lia. exact HH'.
    + apply wp_ret. apply P. replace inlen with pos by lia. exact HH.
Qed.

Definition squeezing4 (r : Z) (S0 S1 S2 S3 : list Z) (j : Z) (s : list Z) : Prop :=
  exists s0 s1 s2 s3, s = join4 s0 s1 s2 s3 /\ squeezing r S0 j (s0, 0) /\ squeezing r S1 j (s1, 0) /\
    squeezing r S2 j (s2, 0) /\ squeezing r S3 j (s3, 0).

Lemma squeezing_next r S0 j s s' : squeezing r S0 j (s, 0) -> 0 < r -> wfs s' -> state_bytes s' = fb (state_bytes s) ->
  squeezing r S0 (j + r) (s', 0).
Proof.
  intros (W & WS & Hc & Hj & q & Hq & E & C) Hr W' E'. cbn [fst snd] in *.
  split; [exact W'|]. split; [exact WS|]. cbn [fst snd]. split; [lia|]. split; [lia|].
  exists (q + 1). split; [lia|]. split; [|lia].
  rewrite E', E. replace (Z.to_nat (q + 1)) with (Datatypes.S (Z.to_nat q)) by lia. reflexivity.
Qed.

(** Writing the next bytes of a buffer *)
Lemma wp_put {A} N (F : Z -> A) h0 pos len d (Q : list A -> Prop) :
  0 <= pos -> 0 <= len -> pos + len <= zlen h0 -> d = map (fun i => F (pos + i)) (range len) ->
  Q (map F (range (pos + len)) ++ skipn (Z.to_nat (pos + len)) h0) ->
  wpn N (asplice (map F (range pos) ++ skipn (Z.to_nat pos) h0) pos d) Q.
Proof.
  intros Hp Hl H -> HQ.
  assert (Lp : zlen (map F (range pos)) = pos) by (rewrite zlen_map, zlen_range; lia).
  assert (Ll : zlen (map (fun i => F (pos + i)) (range len)) = len) by (rewrite zlen_map, zlen_range; lia).
  rewrite (skipn_slice h0 pos len) by lia. apply wp_asplice.
  - lia.
  - rewrite !zlen_app, zlen_slice, zlen_skipn by lia. lia.
  - rewrite splice_app; [|exact Lp|rewrite zlen_slice; lia].
    rewrite app_assoc. rewrite range_app, map_app, map_map in HQ by lia. exact HQ.
Qed.

Lemma wp_squeezeblocks_x4 {bo : byte_order} N h0 h1 h2 h3 nblocks s r S0 S1 S2 S3 j (Q : x4 (list Z) * list Z -> Prop) :
  squeezing4 r S0 S1 S2 S3 j s -> 0 < r <= 200 -> 0 <= nblocks ->
  r * nblocks <= zlen h0 -> r * nblocks <= zlen h1 -> r * nblocks <= zlen h2 -> r * nblocks <= zlen h3 ->
  (let out S h := map (fun i => stream r (fb S) (j + i)) (range (r * nblocks)) ++ skipn (Z.to_nat (r * nblocks)) h in
   forall s', squeezing4 r S0 S1 S2 S3 (j + r * nblocks) s' ->
     Q ((out S0 h0, out S1 h1, out S2 h2, out S3 h3), s')) ->
  wpn N (keccak_squeezeblocks_x4 h0 h1 h2 h3 nblocks s r) Q.
Proof.
  intros Hs Hr Hn L0 L1 L2 L3 HQ. unfold keccak_squeezeblocks_x4. apply wp_bind. cbv zeta in HQ.
  set (F := fun S i => stream r (fb S) (j + i)) in *.
  set (O := fun S h pos => map (F S) (range pos) ++ skipn (Z.to_nat pos) h).
  apply (wp_while N (fun k '(h', pos, nb, s) => pos = r * k /\ nb = nblocks - k /\
            h' = (O S0 h0 pos, O S1 h1 pos, O S2 h2 pos, O S3 h3 pos) /\
            squeezing4 r S0 S1 S2 S3 (j + pos) s) nblocks).
  - lia.
  - lia.
  - split; [lia|]. split; [lia|]. split; [reflexivity|]. now rewrite Z.add_0_r.
  - intros k [[[h' pos] nb] s1] Hk (Ep & En & Eh & Hs1). split; [lia|].
    destruct Hs1 as (s0' & s1' & s2' & s3' & -> & Q0 & Q1 & Q2 & Q3). rewrite Eh.
    assert (K0 : zlen s0' = 25) by apply Q0. assert (K1 : zlen s1' = 25) by apply Q1.
    assert (K2 : zlen s2' = 25) by apply Q2. assert (K3 : zlen s3' = 25) by apply Q3.
    assert (0 <= pos) by nia. assert (pos + r <= r * nblocks) by nia.
    assert (LO : forall S h, r * nblocks <= zlen h -> zlen (O S h pos) = zlen h).
    { intros S h Lh. unfold O. rewrite zlen_app, zlen_map, zlen_range, zlen_skipn by lia. lia. }
    pose proof (LO S0 h0 L0). pose proof (LO S1 h1 L1). pose proof (LO S2 h2 L2). pose proof (LO S3 h3 L3).
    unfold KeccakF1600x4_StatePermute, KeccakF1600x4_StateExtractBytes.
    apply wp_bind.
    apply wp_bind, wp_on0; auto. apply wp_permute_bytes; [apply Q0|]. intros u0 V0 U0. pose proof (proj1 V0). split; [auto|].
    apply wp_bind, wp_on1; auto. apply wp_permute_bytes; [apply Q1|]. intros u1 V1 U1. pose proof (proj1 V1). split; [auto|].
    apply wp_bind, wp_on2; auto. apply wp_permute_bytes; [apply Q2|]. intros u2 V2 U2. pose proof (proj1 V2). split; [auto|].
    apply wp_on3; auto. apply wp_permute_bytes; [apply Q3|]. intros u3 V3 U3. pose proof (proj1 V3). split; [auto|].
    do 4 (apply wp_bind, wp_aslice; try lia). apply wp_bind.
    apply wp_bind, wp_at0; auto. apply wp_bind, wp_extract_all; [assumption|lia|rewrite zlen_slice; lia|lia|].
    apply wp_bind, wp_at1; auto. apply wp_bind, wp_extract_all; [assumption|lia|rewrite zlen_slice; lia|lia|].
    apply wp_bind, wp_at2; auto. apply wp_bind, wp_extract_all; [assumption|lia|rewrite zlen_slice; lia|lia|].
    apply wp_bind, wp_at3; auto. apply wp_bind, wp_extract_all; [assumption|lia|rewrite zlen_slice; lia|lia|].
    apply wp_ret. rewrite !Z.add_0_l.
    assert (SL : forall S s s', squeezing r S (j + pos) (s, 0) -> wfs s' -> state_bytes s' = fb (state_bytes s) ->
      slice (state_bytes s') 0 r = map (fun i => F S (pos + i)) (range r)).
    { intros S s2 s3 HS W2 E2. rewrite (fresh_slice r S (j + pos) s2) by (auto; lia). apply map_range_ext.
      intros i Hi. unfold F. f_equal. lia. }
    apply wp_bind, (wp_put N (F S0) h0 pos r); try lia; [apply (SL _ _ _ Q0 V0 U0)|].
    apply wp_bind, (wp_put N (F S1) h1 pos r); try lia; [apply (SL _ _ _ Q1 V1 U1)|].
    apply wp_bind, (wp_put N (F S2) h2 pos r); try lia; [apply (SL _ _ _ Q2 V2 U2)|].
    apply wp_bind, (wp_put N (F S3) h3 pos r); try lia; [apply (SL _ _ _ Q3 V3 U3)|].
    apply wp_ret. split; [lia|]. split; [lia|]. split; [reflexivity|].
    rewrite Z.add_assoc. exists u0, u1, u2, u3. split; [reflexivity|].
    split; [|split; [|split]]; (eapply squeezing_next; [eassumption|lia|assumption|assumption]).
  - intros [[[h' pos] nb] s1] (Ep & En & Eh & Hs1). split; [lia|].
    apply wp_ret. rewrite Eh, Ep. apply HQ. now rewrite <- Ep.
Qed.

(** four states of SHAKE128 or SHAKE256 *)
Definition xof4 (r : Z) (m0 m1 m2 m3 : list Z) (j : Z) (s : list Z) : Prop :=
  exists s0 s1 s2 s3, s = join4 s0 s1 s2 s3 /\ xof r m0 j s0 /\ xof r m1 j s1 /\ xof r m2 j s2 /\ xof r m3 j s3.

Lemma xof4_squeezing r m0 m1 m2 m3 j s : xof4 r m0 m1 m2 m3 j s <->
  (bytes m0 /\ bytes m1 /\ bytes m2 /\ bytes m3) /\
  squeezing4 r (final r 31 m0) (final r 31 m1) (final r 31 m2) (final r 31 m3) j s.
Proof.
  unfold xof4, squeezing4, xof. split.
  - intros (s0 & s1 & s2 & s3 & E & H). split; [tauto|]. exists s0, s1, s2, s3. tauto.
  - intros (B & s0 & s1 & s2 & s3 & E & H). exists s0, s1, s2, s3. tauto.
Qed.

Lemma wp_shakex4_absorb {bo : byte_order} N r in0 in1 in2 in3 inlen (Q : list Z -> Prop) :
  0 < r <= 200 -> bytes in0 -> bytes in1 -> bytes in2 -> bytes in3 -> 0 <= inlen < 2 ^ 63 ->
  inlen <= zlen in0 -> inlen <= zlen in1 -> inlen <= zlen in2 -> inlen <= zlen in3 ->
  (forall s', xof4 r (slice in0 0 inlen) (slice in1 0 inlen) (slice in2 0 inlen) (slice in3 0 inlen) 0 s' -> Q s') ->
  wpn N (bind zero_x4 (fun s => keccak_absorb_x4 s r in0 in1 in2 in3 inlen 31)) Q.
Proof.
  intros Hr B0 B1 B2 B3 Hi L0 L1 L2 L3 HQ. apply wp_keccak_absorb_x4; auto; try lia.
  intros s (s0 & s1 & s2 & s3 & -> & [W0 E0] & [W1 E1] & [W2 E2] & [W3 E3]). apply HQ. apply xof4_squeezing.
  split; [repeat split; now apply bytes_slice'|]. exists s0, s1, s2, s3. split; [reflexivity|].
  split; [|split; [|split]]; (apply squeezing_start; auto; [lia|apply wfb_final; auto; [lia|now apply bytes_slice']]).
Qed.
Lemma wp_shake128x4_absorb {bo : byte_order} N in0 in1 in2 in3 inlen (Q : list Z -> Prop) :
  bytes in0 -> bytes in1 -> bytes in2 -> bytes in3 -> 0 <= inlen < 2 ^ 63 ->
  inlen <= zlen in0 -> inlen <= zlen in1 -> inlen <= zlen in2 -> inlen <= zlen in3 ->
  (forall s', xof4 168 (slice in0 0 inlen) (slice in1 0 inlen) (slice in2 0 inlen) (slice in3 0 inlen) 0 s' -> Q s') ->
  wpn N (shake128x4_absorb in0 in1 in2 in3 inlen) Q.
Proof. intros. unfold shake128x4_absorb, SHAKE128_RATE. apply wp_shakex4_absorb; auto; lia. Qed.

Lemma wp_shake128x4_squeezeblocks {bo : byte_order} N h0 h1 h2 h3 nblocks s m0 m1 m2 m3 j (Q : x4 (list Z) * list Z -> Prop) :
  xof4 168 m0 m1 m2 m3 j s -> 0 <= j -> 0 <= nblocks -> 168 * nblocks <= zlen h0 -> 168 * nblocks <= zlen h1 ->
  168 * nblocks <= zlen h2 -> 168 * nblocks <= zlen h3 ->
  (let out m h := slice (SHAKE128 m (j + 168 * nblocks)) j (j + 168 * nblocks) ++
                  skipn (Z.to_nat (168 * nblocks)) h in
   forall s', xof4 168 m0 m1 m2 m3 (j + 168 * nblocks) s' ->
     Q ((out m0 h0, out m1 h1, out m2 h2, out m3 h3), s')) ->
  wpn N (shake128x4_squeezeblocks h0 h1 h2 h3 nblocks s) Q.
Proof.
  intros Hx Hj Hn L0 L1 L2 L3 HQ. unfold shake128x4_squeezeblocks, SHAKE128_RATE. cbv zeta in HQ.
  apply xof4_squeezing in Hx as [(B0 & B1 & B2 & B3) Hs].
  eapply wp_squeezeblocks_x4; [exact Hs|lia|lia|lia|lia|lia|lia|]. intros out s' Hs'. unfold out.
  rewrite !stream_SHAKE128 by (auto; lia). apply HQ. apply xof4_squeezing. auto.
Qed.

(** the end of the output, taken from a temporary block *)
Lemma stream_tail S h r a n : 0 < r -> 0 <= a -> 0 <= n <= r -> r * a + n <= zlen h ->
  let t := map (fun i => stream r S (r * a + i)) (range r) in
  firstn (Z.to_nat (r * a)) (map (stream r S) (range (r * a)) ++ skipn (Z.to_nat (r * a)) h) ++ slice t 0 n
  ++ skipn (Z.to_nat (r * a + n)) (map (stream r S) (range (r * a)) ++ skipn (Z.to_nat (r * a)) h) =
  map (stream r S) (range (r * a + n)) ++ skipn (Z.to_nat (r * a + n)) h.
Proof.
  intros Hr Ha Hn Hl t. assert (0 <= r * a) by nia.
  assert (L : zlen (map (stream r S) (range (r * a))) = r * a) by (rewrite zlen_map, zlen_range; lia).
  rewrite range_app, map_app by lia. rewrite <- app_assoc. f_equal; [|f_equal].
  - replace (Z.to_nat (r * a)) with (length (map (stream r S) (range (r * a))) + 0)%nat at 1 by (unfold zlen in L; lia).
    rewrite firstn_app_2, firstn_O. apply app_nil_r.
  - apply (zlist_ext 0).
    + unfold t. rewrite zlen_slice; rewrite ?zlen_map, ?zlen_range; lia.
    + unfold t. rewrite zlen_slice by (rewrite ?zlen_map, ?zlen_range; lia). intros i Hi.
      rewrite zget_slice, zget_map_range by lia. rewrite map_map, zget_map_range by lia. reflexivity.
  - replace (Z.to_nat (r * a + n)) with (Z.to_nat n + Z.to_nat (r * a))%nat at 1 by lia.
    rewrite <- skipn_skipn', skipn_app_exact by auto. rewrite skipn_skipn'. f_equal. lia.
Qed.

Lemma wp_shake256x4 {bo : byte_order} N J h0 h1 h2 h3 outlen in0 in1 in2 in3 inlen (Q : x4 (list Z) -> Prop) :
  bytes in0 -> bytes in1 -> bytes in2 -> bytes in3 -> 0 <= inlen < 2 ^ 63 ->
  inlen <= zlen in0 -> inlen <= zlen in1 -> inlen <= zlen in2 -> inlen <= zlen in3 ->
  0 <= outlen < 2 ^ 63 ->
  outlen <= zlen h0 -> outlen <= zlen h1 -> outlen <= zlen h2 -> outlen <= zlen h3 ->
  (let out m h := SHAKE256 (slice m 0 inlen) outlen ++ skipn (Z.to_nat outlen) h in
   Q (out in0 h0, out in1 h1, out in2 h2, out in3 h3)) ->
  wpn N (shake256x4 J h0 h1 h2 h3 outlen in0 in1 in2 in3 inlen) Q.
Proof.
  intros B0 B1 B2 B3 Hi I0 I1 I2 I3 Ho L0 L1 L2 L3 HQ. cbv zeta in HQ. unfold shake256x4, SHAKE256_RATE.
  pose proof (Z.div_mod outlen 136 ltac:(lia)) as Hd. pose proof (Z.mod_pos_bound outlen 136 ltac:(lia)) as Hm.
  assert (0 <= outlen / 136) by (apply Z.div_pos; lia).
  apply wp_bind, wp_div. set (nb := outlen / 136) in *. clearbody nb.
  apply wp_bind. unfold shake256x4_absorb, SHAKE256_RATE. apply wp_shakex4_absorb; auto; try lia.
  intros s Hx. apply xof4_squeezing in Hx as [(C0 & C1 & C2 & C3) Hs].
  apply wp_bind. unfold shake256x4_squeezeblocks, SHAKE256_RATE.
  eapply wp_squeezeblocks_x4; [exact Hs|lia|lia|lia|lia|lia|lia|]. intros out s' Hs'. unfold out. clear out.
  rewrite !stream_at_0. rewrite Z.add_0_l in Hs'.
  assert (Eo : u64 (outlen - nb * 136) = outlen - nb * 136).
  { apply u64_id. change (2 ^ 64) with 18446744073709551616. lia. }
  rewrite !Eo. clear Eo. set (n := outlen - nb * 136). 
  replace outlen with (136 * nb + n) in * by (unfold n; lia). rewrite (Z.mul_comm nb 136).
  assert (Hn : 0 <= n < 136) by (unfold n; lia). clearbody n. clear Hd Hm.
  rewrite !SHAKE256_stream in HQ by (auto; lia).
  apply wp_branch; intros C.
  - apply wp_bind. eapply wp_squeezeblocks_x4; [exact Hs'|lia|lia| | | | |];
      try (rewrite zlen_uninit by lia; lia).
    intros out s'' _. unfold out. clear out. change (136 * 1) with 136.
    assert (LT : forall S, zlen (map (fun i => stream 136 S (136 * nb + i)) (range 136)) = 136)
      by (intros; rewrite zlen_map, zlen_range; lia).
    assert (LH : forall S h, 136 * nb + n <= zlen h ->
       zlen (map (stream 136 S) (range (136 * nb)) ++ skipn (Z.to_nat (136 * nb)) h) = zlen h).
    { intros S h Lh. rewrite zlen_app, zlen_map, zlen_range, zlen_skipn by lia. lia. }
    assert (ST : forall S h k, 136 * nb + n <= zlen h ->
      splice (map (stream 136 S) (range (136 * nb)) ++ skipn (Z.to_nat (136 * nb)) h) (136 * nb)
        (slice (map (fun i => stream 136 S (136 * nb + i)) (range 136) ++ skipn (Z.to_nat 136) (uninit J k 136)) 0 (0 + n)) =
      map (stream 136 S) (range (136 * nb + n)) ++ skipn (Z.to_nat (136 * nb + n)) h).
    { intros S h k Lh. rewrite <- (stream_tail S h 136 nb n) by lia. rewrite Z.add_0_l.
      rewrite slice_app_prefix by (rewrite ?LT; lia).
      unfold splice. f_equal. f_equal. f_equal.
      set (sl := slice _ 0 n). assert (Lsl : zlen sl = n) by (unfold sl; rewrite zlen_slice; rewrite ?LT; lia).
      unfold zlen in Lsl. lia. }
    assert (LU : forall S k, zlen (map (fun i => stream 136 S (136 * nb + i)) (range 136) ++
        skipn (Z.to_nat 136) (uninit J k 136)) = 136).
    { intros. rewrite zlen_app, LT, zlen_skipn; rewrite zlen_uninit; lia. }
    do 4 (apply wp_bind, wp_memcpy; [lia|lia|rewrite LU; lia|lia|rewrite LH; lia|]; rewrite ST by assumption).
    apply wp_ret. exact HQ.
  - apply wp_ret. assert (n = 0) by lia. subst n. rewrite Z.add_0_r in HQ. exact HQ.
Qed.

Lemma wp_val_eq {A} (m1 m2 : M A) : (exists a, wp m1 (fun x => x = a) /\ wp m2 (fun x => x = a)) -> val m1 = val m2.
Proof. intros (a & H1 & H2). now rewrite (wp_val _ _ H1), (wp_val _ _ H2). Qed.

Lemma extract_le_same s data off len : wfs s -> 0 <= off -> 0 <= len <= zlen data -> off + len <= 200 ->
  val (KeccakF1600_StateExtractBytes_le s data off len) = val (KeccakF1600_StateExtractBytes_be s data off len).
Proof. intros. apply wp_val_eq. eexists. split; [apply wp_extract_le; auto|apply wp_extract_be; auto]. Qed.
Lemma xor_le_same s data off len : wfs s -> bytes data -> 0 <= off -> 0 <= len <= zlen data -> off + len <= 200 ->
  val (KeccakF1600_StateXORBytes_le s data off len) = val (KeccakF1600_StateXORBytes_be s data off len).
Proof.
  intros. apply wp_val_eq. eexists. split; [apply wp_xor_le; auto|apply wp_xor_be; auto].
  intros s' W' E'. rewrite <- E'. now rewrite bytes_state_bytes.
Qed.
