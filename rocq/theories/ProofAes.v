(** * The bitsliced AES is FIPS 197 *)

From Coq Require Import ZArith List Bool Lia.
From Verif Require Import CSem ModelArith ModelAes Spec202 SpecAes CSemFacts ProofAesBits ProofAesRound ProofAesKey.
Import ListNotations.
Open Scope Z_scope.
Ltac Zify.zify_post_hook ::= idtac.

Lemma zget_splice {A} (d : A) l o new i : 0 <= o -> o + zlen new <= zlen l -> 0 <= i < zlen l ->
  zget d (splice l o new) i =
  if (o <=? i) && (i <? o + zlen new) then zget d new (i - o) else zget d l i.
Proof.
  intros Ho Hn Hi. pose proof (zlen_nonneg new). unfold splice.
  rewrite zget_app by lia.
  assert (E : zlen (firstn (Z.to_nat o) l) = o) by (rewrite zlen_firstn; lia).
  rewrite E. destruct (Z.ltb_spec i o).
  - destruct (Z.leb_spec o i); [lia|]. cbn [andb]. now rewrite zget_firstn by lia.
  - destruct (Z.leb_spec o i); [|lia]. cbn [andb]. rewrite zget_app by lia.
    destruct (Z.ltb_spec (i - o) (zlen new)), (Z.ltb_spec i (o + zlen new)); try lia; auto.
    replace (Z.to_nat o + length new)%nat with (Z.to_nat (o + zlen new)) by (unfold zlen; lia).
    rewrite zget_skipn by lia. f_equal. lia.
Qed.

(** ** The four states in a sliced state *)
Definition state (s : Z -> Z) (b : Z) : list Z := map (fun n => s (16 * (n mod 4) + 4 * (n / 4) + b)) (range 16).
Lemma state_sub s b : state (fun i => SBox (s i)) b = SubBytes (state s b).
Proof. unfold state, SubBytes. now rewrite map_map. Qed.
Lemma state_shift s b : 0 <= b < 4 ->
  state (fun i => s (16 * (i / 16) + (i + 4 * (i / 16)) mod 16)) b = ShiftRows (state s b).
Proof. intros Hb. destruct (four b Hb) as [-> |[-> |[-> | ->]]]; vm_compute; reflexivity. Qed.
Lemma state_mix s b : 0 <= b < 4 ->
  state (fun i => Z.lxor (Z.lxor (Z.lxor (times 2 (s i)) (times 3 (s ((i + 16) mod 64)))) (s ((i + 32) mod 64))) (s ((i + 48) mod 64))) b
  = MixColumns (state s b).
Proof.
  intros Hb. unfold MixColumns, entry. change at_ with (@zget Z 0).
  generalize (times 2) (times 3). intros t2 t3. generalize Z.lxor. intros xor.
  destruct (four b Hb) as [-> |[-> |[-> | ->]]]; vm_compute; reflexivity.
Qed.
Lemma slice_words {A} (d : A) (w : list A) off : 0 <= off -> off + 4 <= zlen w ->
  slice w off (off + 4) = [zget d w off; zget d w (off + 1); zget d w (off + 2); zget d w (off + 3)].
Proof.
  intros H1 H2. apply (zlist_ext d).
  - rewrite zlen_slice by lia. change (off + 4 - off = 4). lia.
  - rewrite zlen_slice by lia. intros i Hi. rewrite zget_slice by lia.
    destruct (four i ltac:(lia)) as [-> |[-> |[-> | ->]]]; rewrite ?Z.add_0_r; reflexivity.
Qed.
Lemma state_key s b W nr r : 0 <= b < 4 -> words_ok W nr -> 0 <= r <= nr ->
  state (fun i => Z.lxor (s i) (key_byte W r i)) b = AddRoundKey (state s b) (slice W (4 * r) (4 * r + 4)).
Proof.
  intros Hb [LW HW] Hr. rewrite (slice_words [] W) by lia.
  assert (K : forall c, 0 <= c < 4 -> exists w0 w1 w2 w3, zget [] W (4 * r + c) = [w0; w1; w2; w3]).
  { intros c Hc. destruct (HW (4 * r + c) ltac:(lia)) as [L _].
    rewrite (take4 _ L). eauto. }
  unfold key_byte, AddRoundKey.
  destruct (K 0 ltac:(lia)) as [a0 [a1 [a2 [a3 E0]]]]. destruct (K 1 ltac:(lia)) as [b0 [b1 [b2 [b3 E1]]]].
  destruct (K 2 ltac:(lia)) as [c0 [c1 [c2 [c3 E2]]]]. destruct (K 3 ltac:(lia)) as [d0 [d1 [d2 [d3 E3]]]].
  assert (G : forall i, 0 <= i < 64 -> key_byte W r i =
     zget 0 (zget [] [[a0; a1; a2; a3]; [b0; b1; b2; b3]; [c0; c1; c2; c3]; [d0; d1; d2; d3]] ((i / 4) mod 4)) (i / 16)).
  { intros i Hi. unfold key_byte. destruct (index_facts i Hi) as [_ [Hc _]].
    destruct (four _ Hc) as [-> |[-> |[-> | ->]]]; [rewrite E0|rewrite E1|rewrite E2|rewrite E3]; reflexivity. }
  rewrite Z.add_0_r in E0. rewrite E0, E1, E2, E3.
  transitivity (state (fun i => Z.lxor (s i) (zget 0 (zget [] [[a0; a1; a2; a3]; [b0; b1; b2; b3]; [c0; c1; c2; c3]; [d0; d1; d2; d3]] ((i / 4) mod 4)) (i / 16))) b).
  - unfold state. apply map_ext_in. intros n Hn%in_range. fold (key_byte W r (16 * (n mod 4) + 4 * (n / 4) + b)).
    rewrite G; [reflexivity|].
    assert (0 <= n mod 4 < 4) by (apply Z.mod_pos_bound; lia).
    assert (0 <= n / 4 < 4) by (split; [apply Z.div_pos; lia|apply Z.div_lt_upper_bound; lia]). lia.
  - unfold xor_bytes. generalize Z.lxor. intros xor.
    destruct (four b Hb) as [-> |[-> |[-> | ->]]]; vm_compute; reflexivity.
Qed.

(** ** The rounds *)
Definition body_round (sk_exp : list Z) (i : Z) (q : list Z) : M (list Z) :=
  bind (br_aes_ct64_bitslice_Sbox q) (fun q => bind (shift_rows q) (fun q =>
  bind (mix_columns q) (fun q => add_round_key q sk_exp (Z.shiftl i 3)))).
Lemma wp_round W nr sk q s i : words_ok W nr -> expanded W nr sk -> 0 <= i <= nr -> sliced q s ->
  wp (body_round sk i q) (fun q' => exists s', sliced q' s' /\ forall b, 0 <= b < 4 ->
    state s' b = AddRoundKey (MixColumns (ShiftRows (SubBytes (state s b)))) (slice W (4 * i) (4 * i + 4))).
Proof.
  intros HW [Lsk Hsk] Hi Hq. unfold body_round.
  replace (Z.shiftl i 3) with (8 * i) by (rewrite Z.shiftl_mul_pow2 by lia; lia).
  apply wp_bind. eapply wp_mono; [apply wp_sbox, Hq|]. clear q Hq. intros q Hq.
  apply wp_bind. eapply wp_mono; [apply wp_shift_rows, Hq|]. clear q Hq. intros q Hq.
  apply wp_bind. eapply wp_mono; [apply wp_mix_columns, Hq|]. clear q Hq. intros q Hq.
  eapply wp_mono; [apply (wp_add_round_key _ _ _ _ (key_byte W i) Hq); [lia|lia|now apply Hsk]|]. clear q Hq. intros q Hq.
  eexists. split; [exact Hq|]. intros b Hb.
  rewrite (state_key (fun i => Z.lxor (Z.lxor (Z.lxor _ _) _) _) b W nr i) by auto. f_equal.
  rewrite (state_mix (fun i => SBox _) b) by auto. f_equal.
  rewrite (state_shift (fun i => SBox (s i)) b) by auto. now rewrite state_sub.
Qed.
Lemma wp_rounds W nr sk q s : words_ok W nr -> expanded W nr sk -> 1 <= nr -> sliced q s ->
  wp (for_up 1 nr 1 (body_round sk) q) (fun q' => exists s', sliced q' s' /\ forall b, 0 <= b < 4 ->
    state s' b = rounds (Z.to_nat (nr - 1)) 1 W (state s b)).
Proof.
  intros HW Hsk Hn Hq.
  apply (wp_for _ (fun i q => exists s', sliced q s' /\ forall b, 0 <= b < 4 ->
    rounds (Z.to_nat (nr - i)) i W (state s' b) = rounds (Z.to_nat (nr - 1)) 1 W (state s b))).
  { lia. } { exists s. auto. }
  { clear q Hq. intros i q Hi [s' [Hq Hs]]. eapply wp_mono; [apply (wp_round W nr sk q s' i HW Hsk); [lia|exact Hq]|].
    clear q Hq. intros q [s2 [Hq H2]]. exists s2. split; [auto|]. intros b Hb. rewrite <- Hs by auto.
    replace (Z.to_nat (nr - i)) with (S (Z.to_nat (nr - (i + 1)))) by lia. cbn [rounds]. now rewrite H2. }
  clear q Hq. intros q [s' [Hq Hs]]. exists s'. split; [auto|]. intros b Hb. rewrite <- Hs by auto.
  now rewrite Z.sub_diag.
Qed.

(** ** Storing the words *)
Lemma wp_enc32le dst off x l : holds4 x l -> 0 <= off -> off + 4 <= zlen dst ->
  wp (br_enc32le dst off x) (fun d => zlen d = zlen dst /\ forall m, 0 <= m < zlen dst ->
    zget 0 d m = if (off <=? m) && (m <? off + 4) then zget 0 l (m - off) else zget 0 dst m).
Proof.
  intros Hx Ho Hl. unfold br_enc32le.
  assert (B0 := holds_byte x l 0 Hx ltac:(lia)). assert (B1 := holds_byte x l 1 Hx ltac:(lia)).
  assert (B2 := holds_byte x l 2 Hx ltac:(lia)). assert (B3 := holds_byte x l 3 Hx ltac:(lia)).
  rewrite Z.shiftr_0_r in B0. change (8 * 1) with 8 in B1. change (8 * 2) with 16 in B2. change (8 * 3) with 24 in B3.
  rewrite B0, B1, B2, B3.
  apply wp_bind, wp_aset; [lia|]. apply wp_bind, wp_aset; [rewrite zlen_set; lia|].
  apply wp_bind, wp_aset; [rewrite !zlen_set; rewrite ?zlen_set; lia|].
  apply wp_aset; [rewrite !zlen_set; rewrite ?zlen_set; rewrite ?zlen_set; lia|].
  split; [rewrite !zlen_set; rewrite ?zlen_set; rewrite ?zlen_set; rewrite ?zlen_set; lia|]. intros m Hm.
  rewrite !zget_set by (rewrite ?zlen_set; rewrite ?zlen_set; rewrite ?zlen_set; lia).
  destruct (Z.eqb_spec m (off + 3)) as [->|].
  { replace ((off <=? off + 3) && (off + 3 <? off + 4)) with true by (symmetry; rewrite andb_true_iff, Z.leb_le, Z.ltb_lt; lia). f_equal; lia. }
  destruct (Z.eqb_spec m (off + 2)) as [->|].
  { replace ((off <=? off + 2) && (off + 2 <? off + 4)) with true by (symmetry; rewrite andb_true_iff, Z.leb_le, Z.ltb_lt; lia). f_equal; lia. }
  destruct (Z.eqb_spec m (off + 1)) as [->|].
  { replace ((off <=? off + 1) && (off + 1 <? off + 4)) with true by (symmetry; rewrite andb_true_iff, Z.leb_le, Z.ltb_lt; lia). f_equal; lia. }
  destruct (Z.eqb_spec m off) as [->|].
  { replace ((off <=? off) && (off <? off + 4)) with true by (symmetry; rewrite andb_true_iff, Z.leb_le, Z.ltb_lt; lia). f_equal; lia. }
  replace ((off <=? m) && (m <? off + 4)) with false; [auto|].
  symmetry. rewrite andb_false_iff, Z.leb_gt, Z.ltb_ge. lia.
Qed.
Lemma wp_range_enc32le dst off v num (l : Z -> list Z) :
  0 <= num <= zlen v -> 0 <= off -> off + 4 * num <= zlen dst ->
  (forall i, 0 <= i < num -> holds4 (zget 0 v i) (l i)) ->
  wp (br_range_enc32le dst off v num) (fun d => zlen d = zlen dst /\ forall m, 0 <= m < zlen dst ->
    zget 0 d m = if (off <=? m) && (m <? off + 4 * num) then zget 0 (l ((m - off) / 4)) ((m - off) mod 4) else zget 0 dst m).
Proof.
  intros Hn Ho Hl Hv. unfold br_range_enc32le.
  apply (wp_for _ (fun n d => zlen d = zlen dst /\ forall m, 0 <= m < zlen dst ->
    zget 0 d m = if (off <=? m) && (m <? off + 4 * n) then zget 0 (l ((m - off) / 4)) ((m - off) mod 4) else zget 0 dst m)).
  { lia. }
  { split; [auto|]. intros m Hm. destruct (Z.leb_spec off m), (Z.ltb_spec m (off + 4 * 0)); cbn [andb]; auto; lia. }
  { intros n d Hn' [Ld Hd]. apply wp_bind, (wp_aget 0); [lia|].
    eapply wp_mono; [apply (wp_enc32le _ _ _ (l n)); [apply Hv; lia|lia|lia]|].
    intros d' [Ld' Hd']. split; [lia|]. intros m Hm. rewrite Hd' by lia. rewrite Hd by lia.
    destruct (Z.leb_spec (off + 4 * n) m), (Z.ltb_spec m (off + 4 * n + 4)), (Z.leb_spec off m),
      (Z.ltb_spec m (off + 4 * n)), (Z.ltb_spec m (off + 4 * (n + 1))); cbn [andb]; auto; try lia.
    f_equal; [f_equal; apply (Z.div_unique _ _ _ (m - off - 4 * n)); lia|apply (Z.mod_unique _ _ n); lia]. }
  auto.
Qed.

(** ** Four blocks *)
Definition splice_of (out : list Z) (off len : Z) (f : Z -> Z) (out' : list Z) : Prop :=
  zlen out' = zlen out /\ forall m, 0 <= m < zlen out ->
    zget 0 out' m = if (off <=? m) && (m <? off + len) then f (m - off) else zget 0 out m.
Lemma sixteen_facts n b : 0 <= n < 16 -> 0 <= b < 4 ->
  let i := 16 * (n mod 4) + 4 * (n / 4) + b in
  0 <= i < 64 /\ i mod 4 = b /\ (i / 4) mod 4 = n / 4 /\ i / 16 = n mod 4 /\
  0 <= n mod 4 < 4 /\ 0 <= n / 4 < 4 /\ n = 4 * (n / 4) + n mod 4.
Proof.
  intros Hn Hb i.
  assert (H1 : 0 <= n mod 4 < 4) by (apply Z.mod_pos_bound; lia).
  assert (H2 : 0 <= n / 4 < 4) by (split; [apply Z.div_pos; lia|apply Z.div_lt_upper_bound; lia]).
  assert (H3 : n = 4 * (n / 4) + n mod 4) by (apply Z.div_mod; lia).
  unfold i. repeat split; try lia.
  - symmetry. apply (Z.mod_unique _ _ (4 * (n mod 4) + n / 4)); lia.
  - replace ((16 * (n mod 4) + 4 * (n / 4) + b) / 4) with (4 * (n mod 4) + n / 4) by (apply (Z.div_unique _ _ _ b); lia).
    symmetry. apply (Z.mod_unique _ _ (n mod 4)); lia.
  - symmetry. apply (Z.div_unique _ _ _ (4 * (n / 4) + b)); lia.
Qed.
Lemma wp_store q s out off : sliced q s -> 0 <= off -> off + 64 <= zlen out -> forall w, zlen w = 16 ->
  wp (bind (br_aes_ct64_ortho q) (fun q =>
      bind (for_up 0 4 1 (fun i w => bind (aget q i) (fun a => bind (aget q (i + 4)) (fun b =>
         br_aes_ct64_interleave_out w (Z.shiftl i 2) a b))) w) (fun w =>
      br_range_enc32le out off w 16)))
    (splice_of out off 64 (fun m => zget 0 (state s (m / 16)) (m mod 16))).
Proof.
  intros [Lq [Wq [Bs Hq]]] Ho Hl w Lw. apply wp_bind, wp_ortho; auto.
  intros q' L' W' H'. clear Wq.
  assert (Wk : forall k, 0 <= k < 8 -> word64 (zget 0 q' k)) by (intros; apply (proj1 (Forall_zget _ 0 _) W'); lia).
  assert (B : forall k i, 0 <= k < 8 -> 0 <= i < 64 -> Z.testbit (zget 0 q' k) i = Z.testbit (s (8 * (i / 8) + k)) (i mod 8)).
  { intros k i Hk Hi. rewrite H' by auto.
    assert (0 <= i / 8 < 8) by (split; [apply Z.div_pos; lia|apply Z.div_lt_upper_bound; lia]).
    rewrite Hq; [reflexivity|apply Z.mod_pos_bound; lia|lia]. }
  set (l := fun n => map (fun r => s (16 * r + 4 * (n mod 4) + n / 4)) (range 4)).
  assert (G : forall b c w', 0 <= b < 4 -> 0 <= c < 4 -> word32 w' ->
     (forall j, 0 <= j < 32 -> Z.testbit w' j = Z.testbit (zget 0 q' (b + 4 * (c mod 2))) (16 * (j / 8) + 8 * (c / 2) + j mod 8)) ->
     holds4 w' (l (4 * b + c))).
  { intros b c w' Hb Hc Ww Hw. unfold l.
    replace ((4 * b + c) mod 4) with c by (apply (Z.mod_unique _ _ b); lia).
    replace ((4 * b + c) / 4) with b by (apply (Z.div_unique _ _ _ c); lia).
    assert (Hc2 : 0 <= c / 2 < 2) by (split; [apply Z.div_pos; lia|apply Z.div_lt_upper_bound; lia]).
    assert (Hc3 : 0 <= c mod 2 < 2) by (apply Z.mod_pos_bound; lia).
    assert (Hc4 : c = 2 * (c / 2) + c mod 2) by (apply Z.div_mod; lia).
    split; [auto|]. split; [rewrite zlen_map, zlen_range; lia|]. split.
    - apply Forall_map_range. intros r Hr. apply Bs. lia.
    - intros r k Hr Hk. rewrite zget_map_range by lia. rewrite Hw by lia.
      replace ((8 * r + k) / 8) with r by (apply (Z.div_unique _ _ _ k); lia).
      replace ((8 * r + k) mod 8) with k by (apply (Z.mod_unique _ _ r); lia).
      rewrite B by lia.
      replace ((16 * r + 8 * (c / 2) + k) / 8) with (2 * r + c / 2) by (apply (Z.div_unique _ _ _ k); lia).
      replace ((16 * r + 8 * (c / 2) + k) mod 8) with k by (apply (Z.mod_unique _ _ (2 * r + c / 2)); lia).
      f_equal. f_equal. lia. }
  assert (G0 : forall b, 0 <= b < 4 -> holds4 (gather (Z.land (zget 0 q' b) 0x00FF00FF00FF00FF)) (l (4 * b))).
  { intros b Hb. replace (4 * b) with (4 * b + 0) by lia. apply G; [lia|lia|apply gather_range|].
    intros j Hj. rewrite gather0_bit by (try apply Wk; lia). apply f_equal2; [apply f_equal; change (0 mod 2) with 0; lia|change (0 / 2) with 0; lia]. }
  assert (G1 : forall b, 0 <= b < 4 -> holds4 (gather (Z.land (zget 0 q' (b + 4)) 0x00FF00FF00FF00FF)) (l (4 * b + 1))).
  { intros b Hb. apply G; [lia|lia|apply gather_range|].
    intros j Hj. rewrite gather0_bit by (try apply Wk; lia). apply f_equal2; [apply f_equal; change (1 mod 2) with 1; lia|change (1 / 2) with 0; lia]. }
  assert (G2 : forall b, 0 <= b < 4 -> holds4 (gather (Z.land (Z.shiftr (zget 0 q' b) 8) 0x00FF00FF00FF00FF)) (l (4 * b + 2))).
  { intros b Hb. apply G; [lia|lia|apply gather_range|].
    intros j Hj. rewrite gather1_bit by (try apply Wk; lia). apply f_equal2; [apply f_equal; change (2 mod 2) with 0; lia|change (2 / 2) with 1; lia]. }
  assert (G3 : forall b, 0 <= b < 4 -> holds4 (gather (Z.land (Z.shiftr (zget 0 q' (b + 4)) 8) 0x00FF00FF00FF00FF)) (l (4 * b + 3))).
  { intros b Hb. apply G; [lia|lia|apply gather_range|].
    intros j Hj. rewrite gather1_bit by (try apply Wk; lia). apply f_equal2; [apply f_equal; change (3 mod 2) with 1; lia|change (3 / 2) with 1; lia]. }
  apply wp_bind.
  apply (wp_for _ (fun b w => zlen w = 16 /\ forall u, 0 <= u < 4 * b -> holds4 (zget 0 w u) (l u))).
  { lia. } { split; [auto|intros; lia]. }
  { clear w Lw. intros b w Hb [Lw Hw]. apply wp_bind, (wp_aget 0); [lia|]. apply wp_bind, (wp_aget 0); [lia|].
    replace (Z.shiftl b 2) with (4 * b) by (rewrite Z.shiftl_mul_pow2 by lia; lia).
    unfold br_aes_ct64_interleave_out.
    apply wp_bind, wp_aset; [lia|]. apply wp_bind, wp_aset; [rewrite zlen_set; lia|].
    apply wp_bind, wp_aset; [rewrite !zlen_set; rewrite ?zlen_set; lia|].
    apply wp_aset; [rewrite !zlen_set; rewrite ?zlen_set; rewrite ?zlen_set; lia|].
    split; [rewrite !zlen_set; rewrite ?zlen_set; rewrite ?zlen_set; rewrite ?zlen_set; lia|]. intros u Hu.
    rewrite !zget_set by (rewrite ?zlen_set; rewrite ?zlen_set; rewrite ?zlen_set; lia).
    destruct (Z.eqb_spec u (4 * b + 3)) as [->|]; [now apply G3|].
    destruct (Z.eqb_spec u (4 * b + 2)) as [->|]; [now apply G2|].
    destruct (Z.eqb_spec u (4 * b + 1)) as [->|]; [now apply G1|].
    destruct (Z.eqb_spec u (4 * b)) as [->|]; [now apply G0|]. apply Hw. lia. }
  clear w Lw. intros w [Lw Hw].
  eapply wp_mono; [apply (wp_range_enc32le _ _ _ _ l); auto; lia|].
  intros d [Ld Hd]. split; [auto|]. intros m Hm. rewrite Hd by auto.
  destruct (Z.leb_spec off m), (Z.ltb_spec m (off + 4 * 16)), (Z.ltb_spec m (off + 64)); cbn [andb]; auto; try lia.
  unfold l, state. set (p := m - off) in *. assert (Hp : 0 <= p < 64) by lia.
  assert (P1 : 0 <= p mod 4 < 4) by (apply Z.mod_pos_bound; lia).
  assert (P2 : 0 <= p mod 16 < 16) by (apply Z.mod_pos_bound; lia).
  rewrite !zget_map_range by lia. f_equal.
  assert (E : p mod 16 = 4 * ((p / 4) mod 4) + p mod 4).
  { change 16 with (4 * 4). rewrite Z.rem_mul_r by lia. lia. }
  assert (0 <= (p / 4) mod 4 < 4) by (apply Z.mod_pos_bound; lia).
  replace ((p mod 16) mod 4) with (p mod 4) by (rewrite E; apply (Z.mod_unique _ _ ((p / 4) mod 4)); lia).
  replace ((p mod 16) / 4) with ((p / 4) mod 4) by (rewrite E; apply (Z.div_unique _ _ _ (p mod 4)); lia).
  change 16 with (4 * 4) at 3. rewrite <- Z.div_div by lia. lia.
Qed.

(** The words of the four blocks [blk b] *)
Definition blocks_in (ivw : list Z) (blk : Z -> list Z) : Prop :=
  zlen ivw = 16 /\ forall b, 0 <= b < 4 -> zlen (blk b) = 16 /\
    forall c, 0 <= c < 4 -> holds4 (zget 0 ivw (4 * b + c)) (slice (blk b) (4 * c) (4 * c + 4)).
Lemma wp_ecb4x J out off ivw blk W nr sk : words_ok W nr -> expanded W nr sk -> 1 <= nr ->
  blocks_in ivw blk -> 0 <= off -> off + 64 <= zlen out ->
  wp (aes_ecb4x J out off ivw sk nr) (splice_of out off 64 (fun m => zget 0 (Cipher nr W (blk (m / 16))) (m mod 16))).
Proof.
  intros HW Hsk Hn [Lw Hblk] Ho Hl. unfold aes_ecb4x.
  apply wp_bind, wp_memcpy; rewrite ?zlen_uninit; try lia.
  assert (Ew : splice (uninit J 0 16) 0 (slice ivw 0 (0 + 16)) = ivw).
  { apply (zlist_ext 0).
    - rewrite zlen_splice; rewrite ?zlen_slice, ?zlen_uninit; lia.
    - rewrite zlen_splice by (rewrite ?zlen_slice, ?zlen_uninit; lia). rewrite zlen_uninit by lia. intros i Hi.
      rewrite zget_splice by (rewrite ?zlen_slice, ?zlen_uninit; lia). rewrite zlen_slice by lia.
      destruct (Z.leb_spec 0 i), (Z.ltb_spec i (0 + (0 + 16 - 0))); cbn [andb]; try lia.
      rewrite zget_slice by lia. f_equal; lia. }
  rewrite Ew. apply wp_bind.
  apply (wp_for _ (fun n q => zlen q = 8 /\ forall j, 0 <= j < n ->
     zget 0 q j = interleave (zget 0 ivw (4 * j)) (zget 0 ivw (4 * j + 2)) /\
     zget 0 q (j + 4) = interleave (zget 0 ivw (4 * j + 1)) (zget 0 ivw (4 * j + 3)))).
  { lia. } { split; [apply zlen_uninit; lia|intros; lia]. }
  { intros n q Hn' [Lq Hq]. apply wp_bind.
    replace (Z.shiftl n 2) with (4 * n) by (rewrite Z.shiftl_mul_pow2 by lia; lia).
    apply wp_interleave_in; try lia. apply wp_bind, wp_aset; [lia|]. apply wp_aset; [rewrite zlen_set; lia|].
    split; [rewrite !zlen_set; rewrite ?zlen_set; lia|]. intros j Hj.
    rewrite !zget_set by (rewrite ?zlen_set; lia).
    destruct (Z.eqb_spec j (n + 4)), (Z.eqb_spec j n), (Z.eqb_spec (j + 4) (n + 4)), (Z.eqb_spec (j + 4) n); try lia.
    - subst. auto.
    - apply Hq. lia. }
  intros q [Lq Hq].
  apply wp_bind. eapply wp_mono.
  { apply (wp_load (fun b c => zget 0 ivw (4 * b + c)) (fun b c => slice (blk b) (4 * c) (4 * c + 4))).
    - split; [auto|]. intros j Hj. rewrite Z.add_0_r. now apply Hq.
    - intros b c Hb Hc. now apply Hblk. }
  clear q Lq Hq. intros q Hq. cbv beta in Hq.
  set (s0 := fun i => _) in Hq.
  assert (E0 : forall b, 0 <= b < 4 -> state s0 b = blk b).
  { intros b Hb. destruct (Hblk b Hb) as [Lb _]. apply (zlist_ext 0).
    - unfold state. rewrite zlen_map, zlen_range; lia.
    - unfold state. rewrite zlen_map, zlen_range by lia. intros n Hn'. rewrite zget_map_range by lia.
      destruct (sixteen_facts n b Hn' Hb) as [F1 [F2 [F3 [F4 [F5 [F6 F7]]]]]]. unfold s0.
      rewrite F2, F3, F4. rewrite zget_slice by lia. f_equal. lia. }
  clearbody s0. pose proof Hsk as [Lsk Hsk'].
  apply wp_bind. eapply wp_mono; [apply (wp_add_round_key _ _ _ _ (key_byte W 0) Hq); [lia|lia|apply (Hsk' 0); lia]|].
  clear q Hq. intros q Hq.
  apply wp_bind. eapply wp_mono; [apply (wp_rounds W nr _ _ _ HW Hsk Hn Hq)|].
  clear q Hq. intros q [s1 [Hq E1]].
  apply wp_bind. eapply wp_mono; [apply wp_sbox, Hq|]. clear q Hq. intros q Hq.
  apply wp_bind. eapply wp_mono; [apply wp_shift_rows, Hq|]. clear q Hq. intros q Hq.
  apply wp_bind. eapply wp_mono; [apply (wp_add_round_key _ _ _ _ (key_byte W nr) Hq); [lia|lia|apply (Hsk' nr); lia]|].
  clear q Hq. intros q Hq.
  eapply wp_mono; [apply (wp_store _ _ _ _ Hq); auto|].
  intros d [Ld Hd]. split; [auto|]. intros m Hm. rewrite Hd by auto.
  destruct (Z.leb_spec off m), (Z.ltb_spec m (off + 64)); cbn [andb]; auto.
  f_equal. set (b := (m - off) / 16).
  assert (Hb : 0 <= b < 4) by (split; [apply Z.div_pos; lia|apply Z.div_lt_upper_bound; lia]).
  rewrite (state_key (fun i => SBox _) b W nr nr) by (auto; lia).
  rewrite (state_shift (fun i => SBox (s1 i)) b) by auto. rewrite state_sub.
  rewrite E1 by auto. rewrite (state_key s0 b W nr 0) by (auto; lia). rewrite E0 by auto. reflexivity.
Qed.

(** ** The cipher has blocks of 16 bytes *)
Lemma zlen_by_position f : zlen (by_position f) = 16.
Proof. unfold by_position. rewrite zlen_map, zlen_range; lia. Qed.
Lemma zlen_key s W nr r : words_ok W nr -> 0 <= r <= nr -> zlen s = 16 ->
  zlen (AddRoundKey s (slice W (4 * r) (4 * r + 4))) = 16.
Proof.
  intros [LW HW] Hr Ls. rewrite (slice_words [] W) by lia.
  assert (E : forall c, 0 <= c < 4 -> zlen (zget [] W (4 * r + c)) = 4) by (intros; apply HW; lia).
  assert (E0 := E 0 ltac:(lia)). rewrite Z.add_0_r in E0.
  unfold AddRoundKey. rewrite zlen_xor_bytes; [auto|].
  cbn [concat]. rewrite !zlen_app, E0, !E, zlen_nil by lia. lia.
Qed.
Lemma zlen_Cipher nr W s : words_ok W nr -> 0 <= nr -> zlen (Cipher nr W s) = 16.
Proof. intros HW Hn. unfold Cipher. apply (zlen_key _ W nr nr HW); [lia|apply zlen_by_position]. Qed.

Lemma splice_of_get out off len f out' m : splice_of out off len f out' -> 0 <= m < zlen out ->
  (off <= m < off + len -> zget 0 out' m = f (m - off)) /\ (m < off \/ off + len <= m -> zget 0 out' m = zget 0 out m).
Proof.
  intros [L H] Hm. rewrite H by auto.
  destruct (Z.leb_spec off m), (Z.ltb_spec m (off + len)); cbn [andb]; split; auto; lia.
Qed.
Lemma group_block p k : 0 <= p -> (64 * k + p) / 16 = 4 * k + p / 16 /\ (64 * k + p) mod 16 = p mod 16.
Proof.
  intros Hp. replace (64 * k + p) with (p + (4 * k) * 16) by lia.
  rewrite Z.div_add, Z.mod_add by lia. split; lia.
Qed.

(** ** Electronic codebook *)
Lemma wp_ecb J out inp n W nr sk : words_ok W nr -> expanded W nr sk -> 1 <= nr ->
  0 <= n -> 16 * n <= zlen inp -> 16 * n <= zlen out -> Forall is_byte inp ->
  wp (aes_ecb J out inp n sk nr) (fun o => o = ECB (Cipher nr W) n inp ++ slice out (16 * n) (zlen out)).
Proof.
  intros HW Hsk Hn Hn0 Li Lo Bi. unfold aes_ecb.
  set (F := fun m => zget 0 (Cipher nr W (slice inp (16 * (m / 16)) (16 * (m / 16) + 16))) (m mod 16)).
  assert (Fin : forall o, zlen o = zlen out -> (forall m, 0 <= m < 16 * n -> zget 0 o m = F m) ->
     (forall m, 16 * n <= m < zlen out -> zget 0 o m = zget 0 out m) ->
     o = ECB (Cipher nr W) n inp ++ slice out (16 * n) (zlen out)).
  { intros o L H1 H2. unfold ECB.
    assert (LE : zlen (flat_map (fun i => Cipher nr W (slice inp (16 * i) (16 * i + 16))) (range n)) = 16 * n).
    { rewrite (zlen_flat_map _ 16) by (intros; apply zlen_Cipher; auto; lia). rewrite zlen_range by lia. lia. }
    apply (zlist_ext 0).
    - rewrite zlen_app, LE, zlen_slice by lia. lia.
    - intros m Hm. rewrite zget_app by lia. rewrite LE. destruct (Z.ltb_spec m (16 * n)).
      + rewrite H1 by lia. rewrite (zget_flat_map 0 _ 16) by (try lia; intros; apply zlen_Cipher; auto; lia). reflexivity.
      + rewrite H2 by lia. rewrite zget_slice by lia. f_equal; lia. }
  apply wp_bind.
  set (B0 := map u32 (uninit J 0 16)).
  assert (LB0 : zlen B0 = 16) by (unfold B0; rewrite zlen_map, zlen_uninit; lia).
  assert (WB0 : Forall word32 B0).
  { unfold B0. apply Forall_map. apply Forall_forall. intros. apply u32_range. }
  clearbody B0.
  apply (wp_while _ (fun k '(o, bl, nb, off) => zlen bl = 16 /\ Forall word32 bl /\ nb = n - 4 * k /\ off = 64 * k /\
     zlen o = zlen out /\ (forall m, 0 <= m < 64 * k -> zget 0 o m = F m) /\
     (forall m, 64 * k <= m < zlen out -> zget 0 o m = zget 0 out m)) (n / 4)).
  { apply Z.div_pos; lia. }
  { assert (n / 4 <= n) by (apply Z.div_le_upper_bound; lia). lia. }
  { repeat split; auto; try lia; intros; lia. }
  { intros k [[[o bl] nb] off] Hk [Lb [Wb [-> [-> [L [H1 H2]]]]]].
    assert (Hk4 : 4 * k + 4 <= n) by (assert (4 * (n / 4) <= n) by (apply Z.mul_div_le; lia); lia).
    split; [apply Z.leb_le; lia|].
    apply wp_bind. apply wp_range_dec32le; auto; try lia.
    intros bl' Lb' Hb' _. apply wp_bind. eapply wp_mono.
    { apply (wp_ecb4x _ _ _ _ (fun b => slice inp (64 * k + 16 * b) (64 * k + 16 * b + 16)) W nr); auto; try lia.
      split; [lia|]. intros b Hb. split; [rewrite zlen_slice; lia|]. intros c Hc.
      replace (slice (slice inp (64 * k + 16 * b) (64 * k + 16 * b + 16)) (4 * c) (4 * c + 4))
        with (slice inp (64 * k + 4 * (4 * b + c)) (64 * k + 4 * (4 * b + c) + 4)).
      - apply Hb'. lia.
      - apply (zlist_ext 0); [rewrite !zlen_slice; rewrite ?zlen_slice; lia|].
        rewrite zlen_slice by lia. intros i Hi. rewrite !zget_slice by (rewrite ?zlen_slice; lia). f_equal; lia. }
    intros o' Ho'. apply wp_ret.
    split; [lia|]. split.
    { apply (Forall_zget _ 0). rewrite Lb', Lb. intros i Hi. apply Hb'. lia. }
    split; [lia|]. split; [lia|]. split; [destruct Ho'; lia|]. split; intros m Hm;
      destruct (splice_of_get _ _ _ _ _ m Ho' ltac:(lia)) as [G1 G2].
    - destruct (Z.lt_ge_cases m (64 * k)).
      + rewrite G2 by lia. apply H1. lia.
      + rewrite G1 by lia. unfold F. destruct (group_block (m - 64 * k) k ltac:(lia)) as [E1 E2].
        replace (64 * k + (m - 64 * k)) with m in E1, E2 by lia. rewrite E1, E2. do 3 f_equal; lia.
    - rewrite G2 by lia. apply H2. lia. }
  intros [[[o bl] nb] off] [Lb [Wb [-> [-> [L [H1 H2]]]]]].
  set (k := n / 4) in *.
  assert (Hr : 0 <= n - 4 * k < 4) by (assert (E := Z.mod_eq n 4 ltac:(lia)); fold k in E; rewrite <- E; apply Z.mod_pos_bound; lia).
  split; [apply Z.leb_gt; lia|].
  apply wp_branch; intros E0; [apply negb_true_iff, Z.eqb_neq in E0|apply negb_false_iff, Z.eqb_eq in E0].
  2: { apply wp_ret. apply Fin; auto; intros; [apply H1|apply H2]; lia. }
  apply wp_bind. apply wp_range_dec32le; auto; try lia.
  intros bl' Lb' Hb' Hb2. apply wp_bind. set (t := n - 4 * k) in *.
  set (blk := fun b => if b <? t then slice inp (64 * k + 16 * b) (64 * k + 16 * b + 16)
                       else flat_map (fun c => bytes_of (zget 0 bl' (4 * b + c))) (range 4)).
  eapply wp_mono.
  { apply (wp_ecb4x _ _ _ _ blk W nr); auto; try lia; [|rewrite zlen_uninit; lia].
    split; [lia|]. intros b Hb. unfold blk. destruct (Z.ltb_spec b t).
    - split; [rewrite zlen_slice; lia|]. intros c Hc.
      replace (slice (slice inp (64 * k + 16 * b) (64 * k + 16 * b + 16)) (4 * c) (4 * c + 4))
        with (slice inp (64 * k + 4 * (4 * b + c)) (64 * k + 4 * (4 * b + c) + 4)).
      + apply Hb'. lia.
      + apply (zlist_ext 0); [rewrite !zlen_slice; rewrite ?zlen_slice; lia|].
        rewrite zlen_slice by lia. intros i Hi. rewrite !zget_slice by (rewrite ?zlen_slice; lia). f_equal; lia.
    - assert (Lbo : forall w, zlen (bytes_of w) = 4) by (intros; unfold bytes_of; rewrite zlen_map, zlen_range; lia).
      assert (Lf : zlen (flat_map (fun c => bytes_of (zget 0 bl' (4 * b + c))) (range 4)) = 16).
      { rewrite (zlen_flat_map _ 4) by auto. rewrite zlen_range; lia. }
      split; [auto|]. intros c Hc.
      replace (slice (flat_map (fun c => bytes_of (zget 0 bl' (4 * b + c))) (range 4)) (4 * c) (4 * c + 4))
        with (bytes_of (zget 0 bl' (4 * b + c))).
      + apply holds_bytes_of. rewrite Hb2 by lia. apply (proj1 (Forall_zget _ 0 _) Wb); lia.
      + apply (zlist_ext 0); [rewrite Lbo, zlen_slice; lia|]. rewrite Lbo. intros i Hi.
        rewrite zget_slice by lia. rewrite (zget_flat_map 0 _ 4) by (auto; lia).
        replace ((4 * c + i) / 4) with c by (apply (Z.div_unique _ _ _ i); lia).
        replace ((4 * c + i) mod 4) with i by (apply (Z.mod_unique _ _ c); lia). reflexivity. }
  intros tmp [Lt Ht]. rewrite zlen_uninit in Lt, Ht by lia.
  apply wp_memcpy; try lia. apply Fin.
  - rewrite zlen_splice by (rewrite ?zlen_slice; lia). auto.
  - intros m Hm. rewrite zget_splice by (rewrite ?zlen_slice; lia). rewrite zlen_slice by lia.
    destruct (Z.leb_spec (64 * k) m), (Z.ltb_spec m (64 * k + (0 + t * 16 - 0))); cbn [andb]; try lia; [|apply H1; lia].
    rewrite zget_slice by lia. rewrite Ht by lia.
    destruct (Z.leb_spec 0 (0 + (m - 64 * k))), (Z.ltb_spec (0 + (m - 64 * k)) (0 + 64)); cbn [andb]; try lia.
    replace (0 + (m - 64 * k) - 0) with (m - 64 * k) by lia. unfold F, blk.
    destruct (group_block (m - 64 * k) k ltac:(lia)) as [E1 E2].
    replace (64 * k + (m - 64 * k)) with m in E1, E2 by lia. rewrite E1, E2.
    destruct (Z.ltb_spec ((m - 64 * k) / 16) t) as [|C]; [do 3 f_equal; lia|].
    assert ((m - 64 * k) / 16 < t) by (apply Z.div_lt_upper_bound; lia). lia.
  - intros m Hm. rewrite zget_splice by (rewrite ?zlen_slice; lia). rewrite zlen_slice by lia.
    destruct (Z.leb_spec (64 * k) m), (Z.ltb_spec m (64 * k + (0 + t * 16 - 0))); cbn [andb]; try lia. apply H2; lia.
Qed.

(** ** Counter mode *)
Definition swap_wx : wx :=
  let x := Or (Mod (Shl (And (V 0) (C 0x00FF00FF)) 8) 32) (And (Shr (V 0) 8) (C 0x00FF00FF)) in
  Or (Mod (Shl x 16) 32) (Shr x 16).
Lemma swap_bit x j : word32 x -> 0 <= j < 32 -> Z.testbit (br_swap32 x) j = Z.testbit x (24 - 8 * (j / 8) + j mod 8).
Proof.
  intros Hx Hj. change (br_swap32 x) with (denote (env8 [x]) swap_wx).
  rewrite (bits_are_ok w32 32 _ (fun j => B 0 (24 - 8 * (j / 8) + j mod 8)));
    [reflexivity|vm_compute; reflexivity|apply fits_env32; repeat constructor; apply Hx|auto].
Qed.
Lemma swap_range x : word32 x -> word32 (br_swap32 x).
Proof.
  intros Hx. change (br_swap32 x) with (denote (env8 [x]) swap_wx).
  apply (size_ok_range w32); [lia|apply fits_env32; repeat constructor; apply Hx|vm_compute; reflexivity].
Qed.
Lemma swap_swap x : word32 x -> br_swap32 (br_swap32 x) = x.
Proof.
  intros Hx. apply (word_ext 32); [lia|now apply swap_range, swap_range|auto|]. intros j Hj.
  rewrite swap_bit by (auto using swap_range).
  assert (H1 : 0 <= j / 8 < 4) by (split; [apply Z.div_pos; lia|apply Z.div_lt_upper_bound; lia]).
  assert (H2 : 0 <= j mod 8 < 8) by (apply Z.mod_pos_bound; lia).
  assert (H3 := Z.div_mod j 8 ltac:(lia)).
  rewrite swap_bit by (auto; lia). f_equal.
  replace ((24 - 8 * (j / 8) + j mod 8) / 8) with (3 - j / 8) by (apply (Z.div_unique _ _ _ (j mod 8)); lia).
  replace ((24 - 8 * (j / 8) + j mod 8) mod 8) with (j mod 8) by (apply (Z.mod_unique _ _ (3 - j / 8)); lia). lia.
Qed.
Lemma be_byte c n k : 0 <= n -> 0 <= k < 8 -> Z.testbit (c / 2 ^ n mod 256) k = Z.testbit c (n + k).
Proof.
  intros Hn Hk. change 256 with (2 ^ 8). rewrite Z.mod_pow2_bits_low by lia. rewrite Z.div_pow2_bits by lia. f_equal; lia.
Qed.
Lemma holds_counter c : holds4 (br_swap32 (u32 c)) (big_endian_32 c).
Proof.
  split; [apply swap_range, u32_range|]. split; [reflexivity|]. split.
  - unfold big_endian_32. repeat (apply Forall_cons; [apply Z.mod_pos_bound; lia|]). constructor.
  - intros r k Hr Hk. rewrite swap_bit by (try apply u32_range; lia).
    replace ((8 * r + k) / 8) with r by (apply (Z.div_unique _ _ _ k); lia).
    replace ((8 * r + k) mod 8) with k by (apply (Z.mod_unique _ _ r); lia).
    assert (U : forall i, 0 <= i < 32 -> Z.testbit (u32 c) i = Z.testbit c i).
    { intros i Hi. unfold u32. change 4294967296 with (2 ^ 32). now rewrite Z.mod_pow2_bits_low by lia. }
    rewrite U by lia. unfold big_endian_32.
    destruct (four r Hr) as [-> |[-> |[-> | ->]]]; change (zget 0 (?a :: _) 0) with a.
    + change (zget 0 [c / 2 ^ 24 mod 256; c / 2 ^ 16 mod 256; c / 2 ^ 8 mod 256; c mod 256] 0) with (c / 2 ^ 24 mod 256).
      rewrite be_byte by lia. f_equal; lia.
    + change (zget 0 [c / 2 ^ 24 mod 256; c / 2 ^ 16 mod 256; c / 2 ^ 8 mod 256; c mod 256] 1) with (c / 2 ^ 16 mod 256).
      rewrite be_byte by lia. f_equal; lia.
    + change (zget 0 [c / 2 ^ 24 mod 256; c / 2 ^ 16 mod 256; c / 2 ^ 8 mod 256; c mod 256] 2) with (c / 2 ^ 8 mod 256).
      rewrite be_byte by lia. f_equal; lia.
    + change (zget 0 [c / 2 ^ 24 mod 256; c / 2 ^ 16 mod 256; c / 2 ^ 8 mod 256; c mod 256] 3) with (c mod 256).
      rewrite <- (Z.div_1_r c) at 2. change 1 with (2 ^ 0) at 1. rewrite be_byte by lia. f_equal; lia.
Qed.
Lemma u32_add c d : u32 (u32 c + d) = u32 (c + d).
Proof. unfold u32. apply Z.add_mod_idemp_l. lia. Qed.

(** The words of four counter blocks, from number [c] *)
Definition counters (iv : list Z) (c : Z) (ivw : list Z) : Prop :=
  zlen ivw = 16 /\ forall b, 0 <= b < 4 ->
    (forall j, 0 <= j < 3 -> holds4 (zget 0 ivw (4 * b + j)) (slice iv (4 * j) (4 * j + 4))) /\
    zget 0 ivw (4 * b + 3) = br_swap32 (u32 (c + b)).
Lemma counters_blocks iv c ivw : zlen iv = 12 -> counters iv c ivw ->
  blocks_in ivw (fun b => iv ++ big_endian_32 (c + b)).
Proof.
  intros Li [L H]. split; [auto|]. intros b Hb. destruct (H b Hb) as [H1 H2].
  assert (LA : zlen (iv ++ big_endian_32 (c + b)) = 16) by (rewrite zlen_app, Li; reflexivity).
  split; [auto|]. intros j Hj.
  destruct (Z.eq_dec j 3) as [->|Nj].
  - replace (slice (iv ++ big_endian_32 (c + b)) (4 * 3) (4 * 3 + 4)) with (big_endian_32 (c + b)).
    + rewrite H2. apply holds_counter.
    + apply (zlist_ext 0); [rewrite zlen_slice by lia; reflexivity|].
      change (zlen (big_endian_32 (c + b))) with 4. intros i Hi.
      rewrite zget_slice by lia. rewrite zget_app by lia. rewrite Li.
      destruct (Z.ltb_spec (4 * 3 + i) 12); [lia|]. f_equal. lia.
  - replace (slice (iv ++ big_endian_32 (c + b)) (4 * j) (4 * j + 4)) with (slice iv (4 * j) (4 * j + 4)); [apply H1; lia|].
    apply (zlist_ext 0); [rewrite !zlen_slice; lia|]. rewrite zlen_slice by lia. intros i Hi.
    rewrite !zget_slice by lia. rewrite zget_app by lia. rewrite Li. destruct (Z.ltb_spec (4 * j + i) 12); [reflexivity|lia].
Qed.
Lemma wp_inc4 x i (Q : list Z -> Prop) c : 0 <= i < zlen x -> zget 0 x i = br_swap32 (u32 c) ->
  Q (zset x i (br_swap32 (u32 (c + 4)))) -> wp (inc4_be x i) Q.
Proof.
  intros Hi E HQ. unfold inc4_be. apply wp_bind, (wp_aget 0); [lia|]. rewrite E, swap_swap by apply u32_range.
  rewrite u32_add. now apply wp_aset.
Qed.
Lemma wp_ctr4x J out off ivw iv c W nr sk : words_ok W nr -> expanded W nr sk -> 1 <= nr -> zlen iv = 12 ->
  counters iv c ivw -> 0 <= off -> off + 64 <= zlen out ->
  wp (aes_ctr4x J out off ivw sk nr) (fun '(o, ivw') => counters iv (c + 4) ivw' /\
    splice_of out off 64 (fun m => zget 0 (Cipher nr W (iv ++ big_endian_32 (c + m / 16))) (m mod 16)) o).
Proof.
  intros HW Hsk Hn Li Hc Ho Hl. unfold aes_ctr4x. apply wp_bind.
  eapply wp_mono; [apply (wp_ecb4x _ _ _ _ _ W nr _ HW Hsk Hn (counters_blocks iv c ivw Li Hc) Ho Hl)|].
  intros o Hout. destruct Hc as [L H].
  assert (E0 := proj2 (H 0 ltac:(lia))). assert (E1 := proj2 (H 1 ltac:(lia))).
  assert (E2 := proj2 (H 2 ltac:(lia))). assert (E3 := proj2 (H 3 ltac:(lia))).
  change (4 * 0 + 3) with 3 in E0. change (4 * 1 + 3) with 7 in E1. change (4 * 2 + 3) with 11 in E2. change (4 * 3 + 3) with 15 in E3.
  apply wp_bind, (wp_inc4 _ _ _ (c + 0)); [lia|exact E0|].
  apply wp_bind, (wp_inc4 _ _ _ (c + 1)); [rewrite zlen_set; lia|rewrite zget_set by lia; exact E1|].
  apply wp_bind, (wp_inc4 _ _ _ (c + 2)); [rewrite !zlen_set; rewrite ?zlen_set; lia|rewrite !zget_set by (rewrite ?zlen_set; lia); exact E2|].
  apply wp_bind, (wp_inc4 _ _ _ (c + 3)); [rewrite !zlen_set; rewrite ?zlen_set; rewrite ?zlen_set; lia|
    rewrite !zget_set by (rewrite ?zlen_set; rewrite ?zlen_set; lia); exact E3|].
  apply wp_ret. split; [|exact Hout]. split; [rewrite !zlen_set; rewrite ?zlen_set; rewrite ?zlen_set; rewrite ?zlen_set; lia|].
  intros b Hb. split.
  - intros j Hj. rewrite !zget_set by (rewrite ?zlen_set; rewrite ?zlen_set; rewrite ?zlen_set; lia).
    destruct (Z.eqb_spec (4 * b + j) 15), (Z.eqb_spec (4 * b + j) 11), (Z.eqb_spec (4 * b + j) 7), (Z.eqb_spec (4 * b + j) 3); try lia.
    now apply H.
  - rewrite !zget_set by (rewrite ?zlen_set; rewrite ?zlen_set; rewrite ?zlen_set; lia).
    destruct (four b Hb) as [-> |[-> |[-> | ->]]]; cbn [Z.mul Z.add Z.eqb Pos.eqb Pos.mul Pos.add Pos.succ];
      do 2 f_equal; lia.
Qed.
Lemma copy3 x o i : zlen x = 16 -> 3 <= o <= 13 -> 0 <= i < 16 ->
  zget 0 (splice x o (slice x 0 (0 + 3))) i = if (o <=? i) && (i <? o + 3) then zget 0 x (i - o) else zget 0 x i.
Proof.
  intros L Ho Hi. rewrite zget_splice by (rewrite ?zlen_slice; lia). rewrite zlen_slice by lia.
  change (0 + 3 - 0) with 3. destruct (Z.leb_spec o i), (Z.ltb_spec i (o + 3)); cbn [andb]; auto.
  now rewrite zget_slice by lia.
Qed.
Lemma wp_ctr J out iv len W nr sk : words_ok W nr -> expanded W nr sk -> 1 <= nr ->
  zlen iv = 12 -> Forall is_byte iv -> 0 <= len <= zlen out ->
  wp (aes_ctr J out len iv sk nr) (fun o => o = CTR (Cipher nr W) len iv ++ slice out len (zlen out)).
Proof.
  intros HW Hsk Hn Li Bi Hlen. unfold aes_ctr. cbv zeta.
  set (F := fun m => zget 0 (Cipher nr W (iv ++ big_endian_32 (m / 16))) (m mod 16)).
  assert (Fin : forall o, zlen o = zlen out -> (forall m, 0 <= m < len -> zget 0 o m = F m) ->
     (forall m, len <= m < zlen out -> zget 0 o m = zget 0 out m) ->
     o = CTR (Cipher nr W) len iv ++ slice out len (zlen out)).
  { intros o L H1 H2. unfold CTR.
    assert (D := Z.div_mod len 16 ltac:(lia)). assert (D2 := Z.mod_pos_bound len 16 ltac:(lia)).
    assert (D3 : 0 <= len / 16) by (apply Z.div_pos; lia).
    assert (LE : zlen (flat_map (fun i => Cipher nr W (iv ++ big_endian_32 i)) (range (len / 16 + 1))) = 16 * (len / 16 + 1)).
    { rewrite (zlen_flat_map _ 16) by (intros; apply zlen_Cipher; auto; lia). rewrite zlen_range by lia. lia. }
    assert (LS : zlen (slice (flat_map (fun i => Cipher nr W (iv ++ big_endian_32 i)) (range (len / 16 + 1))) 0 len) = len).
    { rewrite zlen_slice; lia. }
    apply (zlist_ext 0).
    - rewrite zlen_app, LS, zlen_slice by lia. lia.
    - intros m Hm. rewrite zget_app by lia. rewrite LS. destruct (Z.ltb_spec m len).
      + rewrite H1 by lia. rewrite zget_slice by lia.
        rewrite (zget_flat_map 0 _ 16) by (try lia; intros; apply zlen_Cipher; auto; lia). reflexivity.
      + rewrite H2 by lia. rewrite zget_slice by lia. f_equal; lia. }
  apply wp_bind. apply wp_range_dec32le; auto; rewrite ?zlen_uninit; try lia.
  intros v Lv Hv _.
  apply wp_bind, wp_memcpy; try lia. set (v1 := splice v 4 _).
  assert (L1 : zlen v1 = 16) by (unfold v1; rewrite zlen_splice by (rewrite ?zlen_slice; lia); auto).
  apply wp_bind, wp_memcpy; try lia. set (v2 := splice v1 8 _).
  assert (L2 : zlen v2 = 16) by (unfold v2; rewrite zlen_splice by (rewrite ?zlen_slice; lia); auto).
  apply wp_bind, wp_memcpy; try lia. set (v3 := splice v2 12 _).
  assert (L3 : zlen v3 = 16) by (unfold v3; rewrite zlen_splice by (rewrite ?zlen_slice; lia); auto).
  assert (H3 : forall b j, 0 <= b < 4 -> 0 <= j < 3 -> zget 0 v3 (4 * b + j) = zget 0 v j).
  { assert (C1 : forall i, 0 <= i < 16 -> zget 0 v1 i = if (4 <=? i) && (i <? 7) then zget 0 v (i - 4) else zget 0 v i)
      by (intros; apply copy3; lia).
    assert (C2 : forall i, 0 <= i < 16 -> zget 0 v2 i = if (8 <=? i) && (i <? 11) then zget 0 v1 (i - 8) else zget 0 v1 i)
      by (intros; apply copy3; lia).
    assert (C3 : forall i, 0 <= i < 16 -> zget 0 v3 i = if (12 <=? i) && (i <? 15) then zget 0 v2 (i - 12) else zget 0 v2 i)
      by (intros; apply copy3; lia).
    clearbody v1 v2 v3. intros b j Hb Hj.
    assert (j = 0 \/ j = 1 \/ j = 2) as Hj' by lia.
    destruct (four b Hb) as [-> |[-> |[-> | ->]]], Hj' as [-> |[-> | ->]];
      rewrite C3 by lia; cbn -[zget]; rewrite ?C2 by lia; cbn -[zget]; rewrite ?C1 by lia; reflexivity. }
  clearbody v1 v2 v3.
  apply wp_bind, wp_aset; [lia|]. apply wp_bind, wp_aset; [rewrite zlen_set; lia|].
  apply wp_bind, wp_aset; [rewrite !zlen_set; rewrite ?zlen_set; lia|].
  apply wp_bind, wp_aset; [rewrite !zlen_set; rewrite ?zlen_set; rewrite ?zlen_set; lia|].
  set (w := zset _ 15 _).
  assert (Hw : counters iv 0 w).
  { split; [unfold w; rewrite !zlen_set; rewrite ?zlen_set; rewrite ?zlen_set; rewrite ?zlen_set; lia|].
    intros b Hb. split.
    - intros j Hj. unfold w. rewrite !zget_set by (rewrite ?zlen_set; rewrite ?zlen_set; rewrite ?zlen_set; lia).
      destruct (Z.eqb_spec (4 * b + j) 15), (Z.eqb_spec (4 * b + j) 11), (Z.eqb_spec (4 * b + j) 7), (Z.eqb_spec (4 * b + j) 3); try lia.
      rewrite H3 by lia. apply (Hv j Hj).
    - unfold w. rewrite !zget_set by (rewrite ?zlen_set; rewrite ?zlen_set; rewrite ?zlen_set; lia).
      destruct (four b Hb) as [-> |[-> |[-> | ->]]]; reflexivity. }
  clearbody w. clear v v1 v2 v3 Lv Hv L1 L2 L3 H3.
  apply wp_bind.
  set (cnt := if len =? 0 then 0 else (len - 1) / 64).
  assert (Hcnt : 0 <= cnt /\ (len = 0 /\ cnt = 0 \/ 0 < len - 64 * cnt <= 64)).
  { unfold cnt. destruct (Z.eqb_spec len 0); [lia|].
    assert (D := Z.div_mod (len - 1) 64 ltac:(lia)). assert (D2 := Z.mod_pos_bound (len - 1) 64 ltac:(lia)).
    assert (D3 : 0 <= (len - 1) / 64) by (apply Z.div_pos; lia). lia. }
  clearbody cnt. destruct Hcnt as [Hc0 Hc].
  apply (wp_while _ (fun k '(o, w, l, off) => counters iv (4 * k) w /\ l = len - 64 * k /\ off = 64 * k /\
     zlen o = zlen out /\ (forall m, 0 <= m < 64 * k -> zget 0 o m = F m) /\
     (forall m, 64 * k <= m < zlen out -> zget 0 o m = zget 0 out m)) cnt).
  { lia. } { lia. }
  { split; [exact Hw|]. split; [lia|]. split; [lia|]. split; [auto|]. split; intros; [lia|auto]. }
  { clear w Hw. intros k [[[o w] l] off] Hk [Hw [-> [-> [L [H1 H2]]]]]. split; [apply Z.ltb_lt; lia|].
    apply wp_bind. eapply wp_mono; [apply (wp_ctr4x _ _ _ _ iv (4 * k) W nr); auto; lia|].
    intros [o' w'] [Hw' Ho']. apply wp_ret.
    split; [now replace (4 * (k + 1)) with (4 * k + 4) by lia|].
    split; [lia|]. split; [lia|]. split; [destruct Ho'; lia|]. split; intros m Hm;
      destruct (splice_of_get _ _ _ _ _ m Ho' ltac:(lia)) as [G1 G2].
    - destruct (Z.lt_ge_cases m (64 * k)).
      + rewrite G2 by lia. apply H1. lia.
      + rewrite G1 by lia. unfold F. destruct (group_block (m - 64 * k) k ltac:(lia)) as [E1 E2].
        replace (64 * k + (m - 64 * k)) with m in E1, E2 by lia. rewrite E1, E2. reflexivity.
    - rewrite G2 by lia. apply H2. lia. }
  clear w Hw. intros [[[o w] l] off] [Hw [-> [-> [L [H1 H2]]]]]. split; [apply Z.ltb_ge; lia|].
  apply wp_branch; intros E; [apply Z.ltb_lt in E|apply Z.ltb_ge in E].
  2: { apply wp_ret. apply Fin; auto; intros; [apply H1|apply H2]; lia. }
  apply wp_bind. eapply wp_mono; [apply (wp_ctr4x _ _ _ _ iv (4 * cnt) W nr); auto; rewrite ?zlen_uninit; lia|].
  intros [tmp w'] [_ [Lt Ht]]. rewrite zlen_uninit in Lt, Ht by lia.
  apply (wp_for _ (fun i o' => zlen o' = zlen out /\ (forall m, 0 <= m < 64 * cnt + i -> zget 0 o' m = F m) /\
     (forall m, 64 * cnt + i <= m < zlen out -> zget 0 o' m = zget 0 out m))).
  { lia. } { rewrite Z.add_0_r. auto. }
  { clear o L H1 H2. intros i o Hi [L [H1 H2]]. apply wp_bind, (wp_aget 0); [lia|]. apply wp_aset; [lia|].
    split; [rewrite zlen_set; lia|]. split; intros m Hm; rewrite zget_set by lia; destruct (Z.eqb_spec m (64 * cnt + i)) as [->|]; try lia.
    - rewrite Ht by lia. destruct (Z.leb_spec 0 i), (Z.ltb_spec i (0 + 64)); cbn [andb]; try lia. rewrite Z.sub_0_r.
      unfold F. destruct (group_block i cnt ltac:(lia)) as [E1 E2]. now rewrite E1, E2.
    - apply H1. lia.
    - apply H2. lia. }
  intros o' [Lo' [G1 G2]]. apply Fin; auto; intros; [apply G1|apply G2]; lia.
Qed.

(** ** The functions *)
Lemma wp_keyexp J comp sk key nk nr : key_size nk nr -> zlen key = 4 * nk -> Forall is_byte key ->
  zlen comp = 2 * (nr + 1) -> zlen sk = 8 * (nr + 1) ->
  wp (bind (br_aes_ct64_keysched J comp key (4 * nk)) (fun c => br_aes_ct64_skey_expand sk c nr))
     (fun sk => words_ok (KeyExpansion nk nr key) nr /\ expanded (KeyExpansion nk nr key) nr sk).
Proof.
  intros Hs Lk Bk Lc Ls. assert (Hr : 10 <= nr <= 14) by (destruct Hs as [[_ ->]|[[_ ->]|[_ ->]]]; lia).
  apply wp_bind. eapply wp_mono; [apply (wp_keysched _ _ _ nk nr); auto|]. intros c [Lc' [HW Hc]].
  eapply wp_mono; [apply (wp_skey_expand (KeyExpansion nk nr key)); auto; lia|]. auto.
Qed.
Definition keyexp (nk nr : Z) (J : junk) (key : list Z) : M (list Z) :=
  bind (br_aes_ct64_keysched (sub J 2) (uninit J 0 (2 * (nr + 1))) key (4 * nk)) (fun c =>
  br_aes_ct64_skey_expand (uninit J 1 (8 * (nr + 1))) c nr).
Lemma ecb_correct nk nr J J' key out inp n : key_size nk nr -> zlen key = 4 * nk -> Forall is_byte key ->
  0 <= n -> 16 * n <= zlen inp -> 16 * n <= zlen out -> Forall is_byte inp ->
  val (bind (keyexp nk nr J key) (fun sk => aes_ecb J' out inp n sk nr)) =
  Ok (ECB (AES nk nr key) n inp ++ slice out (16 * n) (zlen out)).
Proof.
  intros Hs Lk Bk Hn Li Lo Bi. assert (Hr : 10 <= nr <= 14) by (destruct Hs as [[_ ->]|[[_ ->]|[_ ->]]]; lia).
  apply wp_val. apply wp_bind. eapply wp_mono.
  - apply (wp_keyexp _ _ _ key nk nr); auto; rewrite zlen_uninit; lia.
  - intros sk [HW Hsk]. eapply wp_mono; [apply (wp_ecb _ _ _ _ (KeyExpansion nk nr key)); auto; lia|]. auto.
Qed.
Lemma ctr_correct nk nr J J' key out iv len : key_size nk nr -> zlen key = 4 * nk -> Forall is_byte key ->
  zlen iv = 12 -> Forall is_byte iv -> 0 <= len <= zlen out ->
  val (bind (keyexp nk nr J key) (fun sk => aes_ctr J' out len iv sk nr)) =
  Ok (CTR (AES nk nr key) len iv ++ slice out len (zlen out)).
Proof.
  intros Hs Lk Bk Li Bi Hl. assert (Hr : 10 <= nr <= 14) by (destruct Hs as [[_ ->]|[[_ ->]|[_ ->]]]; lia).
  apply wp_val. apply wp_bind. eapply wp_mono.
  - apply (wp_keyexp _ _ _ key nk nr); auto; rewrite zlen_uninit; lia.
  - intros sk [HW Hsk]. eapply wp_mono; [apply (wp_ctr _ _ _ _ (KeyExpansion nk nr key)); auto; lia|]. auto.
Qed.
