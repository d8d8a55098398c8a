(** * The AArch64 rejection sampler: proofs *)

From Coq Require Import ZArith List Bool Lia ZifyBool.
From Verif Require Import CSem ModelArith ModelAvx2 ModelA64Rej Spec202 Spec203 SpecLink CSemFacts ProofScalar
  ProofBits ProofChunk ProofPack ProofRej ProofAvx2.
Import ListNotations.
Open Scope Z_scope.
Ltac Zify.zify_post_hook ::= idtac.

(** ** Twenty-four bytes become two registers of candidates *)

Definition val_lo (b0 b1 b2 : list Z) : list Z := zip1_8h (bic_8h (zip1_16b b0 b1) (240 << 8)) (ushr_8h (zip1_16b b1 b2) 4).
Definition val_hi (b0 b1 b2 : list Z) : list Z := zip2_8h (bic_8h (zip1_16b b0 b1) (240 << 8)) (ushr_8h (zip1_16b b1 b2) 4).

Lemma ldiff_word x y : is_byte x -> is_byte y -> Z.ldiff (x + 256 * y) (240 << 8) = x + 256 * (y mod 16).
Proof.
  unfold is_byte. intros Hx Hy.
  assert (E : Z.ldiff (x + 256 * y) (240 << 8) = (x + 256 * y) mod 4096).
  { change 4096 with (2 ^ 12). rewrite <- Z.land_ones by lia. apply Z.bits_inj'. intros i Hi.
    rewrite Z.ldiff_spec, Z.land_spec.
    destruct (Z.lt_ge_cases i 16) as [H|H].
    - f_equal. assert (C : forallb (fun i => Bool.eqb (negb (Z.testbit (240 << 8) i)) (Z.testbit (Z.ones 12) i))
        (map Z.of_nat (seq 0 16)) = true) by reflexivity.
      rewrite forallb_forall in C. apply Bool.eqb_prop, C, in_map_iff. exists (Z.to_nat i). split; [lia|]. apply in_seq. lia.
    - rewrite (Z.bits_above_log2 (x + 256 * y)); [reflexivity|lia|].
      destruct (Z.eq_dec (x + 256 * y) 0) as [->|]; [cbn; lia|]. apply Z.log2_lt_pow2; [lia|].
      apply (Z.lt_le_trans _ (2 ^ 16)); [change (2 ^ 16) with 65536; lia|]. apply Z.pow_le_mono_r; lia. }
  rewrite E. pose proof (Z.div_mod y 16 ltac:(lia)). pose proof (Z.mod_pos_bound y 16 ltac:(lia)).
  symmetry. apply (Z.mod_unique _ _ (y / 16)); lia.
Qed.
Lemma ushr_word x y : is_byte x -> is_byte y -> (x + 256 * y) / 2 ^ 4 = x / 16 + 16 * y.
Proof.
  intros Hx Hy. change (2 ^ 4) with 16. replace (x + 256 * y) with (x + (16 * y) * 16) by ring.
  now rewrite Z.div_add by lia.
Qed.
Lemma lo_range x y : is_byte x -> is_word (x + 256 * (y mod 16)).
Proof. unfold is_byte, is_word. pose proof (Z.mod_pos_bound y 16 ltac:(lia)). lia. Qed.
Lemma hi_range x y : is_byte x -> is_byte y -> is_word (x / 16 + 16 * y).
Proof.
  unfold is_byte, is_word. intros Hx Hy. assert (0 <= x / 16 < 16); [|lia].
  split; [apply Z.div_pos; lia|apply Z.div_lt_upper_bound; lia].
Qed.

Lemma triples_ind (T : list Z) : length T = 24%nat ->
  exists a0 a1 a2 a3 a4 a5 a6 a7 a8 a9 a10 a11 a12 a13 a14 a15 a16 a17 a18 a19 a20 a21 a22 a23,
  T = [a0; a1; a2; a3; a4; a5; a6; a7; a8; a9; a10; a11; a12; a13; a14; a15; a16; a17; a18; a19; a20; a21; a22; a23].
Proof.
  intros H. do 24 (destruct T as [|? T]; [discriminate H|]). destruct T; [|discriminate H].
  do 24 eexists. reflexivity.
Qed.

(** The registers after ld3, when their lower halves come from [T] *)
Lemma unpack_24 T b0 b1 b2 : length T = 24%nat -> bytes T ->
  firstn 8 b0 = third 0 T 8 -> firstn 8 b1 = third 1 T 8 -> firstn 8 b2 = third 2 T 8 ->
  lane (val_lo b0 b1 b2) (firstn 12 T) /\ lane (val_hi b0 b1 b2) (skipn 12 T).
Proof.
  intros HT HB E0 E1 E2. unfold val_lo, val_hi, zip1_16b. rewrite E0, E1, E2. clear E0 E1 E2 b0 b1 b2.
  destruct (triples_ind T HT) as (a0 & a1 & a2 & a3 & a4 & a5 & a6 & a7 & a8 & a9 & a10 & a11 & a12 & a13 & a14 & a15 & a16 &
    a17 & a18 & a19 & a20 & a21 & a22 & a23 & ->). clear HT.
  unfold bytes in HB. repeat match goal with H : Forall _ (_ :: _) |- _ =>
    let H1 := fresh "b" in let H2 := fresh in apply Forall_cons_iff in H; destruct H as [H1 H2] end.
  unfold bic_8h, ushr_8h. cbn [third map seq nth Nat.mul Nat.add alternate flat_map combine app words].
  rewrite !ldiff_word, !ushr_word by assumption.
  unfold zip1_8h, zip2_8h.
  rewrite !(words_unwords [_; _; _; _; _; _; _; _]) by
    (repeat apply Forall_cons; try apply Forall_nil; first [now apply lo_range | apply hi_range; assumption]).
  cbn [firstn skipn alternate flat_map combine app].
  assert (P : forall l C, length l = 8%nat -> Forall is_word l -> candidates C = l -> Forall is_byte C -> lane (unwords l) C).
  { intros l C Hl Hw Hc Hb. split; [rewrite length_unwords, Hl; reflexivity|]. split; [|exact Hb].
    rewrite Hc. now apply words_unwords. }
  split; (apply P; [reflexivity| |reflexivity|]);
    repeat apply Forall_cons; try apply Forall_nil;
    first [assumption | now apply lo_range | apply hi_range; assumption].
Qed.

Lemma nth_firstn_lt {A} (l : list A) d : forall m i, (i < m)%nat -> nth i (firstn m l) d = nth i l d.
Proof. induction l as [|x l IH]; intros [|m] [|i] H; cbn; try lia; auto. apply IH. lia. Qed.
Lemma nth_skipn_add {A} (l : list A) d : forall m i, nth i (skipn m l) d = nth (m + i) l d.
Proof. induction l as [|x l IH]; intros [|m] i; cbn; auto. now destruct i. Qed.
Lemma third_lo r T : (r < 3)%nat -> firstn 8 (third r T 16) = third r (firstn 24 T) 8.
Proof.
  intros H. unfold third. rewrite firstn_map.
  change (firstn 8 (seq 0 16)) with (seq 0 8). apply map_ext_in. intros i Hi. apply in_seq in Hi.
  symmetry. apply nth_firstn_lt. lia.
Qed.
Lemma third_hi r T : skipn 8 (third r T 16) = third r (skipn 24 T) 8.
Proof.
  unfold third. rewrite skipn_map. change (skipn 8 (seq 0 16)) with (map (fun i => 8 + i)%nat (seq 0 8)).
  rewrite map_map. apply map_ext. intros i. rewrite nth_skipn_add. f_equal. lia.
Qed.
Lemma third_half r T : firstn 8 (third r T 8 ++ repeat 0 8) = third r T 8.
Proof. reflexivity. Qed.
Lemma third_len r T m : firstn m (third r T m) = third r T m.
Proof. apply firstn_all2. unfold third. rewrite map_length, seq_length. lia. Qed.
Lemma zip2_third r s T : zip2_16b (third r T 16) (third s T 16)
  = zip1_16b (third r (skipn 24 T) 8) (third s (skipn 24 T) 8).
Proof. unfold zip2_16b, zip1_16b. now rewrite !third_hi, !third_len. Qed.

(** ** One register *)

Definition signs (F : list Z) : list Z := and_16b (cmhi_8h (dup_8h MLKEM_Q) F) bit_table_data.

Lemma cmhi_lane F : small F -> cmhi_8h (dup_8h MLKEM_Q) F
  = unwords (map (fun b : bool => if b then 65535 else 0) (flags F)).
Proof.
  intros [Hl HF]. unfold cmhi_8h, flags, dup_8h. rewrite map_map. f_equal.
  rewrite (words_unwords (repeat (u16 MLKEM_Q) 8)) by (repeat constructor; cbv; discriminate).
  change (u16 MLKEM_Q) with 3329.
  assert (Hw : length (words F) = 8%nat) by (rewrite length_words, Hl; reflexivity).
  rewrite <- Hw. clear Hw Hl. induction HF as [|w ws Hw _ IH]; [reflexivity|].
  cbn [length repeat map]. rewrite map2_cons, IH. f_equal.
  destruct (Z.gtb_spec 3329 w), (Z.ltb_spec w 3329); auto; lia.
Qed.
Lemma signs_mask F : small F -> uaddlv_8h (signs F) = mask_of (flags F).
Proof.
  intros H. pose proof (length_flags _ H) as Hl. unfold signs. rewrite cmhi_lane by auto.
  destruct (flags F) as [|c0 [|c1 [|c2 [|c3 [|c4 [|c5 [|c6 [|c7 [|]]]]]]]]]; try discriminate Hl.
  destruct c0, c1, c2, c3, c4, c5, c6, c7; reflexivity.
Qed.
Lemma signs_count F : small F -> uaddlv_8h (cnt_16b (signs F)) = zlen (filter (fun b => b) (flags F)).
Proof.
  intros H. pose proof (length_flags _ H) as Hl. unfold signs. rewrite cmhi_lane by auto.
  destruct (flags F) as [|c0 [|c1 [|c2 [|c3 [|c4 [|c5 [|c6 [|c7 [|]]]]]]]]]; try discriminate Hl.
  destruct c0, c1, c2, c3, c4, c5, c6, c7; reflexivity.
Qed.
Lemma pick_count bs : forall ws, length bs = length ws -> zlen (pick bs ws) = zlen (filter (fun b => b) bs).
Proof.
  unfold pick, zlen. induction bs as [|b bs IH]; intros [|w ws] H; try discriminate; auto.
  cbn [combine filter fst]. injection H as H. specialize (IH ws H). destruct b; cbn [map length]; lia.
Qed.
Lemma lane_count F C : lane F C -> uaddlv_8h (cnt_16b (signs F)) = zlen (accepted C).
Proof.
  intros H. rewrite signs_count by (eapply lane_small; eauto).
  rewrite <- (accepted_words F C) by auto. symmetry. apply pick_count.
  rewrite (lane_flags F C) by auto. rewrite length_words. destruct H as (-> & _). reflexivity.
Qed.

Definition row (bs : list bool) : list Z := slice table_data (16 * mask_of bs) (16 * mask_of bs + 16).
Lemma tbl_pick F bs : length F = 16%nat -> length bs = 8%nat ->
  firstn (length (pick bs (words F))) (words (tbl_16b F (row bs))) = pick bs (words F) /\
  length (words (tbl_16b F (row bs))) = 8%nat.
Proof.
  intros HF Hb. split16 HF F.
  destruct bs as [|c0 [|c1 [|c2 [|c3 [|c4 [|c5 [|c6 [|c7 [|]]]]]]]]]; try discriminate Hb.
  destruct c0, c1, c2, c3, c4, c5, c6, c7; (split; vm_compute; reflexivity).
Qed.

Lemma wp_ldr_row {A} N F C (k : list Z -> M A) (Q : A -> Prop) : lane F C ->
  wpn N (k (row (flags F))) Q -> wpn N (t <- ldr_row table_data (uaddlv_8h (signs F)) ;; k t) Q.
Proof.
  intros H Hk. rewrite signs_mask by (eapply lane_small; eauto). apply wp_bind. unfold ldr_row.
  pose proof (mask_of_range (flags F)) as R. unfold zlen in R. rewrite (lane_flags F C) in R by auto.
  change (2 ^ Z.of_nat 8) with 256 in R.
  apply wp_aslice; [lia|lia|change (zlen table_data) with 4096; lia|exact Hk].
Qed.

(** The temporary output starts with [acc]. *)
Definition starts (acc s : list Z) : Prop := exists rest, s = acc ++ rest /\ zlen s = 288.
Lemma wp_str N acc s F C i : lane F C -> starts acc s -> i = zlen acc -> zlen acc + 8 <= 288 ->
  wpn N (str_q s i (tbl_16b F (row (flags F)))) (starts (acc ++ accepted C)).
Proof.
  intros HF (rest & -> & Hl) -> Hc. unfold str_q.
  destruct (tbl_pick F (flags F)) as (Hp & Hw); [apply HF|eapply lane_flags; eauto|].
  rewrite (accepted_words F C) in Hp by auto.
  assert (Ha : map s16 (accepted C) = accepted C).
  { rewrite <- (map_id (accepted C)) at 2. apply map_ext_in. intros w Hin.
    assert (HR : ubounded 3329 (accepted C)) by (apply accepted_range; apply HF).
    unfold ubounded in HR. rewrite Forall_forall in HR. specialize (HR _ Hin). cbv beta in HR.
    unfold s16. rewrite Z.mod_small by lia. lia. }
  set (sw := words (tbl_16b F (row (flags F)))) in *. clearbody sw.
  assert (E : map s16 sw = accepted C ++ map s16 (skipn (length (accepted C)) sw)).
  { rewrite <- (firstn_skipn (length (accepted C)) sw) at 1. now rewrite map_app, Hp, Ha. }
  assert (Hms : zlen (map s16 sw) = 8) by (rewrite zlen_map; unfold zlen; lia).
  rewrite zlen_app in Hl. pose proof (zlen_nonneg acc) as Hn.
  assert (Hsplit : rest = firstn 8 rest ++ skipn 8 rest) by (symmetry; apply firstn_skipn).
  assert (H8 : zlen (firstn 8 rest) = 8) by (apply (zlen_firstn rest 8); lia).
  apply wp_asplice.
  - lia.
  - rewrite Hms, zlen_app. lia.
  - rewrite Hsplit. rewrite splice_app by (auto; lia).
    exists (map s16 (skipn (length (accepted C)) sw) ++ skipn 8 rest). split.
    + rewrite E, <- !app_assoc. reflexivity.
    + rewrite !zlen_app, Hms. assert (zlen rest = 8 + zlen (skipn 8 rest)) by
        (rewrite Hsplit at 1; rewrite zlen_app; lia). lia.
Qed.

(** ** The loop *)

Definition rej_inv (B : list Z) (st : list Z * Z * Z * Z * Z) : Prop :=
  let '(s, o, count, pos, bl) := st in
  exists acc, starts acc s /\ o = zlen acc /\ count = zlen acc /\ zlen acc <= 287 /\
    0 <= pos <= zlen B /\ bl = zlen B - pos /\ pos mod 24 = 0 /\
    acc ++ accepted (skipn (Z.to_nat pos) B) = accepted B.

Lemma u32_small x : 0 <= x < 4294967296 -> u32 x = x.
Proof. intros. unfold u32. now apply Z.mod_small. Qed.
Lemma window (buf B : list Z) bl pos m : B = firstn (Z.to_nat bl) buf -> 0 <= pos -> 0 <= m -> pos + m <= bl ->
  slice buf pos (pos + m) = firstn (Z.to_nat m) (skipn (Z.to_nat pos) B).
Proof. intros ->. intros. unfold slice. rewrite skipn_firstn_comm, firstn_firstn. f_equal. lia. Qed.
Lemma add_mod24 pos m : pos mod 24 = 0 -> m mod 24 = 0 -> (pos + m) mod 24 = 0.
Proof. intros H1 H2. rewrite Z.add_mod, H1, H2 by lia. reflexivity. Qed.

Lemma wp_loop48 N buf bl s0 (Q : list Z * Z * Z * Z * Z -> Prop) :
  0 <= bl <= zlen buf -> bl < 2 ^ 32 -> bl mod 24 = 0 -> bytes buf -> zlen s0 = 288 ->
  (forall s o count pos b, rej_inv (firstn (Z.to_nat bl) buf) (s, o, count, pos, b) ->
     256 <= count \/ b < 48 -> Q (s, o, count, pos, b)) ->
  wpn N (loop48 buf (dup_8h MLKEM_Q) bit_table_data MLKEM_N (s0, 0, 0, 0, bl)) Q.
Proof.
  intros Hb Hb32 H24 HB Hs0 HQ. unfold loop48. cbn [snd]. set (B := firstn (Z.to_nat bl) buf) in *.
  change (2 ^ 32) with 4294967296 in Hb32.
  assert (HlB : zlen B = bl) by (apply zlen_firstn; lia).
  assert (HBB : bytes B) by now apply Forall_firstn.
  apply (wp_while_measure N (rej_inv B) (fun '(_, _, _, _, b) => b)).
  - exists []. split; [exists s0; auto|]. change (zlen (@nil Z)) with 0.
    split; [lia|]. split; [lia|]. split; [lia|]. split; [lia|]. split; [lia|]. split; [reflexivity|]. reflexivity.
  - lia.
  - intros [[[[s o] count] pos] b] (acc & Hs & -> & -> & Hc & Hp & -> & Hm & Hf) Hcond.
    change MLKEM_N with 256 in Hcond. apply andb_prop in Hcond as [Hc1 Hc2]. apply Z.leb_le in Hc1. apply Z.ltb_lt in Hc2.
    split; [lia|]. cbv zeta. unfold ld3_16b.
    apply wp_bind, wp_bind, wp_aslice; [lia..|]. rewrite (window buf B bl) by (auto; lia).
    set (T := skipn (Z.to_nat pos) B) in *.
    assert (HlT : zlen T = bl - pos) by (unfold T; rewrite zlen_skipn; lia).
    assert (HBT : bytes T) by now apply Forall_skipn.
    assert (HT48 : skipn (Z.to_nat (pos + 48)) B = skipn 48 T)
      by (unfold T; rewrite skipn_skipn'; f_equal; lia).
    clearbody T. change (Z.to_nat 48) with 48%nat. set (U := firstn 48 T).
    assert (HlU : length U = 48%nat) by (unfold U; rewrite firstn_length; unfold zlen in *; lia).
    assert (HBU : bytes U) by now apply Forall_firstn.
    assert (HA : accepted T = accepted U ++ accepted (skipn 48 T)) by (apply (accepted_window T 48); [reflexivity|lia]).
    clearbody U. apply wp_ret. cbv beta iota.
    rewrite !zip2_third.
    destruct (unpack_24 (firstn 24 U) (third 0 U 16) (third 1 U 16) (third 2 U 16)) as (K0 & K1);
      [rewrite firstn_length; lia|now apply Forall_firstn|now apply third_lo; lia..|].
    destruct (unpack_24 (skipn 24 U) (third 0 (skipn 24 U) 8) (third 1 (skipn 24 U) 8) (third 2 (skipn 24 U) 8)) as (K2 & K3);
      [rewrite skipn_length; lia|now apply Forall_skipn|apply third_len..|].
    fold (val_lo (third 0 U 16) (third 1 U 16) (third 2 U 16)).
    fold (val_hi (third 0 U 16) (third 1 U 16) (third 2 U 16)).
    fold (val_lo (third 0 (skipn 24 U) 8) (third 1 (skipn 24 U) 8) (third 2 (skipn 24 U) 8)).
    fold (val_hi (third 0 (skipn 24 U) 8) (third 1 (skipn 24 U) 8) (third 2 (skipn 24 U) 8)).
    assert (HU : accepted U = accepted (firstn 12 (firstn 24 U)) ++ accepted (skipn 12 (firstn 24 U)) ++
       accepted (firstn 12 (skipn 24 U)) ++ accepted (skipn 12 (skipn 24 U))).
    { assert (Z48 : zlen U = 48) by (unfold zlen; lia).
      assert (ZF : zlen (firstn 24 U) = 24) by (unfold zlen; rewrite firstn_length; lia).
      assert (ZS : zlen (skipn 24 U) = 24) by (unfold zlen; rewrite skipn_length; lia).
      rewrite (accepted_window U 24) by (reflexivity || lia). change (Z.to_nat 24) with 24%nat.
      rewrite (accepted_window (firstn 24 U) 12) by (reflexivity || lia).
      rewrite (accepted_window (skipn 24 U) 12) by (reflexivity || lia).
      now rewrite <- app_assoc. }
    rewrite HU in HA. clear HU.
    set (F0 := val_lo (third 0 U 16) _ _) in *. set (F1 := val_hi (third 0 U 16) _ _) in *.
    set (F2 := val_lo (third 0 (skipn 24 U) 8) _ _) in *. set (F3 := val_hi (third 0 (skipn 24 U) 8) _ _) in *.
    set (C0 := firstn 12 (firstn 24 U)) in *. set (C1 := skipn 12 (firstn 24 U)) in *.
    set (C2 := firstn 12 (skipn 24 U)) in *. set (C3 := skipn 12 (skipn 24 U)) in *.
    clearbody F0 F1 F2 F3 C0 C1 C2 C3.
    fold (signs F0) (signs F1) (signs F2) (signs F3).
    apply (wp_ldr_row N F0 C0); auto. apply (wp_ldr_row N F1 C1); auto.
    apply (wp_ldr_row N F2 C2); auto. apply (wp_ldr_row N F3 C3); auto.
    rewrite (lane_count F0 C0), (lane_count F1 C1), (lane_count F2 C2), (lane_count F3 C3) by auto.
    pose proof (accepted_8 _ _ K0) as E0. pose proof (accepted_8 _ _ K1) as E1.
    pose proof (accepted_8 _ _ K2) as E2. pose proof (accepted_8 _ _ K3) as E3.
    pose proof (zlen_nonneg acc) as Hn.
    apply wp_bind. eapply wp_mono; [eapply (wp_str N); [exact K0|exact Hs|rewrite ?zlen_app; lia|rewrite ?zlen_app; lia]|].
    intros s1 Hs1.
    apply wp_bind. eapply wp_mono; [eapply (wp_str N); [exact K1|exact Hs1|rewrite ?zlen_app; lia|rewrite ?zlen_app; lia]|].
    intros s2 Hs2.
    apply wp_bind. eapply wp_mono; [eapply (wp_str N); [exact K2|exact Hs2|rewrite ?zlen_app; lia|rewrite ?zlen_app; lia]|].
    intros s3 Hs3.
    apply wp_bind. eapply wp_mono; [eapply (wp_str N); [exact K3|exact Hs3|rewrite ?zlen_app; lia|rewrite ?zlen_app; lia]|].
    intros s4 Hs4.
    apply wp_ret. rewrite (u32_small (zlen (accepted C0) + _)), (u32_small (zlen (accepted C2) + _)),
      (u32_small (zlen acc + _)), (u32_small (_ + (zlen (accepted C2) + _))), (u32_small (zlen B - _ - _)) by lia.
    split; [|cbv beta iota; lia].
    eexists. split; [exact Hs4|]. rewrite !zlen_app.
    split; [lia|]. split; [lia|]. split; [lia|]. split; [lia|]. split; [lia|]. split; [now apply add_mod24|].
    rewrite HT48, <- Hf, HA, <- !app_assoc. reflexivity.
  - intros [[[[s o] count] pos] b] HI Hcond. apply HQ; auto.
    change MLKEM_N with 256 in Hcond. apply andb_false_iff in Hcond as [H|H]; [apply Z.leb_gt in H|apply Z.ltb_ge in H]; lia.
Qed.

(** ** The rest *)

Lemma wp_tail24 N buf bl s o count pos b (Q : list Z * Z -> Prop) :
  0 <= bl <= zlen buf -> bl < 2 ^ 32 -> bl mod 24 = 0 -> bytes buf ->
  rej_inv (firstn (Z.to_nat bl) buf) (s, o, count, pos, b) -> 256 <= count \/ b < 48 ->
  (forall s acc, starts acc s -> zlen acc <= 287 ->
     (if zlen acc <? 256 then zlen acc else 256) = zlen (firstn 256 (accepted (firstn (Z.to_nat bl) buf))) ->
     firstn 256 acc = firstn 256 (accepted (firstn (Z.to_nat bl) buf)) -> Q (s, zlen acc)) ->
  wpn N (tail24 buf (dup_8h MLKEM_Q) bit_table_data MLKEM_N (s, o, count, pos, b)) Q.
Proof.
  intros Hb Hb32 H24 HB (acc & Hs & -> & -> & Hc & Hp & -> & Hm & Hf) Hend HQ. unfold tail24.
  set (B := firstn (Z.to_nat bl) buf) in *.
  change (2 ^ 32) with 4294967296 in Hb32. change MLKEM_N with 256.
  assert (HlB : zlen B = bl) by (apply zlen_firstn; lia).
  assert (HBB : bytes B) by now apply Forall_firstn.
  assert (FULL : forall l m : list Z, firstn 256 l = firstn 256 m ->
     (if zlen l <? 256 then zlen l else 256) = zlen (firstn 256 m)).
  { intros l m <-. unfold zlen. rewrite firstn_length. destruct (Z.ltb_spec (Z.of_nat (length l)) 256); lia. }
  apply wp_branch; intros E.
  { apply Z.leb_le in E. apply wp_ret.
    assert (E' : firstn 256 acc = firstn 256 (accepted B)).
    { rewrite <- Hf. symmetry. apply firstn_app_full. unfold zlen in E. lia. }
    apply HQ; auto. }
  apply Z.leb_gt in E.
  assert (D24 : (24 | zlen B - pos)).
  { apply Z.divide_sub_r; (apply Z.mod_divide; [discriminate|]); [now rewrite HlB|exact Hm]. }
  destruct D24 as (k & Hk).
  apply wp_branch; intros E'.
  { apply Z.ltb_lt in E'. apply wp_ret.
    assert (zlen B - pos = 0) by lia.
    rewrite skipn_all2 in Hf by (unfold zlen in *; lia). cbn [accepted candidates filter] in Hf.
    change (accepted []) with (@nil Z) in Hf. rewrite app_nil_r in Hf.
    apply HQ; auto; [apply FULL|]; now rewrite Hf. }
  apply Z.ltb_ge in E'. assert (H0 : zlen B - pos = 24) by lia.
  unfold ld3_8b. apply wp_bind, wp_bind, wp_aslice; [lia..|]. rewrite (window buf B bl) by (auto; lia).
  set (T := skipn (Z.to_nat pos) B) in *. change (Z.to_nat 24) with 24%nat.
  assert (HlT : zlen T = 24) by (unfold T; rewrite zlen_skipn; lia).
  assert (HBT : bytes T) by now apply Forall_skipn.
  clearbody T. rewrite firstn_all2 by (unfold zlen in HlT; lia).
  apply wp_ret. cbv beta iota zeta.
  destruct (unpack_24 T (third 0 T 8 ++ repeat 0 8) (third 1 T 8 ++ repeat 0 8) (third 2 T 8 ++ repeat 0 8)) as (K0 & K1);
    [unfold zlen in HlT; lia|auto|apply third_half..|].
  fold (val_lo (third 0 T 8 ++ repeat 0 8) (third 1 T 8 ++ repeat 0 8) (third 2 T 8 ++ repeat 0 8)).
  fold (val_hi (third 0 T 8 ++ repeat 0 8) (third 1 T 8 ++ repeat 0 8) (third 2 T 8 ++ repeat 0 8)).
  assert (HA : accepted T = accepted (firstn 12 T) ++ accepted (skipn 12 T))
    by (apply (accepted_window T 12); [reflexivity|lia]).
  set (F0 := val_lo (third 0 T 8 ++ _) _ _) in *. set (F1 := val_hi (third 0 T 8 ++ _) _ _) in *.
  set (C0 := firstn 12 T) in *. set (C1 := skipn 12 T) in *. clearbody F0 F1 C0 C1.
  fold (signs F0) (signs F1).
  apply (wp_ldr_row N F0 C0); auto. apply (wp_ldr_row N F1 C1); auto.
  rewrite (lane_count F0 C0), (lane_count F1 C1) by auto.
  pose proof (accepted_8 _ _ K0) as E0. pose proof (accepted_8 _ _ K1) as E1.
  pose proof (zlen_nonneg acc) as Hn.
  apply wp_bind. eapply wp_mono; [eapply (wp_str N); [exact K0|exact Hs|rewrite ?zlen_app; lia|rewrite ?zlen_app; lia]|].
  intros s1 Hs1.
  apply wp_bind. eapply wp_mono; [eapply (wp_str N); [exact K1|exact Hs1|rewrite ?zlen_app; lia|rewrite ?zlen_app; lia]|].
  intros s2 Hs2.
  apply wp_ret. rewrite (u32_small (zlen acc + _)), (u32_small (_ + zlen (accepted C1))) by lia.
  replace (zlen acc + zlen (accepted C0) + zlen (accepted C1)) with (zlen ((acc ++ accepted C0) ++ accepted C1))
    by (rewrite !zlen_app; lia).
  rewrite HA, app_assoc in Hf.
  apply HQ; auto; [rewrite !zlen_app; lia|apply FULL|]; now rewrite Hf.
Qed.

(** The copy: the output's first 256 elements become those of the stack. *)
Lemma s16_u16 x : s16 (u16 x) = s16 x.
Proof.
  unfold s16, u16. f_equal. rewrite <- (Z.add_mod_idemp_l x) by lia. reflexivity.
Qed.
Lemma firstn_slice (l : list Z) i : 0 <= i -> i + 8 <= zlen l ->
  firstn (Z.to_nat (i + 8)) l = firstn (Z.to_nat i) l ++ slice l i (i + 8).
Proof.
  intros. unfold slice. replace (Z.to_nat (i + 8)) with (Z.to_nat i + Z.to_nat (i + 8 - i))%nat by lia.
  rewrite <- (firstn_skipn (Z.to_nat i) l) at 1. rewrite firstn_app, firstn_length.
  rewrite firstn_all2 by (rewrite firstn_length; unfold zlen in *; lia). f_equal. f_equal.
  unfold zlen in *. lia.
Qed.

Lemma wp_load N t i {A} (k : list Z -> M A) (Q : A -> Prop) : 0 <= i -> i + 8 <= zlen t ->
  wpn N (k (unwords (map u16 (slice t i (i + 8))))) Q -> wpn N (bind (ldr_q t i) k) Q.
Proof.
  intros. apply wp_bind. unfold ldr_q. apply wp_bind, wp_aslice; [lia..|]. apply wp_ret. assumption.
Qed.
Lemma wp_store N t i (pre mid rest : list Z) j (Q : list Z -> Prop) :
  0 <= i -> i + 8 <= zlen t -> zlen pre = j -> zlen mid = 8 ->
  Q ((pre ++ map s16 (slice t i (i + 8))) ++ rest) ->
  wpn N (str_q (pre ++ mid ++ rest) j (unwords (map u16 (slice t i (i + 8))))) Q.
Proof.
  intros H1 H2 H3 H4 HQ. unfold str_q.
  assert (E : map s16 (words (unwords (map u16 (slice t i (i + 8))))) = map s16 (slice t i (i + 8))).
  { rewrite words_unwords.
    - rewrite map_map. apply map_ext, s16_u16.
    - apply Forall_forall. intros x Hx. apply in_map_iff in Hx as (y & <- & _). unfold is_word, u16.
      apply Z.mod_pos_bound. lia. }
  rewrite E.
  assert (L : zlen (map s16 (slice t i (i + 8))) = 8) by (rewrite zlen_map, zlen_slice by lia; lia).
  apply wp_asplice.
  - pose proof (zlen_nonneg pre). lia.
  - rewrite L, !zlen_app. pose proof (zlen_nonneg rest). lia.
  - rewrite splice_app by lia. now rewrite app_assoc.
Qed.

Lemma wp_copy N t r (Q : list Z -> Prop) : zlen t = 288 -> 256 <= zlen r ->
  Q (map s16 (firstn 256 t) ++ skipn 256 r) ->
  wpn N (for_up 0 MLKEM_N 32 (fun i r =>
    val0 <- ldr_q t i ;;
    val1 <- ldr_q t (i + 8) ;;
    val2 <- ldr_q t (i + 16) ;;
    val3 <- ldr_q t (i + 24) ;;
    r <- str_q r i val0 ;;
    r <- str_q r (i + 8) val1 ;;
    r <- str_q r (i + 16) val2 ;;
    str_q r (i + 24) val3) r) Q.
Proof.
  intros Ht Hr HQ.
  apply (wp_for_step N (fun k x => x = map s16 (firstn (Z.to_nat (32 * k)) t) ++ skipn (Z.to_nat (32 * k)) r) 0 _ _ 8).
  - reflexivity.
  - lia.
  - reflexivity.
  - intros k x Hk ->. replace (0 + k * 32) with (32 * k) by lia.
    apply wp_load; [lia..|]. apply wp_load; [lia..|]. apply wp_load; [lia..|]. apply wp_load; [lia..|].
    assert (LP : forall i, 0 <= i <= 256 -> zlen (map s16 (firstn (Z.to_nat i) t)) = i)
      by (intros; rewrite zlen_map, zlen_firstn; lia).
    assert (LS : forall i, 0 <= i -> i + 8 <= 256 -> zlen (slice r i (i + 8)) = 8)
      by (intros; rewrite zlen_slice; lia).
    assert (NX : forall i, 0 <= i -> i + 8 <= 256 -> map s16 (firstn (Z.to_nat i) t) ++ map s16 (slice t i (i + 8))
       = map s16 (firstn (Z.to_nat (i + 8)) t)) by (intros; rewrite firstn_slice, map_app by lia; reflexivity).
    assert (SK : forall i, 0 <= i -> i + 8 <= 256 -> skipn (Z.to_nat i) r = slice r i (i + 8) ++ skipn (Z.to_nat (i + 8)) r)
      by (intros; apply skipn_slice; lia).
    set (i := 32 * k) in *. assert (Hi : 0 <= i /\ i + 32 <= 256) by lia.
    replace (32 * (k + 1)) with (i + 24 + 8) by lia.
    rewrite (SK i) by lia. apply wp_bind, wp_store; [lia|lia|apply LP; lia|apply LS; lia|].
    rewrite NX by lia. rewrite (SK (i + 8)) by lia.
    apply wp_bind, wp_store; [lia|lia|apply LP; lia|apply LS; lia|].
    rewrite NX by lia. replace (i + 8 + 8) with (i + 16) by lia. rewrite (SK (i + 16)) by lia.
    apply wp_bind, wp_store; [lia|lia|apply LP; lia|apply LS; lia|].
    rewrite NX by lia. replace (i + 16 + 8) with (i + 24) by lia. rewrite (SK (i + 24)) by lia.
    apply wp_store; [lia|lia|apply LP; lia|apply LS; lia|].
    rewrite NX by lia. reflexivity.
  - intros x ->. exact HQ.
Qed.

Lemma wp_rej_a64 N J r buf bl (Q : list Z * Z -> Prop) :
  256 <= zlen r -> 0 <= bl <= zlen buf -> bl < 2 ^ 32 -> bl mod 24 = 0 -> bytes buf ->
  (forall s, let acc := firstn 256 (accepted (firstn (Z.to_nat bl) buf)) in holds r acc s -> Q (s, zlen acc)) ->
  wpn N (rej_uniform_asm_clean J r buf bl) Q.
Proof.
  intros Hr Hb Hb32 H24 HB HQ. unfold rej_uniform_asm_clean.
  apply wp_bind, (wp_loop48 N buf bl); auto.
  intros s o count pos b HI Hend. apply wp_bind, (wp_tail24 N buf bl); auto.
  intros t acc (rest & -> & Ht) Hc Hcount Hf. cbv beta iota zeta.
  change MLKEM_N with 256 at 1. change (if zlen acc <? MLKEM_N then zlen acc else MLKEM_N)
    with (if zlen acc <? 256 then zlen acc else 256). rewrite Hcount.
  apply wp_bind, wp_copy; auto. apply wp_ret. apply HQ.
  set (A := firstn 256 (accepted (firstn (Z.to_nat bl) buf))) in *.
  assert (HA : map s16 A = A).
  { rewrite <- (map_id A) at 2. apply map_ext_in. intros w Hin.
    assert (HR : ubounded 3329 (accepted (firstn (Z.to_nat bl) buf)))
      by (apply accepted_range; now apply Forall_firstn).
    unfold ubounded in HR. rewrite Forall_forall in HR. specialize (HR w). cbv beta in HR.
    assert (In w (accepted (firstn (Z.to_nat bl) buf))).
    { rewrite <- (firstn_skipn 256 (accepted _)). apply in_or_app. now left. }
    specialize (HR H). unfold s16. rewrite Z.mod_small by lia. lia. }
  rewrite firstn_app, map_app, Hf, HA, <- app_assoc.
  eexists. split; [reflexivity|].
  assert (L : length (A ++ map s16 (firstn (256 - length acc) rest)) = 256%nat).
  { rewrite app_length, map_length, firstn_length. rewrite <- Hf, firstn_length.
    unfold zlen in Ht. rewrite app_length in Ht. lia. }
  rewrite app_assoc. split.
  - unfold zlen in *. rewrite app_length, L, skipn_length. lia.
  - rewrite skipn_app, L, skipn_all2 by lia. reflexivity.
Qed.

Lemma wp_rej_uniform_a64 N J r target offset buf buflen (Q : list Z * Z -> Prop) :
  0 <= offset <= target -> target <= zlen r -> target < 2 ^ 31 ->
  0 <= buflen <= zlen buf -> buflen < 2 ^ 31 -> bytes buf ->
  (forall s, let acc := firstn (Z.to_nat target)
       (firstn (Z.to_nat offset) r ++ accepted (firstn (Z.to_nat buflen) buf)) in
     (exists rest, s = acc ++ rest) -> zlen s = zlen r ->
     skipn (Z.to_nat target) s = skipn (Z.to_nat target) r -> Q (s, zlen acc)) ->
  wpn N (rej_uniform_aarch64 J r target offset buf buflen) Q.
Proof.
  intros Ho Ht Ht' Hb Hb' HB HQ. unfold rej_uniform_aarch64.
  change (Z.of_nat (length r)) with (zlen r).
  apply wp_bind, wp_aslice; [lia..|]. rewrite slice_suffix by lia.
  assert (U : u32 (target - offset) = target - offset) by (unfold u32; apply Z.mod_small; lia).
  rewrite U. unfold rej_uniform_native_aarch64.
  change MLKEM_N with 256.
  assert (Hsuf : zlen (skipn (Z.to_nat offset) r) = zlen r - offset) by (apply zlen_skipn; lia).
  assert (Hpre : zlen (firstn (Z.to_nat offset) r) = offset) by (apply zlen_firstn; lia).
  apply wp_bind, wp_branch; intros E.
  - apply wp_ret. apply wp_bind, wp_asplice; [lia|lia|].
    rewrite splice_suffix by lia. rewrite firstn_skipn.
    apply wp_branch; intros E'; [discriminate E'|]. apply wp_rej; auto. cbv zeta.
    apply HQ.
    + eexists. reflexivity.
    + apply zlen_put. unfold zlen. rewrite firstn_length. unfold zlen in *. lia.
    + unfold put. set (acc := firstn _ _).
      assert (Hla : (length acc <= Z.to_nat target)%nat) by (unfold acc; rewrite firstn_length; lia).
      rewrite skipn_app_ge, skipn_skipn' by lia. f_equal. lia.
  - apply orb_false_iff in E as [E1 E2]. apply negb_false_iff in E1, E2.
    apply Z.eqb_eq in E1, E2. apply (wp_rej_a64 N J _ buf buflen); [lia|lia|lia|auto|auto|].
    intros s acc (rest & -> & Hl & Hs). cbv zeta.
    apply wp_bind, wp_asplice; [lia|lia|]. rewrite splice_suffix by lia.
    assert (Hacc : (length acc <= 256)%nat) by (unfold acc; rewrite firstn_length; lia).
    apply wp_branch; intros E'; [|apply negb_false_iff, Z.eqb_eq in E'; pose proof (zlen_nonneg acc); lia].
    apply wp_ret.
    assert (Eacc : firstn (Z.to_nat target)
       (firstn (Z.to_nat offset) r ++ accepted (firstn (Z.to_nat buflen) buf))
       = firstn (Z.to_nat offset) r ++ acc).
    { rewrite firstn_app. rewrite firstn_all2 by (unfold zlen in *; lia). f_equal.
      unfold acc. f_equal. unfold zlen in *. lia. }
    replace (u32 (offset + u32 (zlen acc))) with (zlen (firstn (Z.to_nat offset) r ++ acc)).
    2: { rewrite zlen_app, Hpre. unfold u32, zlen in *. rewrite (Z.mod_small (Z.of_nat (length acc))) by lia.
         rewrite Z.mod_small by lia. reflexivity. }
    rewrite <- Eacc. apply HQ.
    + rewrite Eacc. exists rest. now rewrite app_assoc.
    + rewrite zlen_app, Hpre, Hl, Hsuf. lia.
    + rewrite skipn_app_ge by (unfold zlen in *; lia).
      replace (Z.to_nat target - length (firstn (Z.to_nat offset) r))%nat with 256%nat
        by (unfold zlen in *; lia).
      rewrite Hs, skipn_skipn'. f_equal. lia.
Qed.

(** ** Statements *)

Lemma a64rej_correct J r buf bl :
  256 <= zlen r -> 0 <= bl <= zlen buf -> bl < 2 ^ 32 -> bl mod 24 = 0 -> bytes buf ->
  exists r', val (rej_uniform_asm_clean J r buf bl) = Ok (r', zlen (firstn 256 (accepted (slice buf 0 bl)))) /\
    (exists rest, r' = firstn 256 (accepted (slice buf 0 bl)) ++ rest) /\
    zlen r' = zlen r /\ skipn 256 r' = skipn 256 r.
Proof.
  intros Hr Hb Hb32 H24 HB.
  assert (ES : slice buf 0 bl = firstn (Z.to_nat bl) buf) by (unfold slice; now rewrite Z.sub_0_r).
  rewrite ES.
  destruct (wp_ex (rej_uniform_asm_clean J r buf bl) (fun x => exists r', x = (r', zlen (firstn 256 (accepted (firstn (Z.to_nat bl) buf)))) /\
    holds r (firstn 256 (accepted (firstn (Z.to_nat bl) buf))) r')) as (x & E & r' & -> & rest & Er & H1 & H2).
  - apply wp_rej_a64; auto. intros s acc Hs. eauto.
  - eauto 8.
Qed.

Lemma a64rej_agrees J r target offset buf buflen :
  0 <= offset <= target -> target <= zlen r -> target < 2 ^ 31 ->
  0 <= buflen <= zlen buf -> buflen < 2 ^ 31 -> bytes buf ->
  exists r1 r2 c,
    val (rej_uniform r target offset buf buflen) = Ok (r1, c) /\
    val (rej_uniform_aarch64 J r target offset buf buflen) = Ok (r2, c) /\
    offset <= c <= target /\
    slice r2 0 c = slice r1 0 c /\ zlen r2 = zlen r /\
    skipn (Z.to_nat target) r2 = skipn (Z.to_nat target) r /\
    (c = target -> r2 = r1).
Proof.
  intros Ho Ht Ht' Hb Hb' HB.
  set (acc := firstn (Z.to_nat target) (firstn (Z.to_nat offset) r ++ accepted (firstn (Z.to_nat buflen) buf))).
  destruct (wp_ex (rej_uniform r target offset buf buflen) (fun x => x = (put acc r, zlen acc))) as (x & E & ->);
    [apply wp_rej; auto|].
  destruct (wp_ex (rej_uniform_aarch64 J r target offset buf buflen) (fun x => exists s, x = (s, zlen acc) /\
     (exists rest, s = acc ++ rest) /\ zlen s = zlen r /\
     skipn (Z.to_nat target) s = skipn (Z.to_nat target) r)) as (x & E' & s & -> & (rest & ->) & Hl & Hs).
  { apply wp_rej_uniform_a64; auto. intros s acc' H1 H2 H3. exists s. auto. }
  assert (La : Z.to_nat (zlen acc) = length acc) by (unfold zlen; lia).
  assert (Hc : offset <= zlen acc <= target).
  { unfold acc, zlen. rewrite firstn_length, app_length, firstn_length. unfold zlen in *. lia. }
  exists (put acc r), (acc ++ rest), (zlen acc). split; [exact E|]. split; [exact E'|].
  split; [exact Hc|]. split; [|split; [exact Hl|split; [exact Hs|]]].
  - unfold slice, put. rewrite Z.sub_0_r, La. change (Z.to_nat 0) with 0%nat. cbn [skipn].
    rewrite !firstn_app_full by lia. reflexivity.
  - intros Et. rewrite <- Et in Hs. unfold put. f_equal. rewrite La in Hs. rewrite <- Hs.
    rewrite skipn_app, skipn_all, Nat.sub_diag. reflexivity.
Qed.
