(** * The AVX2 rejection sampler: proofs *)

From Coq Require Import ZArith List Bool Lia ZifyBool.
From Verif Require Import CSem ModelArith ModelAvx2 Spec202 Spec203 SpecLink CSemFacts ProofScalar
  ProofBits ProofChunk ProofPack ProofRej.
Import ListNotations.
Open Scope Z_scope.
Ltac Zify.zify_post_hook ::= Z.to_euclidean_division_equations.

(** ** Registers and their 16-bit elements *)

Definition is_word (w : Z) : Prop := 0 <= w < 65536.

Lemma words_unwords ws : Forall is_word ws -> words (unwords ws) = ws.
Proof.
  induction 1 as [|w ws Hw _ IH]; [reflexivity|]. unfold is_word in Hw.
  change (unwords (w :: ws)) with (u8 w :: u8 (w / 256) :: unwords ws).
  cbn [words]. rewrite IH. f_equal. unfold u8. lia.
Qed.

Lemma unwords_words_ok ws : Forall is_byte (unwords ws).
Proof.
  unfold unwords. induction ws as [|w ws IH]; cbn [flat_map]; [constructor|].
  repeat apply Forall_cons; auto; unfold is_byte, u8; lia.
Qed.

Lemma length_unwords ws : length (unwords ws) = (2 * length ws)%nat.
Proof. unfold unwords. induction ws; cbn [flat_map length app]; lia. Qed.

Lemma words_app a b : Nat.even (length a) = true -> words (a ++ b) = words a ++ words b.
Proof.
  remember (length a) as k. revert a Heqk. induction k as [k IH] using lt_wf_ind. intros a Hk He.
  destruct a as [|x [|y t]].
  - reflexivity.
  - subst k. discriminate He.
  - cbn [app words]. f_equal. apply (IH (length t)); auto.
    + subst k. cbn [length]. lia.
    + subst k. exact He.
Qed.

Lemma map2_cons f x y a b : map2 f (x :: a) (y :: b) = f x y :: map2 f a b.
Proof. reflexivity. Qed.
Lemma map2_app f a b a' b' : length a = length a' -> map2 f (a ++ b) (a' ++ b') = map2 f a a' ++ map2 f b b'.
Proof.
  revert a'. induction a as [|x a IH]; intros [|x' a'] Hl; cbn [length] in Hl; try lia; [reflexivity|].
  cbn [app]. rewrite !map2_cons. cbn [app]. f_equal. apply IH. lia.
Qed.
Lemma length_map2 f a b : length a = length b -> length (map2 f a b) = length a.
Proof. intros. unfold map2. rewrite map_length, combine_length. lia. Qed.

Lemma land_mask w : is_word w ->
  Z.land (u8 w) (u8 4095) + 256 * Z.land (u8 (w / 256)) (u8 (4095 / 256)) = w mod 4096.
Proof.
  unfold is_word; intros. change (u8 4095) with (Z.ones 8). change (u8 (4095 / 256)) with (Z.ones 4).
  rewrite !Z.land_ones by lia. unfold u8. change (2 ^ 8) with 256. change (2 ^ 4) with 16. lia.
Qed.

Lemma words_mask ws : Forall is_word ws ->
  words (map2 Z.land (unwords ws) (unwords (repeat 4095 (length ws)))) = map (fun w => w mod 4096) ws.
Proof.
  induction 1 as [|w ws Hw _ IH]; [reflexivity|]. cbn [length repeat map].
  change (unwords (w :: ws)) with (u8 w :: u8 (w / 256) :: unwords ws).
  change (unwords (4095 :: repeat 4095 (length ws)))
    with (u8 4095 :: u8 (4095 / 256) :: unwords (repeat 4095 (length ws))).
  rewrite !map2_cons. cbn [words]. rewrite IH. f_equal. now apply land_mask.
Qed.

(** ** One lane: twelve bytes become eight candidates *)

(** The steps of the loops between the first shuffle and the comparison *)
Definition decode_lane (S : list Z) : list Z :=
  _mm_and_si128 (_mm_blend_epi16 S (_mm_srli_epi16 S 4) 170) (unwords (repeat 4095 8)).

Lemma decode_lane_words b0 b1 b2 b3 b4 b5 b6 b7 b8 b9 b10 b11 :
  let S := [b0; b1; b1; b2; b3; b4; b4; b5; b6; b7; b7; b8; b9; b10; b10; b11] in
  let C := [b0; b1; b2; b3; b4; b5; b6; b7; b8; b9; b10; b11] in
  bytes C -> words (decode_lane S) = candidates C.
Proof.
  intros S C HC. unfold decode_lane, _mm_and_si128, _mm_blend_epi16, _mm_srli_epi16.
  unfold bytes, C in HC.
  repeat match goal with H : Forall is_byte (_ :: _) |- _ => apply Forall_cons_iff in H as [? H] end.
  unfold is_byte in *.
  rewrite words_unwords.
  2: { change (2 ^ 4) with 16. cbn [S words map]. repeat (apply Forall_cons; [unfold is_word; lia|]). constructor. }
  change (2 ^ 4) with 16. cbn [S words map combine nats seq Z.of_nat Pos.of_succ_nat Pos.succ
    Z.odd Z.testbit Pos.testbit Z.pred_double Pos.pred_double Pos.pred_N].
  match goal with |- words (map2 _ (unwords ?l) _) = _ => set (ws := l) end.
  change 8%nat with (length ws). rewrite words_mask.
  - unfold ws, C. cbn [map candidates]. repeat (apply (f_equal2 cons); [lia|]). reflexivity.
  - unfold ws. repeat (apply Forall_cons; [unfold is_word; lia|]). constructor.
Qed.


Lemma length_words a : length (words a) = (length a / 2)%nat.
Proof.
  assert (forall k a, (length a <= k)%nat -> length (words a) = (length a / 2)%nat) as E.
  { clear. induction k as [|k IH]; intros [|x [|y t]] Hk; cbn [length] in Hk; try lia; try reflexivity.
    cbn [words length]. rewrite IH by lia.
    replace (S (S (length t))) with (length t + 1 * 2)%nat by lia. rewrite Nat.div_add; lia. }
  now apply (E (length a)).
Qed.

Lemma length_srli a n : length a = 16%nat -> length (_mm_srli_epi16 a n) = 16%nat.
Proof.
  intros H. unfold _mm_srli_epi16. rewrite length_unwords, map_length, length_words, H. reflexivity.
Qed.
Lemma length_blend a b i : length a = 16%nat -> length b = 16%nat -> length (_mm_blend_epi16 a b i) = 16%nat.
Proof.
  intros H1 H2. unfold _mm_blend_epi16.
  rewrite length_unwords, map_length, !combine_length, !length_words, H1, H2. reflexivity.
Qed.
Lemma length_decode S : length S = 16%nat -> length (decode_lane S) = 16%nat.
Proof.
  intros H. unfold decode_lane, _mm_and_si128.
  assert (E : length (_mm_blend_epi16 S (_mm_srli_epi16 S 4) 170) = 16%nat)
    by (apply length_blend; auto; now apply length_srli).
  rewrite length_map2; auto.
Qed.
Lemma length_cmpgt a b : length a = 16%nat -> length b = 16%nat -> length (_mm_cmpgt_epi16 a b) = 16%nat.
Proof.
  intros H1 H2. unfold _mm_cmpgt_epi16.
  rewrite length_unwords, length_map2; rewrite !length_words, H1, ?H2; reflexivity.
Qed.

Lemma lanes1_app f a b : length a = 16%nat -> lanes1 f (a ++ b) = f a ++ f b.
Proof.
  intros H. unfold lanes1. rewrite <- H, firstn_app, firstn_all, skipn_app, skipn_all, Nat.sub_diag.
  cbn [firstn skipn]. now rewrite app_nil_r.
Qed.
Lemma firstn16 {A} (a b : list A) : length a = 16%nat -> firstn 16 (a ++ b) = a.
Proof.
  intros <-. rewrite firstn_app, firstn_all, Nat.sub_diag. cbn [firstn]. apply app_nil_r.
Qed.
Lemma skipn16 {A} (a b : list A) : length a = 16%nat -> skipn 16 (a ++ b) = b.
Proof. intros <-. now rewrite skipn_app, skipn_all, Nat.sub_diag. Qed.
Lemma lanes2_app f a b a' b' : length a = 16%nat -> length a' = 16%nat ->
  lanes2 f (a ++ b) (a' ++ b') = f a a' ++ f b b'.
Proof. intros. unfold lanes2. now rewrite !firstn16, !skipn16. Qed.

Lemma mask_lanes : mask = unwords (repeat 4095 8) ++ unwords (repeat 4095 8).
Proof. reflexivity. Qed.
Lemma bound_lanes : bound = unwords (repeat MLKEM_Q 8) ++ unwords (repeat MLKEM_Q 8).
Proof. reflexivity. Qed.
Lemma ones_lanes : ones = repeat 1 16 ++ repeat 1 16.
Proof. reflexivity. Qed.

Lemma decode_256 A B : length A = 16%nat -> length B = 16%nat ->
  _mm256_and_si256 (_mm256_blend_epi16 (A ++ B) (_mm256_srli_epi16 (A ++ B) 4) 170) mask
  = decode_lane A ++ decode_lane B.
Proof.
  intros HA HB. unfold _mm256_and_si256, _mm256_blend_epi16, _mm256_srli_epi16.
  rewrite lanes1_app by auto. rewrite lanes2_app by (auto; now apply length_srli).
  rewrite mask_lanes, map2_app; [reflexivity|].
  rewrite length_blend by (auto; now apply length_srli). reflexivity.
Qed.

(** The first shuffle, as the two halves of [idx8] do it *)
Definition gather_lo (L : list Z) : list Z := _mm_shuffle_epi8 L (firstn 16 idx8).
Definition gather_hi (L : list Z) : list Z := _mm_shuffle_epi8 L (skipn 16 idx8).

Ltac split16 H L := do 16 (destruct L as [|? L]; [discriminate H|]);
  destruct L; [|discriminate H].

Lemma gather_lo_words L : length L = 16%nat -> bytes L ->
  words (decode_lane (gather_lo L)) = candidates (firstn 12 L).
Proof.
  intros Hl HB. split16 Hl L. apply decode_lane_words. unfold bytes in *.
  apply Forall_forall; intros x Hx. rewrite Forall_forall in HB. apply HB.
  cbn [In] in *. tauto.
Qed.
Lemma gather_hi_words L : length L = 16%nat -> bytes L ->
  words (decode_lane (gather_hi L)) = candidates (skipn 4 L).
Proof.
  intros Hl HB. split16 Hl L. apply decode_lane_words. unfold bytes in *.
  apply Forall_forall; intros x Hx. rewrite Forall_forall in HB. apply HB.
  cbn [In] in *. tauto.
Qed.
Lemma length_shuffle a b : length (_mm_shuffle_epi8 a b) = length b.
Proof. unfold _mm_shuffle_epi8. apply map_length. Qed.

(** ** The comparison and the mask of good candidates *)

Lemma candidates_range C : bytes C -> Forall (fun d => 0 <= d < 4096) (candidates C).
Proof.
  unfold bytes. induction C as [|x|x y|c0 c1 c2 C IH] using three_ind; intros HC; try (now constructor).
  apply Forall_cons_iff in HC as [H0 HC]. apply Forall_cons_iff in HC as [H1 HC].
  apply Forall_cons_iff in HC as [H2 HC]. unfold is_byte in *. cbn [candidates].
  apply Forall_cons; [lia|]. apply Forall_cons; [lia|]. auto.
Qed.

Definition small (F : list Z) : Prop := length F = 16%nat /\ Forall (fun d => 0 <= d < 4096) (words F).
Definition flags (F : list Z) : list bool := map (fun w => w <? 3329) (words F).
Lemma length_flags F : small F -> length (flags F) = 8%nat.
Proof. intros [H _]. unfold flags. rewrite map_length, length_words, H. reflexivity. Qed.

Lemma cmp_lane F : small F -> _mm_cmpgt_epi16 (unwords (repeat MLKEM_Q 8)) F
  = unwords (map (fun b : bool => if b then 65535 else 0) (flags F)).
Proof.
  intros [Hl HF]. unfold _mm_cmpgt_epi16, flags. rewrite map_map. f_equal.
  rewrite (words_unwords (repeat MLKEM_Q 8)) by (repeat constructor; cbv; discriminate).
  assert (Hw : length (words F) = 8%nat) by (rewrite length_words, Hl; reflexivity).
  rewrite <- Hw. clear Hw Hl. induction HF as [|w ws Hw _ IH]; [reflexivity|].
  cbn [length repeat map]. rewrite map2_cons, IH. f_equal.
  change (s16 MLKEM_Q) with 3329. replace (s16 w) with w by (unfold s16; lia).
  destruct (Z.gtb_spec 3329 w), (Z.ltb_spec w 3329); auto; lia.
Qed.
Lemma words_cmp F : small F -> words (_mm_cmpgt_epi16 (unwords (repeat MLKEM_Q 8)) F)
  = map (fun b : bool => if b then 65535 else 0) (flags F).
Proof.
  intros H. rewrite cmp_lane by auto. apply words_unwords.
  apply Forall_forall. intros x Hx. apply in_map_iff in Hx as ([] & <- & _); unfold is_word; lia.
Qed.

Lemma bits_back (l : list bool) :
  map (fun b : bool => 128 <=? saturate8 (if b then 65535 else 0)) l = l.
Proof. induction l as [|[] l IH]; cbn [map]; [|rewrite IH..]; reflexivity. Qed.

Lemma good_256 F0 G0 F1 G1 : small F0 -> small G0 -> small F1 -> small G1 ->
  _mm256_movemask_epi8 (_mm256_packs_epi16 (_mm256_cmpgt_epi16 bound (F0 ++ G0))
     (_mm256_cmpgt_epi16 bound (F1 ++ G1)))
  = mask_of (flags F0 ++ flags F1 ++ flags G0 ++ flags G1).
Proof.
  intros H0 H1 H2 H3. unfold _mm256_cmpgt_epi16. rewrite bound_lanes.
  rewrite !lanes2_app by first [reflexivity | apply H0 | apply H2].
  unfold _mm256_packs_epi16.
  rewrite !lanes2_app by (apply length_cmpgt; first [reflexivity | apply H0 | apply H2]).
  unfold _mm_packs_epi16. rewrite !words_cmp by auto.
  unfold _mm256_movemask_epi8, _mm_movemask_epi8. f_equal.
  rewrite !map_app, !map_map, <- !app_assoc.
  now rewrite !bits_back.
Qed.

Lemma mask_of_app a b : mask_of (a ++ b) = mask_of a + 2 ^ zlen a * mask_of b.
Proof.
  induction a as [|x a IH].
  - cbn [app mask_of]. change (zlen (@nil bool)) with 0. lia.
  - cbn [app mask_of]. rewrite IH, zlen_cons, Z.pow_add_r by (pose proof (zlen_nonneg a); lia). lia.
Qed.
Lemma mask_of_range a : 0 <= mask_of a < 2 ^ zlen a.
Proof.
  induction a as [|x a IH]; [change (0 <= 0 < 1); lia|]. cbn [mask_of].
  rewrite zlen_cons, Z.pow_add_r by (pose proof (zlen_nonneg a); lia). destruct x; cbn [Z.b2z]; lia.
Qed.

Lemma mask_byte a b c m : length b = 8%nat -> m = zlen a ->
  (mask_of (a ++ b ++ c) >> m) .& 255 = mask_of b.
Proof.
  intros Hb ->. change 255 with (Z.ones 8). rewrite Z.land_ones by lia.
  rewrite Z.shiftr_div_pow2 by apply zlen_nonneg. rewrite mask_of_app, Z.mul_comm.
  rewrite Z.div_add, Z.div_small, Z.add_0_l, mask_of_app by
    first [apply mask_of_range | pose proof (zlen_nonneg a); lia].
  replace (zlen b) with 8 by (unfold zlen; lia).
  pose proof (mask_of_range b) as H. replace (zlen b) with 8 in H by (unfold zlen; lia).
  rewrite Z.mul_comm, Z.mod_add by lia. now apply Z.mod_small.
Qed.
Lemma mask_byte0 b c : length b = 8%nat -> (mask_of (b ++ c) >> 0) .& 255 = mask_of b.
Proof. intros. now apply (mask_byte [] b c). Qed.

Lemma good_128 F : small F ->
  _pext_u32 (_mm_movemask_epi8 (_mm_cmpgt_epi16 (unwords (repeat MLKEM_Q 8)) F)) 21845
  = mask_of (flags F).
Proof.
  intros H. pose proof (length_flags _ H) as Hl.
  rewrite cmp_lane by auto. clear H. destruct (flags F) as [|b0 [|b1 [|b2 [|b3 [|b4 [|b5 [|b6 [|b7 [|]]]]]]]]];
    try discriminate Hl.
  destruct b0, b1, b2, b3, b4, b5, b6, b7; reflexivity.
Qed.

(** ** Compaction by the table *)

Definition pick (bs : list bool) (ws : list Z) : list Z := map snd (filter fst (combine bs ws)).

Lemma pick_filter ws : pick (map (fun w => w <? 3329) ws) ws = filter (fun d => d <? 3329) ws.
Proof.
  unfold pick. induction ws as [|w ws IH]; [reflexivity|]. cbn [map combine filter fst].
  destruct (w <? 3329); cbn [map snd]; now rewrite IH.
Qed.

(** The steps of the loops from the table row on *)
Definition compact (F row : list Z) : list Z :=
  _mm_shuffle_epi8 F (_mm_unpacklo_epi8 (row ++ repeat 0 8)
    (_mm_add_epi8 (row ++ repeat 0 8) (repeat 1 16))).

Lemma compact_pick F bs row : length F = 16%nat -> length bs = 8%nat ->
  nth_error idx (Z.to_nat (mask_of bs)) = Some row ->
  length row = 8%nat /\
  firstn (length (pick bs (words F))) (words (compact F row)) = pick bs (words F) /\
  length (words (compact F row)) = 8%nat /\
  _mm_popcnt_u32 (mask_of bs) = zlen (pick bs (words F)).
Proof.
  intros HF Hb Hr. split16 HF F.
  destruct bs as [|b0 [|b1 [|b2 [|b3 [|b4 [|b5 [|b6 [|b7 [|]]]]]]]]]; try discriminate Hb.
  destruct b0, b1, b2, b3, b4, b5, b6, b7; vm_compute in Hr; injection Hr as <-;
    (split; [reflexivity|split; [reflexivity|split; reflexivity]]).
Qed.

Lemma idx_row bs : length bs = 8%nat -> exists row, nth_error idx (Z.to_nat (mask_of bs)) = Some row.
Proof.
  intros Hb. pose proof (mask_of_range bs) as H. replace (zlen bs) with 8 in H by (unfold zlen; lia).
  destruct (nth_error idx (Z.to_nat (mask_of bs))) eqn:E; eauto.
  apply nth_error_None in E. change (length idx) with 256%nat in E. lia.
Qed.

Lemma Forall_firstn {A} (P : A -> Prop) m l : Forall P l -> Forall P (firstn m l).
Proof. rewrite <- (firstn_skipn m l) at 1. intros H. now apply Forall_app in H. Qed.
Lemma Forall_skipn {A} (P : A -> Prop) m l : Forall P l -> Forall P (skipn m l).
Proof. rewrite <- (firstn_skipn m l) at 1. intros H. now apply Forall_app in H. Qed.

(** ** Storing the accepted candidates of a lane *)

(** The array [s], made from [r] by storing in its first 256 elements, starts with [acc]. *)
Definition holds (r acc s : list Z) : Prop :=
  exists rest, s = acc ++ rest /\ zlen s = zlen r /\ skipn 256 s = skipn 256 r.

(** The register [F] holds the candidates of the 12 bytes [C]. *)
Definition lane (F C : list Z) : Prop := length F = 16%nat /\ words F = candidates C /\ bytes C.

Lemma lane_small F C : lane F C -> small F.
Proof. intros (Hl & Hw & HC). split; auto. rewrite Hw. now apply candidates_range. Qed.
Lemma lane_flags F C : lane F C -> length (flags F) = 8%nat.
Proof. intros H. eapply length_flags, lane_small; eauto. Qed.

Lemma accepted_words F C : lane F C -> pick (flags F) (words F) = accepted C.
Proof. intros (_ & Hw & _). unfold flags. rewrite pick_filter, Hw. reflexivity. Qed.

Lemma skipn_app_ge {A} (a b : list A) m : (length a <= m)%nat -> skipn m (a ++ b) = skipn (m - length a) b.
Proof. intros. rewrite skipn_app, skipn_all2 by lia. reflexivity. Qed.

Lemma wp_store N r acc s F C row i : lane F C -> holds r acc s -> 256 <= zlen r ->
  i = zlen acc -> zlen acc + 8 <= 256 -> nth_error idx (Z.to_nat (mask_of (flags F))) = Some row ->
  wpn N (_mm_storeu_si128 s i (compact F row)) (holds r (acc ++ accepted C)).
Proof.
  intros HF (rest & -> & Hl & Hs) Hr -> Hc Hrow. unfold _mm_storeu_si128.
  destruct (compact_pick F (flags F) row) as (_ & Hp & Hw & _); auto; [apply HF|eapply lane_flags; eauto|].
  rewrite (accepted_words F C) in Hp by auto.
  assert (Ha : map s16 (accepted C) = accepted C).
  { rewrite <- (map_id (accepted C)) at 2. apply map_ext_in. intros w Hin.
    assert (HR : ubounded 3329 (accepted C)) by (apply accepted_range; apply HF).
    unfold ubounded in HR. rewrite Forall_forall in HR. specialize (HR _ Hin). cbv beta in HR.
    unfold s16. lia. }
  set (sw := words (compact F row)) in *. clearbody sw.
  assert (E : map s16 sw = accepted C ++ map s16 (skipn (length (accepted C)) sw)).
  { rewrite <- (firstn_skipn (length (accepted C)) sw) at 1. now rewrite map_app, Hp, Ha. }
  assert (Hms : zlen (map s16 sw) = 8) by (rewrite zlen_map; unfold zlen; lia).
  rewrite zlen_app in Hl. pose proof (zlen_nonneg acc) as Hn.
  assert (Hsplit : rest = firstn 8 rest ++ skipn 8 rest) by (symmetry; apply firstn_skipn).
  assert (H8 : zlen (firstn 8 rest) = 8) by (apply (zlen_firstn rest 8); lia).
  apply wp_asplice.
  - lia.
  - rewrite Hms, zlen_app. lia.
  - rewrite Hsplit. rewrite splice_app by (auto; lia).
    exists (map s16 (skipn (length (accepted C)) sw) ++ skipn 8 rest). split; [|split].
    + rewrite E, <- !app_assoc. reflexivity.
    + rewrite !zlen_app, Hms. assert (zlen rest = 8 + zlen (skipn 8 rest)) by
        (rewrite Hsplit at 1; rewrite zlen_app; lia). lia.
    + rewrite <- Hs. rewrite Hsplit at 2. rewrite !app_assoc.
      rewrite !(skipn_app_ge (_ ++ _)) by (rewrite app_length; unfold zlen in *; lia).
      f_equal. rewrite !app_length. unfold zlen in *. lia.
Qed.

Lemma popcnt_lane F C : lane F C -> _mm_popcnt_u32 (mask_of (flags F)) = zlen (accepted C).
Proof.
  intros H. destruct (idx_row (flags F)) as [row Hr]; [eapply lane_flags; eauto|].
  destruct (compact_pick F (flags F) row) as (_ & _ & _ & E); auto; [apply H|eapply lane_flags; eauto|].
  rewrite E. now rewrite (accepted_words F C).
Qed.
Lemma filter_le {A} (f : A -> bool) l : (length (filter f l) <= length l)%nat.
Proof. induction l as [|x l IH]; cbn [filter length]; [lia|]. destruct (f x); cbn [length]; lia. Qed.
Lemma accepted_8 F C : lane F C -> 0 <= zlen (accepted C) <= 8.
Proof.
  intros H. split; [apply zlen_nonneg|]. rewrite <- (accepted_words F C) by auto.
  unfold pick. rewrite zlen_map. unfold zlen.
  etransitivity; [apply inj_le, filter_le|]. rewrite combine_length.
  rewrite (lane_flags F C) by auto. lia.
Qed.

(** Loading a row of the table *)
Lemma wp_row {A} N bs i (k : list Z -> M A) (Q : A -> Prop) : length bs = 8%nat -> i = mask_of bs ->
  (forall row, nth_error idx (Z.to_nat (mask_of bs)) = Some row -> length row = 8%nat ->
     wpn N (k (row ++ repeat 0 8)) Q) ->
  wpn N (row <- aget idx i ;; l <- _mm_loadl_epi64 row ;; k l) Q.
Proof.
  intros Hb -> Hk. destruct (idx_row bs Hb) as [row Hr].
  assert (Hl : length row = 8%nat).
  { apply (compact_pick (repeat 0 16) bs row); auto. }
  apply wp_bind. apply (wp_ok _ _ row).
  - unfold aget. pose proof (mask_of_range bs). destruct (Z.ltb_spec (mask_of bs) 0); [lia|].
    cbn [bind emit]. rewrite Hr. reflexivity.
  - apply wp_bind. unfold _mm_loadl_epi64. apply wp_bind.
    apply wp_aslice; [lia|lia|unfold zlen; lia|]. apply wp_ret.
    replace (slice row 0 (0 + 8)) with row; [auto|].
    symmetry. replace (0 + 8) with (zlen row) by (unfold zlen; lia). apply slice_all.
Qed.

(** ** The loops *)

Definition loop_inv (r B : list Z) (st : list Z * Z * Z) : Prop :=
  let '(s, ctr, pos) := st in
  exists acc, holds r acc s /\ ctr = zlen acc /\ ctr <= 256 /\ 0 <= pos <= 504 /\ pos mod 3 = 0 /\
    firstn 256 (acc ++ accepted (skipn (Z.to_nat pos) B)) = firstn 256 (accepted B).

Lemma slice_window (buf : list Z) pos m : 0 <= pos -> 0 <= m -> pos + m <= 504 -> 504 <= zlen buf ->
  slice buf pos (pos + m) = firstn (Z.to_nat m) (skipn (Z.to_nat pos) (firstn 504 buf)).
Proof.
  intros. unfold slice. rewrite skipn_firstn_comm, firstn_firstn. f_equal. lia.
Qed.

Lemma shuffle_f0 f : length f = 32%nat ->
  _mm256_shuffle_epi8 (_mm256_permute4x64_epi64 f 148) idx8
  = gather_lo (firstn 16 f) ++ gather_hi (firstn 16 (skipn 8 f)).
Proof.
  intros H. do 32 (destruct f as [|? f]; [discriminate H|]). destruct f; [|discriminate H]. reflexivity.
Qed.
Lemma shuffle_f1 f : length f = 32%nat ->
  _mm256_shuffle_epi8 (_mm256_permute4x64_epi64 f 233) idx8
  = gather_lo (firstn 16 (skipn 8 f)) ++ gather_hi (skipn 16 f).
Proof.
  intros H. do 32 (destruct f as [|? f]; [discriminate H|]). destruct f; [|discriminate H]. reflexivity.
Qed.

Lemma length_gather_lo L : length (gather_lo L) = 16%nat.
Proof. unfold gather_lo. now rewrite length_shuffle. Qed.
Lemma length_gather_hi L : length (gather_hi L) = 16%nat.
Proof. unfold gather_hi. now rewrite length_shuffle. Qed.

Lemma lane_lo L : length L = 16%nat -> bytes L -> lane (decode_lane (gather_lo L)) (firstn 12 L).
Proof.
  intros. split; [|split].
  - apply length_decode, length_gather_lo.
  - now apply gather_lo_words.
  - now apply Forall_firstn.
Qed.
Lemma lane_hi L : length L = 16%nat -> bytes L -> lane (decode_lane (gather_hi L)) (skipn 4 L).
Proof.
  intros. split; [|split].
  - apply length_decode, length_gather_hi.
  - now apply gather_hi_words.
  - now apply Forall_skipn.
Qed.

Lemma compact_256 J F G rowF rowG : length F = 16%nat -> length G = 16%nat ->
  length rowF = 8%nat -> length rowG = 8%nat ->
  let g := _mm256_inserti128_si256_1 (_mm256_castsi128_si256 J (rowF ++ repeat 0 8)) (rowG ++ repeat 0 8) in
  _mm256_shuffle_epi8 (F ++ G) (_mm256_unpacklo_epi8 g (_mm256_add_epi8 g ones))
  = compact F rowF ++ compact G rowG.
Proof.
  intros HF HG Hf Hg g. unfold g, _mm256_inserti128_si256_1, _mm256_castsi128_si256.
  assert (Hf' : length (rowF ++ repeat 0 8) = 16%nat) by (rewrite app_length, Hf; reflexivity).
  rewrite firstn16 by auto. unfold _mm256_add_epi8, _mm_add_epi8.
  rewrite ones_lanes, map2_app by auto. unfold _mm256_unpacklo_epi8.
  rewrite lanes2_app; auto. 2: { rewrite length_map2; auto. }
  unfold _mm256_shuffle_epi8. rewrite lanes2_app; auto.
  unfold _mm_unpacklo_epi8. 
  do 8 (destruct rowF as [|? rowF]; [discriminate Hf|]). destruct rowF; [|discriminate Hf]. reflexivity.
Qed.

Lemma mod3_48 pos : pos mod 3 = 0 -> (pos + 48) mod 3 = 0.
Proof. lia. Qed.

Lemma accepted_window T m : m mod 3 = 0 -> 0 <= m <= zlen T ->
  accepted T = accepted (firstn (Z.to_nat m) T) ++ accepted (skipn (Z.to_nat m) T).
Proof.
  intros Hm Hl. rewrite <- accepted_app.
  - now rewrite firstn_skipn.
  - rewrite zlen_firstn; auto.
Qed.

Lemma wp_loop_32 N J r buf (Q : list Z * Z * Z -> Prop) :
  256 <= zlen r -> 504 <= zlen buf -> bytes buf ->
  (forall st, loop_inv r (firstn 504 buf) st -> Q st) ->
  wpn N (rej_loop_32 J r buf 0 0) Q.
Proof.
  intros Hr Hbuf HB HQ. unfold rej_loop_32. set (B := firstn 504 buf) in *.
  assert (HlB : zlen B = 504) by (apply (zlen_firstn buf 504); lia).
  assert (HBB : bytes B) by now apply Forall_firstn.
  apply (wp_while_measure N (loop_inv r B) (fun '(_, _, pos) => 504 - pos)).
  - exists []. split; [exists r; auto|]. change (zlen (@nil Z)) with 0. repeat (split; [lia|]). reflexivity.
  - change REJ_UNIFORM_AVX_BUFLEN with 504. lia.
  - intros [[s ctr] pos] (acc & Hs & -> & Hc & Hp & H3 & Hf) Hcond.
    change REJ_UNIFORM_AVX_BUFLEN with 504 in Hcond. change MLKEM_N with 256 in Hcond.
    apply andb_prop in Hcond as [Hc1 Hc2]. apply Z.leb_le in Hc1, Hc2. split; [lia|].
    apply wp_bind, wp_aslice; [lia..|]. apply wp_bind, wp_aslice; [lia..|].
    rewrite !slice_window by lia. fold B.
    set (T := skipn (Z.to_nat pos) B) in *.
    assert (HlT : zlen T = 504 - pos) by (unfold T; rewrite zlen_skipn; lia).
    assert (HBT : bytes T) by now apply Forall_skipn.
    replace (skipn (Z.to_nat (pos + 16)) B) with (skipn 16 T)
      by (unfold T; rewrite skipn_skipn'; f_equal; lia).
    replace (skipn (Z.to_nat pos) B) with T in Hf by reflexivity.
    assert (HT48 : skipn (Z.to_nat (pos + 48)) B = skipn 48 T)
      by (unfold T; rewrite skipn_skipn'; f_equal; lia).
    clearbody T. change (Z.to_nat 32) with 32%nat. cbv zeta.
    assert (L0 : length (firstn 32 T) = 32%nat) by (rewrite firstn_length; unfold zlen in *; lia).
    assert (L1 : length (firstn 32 (skipn 16 T)) = 32%nat)
      by (rewrite firstn_length, skipn_length; unfold zlen in *; lia).
    rewrite shuffle_f0, shuffle_f1 by auto.
    rewrite !decode_256 by first [apply length_gather_lo | apply length_gather_hi].
    set (A0 := firstn 12 T). set (A1 := firstn 12 (skipn 12 T)).
    set (A2 := firstn 12 (skipn 24 T)). set (A3 := firstn 12 (skipn 36 T)).
    assert (HA : accepted T = accepted A0 ++ accepted A1 ++ accepted A2 ++ accepted A3 ++ accepted (skipn 48 T)).
    { rewrite (accepted_window T 12) by (try reflexivity; lia).
      rewrite (accepted_window (skipn (Z.to_nat 12) T) 12) by (try reflexivity; rewrite zlen_skipn; lia).
      rewrite skipn_skipn'.
      rewrite (accepted_window (skipn (Z.to_nat 12 + Z.to_nat 12) T) 12)
        by (try reflexivity; unfold zlen in *; rewrite skipn_length; lia).
      rewrite skipn_skipn'.
      rewrite (accepted_window (skipn (Z.to_nat 12 + (Z.to_nat 12 + Z.to_nat 12)) T) 12)
        by (try reflexivity; unfold zlen in *; rewrite skipn_length; lia).
      rewrite skipn_skipn'. reflexivity. }
    assert (K0 : lane (decode_lane (gather_lo (firstn 16 (firstn 32 T)))) A0).
    { replace A0 with (firstn 12 (firstn 16 (firstn 32 T))) by (rewrite !firstn_firstn; reflexivity).
      apply lane_lo; [|repeat apply Forall_firstn; auto]. rewrite firstn_length. lia. }
    assert (K1 : lane (decode_lane (gather_hi (firstn 16 (skipn 8 (firstn 32 T))))) A1).
    { replace A1 with (skipn 4 (firstn 16 (skipn 8 (firstn 32 T))))
        by (unfold A1; rewrite !skipn_firstn_comm, !firstn_firstn, skipn_skipn'; reflexivity).
      apply lane_hi; [|apply Forall_firstn, Forall_skipn, Forall_firstn; auto].
      rewrite firstn_length, skipn_length. lia. }
    assert (K2 : lane (decode_lane (gather_lo (firstn 16 (skipn 8 (firstn 32 (skipn 16 T)))))) A2).
    { replace A2 with (firstn 12 (firstn 16 (skipn 8 (firstn 32 (skipn 16 T)))))
        by (unfold A2; rewrite !skipn_firstn_comm, !firstn_firstn, skipn_skipn'; reflexivity).
      apply lane_lo; [|apply Forall_firstn, Forall_skipn, Forall_firstn, Forall_skipn; auto].
      rewrite firstn_length, skipn_length. lia. }
    assert (K3 : lane (decode_lane (gather_hi (skipn 16 (firstn 32 (skipn 16 T))))) A3).
    { replace A3 with (skipn 4 (skipn 16 (firstn 32 (skipn 16 T))))
        by (unfold A3; rewrite !skipn_firstn_comm, !skipn_skipn'; reflexivity).
      apply lane_hi; [|apply Forall_skipn, Forall_firstn, Forall_skipn; auto].
      rewrite skipn_length. lia. }
    set (F0 := decode_lane (gather_lo (firstn 16 (firstn 32 T)))) in *.
    set (G0 := decode_lane (gather_hi (firstn 16 (skipn 8 (firstn 32 T))))) in *.
    set (F1 := decode_lane (gather_lo (firstn 16 (skipn 8 (firstn 32 (skipn 16 T)))))) in *.
    set (G1 := decode_lane (gather_hi (skipn 16 (firstn 32 (skipn 16 T))))) in *.
    clearbody F0 G0 F1 G1 A0 A1 A2 A3. clear L0 L1.
    rewrite good_256 by (eapply lane_small; eauto).
    pose proof (lane_flags _ _ K0) as P0. pose proof (lane_flags _ _ K1) as P1.
    pose proof (lane_flags _ _ K2) as P2. pose proof (lane_flags _ _ K3) as P3.
    set (good := mask_of (flags F0 ++ flags F1 ++ flags G0 ++ flags G1)).
    assert (M0 : (good >> 0) .& 255 = mask_of (flags F0)) by (now apply mask_byte0).
    assert (M1 : (good >> 8) .& 255 = mask_of (flags F1))
      by (apply mask_byte; auto; unfold zlen; lia).
    assert (M2 : (good >> 16) .& 255 = mask_of (flags G0)).
    { unfold good. rewrite app_assoc. apply mask_byte; auto. rewrite zlen_app. unfold zlen; lia. }
    assert (M3 : (good >> 24) .& 255 = mask_of (flags G1)).
    { unfold good. rewrite !app_assoc. rewrite <- (app_nil_r (flags G1)) at 1.
      apply mask_byte; auto. rewrite !zlen_app. unfold zlen; lia. }
    rewrite M0, M1, M2, M3. clearbody good. clear M0 M1 M2 M3.
    apply (wp_row N (flags F0)); auto. intros r0 R0 N0.
    apply (wp_row N (flags F1)); auto. intros r1 R1 N1.
    apply (wp_row N (flags G0)); auto. intros r2 R2 N2.
    apply (wp_row N (flags G1)); auto. intros r3 R3 N3.
    rewrite !compact_256 by first [assumption | apply K0 | apply K1 | apply K2 | apply K3].
    unfold _mm256_castsi256_si128, _mm256_extracti128_si256_1.
    assert (LC : forall F row, length row = 8%nat -> length F = 16%nat -> length (compact F row) = 16%nat).
    { intros F row Hr8 HF. unfold compact. rewrite length_shuffle.
      do 8 (destruct row as [|? row]; [discriminate Hr8|]). destruct row; [|discriminate Hr8]. reflexivity. }
    rewrite !firstn16, !skipn16 by (apply LC; first [assumption | apply K0 | apply K2]).
    rewrite (popcnt_lane F0 A0), (popcnt_lane F1 A2), (popcnt_lane G0 A1), (popcnt_lane G1 A3) by auto.
    pose proof (accepted_8 _ _ K0) as E0. pose proof (accepted_8 _ _ K1) as E1.
    pose proof (accepted_8 _ _ K2) as E2. pose proof (accepted_8 _ _ K3) as E3.
    pose proof (zlen_nonneg acc) as Hn.
    assert (U : forall x, 0 <= x < 1000 -> u32 x = x) by (intros; unfold u32; apply Z.mod_small; lia).
    rewrite (U (zlen acc + zlen (accepted A0))) by lia.
    rewrite (U (zlen acc + zlen (accepted A0) + zlen (accepted A1))) by lia.
    rewrite (U (zlen acc + zlen (accepted A0) + zlen (accepted A1) + zlen (accepted A2))) by lia.
    rewrite (U (zlen acc + zlen (accepted A0) + zlen (accepted A1) + zlen (accepted A2)
                + zlen (accepted A3))) by lia.
    apply wp_bind. eapply wp_mono; [apply (wp_store N r acc s F0 A0 r0); auto; lia|].
    intros s0 Hs0. apply wp_bind.
    eapply wp_mono; [apply (wp_store N r (acc ++ accepted A0) s0 G0 A1 r2); auto;
      rewrite zlen_app; lia|].
    intros s1 Hs1. apply wp_bind.
    eapply wp_mono; [apply (wp_store N r ((acc ++ accepted A0) ++ accepted A1) s1 F1 A2 r1); auto;
      rewrite !zlen_app; lia|].
    intros s2 Hs2. apply wp_bind.
    eapply wp_mono; [apply (wp_store N r (((acc ++ accepted A0) ++ accepted A1) ++ accepted A2) s2 G1 A3 r3);
      auto; rewrite !zlen_app; lia|].
    intros s3 Hs3. apply wp_ret. rewrite (U (pos + 48)) by lia. split; [|lia].
    eexists. split; [exact Hs3|]. rewrite !zlen_app.
    split; [reflexivity|]. split; [lia|]. split; [lia|]. split; [now apply mod3_48|].
    rewrite HT48, <- Hf, HA, <- !app_assoc. reflexivity.
  - intros st HI _. auto.
Qed.

Lemma wp_loop_8 N r buf s0 c0 p0 (Q : list Z * Z * Z -> Prop) :
  256 <= zlen r -> 504 <= zlen buf -> bytes buf ->
  loop_inv r (firstn 504 buf) (s0, c0, p0) ->
  (forall st, loop_inv r (firstn 504 buf) st -> Q st) ->
  wpn N (rej_loop_8 s0 buf c0 p0) Q.
Proof.
  intros Hr Hbuf HB HI HQ. unfold rej_loop_8. set (B := firstn 504 buf) in *.
  assert (HlB : zlen B = 504) by (apply (zlen_firstn buf 504); lia).
  assert (HBB : bytes B) by now apply Forall_firstn.
  apply (wp_while_measure N (loop_inv r B) (fun '(_, _, pos) => 504 - pos)).
  - exact HI.
  - change REJ_UNIFORM_AVX_BUFLEN with 504. destruct HI as (acc & _ & _ & _ & Hp & _). lia.
  - intros [[s ctr] pos] (acc & Hs & -> & Hc & Hp & H3 & Hf) Hcond.
    change REJ_UNIFORM_AVX_BUFLEN with 504 in Hcond. change MLKEM_N with 256 in Hcond.
    apply andb_prop in Hcond as [Hc1 Hc2]. apply Z.leb_le in Hc1, Hc2. split; [lia|].
    apply wp_bind, wp_aslice; [lia..|]. rewrite !slice_window by lia. fold B.
    set (T := skipn (Z.to_nat pos) B) in *.
    assert (HlT : zlen T = 504 - pos) by (unfold T; rewrite zlen_skipn; lia).
    assert (HBT : bytes T) by now apply Forall_skipn.
    replace (skipn (Z.to_nat pos) B) with T in Hf by reflexivity.
    assert (HT12 : skipn (Z.to_nat (pos + 12)) B = skipn 12 T)
      by (unfold T; rewrite skipn_skipn'; f_equal; lia).
    clearbody T. change (Z.to_nat 16) with 16%nat. cbv zeta.
    unfold _mm256_castsi256_si128. fold (gather_lo (firstn 16 T)).
    change (firstn 16 mask) with (unwords (repeat 4095 8)).
    change (firstn 16 bound) with (unwords (repeat MLKEM_Q 8)).
    change (firstn 16 ones) with (repeat 1 16).
    fold (decode_lane (gather_lo (firstn 16 T))).
    set (A := firstn 12 T).
    assert (K : lane (decode_lane (gather_lo (firstn 16 T))) A).
    { replace A with (firstn 12 (firstn 16 T)) by (rewrite firstn_firstn; reflexivity).
      apply lane_lo; [|now apply Forall_firstn]. rewrite firstn_length. unfold zlen in *. lia. }
    assert (HA : accepted T = accepted A ++ accepted (skipn 12 T))
      by (apply (accepted_window T 12); [reflexivity|lia]).
    set (F := decode_lane (gather_lo (firstn 16 T))) in *. clearbody F A.
    rewrite good_128 by (eapply lane_small; eauto).
    apply (wp_row N (flags F)); [eapply lane_flags; eauto|reflexivity|]. intros row R L8.
    fold (compact F row). rewrite (popcnt_lane F A) by auto.
    pose proof (accepted_8 _ _ K) as E. pose proof (zlen_nonneg acc) as Hn.
    assert (U : forall x, 0 <= x < 1000 -> u32 x = x) by (intros; unfold u32; apply Z.mod_small; lia).
    rewrite !U by lia.
    apply wp_bind. eapply wp_mono; [apply (wp_store N r acc s F A row); auto; lia|].
    intros s1 Hs1. apply wp_ret. split; [|lia].
    eexists. split; [exact Hs1|]. rewrite !zlen_app.
    split; [reflexivity|]. split; [lia|]. split; [lia|]. split; [lia|].
    rewrite HT12, <- Hf, HA, <- !app_assoc. reflexivity.
  - intros st HI' _. auto.
Qed.

Lemma holds_next N r acc s x (Q : list Z -> Prop) : holds r acc s -> 256 <= zlen r -> zlen acc < 256 ->
  (forall s', holds r (acc ++ [x]) s' -> Q s') -> wpn N (aset s (zlen acc) x) Q.
Proof.
  intros (rest & -> & Hl & Hs) Hr Hc HQ. rewrite zlen_app in Hl. pose proof (zlen_nonneg acc).
  destruct rest as [|y rest]; [change (zlen (@nil Z)) with 0 in Hl; lia|].
  apply wp_aset_app; auto. apply HQ. exists rest. split; [reflexivity|].
  rewrite <- app_assoc. cbn [app]. split.
  - rewrite zlen_app, zlen_cons in *. lia.
  - rewrite <- Hs. rewrite !skipn_app_ge by (unfold zlen in *; lia).
    unfold zlen in *. destruct (256 - length acc)%nat eqn:E; [lia|reflexivity].
Qed.

Lemma cand_hi_avx b1 b2 : is_byte b1 -> is_byte b2 -> u16 ((b1 >> 4) .| (b2 << 4)) = b1 / 16 + 16 * b2.
Proof.
  unfold is_byte; intros. rewrite Z.shiftr_div_pow2, Z.shiftl_mul_pow2 by lia.
  rewrite lor_add by lia. unfold u16. change (2 ^ 4) with 16. lia.
Qed.

Lemma wp_loop_1 N r buf s0 c0 p0 (Q : list Z * Z * Z -> Prop) :
  256 <= zlen r -> 504 <= zlen buf -> bytes buf ->
  loop_inv r (firstn 504 buf) (s0, c0, p0) ->
  (forall s ctr pos, let acc := firstn 256 (accepted (firstn 504 buf)) in
     holds r acc s -> ctr = zlen acc -> Q (s, ctr, pos)) ->
  wpn N (rej_loop_1 s0 buf c0 p0) Q.
Proof.
  intros Hr Hbuf HB HI HQ. unfold rej_loop_1. set (B := firstn 504 buf) in *.
  assert (HlB : zlen B = 504) by (apply (zlen_firstn buf 504); lia).
  assert (HBB : bytes B) by now apply Forall_firstn.
  apply (wp_while_measure N (loop_inv r B) (fun '(_, _, pos) => 504 - pos)).
  - exact HI.
  - change REJ_UNIFORM_AVX_BUFLEN with 504. destruct HI as (acc & _ & _ & _ & Hp & _). lia.
  - intros [[s ctr] pos] (acc & Hs & -> & Hc & Hp & H3 & Hf) Hcond.
    change REJ_UNIFORM_AVX_BUFLEN with 504 in Hcond. change MLKEM_N with 256 in *.
    apply andb_prop in Hcond as [Hc1 Hc2]. split; [lia|].
    assert (Hget : forall j, 0 <= j < 3 -> zget 0 buf (pos + j) = zget 0 B (pos + j)).
    { intros. unfold B. symmetry. apply (zget_firstn 0 buf 504). lia. }
    assert (Hby : forall j, 0 <= j < 3 -> is_byte (zget 0 B (pos + j))).
    { intros j Hj. unfold bytes in HBB. rewrite (Forall_zget _ 0) in HBB. apply HBB. lia. }
    apply wp_bind, (wp_aget 0); [lia|]. apply wp_bind, (wp_aget 0); [lia|].
    apply wp_bind, (wp_aget 0); [lia|]. cbv zeta. rewrite !Hget by lia.
    assert (Hsk : skipn (Z.to_nat pos) B = zget 0 B (pos + 0) :: zget 0 B (pos + 1) ::
       zget 0 B (pos + 2) :: skipn (Z.to_nat (pos + 3)) B).
    { rewrite (skipn_zget 0) by lia. rewrite (skipn_zget 0 B (pos + 1)) by lia.
      replace (pos + 1 + 1) with (pos + 2) by lia.
      rewrite (skipn_zget 0 B (pos + 2)) by lia. replace (pos + 2 + 1) with (pos + 3) by lia.
      now replace (pos + 0) with pos by lia. }
    rewrite Hsk, accepted_cons in Hf.
    rewrite cand_lo, cand_hi_avx by (apply Hby; lia).
    change MLKEM_Q with 3329. unfold q in Hf.
    set (d1 := zget 0 B (pos + 0) + 256 * (zget 0 B (pos + 1) mod 16)) in *.
    set (d2 := zget 0 B (pos + 1) / 16 + 16 * zget 0 B (pos + 2)) in *.
    assert (H1 : 0 <= d1) by (unfold d1; pose proof (Hby 0 ltac:(lia)); pose proof (Hby 1 ltac:(lia));
      unfold is_byte in *; lia).
    assert (H2 : 0 <= d2) by (unfold d2; pose proof (Hby 1 ltac:(lia)); pose proof (Hby 2 ltac:(lia));
      unfold is_byte in *; lia).
    clearbody d1 d2. pose proof (zlen_nonneg acc) as Hna.
    assert (U : forall x, 0 <= x < 1000 -> u32 x = x) by (intros; unfold u32; apply Z.mod_small; lia).
    apply wp_bind.
    apply wp_mono with (Q := fun '(s, ctr) => let acc1 := acc ++ if d1 <? 3329 then [d1] else [] in
       holds r acc1 s /\ ctr = zlen acc1).
    { apply wp_branch; intros E; rewrite E.
      - apply wp_bind, wp_i16; [lia|]. apply wp_bind. apply (holds_next N r); auto; [lia|].
        intros s' Hs'. apply wp_ret. split; auto. rewrite zlen_app, U by lia. reflexivity.
      - apply wp_ret. now rewrite app_nil_r. }
    set (acc1 := acc ++ if d1 <? 3329 then [d1] else []) in *.
    assert (Hacc1 : zlen acc1 <= 256).
    { unfold acc1. rewrite zlen_app. destruct (d1 <? 3329);
        [change (zlen [d1]) with 1|change (zlen (@nil Z)) with 0]; lia. }
    rewrite app_assoc in Hf. fold acc1 in Hf. clearbody acc1. clear Hna.
    pose proof (zlen_nonneg acc1) as Hna.
    intros [s1 c1] [Hs1 ->]. apply wp_bind.
    apply wp_mono with (Q := fun '(s, ctr) =>
       let acc2 := acc1 ++ if (d2 <? 3329) && (zlen acc1 <? 256) then [d2] else [] in
       holds r acc2 s /\ ctr = zlen acc2).
    { apply wp_branch; intros E; rewrite E.
      - apply wp_bind, wp_i16; [lia|]. apply wp_bind. apply (holds_next N r); auto; [lia|].
        intros s' Hs'. apply wp_ret. split; auto. rewrite zlen_app, U by lia. reflexivity.
      - apply wp_ret. now rewrite app_nil_r. }
    intros [s2 c2] [Hs2 ->]. apply wp_ret. rewrite (U (pos + 3)) by lia. split; [|lia].
    eexists. split; [exact Hs2|]. split; [reflexivity|]. split; [|split; [lia|split; [lia|]]].
    + rewrite zlen_app. destruct (_ && _) eqn:E;
        [change (zlen [d2]) with 1|change (zlen (@nil Z)) with 0]; lia.
    + rewrite <- Hf. destruct (zlen acc1 <? 256) eqn:E; rewrite ?andb_true_r, ?andb_false_r.
      * now rewrite <- app_assoc.
      * rewrite app_nil_r. do 2 rewrite (firstn_app_full _ acc1) by (unfold zlen in *; lia). reflexivity.
  - intros [[s ctr] pos] (acc & Hs & -> & Hc & Hp & H3 & Hf) Hcond.
    change REJ_UNIFORM_AVX_BUFLEN with 504 in Hcond. change MLKEM_N with 256 in *.
    enough (acc = firstn 256 (accepted B)) as -> by (apply HQ; auto).
    rewrite <- Hf. apply andb_false_iff in Hcond as [Hd|Hd].
    + rewrite firstn_app_full by (unfold zlen in *; lia). symmetry. apply firstn_all2. unfold zlen in *; lia.
    + replace pos with 504 by lia. change (Z.to_nat 504) with 504%nat.
      rewrite skipn_all2 by (unfold zlen in *; lia). rewrite app_nil_r. symmetry.
      apply firstn_all2. unfold zlen in *; lia.
Qed.

Lemma wp_rej_avx2 N J r buf (Q : list Z * Z -> Prop) :
  256 <= zlen r -> 504 <= zlen buf -> bytes buf ->
  (forall s, let acc := firstn 256 (accepted (firstn 504 buf)) in holds r acc s -> Q (s, zlen acc)) ->
  wpn N (rej_uniform_avx2 J r buf) Q.
Proof.
  intros Hr Hb HB HQ. unfold rej_uniform_avx2. apply wp_bind, wp_loop_32; auto.
  intros [[s c] p] H1. apply wp_bind, (wp_loop_8 N r); auto.
  intros [[s1 c1] p1] H2. apply wp_bind, (wp_loop_1 N r); auto.
  intros s2 c2 p2 acc Hs ->. apply wp_ret. auto.
Qed.

Lemma slice_suffix (r : list Z) o : 0 <= o <= zlen r -> slice r o (o + (zlen r - o)) = skipn (Z.to_nat o) r.
Proof.
  intros. unfold slice. apply firstn_all2. rewrite skipn_length. unfold zlen in *. lia.
Qed.
Lemma splice_suffix (r t : list Z) o : 0 <= o <= zlen r -> zlen t = zlen r - o ->
  splice r o t = firstn (Z.to_nat o) r ++ t.
Proof.
  intros. unfold splice. rewrite skipn_all2 by (unfold zlen in *; lia). now rewrite app_nil_r.
Qed.

Lemma wp_rej_x86 N J r target offset buf buflen (Q : list Z * Z -> Prop) :
  0 <= offset <= target -> target <= zlen r -> target < 2 ^ 31 ->
  0 <= buflen <= zlen buf -> buflen < 2 ^ 31 -> bytes buf ->
  (forall s, let acc := firstn (Z.to_nat target)
       (firstn (Z.to_nat offset) r ++ accepted (firstn (Z.to_nat buflen) buf)) in
     (exists rest, s = acc ++ rest) -> zlen s = zlen r ->
     skipn (Z.to_nat target) s = skipn (Z.to_nat target) r -> Q (s, zlen acc)) ->
  wpn N (rej_uniform_x86_64 J r target offset buf buflen) Q.
Proof.
  intros Ho Ht Ht' Hb Hb' HB HQ. unfold rej_uniform_x86_64.
  change (Z.of_nat (length r)) with (zlen r).
  apply wp_bind, wp_aslice; [lia..|]. rewrite slice_suffix by lia.
  assert (U : u32 (target - offset) = target - offset) by (unfold u32; apply Z.mod_small; lia).
  rewrite U. unfold rej_uniform_native.
  change REJ_UNIFORM_AVX_BUFLEN with 504. change MLKEM_N with 256.
  assert (Hsuf : zlen (skipn (Z.to_nat offset) r) = zlen r - offset) by (apply zlen_skipn; lia).
  assert (Hpre : zlen (firstn (Z.to_nat offset) r) = offset) by (apply zlen_firstn; lia).
  apply wp_bind, wp_branch; intros E.
  - apply wp_ret. apply wp_bind, wp_asplice; [lia|lia|].
    rewrite splice_suffix by lia. rewrite firstn_skipn.
    apply wp_branch; intros E'; [discriminate E'|]. apply wp_rej; auto. cbv zeta.
    apply HQ.
    + eexists. reflexivity.
    + apply zlen_put. unfold zlen. rewrite firstn_length. unfold zlen in *. lia.
    + unfold put. set (acc := firstn _ _).
      assert (Hla : (length acc <= Z.to_nat target)%nat) by (unfold acc; rewrite firstn_length; lia).
      rewrite skipn_app_ge, skipn_skipn' by lia. f_equal. lia.
  - apply orb_false_iff in E as [E1 E2]. apply negb_false_iff in E1, E2.
    apply Z.eqb_eq in E1, E2. apply wp_rej_avx2; [lia|lia|auto|].
    intros s acc (rest & -> & Hl & Hs). cbv zeta.
    apply wp_bind, wp_asplice; [lia|lia|]. rewrite splice_suffix by lia.
    assert (Hacc : (length acc <= 256)%nat) by (unfold acc; rewrite firstn_length; lia).
    apply wp_branch; intros E'; [|apply negb_false_iff, Z.eqb_eq in E'; pose proof (zlen_nonneg acc); lia].
    apply wp_ret.
    assert (Eacc : firstn (Z.to_nat target)
       (firstn (Z.to_nat offset) r ++ accepted (firstn (Z.to_nat buflen) buf))
       = firstn (Z.to_nat offset) r ++ acc).
    { rewrite firstn_app. rewrite firstn_all2 by (unfold zlen in *; lia). f_equal.
      unfold acc. rewrite E2. f_equal. unfold zlen in *. lia. }
    replace (u32 (offset + u32 (zlen acc))) with (zlen (firstn (Z.to_nat offset) r ++ acc)).
    2: { rewrite zlen_app, Hpre. unfold u32, zlen in *. rewrite (Z.mod_small (Z.of_nat (length acc))) by lia.
         rewrite Z.mod_small by lia. reflexivity. }
    rewrite <- Eacc. apply HQ.
    + rewrite Eacc. exists rest. now rewrite app_assoc.
    + rewrite zlen_app, Hpre, Hl, Hsuf. lia.
    + rewrite skipn_app_ge by (unfold zlen in *; lia).
      replace (Z.to_nat target - length (firstn (Z.to_nat offset) r))%nat with 256%nat
        by (unfold zlen in *; lia).
      rewrite Hs, skipn_skipn'. f_equal. lia.
Qed.

(** ** Statements *)

Lemma avx2_correct J r buf :
  256 <= zlen r -> 504 <= zlen buf -> bytes buf ->
  exists r', val (rej_uniform_avx2 J r buf) = Ok (r', zlen (firstn 256 (accepted (slice buf 0 504)))) /\
    (exists rest, r' = firstn 256 (accepted (slice buf 0 504)) ++ rest) /\
    zlen r' = zlen r /\ skipn 256 r' = skipn 256 r.
Proof.
  intros Hr Hb HB.
  destruct (wp_ex (rej_uniform_avx2 J r buf) (fun x => exists r', x = (r', zlen (firstn 256 (accepted (firstn 504 buf)))) /\
    holds r (firstn 256 (accepted (firstn 504 buf))) r')) as (x & E & r' & -> & rest & Er & H1 & H2).
  - apply wp_rej_avx2; auto. intros s acc Hs. eauto.
  - change (slice buf 0 504) with (firstn 504 buf). eauto 8.
Qed.

Lemma avx2_agrees J r target offset buf buflen :
  0 <= offset <= target -> target <= zlen r -> target < 2 ^ 31 ->
  0 <= buflen <= zlen buf -> buflen < 2 ^ 31 -> bytes buf ->
  exists r1 r2 c,
    val (rej_uniform r target offset buf buflen) = Ok (r1, c) /\
    val (rej_uniform_x86_64 J r target offset buf buflen) = Ok (r2, c) /\
    offset <= c <= target /\
    slice r2 0 c = slice r1 0 c /\ zlen r2 = zlen r /\
    skipn (Z.to_nat target) r2 = skipn (Z.to_nat target) r /\
    (c = target -> r2 = r1).
Proof.
  intros Ho Ht Ht' Hb Hb' HB.
  set (acc := firstn (Z.to_nat target) (firstn (Z.to_nat offset) r ++ accepted (firstn (Z.to_nat buflen) buf))).
  destruct (wp_ex (rej_uniform r target offset buf buflen) (fun x => x = (put acc r, zlen acc))) as (x & E & ->);
    [apply wp_rej; auto|].
  destruct (wp_ex (rej_uniform_x86_64 J r target offset buf buflen) (fun x => exists s, x = (s, zlen acc) /\
     (exists rest, s = acc ++ rest) /\ zlen s = zlen r /\
     skipn (Z.to_nat target) s = skipn (Z.to_nat target) r)) as (x & E' & s & -> & (rest & ->) & Hl & Hs).
  { apply wp_rej_x86; auto. intros s acc' H1 H2 H3. exists s. auto. }
  assert (La : Z.to_nat (zlen acc) = length acc) by (unfold zlen; lia).
  assert (Hc : offset <= zlen acc <= target).
  { unfold acc, zlen. rewrite firstn_length, app_length, firstn_length. unfold zlen in *. lia. }
  exists (put acc r), (acc ++ rest), (zlen acc). split; [exact E|]. split; [exact E'|].
  split; [exact Hc|]. split; [|split; [exact Hl|split; [exact Hs|]]].
  - unfold slice, put. rewrite Z.sub_0_r, La. change (Z.to_nat 0) with 0%nat. cbn [skipn].
    rewrite !firstn_app_full by lia. reflexivity.
  - intros Et. rewrite <- Et in Hs. unfold put. f_equal. rewrite La in Hs. rewrite <- Hs.
    rewrite skipn_app, skipn_all, Nat.sub_diag. reflexivity.
Qed.
