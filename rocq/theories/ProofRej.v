(** * Rejection sampling: proofs *)

From Coq Require Import ZArith List Bool Lia ZifyBool.
From Verif Require Import CSem ModelArith Spec202 Spec203 SpecLink CSemFacts ProofScalar
  ProofBits ProofChunk ProofPack.
Import ListNotations.
Open Scope Z_scope.
Ltac Zify.zify_post_hook ::= Z.to_euclidean_division_equations.

(** ** The loop of Algorithm 7 keeps the first 256 accepted candidates *)

Lemma three_ind {A} (P : list A -> Prop) :
  P [] -> (forall a, P [a]) -> (forall a b, P [a; b]) ->
  (forall a b c l, P l -> P (a :: b :: c :: l)) -> forall l, P l.
Proof.
  intros H0 H1 H2 H3. fix IH 1. intros [|a [|b [|c l]]]; [exact H0|apply H1|apply H2|apply H3, IH].
Qed.

Lemma firstn_app_full {A} (m : nat) (a b : list A) : (m <= length a)%nat -> firstn m (a ++ b) = firstn m a.
Proof.
  intros. rewrite firstn_app. replace (m - length a)%nat with 0%nat by lia.
  cbn [firstn]. apply app_nil_r.
Qed.

Lemma accepted_cons a b c l : accepted (a :: b :: c :: l) =
  (if a + 256 * (b mod 16) <? q then [a + 256 * (b mod 16)] else []) ++
  (if b / 16 + 16 * c <? q then [b / 16 + 16 * c] else []) ++ accepted l.
Proof.
  unfold accepted. cbn [candidates filter].
  destruct (_ <? q), (_ <? q); reflexivity.
Qed.

Lemma SampleNTT_loop_accepted C : forall a, zlen a <= 256 ->
  SampleNTT_loop C a = firstn 256 (a ++ accepted C).
Proof.
  induction C as [|x|x y|c0 c1 c2 C IH] using three_ind; intros a Ha.
  1-3: cbn [SampleNTT_loop]; unfold accepted; cbn [candidates filter];
    rewrite app_nil_r; symmetry; apply firstn_all2; unfold zlen in Ha; lia.
  cbn [SampleNTT_loop]. unfold n. fold (zlen a). rewrite accepted_cons.
  destruct (zlen a <? 256) eqn:E1; cbv zeta.
  - set (d1 := c0 + 256 * (c1 mod 16)). set (d2 := c1 / 16 + 16 * c2).
    destruct (d1 <? q).
    + fold (zlen (a ++ [d1])). destruct (d2 <? q); cbn [andb].
      * destruct (zlen (a ++ [d1]) <? 256) eqn:E2.
        -- rewrite IH. { now rewrite <- !app_assoc. } rewrite !zlen_app, !zlen_cons, zlen_nil in *. lia.
        -- rewrite IH. 2: rewrite !zlen_app, !zlen_cons, zlen_nil in *; lia.
           assert (256 <= length (a ++ [d1]))%nat by (unfold zlen in E2; lia).
           rewrite (app_assoc a), (firstn_app_full _ (a ++ [d1]) (accepted C)), (firstn_app_full _ (a ++ [d1])) by lia. reflexivity.
      * rewrite IH. { now rewrite <- !app_assoc. } rewrite !zlen_app, !zlen_cons, zlen_nil in *. lia.
    + fold (zlen a). rewrite E1. destruct (d2 <? q); cbn [andb app].
      * rewrite IH. { now rewrite <- !app_assoc. } rewrite !zlen_app, !zlen_cons, zlen_nil in *. lia.
      * now rewrite IH by lia.
  - rewrite firstn_app_full by (unfold zlen in *; lia). symmetry. apply firstn_all2. unfold zlen in *; lia.
Qed.

Lemma accepted_app A B : (zlen A) mod 3 = 0 -> accepted (A ++ B) = accepted A ++ accepted B.
Proof.
  induction A as [|x|x y|c0 c1 c2 C IH] using three_ind; intros HA.
  - reflexivity.
  - exfalso. rewrite zlen_cons, zlen_nil in HA. lia.
  - exfalso. rewrite !zlen_cons, zlen_nil in HA. lia.
  - cbn [app]. rewrite !accepted_cons, IH. { now rewrite <- !app_assoc. }
    rewrite !zlen_cons in HA. lia.
Qed.
Lemma accepted_range C : bytes C -> ubounded 3329 (accepted C).
Proof.
  unfold bytes, ubounded. induction C as [|x|x y|c0 c1 c2 C IH] using three_ind; intros HC;
    try (now constructor).
  apply Forall_cons_iff in HC as [H0 HC]. apply Forall_cons_iff in HC as [H1 HC].
  apply Forall_cons_iff in HC as [H2 HC]. unfold is_byte in *. rewrite accepted_cons. unfold q in *.
  apply Forall_app; split; [|apply Forall_app; split; auto].
  - destruct (_ <? _) eqn:E; constructor; auto. lia.
  - destruct (_ <? _) eqn:E; constructor; auto. lia.
Qed.

(** ** The loop of the code *)

Lemma lor_add h b m : 0 <= m -> 0 <= h < 2 ^ m -> h .| (b * 2 ^ m) = h + b * 2 ^ m.
Proof.
  intros. assert (E : Z.land h (b * 2 ^ m) = 0).
  { apply Z.bits_inj'; intros j Hj. rewrite Z.land_spec, Z.bits_0, Z.mul_pow2_bits by lia.
    destruct (Z.ltb_spec j m).
    - rewrite (Z.testbit_neg_r b) by lia. apply andb_false_r.
    - rewrite (testbit_high h m) by (auto; lia). reflexivity. }
  now rewrite Z.add_nocarry_lxor, Z.lxor_lor.
Qed.
Lemma cand_lo b0 b1 : is_byte b0 -> is_byte b1 ->
  u16 (((b0 >> 0) .| (b1 << 8)) .& 4095) = b0 + 256 * (b1 mod 16).
Proof.
  unfold is_byte; intros. rewrite Z.shiftr_0_r.
  change 4095 with (Z.ones 12). rewrite Z.land_ones by lia.
  rewrite Z.shiftl_mul_pow2 by lia. rewrite lor_add by lia.
  unfold u16. change (2 ^ 8) with 256. change (2 ^ 12) with 4096. lia.
Qed.
Lemma cand_hi b1 b2 : is_byte b1 -> is_byte b2 ->
  u16 (((b1 >> 4) .| (b2 << 4)) .& 4095) = b1 / 16 + 16 * b2.
Proof.
  unfold is_byte; intros.
  change 4095 with (Z.ones 12). rewrite Z.land_ones by lia.
  rewrite Z.shiftr_div_pow2, Z.shiftl_mul_pow2 by lia.
  rewrite lor_add by lia.
  unfold u16. change (2 ^ 4) with 16. change (2 ^ 12) with 4096. lia.
Qed.

(** The array [r] with its first elements replaced by [acc] *)
Definition put (acc r : list Z) : list Z := acc ++ skipn (length acc) r.
Lemma zlen_put acc r : zlen acc <= zlen r -> zlen (put acc r) = zlen r.
Proof. unfold put, zlen; intros. rewrite app_length, skipn_length. lia. Qed.

Lemma wp_put N acc r x (Q : list Z -> Prop) : zlen acc < zlen r ->
  Q (put (acc ++ [x]) r) -> wpn N (aset (put acc r) (zlen acc) x) Q.
Proof.
  intros Hl HQ. unfold put in *.
  rewrite app_length in HQ. cbn [length] in HQ.
  replace (length acc) with (Z.to_nat (zlen acc)) in HQ |- * by (unfold zlen; lia).
  rewrite (skipn_zget 0) by (pose proof (zlen_nonneg acc); lia).
  apply wp_aset_app; auto.
  now replace (Z.to_nat (zlen acc) + 1)%nat with (Z.to_nat (zlen acc + 1)) in HQ
    by (pose proof (zlen_nonneg acc); lia).
Qed.

Lemma wp_rej N r target offset buf buflen (Q : list Z * Z -> Prop) :
  0 <= offset <= target -> target <= zlen r -> target < 2 ^ 31 ->
  0 <= buflen <= zlen buf -> buflen < 2 ^ 31 -> bytes buf ->
  (let acc := firstn (Z.to_nat target)
                (firstn (Z.to_nat offset) r ++ accepted (firstn (Z.to_nat buflen) buf)) in
   Q (put acc r, zlen acc)) ->
  wpn N (rej_uniform r target offset buf buflen) Q.
Proof.
  intros Ho Ht Ht' Hb Hb' HB HQ. unfold rej_uniform, rej_uniform_scalar. apply wp_bind.
  set (B := firstn (Z.to_nat buflen) buf) in *.
  assert (HlB : zlen B = buflen) by (apply zlen_firstn; lia).
  set (a0 := firstn (Z.to_nat offset) r) in *.
  assert (Hla : zlen a0 = offset) by (apply zlen_firstn; lia).
  set (fin := firstn (Z.to_nat target) (a0 ++ accepted B)) in *.
  apply (wp_while_measure N (fun '(s, ctr, pos) => exists acc, s = put acc r /\ ctr = zlen acc /\
     ctr <= target /\ 0 <= pos <= buflen /\
     firstn (Z.to_nat target) (acc ++ accepted (skipn (Z.to_nat pos) B)) = fin)
     (fun '(s, ctr, pos) => buflen - pos)).
  - exists a0. split; [|repeat split; try lia; auto].
    unfold put. unfold a0 at 1. replace (length a0) with (Z.to_nat offset) by (unfold zlen in Hla; lia).
    symmetry; apply firstn_skipn.
  - lia.
  - intros [[s ctr] pos] (acc & -> & -> & Hc & Hp & Hf) Hcond.
    apply andb_prop in Hcond as [Hc1 Hc2].
    assert (E3 : u32 (pos + 3) = pos + 3) by (unfold u32; apply Z.mod_small; lia).
    rewrite E3 in *. split; [lia|].
    assert (Hget : forall j, 0 <= j < 3 -> zget 0 buf (pos + j) = zget 0 B (pos + j)).
    { intros. unfold B. symmetry. apply zget_firstn. lia. }
    assert (Hby : forall j, 0 <= j < 3 -> is_byte (zget 0 B (pos + j))).
    { intros j Hj. rewrite <- Hget by lia. unfold bytes in HB. rewrite (Forall_zget _ 0) in HB.
      apply HB. lia. }
    apply wp_bind, (wp_aget 0); [lia|]. apply wp_bind, (wp_aget 0); [lia|].
    apply wp_bind, (wp_aget 0); [lia|]. cbv zeta.
    rewrite !Hget by lia.
    assert (Hs : skipn (Z.to_nat pos) B = zget 0 B (pos + 0) :: zget 0 B (pos + 1) ::
       zget 0 B (pos + 2) :: skipn (Z.to_nat (pos + 3)) B).
    { rewrite (skipn_zget 0) by lia. rewrite (skipn_zget 0 B (pos + 1)) by lia.
      replace (pos + 1 + 1) with (pos + 2) by lia.
      rewrite (skipn_zget 0 B (pos + 2)) by lia. replace (pos + 2 + 1) with (pos + 3) by lia.
      now replace (pos + 0) with pos by lia. }
    rewrite Hs, accepted_cons in Hf.
    rewrite cand_lo, cand_hi by (apply Hby; lia).
    change MLKEM_Q with 3329. unfold q in Hf.
    set (d1 := zget 0 B (pos + 0) + 256 * (zget 0 B (pos + 1) mod 16)) in *.
    set (d2 := zget 0 B (pos + 1) / 16 + 16 * zget 0 B (pos + 2)) in *.
    assert (H1 : 0 <= d1) by (unfold d1; pose proof (Hby 0 ltac:(lia)); pose proof (Hby 1 ltac:(lia));
      unfold is_byte in *; lia).
    assert (H2 : 0 <= d2) by (unfold d2; pose proof (Hby 1 ltac:(lia)); pose proof (Hby 2 ltac:(lia));
      unfold is_byte in *; lia).
    clearbody d1 d2. pose proof (zlen_nonneg acc) as Hna.
    apply wp_bind.
    apply wp_mono with (Q := fun '(s, ctr) =>
       s = put (acc ++ if d1 <? 3329 then [d1] else []) r /\
       ctr = zlen (acc ++ if d1 <? 3329 then [d1] else [])).
    { apply wp_branch; intros E; rewrite E.
      - apply wp_bind, wp_i16; [lia|]. apply wp_bind, wp_put; [lia|]. apply wp_ret. split; auto.
        rewrite zlen_app, zlen_cons, zlen_nil. unfold u32. rewrite Z.mod_small; lia.
      - apply wp_ret. now rewrite app_nil_r. }
    set (acc1 := acc ++ if d1 <? 3329 then [d1] else []) in *.
    assert (Hacc1 : zlen acc1 <= target).
    { unfold acc1. rewrite zlen_app. destruct (d1 <? 3329); rewrite ?zlen_cons, zlen_nil; lia. }
    rewrite app_assoc in Hf. fold acc1 in Hf. clearbody acc1. clear Hna.
    pose proof (zlen_nonneg acc1) as Hna.
    intros [s1 c1] [-> ->]. apply wp_bind.
    apply wp_mono with (Q := fun '(s, ctr) =>
       s = put (acc1 ++ if (zlen acc1 <? target) && (d2 <? 3329) then [d2] else []) r /\
       ctr = zlen (acc1 ++ if (zlen acc1 <? target) && (d2 <? 3329) then [d2] else [])).
    { apply wp_branch; intros E; rewrite E.
      - apply wp_bind, wp_i16; [lia|]. apply wp_bind, wp_put; [lia|]. apply wp_ret. split; auto.
        rewrite zlen_app, zlen_cons, zlen_nil. unfold u32. rewrite Z.mod_small; lia.
      - apply wp_ret. now rewrite app_nil_r. }
    intros [s2 c2] [-> ->]. apply wp_ret. split; [|lia]. eexists. split; [reflexivity|].
    split; [reflexivity|]. split; [|split; [lia|]].
    + rewrite zlen_app. destruct (_ && _) eqn:E; rewrite ?zlen_cons, zlen_nil; lia.
    + rewrite <- Hf. destruct (zlen acc1 <? target) eqn:E; cbn [andb].
      * now rewrite <- app_assoc.
      * rewrite app_nil_r. do 2 rewrite (firstn_app_full _ acc1) by (unfold zlen in *; lia). reflexivity.
  - intros [[s ctr] pos] (acc & -> & -> & Hc & Hp & Hf) Hcond. apply wp_ret.
    assert (E3 : u32 (pos + 3) = pos + 3) by (unfold u32; apply Z.mod_small; lia).
    rewrite E3 in Hcond.
    enough (acc = fin) as -> by exact HQ.
    rewrite <- Hf. apply andb_false_iff in Hcond as [Hd|Hd].
    + rewrite firstn_app_full by (unfold zlen in *; lia). symmetry. apply firstn_all2. unfold zlen in *; lia.
    + replace (accepted (skipn (Z.to_nat pos) B)) with (@nil Z).
      * rewrite app_nil_r. symmetry. apply firstn_all2. unfold zlen in *; lia.
      * assert (Hr : zlen (skipn (Z.to_nat pos) B) < 3) by (rewrite zlen_skipn; lia).
        destruct (skipn (Z.to_nat pos) B) as [|x [|y [|z t]]]; auto.
        rewrite !zlen_cons in Hr. pose proof (zlen_nonneg t). lia.
Qed.

(** ** Statements *)

Lemma rej_correct r target offset buf buflen :
  0 <= offset <= target -> target <= zlen r -> target < 2 ^ 31 ->
  0 <= buflen <= zlen buf -> buflen < 2 ^ 31 -> bytes buf ->
  exists acc, acc = firstn (Z.to_nat target) (slice r 0 offset ++ accepted (slice buf 0 buflen)) /\
    val (rej_uniform r target offset buf buflen) = Ok (acc ++ skipn (length acc) r, zlen acc).
Proof.
  intros. eexists. split; [reflexivity|]. apply wp_val. apply wp_rej; auto. cbv zeta.
  unfold slice. rewrite !Z.sub_0_r. reflexivity.
Qed.

Lemma loop_first256 C : SampleNTT_loop C [] = firstn 256 (accepted C).
Proof. rewrite SampleNTT_loop_accepted; auto. rewrite zlen_nil. lia. Qed.

Lemma loop_split A B a : (zlen A) mod 3 = 0 -> zlen a <= 256 ->
  SampleNTT_loop (A ++ B) a = SampleNTT_loop B (SampleNTT_loop A a).
Proof.
  intros HA Ha. rewrite (SampleNTT_loop_accepted A), (SampleNTT_loop_accepted (A ++ B)) by auto.
  rewrite (SampleNTT_loop_accepted B). 2: { unfold zlen. rewrite firstn_length. lia. }
  rewrite accepted_app by auto. rewrite app_assoc. set (x := a ++ accepted A).
  destruct (Nat.le_ge_cases 256 (length x)).
  - rewrite (firstn_app_full _ x) by lia. rewrite firstn_app_full.
    + symmetry. rewrite firstn_firstn. reflexivity.
    + rewrite firstn_length. lia.
  - now rewrite (firstn_all2 x) by lia.
Qed.
