(** * Proofs about cbd.c *)

From Coq Require Import ZArith List Bool Lia ZifyBool.
From Verif Require Import CSem ModelArith Spec202 Spec203 SpecLink CSemFacts ProofScalar ProofBits
  ProofChunk ProofPack.
Import ListNotations.
Open Scope Z_scope.
Ltac Zify.zify_post_hook ::= Z.to_euclidean_division_equations.

(** ** Digits of k bits packed in an integer *)

Fixpoint dig (k : Z) (n : nat) (f : Z -> Z) : Z :=
  match n with O => 0 | S n' => f 0 + 2 ^ k * dig k n' (fun i => f (i + 1)) end.

Lemma dig_ext k n : forall f g, (forall i, 0 <= i < Z.of_nat n -> f i = g i) -> dig k n f = dig k n g.
Proof.
  induction n as [|n IH]; intros f g H; cbn [dig]; auto.
  rewrite (H 0) by lia. f_equal. f_equal. apply IH. intros; apply H; lia.
Qed.
Lemma dig_add k n : forall f g, dig k n f + dig k n g = dig k n (fun i => f i + g i).
Proof.
  induction n as [|n IH]; intros f g; cbn [dig]; auto. rewrite <- (IH (fun i => f (i + 1))). ring.
Qed.
Lemma dig_range k n : forall f, 0 <= k -> (forall i, 0 <= i < Z.of_nat n -> 0 <= f i < 2 ^ k) ->
  0 <= dig k n f < 2 ^ (k * Z.of_nat n).
Proof.
  induction n as [|n IH]; intros f Hk H; cbn [dig].
  - rewrite Z.mul_0_r. cbn; lia.
  - pose proof (H 0 ltac:(lia)). pose proof (IH (fun i => f (i + 1)) Hk ltac:(intros; apply H; lia)).
    replace (k * Z.of_nat (S n)) with (k + k * Z.of_nat n) by lia.
    rewrite Z.pow_add_r by lia. nia.
Qed.
Lemma dig_get k n : forall f i, 0 <= k -> (forall i, 0 <= i < Z.of_nat n -> 0 <= f i < 2 ^ k) ->
  0 <= i < Z.of_nat n -> (dig k n f / 2 ^ (k * i)) mod 2 ^ k = f i.
Proof.
  induction n as [|n IH]; intros f i Hk H Hi; [lia|]. cbn [dig].
  pose proof (H 0 ltac:(lia)) as H0. assert (0 < 2 ^ k) by (apply Z.pow_pos_nonneg; lia).
  destruct (Z.eq_dec i 0) as [->|Hn].
  - rewrite Z.mul_0_r, Z.div_1_r. rewrite (Z.mul_comm (2 ^ k)), Z_mod_plus_full.
    now apply Z.mod_small.
  - replace (k * i) with (k + k * (i - 1)) by lia. rewrite Z.pow_add_r by nia.
    assert (0 < 2 ^ (k * (i - 1))) by (apply Z.pow_pos_nonneg; nia).
    rewrite <- Z.div_div by lia.
    rewrite (Z.mul_comm (2 ^ k)), Z.div_add by lia. rewrite (Z.div_small (f 0)) by lia.
    rewrite Z.add_0_l.
    rewrite (IH (fun i => f (i + 1)) (i - 1) Hk); [f_equal; lia | intros; apply H; lia | lia].
Qed.

Lemma land_step t k e m : 0 <= k -> 0 <= e < 2 ^ k ->
  t .& (e + 2 ^ k * m) = ((t mod 2 ^ k) .& e) + 2 ^ k * ((t / 2 ^ k) .& m).
Proof.
  intros Hk He. rewrite (Z.mul_comm (2 ^ k) m), (Z.mul_comm (2 ^ k) (_ .& m)).
  rewrite <- !Z.shiftl_mul_pow2, <- Z.shiftr_div_pow2, <- Z.land_ones by lia.
  assert (D : forall a x, 0 <= a < 2 ^ k -> a + (x << k) = a .| (x << k)).
  { intros a x Ha. assert (E : a .& (x << k) = 0).
    { apply Z.bits_inj'; intros b Hb; rewrite Z.land_spec, Z.testbit_0_l, Z.shiftl_spec by lia.
      destruct (Z.ltb_spec b k).
      - rewrite (Z.testbit_neg_r _ (b - k)) by lia; apply andb_false_r.
      - rewrite (testbit_high a k) by lia; reflexivity. }
    now rewrite Z.add_nocarry_lxor, Z.lxor_lor. }
  assert (R : 0 <= Z.land (Z.land t (Z.ones k)) e < 2 ^ k).
  { rewrite Z.land_comm, Z.land_assoc, Z.land_ones by lia. apply Z.mod_pos_bound.
    apply Z.pow_pos_nonneg; lia. }
  rewrite !D by auto. apply Z.bits_inj'. intros b Hb.
  rewrite !Z.lor_spec, !Z.land_spec, !Z.lor_spec, !Z.shiftl_spec by lia.
  destruct (Z.ltb_spec b k).
  - rewrite !(Z.testbit_neg_r _ (b - k)) by lia. rewrite !orb_false_r.
    rewrite Z.ones_spec_low by lia. now rewrite andb_true_r.
  - rewrite Z.land_spec, Z.shiftr_spec by lia. replace (b - k + k) with b by lia.
    rewrite (testbit_high e k) by lia. now rewrite andb_false_r.
Qed.

Fixpoint mask (k : Z) (n : nat) : Z :=
  match n with O => 0 | S n' => 1 + 2 ^ k * mask k n' end.
Lemma land_mask k n : forall t, 0 < k ->
  t .& mask k n = dig k n (fun i => Z.b2z (Z.testbit t (k * i))).
Proof.
  induction n as [|n IH]; intros t Hk; cbn [mask dig]; [apply Z.land_0_r|].
  pose proof (pow2_small 0 k ltac:(lia)) as P. change (2 ^ 0) with 1 in P.
  rewrite land_step by lia. f_equal.
  - change 1 with (1 << 0) at 1. rewrite land_pow2 by lia. rewrite Z.mod_pow2_bits_low by lia.
    rewrite Z.mul_0_r. now destruct (Z.testbit t 0).
  - f_equal. rewrite IH by lia. apply dig_ext. intros i Hi.
    rewrite Z.div_pow2_bits by lia. do 2 f_equal. lia.
Qed.

(** ** The samplers *)

(** Bit i of a byte string *)
Definition sbit (B : list Z) (i : Z) : Z := Z.b2z (Z.testbit (zget 0 B (i / 8)) (i mod 8)).
Lemma sbit_range B i : 0 <= sbit B i <= 1.
Proof. unfold sbit. destruct (Z.testbit _ _); cbn; lia. Qed.

Lemma sbit_slice B o e b : 0 <= o -> 0 <= b < 8 * (e - o) ->
  Z.b2z (Z.testbit (zget 0 (slice B o e) (b / 8)) (b mod 8)) = sbit B (8 * o + b).
Proof.
  intros Ho Hb. rewrite zget_slice by lia. unfold sbit.
  replace ((8 * o + b) / 8) with (o + b / 8) by lia.
  now replace ((8 * o + b) mod 8) with (b mod 8) by lia.
Qed.

Definition cbd (eta : Z) (B : list Z) : list Z :=
  map (fun i => sum eta (fun j => sbit B (2 * i * eta + j))
                - sum eta (fun j => sbit B (2 * i * eta + eta + j))) (range 256).

Lemma sum_2 f : sum 2 f = f 0 + f 1.
Proof. unfold sum. rewrite range_2. cbn [map fold_right]. lia. Qed.
Lemma sum_3 f : sum 3 f = f 0 + f 1 + f 2.
Proof. unfold sum. rewrite range_3. cbn [map fold_right]. lia. Qed.
Lemma sum_ext m f g : (forall i, 0 <= i < m -> f i = g i) -> sum m f = sum m g.
Proof. intros. unfold sum. f_equal. now apply map_range_ext. Qed.

Lemma cbd_SamplePolyCBD eta B : 0 < eta -> zlen B = 64 * eta ->
  map (fun x => x mod q) (cbd eta B) = SamplePolyCBD eta B.
Proof.
  intros He HB. unfold cbd, SamplePolyCBD, n. rewrite map_map. apply map_range_ext. intros i Hi.
  assert (0 <= i * eta <= 255 * eta) by nia.
  f_equal. f_equal; apply sum_ext; intros j Hj; unfold sbit;
    match goal with |- _ = Z.b2z (nth (Z.to_nat ?x) ?l ?d) => change (nth (Z.to_nat x) l d) with (zget d l x) end;
    unfold BytesToBits; rewrite zget_bytes_to_bits by lia; reflexivity.
Qed.

Lemma load32 N s (Q : Z -> Prop) : zlen s = 4 -> bytes s ->
  (forall t, 0 <= t < 2 ^ 32 ->
     (forall b, 0 <= b < 32 -> Z.testbit t b = Z.testbit (zget 0 s (b / 8)) (b mod 8)) -> Q t) ->
  wpn N (load32_littleendian s) Q.
Proof.
  intros Hs Hb HQ. unfold load32_littleendian. wgo.
  assert (R : forall i, 0 <= i < 4 -> 0 <= zget 0 s i < 2 ^ 8) by (intros; apply byte_range; auto; lia).
  apply HQ.
  - repeat apply lor_range; try lia; change (2 ^ 32) with 4294967296; apply Z.mod_pos_bound; lia.
  - intros b Hb32. rewrite !Z.lor_spec, !u32_bits, !Z.shiftl_spec by lia.
    assert (C : b / 8 = 0 \/ b / 8 = 1 \/ b / 8 = 2 \/ b / 8 = 3) by lia.
    destruct C as [C|[C|[C|C]]]; rewrite C;
      repeat match goal with |- context [Z.testbit (zget 0 s ?i) ?k] =>
        first [ rewrite (Z.testbit_neg_r (zget 0 s i) k) by lia
              | rewrite (testbit_high (zget 0 s i) 8 k) by (first [now apply R | lia]) ] end;
      rewrite ?orb_false_r, ?orb_false_l; f_equal; lia.
Qed.
Lemma load24 N s (Q : Z -> Prop) : zlen s = 3 -> bytes s ->
  (forall t, 0 <= t < 2 ^ 24 ->
     (forall b, 0 <= b < 24 -> Z.testbit t b = Z.testbit (zget 0 s (b / 8)) (b mod 8)) -> Q t) ->
  wpn N (load24_littleendian s) Q.
Proof.
  intros Hs Hb HQ. unfold load24_littleendian. wgo.
  assert (R : forall i, 0 <= i < 3 -> 0 <= zget 0 s i < 2 ^ 8) by (intros; apply byte_range; auto; lia).
  pose proof (R 0 ltac:(lia)). pose proof (R 1 ltac:(lia)). pose proof (R 2 ltac:(lia)).
  apply HQ.
  - change (2 ^ 8) with 256 in *. repeat apply lor_range; try lia;
      rewrite ?shl_mul by lia; rewrite u32_small; lia.
  - intros b Hb32. rewrite !Z.lor_spec, !u32_bits, !Z.shiftl_spec by lia.
    assert (C : b / 8 = 0 \/ b / 8 = 1 \/ b / 8 = 2) by lia.
    destruct C as [C|[C|C]]; rewrite C;
      repeat match goal with |- context [Z.testbit (zget 0 s ?i) ?k] =>
        first [ rewrite (Z.testbit_neg_r (zget 0 s i) k) by lia
              | rewrite (testbit_high (zget 0 s i) 8 k) by (first [now apply R | lia]) ] end;
      rewrite ?orb_false_r, ?orb_false_l; f_equal; lia.
Qed.

Lemma wp_cbd2 N r buf (Q : list Z -> Prop) : zlen r = 256 -> zlen buf = 128 -> bytes buf ->
  Q (cbd 2 buf) -> wpn N (cbd2 r buf) Q.
Proof.
  intros Hr Hl Hb HQ. unfold cbd2.
  set (c x := sum 2 (fun j => sbit buf (2 * x * 2 + j)) - sum 2 (fun j => sbit buf (2 * x * 2 + 2 + j))).
  apply (wp_for_chunks N (fun i => map (fun j => c (8 * i + j)) (range 8)) 8 32); try lia.
  - intros. now rewrite zlen_map, zlen_range by lia.
  - intros i pre mid rest Hi Hp Hm. wstep. apply wp_aslice; try lia. wstep.
    apply load32.
    { rewrite zlen_slice; lia. }
    { apply bytes_slice; auto; lia. }
    intros t Ht Hbit. cbv zeta.
    change 1431655765 with (mask 2 16). rewrite !land_mask by lia. rewrite dig_add.
    match goal with |- context [u32 ?x] => set (d := x) end.
    assert (Hf : forall x, 0 <= x < Z.of_nat 16 ->
      Z.b2z (Z.testbit t (2 * x)) + Z.b2z (Z.testbit (t >> 1) (2 * x))
      = sbit buf (32 * i + 2 * x) + sbit buf (32 * i + 2 * x + 1)).
    { intros x Hx. rewrite Z.shiftr_spec by lia. rewrite !Hbit by lia.
      rewrite !sbit_slice by lia. f_equal; f_equal; lia. }
    assert (Hg : forall x, 0 <= x < Z.of_nat 16 ->
      0 <= Z.b2z (Z.testbit t (2 * x)) + Z.b2z (Z.testbit (t >> 1) (2 * x)) < 2 ^ 2).
    { intros x Hx. rewrite Hf by auto. pose proof (sbit_range buf (32 * i + 2 * x)).
      pose proof (sbit_range buf (32 * i + 2 * x + 1)). change (2 ^ 2) with 4; lia. }
    pose proof (dig_range 2 16 _ ltac:(lia) Hg) as Hd. fold d in Hd. cbn [Z.of_nat] in Hd.
    change (2 ^ (2 * Z.of_nat 16)) with 4294967296 in Hd.
    rewrite u32_small by lia.
    assert (D : forall x, 0 <= x < 16 ->
       (d >> (2 * x)) .& 3 = sbit buf (32 * i + 2 * x) + sbit buf (32 * i + 2 * x + 1)).
    { intros x Hx. rewrite (land_mod _ 2), Z.shiftr_div_pow2 by lia. unfold d.
      rewrite (dig_get 2 16) by (auto; lia). apply Hf; lia. }
    apply (wp_for_fill_at N (fun j => c (8 * i + j))); auto.
    intros j pre' x rest' Hj Hp'.
    replace (4 * j + 0) with (2 * (2 * j)) by lia. replace (4 * j + 2) with (2 * (2 * j + 1)) by lia.
    rewrite !D by lia.
    pose proof (sbit_range buf (32 * i + 2 * (2 * j))).
    pose proof (sbit_range buf (32 * i + 2 * (2 * j) + 1)).
    pose proof (sbit_range buf (32 * i + 2 * (2 * j + 1))).
    pose proof (sbit_range buf (32 * i + 2 * (2 * j + 1) + 1)).
    wstep. apply wp_i16; [lia|]. wstep. apply wp_i16; [lia|]. wstep. apply wp_i16; [lia|].
    wgo. rewrite <- app_assoc. cbn [app]. f_equal. f_equal. unfold c. rewrite !sum_2.
    f_equal; f_equal; f_equal; lia.
  - rewrite <- (map_range_chunks c 8 32) by lia. rewrite skipn_all_z, app_nil_r by lia. exact HQ.
Qed.

Lemma wp_cbd3 N r buf (Q : list Z -> Prop) : zlen r = 256 -> zlen buf = 192 -> bytes buf ->
  Q (cbd 3 buf) -> wpn N (cbd3 r buf) Q.
Proof.
  intros Hr Hl Hb HQ. unfold cbd3.
  set (c x := sum 3 (fun j => sbit buf (2 * x * 3 + j)) - sum 3 (fun j => sbit buf (2 * x * 3 + 3 + j))).
  apply (wp_for_chunks N (fun i => map (fun j => c (4 * i + j)) (range 4)) 4 64); try lia.
  - intros. now rewrite zlen_map, zlen_range by lia.
  - intros i pre mid rest Hi Hp Hm. wstep. apply wp_aslice; try lia. wstep.
    apply load24.
    { rewrite zlen_slice; lia. }
    { apply bytes_slice; auto; lia. }
    intros t Ht Hbit. cbv zeta.
    set (S3 x := sbit buf (24 * i + 3 * x) + sbit buf (24 * i + 3 * x + 1)
                 + sbit buf (24 * i + 3 * x + 2)).
    assert (HS : forall x, 0 <= S3 x <= 3).
    { intros x. unfold S3. pose proof (sbit_range buf (24 * i + 3 * x)).
      pose proof (sbit_range buf (24 * i + 3 * x + 1)).
      pose proof (sbit_range buf (24 * i + 3 * x + 2)). lia. }
    change 2396745 with (mask 3 8). rewrite !land_mask by lia. rewrite dig_add.
    match goal with |- context [u32 (u32 (dig 3 8 ?f) + dig 3 8 ?g)] => set (f1 := f); set (g1 := g) end.
    assert (Hf : forall x, 0 <= x < Z.of_nat 8 -> f1 x + g1 x = S3 x).
    { intros x Hx. unfold f1, g1, S3. rewrite !Z.shiftr_spec by lia. rewrite !Hbit by lia.
      rewrite !sbit_slice by lia. f_equal; [f_equal|]; f_equal; lia. }
    assert (Hf1 : forall x, 0 <= f1 x < 2 ^ 3).
    { intros x. unfold f1. destruct (Z.testbit _ _), (Z.testbit _ _); cbn; lia. }
    pose proof (dig_range 3 8 f1 ltac:(lia) ltac:(intros; apply Hf1)) as Hd1.
    change (2 ^ (3 * Z.of_nat 8)) with 16777216 in Hd1.
    rewrite (u32_small (dig 3 8 f1)) by lia. rewrite dig_add.
    assert (Hg : forall x, 0 <= x < Z.of_nat 8 -> 0 <= f1 x + g1 x < 2 ^ 3).
    { intros x Hx. rewrite Hf by auto. specialize (HS x). change (2 ^ 3) with 8; lia. }
    pose proof (dig_range 3 8 _ ltac:(lia) Hg) as Hd.
    change (2 ^ (3 * Z.of_nat 8)) with 16777216 in Hd. rewrite u32_small by lia.
    set (d := dig 3 8 (fun x => f1 x + g1 x)).
    assert (D : forall x, 0 <= x < 8 -> (d >> (3 * x)) .& 7 = S3 x).
    { intros x Hx. rewrite (land_mod _ 3), Z.shiftr_div_pow2 by lia. unfold d.
      rewrite (dig_get 3 8) by (auto; lia). apply Hf; lia. }
    apply (wp_for_fill_at N (fun j => c (4 * i + j))); auto.
    intros j pre' x rest' Hj Hp'.
    replace (6 * j + 0) with (3 * (2 * j)) by lia. replace (6 * j + 3) with (3 * (2 * j + 1)) by lia.
    rewrite !D by lia. pose proof (HS (2 * j)). pose proof (HS (2 * j + 1)).
    wstep. apply wp_i16; [lia|]. wstep. apply wp_i16; [lia|]. wstep. apply wp_i16; [lia|].
    wgo. rewrite <- app_assoc. cbn [app]. f_equal. f_equal. unfold c. rewrite !sum_3. unfold S3.
    f_equal; [f_equal; [f_equal|] | f_equal; [f_equal|]]; f_equal; lia.
  - rewrite <- (map_range_chunks c 4 64) by lia. rewrite skipn_all_z, app_nil_r by lia. exact HQ.
Qed.

Lemma zlen_cbd eta B : zlen (cbd eta B) = 256.
Proof. unfold cbd. now rewrite zlen_map, zlen_range by lia. Qed.
Lemma cbd_range eta B : eta = 2 \/ eta = 3 -> Forall (fun x => - eta <= x <= eta) (cbd eta B).
Proof.
  intros He. apply Forall_map_range. intros i Hi.
  destruct He as [->| ->]; rewrite ?sum_2, ?sum_3;
    repeat match goal with |- context [sbit ?b ?x] =>
      pose proof (sbit_range b x); generalize dependent (sbit b x); intros end; lia.
Qed.

Lemma wp_poly_cbd_eta1 N p r buf (Q : list Z -> Prop) : zlen r = 256 ->
  zlen buf = 64 * eta1 (set_of p) -> bytes buf ->
  Q (cbd (eta1 (set_of p)) buf) -> wpn N (poly_cbd_eta1 p r buf) Q.
Proof. intros. destruct p; [apply wp_cbd3|apply wp_cbd2|apply wp_cbd2]; auto. Qed.
Lemma wp_poly_cbd_eta2 N p r buf (Q : list Z -> Prop) : zlen r = 256 ->
  zlen buf = 64 * eta2 (set_of p) -> bytes buf ->
  Q (cbd (eta2 (set_of p)) buf) -> wpn N (poly_cbd_eta2 r buf) Q.
Proof. intros. destruct p; apply wp_cbd2; auto. Qed.

(** ** The statements of C21 *)
Lemma cbd_eta1_correct p r buf : zlen r = 256 -> zlen buf = 64 * eta1 (set_of p) -> bytes buf ->
  exists f, val (poly_cbd_eta1 p r buf) = Ok f /\ zlen f = 256 /\
    Forall (fun x => - eta1 (set_of p) <= x <= eta1 (set_of p)) f /\
    map (fun x => x mod q) f = SamplePolyCBD (eta1 (set_of p)) buf.
Proof.
  intros. apply wp_ex. apply wp_poly_cbd_eta1; auto. split; [apply zlen_cbd|]. split.
  - apply cbd_range. destruct p; cbn; auto.
  - apply cbd_SamplePolyCBD; auto. destruct p; cbn; lia.
Qed.
Lemma cbd_eta2_correct p r buf : zlen r = 256 -> zlen buf = 64 * eta2 (set_of p) -> bytes buf ->
  exists f, val (poly_cbd_eta2 r buf) = Ok f /\ zlen f = 256 /\
    Forall (fun x => - eta2 (set_of p) <= x <= eta2 (set_of p)) f /\
    map (fun x => x mod q) f = SamplePolyCBD (eta2 (set_of p)) buf.
Proof.
  intros. apply wp_ex. apply (wp_poly_cbd_eta2 _ p); auto. split; [apply zlen_cbd|]. split.
  - apply cbd_range. destruct p; cbn; auto.
  - apply cbd_SamplePolyCBD; auto. destruct p; cbn; lia.
Qed.
