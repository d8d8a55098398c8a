(** * Facts about the bit strings of the specification: ByteEncode, ByteDecode *)

From Coq Require Import ZArith List Bool Lia ZifyBool.
From Verif Require Import CSem ModelArith Spec202 Spec203 CSemFacts ProofScalar.
Import ListNotations.
Open Scope Z_scope.
Ltac Zify.zify_post_hook ::= Z.to_euclidean_division_equations.

Lemma bits_value_testbit l : forall j, 0 <= j -> Z.testbit (bits_value l) j = zget false l j.
Proof.
  unfold zget. induction l as [|x l IH]; intros j Hj; unfold bits_value; cbn [fold_right].
  - rewrite Z.testbit_0_l. destruct (Z.to_nat j); reflexivity.
  - fold (bits_value l). rewrite Z.add_comm.
    destruct (Z.eq_dec j 0) as [->|].
    + now rewrite Z.testbit_0_r.
    + replace j with (Z.succ (j - 1)) at 1 by lia. rewrite Z.testbit_succ_r by lia.
      rewrite IH by lia. replace (Z.to_nat j) with (S (Z.to_nat (j - 1))) by lia. reflexivity.
Qed.
Lemma bits_value_range l : 0 <= bits_value l < 2 ^ zlen l.
Proof.
  induction l as [|x l IH]; unfold bits_value; cbn [fold_right]; [rewrite (@zlen_nil bool); change (2 ^ 0) with 1; lia|].
  fold (bits_value l). rewrite zlen_cons, Z.pow_add_r by (try lia; apply zlen_nonneg).
  change (2 ^ 1) with 2. destruct x; cbn [Z.b2z]; lia.
Qed.

Lemma testbit_high a d j : 0 <= a < 2 ^ d -> d <= j -> Z.testbit a j = false.
Proof.
  intros Ha Hj. destruct (Z.eq_dec a 0) as [->|]; [apply Z.testbit_0_l|].
  assert (0 <= d) by (destruct (Z.le_gt_cases 0 d); auto; rewrite Z.pow_neg_r in Ha by lia; lia).
  apply Z.bits_above_log2; [lia|]. apply Z.log2_lt_pow2; [lia|].
  apply Z.lt_le_trans with (2 ^ d); [lia|]. apply Z.pow_le_mono_r; lia.
Qed.

(** The d-bit value with given bits *)
Definition val_of (d : Z) (f : Z -> bool) : Z := bits_value (map f (range d)).
Lemma testbit_val_of d f j : 0 <= d -> 0 <= j -> Z.testbit (val_of d f) j = (j <? d) && f j.
Proof.
  intros. unfold val_of. rewrite bits_value_testbit by auto.
  destruct (j <? d) eqn:E; cbn [andb].
  - apply zget_map_range; lia.
  - unfold zget. rewrite nth_overflow; auto. rewrite map_length.
    pose proof (zlen_range d H). unfold zlen in *. lia.
Qed.
Lemma val_of_range d f : 0 <= d -> 0 <= val_of d f < 2 ^ d.
Proof.
  intros. unfold val_of. pose proof (bits_value_range (map f (range d))) as B.
  now rewrite zlen_map, zlen_range in B by auto.
Qed.
Lemma val_of_unique d f x : 0 <= d -> 0 <= x < 2 ^ d ->
  (forall j, 0 <= j < d -> Z.testbit x j = f j) -> x = val_of d f.
Proof.
  intros Hd Hx H. apply Z.bits_inj'. intros j Hj. rewrite testbit_val_of by auto.
  destruct (j <? d) eqn:E; cbn [andb]; [apply H; lia|]. apply testbit_high with d; lia.
Qed.
Lemma val_of_ext d f g : (forall j, 0 <= j < d -> f j = g j) -> val_of d f = val_of d g.
Proof. intros. unfold val_of. f_equal. now apply map_range_ext. Qed.
Lemma val_of_testbit d x : 0 <= d -> 0 <= x < 2 ^ d -> val_of d (Z.testbit x) = x.
Proof. intros. symmetry. apply val_of_unique; auto. Qed.

Lemma bits_value_slice l a d : 0 <= a -> 0 <= d -> a + d <= zlen l ->
  bits_value (slice l a (a + d)) = val_of d (fun j => zget false l (a + j)).
Proof.
  intros. unfold val_of. f_equal. apply (zlist_ext false).
  - rewrite zlen_slice, zlen_map, zlen_range; lia.
  - intros i Hi. rewrite zlen_slice in Hi by lia. rewrite zget_slice, zget_map_range by lia.
    reflexivity.
Qed.

Lemma flat_map_zget {A B} (d : A) (f : A -> list B) l :
  flat_map f l = flat_map (fun i => f (zget d l i)) (range (zlen l)).
Proof.
  rewrite (zlist_get d l) at 1. generalize (range (zlen l)); intros r.
  induction r; cbn; congruence.
Qed.

Lemma bits_to_bytes_eq b m : zlen b = 8 * m ->
  bits_to_bytes b = map (fun i => val_of 8 (fun j => zget false b (8 * i + j))) (range m).
Proof.
  intros Hb. unfold bits_to_bytes. pose proof (zlen_nonneg b).
  fold (zlen b). replace (zlen b / 8) with m by lia.
  apply map_range_ext. intros i Hi.
  rewrite <- (bits_value_slice b (8 * i) 8) by lia.
  unfold slice. now replace (Z.to_nat (8 * i + 8 - 8 * i)) with 8%nat by lia.
Qed.

Lemma zlen_bytes_to_bits B : zlen (bytes_to_bits B) = 8 * zlen B.
Proof.
  unfold bytes_to_bits. apply zlen_flat_map. intros. unfold byte_bits.
  now rewrite zlen_map, zlen_range by lia.
Qed.
Lemma zget_bytes_to_bits B i : 0 <= i < 8 * zlen B ->
  zget false (bytes_to_bits B) i = Z.testbit (zget 0 B (i / 8)) (i mod 8).
Proof.
  intros. unfold bytes_to_bits. rewrite (flat_map_zget 0).
  rewrite (zget_flat_map false _ 8); try lia.
  - unfold byte_bits. now rewrite zget_map_range by lia.
  - intros. unfold byte_bits. now rewrite zlen_map, zlen_range by lia.
Qed.

Lemma zlen_encode_bits d F : 0 <= d ->
  zlen (flat_map (fun a => map (fun j => Z.testbit a j) (range d)) F) = d * zlen F.
Proof. intros. apply zlen_flat_map. intros. now rewrite zlen_map, zlen_range by lia. Qed.
Lemma zget_encode_bits d F i : 0 < d -> 0 <= i < d * zlen F ->
  zget false (flat_map (fun a => map (fun j => Z.testbit a j) (range d)) F) i
  = Z.testbit (zget 0 F (i / d)) (i mod d).
Proof.
  intros. rewrite (flat_map_zget 0). rewrite (zget_flat_map false _ d); auto.
  - rewrite zget_map_range; auto. apply Z.mod_pos_bound; lia.
  - intros. now rewrite zlen_map, zlen_range by lia.
Qed.

Lemma ByteEncode_eq d F m : 0 < d -> d * zlen F = 8 * m ->
  ByteEncode d F
  = map (fun i => val_of 8 (fun j => Z.testbit (zget 0 F ((8 * i + j) / d)) ((8 * i + j) mod d)))
        (range m).
Proof.
  intros Hd Hm. unfold ByteEncode, BitsToBytes.
  rewrite (bits_to_bytes_eq _ m) by (rewrite zlen_encode_bits; lia).
  apply map_range_ext. intros i Hi. apply val_of_ext. intros j Hj.
  apply zget_encode_bits; lia.
Qed.
Lemma zlen_ByteEncode d F m : 0 < d -> d * zlen F = 8 * m -> zlen (ByteEncode d F) = m.
Proof.
  intros. rewrite (ByteEncode_eq d F m) by auto. rewrite zlen_map. apply zlen_range.
  pose proof (zlen_nonneg F). nia.
Qed.
Lemma bytes_ByteEncode d F m : 0 < d -> d * zlen F = 8 * m -> bytes (ByteEncode d F).
Proof.
  intros. rewrite (ByteEncode_eq d F m) by auto. apply Forall_map_range.
  intros. apply (val_of_range 8). lia.
Qed.

Lemma map_range_chunks {A} (f : Z -> A) w m : 0 < w -> 0 <= m ->
  map f (range (w * m)) = flat_map (fun i => map (fun c => f (w * i + c)) (range w)) (range m).
Proof.
  intros Hw Hm.
  assert (L : zlen (flat_map (fun i => map (fun c => f (w * i + c)) (range w)) (range m)) = w * m).
  { rewrite (zlen_flat_map _ w).
    - now rewrite zlen_range.
    - intros. now rewrite zlen_map, zlen_range by lia. }
  apply (zlist_ext (f 0)).
  - rewrite L, zlen_map, zlen_range; nia.
  - intros i Hi. rewrite zlen_map, zlen_range in Hi by nia.
    rewrite zget_map_range by auto.
    rewrite (zget_flat_map _ _ w) by (try lia; intros; rewrite zlen_map, zlen_range; lia).
    rewrite zget_map_range by (apply Z.mod_pos_bound; lia).
    f_equal. apply Z.div_mod. lia.
Qed.

(** w bytes encode e coefficients of d bits. *)
Lemma ByteEncode_chunks d e w m F : 0 < d -> 0 < w -> 0 < e -> 0 <= m ->
  e * d = 8 * w -> zlen F = e * m ->
  ByteEncode d F = flat_map (fun i => map (fun c => val_of 8 (fun b =>
      Z.testbit (zget 0 F (e * i + (8 * c + b) / d)) ((8 * c + b) mod d))) (range w)) (range m).
Proof.
  intros Hd Hw He Hm E L. rewrite (ByteEncode_eq d F (w * m)) by nia.
  rewrite map_range_chunks by auto.
  apply flat_map_ext. intros i. apply map_ext. intros c. apply val_of_ext. intros b Hb.
  replace (8 * (w * i + c) + b) with ((8 * c + b) + (e * i) * d) by nia.
  rewrite Z.div_add, Z.mod_add by lia. do 2 f_equal. lia.
Qed.

Lemma fields_eq d B : 0 < d -> 8 * zlen B = 256 * d ->
  fields d B = map (fun i => val_of d (fun j =>
      Z.testbit (zget 0 B ((i * d + j) / 8)) ((i * d + j) mod 8))) (range 256).
Proof.
  intros Hd L. unfold fields, n, BytesToBits. apply map_range_ext. intros i Hi.
  rewrite bits_value_slice by (try rewrite zlen_bytes_to_bits; nia).
  apply val_of_ext. intros j Hj. apply zget_bytes_to_bits. nia.
Qed.
Lemma fields_chunks d e w m B : 0 < d -> 0 < w -> 0 < e -> 0 <= m ->
  e * d = 8 * w -> e * m = 256 -> zlen B = w * m ->
  fields d B = flat_map (fun i => map (fun c => val_of d (fun b =>
      Z.testbit (zget 0 B (w * i + (c * d + b) / 8)) ((c * d + b) mod 8))) (range e)) (range m).
Proof.
  intros Hd Hw He Hm E E' L. rewrite fields_eq by nia.
  rewrite <- E', map_range_chunks by auto.
  apply flat_map_ext. intros i. apply map_ext. intros c. apply val_of_ext. intros b Hb.
  replace ((e * i + c) * d + b) with ((c * d + b) + (w * i) * 8) by nia.
  rewrite Z.div_add, Z.mod_add by lia. do 2 f_equal. lia.
Qed.
Lemma zlen_fields d B : zlen (fields d B) = 256.
Proof. unfold fields. now rewrite zlen_map, zlen_range. Qed.
Lemma fields_range d B : 0 < d -> 8 * zlen B = 256 * d -> ubounded (2 ^ d) (fields d B).
Proof.
  intros. rewrite fields_eq by auto. apply Forall_map_range. intros. apply val_of_range; lia.
Qed.

Lemma ByteDecode_fields d B : 0 < d -> d <> 12 -> 8 * zlen B = 256 * d ->
  ByteDecode d B = fields d B.
Proof.
  intros Hd Hn L. unfold ByteDecode, fields. replace (d =? 12) with false by lia.
  apply map_range_ext. intros i Hi. change n with 256 in Hi. apply Z.mod_small.
  unfold BytesToBits. rewrite bits_value_slice by (try rewrite zlen_bytes_to_bits; nia).
  apply val_of_range; lia.
Qed.
Lemma ByteDecode_12 B : ByteDecode 12 B = map (fun x => x mod q) (fields 12 B).
Proof. unfold ByteDecode, fields. rewrite map_map. reflexivity. Qed.
Lemma zlen_ByteDecode d B : zlen (ByteDecode d B) = 256.
Proof. unfold ByteDecode. now rewrite zlen_map, zlen_range. Qed.

(** Round trips *)
Lemma fields_ByteEncode d F : 0 < d -> zlen F = 256 -> ubounded (2 ^ d) F ->
  fields d (ByteEncode d F) = F.
Proof.
  intros Hd L HF. assert (Lb : zlen (ByteEncode d F) = 32 * d) by (apply zlen_ByteEncode; lia).
  rewrite fields_eq by lia.
  apply (zlist_ext 0); [rewrite zlen_map, zlen_range; lia|].
  intros i Hi. rewrite zlen_map, zlen_range in Hi by lia. rewrite zget_map_range by lia.
  symmetry. apply val_of_unique; [lia| |].
  - apply (proj1 (Forall_zget _ 0 _) HF). lia.
  - intros j Hj. rewrite (ByteEncode_eq d F (32 * d)) by lia.
    rewrite zget_map_range by nia. rewrite testbit_val_of by lia.
    replace ((i * d + j) mod 8 <? 8) with true by lia. cbn [andb].
    replace (8 * ((i * d + j) / 8) + (i * d + j) mod 8) with (j + i * d) by lia.
    rewrite Z.div_add, Z.mod_add, Z.div_small, Z.mod_small by lia. reflexivity.
Qed.
Lemma ByteEncode_fields d B : 0 < d -> zlen B = 32 * d -> bytes B ->
  ByteEncode d (fields d B) = B.
Proof.
  intros Hd L HB. rewrite (ByteEncode_eq d _ (32 * d)) by (rewrite ?zlen_fields; lia).
  apply (zlist_ext 0); [rewrite zlen_map, zlen_range; lia|].
  intros i Hi. rewrite zlen_map, zlen_range in Hi by lia. rewrite zget_map_range by lia.
  symmetry. apply val_of_unique; [lia| |].
  - apply (proj1 (Forall_zget _ 0 _) HB). lia.
  - intros j Hj. rewrite fields_eq by lia.
    pose proof (Z.div_mod (8 * i + j) d ltac:(lia)) as E.
    pose proof (Z.mod_pos_bound (8 * i + j) d ltac:(lia)) as B1.
    rewrite zget_map_range by nia. rewrite testbit_val_of by lia.
    replace ((8 * i + j) mod d <? d) with true by lia. cbn [andb].
    replace ((8 * i + j) / d * d + (8 * i + j) mod d) with (8 * i + j) by lia.
    replace ((8 * i + j) / 8) with i by lia. f_equal. lia.
Qed.
