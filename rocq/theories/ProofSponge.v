(** * The sponge of FIPS 202 on byte strings *)

From Coq Require Import ZArith List Bool Lia ZifyBool.
From Verif Require Import CSem Spec202 CSemFacts ProofBits.
Import ListNotations.
Open Scope Z_scope.
Ltac Zify.zify_post_hook ::= Z.to_euclidean_division_equations.

(** ** Bits and bytes *)

Lemma zget_bits_to_bytes b m i j : zlen b = 8 * m -> 0 <= i < m -> 0 <= j < 8 ->
  Z.testbit (zget 0 (bits_to_bytes b) i) j = zget false b (8 * i + j).
Proof.
  intros H Hi Hj. rewrite (bits_to_bytes_eq b m H). rewrite zget_map_range by auto.
  rewrite testbit_val_of by lia. replace (j <? 8) with true by lia. reflexivity.
Qed.
Lemma zlen_bits_to_bytes b m : zlen b = 8 * m -> zlen (bits_to_bytes b) = m.
Proof. intros H. pose proof (zlen_nonneg b). rewrite (bits_to_bytes_eq b m H). rewrite zlen_map, zlen_range; lia. Qed.
Lemma bytes_bits_to_bytes b m : zlen b = 8 * m -> bytes (bits_to_bytes b).
Proof.
  intros H. rewrite (bits_to_bytes_eq b m H). apply Forall_map_range. intros i _.
  unfold is_byte. change 256 with (2 ^ 8). apply val_of_range; lia.
Qed.
Lemma bytes_to_bits_to_bytes b m : zlen b = 8 * m -> bytes_to_bits (bits_to_bytes b) = b.
Proof.
  intros H. pose proof (zlen_bits_to_bytes b m H) as L.
  apply (zlist_ext false); [rewrite zlen_bytes_to_bits; lia|].
  rewrite zlen_bytes_to_bits, L. intros i Hi. rewrite zget_bytes_to_bits by lia.
  rewrite (zget_bits_to_bytes b m) by lia. f_equal. lia.
Qed.
Lemma byte_ext a b : is_byte a -> is_byte b -> (forall j, 0 <= j < 8 -> Z.testbit a j = Z.testbit b j) -> a = b.
Proof.
  unfold is_byte. intros Ha Hb H. apply Z.bits_inj'. intros j Hj.
  destruct (Z.lt_ge_cases j 8); [apply H; lia|].
  rewrite !(testbit_high _ 8) by (change (2 ^ 8) with 256; lia). reflexivity.
Qed.
Lemma bytes_zget l i : bytes l -> is_byte (zget 0 l i).
Proof.
  intros H. unfold zget. destruct (Nat.lt_ge_cases (Z.to_nat i) (length l)) as [C|C].
  - unfold bytes in H. rewrite Forall_forall in H. apply H, nth_In, C.
  - rewrite nth_overflow by auto. unfold is_byte; lia.
Qed.
Lemma bits_to_bytes_to_bits B : bytes B -> bits_to_bytes (bytes_to_bits B) = B.
Proof.
  intros H. pose proof (zlen_bytes_to_bits B) as L.
  assert (L' : zlen (bits_to_bytes (bytes_to_bits B)) = zlen B) by now apply zlen_bits_to_bytes.
  apply (zlist_ext 0); auto. rewrite L'. intros i Hi. apply byte_ext.
  - apply bytes_zget, (bytes_bits_to_bytes _ _ L).
  - now apply bytes_zget.
  - intros j Hj. rewrite (zget_bits_to_bytes _ _ _ _ L) by auto.
    rewrite zget_bytes_to_bits by lia. f_equal; [f_equal|]; lia.
Qed.
Lemma bytes_to_bits_app a b : bytes_to_bits (a ++ b) = bytes_to_bits a ++ bytes_to_bits b.
Proof. apply flat_map_app'. Qed.
Lemma bytes_to_bits_slice B a b : 0 <= a <= b -> b <= zlen B ->
  slice (bytes_to_bits B) (8 * a) (8 * b) = bytes_to_bits (slice B a b).
Proof.
  intros. pose proof (zlen_bytes_to_bits B).
  apply (zlist_ext false); [rewrite zlen_bytes_to_bits, !zlen_slice; lia|].
  rewrite zlen_slice by lia. intros i Hi. rewrite zget_slice by lia.
  rewrite !zget_bytes_to_bits by (rewrite ?zlen_slice; lia).
  rewrite zget_slice by lia. f_equal; [f_equal|]; lia.
Qed.

Ltac Zify.zify_post_hook ::= idtac.

(** ** States of 200 bytes *)

Definition wfb (S : list Z) : Prop := zlen S = 200 /\ bytes S.
Definition fb (S : list Z) : list Z := bits_to_bytes (KECCAK_f1600 (bytes_to_bits S)).
Definition xat (S : list Z) (off : Z) (B : list Z) : list Z :=
  map (fun i => Z.lxor (zget 0 S i)
                  (if (off <=? i) && (i <? off + zlen B) then zget 0 B (i - off) else 0)) (range 200).
Definition zeros : list Z := map (fun _ => 0) (range 200).

Lemma zlen_KECCAK b : zlen b = 1600 -> zlen (KECCAK_f1600 b) = 1600.
Proof.
  intros H. unfold KECCAK_f1600.
  assert (E : range 24 = range 23 ++ [23]) by reflexivity.
  rewrite E, fold_left_app. cbn [fold_left]. unfold Rnd.
  generalize (iota 23 (chi (pi (rho (theta (to_array (fold_left (fun S ir => Rnd ir S) (range 23) b))))))).
  intros A. unfold to_string. rewrite (zlen_flat_map _ 320), zlen_range; try lia.
  intros y _. rewrite (zlen_flat_map _ 64), zlen_range; try lia.
  intros x _. now rewrite zlen_map, zlen_range by lia.
Qed.
Lemma wfb_fb S : zlen S = 200 -> wfb (fb S).
Proof.
  intros H. assert (L : zlen (KECCAK_f1600 (bytes_to_bits S)) = 8 * 200).
  { apply zlen_KECCAK. rewrite zlen_bytes_to_bits. lia. }
  split; [now apply zlen_bits_to_bytes|now apply (bytes_bits_to_bytes _ 200)].
Qed.
Lemma bits_fb S : zlen S = 200 -> bytes_to_bits (fb S) = KECCAK_f1600 (bytes_to_bits S).
Proof.
  intros H. unfold fb. apply (bytes_to_bits_to_bytes _ 200). apply zlen_KECCAK. rewrite zlen_bytes_to_bits. lia.
Qed.
#[global] Opaque fb KECCAK_f1600.
Lemma zlen_xat S o B : zlen (xat S o B) = 200.
Proof. unfold xat. now rewrite zlen_map, zlen_range by lia. Qed.
Lemma zget_xat S o B i : 0 <= i < 200 -> zget 0 (xat S o B) i =
  Z.lxor (zget 0 S i) (if (o <=? i) && (i <? o + zlen B) then zget 0 B (i - o) else 0).
Proof. intros. unfold xat. now rewrite zget_map_range by auto. Qed.
Lemma is_byte_lxor a b : is_byte a -> is_byte b -> is_byte (Z.lxor a b).
Proof.
  unfold is_byte. intros Ha Hb. split; [apply Z.lxor_nonneg; lia|].
  change 256 with (2 ^ 8) in *. destruct (Z.eq_dec (Z.lxor a b) 0) as [-> |]; [lia|].
  assert (0 <= Z.lxor a b) by (apply Z.lxor_nonneg; lia).
  apply Z.log2_lt_pow2; [lia|]. destruct (Z.lt_ge_cases (Z.log2 (Z.lxor a b)) 8); auto. exfalso.
  pose proof (Z.bit_log2 (Z.lxor a b) ltac:(lia)) as C. rewrite Z.lxor_spec in C.
  rewrite !(testbit_high _ 8) in C by lia. discriminate.
Qed.
Lemma wfb_xat S o B : wfb S -> bytes B -> wfb (xat S o B).
Proof.
  intros [L H] HB. split; [apply zlen_xat|]. apply Forall_map_range. intros i Hi.
  apply is_byte_lxor; [now apply bytes_zget|]. destruct (_ && _); [now apply bytes_zget|unfold is_byte; lia].
Qed.
Lemma wfb_zeros : wfb zeros.
Proof.
  split; [unfold zeros; now rewrite zlen_map, zlen_range by lia|]. apply Forall_map_range.
  intros; unfold is_byte; lia.
Qed.
Lemma xat_ext S o B T : wfb T -> (forall i, 0 <= i < 200 -> zget 0 T i =
  Z.lxor (zget 0 S i) (if (o <=? i) && (i <? o + zlen B) then zget 0 B (i - o) else 0)) -> T = xat S o B.
Proof.
  intros [L _] H. apply (zlist_ext 0); [now rewrite zlen_xat|]. rewrite L. intros i Hi.
  rewrite zget_xat by auto. auto.
Qed.
Lemma xat_nil S o : wfb S -> xat S o [] = S.
Proof.
  intros W. symmetry. apply xat_ext; auto. intros i Hi. change (zlen (@nil Z)) with 0.
  replace (_ && _) with false by lia. now rewrite Z.lxor_0_r.
Qed.
Lemma xat_xat S o A B : 0 <= o -> xat (xat S o A) (o + zlen A) B = xat S o (A ++ B).
Proof.
  intros Ho. apply (zlist_ext 0); [now rewrite !zlen_xat|]. rewrite zlen_xat. intros i Hi.
  rewrite !zget_xat by auto. rewrite zlen_app. pose proof (zlen_nonneg A). pose proof (zlen_nonneg B).
  rewrite Z.lxor_assoc. f_equal.
  destruct (Z.lt_ge_cases i o).
  { replace (o <=? i) with false by lia. replace (o + zlen A <=? i) with false by lia. reflexivity. }
  destruct (Z.lt_ge_cases i (o + zlen A)).
  - replace ((o <=? i) && (i <? o + zlen A)) with true by lia.
    replace ((o + zlen A <=? i) && (i <? o + zlen A + zlen B)) with false by lia.
    replace ((o <=? i) && (i <? o + (zlen A + zlen B))) with true by lia.
    rewrite Z.lxor_0_r, zget_app by lia. now replace (i - o <? zlen A) with true by lia.
  - replace ((o <=? i) && (i <? o + zlen A)) with false by lia. rewrite Z.lxor_0_l.
    replace ((o + zlen A <=? i) && (i <? o + zlen A + zlen B)) with ((o <=? i) && (i <? o + (zlen A + zlen B))) by lia.
    destruct (_ && _); auto. rewrite zget_app by lia. replace (i - o <? zlen A) with false by lia.
    f_equal. lia.
Qed.

(** ** Absorbing *)

(** the state after the whole blocks of [M] *)
Definition absb (r : Z) (M : list Z) : list Z :=
  fold_left (fun S i => fb (xat S 0 (slice M (r * i) (r * i + r)))) (range (zlen M / r)) zeros.
(** what follows the whole blocks *)
Definition tailb (r : Z) (M : list Z) : list Z := slice M (r * (zlen M / r)) (zlen M).

Lemma wfb_absb r M : bytes M -> wfb (absb r M).
Proof.
  intros HM. unfold absb. generalize (range (zlen M / r)). intros l.
  destruct l as [|x l] using rev_ind; [exact wfb_zeros|].
  rewrite fold_left_app. cbn [fold_left]. apply wfb_fb, zlen_xat.
Qed.

Lemma zlen_tailb r M : 0 < r -> zlen (tailb r M) = zlen M mod r.
Proof. intros Hr. unfold tailb. pose proof (zlen_nonneg M).
  pose proof (Z.mul_div_le (zlen M) r Hr). pose proof (Z.div_pos (zlen M) r ltac:(lia) Hr).
  pose proof (Z.mul_nonneg_nonneg r (zlen M / r) ltac:(lia) ltac:(lia)).
  rewrite zlen_slice, Z.mod_eq by lia. reflexivity. Qed.

Lemma bytes_slice' M a b : bytes M -> bytes (slice M a b).
Proof.
  intros H. unfold bytes in *. rewrite Forall_forall in *. intros x Hx. apply H. unfold slice in Hx.
  rewrite <- (firstn_skipn (Z.to_nat a) M). apply in_or_app. right.
  rewrite <- (firstn_skipn (Z.to_nat (b - a)) (skipn _ M)). apply in_or_app. now left.
Qed.
Lemma bytes_tailb r M : bytes M -> bytes (tailb r M).
Proof. apply bytes_slice'. Qed.

Lemma slice_app_prefix {A} (a b : list A) x y : 0 <= x <= y -> y <= zlen a -> slice (a ++ b) x y = slice a x y.
Proof.
  intros. unfold slice. unfold zlen in *. rewrite skipn_app, firstn_app.
  replace (Z.to_nat (y - x) - length (skipn (Z.to_nat x) a))%nat with 0%nat by (rewrite skipn_length; lia).
  cbn [firstn]. apply app_nil_r.
Qed.
Lemma slice_app_end {A} (a b : list A) x : 0 <= x <= zlen a ->
  slice (a ++ b) x (zlen a + zlen b) = slice a x (zlen a) ++ b.
Proof.
  intros. unfold slice. unfold zlen in *. rewrite skipn_app.
  replace (Z.to_nat x - length a)%nat with 0%nat by lia. cbn [skipn].
  rewrite !firstn_all2; auto; rewrite ?app_length, ?skipn_length; lia.
Qed.

Lemma fold_left_ext_in {A B} (f g : A -> B -> A) l : forall s,
  (forall i a, In i l -> f a i = g a i) -> fold_left f l s = fold_left g l s.
Proof.
  induction l as [|i l IH]; intros s H; cbn [fold_left]; [reflexivity|].
  rewrite H by now left. apply IH. intros j a Hj. apply H. now right.
Qed.
Lemma absb_prefix r M x S : 0 < r ->
  fold_left (fun S i => fb (xat S 0 (slice (M ++ x) (r * i) (r * i + r)))) (range (zlen M / r)) S =
  fold_left (fun S i => fb (xat S 0 (slice M (r * i) (r * i + r)))) (range (zlen M / r)) S.
Proof.
  intros Hr. apply fold_left_ext_in. intros i a Hi. apply in_range in Hi.
  pose proof (Z.mul_div_le (zlen M) r Hr) as Hd. f_equal. f_equal. apply slice_app_prefix; nia.
Qed.
(** bytes that do not complete a block *)
Lemma absb_same r M x : 0 < r -> zlen M mod r + zlen x < r ->
  absb r (M ++ x) = absb r M /\ tailb r (M ++ x) = tailb r M ++ x.
Proof.
  intros Hr H. pose proof (zlen_nonneg M). pose proof (zlen_nonneg x).
  pose proof (Z.mod_pos_bound (zlen M) r Hr).
  assert (E : (zlen M + zlen x) / r = zlen M / r).
  { symmetry. apply (Z.div_unique _ _ _ (zlen M mod r + zlen x)); [lia|].
    pose proof (Z.div_mod (zlen M) r ltac:(lia)). lia. }
  pose proof (Z.mul_div_le (zlen M) r Hr). pose proof (Z.div_pos (zlen M) r ltac:(lia) Hr).
  split.
  - unfold absb. rewrite zlen_app, E.
    apply absb_prefix; auto.
  - unfold tailb. rewrite zlen_app, E. apply slice_app_end. nia.
Qed.
(** bytes that complete a block *)
Lemma absb_full r M x : 0 < r -> 0 < zlen x -> zlen M mod r + zlen x = r ->
  absb r (M ++ x) = fb (xat (absb r M) 0 (tailb r M ++ x)) /\ tailb r (M ++ x) = [].
Proof.
  intros Hr Hx H. pose proof (zlen_nonneg M).
  pose proof (Z.mod_pos_bound (zlen M) r Hr).
  assert (E : (zlen M + zlen x) / r = zlen M / r + 1).
  { symmetry. apply (Z.div_unique _ _ _ 0); [lia|].
    pose proof (Z.div_mod (zlen M) r ltac:(lia)). lia. }
  pose proof (Z.mul_div_le (zlen M) r Hr). pose proof (Z.div_pos (zlen M) r ltac:(lia) Hr).
  pose proof (Z.div_mod (zlen M) r ltac:(lia)).
  split.
  - unfold absb at 1. rewrite zlen_app, E, range_S by lia. rewrite fold_left_app. cbn [fold_left].
    rewrite absb_prefix by auto. fold (absb r M). do 2 f_equal.
    replace (r * (zlen M / r) + r) with (zlen M + zlen x) by lia.
    apply slice_app_end. lia.
  - unfold tailb. rewrite zlen_app, E. replace (r * (zlen M / r + 1)) with (zlen M + zlen x) by lia.
    unfold slice. rewrite Z.sub_diag. reflexivity.
Qed.

(** The state before the last permutation of the absorbing phase, for a message [M]
    followed by the domain and padding bytes [p] ... 0x80 *)
Definition final (r p : Z) (M : list Z) : list Z :=
  xat (xat (xat (absb r M) 0 (tailb r M)) (zlen M mod r) [p]) (r - 1) [128].

(** The bytes that pad [k] bytes *)
Definition padb (p k : Z) : list Z :=
  if k =? 1 then [Z.lxor p 128] else p :: repeat 0 (Z.to_nat (k - 2)) ++ [128].
Lemma zlen_padb p k : 1 <= k -> zlen (padb p k) = k.
Proof.
  intros. unfold padb. destruct (Z.eqb_spec k 1) as [-> |]; [reflexivity|].
  rewrite zlen_cons, zlen_app, zlen_repeat. change (zlen [128]) with 1. lia.
Qed.
Lemma zget_repeat {A} (d : A) x m i : 0 <= i < Z.of_nat m -> zget d (repeat x m) i = x.
Proof. intros. unfold zget. apply (repeat_spec m). apply nth_In. rewrite repeat_length. lia. Qed.
Lemma final_padb r p M : 0 < r <= 200 ->
  final r p M = xat (absb r M) 0 (tailb r M ++ padb p (r - zlen M mod r)).
Proof.
  intros Hr. pose proof (zlen_tailb r M ltac:(lia)) as Lt. pose proof (zlen_nonneg M).
  set (c := zlen M mod r) in *. assert (Hc : 0 <= c < r) by (apply Z.mod_pos_bound; lia).
  pose proof (zlen_padb p (r - c) ltac:(lia)) as Lp.
  rewrite <- xat_xat by lia. rewrite Lt, Z.add_0_l. unfold final. fold c.
  set (S := xat (absb r M) 0 (tailb r M)).
  apply (zlist_ext 0); [now rewrite !zlen_xat|]. rewrite zlen_xat. intros i Hi.
  rewrite !zget_xat by auto. rewrite Lp. change (zlen [p]) with 1. change (zlen [128]) with 1.
  rewrite Z.lxor_assoc. f_equal. unfold padb. destruct (Z.eqb_spec (r - c) 1) as [E|E].
  - replace (c + (r - c)) with (c + 1) by lia. replace (r - 1) with c by lia.
    destruct (_ && _) eqn:C; [|reflexivity]. replace (i - c) with 0 by lia. reflexivity.
  - destruct (Z.eq_dec i c) as [-> |Nc]; [|destruct (Z.eq_dec i (r - 1)) as [-> |Nr]].
    + replace ((c <=? c) && (c <? c + 1)) with true by lia.
      replace ((r - 1 <=? c) && _) with false by lia.
      replace ((c <=? c) && (c <? c + (r - c))) with true by lia. rewrite Z.sub_diag.
      apply Z.lxor_0_r.
    + replace ((c <=? r - 1) && (r - 1 <? c + 1)) with false by lia.
      replace ((r - 1 <=? r - 1) && _) with true by lia.
      replace ((c <=? r - 1) && (r - 1 <? c + (r - c))) with true by lia. rewrite Z.sub_diag.
      change (zget 0 [128] 0) with 128.
      rewrite zget_cons by lia. replace (r - 1 - c =? 0) with false by lia.
      rewrite zget_app by lia. rewrite zlen_repeat.
      replace (r - 1 - c - 1 <? _) with false by lia.
      replace (r - 1 - c - 1 - _) with 0 by lia. reflexivity.
    + replace ((c <=? i) && (i <? c + 1)) with false by lia.
      replace ((r - 1 <=? i) && _) with false by lia.
      destruct (_ && _) eqn:C; [|reflexivity].
      rewrite zget_cons by lia. replace (i - c =? 0) with false by lia.
      rewrite zget_app by lia. rewrite zlen_repeat.
      replace (i - c - 1 <? _) with true by lia. rewrite zget_repeat by lia. reflexivity.
Qed.

(** ** The sponge of FIPS 202 absorbs the same way *)

Lemma zget_combine_xor a b i : zlen a = zlen b -> 0 <= i < zlen a ->
  zget false (xor_bits a b) i = xorb (zget false a i) (zget false b i).
Proof.
  intros L Hi. unfold xor_bits.
  rewrite (zget_map (fun '(x, y) => xorb x y) (false, false) false).
  - unfold zget. rewrite combine_nth by (unfold zlen in L; lia). reflexivity.
  - unfold zlen in *. rewrite combine_length. lia.
Qed.
Lemma zlen_xor_bits a b : zlen a = zlen b -> zlen (xor_bits a b) = zlen a.
Proof. unfold xor_bits, zlen. rewrite map_length, combine_length. lia. Qed.

Lemma xor_block S B r : zlen S = 200 -> zlen B = r -> 0 <= r <= 200 ->
  xor_bits (bytes_to_bits S) (bytes_to_bits B ++ repeat false (Z.to_nat (1600 - 8 * r))) =
  bytes_to_bits (xat S 0 B).
Proof.
  intros LS LB Hr. pose proof (zlen_bytes_to_bits S) as L1. pose proof (zlen_bytes_to_bits B) as L2.
  assert (L : zlen (bytes_to_bits S) = zlen (bytes_to_bits B ++ repeat false (Z.to_nat (1600 - 8 * r)))).
  { rewrite zlen_app, zlen_repeat. lia. }
  apply (zlist_ext false).
  - rewrite zlen_xor_bits by auto. rewrite (zlen_bytes_to_bits (xat _ _ _)), zlen_xat. lia.
  - rewrite zlen_xor_bits, L1, LS by auto. intros i Hi.
    rewrite zget_combine_xor by (auto; lia). rewrite zget_app by lia.
    pose proof (Z.div_mod i 8 ltac:(lia)). pose proof (Z.mod_pos_bound i 8 ltac:(lia)).
    rewrite !(zget_bytes_to_bits (xat _ _ _)) by (rewrite zlen_xat; lia).
    rewrite zget_bytes_to_bits by lia. rewrite zget_xat by lia.
    rewrite Z.lxor_spec. f_equal. rewrite L2, LB.
    replace (0 <=? i / 8) with true by lia. rewrite Z.add_0_l, Z.sub_0_r.
    destruct (Z.ltb_spec i (8 * r)).
    + replace (i / 8 <? r) with true by lia. now rewrite zget_bytes_to_bits by lia.
    + replace (i / 8 <? r) with false by lia. rewrite zget_repeat by lia.
      now rewrite Z.bits_0.
Qed.

Lemma absorb_bytes r X : 0 < r <= 200 -> bytes X -> (zlen X) mod r = 0 ->
  absorb KECCAK_f1600 (8 * r) (bytes_to_bits X) = bytes_to_bits (absb r X).
Proof.
  intros Hr HX Hm. pose proof (zlen_nonneg X) as HL. unfold absorb, absb.
  fold (zlen (bytes_to_bits X)). rewrite zlen_bytes_to_bits.
  rewrite Z.div_mul_cancel_l by lia.
  assert (E0 : repeat false 1600 = bytes_to_bits zeros).
  { apply (zlist_ext false); [rewrite zlen_bytes_to_bits, zlen_repeat, (proj1 wfb_zeros); reflexivity|].
    rewrite zlen_repeat. intros i Hi. rewrite zget_repeat by lia.
    pose proof (Z.div_mod i 8 ltac:(lia)). pose proof (Z.mod_pos_bound i 8 ltac:(lia)).
    rewrite zget_bytes_to_bits by (rewrite (proj1 wfb_zeros); lia).
    unfold zeros. rewrite zget_map_range by lia. now rewrite Z.bits_0. }
  rewrite E0. pose proof wfb_zeros as W. revert W. generalize zeros.
  assert (Hq : forall i, In i (range (zlen X / r)) -> 0 <= i < zlen X / r) by (intros i; apply in_range).
  pose proof (Z.mul_div_le (zlen X) r ltac:(lia)) as Hd. revert Hq Hd.
  generalize (zlen X / r) at 2 3. intros k Hq Hd. revert Hq. generalize (range (zlen X / r)). intros l.
  induction l as [|i l IH]; intros Hl S W; cbn [fold_left]; [reflexivity|].
  pose proof (Hl i (or_introl eq_refl)) as Hi.
  assert (Hri : 0 <= r * i /\ r * i + r <= zlen X) by (clear - Hi Hd Hr; nia).
  assert (EB : firstn (Z.to_nat (8 * r)) (skipn (Z.to_nat (i * (8 * r))) (bytes_to_bits X)) =
               bytes_to_bits (slice X (r * i) (r * i + r))).
  { rewrite <- bytes_to_bits_slice by lia. unfold slice. f_equal; [f_equal; lia|]. f_equal. f_equal. lia. }
  rewrite EB. rewrite xor_block; [|exact (proj1 W)|rewrite zlen_slice; lia|lia].
  rewrite <- bits_fb by apply zlen_xat. apply IH.
  - intros j Hj. apply Hl. now right.
  - apply wfb_fb, zlen_xat.
Qed.

(** ** Padding *)

(** a domain suffix of the FIPS and the padding byte the code uses for it *)
Definition domain (suf : list bool) (p : Z) : Prop :=
  (suf = [false; true] /\ p = 6) \/ (suf = [true; true; true; true] /\ p = 31).

Lemma bytes_to_bits_zeros m : bytes_to_bits (repeat 0 m) = repeat false (8 * m).
Proof.
  induction m; [reflexivity|]. change (repeat 0 (S m)) with ([0] ++ repeat 0 m).
  rewrite bytes_to_bits_app, IHm. replace (8 * S m)%nat with (8 + 8 * m)%nat by lia.
  rewrite repeat_app. reflexivity.
Qed.

Lemma pad_bits suf p r n : domain suf p -> 0 < r -> 0 <= n ->
  suf ++ pad10star1 (8 * r) (8 * n + zlen suf) = bytes_to_bits (padb p (r - n mod r)).
Proof.
  intros D Hr Hn. pose proof (Z.mod_pos_bound n r Hr) as Hm. pose proof (Z.div_mod n r ltac:(lia)) as Hd.
  unfold pad10star1. set (k := r - n mod r) in *.
  assert (E : forall c, 2 < c <= 6 -> (- (8 * n + (c - 2)) - 2) mod (8 * r) = 8 * k - c).
  { intros c Hc. symmetry. apply (Z.mod_unique _ _ (- (n / r) - 1)); [lia|]. unfold k. nia. }
  assert (E' : forall c, 2 < c <= 6 -> 2 <= k -> repeat false (Z.to_nat (8 * k - c)) =
             repeat false (Z.to_nat (9 - c)) ++ repeat false (8 * Z.to_nat (k - 2)) ++ repeat false 7).
  { intros c Hc Hk. rewrite <- !repeat_app. f_equal. lia. }
  assert (P : padb p k = if k =? 1 then [Z.lxor p 128] else [p] ++ repeat 0 (Z.to_nat (k - 2)) ++ [128]) by reflexivity.
  rewrite P. clear P.
  destruct D as [[-> ->]|[-> ->]].
  - change (zlen [false; true]) with (4 - 2). rewrite (E 4) by lia.
    destruct (Z.eqb_spec k 1) as [-> |Nk]; [reflexivity|].
    rewrite (E' 4) by lia. rewrite !bytes_to_bits_app, bytes_to_bits_zeros.
    rewrite <- !app_assoc. reflexivity.
  - change (zlen [true; true; true; true]) with (6 - 2). rewrite (E 6) by lia.
    destruct (Z.eqb_spec k 1) as [-> |Nk]; [reflexivity|].
    rewrite (E' 6) by lia. rewrite !bytes_to_bits_app, bytes_to_bits_zeros.
    rewrite <- !app_assoc. reflexivity.
Qed.

(** ** Squeezing *)

(** byte [j] of the output stream from state [S] *)
Definition stream (r : Z) (S : list Z) (j : Z) : Z :=
  zget 0 (Nat.iter (Z.to_nat (j / r)) fb S) (j mod r).

Lemma stream_small r S j : 0 <= j < r -> stream r S j = zget 0 S j.
Proof. intros. unfold stream. rewrite Z.div_small, Z.mod_small by lia. reflexivity. Qed.
Lemma iter_fb_r n S : Nat.iter n fb (fb S) = fb (Nat.iter n fb S).
Proof.
  induction n as [|n IH]; [reflexivity|].
  change (Nat.iter (Datatypes.S n) fb (fb S)) with (fb (Nat.iter n fb (fb S))). rewrite IH. reflexivity.
Qed.
Lemma stream_next r S j : 0 < r -> 0 <= j -> stream r S (r + j) = stream r (fb S) j.
Proof.
  intros Hr Hj. unfold stream. pose proof (Z.div_pos j r Hj Hr).
  replace (r + j) with (j + 1 * r) by lia. rewrite Z.div_add, Z.mod_add by lia.
  replace (Z.to_nat (j / r + 1)) with (Datatypes.S (Z.to_nat (j / r))) by lia.
  rewrite iter_fb_r. reflexivity.
Qed.
Lemma wfb_iter n S : wfb S -> wfb (Nat.iter n fb S).
Proof.
  intros W. induction n as [|n IH]; [exact W|].
  change (wfb (fb (Nat.iter n fb S))). apply wfb_fb, IH.
Qed.
Lemma stream_byte r S j : wfb S -> is_byte (stream r S j).
Proof. intros W. apply bytes_zget, wfb_iter, W. Qed.

Lemma slice_stream r S n : 0 <= n <= r -> zlen S = 200 -> r <= 200 -> slice S 0 n = map (stream r S) (range n).
Proof.
  intros Hn LS Hr. apply (zlist_ext 0).
  - rewrite zlen_slice, zlen_map, zlen_range; lia.
  - rewrite zlen_slice by lia. intros i Hi. rewrite zget_slice, zget_map_range by lia.
    rewrite stream_small by lia. reflexivity.
Qed.

Lemma squeeze_stream r n : forall S, 0 < r <= 200 -> wfb S ->
  squeeze_blocks KECCAK_f1600 (8 * r) n (bytes_to_bits S) =
  bytes_to_bits (map (stream r S) (range (r * Z.of_nat n))).
Proof.
  induction n; intros S Hr W; cbn [squeeze_blocks].
  - replace (r * Z.of_nat 0) with 0 by lia. reflexivity.
  - rewrite <- bits_fb by exact (proj1 W). rewrite IHn by (auto; apply wfb_fb, W).
    replace (r * Z.of_nat (Datatypes.S n)) with (r + r * Z.of_nat n) by lia.
    rewrite range_app, map_app, bytes_to_bits_app by lia. f_equal.
    + rewrite <- (slice_stream r S r) by (try lia; exact (proj1 W)).
      rewrite <- bytes_to_bits_slice by (rewrite ?(proj1 W); lia).
      unfold slice. rewrite skipn_O. f_equal. f_equal. lia.
    + f_equal. rewrite map_map. apply map_range_ext. intros i Hi. symmetry. now apply stream_next.
Qed.

Lemma Forall_app' {A} (P : A -> Prop) a b : Forall P a -> Forall P b -> Forall P (a ++ b).
Proof. intros. apply Forall_app. auto. Qed.

Lemma bytes_padb p k : 0 <= p < 128 -> bytes (padb p k).
Proof.
  intros Hp. unfold padb. destruct (k =? 1).
  - repeat constructor; apply is_byte_lxor; unfold is_byte; lia.
  - constructor; [unfold is_byte; lia|]. apply Forall_app'; [|repeat constructor; unfold is_byte; lia].
    apply Forall_forall. intros x Hx. apply repeat_spec in Hx. subst. unfold is_byte; lia.
Qed.
Lemma domain_range suf p : domain suf p -> 0 <= p < 128.
Proof. intros [[_ ->]|[_ ->]]; lia. Qed.
Lemma wfb_final r p M : 0 < r <= 200 -> 0 <= p < 128 -> bytes M -> wfb (final r p M).
Proof.
  intros. rewrite final_padb by auto. apply wfb_xat; [now apply wfb_absb|].
  apply Forall_app'; [|now apply bytes_padb]. now apply bytes_tailb.
Qed.

(** The hash functions of the FIPS on bytes: the output stream after absorbing *)
Theorem sponge_stream suf p r M n : domain suf p -> 0 < r <= 200 -> bytes M -> 0 <= n ->
  bits_to_bytes (SPONGE KECCAK_f1600 pad10star1 (8 * r) (bytes_to_bits M ++ suf) (8 * n)) =
  map (stream r (fb (final r p M))) (range n).
Proof.
  intros D Hr HM Hn. pose proof (domain_range _ _ D) as Hp. unfold SPONGE.
  fold (zlen (bytes_to_bits M ++ suf)). rewrite zlen_app, zlen_bytes_to_bits, <- app_assoc.
  rewrite (pad_bits suf p) by (auto; lia || apply zlen_nonneg). rewrite <- bytes_to_bits_app.
  pose proof (zlen_nonneg M) as HL. pose proof (Z.mod_pos_bound (zlen M) r ltac:(lia)) as Hc.
  pose proof (zlen_padb p (r - zlen M mod r) ltac:(lia)) as Lp.
  pose proof (bytes_padb p (r - zlen M mod r) Hp) as Bp.
  pose proof (final_padb r p M Hr) as Ef.
  revert Lp Bp Ef. generalize (padb p (r - zlen M mod r)) as X. intros X Lp Bp Ef.
  rewrite absorb_bytes; auto.
  2: { now apply Forall_app'. }
  2: { rewrite zlen_app, Lp. symmetry. apply (Z.mod_unique _ _ (zlen M / r + 1)); [lia|].
       pose proof (Z.div_mod (zlen M) r ltac:(lia)). lia. }
  destruct (absb_full r M X) as [-> _]; [lia|lia|lia|]. rewrite <- Ef.
  pose proof (wfb_final r p M Hr Hp HM) as Wf.
  rewrite squeeze_stream by (auto; apply wfb_fb, Wf).
  rewrite Z.div_mul_cancel_l by lia.
  set (S := fb (final r p M)). pose proof (Z.div_pos n r Hn ltac:(lia)) as Hq.
  pose proof (Z.mod_pos_bound n r ltac:(lia)) as Hc'.  pose proof (Z.div_mod n r ltac:(lia)) as Hd.
  replace (r * Z.of_nat (Datatypes.S (Z.to_nat (n / r)))) with (n + (r - n mod r)) by lia.
  rewrite range_app, map_app by lia. set (Y := map (stream r S) (map _ _)).
  set (O := map (stream r S) (range n)).
  assert (LO : zlen O = n) by (unfold O; rewrite zlen_map, zlen_range; lia).
  rewrite bytes_to_bits_app. pose proof (zlen_bytes_to_bits O) as LB.
  replace (Z.to_nat (8 * n)) with (length (bytes_to_bits O) + 0)%nat by (unfold zlen in *; lia).
  rewrite firstn_app_2. rewrite firstn_O, app_nil_r. apply bits_to_bytes_to_bits.
  apply Forall_map_range. intros. apply stream_byte, wfb_fb, Wf.
Qed.

Lemma SHA3_256_stream M : bytes M -> SHA3_256 M = map (stream 136 (fb (final 136 6 M))) (range 32).
Proof.
  intros. unfold SHA3_256, SHA3_256_bits, KECCAK. change (1600 - 512) with (8 * 136).
  change 256 with (8 * 32). apply sponge_stream; auto; try lia. left; auto.
Qed.
Lemma SHA3_512_stream M : bytes M -> SHA3_512 M = map (stream 72 (fb (final 72 6 M))) (range 64).
Proof.
  intros. unfold SHA3_512, SHA3_512_bits, KECCAK. change (1600 - 1024) with (8 * 72).
  change 512 with (8 * 64). apply sponge_stream; auto; try lia. left; auto.
Qed.
Lemma SHAKE128_stream M n : bytes M -> 0 <= n -> SHAKE128 M n = map (stream 168 (fb (final 168 31 M))) (range n).
Proof.
  intros. unfold SHAKE128, SHAKE128_bits, KECCAK. change (1600 - 256) with (8 * 168).
  apply sponge_stream; auto; try lia. right; auto.
Qed.
Lemma SHAKE256_stream M n : bytes M -> 0 <= n -> SHAKE256 M n = map (stream 136 (fb (final 136 31 M))) (range n).
Proof.
  intros. unfold SHAKE256, SHAKE256_bits, KECCAK. change (1600 - 512) with (8 * 136).
  apply sponge_stream; auto; try lia. right; auto.
Qed.
