(** * The rounds of the bitsliced AES are those of FIPS 197 *)

From Coq Require Import ZArith List Bool Lia.
From Verif Require Import CSem ModelArith ModelAes Spec202 SpecAes CSemFacts ProofAesBits.
Import ListNotations.
Open Scope Z_scope.
Ltac Zify.zify_post_hook ::= idtac.

(** ** The S-box circuit *)
Lemma assign_rel {A B T U : Type} (R : A -> B -> Prop) (S : T -> U -> Prop) v w k l :
  R v w -> (forall a b, R a b -> S (k a) (l b)) -> S (assign v k) (assign w l).
Proof. unfold assign. auto. Qed.
Lemma sbox_rel {T U : Type} (R : T -> U -> Prop) xor1 and1 not1 xor2 and2 not2 :
  (forall a b c d, R a b -> R c d -> R (xor1 a c) (xor2 b d)) ->
  (forall a b c d, R a b -> R c d -> R (and1 a c) (and2 b d)) ->
  (forall a b, R a b -> R (not1 a) (not2 b)) ->
  forall a0 a1 a2 a3 a4 a5 a6 a7 b0 b1 b2 b3 b4 b5 b6 b7,
  R a0 b0 -> R a1 b1 -> R a2 b2 -> R a3 b3 -> R a4 b4 -> R a5 b5 -> R a6 b6 -> R a7 b7 ->
  Forall2 R (sbox_circuit xor1 and1 not1 a0 a1 a2 a3 a4 a5 a6 a7)
            (sbox_circuit xor2 and2 not2 b0 b1 b2 b3 b4 b5 b6 b7).
Proof.
  intros Hx Ha Hn. intros. unfold sbox_circuit.
  repeat (apply (assign_rel R);
    [first [assumption | apply Hx; assumption | apply Ha; assumption
           | apply Hx; [assumption | apply Hn; assumption]]
    | let a := fresh "a" in let b := fresh "b" in let H := fresh "H" in intros a b H]).
  repeat (constructor; [assumption|]). constructor.
Qed.
(** On single bits, the circuit is the S-box: checked for all bytes *)
Definition sbox_check : bool :=
  forallb (fun v =>
    let b := fun k => Z.testbit v k in
    forallb (fun p => Bool.eqb (fst p) (snd p))
      (combine (sbox_circuit xorb andb negb (b 0) (b 1) (b 2) (b 3) (b 4) (b 5) (b 6) (b 7))
               (map (Z.testbit (SBox v)) (range 8)))) (range 256).
Lemma sbox_check_true : sbox_check = true.
Proof. vm_compute. reflexivity. Qed.
Lemma sbox_bit v k : is_byte v -> 0 <= k < 8 ->
  nth (Z.to_nat k) (sbox_circuit xorb andb negb (Z.testbit v 0) (Z.testbit v 1) (Z.testbit v 2) (Z.testbit v 3)
      (Z.testbit v 4) (Z.testbit v 5) (Z.testbit v 6) (Z.testbit v 7)) false = Z.testbit (SBox v) k.
Proof.
  intros Hv Hk. assert (H := sbox_check_true). unfold sbox_check in H. rewrite forallb_forall in H.
  specialize (H v (proj2 (in_range v 256) Hv)). cbv beta zeta in H.
  set (c := sbox_circuit xorb andb negb _ _ _ _ _ _ _ _) in *.
  assert (Lc : length c = 8%nat) by reflexivity. clearbody c.
  rewrite forallb_forall in H.
  assert (I : In (nth (Z.to_nat k) c false, Z.testbit (SBox v) k) (combine c (map (Z.testbit (SBox v)) (range 8)))).
  { assert (E : (nth (Z.to_nat k) c false, Z.testbit (SBox v) k) =
      nth (Z.to_nat k) (combine c (map (Z.testbit (SBox v)) (range 8))) (false, false)).
    { rewrite combine_nth by (rewrite map_length; exact Lc). f_equal.
      change (Z.testbit (SBox v) k = zget false (map (Z.testbit (SBox v)) (range 8)) k).
      now rewrite zget_map_range by lia. }
    rewrite E. apply nth_In. rewrite combine_length, map_length, Lc.
    change (length (range 8)) with 8%nat. lia. }
  apply H in I. cbn [fst snd] in I. now apply eqb_prop.
Qed.
Definition bytes_check (f : Z -> Z) : bool := forallb (fun v => (0 <=? f v) && (f v <? 256)) (range 256).
Lemma bytes_check_ok f v : bytes_check f = true -> is_byte v -> is_byte (f v).
Proof.
  intros H Hv. unfold bytes_check in H. rewrite forallb_forall in H.
  specialize (H v (proj2 (in_range v 256) Hv)). apply andb_prop in H as [H1 H2].
  apply Z.leb_le in H1. apply Z.ltb_lt in H2. split; auto.
Qed.
Lemma SBox_byte v : is_byte v -> is_byte (SBox v).
Proof. apply bytes_check_ok. vm_compute. reflexivity. Qed.

(** ** The sliced state: bit k of byte i is bit i of word k *)
Definition sliced (q : list Z) (s : Z -> Z) : Prop :=
  zlen q = 8 /\ Forall word64 q /\ (forall i, 0 <= i < 64 -> is_byte (s i)) /\
  forall k i, 0 <= k < 8 -> 0 <= i < 64 -> Z.testbit (zget 0 q k) i = Z.testbit (s i) k.
Lemma sliced_ext q s s' : (forall i, 0 <= i < 64 -> s i = s' i) -> sliced q s -> sliced q s'.
Proof.
  intros E [L [W [Bs H]]]. split; [auto|split; [auto|split]].
  - intros i Hi. rewrite <- E by auto. auto.
  - intros k i Hk Hi. rewrite <- E by auto. auto.
Qed.
Lemma take8 (q : list Z) : zlen q = 8 ->
  q = [zget 0 q 0; zget 0 q 1; zget 0 q 2; zget 0 q 3; zget 0 q 4; zget 0 q 5; zget 0 q 6; zget 0 q 7].
Proof.
  unfold zlen. intros H. do 8 (destruct q as [|? q]; [cbn in H; lia|]).
  destruct q; [reflexivity|cbn [length] in H; lia].
Qed.
Lemma wp_with8 {B : Type} (q : list Z) k (Q : B -> Prop) : zlen q = 8 ->
  Q (k (zget 0 q 0) (zget 0 q 1) (zget 0 q 2) (zget 0 q 3) (zget 0 q 4) (zget 0 q 5) (zget 0 q 6) (zget 0 q 7)) ->
  wp (with8 q k) Q.
Proof. intros H HQ. rewrite (take8 q H). apply wp_ret. exact HQ. Qed.
Lemma not_u64_bit x i : 0 <= i < 64 -> Z.testbit (not_u64 x) i = negb (Z.testbit x i).
Proof.
  intros Hi. unfold not_u64, u64. change 18446744073709551616 with (2 ^ 64).
  rewrite Z.mod_pow2_bits_low by lia. now rewrite Z.lnot_spec by lia.
Qed.
Lemma F2_nth {A B} (R : A -> B -> Prop) l m d e : Forall2 R l m -> forall n, (n < length l)%nat ->
  R (nth n l d) (nth n m e).
Proof.
  induction 1; intros n Hn; cbn in Hn; [lia|]. destruct n; cbn; auto. apply IHForall2. lia.
Qed.
Lemma wp_sbox q s : sliced q s ->
  wp (br_aes_ct64_bitslice_Sbox q) (fun q' => sliced q' (fun i => SBox (s i))).
Proof.
  intros [L [W [Bs H]]]. unfold br_aes_ct64_bitslice_Sbox. apply wp_with8; auto.
  set (c := sbox_circuit Z.lxor Z.land not_u64 _ _ _ _ _ _ _ _).
  assert (Lc : length c = 8%nat) by reflexivity.
  assert (R : forall i, 0 <= i < 64 ->
    Forall2 (fun x b => word64 x /\ Z.testbit x i = b) c
      (sbox_circuit xorb andb negb (Z.testbit (s i) 0) (Z.testbit (s i) 1) (Z.testbit (s i) 2) (Z.testbit (s i) 3)
         (Z.testbit (s i) 4) (Z.testbit (s i) 5) (Z.testbit (s i) 6) (Z.testbit (s i) 7))).
  { intros i Hi. apply sbox_rel.
    - intros a b a' b' [Ha <-] [Ha' <-]. split; [apply lxor_range; auto; lia|apply Z.lxor_spec].
    - intros a b a' b' [Ha <-] [Ha' <-]. split; [apply land_range; auto; [lia|apply Ha']|apply Z.land_spec].
    - intros a b [Ha <-]. split; [apply u64_range|now apply not_u64_bit].
    - split; [apply (proj1 (Forall_zget _ 0 _) W); lia|apply H; lia].
    - split; [apply (proj1 (Forall_zget _ 0 _) W); lia|apply H; lia].
    - split; [apply (proj1 (Forall_zget _ 0 _) W); lia|apply H; lia].
    - split; [apply (proj1 (Forall_zget _ 0 _) W); lia|apply H; lia].
    - split; [apply (proj1 (Forall_zget _ 0 _) W); lia|apply H; lia].
    - split; [apply (proj1 (Forall_zget _ 0 _) W); lia|apply H; lia].
    - split; [apply (proj1 (Forall_zget _ 0 _) W); lia|apply H; lia].
    - split; [apply (proj1 (Forall_zget _ 0 _) W); lia|apply H; lia]. }
  clearbody c. split; [|split; [|split]].
  - unfold zlen. rewrite Lc. reflexivity.
  - apply (Forall_zget _ 0). intros k Hk. unfold zlen in Hk. rewrite Lc in Hk.
    apply (F2_nth _ _ _ 0 false (R 0 ltac:(lia))). rewrite Lc. lia.
  - intros i Hi. now apply SBox_byte, Bs.
  - intros k i Hk Hi. rewrite <- sbox_bit by auto.
    apply (F2_nth _ _ _ 0 false (R i Hi)). rewrite Lc. lia.
Qed.

(** ** ShiftRows *)
Lemma shift_index i : 0 <= i < 64 -> 0 <= 16 * (i / 16) + (i + 4 * (i / 16)) mod 16 < 64.
Proof.
  intros Hi. assert (0 <= i / 16 < 4) by (split; [apply Z.div_pos; lia|apply Z.div_lt_upper_bound; lia]).
  assert (0 <= (i + 4 * (i / 16)) mod 16 < 16) by (apply Z.mod_pos_bound; lia). lia.
Qed.
Lemma wp_shift_rows q s : sliced q s ->
  wp (shift_rows q) (fun q' => sliced q' (fun i => s (16 * (i / 16) + (i + 4 * (i / 16)) mod 16))).
Proof.
  intros [L [W [Bs H]]]. unfold shift_rows.
  apply (wp_for_inplace 0 _ (fun _ x => shift_word x) _ _ 8).
  { exact L. }
  { intros i pre rest Hi Hp. apply wp_bind, wp_aget_app; auto. apply wp_aset_app; [exact Hp|now rewrite <- app_assoc]. }
  split; [|split; [|split]].
  - rewrite zlen_map, zlen_range; lia.
  - apply Forall_map_range. intros k Hk. apply shift_word_range. apply (proj1 (Forall_zget _ 0 _) W); lia.
  - intros i Hi. apply Bs, shift_index, Hi.
  - intros k i Hk Hi. rewrite zget_map_range by lia. rewrite shift_word_bit; auto.
    + apply H; auto. now apply shift_index.
    + apply (proj1 (Forall_zget _ 0 _) W); lia.
Qed.

(** ** AddRoundKey *)
Lemma wp_add_round_key q s sk off t : sliced q s -> 0 <= off -> off + 8 <= zlen sk ->
  sliced (slice sk off (off + 8)) t ->
  wp (add_round_key q sk off) (fun q' => sliced q' (fun i => Z.lxor (s i) (t i))).
Proof.
  intros [L [W [Bs H]]] Ho Hs [_ [W' [Bt H']]]. unfold add_round_key.
  apply (wp_for_inplace 0 _ (fun i x => Z.lxor x (zget 0 sk (off + i))) _ _ 8).
  { exact L. }
  { intros i pre rest Hi Hp. apply wp_bind, wp_aget_app; auto. apply wp_bind, (wp_aget 0); [lia|].
    apply wp_aset_app; [exact Hp|now rewrite <- app_assoc]. }
  assert (G : forall k, 0 <= k < 8 -> zget 0 (slice sk off (off + 8)) k = zget 0 sk (off + k)).
  { intros k Hk. rewrite zget_slice by lia. reflexivity. }
  assert (Ls : zlen (slice sk off (off + 8)) = 8) by (rewrite zlen_slice; lia).
  split; [|split; [|split]].
  - rewrite zlen_map, zlen_range; lia.
  - apply Forall_map_range. intros k Hk. apply lxor_range; [lia| |].
    + apply (proj1 (Forall_zget _ 0 _) W); lia.
    + rewrite <- G by lia. apply (proj1 (Forall_zget _ 0 _) W'); lia.
  - intros i Hi. apply (lxor_range (s i) (t i) 8); [lia|now apply Bs|now apply Bt].
  - intros k i Hk Hi. rewrite zget_map_range by lia. rewrite !Z.lxor_spec, <- G by lia.
    rewrite H, H' by auto. reflexivity.
Qed.

(** ** MixColumns *)
Definition times2_bit (v k : Z) : bool := xorb (Z.testbit v (k - 1)) (Z.testbit v 7 && ((k =? 0) || (k =? 1) || (k =? 3) || (k =? 4))).
Definition times2_check : bool :=
  forallb (fun v => forallb (fun k =>
    Bool.eqb (Z.testbit (times 2 v) k) (times2_bit v k) &&
    Bool.eqb (Z.testbit (times 3 v) k) (xorb (times2_bit v k) (Z.testbit v k))) (range 8)) (range 256).
Lemma times2_check_true : times2_check = true.
Proof. vm_compute. reflexivity. Qed.
Lemma times2_bits v k : is_byte v -> 0 <= k < 8 ->
  Z.testbit (times 2 v) k = times2_bit v k /\ Z.testbit (times 3 v) k = xorb (times2_bit v k) (Z.testbit v k).
Proof.
  intros Hv Hk. assert (H := times2_check_true). unfold times2_check in H. rewrite forallb_forall in H.
  specialize (H v (proj2 (in_range v 256) Hv)). rewrite forallb_forall in H.
  specialize (H k (proj2 (in_range k 8) Hk)). apply andb_prop in H as [H1 H2].
  split; now apply eqb_prop.
Qed.
Lemma times2_byte v : is_byte v -> is_byte (times 2 v).
Proof. apply (bytes_check_ok (times 2)). vm_compute. reflexivity. Qed.
Lemma times3_byte v : is_byte v -> is_byte (times 3 v).
Proof. apply (bytes_check_ok (times 3)). vm_compute. reflexivity. Qed.
Lemma lxor_byte a b : is_byte a -> is_byte b -> is_byte (Z.lxor a b).
Proof. intros Ha Hb. apply (lxor_range a b 8); auto; lia. Qed.
Lemma mix_get q0 q1 q2 q3 q4 q5 q6 q7 :
  let m := mix_words q0 q1 q2 q3 q4 q5 q6 q7 in
  zget 0 m 0 = (q7 .^ rotr16 q7 .^ rotr16 q0 .^ rotr32 (q0 .^ rotr16 q0)) /\
  zget 0 m 1 = (q0 .^ rotr16 q0 .^ q7 .^ rotr16 q7 .^ rotr16 q1 .^ rotr32 (q1 .^ rotr16 q1)) /\
  zget 0 m 2 = (q1 .^ rotr16 q1 .^ rotr16 q2 .^ rotr32 (q2 .^ rotr16 q2)) /\
  zget 0 m 3 = (q2 .^ rotr16 q2 .^ q7 .^ rotr16 q7 .^ rotr16 q3 .^ rotr32 (q3 .^ rotr16 q3)) /\
  zget 0 m 4 = (q3 .^ rotr16 q3 .^ q7 .^ rotr16 q7 .^ rotr16 q4 .^ rotr32 (q4 .^ rotr16 q4)) /\
  zget 0 m 5 = (q4 .^ rotr16 q4 .^ rotr16 q5 .^ rotr32 (q5 .^ rotr16 q5)) /\
  zget 0 m 6 = (q5 .^ rotr16 q5 .^ rotr16 q6 .^ rotr32 (q6 .^ rotr16 q6)) /\
  zget 0 m 7 = (q6 .^ rotr16 q6 .^ rotr16 q7 .^ rotr32 (q7 .^ rotr16 q7)).
Proof. repeat split. Qed.
Lemma wp_mix_columns q s : sliced q s ->
  wp (mix_columns q) (fun q' => sliced q' (fun i =>
    Z.lxor (Z.lxor (Z.lxor (times 2 (s i)) (times 3 (s ((i + 16) mod 64)))) (s ((i + 32) mod 64))) (s ((i + 48) mod 64)))).
Proof.
  intros [L [W [Bs H]]]. unfold mix_columns. apply wp_with8; auto.
  assert (Wk : forall k, 0 <= k < 8 -> word64 (zget 0 q k)) by (intros; apply (proj1 (Forall_zget _ 0 _) W); lia).
  assert (Rk : forall k, 0 <= k < 8 -> word64 (rotr16 (zget 0 q k))) by (intros; apply rotr16_range; auto).
  assert (X : forall a b, word64 a -> word64 b -> word64 (Z.lxor a b)) by (intros; apply lxor_range; auto; lia).
  assert (M64 : forall j, 0 <= j mod 64 < 64) by (intros; apply Z.mod_pos_bound; lia).
  split; [|split; [|split]].
  - reflexivity.
  - unfold mix_words, assign.
    repeat (constructor; [repeat apply X; try apply rotr32_range; try apply X; first [apply Rk; lia | apply Wk; lia]|]).
    constructor.
  - intros i Hi.
    apply lxor_byte; [apply lxor_byte; [apply lxor_byte; [apply times2_byte; auto|apply times3_byte; auto]|auto]|auto].
  - intros k i Hk Hi.
    assert (Q16 : forall k, 0 <= k < 8 -> Z.testbit (rotr16 (zget 0 q k)) i = Z.testbit (s ((i + 16) mod 64)) k).
    { intros. rewrite rotr16_bit by auto. apply H; auto. }
    assert (Q32 : forall k, 0 <= k < 8 -> Z.testbit (rotr32 (Z.lxor (zget 0 q k) (rotr16 (zget 0 q k)))) i =
        xorb (Z.testbit (s ((i + 32) mod 64)) k) (Z.testbit (s ((i + 48) mod 64)) k)).
    { intros. rewrite rotr32_bit by auto. rewrite Z.lxor_spec, rotr16_bit by auto. rewrite !H by auto.
      f_equal. f_equal. f_equal. rewrite Zplus_mod_idemp_l. f_equal. lia. }
    rewrite !Z.lxor_spec. destruct (times2_bits (s i) k ltac:(auto) Hk) as [-> _].
    destruct (times2_bits (s ((i + 16) mod 64)) k ltac:(auto) Hk) as [_ ->].
    assert (C : k = 0 \/ k = 1 \/ k = 2 \/ k = 3 \/ k = 4 \/ k = 5 \/ k = 6 \/ k = 7) by lia.
    set (a := s i) in *. set (b := s ((i + 16) mod 64)) in *. set (c := s ((i + 32) mod 64)) in *. set (d := s ((i + 48) mod 64)) in *.
    assert (Hq : forall k, 0 <= k < 8 -> Z.testbit (zget 0 q k) i = Z.testbit a k) by (intros; now apply H).
    destruct C as [-> |[-> |[-> |[-> |[-> |[-> |[-> | ->]]]]]]];
      match goal with |- Z.testbit (zget 0 (mix_words ?q0 ?q1 ?q2 ?q3 ?q4 ?q5 ?q6 ?q7) _) _ = _ =>
        destruct (mix_get q0 q1 q2 q3 q4 q5 q6 q7) as [E0 [E1 [E2 [E3 [E4 [E5 [E6 E7]]]]]]] end;
      first [rewrite E0|rewrite E1|rewrite E2|rewrite E3|rewrite E4|rewrite E5|rewrite E6|rewrite E7]; clear E0 E1 E2 E3 E4 E5 E6 E7;
      rewrite !Z.lxor_spec, ?Q32, ?Q16, ?Hq by lia; unfold times2_bit;
      cbn [Z.sub Z.eqb Pos.eqb orb Z.add Z.opp Z.pos_sub Pos.pred_double];
      rewrite ?andb_true_r, ?andb_false_r, ?xorb_false_r; try rewrite (Z.testbit_neg_r a (-1)) by lia; try rewrite (Z.testbit_neg_r b (-1)) by lia;
      repeat match goal with |- context [Z.testbit ?x ?n] => destruct (Z.testbit x n) end; reflexivity.
Qed.
