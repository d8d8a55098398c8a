(** * The AVX2 implementation of four Keccak permutations *)

From Coq Require Import ZArith List Bool Lia.
From Verif Require Import CSem ModelArith ModelKeccak ModelAvx2 ModelX86Keccak Spec202 SpecHistory
  CSemFacts ProofScalar ProofBits ProofKeccakF.
Import ListNotations.
Open Scope Z_scope.
Ltac Zify.zify_post_hook ::= idtac.

(** ** Element [j] of a vector *)

Definition R (j : nat) (v : V256) (x : Z) : Prop :=
  (exists a b c d, v = [a; b; c; d] /\ wf64 a /\ wf64 b /\ wf64 c /\ wf64 d) /\ x = nth j v 0.

Lemma wf64_nth j a b c d : wf64 a -> wf64 b -> wf64 c -> wf64 d -> wf64 (nth j [a; b; c; d] 0).
Proof.
  intros. do 4 (destruct j as [|j]; [assumption|]). cbn. destruct j; split; lia.
Qed.

Lemma R_wf j v x : R j v x -> wf64 x.
Proof. intros [(a & b & c & d & -> & Wa & Wb & Wc & Wd) ->]. now apply wf64_nth. Qed.

Ltac four j := do 4 (destruct j as [|j]; [reflexivity|]); destruct j; reflexivity.

Lemma R_xor j v w x y : R j v x -> R j w y -> R j (XOR256 v w) (x .^ y).
Proof.
  intros [(a & b & c & d & -> & Wa & Wb & Wc & Wd) ->] [(a' & b' & c' & d' & -> & Wa' & Wb' & Wc' & Wd') ->].
  split.
  - eexists _, _, _, _. split; [reflexivity|]. repeat split; apply wf64_lxor; auto.
  - four j.
Qed.

Lemma R_andn j v w x y : (j < 4)%nat -> R j v x -> R j w y -> R j (ANDnu256 v w) (not64 x .& y).
Proof.
  intros Hj [(a & b & c & d & -> & Wa & Wb & Wc & Wd) ->] [(a' & b' & c' & d' & -> & Wa' & Wb' & Wc' & Wd') ->].
  split.
  - eexists _, _, _, _. split; [reflexivity|]. repeat split; apply wf64_land; auto.
  - do 4 (destruct j as [|j]; [reflexivity|]). lia.
Qed.

Lemma wf64_ext a b : wf64 a -> wf64 b ->
  (forall z, 0 <= z < 64 -> Z.testbit a z = Z.testbit b z) -> a = b.
Proof.
  intros [_ A]%wf64_bits [_ B]%wf64_bits H. apply Z.bits_inj'. intros z Hz.
  destruct (Z.lt_ge_cases z 64); [apply H; lia|]. now rewrite A, B.
Qed.

Lemma wf64_lor a b : wf64 a -> wf64 b -> wf64 (a .| b).
Proof.
  rewrite !wf64_bits. intros [Ha Ba] [Hb Bb]. split; [apply Z.lor_nonneg; lia|].
  intros z Hz. rewrite Z.lor_spec, Ba, Bb by auto. reflexivity.
Qed.

Lemma rol_or a o : wf64 a -> 0 < o < 64 -> u64 (a << o) .| (a >> (64 - o)) = ROL a o.
Proof.
  intros W Ho.
  assert (Ws : wf64 (a >> (64 - o))) by (apply wf64_shr; auto; lia).
  apply wf64_ext; [apply wf64_lor; auto; apply wf64_u64|apply wf64_ROL; auto; lia|].
  intros z Hz. unfold ROL. rewrite Z.lor_spec, Z.lxor_spec.
  rewrite testbit_u64, Z.shiftl_spec, Z.shiftr_spec by lia.
  apply wf64_bits in W. destruct W as [_ B].
  destruct (Z.lt_ge_cases z o).
  - rewrite (Z.testbit_neg_r a (z - o)) by lia. now destruct (Z.testbit a _).
  - rewrite (B (z + (64 - o))) by lia. now destruct (Z.testbit a _).
Qed.

Lemma R_rol j v x o : 0 < o < 64 -> (j < 4)%nat -> R j v x -> R j (ROL64in256 v o) (ROL x o).
Proof.
  intros Ho Hj [(a & b & c & d & -> & Wa & Wb & Wc & Wd) ->].
  assert (E : ROL64in256 [a; b; c; d] o = [ROL a o; ROL b o; ROL c o; ROL d o]).
  { rewrite <- !rol_or by auto. reflexivity. }
  rewrite E. split.
  - eexists _, _, _, _. split; [reflexivity|]. repeat split; apply wf64_ROL; auto; lia.
  - do 4 (destruct j as [|j]; [reflexivity|]). lia.
Qed.

(** Rotations by whole bytes *)
Lemma bytes_lane_bits l z : Forall (fun b => 0 <= b < 256) l -> 0 <= z < 8 * zlen l ->
  Z.testbit (bytes_lane l) z = Z.testbit (zget 0 l (z / 8)) (z mod 8).
Proof.
  revert z. induction l as [|b l IH]; intros z F Hz.
  - change (zlen (@nil Z)) with 0 in Hz. lia.
  - inversion F as [|? ? Hb F']; subst. rewrite zlen_cons in Hz. cbn [bytes_lane].
    replace (b + 256 * bytes_lane l) with (b .| (bytes_lane l << 8)).
    2:{ assert (L : b .& (bytes_lane l << 8) = 0).
        { apply Z.bits_inj'. intros k Hk. rewrite Z.land_spec, Z.bits_0, Z.shiftl_spec by lia.
          destruct (Z.lt_ge_cases k 8).
          - rewrite (Z.testbit_neg_r _ (k - 8)) by lia. apply andb_false_r.
          - rewrite (testbit_high b 8 k) by lia. reflexivity. }
        rewrite <- Z.lxor_lor, <- Z.add_nocarry_lxor by exact L.
        rewrite Z.shiftl_mul_pow2 by lia. lia. }
    rewrite Z.lor_spec, Z.shiftl_spec by lia.
    destruct (Z.lt_ge_cases z 8).
    + rewrite (Z.testbit_neg_r _ (z - 8)) by lia. rewrite orb_false_r.
      rewrite Z.div_small, Z.mod_small by lia. reflexivity.
    + rewrite (testbit_high b 8 z) by lia. cbn [orb].
      rewrite IH by (auto; lia).
      replace (z / 8) with (1 + (z - 8) / 8).
      2:{ rewrite <- (Z.div_add_l 1 8 (z - 8)) by lia. f_equal. lia. }
      replace (z mod 8) with ((z - 8) mod 8).
      2:{ rewrite <- (Z.mod_add (z - 8) 1 8) by lia. f_equal. lia. }
      assert (0 <= (z - 8) / 8) by (apply Z.div_pos; lia).
      unfold zget. replace (Z.to_nat (1 + (z - 8) / 8)) with (S (Z.to_nat ((z - 8) / 8))) by lia.
      reflexivity.
Qed.

Lemma u8_bits a k : 0 <= k < 8 -> Z.testbit (u8 a) k = Z.testbit a k.
Proof. intros. unfold u8. change 256 with (2 ^ 8). apply Z.mod_pow2_bits_low. lia. Qed.
Lemma u8_range a : 0 <= u8 a < 256. Proof. unfold u8. apply Z.mod_pos_bound. lia. Qed.

Definition rotated (a : Z) (f : Z -> Z) : Z :=
  bytes_lane (map (fun i => u8 (a >> (8 * f i))) [0; 1; 2; 3; 4; 5; 6; 7]).

Lemma rotated_rol a o f : wf64 a -> 0 < o < 8 ->
  (forall i, 0 <= i < 8 -> f i = (i - o) mod 8) -> rotated a f = ROL a (8 * o).
Proof.
  intros W Ho Hf.
  assert (Wr : wf64 (rotated a f)).
  { unfold rotated. cbn [map bytes_lane]. unfold wf64.
    pose proof (u8_range (a >> (8 * f 0))). pose proof (u8_range (a >> (8 * f 1))).
    pose proof (u8_range (a >> (8 * f 2))). pose proof (u8_range (a >> (8 * f 3))).
    pose proof (u8_range (a >> (8 * f 4))). pose proof (u8_range (a >> (8 * f 5))).
    pose proof (u8_range (a >> (8 * f 6))). pose proof (u8_range (a >> (8 * f 7))). lia. }
  apply wf64_ext; [exact Wr|apply wf64_ROL; auto; lia|].
  intros z Hz. rewrite testbit_ROL by (auto; lia).
  unfold rotated. rewrite bytes_lane_bits.
  2:{ apply Forall_map, Forall_forall. intros. apply u8_range. }
  2:{ cbn [map]. change (zlen _) with 8. lia. }
  assert (Hd : 0 <= z / 8 < 8) by (split; [apply Z.div_pos; lia|apply Z.div_lt_upper_bound; lia]).
  assert (Hm : 0 <= z mod 8 < 8) by (apply Z.mod_pos_bound; lia).
  assert (G : zget 0 (map (fun i => u8 (a >> (8 * f i))) [0; 1; 2; 3; 4; 5; 6; 7]) (z / 8)
              = u8 (a >> (8 * f (z / 8)))).
  { assert (C : z / 8 = 0 \/ z / 8 = 1 \/ z / 8 = 2 \/ z / 8 = 3 \/ z / 8 = 4 \/ z / 8 = 5 \/
                z / 8 = 6 \/ z / 8 = 7) by lia.
    destruct C as [-> |[-> |[-> |[-> |[-> |[-> |[-> | ->]]]]]]]; reflexivity. }
  rewrite G, u8_bits, Z.shiftr_spec by lia. f_equal. rewrite Hf by lia.
  pose proof (Z.div_mod z 8 ltac:(lia)) as D. set (y := z / 8) in *. set (r := z mod 8) in *.
  clearbody y r. subst z.
  destruct (Z.lt_ge_cases y o).
  - replace ((y - o) mod 8) with (y - o + 8)
      by (symmetry; rewrite <- (Z.mod_add (y - o) 1 8) by lia; rewrite Z.mod_small; lia).
    rewrite <- (Z.mod_add (8 * y + r - 8 * o) 1 64) by lia. rewrite Z.mod_small; lia.
  - rewrite !Z.mod_small; lia.
Qed.

Lemma rol8_lanes a b c d : wf64 a -> wf64 b -> wf64 c -> wf64 d ->
  ROL64in256_8 [a; b; c; d] = [ROL a 8; ROL b 8; ROL c 8; ROL d 8].
Proof.
  intros. set (f := fun i => (i - 1) mod 8).
  assert (Hf : forall i, 0 <= i < 8 -> f i = (i - 1) mod 8) by reflexivity.
  change 8 with (8 * 1).
  rewrite <- !(rotated_rol _ 1 f) by (auto; lia). reflexivity.
Qed.
Lemma rol56_lanes a b c d : wf64 a -> wf64 b -> wf64 c -> wf64 d ->
  ROL64in256_56 [a; b; c; d] = [ROL a 56; ROL b 56; ROL c 56; ROL d 56].
Proof.
  intros. set (f := fun i => (i - 7) mod 8).
  assert (Hf : forall i, 0 <= i < 8 -> f i = (i - 7) mod 8) by reflexivity.
  change 56 with (8 * 7).
  rewrite <- !(rotated_rol _ 7 f) by (auto; lia). reflexivity.
Qed.

Lemma R_rol8 j v x : (j < 4)%nat -> R j v x -> R j (ROL64in256_8 v) (ROL x 8).
Proof.
  intros Hj [(a & b & c & d & -> & Wa & Wb & Wc & Wd) ->]. rewrite rol8_lanes by auto. split.
  - eexists _, _, _, _. split; [reflexivity|]. repeat split; apply wf64_ROL; auto; lia.
  - do 4 (destruct j as [|j]; [reflexivity|]). lia.
Qed.
Lemma R_rol56 j v x : (j < 4)%nat -> R j v x -> R j (ROL64in256_56 v) (ROL x 56).
Proof.
  intros Hj [(a & b & c & d & -> & Wa & Wb & Wc & Wd) ->]. rewrite rol56_lanes by auto. split.
  - eexists _, _, _, _. split; [reflexivity|]. repeat split; apply wf64_ROL; auto; lia.
  - do 4 (destruct j as [|j]; [reflexivity|]). lia.
Qed.
Lemma R_const j rc : (j < 4)%nat -> wf64 rc -> R j (CONST256_64 rc) rc.
Proof.
  intros Hj W. split.
  - eexists _, _, _, _. split; [reflexivity|]. auto.
  - do 4 (destruct j as [|j]; [reflexivity|]). lia.
Qed.

(** ** Rounds *)

Definition list4 (A : lanes4) : list V256 :=
  let '(Aba, Abe, Abi, Abo, Abu,
   Aga, Age, Agi, Ago, Agu,
   Aka, Ake, Aki, Ako, Aku,
   Ama, Ame, Ami, Amo, Amu,
   Asa, Ase, Asi, Aso, Asu) := A in
  [Aba; Abe; Abi; Abo; Abu;
   Aga; Age; Agi; Ago; Agu;
   Aka; Ake; Aki; Ako; Aku;
   Ama; Ame; Ami; Amo; Amu;
   Asa; Ase; Asi; Aso; Asu].
Definition clist (C : parity4) : list V256 :=
  let '(Ca, Ce, Ci, Co, Cu) := C in [Ca; Ce; Ci; Co; Cu].
Definition columns (B : lanes) : list Z :=
  let '(Aba, Abe, Abi, Abo, Abu,
   Aga, Age, Agi, Ago, Agu,
   Aka, Ake, Aki, Ako, Aku,
   Ama, Ame, Ami, Amo, Amu,
   Asa, Ase, Asi, Aso, Asu) := B in
  [colpar Aba Aga Aka Ama Asa; colpar Abe Age Ake Ame Ase; colpar Abi Agi Aki Ami Asi;
   colpar Abo Ago Ako Amo Aso; colpar Abu Agu Aku Amu Asu].

Definition RA (j : nat) (A : lanes4) (B : lanes) : Prop := Forall2 (R j) (list4 A) (lane_list B).
Definition RP (j : nat) (C : parity4) (B : lanes) : Prop := Forall2 (R j) (clist C) (columns B).

Lemma f2_cons {A B} (P : A -> B -> Prop) x y l l' :
  Forall2 P (x :: l) (y :: l') -> P x y /\ Forall2 P l l'.
Proof. intros H. inversion H. auto. Qed.
Ltac inv2 H :=
  repeat match type of H with
  | Forall2 _ (_ :: _) (_ :: _) =>
      let h := fresh "h" in
      apply f2_cons in H; destruct H as [h H]
  end.
Local Opaque XOR256 ANDnu256 ROL64in256 ROL64in256_8 ROL64in256_56 CONST256_64 ROL not64.
Ltac rel Hj :=
  repeat match goal with
  | |- R _ (XOR256 _ _) _ => apply R_xor
  | |- R _ (ANDnu256 _ _) _ => apply (R_andn _ _ _ _ _ Hj)
  | |- R _ (ROL64in256_8 _) _ => apply (R_rol8 _ _ _ Hj)
  | |- R _ (ROL64in256_56 _) _ => apply (R_rol56 _ _ _ Hj)
  | |- R _ (ROL64in256 _ _) _ => apply (fun H => R_rol _ _ _ _ H Hj); [lia|]
  | |- R _ (CONST256_64 _) _ => apply (R_const _ _ Hj)
  | |- _ => assumption
  end.
Ltac each2 tac := repeat (apply Forall2_cons; [tac|]); try apply Forall2_nil.

Lemma prepare_RP j A B : (j < 4)%nat -> RA j A B -> RP j (prepareTheta A) B.
Proof.
  intros Hj H. unfold RA, RP in *.
  repeat (destruct A as [A ?]). repeat (destruct B as [B ?]).
  cbn [list4 lane_list] in H. inv2 H.
  cbn [prepareTheta clist columns]. unfold colpar. rewrite !Z.lxor_assoc.
  each2 ltac:(rel Hj).
Qed.

Lemma round_RA j rc A C B : (j < 4)%nat -> wf64 rc -> RA j A B -> RP j C B ->
  RA j (fst (thetaRhoPiChiIotaPrepareTheta rc A C)) (one_round rc B) /\
  RP j (snd (thetaRhoPiChiIotaPrepareTheta rc A C)) (one_round rc B).
Proof.
  intros Hj Wrc H HC. unfold RA, RP in *.
  repeat (destruct A as [A ?]). repeat (destruct B as [B ?]). repeat (destruct C as [C ?]).
  rewrite one_round_D.
  cbn [list4 lane_list] in H. inv2 H.
  cbn [clist columns] in HC. inv2 HC.
  repeat match goal with h : R j _ (colpar ?a ?b ?c ?d ?e) |- _ =>
    let x := fresh "x" in set (x := colpar a b c d e) in *; clearbody x end.
  unfold thetaRhoPiChiIotaPrepareTheta, round_D. cbv zeta.
  cbn [fst snd list4 clist lane_list columns].
  unfold colpar. split; each2 ltac:(rel Hj).
Qed.
Lemma last_RA j rc A C B : (j < 4)%nat -> wf64 rc -> RA j A B -> RP j C B ->
  RA j (thetaRhoPiChiIota rc A C) (one_round rc B).
Proof.
  intros Hj Wrc H HC. unfold RA, RP in *.
  repeat (destruct A as [A ?]). repeat (destruct B as [B ?]). repeat (destruct C as [C ?]).
  rewrite one_round_D.
  cbn [list4 lane_list] in H. inv2 H.
  cbn [clist columns] in HC. inv2 HC.
  repeat match goal with h : R j _ (colpar ?a ?b ?c ?d ?e) |- _ =>
    let x := fresh "x" in set (x := colpar a b c d e) in *; clearbody x end.
  unfold thetaRhoPiChiIota, round_D. cbv zeta.
  cbn [list4 lane_list].
  each2 ltac:(rel Hj).
Qed.

(** ** Twenty-four rounds *)

Definition rc_of (i : nat) : Z := nth i KeccakF1600RoundConstants 0.
Definition step4 (s : lanes4 * parity4) (i : nat) : lanes4 * parity4 :=
  let '(A, C) := s in thetaRhoPiChiIotaPrepareTheta (rc_of i) A C.

Lemma rounds24_fold A : rounds24 A =
  let '(E, C) := fold_left step4 (seq 0 23) (A, prepareTheta A) in
  thetaRhoPiChiIota (rc_of 23) E C.
Proof.
  unfold rounds24, rc_of. cbv beta zeta. cbn [seq fold_left].
  do 23 (match goal with
  | |- context [step4 (?a, ?c) ?i] =>
      change (step4 (a, c) i)
        with (thetaRhoPiChiIotaPrepareTheta (nth i KeccakF1600RoundConstants 0) a c);
      destruct (thetaRhoPiChiIotaPrepareTheta (nth i KeccakF1600RoundConstants 0) a c)
  end).
  reflexivity.
Qed.

Lemma rc_of_eq i : rc_of i = zget 0 KeccakF_RoundConstants (Z.of_nat i).
Proof. unfold rc_of, zget. now rewrite Nat2Z.id. Qed.
Lemma rc_of_wf i : (i < 24)%nat -> wf64 (rc_of i).
Proof. intros. rewrite rc_of_eq. apply RC_wf. lia. Qed.

Definition rounds (n : nat) (B : lanes) : lanes :=
  fold_left (fun B i => one_round (rc_of i) B) (seq 0 n) B.
Lemma rounds_S n B : rounds (S n) B = one_round (rc_of n) (rounds n B).
Proof. unfold rounds. now rewrite seq_S, fold_left_app. Qed.

Lemma rounds24_RA j A B : (j < 4)%nat -> RA j A B -> RA j (rounds24 A) (rounds 24 B).
Proof.
  intros Hj H. rewrite rounds24_fold.
  assert (K : forall n, (n <= 23)%nat ->
    RA j (fst (fold_left step4 (seq 0 n) (A, prepareTheta A))) (rounds n B) /\
    RP j (snd (fold_left step4 (seq 0 n) (A, prepareTheta A))) (rounds n B)).
  { induction n as [|n IH]; intros Hn.
    - split; [exact H|apply prepare_RP; auto].
    - destruct IH as [IA IC]; [lia|]. rewrite seq_S, fold_left_app, rounds_S. cbn [Nat.add].
      change (fold_left step4 [n] ?x) with (step4 x n).
      destruct (fold_left step4 (seq 0 n) (A, prepareTheta A)) as [A' C'].
      apply round_RA; auto. apply rc_of_wf. lia. }
  destruct (K 23%nat (le_n _)) as [IA IC].
  destruct (fold_left step4 (seq 0 23) (A, prepareTheta A)) as [A' C'].
  rewrite rounds_S. apply last_RA; auto. apply rc_of_wf. lia.
Qed.

Lemma rounds_spec B n : (n <= 24)%nat -> Forall wf64 (lane_list B) ->
  Forall wf64 (lane_list (rounds n B)) /\
  sbits (lane_list (rounds n B)) = fold_left (fun S ir => Rnd ir S) (range (Z.of_nat n)) (sbits (lane_list B)).
Proof.
  intros Hn W. induction n as [|n IH].
  - split; [exact W|reflexivity].
  - destruct IH as [W' E]; [lia|]. rewrite rounds_S. split.
    + apply one_round_wf; auto. apply rc_of_wf. lia.
    + rewrite <- (Rnd_lanes (Z.of_nat n)) by (auto; intros; rewrite rc_of_eq; apply RC_bits; lia).
      rewrite E. replace (Z.of_nat (S n)) with (Z.of_nat n + 1) by lia.
      rewrite range_S by lia. now rewrite fold_left_app.
Qed.
Lemma rounds24_spec B : Forall wf64 (lane_list B) ->
  Forall wf64 (lane_list (rounds 24 B)) /\
  sbits (lane_list (rounds 24 B)) = KECCAK_f1600 (sbits (lane_list B)).
Proof. apply (rounds_spec B 24). lia. Qed.

(** ** The copies between memory and registers *)

Definition interleave (B0 B1 B2 B3 : lanes) : lanes4 :=
  let '(a0, a1, a2, a3, a4, a5, a6, a7, a8, a9, a10, a11, a12, a13, a14, a15, a16, a17, a18,
        a19, a20, a21, a22, a23, a24) := B0 in
  let '(b0, b1, b2, b3, b4, b5, b6, b7, b8, b9, b10, b11, b12, b13, b14, b15, b16, b17, b18,
        b19, b20, b21, b22, b23, b24) := B1 in
  let '(c0, c1, c2, c3, c4, c5, c6, c7, c8, c9, c10, c11, c12, c13, c14, c15, c16, c17, c18,
        c19, c20, c21, c22, c23, c24) := B2 in
  let '(d0, d1, d2, d3, d4, d5, d6, d7, d8, d9, d10, d11, d12, d13, d14, d15, d16, d17, d18,
        d19, d20, d21, d22, d23, d24) := B3 in
  ([a0; b0; c0; d0], [a1; b1; c1; d1], [a2; b2; c2; d2], [a3; b3; c3; d3], [a4; b4; c4; d4],
   [a5; b5; c5; d5], [a6; b6; c6; d6], [a7; b7; c7; d7], [a8; b8; c8; d8], [a9; b9; c9; d9],
   [a10; b10; c10; d10], [a11; b11; c11; d11], [a12; b12; c12; d12], [a13; b13; c13; d13],
   [a14; b14; c14; d14], [a15; b15; c15; d15], [a16; b16; c16; d16], [a17; b17; c17; d17],
   [a18; b18; c18; d18], [a19; b19; c19; d19], [a20; b20; c20; d20], [a21; b21; c21; d21],
   [a22; b22; c22; d22], [a23; b23; c23; d23], [a24; b24; c24; d24]).

Definition flat (B0 B1 B2 B3 : lanes) : list Z :=
  lane_list B0 ++ lane_list B1 ++ lane_list B2 ++ lane_list B3.

(** The addresses do not depend on the states. *)
Definition from_trace : list event :=
  Eval vm_compute in snd (copyFromState (repeat 0 100)).
Definition to_trace : list event :=
  Eval vm_compute in
    let z := @nil Z in
    snd (copyToState (repeat 0 100)
      (z, z, z, z, z, z, z, z, z, z, z, z, z, z, z, z, z, z, z, z, z, z, z, z, z)).

Lemma copyFrom_run B0 B1 B2 B3 :
  copyFromState (flat B0 B1 B2 B3) = (Ok (interleave B0 B1 B2 B3), from_trace).
Proof.
  repeat (destruct B0 as [B0 ?]). repeat (destruct B1 as [B1 ?]).
  repeat (destruct B2 as [B2 ?]). repeat (destruct B3 as [B3 ?]).
  vm_compute. reflexivity.
Qed.

Lemma copyTo_run B0 B1 B2 B3 A :
  copyToState (flat B0 B1 B2 B3) A =
  (Ok (map (fun v => nth 0 v 0) (list4 A) ++ map (fun v => nth 1 v 0) (list4 A) ++
       map (fun v => nth 2 v 0) (list4 A) ++ map (fun v => nth 3 v 0) (list4 A)), to_trace).
Proof.
  repeat (destruct B0 as [B0 ?]). repeat (destruct B1 as [B1 ?]).
  repeat (destruct B2 as [B2 ?]). repeat (destruct B3 as [B3 ?]).
  repeat (destruct A as [A ?]). vm_compute. reflexivity.
Qed.

Lemma RA_lanes j A B : RA j A B -> map (fun v => nth j v 0) (list4 A) = lane_list B.
Proof.
  unfold RA. generalize (list4 A) (lane_list B). induction 1 as [|v x l l' [_ E] _ IH]; auto.
  cbn [map]. now rewrite E, IH.
Qed.

Lemma RA_interleave j B0 B1 B2 B3 : (j < 4)%nat ->
  Forall wf64 (lane_list B0) -> Forall wf64 (lane_list B1) ->
  Forall wf64 (lane_list B2) -> Forall wf64 (lane_list B3) ->
  RA j (interleave B0 B1 B2 B3) (nth j [B0; B1; B2; B3] B0).
Proof.
  intros Hj W0 W1 W2 W3.
  assert (G : exists B, nth j [B0; B1; B2; B3] B0 = B) by eauto. destruct G as [B G]. rewrite G.
  repeat (destruct B0 as [B0 ?]). repeat (destruct B1 as [B1 ?]).
  repeat (destruct B2 as [B2 ?]). repeat (destruct B3 as [B3 ?]).
  cbn [lane_list] in W0, W1, W2, W3.
  repeat match goal with H : Forall _ (_ :: _) |- _ => apply Forall_cons_iff in H; destruct H as [? H] end.
  unfold RA. cbn [interleave list4].
  do 4 (destruct j as [|j];
    [cbn [nth] in G; subst B; cbn [lane_list];
     each2 ltac:(split; [eexists _, _, _, _; split; [reflexivity|]; auto|reflexivity])|]).
  exfalso. lia.
Qed.

Lemma KeccakP_run B0 B1 B2 B3 :
  Forall wf64 (lane_list B0) -> Forall wf64 (lane_list B1) ->
  Forall wf64 (lane_list B2) -> Forall wf64 (lane_list B3) ->
  KeccakP1600times4_PermuteAll_24rounds (flat B0 B1 B2 B3) =
  (Ok (flat (rounds 24 B0) (rounds 24 B1) (rounds 24 B2) (rounds 24 B3)), from_trace ++ to_trace).
Proof.
  intros W0 W1 W2 W3. unfold KeccakP1600times4_PermuteAll_24rounds.
  rewrite copyFrom_run. unfold bind. rewrite copyTo_run. f_equal. f_equal. unfold flat.
  rewrite (RA_lanes 0 _ (rounds 24 B0)), (RA_lanes 1 _ (rounds 24 B1)),
    (RA_lanes 2 _ (rounds 24 B2)), (RA_lanes 3 _ (rounds 24 B3)); [reflexivity|..];
  apply rounds24_RA; try lia;
  [apply (RA_interleave 3)|apply (RA_interleave 2)|apply (RA_interleave 1)|apply (RA_interleave 0)];
  auto; lia.
Qed.

(** ** The four states as four arrays *)

Lemma lane_list_of s : zlen s = 25 -> exists A, s = lane_list A.
Proof.
  intros L. do 25 (destruct s as [|? s]; [discriminate L|]). destruct s as [|? s].
  - eexists (_, _, _, _, _, _, _, _, _, _, _, _, _, _, _, _, _, _, _, _, _, _, _, _, _). reflexivity.
  - exfalso. rewrite !zlen_cons in L. pose proof (zlen_nonneg s). lia.
Qed.
Lemma zlen_lane_list B : zlen (lane_list B) = 25.
Proof. repeat (destruct B as [B ?]). reflexivity. Qed.

Definition permute_trace : list event :=
  Eval vm_compute in snd (KeccakF1600x4_StatePermute_x86_64 (repeat 0 100)).

Lemma permute_x4_run B0 B1 B2 B3 :
  Forall wf64 (lane_list B0) -> Forall wf64 (lane_list B1) ->
  Forall wf64 (lane_list B2) -> Forall wf64 (lane_list B3) ->
  KeccakF1600x4_StatePermute_x86_64 (flat B0 B1 B2 B3) =
  (Ok (flat (rounds 24 B0) (rounds 24 B1) (rounds 24 B2) (rounds 24 B3)), permute_trace).
Proof.
  intros W0 W1 W2 W3. unfold KeccakF1600x4_StatePermute_x86_64. rewrite KeccakP_run by assumption. reflexivity.
Qed.

(** The values and the trace for four arrays of 25 words *)
Lemma permute_x4_runs s0 s1 s2 s3 : wfs s0 -> wfs s1 -> wfs s2 -> wfs s3 ->
  exists t0 t1 t2 t3, KeccakF1600x4_StatePermute_x86_64 (s0 ++ s1 ++ s2 ++ s3) =
    (Ok (t0 ++ t1 ++ t2 ++ t3), permute_trace) /\
    (wfs t0 /\ sbits t0 = KECCAK_f1600 (sbits s0)) /\ (wfs t1 /\ sbits t1 = KECCAK_f1600 (sbits s1)) /\
    (wfs t2 /\ sbits t2 = KECCAK_f1600 (sbits s2)) /\ (wfs t3 /\ sbits t3 = KECCAK_f1600 (sbits s3)).
Proof.
  intros [L0 W0] [L1 W1] [L2 W2] [L3 W3].
  destruct (lane_list_of s0 L0) as [B0 ->]. destruct (lane_list_of s1 L1) as [B1 ->].
  destruct (lane_list_of s2 L2) as [B2 ->]. destruct (lane_list_of s3 L3) as [B3 ->].
  exists (lane_list (rounds 24 B0)), (lane_list (rounds 24 B1)), (lane_list (rounds 24 B2)), (lane_list (rounds 24 B3)).
  split; [now apply permute_x4_run|].
  assert (G : forall B, Forall wf64 (lane_list B) -> wfs (lane_list (rounds 24 B)) /\
    sbits (lane_list (rounds 24 B)) = KECCAK_f1600 (sbits (lane_list B))).
  { intros B W. destruct (rounds24_spec B W) as [E V]. split; [split; [apply zlen_lane_list|]|]; auto. }
  split; [|split; [|split]]; now apply G.
Qed.

Lemma wp_permute_x4_x86 N s0 s1 s2 s3 (Q : list Z -> Prop) :
  wfs s0 -> wfs s1 -> wfs s2 -> wfs s3 ->
  (forall t0 t1 t2 t3, wfs t0 -> sbits t0 = KECCAK_f1600 (sbits s0) -> wfs t1 -> sbits t1 = KECCAK_f1600 (sbits s1) ->
     wfs t2 -> sbits t2 = KECCAK_f1600 (sbits s2) -> wfs t3 -> sbits t3 = KECCAK_f1600 (sbits s3) ->
     Q (t0 ++ t1 ++ t2 ++ t3)) ->
  wpn N (KeccakF1600x4_StatePermute_x86_64 (s0 ++ s1 ++ s2 ++ s3)) Q.
Proof.
  intros W0 W1 W2 W3 HQ.
  destruct (permute_x4_runs s0 s1 s2 s3 W0 W1 W2 W3) as (t0 & t1 & t2 & t3 & E & (A0 & B0) & (A1 & B1) & (A2 & B2) & A3 & B3).
  unfold wpn, val. rewrite E. cbn [fst]. now apply HQ.
Qed.
