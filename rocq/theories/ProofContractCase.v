(** * Arrays that meet the contracts *)

From Coq Require Import ZArith List Bool Lia.
From Verif Require Import CSem ModelArith Spec202 Spec203 SpecLink SpecContract CSemFacts ProofScalar ProofBits.
Import ListNotations.
Open Scope Z_scope.

(** [n] different values in [0, m), or in [-m, m] *)
Definition ramp (n m : Z) : list Z := map (fun i => (1237 * i + 1) mod m) (range n).
Definition waves (n m : Z) : list Z := map (fun i => (1237 * i + 1) mod (2 * m + 1) - m) (range n).

Lemma forall_range (f : Z -> Z) (P : Z -> Prop) n : (forall i, P (f i)) -> Forall P (map f (range n)).
Proof. intros H. apply Forall_map_range. auto. Qed.
Lemma nth_range f n i : 0 <= i < n -> nth (Z.to_nat i) (map f (range n)) 0 = f i.
Proof. intros H. exact (zget_map_range f 0 i n H). Qed.
Lemma len_range (f : Z -> Z) n : 0 <= n -> zlen (map f (range n)) = n.
Proof. intros. rewrite zlen_map. now apply zlen_range. Qed.

Lemma ramp_u8 n m : 0 <= n -> 0 < m <= 256 -> uint8_array n (ramp n m).
Proof.
  intros Hn Hm. split; [now apply len_range|]. apply forall_range. intros i.
  pose proof (Z.mod_pos_bound (1237 * i + 1) m ltac:(lia)). lia.
Qed.
Lemma ramp_u64 n m : 0 <= n -> 0 < m <= 2 ^ 64 -> uint64_array n (ramp n m).
Proof.
  intros Hn Hm. split; [now apply len_range|]. apply forall_range. intros i.
  pose proof (Z.mod_pos_bound (1237 * i + 1) m ltac:(lia)). lia.
Qed.
Lemma ramp_u64_snoc n m c : 0 <= n -> 0 < m <= 2 ^ 64 -> 0 <= c < 2 ^ 64 -> uint64_array (n + 1) (ramp n m ++ [c]).
Proof.
  intros Hn Hm Hc. destruct (ramp_u64 n m Hn Hm) as [L F]. split.
  - rewrite zlen_app, L. reflexivity.
  - apply Forall_app. split; [exact F|]. constructor; [exact Hc|constructor].
Qed.
Lemma ramp_i16 n m : 0 <= n -> 0 < m <= 2 ^ 15 -> int16_array n (ramp n m).
Proof.
  intros Hn Hm. split; [now apply len_range|]. apply forall_range. intros i.
  pose proof (Z.mod_pos_bound (1237 * i + 1) m ltac:(lia)). lia.
Qed.
Lemma waves_i16 n m : 0 <= n -> 0 < m < 2 ^ 15 -> int16_array n (waves n m).
Proof.
  intros Hn Hm. split; [now apply len_range|]. apply forall_range. intros i.
  pose proof (Z.mod_pos_bound (1237 * i + 1) (2 * m + 1) ltac:(lia)). lia.
Qed.
Lemma ramp_bound n m lo hi B : 0 <= lo -> hi < n -> 0 < m <= B + 1 -> array_bound (ramp n m) lo hi 0 B.
Proof.
  intros Hl Hh Hm i Hi. unfold ramp. rewrite nth_range by lia.
  pose proof (Z.mod_pos_bound (1237 * i + 1) m ltac:(lia)). lia.
Qed.
Lemma waves_bound n m lo hi B : 0 <= lo -> hi < n -> 0 < m <= B -> array_abs_bound (waves n m) lo hi B.
Proof.
  intros Hl Hh Hm i Hi. unfold waves. rewrite nth_range by lia.
  pose proof (Z.mod_pos_bound (1237 * i + 1) (2 * m + 1) ltac:(lia)). lia.
Qed.

(** [n] copies *)
Lemma repeat_arr (P : list Z -> Prop) x n : P x -> zlen (repeat x n) = Z.of_nat n /\ Forall P (repeat x n).
Proof.
  intros H. split; [unfold zlen; now rewrite repeat_length|]. apply Forall_forall. intros y Hy.
  apply repeat_spec in Hy. now subst.
Qed.
Lemma elt_repeat x n j : 0 <= j < Z.of_nat n -> elt (repeat x n) j = x.
Proof.
  intros Hj. unfold elt. apply (repeat_spec n). apply nth_In. rewrite repeat_length. lia.
Qed.

Ltac contract_case :=
  cbv zeta; cbn [fst snd];
  repeat match goal with |- context [?f (set_of ?p)] =>
    let v := eval compute in (f (set_of p)) in
    lazymatch type of v with Z => change (f (set_of p)) with v end end;
  repeat match goal with |- _ /\ _ => split | |- forall _, _ => intro end;
  lazymatch goal with
  | |- uint8_array _ _ => apply ramp_u8; lia
  | |- uint64_array _ (ramp ?n _ ++ _) => apply (ramp_u64_snoc n); lia
  | |- uint64_array _ _ => apply ramp_u64; lia
  | |- context [nth _ (ramp _ _ ++ _) _] => vm_compute; first [reflexivity | discriminate]
  | |- int16_array _ (ramp _ _) => apply ramp_i16; lia
  | |- int16_array _ (waves _ _) => apply waves_i16; lia
  | |- array_bound (ramp _ _) _ _ _ _ => apply ramp_bound; lia
  | |- array_abs_bound (waves _ _) _ _ _ => apply waves_bound; lia
  | |- array_bound (elt _ _) _ _ _ _ => rewrite elt_repeat by lia; apply ramp_bound; lia
  | |- array_abs_bound (elt _ _) _ _ _ => rewrite elt_repeat by lia; apply waves_bound; lia
  | |- poly_array ?n _ => apply (repeat_arr _ _ (Z.to_nat n)); (apply ramp_i16 || apply waves_i16); lia
  | |- mulcache_array ?n _ => apply (repeat_arr _ _ (Z.to_nat n)); apply waves_i16; lia
  | |- Forall _ (repeat _ _) => apply repeat_arr; apply ramp_u8; lia
  | |- zlen (repeat _ _) = _ => unfold zlen; now rewrite repeat_length
  | |- _ => try reflexivity; try (unfold ramp, waves; rewrite ?elt_repeat by lia; rewrite ?nth_range by lia;
      repeat match goal with |- context [?x mod ?m] =>
        lazymatch m with context [_ mod _] => fail | _ =>
        pose proof (Z.mod_pos_bound x m ltac:(lia)); generalize dependent (x mod m); intros end end); lia
  end.
