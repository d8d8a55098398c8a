(** * Congruences modulo q and finite sums *)

From Coq Require Import ZArith List Bool Lia ZifyBool Setoid Morphisms.
From Verif Require Import Spec202 Spec203 CSemFacts.
Import ListNotations.
Open Scope Z_scope.
Ltac Zify.zify_post_hook ::= Z.to_euclidean_division_equations.

(** ** Congruence modulo q *)

Inductive cg (a b : Z) : Prop := cg_intro : a mod 3329 = b mod 3329 -> cg a b.
Infix "==" := cg (at level 70, no associativity).
Lemma cg_iff a b : a == b <-> a mod 3329 = b mod 3329.
Proof. split; [intros []; auto|now constructor]. Qed.

Global Instance cg_equiv : Equivalence cg.
Proof.
  split; red; setoid_rewrite cg_iff; congruence.
Qed.
Lemma cg_ex a b : a == b <-> exists k, a = b + k * 3329.
Proof.
  rewrite cg_iff; split.
  - intros. exists (a / 3329 - b / 3329). lia.
  - intros [k ->]. now rewrite Z.mod_add by lia.
Qed.
Global Instance cg_add : Proper (cg ==> cg ==> cg) Z.add.
Proof. intros a b [H] c d [H']; constructor. rewrite Zplus_mod, H, H', <- Zplus_mod. reflexivity. Qed.
Global Instance cg_sub : Proper (cg ==> cg ==> cg) Z.sub.
Proof. intros a b [H] c d [H']; constructor. rewrite Zminus_mod, H, H', <- Zminus_mod. reflexivity. Qed.
Global Instance cg_mul : Proper (cg ==> cg ==> cg) Z.mul.
Proof. intros a b [H] c d [H']; constructor. rewrite Zmult_mod, H, H', <- Zmult_mod. reflexivity. Qed.
Global Instance cg_opp : Proper (cg ==> cg) Z.opp.
Proof. intros a b H. change (- a) with (0 - a). change (- b) with (0 - b). now rewrite H. Qed.
Lemma cg_mod a : a mod 3329 == a.
Proof. constructor. apply Zmod_mod. Qed.
Lemma cg_of_eq a b : a = b -> a == b. Proof. now intros ->. Qed.
Lemma cg_pow a b e : a == b -> a ^ e == b ^ e.
Proof.
  intros H. destruct (Z.ltb_spec e 0). { now rewrite !Z.pow_neg_r by lia. }
  revert e H0. apply natlike_ind.
  - reflexivity.
  - intros e He IH. rewrite !Z.pow_succ_r by auto. now apply cg_mul.
Qed.
(** Cancelling an invertible factor *)
Lemma cg_cancel c d a b : c * d == 1 -> c * a == c * b -> a == b.
Proof.
  intros H E. rewrite <- (Z.mul_1_l a), <- (Z.mul_1_l b), <- H.
  replace (c * d * a) with (d * (c * a)) by ring. rewrite E.
  now replace (c * d * b) with (d * (c * b)) by ring.
Qed.
Lemma cg_small a b : 0 <= a < 3329 -> 0 <= b < 3329 -> a == b -> a = b.
Proof. intros ? ? [H]. rewrite !Z.mod_small in H; auto. Qed.

(** ** Powers of zeta = 17 *)

Lemma z128 : 17 ^ 128 == -1. Proof. constructor. vm_compute. reflexivity. Qed.
Lemma z256 : 17 ^ 256 == 1. Proof. constructor. vm_compute. reflexivity. Qed.
Lemma zpow_mult256 k : 0 <= k -> 17 ^ (256 * k) == 1.
Proof.
  intros. rewrite Z.pow_mul_r by lia. rewrite (cg_pow _ _ k z256). now rewrite Z.pow_1_l by auto.
Qed.
Lemma zpow_cong e f : 0 <= e -> 0 <= f -> e mod 256 = f mod 256 -> 17 ^ e == 17 ^ f.
Proof.
  intros He Hf E. transitivity (17 ^ (e mod 256)); [|rewrite E].
  - rewrite (Z.div_mod e 256) at 1 by lia. rewrite Z.pow_add_r by lia.
    rewrite zpow_mult256 by lia. now rewrite Z.mul_1_l.
  - symmetry. rewrite (Z.div_mod f 256) at 1 by lia. rewrite Z.pow_add_r by lia.
    rewrite zpow_mult256 by lia. now rewrite Z.mul_1_l.
Qed.
Lemma zpow_neg e f : 0 <= e -> 0 <= f -> e mod 256 = (f + 128) mod 256 -> 17 ^ e == - 17 ^ f.
Proof.
  intros He Hf E. rewrite (zpow_cong e (f + 128)) by (auto; lia).
  rewrite Z.pow_add_r by lia. rewrite z128. apply cg_of_eq; ring.
Qed.

(** ** Sums *)

Lemma sum_0 f : sum 0 f = 0. Proof. reflexivity. Qed.
Lemma fold_add_acc l a : fold_right Z.add a l = fold_right Z.add 0 l + a.
Proof. induction l; cbn; lia. Qed.
Lemma sum_S m f : 0 <= m -> sum (m + 1) f = sum m f + f m.
Proof.
  intros. unfold sum. rewrite range_S by auto. rewrite map_app, fold_right_app.
  cbn [map fold_right]. rewrite fold_add_acc. lia.
Qed.
Lemma sum_ext m f g : (forall i, 0 <= i < m -> f i = g i) -> sum m f = sum m g.
Proof. intros. unfold sum. f_equal. now apply map_range_ext. Qed.
Lemma sum_ind (P : Z -> Prop) : P 0 -> (forall m, 0 <= m -> P m -> P (m + 1)) -> forall m, 0 <= m -> P m.
Proof. intros H0 HS. apply natlike_ind; auto. Qed.
Lemma sum_cg m f g : 0 <= m -> (forall i, 0 <= i < m -> f i == g i) -> sum m f == sum m g.
Proof.
  revert m. apply (sum_ind (fun m => (forall i, 0 <= i < m -> f i == g i) -> sum m f == sum m g)).
  - reflexivity.
  - intros m Hm IH H. rewrite !sum_S by auto. rewrite IH by (intros; apply H; lia).
    now rewrite H by lia.
Qed.
Lemma sum_add m f g : 0 <= m -> sum m (fun i => f i + g i) = sum m f + sum m g.
Proof.
  revert m. apply (sum_ind (fun m => _ = _)); auto.
  intros m Hm IH. rewrite !sum_S by auto. lia.
Qed.
Lemma sum_sub m f g : 0 <= m -> sum m (fun i => f i - g i) = sum m f - sum m g.
Proof.
  revert m. apply (sum_ind (fun m => _ = _)); auto.
  intros m Hm IH. rewrite !sum_S by auto. lia.
Qed.
Lemma sum_mul_l m c f : 0 <= m -> sum m (fun i => c * f i) = c * sum m f.
Proof.
  revert m. apply (sum_ind (fun m => _ = _)); [rewrite !sum_0; lia|].
  intros m Hm IH. rewrite !sum_S by auto. lia.
Qed.
Lemma sum_mul_r m c f : 0 <= m -> sum m (fun i => f i * c) = sum m f * c.
Proof.
  intros. rewrite Z.mul_comm, <- sum_mul_l by auto. apply sum_ext; intros; ring.
Qed.
Lemma sum_zero m : 0 <= m -> sum m (fun _ => 0) = 0.
Proof.
  revert m. apply (sum_ind (fun m => _ = _)); auto.
  intros m Hm IH. rewrite !sum_S by auto. lia.
Qed.
Lemma sum_app a b f : 0 <= a -> 0 <= b -> sum (a + b) f = sum a f + sum b (fun i => f (a + i)).
Proof.
  intros Ha. revert b. apply (sum_ind (fun b => _ = _)).
  - rewrite Z.add_0_r, sum_0. lia.
  - intros m Hm IH. rewrite Z.add_assoc, !sum_S by lia. rewrite IH. lia.
Qed.
Lemma sum_double m f : 0 <= m -> sum (2 * m) f = sum m (fun t => f (2 * t) + f (2 * t + 1)).
Proof.
  revert m. apply (sum_ind (fun m => _ = _)); auto.
  intros m Hm IH. rewrite !sum_S by auto. rewrite <- IH.
  replace (2 * (m + 1)) with (2 * m + 1 + 1) by lia. rewrite !sum_S by lia. lia.
Qed.
Lemma sum_swap a b f : 0 <= a -> 0 <= b ->
  sum a (fun i => sum b (fun j => f i j)) = sum b (fun j => sum a (fun i => f i j)).
Proof.
  intros Ha Hb. revert a Ha. apply (sum_ind (fun a => _ = _)).
  - rewrite sum_0. symmetry. now apply sum_zero.
  - intros m Hm IH. rewrite sum_S by auto. rewrite IH, <- sum_add by auto.
    apply sum_ext; intros. now rewrite sum_S by auto.
Qed.
(** Rotating the summation index *)
Lemma sum_rotate m s f : 0 < m -> 0 <= s < m -> sum m (fun k => f ((k + s) mod m)) = sum m f.
Proof.
  intros Hm Hs.
  assert (E1 : forall g, sum m g = sum (m - s) g + sum s (fun i => g (m - s + i))).
  { intros. rewrite <- sum_app by lia. f_equal; lia. }
  assert (E2 : forall g, sum m g = sum s g + sum (m - s) (fun i => g (s + i))).
  { intros. rewrite <- sum_app by lia. f_equal; lia. }
  rewrite E1, (E2 f). rewrite Z.add_comm. f_equal; apply sum_ext; intros i Hi; f_equal.
  - replace (m - s + i + s) with (i + 1 * m) by lia. rewrite Z.mod_add by lia. apply Z.mod_small; lia.
  - rewrite Z.mod_small by lia. lia.
Qed.
