(** * The NTT is a ring isomorphism: proofs about the standard's formulas *)

From Coq Require Import ZArith List Bool Lia ZifyBool Setoid Morphisms.
From Verif Require Import Spec202 Spec203 CSemFacts ProofSum ProofNttSpec.
Import ListNotations.
Open Scope Z_scope.
Ltac Zify.zify_post_hook ::= Z.to_euclidean_division_equations.

(** ** Coefficients of the operations *)

Lemma at_map F i : 0 <= i < 256 -> at_ (map (fun i => F i mod q) (range n)) i == F i.
Proof. intros. rewrite at_zget. unfold n. rewrite zget_map_range by lia. apply cg_mod. Qed.

Lemma NTT_at f i : 0 <= i < 256 ->
  at_ (NTT f) i == sum 128 (fun j => at_ f (2 * j + i mod 2) * 17 ^ ((2 * brv (i / 2) + 1) * j)).
Proof. intros. rewrite NTT_layers, layers_sum by auto. reflexivity. Qed.
Lemma NTT_inv_at f i : 0 <= i < 256 ->
  at_ (NTT_inv f) i == 3303 * sum 128 (fun j => at_ f (2 * j + i mod 2) * 17 ^ (32768 - (2 * brv j + 1) * (i / 2))).
Proof. intros. rewrite NTT_inv_layers, ilayers_sum by auto. reflexivity. Qed.
Lemma poly_plus_at f g i : 0 <= i < 256 -> at_ (poly_plus f g) i == at_ f i + at_ g i.
Proof. intros. unfold poly_plus. now rewrite (at_map (fun i => at_ f i + at_ g i)). Qed.
Lemma poly_minus_at f g i : 0 <= i < 256 -> at_ (poly_minus f g) i == at_ f i - at_ g i.
Proof. intros. unfold poly_minus. now rewrite (at_map (fun i => at_ f i - at_ g i)). Qed.
Lemma poly_zero_at i : 0 <= i < 256 -> at_ poly_zero i = 0.
Proof. intros. unfold poly_zero. rewrite at_zget. unfold n. now rewrite zget_map_range by lia. Qed.
Lemma poly_times_at f g k : 0 <= k < 256 -> at_ (poly_times f g) k ==
  sum 256 (fun i => at_ f i * (if i <=? k then at_ g (k - i) else - at_ g (k - i + 256))).
Proof. intros. unfold poly_times. now rewrite at_map. Qed.
Lemma MultiplyNTTs_even f g m : 0 <= m < 128 -> at_ (MultiplyNTTs f g) (2 * m) ==
  at_ f (2 * m) * at_ g (2 * m) + at_ f (2 * m + 1) * at_ g (2 * m + 1) * 17 ^ (2 * brv m + 1).
Proof.
  intros. unfold MultiplyNTTs. cbv zeta. rewrite (at_map (fun i => if i mod 2 =? 0 then _ else _)) by lia.
  replace (2 * m mod 2 =? 0) with true by lia. replace (2 * m / 2) with m by lia.
  rewrite BitRev7_brv. reflexivity.
Qed.
Lemma MultiplyNTTs_odd f g m : 0 <= m < 128 -> at_ (MultiplyNTTs f g) (2 * m + 1) ==
  at_ f (2 * m) * at_ g (2 * m + 1) + at_ f (2 * m + 1) * at_ g (2 * m).
Proof.
  intros. unfold MultiplyNTTs. cbv zeta. rewrite (at_map (fun i => if i mod 2 =? 0 then _ else _)) by lia.
  replace ((2 * m + 1) mod 2 =? 0) with false by lia. replace ((2 * m + 1) / 2) with m by lia.
  reflexivity.
Qed.
Lemma eqf_parity f g : (forall m, 0 <= m < 128 -> f (2 * m) == g (2 * m)) ->
  (forall m, 0 <= m < 128 -> f (2 * m + 1) == g (2 * m + 1)) -> eqf f g.
Proof.
  intros H0 H1 i Hi. assert (C : i = 2 * (i / 2) \/ i = 2 * (i / 2) + 1) by lia.
  destruct C as [-> | ->]; [apply H0|apply H1]; lia.
Qed.

(** ** Multiplication *)

(** Multiplying by X^(2a) in Z_q[X]/(X^2 - c), where c^128 = -1 *)
Lemma negarotate c F a : c ^ 128 == -1 -> 0 <= a <= 128 ->
  sum 128 (fun j => (if a <=? j then F (j - a) else - F (j - a + 128)) * c ^ j)
  == c ^ a * sum 128 (fun l => F l * c ^ l).
Proof.
  intros Hc Ha. rewrite <- sum_mul_l by lia.
  rewrite <- (sum_rotate 128 ((128 - a) mod 128) (fun l => c ^ a * (F l * c ^ l))) by lia.
  apply sum_cg; [lia|]. intros j Hj. destruct (a <=? j) eqn:E.
  - replace ((j + (128 - a) mod 128) mod 128) with (j - a) by lia.
    apply cg_of_eq. replace (c ^ j) with (c ^ a * c ^ (j - a)) by (rewrite <- Z.pow_add_r by lia; f_equal; lia).
    ring.
  - replace ((j + (128 - a) mod 128) mod 128) with (j - a + 128) by lia.
    transitivity (F (j - a + 128) * (c ^ j * c ^ 128)). { rewrite Hc. apply cg_of_eq; ring. }
    apply cg_of_eq.
    replace (c ^ j * c ^ 128) with (c ^ a * c ^ (j - a + 128)) by (rewrite <- !Z.pow_add_r by lia; f_equal; lia).
    ring.
Qed.

Lemma gamma128 m : (17 ^ (2 * brv m + 1)) ^ 128 == -1.
Proof.
  pose proof (brv_range m). rewrite <- Z.pow_mul_r by lia. rewrite <- z128.
  apply zpow_cong; lia.
Qed.

(** The even (odd) part of f evaluated at c *)
Definition ev (f : list Z) (c o : Z) : Z := sum 128 (fun j => at_ f (2 * j + o) * c ^ j).

Lemma NTT_ev f m o : 0 <= m < 128 -> 0 <= o < 2 -> at_ (NTT f) (2 * m + o) == ev f (17 ^ (2 * brv m + 1)) o.
Proof.
  intros. rewrite NTT_at by lia. unfold ev.
  replace ((2 * m + o) mod 2) with o by lia. replace ((2 * m + o) / 2) with m by lia.
  apply cg_of_eq, sum_ext. intros j Hj. pose proof (brv_range m). now rewrite Z.pow_mul_r by lia.
Qed.

Lemma ev_times f g c o : c ^ 128 == -1 -> 0 <= o < 2 ->
  ev (poly_times f g) c o ==
  if o =? 0 then ev f c 0 * ev g c 0 + ev f c 1 * ev g c 1 * c
  else ev f c 0 * ev g c 1 + ev f c 1 * ev g c 0.
Proof.
  intros Hc Ho. unfold ev at 1.
  transitivity (sum 128 (fun j => sum 256 (fun i => at_ f i * ((if i <=? 2 * j + o then at_ g (2 * j + o - i)
     else - at_ g (2 * j + o - i + 256)) * c ^ j)))).
  { apply sum_cg; [lia|]. intros j Hj. rewrite poly_times_at by lia. rewrite <- sum_mul_r by lia.
    apply cg_of_eq, sum_ext. intros. ring. }
  rewrite sum_swap by lia.
  transitivity (sum 256 (fun i => at_ f i * sum 128 (fun j =>
     (if i <=? 2 * j + o then at_ g (2 * j + o - i) else - at_ g (2 * j + o - i + 256)) * c ^ j))).
  { apply cg_of_eq, sum_ext. intros. now rewrite sum_mul_l by lia. }
  change 256 with (2 * 128) at 1. rewrite sum_double by lia. rewrite sum_add by lia.
  assert (A : sum 128 (fun a => at_ f (2 * a) * sum 128 (fun j =>
     (if 2 * a <=? 2 * j + o then at_ g (2 * j + o - 2 * a) else - at_ g (2 * j + o - 2 * a + 256)) * c ^ j))
     == ev f c 0 * ev g c o).
  { unfold ev at 1. rewrite <- sum_mul_r by lia. apply sum_cg; [lia|]. intros a Ha.
    replace (2 * a + 0) with (2 * a) by lia. rewrite <- Z.mul_assoc. apply cg_mul; [reflexivity|].
    unfold ev. rewrite <- (negarotate c (fun l => at_ g (2 * l + o))) by (auto; lia).
    apply cg_of_eq, sum_ext. intros j Hj. cbv beta.
    replace (2 * a <=? 2 * j + o) with (a <=? j) by lia. destruct (a <=? j); [do 2 f_equal|do 3 f_equal]; lia. }
  rewrite A. clear A. assert (C : o = 0 \/ o = 1) by lia. destruct C as [-> | ->].
  - replace (0 =? 0) with true by reflexivity. apply cg_add; [reflexivity|].
    unfold ev at 1. rewrite <- !sum_mul_r by lia. apply sum_cg; [lia|]. intros a Ha.
    transitivity (at_ f (2 * a + 1) * (c ^ (a + 1) * ev g c 1)).
    + apply cg_mul; [reflexivity|]. unfold ev. rewrite <- (negarotate c (fun l => at_ g (2 * l + 1))) by (auto; lia).
      apply cg_of_eq, sum_ext. intros j Hj. cbv beta.
      replace (2 * a + 1 <=? 2 * j + 0) with (a + 1 <=? j) by lia.
      destruct (a + 1 <=? j); [do 2 f_equal|do 3 f_equal]; lia.
    + apply cg_of_eq. rewrite Z.pow_add_r by lia. ring.
  - replace (1 =? 0) with false by reflexivity. apply cg_add; [reflexivity|].
    unfold ev at 1. rewrite <- !sum_mul_r by lia. apply sum_cg; [lia|]. intros a Ha.
    rewrite <- Z.mul_assoc. apply cg_mul; [reflexivity|].
    unfold ev. rewrite <- (negarotate c (fun l => at_ g (2 * l + 0))) by (auto; lia).
    apply cg_of_eq, sum_ext. intros j Hj. cbv beta.
    replace (2 * a + 1 <=? 2 * j + 1) with (a <=? j) by lia. destruct (a <=? j); [do 2 f_equal|do 3 f_equal]; lia.
Qed.

Lemma MultiplyNTTs_reduced f g : reduced (MultiplyNTTs f g). Proof. apply reduced_map. Qed.
Lemma poly_times_reduced f g : reduced (poly_times f g). Proof. apply reduced_map. Qed.
Lemma poly_plus_reduced f g : reduced (poly_plus f g). Proof. apply reduced_map. Qed.
Lemma poly_minus_reduced f g : reduced (poly_minus f g). Proof. apply reduced_map. Qed.
Lemma poly_zero_reduced : reduced poly_zero.
Proof.
  split. { unfold poly_zero. rewrite zlen_map, zlen_range; [reflexivity|unfold n; lia]. }
  apply Forall_map_range. intros. unfold q. lia.
Qed.

Theorem NTT_times f g : NTT (poly_times f g) = MultiplyNTTs (NTT f) (NTT g).
Proof.
  apply reduced_ext; auto using NTT_reduced, MultiplyNTTs_reduced. apply eqf_parity; intros m Hm.
  - rewrite MultiplyNTTs_even by auto. replace (2 * m) with (2 * m + 0) by lia.
    replace (2 * m + 0 + 1) with (2 * m + 1) by lia.
    rewrite !NTT_ev by lia. rewrite ev_times; [reflexivity|apply gamma128|lia].
  - rewrite MultiplyNTTs_odd by auto. replace (2 * m) with (2 * m + 0) at 2 5 by lia.
    rewrite !NTT_ev by lia. rewrite ev_times; [reflexivity|apply gamma128|lia].
Qed.

(** ** Linearity *)

Lemma ilayers_mod f g : eqf (at_ f) (at_ g) -> NTT_inv f = NTT_inv g.
Proof.
  intros H. apply reduced_ext; auto using NTT_inv_reduced. intros i Hi.
  rewrite !NTT_inv_layers by auto. now rewrite (ilayers_cg _ _ H i Hi).
Qed.
Lemma NTT_mod f g : eqf (at_ f) (at_ g) -> NTT f = NTT g.
Proof.
  intros H. apply reduced_ext; auto using NTT_reduced. intros i Hi.
  rewrite !NTT_layers by auto. now rewrite (layers_cg _ _ H i Hi).
Qed.
Lemma NTT_plus f g : NTT (poly_plus f g) = poly_plus (NTT f) (NTT g).
Proof.
  apply reduced_ext; auto using NTT_reduced, poly_plus_reduced. intros i Hi.
  rewrite poly_plus_at, !NTT_at by auto. rewrite <- sum_add by lia. apply sum_cg; [lia|]. intros j Hj.
  rewrite poly_plus_at by lia. apply cg_of_eq; ring.
Qed.
Lemma NTT_inv_plus f g : NTT_inv (poly_plus f g) = poly_plus (NTT_inv f) (NTT_inv g).
Proof.
  apply reduced_ext; auto using NTT_inv_reduced, poly_plus_reduced. intros i Hi.
  rewrite poly_plus_at, !NTT_inv_at by auto. rewrite <- Z.mul_add_distr_l, <- sum_add by lia.
  apply cg_mul; [reflexivity|]. apply sum_cg; [lia|]. intros j Hj.
  rewrite poly_plus_at by lia. apply cg_of_eq; ring.
Qed.
Lemma NTT_inv_times f g : NTT_inv (MultiplyNTTs (NTT f) (NTT g)) = poly_times f g.
Proof. rewrite <- NTT_times. apply NTT_inv_NTT, poly_times_reduced. Qed.
