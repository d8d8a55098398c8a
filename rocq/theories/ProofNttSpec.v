(** * The number-theoretic transform of FIPS 203: layers and inverse

    Facts about the formulas NTT and NTT_inv; nothing here refers to the C code. *)

From Coq Require Import ZArith List Bool Lia ZifyBool Setoid Morphisms.
From Verif Require Import Spec202 Spec203 CSemFacts ProofSum.
Import ListNotations.
Open Scope Z_scope.
Ltac Zify.zify_post_hook ::= Z.to_euclidean_division_equations.

(** ** Checks over finite ranges of exponents *)

Definition upto (m : nat) (P : Z -> bool) : bool := forallb (fun i => P (Z.of_nat i)) (seq 0 m).
Lemma upto_spec m P : upto m P = true -> forall i, 0 <= i < Z.of_nat m -> P i = true.
Proof.
  unfold upto; rewrite forallb_forall. intros H i Hi.
  replace i with (Z.of_nat (Z.to_nat i)) by lia. apply H. apply in_seq. lia.
Qed.

(** BitRev7 without the sum *)
Definition brv (i : Z) : Z :=
  64 * (i mod 2) + 32 * (i / 2 mod 2) + 16 * (i / 4 mod 2) + 8 * (i / 8 mod 2)
  + 4 * (i / 16 mod 2) + 2 * (i / 32 mod 2) + i / 64 mod 2.
Lemma BitRev7_brv i : BitRev7 i = brv i.
Proof.
  unfold BitRev7, brv.
  replace 7 with (0 + 1 + 1 + 1 + 1 + 1 + 1 + 1) by reflexivity.
  rewrite !sum_S by lia. rewrite sum_0. rewrite !Z.testbit_spec' by lia.
  change (2 ^ (6 - 0)) with 64. 
  change (2 ^ (6 - (0 + 1))) with 32. change (2 ^ (6 - (0 + 1 + 1))) with 16.
  change (2 ^ (6 - (0 + 1 + 1 + 1))) with 8. change (2 ^ (6 - (0 + 1 + 1 + 1 + 1))) with 4.
  change (2 ^ (6 - (0 + 1 + 1 + 1 + 1 + 1))) with 2.
  change (2 ^ (6 - (0 + 1 + 1 + 1 + 1 + 1 + 1))) with 1.
  change (2 ^ 0) with 1. change (2 ^ (0 + 1)) with 2. change (2 ^ (0 + 1 + 1)) with 4.
  change (2 ^ (0 + 1 + 1 + 1)) with 8. change (2 ^ (0 + 1 + 1 + 1 + 1)) with 16.
  change (2 ^ (0 + 1 + 1 + 1 + 1 + 1)) with 32. change (2 ^ (0 + 1 + 1 + 1 + 1 + 1 + 1)) with 64.
  rewrite Z.div_1_r. ring.
Qed.
Lemma brv_range i : 0 <= brv i <= 127.
Proof. unfold brv. lia. Qed.

(** ** Layers *)

Definition zt (k : Z) : Z := 17 ^ brv k.
Definition eqf (f g : Z -> Z) : Prop := forall i, 0 <= i < 256 -> f i == g i.
Lemma eqf_refl f : eqf f f. Proof. intros i Hi; reflexivity. Qed.
Lemma eqf_trans f g h : eqf f g -> eqf g h -> eqf f h.
Proof. intros H H' i Hi. now rewrite (H i), (H' i) by auto. Qed.
Lemma eqf_sym f g : eqf f g -> eqf g f.
Proof. intros H i Hi. now rewrite (H i) by auto. Qed.

Definition lay (nb len : Z) (f : Z -> Z) (i : Z) : Z :=
  if i mod (2 * len) <? len then f i + f (i + len) * zt (nb + i / (2 * len))
  else f (i - len) - f i * zt (nb + i / (2 * len)).
Definition ilay (nb len : Z) (f : Z -> Z) (i : Z) : Z :=
  if i mod (2 * len) <? len then f i + f (i + len)
  else (f i - f (i - len)) * zt (2 * nb - 1 - i / (2 * len)).

Definition shape (nb len : Z) : Prop :=
  (nb, len) = (1, 128) \/ (nb, len) = (2, 64) \/ (nb, len) = (4, 32) \/ (nb, len) = (8, 16) \/
  (nb, len) = (16, 8) \/ (nb, len) = (32, 4) \/ (nb, len) = (64, 2).
Lemma shape_prod nb len : shape nb len -> nb * (2 * len) = 256 /\ 0 < len /\ 0 < nb.
Proof. unfold shape. intuition (match goal with H : (_, _) = _ |- _ => injection H as -> -> end; lia). Qed.
Ltac shapes H := unfold shape in H;
  destruct H as [H|[H|[H|[H|[H|[H|H]]]]]]; injection H as -> ->.

(** Position of an index within its block *)
Lemma lower_partner nb len i : shape nb len -> 0 <= i < 256 -> i mod (2 * len) < len ->
  0 <= i + len < 256 /\ (i + len) mod (2 * len) = i mod (2 * len) + len /\
  (i + len) / (2 * len) = i / (2 * len).
Proof. intros S Hi H. shapes S; lia. Qed.
Lemma upper_partner nb len i : shape nb len -> 0 <= i < 256 -> len <= i mod (2 * len) ->
  0 <= i - len < 256 /\ (i - len) mod (2 * len) = i mod (2 * len) - len /\
  (i - len) / (2 * len) = i / (2 * len).
Proof. intros S Hi H. shapes S; lia. Qed.
Lemma block_range nb len i : shape nb len -> 0 <= i < 256 -> 0 <= i / (2 * len) < nb.
Proof. intros S Hi. shapes S; lia. Qed.

Lemma lay_cg nb len f g : shape nb len -> eqf f g -> eqf (lay nb len f) (lay nb len g).
Proof.
  intros S H i Hi. unfold lay. destruct (_ <? _) eqn:E.
  - destruct (lower_partner nb len i S Hi ltac:(lia)) as [R _]. now rewrite (H i), (H (i + len)) by auto.
  - destruct (upper_partner nb len i S Hi ltac:(lia)) as [R _]. now rewrite (H i), (H (i - len)) by auto.
Qed.
Lemma ilay_cg nb len f g : shape nb len -> eqf f g -> eqf (ilay nb len f) (ilay nb len g).
Proof.
  intros S H i Hi. unfold ilay. destruct (_ <? _) eqn:E.
  - destruct (lower_partner nb len i S Hi ltac:(lia)) as [R _]. now rewrite (H i), (H (i + len)) by auto.
  - destruct (upper_partner nb len i S Hi ltac:(lia)) as [R _]. now rewrite (H i), (H (i - len)) by auto.
Qed.
Lemma lay_scale nb len c f i : lay nb len (fun i => c * f i) i = c * lay nb len f i.
Proof. unfold lay. destruct (_ <? _); ring. Qed.
Lemma ilay_scale nb len c f i : ilay nb len (fun i => c * f i) i = c * ilay nb len f i.
Proof. unfold ilay. destruct (_ <? _); ring. Qed.

Lemma zt_inv nb len b : shape nb len -> 0 <= b < nb -> zt (nb + b) * zt (2 * nb - 1 - b) == -1.
Proof.
  intros S Hb. unfold zt. pose proof (brv_range (nb + b)). pose proof (brv_range (2 * nb - 1 - b)).
  rewrite <- Z.pow_add_r by lia. rewrite <- z128. apply zpow_cong; try lia. f_equal.
  apply Z.eqb_eq.
  assert (C : upto (Z.to_nat nb) (fun b => brv (nb + b) + brv (2 * nb - 1 - b) =? 128) = true)
    by (shapes S; vm_compute; reflexivity).
  apply (upto_spec _ _ C). lia.
Qed.

Lemma ilay_lay nb len f : shape nb len -> eqf (ilay nb len (lay nb len f)) (fun i => 2 * f i).
Proof.
  intros S i Hi. unfold ilay. pose proof (block_range _ _ _ S Hi) as Hb.
  pose proof (zt_inv _ _ _ S Hb) as Z. destruct (_ <? _) eqn:E.
  - destruct (lower_partner nb len i S Hi ltac:(lia)) as (R & M & D).
    unfold lay. rewrite E, M, D. replace (_ + len <? len) with false by lia.
    replace (i + len - len) with i by lia. apply cg_of_eq; ring.
  - destruct (upper_partner nb len i S Hi ltac:(lia)) as (R & M & D).
    unfold lay. rewrite E, M, D. replace (_ - len <? len) with true.
    2: { symmetry. apply Z.ltb_lt. pose proof (shape_prod _ _ S).
         pose proof (Z.mod_pos_bound i (2 * len)). lia. }
    replace (i - len + len) with i by lia.
    set (z := zt (nb + _)) in *. set (z' := zt (_ - _)) in *.
    replace (_ * z') with (- (2 * f i) * (z * z')) by ring. rewrite Z. apply cg_of_eq; ring.
Qed.
Lemma lay_ilay nb len f : shape nb len -> eqf (lay nb len (ilay nb len f)) (fun i => 2 * f i).
Proof.
  intros S i Hi. unfold lay. pose proof (block_range _ _ _ S Hi) as Hb.
  pose proof (zt_inv _ _ _ S Hb) as Z. destruct (_ <? _) eqn:E.
  - destruct (lower_partner nb len i S Hi ltac:(lia)) as (R & M & D).
    unfold ilay. rewrite E, M, D. replace (_ + len <? len) with false by lia.
    replace (i + len - len) with i by lia.
    set (z := zt (nb + _)) in *. set (z' := zt (_ - _)) in *.
    replace (_ + _ + _ * z) with (f i + f (i + len) + (f (i + len) - f i) * (z * z')) by ring.
    rewrite Z. apply cg_of_eq; ring.
  - destruct (upper_partner nb len i S Hi ltac:(lia)) as (R & M & D).
    unfold ilay. rewrite E, M, D. replace (_ - len <? len) with true.
    2: { symmetry. apply Z.ltb_lt. pose proof (shape_prod _ _ S).
         pose proof (Z.mod_pos_bound i (2 * len)). lia. }
    replace (i - len + len) with i by lia.
    set (z := zt (nb + _)) in *. set (z' := zt (_ - _)) in *.
    replace (_ + _ - _ * z) with (f (i - len) + f i - (f i - f (i - len)) * (z * z')) by ring.
    rewrite Z. apply cg_of_eq; ring.
Qed.

(** ** The exponents after s layers *)

Fixpoint ex (s : nat) (b : Z) : Z :=
  match s with O => 128 | S s' => ex s' (b / 2) / 2 + 128 * (b mod 2) end.

Lemma lay_step nb len e x f : shape nb len ->
  (forall b, 0 <= b < nb -> 0 <= e b /\ e b mod 2 = 0 /\ brv (nb + b) = e b / 2) ->
  (forall b o, 0 <= b < nb -> 0 <= o < 2 * len ->
     f (b * (2 * len) + o) == sum nb (fun t => x (t * (2 * len) + o) * 17 ^ (e b * t))) ->
  forall b o, 0 <= b < 2 * nb -> 0 <= o < len ->
    lay nb len f (b * len + o) ==
    sum (2 * nb) (fun t => x (t * len + o) * 17 ^ ((e (b / 2) / 2 + 128 * (b mod 2)) * t)).
Proof.
  intros S He H b o Hb Ho. destruct (shape_prod _ _ S) as (P & Hl & Hn).
  set (c := b / 2). set (d := b mod 2). assert (Eb : b = 2 * c + d) by (unfold c, d; lia).
  assert (Hd : d = 0 \/ d = 1) by (unfold d; lia). assert (Hc : 0 <= c < nb) by lia.
  clearbody c d. destruct (He c Hc) as (He0 & He1 & He2).
  set (h := e c / 2) in *. assert (Eh : e c = 2 * h) by (unfold h; lia).
  assert (Hh : 0 <= h) by (unfold h; lia). clearbody h.
  assert (Dv : (b * len + o) / (2 * len) = c).
  { replace (b * len + o) with (c * (2 * len) + (d * len + o)) by (subst b; ring).
    rewrite Z.div_add_l by lia. rewrite Z.div_small; [lia|]. destruct Hd as [->| ->]; lia. }
  assert (Md : (b * len + o) mod (2 * len) = d * len + o).
  { replace (b * len + o) with ((d * len + o) + c * (2 * len)) by (subst b; ring).
    rewrite Z.mod_add by lia. apply Z.mod_small. destruct Hd as [->| ->]; lia. }
  unfold lay. rewrite Dv, Md. unfold zt. rewrite He2.
  assert (Lo : f (c * (2 * len) + o) + f (c * (2 * len) + (len + o)) * 17 ^ h ==
               sum (2 * nb) (fun t => x (t * len + o) * 17 ^ (h * t))).
  { rewrite (H c o), (H c (len + o)) by lia. rewrite sum_double by lia. rewrite sum_add by lia.
    rewrite <- sum_mul_r by lia. apply cg_add; apply sum_cg; try lia; intros t Ht.
    - rewrite Eh. replace (2 * t * len) with (t * (2 * len)) by ring.
      now replace (2 * h * t) with (h * (2 * t)) by ring.
    - rewrite Eh. replace (t * (2 * len) + (len + o)) with ((2 * t + 1) * len + o) by ring.
      replace (h * (2 * t + 1)) with (2 * h * t + h) by ring. rewrite Z.pow_add_r by lia.
      apply cg_of_eq; ring. }
  assert (Up : f (c * (2 * len) + o) - f (c * (2 * len) + (len + o)) * 17 ^ h ==
               sum (2 * nb) (fun t => x (t * len + o) * 17 ^ ((h + 128) * t))).
  { rewrite (H c o), (H c (len + o)) by lia. rewrite sum_double by lia. rewrite sum_add by lia.
    rewrite <- sum_mul_r by lia.
    transitivity (sum nb (fun t => x (t * (2 * len) + o) * 17 ^ (e c * t))
       + sum nb (fun t => -1 * (x (t * (2 * len) + (len + o)) * 17 ^ (e c * t) * 17 ^ h))).
    { rewrite sum_mul_l by lia. apply cg_of_eq; ring. }
    apply cg_add; apply sum_cg; try lia; intros t Ht.
    - rewrite Eh. replace (2 * t * len) with (t * (2 * len)) by ring.
      replace ((h + 128) * (2 * t)) with (2 * h * t + 256 * t) by ring.
      rewrite Z.pow_add_r by lia. rewrite zpow_mult256 by lia. apply cg_of_eq; ring.
    - rewrite Eh. replace (t * (2 * len) + (len + o)) with ((2 * t + 1) * len + o) by ring.
      replace ((h + 128) * (2 * t + 1)) with (2 * h * t + h + 256 * t + 128) by ring.
      rewrite !Z.pow_add_r by lia. rewrite zpow_mult256, z128 by lia. apply cg_of_eq; ring. }
  destruct Hd as [E|E]; subst d.
  - replace (0 * len + o <? len) with true by lia.
    replace (h + 128 * 0) with h by ring. rewrite <- Lo.
    replace (b * len + o) with (c * (2 * len) + o) by (subst b; ring).
    now replace (c * (2 * len) + o + len) with (c * (2 * len) + (len + o)) by ring.
  - replace (1 * len + o <? len) with false by lia.
    replace (h + 128 * 1) with (h + 128) by ring. rewrite <- Up.
    replace (b * len + o) with (c * (2 * len) + (len + o)) by (subst b; ring).
    now replace (c * (2 * len) + (len + o) - len) with (c * (2 * len) + o) by ring.
Qed.

Definition ex_ok (s : nat) (nb : Z) : bool :=
  upto (Z.to_nat nb) (fun b => (0 <=? ex s b) && (ex s b mod 2 =? 0) && (brv (nb + b) =? ex s b / 2)).
Lemma ex_ok_spec s nb : 0 <= nb -> ex_ok s nb = true ->
  forall b, 0 <= b < nb -> 0 <= ex s b /\ ex s b mod 2 = 0 /\ brv (nb + b) = ex s b / 2.
Proof.
  intros Hn H b Hb. pose proof (upto_spec _ _ H b ltac:(lia)) as C. cbv beta in C.
  apply andb_prop in C as [C C3]. apply andb_prop in C as [C1 C2]. lia.
Qed.

Definition layers (f : Z -> Z) : Z -> Z :=
  lay 64 2 (lay 32 4 (lay 16 8 (lay 8 16 (lay 4 32 (lay 2 64 (lay 1 128 f)))))).
Definition ilayers (f : Z -> Z) : Z -> Z :=
  ilay 1 128 (ilay 2 64 (ilay 4 32 (ilay 8 16 (ilay 16 8 (ilay 32 4 (ilay 64 2 f)))))).

Lemma shape_1 : shape 1 128. Proof. unfold shape; tauto. Qed.
Lemma shape_2 : shape 2 64. Proof. unfold shape; tauto. Qed.
Lemma shape_4 : shape 4 32. Proof. unfold shape; tauto. Qed.
Lemma shape_8 : shape 8 16. Proof. unfold shape; tauto. Qed.
Lemma shape_16 : shape 16 8. Proof. unfold shape; tauto. Qed.
Lemma shape_32 : shape 32 4. Proof. unfold shape; tauto. Qed.
Lemma shape_64 : shape 64 2. Proof. unfold shape; tauto. Qed.
Global Hint Resolve shape_1 shape_2 shape_4 shape_8 shape_16 shape_32 shape_64 : shape.

Lemma layers_sum f i : 0 <= i < 256 ->
  layers f i == sum 128 (fun j => f (2 * j + i mod 2) * 17 ^ ((2 * brv (i / 2) + 1) * j)).
Proof.
  intros Hi.
  assert (H0 : forall b o, 0 <= b < 1 -> 0 <= o < 2 * 128 ->
     f (b * (2 * 128) + o) == sum 1 (fun t => f (t * (2 * 128) + o) * 17 ^ (ex 0 b * t))).
  { intros b o Hb Ho. replace 1 with (0 + 1) by reflexivity. rewrite sum_S, sum_0 by lia.
    rewrite Z.mul_0_r, Z.pow_0_r. apply cg_of_eq. replace b with 0 by lia. ring. }
  pose proof (lay_step _ _ _ f f shape_1 (ex_ok_spec 0 1 ltac:(lia) ltac:(vm_compute; reflexivity)) H0) as H1.
  pose proof (lay_step _ _ (ex 1) f _ shape_2 (ex_ok_spec 1 2 ltac:(lia) ltac:(vm_compute; reflexivity)) H1) as H2.
  pose proof (lay_step _ _ (ex 2) f _ shape_4 (ex_ok_spec 2 4 ltac:(lia) ltac:(vm_compute; reflexivity)) H2) as H3.
  pose proof (lay_step _ _ (ex 3) f _ shape_8 (ex_ok_spec 3 8 ltac:(lia) ltac:(vm_compute; reflexivity)) H3) as H4.
  pose proof (lay_step _ _ (ex 4) f _ shape_16 (ex_ok_spec 4 16 ltac:(lia) ltac:(vm_compute; reflexivity)) H4) as H5.
  pose proof (lay_step _ _ (ex 5) f _ shape_32 (ex_ok_spec 5 32 ltac:(lia) ltac:(vm_compute; reflexivity)) H5) as H6.
  pose proof (lay_step _ _ (ex 6) f _ shape_64 (ex_ok_spec 6 64 ltac:(lia) ltac:(vm_compute; reflexivity)) H6) as H7.
  clear H0 H1 H2 H3 H4 H5 H6.
  specialize (H7 (i / 2) (i mod 2) ltac:(lia) ltac:(lia)).
  fold (layers f) in H7. replace (i / 2 * 2 + i mod 2) with i in H7 by lia.
  rewrite H7. change (2 * 64) with 128. apply cg_of_eq, sum_ext. intros j Hj.
  fold (ex 7 (i / 2)).
  assert (E : ex 7 (i / 2) = 2 * brv (i / 2) + 1).
  { apply Z.eqb_eq. apply (upto_spec 128 (fun b => ex 7 b =? 2 * brv b + 1)); [vm_compute; reflexivity|lia]. }
  change (ex 6 (i / 2 / 2) / 2 + 128 * ((i / 2) mod 2)) with (ex 7 (i / 2)).
  rewrite E. f_equal. f_equal. lia.
Qed.

Lemma ilay_step nb len h y f : shape nb len -> len = 2 * h ->
  upto (Z.to_nat nb) (fun b => upto (Z.to_nat (2 * h)) (fun j =>
    (brv (2 * nb - 1 - b) + (if j <? h then 128 else 0) + (2 * brv (b * (2 * h) + j) + 1) * h)
      mod 256 =? 0)) = true ->
  (forall b t o, 0 <= b < 2 * nb -> 0 <= t < h -> 0 <= o < 2 ->
     f (b * len + (2 * t + o)) ==
     sum h (fun j => y (2 * (b * h + j) + o) * 17 ^ (32768 - (2 * brv (b * h + j) + 1) * t))) ->
  forall b t o, 0 <= b < nb -> 0 <= t < 2 * h -> 0 <= o < 2 ->
     ilay nb len f (b * (2 * len) + (2 * t + o)) ==
     sum (2 * h) (fun j => y (2 * (b * (2 * h) + j) + o) * 17 ^ (32768 - (2 * brv (b * (2 * h) + j) + 1) * t)).
Proof.
  intros S Hlen C H b t o Hb Ht Ho. destruct (shape_prod _ _ S) as (P & Hl & Hn).
  assert (Ht' : t < 128) by nia.
  assert (Hh : 0 < h <= 64) by nia.
  assert (Dv : (b * (2 * len) + (2 * t + o)) / (2 * len) = b).
  { rewrite Z.div_add_l by lia. rewrite Z.div_small; lia. }
  assert (Md : (b * (2 * len) + (2 * t + o)) mod (2 * len) = 2 * t + o).
  { rewrite Z.add_comm, Z.mod_add by lia. apply Z.mod_small. lia. }
  unfold ilay. rewrite Dv, Md.
  replace (2 * h) with (h + h) at 1 by lia. rewrite sum_app by lia.
  destruct (2 * t + o <? len) eqn:E.
  - replace (b * (2 * len) + (2 * t + o)) with ((2 * b) * len + (2 * t + o)) by ring.
    replace (2 * b * len + (2 * t + o) + len) with ((2 * b + 1) * len + (2 * t + o)) by ring.
    rewrite (H (2 * b) t o), (H (2 * b + 1) t o) by lia.
    apply cg_of_eq. f_equal; apply sum_ext; intros j Hj.
    + now replace (2 * b * h) with (b * (2 * h)) by ring.
    + now replace ((2 * b + 1) * h + j) with (b * (2 * h) + (h + j)) by ring.
  - set (u := t - h). assert (Hu : 0 <= u < h) by (unfold u; lia).
    replace t with (h + u) in * by (unfold u; lia). clearbody u.
    replace (b * (2 * len) + (2 * (h + u) + o)) with ((2 * b + 1) * len + (2 * u + o)) by (rewrite Hlen; ring).
    replace ((2 * b + 1) * len + (2 * u + o) - len) with ((2 * b) * len + (2 * u + o)) by ring.
    rewrite (H (2 * b) u o), (H (2 * b + 1) u o) by lia.
    rewrite Z.mul_sub_distr_r, <- !sum_mul_r by lia. unfold zt.
    set (zz := brv (2 * nb - 1 - b)) in *.
    assert (Hz : 0 <= zz <= 127) by apply brv_range.
    assert (C' : forall j, 0 <= j < 2 * h ->
      (zz + (if j <? h then 128 else 0) + (2 * brv (b * (2 * h) + j) + 1) * h) mod 256 = 0).
    { intros j Hj. pose proof (upto_spec _ _ C b ltac:(lia)) as C1. cbv beta in C1.
      pose proof (upto_spec _ _ C1 j ltac:(lia)) as C2. cbv beta in C2. unfold zz. lia. }
    rewrite Z.add_comm. rewrite Z.add_comm, <- Z.add_opp_r.
    rewrite Z.add_comm. apply cg_add.
    + rewrite <- (Z.mul_1_l (sum h _)), <- Z.mul_opp_l, <- sum_mul_l by lia.
      apply sum_cg; [lia|]. intros j Hj. specialize (C' j ltac:(lia)).
      replace (j <? h) with true in C' by lia.
      replace (2 * b * h) with (b * (2 * h)) by ring.
      set (B := brv (b * (2 * h) + j)) in *. assert (0 <= B <= 127) by apply brv_range.
      assert (0 <= (2 * B + 1) * u <= 255 * 127) by nia.
      assert (0 <= (2 * B + 1) * (h + u) <= 255 * 127) by nia.
      transitivity (y (2 * (b * (2 * h) + j) + o) * - 17 ^ (32768 - (2 * B + 1) * u + zz)).
      { apply cg_of_eq. rewrite Z.pow_add_r by lia. ring. }
      apply cg_mul; [reflexivity|]. symmetry. apply zpow_neg; [lia|lia|].
      replace (32768 - (2 * B + 1) * (h + u)) with
        (32768 - (2 * B + 1) * u + zz + 128 - (zz + 128 + (2 * B + 1) * h)) by ring.
      rewrite Zminus_mod, C', Z.sub_0_r, Zmod_mod. reflexivity.
    + apply sum_cg; [lia|]. intros j Hj. specialize (C' (h + j) ltac:(lia)).
      replace (h + j <? h) with false in C' by lia.
      replace ((2 * b + 1) * h + j) with (b * (2 * h) + (h + j)) by ring.
      set (B := brv (b * (2 * h) + (h + j))) in *. assert (0 <= B <= 127) by apply brv_range.
      assert (0 <= (2 * B + 1) * u <= 255 * 127) by nia.
      assert (0 <= (2 * B + 1) * (h + u) <= 255 * 127) by nia.
      rewrite <- Z.mul_assoc. apply cg_mul; [reflexivity|]. rewrite <- Z.pow_add_r by lia.
      apply zpow_cong; [lia|lia|].
      replace (32768 - (2 * B + 1) * (h + u)) with
        (32768 - (2 * B + 1) * u + zz - (zz + 0 + (2 * B + 1) * h)) by ring.
      rewrite (Zminus_mod _ (zz + 0 + _)), C', Z.sub_0_r, Zmod_mod. reflexivity.
Qed.

Lemma ilayers_sum y i : 0 <= i < 256 ->
  ilayers y i == sum 128 (fun j => y (2 * j + i mod 2) * 17 ^ (32768 - (2 * brv j + 1) * (i / 2))).
Proof.
  intros Hi.
  assert (H0 : forall b t o, 0 <= b < 2 * 64 -> 0 <= t < 1 -> 0 <= o < 2 ->
     y (b * 2 + (2 * t + o)) ==
     sum 1 (fun j => y (2 * (b * 1 + j) + o) * 17 ^ (32768 - (2 * brv (b * 1 + j) + 1) * t))).
  { intros b t o Hb Ht Ho. replace 1 with (0 + 1) at 1 by reflexivity. rewrite sum_S, sum_0 by lia.
    replace t with 0 by lia. replace (32768 - _) with (256 * 128) by ring.
    rewrite zpow_mult256 by lia.
    apply cg_of_eq. rewrite !Z.mul_1_r, Z.add_0_l. replace (2 * (b + 0) + o) with (b * 2 + o) by ring. replace (b * 2 + (2 * 0 + o)) with (b * 2 + o) by ring. reflexivity. }
  pose proof (ilay_step _ _ 1 y _ shape_64 eq_refl ltac:(vm_compute; reflexivity) H0) as H1.
  pose proof (ilay_step _ _ 2 y _ shape_32 eq_refl ltac:(vm_compute; reflexivity) H1) as H2.
  pose proof (ilay_step _ _ 4 y _ shape_16 eq_refl ltac:(vm_compute; reflexivity) H2) as H3.
  pose proof (ilay_step _ _ 8 y _ shape_8 eq_refl ltac:(vm_compute; reflexivity) H3) as H4.
  pose proof (ilay_step _ _ 16 y _ shape_4 eq_refl ltac:(vm_compute; reflexivity) H4) as H5.
  pose proof (ilay_step _ _ 32 y _ shape_2 eq_refl ltac:(vm_compute; reflexivity) H5) as H6.
  pose proof (ilay_step _ _ 64 y _ shape_1 eq_refl ltac:(vm_compute; reflexivity) H6) as H7.
  clear H0 H1 H2 H3 H4 H5 H6.
  specialize (H7 0 (i / 2) (i mod 2) ltac:(lia) ltac:(lia) ltac:(lia)).
  fold (ilayers y) in H7. replace (0 * (2 * 128) + (2 * (i / 2) + i mod 2)) with i in H7 by lia.
  rewrite H7. change (2 * 64) with 128. apply cg_of_eq, sum_ext. intros j Hj.
  now replace (0 * 128 + j) with j by ring.
Qed.

(** ** The formulas of the standard *)

Lemma at_zget f i : at_ f i = zget 0 f i. Proof. reflexivity. Qed.
Lemma reduced_map F : reduced (map (fun i => F i mod q) (range n)).
Proof.
  split. { rewrite zlen_map, zlen_range; auto. unfold n; lia. }
  apply Forall_map_range. intros. unfold q. apply Z.mod_pos_bound. lia.
Qed.
Lemma NTT_reduced f : reduced (NTT f). Proof. apply reduced_map. Qed.
Lemma NTT_inv_reduced f : reduced (NTT_inv f). Proof. apply reduced_map. Qed.
Lemma NTT_layers f i : 0 <= i < 256 -> at_ (NTT f) i == layers (at_ f) i.
Proof.
  intros Hi. unfold NTT. rewrite (at_zget (map _ _)). unfold n. rewrite zget_map_range by lia. unfold q.
  rewrite cg_mod, layers_sum by auto. apply cg_of_eq, sum_ext. intros.
  now rewrite BitRev7_brv.
Qed.
Lemma NTT_inv_layers f i : 0 <= i < 256 -> at_ (NTT_inv f) i == 3303 * ilayers (at_ f) i.
Proof.
  intros Hi. unfold NTT_inv. rewrite (at_zget (map _ _)). unfold n. rewrite zget_map_range by lia. unfold q.
  rewrite cg_mod, ilayers_sum by auto. apply cg_of_eq, (f_equal (Z.mul 3303)), sum_ext. intros.
  now rewrite BitRev7_brv.
Qed.

Lemma layers_cg f g : eqf f g -> eqf (layers f) (layers g).
Proof. intros. unfold layers. repeat apply lay_cg; auto with shape. Qed.
Lemma ilayers_cg f g : eqf f g -> eqf (ilayers f) (ilayers g).
Proof. intros. unfold ilayers. repeat apply ilay_cg; auto with shape. Qed.

Lemma eqf_scale c f g : eqf f g -> eqf (fun i => c * f i) (fun i => c * g i).
Proof. intros H i Hi. now rewrite (H i) by auto. Qed.
Lemma ilay_scale' nb len c f g : shape nb len -> eqf g (fun i => c * f i) ->
  eqf (ilay nb len g) (fun i => c * ilay nb len f i).
Proof.
  intros S H. eapply eqf_trans; [apply ilay_cg; eauto|]. intros i Hi. now rewrite ilay_scale.
Qed.
Lemma lay_scale' nb len c f g : shape nb len -> eqf g (fun i => c * f i) ->
  eqf (lay nb len g) (fun i => c * lay nb len f i).
Proof.
  intros S H. eapply eqf_trans; [apply lay_cg; eauto|]. intros i Hi. now rewrite lay_scale.
Qed.
Lemma layers_scale c f g : eqf g (fun i => c * f i) -> eqf (layers g) (fun i => c * layers f i).
Proof. intros. unfold layers. repeat (apply lay_scale'; auto with shape). Qed.
Lemma ilayers_scale c f g : eqf g (fun i => c * f i) -> eqf (ilayers g) (fun i => c * ilayers f i).
Proof. intros. unfold ilayers. repeat (apply ilay_scale'; auto with shape). Qed.

Lemma ilay_lay' nb len c f g : shape nb len -> eqf g (fun i => c * lay nb len f i) ->
  eqf (ilay nb len g) (fun i => (c * 2) * f i).
Proof.
  intros S H. eapply eqf_trans; [apply ilay_scale'; eauto|]. intros i Hi.
  rewrite (ilay_lay nb len f S i Hi). apply cg_of_eq; ring.
Qed.
Lemma lay_ilay' nb len c f g : shape nb len -> eqf g (fun i => c * ilay nb len f i) ->
  eqf (lay nb len g) (fun i => (c * 2) * f i).
Proof.
  intros S H. eapply eqf_trans; [apply lay_scale'; eauto|]. intros i Hi.
  rewrite (lay_ilay nb len f S i Hi). apply cg_of_eq; ring.
Qed.
Lemma ilayers_layers f : eqf (ilayers (layers f)) (fun i => 128 * f i).
Proof.
  unfold ilayers, layers. change (fun i => 128 * f i) with (fun i => (1 * 2 * 2 * 2 * 2 * 2 * 2 * 2) * f i).
  repeat (apply ilay_lay'; auto with shape). intros i Hi. now rewrite Z.mul_1_l.
Qed.
Lemma layers_ilayers f : eqf (layers (ilayers f)) (fun i => 128 * f i).
Proof.
  unfold ilayers, layers. change (fun i => 128 * f i) with (fun i => (1 * 2 * 2 * 2 * 2 * 2 * 2 * 2) * f i).
  repeat (apply lay_ilay'; auto with shape). intros i Hi. now rewrite Z.mul_1_l.
Qed.

Lemma reduced_ext f g : reduced f -> reduced g -> eqf (at_ f) (at_ g) -> f = g.
Proof.
  intros [Lf Bf] [Lg Bg] H. unfold n, q in *. apply (zlist_ext 0); [congruence|].
  intros i Hi. rewrite Lf in Hi. rewrite (Forall_zget _ 0) in Bf, Bg.
  apply cg_small; [apply Bf; lia|apply Bg; lia|]. now apply H.
Qed.
Lemma NTT_inv_NTT f : reduced f -> NTT_inv (NTT f) = f.
Proof.
  intros Hf. apply reduced_ext; auto using NTT_inv_reduced. intros i Hi.
  rewrite NTT_inv_layers by auto.
  rewrite (ilayers_cg (at_ (NTT f)) (layers (at_ f)) ltac:(intros j Hj; now apply NTT_layers) i Hi).
  rewrite (ilayers_layers _ i Hi). rewrite Z.mul_assoc.
  transitivity (1 * at_ f i); [|apply cg_of_eq; ring]. apply cg_mul; [|reflexivity].
  constructor; reflexivity.
Qed.
Lemma NTT_NTT_inv f : reduced f -> NTT (NTT_inv f) = f.
Proof.
  intros Hf. apply reduced_ext; auto using NTT_reduced. intros i Hi.
  rewrite NTT_layers by auto.
  rewrite (layers_scale 3303 (ilayers (at_ f)) (at_ (NTT_inv f)) ltac:(intros j Hj; now apply NTT_inv_layers) i Hi).
  rewrite (layers_ilayers _ i Hi). rewrite Z.mul_assoc.
  transitivity (1 * at_ f i); [|apply cg_of_eq; ring]. apply cg_mul; [|reflexivity].
  constructor; reflexivity.
Qed.
