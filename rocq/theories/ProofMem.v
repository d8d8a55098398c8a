(** * Memory operations *)

From Coq Require Import ZArith List Bool Lia.
From Verif Require Import CSem ModelArith ModelKem Spec202 SpecMem CSemFacts.
Import ListNotations.
Open Scope Z_scope.
Ltac Zify.zify_post_hook ::= idtac.

Ltac fz := repeat match goal with
  | |- context [nth (Z.to_nat ?i) ?l 0] => change (nth (Z.to_nat i) l 0) with (zget 0 l i)
  | H : context [nth (Z.to_nat ?i) ?l 0] |- _ => change (nth (Z.to_nat i) l 0) with (zget 0 l i) in H
  end.
Ltac uc := unfold contains in *; cbn [overwrite] in *; fz.

Lemma sequence_map m a l : (forall i, 0 <= i < zlen l -> m (a + i) = Some (zget 0 l i)) ->
  sequence (map m (addresses a (zlen l))) = Some l.
Proof.
  intros H. unfold addresses. rewrite map_map.
  assert (G : forall l k, (forall i, 0 <= i < zlen l -> m (a + (Z.of_nat k + i)) = Some (zget 0 l i)) ->
    sequence (map (fun x => m (a + Z.of_nat x)) (seq k (length l))) = Some l).
  { clear. induction l as [|x l IH]; intros k H; [reflexivity|].
    cbn [length seq map sequence]. pose proof (H 0) as H0. rewrite Z.add_0_r in H0. rewrite H0.
    2:{ rewrite zlen_cons. pose proof (zlen_nonneg l). lia. }
    rewrite IH; [reflexivity|]. intros i Hi. rewrite Nat2Z.inj_succ.
    replace (Z.succ (Z.of_nat k) + i) with (Z.of_nat k + (1 + i)) by lia.
    rewrite H by (rewrite zlen_cons; lia). rewrite zget_cons by lia.
    replace (1 + i =? 0) with false by (symmetry; apply Z.eqb_neq; lia). do 2 f_equal. lia. }
  unfold zlen. rewrite Nat2Z.id. apply G. intros i Hi. rewrite Z.add_0_l. auto.
Qed.

Lemma wp_mload N m a l nn (Q : list Z -> Prop) : contains m a l -> zlen l = nn -> Q l -> wpn N (mload m a nn) Q.
Proof.
  intros H <- HQ. unfold mload. apply wp_bind, wp_emit. rewrite sequence_map by exact H. now apply wp_ret.
Qed.

Lemma contents m a nn : 0 <= nn -> accessible m a nn -> exists l, zlen l = nn /\ contains m a l.
Proof.
  intros Hn H. exists (map (fun i => match m (a + i) with Some v => v | None => 0 end) (range nn)).
  split; [rewrite zlen_map; now apply zlen_range|]. intros i Hi. uc. rewrite zlen_map, zlen_range in Hi by lia.
  rewrite zget_map_range by lia. specialize (H (a + i) ltac:(lia)). destruct (m (a + i)); congruence.
Qed.
Lemma contains_bytes m a l : byte_memory m -> contains m a l -> bytes l.
Proof.
  intros B H. apply (Forall_zget _ 0). intros i Hi. apply (B (a + i)). now apply H.
Qed.
Lemma contains_accessible m a l : contains m a l -> accessible m a (zlen l).
Proof. intros H x Hx. uc. replace x with (a + (x - a)) by lia. rewrite H by lia. discriminate. Qed.
Lemma contains_app m a l1 l2 : contains m a (l1 ++ l2) <-> contains m a l1 /\ contains m (a + zlen l1) l2.
Proof.
  pose proof (zlen_nonneg l1). pose proof (zlen_nonneg l2). unfold contains. split.
  - intros H1. split.
    + intros i Hi. rewrite H1 by (rewrite zlen_app; lia). fz. rewrite zget_app by lia.
      now replace (i <? zlen l1) with true by (symmetry; apply Z.ltb_lt; lia).
    + intros i Hi. rewrite <- Z.add_assoc, H1 by (rewrite zlen_app; lia). fz. rewrite zget_app by lia.
      replace (zlen l1 + i <? zlen l1) with false by (symmetry; apply Z.ltb_ge; lia). do 2 f_equal. lia.
  - intros [H1 H2] i Hi. rewrite zlen_app in Hi. fz. rewrite zget_app by lia. destruct (Z.ltb_spec i (zlen l1)).
    + apply H1. lia.
    + replace (a + i) with (a + zlen l1 + (i - zlen l1)) by lia. apply H2. lia.
Qed.
Lemma contains_slice m a l x y : contains m a l -> 0 <= x <= y -> y <= zlen l -> contains m (a + x) (slice l x y).
Proof.
  intros H Hx Hy i Hi. rewrite zlen_slice in Hi by lia. fz. rewrite zget_slice by lia. rewrite <- Z.add_assoc. apply H. lia.
Qed.

Lemma mwrite_eq m a l x : mwrite m a l x = overwrite m [(a, l)] x.
Proof.
  unfold mwrite, overwrite, zlen. destruct (_ && _) eqn:E; [|reflexivity].
  apply andb_prop in E as [E1 E2]. apply Z.leb_le in E1. apply Z.ltb_lt in E2.
  unfold zget. apply nth_error_nth'. lia.
Qed.
Lemma accessible_mwrite m a l b nn : accessible m b nn -> accessible (mwrite m a l) b nn.
Proof. intros H x Hx. rewrite mwrite_eq. cbn [overwrite]; fz. destruct (_ && _); [discriminate|now apply H]. Qed.
Lemma contains_same m a l : contains (mwrite m a l) a l.
Proof.
  intros i Hi. rewrite mwrite_eq. cbn [overwrite]; fz.
  replace (_ && _) with true by (symmetry; apply andb_true_intro; split; [apply Z.leb_le|apply Z.ltb_lt]; lia).
  do 2 f_equal. lia.
Qed.
Lemma contains_other m a l b l' : apart (a, zlen l) (b, zlen l') -> contains m b l' -> contains (mwrite m a l) b l'.
Proof.
  unfold apart; cbn [fst snd]. intros A H i Hi. rewrite mwrite_eq. cbn [overwrite]; fz.
  replace (_ && _) with false; [now apply H|]. symmetry. apply andb_false_iff.
  destruct A; [right; apply Z.ltb_ge; lia|left; apply Z.leb_gt; lia].
Qed.
Lemma byte_mwrite m a l : byte_memory m -> bytes l -> byte_memory (mwrite m a l).
Proof.
  intros H Bl x v. rewrite mwrite_eq. cbn [overwrite]; fz. destruct (_ && _) eqn:E; [|apply H].
  apply andb_prop in E as [E1 E2]. apply Z.leb_le in E1. apply Z.ltb_lt in E2.
  intros [= <-]. apply (proj1 (Forall_zget _ 0 _) Bl). lia.
Qed.
Lemma wp_mstore N m a l (Q : mem -> Prop) : accessible m a (zlen l) -> Q (mwrite m a l) -> wpn N (mstore m a l) Q.
Proof.
  intros H HQ. unfold mstore. apply wp_bind, wp_emit.
  destruct (contents m a (zlen l) (zlen_nonneg l) H) as (l0 & L0 & C0).
  fold (zlen l). rewrite <- L0, sequence_map by exact C0. now apply wp_ret.
Qed.

Lemma overwrite_app m a l1 l2 t x :
  overwrite m ((a, l1 ++ l2) :: t) x = overwrite m ((a, l1) :: (a + zlen l1, l2) :: t) x.
Proof.
  pose proof (zlen_nonneg l1). pose proof (zlen_nonneg l2). cbn [overwrite]; fz. rewrite zlen_app.
  destruct (Z.leb_spec a x); destruct (Z.ltb_spec x (a + (zlen l1 + zlen l2)));
  destruct (Z.ltb_spec x (a + zlen l1)); destruct (Z.leb_spec (a + zlen l1) x);
  destruct (Z.ltb_spec x (a + zlen l1 + zlen l2)); cbn [andb]; try lia; try reflexivity.
  - rewrite zget_app by lia. now replace (x - a <? zlen l1) with true by (symmetry; apply Z.ltb_lt; lia).
  - rewrite zget_app by lia. replace (x - a <? zlen l1) with false by (symmetry; apply Z.ltb_ge; lia). do 2 f_equal. lia.
Qed.

Lemma disjoint_apart x y : apart x y -> disjoint x y = true.
Proof.
  unfold apart, disjoint. intros [H|H]; apply orb_true_iff; [left|right]; now apply Z.leb_le.
Qed.
Lemma wp_no_alias N l (Q : unit -> Prop) : all_apart l -> Q tt -> wpn N (no_alias l) Q.
Proof.
  intros H HQ. unfold no_alias. replace (separate l) with true; [now apply wp_ret|]. symmetry.
  induction H as [|x l Hx Hl IH]; [reflexivity|]. cbn [separate]. rewrite IH, andb_true_r.
  apply forallb_forall. rewrite Forall_forall in Hx. intros y Hy. now apply disjoint_apart, Hx.
Qed.
