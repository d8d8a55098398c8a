(** * A sorting function, and measurements, to show that hypotheses can be met *)

From Coq Require Import ZArith List Bool Lia Permutation Sorted String.
From Verif Require Import CSem ModelBench Spec202 SpecBench CSemFacts ProofBench.
Import ListNotations.
Open Scope Z_scope.
Ltac Zify.zify_post_hook ::= idtac.

(** Insertion sort *)
Fixpoint insert (cmp : Z -> Z -> Z) (x : Z) (l : list Z) : list Z :=
  match l with
  | [] => [x]
  | y :: t => if cmp x y <=? 0 then x :: y :: t else y :: insert cmp x t
  end.
Definition insertion_sort (cmp : Z -> Z -> Z) (l : list Z) : list Z := fold_right (insert cmp) [] l.

Lemma insert_perm cmp x l : Permutation (x :: l) (insert cmp x l).
Proof.
  induction l as [|y t IH]; cbn [insert]; [auto|]. destruct (cmp x y <=? 0); [auto|].
  eapply perm_trans; [apply perm_swap|]. now constructor.
Qed.
Lemma insertion_perm cmp l : Permutation l (insertion_sort cmp l).
Proof.
  induction l as [|x l IH]; cbn; [constructor|]. eapply perm_trans; [apply perm_skip, IH|apply insert_perm].
Qed.
Lemma insert_sorted cmp x l : consistent cmp (x :: l) -> StronglySorted (fun x y => cmp x y <= 0) l ->
  StronglySorted (fun x y => cmp x y <= 0) (insert cmp x l).
Proof.
  induction l as [|y t IH]; intros [CA CT] HS; cbn [insert].
  - constructor; constructor.
  - inversion HS as [|? ? H1 H2]; subst. destruct (Z.leb_spec (cmp x y) 0) as [E|E].
    + constructor; [exact HS|]. constructor; [exact E|]. rewrite Forall_forall in *. intros z Hz.
      apply (CT x y z); cbn; auto.
    + constructor.
      * apply IH; auto. split.
        { intros a b Ha Hb. apply CA; cbn in *; tauto. }
        { intros a b c Ha Hb Hc. apply CT; cbn in *; tauto. }
      * rewrite Forall_forall in *. intros z Hz.
        apply (Permutation_in _ (Permutation_sym (insert_perm cmp x t))) in Hz as [<-|Hz]; auto.
        pose proof (CA x y ltac:(now left) ltac:(right; now left)). lia.
Qed.
Lemma insertion_sorts : sorts insertion_sort.
Proof.
  intros cmp l HC. split; [apply insertion_perm|].
  induction l as [|x l IH]; cbn; [constructor|]. destruct HC as [CA CT].
  assert (HI : forall y, In y (x :: insertion_sort cmp l) -> In y (x :: l)).
  { intros y [<-|Hy]; [now left|]. right. eapply Permutation_in; [apply Permutation_sym, insertion_perm|exact Hy]. }
  apply insert_sorted.
  - split; [intros a b Ha Hb; apply CA; auto|intros a b c Ha Hb Hc; apply CT; auto].
  - apply IH. split; [intros a b Ha Hb; apply CA; now right|intros a b c Ha Hb Hc; apply CT; now right].
Qed.

(** A counter that starts near 2^64 and so wraps around; measurement i takes 90000 + i cycles *)
Definition sample_now (k : Z) : Z := 2 ^ 64 - 1000 + 100000 * k - (if Z.odd k then 10000 - k else 0).
Definition sample_reading (k : Z) : Z := sample_now k mod 2 ^ 64.
Lemma sample_reads : reads sample_now sample_reading.
Proof. intros k. reflexivity. Qed.
Lemma sample_durations c : Z.even c = true -> 0 <= c <= 4 ->
  let l := durations sample_now 500 (fun i => 6 * i + c) in measurable l /\ close l.
Proof.
  intros HE Hc l.
  assert (H : forall x, In x l -> 90000 <= x < 100000).
  { intros x Hx. apply in_map_iff in Hx as (i & <- & Hi). apply in_range in Hi. unfold sample_now.
    rewrite Z.add_1_r, Z.odd_succ, <- Z.negb_even.
    replace (Z.even (6 * i + c)) with true. 2:{ rewrite Z.even_add, Z.even_mul, HE. reflexivity. }
    cbn [negb]. lia. }
  split; [intros x Hx|intros x y Hx Hy; apply H in Hy]; apply H in Hx.
  - change (2 ^ 64) with 18446744073709551616. lia.
  - change (2 ^ 31) with 2147483648. lia.
Qed.

(** Measurements of 0 cycles, except that a hundred of them (an interrupted process) took 2^32
    cycles *)
Definition slow (i : Z) : Z := if (200 <=? i) && (i <? 300) then 2 ^ 32 else 0.
Definition slow_now (k : Z) : Z := 2 ^ 40 * (k / 6) + (if k mod 6 =? 0 then 0 else slow (k / 6)).
Definition slow_reading (k : Z) : Z := slow_now k mod 2 ^ 64.
Lemma slow_reads : reads slow_now slow_reading.
Proof. intros k. reflexivity. Qed.
Definition slow_kg : list Z := durations slow_now 500 (fun i => 6 * i).

Lemma slow_values x : In x slow_kg -> x = 0 \/ x = 2 ^ 32.
Proof.
  intros Hx. apply in_map_iff in Hx as (i & <- & _). unfold slow_now.
  replace (6 * i) with (i * 6) by lia. rewrite Z.div_mul, Z.mod_mul by lia. cbn [Z.eqb].
  replace (i * 6 + 1) with (1 + i * 6) by lia. rewrite Z.div_add, Z.mod_add by lia.
  change (1 / 6) with 0. change (1 mod 6 =? 0) with false. cbn iota. rewrite Z.add_0_l.
  unfold slow. destruct (_ && _); lia.
Qed.
Lemma slow_others c x : c = 2 \/ c = 4 -> In x (durations slow_now 500 (fun i => 6 * i + c)) -> x = 0.
Proof.
  intros Hc Hx. apply in_map_iff in Hx as (i & <- & _). unfold slow_now.
  replace (6 * i + c + 1) with (c + 1 + i * 6) by lia. replace (6 * i + c) with (c + i * 6) by lia.
  rewrite !Z.div_add, !Z.mod_add by lia.
  destruct Hc as [-> | ->].
  - change ((2 + 1) / 6) with 0. change (2 / 6) with 0. change ((2 + 1) mod 6 =? 0) with false. change (2 mod 6 =? 0) with false. cbn iota. lia.
  - change ((4 + 1) / 6) with 0. change (4 / 6) with 0. change ((4 + 1) mod 6 =? 0) with false. change (4 mod 6 =? 0) with false. cbn iota. lia.
Qed.
(** All of them are equal for the comparison function, so nothing moves. *)
Lemma insertion_equal cmp l : (forall x y, In x l -> In y l -> cmp x y <= 0) -> insertion_sort cmp l = l.
Proof.
  induction l as [|x l IH]; intros H; [reflexivity|]. cbn. fold (insertion_sort cmp l).
  rewrite IH by (intros; apply H; now right). destruct l as [|y t]; [reflexivity|]. cbn [insert].
  replace (cmp x y <=? 0) with true; [reflexivity|]. symmetry. apply Z.leb_le, H; cbn; auto.
Qed.
Lemma slow_sorted : insertion_sort cmp_uint64_t slow_kg = slow_kg.
Proof.
  apply insertion_equal. intros x y Hx Hy. apply slow_values in Hx, Hy.
  replace (cmp_uint64_t x y) with 0; [lia|]. symmetry. apply cmp_zero.
  destruct Hx as [-> | ->], Hy as [-> | ->]; reflexivity.
Qed.
Lemma slow_middle : zget 0 slow_kg 250 = 2 ^ 32.
Proof. unfold slow_kg, durations. now rewrite zget_map_range by lia. Qed.
Definition slow_rank : bool := (count (fun x => x <? 0) slow_kg <=? 250) && (250 <? count (fun x => x <=? 0) slow_kg).
Lemma slow_rank_ok : slow_rank = true.
Proof. vm_cast_no_check (eq_refl true). Qed.
Lemma slow_median : at_rank slow_kg 250 0.
Proof.
  pose proof slow_rank_ok as H. unfold slow_rank in H. split; [|lia].
  apply in_map_iff. exists 0. split; [reflexivity|]. apply in_range. lia.
Qed.

Lemma median_wrong J : exists qs reading now m rest,
  sorts qs /\ reads now reading /\
  measurable (durations now 500 (fun i => 6 * i)) /\
  measurable (durations now 500 (fun i => 6 * i + 2)) /\ measurable (durations now 500 (fun i => 6 * i + 4)) /\
  val (bench J qs reading (fun _ => true)) = Ok (0, Cycles "keypair" m :: rest) /\
  ~ per_iteration (durations now 500 (fun i => 6 * i)) 250 m.
Proof.
  assert (B : 2 ^ 32 < 2 ^ 64) by reflexivity.
  assert (M1 : measurable (durations slow_now 500 (fun i => 6 * i))) by (intros x Hx; apply slow_values in Hx; lia).
  assert (M2 : measurable (durations slow_now 500 (fun i => 6 * i + 2))) by (intros x Hx; apply slow_others in Hx; lia).
  assert (M3 : measurable (durations slow_now 500 (fun i => 6 * i + 4))) by (intros x Hx; apply slow_others in Hx; lia).
  assert (L : forall l, zlen (insertion_sort cmp_uint64_t l) = zlen l)
    by (intros l; unfold zlen; f_equal; symmetry; apply Permutation_length, insertion_perm).
  eexists insertion_sort, slow_reading, slow_now, _, _.
  split; [exact insertion_sorts|]. split; [exact slow_reads|]. do 3 (split; [assumption|]). split.
  - apply (bench_lines J insertion_sort slow_reading (fun _ => true) slow_now slow_reads); auto; rewrite L; now apply zlen_durations.
  - fold slow_kg. rewrite slow_sorted, slow_middle. intros (v & Hv & E).
    rewrite (rank_unique _ _ _ _ Hv slow_median) in E. discriminate E.
Qed.

Lemma cmp_inconsistent : exists l, measurable l /\ ~ consistent cmp_uint64_t l.
Proof.
  exists [0; 2147483647; 4294967294]. split.
  - intros x [<-|[<-|[<-|[]]]]; split; reflexivity || discriminate.
  - intros [_ T]. specialize (T 0 2147483647 4294967294 ltac:(cbn; auto) ltac:(cbn; auto) ltac:(cbn; auto)).
    vm_compute in T. apply T; try discriminate. reflexivity.
Qed.
