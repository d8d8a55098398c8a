(** * Proofs for C73 *)

From Coq Require Import ZArith List Bool String Ascii Lia.
From Verif Require Import CSem Spec202 ModelDebug SpecDebug CSemFacts.
Import ListNotations.
Local Open Scope string_scope.
Open Scope Z_scope.
Ltac Zify.zify_post_hook ::= idtac.

Definition bad (l : list Z) (lo hi i : Z) : bool := negb ((lo <? at_ l i) && (at_ l i <? hi)).
Definition bads (l : list Z) (n lo hi : Z) : list Z := filter (bad l lo hi) (range n).

Lemma bad_spec l lo hi i : bad l lo hi i = true <-> ~ within lo hi (at_ l i).
Proof. unfold bad, within. destruct (Z.ltb_spec lo (at_ l i)), (Z.ltb_spec (at_ l i) hi); cbn; split; try discriminate; lia. Qed.

(** Ascending lists *)
Inductive ascending : list Z -> Prop :=
| asc_nil : ascending []
| asc_cons x l : (forall y, In y l -> x < y) -> ascending l -> ascending (x :: l).

Lemma ascending_filter f l : ascending l -> ascending (filter f l).
Proof.
  induction 1 as [|x l H A IH]; cbn; [constructor|]. destruct (f x); [|exact IH].
  constructor; [|exact IH]. intros y Hy. apply filter_In in Hy. now apply H.
Qed.

Lemma ascending_seq n : forall a, ascending (map Z.of_nat (seq a n)).
Proof.
  induction n as [|n IH]; intros a; cbn; constructor; [|apply IH].
  intros y Hy. apply in_map_iff in Hy. destruct Hy as (k & <- & Hk). apply in_seq in Hk. lia.
Qed.

Lemma ascending_nth l : ascending l -> forall a b, (a < b < List.length l)%nat -> nth a l 0 < nth b l 0.
Proof.
  induction 1 as [|x l H A IH]; intros a b Hab; cbn in Hab; [lia|].
  destruct b as [|b]; [lia|]. destruct a as [|a]; cbn [nth].
  - apply H, nth_In. lia.
  - apply IH. lia.
Qed.

Lemma bads_out l n lo hi : out_of_bounds l n lo hi (bads l n lo hi).
Proof.
  split.
  - intros i. unfold bads. rewrite filter_In, in_range, bad_spec. tauto.
  - intros a b Hab. unfold at_. rewrite !Nat2Z.id. apply ascending_nth; [|exact Hab].
    unfold bads. apply ascending_filter. with_strategy transparent [range] unfold range. apply ascending_seq.
Qed.

(** The list of indices is determined. *)
Lemma ascending_unique l m : ascending l -> ascending m -> (forall i, In i l <-> In i m) -> l = m.
Proof.
  intros A. revert m. induction A as [|x l H A IH]; intros m B E.
  - destruct m as [|y m]; [reflexivity|]. destruct (proj2 (E y)); now left.
  - destruct B as [|y m G B]; [destruct (proj1 (E x)); now left|].
    assert (x = y) as <-.
    { destruct (proj1 (E x) (or_introl eq_refl)) as [->|Hx]; [reflexivity|].
      destruct (proj2 (E y) (or_introl eq_refl)) as [->|Hy]; [reflexivity|].
      specialize (H y Hy). specialize (G x Hx). lia. }
    f_equal. apply IH; [exact B|]. intros i. specialize (E i). cbn in E. split; intros Hi.
    + destruct (proj1 E (or_intror Hi)) as [<-|]; [|assumption]. specialize (H x Hi). lia.
    + destruct (proj2 E (or_intror Hi)) as [<-|]; [|assumption]. specialize (G x Hi). lia.
Qed.

Lemma nth_ascending l : (forall a b, (a < b < List.length l)%nat -> nth a l 0 < nth b l 0) -> ascending l.
Proof.
  induction l as [|x l IH]; intros H; constructor.
  - intros y Hy. destruct (In_nth _ _ 0 Hy) as (k & Hk & <-). apply (H O (S k)). cbn. lia.
  - apply IH. intros a b Hab. apply (H (S a) (S b)). cbn. lia.
Qed.

Lemma out_unique l n lo hi is js : out_of_bounds l n lo hi is -> out_of_bounds l n lo hi js -> is = js.
Proof.
  intros [E A] [F B]. apply ascending_unique.
  - apply nth_ascending. intros a b Hab. specialize (A a b Hab). unfold at_ in A. now rewrite !Nat2Z.id in A.
  - apply nth_ascending. intros a b Hab. specialize (B a b Hab). unfold at_ in B. now rewrite !Nat2Z.id in B.
  - intros i. now rewrite E, F.
Qed.

(** snprintf *)
Lemma substring_prefix n : forall s, exists rest, s = substring 0 n s ++ rest.
Proof.
  induction n as [|n IH]; intros [|c s]; cbn.
  - now exists "".
  - now exists (String c s).
  - now exists "".
  - destruct (IH s) as [r E]. exists r. now rewrite <- E.
Qed.
Lemma substring_length n : forall s, String.length (substring 0 n s) = Nat.min n (String.length s).
Proof. induction n as [|n IH]; intros [|c s]; cbn; auto. Qed.
Lemma substring_all n : forall s, (String.length s <= n)%nat -> substring 0 n s = s.
Proof.
  induction n as [|n IH]; intros [|c s] H; cbn in *; auto; [lia|]. now rewrite IH by lia.
Qed.
Lemma snprintf_fits s : fits 256 s (snprintf s).
Proof.
  unfold snprintf, fits. change (buf_size - 1)%nat with 255%nat. rewrite substring_length.
  split; [apply substring_prefix|]. split; [lia|]. split; [intros H; apply substring_all; lia|lia].
Qed.

(** The check *)
Definition text (d : string) (l : list Z) (lo hi i : Z) : string :=
  d ++ ", index " ++ dec i ++ ", value " ++ dec (at_ l i) ++ " out of bounds (" ++ dec lo ++ "," ++ dec hi ++ ")".

Lemma check_val file line d l n lo hi : 0 <= n <= zlen l ->
  val (mlkem_debug_check_bounds file line d l n lo hi) =
  Ok (map (fun i => mlkem_debug_print_error file line (snprintf (text d l lo hi i))) (bads l n lo hi),
      negb (match bads l n lo hi with [] => true | _ => false end)).
Proof.
  intros Hn. apply wp_val. unfold mlkem_debug_check_bounds. apply wp_bind.
  apply (wp_for _ (fun k s => s =
    (map (fun i => mlkem_debug_print_error file line (snprintf (text d l lo hi i))) (bads l k lo hi),
     match bads l k lo hi with [] => 0 | _ => 1 end))); [lia| | |].
  - reflexivity.
  - intros k s Hk ->. apply wp_bind, (wp_aget 0); [lia|].
    change (zget 0 l k) with (at_ l k).
    assert (E : bads l (k + 1) lo hi = (bads l k lo hi ++ (if bad l lo hi k then [k] else []))%list).
    { unfold bads. rewrite range_S, filter_app by lia. reflexivity. }
    rewrite E. unfold bad at 1. destruct (negb _) eqn:B.
    + apply wp_ret. cbn [fst snd]. unfold bad. rewrite B, map_app. f_equal. now destruct (bads l k lo hi).
    + apply wp_ret. unfold bad. rewrite B, app_nil_r. reflexivity.
  - intros s ->. apply wp_ret. cbn [fst snd]. f_equal. now destruct (bads l n lo hi).
Qed.

Lemma app_empty s : s ++ "" = s.
Proof. induction s as [|c s IH]; cbn; [reflexivity|now rewrite IH]. Qed.
Lemma zeros_concat n : zeros n = String.concat "" (repeat "0" n).
Proof.
  induction n as [|n IH]; [reflexivity|]. cbn [zeros repeat]. rewrite IH.
  destruct n as [|n]; reflexivity.
Qed.
Lemma dec04_digits n : dec04 n = four_digits n.
Proof. unfold dec04, four_digits. rewrite zeros_concat. reflexivity. Qed.
Lemma print_line file line msg : line_for file line msg (mlkem_debug_print_error file line (snprintf msg)).
Proof.
  exists (snprintf msg). split; [apply snprintf_fits|]. unfold mlkem_debug_print_error. rewrite dec04_digits.
  cbn [String.concat]. reflexivity.
Qed.
Lemma text_message d l lo hi i : text d l lo hi i = message d l lo hi i.
Proof. reflexivity. Qed.

Lemma Forall2_map_r {A B} (P : A -> B -> Prop) f l : (forall x, P x (f x)) -> Forall2 P l (map f l).
Proof. intros H. induction l; constructor; auto. Qed.

Lemma check_out file line d l n lo hi : 0 <= n <= zlen l ->
  exists is lines exits, out_of_bounds l n lo hi is /\
    val (mlkem_debug_check_bounds file line d l n lo hi) = Ok (lines, exits) /\
    Forall2 (fun i s => line_for file line (message d l lo hi i) s) is lines /\
    (exits = true <-> exists i, 0 <= i < n /\ ~ within lo hi (at_ l i)).
Proof.
  intros Hn. rewrite check_val by exact Hn. pose proof (bads_out l n lo hi) as O.
  eexists _, _, _. split; [exact O|]. split; [reflexivity|]. split.
  - apply Forall2_map_r. intros i. rewrite <- text_message. apply print_line.
  - destruct O as [O _]. destruct (bads l n lo hi) as [|i is]; cbn; split; try discriminate.
    + intros (i & Hi). now destruct (proj2 (O i) Hi).
    + intros _. exists i. apply O. now left.
    + reflexivity.
Qed.

Lemma bads_all l lo hi : negb (match bads l (zlen l) lo hi with [] => true | _ => false end) =
  negb (forallb (fun x => (lo <? x) && (x <? hi)) l).
Proof.
  f_equal. pose proof (proj1 (bads_out l (zlen l) lo hi)) as O.
  destruct (bads l (zlen l) lo hi) as [|i is] eqn:E.
  - symmetry. apply forallb_forall. intros x Hx. destruct (In_nth _ _ 0 Hx) as (k & Hk & <-).
    destruct ((lo <? nth k l 0) && (nth k l 0 <? hi)) eqn:B; [reflexivity|].
    destruct (proj2 (O (Z.of_nat k))). split; [unfold zlen; lia|].
    apply bad_spec. unfold bad, at_. rewrite Nat2Z.id. now rewrite B.
  - symmetry. apply not_true_iff_false. intros F. rewrite forallb_forall in F.
    destruct (proj1 (O i) (or_introl eq_refl)) as [Hi B]. apply bad_spec in B. unfold bad in B.
    rewrite F in B; [discriminate|]. unfold at_. apply nth_In. unfold zlen in Hi. lia.
Qed.

(** The abstract checks of the models *)
Lemma agrees_dbg ls b : (b = true -> ls = []) -> agrees (ls, negb b) (dbg b).
Proof. intros H. unfold agrees, dbg. destruct b; cbn; repeat split; try discriminate; auto. Qed.

Lemma scalar_agrees file line v b msg : agrees (SCALAR_BOUND_ file line v b msg) (SCALAR_BOUND v b).
Proof.
  unfold SCALAR_BOUND_, CASSERT, mlkem_debug_assert, SCALAR_BOUND, in_bound.
  destruct ((- b <? v) && (v <? b)); cbn [Z.b2z Z.eqb].
  - apply (agrees_dbg [] true). reflexivity.
  - apply (agrees_dbg _ false). discriminate.
Qed.

Lemma poly_val file line d p lo hi : exists ls,
  val (mlkem_debug_check_bounds file line d p (Z.of_nat (List.length p)) lo hi) =
    Ok (ls, negb (forallb (fun x => (lo <? x) && (x <? hi)) p)) /\
  (forallb (fun x => (lo <? x) && (x <? hi)) p = true -> ls = []).
Proof.
  change (Z.of_nat (List.length p)) with (zlen p). rewrite check_val by (unfold zlen; lia).
  rewrite bads_all. eexists. split; [reflexivity|]. intros F.
  pose proof (bads_all p lo hi) as E. rewrite F in E. now destruct (bads p (zlen p) lo hi).
Qed.

Lemma poly_agrees file line p b msg : exists r, val (POLY_BOUND_MSG file line p b msg) = Ok r /\ agrees r (POLY_BOUND p b).
Proof.
  destruct (poly_val file line msg p (- b) b) as (ls & E & H). eexists. split; [exact E|]. now apply agrees_dbg.
Qed.
Lemma poly_u_agrees file line p b msg : exists r, val (POLY_UBOUND_MSG file line p b msg) = Ok r /\ agrees r (POLY_UBOUND p b).
Proof.
  destruct (poly_val file line msg p (-1) b) as (ls & E & H). eexists. split; [exact E|]. now apply agrees_dbg.
Qed.

Lemma firstn_snoc (v : list (list Z)) k : (k < List.length v)%nat -> firstn (S k) v = (firstn k v ++ [nth k v []])%list.
Proof.
  revert v. induction k as [|k IH]; intros [|x v] H; cbn in H; try lia; [reflexivity|].
  cbn [firstn nth app]. f_equal. apply IH. lia.
Qed.

Lemma polyvec_val check ok v :
  (forall p, exists ls, val (check p) = Ok (ls, negb (ok p)) /\ (ok p = true -> ls = [])) ->
  exists ls, val (POLYVEC_ check v) = Ok (ls, negb (forallb ok v)) /\ (forallb ok v = true -> ls = []).
Proof.
  intros Hc.
  assert (W : wp (POLYVEC_ check v) (fun r => snd r = negb (forallb ok v) /\ (forallb ok v = true -> fst r = []))).
  { unfold POLYVEC_. change (Z.of_nat (List.length v)) with (zlen v).
    apply (wp_for _ (fun k s => snd s = negb (forallb ok (firstn (Z.to_nat k) v)) /\
      (forallb ok (firstn (Z.to_nat k) v) = true -> fst s = []))); [unfold zlen; lia|split; reflexivity| |].
    - intros k s Hk [E F].
      assert (X : forallb ok (firstn (Z.to_nat (k + 1)) v) = forallb ok (firstn (Z.to_nat k) v) && ok (zget [] v k)).
      { replace (Z.to_nat (k + 1)) with (S (Z.to_nat k)) by lia.
        rewrite (firstn_snoc v (Z.to_nat k)) by (unfold zlen in Hk; lia).
        rewrite forallb_app. cbn [forallb]. now rewrite andb_true_r. }
      rewrite X. destruct (snd s) eqn:Es.
      + apply wp_ret. rewrite Es. symmetry in E. apply negb_true_iff in E. rewrite E. cbn. split; [reflexivity|discriminate].
      + symmetry in E. apply negb_false_iff in E. specialize (F E). rewrite E, F. cbn [andb app].
        apply wp_bind, (wp_aget []); [lia|]. apply wp_bind.
        destruct (Hc (zget [] v k)) as (ls & V & L). apply (wp_ok _ _ _ _ V). apply wp_ret. cbn [fst snd].
        split; [reflexivity|exact L].
    - intros s. replace (Z.to_nat (zlen v)) with (List.length v) by (unfold zlen; lia). rewrite firstn_all. auto. }
  destruct (wp_ex _ _ W) as ([ls e] & V & E & L). cbn [fst snd] in *. subst e. eauto.
Qed.

Lemma polyvec_agrees file line v b msg : exists r, val (POLYVEC_BOUND_ file line v b msg) = Ok r /\ agrees r (POLYVEC_BOUND v b).
Proof.
  destruct (polyvec_val (fun p => POLY_BOUND_MSG file line p b msg) (forallb (in_bound b)) v) as (ls & E & H).
  - intros p. exact (poly_val file line msg p (- b) b).
  - eexists. split; [exact E|]. now apply agrees_dbg.
Qed.
Lemma polyvec_u_agrees file line v b msg : exists r, val (POLYVEC_UBOUND_ file line v b msg) = Ok r /\ agrees r (POLYVEC_UBOUND v b).
Proof.
  destruct (polyvec_val (fun p => POLY_UBOUND_MSG file line p b msg) (forallb (in_ubound b)) v) as (ls & E & H).
  - intros p. exact (poly_val file line msg p (-1) b).
  - eexists. split; [exact E|]. now apply agrees_dbg.
Qed.

(** The polynomials after the first one that fails are not looked at. *)
Lemma polyvec_first check pre p post ls : (forall x, In x pre -> val (check x) = Ok ([], false)) ->
  val (check p) = Ok (ls, true) -> val (POLYVEC_ check (pre ++ p :: post)%list) = Ok (ls, true).
Proof.
  intros Hpre Hp. apply wp_val. unfold POLYVEC_. set (v := (pre ++ p :: post)%list). change (Z.of_nat (List.length v)) with (zlen v).
  assert (Lv : zlen v = zlen pre + 1 + zlen post) by (unfold v, zlen; rewrite app_length; cbn [List.length]; lia).
  assert (0 <= zlen pre /\ 0 <= zlen post) by (unfold zlen; lia).
  apply (wp_for _ (fun k s => s = if k <=? zlen pre then ([], false) else (ls, true))); [lia| | |].
  - now destruct (Z.leb_spec 0 (zlen pre)); [|lia].
  - intros k s Hk ->. destruct (Z.leb_spec k (zlen pre)) as [L|L].
    + cbn [fst snd app]. apply wp_bind, (wp_aget []); [lia|]. apply wp_bind.
      destruct (Z.eq_dec k (zlen pre)) as [->|N].
      * replace (zget [] v (zlen pre)) with p
          by (unfold zget, v, zlen; rewrite Nat2Z.id, app_nth2, Nat.sub_diag by lia; reflexivity).
        apply (wp_ok _ _ _ _ Hp). apply wp_ret. cbn [fst snd]. now destruct (Z.leb_spec (zlen pre + 1) (zlen pre)); [lia|].
      * assert (I : In (zget [] v k) pre).
        { unfold zget, v. rewrite app_nth1 by (unfold zlen in *; lia). apply nth_In. unfold zlen in *; lia. }
        apply (wp_ok _ _ _ _ (Hpre _ I)). apply wp_ret. cbn [fst snd]. now destruct (Z.leb_spec (k + 1) (zlen pre)); [|lia].
    + cbn [snd]. apply wp_ret. now destruct (Z.leb_spec (k + 1) (zlen pre)); [lia|].
  - intros s ->. now destruct (Z.leb_spec (zlen v) (zlen pre)); [lia|].
Qed.

Lemma assert_out file line d v :
  (v <> 0 -> mlkem_debug_assert file line d v = ([], false)) /\
  (v = 0 -> exists s, mlkem_debug_assert file line d v = ([s], true) /\
    line_for file line (String.concat "" ["Assertion failed: "; d; " (value 0)"]) s).
Proof.
  unfold mlkem_debug_assert. split.
  - intros N. now destruct (Z.eqb_spec v 0).
  - intros ->. eexists. split; [reflexivity|]. apply print_line.
Qed.
