(** * Proof rules for the semantics of CSem.v (no model content) *)

From Coq Require Import ZArith List Bool Lia ZifyBool.
From Verif Require Import CSem Spec202.
Import ListNotations.
Open Scope Z_scope.

Ltac Zify.zify_post_hook ::= Z.to_euclidean_division_equations.

(** ** Lists indexed by Z *)

Definition zget {A} (d : A) (l : list A) (i : Z) : A := nth (Z.to_nat i) l d.
Definition zset {A} (l : list A) (i : Z) (x : A) : list A :=
  firstn (Z.to_nat i) l ++ x :: skipn (S (Z.to_nat i)) l.

Lemma zlen_nonneg {A} (l : list A) : 0 <= zlen l.
Proof. unfold zlen; lia. Qed.
Lemma zlen_nil {A} : zlen (@nil A) = 0. Proof. reflexivity. Qed.
Lemma zlen_cons {A} (x : A) l : zlen (x :: l) = 1 + zlen l.
Proof. unfold zlen; cbn [length]; lia. Qed.
Lemma zlen_app {A} (a b : list A) : zlen (a ++ b) = zlen a + zlen b.
Proof. unfold zlen; rewrite app_length; lia. Qed.
Lemma zlen_map {A B} (f : A -> B) l : zlen (map f l) = zlen l.
Proof. unfold zlen; now rewrite map_length. Qed.
Lemma zlen_range m : 0 <= m -> zlen (range m) = m.
Proof. intros; unfold zlen, range; rewrite map_length, seq_length; lia. Qed.
Lemma zlen_repeat {A} (x : A) m : zlen (repeat x m) = Z.of_nat m.
Proof. unfold zlen; now rewrite repeat_length. Qed.
Lemma zlen_firstn {A} (l : list A) m : 0 <= m <= zlen l -> zlen (firstn (Z.to_nat m) l) = m.
Proof. unfold zlen; intros; rewrite firstn_length; lia. Qed.
Lemma zlen_skipn {A} (l : list A) m : 0 <= m <= zlen l ->
  zlen (skipn (Z.to_nat m) l) = zlen l - m.
Proof. unfold zlen; intros; rewrite skipn_length; lia. Qed.
Lemma zlen_slice {A} (l : list A) a b : 0 <= a <= b -> b <= zlen l ->
  zlen (slice l a b) = b - a.
Proof. intros; unfold slice; unfold zlen in *; rewrite firstn_length, skipn_length; lia. Qed.
Lemma zlen_set {A} (l : list A) i x : 0 <= i < zlen l -> zlen (zset l i x) = zlen l.
Proof.
  unfold zset, zlen; intros; rewrite app_length, firstn_length; cbn [length].
  rewrite skipn_length; lia.
Qed.

Lemma zget_set {A} (d : A) l i x j : 0 <= i < zlen l -> 0 <= j ->
  zget d (zset l i x) j = if j =? i then x else zget d l j.
Proof.
  unfold zget, zset, zlen; intros Hi Hj.
  destruct (j =? i) eqn:E.
  - assert (j = i) by lia; subst j.
    rewrite app_nth2 by (rewrite firstn_length; lia).
    rewrite firstn_length, Nat.min_l by lia. now rewrite Nat.sub_diag.
  - destruct (Z_lt_le_dec j i).
    + rewrite app_nth1 by (rewrite firstn_length; lia).
      rewrite <- (firstn_skipn (Z.to_nat i) l) at 2.
      rewrite app_nth1 by (rewrite firstn_length; lia). reflexivity.
    + rewrite app_nth2 by (rewrite firstn_length; lia).
      rewrite firstn_length, Nat.min_l by lia.
      replace (Z.to_nat j - Z.to_nat i)%nat with (S (Z.to_nat j - Z.to_nat i - 1)) by lia.
      cbn [nth].
      rewrite <- (firstn_skipn (S (Z.to_nat i)) l) at 2.
      rewrite app_nth2 by (rewrite firstn_length; lia).
      rewrite firstn_length, Nat.min_l by lia. f_equal; lia.
Qed.

Lemma zget_map {A B} (f : A -> B) d d' l i : 0 <= i < zlen l ->
  zget d' (map f l) i = f (zget d l i).
Proof.
  unfold zget, zlen; intros. rewrite (nth_indep _ d' (f d)) by (rewrite map_length; lia).
  apply map_nth.
Qed.
Lemma zget_range i m : 0 <= i < m -> zget 0 (range m) i = i.
Proof.
  intros. unfold range.
  rewrite (zget_map Z.of_nat 0%nat) by (unfold zlen; rewrite seq_length; lia).
  unfold zget; rewrite seq_nth by lia; lia.
Qed.
Lemma zget_map_range {B} (f : Z -> B) d i m : 0 <= i < m ->
  zget d (map f (range m)) i = f i.
Proof.
  intros. rewrite (zget_map f 0) by (rewrite zlen_range; lia).
  now rewrite zget_range.
Qed.
Lemma zget_app {A} (d : A) a b i : 0 <= i ->
  zget d (a ++ b) i = if i <? zlen a then zget d a i else zget d b (i - zlen a).
Proof.
  unfold zget, zlen; intros. destruct (i <? _) eqn:E.
  - rewrite app_nth1 by lia; reflexivity.
  - rewrite app_nth2 by lia. f_equal; lia.
Qed.
Lemma zget_cons {A} (d x : A) l i : 0 <= i ->
  zget d (x :: l) i = if i =? 0 then x else zget d l (i - 1).
Proof.
  intros. unfold zget. destruct (i =? 0) eqn:E.
  - replace i with 0 by lia; reflexivity.
  - replace (Z.to_nat i) with (S (Z.to_nat (i - 1))) by lia; reflexivity.
Qed.
Lemma zget_firstn {A} (d : A) l m i : 0 <= i < m -> zget d (firstn (Z.to_nat m) l) i = zget d l i.
Proof.
  unfold zget; intros. destruct (le_lt_dec (length l) (Z.to_nat i)).
  - rewrite !nth_overflow; auto. rewrite firstn_length; lia.
  - rewrite <- (firstn_skipn (Z.to_nat m) l) at 2.
    rewrite app_nth1; auto. rewrite firstn_length; lia.
Qed.
Lemma zget_skipn {A} (d : A) l m i : 0 <= m -> 0 <= i ->
  zget d (skipn (Z.to_nat m) l) i = zget d l (m + i).
Proof.
  unfold zget; intros.
  destruct (le_lt_dec (length l) (Z.to_nat m)).
  - rewrite !nth_overflow; auto; try lia. rewrite skipn_length; lia.
  - rewrite <- (firstn_skipn (Z.to_nat m) l) at 2.
    rewrite app_nth2; rewrite firstn_length; try lia.
    f_equal; lia.
Qed.
Lemma zget_slice {A} (d : A) l a b i : 0 <= a -> 0 <= i < b - a ->
  zget d (slice l a b) i = zget d l (a + i).
Proof. intros; unfold slice; rewrite zget_firstn, zget_skipn; auto; lia. Qed.

Lemma zlist_ext {A} (d : A) a b : zlen a = zlen b ->
  (forall i, 0 <= i < zlen a -> zget d a i = zget d b i) -> a = b.
Proof.
  unfold zlen, zget; intros Hl H.
  apply (nth_ext _ _ d d); [lia|].
  intros i Hi. specialize (H (Z.of_nat i)). rewrite !Nat2Z.id in H. apply H; lia.
Qed.
Lemma zmap_get {A B} (d : A) (f : A -> B) l :
  map f l = map (fun i => f (zget d l i)) (range (zlen l)).
Proof.
  destruct l as [|a l0]; [reflexivity|].
  apply (zlist_ext (f d)).
  - rewrite !zlen_map, zlen_range; auto. apply zlen_nonneg.
  - intros i Hi; rewrite zlen_map in Hi.
    rewrite (zget_map _ d), zget_map_range; auto.
Qed.
Lemma zlist_get {A} (d : A) l : l = map (zget d l) (range (zlen l)).
Proof. rewrite <- (map_id l) at 1. now rewrite (zmap_get d). Qed.

Lemma range_app a b : 0 <= a -> 0 <= b -> range (a + b) = range a ++ map (Z.add a) (range b).
Proof.
  intros. apply (zlist_ext 0).
  - rewrite zlen_app, zlen_map, !zlen_range; lia.
  - intros i Hi. rewrite zlen_range in Hi by lia.
    rewrite zget_range, zget_app by lia. rewrite zlen_range by lia.
    destruct (i <? a) eqn:E.
    + now rewrite zget_range by lia.
    + rewrite zget_map_range by lia. lia.
Qed.
Lemma range_S m : 0 <= m -> range (m + 1) = range m ++ [m].
Proof. intros. rewrite range_app by lia. f_equal. change (range 1) with [0]. cbn; f_equal; lia. Qed.
Lemma range_0 : range 0 = []. Proof. reflexivity. Qed.
Lemma in_range i m : In i (range m) <-> 0 <= i < m.
Proof.
  unfold range; rewrite in_map_iff; split.
  - intros (x & <- & Hx). apply in_seq in Hx; lia.
  - intros. exists (Z.to_nat i). split; [lia|]. apply in_seq; lia.
Qed.
Lemma map_range_ext {B} (f g : Z -> B) m : (forall i, 0 <= i < m -> f i = g i) ->
  map f (range m) = map g (range m).
Proof. intros; apply map_ext_in; intros; apply H; now apply in_range. Qed.

Lemma Forall_zget {A} (P : A -> Prop) d l : Forall P l <-> (forall i, 0 <= i < zlen l -> P (zget d l i)).
Proof.
  rewrite Forall_forall; split.
  - intros H i Hi. apply H. apply nth_In. unfold zlen in Hi; lia.
  - intros H x Hx. destruct (In_nth _ _ d Hx) as (k & Hk & <-).
    specialize (H (Z.of_nat k)). unfold zget in H; rewrite Nat2Z.id in H. apply H.
    unfold zlen; lia.
Qed.
Lemma Forall_map_range {B} (P : B -> Prop) (f : Z -> B) m :
  (forall i, 0 <= i < m -> P (f i)) -> Forall P (map f (range m)).
Proof.
  intros. apply Forall_forall; intros x Hx. apply in_map_iff in Hx as (i & <- & Hi).
  apply H. now apply in_range.
Qed.
Lemma Forall_map_imp {A B} (P : A -> Prop) (Q : B -> Prop) (f : A -> B) l :
  Forall P l -> (forall x, P x -> Q (f x)) -> Forall Q (map f l).
Proof. intros H HI; induction H; cbn; constructor; auto. Qed.

Lemma flat_map_app' {A B} (f : A -> list B) a b : flat_map f (a ++ b) = flat_map f a ++ flat_map f b.
Proof. induction a; cbn; auto. rewrite IHa. now rewrite app_assoc. Qed.

Lemma zlen_flat_map {A B} (f : A -> list B) m l : (forall x, In x l -> zlen (f x) = m) ->
  zlen (flat_map f l) = m * zlen l.
Proof.
  induction l; intros; cbn [flat_map].
  - change (0 = m * 0); lia.
  - rewrite zlen_app, zlen_cons, IHl, H; try lia; intros; try apply H; cbn; auto.
Qed.
Lemma zget_flat_map {B} (d : B) (f : Z -> list B) m nn i : 0 < m -> 0 <= i < m * nn ->
  (forall x, 0 <= x < nn -> zlen (f x) = m) ->
  zget d (flat_map f (range nn)) i = zget d (f (i / m)) (i mod m).
Proof.
  intros Hm Hi Hf.
  assert (Hn : 0 <= nn) by nia.
  revert i Hi. revert Hf. pattern nn. apply natlike_ind; auto; [intros; lia|].
  intros x Hx IH Hf i Hi.
  replace (Z.succ x) with (x + 1) in * by lia.
  rewrite range_S, flat_map_app' by lia.
  rewrite zget_app by lia.
  rewrite (zlen_flat_map _ m) by (intros y Hy; apply in_range in Hy; apply Hf; lia).
  rewrite zlen_range by lia.
  destruct (i <? m * x) eqn:E.
  - apply IH; [intros; apply Hf|]; lia.
  - cbn [flat_map]. rewrite app_nil_r.
    assert (i / m = x) by (symmetry; apply Z.div_unique with (i - m * x); lia).
    rewrite H. f_equal. rewrite Z.mod_eq by lia. rewrite H; lia.
Qed.

Lemma skipn_zget {A} (d : A) (l : list A) i : 0 <= i < zlen l ->
  skipn (Z.to_nat i) l = zget d l i :: skipn (Z.to_nat (i + 1)) l.
Proof.
  intros. unfold zlen in *.
  apply (zlist_ext d).
  - rewrite zlen_cons. unfold zlen; rewrite !skipn_length; lia.
  - intros j Hj. unfold zlen in Hj; rewrite skipn_length in Hj.
    rewrite zget_cons by lia. destruct (j =? 0) eqn:E.
    + rewrite zget_skipn by lia. f_equal; lia.
    + rewrite !zget_skipn by lia. f_equal; lia.
Qed.
Lemma skipn_skipn' {A} (x y : nat) (l : list A) : skipn x (skipn y l) = skipn (x + y) l.
Proof.
  revert l; induction y; intros l; cbn [skipn]; [now rewrite Nat.add_0_r|].
  destruct l; [now rewrite !skipn_nil|]. rewrite IHy, Nat.add_succ_r. reflexivity.
Qed.
Lemma skipn_slice {A} (l : list A) i m : 0 <= i -> 0 <= m -> i + m <= zlen l ->
  skipn (Z.to_nat i) l = slice l i (i + m) ++ skipn (Z.to_nat (i + m)) l.
Proof.
  intros. unfold slice. replace (i + m - i) with m by lia.
  rewrite <- (firstn_skipn (Z.to_nat m) (skipn (Z.to_nat i) l)) at 1. f_equal.
  rewrite skipn_skipn'. f_equal. lia.
Qed.
Lemma slice_all {A} (l : list A) : slice l 0 (zlen l) = l.
Proof.
  unfold slice, zlen. rewrite Z.sub_0_r, Nat2Z.id. cbn [Z.to_nat skipn]. apply firstn_all.
Qed.
Lemma slice_app_l {A} (a b : list A) : slice (a ++ b) 0 (zlen a) = a.
Proof.
  unfold slice, zlen. rewrite Z.sub_0_r, Nat2Z.id. cbn [Z.to_nat skipn].
  rewrite firstn_app, firstn_all, Nat.sub_diag. cbn. apply app_nil_r.
Qed.
Lemma slice_app_r {A} (a b : list A) : slice (a ++ b) (zlen a) (zlen a + zlen b) = b.
Proof.
  unfold slice, zlen. rewrite Nat2Z.id.
  rewrite skipn_app, skipn_all, Nat.sub_diag. cbn [skipn app].
  replace (Z.to_nat _) with (length b) by lia. apply firstn_all.
Qed.
Lemma slice_app_mid {A} (a b c : list A) : slice (a ++ b ++ c) (zlen a) (zlen a + zlen b) = b.
Proof.
  unfold slice, zlen. rewrite Nat2Z.id.
  rewrite skipn_app, skipn_all, Nat.sub_diag. cbn [skipn app].
  replace (Z.to_nat _) with (length b) by lia.
  rewrite firstn_app, firstn_all, Nat.sub_diag. cbn. apply app_nil_r.
Qed.

(** ** Weakest preconditions

    [wpn N m Q]: [m] has no undefined behaviour; if it delivers a value the value
    satisfies [Q]; if it runs out of fuel, [N] holds. *)

Definition wpn {A} (N : Prop) (m : M A) (Q : A -> Prop) : Prop :=
  match val m with Ok a => Q a | UB _ => False | NoFuel => N end.
Notation wp := (wpn False).

Lemma wp_ret {A} N (a : A) (Q : A -> Prop) : Q a -> wpn N (ret a) Q.
Proof. auto. Qed.
Lemma wp_bind {A B} N (m : M A) (f : A -> M B) Q :
  wpn N m (fun a => wpn N (f a) Q) -> wpn N (bind m f) Q.
Proof.
  unfold wpn, val, bind. destruct m as [[a|r|] t]; cbn; auto.
  destruct (f a) as [o t']; auto.
Qed.
Lemma wp_mono {A} N (m : M A) (Q Q' : A -> Prop) :
  wpn N m Q -> (forall a, Q a -> Q' a) -> wpn N m Q'.
Proof. unfold wpn; destruct (val m); auto. Qed.
Lemma wp_weaken {A} (N N' : Prop) (m : M A) (Q Q' : A -> Prop) :
  wpn N m Q -> (N -> N') -> (forall a, Q a -> Q' a) -> wpn N' m Q'.
Proof. unfold wpn; destruct (val m); auto. Qed.
Lemma wp_ok {A} N (m : M A) a (Q : A -> Prop) : val m = Ok a -> Q a -> wpn N m Q.
Proof. unfold wpn; intros -> ; auto. Qed.
Lemma wp_val {A} (m : M A) a : wp m (fun x => x = a) -> val m = Ok a.
Proof. unfold wpn; destruct (val m); try tauto. now intros ->. Qed.
Lemma wp_ex {A} (m : M A) (Q : A -> Prop) : wp m Q -> exists a, val m = Ok a /\ Q a.
Proof. unfold wpn; destruct (val m); try tauto. eauto. Qed.
Lemma wp_emit N e (Q : unit -> Prop) : Q tt -> wpn N (emit e) Q.
Proof. auto. Qed.
Lemma wp_branch {A} N b (m1 m2 : M A) Q :
  (b = true -> wpn N m1 Q) -> (b = false -> wpn N m2 Q) -> wpn N (branch b m1 m2) Q.
Proof. intros; unfold branch; apply wp_bind, wp_emit; destruct b; auto. Qed.

Lemma wp_i32 N x (Q : Z -> Prop) : -2147483648 <= x < 2147483648 -> Q x -> wpn N (i32 x) Q.
Proof. intros; unfold i32. replace (_ && _) with true by lia. now apply wp_ret. Qed.
Lemma wp_i16 N x (Q : Z -> Prop) : -32768 <= x < 32768 -> Q x -> wpn N (to_i16 x) Q.
Proof. intros; unfold to_i16. replace (_ && _) with true by lia. now apply wp_ret. Qed.
Lemma wp_div N a b (Q : Z -> Prop) : Q (a / b) -> wpn N (div_c a b) Q.
Proof. intros; unfold div_c. apply wp_bind, wp_emit, wp_ret; auto. Qed.
Lemma wp_modc N a b (Q : Z -> Prop) : Q (a mod b) -> wpn N (mod_c a b) Q.
Proof. intros; unfold mod_c. apply wp_bind, wp_emit, wp_ret; auto. Qed.

Lemma nth_error_zget {A} (d : A) l i : 0 <= i < zlen l ->
  nth_error l (Z.to_nat i) = Some (zget d l i).
Proof. intros; unfold zget, zlen in *. apply nth_error_nth'. lia. Qed.
Lemma upd_zset {A} (l : list A) i x : 0 <= i < zlen l -> upd l (Z.to_nat i) x = Some (zset l i x).
Proof.
  unfold zset, zlen; intros. assert (Hn : (Z.to_nat i < length l)%nat) by lia.
  clear H; revert Hn; generalize (Z.to_nat i) as k; induction l; intros k Hk;
    cbn in Hk; [lia|].
  destruct k; cbn; auto. rewrite IHl by lia. reflexivity.
Qed.

Lemma wp_aget {A} (d : A) N l i (Q : A -> Prop) : 0 <= i < zlen l -> Q (zget d l i) ->
  wpn N (aget l i) Q.
Proof.
  intros. unfold aget. apply wp_bind, wp_emit.
  replace (i <? 0) with false by lia. rewrite (nth_error_zget d) by auto. now apply wp_ret.
Qed.
Lemma wp_aset {A} N (l : list A) i x (Q : list A -> Prop) : 0 <= i < zlen l -> Q (zset l i x) ->
  wpn N (aset l i x) Q.
Proof.
  intros. unfold aset. apply wp_bind, wp_emit.
  replace (i <? 0) with false by lia. rewrite upd_zset by auto. now apply wp_ret.
Qed.
Lemma wp_aslice {A} N (l : list A) o m (Q : list A -> Prop) :
  0 <= o -> 0 <= m -> o + m <= zlen l -> Q (slice l o (o + m)) -> wpn N (aslice l o m) Q.
Proof.
  intros. unfold aslice. apply wp_bind, wp_emit. unfold zlen in *.
  replace (_ && _) with true by lia. apply wp_ret. unfold slice in H2.
  now replace (o + m - o) with m in H2 by lia.
Qed.
Definition splice {A} (l : list A) (o : Z) (new : list A) : list A :=
  firstn (Z.to_nat o) l ++ new ++ skipn (Z.to_nat o + length new) l.
Lemma wp_asplice {A} N (l : list A) o new (Q : list A -> Prop) :
  0 <= o -> o + zlen new <= zlen l -> Q (splice l o new) -> wpn N (asplice l o new) Q.
Proof.
  intros. unfold asplice. apply wp_bind, wp_emit. unfold zlen in *.
  replace (_ && _) with true by lia. now apply wp_ret.
Qed.
Lemma splice_app {A} (a b c new : list A) o : zlen a = o -> zlen b = zlen new ->
  splice (a ++ b ++ c) o new = a ++ new ++ c.
Proof.
  unfold zlen, splice; intros <- H. rewrite Nat2Z.id. f_equal.
  - rewrite firstn_app, firstn_all, Nat.sub_diag. cbn. apply app_nil_r.
  - f_equal. rewrite app_assoc. replace (length a + length new)%nat with (length (a ++ b)) by
      (rewrite app_length; lia).
    rewrite skipn_app, skipn_all, Nat.sub_diag. reflexivity.
Qed.
Lemma zlen_splice {A} (l : list A) o new : 0 <= o -> o + zlen new <= zlen l ->
  zlen (splice l o new) = zlen l.
Proof.
  unfold splice, zlen; intros. rewrite !app_length, firstn_length, skipn_length. lia.
Qed.
Lemma wp_memcpy {A} N (dst : list A) doff src soff m (Q : list A -> Prop) :
  0 <= soff -> 0 <= m -> soff + m <= zlen src -> 0 <= doff -> doff + m <= zlen dst ->
  Q (splice dst doff (slice src soff (soff + m))) ->
  wpn N (memcpy dst doff src soff m) Q.
Proof.
  intros. unfold memcpy. apply wp_bind, wp_emit, wp_bind.
  apply wp_aslice; auto. apply wp_asplice; auto.
  rewrite zlen_slice by lia. lia.
Qed.

Lemma wp_for_n {S} N (I : Z -> S -> Prop) n : forall i step body s (Q : S -> Prop),
  I 0 s ->
  (forall k s, 0 <= k < Z.of_nat n -> I k s -> wpn N (body (i + k * step) s) (I (k + 1))) ->
  (forall s, I (Z.of_nat n) s -> Q s) ->
  wpn N (for_n n i step body s) Q.
Proof.
  revert I; induction n as [|n IH]; intros I i step body s Q H0 Hs Hq; cbn [for_n].
  - apply wp_ret; auto.
  - apply wp_bind. eapply wp_mono.
    + replace i with (i + 0 * step) by lia. apply Hs; auto; lia.
    + intros s' Hs'. apply (IH (fun k => I (k + 1))); auto.
      * intros k s'' Hk HI. replace (i + step + k * step) with (i + (k + 1) * step) by lia.
        apply Hs; auto; lia.
      * intros s'' HI. apply Hq. now replace (Z.of_nat (Datatypes.S n)) with (Z.of_nat n + 1) by lia.
Qed.

(** Step 1 loops: the invariant is indexed by the loop variable. *)
Lemma wp_for {S} N (I : Z -> S -> Prop) lo hi body s (Q : S -> Prop) :
  lo <= hi -> I lo s ->
  (forall i s, lo <= i < hi -> I i s -> wpn N (body i s) (I (i + 1))) ->
  (forall s, I hi s -> Q s) ->
  wpn N (for_up lo hi 1 body s) Q.
Proof.
  intros Hlh H0 Hs Hq. unfold for_up. apply wp_bind, wp_emit.
  replace ((hi - lo + 1 - 1) / 1) with (hi - lo) by (rewrite Z.div_1_r; lia).
  apply (wp_for_n N (fun k => I (lo + k))).
  - now replace (lo + 0) with lo by lia.
  - intros k s' Hk HI. replace (lo + k * 1) with (lo + k) by lia.
    replace (lo + (k + 1)) with (lo + k + 1) by lia. apply Hs; auto; lia.
  - intros s' HI. apply Hq. now replace hi with (lo + Z.of_nat (Z.to_nat (hi - lo))) by lia.
Qed.

(** General loops: the invariant is indexed by the iteration number. *)
Lemma wp_for_step {S} N (I : Z -> S -> Prop) lo hi step cnt body s (Q : S -> Prop) :
  cnt = (hi - lo + step - 1) / step -> 0 <= cnt -> I 0 s ->
  (forall k s, 0 <= k < cnt -> I k s -> wpn N (body (lo + k * step) s) (I (k + 1))) ->
  (forall s, I cnt s -> Q s) ->
  wpn N (for_up lo hi step body s) Q.
Proof.
  intros -> Hlh H0 Hs Hq. unfold for_up. apply wp_bind, wp_emit.
  apply (wp_for_n N I); auto.
  - intros; apply Hs; auto; lia.
  - intros s' HI. apply Hq. now rewrite Z2Nat.id in HI by auto.
Qed.

(** A while loop whose number of iterations is known. *)
Lemma wp_while {S} N (I : Z -> S -> Prop) cnt fuel cond body s (Q : S -> Prop) :
  0 <= cnt -> (Z.to_nat cnt <= fuel)%nat -> I 0 s ->
  (forall k s, 0 <= k < cnt -> I k s -> cond s = true /\ wpn N (body s) (I (k + 1))) ->
  (forall s, I cnt s -> cond s = false /\ Q s) ->
  wpn N (while fuel cond body s) Q.
Proof.
  intros Hc Hf H0 Hs Hq.
  assert (G : forall n fuel j s, (n <= fuel)%nat -> 0 <= j -> j + Z.of_nat n = cnt -> I j s ->
              wpn N (while fuel cond body s) Q).
  { clear s fuel Hf H0. induction n as [|n IH]; intros fuel j s Hf Hj Hn HI.
    - replace j with cnt in HI by lia. apply Hq in HI as [Hcond HQ].
      destruct fuel; cbn [while]; apply wp_bind, wp_emit; rewrite Hcond; now apply wp_ret.
    - destruct fuel as [|fuel]; [lia|]. cbn [while]. apply wp_bind, wp_emit.
      destruct (Hs j s ltac:(lia) HI) as [Hcond Hb]. rewrite Hcond.
      apply wp_bind. eapply wp_mono; [exact Hb|]. intros s' HI'.
      apply (IH _ (j + 1)); auto; lia. }
  apply (G (Z.to_nat cnt) fuel 0); auto; lia.
Qed.

(** A while loop with an invariant and a decreasing measure. *)
Lemma wp_while_measure {S} N (I : S -> Prop) (mu : S -> Z) fuel cond body s (Q : S -> Prop) :
  I s -> mu s <= Z.of_nat fuel ->
  (forall s, I s -> cond s = true ->
     0 < mu s /\ wpn N (body s) (fun s' => I s' /\ mu s' < mu s)) ->
  (forall s, I s -> cond s = false -> Q s) ->
  wpn N (while fuel cond body s) Q.
Proof.
  intros H0 Hm Hs Hq. revert s H0 Hm.
  induction fuel as [|fuel IH]; intros s H0 Hm; cbn [while]; apply wp_bind, wp_emit;
    destruct (cond s) eqn:E; try (apply wp_ret; auto; fail).
  - destruct (Hs s H0 E); lia.
  - destruct (Hs s H0 E) as [Hp Hb].
    apply wp_bind. eapply wp_mono; [exact Hb|]. intros s' [HI Hlt]. apply IH; auto; lia.
Qed.

(** ** Debug checks *)

Lemma wp_dbg N b (Q : unit -> Prop) : b = true -> Q tt -> wpn N (dbg b) Q.
Proof. intros ->; unfold dbg. apply wp_ret. Qed.
Lemma in_bound_spec b x : in_bound b x = true <-> - b < x < b.
Proof. unfold in_bound; lia. Qed.
Lemma in_ubound_spec b x : in_ubound b x = true <-> 0 <= x < b.
Proof. unfold in_ubound; lia. Qed.
Definition bounded (b : Z) (l : list Z) : Prop := Forall (fun x => - b < x < b) l.
Definition ubounded (b : Z) (l : list Z) : Prop := Forall (fun x => 0 <= x < b) l.
Lemma wp_SCALAR_BOUND N x b (Q : unit -> Prop) : - b < x < b -> Q tt -> wpn N (SCALAR_BOUND x b) Q.
Proof. intros; apply wp_dbg; auto. now apply in_bound_spec. Qed.
Lemma forallb_bounded b l : forallb (in_bound b) l = true <-> bounded b l.
Proof.
  unfold bounded; rewrite forallb_forall, Forall_forall.
  split; intros H x Hx; apply in_bound_spec; auto.
Qed.
Lemma forallb_ubounded b l : forallb (in_ubound b) l = true <-> ubounded b l.
Proof.
  unfold ubounded; rewrite forallb_forall, Forall_forall.
  split; intros H x Hx; apply in_ubound_spec; auto.
Qed.
Lemma wp_POLY_BOUND N l b (Q : unit -> Prop) : bounded b l -> Q tt -> wpn N (POLY_BOUND l b) Q.
Proof. intros; apply wp_dbg; auto. now apply forallb_bounded. Qed.
Lemma wp_POLY_UBOUND N l b (Q : unit -> Prop) : ubounded b l -> Q tt -> wpn N (POLY_UBOUND l b) Q.
Proof. intros; apply wp_dbg; auto. now apply forallb_ubounded. Qed.
Lemma wp_POLYVEC_BOUND N v b (Q : unit -> Prop) : Forall (bounded b) v -> Q tt -> wpn N (POLYVEC_BOUND v b) Q.
Proof.
  intros H HQ; apply wp_dbg; auto. apply forallb_forall; intros x Hx.
  apply forallb_bounded. rewrite Forall_forall in H; auto.
Qed.
Lemma wp_POLYVEC_UBOUND N v b (Q : unit -> Prop) : Forall (ubounded b) v -> Q tt -> wpn N (POLYVEC_UBOUND v b) Q.
Proof.
  intros H HQ; apply wp_dbg; auto. apply forallb_forall; intros x Hx.
  apply forallb_ubounded. rewrite Forall_forall in H; auto.
Qed.
Lemma bounded_weaken b b' l : b <= b' -> bounded b l -> bounded b' l.
Proof. unfold bounded; intros; eapply Forall_impl; [|eauto]. cbn; intros; lia. Qed.
Lemma ubounded_weaken b b' l : b <= b' -> ubounded b l -> ubounded b' l.
Proof. unfold ubounded; intros; eapply Forall_impl; [|eauto]. cbn; intros; lia. Qed.
Lemma ubounded_bounded b l : ubounded b l -> bounded b l.
Proof. unfold bounded, ubounded; intros; eapply Forall_impl; [|eauto]. cbn; intros; lia. Qed.

(** ** Uninitialised arrays *)
Lemma zlen_uninit J k m : 0 <= m -> zlen (uninit J k m) = m.
Proof. intros; unfold uninit, zlen; rewrite map_length, seq_length; lia. Qed.
Lemma zlen_uninit2 J k a b : 0 <= a -> zlen (uninit2 J k a b) = a.
Proof. intros; unfold uninit2, zlen; rewrite map_length, seq_length; lia. Qed.
Lemma uninit2_lens J k a b : 0 <= b -> Forall (fun l => zlen l = b) (uninit2 J k a b).
Proof.
  intros; unfold uninit2. apply Forall_forall; intros x Hx.
  apply in_map_iff in Hx as (i & <- & _). now apply zlen_uninit.
Qed.

(** ** Loops that fill an array from left to right *)

(** Sequential writes: writing just behind the prefix [pre]. *)
Lemma wp_aset_app {A} N (pre : list A) x rest i v (Q : list A -> Prop) :
  zlen pre = i -> Q ((pre ++ [v]) ++ rest) -> wpn N (aset (pre ++ x :: rest) i v) Q.
Proof.
  intros Hi HQ. apply wp_aset.
  - rewrite zlen_app, zlen_cons. pose proof (zlen_nonneg pre); pose proof (zlen_nonneg rest); lia.
  - replace (zset _ _ _) with ((pre ++ [v]) ++ rest); auto.
    unfold zset. subst i. unfold zlen; rewrite Nat2Z.id.
    rewrite firstn_app, firstn_all, Nat.sub_diag. cbn [firstn]. rewrite app_nil_r.
    rewrite <- app_assoc. cbn [app]. f_equal. f_equal.
    replace (S (length pre)) with (length (pre ++ [x])) by (rewrite app_length; cbn; lia).
    replace (pre ++ x :: rest) with ((pre ++ [x]) ++ rest) by (rewrite <- app_assoc; reflexivity).
    now rewrite skipn_app, skipn_all, Nat.sub_diag.
Qed.

Lemma wp_for_chunks {A} N (c : Z -> list A) m nn body (r0 : list A) (Q : list A -> Prop) :
  0 <= m -> 0 <= nn -> m * nn <= zlen r0 ->
  (forall i, 0 <= i < nn -> zlen (c i) = m) ->
  (forall i pre mid rest, 0 <= i < nn -> zlen pre = m * i -> zlen mid = m ->
     wpn N (body i (pre ++ mid ++ rest)) (fun r => r = pre ++ c i ++ rest)) ->
  Q (flat_map c (range nn) ++ skipn (Z.to_nat (m * nn)) r0) ->
  wpn N (for_up 0 nn 1 body r0) Q.
Proof.
  intros Hm Hn Hl Hc Hb HQ.
  apply (wp_for N (fun i r => r = flat_map c (range i) ++ skipn (Z.to_nat (m * i)) r0)); auto.
  - rewrite range_0. cbn [flat_map app]. now rewrite Z.mul_0_r.
  - intros i s Hi ->.
    rewrite (skipn_slice r0 (m * i) m) by nia.
    eapply wp_mono.
    + apply Hb; auto.
      * rewrite (zlen_flat_map _ m); [rewrite zlen_range; lia|].
        intros x Hx; apply in_range in Hx; apply Hc; lia.
      * rewrite zlen_slice; nia.
    + intros r ->. rewrite range_S by lia. rewrite flat_map_app'. cbn [flat_map].
      rewrite app_nil_r, <- app_assoc. do 3 f_equal. lia.
  - intros s ->. exact HQ.
Qed.

Lemma flat_map_single {A B} (f : A -> B) l : flat_map (fun i => [f i]) l = map f l.
Proof. induction l; cbn; congruence. Qed.

Lemma wp_for_fill {A} N (f : Z -> A) nn body (r0 : list A) (Q : list A -> Prop) :
  0 <= nn <= zlen r0 ->
  (forall i pre x rest, 0 <= i < nn -> zlen pre = i ->
     wpn N (body i (pre ++ x :: rest)) (fun r => r = pre ++ f i :: rest)) ->
  Q (map f (range nn) ++ skipn (Z.to_nat nn) r0) ->
  wpn N (for_up 0 nn 1 body r0) Q.
Proof.
  intros Hn Hb HQ. apply (wp_for_chunks N (fun i => [f i]) 1); auto; try lia.
  - intros i pre mid rest Hi Hp Hm. destruct mid as [|x [|y mid]]; rewrite ?zlen_cons, ?zlen_nil in Hm; try lia.
    + cbn [app]. apply Hb; auto; lia.
    + pose proof (zlen_nonneg mid); lia.
  - rewrite flat_map_single. now rewrite Z.mul_1_l.
Qed.

(** Loops that rewrite an array in place, element by element. *)
Lemma wp_for_inplace {A} (d : A) N (f : Z -> A -> A) body (r0 : list A) nn (Q : list A -> Prop) :
  zlen r0 = nn ->
  (forall i pre rest, 0 <= i < nn -> zlen pre = i ->
     wpn N (body i (pre ++ zget d r0 i :: rest)) (fun r => r = pre ++ f i (zget d r0 i) :: rest)) ->
  Q (map (fun i => f i (zget d r0 i)) (range nn)) ->
  wpn N (for_up 0 nn 1 body r0) Q.
Proof.
  intros Hn Hb HQ. pose proof (zlen_nonneg r0).
  apply (wp_for N (fun i r => r = map (fun i => f i (zget d r0 i)) (range i)
                                  ++ skipn (Z.to_nat i) r0)); auto; try lia.
  - intros i s Hi ->. rewrite (skipn_zget d) by lia.
    eapply wp_mono.
    + apply Hb; auto. rewrite zlen_map, zlen_range; lia.
    + intros r ->. rewrite range_S by lia. rewrite map_app. cbn [map].
      now rewrite <- app_assoc.
  - intros s ->. rewrite <- Hn. unfold zlen at 2; rewrite Nat2Z.id, skipn_all, app_nil_r.
    now rewrite Hn.
Qed.

(** Reading the element just behind the prefix. *)
Lemma wp_aget_app {A} N (pre : list A) x rest i (Q : A -> Prop) :
  zlen pre = i -> Q x -> wpn N (aget (pre ++ x :: rest) i) Q.
Proof.
  intros Hi HQ. apply (wp_aget x).
  - rewrite zlen_app, zlen_cons. pose proof (zlen_nonneg pre); pose proof (zlen_nonneg rest); lia.
  - pose proof (zlen_nonneg pre). rewrite zget_app by lia. replace (i <? zlen pre) with false by lia.
    rewrite zget_cons by lia. now replace (i - zlen pre =? 0) with true by lia.
Qed.

Global Opaque range.
Arguments zget : simpl never.
Arguments zset : simpl never.
Arguments zlen : simpl never.
Arguments range : simpl never.
