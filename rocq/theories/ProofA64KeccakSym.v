(** * Symbolic execution of the AArch64 Keccak routines *)

From Coq Require Import ZArith List Bool Lia.
From Verif Require Import ModelA64Keccak CSem.
Import ListNotations.
Open Scope Z_scope.
Ltac Zify.zify_post_hook ::= idtac.

(** ** Symbolic words *)

Inductive sw : Type :=
| Leaf (i : N)
| Num (z : Z)
| Op (o : word_op) (a b : sw)
| Ror (a : sw) (n : Z)
| Shl (a : sw) (n : Z)
| Sri (d a : sw) (n : Z)
| Addi (a : sw) (n : Z).

Definition symbolic : domain sw := {|
  d_num x := match x with Num z => Some (u64 z) | _ => None end;
  d_const := Num;
  d_addi x n := match x with Num z => Num (z + n) | _ => Addi x n end;
  d_op := Op;
  d_ror := Ror;
  d_shl := Shl;
  d_sri := Sri
|}.

Fixpoint eval (e : N -> Z) (x : sw) : Z :=
  match x with
  | Leaf i => e i
  | Num z => u64 z
  | Op o a b => d_op machine64 o (eval e a) (eval e b)
  | Ror a n => ror64 (eval e a) n
  | Shl a n => u64 (Z.shiftl (eval e a) n)
  | Sri d a n => sri64 (eval e d) (eval e a) n
  | Addi a n => u64 (eval e a + n)
  end.

Section Map.
Variables (e : N -> Z) (t : nat -> xval Z).

Definition xmap (v : xval sw) : xval Z :=
  match v with Ptr a o => Ptr a o | Word x => Word (eval e x) | Tok n => t n end.
Definition vmap (v : sw * sw) : Z * Z := (eval e (fst v), eval e (snd v)).
Definition smap (s : state sw) : state Z :=
  State (map xmap (xregs s)) (map vmap (vregs s)) (map (map xmap) (mem s))
        (option_map (fun '(x, n) => (eval e x, n)) (flags s)).

Lemma map_replace {A B} (f : A -> B) n x l : map f (replace_nth n x l) = replace_nth n (f x) (map f l).
Proof. revert n. induction l as [|y l IH]; intros [|n]; cbn; auto. now rewrite IH. Qed.

Lemma smap_xset s r v : smap (xset s r v) = xset (smap s) r (xmap v).
Proof. unfold smap, xset. cbn. now rewrite map_replace. Qed.
Lemma smap_vset s r v : smap (vset s r v) = vset (smap s) r (vmap v).
Proof. unfold smap, vset. cbn. now rewrite map_replace. Qed.

Lemma xget_smap s r v : xget s r = Some v -> xget (smap s) r = Some (xmap v).
Proof. unfold xget, smap. cbn. intros. now apply map_nth_error. Qed.
Lemma vget_smap s r v : vget s r = Some v -> vget (smap s) r = Some (vmap v).
Proof. unfold vget, smap. cbn. intros. now apply map_nth_error. Qed.
Lemma as_word_map v x : as_word v = Some x -> as_word (xmap v) = Some (eval e x).
Proof. destruct v; cbn; intros E; inversion E; subst; auto. Qed.
Lemma as_ptr_map v p : as_ptr v = Some p -> as_ptr (xmap v) = Some p.
Proof. destruct v; cbn; intros E; inversion E; subst; auto. Qed.

Ltac open H :=
  repeat match type of H with
  | obind ?m _ = Some _ => let E := fresh "E" in destruct m eqn:E; [cbn [obind] in H|discriminate H]
  end.

Lemma wget_smap s r x : wget s r = Some x -> wget (smap s) r = Some (eval e x).
Proof.
  unfold wget. intros H. open H. erewrite xget_smap by eassumption. cbn. now apply as_word_map.
Qed.

Lemma load_smap s p v : load s p = Some v -> load (smap s) p = Some (xmap v).
Proof.
  unfold load. intros H. open H. cbn. erewrite map_nth_error by eassumption. cbn.
  now apply map_nth_error.
Qed.
Lemma store_smap s p v s' : store s p v = Some s' -> store (smap s) p (xmap v) = Some (smap s').
Proof.
  unfold store. intros H. open H. cbn [mem smap]. erewrite map_nth_error by eassumption. cbn [obind].
  rewrite map_length. destruct (_ <? _)%nat; [|discriminate]. inversion H; subst. unfold smap.
  cbn [xregs vregs mem flags]. now rewrite !map_replace.
Qed.
Lemma base_smap s b m p s' : base s b m = Some (p, s') -> base (smap s) b m = Some (p, smap s').
Proof.
  unfold base. intros H. open H. erewrite xget_smap by eassumption. cbn.
  erewrite as_ptr_map by eassumption. cbn.
  destruct m; inversion H; subst; auto. now rewrite smap_xset.
Qed.

Lemma load_lanes_smap ds lane : forall p s s' tr,
  load_lanes ds lane p s = Some (s', tr) -> load_lanes ds lane p (smap s) = Some (smap s', tr).
Proof.
  induction ds as [|d ds IH]; intros p s s' tr H; cbn [load_lanes] in *; [now inversion H|].
  open H. destruct p1 as [s1 tr1]. inversion H; subst; clear H.
  erewrite load_smap by eassumption. cbn [obind]. erewrite as_word_map by eassumption. cbn [obind].
  erewrite vget_smap by eassumption. cbn [obind].
  replace (set_lane lane (vmap p0) (eval e s0)) with (vmap (set_lane lane p0 s0)) by (destruct lane; reflexivity).
  rewrite <- smap_vset. erewrite IH by eassumption. reflexivity.
Qed.
Lemma store_lanes_smap ss lane : forall p s s' tr,
  store_lanes ss lane p s = Some (s', tr) -> store_lanes ss lane p (smap s) = Some (smap s', tr).
Proof.
  induction ss as [|d ss IH]; intros p s s' tr H; cbn [store_lanes] in *; [now inversion H|].
  open H. destruct p1 as [s1 tr1]. inversion H; subst; clear H.
  erewrite vget_smap by eassumption. cbn [obind].
  replace (Word (get_lane lane (vmap p0))) with (xmap (Word (get_lane lane p0))) by (destruct lane; reflexivity).
  erewrite store_smap by eassumption. cbn [obind]. erewrite IH by eassumption. reflexivity.
Qed.

Ltac step :=
  match goal with
  | p : (address * state sw)%type |- _ => destruct p as [? ?]; cbn [fst snd] in *
  | E : wget ?s ?r = Some _ |- context [wget (smap ?s) ?r] => rewrite (wget_smap _ _ _ E)
  | E : xget ?s ?r = Some _ |- context [xget (smap ?s) ?r] => rewrite (xget_smap _ _ _ E)
  | E : vget ?s ?r = Some _ |- context [vget (smap ?s) ?r] => rewrite (vget_smap _ _ _ E)
  | E : base ?s ?b ?m = Some _ |- context [base (smap ?s) ?b ?m] => rewrite (base_smap _ _ _ _ _ E)
  | E : load ?s ?p = Some _ |- context [load (smap ?s) ?p] => rewrite (load_smap _ _ _ E)
  | E : as_word ?v = Some _ |- context [as_word (xmap ?v)] => rewrite (as_word_map _ _ E)
  | E : store ?s ?p ?v = Some _ |- context [store (smap ?s) ?p (xmap ?v)] => rewrite (store_smap _ _ _ _ E)
  | E : store ?s ?p (Word ?x) = Some _ |- context [store (smap ?s) ?p ?w] =>
      change w with (xmap (Word x)); rewrite (store_smap _ _ _ _ E)
  end; cbn [obind fst snd].

Lemma d_num_map x n : d_num symbolic x = Some n -> d_num machine64 (eval e x) = Some n.
Proof. destruct x; cbn; intros E; inversion E; auto. Qed.

Lemma exec_smap i s s' tr :
  exec symbolic i s = Some (s', tr) -> exec machine64 i (smap s) = Some (smap s', tr).
Proof.
  destruct i; cbn [exec]; intros H; open H.
  14:{ repeat step. now apply load_lanes_smap. }
  14:{ repeat step. now apply store_lanes_smap. }
  1:{ repeat step. inversion H; subst. rewrite smap_xset. now destruct (r =? 0). }
  3:{ repeat step. destruct x; inversion H; subst; cbn [xmap]; rewrite smap_xset; auto.
      cbn [xmap d_addi symbolic machine64]. destruct x; auto.
      cbn [eval]. unfold u64. now rewrite Z.add_mod_idemp_l by lia. }
  9:{ repeat step. rewrite (d_num_map _ _ E1). cbn [obind]. repeat step.
      inversion H; subst; now rewrite smap_xset. }
  all: repeat step; inversion H; subst; rewrite ?smap_xset, ?smap_vset; reflexivity.
Qed.

Lemma exec_list_smap l : forall s s' tr,
  exec_list symbolic l s = Some (s', tr) -> exec_list machine64 l (smap s) = Some (smap s', tr).
Proof.
  induction l as [|i l IH]; intros s s' tr H; cbn [exec_list] in *; [now inversion H|].
  open H. destruct p as [s1 t1], p0 as [s2 t2]. inversion H; subst; clear H. cbn [fst snd] in *.
  rewrite (exec_smap _ _ _ _ E). cbn [obind fst snd]. now rewrite (IH _ _ _ E0).
Qed.

Lemma compared_smap s c : compared symbolic s = Some c -> compared machine64 (smap s) = Some c.
Proof.
  unfold compared. intros H. open H. destruct p as [x n]. cbn [flags smap].
  destruct (flags s) as [[x' n']|]; [|discriminate]. inversion E; subst. cbn [option_map obind fst snd] in *.
  rewrite (d_num_map _ _ E0). exact H.
Qed.

Lemma target_smap j pc s r : target symbolic j pc s = Some r -> target machine64 j pc (smap s) = Some r.
Proof.
  destruct j; cbn [target]; intros H; open H; auto.
  - rewrite (compared_smap _ _ E). exact H.
  - rewrite (compared_smap _ _ E). exact H.
  - rewrite (wget_smap _ _ _ E). cbn [obind]. rewrite (d_num_map _ _ E0). exact H.
Qed.
End Map.
