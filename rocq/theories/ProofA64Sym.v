(** * Running the AArch64 machine on expressions

    For routines in which every output word is a short expression in the input words, and
    for what holds of every routine: which words are where they were before. *)

From Coq Require Import ZArith List Bool Lia.
From Verif Require Import CSem ProofX86Ntt.
From Verif Require Import ModelA64 ProofA64.
Import ListNotations.
Open Scope Z_scope.
Ltac Zify.zify_post_hook ::= idtac.

(** [Var a i]: word [i] of array [a] before the run; [Reg r i]: word [i] of register [r].
    [Prod], [Acc] and [Pair] are 32-bit lanes: a product, a sum of a lane and a product, and
    two words. [Half] is a word of a lane. *)
Inductive expr : Type :=
| Var (a i : nat)
| Reg (r i : nat)
| Num (c : Z)
| Op (o : word_op) (x y : expr)
| Sh (o : shift_op) (n : Z) (x : expr)
| Half (h : bool) (x : expr)
| Prod (x y : expr)
| Acc (z x y : expr)
| Pair (x y : expr).

Section Eval.
Variables regs arrays : list (list Z).
Fixpoint eval (e : expr) : Z :=
  match e with
  | Var a i => nth i (nth a arrays []) 0
  | Reg r i => nth i (nth r regs []) 0
  | Num c => c
  | Op o x y => word_sem o (eval x) (eval y)
  | Sh o n x => shift_sem o n (eval x)
  | Half h x => s16 (if h then eval x / 65536 else eval x)
  | Prod x y => eval x * eval y
  | Acc z x y => eval z + eval x * eval y
  | Pair x y => lane32 (eval x) (eval y)
  end.
End Eval.

(** ** Comparing expressions *)
Definition word_op_eqb (a b : word_op) : bool :=
  match a, b with
  | Add, Add | Sub, Sub | Mul, Mul | Sqdmulh, Sqdmulh | Sqrdmulh, Sqrdmulh | And, And => true
  | Shrn n, Shrn m | Sli8 n, Sli8 m => n =? m
  | Bytes h h', Bytes g g' => Bool.eqb h g && Bool.eqb h' g'
  | _, _ => false
  end.
Definition shift_op_eqb (a b : shift_op) : bool :=
  match a, b with Sshr, Sshr | Srshr, Srshr => true | _, _ => false end.
Fixpoint expr_eqb (a b : expr) : bool :=
  match a, b with
  | Var x i, Var y j | Reg x i, Reg y j => Nat.eqb x y && Nat.eqb i j
  | Num c, Num d => c =? d
  | Op o x y, Op o' x' y' => word_op_eqb o o' && expr_eqb x x' && expr_eqb y y'
  | Sh o n x, Sh o' n' x' => shift_op_eqb o o' && (n =? n') && expr_eqb x x'
  | Half h x, Half h' x' => Bool.eqb h h' && expr_eqb x x'
  | Prod x y, Prod x' y' | Pair x y, Pair x' y' => expr_eqb x x' && expr_eqb y y'
  | Acc z x y, Acc z' x' y' => expr_eqb z z' && expr_eqb x x' && expr_eqb y y'
  | _, _ => false
  end.
Lemma word_op_eqb_eq a b : word_op_eqb a b = true -> a = b.
Proof.
  destruct a, b; cbn; try discriminate; auto; intros H;
    repeat match goal with
    | H : _ && _ = true |- _ => apply andb_prop in H; destruct H
    | H : Bool.eqb _ _ = true |- _ => apply Bool.eqb_prop in H
    | H : (_ =? _) = true |- _ => apply Z.eqb_eq in H
    end; congruence.
Qed.
Lemma expr_eqb_eq a : forall b, expr_eqb a b = true -> a = b.
Proof.
  induction a; intros []; cbn; try discriminate; intros H;
    repeat match goal with
    | H : _ && _ = true |- _ => apply andb_prop in H; destruct H
    | H : Nat.eqb _ _ = true |- _ => apply Nat.eqb_eq in H; subst
    | H : (_ =? _) = true |- _ => apply Z.eqb_eq in H; subst
    | H : Bool.eqb _ _ = true |- _ => apply Bool.eqb_prop in H; subst
    | H : word_op_eqb _ _ = true |- _ => apply word_op_eqb_eq in H; subst
    end; try (f_equal; auto; fail).
  destruct o, o0; try discriminate; f_equal; auto.
Qed.
Fixpoint exprs_eqb (a b : list expr) : bool :=
  match a, b with
  | [], [] => true
  | x :: a, y :: b => expr_eqb x y && exprs_eqb a b
  | _, _ => false
  end.
Lemma exprs_eqb_eq a : forall b, exprs_eqb a b = true -> a = b.
Proof.
  induction a as [|x a IH]; intros [|y b]; cbn; try discriminate; auto.
  intros H. apply andb_prop in H. destruct H as (H1 & H2). f_equal; auto. now apply expr_eqb_eq.
Qed.
Fixpoint mems_eqb (a b : list (list expr)) : bool :=
  match a, b with
  | [], [] => true
  | x :: a, y :: b => exprs_eqb x y && mems_eqb a b
  | _, _ => false
  end.
Lemma mems_eqb_eq a : forall b, mems_eqb a b = true -> a = b.
Proof.
  induction a as [|x a IH]; intros [|y b]; cbn; try discriminate; auto.
  intros H. apply andb_prop in H. destruct H as (H1 & H2). f_equal; auto. now apply exprs_eqb_eq.
Qed.

(** ** The domain *)

(** The lane whose halves are [l] and [h] *)
Definition lane (l h : expr) : expr :=
  match l, h with
  | Half false x, Half true y => if expr_eqb x y then x else Pair l h
  | _, _ => Pair l h
  end.
Definition exprs : domain expr unit :=
  Domain (fun o x y s => (Op o x y, s)) (fun o n x s => (Sh o n x, s))
         (fun n s => (Num (s16 n), s))
         (fun x y s => ((Half false (Prod x y), Half true (Prod x y)), s))
         (fun l h x y s => let z := Acc (lane l h) x y in ((Half false z, Half true z), s)).

Notation env := (list (list Z) * list (list Z))%type.
Definition eok (s : unit) (w : env) : Prop := True.
Definition eext (s : unit) (w : env) (s' : unit) (w' : env) : Prop := w' = w.
Definition erel (s : unit) (w : env) (v : Z) (e : expr) : Prop := v = eval (fst w) (snd w) e.

(** A lane only matters modulo 2^32. *)
Lemma halves32_mod x k : halves32 (x + k * 4294967296) = halves32 x.
Proof.
  unfold halves32. f_equal.
  - replace (x + k * 4294967296) with (x + k * 65536 * 65536) by ring. apply s16_shift.
  - replace (x + k * 4294967296) with (x + k * 65536 * 65536) by ring. rewrite Z.div_add by lia.
    apply s16_shift.
Qed.
Lemma lane32_halves x : exists k, lane32 (s16 x) (s16 (x / 65536)) = x + k * 4294967296.
Proof.
  unfold lane32. destruct (s16_ex (x / 65536)) as (k & ->).
  exists k.
  assert (u16 (s16 x) = x mod 65536) as ->.
  { destruct (s16_ex x) as (j & ->). unfold u16. apply Z_mod_plus_full. }
  rewrite (Z.div_mod x 65536) at 3 by lia. ring.
Qed.
Lemma lane_eval regs arrays l h z : exists k,
  lane32 (eval regs arrays l) (eval regs arrays h) + z = eval regs arrays (lane l h) + z + k * 4294967296.
Proof.
  assert (P : exists k, lane32 (eval regs arrays l) (eval regs arrays h) + z
     = eval regs arrays (Pair l h) + z + k * 4294967296) by (exists 0; cbn [eval]; ring).
  unfold lane. destruct l as [| | | | |[] x| | |]; try exact P. destruct h as [| | | | |[] y| | |]; try exact P.
  destruct (expr_eqb x y) eqn:E; [|exact P]. apply expr_eqb_eq in E. subst y. cbn [eval].
  destruct (lane32_halves (eval regs arrays x)) as (k & ->). exists k. ring.
Qed.
Lemma exprs_sound : sound exprs eok eext erel.
Proof.
  constructor; unfold eok, eext, erel; cbn [d_op d_shift d_const d_smull d_smlal exprs]; auto.
  - intros; subst; auto.
  - intros; subst; auto.
  - intros o s w a x b y z s' _ -> -> [= <- <-]. exists w; cbn; auto.
  - intros o n s w a x z s' _ -> [= <- <-]. exists w; cbn; auto.
  - intros n s w z s' _ [= <- <-]. exists w; cbn; auto.
  - intros s w a x b y l h s' _ -> -> [= <- <- <-]. exists w. cbn; auto.
  - intros s w cl xl ch xh a x b y l h s' _ -> -> -> -> [= <- <- <-]. exists w. split; [auto|]. split; [auto|].
    destruct (lane_eval (fst w) (snd w) xl xh (eval (fst w) (snd w) x * eval (fst w) (snd w) y)) as (k & E).
    rewrite E, halves32_mod. cbn [eval halves32 fst snd]. auto.
Qed.

(** An array is symbolic ([inl], with its length) or has known contents. *)
Definition sym_array (a : nat) (d : nat + list Z) : list expr :=
  match d with
  | inl n => map (Var a) (seq 0 n)
  | inr l => map Num l
  end.
Fixpoint sym_arrays (a : nat) (ds : list (nat + list Z)) : list (list expr) :=
  match ds with
  | [] => []
  | d :: ds => sym_array a d :: sym_arrays (Datatypes.S a) ds
  end.
Definition sym_regs : list (list expr) := map (fun r => map (Reg r) (seq 0 8)) (seq 0 32).
Definition fits (d : nat + list Z) (m : list Z) : Prop :=
  match d with inl n => length m = n | inr l => m = l end.

Definition symbolic (p : list block) (n : nat) (k : Z) (ds : list (nat + list Z)) : option (state expr) :=
  match run exprs p (State sym_regs (call n k) (sym_arrays 0 ds) []) tt with
  | Some (st, _) => Some st
  | None => None
  end.

Lemma F2_vars (g : nat -> expr) (ev : expr -> Z) m n : length m = n ->
  (forall i, (i < n)%nat -> ev (g i) = nth i m 0) -> Forall2 (fun v e => v = ev e) m (map g (seq 0 n)).
Proof.
  intros L H.
  assert (G : forall n k us, length us = n -> (forall i, (i < n)%nat -> ev (g (k + i)%nat) = nth i us 0) ->
    Forall2 (fun v e => v = ev e) us (map g (seq k n))).
  { clear. induction n as [|n IH]; intros k us L H; destruct us as [|u us]; try discriminate; cbn; constructor.
    - specialize (H 0%nat ltac:(lia)). rewrite Nat.add_0_r in H. now cbn in H.
    - apply IH; [cbn in L; lia|]. intros i Hi. specialize (H (Datatypes.S i) ltac:(lia)).
      cbn in H. now rewrite <- Nat.add_succ_comm in H. }
  apply G; auto.
Qed.
Lemma sym_arrays_rel regs ds : forall pre ms, Forall2 fits ds ms ->
  Forall2 (vrel erel tt (regs, pre ++ ms)) ms (sym_arrays (length pre) ds).
Proof.
  induction ds as [|d ds IH]; intros pre ms H; inversion H as [|d' m ds' ms' Hd Hs]; subst; cbn [sym_arrays]; constructor.
  - assert (E : nth (length pre) (pre ++ m :: ms') [] = m) by (rewrite app_nth2, Nat.sub_diag by lia; reflexivity).
    destruct d as [n|l]; cbn in Hd |- *.
    + apply (F2_vars (Var (length pre)) (eval regs (pre ++ m :: ms'))); auto.
      intros i Hi. cbn [eval]. now rewrite E.
    + subst l. generalize (regs, pre ++ m :: ms'); intros w. unfold vrel. clear.
      induction m; cbn [map]; constructor; [reflexivity|auto].
  - specialize (IH (pre ++ [m]) ms' Hs). rewrite app_length, <- app_assoc in IH. cbn in IH.
    replace (length pre + 1)%nat with (Datatypes.S (length pre)) in IH by lia. exact IH.
Qed.
Lemma sym_regs_rel regs arrays : vregs_ok regs -> Forall2 (vrel erel tt (regs, arrays)) regs sym_regs.
Proof.
  intros (L & F). unfold sym_regs.
  assert (G : forall rs n pre, length rs = n -> Forall (fun r => length r = 8%nat) rs ->
    Forall2 (vrel erel tt (pre ++ rs, arrays)) rs
      (map (fun r => map (Reg r) (seq 0 8)) (seq (length pre) n))).
  { induction rs as [|r rs IH]; intros n pre Ln Fr; destruct n as [|n]; try discriminate; cbn [seq map]; constructor.
    - inversion Fr; subst.
      refine (F2_vars (Reg (length pre)) (eval (pre ++ r :: rs) arrays) r 8%nat H1 _).
      intros i Hi. cbn [eval]. now rewrite app_nth2, Nat.sub_diag by lia.
    - inversion Fr; subst. cbn in Ln. specialize (IH n (pre ++ [r]) ltac:(lia) H2).
      rewrite app_length, <- app_assoc in IH. cbn in IH.
      replace (length pre + 1)%nat with (Datatypes.S (length pre)) in IH by lia. exact IH. }
  exact (G regs 32%nat [] L F).
Qed.

Lemma vrel_map regs arrays vs es : vrel erel tt (regs, arrays) vs es -> vs = map (eval regs arrays) es.
Proof. unfold vrel, erel. cbn [fst snd]. induction 1; cbn [map]; auto. now f_equal. Qed.
Lemma vrels_map regs arrays vs es : Forall2 (vrel erel tt (regs, arrays)) vs es ->
  vs = map (map (eval regs arrays)) es.
Proof. induction 1; cbn [map]; auto. f_equal; auto. now apply vrel_map. Qed.

Lemma symbolic_sound p regs n k arrays ds st' : vregs_ok regs ->
  Forall2 fits ds arrays -> symbolic p n k ds = Some st' ->
  exists st, run_words p regs (args n k) arrays = Some st /\
    vregs st = map (map (eval regs arrays)) (vregs st') /\
    Forall2 (xrel erel tt (regs, arrays)) (xregs st) (xregs st') /\
    mem st = map (map (eval regs arrays)) (mem st') /\ trace st = trace st'.
Proof.
  intros V Hd. unfold symbolic.
  destruct (run exprs p _ tt) as [[st1 []]|] eqn:E; [|discriminate]. intros [= <-].
  destruct (run_good _ _ _ _ exprs_sound p tt (regs, arrays) (State regs (args n k) arrays [])
             (State sym_regs (call n k) (sym_arrays 0 ds) []) I) with (st2' := st1) (s2 := tt)
    as (w & st & Er & _ & Ew & (S1 & S2 & S3 & S4)); auto.
  { split; [|split; [|split]]; cbn; auto.
    - now apply sym_regs_rel.
    - apply call_rel.
    - exact (sym_arrays_rel regs ds [] arrays Hd). }
  exists st. split; [unfold run_words; now rewrite Er|]. unfold eext in Ew. subst w.
  split; [now apply vrels_map|]. split; [exact S2|]. split; [now apply vrels_map|exact S4].
Qed.

(** The arrays that a routine with [n] arguments leaves after the part of the stack *)
Definition yields (o : option (state expr)) (ms : list (list expr)) : bool :=
  match o with
  | Some st => match mem st with stk :: l => mems_eqb l ms | [] => false end
  | None => false
  end.
Lemma yields_sound p regs n k arrays ds ms : vregs_ok regs -> Forall2 fits ds arrays ->
  yields (symbolic p n k ds) ms = true ->
  exists st stk, run_words p regs (args n k) arrays = Some st /\
    mem st = stk :: map (map (eval regs arrays)) ms.
Proof.
  intros V Hd Y. destruct (symbolic p n k ds) as [st'|] eqn:E; [|discriminate]. cbn in Y.
  destruct (mem st') as [|stk l] eqn:Em; [discriminate|]. apply mems_eqb_eq in Y. subst l.
  destruct (symbolic_sound p regs n k arrays ds st' V Hd E) as (st & Er & _ & _ & Ems & _).
  rewrite Em in Ems. cbn [map] in Ems. eauto.
Qed.
