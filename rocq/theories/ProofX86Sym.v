(** * Running the vector machine on expressions

    For routines in which every output word is a short expression in the input words. *)

From Coq Require Import ZArith List Bool Lia.
From Verif Require Import CSem ModelX86 ProofX86.
Import ListNotations.
Open Scope Z_scope.

(** [Var a i]: word [i] of array [a] before the run; [Reg r i]: word [i] of register [r] *)
Inductive expr : Type :=
| Var (a i : nat)
| Reg (r i : nat)
| Num (c : Z)
| Op (o : word_op) (x y : expr)
| Sh (o : shift_op) (n : Z) (x : expr).

Section Eval.
Variables regs arrays : list (list Z).
Fixpoint eval (e : expr) : Z :=
  match e with
  | Var a i => nth i (nth a arrays []) 0
  | Reg r i => nth i (nth r regs []) 0
  | Num c => c
  | Op o x y => word_sem o (eval x) (eval y)
  | Sh o n x => shift_sem o n (eval x)
  end.
End Eval.

Definition exprs : domain expr unit :=
  Domain (fun o x y s => (Op o x y, s)) (fun o n x s => (Sh o n x, s))
         (fun s => (Num 0, s)) (fun _ x => match x with Num c => Some c | _ => None end).

Definition eok (s : unit) (w : list (list Z) * list (list Z)) : Prop := True.
Definition eext (s : unit) (w : list (list Z) * list (list Z)) (s' : unit) (w' : list (list Z) * list (list Z)) : Prop := w' = w.
Definition erel (s : unit) (w : list (list Z) * list (list Z)) (v : Z) (e : expr) : Prop := v = eval (fst w) (snd w) e.

Lemma exprs_sound : sound exprs eok eext erel.
Proof.
  constructor; unfold eok, eext, erel; cbn; auto.
  - intros; subst; auto.
  - intros; subst; auto.
  - intros o s w a x b y z s' _ -> -> [= <- <-]. exists w; cbn; auto.
  - intros o n s w a x z s' _ -> [= <- <-]. exists w; cbn; auto.
  - intros s w z s' _ [= <- <-]. exists w; cbn; auto.
  - intros s w a x c _ ->. destruct x; try discriminate. now intros [= ->].
Qed.

(** An array is symbolic ([None], with its length) or has known contents. *)
Definition sym_array (a : nat) (d : nat + list Z) : list expr :=
  match d with
  | inl n => map (Var a) (seq 0 n)
  | inr l => map Num l
  end.
Fixpoint sym_arrays (a : nat) (ds : list (nat + list Z)) : list (list expr) :=
  match ds with
  | [] => []
  | d :: ds => sym_array a d :: sym_arrays (S a) ds
  end.
Definition sym_regs : list (list expr) := map (fun r => map (Reg r) (seq 0 16)) (seq 0 16).
Definition fits (d : nat + list Z) (m : list Z) : Prop :=
  match d with inl n => length m = n | inr l => m = l end.

Definition symbolic (p : list instr) (ptrs : gpr -> nat * Z) (ds : list (nat + list Z))
  : option (list (list expr)) :=
  match run exprs p (State sym_regs ptrs (sym_arrays 0 ds) []) tt with
  | Some (st, _) => Some (mem st)
  | None => None
  end.

Lemma F2_vars (g : nat -> expr) (ev : expr -> Z) m n : length m = n ->
  (forall i, (i < n)%nat -> ev (g i) = nth i m 0) -> Forall2 (fun v e => v = ev e) m (map g (seq 0 n)).
Proof.
  intros L H.
  assert (G : forall n k us, length us = n -> (forall i, (i < n)%nat -> ev (g (k + i)%nat) = nth i us 0) ->
    Forall2 (fun v e => v = ev e) us (map g (seq k n))).
  { clear. induction n as [|n IH]; intros k us L H; destruct us as [|u us]; try discriminate; cbn; constructor.
    - specialize (H 0%nat ltac:(lia)). rewrite Nat.add_0_r in H. now cbn in H.
    - apply IH; [cbn in L; lia|]. intros i Hi. specialize (H (S i) ltac:(lia)).
      cbn in H. now rewrite <- Nat.add_succ_comm in H. }
  apply G; auto.
Qed.
Lemma sym_arrays_rel regs ds : forall pre ms, Forall2 fits ds ms ->
  Forall2 (vrel erel tt (regs, pre ++ ms)) ms (sym_arrays (length pre) ds).
Proof.
  induction ds as [|d ds IH]; intros pre ms H; inversion H as [|d' m ds' ms' Hd Hs]; subst; cbn [sym_arrays]; constructor.
  - assert (E : nth (length pre) (pre ++ m :: ms') [] = m) by (rewrite app_nth2, Nat.sub_diag by lia; reflexivity).
    destruct d as [n|l]; cbn in Hd |- *.
    + apply (F2_vars (Var (length pre)) (eval regs (pre ++ m :: ms'))); auto.
      intros i Hi. cbn [eval]. now rewrite E.
    + subst l. generalize (regs, pre ++ m :: ms'); intros w. unfold vrel. clear.
      induction m; cbn [map]; constructor; [reflexivity|auto].
  - specialize (IH (pre ++ [m]) ms' Hs). rewrite app_length, <- app_assoc in IH. cbn in IH.
    replace (length pre + 1)%nat with (S (length pre)) in IH by lia. exact IH.
Qed.
Lemma sym_regs_rel regs arrays : length regs = 16%nat -> Forall (fun r => length r = 16%nat) regs ->
  Forall2 (vrel erel tt (regs, arrays)) regs sym_regs.
Proof.
  intros L F. unfold sym_regs.
  assert (G : forall rs n pre, length rs = n -> Forall (fun r => length r = 16%nat) rs -> 
    Forall2 (vrel erel tt (pre ++ rs, arrays)) rs
      (map (fun r => map (Reg r) (seq 0 16)) (seq (length pre) n))).
  { induction rs as [|r rs IH]; intros n pre Ln Fr; destruct n as [|n]; try discriminate; cbn [seq map]; constructor.
    - inversion Fr; subst.
      refine (F2_vars (Reg (length pre)) (eval (pre ++ r :: rs) arrays) r 16%nat H1 _).
      intros i Hi. cbn [eval]. now rewrite app_nth2, Nat.sub_diag by lia.
    - inversion Fr; subst. cbn in Ln. specialize (IH n (pre ++ [r]) ltac:(lia) H2).
      rewrite app_length, <- app_assoc in IH. cbn in IH.
      replace (length pre + 1)%nat with (S (length pre)) in IH by lia. exact IH. }
  exact (G regs 16%nat [] L F).
Qed.

Lemma symbolic_sound p regs ptrs arrays ds ms :
  length regs = 16%nat -> Forall (fun r => length r = 16%nat) regs ->
  Forall2 fits ds arrays -> symbolic p ptrs ds = Some ms ->
  exists st, run_words p regs ptrs arrays = Some st /\ mem st = map (map (eval regs arrays)) ms.
Proof.
  intros L F Hd. unfold symbolic.
  destruct (run exprs p _ tt) as [[st' []]|] eqn:E; [|discriminate]. intros [= <-].
  destruct (run_sound _ _ _ _ exprs_sound p tt (regs, arrays) (State regs ptrs arrays [])
             (State sym_regs ptrs (sym_arrays 0 ds) []) st' tt I) as (w & st & Er & _ & Ew & (S1 & S2 & S3 & S4)); auto.
  { repeat split; cbn; [now apply sym_regs_rel|]. exact (sym_arrays_rel regs ds [] arrays Hd). }
  exists st. split; [unfold run_words; now rewrite Er|]. unfold eext in Ew. subst w.
  clear - S3. induction S3 as [|v e vs es H S3 IH]; cbn [map]; auto. f_equal; auto.
  clear - H. unfold vrel, erel in H. cbn [fst snd] in H. induction H; cbn [map]; auto. now f_equal.
Qed.

(** ** Comparing expressions *)
Definition word_op_eqb (a b : word_op) : bool :=
  match a, b with
  | Add, Add | Sub, Sub | Mullo, Mullo | Mulhi, Mulhi | And, And | Or, Or => true
  | _, _ => false
  end.
Definition shift_op_eqb (a b : shift_op) : bool :=
  match a, b with Sra, Sra | Srl, Srl | Sll, Sll => true | _, _ => false end.
Fixpoint expr_eqb (a b : expr) : bool :=
  match a, b with
  | Var x i, Var y j | Reg x i, Reg y j => Nat.eqb x y && Nat.eqb i j
  | Num c, Num d => c =? d
  | Op o x y, Op o' x' y' => word_op_eqb o o' && expr_eqb x x' && expr_eqb y y'
  | Sh o n x, Sh o' n' x' => shift_op_eqb o o' && (n =? n') && expr_eqb x x'
  | _, _ => false
  end.
Lemma expr_eqb_eq a : forall b, expr_eqb a b = true -> a = b.
Proof.
  induction a; intros []; cbn; try discriminate; intros H;
    repeat match goal with
    | H : _ && _ = true |- _ => apply andb_prop in H; destruct H
    | H : Nat.eqb _ _ = true |- _ => apply Nat.eqb_eq in H; subst
    | H : (_ =? _) = true |- _ => apply Z.eqb_eq in H; subst
    end; auto.
  - destruct o, o0; try discriminate; f_equal; auto.
  - destruct o, o0; try discriminate; f_equal; auto.
Qed.
Fixpoint exprs_eqb (a b : list expr) : bool :=
  match a, b with
  | [], [] => true
  | x :: a, y :: b => expr_eqb x y && exprs_eqb a b
  | _, _ => false
  end.
Lemma exprs_eqb_eq a : forall b, exprs_eqb a b = true -> a = b.
Proof.
  induction a as [|x a IH]; intros [|y b]; cbn; try discriminate; auto.
  intros H. apply andb_prop in H. destruct H as (H1 & H2). f_equal; auto. now apply expr_eqb_eq.
Qed.
Fixpoint mems_eqb (a b : list (list expr)) : bool :=
  match a, b with
  | [], [] => true
  | x :: a, y :: b => exprs_eqb x y && mems_eqb a b
  | _, _ => false
  end.
Lemma mems_eqb_eq a : forall b, mems_eqb a b = true -> a = b.
Proof.
  induction a as [|x a IH]; intros [|y b]; cbn; try discriminate; auto.
  intros H. apply andb_prop in H. destruct H as (H1 & H2). f_equal; auto. now apply exprs_eqb_eq.
Qed.
Definition yields (o : option (list (list expr))) (ms : list (list expr)) : bool :=
  match o with Some a => mems_eqb a ms | None => false end.
Lemma yields_eq o ms : yields o ms = true -> o = Some ms.
Proof. destruct o; cbn; [|discriminate]. intros H. f_equal. now apply mems_eqb_eq. Qed.
