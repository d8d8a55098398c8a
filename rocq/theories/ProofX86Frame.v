(** * What the assembly routines access, and what they leave unchanged *)

From Coq Require Import ZArith List Bool Lia.
From Verif Require Import CSem ModelX86 ModelX86Asm Spec202 SpecX86Frame ProofX86.
Import ListNotations.
Open Scope Z_scope.

(** ** Words by where they come from *)

Inductive tag : Type := Orig (a i : nat) | Const (c : Z) | Any.
Definition tags : domain tag unit :=
  Domain (fun _ _ _ s => (Any, s)) (fun _ _ _ s => (Any, s)) (fun s => (Const 0, s))
         (fun _ x => match x with Const c => Some c | _ => None end).

Definition tok (s : unit) (w : list (list Z)) : Prop := True.
Definition text (s : unit) (w : list (list Z)) (s' : unit) (w' : list (list Z)) : Prop := w' = w.
Definition trel (s : unit) (w : list (list Z)) (v : Z) (t : tag) : Prop :=
  int16 v /\ match t with Orig a i => v = nth i (nth a w []) 0 | Const c => v = c | Any => True end.

Lemma int16_shr v : int16 v <-> (Z.shiftr v 15 = 0 \/ Z.shiftr v 15 = -1).
Proof.
  unfold int16. rewrite Z.shiftr_div_pow2 by lia. change (2 ^ 15) with 32768.
  pose proof (Z.div_mod v 32768 ltac:(lia)). pose proof (Z.mod_pos_bound v 32768 ltac:(lia)). lia.
Qed.
Lemma int16_s16 v : int16 (s16 v).
Proof. unfold int16, s16. change (2 ^ 15) with 32768. pose proof (Z.mod_pos_bound (v + 32768) 65536 ltac:(lia)). lia. Qed.
Lemma int16_op o a b : int16 a -> int16 b -> int16 (word_sem o a b).
Proof.
  intros Ha Hb. destruct o; cbn [word_sem]; try apply int16_s16.
  - unfold int16 in *. change (2 ^ 15) with 32768 in *.
    assert (- 1073741824 <= a * b <= 1073741824) by nia.
    assert (-16384 <= a * b / 65536) by (apply Z.div_le_lower_bound; lia).
    assert (a * b / 65536 < 16385) by (apply Z.div_lt_upper_bound; lia). lia.
  - apply int16_shr in Ha, Hb. apply int16_shr. rewrite Z.shiftr_land.
    destruct Ha as [-> | ->], Hb as [-> | ->]; cbn; auto.
  - apply int16_shr in Ha, Hb. apply int16_shr. rewrite Z.shiftr_lor.
    destruct Ha as [-> | ->], Hb as [-> | ->]; cbn; auto.
Qed.
Lemma int16_shift o n a : int16 a -> 0 <= n -> int16 (shift_sem o n a).
Proof.
  intros Ha Hn. destruct o; cbn [shift_sem]; try apply int16_s16.
  unfold int16 in *. pose proof (Z.pow_pos_nonneg 2 n ltac:(lia) Hn).
  split; [apply Z.div_le_lower_bound|apply Z.div_lt_upper_bound]; nia.
Qed.
(** Division by a negative power 2^n = 0 gives 0. *)
Lemma int16_shift' o n a : int16 a -> int16 (shift_sem o n a).
Proof.
  intros Ha. destruct (Z.le_gt_cases 0 n) as [H|H]; [now apply int16_shift|].
  destruct o; cbn [shift_sem]; try apply int16_s16. rewrite Z.pow_neg_r by lia. rewrite Zdiv_0_r.
  unfold int16. lia.
Qed.

Lemma tags_sound : sound tags tok text trel.
Proof.
  constructor; unfold tok, text, trel; cbn; auto.
  - intros; subst; auto.
  - intros; subst; auto.
  - intros o s w a x b y z s' _ (Ha & _) (Hb & _) [= <- <-]. exists w. auto using int16_op.
  - intros o n s w a x z s' _ (Ha & _) [= <- <-]. exists w. auto using int16_shift'.
  - intros s w z s' _ [= <- <-]. exists w. unfold int16. repeat split; auto; lia.
  - intros s w a x c _ (_ & H). destruct x; try discriminate. now intros [= <-].
Qed.

(** ** Runs *)

Definition tag_array (a : nat) (r : role) : list tag :=
  match r with
  | Table => map Const qdata
  | Out n | In_ n | Scratch n => map (Orig a) (seq 0 (Z.to_nat n))
  end.
Fixpoint tag_arrays (a : nat) (rs : list role) : list (list tag) :=
  match rs with [] => [] | r :: rs => tag_array a r :: tag_arrays (S a) rs end.
Definition tag_eqb (x y : tag) : bool :=
  match x, y with
  | Orig a i, Orig b j => Nat.eqb a b && Nat.eqb i j
  | Const c, Const d => c =? d
  | _, _ => false
  end.
Fixpoint tag_all (x y : list tag) : bool :=
  match x, y with
  | [], [] => true
  | a :: x, b :: y => tag_eqb a b && tag_all x y
  | _, _ => false
  end.
Definition tag_kept (a : nat) (r : role) (m : list tag) : bool :=
  match r with
  | In_ _ | Table => tag_all m (tag_array a r)
  | Out n | Scratch n => Nat.eqb (length m) (Z.to_nat n)
  end.
Fixpoint tags_kept (a : nat) (rs : list role) (ms : list (list tag)) : bool :=
  match rs, ms with
  | [], [] => true
  | r :: rs, m :: ms => tag_kept a r m && tags_kept (S a) rs ms
  | _, _ => false
  end.
Definition tag_run (p : list instr) (rs : list role) : option (state tag) :=
  match run tags p (State (repeat (repeat Any 16) 16) args (tag_arrays 0 rs) []) tt with
  | Some (st, _) => Some st
  | None => None
  end.
Definition tag_check (p : list instr) (rs : list role) : bool :=
  match tag_run p rs with Some st => tags_kept 0 rs (mem st) | None => false end.
Lemma all_checked : forallb (fun '(p, rs) => tag_check p rs) routines = true.
Proof. vm_compute. reflexivity. Qed.
Definition fixed_trace (p : list instr) (rs : list role) : list (nat * Z) :=
  match tag_run p rs with Some st => trace st | None => [] end.

Lemma tag_all_eq x : forall y, tag_all x y = true -> x = y.
Proof.
  induction x as [|a x IH]; intros [|b y]; cbn; try discriminate; auto.
  intros H. apply andb_prop in H. destruct H as (H1 & H2). f_equal; auto.
  destruct a, b; cbn in H1; try discriminate.
  - apply andb_prop in H1. destruct H1 as (E1 & E2). apply Nat.eqb_eq in E1, E2. now subst.
  - apply Z.eqb_eq in H1. now subst.
Qed.

Lemma orig_rel w a m : nth a w [] = m -> Forall int16 m -> forall n, length m = n ->
  Forall2 (trel tt w) m (map (Orig a) (seq 0 n)).
Proof.
  intros E F n L.
  assert (G : forall us n k, length us = n -> Forall int16 us ->
    (forall i, (i < n)%nat -> nth (k + i) m 0 = nth i us 0) ->
    Forall2 (trel tt w) us (map (Orig a) (seq k n))).
  { clear - E. induction us as [|u us IH]; intros n k L F H; destruct n as [|n]; try discriminate; cbn [seq map]; constructor.
    - inversion F; subst. split; auto. specialize (H 0%nat ltac:(lia)). rewrite Nat.add_0_r in H. now cbn in H.
    - inversion F; subst. apply IH; auto. intros i Hi. specialize (H (S i) ltac:(lia)).
      cbn in H. now rewrite <- Nat.add_succ_comm in H. }
  apply G; auto.
Qed.
Lemma const_rel w m : Forall int16 m -> Forall2 (trel tt w) m (map Const m).
Proof. induction 1; cbn [map]; constructor; auto. now split. Qed.
Lemma qdata_int16 : Forall int16 qdata.
Proof.
  apply Forall_forall. intros x Hx.
  assert (C : forallb (fun x => (-32768 <=? x) && (x <? 32768)) qdata = true) by (vm_compute; reflexivity).
  rewrite forallb_forall in C. specialize (C x Hx). unfold int16. change (2 ^ 15) with 32768. lia.
Qed.
Lemma tag_arrays_rel rs : forall pre ms, Forall2 fills rs ms ->
  Forall2 (vrel trel tt (pre ++ ms)) ms (tag_arrays (length pre) rs).
Proof.
  induction rs as [|r rs IH]; intros pre ms H; inversion H as [|r' m rs' ms' Hr Hs]; subst; cbn [tag_arrays]; constructor.
  - assert (E : nth (length pre) (pre ++ m :: ms') [] = m) by (rewrite app_nth2, Nat.sub_diag by lia; reflexivity).
    destruct r; cbn [fills] in Hr; cbn [tag_array]; try (apply orig_rel; [exact E|apply Hr|unfold zlen in Hr; lia]).
    change (m = qdata) in Hr. rewrite Hr. apply const_rel, qdata_int16.
  - specialize (IH (pre ++ [m]) ms' Hs). rewrite app_length, <- app_assoc in IH. cbn in IH.
    replace (length pre + 1)%nat with (S (length pre)) in IH by lia. exact IH.
Qed.
Lemma any_rel w l : Forall int16 l -> Forall2 (trel tt w) l (repeat Any (length l)).
Proof. induction 1; cbn [repeat length]; constructor; auto. now split. Qed.
Lemma regs_rel w regs : vector_registers regs -> Forall2 (vrel trel tt w) regs (repeat (repeat Any 16) 16).
Proof.
  intros (L & F). unfold zlen in L. replace 16%nat with (length regs) at 2 by lia. clear L.
  induction F as [|r rs (Hr & Fr) F IH]; [constructor|]. cbn [length]. change (repeat ?x (S ?n)) with (x :: repeat x n). constructor; auto.
  unfold zlen in Hr. assert (L : length r = 16%nat) by lia. pose proof (any_rel w r Fr) as K. rewrite L in K. exact K.
Qed.
Lemma vrel_int16 w a b : vrel trel tt w a b -> Forall int16 a.
Proof. induction 1 as [|x t a b (H & _) _ IH]; constructor; auto. Qed.
Lemma orig_eq w a m n : vrel trel tt w m (map (Orig a) (seq 0 n)) -> length (nth a w []) = n -> m = nth a w [].
Proof.
  intros H L. apply (nth_ext _ _ 0 0).
  - apply F2_len in H. rewrite map_length, seq_length in H. lia.
  - intros i Hi. apply F2_len in H as HL. rewrite map_length, seq_length in HL.
    assert (N : nth_error (map (Orig a) (seq 0 n)) i = Some (Orig a i)).
    { rewrite nth_error_map, (nth_error_nth' _ 0%nat) by (rewrite seq_length; lia). cbn. now rewrite seq_nth by lia. }
    destruct (F2_nth _ _ _ _ _ H N) as (y & Ey & (_ & ->)).
    apply nth_error_nth with (d := 0) in Ey. exact Ey.
Qed.
Lemma const_eq w m l : vrel trel tt w m (map Const l) -> m = l.
Proof.
  revert m; induction l as [|x l IH]; intros m H; inversion H as [|a b l1 l2 H1 H2]; subst; auto.
  destruct H1 as (_ & ->). f_equal. now apply IH.
Qed.

Lemma kept_all rs : forall pre ms ms' ts, Forall2 fills rs ms -> Forall2 (vrel trel tt (pre ++ ms)) ms' ts ->
  tags_kept (length pre) rs ts = true -> all_kept rs ms ms'.
Proof.
  induction rs as [|r rs IH]; intros pre ms ms' ts Hf Hr Hk; inversion Hf as [|r' m rs' ms0 Hr' Hs]; subst;
    destruct ts as [|t ts]; cbn in Hk; try discriminate; inversion Hr as [|m' t' ms1 ts' R1 R2]; subst; cbn [all_kept].
  - exact I.
  - apply andb_prop in Hk. destruct Hk as (K1 & K2).
    assert (E : nth (length pre) (pre ++ m :: ms0) [] = m) by (rewrite app_nth2, Nat.sub_diag by lia; reflexivity).
    split.
    + pose proof (vrel_int16 _ _ _ R1) as F. pose proof (F2_len _ _ _ R1) as L.
      destruct r; cbn [tag_kept] in K1; cbn [kept fills] in *.
      * apply Nat.eqb_eq in K1. unfold zlen in *. split; auto. lia.
      * apply tag_all_eq in K1. subst t. cbn [tag_array] in R1.
        rewrite <- E. eapply orig_eq; [exact R1|]. rewrite E. unfold zlen in Hr'. lia.
      * apply tag_all_eq in K1. subst t. cbn [tag_array] in R1. apply const_eq in R1. congruence.
      * apply Nat.eqb_eq in K1. unfold zlen in *. split; auto. lia.
    + apply (IH (pre ++ [m]) ms0 ms1 ts); auto.
      * now rewrite <- app_assoc.
      * rewrite app_length. cbn. now rewrite Nat.add_1_r.
Qed.

Lemma routine_run p rs regs arrays : In (p, rs) routines -> vector_registers regs -> Forall2 fills rs arrays ->
  exists st, run_words p regs args arrays = Some st /\ trace st = fixed_trace p rs /\ all_kept rs arrays (mem st).
Proof.
  intros HI Hr Hf. pose proof all_checked as C. rewrite forallb_forall in C. specialize (C _ HI). cbv beta iota in C.
  unfold tag_check in C. unfold fixed_trace. destruct (tag_run p rs) as [st'|] eqn:Et; [|discriminate].
  unfold tag_run in Et. destruct (run tags p _ tt) as [[st2 []]|] eqn:E; [|discriminate].
  assert (st2 = st') as -> by congruence. clear Et.
  destruct (run_sound _ _ _ _ tags_sound p tt arrays (State regs args arrays [])
             (State (repeat (repeat Any 16) 16) args (tag_arrays 0 rs) []) st' tt I) as (w & st & Er & _ & Ew & (S1 & S2 & S3 & S4)); auto.
  { split; cbn [ymm ptr mem trace]; [now apply regs_rel|]. split; [auto|]. split; [exact (tag_arrays_rel rs [] arrays Hf)|auto]. }
  exists st. split; [unfold run_words; now rewrite Er|]. unfold text in Ew. subst w. split; [exact S4|].
  exact (kept_all rs [] arrays (mem st) (mem st') Hf S3 C).
Qed.
