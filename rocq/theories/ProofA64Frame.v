(** * What the AArch64 routines access, and what they leave unchanged *)

From Coq Require Import ZArith List Bool Lia.
From Verif Require Import ModelA64 ModelA64Asm ProofA64 ProofA64Sym.
From Verif Require Import CSem ModelArith ModelA64Poly Spec202 SpecA64Frame.
Import ListNotations.
Open Scope Z_scope.
Ltac Zify.zify_post_hook ::= idtac.

(** The words [saved] are a further register of the environment. *)
Definition sym_call (n : nat) : list (xval expr) :=
  map (fun i => if (i <? n)%nat then Ptr (i + 1) 0
                else if (i =? 31)%nat then Ptr 0 64
                else if (i <? 18)%nat then Any else Word (Reg 32 (i - 18))) (seq 0 32).
Definition desc (r : role) : nat + list Z :=
  match r with Out n | In_ n => inl (Z.to_nat n) | Table l => inr l end.
Definition sym_run (p : list block) (n : nat) (rs : list role) : option (state expr) :=
  match run exprs p (State sym_regs (sym_call n) (sym_arrays 0 (inl 32%nat :: map desc rs)) []) tt with
  | Some (st, _) => Some st
  | None => None
  end.

Definition sym_kept (a : nat) (r : role) (m : list expr) : bool :=
  match r with
  | Out n => Nat.eqb (length m) (Z.to_nat n)
  | In_ _ | Table _ => exprs_eqb m (sym_array a (desc r))
  end.
Fixpoint syms_kept (a : nat) (rs : list role) (ms : list (list expr)) : bool :=
  match rs, ms with
  | [], [] => true
  | r :: rs, m :: ms => sym_kept a r m && syms_kept (S a) rs ms
  | _, _ => false
  end.
Definition low_kept (regs : list (list expr)) (i : nat) : bool :=
  exprs_eqb (firstn 4 (nth i regs [])) (firstn 4 (nth i sym_regs [])).
Definition xval_eqb (a b : xval expr) : bool :=
  match a, b with
  | Ptr x d, Ptr y e => Nat.eqb x y && (d =? e)
  | Word (Reg r i), Word (Reg s j) => Nat.eqb r s && Nat.eqb i j
  | _, _ => false
  end.
Definition x_kept (n : nat) (xs : list (xval expr)) (i : nat) : bool :=
  xval_eqb (nth i xs Any) (nth i (sym_call n) Any).
Definition sym_check (o : option (state expr)) (n : nat) (rs : list role) : bool :=
  match o with
  | Some st =>
      match mem st with
      | stk :: ms => syms_kept 1 rs ms
      | [] => false
      end && forallb (low_kept (vregs st)) (seq 8 8) && forallb (x_kept n (xregs st)) (seq 18 14)
  | None => false
  end.
Lemma all_checked b :
  forallb (fun '(p, n, rs) => sym_check (sym_run p n rs) n rs) (routines b) = true.
Proof. destruct b; vm_compute; reflexivity. Qed.

Definition fixed_trace (p : list block) (n : nat) (rs : list role) : list (nat * Z) :=
  match sym_run p n rs with Some st => trace st | None => [] end.

(** ** Soundness *)

Lemma erel_reg_app regs saved arrays i j : (i < length regs)%nat ->
  eval (regs ++ [saved]) arrays (Reg i j) = eval regs arrays (Reg i j).
Proof. intros H. cbn [eval]. now rewrite app_nth1. Qed.
Lemma sym_regs_rel' regs saved arrays : vregs_ok regs ->
  Forall2 (vrel erel tt (regs ++ [saved], arrays)) regs sym_regs.
Proof.
  intros V. pose proof (sym_regs_rel regs arrays V) as H.
  assert (P : Forall (Forall (fun e => eval (regs ++ [saved]) arrays e = eval regs arrays e)) sym_regs).
  { apply Forall_forall. intros l Hl. unfold sym_regs in Hl. apply in_map_iff in Hl. destruct Hl as (r & <- & Hr).
    apply in_seq in Hr. apply Forall_forall. intros e He. apply in_map_iff in He. destruct He as (j & <- & _).
    apply erel_reg_app. destruct V as (L & _). lia. }
  revert P H. generalize sym_regs. intros es P H. revert P. generalize (regs ++ [saved]). intros big P.
  assert (G : forall rs es, Forall (Forall (fun e => eval big arrays e = eval regs arrays e)) es ->
    Forall2 (vrel erel tt (regs, arrays)) rs es -> Forall2 (vrel erel tt (big, arrays)) rs es).
  { clear. induction rs as [|r rs IH]; intros es P H; inversion H as [|a b l1 l2 H1 H2]; subst; constructor;
      inversion P as [|b' l' P1 P2]; subst; auto.
    clear - H1 P1. unfold vrel in *. induction H1 as [|x e a b H H1 IH]; constructor; inversion P1; subst; auto.
    unfold erel in *. cbn [fst snd] in *. congruence. }
  now apply G.
Qed.
Lemma sym_call_rel regs saved arrays n : length regs = 32%nat ->
  Forall2 (xrel erel tt (regs ++ [saved], arrays)) (call_registers n saved) (sym_call n).
Proof.
  intros L. unfold call_registers, sym_call. induction (seq 0 32) as [|i l IH]; cbn [map]; constructor; auto.
  destruct (i <? n)%nat; [reflexivity|]. destruct (i =? 31)%nat; [reflexivity|]. destruct (i <? 18)%nat; [exact I|].
  cbn [xrel]. eexists; split; [reflexivity|]. unfold erel. cbn [fst snd eval].
  rewrite app_nth2 by lia. now rewrite L, Nat.sub_diag.
Qed.

Lemma vrel_len w a b : vrel erel tt w a b -> length a = length b.
Proof. apply F2_len. Qed.
Lemma array_eq regs pre m post d : fits d m ->
  map (eval regs (pre ++ m :: post)) (sym_array (length pre) d) = m.
Proof.
  intros H. assert (E : nth (length pre) (pre ++ m :: post) [] = m) by (rewrite app_nth2, Nat.sub_diag by lia; reflexivity).
  destruct d as [n|l]; cbn [fits sym_array] in *.
  - rewrite map_map. cbn [eval]. rewrite E. subst n. clear E.
    apply (nth_ext _ _ 0 0); [now rewrite map_length, seq_length|].
    intros i Hi. rewrite map_length, seq_length in Hi.
    rewrite (nth_indep _ 0 ((fun i => nth i m 0) 0%nat)) by (rewrite map_length, seq_length; auto).
    rewrite (map_nth (fun i => nth i m 0)). now rewrite seq_nth by auto.
  - rewrite map_map. cbn [eval]. rewrite map_id. now symmetry.
Qed.
Lemma fills_fits r m : fills r m -> fits (desc r) m.
Proof. destruct r; cbn; unfold zlen; intros; try lia. auto. Qed.
Lemma kept_all regs rs : forall pre ms ts, Forall2 fills rs ms ->
  syms_kept (length pre) rs ts = true ->
  all_kept rs ms (map (map (eval regs (pre ++ ms))) ts).
Proof.
  induction rs as [|r rs IH]; intros pre ms ts Hf Hk; inversion Hf as [|r' m rs' ms0 Hr Hs]; subst;
    destruct ts as [|t ts]; cbn in Hk; try discriminate; cbn [map all_kept]; auto.
  apply andb_prop in Hk. destruct Hk as (K1 & K2). split.
  - pose proof (fills_fits _ _ Hr) as Hd. destruct r; cbn [sym_kept] in K1; cbn [kept fills] in *.
    + apply Nat.eqb_eq in K1. unfold zlen in *. rewrite map_length. lia.
    + apply exprs_eqb_eq in K1. subst t. now apply array_eq.
    + apply exprs_eqb_eq in K1. subst t. now apply array_eq.
  - specialize (IH (pre ++ [m]) ms0 ts Hs). rewrite app_length, <- app_assoc in IH. cbn in IH.
    apply IH. now rewrite Nat.add_1_r.
Qed.
Lemma low_kept_sound regs saved arrays vs es i : vregs_ok regs -> (i < 32)%nat ->
  vs = map (map (eval (regs ++ [saved]) arrays)) es -> low_kept es i = true -> low_half vs i = low_half regs i.
Proof.
  intros V Hi E K. unfold low_kept in K. apply exprs_eqb_eq in K. unfold low_half. subst vs.
  rewrite (nth_indep _ [] (map (eval (regs ++ [saved]) arrays) [])).
  2:{ rewrite map_length. destruct (Nat.lt_ge_cases i (length es)); auto.
      rewrite (nth_overflow es) in K by auto. exfalso. revert K.
      do 32 (destruct i as [|i]; [cbn; discriminate|]). lia. }
  rewrite map_nth, firstn_map, K, <- firstn_map.
  pose proof (sym_regs_rel' regs saved arrays V) as R. apply vrels_map in R.
  assert (E : nth i regs [] = map (eval (regs ++ [saved]) arrays) (nth i sym_regs [])).
  { rewrite <- (map_nth (map (eval (regs ++ [saved]) arrays))). cbn [map]. now rewrite <- R. }
  now rewrite E.
Qed.
Lemma x_kept_sound w n saved xs es i :
  Forall2 (xrel erel tt w) (call_registers n saved) (sym_call n) ->
  Forall2 (xrel erel tt w) xs es -> x_kept n es i = true ->
  nth i xs Any = nth i (call_registers n saved) Any.
Proof.
  intros R0 R K. unfold x_kept in K.
  pose proof (F2_nth_default (xrel erel tt w) i _ _ Any Any R0 I) as X0.
  pose proof (F2_nth_default (xrel erel tt w) i _ _ Any Any R I) as X.
  revert X0 X K. generalize (nth i es Any) (nth i (sym_call n) Any).
  intros a b X0 X K.
  destruct a as [c|a off|e|]; try discriminate K; destruct b as [c'|a' off'|e'|]; cbn in K;
    try discriminate K; try (destruct e; discriminate K).
  - apply andb_prop in K. destruct K as (K1 & K2). apply Nat.eqb_eq in K1. apply Z.eqb_eq in K2. subst.
    cbn in *. congruence.
  - destruct e as [|r j| | | | | | |]; try discriminate K. destruct e' as [|r' j'| | | | | | |]; try discriminate K.
    apply andb_prop in K. destruct K as (K1 & K2). apply Nat.eqb_eq in K1, K2. subst.
    cbn in *. destruct X as (u & -> & ->), X0 as (u' & -> & ->). reflexivity.
Qed.

Lemma routine_run b p n rs regs saved stack arrays : In (p, n, rs) (routines b) ->
  vector_registers regs -> zlen stack = 32 -> Forall2 fills rs arrays ->
  exists st stack' arrays', run_words p regs (call_registers n saved) (stack :: arrays) = Some st /\
    trace st = fixed_trace p n rs /\ mem st = stack' :: arrays' /\ all_kept rs arrays arrays' /\
    (forall i, (8 <= i < 16)%nat -> low_half (vregs st) i = low_half regs i) /\
    (forall i, (18 <= i < 32)%nat -> nth i (xregs st) Any = nth i (call_registers n saved) Any).
Proof.
  intros HI Hr Hs Hf.
  assert (V : vregs_ok regs).
  { destruct Hr as (L & F). unfold zlen in *. split; [lia|]. eapply Forall_impl; [|exact F]. cbv beta. intros; lia. }
  pose proof (all_checked b) as C. rewrite forallb_forall in C. specialize (C _ HI). cbv beta iota in C.
  unfold fixed_trace. destruct (sym_run p n rs) as [st'|] eqn:Et; [|discriminate]. cbn [sym_check] in C.
  unfold sym_run in Et. destruct (run exprs p _ tt) as [[st2 []]|] eqn:E; [|discriminate].
  assert (st2 = st') as -> by congruence. clear Et.
  apply andb_prop in C. destruct C as (C & C3). apply andb_prop in C. destruct C as (C1 & C2).
  destruct (ModelA64.mem st') as [|stk ms] eqn:Em; [discriminate|].
  set (w := (regs ++ [saved], stack :: arrays)).
  assert (RX : Forall2 (xrel erel tt w) (call_registers n saved) (sym_call n)) by (apply sym_call_rel; apply V).
  destruct (run_good _ _ _ _ exprs_sound p tt w (State regs (call_registers n saved) (stack :: arrays) [])
             (State sym_regs (sym_call n) (sym_arrays 0 (inl 32%nat :: map desc rs)) []) I) with (st2' := st') (s2 := tt)
    as (w' & st & Er & _ & Ew & (S1 & S2 & S3 & S4)); auto.
  { split; [|split; [|split]]; cbn [vregs xregs ModelA64.mem trace]; auto.
    - now apply sym_regs_rel'.
    - apply (sym_arrays_rel (regs ++ [saved]) (inl 32%nat :: map desc rs) [] (stack :: arrays)).
      constructor; [cbn; unfold zlen in Hs; lia|]. clear - Hf. induction Hf; cbn [map]; constructor; auto using fills_fits. }
  unfold eext in Ew. subst w'. rewrite Em in S3.
  apply vrels_map in S1. apply vrels_map in S3. cbn [map] in S3.
  exists st. do 2 eexists. split; [unfold run_words; now rewrite Er|]. split; [exact S4|]. split; [exact S3|].
  split; [|split].
  - exact (kept_all (regs ++ [saved]) rs [stack] arrays ms Hf C1).
  - intros i Hi. rewrite forallb_forall in C2. eapply low_kept_sound; eauto; [lia|]. apply C2, in_seq. lia.
  - intros i Hi. rewrite forallb_forall in C3. eapply x_kept_sound; eauto. apply C3, in_seq. lia.
Qed.
