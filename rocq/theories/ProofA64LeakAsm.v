(** * Leakage of the arithmetic functions of the AArch64 build *)

From Coq Require Import ZArith List Bool Lia.
From Verif Require Import ModelA64 ModelA64Asm ModelA64Poly.
From Verif Require Import CSem ModelArith ModelAvx2 CSemFacts ProofLeak.
Import ListNotations.
Open Scope Z_scope.
Ltac Zify.zify_post_hook ::= idtac.

(** ** Assembly routines: the addresses depend on the program and the pointers only *)

(** what a general-purpose register holds, but for the words loaded from memory *)
Definition shape {A} (x : xval A) : xval unit :=
  match x with Int n => Int n | Ptr a o => Ptr a o | Word _ => Word tt | Any => Any end.
Definition view : Type := list (xval unit) * list (nat * Z).
Definition where_ {A} (st : state A) : view := (map shape (xregs st), trace st).

(** the registers and the trace after one instruction *)
Definition vget (x : view) (r : xreg) : xval unit := nth r (fst x) Any.
Definition vset (x : view) (r : xreg) (v : xval unit) : view := (replace_nth r v (fst x), snd x).
Definition at_op (b : xreg) (m : amode) (x : view) : view :=
  let y := match vget x b with Ptr a off => (fst x, (a, off + offset m) :: snd x) | _ => x end in
  match m, vget y b with Post n, Ptr a off => vset y b (Ptr a (off + n)) | _, _ => y end.
Definition walk1 (i : instr) (x : view) : view :=
  match i with
  | ldr_q _ b m | str_q _ b m | ld2_8h _ _ b m | st2_8h _ _ b m | st3_8b _ _ _ b m | st4_4s _ _ _ _ b m => at_op b m x
  | ldp_d _ _ b n | stp_d _ _ b n => at_op b (Off n) x
  | ld1r_8h _ b => at_op b (Off 0) x
  | ldrh_ d b n => vset (at_op b (Off n) x) d (Word tt)
  | mov_imm d n => vset x d (Int n)
  | mov d r => vset x d (vget x r)
  | add_imm d r n =>
      match vget x r with Int m => vset x d (Int (m + n)) | Ptr a off => vset x d (Ptr a (off + n)) | _ => x end
  | adr d a => vset x d (Ptr a 0)
  | _ => x
  end.
Definition walks (p : list instr) (x : view) : view := fold_left (fun x i => walk1 i x) p x.
Fixpoint walk_rounds (n : nat) (p : list instr) (c : xreg) (x : view) : view :=
  match n with
  | O => x
  | Datatypes.S n =>
      let x := walks p x in
      match vget x c with Int m => if m =? 0 then x else walk_rounds n p c x | _ => x end
  end.
Definition walk_block (b : block) (x : view) : view :=
  match b with
  | Straight p => walks p x
  | Loop p c => match vget x c with Int n => walk_rounds (Z.to_nat n) p c x | _ => x end
  end.

Section Walk.
Context {A S : Type} (D : domain A S).
Lemma map_replace {B C} (f : B -> C) n x l : map f (replace_nth n x l) = replace_nth n (f x) (map f l).
Proof. revert n; induction l as [|y l IH]; intros [|n]; cbn; auto. now rewrite IH. Qed.
Lemma w_xget (st : state A) r : vget (where_ st) r = shape (xget st r).
Proof. unfold vget, where_, xget. cbn [fst]. exact (map_nth shape (xregs st) Any r). Qed.
Lemma w_xset (st : state A) r v : where_ (xset st r v) = vset (where_ st) r (shape v).
Proof. unfold where_, xset, vset. cbn [xregs trace fst snd]. now rewrite map_replace. Qed.
Lemma w_set_reg (st st' : state A) n v : set_reg st n v = Some st' -> where_ st' = where_ st.
Proof. unfold set_reg. destruct (_ <? _)%nat; [|discriminate]. now intros [= <-]. Qed.
Lemma w_access (st : state A) b m : where_ (advance (touch st b (offset m)) b m) = at_op b m (where_ st).
Proof.
  unfold at_op. cbv zeta.
  assert (E : where_ (touch st b (offset m)) = match vget (where_ st) b with
    | Ptr a off => (fst (where_ st), (a, off + offset m) :: snd (where_ st)) | _ => where_ st end).
  { rewrite w_xget. unfold touch. destruct (xget st b); reflexivity. }
  rewrite <- E. rewrite w_xget. unfold advance.
  destruct m; [reflexivity|]. destruct (xget (touch st b _) b); try reflexivity. apply w_xset.
Qed.
Lemma w_read (st st' : state A) n b m v : read st n b m = Some (v, st') -> where_ st' = at_op b m (where_ st).
Proof.
  unfold read, obind. destruct (address _ _ _ _) as [[[? ?] ?]|]; [|discriminate]. intros [= _ <-]. apply w_access.
Qed.
Lemma w_write (st st' : state A) b m v : write st b m v = Some st' -> where_ st' = at_op b m (where_ st).
Proof.
  unfold write, obind. destruct (address _ _ _ _) as [[[? ?] ?]|]; [|discriminate]. intros [= <-]. exact (w_access st b m).
Qed.
Ltac w := repeat match goal with
  | |- context [match ?m with Some _ => _ | None => _ end] =>
      let E := fresh "E" in destruct m eqn:E; [|discriminate]
  | |- context [let '(_, _) := ?x in _] => destruct x
  | E : (_, _) = (_, _) |- _ => injection E as ? ?; subst
  | E : read _ _ _ _ = Some _ |- _ => apply w_read in E
  | E : write _ _ _ _ = Some _ |- _ => apply w_write in E
  | E : set_reg _ _ _ = Some _ |- _ => apply w_set_reg in E
  end.
Lemma w_move2 st (s : S) f d a b (st' : state A) s' : move2 st s f d a b = Some (st', s') -> where_ st' = where_ st.
Proof. unfold move2, obind. w. intros [= <- _]. congruence. Qed.
Lemma w_exec i st s st' s' : exec D i st s = Some (st', s') -> where_ st' = walk1 i (where_ st).
Proof.
  destruct i; cbn [exec walk1]; try exact (w_move2 _ _ _ _ _ _ _ _); unfold obind; w;
    try (intros [= <- _]; congruence).
  - destruct (xget st s0) eqn:E; try discriminate; w; intros [= <- _]; congruence.
  - destruct l as [|x [|]]; try discriminate. intros [= <- _]. rewrite w_xset. cbn [shape]. congruence.
  - intros [= <- _]. apply w_xset.
  - intros [= <- _]. rewrite w_xset. now rewrite w_xget.
  - rewrite w_xget. destruct (xget st s0); try discriminate; intros [= <- _]; apply w_xset.
  - intros [= <- _]. apply w_xset.
Qed.
Lemma w_steps p : forall st s st' s', steps D p st s = Some (st', s') -> where_ st' = walks p (where_ st).
Proof.
  unfold walks. induction p as [|i p IH]; intros st s st' s'; cbn [steps fold_left]; [now intros [= <- _]|]. unfold obind.
  destruct (exec D i st s) as [[st1 s1]|] eqn:E; [|discriminate]. rewrite <- (w_exec _ _ _ _ _ E). apply IH.
Qed.
Lemma w_rounds n p c : forall st s st' s', rounds D n p c st s = Some (st', s') -> where_ st' = walk_rounds n p c (where_ st).
Proof.
  induction n as [|n IH]; intros st s st' s'; cbn [rounds walk_rounds]; [discriminate|]. unfold obind.
  destruct (steps D p st s) as [[st1 s1]|] eqn:E; [|discriminate]. rewrite <- (w_steps _ _ _ _ _ E), w_xget.
  destruct (xget st1 c); try discriminate. cbn [shape]. destruct (_ =? 0); [now intros [= <- _]|apply IH].
Qed.
Lemma w_block b st s st' s' : run_block D b st s = Some (st', s') -> where_ st' = walk_block b (where_ st).
Proof.
  destruct b as [p|p c]; cbn [run_block walk_block]; [apply w_steps|]. rewrite w_xget.
  destruct (xget st c); try discriminate. apply w_rounds.
Qed.
Lemma w_run p : forall st s st' s', run D p st s = Some (st', s') ->
  where_ st' = fold_left (fun x b => walk_block b x) p (where_ st).
Proof.
  induction p as [|b p IH]; intros st s st' s'; cbn [run fold_left]; [now intros [= <- _]|]. unfold obind.
  destruct (run_block D b st s) as [[st1 s1]|] eqn:E; [|discriminate]. rewrite <- (w_block _ _ _ _ _ E). apply IH.
Qed.
End Walk.
Lemma w_run_words p regs xs arrays st : run_words p regs xs arrays = Some st ->
  trace st = snd (fold_left (fun x b => walk_block b x) p (map shape xs, [])).
Proof.
  unfold run_words, obind. destruct (run _ _ _ _) as [[st' ?]|] eqn:E; [|discriminate]. intros [= <-].
  apply w_run in E. exact (f_equal snd E).
Qed.
Lemma l_asm_a64 J J' p n ar ar' : same any (call J p n ar) (call J' p n ar').
Proof.
  unfold call. destruct (run_words p _ _ (_ :: ar)) eqn:E1; [|apply same_fail_l].
  destruct (run_words p _ _ (_ :: ar')) eqn:E2; [|apply same_fail_r]. intros _ _. cbn [fst snd].
  rewrite (w_run_words _ _ _ _ _ E1), (w_run_words _ _ _ _ _ E2). split; [reflexivity|exact I].
Qed.
#[export] Hint Resolve l_asm_a64 : leak.
Lemma l_call_x0 J J' p n ar ar' : same any (call_x0 J p n ar) (call_x0 J' p n ar').
Proof. unfold call_x0. leak. Qed.
#[export] Hint Resolve l_call_x0 : leak.

(** ** mlkem/ntt.c, poly.c, polyvec.c *)
Lemma l_ntt_a64 b J J' r r' : same any (poly_ntt_aarch64 b J r) (poly_ntt_aarch64 b J' r').
Proof. unfold poly_ntt_aarch64, ntt_native. leak. Qed.
Lemma l_invntt_a64 b J J' r r' : same any (poly_invntt_tomont_aarch64 b J r) (poly_invntt_tomont_aarch64 b J' r').
Proof. unfold poly_invntt_tomont_aarch64, intt_native. leak. Qed.
Lemma l_tobytes_a64 J J' r r' a a' : same any (poly_tobytes_aarch64 J r a) (poly_tobytes_aarch64 J' r' a').
Proof. unfold poly_tobytes_aarch64, poly_tobytes_native. leak. Qed.
Lemma l_tomont_a64 b J J' r r' : same any (poly_tomont_aarch64 b J r) (poly_tomont_aarch64 b J' r').
Proof. unfold poly_tomont_aarch64, poly_tomont_native. leak. Qed.
Lemma l_reduce_a64 b J J' r r' : same any (poly_reduce_aarch64 b J r) (poly_reduce_aarch64 b J' r').
Proof. unfold poly_reduce_aarch64, poly_reduce_native. leak. Qed.
Lemma l_mulcache_a64 b J J' x x' a a' :
  same any (poly_mulcache_compute_aarch64 b J x a) (poly_mulcache_compute_aarch64 b J' x' a').
Proof. unfold poly_mulcache_compute_aarch64, poly_mulcache_compute_native. leak. Qed.
Lemma l_polyvec_basemul_cached_a64 b J J' p r r' u u' v v' c c' :
  same any (polyvec_basemul_acc_montgomery_cached_aarch64 b J p r u v c)
           (polyvec_basemul_acc_montgomery_cached_aarch64 b J' p r' u' v' c').
Proof. unfold polyvec_basemul_acc_montgomery_cached_aarch64, polyvec_basemul_acc_montgomery_cached_native. leak. Qed.
#[export] Hint Resolve l_ntt_a64 l_invntt_a64 l_tobytes_a64 l_tomont_a64 l_reduce_a64 l_mulcache_a64
  l_polyvec_basemul_cached_a64 : leak.
Lemma l_polyvec_tobytes_a64 J J' p r r' a a' : same any (polyvec_tobytes_aarch64 J p r a) (polyvec_tobytes_aarch64 J' p r' a').
Proof. unfold polyvec_tobytes_aarch64. leak. Qed.
Lemma l_polyvec_ntt_a64 b J J' p r r' : same any (polyvec_ntt_aarch64 b J p r) (polyvec_ntt_aarch64 b J' p r').
Proof. unfold polyvec_ntt_aarch64. leak. Qed.
Lemma l_polyvec_invntt_a64 b J J' p r r' : same any (polyvec_invntt_tomont_aarch64 b J p r) (polyvec_invntt_tomont_aarch64 b J' p r').
Proof. unfold polyvec_invntt_tomont_aarch64. leak. Qed.
Lemma l_polyvec_mulcache_a64 b J J' p x x' a a' :
  same any (polyvec_mulcache_compute_aarch64 b J p x a) (polyvec_mulcache_compute_aarch64 b J' p x' a').
Proof. unfold polyvec_mulcache_compute_aarch64. leak. Qed.
Lemma l_polyvec_reduce_a64 b J J' p r r' : same any (polyvec_reduce_aarch64 b J p r) (polyvec_reduce_aarch64 b J' p r').
Proof. unfold polyvec_reduce_aarch64. leak. Qed.
Lemma l_polyvec_tomont_a64 b J J' p r r' : same any (polyvec_tomont_aarch64 b J p r) (polyvec_tomont_aarch64 b J' p r').
Proof. unfold polyvec_tomont_aarch64. leak. Qed.
#[export] Hint Resolve l_polyvec_tobytes_a64 l_polyvec_ntt_a64 l_polyvec_invntt_a64 l_polyvec_mulcache_a64
  l_polyvec_reduce_a64 l_polyvec_tomont_a64 : leak.
Lemma l_polyvec_basemul_a64 b J J' p r r' u u' v v' :
  same any (polyvec_basemul_acc_montgomery_aarch64 b J p r u v) (polyvec_basemul_acc_montgomery_aarch64 b J' p r' u' v').
Proof. unfold polyvec_basemul_acc_montgomery_aarch64. leak. Qed.
#[export] Hint Resolve l_polyvec_basemul_a64 : leak.
