(** * Proof method for the assembly routines: running them on other kinds of words

    If the operations of a domain [D] are sound for the machine in the sense below, then a
    run over [D] that succeeds describes every run of the machine from related states. *)

From Coq Require Import ZArith List Bool Lia.
From Verif Require Import CSem ModelX86.
Import ListNotations.
Open Scope Z_scope.

Arguments do_vpermq {A} : simpl never.
Arguments do_vpermd {A} : simpl never.
Arguments do_vpshufb {A} : simpl never.

(** ** [Forall2] and the moves *)
Section Moves.
Context {A B : Type} (R : A -> B -> Prop).
Notation RR := (Forall2 R).

Lemma F2_app a b a' b' : RR a b -> RR a' b' -> RR (a ++ a') (b ++ b').
Proof. intros; now apply Forall2_app. Qed.
Lemma F2_firstn n a b : RR a b -> RR (firstn n a) (firstn n b).
Proof. intros H; revert n; induction H; intros [|n]; cbn; auto. Qed.
Lemma F2_skipn n a b : RR a b -> RR (skipn n a) (skipn n b).
Proof. intros H; revert n; induction H; intros [|n]; cbn; auto. Qed.
Lemma F2_block k i a b : RR a b -> RR (block k i a) (block k i b).
Proof. intros. now apply F2_firstn, F2_skipn. Qed.
Lemma F2_flat {I} (l : list I) (f : I -> list A) (g : I -> list B) :
  (forall i, RR (f i) (g i)) -> RR (flat_map f l) (flat_map g l).
Proof. intros H; induction l; cbn; auto using F2_app. Qed.
Lemma F2_nth n a b x : RR a b -> nth_error b n = Some x -> exists y, nth_error a n = Some y /\ R y x.
Proof.
  intros H; revert n; induction H; intros [|n]; cbn; try discriminate; eauto.
  intros [= <-]; eauto.
Qed.
Lemma F2_replace n a b x y : RR a b -> R x y -> RR (replace_nth n x a) (replace_nth n y b).
Proof. intros H; revert n; induction H; intros [|n] K; cbn; auto. Qed.
Lemma F2_len a b : RR a b -> length a = length b.
Proof. intros H; now induction H; cbn; f_equal. Qed.

Lemma F2_vperm2i128 imm b a b' a' : RR b b' -> RR a a' -> RR (do_vperm2i128 imm b a) (do_vperm2i128 imm b' a').
Proof. intros. unfold do_vperm2i128. apply F2_app; destruct (_ <? _); now apply F2_block. Qed.
Lemma F2_vpunpcklqdq b a b' a' : RR b b' -> RR a a' -> RR (do_vpunpcklqdq b a) (do_vpunpcklqdq b' a').
Proof. intros. unfold do_vpunpcklqdq. repeat apply F2_app; now apply F2_block. Qed.
Lemma F2_vpunpckhqdq b a b' a' : RR b b' -> RR a a' -> RR (do_vpunpckhqdq b a) (do_vpunpckhqdq b' a').
Proof. intros. unfold do_vpunpckhqdq. repeat apply F2_app; now apply F2_block. Qed.
Lemma F2_vmovsldup a a' : RR a a' -> RR (do_vmovsldup a) (do_vmovsldup a').
Proof. intros. apply F2_flat. intros i. apply F2_app; now apply F2_block. Qed.
Lemma F2_vpblendd imm b a b' a' : RR b b' -> RR a a' -> RR (do_vpblendd imm b a) (do_vpblendd imm b' a').
Proof. intros. apply F2_flat. intros i. destruct (Z.testbit _ _); now apply F2_block. Qed.
Lemma F2_vpblendw imm b a b' a' : RR b b' -> RR a a' -> RR (do_vpblendw imm b a) (do_vpblendw imm b' a').
Proof. intros. apply F2_flat. intros i. destruct (Z.testbit _ _); now apply F2_block. Qed.
Lemma F2_vpslld16 z z' a a' : R z z' -> RR a a' -> RR (do_vpslld16 z a) (do_vpslld16 z' a').
Proof. intros. apply F2_flat. intros i. constructor; auto using F2_block. Qed.
Lemma F2_vpsrld16 z z' a a' : R z z' -> RR a a' -> RR (do_vpsrld16 z a) (do_vpsrld16 z' a').
Proof. intros. apply F2_flat. intros i. apply F2_app; auto using F2_block. Qed.
Lemma F2_vpsrlq32 z z' a a' : R z z' -> RR a a' -> RR (do_vpsrlq32 z a) (do_vpsrlq32 z' a').
Proof. intros. apply F2_flat. intros i. apply F2_app; auto using F2_block. Qed.
Lemma F2_vpermq imm a a' : RR a a' -> RR (do_vpermq imm a) (do_vpermq imm a').
Proof. intros. apply F2_flat. intros i. now apply F2_block. Qed.
Lemma F2_vpermd c a a' : RR a a' -> RR (do_vpermd c a) (do_vpermd c a').
Proof. intros. apply F2_flat. intros i. now apply F2_block. Qed.
Lemma F2_vpshufb c a a' r : RR a a' -> do_vpshufb c a' = Some r ->
  exists r', do_vpshufb c a = Some r' /\ RR r' r.
Proof.
  intros H. unfold do_vpshufb. destruct (forallb _ c); [|discriminate].
  intros K. eexists; split; [reflexivity|].
  apply (f_equal (fun o => match o with Some l => l | None => [] end)) in K. cbv beta iota in K.
  rewrite <- K. apply F2_flat. intros i. now apply F2_block.
Qed.
End Moves.

(** ** Soundness of a run *)
Section Sound.
Context {A S W : Type} (D : domain A S).
Variable ok : S -> W -> Prop.
Variable ext : S -> W -> S -> W -> Prop.
Variable rel : S -> W -> Z -> A -> Prop.

Record sound : Prop := Sound {
  ext_refl : forall s w, ext s w s w;
  ext_trans : forall s w s1 w1 s2 w2, ext s w s1 w1 -> ext s1 w1 s2 w2 -> ext s w s2 w2;
  ext_rel : forall s w s' w' v x, ext s w s' w' -> rel s w v x -> rel s' w' v x;
  op_sound : forall o s w a x b y z s', ok s w -> rel s w a x -> rel s w b y ->
    d_op D o x y s = (z, s') ->
    exists w', ok s' w' /\ ext s w s' w' /\ rel s' w' (word_sem o a b) z;
  shift_sound : forall o n s w a x z s', ok s w -> rel s w a x -> d_shift D o n x s = (z, s') ->
    exists w', ok s' w' /\ ext s w s' w' /\ rel s' w' (shift_sem o n a) z;
  zero_sound : forall s w z s', ok s w -> d_zero D s = (z, s') ->
    exists w', ok s' w' /\ ext s w s' w' /\ rel s' w' 0 z;
  ctl_sound : forall s w a x c, ok s w -> rel s w a x -> d_ctl D s x = Some c -> a = c }.
Hypothesis HS : sound.

Definition vrel s w := Forall2 (rel s w).
Definition strel s w (st : state Z) (st' : state A) : Prop :=
  Forall2 (vrel s w) (ymm st) (ymm st') /\ (forall g, ptr st g = ptr st' g) /\
  Forall2 (vrel s w) (mem st) (mem st') /\ trace st = trace st'.

Lemma vrel_ext s w s' w' a b : ext s w s' w' -> vrel s w a b -> vrel s' w' a b.
Proof. intros E H. unfold vrel in *. induction H; constructor; eauto using ext_rel. Qed.
Lemma vrels_ext s w s' w' a b : ext s w s' w' -> Forall2 (vrel s w) a b -> Forall2 (vrel s' w') a b.
Proof. intros E H. induction H; constructor; eauto using vrel_ext. Qed.
Lemma strel_ext s w s' w' a b : ext s w s' w' -> strel s w a b -> strel s' w' a b.
Proof. intros E (H1 & H2 & H3 & H4). repeat split; eauto using vrels_ext. Qed.

Lemma lanes2_sound o : forall x y a b s w r s',
  ok s w -> vrel s w a x -> vrel s w b y -> lanes2 (d_op D o) x y s = (r, s') ->
  exists w', ok s' w' /\ ext s w s' w' /\
    vrel s' w' (map (fun p => word_sem o (fst p) (snd p)) (combine a b)) r.
Proof.
  induction x as [|x xs IH]; intros [|y ys] a b s w r s' Hok Ha Hb;
    inversion Ha as [|a1 x1 l x2 H1 H3]; inversion Hb as [|b1 y1 l0 y2 H6 H8]; subst; cbn;
    try (intros [= <- <-]; exists w; repeat split; [auto|apply HS|constructor]; fail).
  destruct (d_op D o x y s) as [z s1] eqn:E1. destruct (lanes2 _ xs ys s1) as [r2 s2] eqn:E2.
  intros [= <- <-].
  destruct (op_sound HS _ _ _ _ _ _ _ _ _ Hok H1 H6 E1) as (w1 & Hok1 & X1 & R1).
  destruct (IH ys l l0 s1 w1 r2 s2 Hok1 (vrel_ext _ _ _ _ _ _ X1 H3) (vrel_ext _ _ _ _ _ _ X1 H8) E2)
    as (w2 & Hok2 & X2 & R2).
  exists w2. repeat split; auto; [eapply ext_trans; eauto|].
  constructor; [eapply ext_rel; eauto|exact R2].
Qed.
Lemma lanes1_sound o n : forall x a s w r s',
  ok s w -> vrel s w a x -> lanes1 (d_shift D o n) x s = (r, s') ->
  exists w', ok s' w' /\ ext s w s' w' /\ vrel s' w' (map (shift_sem o n) a) r.
Proof.
  induction x as [|x xs IH]; intros a s w r s' Hok Ha; inversion Ha as [|a1 x1 l x2 H1 H3]; subst; cbn.
  - intros [= <- <-]; exists w; repeat split; [auto|apply HS|constructor].
  - destruct (d_shift D o n x s) as [z s1] eqn:E1. destruct (lanes1 _ xs s1) as [r2 s2] eqn:E2.
    intros [= <- <-].
    destruct (shift_sound HS _ _ _ _ _ _ _ _ Hok H1 E1) as (w1 & Hok1 & X1 & R1).
    destruct (IH l s1 w1 r2 s2 Hok1 (vrel_ext _ _ _ _ _ _ X1 H3) E2) as (w2 & Hok2 & X2 & R2).
    exists w2. repeat split; auto; [eapply ext_trans; eauto|].
    constructor; [eapply ext_rel; eauto|exact R2].
Qed.
Lemma controls_sound s w : forall x a c, ok s w -> vrel s w a x -> controls D s x = Some c ->
  controls machine tt a = Some c.
Proof.
  induction x as [|x xs IH]; intros a c Hok Ha; inversion Ha as [|a1 x1 l x2 H1 H3]; subst; cbn; [auto|].
  destruct (d_ctl D s x) as [v|] eqn:E; cbn; [|discriminate].
  destruct (controls D s xs) as [vs|] eqn:E2; cbn; [|discriminate]. intros [= <-].
  rewrite (IH l vs Hok H3 eq_refl). cbn. now rewrite (ctl_sound HS _ _ _ _ _ Hok H1 E).
Qed.

Lemma reg_sound s w st st' n v : strel s w st st' -> reg st' n = Some v ->
  exists u, reg st n = Some u /\ vrel s w u v.
Proof. intros (H & _) E. exact (F2_nth _ _ _ _ _ H E). Qed.
Lemma set_reg_sound s w st st' n u v st2' : strel s w st st' -> vrel s w u v ->
  set_reg st' n v = Some st2' -> exists st2, set_reg st n u = Some st2 /\ strel s w st2 st2'.
Proof.
  intros (H1 & H2 & H3 & H4) Hv. unfold set_reg. rewrite (F2_len _ _ _ H1).
  destruct (_ <? _)%nat; [|discriminate]. intros [= <-]. eexists; split; [reflexivity|].
  repeat split; cbn; auto. now apply F2_replace.
Qed.
Lemma address_sound s w st st' al n b d a i m' : strel s w st st' -> address st' al n b d = Some (a, i, m') ->
  exists m, address st al n b d = Some (a, i, m) /\ vrel s w m m'.
Proof.
  intros (H1 & H2 & H3 & H4). unfold address. rewrite H2. destruct (ptr st' b) as [a0 off].
  destruct (nth_error (mem st') a0) as [mm|] eqn:E; cbn; [|discriminate].
  destruct (F2_nth _ _ _ _ _ H3 E) as (m & E' & R). rewrite E'. cbn.
  unfold vrel in R. rewrite (F2_len _ _ _ R). destruct (_ && _); [|discriminate].
  intros [= -> <- <-]. eauto.
Qed.
Lemma touch_sound s w st st' b d : strel s w st st' -> strel s w (touch st b d) (touch st' b d).
Proof.
  intros (H1 & H2 & H3 & H4). unfold touch. rewrite <- (H2 b). destruct (ptr st b) as [a off].
  repeat split; cbn; auto. now rewrite H4.
Qed.
Lemma read_sound s w st st' al n b d v st2' : strel s w st st' -> read st' al n b d = Some (v, st2') ->
  exists u st2, read st al n b d = Some (u, st2) /\ vrel s w u v /\ strel s w st2 st2'.
Proof.
  intros R. unfold read. destruct (address st' (align_of al) n b d) as [[[a i] m']|] eqn:E; cbn; [|discriminate].
  destruct (address_sound _ _ _ _ _ _ _ _ _ _ _ R E) as (m & E' & Rm). rewrite E'. cbn.
  intros [= <- <-]. eexists _, _; split; [reflexivity|]. split; [now apply F2_firstn, F2_skipn|].
  now apply touch_sound.
Qed.
Lemma write_sound s w st st' al b d u v st2' : strel s w st st' -> vrel s w u v ->
  write st' al b d v = Some st2' ->
  exists st2, write st al b d u = Some st2 /\ strel s w st2 st2'.
Proof.
  intros R Rv. unfold write. pose proof Rv as L. unfold vrel in L. apply F2_len in L. rewrite L.
  destruct (address st' (align_of al) (length v) b d) as [[[a i] m']|] eqn:E; cbn; [|discriminate].
  destruct (address_sound _ _ _ _ _ _ _ _ _ _ _ R E) as (m & E' & Rm). rewrite E'. cbn.
  intros [= <-]. eexists; split; [reflexivity|].
  destruct (touch_sound _ _ _ _ b d R) as (H1 & H2 & H3 & H4).
  repeat split; cbn; auto. apply F2_replace; auto.
  repeat apply F2_app; auto using F2_firstn, F2_skipn.
Qed.
Lemma source_sound s w st st' o v st2' : strel s w st st' -> source st' o = Some (v, st2') ->
  exists u st2, source st o = Some (u, st2) /\ vrel s w u v /\ strel s w st2 st2'.
Proof.
  intros R. destruct o as [n|b d]; cbn.
  - destruct (reg st' n) as [x|] eqn:E; cbn; [|discriminate]. intros [= <- <-].
    destruct (reg_sound _ _ _ _ _ _ R E) as (u & -> & Ru). cbn. eauto 6.
  - apply read_sound; auto.
Qed.
Lemma set_ptr_sound s w st st' g p : strel s w st st' -> strel s w (set_ptr st g p) (set_ptr st' g p).
Proof. intros (H1 & H2 & H3 & H4). repeat split; cbn; auto. intros x. now destruct (gpr_eqb x g). Qed.

Lemma move1_sound s w st st' f f' src dst st2' s2 :
  strel s w st st' -> (forall a a', vrel s w a a' -> vrel s w (f a) (f' a')) ->
  move1 st' s f' src dst = Some (st2', s2) ->
  s2 = s /\ exists st2, move1 st tt f src dst = Some (st2, tt) /\ strel s w st2 st2'.
Proof.
  intros R F. unfold move1. destruct (reg st' src) as [a'|] eqn:E; cbn; [|discriminate].
  destruct (reg_sound _ _ _ _ _ _ R E) as (a & -> & Ra). cbn.
  destruct (set_reg st' dst (f' a')) as [st3'|] eqn:E3; cbn; [|discriminate].
  destruct (set_reg_sound _ _ _ _ _ _ _ _ R (F _ _ Ra) E3) as (st3 & -> & R3). cbn.
  intros [= <- <-]. eauto.
Qed.
Lemma move2_sound s w st st' f f' sb sa dst st2' s2 :
  strel s w st st' ->
  (forall b a b' a', vrel s w b b' -> vrel s w a a' -> vrel s w (f b a) (f' b' a')) ->
  move2 st' s f' sb sa dst = Some (st2', s2) ->
  s2 = s /\ exists st2, move2 st tt f sb sa dst = Some (st2, tt) /\ strel s w st2 st2'.
Proof.
  intros R F. unfold move2. destruct (reg st' sb) as [b'|] eqn:Eb; cbn; [|discriminate].
  destruct (reg_sound _ _ _ _ _ _ R Eb) as (b & -> & Rb). cbn.
  destruct (reg st' sa) as [a'|] eqn:E; cbn; [|discriminate].
  destruct (reg_sound _ _ _ _ _ _ R E) as (a & -> & Ra). cbn.
  destruct (set_reg st' dst (f' b' a')) as [st3'|] eqn:E3; cbn; [|discriminate].
  destruct (set_reg_sound _ _ _ _ _ _ _ _ R (F _ _ _ _ Rb Ra) E3) as (st3 & -> & R3). cbn.
  intros [= <- <-]. eauto.
Qed.

Lemma lanes2_machine o a b u :
  lanes2 (fun (a b : Z) (s : unit) => (word_sem o a b, s)) a b u
  = (map (fun p => word_sem o (fst p) (snd p)) (combine a b), u).
Proof. revert b u; induction a as [|x a IH]; intros [|y b] u; cbn; auto. now rewrite IH. Qed.
Lemma lanes1_machine o n a u :
  lanes1 (fun (a : Z) (s : unit) => (shift_sem o n a, s)) a u = (map (shift_sem o n) a, u).
Proof. revert u; induction a as [|x a IH]; intros u; cbn; auto. now rewrite IH. Qed.

Lemma exec_sound i s w st st' st2' s2 :
  ok s w -> strel s w st st' -> exec D i st' s = Some (st2', s2) ->
  exists w2 st2, exec machine i st tt = Some (st2, tt) /\
    ok s2 w2 /\ ext s w s2 w2 /\ strel s2 w2 st2 st2'.
Proof.
  intros Hok R.
  assert (Z0 : forall (g : Z -> list Z -> list Z) (g' : A -> list A -> list A) src dst,
    (forall s w z z' a a', rel s w z z' -> vrel s w a a' -> vrel s w (g z a) (g' z' a')) ->
    (let '(z, s) := d_zero D s in move1 st' s (g' z) src dst) = Some (st2', s2) ->
    exists w2 st2, move1 st tt (g 0) src dst = Some (st2, tt) /\
      ok s2 w2 /\ ext s w s2 w2 /\ strel s2 w2 st2 st2').
  { intros g g' src dst G. destruct (d_zero D s) as [z s1] eqn:E.
    destruct (zero_sound HS _ _ _ _ Hok E) as (w1 & Hok1 & X1 & R1). intros E2.
    destruct (move1_sound s1 w1 st st' (g 0) (g' z) src dst st2' s2) as (-> & st2 & -> & R2); auto.
    - eapply strel_ext; eauto.
    - eauto 10. }
  destruct i; cbn [exec].
  - destruct (read st' aligned 16 b d) as [[v st3']|] eqn:E; cbn; [|discriminate].
    destruct (read_sound _ _ _ _ _ _ _ _ _ _ R E) as (u & st3 & -> & Ru & R3). cbn.
    destruct (set_reg st3' dst v) as [st4'|] eqn:E4; cbn; [|discriminate]. intros [= <- <-].
    destruct (set_reg_sound _ _ _ _ _ _ _ _ R3 Ru E4) as (st4 & -> & R4). cbn.
    eexists w, _. repeat split; eauto; apply HS || apply R4.
  - destruct (reg st' src) as [v|] eqn:E; cbn; [|discriminate].
    destruct (reg_sound _ _ _ _ _ _ R E) as (u & -> & Ru). cbn.
    destruct (write st' aligned b d v) as [st4'|] eqn:E4; cbn; [|discriminate]. intros [= <- <-].
    destruct (write_sound _ _ _ _ _ _ _ _ _ _ R Ru E4) as (st4 & -> & R4). cbn.
    eexists w, _. repeat split; eauto; apply HS || apply R4.
  - destruct (source st' s0) as [[y st3']|] eqn:E; cbn; [|discriminate].
    destruct (source_sound _ _ _ _ _ _ _ R E) as (b & st3 & -> & Rb & R3). cbn.
    destruct (reg st3' s1) as [x|] eqn:Ea; cbn; [|discriminate].
    destruct (reg_sound _ _ _ _ _ _ R3 Ea) as (a & -> & Ra). cbn.
    destruct (lanes2 (d_op D o) x y s) as [r s3] eqn:El.
    destruct (lanes2_sound _ _ _ _ _ _ _ _ _ Hok Ra Rb El) as (w3 & Hok3 & X3 & Rr).
    rewrite lanes2_machine.
    destruct (set_reg st3' dst r) as [st4'|] eqn:E4; cbn; [|discriminate]. intros [= <- <-].
    destruct (set_reg_sound _ _ _ _ _ _ _ _ (strel_ext _ _ _ _ _ _ X3 R3) Rr E4) as (st4 & -> & R4). cbn.
    eexists w3, _. repeat split; eauto; apply R4.
  - destruct (reg st' src) as [x|] eqn:Ea; cbn; [|discriminate].
    destruct (reg_sound _ _ _ _ _ _ R Ea) as (a & -> & Ra). cbn.
    destruct (lanes1 (d_shift D o n) x s) as [r s3] eqn:El.
    destruct (lanes1_sound _ _ _ _ _ _ _ _ Hok Ra El) as (w3 & Hok3 & X3 & Rr).
    rewrite lanes1_machine.
    destruct (set_reg st' dst r) as [st4'|] eqn:E4; cbn; [|discriminate]. intros [= <- <-].
    destruct (set_reg_sound _ _ _ _ _ _ _ _ (strel_ext _ _ _ _ _ _ X3 R) Rr E4) as (st4 & -> & R4). cbn.
    eexists w3, _. repeat split; eauto; apply R4.
  - destruct (n =? 16); [|discriminate]. apply (Z0 do_vpslld16 do_vpslld16).
    intros; now apply F2_vpslld16.
  - destruct (n =? 16); [|discriminate]. apply (Z0 do_vpsrld16 do_vpsrld16).
    intros; now apply F2_vpsrld16.
  - destruct (n =? 32); [|discriminate]. apply (Z0 do_vpsrlq32 do_vpsrlq32).
    intros; now apply F2_vpsrlq32.
  - intros E. destruct (move2_sound _ _ _ _ (do_vpblendw imm) _ _ _ _ _ _ R (F2_vpblendw _ _) E) as (-> & st2 & -> & R2).
    exists w, st2. split; [auto|]. split; [auto|]. split; [apply HS|auto].
  - intros E. destruct (move2_sound _ _ _ _ (do_vpblendd imm) _ _ _ _ _ _ R (F2_vpblendd _ _) E) as (-> & st2 & -> & R2).
    exists w, st2. split; [auto|]. split; [auto|]. split; [apply HS|auto].
  - intros E. destruct (move2_sound _ _ _ _ (do_vperm2i128 imm) _ _ _ _ _ _ R (F2_vperm2i128 _ _) E) as (-> & st2 & -> & R2).
    exists w, st2. split; [auto|]. split; [auto|]. split; [apply HS|auto].
  - intros E. destruct (move2_sound _ _ _ _ do_vpunpcklqdq _ _ _ _ _ _ R (F2_vpunpcklqdq _) E) as (-> & st2 & -> & R2).
    exists w, st2. split; [auto|]. split; [auto|]. split; [apply HS|auto].
  - intros E. destruct (move2_sound _ _ _ _ do_vpunpckhqdq _ _ _ _ _ _ R (F2_vpunpckhqdq _) E) as (-> & st2 & -> & R2).
    exists w, st2. split; [auto|]. split; [auto|]. split; [apply HS|auto].
  - intros E. destruct (move1_sound _ _ _ _ do_vmovsldup _ _ _ _ _ R (F2_vmovsldup _) E) as (-> & st2 & -> & R2).
    exists w, st2. split; [auto|]. split; [auto|]. split; [apply HS|auto].
  - destruct (source st' src) as [[x st3']|] eqn:E; cbn; [|discriminate].
    destruct (source_sound _ _ _ _ _ _ _ R E) as (a & st3 & -> & Ra & R3). cbn.
    destruct (set_reg st3' dst _) as [st4'|] eqn:E4; cbn; [|discriminate]. intros [= <- <-].
    destruct (set_reg_sound _ _ _ _ _ _ _ _ R3 (F2_vpermq _ imm _ _ Ra) E4) as (st4 & -> & R4). cbn.
    eexists w, _. repeat split; eauto; apply HS || apply R4.
  - destruct (source st' src) as [[x st3']|] eqn:E; cbn; [|discriminate].
    destruct (source_sound _ _ _ _ _ _ _ R E) as (a & st3 & -> & Ra & R3). cbn.
    destruct (reg st3' ctl) as [c'|] eqn:Ec; cbn; [|discriminate].
    destruct (reg_sound _ _ _ _ _ _ R3 Ec) as (c & -> & Rc). cbn.
    destruct (controls D s c') as [cc|] eqn:Ecc; cbn; [|discriminate].
    change (controls machine tt c) with (controls machine tt c).
    rewrite (controls_sound _ _ _ _ _ Hok Rc Ecc). cbn.
    destruct (set_reg st3' dst _) as [st4'|] eqn:E4; cbn; [|discriminate]. intros [= <- <-].
    destruct (set_reg_sound _ _ _ _ _ _ _ _ R3 (F2_vpermd _ cc _ _ Ra) E4) as (st4 & -> & R4). cbn.
    eexists w, _. repeat split; eauto; apply HS || apply R4.
  - destruct (reg st' src) as [x|] eqn:E; cbn; [|discriminate].
    destruct (reg_sound _ _ _ _ _ _ R E) as (a & -> & Ra). cbn.
    destruct (reg st' ctl) as [c'|] eqn:Ec; cbn; [|discriminate].
    destruct (reg_sound _ _ _ _ _ _ R Ec) as (c & -> & Rc). cbn.
    destruct (controls D s c') as [cc|] eqn:Ecc; cbn; [|discriminate].
    rewrite (controls_sound _ _ _ _ _ Hok Rc Ecc). cbn.
    destruct (do_vpshufb cc x) as [r|] eqn:Er; cbn; [|discriminate].
    destruct (F2_vpshufb _ _ _ _ _ Ra Er) as (r0 & -> & Rr). cbn.
    destruct (set_reg st' dst _) as [st4'|] eqn:E4; cbn; [|discriminate]. intros [= <- <-].
    destruct (set_reg_sound _ _ _ _ _ _ _ _ R Rr E4) as (st4 & -> & R4). cbn.
    eexists w, _. repeat split; eauto; apply HS || apply R4.
  - destruct (read st' false 4 b d) as [[v st3']|] eqn:E; cbn; [|discriminate].
    destruct (read_sound _ _ _ _ _ _ _ _ _ _ R E) as (u & st3 & -> & Ru & R3). cbn.
    destruct (set_reg st3' dst _) as [st4'|] eqn:E4; cbn; [|discriminate]. intros [= <- <-].
    assert (Ru4 : vrel s w (u ++ u ++ u ++ u) (v ++ v ++ v ++ v)) by (repeat apply F2_app; exact Ru).
    destruct (set_reg_sound _ _ _ _ _ _ _ _ R3 Ru4 E4) as (st4 & -> & R4). cbn.
    eexists w, _. repeat split; eauto; apply HS || apply R4.
  - destruct R as (R1 & R2 & R3). rewrite R2. destruct (ptr st' b) as [a off]. intros [= <- <-].
    eexists w, _. split; [reflexivity|]. split; [auto|]. split; [apply HS|].
    apply set_ptr_sound. repeat split; auto; apply R3.
  - destruct R as (R1 & R2 & R3). rewrite R2. destruct (ptr st' dst) as [a off]. intros [= <- <-].
    eexists w, _. split; [reflexivity|]. split; [auto|]. split; [apply HS|].
    apply set_ptr_sound. repeat split; auto; apply R3.
Qed.

Lemma run_sound p : forall s w st st' st2' s2,
  ok s w -> strel s w st st' -> run D p st' s = Some (st2', s2) ->
  exists w2 st2, run machine p st tt = Some (st2, tt) /\
    ok s2 w2 /\ ext s w s2 w2 /\ strel s2 w2 st2 st2'.
Proof.
  induction p as [|i p IH]; intros s w st st' st2' s2 Hok R; cbn [run].
  - intros [= <- <-]. exists w, st. repeat split; auto; apply HS || apply R.
  - destruct (exec D i st' s) as [[st3' s3]|] eqn:E; cbn [obind]; [|discriminate]. intros E2.
    destruct (exec_sound _ _ _ _ _ _ _ Hok R E) as (w3 & st3 & -> & Hok3 & X3 & R3). cbn [obind].
    destruct (IH _ _ _ _ _ _ Hok3 R3 E2) as (w4 & st4 & E4 & Hok4 & X4 & R4).
    exists w4, st4. repeat split; auto; try apply R4. eapply ext_trans; eauto.
Qed.
End Sound.
