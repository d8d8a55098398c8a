(** * Proof method for the AArch64 routines: running them on other kinds of words

    As ProofX86.v: if the operations of a domain [D] are sound for the machine, then a run
    over [D] that succeeds describes every run of the machine from related states. *)

From Coq Require Import ZArith List Bool Lia.
From Verif Require Import CSem ModelA64.
Import ListNotations.
Open Scope Z_scope.

Section Moves.
Context {A B : Type} (R : A -> B -> Prop).
Notation RR := (Forall2 R).

Lemma F2_app a b a' b' : RR a b -> RR a' b' -> RR (a ++ a') (b ++ b').
Proof. intros; now apply Forall2_app. Qed.
Lemma F2_firstn n a b : RR a b -> RR (firstn n a) (firstn n b).
Proof. intros H; revert n; induction H; intros [|n]; cbn; auto. Qed.
Lemma F2_skipn n a b : RR a b -> RR (skipn n a) (skipn n b).
Proof. intros H; revert n; induction H; intros [|n]; cbn; auto. Qed.
Lemma F2_part k i a b : RR a b -> RR (part_of k i a) (part_of k i b).
Proof. intros. now apply F2_firstn, F2_skipn. Qed.
Lemma F2_flat {I} (l : list I) (f : I -> list A) (g : I -> list B) :
  (forall i, RR (f i) (g i)) -> RR (flat_map f l) (flat_map g l).
Proof. intros H; induction l; cbn; auto using F2_app. Qed.
Lemma F2_flat2 (f : list A -> list A) (g : list B -> list B) l m :
  (forall a b, RR a b -> RR (f a) (g b)) -> Forall2 RR l m -> RR (flat_map f l) (flat_map g m).
Proof. intros H K; induction K; cbn; auto using F2_app. Qed.
Lemma F2_nth n a b x : RR a b -> nth_error b n = Some x -> exists y, nth_error a n = Some y /\ R y x.
Proof.
  intros H; revert n; induction H; intros [|n]; cbn; try discriminate; eauto.
  intros [= <-]; eauto.
Qed.
Lemma F2_nth_default n a b x y : RR a b -> R x y -> R (nth n a x) (nth n b y).
Proof. intros H K; revert n; induction H; intros [|n]; cbn; auto. Qed.
Lemma F2_replace n a b x y : RR a b -> R x y -> RR (replace_nth n x a) (replace_nth n y b).
Proof. intros H; revert n; induction H; intros [|n] K; cbn; auto. Qed.
Lemma F2_len a b : RR a b -> length a = length b.
Proof. intros H; now induction H; cbn; f_equal. Qed.
Lemma F2_repeat n x y : R x y -> RR (repeat x n) (repeat y n).
Proof. intros H; induction n; cbn; auto. Qed.

Lemma F2_uzp k r n a b a' b' : RR a a' -> RR b b' -> RR (do_uzp k r n a b) (do_uzp k r n a' b').
Proof. intros. apply F2_flat. intros i. apply F2_part. now apply F2_app. Qed.
Lemma F2_trn k r n a b a' b' : RR a a' -> RR b b' -> RR (do_trn k r n a b) (do_trn k r n a' b').
Proof. intros. apply F2_flat. intros i. apply F2_app; now apply F2_part. Qed.
Lemma F2_interleave k n l l' : Forall2 RR l l' -> RR (interleave k n l) (interleave k n l').
Proof. intros. apply F2_flat. intros i. apply F2_flat2; auto. intros. now apply F2_part. Qed.
Lemma F2_deinterleave r m m' : RR m m' -> RR (deinterleave r m) (deinterleave r m').
Proof. intros. apply F2_flat. intros i. now apply F2_part. Qed.
End Moves.

Section Sound.
Context {A S W : Type} (D : domain A S).
Variable ok : S -> W -> Prop.
Variable ext : S -> W -> S -> W -> Prop.
Variable rel : S -> W -> Z -> A -> Prop.

Record sound : Prop := Sound {
  ext_refl : forall s w, ext s w s w;
  ext_trans : forall s w s1 w1 s2 w2, ext s w s1 w1 -> ext s1 w1 s2 w2 -> ext s w s2 w2;
  ext_rel : forall s w s' w' v x, ext s w s' w' -> rel s w v x -> rel s' w' v x;
  op_sound : forall o s w a x b y z s', ok s w -> rel s w a x -> rel s w b y ->
    d_op D o x y s = (z, s') ->
    exists w', ok s' w' /\ ext s w s' w' /\ rel s' w' (word_sem o a b) z;
  shift_sound : forall o n s w a x z s', ok s w -> rel s w a x -> d_shift D o n x s = (z, s') ->
    exists w', ok s' w' /\ ext s w s' w' /\ rel s' w' (shift_sem o n a) z;
  const_sound : forall n s w z s', ok s w -> d_const D n s = (z, s') ->
    exists w', ok s' w' /\ ext s w s' w' /\ rel s' w' (s16 n) z;
  smull_sound : forall s w a x b y l h s', ok s w -> rel s w a x -> rel s w b y ->
    d_smull D x y s = ((l, h), s') ->
    exists w', ok s' w' /\ ext s w s' w' /\
      rel s' w' (fst (halves32 (a * b))) l /\ rel s' w' (snd (halves32 (a * b))) h;
  smlal_sound : forall s w cl xl ch xh a x b y l h s', ok s w ->
    rel s w cl xl -> rel s w ch xh -> rel s w a x -> rel s w b y ->
    d_smlal D xl xh x y s = ((l, h), s') ->
    exists w', ok s' w' /\ ext s w s' w' /\
      rel s' w' (fst (halves32 (lane32 cl ch + a * b))) l /\
      rel s' w' (snd (halves32 (lane32 cl ch + a * b))) h }.
Hypothesis HS : sound.

Definition vrel s w := Forall2 (rel s w).
Definition xrel s w (v : xval Z) (v' : xval A) : Prop :=
  match v' with
  | Int n => v = Int n
  | Ptr a off => v = Ptr a off
  | Word x => exists u, v = Word u /\ rel s w u x
  | Any => True
  end.
Definition strel s w (st : state Z) (st' : state A) : Prop :=
  Forall2 (vrel s w) (vregs st) (vregs st') /\ Forall2 (xrel s w) (xregs st) (xregs st') /\
  Forall2 (vrel s w) (mem st) (mem st') /\ trace st = trace st'.

Lemma F2_impl {X Y} (P Q : X -> Y -> Prop) a b :
  (forall x y, P x y -> Q x y) -> Forall2 P a b -> Forall2 Q a b.
Proof. intros H K; induction K; auto. Qed.
Lemma vrel_ext s w s' w' a b : ext s w s' w' -> vrel s w a b -> vrel s' w' a b.
Proof. intros E. apply F2_impl. intros; eapply ext_rel; eauto. Qed.
Lemma xrel_ext s w s' w' a b : ext s w s' w' -> xrel s w a b -> xrel s' w' a b.
Proof.
  intros E. destruct b; cbn; auto. intros (u & -> & H). exists u; split; auto. eapply ext_rel; eauto.
Qed.
Lemma strel_ext s w s' w' a b : ext s w s' w' -> strel s w a b -> strel s' w' a b.
Proof.
  intros E (H1 & H2 & H3 & H4). split; [|split; [|split]]; auto.
  - revert H1. apply F2_impl. intros; eapply vrel_ext; eauto.
  - revert H2. apply F2_impl. intros; eapply xrel_ext; eauto.
  - revert H3. apply F2_impl. intros; eapply vrel_ext; eauto.
Qed.

(** ** Computations on lists of words *)
Definition comp s w (m : list Z * unit) (m' : list A * S) : Prop :=
  exists w2, ok (snd m') w2 /\ ext s w (snd m') w2 /\ vrel (snd m') w2 (fst m) (fst m').

Lemma comp_nil s w : ok s w -> comp s w ([], tt) ([], s).
Proof. intros H. exists w. cbn. split; [auto|]. split; [apply HS|constructor]. Qed.
Lemma comp_ext s w s1 w1 m m' : ext s w s1 w1 -> comp s1 w1 m m' -> comp s w m m'.
Proof.
  intros E (w2 & H1 & H2 & H3). exists w2. split; [auto|]. split; auto. eapply ext_trans; eauto.
Qed.
(** One more word in front *)
Lemma comp_cons s w v x m m' :
  rel s w v x -> comp s w m m' ->
  comp s w (let '(r, s) := m in (v :: r, s)) (let '(r, s) := m' in (x :: r, s)).
Proof.
  destruct m as [r []], m' as [r' s']. intros Hr (w2 & H1 & H2 & H3). cbn in *.
  exists w2. cbn. split; [auto|]. split; [auto|]. constructor; auto. eapply ext_rel; eauto.
Qed.

Lemma comp_lanes2 o : forall x y a b s w,
  ok s w -> vrel s w a x -> vrel s w b y ->
  comp s w (lanes2 (d_op machine o) a b tt) (lanes2 (d_op D o) x y s).
Proof.
  induction x as [|x xs IH]; intros [|y ys] a b s w Hok Ha Hb;
    inversion Ha as [|a1 x1 l x2 H1 H3]; inversion Hb as [|b1 y1 l0 y2 H6 H8]; subst;
    try (now apply comp_nil).
  cbn [lanes2]. destruct (d_op D o x y s) as [z s1] eqn:E1. cbn [d_op machine].
  destruct (op_sound HS _ _ _ _ _ _ _ _ _ Hok H1 H6 E1) as (w1 & Hok1 & X1 & R1).
  apply (comp_ext _ _ s1 w1); auto. apply comp_cons; auto.
  apply IH; auto; eapply vrel_ext; eauto.
Qed.
Lemma comp_lanes1 o n : forall x a s w, ok s w -> vrel s w a x ->
  comp s w (lanes1 (d_shift machine o n) a tt) (lanes1 (d_shift D o n) x s).
Proof.
  induction x as [|x xs IH]; intros a s w Hok Ha; inversion Ha as [|a1 x1 l x2 H1 H3]; subst;
    try (now apply comp_nil).
  cbn [lanes1]. destruct (d_shift D o n x s) as [z s1] eqn:E1. cbn [d_shift machine].
  destruct (shift_sound HS _ _ _ _ _ _ _ _ Hok H1 E1) as (w1 & Hok1 & X1 & R1).
  apply (comp_ext _ _ s1 w1); auto. apply comp_cons; auto.
  apply IH; auto; eapply vrel_ext; eauto.
Qed.
Lemma comp_cons2 s w v x v2 x2 m m' :
  rel s w v x -> rel s w v2 x2 -> comp s w m m' ->
  comp s w (let '(r, s) := m in (v :: v2 :: r, s)) (let '(r, s) := m' in (x :: x2 :: r, s)).
Proof.
  intros H1 H2 H. pose proof (comp_cons _ _ _ _ _ _ H1 (comp_cons _ _ _ _ _ _ H2 H)) as K.
  now destruct m, m'.
Qed.
Lemma comp_wide2 : forall x y a b s w,
  ok s w -> vrel s w a x -> vrel s w b y -> comp s w (wide2 machine a b tt) (wide2 D x y s).
Proof.
  induction x as [|x xs IH]; intros [|y ys] a b s w Hok Ha Hb;
    inversion Ha as [|a1 x1 l x2 H1 H3]; inversion Hb as [|b1 y1 l0 y2 H6 H8]; subst;
    try (now apply comp_nil).
  cbn [wide2]. destruct (d_smull D x y s) as [[lo hi] s1] eqn:E1. cbn [d_smull machine halves32].
  destruct (smull_sound HS _ _ _ _ _ _ _ _ _ Hok H1 H6 E1) as (w1 & Hok1 & X1 & R1 & R2).
  apply (comp_ext _ _ s1 w1); auto. apply comp_cons2; auto.
  apply IH; auto; eapply vrel_ext; eauto.
Qed.
Lemma comp_wide3 : forall x y z a b c s w,
  ok s w -> vrel s w c z -> vrel s w a x -> vrel s w b y ->
  comp s w (wide3 machine c a b tt) (wide3 D z x y s).
Proof.
  induction x as [|x xs IH]; intros y z a b c s w Hok Hc Ha Hb.
  { inversion Ha; subst. destruct Hc as [|? ? ? ? ? [|]]; cbn; now apply comp_nil. }
  inversion Ha as [|a1 x1 l x2 H1 H3]; subst.
  destruct Hb as [|b1 y1 bs ys H6 H8]; [destruct Hc as [|? ? ? ? ? [|]]; cbn; now apply comp_nil|].
  destruct Hc as [|cl zl cs zs C1 C2]; [cbn; now apply comp_nil|].
  destruct C2 as [|ch zh cs zs C2 C3]; [cbn; now apply comp_nil|].
  cbn [wide3]. destruct (d_smlal D zl zh x y1 s) as [[lo hi] s1] eqn:E1. cbn [d_smlal machine halves32].
  destruct (smlal_sound HS _ _ _ _ _ _ _ _ _ _ _ _ _ Hok C1 C2 H1 H6 E1) as (w1 & Hok1 & X1 & R1 & R2).
  apply (comp_ext _ _ s1 w1); auto. apply comp_cons2; auto.
  apply IH; auto; eapply vrel_ext; eauto.
Qed.
Lemma comp_pairs o : forall n x a s w, (length x <= n)%nat -> ok s w -> vrel s w a x ->
  comp s w (pairs (d_op machine o) a tt) (pairs (d_op D o) x s).
Proof.
  induction n as [|n IH]; intros x a s w Hn Hok Ha.
  { destruct x; [|cbn in Hn; lia]. inversion Ha; subst; now apply comp_nil. }
  destruct Ha as [|a1 x1 l x2 H1 H2]; [now apply comp_nil|].
  destruct H2 as [|a3 x3 l4 x4 H3 H4]; [now apply comp_nil|].
  cbn [pairs]. destruct (d_op D o x1 x3 s) as [z s1] eqn:E1. cbn [d_op machine].
  destruct (op_sound HS _ _ _ _ _ _ _ _ _ Hok H1 H3 E1) as (w1 & Hok1 & X1 & R1).
  apply (comp_ext _ _ s1 w1); auto. apply comp_cons; auto.
  apply IH; auto; [cbn in Hn; lia|]. eapply vrel_ext; eauto.
Qed.
Lemma comp_bytes3 : forall x y z a b c s w,
  ok s w -> vrel s w a x -> vrel s w b y -> vrel s w c z ->
  comp s w (bytes3 machine a b c tt) (bytes3 D x y z s).
Proof.
  induction x as [|x xs IH]; intros y z a b c s w Hok Ha Hb Hc.
  { inversion Ha; subst; now apply comp_nil. }
  inversion Ha as [|a1 x1 l x2 H1 H3]; subst.
  destruct Hb as [|b1 y1 bs ys H6 H8]; [now apply comp_nil|].
  destruct Hc as [|c1 z1 cs zs C1 C2]; [now apply comp_nil|].
  cbn [bytes3].
  destruct (d_op D (Bytes false false) x y1 s) as [w0 s1] eqn:E1. cbn [d_op machine].
  destruct (op_sound HS _ _ _ _ _ _ _ _ _ Hok H1 H6 E1) as (v1 & Hok1 & X1 & R1).
  destruct (d_op D (Bytes false true) z1 x s1) as [w1 s2] eqn:E2.
  destruct (op_sound HS _ _ _ _ _ _ _ _ _ Hok1 (ext_rel HS _ _ _ _ _ _ X1 C1) (ext_rel HS _ _ _ _ _ _ X1 H1) E2)
    as (v2 & Hok2 & X2 & R2).
  pose proof (ext_trans HS _ _ _ _ _ _ X1 X2) as X12.
  destruct (d_op D (Bytes true true) y1 z1 s2) as [w2 s3] eqn:E3.
  destruct (op_sound HS _ _ _ _ _ _ _ _ _ Hok2 (ext_rel HS _ _ _ _ _ _ X12 H6) (ext_rel HS _ _ _ _ _ _ X12 C1) E3)
    as (v3 & Hok3 & X3 & R3).
  pose proof (ext_trans HS _ _ _ _ _ _ X12 X3) as X13.
  pose proof (ext_trans HS _ _ _ _ _ _ X2 X3) as X23.
  apply (comp_ext _ _ s3 v3); auto.
  assert (K : comp s3 v3 (bytes3 machine l bs cs tt) (bytes3 D xs ys zs s3)).
  { apply IH; auto; apply (vrel_ext _ _ _ _ _ _ X13); auto. }
  pose proof (comp_cons _ _ _ _ _ _ (ext_rel HS _ _ _ _ _ _ X23 R1)
    (comp_cons _ _ _ _ _ _ (ext_rel HS _ _ _ _ _ _ X3 R2) (comp_cons _ _ _ _ _ _ R3 K))) as K'.
  destruct (bytes3 machine l bs cs tt), (bytes3 D xs ys zs s3). exact K'.
Qed.
Lemma comp_zeros s w : ok s w -> comp s w (zeros machine tt) (zeros D s).
Proof.
  intros Hok. unfold zeros. cbn [d_const machine]. destruct (d_const D 0 s) as [z s1] eqn:E.
  destruct (const_sound HS _ _ _ _ _ Hok E) as (w1 & Hok1 & X1 & R1).
  exists w1. cbn [fst snd]. split; [auto|]. split; [auto|]. repeat (constructor; auto).
Qed.

(** ** Soundness of results *)
Definition good s w (m : option (state Z * unit)) (m' : option (state A * S)) : Prop :=
  forall st2' s2, m' = Some (st2', s2) ->
  exists w2 st2, m = Some (st2, tt) /\ ok s2 w2 /\ ext s w s2 w2 /\ strel s2 w2 st2 st2'.

Lemma good_none s w m : good s w m None.
Proof. intros ? ?; discriminate. Qed.
Lemma good_some s w st st' : ok s w -> strel s w st st' -> good s w (Some (st, tt)) (Some (st', s)).
Proof. intros Hok R ? ? [= <- <-]. exists w, st. split; [auto|]. split; [auto|]. split; [apply HS|auto]. Qed.
Lemma good_ext s w s1 w1 m m' : ext s w s1 w1 -> good s1 w1 m m' -> good s w m m'.
Proof.
  intros E G st2' s2 H. destruct (G _ _ H) as (w2 & st2 & H1 & H2 & H3 & H4).
  exists w2, st2. split; [auto|]. split; [auto|]. split; auto. eapply ext_trans; eauto.
Qed.
Lemma good_comp s w m m' k k' : comp s w m m' ->
  (forall s1 w1 r r', ok s1 w1 -> ext s w s1 w1 -> vrel s1 w1 r r' -> good s1 w1 (k r tt) (k' r' s1)) ->
  good s w (let '(r, s) := m in k r s) (let '(r, s) := m' in k' r s).
Proof.
  destruct m as [r []], m' as [r' s1]. intros (w1 & H1 & H2 & H3) H. cbn in *.
  apply (good_ext _ _ s1 w1); auto.
Qed.
Lemma good_bind s w m m' k k' : good s w m m' ->
  (forall s1 w1 st st', ok s1 w1 -> ext s w s1 w1 -> strel s1 w1 st st' -> good s1 w1 (k (st, tt)) (k' (st', s1))) ->
  good s w (obind m k) (obind m' k').
Proof.
  intros G H. destruct m' as [[st' s1]|]; [|apply good_none].
  destruct (G _ _ eq_refl) as (w1 & st & -> & H1 & H2 & H3). cbn.
  apply (good_ext _ _ s1 w1); auto.
Qed.
Lemma good_reg s w st st' n k k' : strel s w st st' ->
  (forall u v, vrel s w u v -> good s w (k u) (k' v)) ->
  good s w (obind (reg st n) k) (obind (reg st' n) k').
Proof.
  intros (R & _) H. destruct (reg st' n) as [v|] eqn:E; [|apply good_none].
  destruct (F2_nth _ _ _ _ _ R E) as (u & E' & Ru). unfold reg. rewrite E'. cbn. auto.
Qed.
Lemma good_set s w st st' n u v k k' : strel s w st st' -> vrel s w u v ->
  (forall st2 st2', strel s w st2 st2' -> good s w (k st2) (k' st2')) ->
  good s w (obind (set_reg st n u) k) (obind (set_reg st' n v) k').
Proof.
  intros (H1 & H2 & H3 & H4) Hv H. unfold set_reg. rewrite (F2_len _ _ _ H1).
  destruct (_ <? _)%nat; [|apply good_none]. apply H.
  split; [|split; [|split]]; cbn; auto. now apply F2_replace.
Qed.
Lemma good_source s w st st' o k k' : strel s w st st' ->
  (forall u v, vrel s w u v -> good s w (k u) (k' v)) ->
  good s w (obind (source st o) k) (obind (source st' o) k').
Proof.
  intros R H. destruct o as [n|n i]; cbn [source]; [now apply good_reg|].
  destruct (reg st' n) as [v|] eqn:E; [|apply good_none].
  destruct R as (R & _). destruct (F2_nth _ _ _ _ _ R E) as (u & E' & Ru). unfold reg. rewrite E'. cbn.
  destruct (nth_error v i) as [x|] eqn:Ex; [|apply good_none].
  destruct (F2_nth _ _ _ _ _ Ru Ex) as (y & -> & Ry). cbn [obind]. apply H. exact (F2_repeat _ 8 _ _ Ry).
Qed.
Lemma xget_rel s w st st' r : strel s w st st' -> xrel s w (xget st r) (xget st' r).
Proof. intros (_ & R & _). exact (F2_nth_default (xrel s w) r _ _ Any Any R I). Qed.
Lemma xset_rel s w st st' r v v' : strel s w st st' -> xrel s w v v' -> strel s w (xset st r v) (xset st' r v').
Proof. intros (H1 & H2 & H3 & H4) Hv. split; [|split; [|split]]; cbn; auto. now apply F2_replace. Qed.
Lemma address_sound s w st st' n b d a i m' : strel s w st st' -> address st' n b d = Some (a, i, m') ->
  exists m, address st n b d = Some (a, i, m) /\ vrel s w m m'.
Proof.
  intros R. unfold address. pose proof (xget_rel _ _ _ _ b R) as X.
  destruct (xget st' b) as [|a0 off| |]; try discriminate. cbn in X. rewrite X.
  destruct R as (H1 & H2 & H3 & H4).
  destruct (nth_error (mem st') a0) as [mm|] eqn:E; cbn; [|discriminate].
  destruct (F2_nth _ _ _ _ _ H3 E) as (m & E' & R). rewrite E'. cbn.
  unfold vrel in R. rewrite (F2_len _ _ _ R). destruct (_ && _); [|discriminate].
  intros [= -> <- <-]. eauto.
Qed.
Lemma address_ptr {B} (st : state B) n b d r : address st n b d = Some r -> exists a off, xget st b = Ptr a off.
Proof. unfold address. destruct (xget st b); try discriminate. eauto. Qed.
Lemma touch_sound s w st st' b d : (exists a off, xget st' b = Ptr a off) ->
  strel s w st st' -> strel s w (touch st b d) (touch st' b d).
Proof.
  intros (a & off & E) R. pose proof (xget_rel _ _ _ _ b R) as X. unfold touch. rewrite E in *. cbn in X. rewrite X.
  destruct R as (H1 & H2 & H3 & H4). split; [|split; [|split]]; cbn; auto. now rewrite H4.
Qed.
Lemma advance_sound s w st st' b m : (exists a off, xget st' b = Ptr a off) ->
  strel s w st st' -> strel s w (advance st b m) (advance st' b m).
Proof.
  intros (a & off & E) R. pose proof (xget_rel _ _ _ _ b R) as X. unfold advance. destruct m; auto.
  rewrite E in *. cbn in X. rewrite X. apply xset_rel; auto. reflexivity.
Qed.
Lemma xget_touch {B} (st : state B) b d r : xget (touch st b d) r = xget st r.
Proof. unfold touch. now destruct (xget st b). Qed.
Lemma good_read s w st st' n b m k k' : strel s w st st' ->
  (forall u v st2 st2', vrel s w u v -> strel s w st2 st2' -> good s w (k (u, st2)) (k' (v, st2'))) ->
  good s w (obind (read st n b m) k) (obind (read st' n b m) k').
Proof.
  intros R H. unfold read. destruct (address st' n b (offset m)) as [[[a i] m']|] eqn:E; [|apply good_none].
  destruct (address_sound _ _ _ _ _ _ _ _ _ _ R E) as (mm & E' & Rm). rewrite E'. cbn.
  destruct (address_ptr _ _ _ _ _ E) as (a0 & off & P).
  apply H; [now apply F2_firstn, F2_skipn|].
  apply advance_sound; [rewrite xget_touch; eauto|]. apply touch_sound; eauto.
Qed.
Lemma good_write s w st st' b m u v k k' : strel s w st st' -> vrel s w u v ->
  (forall st2 st2', strel s w st2 st2' -> good s w (k st2) (k' st2')) ->
  good s w (obind (write st b m u) k) (obind (write st' b m v) k').
Proof.
  intros R Rv H. unfold write. pose proof Rv as L. unfold vrel in L. apply F2_len in L. rewrite L.
  destruct (address st' (length v) b (offset m)) as [[[a i] m']|] eqn:E; [|apply good_none].
  destruct (address_sound _ _ _ _ _ _ _ _ _ _ R E) as (mm & E' & Rm). rewrite E'. cbn.
  destruct (address_ptr _ _ _ _ _ E) as (a0 & off & P). apply H.
  assert (R2 : strel s w (advance (touch st b (offset m)) b m) (advance (touch st' b (offset m)) b m)).
  { apply advance_sound; [rewrite xget_touch; eauto|]. apply touch_sound; eauto. }
  destruct R2 as (H1 & H2 & H3 & H4). split; [|split; [|split]]; cbn; auto.
  apply F2_replace; auto. repeat apply F2_app; auto using F2_firstn, F2_skipn.
Qed.
Lemma good_move2 s w st st' f f' d a b : ok s w -> strel s w st st' ->
  (forall x y x' y', vrel s w x x' -> vrel s w y y' -> vrel s w (f x y) (f' x' y')) ->
  good s w (move2 st tt f d a b) (move2 st' s f' d a b).
Proof.
  intros Hok R F. unfold move2. apply good_reg; auto. intros x x' Rx.
  apply good_reg; [now auto|]. intros y y' Ry. apply good_set; auto.
  intros. now apply good_some.
Qed.

Ltac comp_step C :=
  let H := fresh in pose proof C as H; revert H; cbv beta iota;
  match goal with |- comp _ _ ?m ?m' -> _ => generalize m; generalize m' end;
  let r := fresh in let r' := fresh in let t := fresh in let w := fresh in
  let H1 := fresh in let H2 := fresh in let H3 := fresh in
  intros [r' t] [r []] (w & H1 & H2 & H3); cbn [fst snd] in H1, H2, H3;
  apply (good_ext _ _ _ _ _ _ H2); cbv beta iota;
  revert H1 H2 H3; revert r r'; revert t w.
Lemma exec_good i s w st st' : ok s w -> strel s w st st' -> good s w (exec machine i st tt) (exec D i st' s).
Proof.
  intros Hok R.
  assert (FIN : forall s w st st' d u v, ok s w -> strel s w st st' -> vrel s w u v ->
    good s w (obind (set_reg st d u) (fun st => Some (st, tt))) (obind (set_reg st' d v) (fun st => Some (st, s)))).
  { intros. apply good_set; auto. intros; now apply good_some. }
  assert (XI : forall st st' r, strel s w st st' -> forall n, xget st' r = Int n -> xget st r = Int n).
  { intros st0 st0' r R0 n E. pose proof (xget_rel _ _ _ _ r R0) as X. now rewrite E in X. }
  destruct i; cbn [exec].
  - apply good_read; [now auto|]. intros u v st2 st2' Ru R2. auto.
  - apply good_reg; [now auto|]. intros u v Ru. apply good_write; auto; intros; now apply good_some.
  - apply good_read; [now auto|]. intros u v st2 st2' Ru R2.
    comp_step (comp_zeros _ _ Hok). intros t1 w1 z z' Hok1 X Rz.
    apply good_set; [eapply strel_ext; eauto|apply F2_app; auto; eapply vrel_ext; eauto; now apply F2_firstn|].
    intros st3 st3' R3. apply FIN; auto. apply F2_app; auto. eapply vrel_ext; eauto. now apply F2_skipn.
  - apply good_reg; [now auto|]. intros u v Ru. apply good_reg; [now auto|]. intros u2 v2 Ru2.
    apply good_write; [auto|apply F2_app; now apply F2_firstn|]. intros; now apply good_some.
  - apply good_read; [now auto|]. intros u v st2 st2' Ru R2. apply FIN; auto. now apply F2_flat.
  - apply good_read; [now auto|]. intros u v st2 st2' Ru R2.
    apply good_set; [auto|now apply F2_deinterleave|]. intros st3 st3' R3. apply FIN; auto. now apply F2_deinterleave.
  - apply good_reg; [now auto|]. intros u v Ru. apply good_reg; [now auto|]. intros u2 v2 Ru2.
    apply good_write; [auto|apply F2_interleave; auto|]. intros; now apply good_some.
  - apply good_reg; [now auto|]. intros u v Ru. apply good_reg; [now auto|]. intros u2 v2 Ru2. apply good_reg; [now auto|]. intros u3 v3 Ru3.
    comp_step (comp_bytes3 _ _ _ _ _ _ _ _ Hok (F2_firstn _ 4 _ _ Ru) (F2_firstn _ 4 _ _ Ru2) (F2_firstn _ 4 _ _ Ru3)).
    intros t1 w1 z z' Hok1 X Rz. apply good_write; [eapply strel_ext; eauto|auto|]. intros; now apply good_some.
  - apply good_reg; [now auto|]. intros u v Ru. apply good_reg; [now auto|]. intros u2 v2 Ru2.
    apply good_reg; [now auto|]. intros u3 v3 Ru3. apply good_reg; [now auto|]. intros u4 v4 Ru4.
    apply good_write; [auto|apply F2_interleave; auto|]. intros; now apply good_some.
  - apply good_reg; [now auto|]. intros u v Ru. apply good_source; [now auto|]. intros u2 v2 Ru2.
    comp_step (comp_lanes2 o _ _ _ _ _ _ Hok Ru Ru2).
    intros t1 w1 z z' Hok1 X Rz. apply FIN; auto. eapply strel_ext; eauto.
  - apply good_reg; [now auto|]. intros u0 v0 Ru0. apply good_reg; [now auto|]. intros u v Ru. apply good_source; [now auto|]. intros u2 v2 Ru2.
    comp_step (comp_lanes2 Mul _ _ _ _ _ _ Hok Ru Ru2).
    intros t1 w1 z z' Hok1 X Rz.
    comp_step (comp_lanes2 Sub _ _ _ _ _ _ Hok1 (vrel_ext _ _ _ _ _ _ X Ru0) Rz).
    intros t2 w2 y y' Hok2 X2 Ry. apply FIN; auto. eapply strel_ext; [|eauto]. eapply ext_trans; eauto.
  - apply good_reg; [now auto|]. intros u v Ru.
    comp_step (comp_lanes1 o n _ _ _ _ Hok Ru).
    intros t1 w1 z z' Hok1 X Rz. apply FIN; auto. eapply strel_ext; eauto.
  - apply good_move2; auto. intros; now apply F2_uzp.
  - apply good_move2; auto. intros; now apply F2_uzp.
  - apply good_move2; auto. intros; now apply F2_trn.
  - apply good_move2; auto. intros; now apply F2_trn.
  - apply good_move2; auto. intros; now apply F2_trn.
  - apply good_move2; auto. intros; now apply F2_trn.
  - apply good_reg; [now auto|]. intros u v Ru. apply good_reg; [now auto|]. intros u2 v2 Ru2.
    comp_step (comp_wide2 _ _ _ _ _ _ Hok (F2_firstn _ 4 _ _ Ru) (F2_firstn _ 4 _ _ Ru2)).
    intros t1 w1 z z' Hok1 X Rz. apply FIN; auto. eapply strel_ext; eauto.
  - apply good_reg; [now auto|]. intros u v Ru. apply good_reg; [now auto|]. intros u2 v2 Ru2.
    comp_step (comp_wide2 _ _ _ _ _ _ Hok (F2_skipn _ 4 _ _ Ru) (F2_skipn _ 4 _ _ Ru2)).
    intros t1 w1 z z' Hok1 X Rz. apply FIN; auto. eapply strel_ext; eauto.
  - apply good_reg; [now auto|]. intros u0 v0 Ru0. apply good_reg; [now auto|]. intros u v Ru. apply good_reg; [now auto|]. intros u2 v2 Ru2.
    comp_step (comp_wide3 _ _ _ _ _ _ _ _ Hok Ru0 (F2_firstn _ 4 _ _ Ru) (F2_firstn _ 4 _ _ Ru2)).
    intros t1 w1 z z' Hok1 X Rz. apply FIN; auto. eapply strel_ext; eauto.
  - apply good_reg; [now auto|]. intros u0 v0 Ru0. apply good_reg; [now auto|]. intros u v Ru. apply good_reg; [now auto|]. intros u2 v2 Ru2.
    comp_step (comp_wide3 _ _ _ _ _ _ _ _ Hok Ru0 (F2_skipn _ 4 _ _ Ru) (F2_skipn _ 4 _ _ Ru2)).
    intros t1 w1 z z' Hok1 X Rz. apply FIN; auto. eapply strel_ext; eauto.
  - apply good_reg; [now auto|]. intros u v Ru.
    comp_step (comp_pairs (Shrn n) _ _ _ _ _ (le_n _) Hok Ru).
    intros t1 w1 z z' Hok1 X Rz.
    comp_step (comp_zeros _ _ Hok1).
    intros t2 w2 y y' Hok2 X2 Ry. apply FIN; auto.
    + exact (strel_ext _ _ _ _ _ _ (ext_trans HS _ _ _ _ _ _ X X2) R).
    + exact (F2_app _ _ _ _ _ (vrel_ext _ _ _ _ _ _ X2 Rz) Ry).
  - apply good_reg; [now auto|]. intros u v Ru. apply good_reg; [now auto|]. intros u2 v2 Ru2.
    comp_step (comp_lanes2 (Sli8 n) _ _ _ _ _ _ Hok (F2_firstn _ 4 _ _ Ru) (F2_firstn _ 4 _ _ Ru2)).
    intros t1 w1 z z' Hok1 X Rz.
    comp_step (comp_zeros _ _ Hok1).
    intros t2 w2 y y' Hok2 X2 Ry. apply FIN; auto.
    + exact (strel_ext _ _ _ _ _ _ (ext_trans HS _ _ _ _ _ _ X X2) R).
    + exact (F2_app _ _ _ _ _ (vrel_ext _ _ _ _ _ _ X2 Rz) Ry).
  - pose proof (xget_rel _ _ _ _ s0 R) as X. destruct (xget st' s0) as [n| |x|]; try apply good_none; cbn in X.
    + rewrite X. cbn [d_const machine]. destruct (d_const D n s) as [x s1] eqn:E.
      destruct (const_sound HS _ _ _ _ _ Hok E) as (w1 & Hok1 & X1 & R1).
      apply (good_ext _ _ s1 w1); auto. apply FIN; auto; [eapply strel_ext; eauto|now apply F2_repeat].
    + destruct X as (u & -> & Ru). apply FIN; auto. now apply F2_repeat.
  - apply good_read; [now auto|]. intros u v st2 st2' Ru R2.
    destruct Ru as [|u1 v1 us vs R1 Rs]; [apply good_none|]. destruct Rs; [|apply good_none].
    apply good_some; auto. apply xset_rel; auto. cbn. eauto.
  - apply good_some; auto. now apply xset_rel.
  - apply good_some; auto. apply xset_rel; auto. now apply xget_rel.
  - pose proof (xget_rel _ _ _ _ s0 R) as X. destruct (xget st' s0) as [m|a off|x|]; try apply good_none; cbn in X; rewrite X.
    + apply good_some; auto. now apply xset_rel.
    + apply good_some; auto. now apply xset_rel.
  - apply good_some; auto. now apply xset_rel.
Qed.

Lemma steps_good p : forall s w st st', ok s w -> strel s w st st' -> good s w (steps machine p st tt) (steps D p st' s).
Proof.
  induction p as [|i p IH]; intros s w st st' Hok R; cbn [steps]; [now apply good_some|].
  apply good_bind; [now apply exec_good|]. intros; now apply IH.
Qed.
Lemma rounds_good n p c : forall s w st st', ok s w -> strel s w st st' ->
  good s w (rounds machine n p c st tt) (rounds D n p c st' s).
Proof.
  induction n as [|n IH]; intros s w st st' Hok R; cbn [rounds]; [apply good_none|].
  apply good_bind; [now apply steps_good|]. intros s1 w1 st1 st1' Hok1 X1 R1. cbv beta iota.
  pose proof (xget_rel _ _ _ _ c R1) as X. destruct (xget st1' c) as [m| | |]; try apply good_none; cbn in X; rewrite X.
  destruct (m =? 0); [now apply good_some|now apply IH].
Qed.
Lemma block_good b s w st st' : ok s w -> strel s w st st' -> good s w (run_block machine b st tt) (run_block D b st' s).
Proof.
  intros Hok R. destruct b as [p|p c]; cbn [run_block]; [now apply steps_good|].
  pose proof (xget_rel _ _ _ _ c R) as X. destruct (xget st' c) as [m| | |]; try apply good_none; cbn in X; rewrite X.
  now apply rounds_good.
Qed.
Lemma run_good p : forall s w st st', ok s w -> strel s w st st' -> good s w (run machine p st tt) (run D p st' s).
Proof.
  induction p as [|b p IH]; intros s w st st' Hok R; cbn [run]; [now apply good_some|].
  apply good_bind; [now apply block_good|]. intros; now apply IH.
Qed.
End Sound.

(** ** Calls *)

(** The registers at a call, for words of any type; compare [args] *)
Definition call {A} (n : nat) (k : Z) : list (xval A) :=
  map (fun i => if (i <? n)%nat then Ptr (i + 1) 0
                else if (i =? 31)%nat then Ptr 0 k else Any) (seq 0 32).
Lemma call_rel {A S W} (r : S -> W -> Z -> A -> Prop) s w n k : Forall2 (xrel r s w) (args n k) (call n k).
Proof.
  unfold args, call. induction (seq 0 32) as [|i l IH]; cbn [map]; constructor; auto.
  destruct (i <? n)%nat; [reflexivity|]. destruct (i =? 31)%nat; reflexivity || exact I.
Qed.
(** 32 registers of 8 words *)
Definition vregs_ok (regs : list (list Z)) : Prop :=
  length regs = 32%nat /\ Forall (fun r => length r = 8%nat) regs.
