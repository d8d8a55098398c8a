(** * The AArch64 transforms: an analysis of runs of the machine

    As in ProofX86Ntt.v, whose partial evaluations [part] and descriptions [den] are used
    here: a run of ntt_asm or intt_asm is followed on nodes, and the analysis records what is
    known about the word with each number. Most words are multiples of partial evaluations
    modulo q within a bound; the others are pending pieces of a product by a constant
    (mulmodq, mulmod) or of a Barrett reduction. *)

From Coq Require Import ZArith List Bool Lia FMapPositive.
From Verif Require Import CSem Spec202 Spec203 CSemFacts ProofSum ProofNttSpec ProofRing ProofX86Ntt.
From Verif Require Import ModelA64 ModelA64Asm ProofA64.
Import ListNotations.
Open Scope Z_scope.
Ltac Zify.zify_post_hook ::= idtac.
Local Arguments Z.mul : simpl never.
Local Arguments Z.add : simpl never.
Local Arguments Z.sub : simpl never.

(** ** What is known about a word *)

Inductive info : Type :=
| Top
| Cst (c : Z)
| Den (d : den) (B : Z)
| Lo (x : positive) (z : Z)    (* x z mod 2^16 *)
| Rh (x : positive) (z : Z)    (* x z / 2^15, rounded *)
| RhQ (x : positive) (z : Z)   (* that times q *)
| Dh (x : positive)            (* x 20159 / 2^15 *)
| Bar (x : positive)           (* x 20159 / 2^26, rounded *)
| BarQ (x : positive).

Definition rmul (v z : Z) : Z := (2 * v * z + 32768) / 65536.
Definition rbar (v : Z) : Z := (2 * v * 20159 / 65536 + 1024) / 2048.

Definition sat (f : Z -> Z) (w : positive -> Z) (p : positive) (i : info) : Prop :=
  match i with
  | Top => True
  | Cst c => w p = c
  | Den d B => Z.abs (w p) <= B /\ w p == value f d
  | Lo x z => (x < p)%positive /\ w p = s16 (w x * z)
  | Rh x z => (x < p)%positive /\ w p = rmul (w x) z
  | RhQ x z => (x < p)%positive /\ w p = s16 (rmul (w x) z * 3329)
  | Dh x => (x < p)%positive /\ w p = 2 * w x * 20159 / 65536
  | Bar x => (x < p)%positive /\ w p = rbar (w x)
  | BarQ x => (x < p)%positive /\ w p = s16 (rbar (w x) * 3329)
  end.

(** ** The analysis *)

Definition bounded (o : option den) (B : Z) : info :=
  match o with Some d => if B <=? 32767 then Den d B else Top | None => Top end.

Record dag : Type := Dag { next : positive; infos : PositiveMap.t info }.
Definition get (s : dag) (p : positive) : info :=
  match PositiveMap.find p (infos s) with Some i => i | None => Top end.
Definition fresh (s : dag) (i : info) : positive * dag :=
  (next s, Dag (Pos.succ (next s)) (PositiveMap.add (next s) i (infos s))).

Definition op_info (s : dag) (o : word_op) (a b : positive) : info :=
  match o with
  | Mul =>
      match get s a, get s b with
      | Den _ _, Cst z => Lo a z
      | Rh x z, Cst c => if c =? 3329 then RhQ x z else Top
      | Bar x, Cst c => if c =? 3329 then BarQ x else Top
      | _, _ => Top
      end
  | Sqrdmulh =>
      match get s a, get s b with
      | Den _ B, Cst z => if (B <=? 32768) && (Z.abs z <=? 32767) then Rh a z else Top
      | _, _ => Top
      end
  | Sqdmulh =>
      match get s a, get s b with
      | Den _ B, Cst z => if (B <=? 32768) && (z =? 20159) then Dh a else Top
      | _, _ => Top
      end
  | Add =>
      match get s a, get s b with
      | Den d1 B1, Den d2 B2 => bounded (dadd d1 d2) (B1 + B2)
      | _, _ => Top
      end
  | Sub =>
      match get s a, get s b with
      | Den d1 B1, Den d2 B2 => bounded (dsub d1 d2) (B1 + B2)
      | Lo x z, RhQ y z' =>
          match get s x with
          | Den d B =>
              if (x =? y)%positive
              then bounded (Some (mkden (dc d * z mod 3329) (dm d) (de d) (dj d)))
                           ((B * Z.abs (32768 * z - 3329 * z') + 3329 * 16384) / 32768)
              else Top
          | _ => Top
          end
      | Den d B, BarQ x => if (x =? a)%positive && (B <=? 32768) then Den d 1664 else Top
      | _, _ => Top
      end
  | _ => Top
  end.
Definition shift_info (s : dag) (o : shift_op) (n : Z) (a : positive) : info :=
  match o, get s a with
  | Srshr, Dh x => if n =? 11 then Bar x else Top
  | _, _ => Top
  end.
Definition nodes : domain positive dag :=
  Domain (fun o a b s => fresh s (op_info s o a b))
         (fun o n a s => fresh s (shift_info s o n a))
         (fun n s => fresh s (Cst (s16 n)))
         (fun a b s => let '(x, s) := fresh s Top in let '(y, s) := fresh s Top in ((x, y), s))
         (fun l h a b s => let '(x, s) := fresh s Top in let '(y, s) := fresh s Top in ((x, y), s)).

(** ** Soundness of the analysis *)

(** *** Words *)

Lemma s16_sub_l x y : s16 (s16 x - y) = s16 (x - y).
Proof. unfold Z.sub. apply s16_add_l. Qed.
Lemma rmul_spec v z : 65536 * rmul v z <= 2 * v * z + 32768 < 65536 * rmul v z + 65536.
Proof.
  unfold rmul. pose proof (Z.div_mod (2 * v * z + 32768) 65536 ltac:(lia)).
  pose proof (Z.mod_pos_bound (2 * v * z + 32768) 65536 ltac:(lia)). lia.
Qed.
Lemma rmul_sat v z : Z.abs v <= 32768 -> Z.abs z <= 32767 -> sat16 (rmul v z) = rmul v z.
Proof.
  intros Hv Hz. pose proof (rmul_spec v z).
  assert (Z.abs (v * z) <= 32768 * 32767) by (rewrite Z.abs_mul; nia).
  unfold sat16. lia.
Qed.
(** Multiplication by a constant: the quotient estimated is close enough. *)
Lemma rmul_bound v z z' B : Z.abs v <= B ->
  Z.abs (v * z - rmul v z' * 3329) <= (B * Z.abs (32768 * z - 3329 * z') + 3329 * 16384) / 32768.
Proof.
  intros HB. apply Z.div_le_lower_bound; [lia|]. pose proof (rmul_spec v z') as R.
  assert (Z.abs (v * (32768 * z - 3329 * z')) <= B * Z.abs (32768 * z - 3329 * z')) by (rewrite Z.abs_mul; nia).
  set (t := rmul v z') in *. clearbody t.
  assert (E : 32768 * (v * z - t * 3329) = v * (32768 * z - 3329 * z') + 3329 * (v * z' - 32768 * t)) by ring.
  assert (Z.abs (v * z' - 32768 * t) <= 16384) by lia. lia.
Qed.
Lemma dh_sat v : Z.abs v <= 32768 -> sat16 (2 * v * 20159 / 65536) = 2 * v * 20159 / 65536.
Proof.
  intros H. pose proof (Z.div_mod (2 * v * 20159) 65536 ltac:(lia)).
  pose proof (Z.mod_pos_bound (2 * v * 20159) 65536 ltac:(lia)). unfold sat16. lia.
Qed.
Lemma rbar_red v : Z.abs v <= 32768 -> Z.abs (v - rbar v * 3329) <= 1664.
Proof.
  intros H. unfold rbar.
  pose proof (Z.div_mod (2 * v * 20159) 65536 ltac:(lia)).
  pose proof (Z.mod_pos_bound (2 * v * 20159) 65536 ltac:(lia)).
  set (t := 2 * v * 20159 / 65536) in *. clearbody t.
  pose proof (Z.div_mod (t + 1024) 2048 ltac:(lia)).
  pose proof (Z.mod_pos_bound (t + 1024) 2048 ltac:(lia)).
  set (u := (t + 1024) / 2048) in *. clearbody u. lia.
Qed.

(** *** Nodes *)
Section Nodes.
Variable f : Z -> Z.

Definition ok (s : dag) (w : positive -> Z) : Prop :=
  forall p i, PositiveMap.find p (infos s) = Some i -> (p < next s)%positive /\ sat f w p i.
Definition ext (s : dag) (w : positive -> Z) (s' : dag) (w' : positive -> Z) : Prop :=
  (next s <= next s')%positive /\ forall p, (p < next s)%positive -> w' p = w p.
Definition rel (s : dag) (w : positive -> Z) (v : Z) (p : positive) : Prop :=
  (p < next s)%positive /\ w p = v.

Lemma get_sat s w p : ok s w -> sat f w p (get s p).
Proof.
  intros H. unfold get. destruct (PositiveMap.find p (infos s)) eqn:E; [|exact I].
  now apply H.
Qed.
Lemma sat_ext w w' n p i : (forall x, (x < n)%positive -> w' x = w x) -> (p < n)%positive ->
  sat f w p i -> sat f w' p i.
Proof.
  intros E Hp. pose proof (E p Hp) as Ep. destruct i; cbn; auto; intros; repeat match goal with H : _ /\ _ |- _ => destruct H end;
  repeat match goal with H : (?x < p)%positive |- _ =>
    lazymatch goal with K : w' x = w x |- _ => fail | _ => pose proof (E x (Pos.lt_trans _ _ _ H Hp)) end end;
  repeat match goal with K : w' _ = w _ |- _ => rewrite K; clear K end; auto.
Qed.

Lemma fresh_sound s w v i z s' : ok s w -> sat f (upd w (next s) v) (next s) i ->
  fresh s i = (z, s') ->
  exists w', ok s' w' /\ ext s w s' w' /\ rel s' w' v z.
Proof.
  intros Hok Hs [= <- <-]. exists (upd w (next s) v). split; [|split].
  - intros p j. cbn [infos next]. destruct (Pos.eq_dec p (next s)) as [->|N].
    + rewrite PositiveMap.gss. intros [= <-]. split; [lia|auto].
    + rewrite PositiveMap.gso by auto. intros E. destruct (Hok _ _ E) as (L & Q). split; [lia|].
      apply (sat_ext w _ (next s) p j); auto. intros x Hx. now apply upd_old.
  - split; cbn; [lia|]. intros p Hp. now apply upd_old.
  - split; cbn; [lia|]. apply upd_same.
Qed.

Lemma bounded_sat w p o B d : (forall d0, o = Some d0 -> d == value f d0) -> Z.abs d <= B ->
  w p = s16 d -> sat f w p (bounded o B).
Proof.
  intros H HB E. unfold bounded. destruct o as [d0|]; [|exact I].
  destruct (Z.leb_spec B 32767); [|exact I]. cbn. rewrite E, s16_id by lia. split; [auto|]. now apply H.
Qed.

Lemma op_info_sound s w o a b : ok s w -> (a < next s)%positive -> (b < next s)%positive ->
  sat f (upd w (next s) (word_sem o (w a) (w b))) (next s) (op_info s o a b).
Proof.
  intros Hok La Lb. pose proof (get_sat _ _ a Hok) as Sa. pose proof (get_sat _ _ b Hok) as Sb.
  set (v := word_sem o (w a) (w b)). set (w' := upd w (next s) v).
  assert (E' : w' (next s) = v) by apply upd_same.
  assert (O : forall x, (x < next s)%positive -> w' x = w x) by (intros; now apply upd_old).
  unfold op_info. destruct o; try exact I.
  - destruct (get s a) as [| |d1 B1| | | | | |] eqn:Ga; try exact I;
      destruct (get s b) as [| |d2 B2| | | | | |] eqn:Gb; try exact I.
    destruct Sa as (A1 & A2), Sb as (C1 & C2).
    apply (bounded_sat w' (next s) _ _ (w a + w b)); [|lia|exact E'].
    intros d0 Hd. rewrite A2, C2. now apply dadd_sound.
  - destruct (get s a) as [| |d1 B1|x z| | | | |] eqn:Ga; try exact I;
      destruct (get s b) as [| |d2 B2| | |y z'| | |y] eqn:Gb; try exact I.
    + destruct Sa as (A1 & A2), Sb as (C1 & C2).
      apply (bounded_sat w' (next s) _ _ (w a - w b)); [|lia|exact E'].
      intros d0 Hd. rewrite A2, C2. now apply dsub_sound.
    + destruct ((y =? a)%positive && (B1 <=? 32768)) eqn:C; [|exact I]. bools. subst y.
      destruct Sa as (A1 & A2), Sb as (C1 & C2).
      pose proof (rbar_red (w a) ltac:(lia)) as R.
      cbn [sat]. rewrite E'. unfold v, word_sem. rewrite C2, s16_sub_r, s16_id by lia. split; [lia|].
      rewrite <- A2. apply cg_ex. exists (- rbar (w a)). ring.
    + pose proof (get_sat _ _ x Hok) as Sx.
      destruct (get s x) as [| |d B| | | | | |] eqn:Gx; try exact I.
      destruct (x =? y)%positive eqn:Exy; [|exact I]. apply Pos.eqb_eq in Exy. subst y.
      destruct Sa as (_ & A), Sb as (_ & C), Sx as (X1 & X2).
      apply (bounded_sat w' (next s) _ _ (w x * z - rmul (w x) z' * 3329)).
      * intros d0 [= <-]. unfold value. cbn [dc dm de dj]. rewrite cg_mod.
        transitivity (w x * z).
        { apply cg_ex. exists (- rmul (w x) z'). ring. }
        rewrite X2. unfold value. apply cg_of_eq; ring.
      * now apply rmul_bound.
      * rewrite E'. unfold v, word_sem. now rewrite A, C, s16_sub_l, s16_sub_r.
  - destruct (get s a) as [| |d1 B1| |x z| | |x|] eqn:Ga; try exact I;
      destruct (get s b) as [|c| | | | | | |] eqn:Gb; try exact I.
    + cbn [sat] in *. rewrite E', (O a) by lia. split; [lia|]. unfold v, word_sem. now rewrite Sb.
    + destruct (c =? 3329) eqn:C; [|exact I]. apply Z.eqb_eq in C. subst c. cbn [sat] in *.
      destruct Sa as (A1 & A2). rewrite E', (O x) by lia. split; [lia|]. unfold v, word_sem. now rewrite Sb, A2.
    + destruct (c =? 3329) eqn:C; [|exact I]. apply Z.eqb_eq in C. subst c. cbn [sat] in *.
      destruct Sa as (A1 & A2). rewrite E', (O x) by lia. split; [lia|]. unfold v, word_sem. now rewrite Sb, A2.
  - destruct (get s a) as [| |d1 B1| | | | | |] eqn:Ga; try exact I;
      destruct (get s b) as [|c| | | | | | |] eqn:Gb; try exact I.
    destruct (_ && _) eqn:C; [|exact I]. bools. subst c. cbn [sat] in *. destruct Sa as (A1 & A2).
    rewrite E', (O a) by lia. split; [lia|]. unfold v, word_sem. rewrite Sb. apply dh_sat. lia.
  - destruct (get s a) as [| |d1 B1| | | | | |] eqn:Ga; try exact I;
      destruct (get s b) as [|c| | | | | | |] eqn:Gb; try exact I.
    destruct (_ && _) eqn:C; [|exact I]. bools. cbn [sat] in *. destruct Sa as (A1 & A2).
    rewrite E', (O a) by lia. split; [lia|]. unfold v, word_sem. rewrite Sb. apply rmul_sat; lia.
Qed.
Lemma shift_info_sound s w o n a : ok s w -> (a < next s)%positive ->
  sat f (upd w (next s) (shift_sem o n (w a))) (next s) (shift_info s o n a).
Proof.
  intros Hok La. pose proof (get_sat _ _ a Hok) as Sa. unfold shift_info. destruct o; try exact I.
  destruct (get s a) as [| | | | | |x| |]; try exact I.
  destruct (n =? 11) eqn:C; [|exact I]. bools. subst n. cbn [sat] in *.
  destruct Sa as (A1 & A2). rewrite upd_same, upd_old by lia. split; [lia|].
  unfold shift_sem. now rewrite A2.
Qed.

Lemma nodes_sound : sound nodes ok ext rel.
Proof.
  assert (ET : forall s w s1 w1 s2 w2, ext s w s1 w1 -> ext s1 w1 s2 w2 -> ext s w s2 w2).
  { intros s w s1 w1 s2 w2 (A1 & A2) (B1 & B2). split; [lia|]. intros p Hp. rewrite B2 by lia. now apply A2. }
  assert (ER : forall s w s' w' v x, ext s w s' w' -> rel s w v x -> rel s' w' v x).
  { intros s w s' w' v x (A1 & A2) (R1 & R2). split; [lia|]. now rewrite A2. }
  assert (TT : forall s w u v l h s', ok s w ->
    (let '(x, s) := fresh s Top in let '(y, s) := fresh s Top in ((x, y), s)) = ((l, h), s') ->
    exists w', ok s' w' /\ ext s w s' w' /\ rel s' w' u l /\ rel s' w' v h).
  { intros s w u v l h s' Hok E. destruct (fresh s Top) as [x s1] eqn:E1.
    destruct (fresh s1 Top) as [y s2] eqn:E2. injection E as <- <- <-.
    destruct (fresh_sound s w u Top x s1 Hok I E1) as (w1 & O1 & X1 & R1).
    destruct (fresh_sound s1 w1 v Top y s2 O1 I E2) as (w2 & O2 & X2 & R2).
    exists w2. split; [auto|]. split; [eauto|]. split; eauto. }
  constructor; auto.
  - intros s w. split; [lia|auto].
  - intros o s w a x b y z s' Hok (Ra & <-) (Rb & <-) E. apply (fresh_sound s w _ _ z s' Hok (op_info_sound s w o x y Hok Ra Rb) E).
  - intros o n s w a x z s' Hok (Ra & <-) E. apply (fresh_sound s w _ _ z s' Hok (shift_info_sound s w o n x Hok Ra) E).
  - intros n s w z s' Hok E. apply (fresh_sound s w _ (Cst (s16 n)) z s' Hok (upd_same _ _ _) E).
Qed.
End Nodes.

(** ** Whole runs *)

Fixpoint alloc (l : list info) (s : dag) : list positive * dag :=
  match l with
  | [] => ([], s)
  | i :: l => let '(p, s) := fresh s i in let '(ps, s) := alloc l s in (p :: ps, s)
  end.
Fixpoint allocs (l : list (list info)) (s : dag) : list (list positive) * dag :=
  match l with
  | [] => ([], s)
  | a :: l => let '(p, s) := alloc a s in let '(ps, s) := allocs l s in (p :: ps, s)
  end.
Definition dag0 : dag := Dag 1 (PositiveMap.empty info).
Definition regs0 : list (list info) := repeat (repeat Top 8) 32.

(** The contents of the arrays after a run, given what is known of them before it *)
Definition analyse (p : list block) (n : nat) (k : Z) (arrays : list (list info))
  : option (list (list info)) :=
  let '(rs, s) := allocs regs0 dag0 in
  let '(ms, s) := allocs arrays s in
  match run nodes p (State rs (call n k) ms []) s with
  | Some (st, s) => Some (map (map (get s)) (mem st))
  | None => None
  end.

Definition satv (f : Z -> Z) (v : Z) (i : info) : Prop :=
  match i with
  | Top => True
  | Cst c => v = c
  | Den d B => Z.abs v <= B /\ v == value f d
  | _ => False
  end.
Definition satw (f : Z -> Z) (v : Z) (i : info) : Prop :=
  match i with
  | Cst c => v = c
  | Den d B => Z.abs v <= B /\ v == value f d
  | _ => True
  end.

Section Runs.
Variable f : Z -> Z.
Notation ok := (ok f).

Lemma satv_upd w n v i : satv f v i -> sat f (upd w n v) n i.
Proof. destruct i; cbn; try contradiction; now rewrite ?upd_same. Qed.
Lemma alloc_sound l : forall vs s w ps s', ok s w -> Forall2 (satv f) vs l -> alloc l s = (ps, s') ->
  exists w', ok s' w' /\ ext s w s' w' /\ vrel rel s' w' vs ps.
Proof.
  induction l as [|i l IH]; intros vs s w ps s' Hok Hv; inversion Hv as [|v i' vt lt Hvi Ht]; subst; cbn [alloc].
  - intros [= <- <-]. exists w. split; [auto|]. split; [apply (nodes_sound f)|constructor].
  - destruct (fresh s i) as [p s1] eqn:E1. destruct (alloc l s1) as [ps2 s2] eqn:E2. intros [= <- <-].
    destruct (fresh_sound f s w v i p s1 Hok (satv_upd _ _ _ _ Hvi) E1) as (w1 & O1 & X1 & R1).
    destruct (IH vt s1 w1 ps2 s2 O1 Ht E2) as (w2 & O2 & X2 & R2).
    exists w2. split; [auto|]. split; [eapply (ext_trans _ _ _ _ (nodes_sound f)); eauto|].
    constructor; auto. eapply (ext_rel _ _ _ _ (nodes_sound f)); eauto.
Qed.
Lemma allocs_sound l : forall vs s w ps s', ok s w -> Forall2 (Forall2 (satv f)) vs l ->
  allocs l s = (ps, s') ->
  exists w', ok s' w' /\ ext s w s' w' /\ Forall2 (vrel rel s' w') vs ps.
Proof.
  induction l as [|i l IH]; intros vs s w ps s' Hok Hv; inversion Hv as [|v i' vt lt Hvi Ht]; subst; cbn [allocs].
  - intros [= <- <-]. exists w. split; [auto|]. split; [apply (nodes_sound f)|constructor].
  - destruct (alloc i s) as [p s1] eqn:E1. destruct (allocs l s1) as [ps2 s2] eqn:E2. intros [= <- <-].
    destruct (alloc_sound i v s w p s1 Hok Hvi E1) as (w1 & O1 & X1 & R1).
    destruct (IH vt s1 w1 ps2 s2 O1 Ht E2) as (w2 & O2 & X2 & R2).
    exists w2. split; [auto|]. split; [eapply (ext_trans _ _ _ _ (nodes_sound f)); eauto|].
    constructor; auto. eapply (vrel_ext _ _ _ _ (nodes_sound f)); eauto.
Qed.
Lemma top_sat r n : length r = n -> Forall2 (satv f) r (repeat Top n).
Proof. intros <-. induction r; cbn; constructor; auto. exact I. Qed.
Lemma regs_sat (regs : list (list Z)) : vregs_ok regs -> Forall2 (Forall2 (satv f)) regs regs0.
Proof.
  unfold regs0. intros (H & F). set (t := repeat Top 8). rewrite <- H. clear H.
  induction F; cbn; constructor; auto. exact (top_sat x 8 H).
Qed.
Lemma sat_satw w p i : sat f w p i -> satw f (w p) i.
Proof. destruct i; cbn; auto. Qed.

Lemma analyse_sound p regs n k arrays ais ms : vregs_ok regs ->
  Forall2 (Forall2 (satv f)) arrays ais -> analyse p n k ais = Some ms ->
  exists st, run_words p regs (args n k) arrays = Some st /\ Forall2 (Forall2 (satw f)) (mem st) ms.
Proof.
  intros V Ha. unfold analyse. destruct (allocs regs0 dag0) as [rs s1] eqn:E1.
  destruct (allocs ais s1) as [mp s2] eqn:E2.
  assert (O0 : ok dag0 (fun _ => 0)) by (intros q i; cbn; rewrite PositiveMap.gempty; discriminate).
  destruct (allocs_sound _ _ _ _ _ _ O0 (regs_sat _ V) E1) as (w1 & O1 & X1 & R1).
  destruct (allocs_sound _ _ _ _ _ _ O1 Ha E2) as (w2 & O2 & X2 & R2).
  destruct (run nodes p (State rs (call n k) mp []) s2) as [[st' s3]|] eqn:E3; [|discriminate]. intros [= <-].
  destruct (run_good _ _ _ _ (nodes_sound f) p s2 w2 (State regs (args n k) arrays []) (State rs (call n k) mp []) O2)
    with (st2' := st') (s2 := s3) as (w3 & st & Er & O3 & X3 & (S1 & S2 & S3 & S4)); auto.
  { split; [|split; [|split]]; cbn; auto.
    - eapply F2_impl; [|exact R1]. intros. eapply (vrel_ext _ _ _ _ (nodes_sound f)); eauto.
    - apply call_rel. }
  exists st. split.
  { unfold run_words. now rewrite Er. }
  clear - S3 O3. induction S3 as [|v ps vs pss H S3 IH]; cbn [map]; constructor; auto.
  clear - H O3. unfold vrel in H. induction H as [|v p vs ps (H1 & H2) H IH]; cbn [map]; constructor; auto.
  rewrite <- H2. apply sat_satw, get_sat, O3.
Qed.
End Runs.

Definition is_const (c : Z) (i : info) : bool := match i with Cst d => c =? d | _ => false end.
Definition is_den (i : info) (c m e j B : Z) : bool :=
  match i with
  | Den d B' => ((dc d - c) mod 3329 =? 0) && (dm d =? m) && (de d =? e) && (dj d =? j) && (B' <=? B)
  | _ => false
  end.
Lemma const_F2 f l : Forall2 (satv f) l (map Cst l).
Proof. induction l; cbn; constructor; auto. reflexivity. Qed.
Lemma const_eq f l is vs : Forall2 (fun c i => is_const c i = true) l is -> Forall2 (satw f) vs is -> vs = l.
Proof.
  intros H; revert vs; induction H as [|c i l is Hc H IH]; intros vs K; inversion K as [|v j vs' js Hv Hs]; subst; auto.
  f_equal; auto. unfold is_const in Hc. destruct i; try discriminate. apply Z.eqb_eq in Hc. subst. exact Hv.
Qed.
Lemma is_den_sound f v i c m e j B : is_den i c m e j B = true -> satw f v i ->
  Z.abs v <= B /\ v == c * part f m e j.
Proof.
  unfold is_den. destruct i as [| |d B'| | | | | |]; try discriminate. destruct d as [c' m' e' j']; cbn [dc dm de dj].
  intros H. bools. subst m' e' j'. intros (S1 & S2). split; [lia|].
  rewrite S2. unfold value; cbn [dc dm de dj].
  assert (c' == c) as -> by (apply zero_cg; apply Z.eqb_eq; auto). reflexivity.
Qed.
Lemma at256_F2 (R : Z -> info -> Prop) vs (g : Z -> info) : zlen vs = 256 ->
  (forall i, 0 <= i < 256 -> R (at_ vs i) (g i)) -> Forall2 R vs (map g nats256).
Proof.
  intros L H. unfold nats256. rewrite map_map.
  assert (G : forall n m us, length us = n -> (forall i, (i < n)%nat -> R (nth i us 0) (g (Z.of_nat (m + i)))) ->
    Forall2 R us (map (fun x => g (Z.of_nat x)) (seq m n))).
  { induction n as [|n IH]; intros m us Lu Hu; destruct us as [|u us]; try discriminate; cbn; constructor.
    - specialize (Hu 0%nat ltac:(lia)). now rewrite Nat.add_0_r in Hu.
    - apply IH; [cbn in Lu; lia|]. intros i Hi. specialize (Hu (Datatypes.S i) ltac:(lia)).
      cbn in Hu. now rewrite <- Nat.add_succ_comm in Hu. }
  apply G; [unfold zlen in L; lia|]. intros i Hi. rewrite Nat.add_0_l.
  specialize (H (Z.of_nat i) ltac:(lia)). unfold at_ in H. now rewrite Nat2Z.id in H.
Qed.

(** ** The forward transform *)

(** 64 bytes of stack; the polynomial; the tables and the constants of the file *)
Definition ntt_tables : list (list Z) :=
  [aarch64_ntt_zetas_layer01234; aarch64_ntt_zetas_layer56; ntt_clean_const_addr].
Definition ntt_in : list (list info) :=
  repeat Top 32 :: map (fun i => Den (mkden 1 256 128 i) 3328) nats256 :: map (map Cst) ntt_tables.
Definition ntt_check (o : option (list (list info))) : bool :=
  match o with
  | Some (stk :: m :: t) =>
      (length stk =? 32)%nat &&
      all2 (fun i x => is_den x 1 2 (2 * brv (i / 2) + 1) (i mod 2) 19973) nats256 m
      && all2 (all2 is_const) ntt_tables t
  | _ => false
  end.
Lemma ntt_clean_checked : ntt_check (analyse ntt_asm_clean 3 64 ntt_in) = true.
Proof. vm_compute. reflexivity. Qed.
Lemma ntt_opt_checked : ntt_check (analyse ntt_asm_opt 3 64 ntt_in) = true.
Proof. vm_compute. reflexivity. Qed.

Lemma F2_length {A B} (R : A -> B -> Prop) l m : Forall2 R l m -> length l = length m.
Proof. induction 1; cbn; auto. Qed.
Lemma consts_sat f ls : Forall2 (Forall2 (satv f)) ls (map (map Cst) ls).
Proof. induction ls; cbn; constructor; auto using const_F2. Qed.
Lemma consts_eq f ls iss vss : Forall2 (fun l i => all2 is_const l i = true) ls iss ->
  Forall2 (Forall2 (satw f)) vss iss -> vss = ls.
Proof.
  intros H; revert vss; induction H as [|c i l is Hc H IH]; intros vs K; inversion K; subst; auto.
  f_equal; auto. apply all2_F2 in Hc. eapply const_eq; eauto.
Qed.

Lemma ntt_run p o vs stk r : analyse p 3 64 ntt_in = o -> ntt_check o = true -> vregs_ok vs -> length stk = 32%nat -> zlen r = 256 ->
  (forall i, 0 <= i < 256 -> Z.abs (at_ r i) < 3329) ->
  exists st stk' r', run_words p vs (args 3 64) (stk :: r :: ntt_tables) = Some st /\
    mem st = stk' :: r' :: ntt_tables /\ length stk' = 32%nat /\
    zlen r' = 256 /\ (forall i, 0 <= i < 256 -> Z.abs (at_ r' i) < 6 * 3329) /\
    (forall i, 0 <= i < 256 -> at_ r' i == at_ (NTT r) i).
Proof.
  intros EA C V Ls Lr Hr. unfold ntt_check in C.
  destruct o as [[|ms [|m t]]|]; try discriminate C.
  apply andb_prop in C. destruct C as (C & C1). apply andb_prop in C. destruct C as (Cs & C0).
  apply Nat.eqb_eq in Cs. apply all2_F2 in C0, C1.
  destruct (analyse_sound (at_ r) p vs 3 64 (stk :: r :: ntt_tables) ntt_in (ms :: m :: t) V) as (st & Er & S); auto.
  { constructor; [now apply top_sat|]. constructor; [|apply consts_sat].
    apply at256_F2; auto. intros i Hi. cbn [satv]. split; [specialize (Hr i Hi); lia|].
    unfold value; cbn [dc dm de dj]. unfold part. change (256 / 256) with (0 + 1).
    rewrite sum_S by lia. rewrite sum_0. replace (i + 0 * 256) with i by ring.
    replace (128 * 0) with 0 by ring. rewrite Z.pow_0_r. apply cg_of_eq; ring. }
  inversion S as [|stk' x l y Ss S']; subst. inversion S' as [|r' x l' y' Sr S'']; subst.
  apply (consts_eq _ _ _ _ C1) in S''. subst l'.
  pose proof (F2_trans _ _ _ _ _ C0 Sr) as T. apply F2_at256 in T. destruct T as (L' & T).
  exists st, stk', r'. split; [exact Er|]. split; [congruence|].
  split; [rewrite (F2_length _ _ _ Ss); exact Cs|]. split; [exact L'|].
  assert (T' : forall i, 0 <= i < 256 -> Z.abs (at_ r' i) <= 19973 /\
     at_ r' i == 1 * part (at_ r) 2 (2 * brv (i / 2) + 1) (i mod 2)).
  { intros i Hi. destruct (T i Hi) as (x & X1 & X2). exact (is_den_sound _ _ _ _ _ _ _ _ X1 X2). }
  split; intros i Hi; destruct (T' i Hi) as (T1 & T2); [lia|].
  rewrite T2. rewrite NTT_at by auto. unfold part. change (256 / 2) with 128. rewrite Z.mul_1_l.
  apply sum_cg; [lia|]. intros t' Ht. replace (i mod 2 + t' * 2) with (2 * t' + i mod 2) by ring.
  reflexivity.
Qed.

(** ** The inverse transform *)

Definition intt_tables : list (list Z) :=
  [aarch64_invntt_zetas_layer01234; aarch64_invntt_zetas_layer56;
   intt_clean_const_addr; intt_clean_ninv_addr; intt_clean_ninv_tw_addr].
Definition intt_in : list (list info) :=
  repeat Top 32 ::
  map (fun i => Den (mkden 1 2 (2 * brv (i / 2) + 1) (i mod 2)) 32768) nats256 :: map (map Cst) intt_tables.
Definition intt_check (o : option (list (list info))) : bool :=
  match o with
  | Some (stk :: m :: t) =>
      (length stk =? 32)%nat &&
      all2 (fun i x => is_den x 65536 256 128 i 26631) nats256 m
      && all2 (all2 is_const) intt_tables t
  | _ => false
  end.
Lemma intt_clean_checked : intt_check (analyse intt_asm_clean 3 64 intt_in) = true.
Proof. vm_compute. reflexivity. Qed.
Lemma intt_opt_checked : intt_check (analyse intt_asm_opt 3 64 intt_in) = true.
Proof. vm_compute. reflexivity. Qed.

Lemma intt_run p o vs stk r g : analyse p 3 64 intt_in = o -> intt_check o = true -> vregs_ok vs -> length stk = 32%nat -> zlen r = 256 ->
  (forall i, 0 <= i < 256 -> - 2 ^ 15 <= at_ r i < 2 ^ 15) ->
  reduced g -> (forall i, 0 <= i < 256 -> at_ r i == at_ g i) ->
  exists st stk' r', run_words p vs (args 3 64) (stk :: r :: intt_tables) = Some st /\
    mem st = stk' :: r' :: intt_tables /\ length stk' = 32%nat /\
    zlen r' = 256 /\ (forall i, 0 <= i < 256 -> Z.abs (at_ r' i) < 8 * 3329) /\
    (forall i, 0 <= i < 256 -> at_ r' i == 65536 * at_ (NTT_inv g) i).
Proof.
  intros EA C V Ls Lr Hr Hg Hrg. unfold intt_check in C.
  destruct o as [[|ms [|m t]]|]; try discriminate C.
  apply andb_prop in C. destruct C as (C & C1). apply andb_prop in C. destruct C as (Cs & C0).
  apply Nat.eqb_eq in Cs. apply all2_F2 in C0, C1.
  set (f := at_ (NTT_inv g)).
  destruct (analyse_sound f p vs 3 64 (stk :: r :: intt_tables) intt_in (ms :: m :: t) V) as (st & Er & S); auto.
  { constructor; [now apply top_sat|]. constructor; [|apply consts_sat].
    apply at256_F2; auto. intros i Hi. cbn [satv]. split; [specialize (Hr i Hi); lia|].
    unfold value; cbn [dc dm de dj]. rewrite Hrg by auto. rewrite <- (NTT_NTT_inv g Hg) at 1.
    rewrite NTT_at by auto. unfold part. change (256 / 2) with 128. rewrite Z.mul_1_l.
    apply sum_cg; [lia|]. intros t' Ht. unfold f.
    replace (i mod 2 + t' * 2) with (2 * t' + i mod 2) by ring. reflexivity. }
  inversion S as [|stk' x l y Ss S']; subst. inversion S' as [|r' x l' y' Sr S'']; subst.
  apply (consts_eq _ _ _ _ C1) in S''. subst l'.
  pose proof (F2_trans _ _ _ _ _ C0 Sr) as T. apply F2_at256 in T. destruct T as (L' & T).
  exists st, stk', r'. split; [exact Er|]. split; [congruence|].
  split; [rewrite (F2_length _ _ _ Ss); exact Cs|]. split; [exact L'|].
  assert (T' : forall i, 0 <= i < 256 -> Z.abs (at_ r' i) <= 26631 /\ at_ r' i == 65536 * part f 256 128 i).
  { intros i Hi. destruct (T i Hi) as (x & X1 & X2). exact (is_den_sound _ _ _ _ _ _ _ _ X1 X2). }
  split; intros i Hi; destruct (T' i Hi) as (T1 & T2); [lia|].
  rewrite T2. unfold part. change (256 / 256) with (0 + 1).
  rewrite sum_S by lia. rewrite sum_0. replace (i + 0 * 256) with i by ring.
  replace (128 * 0) with 0 by ring. rewrite Z.pow_0_r. unfold f. apply cg_of_eq; ring.
Qed.
