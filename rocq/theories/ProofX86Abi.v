(** * The machine with a stack runs the routines as ModelX86.v does *)

From Coq Require Import ZArith List Bool Lia.
From Verif Require Import CSem ModelX86 ModelX86Asm ModelX86Abi Spec202 SpecX86Frame SpecX86Abi ProofX86Frame.
Import ListNotations.
Open Scope Z_scope.
Ltac Zify.zify_post_hook ::= idtac.

(** ** Words and bytes *)

Lemma s16_bytes v : int16 v -> s16 (v mod 256 + 256 * (v / 256 mod 256)) = v.
Proof.
  unfold int16, s16. change (2 ^ 15) with 32768. intros H.
  pose proof (Z.div_mod v 256 ltac:(lia)) as E. pose proof (Z.mod_pos_bound v 256 ltac:(lia)).
  pose proof (Z.div_mod (v / 256) 256 ltac:(lia)) as E2. pose proof (Z.mod_pos_bound (v / 256) 256 ltac:(lia)).
  set (a := v mod 256) in *. set (d := v / 256) in *. set (b := d mod 256) in *. set (e := d / 256) in *.
  assert (K : e = 0 \/ e = -1) by lia.
  destruct K as [K|K].
  - replace (a + 256 * b + 32768) with (v + 32768) by lia. rewrite Z.mod_small by lia. lia.
  - replace (a + 256 * b + 32768) with (v + 32768 + 1 * 65536) by lia. rewrite Z.mod_add by lia. rewrite Z.mod_small by lia. lia.
Qed.

Definition words_at (m : memory) (a : Z) (w : list Z) : Prop :=
  forall j, (j < length w)%nat -> get16 m (a + 2 * Z.of_nat j) = Some (nth j w 0).
Lemma get_words_iff m w : forall a, holds m a w <-> words_at m a w.
Proof.
  unfold holds. induction w as [|x w IH]; intros a; cbn [length get_words].
  - split; auto. intros _ j Hj. cbn in Hj. lia.
  - split.
    + intros H. destruct (get16 m a) as [y|] eqn:Ey; [|discriminate]. cbn [obind] in H.
      destruct (get_words m (a + 2) (length w)) as [r|] eqn:Er; [|discriminate]. cbn [obind] in H.
      injection H as -> ->. apply IH in Er. intros [|j] Hj; cbn [nth].
      * now rewrite Z.add_0_r.
      * cbn [length] in Hj. specialize (Er j ltac:(lia)). rewrite <- Er. f_equal. lia.
    + intros H. pose proof (H 0%nat ltac:(cbn; lia)) as H0. cbn [nth] in H0. rewrite Z.add_0_r in H0. rewrite H0. cbn [obind].
      assert (K : words_at m (a + 2) w).
      { intros j Hj. specialize (H (S j) ltac:(cbn; lia)). cbn [nth] in H. rewrite <- H. f_equal. lia. }
      apply IH in K. rewrite K. reflexivity.
Qed.
Lemma get_words_sub m a w i n : words_at m a w -> (i + n <= length w)%nat ->
  get_words m (a + 2 * Z.of_nat i) n = Some (firstn n (skipn i w)).
Proof.
  intros H L. assert (E : length (firstn n (skipn i w)) = n) by (rewrite firstn_length, skipn_length; lia).
  rewrite <- E at 1. apply get_words_iff. intros j Hj. rewrite E in Hj.
  replace (nth j (firstn n (skipn i w)) 0) with (nth (i + j) w 0).
  - rewrite <- H by lia. f_equal. lia.
  - rewrite <- (firstn_skipn i w) at 1. rewrite app_nth2 by (rewrite firstn_length; lia).
    rewrite firstn_length, Nat.min_l by lia. replace (i + j - i)%nat with j by lia.
    rewrite <- (firstn_skipn n (skipn i w)) at 1. rewrite app_nth1 by lia. reflexivity.
Qed.

Lemma nth_word_bytes w : forall j, (j < length w)%nat ->
  nth_error (flat_map (fun x => [x mod 256; x / 256 mod 256]) w) (2 * j) = Some (nth j w 0 mod 256) /\
  nth_error (flat_map (fun x => [x mod 256; x / 256 mod 256]) w) (2 * j + 1) = Some (nth j w 0 / 256 mod 256).
Proof.
  induction w as [|x w IH]; intros j Hj; cbn [length] in Hj; [lia|].
  destruct j as [|j]; [split; reflexivity|]. replace (2 * S j)%nat with (S (S (2 * j))) by lia. cbn [flat_map app nth].
  cbn [nth_error Nat.add]. apply IH. lia.
Qed.
Lemma length_word_bytes w : length (flat_map (fun x => [x mod 256; x / 256 mod 256]) w) = (2 * length w)%nat.
Proof. induction w as [|x w IH]; cbn [flat_map app length]; [reflexivity|]. rewrite IH. lia. Qed.

Lemma get16_mapped m a v : get16 m a = Some v -> m a <> None /\ m (a + 1) <> None.
Proof. unfold get16. destruct (m a); [|discriminate]. cbn [obind]. destruct (m (a + 1)); [|discriminate]. split; discriminate. Qed.
Lemma put_bytes_ok m a b : (forall x, a <= x < a + zlen b -> m x <> None) ->
  exists m', put_bytes m a b = Some m' /\
    (forall x, a <= x < a + zlen b -> m' x = nth_error b (Z.to_nat (x - a))) /\
    (forall x, ~ (a <= x < a + zlen b) -> m' x = m x).
Proof.
  intros H. unfold put_bytes.
  assert (C : forallb (fun i => mapped m (a + Z.of_nat i)) (seq 0 (length b)) = true).
  { apply forallb_forall. intros i Hi. apply in_seq in Hi. unfold mapped.
    specialize (H (a + Z.of_nat i)). unfold zlen in H. destruct (m (a + Z.of_nat i)); auto. exfalso. apply H; auto. lia. }
  rewrite C. eexists. split; [reflexivity|]. unfold zlen. split; intros x Hx.
  - replace ((a <=? x) && (x <? a + Z.of_nat (length b))) with true; auto. symmetry. apply andb_true_intro. split; [apply Z.leb_le|apply Z.ltb_lt]; lia.
  - replace ((a <=? x) && (x <? a + Z.of_nat (length b))) with false; auto. symmetry. apply andb_false_iff.
    destruct (Z_le_gt_dec a x); [right; apply Z.ltb_ge; lia|left; apply Z.leb_gt; lia].
Qed.
Lemma put_words_ok m a w : (forall x, a <= x < a + 2 * zlen w -> m x <> None) -> Forall int16 w ->
  exists m', put_words m a w = Some m' /\ words_at m' a w /\
    (forall x, ~ (a <= x < a + 2 * zlen w) -> m' x = m x).
Proof.
  intros H F. pose proof (length_word_bytes w) as L.
  set (b := flat_map (fun x => [x mod 256; x / 256 mod 256]) w) in *.
  destruct (put_bytes_ok m a b) as (m' & E & I & O).
  { intros x Hx. apply H. unfold zlen in *. lia. }
  exists m'. split; [exact E|]. split.
  - intros j Hj. unfold get16. pose proof (nth_word_bytes w j Hj) as (N1 & N2). fold b in N1, N2.
    rewrite !I by (unfold zlen; lia).
    replace (Z.to_nat (a + 2 * Z.of_nat j - a)) with (2 * j)%nat by lia.
    replace (Z.to_nat (a + 2 * Z.of_nat j + 1 - a)) with (2 * j + 1)%nat by lia.
    rewrite N1, N2. cbn [obind]. f_equal. apply s16_bytes. rewrite Forall_forall in F. apply F, nth_In. exact Hj.
  - intros x Hx. apply O. unfold zlen in *. lia.
Qed.

(** ** 16-bit words in vector registers *)

Lemma Forall_block {A} (P : A -> Prop) k i v : Forall P v -> Forall P (block k i v).
Proof.
  intros H. unfold block. apply Forall_forall. intros x Hx. rewrite Forall_forall in H. apply H.
  rewrite <- (firstn_skipn (k * i) v), in_app_iff. right. rewrite <- (firstn_skipn k (skipn (k * i) v)), in_app_iff. auto.
Qed.
Lemma Forall_flat_map' {A B} (P : B -> Prop) (f : A -> list B) l : (forall x, Forall P (f x)) -> Forall P (flat_map f l).
Proof. intros H. induction l; cbn [flat_map]; [constructor|]. apply Forall_app. auto. Qed.
Lemma int16_0 : int16 0. Proof. unfold int16. lia. Qed.
Lemma Forall_sub {A} (P : A -> Prop) n i (v : list A) : Forall P v -> Forall P (firstn n (skipn i v)).
Proof.
  intros H. apply Forall_forall. intros x Hx. rewrite Forall_forall in H. apply H.
  rewrite <- (firstn_skipn i v), in_app_iff. right. rewrite <- (firstn_skipn n (skipn i v)), in_app_iff. auto.
Qed.
Ltac int16_words :=
  repeat first [ assumption | apply Forall_block | apply Forall_flat_map'; intros | apply Forall_app; split
               | apply Forall_cons | apply Forall_nil | apply int16_0
               | match goal with |- context [if ?b then _ else _] => destruct b end ].
Lemma pairs_int16 o a : forall b, Forall int16 a -> Forall int16 b -> Forall int16 (word_pairs (word_sem o) a b).
Proof.
  induction a as [|x a IH]; intros [|y b] Ha Hb; cbn [word_pairs]; constructor; inversion Ha; inversion Hb; subst; auto.
  now apply int16_op.
Qed.
Lemma map_int16 o n a : Forall int16 a -> Forall int16 (map (shift_sem o n) a).
Proof. induction 1; cbn [map]; constructor; auto. now apply int16_shift'. Qed.
Lemma lanes2_pairs o a : forall b, lanes2 (d_op machine o) a b tt = (word_pairs (word_sem o) a b, tt).
Proof. induction a as [|x a IH]; intros [|y b]; cbn [lanes2 word_pairs]; auto. cbn [d_op machine]. now rewrite IH. Qed.
Lemma lanes1_map o n a : lanes1 (d_shift machine o n) a tt = (map (shift_sem o n) a, tt).
Proof.
  induction a as [|x a IH]; [reflexivity|]. cbn [map].
  change (lanes1 (d_shift machine o n) (x :: a) tt) with (let '(r, s) := lanes1 (d_shift machine o n) a tt in (shift_sem o n x :: r, s)).
  now rewrite IH.
Qed.
Lemma controls_id c : controls machine tt c = Some c.
Proof. induction c as [|x c IH]; cbn [controls]; auto. cbn [d_ctl machine obind]. rewrite IH. reflexivity. Qed.

Lemma length_replace {A} n (x : A) l : length (replace_nth n x l) = length l.
Proof. revert n; induction l as [|y l IH]; intros [|n]; cbn [replace_nth length]; auto. Qed.
Lemma nth_replace_same {A} n (x : A) l : (n < length l)%nat -> nth_error (replace_nth n x l) n = Some x.
Proof. revert n; induction l as [|y l IH]; intros [|n]; cbn [replace_nth length nth_error]; intros; try lia; auto. apply IH. lia. Qed.
Lemma nth_replace_other {A} n k (x : A) l : n <> k -> nth_error (replace_nth n x l) k = nth_error l k.
Proof. revert n k; induction l as [|y l IH]; intros [|n] [|k] H; cbn [replace_nth nth_error]; auto; try congruence. Qed.
Lemma Forall_replace {A} (P : A -> Prop) n x l : Forall P l -> P x -> Forall P (replace_nth n x l).
Proof. intros H Hx. revert n; induction H; intros [|n]; cbn [replace_nth]; constructor; auto. Qed.

(** ** Simulation *)

(** [base a]: the address of the array number [a]; [al a]: it is aligned; [sp]: the stack pointer;
    [m0], [g0]: memory outside the arrays, and the registers that the code does not use *)
Record sim (base : nat -> Z) (al : nat -> bool) (sp : Z) (m0 : memory) (g0 : reg64 -> Z) (st : state Z) (s : cpu) : Prop := {
  s_vec : vec s = ymm st;
  s_int16 : Forall (Forall int16) (ymm st);
  s_ptr : forall g, g <> rsp -> gp s (reg_of g) = (base (fst (ptr st g)) + snd (ptr st g)) mod 2 ^ 64;
  s_rsp : ptr st rsp = (4%nat, 0);
  s_sp : gp s RSP = sp;
  s_slot : forall m, nth_error (mem st) 4 = Some m -> base 4%nat = sp;
  s_other : forall r, ~ In r [RDI; RSI; RDX; RCX; R9; RSP] -> gp s r = g0 r;
  s_arr : forall a m, nth_error (mem st) a = Some m ->
    Forall int16 m /\ 0 <= base a /\ base a + 2 * zlen m <= 2 ^ 64 /\ (al a = true -> base a mod 32 = 0) /\
    words_at (ram s) (base a) m;
  s_disj : forall a b m n, a <> b -> nth_error (mem st) a = Some m -> nth_error (mem st) b = Some n ->
    base a + 2 * zlen m <= base b \/ base b + 2 * zlen n <= base a;
  s_frame : forall x, (forall a m, nth_error (mem st) a = Some m -> ~ (base a <= x < base a + 2 * zlen m)) -> ram s x = m0 x
}.

(** vmovdqa only on aligned arrays; no arithmetic on rsp *)
Definition sound_access (al : nat -> bool) (p : gpr -> nat * Z) (i : instr) : bool :=
  match i with
  | load true b _ _ | store true _ b _ => al (fst (p b))
  | lea b _ dst => negb (gpr_eqb b rsp) && negb (gpr_eqb dst rsp)
  | add_imm _ dst => negb (gpr_eqb dst rsp)
  | _ => true
  end.
Definition move_ptr (i : instr) (p : gpr -> nat * Z) : gpr -> nat * Z :=
  match i with
  | lea b d dst => fun x => if gpr_eqb x dst then (fst (p b), snd (p b) + d) else p x
  | add_imm n dst => fun x => if gpr_eqb x dst then (fst (p dst), snd (p dst) + n) else p x
  | _ => p
  end.
Fixpoint sound_accesses (al : nat -> bool) (p : gpr -> nat * Z) (c : list instr) : bool :=
  match c with [] => true | i :: c => sound_access al p i && sound_accesses al (move_ptr i p) c end.
Lemma sound_access_ext al p p' i : (forall g, p g = p' g) -> sound_access al p i = sound_access al p' i.
Proof. intros H. destruct i as [[] | [] | | | | | | | | | | | | | | | | |]; cbn [sound_access]; rewrite ?H; reflexivity. Qed.
Lemma move_ptr_ext i p p' : (forall g, p g = p' g) -> forall g, move_ptr i p g = move_ptr i p' g.
Proof. intros H g. destruct i; cbn [move_ptr]; rewrite ?H; auto. Qed.
Lemma sound_accesses_ext al c : forall p p', (forall g, p g = p' g) -> sound_accesses al p c = sound_accesses al p' c.
Proof. induction c as [|i c IH]; intros p p' H; cbn [sound_accesses]; auto. rewrite (sound_access_ext _ _ _ _ H). f_equal. apply IH. now apply move_ptr_ext. Qed.

Lemma gpr_eqb_iff a b : gpr_eqb a b = true <-> a = b.
Proof. destruct a, b; cbn; split; congruence. Qed.
Lemma gpr_eqb_false a b : gpr_eqb a b = false <-> a <> b.
Proof. rewrite <- gpr_eqb_iff. destruct (gpr_eqb a b); split; congruence. Qed.
Lemma reg_of_inj a b : reg_of a = reg_of b -> a = b.
Proof. destruct a, b; cbn; congruence. Qed.

Section Sim.
Context (base : nat -> Z) (al : nat -> bool) (sp : Z) (m0 : memory) (g0 : reg64 -> Z) (Hsp : 0 <= sp < 2 ^ 64).
Notation sim := (sim base al sp m0 g0).

Lemma sim_touch st s b d : sim st s -> sim (touch st b d) s.
Proof. intros []. unfold touch. destruct (ptr st b) eqn:E. constructor; cbn [ymm ptr mem]; auto. Qed.
Lemma sim_set_reg st s n v st' : sim st s -> Forall int16 v -> set_reg st n v = Some st' ->
  exists s', set_vec s n v = Some s' /\ sim st' s' /\ rip s' = rip s /\ ptr st' = ptr st.
Proof.
  intros S F. unfold set_reg, set_vec. rewrite (s_vec _ _ _ _ _ _ _ S). destruct (n <? length (ymm st))%nat; [|discriminate].
  intros [= <-]. eexists. split; [reflexivity|]. split; [|auto]. destruct S. constructor; cbn [ymm ptr mem ram gp vec]; auto.
  now apply Forall_replace.
Qed.
Lemma sim_reg st s n v : sim st s -> reg st n = Some v -> nth_error (vec s) n = Some v /\ Forall int16 v.
Proof.
  intros S. unfold reg. rewrite (s_vec _ _ _ _ _ _ _ S). intros H. split; auto.
  pose proof (s_int16 _ _ _ _ _ _ _ S) as F. rewrite Forall_forall in F. apply F. eapply nth_error_In; eauto.
Qed.

Lemma sim_address st s A n b d a i m : sim st s -> 2 <= A -> (2 | A) -> address st A n b d = Some (a, i, m) ->
  nth_error (mem st) a = Some m /\ (i + n <= length m)%nat /\
  gp s (reg_of b) + d = base a + 2 * Z.of_nat i + 2 ^ 64 * ((gp s (reg_of b) + d - base a - 2 * Z.of_nat i) / 2 ^ 64) /\
  (n <> 0%nat -> effective s b d = base a + 2 * Z.of_nat i) /\ (2 * Z.of_nat i) mod A = 0 /\ a = fst (ptr st b).
Proof.
  intros S HA (c & Hc) H. unfold address in H. destruct (ptr st b) as [a' off] eqn:Ep.
  destruct (nth_error (mem st) a') as [m'|] eqn:Em; [|discriminate]. cbn [obind] in H.
  destruct (((off + d) mod A =? 0) && (0 <=? off + d) && ((off + d) / 2 + Z.of_nat n <=? Z.of_nat (length m'))) eqn:C; [|discriminate].
  injection H as <- <- <-. apply andb_prop in C. destruct C as (C & C3). apply andb_prop in C. destruct C as (C1 & C2).
  apply Z.eqb_eq in C1. apply Z.leb_le in C2, C3.
  assert (D : 2 * ((off + d) / 2) = off + d).
  { pose proof (Z.div_mod (off + d) A ltac:(lia)) as D. rewrite C1, Z.add_0_r in D. rewrite Hc in D.
    rewrite D at 1. replace (c * 2 * ((off + d) / (c * 2))) with (c * ((off + d) / (c * 2)) * 2) by lia. rewrite Z.div_mul by lia. lia. }
  assert (P : 0 <= (off + d) / 2) by (apply Z.div_pos; lia).
  pose proof (s_arr _ _ _ _ _ _ _ S a' m' Em) as (_ & B1 & B2 & _ & _). unfold zlen in B2.
  assert (G : exists q, gp s (reg_of b) = base a' + off + 2 ^ 64 * q).
  { destruct (gpr_eqb b rsp) eqn:Eb.
    - apply gpr_eqb_iff in Eb. subst b. rewrite (s_rsp _ _ _ _ _ _ _ S) in Ep. injection Ep as <- <-.
      exists 0. cbn [reg_of]. rewrite (s_sp _ _ _ _ _ _ _ S). rewrite (s_slot _ _ _ _ _ _ _ S _ Em). lia.
    - apply gpr_eqb_false in Eb. rewrite (s_ptr _ _ _ _ _ _ _ S b Eb), Ep. cbn [fst snd].
      exists (- ((base a' + off) / 2 ^ 64)). pose proof (Z.div_mod (base a' + off) (2 ^ 64) ltac:(lia)). lia. }
  destruct G as (q & G). rewrite Z2Nat.id by lia.
  split; [exact Em|]. split; [lia|]. split.
  { rewrite D. replace (gp s (reg_of b) + d - base a' - (off + d)) with (q * 2 ^ 64) by lia. rewrite Z.div_mul by lia. lia. }
  split; [|split; [now rewrite D|reflexivity]].
  intros Hn. unfold effective. rewrite G. replace (base a' + off + 2 ^ 64 * q + d) with (base a' + 2 * ((off + d) / 2) + q * 2 ^ 64) by lia.
  rewrite Z.mod_add by lia. apply Z.mod_small. lia.
Qed.
Lemma sim_aligned st s aligned n b d a i m : sim st s -> n <> 0%nat -> (aligned = true -> al (fst (ptr st b)) = true) ->
  address st (align_of aligned) n b d = Some (a, i, m) ->
  aligned32 aligned (effective s b d) = true /\ effective s b d = base a + 2 * Z.of_nat i /\
  nth_error (mem st) a = Some m /\ (i + n <= length m)%nat.
Proof.
  intros S Hn HA H.
  assert (A2 : 2 <= align_of aligned /\ (2 | align_of aligned)) by (destruct aligned; cbn; split; try lia; [exists 16|exists 1]; lia).
  destruct A2 as (A2 & A3). destruct (sim_address _ _ _ _ _ _ _ _ _ S A2 A3 H) as (E & L & _ & F & M & W). specialize (F Hn).
  split; [|auto]. unfold aligned32. destruct aligned; cbn [negb orb]; auto. apply Z.eqb_eq. rewrite F.
  specialize (HA eq_refl). rewrite <- W in HA. destruct (s_arr _ _ _ _ _ _ _ S a m E) as (_ & _ & _ & B & _). specialize (B HA).
  cbn [align_of] in M. rewrite Z.add_mod, B, M by lia. reflexivity.
Qed.
Lemma sim_read st s aligned n b d v st' : sim st s -> n <> 0%nat -> (aligned = true -> al (fst (ptr st b)) = true) ->
  read st aligned n b d = Some (v, st') -> fetch_words s aligned n b d = Some v /\ Forall int16 v /\ sim st' s /\ ptr st' = ptr st.
Proof.
  intros S Hn HA H. unfold read in H. destruct (address st (align_of aligned) n b d) as [[[a i] m]|] eqn:E; [|discriminate].
  cbn [obind] in H. injection H as <- <-. destruct (sim_aligned _ _ _ _ _ _ _ _ _ S Hn HA E) as (A & F & M & L).
  destruct (s_arr _ _ _ _ _ _ _ S a m M) as (I & _ & _ & _ & W).
  unfold fetch_words. rewrite A, F. split; [now apply get_words_sub|]. split; [now apply Forall_sub|].
  split; [now apply sim_touch|]. unfold touch. destruct (ptr st b) eqn:Ep. reflexivity.
Qed.
Lemma sim_source st s o v st' : sim st s -> source st o = Some (v, st') ->
  vec_source s o = Some v /\ Forall int16 v /\ sim st' s /\ ptr st' = ptr st.
Proof.
  intros S. destruct o as [n|b d]; cbn [source vec_source].
  - destruct (reg st n) eqn:E; [|discriminate]. cbn [obind]. intros [= <- <-]. destruct (sim_reg _ _ _ _ S E). auto.
  - apply sim_read; auto. discriminate.
Qed.

Lemma nth_splice (m v : list Z) i j : (i + length v <= length m)%nat -> (j < length m)%nat ->
  nth j (firstn i m ++ v ++ skipn (i + length v) m) 0 =
  if ((i <=? j) && (j <? i + length v))%nat then nth (j - i) v 0 else nth j m 0.
Proof.
  intros L Hj. destruct (Nat.leb_spec i j); cbn [andb].
  - rewrite app_nth2 by (rewrite firstn_length; lia). rewrite firstn_length, Nat.min_l by lia.
    destruct (Nat.ltb_spec j (i + length v)).
    + now rewrite app_nth1 by lia.
    + rewrite app_nth2 by lia. rewrite <- (firstn_skipn (i + length v) m) at 2.
      rewrite (app_nth2 (firstn (i + length v) m)) by (rewrite firstn_length; lia). rewrite firstn_length, Nat.min_l by lia. f_equal. lia.
  - rewrite app_nth1 by (rewrite firstn_length; lia). rewrite <- (firstn_skipn i m) at 2. now rewrite app_nth1 by (rewrite firstn_length; lia).
Qed.
Lemma sim_write' st s aligned b d v st' : sim st s -> v <> [] -> Forall int16 v -> (aligned = true -> al (fst (ptr st b)) = true) ->
  write st aligned b d v = Some st' ->
  aligned32 aligned (effective s b d) = true /\
  exists m', put_words (ram s) (effective s b d) v = Some m' /\ sim st' (set_ram s m') /\ ptr st' = ptr st.
Proof.
  intros S Hv Fv HA H. unfold write in H. destruct (address st (align_of aligned) (length v) b d) as [[[a i] m]|] eqn:E; [|discriminate].
  cbn [obind] in H. injection H as <-.
  assert (Hn : length v <> 0%nat) by (destruct v; [now contradiction Hv|discriminate]).
  destruct (sim_aligned _ _ _ _ _ _ _ _ _ S Hn HA E) as (A & F & M & L).
  destruct (s_arr _ _ _ _ _ _ _ S a m M) as (I & B0 & B1 & B2 & W).
  split; [exact A|]. rewrite F.
  destruct (put_words_ok (ram s) (base a + 2 * Z.of_nat i) v) as (m' & P & Pi & Po); auto.
  { intros x Hx. unfold zlen in Hx.
    assert (K : exists j, (j < length m)%nat /\ (x = base a + 2 * Z.of_nat j \/ x = base a + 2 * Z.of_nat j + 1)).
    { exists (Z.to_nat ((x - base a) / 2)). pose proof (Z.div_mod (x - base a) 2 ltac:(lia)). pose proof (Z.mod_pos_bound (x - base a) 2 ltac:(lia)). lia. }
    destruct K as (j & Hj & Hx'). destruct (get16_mapped _ _ _ (W j Hj)) as (K1 & K2). destruct Hx' as [-> | ->]; auto. }
  assert (T : touch st b d = State (ymm st) (ptr st) (mem st) (trace (touch st b d))) by (unfold touch; destruct (ptr st b); reflexivity).
  rewrite T. cbn [ymm ptr mem trace].
  exists m'. split; [exact P|]. split; [|reflexivity].
  set (m1 := firstn i m ++ v ++ skipn (i + length v) m).
  assert (L1 : length m1 = length m) by (unfold m1; rewrite !app_length, firstn_length, skipn_length; lia).
  assert (Ha : (a < length (mem st))%nat) by (apply nth_error_Some; congruence).
  assert (N : forall a' m2, nth_error (replace_nth a m1 (mem st)) a' = Some m2 ->
              (a' = a /\ m2 = m1) \/ (a' <> a /\ nth_error (mem st) a' = Some m2)).
  { intros a' m2 H. destruct (Nat.eq_dec a' a) as [->|Ne].
    - rewrite nth_replace_same in H by exact Ha. injection H as <-. auto.
    - rewrite nth_replace_other in H by auto. auto. }
  assert (Z1 : zlen m1 = zlen m) by (unfold zlen; lia).
  destruct S. constructor; cbn [ymm ptr mem set_ram gp vec ram]; auto.
  - intros m2 H. destruct (N _ _ H) as [(E4 & _)|(_ & H')]; [|eauto]. subst a. eauto.
  - intros a' m2 H. destruct (N _ _ H) as [(-> & ->)|(Ne & H')].
    + rewrite Z1. repeat (split; [auto|]).
      { unfold m1. apply Forall_app. split; [|apply Forall_app; split; auto].
        - rewrite <- (firstn_skipn i m) in I. now apply Forall_app in I.
        - rewrite <- (firstn_skipn (i + length v) m) in I. now apply Forall_app in I. }
      intros j Hj. rewrite L1 in Hj. unfold m1. rewrite nth_splice by lia.
      destruct (((i <=? j) && (j <? i + length v))%nat) eqn:C.
      * apply andb_prop in C. destruct C as (C1 & C2). apply Nat.leb_le in C1. apply Nat.ltb_lt in C2.
        rewrite <- Pi by lia. f_equal. lia.
      * rewrite <- W by lia. unfold get16.
        assert (O : forall e, 0 <= e < 2 -> m' (base a + 2 * Z.of_nat j + e) = ram s (base a + 2 * Z.of_nat j + e)).
        { intros e He. apply Po. unfold zlen. apply andb_false_iff in C. rewrite Nat.leb_gt, Nat.ltb_ge in C. lia. }
        pose proof (O 0 ltac:(lia)) as O0. rewrite Z.add_0_r in O0. rewrite O0, (O 1) by lia. reflexivity.
    + destruct (s_arr0 a' m2 H') as (I2 & C0 & C1 & C2 & W2). repeat (split; [auto|]).
      intros j Hj. rewrite <- W2 by lia. unfold get16.
      assert (O : forall e, 0 <= e < 2 -> m' (base a' + 2 * Z.of_nat j + e) = ram s (base a' + 2 * Z.of_nat j + e)).
      { intros e He. apply Po. unfold zlen. destruct (s_disj0 a a' m m2 (not_eq_sym Ne) M H') as [D|D]; unfold zlen in D; lia. }
      pose proof (O 0 ltac:(lia)) as O0. rewrite Z.add_0_r in O0. rewrite O0, (O 1) by lia. reflexivity.
  - intros a1 a2 x1 x2 Ne H1 H2. destruct (N _ _ H1) as [(-> & ->)|(N1 & H1')]; destruct (N _ _ H2) as [(-> & ->)|(N2 & H2')]; rewrite ?Z1; eauto.
  - intros x Hx. rewrite Po.
    + apply s_frame0. intros a' m2 H. destruct (Nat.eq_dec a' a) as [->|Ne].
      * rewrite M in H. injection H as <-. rewrite <- Z1. apply Hx. now apply nth_replace_same.
      * apply Hx. now rewrite nth_replace_other by auto.
    + specialize (Hx a m1 (nth_replace_same _ _ _ Ha)). rewrite Z1 in Hx. unfold zlen in *. lia.
Qed.

Lemma replace_self {A} n (x : A) l : nth_error l n = Some x -> replace_nth n x l = l.
Proof. revert n; induction l as [|y l IH]; intros [|n]; cbn [replace_nth nth_error]; try discriminate; intros H; [congruence|f_equal; auto]. Qed.
Lemma sim_write st s aligned b d v st' : sim st s -> Forall int16 v -> (aligned = true -> al (fst (ptr st b)) = true) ->
  write st aligned b d v = Some st' ->
  aligned32 aligned (effective s b d) = true /\
  exists m', put_words (ram s) (effective s b d) v = Some m' /\ sim st' (set_ram s m') /\ ptr st' = ptr st.
Proof.
  intros S Fv HA H. destruct v as [|x v]; [|now apply sim_write'].
  unfold write in H. destruct (address st (align_of aligned) (length []) b d) as [[[a i] m]|] eqn:E; [|discriminate].
  cbn [obind app length] in H. rewrite Nat.add_0_r, firstn_skipn in H. injection H as <-.
  assert (A2 : 2 <= align_of aligned /\ (2 | align_of aligned)) by (destruct aligned; cbn; split; try lia; [exists 16|exists 1]; lia).
  destruct A2 as (A2 & A3). destruct (sim_address _ _ _ _ _ _ _ _ _ S A2 A3 E) as (M & L & G & _ & D & W).
  split.
  { unfold aligned32. destruct aligned; cbn [negb orb]; auto. apply Z.eqb_eq.
    specialize (HA eq_refl). rewrite <- W in HA. destruct (s_arr _ _ _ _ _ _ _ S a m M) as (_ & _ & _ & B & _). specialize (B HA).
    cbn [align_of] in D. unfold effective. change (2 ^ 64) with (32 * 576460752303423488) at 1.
    rewrite Z.rem_mul_r by lia. rewrite Z.mul_comm, Z.mod_add by lia. rewrite Z.mod_mod by lia. rewrite G.
    change (2 ^ 64) with (576460752303423488 * 32) at 1. 
    rewrite <- Z.mul_assoc, (Z.mul_comm 32), Z.mul_assoc, Z.mod_add by lia. rewrite Z.add_mod, B, D by lia. reflexivity. }
  destruct (put_words_ok (ram s) (effective s b d) []) as (m' & P & _ & O); [intros y Hy; cbn in Hy; lia|constructor|].
  exists m'. split; [exact P|].
  assert (O' : forall y, m' y = ram s y) by (intros y; apply O; cbn; lia).
  rewrite replace_self by (unfold touch; destruct (ptr st b); exact M).
  assert (T : touch st b d = State (ymm st) (ptr st) (mem st) (trace (touch st b d))) by (unfold touch; destruct (ptr st b); reflexivity).
  rewrite T. cbn [ymm ptr mem trace]. split; [|reflexivity].
  destruct S. constructor; cbn [ymm ptr mem set_ram gp vec ram]; auto.
  - intros a' m2 H. destruct (s_arr0 a' m2 H) as (I2 & C0 & C1 & C2 & W2). repeat (split; [auto|]).
    intros j Hj. rewrite <- W2 by lia. unfold get16. now rewrite !O'.
  - intros y Hy. rewrite O'. auto.
Qed.

Lemma sim_move1 st s f src dst st' : sim st s -> (forall a, Forall int16 a -> Forall int16 (f a)) ->
  (a <-? reg st src ;; st <-? set_reg st dst (f a) ;; Some (st, tt)) = Some (st', tt) ->
  exists s', mov1 s f src dst = Some s' /\ sim st' s' /\ rip s' = rip s /\ ptr st' = ptr st.
Proof.
  intros S Hf H. destruct (reg st src) as [a|] eqn:E; [|discriminate]. cbn [obind] in H.
  destruct (set_reg st dst (f a)) as [st2|] eqn:E2; [|discriminate]. cbn [obind] in H. injection H as <-.
  destruct (sim_reg _ _ _ _ S E) as (E' & F). unfold mov1. rewrite E'. cbn [obind]. eapply sim_set_reg; eauto.
Qed.
Lemma sim_move2 st s f s2 s1 dst st' : sim st s -> (forall b a, Forall int16 b -> Forall int16 a -> Forall int16 (f b a)) ->
  move2 st tt f s2 s1 dst = Some (st', tt) ->
  exists s', mov2 s f s2 s1 dst = Some s' /\ sim st' s' /\ rip s' = rip s /\ ptr st' = ptr st.
Proof.
  intros S Hf H. unfold move2 in H. destruct (reg st s2) as [b|] eqn:E; [|discriminate]. cbn [obind] in H.
  destruct (reg st s1) as [a|] eqn:E1; [|discriminate]. cbn [obind] in H.
  destruct (set_reg st dst (f b a)) as [st2|] eqn:E2; [|discriminate]. cbn [obind] in H. injection H as <-.
  destruct (sim_reg _ _ _ _ S E) as (E' & F). destruct (sim_reg _ _ _ _ S E1) as (E1' & F1).
  unfold mov2. rewrite E', E1'. cbn [obind]. eapply sim_set_reg; eauto.
Qed.
Lemma sim_set_ptr st s dst b d : sim st s -> b <> rsp -> dst <> rsp ->
  sim (set_ptr st dst (fst (ptr st b), snd (ptr st b) + d)) (set_gp s (reg_of dst) (effective s b d)).
Proof.
  intros S Hb Hd. destruct S. constructor; cbn [ymm ptr mem set_ptr set_gp gp vec ram]; auto.
  - intros g Hg. destruct (gpr_eqb g dst) eqn:Eg.
    + apply gpr_eqb_iff in Eg. subst g. destruct (reg64_eq_dec (reg_of dst) (reg_of dst)); [|congruence]. cbn [fst snd].
      unfold effective. rewrite s_ptr0 by auto. rewrite Zplus_mod_idemp_l. f_equal. lia.
    + apply gpr_eqb_false in Eg. destruct (reg64_eq_dec (reg_of g) (reg_of dst)) as [e|]; [|auto]. apply reg_of_inj in e. congruence.
  - destruct (gpr_eqb rsp dst) eqn:Eg; [apply gpr_eqb_iff in Eg; congruence|auto].
  - destruct (reg64_eq_dec RSP (reg_of dst)) as [e|]; [|auto]. change RSP with (reg_of rsp) in e. apply reg_of_inj in e. congruence.
  - intros r Hr. destruct (reg64_eq_dec r (reg_of dst)) as [->|]; [|auto]. exfalso. apply Hr. destruct dst; cbn; tauto.
Qed.

Lemma sim_exec i st s st' : sim st s -> exec machine i st tt = Some (st', tt) -> sound_access al (ptr st) i = true ->
  exists s', vector i s = Some s' /\ sim st' s' /\ rip s' = rip s /\ (forall g, ptr st' g = move_ptr i (ptr st) g).
Proof.
  intros S H A.
  assert (W : (exists s', vector i s = Some s' /\ sim st' s' /\ rip s' = rip s /\ ptr st' = move_ptr i (ptr st)) ->
    exists s', vector i s = Some s' /\ sim st' s' /\ rip s' = rip s /\ (forall g, ptr st' g = move_ptr i (ptr st) g)).
  { intros (s' & A1 & A2 & A3 & A4). exists s'. rewrite A4. auto. }
  destruct i; cbn [exec vector move_ptr] in *; try apply W; clear W.
  - destruct (read st aligned 16 b d) as [[v st2]|] eqn:E; [|discriminate]. cbn [obind] in H.
    destruct (set_reg st2 dst v) as [st3|] eqn:E2; [|discriminate]. cbn [obind] in H. injection H as <-.
    destruct (sim_read st s aligned 16 b d v st2 S ltac:(discriminate)) as (F & I & S2 & P); auto.
    { intros ->. exact A. }
    rewrite F. cbn [obind]. rewrite <- P. eapply sim_set_reg; eauto.
  - destruct (reg st src) as [v|] eqn:E; [|discriminate]. cbn [obind] in H.
    destruct (write st aligned b d v) as [st2|] eqn:E2; [|discriminate]. cbn [obind] in H. injection H as <-.
    destruct (sim_reg _ _ _ _ S E) as (E' & F). rewrite E'. cbn [obind].
    destruct (sim_write st s aligned b d v st2 S F) as (Al & m' & P & S2 & Q); auto.
    { intros ->. exact A. }
    rewrite Al, P. cbn [obind]. eexists. split; [reflexivity|]. auto.
  - destruct (source st s2) as [[b st2]|] eqn:E; [|discriminate]. cbn [obind] in H.
    destruct (sim_source _ _ _ _ _ S E) as (E' & F & S2 & P). rewrite E'. cbn [obind].
    destruct (reg st2 s1) as [a|] eqn:E1; [|discriminate]. cbn [obind] in H. rewrite lanes2_pairs in H.
    destruct (set_reg st2 dst _) as [st3|] eqn:E3; [|discriminate]. cbn [obind] in H. injection H as <-.
    destruct (sim_reg _ _ _ _ S2 E1) as (E1' & F1). rewrite E1'. cbn [obind]. rewrite <- P.
    eapply sim_set_reg; eauto. now apply pairs_int16.
  - apply (sim_move1 st s (map (shift_sem o n)) src dst st' S); [intros; now apply map_int16|].
    destruct (reg st src); [|discriminate]. cbn [obind] in *. now rewrite lanes1_map in H.
  - destruct (n =? 16); [|discriminate]. eapply sim_move1; eauto. unfold do_vpslld16. intros. int16_words.
  - destruct (n =? 16); [|discriminate]. eapply sim_move1; eauto. unfold do_vpsrld16. intros. int16_words.
  - destruct (n =? 32); [|discriminate]. eapply sim_move1; eauto. unfold do_vpsrlq32. intros. int16_words.
  - eapply sim_move2; eauto. unfold do_vpblendw. intros. int16_words.
  - eapply sim_move2; eauto. unfold do_vpblendd. intros. int16_words.
  - eapply sim_move2; eauto. unfold do_vperm2i128. intros. int16_words.
  - eapply sim_move2; eauto. unfold do_vpunpcklqdq. intros. int16_words.
  - eapply sim_move2; eauto. unfold do_vpunpckhqdq. intros. int16_words.
  - eapply sim_move1; eauto. unfold do_vmovsldup. intros. int16_words.
  - destruct (source st src) as [[b st2]|] eqn:E; [|discriminate]. cbn [obind] in H.
    destruct (sim_source _ _ _ _ _ S E) as (E' & F & S2 & P). rewrite E'. cbn [obind].
    destruct (set_reg st2 dst _) as [st3|] eqn:E3; [|discriminate]. cbn [obind] in H. injection H as <-. rewrite <- P.
    eapply sim_set_reg; eauto. unfold do_vpermq. int16_words.
  - destruct (source st src) as [[b st2]|] eqn:E; [|discriminate]. cbn [obind] in H.
    destruct (sim_source _ _ _ _ _ S E) as (E' & F & S2 & P). rewrite E'. cbn [obind].
    destruct (reg st2 ctl) as [c|] eqn:E1; [|discriminate]. cbn [obind] in H. rewrite controls_id in H. cbn [obind] in H.
    destruct (set_reg st2 dst _) as [st3|] eqn:E3; [|discriminate]. cbn [obind] in H. injection H as <-.
    destruct (sim_reg _ _ _ _ S2 E1) as (E1' & F1). rewrite E1'. cbn [obind]. rewrite <- P.
    eapply sim_set_reg; eauto. unfold do_vpermd. int16_words.
  - destruct (reg st src) as [a|] eqn:E; [|discriminate]. cbn [obind] in H.
    destruct (reg st ctl) as [c|] eqn:E1; [|discriminate]. cbn [obind] in H. rewrite controls_id in H. cbn [obind] in H.
    destruct (do_vpshufb c a) as [r|] eqn:E2; [|discriminate]. cbn [obind] in H.
    destruct (set_reg st dst r) as [st3|] eqn:E3; [|discriminate]. cbn [obind] in H. injection H as <-.
    destruct (sim_reg _ _ _ _ S E) as (E' & F). destruct (sim_reg _ _ _ _ S E1) as (E1' & F1).
    rewrite E', E1'. cbn [obind]. rewrite E2. cbn [obind]. eapply sim_set_reg; eauto.
    unfold do_vpshufb in E2. destruct (forallb _ c); [|discriminate]. injection E2 as <-. int16_words.
  - destruct (read st false 4 b d) as [[v st2]|] eqn:E; [|discriminate]. cbn [obind] in H.
    destruct (set_reg st2 dst _) as [st3|] eqn:E2; [|discriminate]. cbn [obind] in H. injection H as <-.
    destruct (sim_read st s false 4 b d v st2 S ltac:(discriminate)) as (F & I & S2 & P); auto; [discriminate|].
    rewrite F. cbn [obind]. rewrite <- P. eapply sim_set_reg; eauto. int16_words.
  - cbn [sound_access] in A. apply andb_prop in A. destruct A as (A1 & A2). apply negb_true_iff in A1, A2. rewrite gpr_eqb_false in A1, A2.
    pose proof (sim_set_ptr st s dst b d S A1 A2) as K. destruct (ptr st b) as [a off]. cbn [fst snd] in *. injection H as <-.
    eexists. split; [reflexivity|]. split; [exact K|]. auto.
  - cbn [sound_access] in A. apply negb_true_iff in A. rewrite gpr_eqb_false in A.
    pose proof (sim_set_ptr st s dst dst n S A A) as K. destruct (ptr st dst) as [a off]. cbn [fst snd] in *. injection H as <-.
    eexists. split; [reflexivity|]. split; [exact K|]. auto.
Qed.

Lemma sim_jump st s a : sim st s -> sim st (jump s a).
Proof. intros []. constructor; cbn [jump vec gp ram]; auto. Qed.
Lemma sim_reframe st s : sim st s -> ProofX86Abi.sim base al sp (ram s) g0 st s.
Proof. intros []. constructor; auto. Qed.

(** ** Straight-line code *)

Context (loc : placement).
Lemma sim_run p : forall l k pre post st s st', sim st s -> run machine p st tt = Some (st', tt) ->
  sound_accesses al (ptr st) p = true -> code l = pre ++ map Vec p ++ post -> k = length pre -> rip s = loc l k ->
  exists s', runs loc s s' /\ sim st' s' /\ rip s' = loc l (k + length p)%nat /\
    (forall g, ptr st' g = fold_left (fun q i => move_ptr i q) p (ptr st) g).
Proof.
  induction p as [|i p IH]; intros l k pre post st s st' S R A C K E; cbn [run] in R.
  - injection R as <-. exists s. rewrite Nat.add_0_r. split; [constructor|]. auto.
  - destruct (exec machine i st tt) as [[st2 []]|] eqn:X; [|discriminate]. cbn [obind] in R.
    cbn [sound_accesses] in A. apply andb_prop in A. destruct A as (A1 & A2).
    destruct (sim_exec i st s st2 S X A1) as (s2 & V & S2 & _ & P).
    destruct (IH l (Datatypes.S k) (pre ++ [Vec i]) post st2 (jump s2 (loc l (Datatypes.S k))) st') as (s' & R' & S' & E' & P'); auto.
    + now apply sim_jump.
    + rewrite <- A2. apply sound_accesses_ext. exact P.
    + rewrite C. cbn [map]. now rewrite <- app_assoc.
    + rewrite app_length. cbn. lia.
    + exists s'. split; [|split; [auto|split]].
      * econstructor; [|exact R']. econstructor; [|exact E|].
        -- rewrite C, K, nth_error_app2, Nat.sub_diag by lia. reflexivity.
        -- cbn [execute]. rewrite V. reflexivity.
      * rewrite E'. f_equal. cbn [length]. lia.
      * intros g. rewrite P'. cbn [fold_left].
        assert (Q : forall q a b, (forall g, a g = b g) -> forall g, fold_left (fun q i => move_ptr i q) q a g = fold_left (fun q i => move_ptr i q) q b g).
        { clear. induction q as [|j q IH]; intros a b H g; cbn [fold_left]; auto. apply IH. now apply move_ptr_ext. }
        now apply Q.
Qed.
End Sim.

Lemma runs_trans loc a b c : runs loc a b -> runs loc b c -> runs loc a c.
Proof. induction 1; auto. intros. econstructor; eauto. Qed.

(** The shape of memory *)
Lemma write_shape (st : state Z) al b d v st' : write st al b d v = Some st' -> map (@length Z) (mem st') = map (@length Z) (mem st).
Proof.
  unfold write. destruct (address st (align_of al) (length v) b d) as [[[a i] m]|] eqn:E; [|discriminate]. cbn [obind]. intros [= <-].
  unfold address in E. destruct (ptr st b) as [a' off] eqn:Ep. destruct (nth_error (mem st) a') as [m'|] eqn:Em; [|discriminate]. cbn [obind] in E.
  destruct (((off + d) mod align_of al =? 0) && (0 <=? off + d) && ((off + d) / 2 + Z.of_nat (length v) <=? Z.of_nat (length m'))) eqn:C; [|discriminate].
  injection E as <- <- <-. apply andb_prop in C. destruct C as (C & C3). apply andb_prop in C. destruct C as (_ & C2). apply Z.leb_le in C2, C3.
  pose proof (Z.div_pos (off + d) 2 C2 ltac:(lia)).
  unfold touch. rewrite Ep. cbn [mem].
  assert (K : forall (l : list (list Z)) n x y, nth_error l n = Some y -> length x = length y -> map (@length Z) (replace_nth n x l) = map (@length Z) l).
  { clear. induction l as [|z l IH]; intros [|n] x y; cbn [nth_error replace_nth map]; try discriminate; intros; [congruence|]. f_equal. eauto. }
  apply (K _ _ _ _ Em). rewrite !app_length, firstn_length, skipn_length. lia.
Qed.
Lemma set_reg_mem (st : state Z) n v st' : set_reg st n v = Some st' -> mem st' = mem st.
Proof. unfold set_reg. destruct (n <? length (ymm st))%nat; [|discriminate]. now intros [= <-]. Qed.
Lemma touch_mem (st : state Z) b d : mem (touch st b d) = mem st.
Proof. unfold touch. destruct (ptr st b). reflexivity. Qed.
Lemma read_mem (st : state Z) al n b d v st' : read st al n b d = Some (v, st') -> mem st' = mem st.
Proof. unfold read. destruct (address st (align_of al) n b d) as [[[a i] m]|]; [|discriminate]. cbn [obind]. intros [= _ <-]. apply touch_mem. Qed.
Lemma source_mem (st : state Z) o v st' : source st o = Some (v, st') -> mem st' = mem st.
Proof. destruct o; cbn [source]; [destruct (reg st n); [|discriminate]; cbn [obind]; now intros [= _ <-]|apply read_mem]. Qed.
Ltac shape_cases :=
  repeat match goal with
  | H : obind ?x _ = Some _ |- _ => let E := fresh "E" in destruct x eqn:E; [|discriminate]; cbn [obind] in H
  | H : (let '(_, _) := ?x in _) = Some _ |- _ => let E := fresh "E" in destruct x eqn:E
  | H : (if ?b then _ else _) = Some _ |- _ => destruct b; [|discriminate]
  | H : Some _ = Some _ |- _ => injection H; clear H; intros; subst
  | p : (_ * _)%type |- _ => destruct p
  end.
Ltac shape_done :=
  repeat match goal with
  | H : set_reg _ _ _ = Some _ |- _ => apply set_reg_mem in H
  | H : read _ _ _ _ _ = Some _ |- _ => apply read_mem in H
  | H : source _ _ = Some _ |- _ => apply source_mem in H
  end; cbn [set_ptr mem] in *; congruence.
Lemma exec_shape i st st' : exec machine i st tt = Some (st', tt) -> map (@length Z) (mem st') = map (@length Z) (mem st).
Proof.
  intros H. destruct i; cbn [exec] in H; unfold move1, move2 in H;
    try (shape_cases; shape_done).
  destruct (reg st src); [|discriminate]. cbn [obind] in H. destruct (write st aligned b d l) eqn:E; [|discriminate].
  cbn [obind] in H. injection H as <-. now apply write_shape in E.
Qed.
Lemma run_shape p : forall st st', run machine p st tt = Some (st', tt) -> map (@length Z) (mem st') = map (@length Z) (mem st).
Proof.
  induction p as [|i p IH]; intros st st' H; cbn [run] in H; [congruence|].
  destruct (exec machine i st tt) as [[st2 []]|] eqn:E; [|discriminate]. cbn [obind] in H. rewrite (IH _ _ H). now apply exec_shape in E.
Qed.

Definition outside (base : nat -> Z) (st : state Z) (x : Z) : Prop :=
  forall a m, nth_error (mem st) a = Some m -> ~ (base a <= x < base a + 2 * zlen m).
Lemma outside_shape base st st' x : map (@length Z) (mem st') = map (@length Z) (mem st) -> outside base st x -> outside base st' x.
Proof.
  intros E H a m' Hm. assert (K : nth_error (map (@length Z) (mem st)) a = Some (length m')) by (rewrite <- E, nth_error_map, Hm; reflexivity).
  rewrite nth_error_map in K. destruct (nth_error (mem st) a) as [m|] eqn:Em; [|discriminate]. cbn in K. injection K as K.
  specialize (H a m Em). unfold zlen in *. now rewrite <- K.
Qed.
Lemma none_shape (st st' : state Z) a : map (@length Z) (mem st') = map (@length Z) (mem st) -> nth_error (mem st) a = None -> nth_error (mem st') a = None.
Proof.
  intros E H. rewrite nth_error_None in *. rewrite <- (map_length (@length Z)) in *. now rewrite E.
Qed.

(** ** The stack *)

Lemma get_uint_ext m m' n : forall a, (forall x, a <= x < a + Z.of_nat n -> m x = m' x) -> get_uint m a n = get_uint m' a n.
Proof.
  induction n as [|n IH]; intros a H; cbn [get_uint]; auto. rewrite (H a) by lia. rewrite (IH (a + 1)); auto. intros x Hx. apply H. lia.
Qed.
Lemma get64_ext m m' a : (forall x, a <= x < a + 8 -> m x = m' x) -> get64 m a = get64 m' a.
Proof. intros H. apply get_uint_ext. intros x Hx. apply H. lia. Qed.
Lemma get_le m n : forall a x, (forall y, a <= y < a + Z.of_nat n -> m y = nth_error (le_bytes n x) (Z.to_nat (y - a))) ->
  get_uint m a n = Some (x mod 256 ^ Z.of_nat n).
Proof.
  induction n as [|n IH]; intros a x H; cbn [get_uint].
  - now rewrite Z.mod_1_r.
  - rewrite (H a) by lia. rewrite Z.sub_diag. cbn [Z.to_nat nth_error le_bytes obind].
    rewrite (IH (a + 1) (x / 256)).
    + cbn [obind]. f_equal. replace (Z.of_nat (S n)) with (Z.of_nat n + 1) by lia. rewrite Z.pow_add_r by lia.
      change (256 ^ 1) with 256. rewrite (Z.mul_comm (256 ^ _)). rewrite Z.rem_mul_r by lia. reflexivity.
    + intros y Hy. rewrite H by lia. replace (Z.to_nat (y - a)) with (S (Z.to_nat (y - (a + 1)))) by lia. reflexivity.
Qed.
Lemma length_le n : forall x, length (le_bytes n x) = n.
Proof. induction n; intros x; cbn [le_bytes length]; auto. Qed.
Lemma put64_ok m a x : 0 <= x < 2 ^ 64 -> (forall y, a <= y < a + 8 -> m y <> None) ->
  exists m', put64 m a x = Some m' /\ get64 m' a = Some x /\ (forall y, ~ (a <= y < a + 8) -> m' y = m y) /\
    (forall y, a <= y < a + 8 -> m' y <> None).
Proof.
  intros Hx H. assert (L : zlen (le_bytes 8 x) = 8) by (unfold zlen; now rewrite length_le).
  destruct (put_bytes_ok m a (le_bytes 8 x)) as (m' & P & I & O); rewrite ?L; auto.
  rewrite L in I, O. exists m'. split; [exact P|]. split; [|split; [exact O|]].
  - unfold get64. rewrite (get_le m' 8 a x) by (intros y Hy; apply I; lia). f_equal. apply Z.mod_small. exact Hx.
  - intros y Hy. rewrite I by auto. apply nth_error_Some. rewrite length_le. lia.
Qed.

Section Calls.
Context (base : nat -> Z) (al : nat -> bool) (g0 : reg64 -> Z) (loc : placement) (Hloc : placed loc).
Context (sp : Z) (Hsp : 64 <= sp < 2 ^ 64).

Lemma sim_sp sp' m m0 st s s' : sim base al sp m0 g0 st s -> nth_error (mem st) 4 = None ->
  vec s' = vec s -> gp s' RSP = sp' -> (forall r, r <> RSP -> gp s' r = gp s r) ->
  (forall x, ~ outside base st x -> ram s' x = ram s x) -> m = ram s' ->
  sim base al sp' m g0 st s'.
Proof.
  intros S N V G G' R ->. destruct S. constructor; auto; try congruence.
  - intros g Hg. rewrite G' by (destruct g; cbn; congruence). auto.
  - intros r Hr. rewrite G' by (cbn in Hr; intuition congruence). auto.
  - intros a m H. destruct (s_arr0 a m H) as (I2 & C0 & C1 & C2 & W2). repeat (split; [auto|]).
    intros j Hj. rewrite <- W2 by lia. unfold get16.
    assert (K : forall e, 0 <= e < 2 -> ram s' (base a + 2 * Z.of_nat j + e) = ram s (base a + 2 * Z.of_nat j + e)).
    { intros e He. apply R. intros O. apply (O a m H). unfold zlen. lia. }
    pose proof (K 0 ltac:(lia)) as K0. rewrite Z.add_0_r in K0. rewrite K0, (K 1) by lia. reflexivity.
Qed.

(** A call inside a routine *)
Lemma sim_call l k t q m0 st s st' : sim base al sp m0 g0 st s -> nth_error (mem st) 4 = None ->
  (forall x, sp - 8 <= x < sp -> m0 x <> None /\ outside base st x) ->
  run machine q st tt = Some (st', tt) -> sound_accesses al (ptr st) q = true ->
  nth_error (code l) k = Some (call_ t) -> code t = map Vec q ++ [ret_] -> (Datatypes.S k < length (code l))%nat ->
  rip s = loc l k ->
  exists s' m1, runs loc s s' /\ rip s' = loc l (Datatypes.S k) /\ sim base al sp m1 g0 st' s' /\
    (forall x, ~ (sp - 8 <= x < sp) -> m1 x = m0 x) /\ (forall x, sp - 8 <= x < sp -> m1 x <> None) /\
    (forall g, ptr st' g = fold_left (fun q i => move_ptr i q) q (ptr st) g).
Proof.
  intros S N St R A C T K E. destruct (Hloc l (Datatypes.S k) K) as (Hn & _).
  assert (Esp : (sp - 8) mod 2 ^ 64 = sp - 8) by (apply Z.mod_small; lia).
  pose proof (s_sp _ _ _ _ _ _ _ S) as Gs.
  destruct (put64_ok (ram s) (sp - 8) (loc l (Datatypes.S k)) Hn) as (m' & P & G & O & M).
  { intros y Hy. destruct (St y ltac:(lia)) as (Y1 & Y2). rewrite (s_frame _ _ _ _ _ _ _ S y Y2). exact Y1. }
  set (s1 := jump (set_ram (set_gp s RSP (sp - 8)) m') (loc t 0%nat)).
  assert (X1 : step loc s s1).
  { econstructor; [exact C|exact E|]. cbn [execute]. unfold push. rewrite Gs, Esp, P. reflexivity. }
  assert (S1 : sim base al (sp - 8) m' g0 st s1).
  { apply (sim_sp (sp - 8) m' m0 st s s1 S N); auto.
    - intros r Hr. cbn. now destruct (reg64_eq_dec r RSP).
    - intros x Hx. apply O. intros Hx'. apply Hx. apply St. lia. }
  destruct (sim_run base al (sp - 8) m' g0 ltac:(lia) loc q t 0%nat [] [ret_] st s1 st' S1 R A T eq_refl eq_refl) as (s2 & R2 & S2 & E2 & P2).
  pose proof (run_shape _ _ _ R) as Sh.
  assert (O2 : forall x, sp - 8 <= x < sp -> ram s2 x = m' x).
  { intros x Hx. apply (s_frame _ _ _ _ _ _ _ S2). apply (outside_shape _ st); auto. apply St. exact Hx. }
  set (s3 := jump (set_gp s2 RSP sp) (loc l (Datatypes.S k))).
  assert (X3 : step loc s2 s3).
  { econstructor; [|exact E2|].
    - rewrite T, nth_error_app2, map_length by (rewrite map_length; lia). now rewrite Nat.add_0_l, Nat.sub_diag.
    - cbn [execute]. unfold pop. rewrite (s_sp _ _ _ _ _ _ _ S2). rewrite (get64_ext (ram s2) m') by (intros; apply O2; lia).
      rewrite G. cbn [obind]. replace ((sp - 8 + 8) mod 2 ^ 64) with sp; [reflexivity|]. rewrite Z.mod_small; lia. }
  set (m1 := fun x => if (sp - 8 <=? x) && (x <? sp) then m' x else m0 x).
  exists s3, m1.
  split; [|split; [reflexivity|]].
  { econstructor; [exact X1|]. eapply runs_trans; [exact R2|]. econstructor; [exact X3|constructor]. }
  assert (M1 : forall x, ~ (sp - 8 <= x < sp) -> m1 x = m0 x).
  { intros x Hx. unfold m1. destruct (Z.leb_spec (sp - 8) x); destruct (Z.ltb_spec x sp); cbn [andb]; auto. lia. }
  assert (M2 : forall x, sp - 8 <= x < sp -> m1 x = m' x).
  { intros x Hx. unfold m1. destruct (Z.leb_spec (sp - 8) x); destruct (Z.ltb_spec x sp); cbn [andb]; auto; lia. }
  split; [|split; [exact M1|split; [|exact P2]]].
  - assert (S3 : sim base al sp (ram s3) g0 st' s3).
    { assert (N' : nth_error (mem st') 4 = None) by (now apply (none_shape st)). 
      destruct S2. constructor; unfold s3; cbn [jump set_gp vec gp ram]; auto.
      - intros g Hg. specialize (s_ptr0 g Hg). destruct (reg64_eq_dec (reg_of g) RSP); [|auto]. destruct g; cbn in *; congruence.
      - intros m H. congruence.
      - intros r Hr. destruct (reg64_eq_dec r RSP) as [->|]; [|auto]. exfalso. apply Hr. cbn. tauto. }
    destruct S3. constructor; auto. intros x Hx.
    assert (Ox : outside base st x).
    { apply (outside_shape base st'); [now rewrite Sh|exact Hx]. }
    change (ram s3 x) with (ram s2 x). rewrite (s_frame _ _ _ _ _ _ _ S2 x Hx).
    destruct (Z_le_gt_dec (sp - 8) x); [destruct (Z_lt_ge_dec x sp)|].
    + now rewrite M2 by lia.
    + rewrite M1, O by lia. apply (s_frame _ _ _ _ _ _ _ S x Ox).
    + rewrite M1, O by lia. apply (s_frame _ _ _ _ _ _ _ S x Ox).
  - intros x Hx. rewrite M2 by lia. apply M. lia.
Qed.

(** The last instruction *)
Lemma sim_ret l k ra m0 st s : sim base al sp m0 g0 st s -> nth_error (code l) k = Some ret_ -> rip s = loc l k ->
  (forall x, sp <= x < sp + 8 -> outside base st x) -> get64 m0 sp = Some ra ->
  step loc s (jump (set_gp s RSP ((sp + 8) mod 2 ^ 64)) ra).
Proof.
  intros S C E O G. econstructor; [exact C|exact E|]. cbn [execute]. unfold pop. rewrite (s_sp _ _ _ _ _ _ _ S).
  rewrite (get64_ext _ m0); [rewrite G; reflexivity|]. intros x Hx. apply (s_frame _ _ _ _ _ _ _ S). now apply O.
Qed.
End Calls.
