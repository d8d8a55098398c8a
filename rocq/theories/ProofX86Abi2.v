(** * Calls of the assembly routines from C *)

From Coq Require Import ZArith List Bool Lia.
From Verif Require Import CSem ModelX86 ModelX86Asm ModelX86Abi Spec202 SpecX86Frame SpecX86Abi ProofX86 ProofX86Frame ProofX86Abi.
Import ListNotations.
Open Scope Z_scope.
Ltac Zify.zify_post_hook ::= idtac.

(** ** Bytes stay bytes *)

Definition byte_ok (m : memory) : Prop := forall a v, m a = Some v -> 0 <= a < 2 ^ 64 /\ 0 <= v < 256.
Lemma put_bytes_byte m a b m' : byte_ok m -> Forall (fun v => 0 <= v < 256) b -> put_bytes m a b = Some m' -> byte_ok m'.
Proof.
  intros H F E. unfold put_bytes in E. destruct (forallb _ _) eqn:C; [|discriminate]. injection E as <-.
  intros x v. destruct (Z.leb_spec a x); destruct (Z.ltb_spec x (a + Z.of_nat (length b))); cbn [andb]; intros Hx; try now apply H.
  split.
  - rewrite forallb_forall in C. specialize (C (Z.to_nat (x - a)) ltac:(apply in_seq; lia)). unfold mapped in C.
    replace (a + Z.of_nat (Z.to_nat (x - a))) with x in C by lia. destruct (m x) eqn:E; [|discriminate]. now apply H in E.
  - rewrite Forall_forall in F. apply F. eapply nth_error_In; eauto.
Qed.
Lemma word_bytes_byte w : Forall (fun v => 0 <= v < 256) (flat_map (fun x => [x mod 256; x / 256 mod 256]) w).
Proof. induction w; cbn [flat_map app]; repeat constructor; auto; apply Z.mod_pos_bound; lia. Qed.
Lemma le_bytes_byte n : forall x, Forall (fun v => 0 <= v < 256) (le_bytes n x).
Proof. induction n; intros x; cbn [le_bytes]; constructor; auto. apply Z.mod_pos_bound; lia. Qed.
Lemma set_vec_ram s n v s' : set_vec s n v = Some s' -> ram s' = ram s.
Proof. unfold set_vec. destruct (n <? length (vec s))%nat; [|discriminate]. now intros [= <-]. Qed.
Lemma vector_byte i s s' : byte_ok (ram s) -> vector i s = Some s' -> byte_ok (ram s').
Proof.
  intros H E. destruct i; cbn [vector] in E; unfold mov1, mov2 in E;
    repeat match goal with
    | E : obind ?x _ = Some _ |- _ => let F := fresh "F" in destruct x eqn:F; [|discriminate]; cbn [obind] in E
    | E : (if ?b then _ else _) = Some _ |- _ => destruct b; [|discriminate]
    end; try (apply set_vec_ram in E; rewrite E; exact H); try (injection E as <-; exact H).
  injection E as <-. cbn [set_ram ram]. eapply put_bytes_byte; [exact H|apply word_bytes_byte|]. eassumption.
Qed.
Lemma step_byte loc s s' : step loc s s' -> byte_ok (ram s) -> byte_ok (ram s').
Proof.
  intros [l k i s1 s2 _ _ E] H. destruct i; cbn [execute] in E; try (injection E as <-; exact H).
  - destruct (vector i s1) as [s3|] eqn:V; [|discriminate]. cbn [obind] in E. injection E as <-. now apply vector_byte in V.
  - unfold push in E. destruct (put64 _ _ _) as [m|] eqn:P; [|discriminate]. cbn [obind] in E. injection E as <-.
    cbn [jump set_ram ram]. eapply put_bytes_byte; [exact H|apply le_bytes_byte|exact P].
  - unfold pop in E. destruct (get64 _ _); [|discriminate]. cbn [obind] in E. injection E as <-. exact H.
Qed.
Lemma runs_byte loc s s' : runs loc s s' -> byte_ok (ram s) -> byte_ok (ram s').
Proof. induction 1; auto. intros. eauto using step_byte. Qed.

Lemma get16_inj m m' a v : byte_ok m -> byte_ok m' -> get16 m a = Some v -> get16 m' a = Some v -> m a = m' a /\ m (a + 1) = m' (a + 1).
Proof.
  unfold get16. intros H H'.
  destruct (m a) as [x|] eqn:E1; [|discriminate]. cbn [obind]. destruct (m (a + 1)) as [y|] eqn:E2; [|discriminate]. cbn [obind].
  destruct (m' a) as [x'|] eqn:E3; [|discriminate]. cbn [obind]. destruct (m' (a + 1)) as [y'|] eqn:E4; [|discriminate]. cbn [obind].
  apply H in E1, E2. apply H' in E3, E4. intros K1 K2. assert (K : s16 (x + 256 * y) = s16 (x' + 256 * y')) by congruence. unfold s16 in K.
  assert (x = x' /\ y = y') as [-> ->]; auto.
  pose proof (Z.div_mod (x + 256 * y + 32768) 65536 ltac:(lia)). pose proof (Z.div_mod (x' + 256 * y' + 32768) 65536 ltac:(lia)).
  set (c := (x + 256 * y + 32768) / 65536) in *. set (c' := (x' + 256 * y' + 32768) / 65536) in *.
  assert (0 <= c <= 1) by (unfold c; split; [apply Z.div_pos; lia|apply Z.lt_succ_r, Z.div_lt_upper_bound; lia]).
  assert (0 <= c' <= 1) by (unfold c'; split; [apply Z.div_pos; lia|apply Z.lt_succ_r, Z.div_lt_upper_bound; lia]).
  lia.
Qed.

(** ** Buffers *)

Definition arg_regs : list reg64 := [RDI; RSI; RDX; RCX].
Definition base_of (s : cpu) (slot : Z) (a : nat) : Z :=
  match a with 0 => gp s RDI | 1 => gp s RSI | 2 => gp s RDX | 3 => gp s RCX | 4 => slot | _ => gp s R9 end%nat.
Definition al_of (bufs : list buffer) (a : nat) : bool :=
  match nth_error bufs a with Some (_, _, b) => b | None => true end.
Definition contains (s : cpu) (b : buffer) (m : list Z) : Prop :=
  let '(r, n, _) := b in n = 2 * zlen m /\ Forall int16 m /\ holds (ram s) (gp s r) m.
Definition in_order (bufs : list buffer) : Prop :=
  forall a r n b, nth_error bufs a = Some (r, n, b) -> nth_error arg_regs a = Some r.

Lemma FOP_nth {A} (R : A -> A -> Prop) l : ForallOrdPairs R l -> forall i j x y, (i < j)%nat ->
  nth_error l i = Some x -> nth_error l j = Some y -> R x y.
Proof.
  induction 1 as [|a l F H IH]; intros i j x y L; [destruct i; discriminate|].
  destruct j as [|j]; [lia|]. destruct i as [|i]; cbn [nth_error].
  - intros [= <-] H2. rewrite Forall_forall in F. apply F. eapply nth_error_In; eauto.
  - intros. apply (IH i j); auto. lia.
Qed.
Lemma F2_nth' {A B} (R : A -> B -> Prop) l l' : Forall2 R l l' -> forall i y, nth_error l' i = Some y -> exists x, nth_error l i = Some x /\ R x y.
Proof. induction 1; intros [|i] z; cbn [nth_error]; try discriminate; [intros [= <-]; eauto|auto]. Qed.

Section Entry.
Context (loc : placement) (Hloc : placed loc) (l : label) (ra : Z) (bufs : list buffer) (s : cpu) (H : enters loc l ra bufs s).
Context (Hord : in_order bufs) (arrays : list (list Z)) (Harr : Forall2 (contains s) bufs arrays).
Notation sp := (gp s RSP).

Lemma sp_range : 64 <= sp < 2 ^ 64.
Proof.
  pose proof (registers _ _ _ _ _ H RSP). pose proof (stack_space _ _ _ _ _ H (sp - 64) ltac:(lia)) as M.
  destruct (ram s (sp - 64)) eqn:E; [|congruence]. apply (byte_memory _ _ _ _ _ H) in E. lia.
Qed.
Lemma base_arg slot a r n b : nth_error bufs a = Some (r, n, b) -> base_of s slot a = gp s r.
Proof. intros E. apply Hord in E. destruct a as [|[|[|[|a]]]]; cbn in E |- *; try congruence. destruct a; discriminate. Qed.
Lemma arr_facts slot a m : nth_error arrays a = Some m ->
  Forall int16 m /\ 0 <= base_of s slot a /\ base_of s slot a + 2 * zlen m <= 2 ^ 64 /\
  (al_of bufs a = true -> base_of s slot a mod 32 = 0) /\ words_at (ram s) (base_of s slot a) m.
Proof.
  intros E. destruct (F2_nth' _ _ _ Harr a m E) as ([[r n] b] & Eb & (-> & I & W)).
  rewrite (base_arg slot a _ _ _ Eb). apply get_words_iff in W. pose proof (registers _ _ _ _ _ H r) as Hr.
  split; [exact I|]. split; [lia|]. split; [|split; [|exact W]].
  - destruct m as [|x m]; [cbn; lia|]. unfold zlen. set (w := x :: m) in *.
    specialize (W (length w - 1)%nat ltac:(cbn; lia)). apply get16_mapped in W. destruct W as (_ & W).
    destruct (ram s (gp s r + 2 * Z.of_nat (length w - 1) + 1)) eqn:Er; [|congruence]. apply (byte_memory _ _ _ _ _ H) in Er.
    assert (length w <> 0)%nat by (cbn; lia). lia.
  - unfold al_of. rewrite Eb. intros ->. pose proof (alignment _ _ _ _ _ H) as A. rewrite Forall_forall in A.
    specialize (A _ (nth_error_In _ _ Eb)). cbn in A. auto.
Qed.
Lemma range_nth slot a m : nth_error arrays a = Some m ->
  nth_error (map (from_to s) bufs) a = Some (base_of s slot a, base_of s slot a + 2 * zlen m).
Proof.
  intros E. destruct (F2_nth' _ _ _ Harr a m E) as ([[r n] b] & Eb & (-> & _)).
  rewrite nth_error_map, Eb. cbn [option_map from_to]. now rewrite (base_arg slot a _ _ _ Eb).
Qed.
Lemma arr_disj slot a b m n : a <> b -> nth_error arrays a = Some m -> nth_error arrays b = Some n ->
  base_of s slot a + 2 * zlen m <= base_of s slot b \/ base_of s slot b + 2 * zlen n <= base_of s slot a.
Proof.
  intros Ne Ea Eb. pose proof (no_overlap _ _ _ _ _ H) as O. inversion O as [|x y _ O']; subst.
  apply (range_nth slot) in Ea, Eb.
  destruct (Nat.lt_trichotomy a b) as [L|[L|L]]; [|congruence|].
  - pose proof (FOP_nth _ _ O' _ _ _ _ L Ea Eb) as D. unfold apart in D. cbn [fst snd] in D. lia.
  - pose proof (FOP_nth _ _ O' _ _ _ _ L Eb Ea) as D. unfold apart in D. cbn [fst snd] in D. lia.
Qed.
Lemma stack_disj slot a m x : nth_error arrays a = Some m -> sp - 64 <= x < sp + 8 ->
  ~ (base_of s slot a <= x < base_of s slot a + 2 * zlen m).
Proof.
  intros Ea Hx. pose proof (no_overlap _ _ _ _ _ H) as O. apply (range_nth slot) in Ea.
  pose proof (FOP_nth _ _ O 0 (S a) _ _ ltac:(lia) eq_refl Ea) as D. unfold apart in D. cbn [fst snd] in D. lia.
Qed.
Lemma arrays_4 : (length arrays <= 4)%nat.
Proof.
  rewrite <- (F2_len _ _ _ Harr). destruct (Nat.le_gt_cases (length bufs) 4) as [L|L]; auto. exfalso.
  destruct (nth_error bufs 4) as [[[r n] b]|] eqn:E; [apply Hord in E; discriminate|]. apply nth_error_None in E. lia.
Qed.
Lemma vecs_int16 : Forall (Forall int16) (vec s).
Proof.
  destruct (vectors _ _ _ _ _ H) as (_ & F). eapply Forall_impl; [|exact F]. cbv beta. tauto.
Qed.

Definition st0 : state Z := State (vec s) args arrays [].
Lemma sim_init : sim (base_of s sp) (al_of bufs) sp (ram s) (gp s) st0 s.
Proof.
  constructor; cbn [st0 ymm ptr mem]; auto.
  - exact vecs_int16.
  - intros g Hg. rewrite Z.mod_small; destruct g; cbn [args fst snd base_of reg_of]; try congruence; try lia;
      rewrite Z.add_0_r; apply (registers _ _ _ _ _ H).
  - apply arr_facts.
  - apply arr_disj.
Qed.
Lemma st0_none : nth_error (mem st0) 4 = None.
Proof. apply nth_error_None. exact arrays_4. Qed.
Lemma st0_outside x : sp - 64 <= x < sp + 8 -> outside (base_of s sp) st0 x.
Proof. intros Hx a m E. now apply stack_disj. Qed.

(** What a call does, in terms of the final state [st'] of the list model *)
Definition finished (slot : Z) (st' : state Z) (s' : cpu) : Prop :=
  rip s' = ra /\ gp s' RSP = (sp + 8) mod 2 ^ 64 /\ Forall (fun r => gp s' r = gp s r) callee_saved /\
  (forall a m, (a < 4)%nat -> nth_error (mem st') a = Some m -> words_at (ram s') (base_of s slot a) m) /\
  (forall x, (forall a m, nth_error arrays a = Some m -> ~ (base_of s slot a <= x < base_of s slot a + 2 * zlen m)) ->
     ~ (sp - 64 <= x < sp) -> ram s' x = ram s x).

Lemma finish k m1 st' s1 : sim (base_of s sp) (al_of bufs) sp m1 (gp s) st' s1 -> map (@length Z) (mem st') = map (@length Z) arrays ->
  nth_error (code l) k = Some ret_ -> rip s1 = loc l k -> (forall x, ~ (sp - 64 <= x < sp) -> m1 x = ram s x) ->
  runs loc s s1 -> exists s', runs loc s s' /\ finished sp st' s'.
Proof.
  intros S Sh C E M R. exists (jump (set_gp s1 RSP ((sp + 8) mod 2 ^ 64)) ra).
  assert (Sh0 : map (@length Z) (mem st') = map (@length Z) (mem st0)) by exact Sh.
  split.
  - eapply runs_trans; [exact R|]. econstructor; [|constructor].
    eapply sim_ret; eauto.
    + intros x Hx. eapply outside_shape; [exact Sh0|]. apply st0_outside. lia.
    + rewrite (get64_ext _ (ram s)); [apply (return_address _ _ _ _ _ H)|]. intros x Hx. apply M. lia.
  - unfold finished. cbn [jump set_gp rip gp ram]. split; [reflexivity|]. split; [reflexivity|]. split; [|split].
    + unfold callee_saved. repeat constructor; cbn; apply (s_other _ _ _ _ _ _ _ S); cbn; intuition discriminate.
    + intros a m _ Hm. now apply (s_arr _ _ _ _ _ _ _ S).
    + intros x Hx Hn. rewrite <- M by exact Hn. apply (s_frame _ _ _ _ _ _ _ S). eapply outside_shape; [exact Sh0|exact Hx].
Qed.

(** Routines without calls *)
Lemma leaf_call p st' : code l = map Vec p ++ [ret_] -> sound_accesses (al_of bufs) args p = true ->
  run machine p st0 tt = Some (st', tt) -> exists s', runs loc s s' /\ finished sp st' s'.
Proof.
  intros C A R. pose proof sp_range.
  destruct (sim_run _ _ sp (ram s) (gp s) ltac:(lia) loc p l 0%nat [] [ret_] st0 s st' sim_init R A C eq_refl (at_entry _ _ _ _ _ H)) as (s1 & R1 & S1 & E1 & _).
  apply (finish (0 + length p) (ram s) st' s1); auto.
  - exact (run_shape _ _ _ R).
  - rewrite C, nth_error_app2, map_length by (rewrite map_length; lia). now rewrite Nat.add_0_l, Nat.sub_diag.
Qed.

(** Routines that call a local routine twice *)
Lemma run_app p p' : forall st st', run machine (p ++ p') st tt = Some (st', tt) ->
  exists st1, run machine p st tt = Some (st1, tt) /\ run machine p' st1 tt = Some (st', tt).
Proof.
  induction p as [|i p IH]; intros st st' R; cbn [run app] in *; [eauto|].
  destruct (exec machine i st tt) as [[st2 []]|] eqn:E; [|discriminate]. cbn [obind] in *. auto.
Qed.
Lemma sound_app al p : forall c c', sound_accesses al p (c ++ c') = sound_accesses al p c && sound_accesses al (fold_left (fun q i => move_ptr i q) c p) c'.
Proof.
  intros c; revert p; induction c as [|i c IH]; intros p c'; cbn [app sound_accesses fold_left]; auto. now rewrite IH, andb_assoc.
Qed.
Lemma code_at pre mid t rest : nth_error (map Vec pre ++ [call_ t] ++ map Vec mid ++ rest) (S (length pre + length mid)) = nth_error rest 0.
Proof.
  rewrite nth_error_app2 by (rewrite map_length; lia). rewrite map_length.
  replace (S (length pre + length mid) - length pre)%nat with (S (length mid)) by lia. cbn [app nth_error].
  rewrite nth_error_app2 by (rewrite map_length; lia). now rewrite map_length, Nat.sub_diag.
Qed.
Lemma code_at' pre mid t rest : nth_error (map Vec pre ++ [call_ t] ++ map Vec mid ++ rest) (S (length pre + length mid + 1)) = nth_error rest 1.
Proof.
  rewrite nth_error_app2 by (rewrite map_length; lia). rewrite map_length.
  replace (S (length pre + length mid + 1) - length pre)%nat with (S (length mid + 1)) by lia. cbn [app nth_error].
  rewrite nth_error_app2 by (rewrite map_length; lia). rewrite map_length. now replace (length mid + 1 - length mid)%nat with 1%nat by lia.
Qed.
Lemma caller_call t pre mid q st' : code l = map Vec pre ++ [call_ t] ++ map Vec mid ++ [call_ t; ret_] ->
  code t = map Vec q ++ [ret_] -> sound_accesses (al_of bufs) args (pre ++ q ++ mid ++ q) = true ->
  run machine (pre ++ q ++ mid ++ q) st0 tt = Some (st', tt) -> exists s', runs loc s s' /\ finished sp st' s'.
Proof.
  intros C T A R. pose proof sp_range as Hsp.
  assert (L : length (code l) = (length pre + length mid + 3)%nat) by (rewrite C, !app_length, !map_length; cbn; lia).
  pose proof (run_shape _ _ _ R) as Sh.
  destruct (run_app _ _ _ _ R) as (st1 & R1 & R'). clear R. destruct (run_app _ _ _ _ R') as (st2 & R2 & R''). clear R'.
  destruct (run_app _ _ _ _ R'') as (st3 & R3 & R4). clear R''.
  rewrite !sound_app in A. apply andb_prop in A. destruct A as (A1 & A). apply andb_prop in A. destruct A as (A2 & A).
  apply andb_prop in A. destruct A as (A3 & A4).
  pose proof (run_shape _ _ _ R1) as Sh1. pose proof (run_shape _ _ _ R2) as Sh2. pose proof (run_shape _ _ _ R3) as Sh3.
  assert (Hsp' : 0 <= sp < 2 ^ 64) by lia.
  destruct (sim_run _ _ sp (ram s) (gp s) Hsp' loc pre l 0%nat [] _ st0 s st1 sim_init R1 A1 C eq_refl (at_entry _ _ _ _ _ H)) as (s1 & X1 & S1 & E1 & P1).
  rewrite Nat.add_0_l in E1.
  destruct (sim_call _ _ (gp s) loc Hloc sp Hsp l (length pre) t q (ram s) st1 s1 st2 S1) as (s2 & m2 & X2 & E2 & S2 & M2 & N2 & P2); auto.
  { apply (none_shape st0); [exact Sh1|exact st0_none]. }
  { intros x Hx. split; [apply (stack_space _ _ _ _ _ H); lia|]. eapply outside_shape; [exact Sh1|]. apply st0_outside. lia. }
  { rewrite <- A2. apply sound_accesses_ext. exact P1. }
  { rewrite C, nth_error_app2, map_length, Nat.sub_diag by (rewrite map_length; lia). reflexivity. }
  { lia. }
  assert (P2' : forall g, ptr st2 g = fold_left (fun q i => move_ptr i q) q (fold_left (fun q i => move_ptr i q) pre args) g).
  { intros g. rewrite P2. clear - P1. revert g. 
    assert (Q : forall q a b, (forall g, a g = b g) -> forall g, fold_left (fun q i => move_ptr i q) q a g = fold_left (fun q i => move_ptr i q) q b g).
    { clear. induction q as [|j q IH]; intros a b H g; cbn [fold_left]; auto. apply IH. now apply move_ptr_ext. }
    apply Q. exact P1. }
  destruct (sim_run _ _ sp m2 (gp s) Hsp' loc mid l (S (length pre)) (map Vec pre ++ [call_ t]) [call_ t; ret_] st2 s2 st3 S2 R3) as (s3 & X3 & S3 & E3 & P3).
  { rewrite <- A3. apply sound_accesses_ext. exact P2'. }
  { rewrite C. now rewrite <- app_assoc. }
  { rewrite app_length, map_length. cbn. lia. }
  { exact E2. }
  destruct (sim_call _ _ (gp s) loc Hloc sp Hsp l (S (length pre) + length mid) t q m2 st3 s3 st' S3) as (s4 & m4 & X4 & E4 & S4 & M4 & N4 & P4); auto.
  { apply (none_shape st2); [exact Sh3|]. apply (none_shape st1); [exact Sh2|]. apply (none_shape st0); [exact Sh1|exact st0_none]. }
  { intros x Hx. split; [apply N2; lia|]. eapply outside_shape; [exact Sh3|]. eapply outside_shape; [exact Sh2|].
    eapply outside_shape; [exact Sh1|]. apply st0_outside. lia. }
  { rewrite <- A4. apply sound_accesses_ext. intros g. rewrite P3. revert g.
    assert (Q : forall q a b, (forall g, a g = b g) -> forall g, fold_left (fun q i => move_ptr i q) q a g = fold_left (fun q i => move_ptr i q) q b g).
    { clear. induction q as [|j q IH]; intros a b H g; cbn [fold_left]; auto. apply IH. now apply move_ptr_ext. }
    apply Q. exact P2'. }
  { rewrite C. change (S (length pre) + length mid)%nat with (S (length pre + length mid)). rewrite code_at. reflexivity. }
  { lia. }
  apply (finish (S (S (length pre) + length mid)) m4 st' s4); auto.
  - rewrite C. replace (S (S (length pre) + length mid))%nat with (S (length pre + length mid + 1)) by lia. rewrite code_at'. reflexivity.
  - intros x Hx. rewrite M4, M2 by lia. reflexivity.
  - eapply runs_trans; [exact X1|]. eapply runs_trans; [exact X2|]. eapply runs_trans; [exact X3|exact X4].
Qed.

(** basemul_avx2, which makes room for a local variable on the stack *)
Definition slot : Z := sp - sp mod 32 - 32.
Lemma land_align x : 0 <= x < 2 ^ 64 -> Z.land x ((-32) mod 2 ^ 64) = x - x mod 32.
Proof.
  intros Hx. change ((-32) mod 2 ^ 64) with (Z.land (Z.ones 64) (Z.lnot (Z.ones 5))).
  rewrite Z.land_assoc, Z.land_ones by lia. rewrite (Z.mod_small x) by exact Hx.
  change (Z.land x (Z.lnot (Z.ones 5))) with (Z.land x (Z.lnot (Z.ones 5))). rewrite <- Z.ldiff_land, Z.ldiff_ones_r by lia.
  rewrite Z.shiftl_mul_pow2, Z.shiftr_div_pow2 by lia. change (2 ^ 5) with 32. pose proof (Z.div_mod x 32 ltac:(lia)). lia.
Qed.
Lemma slot_range : sp - 64 < slot /\ slot + 32 <= sp /\ 0 <= slot /\ slot mod 32 = 0.
Proof.
  pose proof sp_range. pose proof (Z.mod_pos_bound sp 32 ltac:(lia)). unfold slot. repeat split; try lia.
  pose proof (Z.div_mod sp 32 ltac:(lia)). replace (sp - sp mod 32 - 32) with ((sp / 32 - 1) * 32) by lia. apply Z.mod_mul. lia.
Qed.
Lemma slot_words : exists w, length w = 16%nat /\ Forall int16 w /\ words_at (ram s) slot w.
Proof.
  assert (G : forall n a, (forall x, a <= x < a + 2 * Z.of_nat n -> ram s x <> None) ->
            exists w, length w = n /\ Forall int16 w /\ get_words (ram s) a n = Some w).
  { induction n as [|n IH]; intros a M.
    - exists []. auto.
    - destruct (IH (a + 2)) as (w & L & F & G); [intros x Hx; apply M; lia|].
      pose proof (M a ltac:(lia)) as M0. pose proof (M (a + 1) ltac:(lia)) as M1.
      destruct (ram s a) as [x|] eqn:E0; [|congruence]. destruct (ram s (a + 1)) as [y|] eqn:E1; [|congruence].
      exists (s16 (x + 256 * y) :: w). split; [cbn; lia|]. split; [constructor; [apply int16_s16|exact F]|].
      cbn [get_words]. unfold get16. rewrite E0, E1. cbn [obind]. rewrite G. reflexivity. }
  pose proof slot_range. destruct (G 16%nat slot) as (w & L & F & W).
  { intros x Hx. apply (stack_space _ _ _ _ _ H). lia. }
  exists w. split; [exact L|]. split; [exact F|]. apply get_words_iff. unfold holds. now rewrite L.
Qed.

Lemma slot_call p : code l = [mov RSP R8; and_imm (-32) RSP; sub_imm 32 RSP] ++ map Vec p ++ [mov R8 RSP; ret_] ->
  length arrays = 4%nat -> sound_accesses (al_of bufs) args p = true ->
  exists w, zlen w = 16 /\ Forall int16 w /\
  forall st', run machine p (State (vec s) args (arrays ++ [w]) []) tt = Some (st', tt) -> exists s', runs loc s s' /\ finished slot st' s'.
Proof.
  intros C L4 A. pose proof sp_range as Hsp. pose proof slot_range as (Sl1 & Sl2 & Sl3 & Sl4).
  destruct slot_words as (w & Lw & Fw & Ww). exists w. split; [unfold zlen; lia|]. split; [exact Fw|]. intros st' R.
  set (st1 := State (vec s) args (arrays ++ [w]) []) in *.
  assert (N : forall a m, nth_error (arrays ++ [w]) a = Some m -> nth_error arrays a = Some m /\ (a < 4)%nat \/ a = 4%nat /\ m = w).
  { intros a m E. destruct (Nat.lt_ge_cases a 4) as [La|La].
    - rewrite nth_error_app1 in E by lia. auto.
    - rewrite nth_error_app2, L4 in E by lia. destruct (a - 4)%nat as [|n] eqn:Ea; [|destruct n; discriminate].
      injection E as <-. right. split; [lia|reflexivity]. }
  set (s3 := jump (set_gp (set_gp (set_gp s R8 sp) RSP (sp - sp mod 32)) RSP slot) (loc l 3%nat)).
  assert (X : runs loc s s3).
  { assert (K : forall k i, nth_error [mov RSP R8; and_imm (-32) RSP; sub_imm 32 RSP] k = Some i -> nth_error (code l) k = Some i).
    { intros k i E. rewrite C, nth_error_app1; [exact E|]. apply nth_error_Some. congruence. }
    apply (runs_step loc s (jump (set_gp s R8 sp) (loc l 1%nat))).
    { econstructor; [now apply (K 0%nat)|apply (at_entry _ _ _ _ _ H)|reflexivity]. }
    apply (runs_step loc _ (jump (set_gp (set_gp s R8 sp) RSP (sp - sp mod 32)) (loc l 2%nat))).
    { econstructor; [now apply (K 1%nat)|reflexivity|]. cbn [execute jump set_gp gp rip ram vec].
      destruct (reg64_eq_dec RSP R8); [discriminate|]. rewrite land_align by lia. reflexivity. }
    apply (runs_step loc _ s3); [|constructor].
    econstructor; [now apply (K 2%nat)|reflexivity|]. cbn [execute jump set_gp gp rip ram vec].
    destruct (reg64_eq_dec RSP RSP) as [_|]; [|congruence]. unfold s3, slot, jump. cbn [set_gp gp rip ram vec]. do 2 f_equal.
    unfold slot in Sl3. pose proof (Z.mod_pos_bound sp 32 ltac:(lia)). rewrite (Z.mod_small (sp - sp mod 32 - 32)) by lia. reflexivity. }
  assert (G3 : forall r, r <> RSP -> r <> R8 -> gp s3 r = gp s r).
  { intros r H1 H2. cbn. destruct (reg64_eq_dec r RSP); [congruence|]. destruct (reg64_eq_dec r R8); congruence. }
  assert (S3 : sim (base_of s slot) (al_of bufs) slot (ram s) (gp s3) st1 s3).
  { constructor; cbn [st1 ymm ptr mem]; auto.
    - exact vecs_int16.
    - intros g Hg. rewrite G3 by (destruct g; cbn; congruence).
      rewrite Z.mod_small; destruct g; cbn [args fst snd base_of reg_of]; try congruence; try lia;
        rewrite Z.add_0_r; apply (registers _ _ _ _ _ H).
    - intros a m E. destruct (N a m E) as [(Ea & La)|(-> & ->)]; [now apply arr_facts|].
      cbn [base_of]. unfold zlen. rewrite Lw. repeat split; auto; lia.
    - intros a b m n Ne Ea Eb. destruct (N a m Ea) as [(Ea' & La)|(-> & ->)]; destruct (N b n Eb) as [(Eb' & Lb)|(-> & ->)].
      + now apply arr_disj.
      + cbn [base_of]. unfold zlen at 2. rewrite Lw.
        pose proof (no_overlap _ _ _ _ _ H) as O. apply (range_nth slot) in Ea'.
        pose proof (FOP_nth _ _ O 0 (S a) _ _ ltac:(lia) eq_refl Ea') as D. unfold apart in D. cbn [fst snd] in D. lia.
      + cbn [base_of]. unfold zlen at 1. rewrite Lw.
        pose proof (no_overlap _ _ _ _ _ H) as O. apply (range_nth slot) in Eb'.
        pose proof (FOP_nth _ _ O 0 (S b) _ _ ltac:(lia) eq_refl Eb') as D. unfold apart in D. cbn [fst snd] in D. lia.
      + congruence. }
  destruct (sim_run _ _ slot (ram s) (gp s3) ltac:(lia) loc p l 3%nat [mov RSP R8; and_imm (-32) RSP; sub_imm 32 RSP] [mov R8 RSP; ret_] st1 s3 st' S3 R A C eq_refl eq_refl)
    as (s4 & R4 & S4 & E4 & _).
  pose proof (run_shape _ _ _ R) as Sh.
  assert (G4 : forall r, ~ In r [RDI; RSI; RDX; RCX; R9; RSP] -> gp s4 r = gp s3 r) by apply (s_other _ _ _ _ _ _ _ S4).
  assert (R8' : gp s4 R8 = sp) by (rewrite G4; [reflexivity|cbn; intuition discriminate]).
  assert (F4 : forall x, (forall a m, nth_error arrays a = Some m -> ~ (base_of s slot a <= x < base_of s slot a + 2 * zlen m)) ->
     ~ (sp - 64 <= x < sp) -> ram s4 x = ram s x).
  { intros x Hx Hn. apply (s_frame _ _ _ _ _ _ _ S4). eapply (outside_shape _ st1); [exact Sh|].
    intros a m E. destruct (N a m E) as [(Ea & La)|(-> & ->)]; [now apply Hx|]. cbn [base_of]. unfold zlen. rewrite Lw. lia. }
  set (s5 := jump (set_gp s4 RSP sp) (loc l (S (3 + length p)))).
  set (s6 := jump (set_gp s5 RSP ((sp + 8) mod 2 ^ 64)) ra).
  exists s6. split.
  - eapply runs_trans; [exact X|]. eapply runs_trans; [exact R4|].
    apply (runs_step loc s4 s5).
    { econstructor; [|exact E4|].
      - rewrite C, nth_error_app2 by (cbn; lia). rewrite nth_error_app2 by (rewrite map_length; cbn; lia).
        rewrite map_length. replace (3 + length p - _ - length p)%nat with 0%nat by (cbn [length]; lia). reflexivity.
      - cbn [execute]. rewrite R8'. reflexivity. }
    apply (runs_step loc s5 s6); [|constructor].
    apply (Step loc l (S (3 + length p)) ret_); [|reflexivity|].
    + rewrite C, nth_error_app2 by (cbn; lia). rewrite nth_error_app2 by (rewrite map_length; cbn; lia).
      rewrite map_length. replace (S (3 + length p) - _ - length p)%nat with 1%nat by (cbn [length]; lia). reflexivity.
    + cbn [execute]. unfold pop. assert (G5 : gp s5 RSP = sp) by reflexivity. rewrite G5.
      rewrite (get64_ext (ram s5) (ram s)).
      * rewrite (return_address _ _ _ _ _ H). reflexivity.
      * intros x Hx. apply F4; [|lia]. intros a m E. apply stack_disj; auto. lia.
  - unfold finished. split; [reflexivity|]. split; [reflexivity|]. split; [|split].
    + assert (K : forall r, In r callee_saved -> gp s6 r = gp s r).
      { intros r Hr. assert (K : gp s6 r = gp s4 r).
        { unfold s6, s5. cbn [jump set_gp gp]. destruct (reg64_eq_dec r RSP) as [->|]; [|reflexivity]. cbn in Hr. intuition discriminate. }
        assert (Hc : ~ In r [RDI; RSI; RDX; RCX; R9; RSP] /\ r <> RSP /\ r <> R8).
        { cbn in Hr |- *. destruct Hr as [<-|[<-|[<-|[<-|[<-|[<-|[]]]]]]]; intuition discriminate. }
        rewrite K, G4 by tauto. now apply G3. }
      apply Forall_forall. exact K.
    + intros a m _ Hm. now apply (s_arr _ _ _ _ _ _ _ S4).
    + exact F4.
Qed.
End Entry.
