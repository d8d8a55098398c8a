(** * What the assembly routines compute when they are called from C *)

From Coq Require Import ZArith List Bool Lia.
From Verif Require Import CSem ModelArith ModelAvx2 ModelX86 ModelX86Asm ModelX86Poly ModelX86Abi Spec202 Spec203 SpecLink SpecX86
  SpecX86Frame SpecX86Abi ProofX86 ProofX86Frame ProofX86Poly ProofX86Abi ProofX86Abi2.
Import ListNotations.
Open Scope Z_scope.
Ltac Zify.zify_post_hook ::= idtac.

Lemma holds_int16 m w : forall a, holds m a w -> Forall int16 w.
Proof.
  intros a H. apply get_words_iff in H. apply Forall_forall. intros x Hx. apply (In_nth _ _ 0) in Hx. destruct Hx as (j & Hj & <-).
  specialize (H j Hj). unfold get16 in H. destruct (m _); [|discriminate]. cbn [obind] in H. destruct (m _); [|discriminate]. cbn [obind] in H.
  injection H as <-. apply int16_s16.
Qed.
Lemma junk_of regs w : vector_registers regs -> zlen w = 16 -> exists J, uninit2 J 0 16 16 = regs /\ uninit J 1 16 = w.
Proof.
  intros (L & F) Lw.
  exists (fun p => match p with
                   | [0; i; j] => nth (Z.to_nat j) (nth (Z.to_nat i) regs []) 0
                   | [1; i] => nth (Z.to_nat i) w 0
                   | _ => 0 end).
  assert (G : forall (v : list Z), zlen v = 16 -> map (fun j => nth (Z.to_nat (Z.of_nat j)) v 0) (seq 0 16) = v).
  { intros v Lv. apply (nth_ext _ _ 0 0).
    - rewrite map_length, seq_length. unfold zlen in Lv. lia.
    - intros n Hn. rewrite map_length, seq_length in Hn.
      rewrite (nth_indep _ 0 (nth (Z.to_nat (Z.of_nat 0)) v 0)) by (rewrite map_length, seq_length; lia).
      rewrite (map_nth (fun j => nth (Z.to_nat (Z.of_nat j)) v 0)). rewrite seq_nth by lia. f_equal. lia. }
  split.
  - unfold uninit2. change (Z.to_nat 16) with 16%nat. apply (nth_ext _ _ [] []).
    + rewrite map_length, seq_length. unfold zlen in L. lia.
    + intros n Hn. rewrite map_length, seq_length in Hn.
      set (f := fun i => uninit _ (Z.of_nat i) 16). rewrite (nth_indep _ [] (f 0%nat)) by (rewrite map_length, seq_length; lia).
      rewrite map_nth, seq_nth by lia. unfold f, uninit, sub. rewrite Nat.add_0_l, Nat2Z.id. apply G.
      rewrite Forall_forall in F. apply F. apply nth_In. unfold zlen in L. lia.
  - unfold uninit. now apply G.
Qed.

Definition only_reads (r : role) : Prop := match r with In_ _ | Table => True | _ => False end.
Lemma kept_nth rs : forall ms ms' a r m', all_kept rs ms ms' -> nth_error rs a = Some r -> nth_error ms' a = Some m' ->
  exists m, nth_error ms a = Some m /\ kept r m m'.
Proof.
  induction rs as [|r rs IH]; intros [|m ms] [|m' ms'] [|a] r' m'' K; cbn [all_kept nth_error] in *; try discriminate; try tauto.
  - intros [= <-] [= <-]. exists m. tauto.
  - intros. apply (IH ms ms'); tauto.
Qed.
Lemma kept_length rs : forall ms ms', all_kept rs ms ms' -> length ms' = length rs /\ length ms = length rs.
Proof.
  induction rs as [|r rs IH]; intros [|m ms] [|m' ms'] K; cbn [all_kept] in K; try tauto; auto.
  destruct (IH ms ms' (proj2 K)). cbn. lia.
Qed.

Lemma conclude loc l ra bufs s arrays (H : enters loc l ra bufs s) (Hord : in_order bufs) (Harr : Forall2 (contains s) bufs arrays)
    sl st' s' n ins extra scratch :
  runs loc s s' -> finished ra s arrays sl st' s' -> Forall only_reads ins -> Forall2 fills (Out n :: ins) arrays -> length extra = length scratch ->
  all_kept (Out n :: ins ++ extra) (arrays ++ scratch) (mem st') ->
  exists r, nth_error (mem st') 0 = Some r /\ zlen r = n /\ holds (ram s') (gp s RDI) r /\ returned ra (gp s RDI) (2 * n) s s'.
Proof.
  intros R (F1 & F2 & F3 & F4 & F5) Oi Fi Le K.
  pose proof (F2_len _ _ _ Fi) as L. cbn [length] in L.
  pose proof (kept_length _ _ _ K) as (LK & _).
  assert (L4 : (length arrays <= 4)%nat) by (eapply arrays_4; eauto).
  destruct (nth_error (mem st') 0) as [r|] eqn:E0; [|apply nth_error_None in E0; cbn in LK; lia].
  destruct (kept_nth _ _ _ 0 _ _ K eq_refl E0) as (m & Em & (Lr & Ir)).
  exists r. split; [reflexivity|]. split; [exact Lr|]. split.
  { apply get_words_iff. apply (F4 0%nat r); [lia|exact E0]. }
  split; [exact F1|]. split; [exact F2|]. split; [exact F3|].
  intros x Hx Hs.
  (* x in an array that is only read, or in none *)
  assert (D : (exists a m, nth_error arrays a = Some m /\ base_of s sl a <= x < base_of s sl a + 2 * zlen m) \/
              (forall a m, nth_error arrays a = Some m -> ~ (base_of s sl a <= x < base_of s sl a + 2 * zlen m))).
  { clear. generalize (base_of s sl). induction arrays as [|m ms IH]; intros base.
    - right. intros [|a] m; discriminate.
    - destruct (Z_le_gt_dec (base 0%nat) x) as [A|A]; [destruct (Z_lt_ge_dec x (base 0%nat + 2 * zlen m)) as [B|B]|].
      + left. exists 0%nat, m. split; [reflexivity|lia].
      + destruct (IH (fun a => base (S a))) as [(a & m1 & E1 & E2)|N]; [left; exists (S a), m1; auto|].
        right. intros [|a] m1; cbn [nth_error]; [intros [= <-]; lia|apply N].
      + destruct (IH (fun a => base (S a))) as [(a & m1 & E1 & E2)|N]; [left; exists (S a), m1; auto|].
        right. intros [|a] m1; cbn [nth_error]; [intros [= <-]; lia|apply N]. }
  destruct D as [(a & m1 & Ea & Hin)|D]; [|now apply F5].
  assert (La : (a < length arrays)%nat) by (apply nth_error_Some; congruence).
  destruct a as [|a].
  { rewrite nth_error_app1 in Em by lia. rewrite Em in Ea. injection Ea as <-. exfalso. apply Hx.
    cbn [base_of] in Hin. inversion Fi as [|ro m0 ros ms Hm Hms E1 E2]; subst. cbn [fills] in Hm. injection Em as ->. lia. }
  assert (Ka : nth_error (mem st') (S a) = Some m1).
  { destruct (nth_error ins a) as [ro|] eqn:Er; [|apply nth_error_None in Er; lia].
    destruct (nth_error (mem st') (S a)) as [m2|] eqn:E2; [|apply nth_error_None in E2; rewrite LK in E2; cbn in E2; rewrite app_length in E2; lia].
    destruct (kept_nth _ _ _ (S a) ro m2 K) as (m3 & E3 & K3); [cbn; now rewrite nth_error_app1 by lia|exact E2|].
    rewrite nth_error_app1 in E3 by lia. rewrite Forall_forall in Oi. specialize (Oi ro (nth_error_In _ _ Er)).
    destruct ro; try contradiction; cbn [kept] in K3; congruence. }
  pose proof (F4 (S a) m1 ltac:(lia) Ka) as W'. destruct (arr_facts loc l ra bufs s H Hord arrays Harr sl (S a) m1 Ea) as (_ & _ & _ & _ & W).
  assert (B : byte_ok (ram s)) by exact (byte_memory _ _ _ _ _ H). pose proof (runs_byte _ _ _ R B) as B'.
  set (b := base_of s sl (S a)) in *.
  assert (Hj : exists j, (j < length m1)%nat /\ (x = b + 2 * Z.of_nat j \/ x = b + 2 * Z.of_nat j + 1)).
  { exists (Z.to_nat ((x - b) / 2)). unfold zlen in Hin. pose proof (Z.div_mod (x - b) 2 ltac:(lia)). pose proof (Z.mod_pos_bound (x - b) 2 ltac:(lia)).
    pose proof (Z.div_pos (x - b) 2 ltac:(lia) ltac:(lia)). lia. }
  destruct Hj as (j & Lj & Hxj). destruct (get16_inj _ _ _ _ B' B (W' j Lj) (W j Lj)) as (G1 & G2). destruct Hxj as [-> | ->]; auto.
Qed.

(** The nine routines *)
Lemma rdi_value J p arrays st r : run_words p (uninit2 J 0 16 16) args arrays = Some st -> nth_error (mem st) 0 = Some r ->
  val (call_rdi J p arrays) = Ok r.
Proof. intros E N. unfold call_rdi, call. rewrite E. cbn. now rewrite (nth_error_nth _ _ _ N). Qed.
Lemma run_of p regs arrays st : run_words p regs args arrays = Some st -> run machine p (State regs args arrays []) tt = Some (st, tt).
Proof. unfold run_words. destruct (run machine p _ tt) as [[st' []]|]; [|discriminate]. cbn [obind]. now intros [= ->]. Qed.

Definition buf_of (r : role) (g : reg64) : buffer :=
  match r with
  | Out n | In_ n | Scratch n => (g, 2 * n, n =? 256)
  | Table => consts g
  end.
Lemma contains_fills s g r m : fills r m -> holds (ram s) (gp s g) m -> contains s (buf_of r g) m.
Proof.
  intros F H. pose proof (holds_int16 _ _ _ H) as I. destruct r; cbn [fills contains buf_of consts] in *; try (repeat split; auto; lia).
  rewrite F in *. split; [vm_compute; reflexivity|]. auto.
Qed.

(** A routine made of the list of instructions [p] *)
Inductive implements (l : label) (p : list instr) : Prop :=
| leaf : code l = map Vec p ++ [ret_] -> implements l p
| caller t pre mid q : code l = map Vec pre ++ [call_ t] ++ map Vec mid ++ [call_ t; ret_] ->
    code t = map Vec q ++ [ret_] -> p = pre ++ q ++ mid ++ q -> implements l p.

Lemma call_routine loc l ra s p n ins arrays : placed loc ->
  let roles := Out n :: ins in let bufs := map (fun '(r, g) => buf_of r g) (combine roles arg_regs) in
  implements l p -> In (p, roles) routines -> Forall only_reads ins -> (length roles <= 4)%nat ->
  sound_accesses (al_of bufs) args p = true ->
  enters loc l ra bufs s -> Forall2 fills roles arrays ->
  Forall2 (fun g m => holds (ram s) (gp s g) m) (firstn (length roles) arg_regs) arrays ->
  exists J s' r, runs loc s s' /\ returned ra (gp s RDI) (2 * n) s s' /\
    val (call_rdi J p arrays) = Ok r /\ holds (ram s') (gp s RDI) r.
Proof.
  intros Hloc roles bufs I HIn Oi L4 A H F Hh.
  assert (Hord : in_order bufs).
  { intros a r m b E. unfold bufs in E. rewrite nth_error_map in E.
    assert (C : forall (x : list role) (y : list reg64) a, nth_error (combine x y) a = match nth_error x a, nth_error y a with Some u, Some v => Some (u, v) | _, _ => None end).
    { clear. induction x as [|u x IH]; intros [|v y] [|a]; cbn; auto. now destruct (nth_error x a). }
    rewrite C in E. destruct (nth_error roles a) as [ro|]; [|discriminate]. destruct (nth_error arg_regs a) as [g|]; [|discriminate].
    cbn [option_map] in E. destruct ro; cbn [buf_of consts] in E; injection E; intros; subst; reflexivity. }
  assert (Harr : Forall2 (contains s) bufs arrays).
  { unfold bufs. clear - F Hh L4. revert arrays F Hh. assert (G : (length roles <= length arg_regs)%nat) by exact L4. clear L4.
    revert G. generalize arg_regs. induction roles as [|ro rs IH]; intros gs G arrays F Hh; inversion F; subst; cbn; [constructor|].
    destruct gs as [|g gs]; [cbn in G; lia|]. cbn in *. inversion Hh; subst. constructor; [now apply contains_fills|]. apply IH; auto. lia. }
  destruct (routine_run p roles (ModelX86Abi.vec s) arrays HIn (vectors _ _ _ _ _ H) F) as (st & R & _ & K).
  destruct (junk_of (ModelX86Abi.vec s) (repeat 0 16) (vectors _ _ _ _ _ H) eq_refl) as (J & EJ & _).
  assert (X : exists s', runs loc s s' /\ finished ra s arrays (gp s RSP) st s').
  { pose proof (run_of _ _ _ _ R) as R'. destruct I as [C|t pre mid q C T E].
    - eapply leaf_call; eauto.
    - subst p. eapply caller_call; eauto. }
  destruct X as (s' & X & Fi).
  destruct (conclude loc l ra bufs s arrays H Hord Harr (gp s RSP) st s' n ins [] [] X Fi Oi F eq_refl) as (r & N & _ & Hr & Re).
  { now rewrite !app_nil_r. }
  exists J, s', r. split; [exact X|]. split; [exact Re|]. split; [|exact Hr]. eapply rdi_value; [|exact N]. now rewrite EJ.
Qed.

Lemma call_basemul_abi loc ra s arrays : placed loc ->
  let roles := [Out 256; In_ 256; In_ 256; Table] in let bufs := [poly RDI; poly RSI; poly RDX; consts RCX] in
  enters loc basemul_avx2_ ra bufs s -> Forall2 fills roles arrays ->
  Forall2 (fun g m => holds (ram s) (gp s g) m) arg_regs arrays ->
  exists J s' r, runs loc s s' /\ returned ra (gp s RDI) 512 s s' /\
    val (call_rdi J basemul_avx2 (arrays ++ [uninit J 1 16])) = Ok r /\ holds (ram s') (gp s RDI) r.
Proof.
  intros Hloc roles bufs H F Hh.
  assert (Hord : in_order bufs).
  { intros a r m b E. unfold bufs in E. destruct a as [|[|[|[|[|a]]]]]; cbn [nth_error arg_regs] in E |- *; try discriminate;
      unfold poly, consts in E; injection E; intros; subst; reflexivity. }
  assert (Harr : Forall2 (contains s) bufs arrays).
  { inversion Hh as [|g0 m0 gs0 ms0 A0 B0]; subst. inversion B0 as [|g1 m1 gs1 ms1 A1 B1]; subst. inversion B1 as [|g2 m2 gs2 ms2 A2 B2]; subst.
    inversion B2 as [|g3 m3 gs3 ms3 A3 B3]; subst. inversion B3; subst.
    inversion F as [|? ? ? ? C0 D0]; subst. inversion D0 as [|? ? ? ? C1 D1]; subst. inversion D1 as [|? ? ? ? C2 D2]; subst.
    inversion D2 as [|? ? ? ? C3 D3]; subst.
    unfold bufs. constructor; [now apply (contains_fills s RDI (Out 256))|]. constructor; [now apply (contains_fills s RSI (In_ 256))|].
    constructor; [now apply (contains_fills s RDX (In_ 256))|]. constructor; [now apply (contains_fills s RCX Table)|constructor]. }
  assert (L : length arrays = 4%nat) by (rewrite <- (F2_len _ _ _ F); reflexivity).
  destruct (slot_call loc basemul_avx2_ ra bufs s H Hord arrays Harr basemul_avx2 eq_refl L) as (w & Lw & Iw & X).
  { vm_compute. reflexivity. }
  destruct (routine_run basemul_avx2 (roles ++ [Scratch 16]) (ModelX86Abi.vec s) (arrays ++ [w])) as (st & R & _ & K).
  { unfold routines. cbn [In app roles]. tauto. }
  { exact (vectors _ _ _ _ _ H). }
  { apply Forall2_app; [exact F|]. repeat constructor; auto. }
  destruct (junk_of (ModelX86Abi.vec s) w (vectors _ _ _ _ _ H) Lw) as (J & EJ & Ew).
  destruct (X st (run_of _ _ _ _ R)) as (s' & Rs & Fi).
  destruct (conclude loc basemul_avx2_ ra bufs s arrays H Hord Harr (slot s) st s' 256 [In_ 256; In_ 256; Table] [Scratch 16] [w] Rs Fi) as (r & N & _ & Hr & Re); auto.
  { repeat constructor. }
  exists J, s', r. split; [exact Rs|]. split; [exact Re|]. split; [|exact Hr]. rewrite Ew. eapply rdi_value; [|exact N]. now rewrite EJ.
Qed.
