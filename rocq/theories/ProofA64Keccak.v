(** * The Keccak routines of the AArch64 backend compute KECCAK_f1600 *)

From Coq Require Import ZArith List Bool Lia NArith Nnat.
From Verif Require Import ModelA64Keccak ModelA64KeccakAsm ModelA64Fips202 SpecA64Keccak.
From Verif Require Import ProofA64KeccakSym ProofA64KeccakCheck.
From Verif Require Import CSem ModelKeccak Spec202 SpecHistory CSemFacts ProofKeccakF ProofSponge ProofX86Keccak.
Import ListNotations.
Open Scope Z_scope.
Ltac Zify.zify_post_hook ::= idtac.

(** ** Symbolic state at entry *)

Definition entry_x (stack : nat) (r : nat) : xval sw :=
  if (r =? 0)%nat then Ptr 1 0 else if (r =? 31)%nat then Ptr 0 (8 * Z.of_nat stack) else Tok r.
Definition VL (r : nat) : N := (400 + 2 * N.of_nat r)%N.
Definition VH (r : nat) : N := (401 + 2 * N.of_nat r)%N.
Definition entry (stack cells : nat) : state sw :=
  State (map (entry_x stack) (seq 0 32))
        (map (fun r => (Leaf (VL r), Leaf (VH r))) (seq 0 32))
        [map (fun i => Tok (100 + i)) (seq 0 stack);
         map (fun i => Word (Leaf (LM i))) (seq 0 cells);
         map (fun j => Word (Leaf (LC j))) (seq 0 24)] None.

Definition in_mem (s : nat) : list sw := map (fun i => Leaf (LM (25 * s + i))) (seq 0 25).
(** The registers that the scalar code keeps the lanes in, and how far they are rotated *)
Definition xregs_of : list nat :=
  [1;6;11;16;21;2;7;12;17;22;3;8;13;28;23;4;9;14;19;24;5;10;15;20;25]%nat.
Definition rots : list Z := [0;21;14;0;44;3;45;61;28;20;25;8;18;1;6;10;15;56;27;36;39;41;2;62;55].
Definition in_x : list sw :=
  map (fun '(r, n) => if n =? 0 then Leaf (LX r) else Ror (Leaf (LX r)) (64 - n)) (combine xregs_of rots).
Definition in_x' : list sw := map (fun r => Leaf (LX r)) xregs_of.
Definition in_v (lane : nat) : list sw := map (fun r => Leaf (LV r lane)) (seq 0 25).

(** ** What is where after each block executed *)

Definition in_mems (n k : nat) : list group := map (fun s => (n, in_mem s)) (seq 0 k).
Definition plan_x1 : list (list group) := map (fun n => [(n, in_x)]) (seq 1 24) ++ [in_mems 24 1].
Definition plan_v1 : list (list group) := map (fun n => [(n, in_v 0)]) (seq 0 25) ++ [in_mems 24 1].
Definition vs n : list group := [(n, in_v 0); (n, in_v 1)].
Definition plan_v2 : list (list group) := map vs (seq 0 25) ++ [in_mems 24 2].
Definition plan_v4 : list (list group) :=
  [vs 0 ++ [(0%nat, in_x'); (0%nat, in_mem 3)]] ++
  map (fun n => vs n ++ [((2 * n)%nat, in_x); (0%nat, in_mem 3)]) (seq 1 12) ++
  [vs 12 ++ [(24%nat, in_x'); (0%nat, in_mem 3)]] ++
  [vs 12 ++ [(24%nat, in_mem 2); (0%nat, in_x')]] ++
  map (fun n => vs (12 + n) ++ [(24%nat, in_mem 2); ((2 * n)%nat, in_x)]) (seq 1 12) ++
  [vs 24 ++ [(24%nat, in_mem 2); (24%nat, in_x')]] ++
  [in_mems 24 4].

(** ** The check of a routine *)

Definition xval_eqb (a b : xval sw) : bool :=
  match a, b with
  | Ptr x m, Ptr y n => (x =? y)%nat && (m =? n)
  | Word x, Word y => sweqb x y
  | Tok m, Tok n => (m =? n)%nat
  | _, _ => false
  end.
Definition option_xval_eqb (a b : option (xval sw)) : bool :=
  match a, b with Some a, Some b => xval_eqb a b | _, _ => false end.
(** The registers and arrays at the end are as the caller expects. *)
Definition final_ok (stack cells : nat) (st : state sw) : bool :=
  forallb (fun i => option_xval_eqb (nth_error (xregs st) i) (Some (entry_x stack i))) (seq 18 14) &&
  forallb (fun i => match nth_error (vregs st) i with
                    | Some (l, _) => sweqb l (Leaf (VL i)) | None => false end) (seq 8 8) &&
  match mem st with
  | [s; m; c] =>
      (length s =? stack)%nat &&
      all2 xval_eqb m (map (fun i => Word (Leaf (LM i))) (seq 0 cells)) &&
      all2 xval_eqb c (map (fun j => Word (Leaf (LC j))) (seq 0 24))
  | _ => false
  end.
Definition routine_ok (r : routine) (plan : list (list group)) : option (list address) :=
  let k := r_states r in
  'q <-? drive (r_code r) plan [] 0 (entry (r_stack r) (25 * k)) (in_mems 0 k) ;;
  if final_ok (r_stack r) (25 * k) (fst q) && (length plan <=? 60)%nat &&
     all2 Z.eqb (r_constants r) (map rc_of (seq 0 24)) && (k <=? 4)%nat
  then Some (snd q) else None.

Lemma xval_eqb_eq a b : xval_eqb a b = true -> a = b.
Proof.
  destruct a, b; cbn; try discriminate; intros H.
  - apply andb_prop in H. destruct H as [H1 H2]. apply Nat.eqb_eq in H1. apply Z.eqb_eq in H2. congruence.
  - f_equal. now apply sweqb_eq.
  - apply Nat.eqb_eq in H. congruence.
Qed.
Lemma all2_eq {A} (f : A -> A -> bool) l : (forall a b, f a b = true -> a = b) ->
  forall k, all2 f l k = true -> l = k.
Proof.
  intros F k H. apply all2_Forall2 in H. induction H as [|a b l k E _ IH]; auto. apply F in E. congruence.
Qed.

(** ** Concrete states *)

Lemma map_nth_seq {A} (d : A) l : map (fun i => nth i l d) (seq 0 (length l)) = l.
Proof.
  induction l as [|a l IH]; auto. cbn [length seq map nth]. f_equal.
  now rewrite <- seq_shift, map_map.
Qed.

Lemma seq_as_map b m : seq b m = map (fun i => (b + i)%nat) (seq 0 m).
Proof. induction m as [|m IH]; auto. rewrite !seq_S, map_app, IH. reflexivity. Qed.
Lemma seq_blocks n : forall s, seq (25 * s) (25 * n) = flat_map (fun s => map (fun i => (25 * s + i)%nat) (seq 0 25)) (seq s n).
Proof.
  induction n as [|n IH]; intros s; [reflexivity|].
  cbn [seq flat_map]. replace (25 * S n)%nat with (25 + 25 * n)%nat by lia.
  rewrite seq_app. f_equal.
  - apply seq_as_map.
  - rewrite <- IH. f_equal. lia.
Qed.

(** A list of 25 times as many words as states *)
Lemma blocks_lookup (Bs : list lanes) : forall s pre l, length pre = (25 * s)%nat ->
  l = pre ++ concat (map lane_list Bs) ->
  Forall2 (fun s B => map (fun i => nth (25 * s + i) l 0) (seq 0 25) = lane_list B) (seq s (length Bs)) Bs.
Proof.
  induction Bs as [|B Bs IH]; intros s pre l Lp ->; [constructor|].
  change (seq s (length (B :: Bs))) with (s :: seq (S s) (length Bs)).
  change (concat (map lane_list (B :: Bs))) with (lane_list B ++ concat (map lane_list Bs)). constructor.
  - assert (LB : length (lane_list B) = 25%nat).
    { pose proof (zlen_lane_list B) as Z. unfold zlen in Z. lia. }
    transitivity (map (fun i => nth i (lane_list B) 0) (seq 0 (length (lane_list B)))); [|apply map_nth_seq].
    rewrite LB. apply map_ext_in. intros i Hi. apply in_seq in Hi.
    rewrite app_nth2 by lia. rewrite app_nth1 by lia. f_equal. lia.
  - apply (IH (S s) (pre ++ lane_list B)).
    + rewrite app_length, Lp. pose proof (zlen_lane_list B) as Z. unfold zlen in Z. lia.
    + now rewrite <- app_assoc.
Qed.

Lemma Forall2_map_l {A B C} (P : B -> C -> Prop) (f : A -> B) l k :
  Forall2 (fun a c => P (f a) c) l k -> Forall2 P (map f l) k.
Proof. induction 1; cbn; auto. Qed.
Lemma Forall2_map_l' {A B C} (P : B -> C -> Prop) (f : A -> B) l k :
  Forall2 P (map f l) k -> Forall2 (fun a c => P (f a) c) l k.
Proof.
  revert k. induction l as [|a l IH]; intros k H; inversion H; subst; constructor; auto.
Qed.

Lemma Forall2_impl_in {A B} (P Q : A -> B -> Prop) l k :
  (forall a b, In a l -> P a b -> Q a b) -> Forall2 P l k -> Forall2 Q l k.
Proof. intros H F. induction F; constructor; [apply H; cbn; auto|]. apply IHF. intros. apply H; cbn; auto. Qed.

Lemma lanes_of_states states : Forall lane_array states -> exists Bs, states = map lane_list Bs.
Proof.
  induction 1 as [|s l [L W] _ [Bs ->]]; [now exists []|].
  destruct (lane_list_of s L) as [B ->]. now exists (B :: Bs).
Qed.

Section Concrete.
Context (xs : list (xval Z)) (vregs0 : list (Z * Z)) (stack : list (xval Z)) (words : list Z).

Definition env (i : N) : Z :=
  if (400 <=? i)%N then
    let v := nth (N.to_nat ((i - 400) / 2)) vregs0 (0, 0) in if N.even i then fst v else snd v
  else if (300 <=? i)%N then nth (N.to_nat (i - 300)) (map rc_of (seq 0 24)) 0
  else if (100 <=? i)%N then nth (N.to_nat (i - 100)) words 0
  else 0.
Definition toks (n : nat) : xval Z := if (n <? 100)%nat then nth n xs (Tok 0) else nth (n - 100) stack (Tok 0).

Lemma env_VL r : env (VL r) = fst (nth r vregs0 (0, 0)).
Proof.
  unfold env, VL. replace (400 <=? _)%N with true by (symmetry; apply N.leb_le; lia).
  replace (N.even (400 + 2 * N.of_nat r)) with true
    by (symmetry; apply N.even_spec; exists (200 + N.of_nat r)%N; lia).
  replace ((400 + 2 * N.of_nat r - 400) / 2)%N with (N.of_nat r).
  2:{ replace (400 + 2 * N.of_nat r - 400)%N with (N.of_nat r * 2)%N by lia. now rewrite N.div_mul by lia. }
  now rewrite Nat2N.id.
Qed.
Lemma env_VH r : env (VH r) = snd (nth r vregs0 (0, 0)).
Proof.
  unfold env, VH. replace (400 <=? _)%N with true by (symmetry; apply N.leb_le; lia).
  replace (N.even (401 + 2 * N.of_nat r)) with false.
  2:{ replace (401 + 2 * N.of_nat r)%N with (N.succ (2 * (200 + N.of_nat r)))%N by lia.
      now rewrite N.even_succ, N.odd_mul. }
  replace ((401 + 2 * N.of_nat r - 400) / 2)%N with (N.of_nat r).
  2:{ replace (401 + 2 * N.of_nat r - 400)%N with (1 + N.of_nat r * 2)%N by lia.
      rewrite N.div_add by lia. reflexivity. }
  now rewrite Nat2N.id.
Qed.
Lemma env_LC j : (j < 24)%nat -> env (LC j) = rc_of j.
Proof.
  intros Hj. unfold env, LC. replace (400 <=? _)%N with false by (symmetry; apply N.leb_gt; lia).
  replace (300 <=? _)%N with true by (symmetry; apply N.leb_le; lia).
  replace (N.to_nat (300 + N.of_nat j - 300)) with j by lia.
  rewrite (nth_indep _ 0 (rc_of 0)) by (rewrite map_length, seq_length; lia).
  rewrite map_nth, seq_nth by lia. reflexivity.
Qed.
Lemma env_LM i : (i < 100)%nat -> env (LM i) = nth i words 0.
Proof.
  intros Hi. unfold env, LM. replace (400 <=? _)%N with false by (symmetry; apply N.leb_gt; lia).
  replace (300 <=? _)%N with false by (symmetry; apply N.leb_gt; lia).
  replace (100 <=? _)%N with true by (symmetry; apply N.leb_le; lia).
  f_equal. lia.
Qed.

Lemma Forall_nth_d {A} (P : A -> Prop) l i d : Forall P l -> P d -> P (nth i l d).
Proof. intros F Pd. revert i. induction F; intros [|i]; cbn; auto. Qed.

Lemma env_wf : Forall (fun v => 0 <= fst v < 2 ^ 64 /\ 0 <= snd v < 2 ^ 64) vregs0 ->
  Forall wf64 words -> wfe env.
Proof.
  intros Fv Fw i. unfold env.
  assert (W0 : wf64 0) by (unfold wf64; lia).
  destruct (400 <=? i)%N.
  - assert (G : 0 <= fst (nth (N.to_nat ((i - 400) / 2)) vregs0 (0, 0)) < 2 ^ 64 /\
                0 <= snd (nth (N.to_nat ((i - 400) / 2)) vregs0 (0, 0)) < 2 ^ 64).
    { apply (Forall_nth_d (fun v => 0 <= fst v < 2 ^ 64 /\ 0 <= snd v < 2 ^ 64)); [exact Fv|].
      cbn [fst snd]. lia. }
    cbv zeta. unfold wf64. destruct (N.even i); apply G.
  - destruct (300 <=? i)%N.
    + apply Forall_nth_d; [|exact W0]. apply Forall_forall. intros x Hx. apply in_map_iff in Hx.
      destruct Hx as (j & <- & Hj). apply in_seq in Hj. apply rc_of_wf. lia.
    + destruct (100 <=? i)%N; [now apply Forall_nth_d|exact W0].
Qed.

Lemma list3 {A} (a a' b b' c c' : A) : a = a' -> b = b' -> c = c' -> [a; b; c] = [a'; b'; c'].
Proof. congruence. Qed.

Lemma smap_entry n : length xs = 32%nat -> nth_error xs 0 = Some (Ptr 1 0) ->
  nth_error xs 31 = Some (Ptr 0 (8 * Z.of_nat (length stack))) ->
  length vregs0 = 32%nat -> length words = n -> (n <= 100)%nat ->
  smap env toks (entry (length stack) n) =
  State xs vregs0 [stack; map Word words; map Word (map rc_of (seq 0 24))] None.
Proof.
  intros Lx X0 X31 Lv <- Hn. unfold smap, entry. cbn [xregs vregs mem flags option_map]. f_equal.
  - rewrite map_map. rewrite <- (map_nth_seq (Tok 0) xs) at 1. rewrite Lx.
    apply map_ext_in. intros r Hr. apply in_seq in Hr. unfold entry_x.
    destruct (Nat.eqb_spec r 0) as [->|N0]; [cbn [xmap]; symmetry; now apply nth_error_nth|].
    destruct (Nat.eqb_spec r 31) as [->|N31]; [cbn [xmap]; symmetry; now apply nth_error_nth|].
    cbn [xmap]. unfold toks. destruct (Nat.ltb_spec r 100); [reflexivity|lia].
  - rewrite map_map. rewrite <- (map_nth_seq (0, 0) vregs0) at 1. rewrite Lv.
    apply map_ext. intros r. unfold vmap. cbn [fst snd eval]. rewrite env_VL, env_VH.
    now destruct (nth r vregs0 (0, 0)).
  - cbn [map]. apply list3.
    + rewrite map_map. rewrite <- (map_nth_seq (Tok 0) stack) at 2. apply map_ext. intros i. cbn [xmap].
      unfold toks. destruct (Nat.ltb_spec (100 + i) 100); [lia|]. f_equal. lia.
    + rewrite map_map. rewrite <- (map_nth_seq 0 words) at 2. rewrite map_map. apply map_ext_in.
      intros i Hi. apply in_seq in Hi. cbn [xmap eval]. now rewrite env_LM by lia.
    + rewrite !map_map. apply map_ext_in. intros j Hj. apply in_seq in Hj.
      cbn [xmap eval]. now rewrite env_LC by lia.
Qed.
End Concrete.

Lemma routine_runs r plan tr : routine_ok r plan = Some tr ->
  last plan (in_mems 0 (r_states r)) = in_mems 24 (r_states r) ->
  forall xs vs stack states fuel,
  registers_at_call r xs -> vectors_at_call vs -> length stack = r_stack r ->
  length states = r_states r -> Forall lane_array states -> (60 <= fuel)%nat ->
  exists xs' vs' stack' states' flags',
    run machine64 fuel (r_code r) 0
        (State xs vs [stack; map Word (concat states); map Word (r_constants r)] None) =
    Some (State xs' vs' [stack'; map Word (concat states'); map Word (r_constants r)] flags', tr) /\
    Forall2 permuted states states' /\ preserved xs xs' vs vs' /\ length stack' = length stack.
Proof.
  set (k := r_states r). intros R Lp xs vs stack states fuel (Lx & X0 & X31) [Lv Fv] Ls Lst Fst Hf.
  unfold routine_ok in R. fold k in R.
  destruct (drive _ _ _ _ _ _) as [[st' t']|] eqn:Dr; [|discriminate]. cbn [obind fst snd] in R.
  destruct (final_ok _ _ _) eqn:Fin; [|discriminate]. cbn [andb] in R.
  destruct (Nat.leb_spec (length plan) 60) as [Hl|]; [|discriminate]. cbn [andb] in R.
  destruct (all2 Z.eqb _ _) eqn:Cs; [|discriminate]. cbn [andb] in R.
  destruct (Nat.leb_spec k 4) as [Hk|]; [|discriminate]. injection R as ->.
  apply (all2_eq _ _ (fun a b H => proj1 (Z.eqb_eq a b) H)) in Cs.
  destruct (lanes_of_states _ Fst) as [Bs ->]. rewrite map_length in Lst.
  assert (LB : forall B, length (lane_list B) = 25%nat).
  { intros B. pose proof (zlen_lane_list B) as Z. unfold zlen in Z. lia. }
  assert (Lc : forall l, length (concat (map lane_list l)) = (25 * length l)%nat).
  { induction l as [|B l IH]; [reflexivity|]. cbn [map concat length]. rewrite app_length, IH, LB. lia. }
  set (words := concat (map lane_list Bs)).
  assert (Lw : length words = (25 * k)%nat) by (unfold words; rewrite Lc; lia).
  assert (Fw : Forall wf64 words).
  { unfold words. apply Forall_concat. eapply Forall_impl; [|exact Fst]. intros s [_ W]. exact W. }
  set (e := env vs words). set (t := toks xs stack).
  assert (We : wfe e) by (now apply env_wf).
  assert (Re : rce e) by (intros j Hj; now apply env_LC).
  assert (G0 : Forall2 (group_ok e) (in_mems 0 k) Bs).
  { unfold in_mems. apply Forall2_map_l. rewrite <- Lst.
    eapply Forall2_impl_in; [|apply (blocks_lookup Bs 0 [] words); reflexivity].
    intros s B Hs H. apply in_seq in Hs. unfold group_ok. cbn [fst snd]. change (rounds 0 B) with B. rewrite <- H.
    unfold in_mem. rewrite map_map. apply map_ext_in. intros i Hi. apply in_seq in Hi.
    cbn [eval]. apply env_LM. lia. }
  destruct (drive_ok _ _ _ _ _ _ _ _ Dr (Forall_nil _) e t Bs fuel We Re G0 ltac:(lia))
    as (e' & We' & Fix & Run & G). rewrite Lp in G.
  rewrite <- Ls in Run. unfold e, t in Run. rewrite smap_entry in Run; try assumption; try lia.
  2:{ now rewrite Ls. }
  rewrite <- Cs in Run. fold e t in Run.
  unfold final_ok in Fin. apply andb_prop in Fin. destruct Fin as [Fin Fm].
  apply andb_prop in Fin. destruct Fin as [Fx Fvv].
  destruct (mem st') as [|s1 [|m1 [|c1 [|]]]] eqn:Em; try discriminate.
  apply andb_prop in Fm. destruct Fm as [Fm Fc]. apply andb_prop in Fm. destruct Fm as [Fs Fm].
  apply Nat.eqb_eq in Fs. apply (all2_eq _ _ xval_eqb_eq) in Fm, Fc. subst m1 c1.
  assert (Ew : map (xmap e' t) (map (fun i => Word (Leaf (LM i))) (seq 0 (25 * k))) =
               map Word (concat (map lane_list (map (rounds 24) Bs)))).
  { change 0%nat with (25 * 0)%nat at 1. rewrite seq_blocks.
    unfold in_mems in G. apply Forall2_map_l' in G. clear - G.
    induction G as [|s B ss Bs H _ IH]; [reflexivity|]. cbn [flat_map map concat].
    rewrite !map_app. f_equal; [|exact IH]. unfold group_ok in H. cbn [fst snd] in H. rewrite <- H.
    unfold in_mem. rewrite !map_map. reflexivity. }
  assert (Ec : map (xmap e' t) (map (fun j => Word (Leaf (LC j))) (seq 0 24)) = map Word (r_constants r)).
  { rewrite Cs, !map_map. apply map_ext_in. intros j Hj. apply in_seq in Hj. cbn [xmap eval].
    rewrite Fix by (unfold LC; lia). now rewrite Re by lia. }
  unfold smap in Run. rewrite Em in Run. cbn [map] in Run. rewrite Ew, Ec in Run.
  do 5 eexists. split; [exact Run|]. split; [|split].
  - clear - Fst. rewrite !map_map. induction Bs as [|B Bs IH]; [constructor|].
    cbn [map] in *. inversion Fst as [|? ? [LB W] Fst']; subst. constructor; [|now apply IH].
    destruct (rounds24_spec B W) as [W' E]. split; [split; [apply zlen_lane_list|exact W']|exact E].
  - split.
    + intros i Hi. rewrite nth_error_map. rewrite forallb_forall in Fx.
      specialize (Fx i ltac:(apply in_seq; lia)).
      destruct (nth_error (xregs st') i) as [v|]; [|discriminate]. cbn [option_xval_eqb] in Fx.
      apply xval_eqb_eq in Fx. subst v. cbn [option_map]. unfold entry_x.
      destruct (Nat.eqb_spec i 0) as [->|]; [lia|].
      destruct (Nat.eqb_spec i 31) as [->|]; [now rewrite X31|]. cbn [xmap]. unfold t, toks.
      destruct (Nat.ltb_spec i 100); [|lia]. symmetry. apply nth_error_nth'. lia.
    + intros i Hi. rewrite forallb_forall in Fvv. specialize (Fvv i ltac:(apply in_seq; lia)).
      destruct (nth_error (vregs st') i) as [[l h]|] eqn:Ev; [|discriminate].
      apply sweqb_eq in Fvv. subst l.
      assert (Em' : nth_error (map (vmap e') (vregs st')) i = Some (vmap e' (Leaf (VL i), h))).
      { now rewrite nth_error_map, Ev. }
      apply (nth_error_nth _ _ (0, 0)) in Em'. rewrite Em'. cbn [vmap fst snd eval].
      rewrite Fix by (unfold VL; lia). apply env_VL.
  - rewrite map_length. lia.
Qed.

(** The trace, whatever the words *)
Lemma routine_trace r plan tr : routine_ok r plan = Some tr ->
  forall xs vs stack words fuel,
  registers_at_call r xs -> length vs = 32%nat -> length stack = r_stack r ->
  length words = (25 * r_states r)%nat -> (60 <= fuel)%nat ->
  exists xs' vs' mem' words' flags',
    run machine64 fuel (r_code r) 0
        (State xs vs [stack; map Word words; map Word (r_constants r)] None) =
    Some (State xs' vs' mem' flags', tr) /\ nth_error mem' 1 = Some (map Word words').
Proof.
  intros R xs vs stack words fuel (Lx & X0 & X31) Lv Ls Lw Hf.
  unfold routine_ok in R.
  destruct (drive _ _ _ _ _ _) as [[st' t']|] eqn:Dr; [|discriminate]. cbn [obind fst snd] in R.
  destruct (final_ok _ _ _) eqn:Fin; [|discriminate]. cbn [andb] in R.
  destruct (Nat.leb_spec (length plan) 60) as [Hl|]; [|discriminate]. cbn [andb] in R.
  destruct (all2 Z.eqb _ _) eqn:Cs; [|discriminate]. cbn [andb] in R.
  destruct (Nat.leb_spec (r_states r) 4) as [Hk|]; [|discriminate]. injection R as ->.
  apply (all2_eq _ _ (fun a b H => proj1 (Z.eqb_eq a b) H)) in Cs.
  destruct (drive_runs _ _ _ _ _ _ _ _ Dr (env vs words) (toks xs stack) fuel ltac:(lia)) as (e' & _ & Run).
  rewrite <- Ls in Run. rewrite smap_entry in Run; try assumption; try lia.
  2:{ now rewrite Ls. }
  rewrite <- Cs in Run.
  unfold final_ok in Fin. apply andb_prop in Fin. destruct Fin as [_ Fm].
  destruct (mem st') as [|s1 [|m1 [|c1 [|]]]] eqn:Em; try discriminate.
  apply andb_prop in Fm. destruct Fm as [Fm _]. apply andb_prop in Fm. destruct Fm as [_ Fm].
  apply (all2_eq _ _ xval_eqb_eq) in Fm. subst m1.
  unfold smap in Run. rewrite Em in Run. cbn [map] in Run.
  do 3 eexists. exists (map (fun i => e' (LM i)) (seq 0 (25 * r_states r))). eexists.
  split; [exact Run|]. cbn [nth_error]. f_equal. now rewrite !map_map.
Qed.

(** ** The checks *)

Definition passes (r : routine) (plan : list (list group)) : bool :=
  match routine_ok r plan with Some _ => true | None => false end.
Lemma passes_ok r plan : passes r plan = true -> exists tr, routine_ok r plan = Some tr.
Proof. unfold passes. destruct (routine_ok r plan) as [tr|]; [now exists tr|discriminate]. Qed.

Lemma x1_scalar_ok : passes x1_scalar plan_x1 = true.
Proof. vm_compute. reflexivity. Qed.
Lemma x1_v84a_ok : passes x1_v84a plan_v1 = true.
Proof. vm_compute. reflexivity. Qed.
Lemma x2_v84a_ok : passes x2_v84a plan_v2 = true.
Proof. vm_compute. reflexivity. Qed.
Lemma x2_v8a_v84a_ok : passes x2_v8a_v84a plan_v2 = true.
Proof. vm_compute. reflexivity. Qed.
Lemma x4_scalar_v8a_ok : passes x4_scalar_v8a plan_v4 = true.
Proof. vm_compute. reflexivity. Qed.
Lemma x4_scalar_v84a_ok : passes x4_scalar_v84a plan_v4 = true.
Proof. vm_compute. reflexivity. Qed.
Lemma x4_scalar_v8a_v84a_ok : passes x4_scalar_v8a_v84a plan_v4 = true.
Proof. vm_compute. reflexivity. Qed.

Lemma all_checked r : In r keccak_routines -> exists plan tr, routine_ok r plan = Some tr /\
  last plan (in_mems 0 (r_states r)) = in_mems 24 (r_states r).
Proof.
  intros H. cbn [keccak_routines In] in H.
  repeat (destruct H as [<-|H]); [..|contradiction].
  - destruct (passes_ok _ _ x1_scalar_ok) as [tr E]. exists plan_x1, tr. split; [exact E|reflexivity].
  - destruct (passes_ok _ _ x1_v84a_ok) as [tr E]. exists plan_v1, tr. split; [exact E|reflexivity].
  - destruct (passes_ok _ _ x2_v84a_ok) as [tr E]. exists plan_v2, tr. split; [exact E|reflexivity].
  - destruct (passes_ok _ _ x2_v8a_v84a_ok) as [tr E]. exists plan_v2, tr. split; [exact E|reflexivity].
  - destruct (passes_ok _ _ x4_scalar_v8a_ok) as [tr E]. exists plan_v4, tr. split; [exact E|reflexivity].
  - destruct (passes_ok _ _ x4_scalar_v84a_ok) as [tr E]. exists plan_v4, tr. split; [exact E|reflexivity].
  - destruct (passes_ok _ _ x4_scalar_v8a_v84a_ok) as [tr E]. exists plan_v4, tr. split; [exact E|reflexivity].
Qed.

Lemma keccak_routines_correct r : In r keccak_routines ->
  exists trace, forall xs vs stack states fuel,
  registers_at_call r xs -> vectors_at_call vs -> length stack = r_stack r ->
  length states = r_states r -> Forall lane_array states -> (60 <= fuel)%nat ->
  exists xs' vs' stack' states' flags',
    run machine64 fuel (r_code r) 0
        (State xs vs [stack; map Word (concat states); map Word (r_constants r)] None) =
    Some (State xs' vs' [stack'; map Word (concat states'); map Word (r_constants r)] flags', trace) /\
    Forall2 permuted states states' /\ preserved xs xs' vs vs' /\ length stack' = length stack.
Proof.
  intros H. destruct (all_checked r H) as (plan & tr & E & L). exists tr. intros.
  eapply routine_runs; eauto.
Qed.

(** ** Calls *)

Lemma words_of_words l : words_of (map Word l) = Some l.
Proof. induction l as [|x l IH]; [reflexivity|]. cbn [map words_of as_word obind]. now rewrite IH. Qed.

Lemma call_registers_ok r : registers_at_call r (call_registers (r_stack r)).
Proof. repeat split. Qed.
Lemma u64_range x : 0 <= u64 x < 2 ^ 64.
Proof. apply Z.mod_pos_bound. reflexivity. Qed.

Lemma call_runs r : In r keccak_routines -> exists T, forall J states,
  length states = r_states r -> Forall lane_array states ->
  exists states', call_keccak J r (concat states) = (Ok (concat states'), T) /\ Forall2 permuted states states'.
Proof.
  intros H. destruct (keccak_routines_correct r H) as [tr G].
  exists (flat_map (fun '(a, d) => [EIndex (Z.of_nat a); EIndex d]) tr). intros J states L F.
  unfold call_keccak, call_state.
  destruct (G (call_registers (r_stack r))
              (map (fun i => (u64 (J [Z.of_nat i; 0]), u64 (J [Z.of_nat i; 1]))) (seq 0 32))
              (map Tok (seq 100 (r_stack r))) states 60%nat) as (xs' & vs' & st' & states' & fl & E & P & _).
  - apply call_registers_ok.
  - split; [now rewrite map_length, seq_length|]. apply Forall_forall. intros v Hv.
    apply in_map_iff in Hv. destruct Hv as (i & <- & _). cbn [fst snd]. split; apply u64_range.
  - now rewrite map_length, seq_length.
  - exact L.
  - exact F.
  - apply le_n.
  - exists states'. rewrite E. cbn [obind fst snd mem nth_error]. rewrite words_of_words. cbn [obind].
    replace (length (concat states) =? 25 * r_states r)%nat with true; [split; [reflexivity|exact P]|].
    symmetry. apply Nat.eqb_eq. rewrite <- L. clear - F.
    induction F as [|s l [Ls _] _ IH]; [reflexivity|]. cbn [concat length]. rewrite app_length, IH.
    unfold zlen in Ls. lia.
Qed.

(** Whatever the words *)
Lemma call_trace r : In r keccak_routines -> exists T, forall J s, length s = (25 * r_states r)%nat ->
  exists t, call_keccak J r s = (Ok t, T).
Proof.
  intros H. destruct (all_checked r H) as (plan & tr & E & _).
  exists (flat_map (fun '(a, d) => [EIndex (Z.of_nat a); EIndex d]) tr). intros J s L.
  unfold call_keccak, call_state.
  destruct (routine_trace r plan tr E (call_registers (r_stack r))
              (map (fun i => (u64 (J [Z.of_nat i; 0]), u64 (J [Z.of_nat i; 1]))) (seq 0 32))
              (map Tok (seq 100 (r_stack r))) s 60%nat) as (xs' & vs' & m' & w & fl & R & Em).
  - apply call_registers_ok.
  - now rewrite map_length, seq_length.
  - now rewrite map_length, seq_length.
  - exact L.
  - apply le_n.
  - exists w. rewrite R. cbn [obind fst snd mem]. rewrite Em. cbn [obind]. rewrite words_of_words. cbn [obind].
    rewrite L, Nat.eqb_refl. reflexivity.
Qed.
