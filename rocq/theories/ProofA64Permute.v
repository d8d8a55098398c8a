(** * The permutations of the AArch64 build *)

From Coq Require Import ZArith List Bool Lia.
From Verif Require Import ModelA64Fips202 SpecA64Keccak ProofA64Keccak.
From Verif Require Import CSem ModelKeccak Spec202 SpecHistory CSemFacts ProofKeccakF ProofSponge ProofHash
  ProofHistory ProofX86Hash ProofLeak ProofLeakHash.
Import ListNotations.
Open Scope Z_scope.
Ltac Zify.zify_post_hook ::= idtac.
Lemma states_x1_scalar : r_states x1_scalar = 1%nat.
Proof. reflexivity. Qed.
Lemma states_x1_v84a : r_states x1_v84a = 1%nat.
Proof. reflexivity. Qed.
Lemma states_x2_v84a : r_states x2_v84a = 2%nat.
Proof. reflexivity. Qed.
Lemma states_x4_scalar_v8a : r_states x4_scalar_v8a = 4%nat.
Proof. reflexivity. Qed.
Lemma states_x4_scalar_v8a_v84a : r_states x4_scalar_v8a_v84a = 4%nat.
Proof. reflexivity. Qed.
#[local] Opaque KECCAK_f1600 x1_scalar x1_v84a x2_v84a x4_scalar_v8a x4_scalar_v8a_v84a x2_v8a_v84a x4_scalar_v84a.

Lemma in1 : In x1_scalar keccak_routines.
Proof. left. reflexivity. Qed.
Lemma in2 : In x1_v84a keccak_routines.
Proof. right. left. reflexivity. Qed.
Lemma in3 : In x2_v84a keccak_routines.
Proof. do 2 right. left. reflexivity. Qed.
Lemma in5 : In x4_scalar_v8a keccak_routines.
Proof. do 4 right. left. reflexivity. Qed.
Lemma in7 : In x4_scalar_v8a_v84a keccak_routines.
Proof. do 6 right. left. reflexivity. Qed.

Lemma x1_native_in c r : x1_native c = Some r -> In r keccak_routines /\ r_states r = 1%nat.
Proof.
  assert (S : forall a b : routine, Some a = Some b -> b = a) by (intros a b H; now injection H).
  destruct c as [[] [] []|]; cbn [x1_native andb negb]; intros H; try discriminate;
    rewrite (S _ _ H); (split; [first [exact in1 | exact in2]|first [exact states_x1_scalar | exact states_x1_v84a | exact states_x2_v84a | exact states_x4_scalar_v8a |
        exact states_x4_scalar_v8a_v84a]]).
Qed.
Lemma x2_native_in c r : x2_native c = Some r -> In r keccak_routines /\ r_states r = 2%nat.
Proof.
  assert (S : forall a b : routine, Some a = Some b -> b = a) by (intros a b H; now injection H).
  destruct c as [[] [] []|]; cbn [x2_native andb negb]; intros H; try discriminate;
    rewrite (S _ _ H); (split; [exact in3|first [exact states_x1_scalar | exact states_x1_v84a | exact states_x2_v84a | exact states_x4_scalar_v8a |
        exact states_x4_scalar_v8a_v84a]]).
Qed.
Lemma x4_native_in c r : x4_native c = Some r -> In r keccak_routines /\ r_states r = 4%nat.
Proof.
  assert (S : forall a b : routine, Some a = Some b -> b = a) by (intros a b H; now injection H).
  destruct c as [[] [] []|]; cbn [x4_native andb negb]; intros H; try discriminate;
    rewrite (S _ _ H); (split; [first [exact in5 | exact in7]|first [exact states_x1_scalar | exact states_x1_v84a | exact states_x2_v84a | exact states_x4_scalar_v8a |
        exact states_x4_scalar_v8a_v84a]]).
Qed.

(** One, two and four states *)
Lemma call_x1 r J s : In r keccak_routines -> r_states r = 1%nat -> lane_array s ->
  exists t, val (call_keccak J r s) = Ok t /\ permuted s t.
Proof.
  intros H L W. destruct (call_runs r H) as [T G].
  destruct (G J [s]) as (ss & E & P); [now rewrite L|repeat constructor; apply W|].
  inversion P as [|? t ? ? Pt Pn]; subst. inversion Pn; subst. cbn [concat] in E. rewrite !app_nil_r in E.
  exists t. unfold val. now rewrite E.
Qed.
Lemma call_x2 r J s0 s1 : In r keccak_routines -> r_states r = 2%nat -> lane_array s0 -> lane_array s1 ->
  exists t0 t1, val (call_keccak J r (s0 ++ s1)) = Ok (t0 ++ t1) /\ permuted s0 t0 /\ permuted s1 t1.
Proof.
  intros H L W0 W1. destruct (call_runs r H) as [T G].
  destruct (G J [s0; s1]) as (ss & E & P); [now rewrite L| |].
  { constructor; [exact W0|]. constructor; [exact W1|constructor]. }
  inversion P as [|? t0 ? ? P0 Pn]; subst. inversion Pn as [|? t1 ? ? P1 Pm]; subst. inversion Pm; subst.
  cbn [concat] in E. rewrite !app_nil_r in E.
  exists t0, t1. unfold val. now rewrite E.
Qed.
Lemma call_x4 r J s0 s1 s2 s3 : In r keccak_routines -> r_states r = 4%nat ->
  lane_array s0 -> lane_array s1 -> lane_array s2 -> lane_array s3 ->
  exists t0 t1 t2 t3, val (call_keccak J r (s0 ++ s1 ++ s2 ++ s3)) = Ok (t0 ++ t1 ++ t2 ++ t3) /\
    permuted s0 t0 /\ permuted s1 t1 /\ permuted s2 t2 /\ permuted s3 t3.
Proof.
  intros H L W0 W1 W2 W3. destruct (call_runs r H) as [T G].
  destruct (G J [s0; s1; s2; s3]) as (ss & E & P); [now rewrite L| |].
  { constructor; [exact W0|]. constructor; [exact W1|]. constructor; [exact W2|]. constructor; [exact W3|constructor]. }
  inversion P as [|? t0 ? ? P0 Q0]; subst. inversion Q0 as [|? t1 ? ? P1 Q1]; subst.
  inversion Q1 as [|? t2 ? ? P2 Q2]; subst. inversion Q2 as [|? t3 ? ? P3 Q3]; subst. inversion Q3; subst.
  cbn [concat] in E. rewrite !app_nil_r in E.
  exists t0, t1, t2, t3. unfold val. rewrite E. auto.
Qed.

Lemma permuted_length s t : permuted s t -> length t = 25%nat.
Proof. intros [[L _] _]. unfold zlen in L. lia. Qed.

Lemma firstn_exact {A} (a b : list A) n : length a = n -> firstn n (a ++ b) = a.
Proof. intros <-. rewrite firstn_app, Nat.sub_diag, firstn_all. apply app_nil_r. Qed.
Lemma skipn_exact {A} (a b : list A) n : length a = n -> skipn n (a ++ b) = b.
Proof. intros <-. rewrite skipn_app, Nat.sub_diag, skipn_all. reflexivity. Qed.

Lemma val_bind {A B} (m : M A) (f : A -> M B) a : val m = Ok a -> val (bind m f) = val (f a).
Proof.
  unfold val, bind. destruct m as [o t]. cbn [fst]. intros ->. destruct (f a) as [o' t']. reflexivity.
Qed.

Lemma permute_a64_correct c J s : lane_array s ->
  exists s', val (KeccakF1600_StatePermute_aarch64 c J s) = Ok s' /\
    lane_array s' /\ state_bits s' = KECCAK_f1600 (state_bits s).
Proof.
  intros W. unfold KeccakF1600_StatePermute_aarch64. destruct (x1_native c) as [r|] eqn:E.
  - destruct (x1_native_in c r E) as [H L]. destruct (call_x1 r J s H L W) as (t & Et & P). exists t. auto.
  - now apply permute_correct.
Qed.

Lemma wp_on_words N a s b off n f (Q : list Z -> Prop) : zlen a = off -> zlen s = n ->
  wpn N (f s) (fun s' => zlen s' = n /\ Q (a ++ s' ++ b)) -> wpn N (on_words (a ++ s ++ b) off n f) Q.
Proof.
  intros Ha Hs H. unfold on_words. apply wp_bind, wp_slice_at; auto.
  apply wp_bind. eapply wp_mono; [exact H|]. intros s' [L HQ].
  replace (Z.to_nat n) with (length s') by (unfold zlen in L; lia). rewrite firstn_all.
  pose proof (zlen_nonneg a). pose proof (zlen_nonneg b). apply wp_asplice; [lia|rewrite !zlen_app; lia|].
  rewrite splice_app; auto. lia.
Qed.
Lemma wp_of_val {A} N (m : M A) a (Q : A -> Prop) : val m = Ok a -> Q a -> wpn N m Q.
Proof. unfold wpn. now intros ->. Qed.

Lemma permute_x4_a64_correct c J s0 s1 s2 s3 :
  lane_array s0 -> lane_array s1 -> lane_array s2 -> lane_array s3 ->
  exists t0 t1 t2 t3, val (KeccakF1600x4_StatePermute_aarch64 c J (s0 ++ s1 ++ s2 ++ s3)) = Ok (t0 ++ t1 ++ t2 ++ t3) /\
    (lane_array t0 /\ state_bits t0 = KECCAK_f1600 (state_bits s0)) /\
    (lane_array t1 /\ state_bits t1 = KECCAK_f1600 (state_bits s1)) /\
    (lane_array t2 /\ state_bits t2 = KECCAK_f1600 (state_bits s2)) /\
    (lane_array t3 /\ state_bits t3 = KECCAK_f1600 (state_bits s3)).
Proof.
  intros W0 W1 W2 W3. unfold KeccakF1600x4_StatePermute_aarch64.
  assert (L0 : zlen s0 = 25) by apply W0. assert (L1 : zlen s1 = 25) by apply W1.
  assert (L2 : zlen s2 = 25) by apply W2. assert (L3 : zlen s3 = 25) by apply W3.
  destruct (x4_native c) as [r|] eqn:E4; [|destruct (x2_native c) as [r|] eqn:E2].
  - destruct (x4_native_in c r E4) as [H L]. now apply call_x4.
  - destruct (x2_native_in c r E2) as [H L].
    destruct (call_x2 r (sub J 0) s0 s1 H L W0 W1) as (t0 & t1 & E & P0 & P1).
    destruct (call_x2 r (sub J 1) s2 s3 H L W2 W3) as (t2 & t3 & E' & P2 & P3).
    exists t0, t1, t2, t3.
    assert (K0 : zlen t0 = 25) by apply P0. assert (K1 : zlen t1 = 25) by apply P1.
    assert (K2 : zlen t2 = 25) by apply P2. assert (K3 : zlen t3 = 25) by apply P3.
    split; [|split; [exact P0|split; [exact P1|split; [exact P2|exact P3]]]].
    apply wp_val. unfold KECCAK_LANES. rewrite app_assoc.
    apply wp_bind, (wp_on_words _ [] (s0 ++ s1) (s2 ++ s3)); [reflexivity|rewrite zlen_app; lia|].
    eapply wp_of_val; [exact E|]. split; [rewrite zlen_app; lia|]. cbn [app].
    rewrite <- (app_nil_r (s2 ++ s3)). apply wp_on_words; [rewrite zlen_app; lia|rewrite zlen_app; lia|].
    eapply wp_of_val; [exact E'|]. split; [rewrite zlen_app; lia|]. now rewrite app_nil_r, <- app_assoc.
  - destruct (permute_a64_correct c (sub J 0) s0 W0) as (t0 & E0 & P0).
    destruct (permute_a64_correct c (sub J 1) s1 W1) as (t1 & E1 & P1).
    destruct (permute_a64_correct c (sub J 2) s2 W2) as (t2 & E2' & P2).
    destruct (permute_a64_correct c (sub J 3) s3 W3) as (t3 & E3 & P3).
    exists t0, t1, t2, t3.
    assert (K0 : zlen t0 = 25) by apply P0. assert (K1 : zlen t1 = 25) by apply P1.
    assert (K2 : zlen t2 = 25) by apply P2. assert (K3 : zlen t3 = 25) by apply P3.
    split; [|split; [exact P0|split; [exact P1|split; [exact P2|exact P3]]]].
    apply wp_val. fold (join4 s0 s1 s2 s3).
    apply wp_bind, wp_on0; auto. eapply wp_of_val; [exact E0|]. split; [exact K0|].
    apply wp_bind, wp_on1; auto. eapply wp_of_val; [exact E1|]. split; [exact K1|].
    apply wp_bind, wp_on2; auto. eapply wp_of_val; [exact E2'|]. split; [exact K2|].
    apply wp_on3; auto. eapply wp_of_val; [exact E3|]. split; [exact K3|]. reflexivity.
Qed.

(** The results are those of the portable build. *)
Lemma permute_a64_agrees c J s : lane_array s ->
  val (KeccakF1600_StatePermute_aarch64 c J s) = val (KeccakF1600_StatePermute s).
Proof.
  intros W. destruct (permute_a64_correct c J s W) as (t & -> & [_ Wt] & Et).
  destruct (permute_correct s W) as (u & -> & [_ Wu] & Eu). f_equal.
  apply sbits_inj; [exact Wt|exact Wu|]. exact (eq_trans Et (eq_sym Eu)).
Qed.
Lemma permute_x4_a64_agrees c J s0 s1 s2 s3 :
  lane_array s0 -> lane_array s1 -> lane_array s2 -> lane_array s3 ->
  val (KeccakF1600x4_StatePermute_aarch64 c J (s0 ++ s1 ++ s2 ++ s3)) = val (KeccakF1600x4_StatePermute (s0 ++ s1 ++ s2 ++ s3)).
Proof.
  intros W0 W1 W2 W3.
  destruct (permute_x4_a64_correct c J s0 s1 s2 s3 W0 W1 W2 W3)
    as (t0 & t1 & t2 & t3 & -> & (V0 & E0) & (V1 & E1) & (V2 & E2) & V3 & E3).
  symmetry. apply wp_val. unfold KeccakF1600x4_StatePermute. fold (join4 s0 s1 s2 s3).
  pose proof (proj1 W0). pose proof (proj1 W1). pose proof (proj1 W2). pose proof (proj1 W3).
  apply wp_bind, wp_on0; auto. apply wp_permute; auto. intros u0 X0 Y0. pose proof (proj1 X0). split; [auto|].
  apply wp_bind, wp_on1; auto. apply wp_permute; auto. intros u1 X1 Y1. pose proof (proj1 X1). split; [auto|].
  apply wp_bind, wp_on2; auto. apply wp_permute; auto. intros u2 X2 Y2. pose proof (proj1 X2). split; [auto|].
  apply wp_on3; auto. apply wp_permute; auto. intros u3 X3 Y3. split; [apply X3|].
  assert (G : forall s t u, wfs t -> sbits t = KECCAK_f1600 (sbits s) -> wfs u ->
    sbits u = KECCAK_f1600 (sbits s) -> u = t).
  { intros s t u [_ Wt] Et [_ Wu] Eu. apply sbits_inj; [exact Wu|exact Wt|]. exact (eq_trans Eu (eq_sym Et)). }
  rewrite (G s0 t0 u0 V0 E0 X0 Y0), (G s1 t1 u1 V1 E1 X1 Y1), (G s2 t2 u2 V2 E2 X2 Y2), (G s3 t3 u3 V3 E3 X3 Y3).
  reflexivity.
Qed.

(** ** Rules *)

Lemma wp_permute_a64 c J N s (Q : list Z -> Prop) : wfs s ->
  (forall s', wfs s' -> sbits s' = KECCAK_f1600 (sbits s) -> Q s') ->
  wpn N (KeccakF1600_StatePermute_aarch64 c J s) Q.
Proof.
  intros W HQ. destruct (permute_a64_correct c J s W) as (t & E & W' & S). unfold wpn. rewrite E. apply HQ; assumption.
Qed.
Lemma wp_permute_x4_a64 c J N s0 s1 s2 s3 (Q : list Z -> Prop) :
  wfs s0 -> wfs s1 -> wfs s2 -> wfs s3 ->
  (forall t0 t1 t2 t3, wfs t0 -> sbits t0 = KECCAK_f1600 (sbits s0) -> wfs t1 -> sbits t1 = KECCAK_f1600 (sbits s1) ->
     wfs t2 -> sbits t2 = KECCAK_f1600 (sbits s2) -> wfs t3 -> sbits t3 = KECCAK_f1600 (sbits s3) ->
     Q (t0 ++ t1 ++ t2 ++ t3)) ->
  wpn N (KeccakF1600x4_StatePermute_aarch64 c J (s0 ++ s1 ++ s2 ++ s3)) Q.
Proof.
  intros W0 W1 W2 W3 HQ.
  destruct (permute_x4_a64_correct c J s0 s1 s2 s3 W0 W1 W2 W3) as (t0 & t1 & t2 & t3 & E & (A0 & B0) & (A1 & B1) & (A2 & B2) & A3 & B3).
  unfold wpn. rewrite E. exact (HQ t0 t1 t2 t3 A0 B0 A1 B1 A2 B2 A3 B3).
Qed.

(** ** Leakage *)

Lemma l_call r J J' s s' : In r keccak_routines -> same any (call_keccak J r s) (call_keccak J' r s').
Proof.
  intros H. destruct (call_trace r H) as [T G].
  assert (N : forall J s, length s <> (25 * r_states r)%nat -> call_keccak J r s = fail OutOfBounds).
  { intros K w N. unfold call_keccak. destruct (ModelA64Keccak.obind _ _) as [[? ?]|]; [|reflexivity].
    apply Nat.eqb_neq in N. now rewrite N. }
  destruct (Nat.eq_dec (length s) (25 * r_states r)) as [L|L]; [|rewrite (N J s L); apply same_fail_l].
  destruct (Nat.eq_dec (length s') (25 * r_states r)) as [L'|L']; [|rewrite (N J' s' L'); apply same_fail_r].
  destruct (G J s L) as [t E]. destruct (G J' s' L') as [t' E']. unfold same. rewrite E, E'. intros _ _. split; [reflexivity|exact I].
Qed.
Lemma l_permute_a64 c J J' s s' :
  same any (KeccakF1600_StatePermute_aarch64 c J s) (KeccakF1600_StatePermute_aarch64 c J' s').
Proof.
  unfold KeccakF1600_StatePermute_aarch64. destruct (x1_native c) as [r|] eqn:E; [|apply l_permute].
  apply l_call. now apply (x1_native_in c).
Qed.
Lemma l_on_words s t o n (f g : list Z -> M (list Z)) : (forall a b, same any (f a) (g b)) ->
  same any (on_words s o n f) (on_words t o n g).
Proof.
  intros H. unfold on_words. eapply same_bind'; [apply same_aslice|]. intros a b _. apply (same_bind' any); [apply H|].
  intros c d _. apply same_asplice.
Qed.
Lemma l_permute4_a64 c J J' s s' :
  same any (KeccakF1600x4_StatePermute_aarch64 c J s) (KeccakF1600x4_StatePermute_aarch64 c J' s').
Proof.
  unfold KeccakF1600x4_StatePermute_aarch64.
  destruct (x4_native c) as [r|] eqn:E4; [|destruct (x2_native c) as [r|] eqn:E2].
  - apply l_call. now apply (x4_native_in c).
  - assert (H : In r keccak_routines) by now apply (x2_native_in c).
    apply (same_bind' any); [apply l_on_words; intros; now apply l_call|intros ? ? _].
    apply l_on_words; intros; now apply l_call.
  - do 3 (apply (same_bind' any); [apply l_on; intros; apply l_permute_a64|intros ? ? _]).
    apply l_on; intros; apply l_permute_a64.
Qed.
