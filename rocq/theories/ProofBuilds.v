(** * Histories of API calls made by different builds follow the abstract machine *)

From Coq Require Import ZArith List Bool Lia.
From Verif Require Import ModelA64Indcpa ModelA64Kem ProofA64Kem.
From Verif Require Import CSem ModelArith ModelKeccak ModelKem ModelX86Kem Spec202 Spec203 SpecLink SpecMem SpecApi SpecNoise
  SpecMachine SpecX86Build SpecBuilds
  CSemFacts ProofPke ProofMem ProofKem ProofKeys ProofApi ProofReturn ProofCorrect ProofMachine ProofX86Kem.
Import ListNotations.
Open Scope Z_scope.
Ltac Zify.zify_post_hook ::= idtac.

Lemma same_lift c c' pos : same_result (val c) (val c') ->
  same_result_at (val ('(r, m) <- c ;; ret (r, m, pos))) (val ('(r, m) <- c' ;; ret (r, m, pos))).
Proof.
  rewrite !val_lift. unfold same_result, same_result_at, memory, mem in *.
  destruct (val c) as [[r m]|e|], (val c') as [[r' m']|e'|]; try (intros []; fail); auto. intros [-> E]. auto.
Qed.
(** One call: the native builds do what the portable code does *)
Lemma build_call_same {bo : byte_order} b s rng m pos : (forall bo', b <> Portable bo') -> byte_memory m -> fits (set_of (pset_of s)) m (call_of s) ->
  same_result_at (val (build_call b s rng m pos)) (val (code_call s rng m pos)).
Proof.
  intros NP B F. destruct b as [bo'| |bd]; [now elim (NP bo')| |]; clear NP.
  all: destruct s as [J fuel p c]; cbn [pset_of call_of fuel_of] in *; pose proof (sizes_pos p) as (P1 & P2 & P3);
    unfold build_call, code_call; cbn [pset_of call_of fuel_of junk_of]; destruct c; cbn [fits] in F.
  Ltac kp B F m coins :=
    let d := constr:(read m coins 32) in let z := constr:(read m (coins + 32) 32) in
    destruct F as (A1 & A2 & A3 & Ap);
    assert (Ac : accessible m coins 32 /\ accessible m (coins + 32) 32) by (split; intros x Hx; apply A3; lia);
    assert (Ld : zlen d = 32) by (apply zlen_read; lia); assert (Lz : zlen z = 32) by (apply zlen_read; lia);
    refine (conj B (conj A1 (conj A2 (conj _ (conj Ld (conj Lz Ap))))));
    apply contains_app; [apply contains_read; (assumption || lia || tauto)|]; rewrite Ld; apply contains_read; (assumption || lia || tauto).
  Ltac en B F :=
    destruct F as (A1 & A2 & A3 & A4 & Ap);
    refine (conj B (conj A1 (conj A2 (conj _ (conj _ (conj _ (conj _ Ap)))))));
    first [apply contains_read; (assumption || lia || tauto) | apply zlen_read; lia].
  Ltac enr B F :=
    destruct F as (A1 & A2 & A3 & Ap & V);
    refine (conj B (conj A1 (conj A2 (conj _ (conj _ (conj Ap V))))));
    first [apply contains_read; (assumption || lia || tauto) | apply zlen_read; lia].
  Ltac de B F :=
    destruct F as (A1 & A2 & A3 & Ap);
    refine (conj B (conj A1 (conj _ (conj _ (conj _ (conj _ Ap))))));
    first [apply contains_read; (assumption || lia || tauto) | apply zlen_read; lia].
  - apply same_lift. apply (keypair_derand_same (bo := bo) J J fuel p m pk sk coins (read m coins 32) (read m (coins + 32) 32)). kp B F m coins.
  - apply keypair_same. destruct F as (A1 & A2 & Ap & V). exact (conj B (conj A1 (conj A2 (conj Ap V)))).
  - apply same_lift. apply (enc_derand_same (bo := bo) J J fuel p m ct ss pk coins (read m pk (ek_size (set_of p))) (read m coins 32)). en B F.
  - apply (enc_same (bo := bo) J J fuel p rng m pos fp ct ss pk (read m pk (ek_size (set_of p)))). enr B F.
  - apply same_lift. apply (dec_same (bo := bo) J J fuel p m ss ct sk (read m sk (dk_size (set_of p))) (read m ct (ct_size (set_of p)))). de B F.
  - apply same_lift. apply (keypair_derand_same_a64 (bo := bo) bd J J fuel p m pk sk coins (read m coins 32) (read m (coins + 32) 32)). kp B F m coins.
  - apply keypair_same_a64. destruct F as (A1 & A2 & Ap & V). exact (conj B (conj A1 (conj A2 (conj Ap V)))).
  - apply same_lift. apply (enc_derand_same_a64 (bo := bo) bd J J fuel p m ct ss pk coins (read m pk (ek_size (set_of p))) (read m coins 32)). en B F.
  - apply (enc_same_a64 (bo := bo) bd J J fuel p rng m pos fp ct ss pk (read m pk (ek_size (set_of p)))). enr B F.
  - apply same_lift. apply (dec_same_a64 (bo := bo) bd J J fuel p m ss ct sk (read m sk (dk_size (set_of p))) (read m ct (ct_size (set_of p)))). de B F.
Qed.

Lemma good_same m o o' spec : good m o spec -> same_result_at o' o -> good m o' spec.
Proof.
  unfold good, same_result_at. destruct spec as [[[r ms] pos]|].
  - intros (m' & -> & E & B & D). destruct o' as [[[r1 m1] pos1]|e|]; try tauto. intros (-> & -> & X).
    exists m1. split; [reflexivity|]. split; [intros x; now rewrite X|]. split.
    + unfold byte_memory in *. intros x v. rewrite X. apply B.
    + intros x. rewrite X. apply D.
  - intros ->. destruct o' as [[[r1 m1] pos1]|e|]; tauto.
Qed.

Lemma build_call_follows b s rng m pos : byte_memory m -> fits (set_of (pset_of s)) m (call_of s) ->
  good m (val (build_call b s rng m pos))
    (machine_call (set_of (pset_of s)) (3 + Z.of_nat (fuel_of s)) rng (call_of s) m pos).
Proof.
  intros B F. destruct b as [bo| |bd]; [now apply (call_follows (bo := bo))| |];
    (eapply good_same; [now apply (call_follows (bo := LittleEndian))|apply build_call_same; [discriminate|exact B|exact F]]).
Qed.

Lemma builds_cons s h rng m pos : val (builds rng (s :: h) m pos) =
  match val (build_call (build_of s) (step_of s) rng m pos) return outcome (list Z * mem * Z) with
  | Ok (r, m, pos) =>
      match val (builds rng h m pos) return outcome (list Z * mem * Z) with Ok (rs, m, pos) => Ok (r :: rs, m, pos) | UB e => UB e | NoFuel => NoFuel end
  | UB e => UB e | NoFuel => NoFuel
  end.
Proof.
  cbn [builds]. unfold val, bind. destruct (build_call _ _ rng m pos) as [[[[r m1] pos1]|e|] t]; [|reflexivity|reflexivity].
  cbn [fst]. destruct (builds rng h m1 pos1) as [[[[rs m2] pos2]|e|] t']; reflexivity.
Qed.

Lemma builds_follow rng h : forall m ms pos, byte_memory m -> (forall x, m x = ms x) -> build_fits m h ->
  match machine rng (map step_of h) ms pos with
  | Some (rs, ms', pos') => exists m', val (builds rng h m pos) = Ok (rs, m', pos') /\ forall x, m' x = ms' x
  | None => val (builds rng h m pos) = NoFuel
  end.
Proof.
  induction h as [|s h IH]; intros m ms pos B E F.
  - cbn [machine builds map]. exists m. auto.
  - apply Forall_cons_iff in F as [F1 F2]. pose proof (build_call_follows (build_of s) (step_of s) rng m pos B F1) as G1.
    pose proof (machine_call_ext (set_of (pset_of (step_of s))) (3 + Z.of_nat (fuel_of (step_of s))) rng (call_of (step_of s)) m ms pos E) as X.
    cbn [machine map]. rewrite builds_cons.
    destruct (machine_call _ _ rng (call_of (step_of s)) m pos) as [[[r1 m1] pos1]|];
      destruct (machine_call _ _ rng (call_of (step_of s)) ms pos) as [[[r2 m2] pos2]|]; cbn [alike] in X; try tauto.
    + destruct X as (<- & X & <-). destruct G1 as (m' & -> & E1 & B1 & D1).
      specialize (IH m' m2 pos1 B1). assert (E2 : forall x, m' x = m2 x) by (intros; now rewrite E1).
      specialize (IH E2). assert (F3 : build_fits m' h).
      { eapply Forall_impl; [|exact F2]. cbv beta. intros a. now apply fits_domain. }
      specialize (IH F3). destruct (machine rng (map step_of h) m2 pos1) as [[[rs m3] pos3]|].
      * destruct IH as (m4 & -> & E4). eauto.
      * now rewrite IH.
    + cbn [good] in G1. now rewrite G1.
Qed.

Lemma builds_exact rng h m pos : byte_memory m -> build_fits m h ->
  match machine rng (map step_of h) m pos with
  | Some (rs, ms, pos') => exists m', val (builds rng h m pos) = Ok (rs, m', pos') /\ forall x, m' x = ms x
  | None => val (builds rng h m pos) = NoFuel
  end.
Proof. intros B F. now apply builds_follow. Qed.

Lemma builds_no_ub rng h m pos e : byte_memory m -> build_fits m h -> val (builds rng h m pos) <> UB e.
Proof.
  intros B F E. pose proof (builds_exact rng h m pos B F) as H.
  destruct (machine _ _ m pos) as [[[rs ms] pos']|]; [destruct H as (m' & H & _)|]; rewrite E in H; discriminate.
Qed.

Lemma same_calls_machine h h' : same_calls h h' -> forall rng m pos,
  machine rng (map step_of h) m pos = machine rng (map step_of h') m pos.
Proof.
  intros S rng. apply machine_junk. induction S; cbn [map]; constructor; auto.
Qed.
Lemma same_calls_fits m h h' : same_calls h h' -> build_fits m h -> build_fits m h'.
Proof.
  induction 1 as [|s s' h h' (E1 & E2 & E3) S IH]; intros F; [constructor|].
  apply Forall_cons_iff in F as [F1 F2]. constructor; [now rewrite <- E2, <- E3|now apply IH].
Qed.

Lemma builds_agree rng h h' m pos : byte_memory m -> build_fits m h -> same_calls h h' ->
  match val (builds rng h m pos), val (builds rng h' m pos) with
  | Ok (rs, m1, pos1), Ok (rs', m1', pos1') => rs = rs' /\ (forall x, m1 x = m1' x) /\ pos1 = pos1'
  | NoFuel, NoFuel => True
  | _, _ => False
  end.
Proof.
  intros B F S. pose proof (builds_exact rng h m pos B F) as H1.
  pose proof (builds_exact rng h' m pos B (same_calls_fits m h h' S F)) as H2.
  rewrite <- (same_calls_machine h h' S) in H2.
  destruct (machine _ _ m pos) as [[[rs ms] pos']|].
  - destruct H1 as (m1 & -> & X1), H2 as (m2 & -> & X2). split; [reflexivity|]. split; [|reflexivity].
    intros x. now rewrite X1, X2.
  - now rewrite H1, H2.
Qed.

(** ** An exchange between three machines *)
Definition portable_step (s : build_step) : build_step :=
  {| build_of := Portable LittleEndian; step_of := step_of s |}.

Lemma contains_ext m m' a l : (forall x, m x = m' x) -> contains m a l -> contains m' a l.
Proof. intros E C i Hi. rewrite <- E. now apply C. Qed.

Lemma builds_exchange b1 b2 b3 J1 J2 J3 fuel p rng m pos pk sk coins ct ss coins2 ss2 d z msg nz :
  exchange_memory (set_of p) m pk sk coins ct ss coins2 ss2 d z msg ->
  kem_noise (set_of p) (3 + Z.of_nat fuel) d msg = Some nz -> harmless_noise msg nz ->
  exists m' K,
    val (builds rng
      [ {| build_of := b1; step_of := {| junk_of := J1; fuel_of := fuel; pset_of := p; call_of := KeypairDerand pk sk coins |} |};
        {| build_of := b2; step_of := {| junk_of := J2; fuel_of := fuel; pset_of := p; call_of := EncDerand ct ss pk coins2 |} |};
        {| build_of := b3; step_of := {| junk_of := J3; fuel_of := fuel; pset_of := p; call_of := Dec ss2 ct sk |} |} ] m pos)
      = Ok ([0; 0; 0], m', pos) /\
    zlen K = 32 /\ contains m' ss K /\ contains m' ss2 K.
Proof.
  intros X E N. set (h := [_; _; _]).
  destruct (honest_exchange (bo := LittleEndian) J1 J2 J3 fuel p m pk sk coins ct ss coins2 ss2 d z msg nz X E N) as (m1 & m2 & m3 & K & E1 & E2 & E3 & L & C1 & C2).
  assert (B : byte_memory m) by apply X.
  assert (F : build_fits m h).
  { destruct X as (_ & A1 & A2 & A3 & A4 & A5 & Cc & Ld & Lz & Cm & Lm & Ap).
    assert (Ac : accessible m coins 64).
    { pose proof (contains_accessible _ _ _ Cc) as H. rewrite zlen_app, Ld, Lz in H. exact H. }
    assert (Am : accessible m coins2 32).
    { pose proof (contains_accessible _ _ _ Cm) as H. rewrite Lm in H. exact H. }
    unfold all_apart in Ap. inversion_clear Ap as [|? ? Fpk Ap1]. inversion_clear Ap1 as [|? ? Fsk Ap2].
    inversion_clear Ap2 as [|? ? Fco Ap3]. inversion_clear Ap3 as [|? ? Fct Ap4]. inversion_clear Ap4 as [|? ? Fss Ap5].
    inversion_clear Ap5 as [|? ? Fc2 _].
    repeat match goal with F : Forall _ (_ :: _) |- _ => apply Forall_cons_iff in F as [? F] end.
    unfold h. repeat (constructor; [cbn [step_of pset_of call_of fits]; repeat (split; [assumption|]);
      first [apply apart3|apply apart4]; first [assumption|apply apart_sym; assumption]|]). constructor. }
  assert (S : same_calls h (map portable_step h)).
  { unfold same_calls, h. cbn [map portable_step]. repeat constructor. }
  pose proof (builds_agree rng h (map portable_step h) m pos B F S) as A.
  assert (EP : val (builds rng (map portable_step h) m pos) = Ok ([0; 0; 0], m3, pos)).
  { unfold h, portable_step. cbn [map step_of build_of].
    rewrite builds_cons. cbn [build_of step_of]. unfold build_call at 1, code_call at 1. cbn [call_of junk_of fuel_of pset_of]. rewrite val_lift, E1. cbv beta iota.
    rewrite builds_cons. cbn [build_of step_of]. unfold build_call at 1, code_call at 1. cbn [call_of junk_of fuel_of pset_of]. rewrite val_lift, E2. cbv beta iota.
    rewrite builds_cons. cbn [build_of step_of]. unfold build_call at 1, code_call at 1. cbn [call_of junk_of fuel_of pset_of]. rewrite val_lift, E3. reflexivity. }
  rewrite EP in A. destruct (val (builds rng h m pos)) as [[[rs m'] pos']|e|]; try tauto. destruct A as (-> & A & ->).
  exists m', K. split; [reflexivity|]. split; [exact L|].
  split; eapply contains_ext; [intros x; symmetry; apply A|exact C1|intros x; symmetry; apply A|exact C2].
Qed.
