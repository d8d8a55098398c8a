(** * Histories of API calls follow the abstract machine *)

From Coq Require Import ZArith List Bool Lia.
From Verif Require Import ModelKeccak.
From Verif Require Import CSem ModelArith ModelKem Spec202 Spec203 SpecLink SpecMem SpecApi SpecMachine
  CSemFacts ProofPke ProofMem ProofKem ProofKeys ProofApi ProofReturn ProofCorrect.
Import ListNotations.
Open Scope Z_scope.
Ltac Zify.zify_post_hook ::= idtac.

(** ** Reading *)
Lemma zlen_read m a len : 0 <= len -> zlen (read m a len) = len.
Proof. intros. unfold read. now rewrite zlen_map, zlen_range. Qed.
Lemma contains_read m a len : 0 <= len -> accessible m a len -> contains m a (read m a len).
Proof.
  intros Hl A i Hi.
  rewrite zlen_read in Hi by auto.
  change (nth (Z.to_nat i) (read m a len) 0) with (zget 0 (read m a len) i). unfold read. rewrite zget_map_range by lia.
  specialize (A (a + i) ltac:(lia)). now destruct (m (a + i)).
Qed.
Lemma contains_app m a u v : contains m a u -> contains m (a + zlen u) v -> contains m a (u ++ v).
Proof.
  intros U V i Hi. rewrite zlen_app in Hi. unfold zlen in *.
  destruct (Z.lt_ge_cases i (Z.of_nat (length u))) as [Hl|Hl].
  - rewrite app_nth1 by lia. apply U. unfold zlen. lia.
  - rewrite app_nth2 by lia. specialize (V (i - Z.of_nat (length u)) ltac:(unfold zlen; lia)).
    replace (a + Z.of_nat (length u) + (i - Z.of_nat (length u))) with (a + i) in V by lia. rewrite V. do 2 f_equal. lia.
Qed.
Lemma read_ext m m' a len : (forall x, m x = m' x) -> read m a len = read m' a len.
Proof. intros E. unfold read. apply map_ext. intros i. now rewrite E. Qed.
Lemma overwrite_ext m m' outs x : (forall x, m x = m' x) -> overwrite m outs x = overwrite m' outs x.
Proof. intros E. induction outs as [|[a l] outs IH]; cbn [overwrite]; [apply E|]. now rewrite IH. Qed.

(** The machine does not look at anything but the contents *)
Definition alike (o o' : option (Z * memory * Z)) : Prop :=
  match o, o' with
  | Some (r, m, pos), Some (r', m', pos') => r = r' /\ (forall x, m x = m' x) /\ pos = pos'
  | None, None => True
  | _, _ => False
  end.
Lemma machine_call_ext P b rng c m m' pos : (forall x, m x = m' x) ->
  alike (machine_call P b rng c m pos) (machine_call P b rng c m' pos).
Proof.
  intros E. unfold machine_call. destruct c; rewrite ?(read_ext _ _ _ _ E).
  - destruct (ML_KEM_KeyGen_internal _ _ _ _) as [[ek dk]|]; cbn [alike]; auto.
    split; [reflexivity|split; [|reflexivity]]. intros x. now apply overwrite_ext.
  - destruct (ML_KEM_KeyGen_internal _ _ _ _) as [[ek dk]|]; cbn [alike]; auto.
    split; [reflexivity|split; [|reflexivity]]. intros x. now apply overwrite_ext.
  - destruct (same _ _); [|cbn [alike]; auto]. destruct (ML_KEM_Encaps_internal _ _ _ _) as [[K c]|]; cbn [alike]; auto.
    split; [reflexivity|split; [|reflexivity]]. intros x. now apply overwrite_ext.
  - destruct (same _ _); [|cbn [alike]; auto]. destruct (ML_KEM_Encaps_internal _ _ _ _) as [[K c]|]; cbn [alike]; auto.
    split; [reflexivity|split; [|reflexivity]]. intros x. now apply overwrite_ext.
  - cbv zeta. destruct (same _ _); [|cbn [alike]; auto]. destruct (ML_KEM_Decaps_internal _ _ _ _) as [K|]; cbn [alike]; auto.
    split; [reflexivity|split; [|reflexivity]]. intros x. now apply overwrite_ext.
Qed.

(** ** One call *)
Definition same_domain (m m' : memory) : Prop := forall x, m' x = None <-> m x = None.
Lemma overwrite_domain m outs : (forall a o, In (a, o) outs -> accessible m a (zlen o)) -> same_domain m (overwrite m outs).
Proof.
  intros A x. induction outs as [|[a l] outs IH]; cbn [overwrite]; [tauto|].
  destruct ((a <=? x) && (x <? a + zlen l)) eqn:E.
  - specialize (A a l (or_introl eq_refl) x ltac:(lia)). split; [discriminate|]. intros H. now elim A.
  - apply IH. intros b o Hi. apply A. now right.
Qed.
Lemma fits_domain P m m' c : same_domain m m' -> fits P m c -> fits P m' c.
Proof.
  intros D. assert (A : forall a len, accessible m a len -> accessible m' a len).
  { intros a len H x Hx E. apply (H x Hx). now apply D. }
  assert (V : forall a len, vacant m a len -> vacant m' a len).
  { intros a len H x Hx. now apply D, H. }
  unfold fits. destruct c; intuition auto.
Qed.

Definition good (m : memory) (o : outcome (Z * mem * Z)) (spec : option (Z * memory * Z)) : Prop :=
  match spec with
  | Some (r, ms, pos') => exists m', o = Ok (r, m', pos') /\ (forall x, m' x = ms x) /\ byte_memory m' /\ same_domain m m'
  | None => o = NoFuel
  end.

Lemma good_finished m o r pos outs : finished_at o m r pos outs -> byte_memory m ->
  (forall a l, In (a, l) outs -> bytes l /\ accessible m a (zlen l)) ->
  good m o (Some (r, overwrite m outs, pos)).
Proof.
  intros (m' & E & H) B O. exists m'. split; [exact E|]. split; [exact H|]. split.
  - apply (byte_kept m m' outs B H). intros b l Hi. now apply (O b).
  - intros x. rewrite H. apply overwrite_domain. intros a l Hi. now apply O.
Qed.
(** a function without random bytes leaves the position alone *)
Lemma val_lift (c : M (Z * mem)) pos : val ('(r, m) <- c ;; ret (r, m, pos)) =
  match val c return outcome (Z * mem * Z) with Ok (r, m) => Ok (r, m, pos) | UB e => UB e | NoFuel => NoFuel end.
Proof. unfold val, bind. destruct c as [[[r m]|e|] t]; reflexivity. Qed.
Lemma finished_lift c m r pos outs : finished (val c) m r outs ->
  finished_at (val ('(r, m) <- c ;; ret (r, m, pos))) m r pos outs.
Proof. intros (m' & E & H). exists m'. rewrite val_lift. unfold mem, memory in *. rewrite E. auto. Qed.

Lemma same_true a b : same a b = true <-> a = b.
Proof. unfold same. destruct (list_eq_dec Z.eq_dec a b); split; congruence. Qed.
Lemma same_false a b : same a b = false <-> a <> b.
Proof. unfold same. destruct (list_eq_dec Z.eq_dec a b); split; congruence. Qed.

Lemma sizes_pos p : 0 <= ek_size (set_of p) /\ 0 <= dk_size (set_of p) /\ 0 <= ct_size (set_of p).
Proof. destruct p; cbn; lia. Qed.
Lemma read_bytes m a len : 0 <= len -> byte_memory m -> accessible m a len -> bytes (read m a len).
Proof. intros Hl B A. exact (contains_bytes _ _ _ B (contains_read m a len Hl A)). Qed.

Lemma call_follows {bo : byte_order} s rng m pos : byte_memory m -> fits (set_of (pset_of s)) m (call_of s) ->
  good m (val (code_call s rng m pos))
    (machine_call (set_of (pset_of s)) (3 + Z.of_nat (fuel_of s)) rng (call_of s) m pos).
Proof.
  intros B F. destruct s as [J fuel p c]. cbn [pset_of call_of fuel_of] in *.
  pose proof (sizes_pos p) as (P1 & P2 & P3). set (b := 3 + Z.of_nat fuel). assert (Hb : 0 <= b) by (unfold b; lia).
  destruct c; cbn [fits] in F; unfold code_call, machine_call; cbn [junk_of fuel_of pset_of call_of].
  - destruct F as (A1 & A2 & A3 & Ap). set (d := read m coins 32). set (z := read m (coins + 32) 32).
    assert (Ac : accessible m coins 32 /\ accessible m (coins + 32) 32) by (split; intros x Hx; apply A3; lia).
    assert (Ld : zlen d = 32) by (apply zlen_read; lia). assert (Lz : zlen z = 32) by (apply zlen_read; lia).
    assert (C : keypair_call (set_of p) m pk sk coins d z).
    { refine (conj B (conj A1 (conj A2 (conj _ (conj Ld (conj Lz Ap)))))).
      apply contains_app; [apply contains_read; (assumption || lia || tauto)|]. rewrite Ld. apply contains_read; (assumption || lia || tauto). }
    pose proof (keypair_derand_exact J fuel p m pk sk coins d z C) as R. fold b in R.
    destruct (ML_KEM_KeyGen_internal (set_of p) b d z) as [[ek dk]|] eqn:EK.
    + apply good_finished; auto using finished_lift.
      destruct (keypair_call_bytes _ _ _ _ _ _ _ C) as [Bd Bz].
      destruct (keygen_keys p b d z ek dk Bd Bz Lz Hb EK) as (L1 & B1 & L2 & B2 & _).
      intros a l [Hi|[Hi|[]]]; injection Hi as <- <-; rewrite ?L1, ?L2; auto.
    + cbn [good]. rewrite val_lift, R. reflexivity.
  - destruct F as (A1 & A2 & Ap & V). assert (C : keypair_rand_call (set_of p) m fp pk sk) by exact (conj B (conj A1 (conj A2 (conj Ap V)))).
    pose proof (keypair_exact J fuel p rng m pos fp pk sk C) as R. fold b in R.
    destruct (ML_KEM_KeyGen_internal (set_of p) b _ _) as [[ek dk]|] eqn:EK; [|exact R].
    apply good_finished; auto.
    apply keygen_keys in EK as (L1 & B1 & L2 & B2 & _); try apply bytes_drawn; try (apply zlen_drawn; lia); auto.
    intros a l [Hi|[Hi|[]]]; injection Hi as <- <-; rewrite ?L1, ?L2; auto.
  - destruct F as (A1 & A2 & A3 & A4 & Ap). set (ek := read m pk (ek_size (set_of p))). set (msg := read m coins 32).
    assert (Le : zlen ek = ek_size (set_of p)) by (apply zlen_read; lia). assert (Lm : zlen msg = 32) by (apply zlen_read; lia).
    assert (C : enc_call (set_of p) m ct ss pk coins ek msg).
    { refine (conj B (conj A1 (conj A2 (conj _ (conj Le (conj _ (conj Lm Ap)))))))  ; apply contains_read; (assumption || lia || tauto). }
    destruct (same _ _) eqn:ES.
    + apply same_true in ES. pose proof (enc_derand_exact J fuel p m ct ss pk coins ek msg C ES) as R. fold b in R.
      destruct (ML_KEM_Encaps_internal (set_of p) b ek msg) as [[K c]|] eqn:EK.
      * apply good_finished; auto using finished_lift. destruct (enc_call_bytes _ _ _ _ _ _ _ _ C) as [Be Bm].
        destruct (encaps_out p b ek msg K c Be Bm Le Lm Hb EK) as (L1 & B1 & L2 & B2).
        intros a l [Hi|[Hi|[]]]; injection Hi as <- <-; rewrite ?L1, ?L2; auto.
      * cbn [good]. rewrite val_lift, R. reflexivity.
    + apply same_false in ES. pose proof (enc_derand_reject J fuel p m ct ss pk coins ek msg C ES) as R.
      cbn [good]. rewrite val_lift, R. exists m. split; [reflexivity|]. split; [reflexivity|]. split; [exact B|]. intros x. tauto.
  - destruct F as (A1 & A2 & A3 & Ap & V). set (ek := read m pk (ek_size (set_of p))).
    assert (Le : zlen ek = ek_size (set_of p)) by (apply zlen_read; lia).
    assert (C : enc_rand_call (set_of p) m fp ct ss pk ek).
    { refine (conj B (conj A1 (conj A2 (conj _ (conj Le (conj Ap V)))))). apply contains_read; (assumption || lia || tauto). }
    assert (Be : bytes ek) by now apply read_bytes.
    destruct (same _ _) eqn:ES.
    + apply same_true in ES. pose proof (enc_exact J fuel p rng m pos fp ct ss pk ek C ES) as R. fold b in R.
      destruct (ML_KEM_Encaps_internal (set_of p) b ek _) as [[K c]|] eqn:EK; [|exact R].
      apply good_finished; auto.
      apply encaps_out in EK as (L1 & B1 & L2 & B2); try apply bytes_drawn; try (apply zlen_drawn; lia); auto.
      intros a l [Hi|[Hi|[]]]; injection Hi as <- <-; rewrite ?L1, ?L2; auto.
    + apply same_false in ES. apply (good_finished m _ (-1) (pos + 32) []); auto; [|intros a l []].
      exact (enc_reject J fuel p rng m pos fp ct ss pk ek C ES).
  - destruct F as (A1 & A2 & A3 & Ap). cbv zeta. set (dk := read m sk (dk_size (set_of p))). set (c := read m ct (ct_size (set_of p))).
    assert (Ld : zlen dk = dk_size (set_of p)) by (apply zlen_read; lia). assert (Lc : zlen c = ct_size (set_of p)) by (apply zlen_read; lia).
    assert (C : dec_call (set_of p) m ss ct sk dk c).
    { refine (conj B (conj A1 (conj _ (conj Ld (conj _ (conj Lc Ap)))))); apply contains_read; (assumption || lia || tauto). }
    destruct (same _ _) eqn:ES.
    + apply same_true in ES. pose proof (dec_exact J fuel p m ss ct sk dk c C ES) as R. fold b in R.
      destruct (ML_KEM_Decaps_internal (set_of p) b dk c) as [K|] eqn:EK.
      * apply good_finished; auto using finished_lift. destruct (dec_call_bytes _ _ _ _ _ _ _ C) as [Bd Bc].
        apply decaps_out in EK as (L1 & B1); auto.
        intros a l [Hi|[]]; injection Hi as <- <-; rewrite ?L1; auto.
      * cbn [good]. rewrite val_lift, R. reflexivity.
    + apply same_false in ES. pose proof (dec_reject J fuel p m ss ct sk dk c C ES) as R.
      cbn [good]. rewrite val_lift, R. exists m. split; [reflexivity|]. split; [reflexivity|]. split; [exact B|]. intros x. tauto.
Qed.

(** ** Histories *)
Definition fits_all (m : memory) (h : list step) : Prop :=
  Forall (fun s => fits (set_of (pset_of s)) m (call_of s)) h.

Lemma val_cons {bo : byte_order} s h rng m pos : val (code rng (s :: h) m pos) =
  match val (code_call s rng m pos) return outcome (list Z * mem * Z) with
  | Ok (r, m, pos) =>
      match val (code rng h m pos) return outcome (list Z * mem * Z) with Ok (rs, m, pos) => Ok (r :: rs, m, pos) | UB e => UB e | NoFuel => NoFuel end
  | UB e => UB e | NoFuel => NoFuel
  end.
Proof.
  cbn [code]. unfold val, bind. destruct (code_call s rng m pos) as [[[[r m1] pos1]|e|] t]; [|reflexivity|reflexivity].
  cbn [fst]. destruct (code rng h m1 pos1) as [[[[rs m2] pos2]|e|] t']; reflexivity.
Qed.

Lemma history_follows {bo : byte_order} rng h : forall m ms pos, byte_memory m -> (forall x, m x = ms x) ->
  Forall (fun s => fits (set_of (pset_of s)) m (call_of s)) h ->
  match machine rng h ms pos with
  | Some (rs, ms', pos') => exists m', val (code rng h m pos) = Ok (rs, m', pos') /\ forall x, m' x = ms' x
  | None => val (code rng h m pos) = NoFuel
  end.
Proof.
  induction h as [|s h IH]; intros m ms pos B E F.
  - cbn [machine code]. exists m. auto.
  - apply Forall_cons_iff in F as [F1 F2]. pose proof (call_follows s rng m pos B F1) as G1.
    pose proof (machine_call_ext (set_of (pset_of s)) (3 + Z.of_nat (fuel_of s)) rng (call_of s) m ms pos E) as X.
    cbn [machine]. rewrite val_cons.
    destruct (machine_call _ _ rng (call_of s) m pos) as [[[r1 m1] pos1]|];
      destruct (machine_call _ _ rng (call_of s) ms pos) as [[[r2 m2] pos2]|]; cbn [alike] in X; try tauto.
    + destruct X as (<- & X & <-). destruct G1 as (m' & -> & E1 & B1 & D1).
      specialize (IH m' m2 pos1 B1). assert (E2 : forall x, m' x = m2 x) by (intros; now rewrite E1).
      specialize (IH E2). assert (F3 : Forall (fun s => fits (set_of (pset_of s)) m' (call_of s)) h).
      { eapply Forall_impl; [|exact F2]. cbv beta. intros a. now apply fits_domain. }
      specialize (IH F3). destruct (machine rng h m2 pos1) as [[[rs m3] pos3]|].
      * destruct IH as (m4 & -> & E4). eauto.
      * now rewrite IH.
    + cbn [good] in G1. now rewrite G1.
Qed.

Lemma history_exact {bo : byte_order} rng h m pos : byte_memory m -> fits_all m h ->
  match machine rng h m pos with
  | Some (rs, ms, pos') => exists m', val (code rng h m pos) = Ok (rs, m', pos') /\ forall x, m' x = ms x
  | None => val (code rng h m pos) = NoFuel
  end.
Proof. intros B F. now apply history_follows. Qed.

Lemma history_no_ub {bo : byte_order} rng h m pos e : byte_memory m -> fits_all m h -> val (code rng h m pos) <> UB e.
Proof.
  intros B F E. pose proof (history_exact rng h m pos B F) as H.
  destruct (machine rng h m pos) as [[[rs ms] pos']|]; [destruct H as (m' & H & _)|]; rewrite E in H; discriminate.
Qed.

Lemma machine_junk rng h h' : Forall2 (fun s s' => fuel_of s = fuel_of s' /\ pset_of s = pset_of s' /\ call_of s = call_of s') h h' ->
  forall m pos, machine rng h m pos = machine rng h' m pos.
Proof.
  induction 1 as [|s s' h h' (E1 & E2 & E3) Hh IH]; intros m pos; [reflexivity|]. cbn [machine]. rewrite E1, E2, E3.
  destruct (machine_call _ _ _ _ _ _) as [[[r m1] pos1]|]; [|reflexivity]. now rewrite IH.
Qed.
Lemma history_junk {bo : byte_order} rng h h' m pos rs m1 pos1 : byte_memory m -> fits_all m h ->
  Forall2 (fun s s' => fuel_of s = fuel_of s' /\ pset_of s = pset_of s' /\ call_of s = call_of s') h h' ->
  val (code rng h m pos) = Ok (rs, m1, pos1) ->
  exists m2, val (code rng h' m pos) = Ok (rs, m2, pos1) /\ forall x, m2 x = m1 x.
Proof.
  intros B F S E. assert (F' : fits_all m h').
  { clear E. induction S as [|s s' h h' (E1 & E2 & E3) Hh IH]; [constructor|].
    apply Forall_cons_iff in F as [F1 F2]. constructor; [now rewrite <- E2, <- E3|now apply IH]. }
  pose proof (history_exact rng h m pos B F) as H1. pose proof (history_exact rng h' m pos B F') as H2.
  rewrite <- (machine_junk rng h h' S) in H2.
  destruct (machine rng h m pos) as [[[rs' ms] pos']|]; [|rewrite E in H1; discriminate].
  destruct H1 as (m' & H1 & X1). destruct H2 as (m'' & H2 & X2). rewrite E in H1. injection H1 as <- <- <-.
  exists m''. split; [exact H2|]. intros x. now rewrite X1, X2.
Qed.
