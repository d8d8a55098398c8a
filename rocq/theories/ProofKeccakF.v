(** * KECCAK-f[1600] *)

From Coq Require Import ZArith List Bool Lia ZifyBool.
From Verif Require Import CSem ModelArith ModelKeccak Spec202 CSemFacts ProofScalar ProofBits.
Import ListNotations.
Open Scope Z_scope.
Ltac Zify.zify_post_hook ::= Z.to_euclidean_division_equations.

(** One round of the code on 25 lanes: the first half of [keccak_two_rounds] *)
Definition one_round (rc0 : Z) (A : lanes) : lanes :=
  let '(Aba, Abe, Abi, Abo, Abu,
   Aga, Age, Agi, Ago, Agu,
   Aka, Ake, Aki, Ako, Aku,
   Ama, Ame, Ami, Amo, Amu,
   Asa, Ase, Asi, Aso, Asu) := A in
  (* prepareTheta -- keccakf1600.c 166 *)
  let BCa := Aba .^ Aga .^ Aka .^ Ama .^ Asa in
  let BCe := Abe .^ Age .^ Ake .^ Ame .^ Ase in
  let BCi := Abi .^ Agi .^ Aki .^ Ami .^ Asi in
  let BCo := Abo .^ Ago .^ Ako .^ Amo .^ Aso in
  let BCu := Abu .^ Agu .^ Aku .^ Amu .^ Asu in
  (* thetaRhoPiChiIotaPrepareTheta(round  , A, E) -- keccakf1600.c 173 *)
  let Da := BCu .^ ROL BCe 1 in
  let De := BCa .^ ROL BCi 1 in
  let Di := BCe .^ ROL BCo 1 in
  let Do := BCi .^ ROL BCu 1 in
  let Du := BCo .^ ROL BCa 1 in
  let Aba := Aba .^ Da in
  let BCa := Aba in
  let Age := Age .^ De in
  let BCe := ROL Age 44 in
  let Aki := Aki .^ Di in
  let BCi := ROL Aki 43 in
  let Amo := Amo .^ Do in
  let BCo := ROL Amo 21 in
  let Asu := Asu .^ Du in
  let BCu := ROL Asu 14 in
  let Eba := BCa .^ (not64 BCe .& BCi) in
  let Eba := Eba .^ rc0 in
  let Ebe := BCe .^ (not64 BCi .& BCo) in
  let Ebi := BCi .^ (not64 BCo .& BCu) in
  let Ebo := BCo .^ (not64 BCu .& BCa) in
  let Ebu := BCu .^ (not64 BCa .& BCe) in
  let Abo := Abo .^ Do in
  let BCa := ROL Abo 28 in
  let Agu := Agu .^ Du in
  let BCe := ROL Agu 20 in
  let Aka := Aka .^ Da in
  let BCi := ROL Aka 3 in
  let Ame := Ame .^ De in
  let BCo := ROL Ame 45 in
  let Asi := Asi .^ Di in
  let BCu := ROL Asi 61 in
  let Ega := BCa .^ (not64 BCe .& BCi) in
  let Ege := BCe .^ (not64 BCi .& BCo) in
  let Egi := BCi .^ (not64 BCo .& BCu) in
  let Ego := BCo .^ (not64 BCu .& BCa) in
  let Egu := BCu .^ (not64 BCa .& BCe) in
  let Abe := Abe .^ De in
  let BCa := ROL Abe 1 in
  let Agi := Agi .^ Di in
  let BCe := ROL Agi 6 in
  let Ako := Ako .^ Do in
  let BCi := ROL Ako 25 in
  let Amu := Amu .^ Du in
  let BCo := ROL Amu 8 in
  let Asa := Asa .^ Da in
  let BCu := ROL Asa 18 in
  let Eka := BCa .^ (not64 BCe .& BCi) in
  let Eke := BCe .^ (not64 BCi .& BCo) in
  let Eki := BCi .^ (not64 BCo .& BCu) in
  let Eko := BCo .^ (not64 BCu .& BCa) in
  let Eku := BCu .^ (not64 BCa .& BCe) in
  let Abu := Abu .^ Du in
  let BCa := ROL Abu 27 in
  let Aga := Aga .^ Da in
  let BCe := ROL Aga 36 in
  let Ake := Ake .^ De in
  let BCi := ROL Ake 10 in
  let Ami := Ami .^ Di in
  let BCo := ROL Ami 15 in
  let Aso := Aso .^ Do in
  let BCu := ROL Aso 56 in
  let Ema := BCa .^ (not64 BCe .& BCi) in
  let Eme := BCe .^ (not64 BCi .& BCo) in
  let Emi := BCi .^ (not64 BCo .& BCu) in
  let Emo := BCo .^ (not64 BCu .& BCa) in
  let Emu := BCu .^ (not64 BCa .& BCe) in
  let Abi := Abi .^ Di in
  let BCa := ROL Abi 62 in
  let Ago := Ago .^ Do in
  let BCe := ROL Ago 55 in
  let Aku := Aku .^ Du in
  let BCi := ROL Aku 39 in
  let Ama := Ama .^ Da in
  let BCo := ROL Ama 41 in
  let Ase := Ase .^ De in
  let BCu := ROL Ase 2 in
  let Esa := BCa .^ (not64 BCe .& BCi) in
  let Ese := BCe .^ (not64 BCi .& BCo) in
  let Esi := BCi .^ (not64 BCo .& BCu) in
  let Eso := BCo .^ (not64 BCu .& BCa) in
  let Esu := BCu .^ (not64 BCa .& BCe) in
  (Eba, Ebe, Ebi, Ebo, Ebu,
   Ega, Ege, Egi, Ego, Egu,
   Eka, Eke, Eki, Eko, Eku,
   Ema, Eme, Emi, Emo, Emu,
   Esa, Ese, Esi, Eso, Esu).

Lemma two_rounds_eq rc0 rc1 A : keccak_two_rounds rc0 rc1 A = one_round rc1 (one_round rc0 A).
Proof. repeat (destruct A as [A ?]). reflexivity. Qed.

(** The round after the theta effect [D] has been computed *)
Definition round_D (rc0 : Z) (A : lanes) (Da De Di Do Du : Z) : lanes :=
  let '(Aba, Abe, Abi, Abo, Abu,
   Aga, Age, Agi, Ago, Agu,
   Aka, Ake, Aki, Ako, Aku,
   Ama, Ame, Ami, Amo, Amu,
   Asa, Ase, Asi, Aso, Asu) := A in
  let Aba := Aba .^ Da in
  let BCa := Aba in
  let Age := Age .^ De in
  let BCe := ROL Age 44 in
  let Aki := Aki .^ Di in
  let BCi := ROL Aki 43 in
  let Amo := Amo .^ Do in
  let BCo := ROL Amo 21 in
  let Asu := Asu .^ Du in
  let BCu := ROL Asu 14 in
  let Eba := BCa .^ (not64 BCe .& BCi) in
  let Eba := Eba .^ rc0 in
  let Ebe := BCe .^ (not64 BCi .& BCo) in
  let Ebi := BCi .^ (not64 BCo .& BCu) in
  let Ebo := BCo .^ (not64 BCu .& BCa) in
  let Ebu := BCu .^ (not64 BCa .& BCe) in
  let Abo := Abo .^ Do in
  let BCa := ROL Abo 28 in
  let Agu := Agu .^ Du in
  let BCe := ROL Agu 20 in
  let Aka := Aka .^ Da in
  let BCi := ROL Aka 3 in
  let Ame := Ame .^ De in
  let BCo := ROL Ame 45 in
  let Asi := Asi .^ Di in
  let BCu := ROL Asi 61 in
  let Ega := BCa .^ (not64 BCe .& BCi) in
  let Ege := BCe .^ (not64 BCi .& BCo) in
  let Egi := BCi .^ (not64 BCo .& BCu) in
  let Ego := BCo .^ (not64 BCu .& BCa) in
  let Egu := BCu .^ (not64 BCa .& BCe) in
  let Abe := Abe .^ De in
  let BCa := ROL Abe 1 in
  let Agi := Agi .^ Di in
  let BCe := ROL Agi 6 in
  let Ako := Ako .^ Do in
  let BCi := ROL Ako 25 in
  let Amu := Amu .^ Du in
  let BCo := ROL Amu 8 in
  let Asa := Asa .^ Da in
  let BCu := ROL Asa 18 in
  let Eka := BCa .^ (not64 BCe .& BCi) in
  let Eke := BCe .^ (not64 BCi .& BCo) in
  let Eki := BCi .^ (not64 BCo .& BCu) in
  let Eko := BCo .^ (not64 BCu .& BCa) in
  let Eku := BCu .^ (not64 BCa .& BCe) in
  let Abu := Abu .^ Du in
  let BCa := ROL Abu 27 in
  let Aga := Aga .^ Da in
  let BCe := ROL Aga 36 in
  let Ake := Ake .^ De in
  let BCi := ROL Ake 10 in
  let Ami := Ami .^ Di in
  let BCo := ROL Ami 15 in
  let Aso := Aso .^ Do in
  let BCu := ROL Aso 56 in
  let Ema := BCa .^ (not64 BCe .& BCi) in
  let Eme := BCe .^ (not64 BCi .& BCo) in
  let Emi := BCi .^ (not64 BCo .& BCu) in
  let Emo := BCo .^ (not64 BCu .& BCa) in
  let Emu := BCu .^ (not64 BCa .& BCe) in
  let Abi := Abi .^ Di in
  let BCa := ROL Abi 62 in
  let Ago := Ago .^ Do in
  let BCe := ROL Ago 55 in
  let Aku := Aku .^ Du in
  let BCi := ROL Aku 39 in
  let Ama := Ama .^ Da in
  let BCo := ROL Ama 41 in
  let Ase := Ase .^ De in
  let BCu := ROL Ase 2 in
  let Esa := BCa .^ (not64 BCe .& BCi) in
  let Ese := BCe .^ (not64 BCi .& BCo) in
  let Esi := BCi .^ (not64 BCo .& BCu) in
  let Eso := BCo .^ (not64 BCu .& BCa) in
  let Esu := BCu .^ (not64 BCa .& BCe) in
  (Eba, Ebe, Ebi, Ebo, Ebu,
   Ega, Ege, Egi, Ego, Egu,
   Eka, Eke, Eki, Eko, Eku,
   Ema, Eme, Emi, Emo, Emu,
   Esa, Ese, Esi, Eso, Esu).

Definition colpar (a b c d e : Z) : Z := a .^ b .^ c .^ d .^ e.
Lemma one_round_D rc A : one_round rc A =
  let '(Aba, Abe, Abi, Abo, Abu,
   Aga, Age, Agi, Ago, Agu,
   Aka, Ake, Aki, Ako, Aku,
   Ama, Ame, Ami, Amo, Amu,
   Asa, Ase, Asi, Aso, Asu) := A in
  let BCa := colpar Aba Aga Aka Ama Asa in
  let BCe := colpar Abe Age Ake Ame Ase in
  let BCi := colpar Abi Agi Aki Ami Asi in
  let BCo := colpar Abo Ago Ako Amo Aso in
  let BCu := colpar Abu Agu Aku Amu Asu in
  round_D rc A (BCu .^ ROL BCe 1) (BCa .^ ROL BCi 1) (BCe .^ ROL BCo 1) (BCi .^ ROL BCu 1) (BCo .^ ROL BCa 1).
Proof. repeat (destruct A as [A ?]). reflexivity. Qed.

Definition lane_list (A : lanes) : list Z :=
  let '(Aba, Abe, Abi, Abo, Abu,
   Aga, Age, Agi, Ago, Agu,
   Aka, Ake, Aki, Ako, Aku,
   Ama, Ame, Ami, Amo, Amu,
   Asa, Ase, Asi, Aso, Asu) := A in
  [Aba; Abe; Abi; Abo; Abu;
   Aga; Age; Agi; Ago; Agu;
   Aka; Ake; Aki; Ako; Aku;
   Ama; Ame; Ami; Amo; Amu;
   Asa; Ase; Asi; Aso; Asu].

(** ** Bits of lanes *)

Definition wf64 (a : Z) : Prop := 0 <= a < 2 ^ 64.

Lemma wf64_bits a : wf64 a <-> 0 <= a /\ forall z, 64 <= z -> Z.testbit a z = false.
Proof.
  unfold wf64. split.
  - intros H. split; [lia|]. intros z Hz. apply (testbit_high a 64 z); lia.
  - intros [H0 H]. split; auto. destruct (Z.eq_dec a 0) as [-> |]; [lia|].
    apply Z.log2_lt_pow2; [lia|]. destruct (Z.lt_ge_cases (Z.log2 a) 64); auto.
    exfalso. pose proof (Z.bit_log2 a ltac:(lia)) as B. rewrite H in B by auto. discriminate.
Qed.
Lemma wf64_lxor a b : wf64 a -> wf64 b -> wf64 (a .^ b).
Proof.
  rewrite !wf64_bits. intros [Ha Ba] [Hb Bb]. split; [apply Z.lxor_nonneg; lia|].
  intros z Hz. rewrite Z.lxor_spec, Ba, Bb by auto. reflexivity.
Qed.
Lemma wf64_land a b : wf64 a -> wf64 (b .& a).
Proof.
  rewrite !wf64_bits. intros [Ha Ba]. split; [apply Z.land_nonneg; lia|].
  intros z Hz. rewrite Z.land_spec, Ba by auto. apply andb_false_r.
Qed.
Lemma wf64_u64 a : wf64 (u64 a).
Proof. unfold wf64, u64. apply Z.mod_pos_bound. lia. Qed.
Lemma wf64_not a : wf64 (not64 a). Proof. apply wf64_u64. Qed.
Lemma wf64_shr a n : 0 <= n -> wf64 a -> wf64 (a >> n).
Proof.
  rewrite !wf64_bits. intros Hn [Ha Ba]. split; [apply Z.shiftr_nonneg; lia|].
  intros z Hz. rewrite Z.shiftr_spec by lia. apply Ba. lia.
Qed.
Lemma wf64_ROL a n : 0 <= n <= 64 -> wf64 a -> wf64 (ROL a n).
Proof. intros. apply wf64_lxor; [apply wf64_u64|apply wf64_shr; auto; lia]. Qed.

Lemma testbit_u64 a z : 0 <= z < 64 -> Z.testbit (u64 a) z = Z.testbit a z.
Proof. intros. unfold u64. change 18446744073709551616 with (2 ^ 64). apply Z.mod_pow2_bits_low. lia. Qed.
Lemma testbit_not a z : 0 <= z < 64 -> Z.testbit (not64 a) z = negb (Z.testbit a z).
Proof. intros. unfold not64. rewrite testbit_u64 by auto. now rewrite Z.lnot_spec by lia. Qed.
Lemma testbit_ROL a n z : wf64 a -> 0 < n < 64 -> 0 <= z < 64 ->
  Z.testbit (ROL a n) z = Z.testbit a ((z - n) mod 64).
Proof.
  intros [_ B]%wf64_bits Hn Hz. unfold ROL. rewrite Z.lxor_spec, testbit_u64 by auto.
  rewrite Z.shiftl_spec, Z.shiftr_spec by lia.
  destruct (Z.lt_ge_cases z n).
  - rewrite Z.testbit_neg_r by lia. replace ((z - n) mod 64) with (z + (64 - n)) by lia.
    apply xorb_false_l.
  - rewrite (B (z + (64 - n))) by lia. replace ((z - n) mod 64) with (z - n) by lia.
    apply xorb_false_r.
Qed.

(** The array of bits of a list of lanes *)
Definition arr (s : list Z) : array := fun x y z => Z.testbit (zget 0 s (5 * y + x)) z.

Lemma five x : 0 <= x < 5 -> x = 0 \/ x = 1 \/ x = 2 \/ x = 3 \/ x = 4. Proof. lia. Qed.

Lemma rho_mod A x y z : rho A x y z = A x y ((z - rho_offset x y mod 64) mod 64).
Proof. unfold rho. rewrite Zminus_mod_idemp_r. reflexivity. Qed.

Ltac rot :=
  match goal with
  | |- context [Z.testbit (ROL ?a ?n) ?z] =>
      rewrite (testbit_ROL a n z) by (first [lia | apply wf64_lxor; assumption])
  end.
Ltac num e := let v := eval vm_compute in e in change e with v.
Ltac norm_idx :=
  repeat match goal with
  | |- context [(?a + 1) mod 5] => num ((a + 1) mod 5)
  | |- context [(?a + 2) mod 5] => num ((a + 2) mod 5)
  | |- context [(?a + 3 * ?b) mod 5] => num ((a + 3 * b) mod 5)
  end.

Lemma mod64 z : 0 <= z mod 64 < 64. Proof. apply Z.mod_pos_bound; lia. Qed.

Lemma round_D_bits ir rc A (D : Z -> Z) x y z :
  Forall wf64 (lane_list A) -> (forall x, 0 <= x < 5 -> wf64 (D x)) ->
  (forall z, 0 <= z < 64 -> Z.testbit rc z = RC ir z) ->
  0 <= x < 5 -> 0 <= y < 5 -> 0 <= z < 64 ->
  arr (lane_list (round_D rc A (D 0) (D 1) (D 2) (D 3) (D 4))) x y z =
  iota ir (chi (pi (rho (fun x y z => xorb (arr (lane_list A) x y z) (Z.testbit (D x) z))))) x y z.
Proof.
  intros HA HD Hrc Hx Hy Hz.
  pose proof (HD 0 ltac:(lia)) as W0. pose proof (HD 1 ltac:(lia)) as W1.
  pose proof (HD 2 ltac:(lia)) as W2. pose proof (HD 3 ltac:(lia)) as W3.
  pose proof (HD 4 ltac:(lia)) as W4.
  repeat (destruct A as [A ?]). cbn [lane_list] in *.
  repeat match goal with H : Forall _ (_ :: _) |- _ => apply Forall_cons_iff in H; destruct H as [? H] end.
  pose proof mod64 as M64.
  destruct (five x Hx) as [-> |[-> |[-> |[-> | ->]]]];
  destruct (five y Hy) as [-> |[-> |[-> |[-> | ->]]]];
  unfold iota, chi, pi; rewrite !rho_mod; norm_idx;
  repeat match goal with |- context [rho_offset ?a ?b mod 64] => num (rho_offset a b mod 64) end;
  cbn [Z.eqb Pos.eqb andb];
  unfold arr, round_D; cbn [lane_list];
  repeat match goal with |- context [zget 0 ?l ?i] =>
    let v := eval cbv [zget nth Z.to_nat Pos.to_nat Pos.iter_op Z.add Z.mul Pos.add Pos.mul Pos.succ Nat.add] in (zget 0 l i) in
    change (zget 0 l i) with v end;
  rewrite ?Z.sub_0_r, ?(Z.mod_small z 64) by lia;
  rewrite ?Z.lxor_spec, ?Z.land_spec, ?testbit_not by auto;
  rewrite ?Hrc by auto; repeat rot; rewrite ?Z.lxor_spec;
  rewrite ?xorb_true_r; reflexivity.
Qed.

(** ** Rounds *)

Definition inr (x y z : Z) : Prop := 0 <= x < 5 /\ 0 <= y < 5 /\ 0 <= z < 64.
Definition eqa (A B : array) : Prop := forall x y z, inr x y z -> A x y z = B x y z.

Lemma mod5 x : 0 <= x mod 5 < 5. Proof. apply Z.mod_pos_bound; lia. Qed.
Ltac in_range := unfold inr; repeat split; try lia; first [apply mod5 | apply mod64].

Lemma theta_ext A B : eqa A B -> eqa (theta A) (theta B).
Proof.
  intros E x y z H. pose proof H as (Hx & Hy & Hz). unfold theta.
  rewrite (E x y z) by auto. repeat rewrite E by in_range. reflexivity.
Qed.
Lemma rho_ext A B : eqa A B -> eqa (rho A) (rho B).
Proof. intros E x y z (Hx & Hy & Hz). unfold rho. apply E. in_range. Qed.
Lemma pi_ext A B : eqa A B -> eqa (pi A) (pi B).
Proof. intros E x y z (Hx & Hy & Hz). unfold pi. apply E. in_range. Qed.
Lemma chi_ext A B : eqa A B -> eqa (chi A) (chi B).
Proof.
  intros E x y z (Hx & Hy & Hz). unfold chi. repeat rewrite E by in_range. reflexivity.
Qed.
Lemma iota_ext ir A B : eqa A B -> eqa (iota ir A) (iota ir B).
Proof. intros E x y z H. unfold iota. now rewrite (E x y z H). Qed.

Lemma one_round_bits ir rc A :
  Forall wf64 (lane_list A) -> (forall z, 0 <= z < 64 -> Z.testbit rc z = RC ir z) ->
  eqa (arr (lane_list (one_round rc A))) (iota ir (chi (pi (rho (theta (arr (lane_list A))))))).
Proof.
  intros HA Hrc x y z (Hx & Hy & Hz).
  set (C := fun x => colpar (zget 0 (lane_list A) x) (zget 0 (lane_list A) (5 + x))
              (zget 0 (lane_list A) (10 + x)) (zget 0 (lane_list A) (15 + x)) (zget 0 (lane_list A) (20 + x))).
  set (D := fun x => C ((x - 1) mod 5) .^ ROL (C ((x + 1) mod 5)) 1).
  assert (L : zlen (lane_list A) = 25) by (repeat (destruct A as [A ?]); reflexivity).
  assert (WA : forall i, 0 <= i < 25 -> wf64 (zget 0 (lane_list A) i)).
  { rewrite (Forall_zget _ 0), L in HA. exact HA. }
  assert (WC : forall x, 0 <= x < 5 -> wf64 (C x)).
  { intros v Hv. unfold C, colpar. repeat apply wf64_lxor; apply WA; lia. }
  assert (WD : forall x, 0 <= x < 5 -> wf64 (D x)).
  { intros v Hv. unfold D. apply wf64_lxor; [apply WC, mod5|apply wf64_ROL; [lia|apply WC, mod5]]. }
  assert (E : one_round rc A = round_D rc A (D 0) (D 1) (D 2) (D 3) (D 4)).
  { rewrite one_round_D. repeat (destruct A as [A ?]). reflexivity. }
  rewrite E, (round_D_bits ir) by auto.
  apply iota_ext; [|repeat split; lia]. apply chi_ext, pi_ext, rho_ext.
  intros u v w (Hu & Hv & Hw). unfold theta. f_equal.
  unfold D. rewrite Z.lxor_spec, testbit_ROL by (try apply WC, mod5; lia).
  assert (EC : forall u w, 0 <= u < 5 -> 0 <= w < 64 -> Z.testbit (C u) w =
    xorb (arr (lane_list A) u 0 w) (xorb (arr (lane_list A) u 1 w) (xorb (arr (lane_list A) u 2 w)
      (xorb (arr (lane_list A) u 3 w) (arr (lane_list A) u 4 w))))).
  { intros a b Ha Hb. unfold C, colpar, arr. rewrite !Z.lxor_spec.
    change (5 * 0 + a) with (0 + a). change (5 * 1 + a) with (5 + a). change (5 * 2 + a) with (10 + a).
    change (5 * 3 + a) with (15 + a). change (5 * 4 + a) with (20 + a). rewrite Z.add_0_l.
    rewrite !xorb_assoc. reflexivity. }
  rewrite !EC by (try apply mod5; try apply mod64; lia). reflexivity.
Qed.

Lemma one_round_wf rc A : wf64 rc -> Forall wf64 (lane_list A) -> Forall wf64 (lane_list (one_round rc A)).
Proof.
  intros Hrc HA. rewrite one_round_D.
  repeat (destruct A as [A ?]). cbn [lane_list] in *.
  repeat match goal with H : Forall _ (_ :: _) |- _ => apply Forall_cons_iff in H; destruct H as [? H] end.
  cbv zeta.
  assert (WC : forall a b c d e, wf64 a -> wf64 b -> wf64 c -> wf64 d -> wf64 e -> wf64 (colpar a b c d e)).
  { intros. unfold colpar. repeat apply wf64_lxor; auto. }
  repeat match goal with |- context [colpar ?a ?b ?c ?d ?e] =>
    assert (wf64 (colpar a b c d e)) by (apply WC; assumption);
    generalize dependent (colpar a b c d e); intros end.
  repeat match goal with |- context [?a .^ ROL ?b 1] =>
    assert (wf64 (a .^ ROL b 1)) by (apply wf64_lxor; [assumption|apply wf64_ROL; [lia|assumption]]);
    generalize dependent (a .^ ROL b 1); intros end.
  unfold round_D. cbn [lane_list].
  repeat apply Forall_cons; try apply Forall_nil;
  repeat first [assumption
    | lazymatch goal with
      | |- wf64 (ROL _ _) => apply wf64_ROL; [lia|]
      | |- wf64 (_ .^ _) => apply wf64_lxor
      | |- wf64 (_ .& _) => apply wf64_land
      end].
Qed.

(** ** The string of bits of a state *)

Definition wfs (s : list Z) : Prop := zlen s = 25 /\ Forall wf64 s.
Definition sbits (s : list Z) : list bool := flat_map (fun l => map (Z.testbit l) (range 64)) s.

Lemma sbits_map s : sbits s = flat_map (fun i => map (Z.testbit (zget 0 s i)) (range 64)) (range (zlen s)).
Proof.
  unfold sbits. rewrite !flat_map_concat_map. f_equal.
  apply (zmap_get 0 (fun l => map (Z.testbit l) (range 64))).
Qed.
Lemma zlen_sbits s : zlen s = 25 -> zlen (sbits s) = 1600.
Proof.
  intros H. unfold sbits. rewrite (zlen_flat_map _ 64), H; [lia|].
  intros. now rewrite zlen_map, zlen_range by lia.
Qed.
Lemma zget_sbits s i : zlen s = 25 -> 0 <= i < 1600 ->
  zget false (sbits s) i = Z.testbit (zget 0 s (i / 64)) (i mod 64).
Proof.
  intros H Hi. rewrite sbits_map, H, (zget_flat_map _ _ 64) by
    (try lia; intros; now rewrite zlen_map, zlen_range by lia).
  rewrite zget_map_range by lia. reflexivity.
Qed.
Lemma to_array_sbits s : zlen s = 25 -> eqa (to_array (sbits s)) (arr s).
Proof.
  intros H x y z (Hx & Hy & Hz). unfold to_array.
  change (nth _ (sbits s) false) with (zget false (sbits s) (64 * (5 * y + x) + z)).
  rewrite zget_sbits by lia. unfold arr. f_equal; [f_equal|]; lia.
Qed.
Lemma zlen_to_string A : zlen (to_string A) = 1600.
Proof.
  unfold to_string. rewrite (zlen_flat_map _ 320), zlen_range; try lia.
  intros y _. rewrite (zlen_flat_map _ 64), zlen_range; try lia.
  intros x _. now rewrite zlen_map, zlen_range by lia.
Qed.
Lemma zget_to_string A i : 0 <= i < 1600 ->
  zget false (to_string A) i = A ((i / 64) mod 5) (i / 320) (i mod 64).
Proof.
  intros Hi. unfold to_string.
  assert (L1 : forall y x, zlen (map (fun z => A x y z) (range 64)) = 64)
    by (intros; now rewrite zlen_map, zlen_range by lia).
  assert (L2 : forall y, zlen (flat_map (fun x => map (fun z => A x y z) (range 64)) (range 5)) = 320).
  { intros y. rewrite (zlen_flat_map _ 64) by (intros; apply L1). rewrite zlen_range; lia. }
  rewrite (zget_flat_map _ _ 320 5) by (auto; lia).
  rewrite (zget_flat_map _ _ 64 5) by (auto; lia).
  rewrite zget_map_range by lia. f_equal; lia.
Qed.
Lemma to_string_ext A B : eqa A B -> to_string A = to_string B.
Proof.
  intros H. apply (zlist_ext false); [now rewrite !zlen_to_string|].
  rewrite zlen_to_string. intros i Hi. rewrite !zget_to_string by auto. apply H. unfold inr. lia.
Qed.
Lemma to_string_arr s : zlen s = 25 -> to_string (arr s) = sbits s.
Proof.
  intros H. apply (zlist_ext false); [now rewrite zlen_to_string, zlen_sbits|].
  rewrite zlen_to_string. intros i Hi. rewrite zget_to_string, zget_sbits by auto.
  unfold arr. do 2 f_equal. lia.
Qed.

Lemma Rnd_lanes ir rc A : Forall wf64 (lane_list A) ->
  (forall z, 0 <= z < 64 -> Z.testbit rc z = RC ir z) ->
  Rnd ir (sbits (lane_list A)) = sbits (lane_list (one_round rc A)).
Proof.
  intros HA Hrc.
  assert (L : forall A, zlen (lane_list A) = 25).
  { intros B. repeat (destruct B as [B ?]). reflexivity. }
  rewrite <- (to_string_arr (lane_list (one_round rc A))) by apply L.
  unfold Rnd. apply to_string_ext. intros x y z H.
  rewrite (one_round_bits ir) by auto.
  revert x y z H. apply iota_ext, chi_ext, pi_ext, rho_ext, theta_ext, to_array_sbits, L.
Qed.

Lemma RC_bits ir z : 0 <= ir < 24 -> 0 <= z < 64 ->
  Z.testbit (zget 0 KeccakF_RoundConstants ir) z = RC ir z.
Proof.
  intros Hi Hz.
  assert (H : forallb (fun ir => forallb (fun z =>
     Bool.eqb (Z.testbit (zget 0 KeccakF_RoundConstants ir) z) (RC ir z)) (range 64)) (range 24) = true)
    by (vm_compute; reflexivity).
  rewrite forallb_forall in H. specialize (H ir ltac:(apply in_range; lia)).
  rewrite forallb_forall in H. specialize (H z ltac:(apply in_range; lia)).
  now apply eqb_prop in H.
Qed.
Lemma RC_wf ir : 0 <= ir < 24 -> wf64 (zget 0 KeccakF_RoundConstants ir).
Proof.
  intros Hi. assert (H : Forall wf64 KeccakF_RoundConstants) by (repeat constructor; lia).
  rewrite (Forall_zget _ 0) in H. apply H. change (zlen _) with 24. lia.
Qed.

Lemma wp_permute N s (Q : list Z -> Prop) : wfs s ->
  (forall s', wfs s' -> sbits s' = KECCAK_f1600 (sbits s) -> Q s') ->
  wpn N (KeccakF1600_StatePermute s) Q.
Proof.
  intros [L W] HQ.
  assert (HA : exists A, s = lane_list A).
  { do 25 (destruct s as [|? s]; [discriminate L|]). destruct s as [|? s].
    - eexists (_, _, _, _, _, _, _, _, _, _, _, _, _, _, _, _, _, _, _, _, _, _, _, _, _). reflexivity.
    - exfalso. rewrite !zlen_cons in L. pose proof (zlen_nonneg s). lia. }
  destruct HA as [A ->].
  remember (lane_list A) as s0 eqn:E0.
  repeat (destruct A as [A ?]). cbn [lane_list] in E0. rewrite E0 at 1. cbn [KeccakF1600_StatePermute].
  apply wp_bind.
  apply (wp_for_step N (fun k B => Forall wf64 (lane_list B) /\
     sbits (lane_list B) = fold_left (fun S ir => Rnd ir S) (range (2 * k)) (sbits s0)) _ _ _ 12).
  - reflexivity.
  - lia.
  - cbn [lane_list]. rewrite <- E0. split; auto.
  - intros k B Hk [WB EB].
    assert (L24 : zlen KeccakF_RoundConstants = 24) by reflexivity.
    apply wp_bind, (wp_aget 0); [lia|]. apply wp_bind, (wp_aget 0); [lia|]. apply wp_ret.
    rewrite two_rounds_eq.
    replace (0 + k * 2) with (2 * k) by lia.
    pose proof (one_round_wf _ B (RC_wf (2 * k) ltac:(lia)) WB) as W1.
    pose proof (one_round_wf _ _ (RC_wf (2 * k + 1) ltac:(lia)) W1) as W2.
    split; [exact W2|].
    rewrite <- (Rnd_lanes (2 * k + 1)) by (auto; intros; apply RC_bits; lia).
    rewrite <- (Rnd_lanes (2 * k)) by (auto; intros; apply RC_bits; lia).
    rewrite EB. replace (2 * (k + 1)) with (2 * k + 1 + 1) by lia.
    rewrite !range_S by lia. rewrite !fold_left_app. reflexivity.
  - intros B [WB EB]. repeat (destruct B as [B ?]). cbn [lane_list] in *.
    apply wp_ret, HQ; auto. split; auto.
Qed.
