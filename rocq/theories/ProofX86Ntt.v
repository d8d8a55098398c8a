(** * The AVX2 transforms: an analysis of runs of the vector machine

    A run of ntt_avx2 or invntt_avx2 is followed on nodes: every word computed gets a
    number, and the analysis records what is known about the word with that number.
    Most words are multiples of the partial evaluations [part] below, modulo q and within a
    bound; the others are pending pieces of a Montgomery or Barrett reduction. *)

From Coq Require Import ZArith List Bool Lia FMapPositive.
From Verif Require Import CSem Spec202 Spec203 CSemFacts ProofSum ProofNttSpec ProofRing SpecX86 ModelX86 ModelX86Asm ProofX86.
Import ListNotations.
Open Scope Z_scope.
Ltac Zify.zify_post_hook ::= idtac.
Local Arguments Z.mul : simpl never.
Local Arguments Z.add : simpl never.
Local Arguments Z.sub : simpl never.

(** ** Partial evaluations *)

(** The coefficient of X^j in the residue of f modulo X^m - 17^e *)
Definition part (f : Z -> Z) (m e j : Z) : Z :=
  sum (256 / m) (fun t => f (j + t * m) * 17 ^ (e * t)).

Lemma part_split f m e E j : 0 < m -> 256 / m = 2 * (256 / (2 * m)) -> 0 <= e -> 0 <= E ->
  (2 * e) mod 256 = E mod 256 ->
  part f m e j == part f (2 * m) E j + 17 ^ e * part f (2 * m) E (j + m).
Proof.
  intros Hm Hd He HE H. unfold part. rewrite Hd.
  assert (Hn : 0 <= 256 / (2 * m)) by (apply Z.div_pos; lia).
  set (k := 256 / (2 * m)) in *. clearbody k.
  rewrite sum_double by auto. rewrite sum_add by auto. rewrite <- sum_mul_l by auto.
  apply cg_add; apply sum_cg; auto; intros t Ht.
  - replace (j + 2 * t * m) with (j + t * (2 * m)) by ring.
    apply cg_mul; [reflexivity|]. apply zpow_cong; [nia|nia|].
    replace (e * (2 * t)) with (2 * e * t) by ring.
    rewrite Zmult_mod, H, <- Zmult_mod. reflexivity.
  - replace (j + (2 * t + 1) * m) with (j + m + t * (2 * m)) by ring.
    replace (e * (2 * t + 1)) with (2 * e * t + e) by ring. rewrite Z.pow_add_r by nia.
    assert (P : 17 ^ (2 * e * t) == 17 ^ (E * t)).
    { apply zpow_cong; [nia|nia|]. rewrite Zmult_mod, H, <- Zmult_mod. reflexivity. }
    rewrite P. apply cg_of_eq; ring.
Qed.

(** ** What is known about a word *)

Record den : Type := mkden { dc : Z; dm : Z; de : Z; dj : Z }.
Definition value (f : Z -> Z) (d : den) : Z := dc d * part f (dm d) (de d) (dj d).

Inductive info : Type :=
| Top
| Cst (c : Z)
| Den (d : den) (B : Z)
| Lo (x : positive) (z : Z)
| Hi (x : positive) (z : Z)
| HiQ (x : positive) (z : Z)
| Pend (plus : bool) (b x : positive) (z : Z)
| BarQ (x : positive)
| BarP (x : positive).

Definition barrett (v : Z) : Z := v * 20159 / 65536 / 1024.
Definition sign (plus : bool) : Z := if plus then 1 else -1.

Definition sat (f : Z -> Z) (w : positive -> Z) (p : positive) (i : info) : Prop :=
  match i with
  | Top => True
  | Cst c => w p = c
  | Den d B => Z.abs (w p) <= B /\ w p == value f d
  | Lo x z => (x < p)%positive /\ w p = s16 (w x * z)
  | Hi x z => (x < p)%positive /\ w p = w x * z / 65536
  | HiQ x z => (x < p)%positive /\ w p = s16 (w x * z) * 3329 / 65536
  | Pend s b x z => (b < p)%positive /\ (x < p)%positive /\
      w p = s16 (w b + sign s * (w x * z / 65536))
  | BarQ x => (x < p)%positive /\ w p = barrett (w x)
  | BarP x => (x < p)%positive /\ w p = s16 (barrett (w x) * 3329)
  end.

(** ** The analysis *)

Definition pows : list Z := map (fun i => 17 ^ Z.of_nat i mod 3329) (seq 0 256).
Definition pows_table : list Z := Eval vm_compute in pows.
Definition pw (e : Z) : Z := nth (Z.to_nat e) pows_table 0.

Definition halves (d1 d2 : den) : bool :=
  let m := dm d1 / 2 in
  (dm d1 =? dm d2) && (dm d1 =? 2 * m) && (0 <? m) && (256 / m =? 2 * (256 / (2 * m)))
  && (de d1 =? de d2) && (0 <=? de d1) && (de d1 <? 256) && (de d1 =? 2 * (de d1 / 2))
  && (dj d2 =? dj d1 + m).
Definition join (d1 d2 : den) : option den :=
  let m := dm d1 / 2 in
  let h := de d1 / 2 in
  if halves d1 d2 then
    if (dc d2 - dc d1 * pw h) mod 3329 =? 0 then Some (mkden (dc d1) m h (dj d1))
    else if (dc d2 + dc d1 * pw h) mod 3329 =? 0 then Some (mkden (dc d1) m (h + 128) (dj d1))
    else None
  else None.
Definition conjugates (d1 d2 : den) : bool :=
  (dm d1 =? dm d2) && (dj d1 =? dj d2) && (0 <? dm d1) && (256 / dm d1 =? 2 * (256 / (2 * dm d1)))
  && ((dc d1 - dc d2) mod 3329 =? 0) && (0 <=? de d1) && (de d1 <? 256) && (0 <=? de d2)
  && ((de d1 + 128) mod 256 =? de d2 mod 256).
Definition dadd (d1 d2 : den) : option den :=
  if conjugates d1 d2
  then Some (mkden (2 * dc d1 mod 3329) (2 * dm d1) (2 * de d1 mod 256) (dj d1))
  else join d1 d2.
Definition dsub (d1 d2 : den) : option den :=
  if conjugates d1 d2
  then Some (mkden (2 * dc d1 * pw (de d1) mod 3329) (2 * dm d1) (2 * de d1 mod 256) (dj d1 + dm d1))
  else join d1 (mkden (- dc d2) (dm d2) (de d2) (dj d2)).

Definition bounded (o : option den) (B : Z) : info :=
  match o with Some d => if B <=? 32767 then Den d B else Top | None => Top end.

Record dag : Type := Dag { next : positive; infos : PositiveMap.t info }.
Definition get (s : dag) (p : positive) : info :=
  match PositiveMap.find p (infos s) with Some i => i | None => Top end.
Definition fresh (s : dag) (i : info) : positive * dag :=
  (next s, Dag (Pos.succ (next s)) (PositiveMap.add (next s) i (infos s))).

(** The Montgomery product of node [x] by the constant [z] with twist [z'] *)
Definition mont (s : dag) (x : positive) (z z' : Z) : option (den * Z) :=
  match get s x with
  | Den d B =>
      if (z' * 3329 - z) mod 65536 =? 0
      then Some (mkden (dc d * z * 169 mod 3329) (dm d) (de d) (dj d),
                 (B * Z.abs z + 3329 * 32768) / 65536)
      else None
  | _ => None
  end.

Definition op_info (s : dag) (o : word_op) (a b : positive) : info :=
  match o with
  | Mullo =>
      match get s a, get s b with
      | BarQ x, Cst c => if c =? 3329 then BarP x else Top
      | Den _ _, Cst z => Lo a z
      | _, _ => Top
      end
  | Mulhi =>
      match get s a, get s b with
      | Lo x z, Cst c => if c =? 3329 then HiQ x z else Top
      | Den _ _, Cst z => Hi a z
      | _, _ => Top
      end
  | Add =>
      match get s a, get s b with
      | Den d1 B1, Den d2 B2 => bounded (dadd d1 d2) (B1 + B2)
      | Den _ _, Hi x z => Pend true a x z
      | Pend false c x z, HiQ y z' =>
          match get s c, mont s x z z' with
          | Den d B, Some (d', B') => if (x =? y)%positive then bounded (dsub d d') (B + B') else Top
          | _, _ => Top
          end
      | _, _ => Top
      end
  | Sub =>
      match get s a, get s b with
      | Den d1 B1, Den d2 B2 => bounded (dsub d1 d2) (B1 + B2)
      | Den _ _, Hi x z => Pend false a x z
      | Pend true c x z, HiQ y z' =>
          match get s c, mont s x z z' with
          | Den d B, Some (d', B') => if (x =? y)%positive then bounded (dadd d d') (B + B') else Top
          | _, _ => Top
          end
      | Hi x z, HiQ y z' =>
          match mont s x z z' with
          | Some (d, B) => if (x =? y)%positive then bounded (Some d) B else Top
          | None => Top
          end
      | Den d B, BarP x => if (x =? a)%positive && (B <=? 32768) then Den d 3329 else Top
      | _, _ => Top
      end
  | _ => Top
  end.
Definition shift_info (s : dag) (o : shift_op) (n : Z) (a : positive) : info :=
  match o, get s a with
  | Sra, Hi x z => if (n =? 10) && (z =? 20159) then BarQ x else Top
  | _, _ => Top
  end.
Definition nodes : domain positive dag :=
  Domain (fun o a b s => fresh s (op_info s o a b))
         (fun o n a s => fresh s (shift_info s o n a))
         (fun s => fresh s (Cst 0))
         (fun s a => match get s a with Cst c => Some c | _ => None end).

(** ** Soundness of the analysis *)

Lemma pw_cg e : 0 <= e < 256 -> pw e == 17 ^ e.
Proof.
  assert (C : upto 256 (fun e => (pw e - 17 ^ e) mod 3329 =? 0) = true) by (vm_compute; reflexivity).
  intros He. pose proof (upto_spec _ _ C e ltac:(lia)) as K. cbv beta in K. apply Z.eqb_eq in K.
  apply cg_ex. exists ((pw e - 17 ^ e) / 3329).
  pose proof (Z.div_mod (pw e - 17 ^ e) 3329 ltac:(lia)) as D. rewrite K in D. lia.
Qed.
Lemma zero_cg a b : (a - b) mod 3329 =? 0 = true -> a == b.
Proof.
  intros K. apply Z.eqb_eq in K. apply cg_ex. exists ((a - b) / 3329).
  pose proof (Z.div_mod (a - b) 3329 ltac:(lia)) as D. rewrite K in D. lia.
Qed.

Ltac bools := repeat match goal with
  | H : _ && _ = true |- _ => apply andb_prop in H; destruct H
  | H : (_ =? _) = true |- _ => apply Z.eqb_eq in H
  | H : (_ <? _) = true |- _ => apply Z.ltb_lt in H
  | H : (_ <=? _) = true |- _ => apply Z.leb_le in H
  | H : (_ =? _)%positive = true |- _ => apply Pos.eqb_eq in H
  end.

Lemma join_sound f d1 d2 d : join d1 d2 = Some d -> value f d1 + value f d2 == value f d.
Proof.
  destruct d1 as [c1 m1 e1 j1], d2 as [c2 m2 e2 j2]. unfold join, halves, value; cbn [dc dm de dj].
  destruct (_ && _) eqn:C; [|discriminate]. bools. subst m2 e2 j2.
  set (m := m1 / 2) in *. set (h := e1 / 2) in *. clearbody m h.
  assert (Hh : 0 <= h < 256) by lia. pose proof (pw_cg h Hh) as P.
  destruct (_ =? 0) eqn:E1; [|destruct ((c2 + _) mod _ =? 0) eqn:E2; [|discriminate]].
  - intros [= <-]; cbn [dc dm de dj]. apply zero_cg in E1.
    rewrite E1, P. rewrite (part_split f m h e1 j1) by (auto; lia || (f_equal; lia)).
    replace (2 * m) with m1 by auto. apply cg_of_eq; ring.
  - intros [= <-]; cbn [dc dm de dj].
    replace (c2 + c1 * pw h) with (c2 - (- (c1 * pw h))) in E2 by ring. apply zero_cg in E2.
    rewrite E2, P. rewrite (part_split f m (h + 128) e1 j1); auto; try lia.
    2: { replace (2 * (h + 128)) with (e1 + 1 * 256) by lia. apply Z.mod_add; lia. }
    rewrite Z.pow_add_r by lia. rewrite z128. replace (2 * m) with m1 by auto. apply cg_of_eq; ring.
Qed.
Lemma conjugates_sound f d1 d2 : conjugates d1 d2 = true ->
  let E := 2 * de d1 mod 256 in
  value f d1 == dc d1 * (part f (2 * dm d1) E (dj d1) + 17 ^ de d1 * part f (2 * dm d1) E (dj d1 + dm d1)) /\
  value f d2 == dc d1 * (part f (2 * dm d1) E (dj d1) - 17 ^ de d1 * part f (2 * dm d1) E (dj d1 + dm d1)) /\
  0 <= de d1 < 256.
Proof.
  destruct d1 as [c1 m1 e1 j1], d2 as [c2 m2 e2 j2]. unfold conjugates, value; cbn [dc dm de dj].
  intros C. bools. subst m2 j2.
  pose proof (Z.mod_pos_bound (2 * e1) 256 ltac:(lia)).
  split; [|split; [|lia]].
  - rewrite (part_split f m1 e1 (2 * e1 mod 256) j1); auto; try lia; [reflexivity|].
    now rewrite Z.mod_mod by lia.
  - assert (c1 == c2) as <- by (apply zero_cg; apply Z.eqb_eq; auto).
    rewrite (part_split f m1 e2 (2 * e1 mod 256) j1); auto; try lia.
    + assert (P : 17 ^ e2 == - 17 ^ e1) by (apply zpow_neg; lia).
      rewrite P. apply cg_of_eq; ring.
    + rewrite Z.mod_mod by lia. rewrite <- (Z.mul_mod_idemp_r 2 e2) by lia.
      replace (e2 mod 256) with ((e1 + 128) mod 256) by auto. rewrite Z.mul_mod_idemp_r by lia.
      replace (2 * (e1 + 128)) with (2 * e1 + 1 * 256) by ring. apply Z.mod_add; lia.
Qed.
Lemma dadd_sound f d1 d2 d : dadd d1 d2 = Some d -> value f d1 + value f d2 == value f d.
Proof.
  unfold dadd. destruct (conjugates d1 d2) eqn:C; [|apply join_sound].
  intros K. apply (f_equal (fun o => match o with Some d => d | None => d end)) in K. cbv beta iota in K.
  subst d. destruct (conjugates_sound f _ _ C) as (V1 & V2 & _). rewrite V1, V2.
  unfold value; cbn [dc dm de dj]. rewrite cg_mod. apply cg_of_eq; ring.
Qed.
Lemma dsub_sound f d1 d2 d : dsub d1 d2 = Some d -> value f d1 - value f d2 == value f d.
Proof.
  unfold dsub. destruct (conjugates d1 d2) eqn:C.
  - intros K. apply (f_equal (fun o => match o with Some d => d | None => d end)) in K. cbv beta iota in K.
    subst d. destruct (conjugates_sound f _ _ C) as (V1 & V2 & He). rewrite V1, V2.
    unfold value; cbn [dc dm de dj]. rewrite cg_mod, (pw_cg _ He). apply cg_of_eq; ring.
  - intros J. apply (join_sound f) in J. rewrite <- J. unfold value; cbn [dc dm de dj].
    apply cg_of_eq; ring.
Qed.

(** *** Words *)

Lemma s16_id x : -32768 <= x < 32768 -> s16 x = x.
Proof. intros H. unfold s16. rewrite Z.mod_small by lia. lia. Qed.
Lemma s16_ex x : exists t, s16 x = x + t * 65536.
Proof.
  exists (- ((x + 32768) / 65536)). unfold s16.
  pose proof (Z.div_mod (x + 32768) 65536 ltac:(lia)). lia.
Qed.
Lemma s16_range x : -32768 <= s16 x < 32768.
Proof. unfold s16. pose proof (Z.mod_pos_bound (x + 32768) 65536 ltac:(lia)). lia. Qed.
Lemma s16_shift x t : s16 (x + t * 65536) = s16 x.
Proof. unfold s16. replace (x + t * 65536 + 32768) with (x + 32768 + t * 65536) by ring. now rewrite Z.mod_add. Qed.
Lemma s16_add_l x y : s16 (s16 x + y) = s16 (x + y).
Proof. destruct (s16_ex x) as [t E]. rewrite E. rewrite <- (s16_shift (x + y) t). f_equal. ring. Qed.
Lemma s16_sub_r x y : s16 (x - s16 y) = s16 (x - y).
Proof. destruct (s16_ex y) as [t E]. rewrite E. rewrite <- (s16_shift (x - y) (- t)). f_equal. ring. Qed.

Definition mont_val (x z z' : Z) : Z := x * z / 65536 - s16 (x * z') * 3329 / 65536.
Lemma mont_exact x z z' : (z' * 3329 - z) mod 65536 = 0 ->
  65536 * mont_val x z z' = x * z - s16 (x * z') * 3329.
Proof.
  intros H. unfold mont_val. destruct (s16_ex (x * z')) as [t E].
  pose proof (Z.div_mod (z' * 3329 - z) 65536 ltac:(lia)) as D. rewrite H in D.
  set (k := (z' * 3329 - z) / 65536) in D.
  assert (M : s16 (x * z') * 3329 = x * z + (x * k + t * 3329) * 65536) by (rewrite E; nia).
  rewrite M. rewrite Z.div_add by lia. lia.
Qed.
Lemma mont_bound x z z' B : (z' * 3329 - z) mod 65536 = 0 -> Z.abs x <= B ->
  Z.abs (mont_val x z z') <= (B * Z.abs z + 3329 * 32768) / 65536.
Proof.
  intros H HB. apply Z.div_le_lower_bound; [lia|].
  pose proof (mont_exact x z z' H) as E. pose proof (s16_range (x * z')).
  assert (Z.abs (x * z) <= B * Z.abs z) by (rewrite Z.abs_mul; nia). lia.
Qed.
Lemma mont_cg x z z' : (z' * 3329 - z) mod 65536 = 0 -> mont_val x z z' == x * z * 169.
Proof.
  intros H. pose proof (mont_exact x z z' H) as E.
  assert (P : 169 * 65536 == 1) by (constructor; reflexivity).
  transitivity (169 * 65536 * mont_val x z z'); [rewrite P; apply cg_of_eq; ring|].
  replace (169 * 65536 * mont_val x z z') with (169 * (65536 * mont_val x z z')) by ring. rewrite E.
  apply cg_ex. exists (- (169 * s16 (x * z'))). ring.
Qed.
Lemma barrett_red x : Z.abs x <= 32768 ->
  s16 (x - barrett x * 3329) = x - barrett x * 3329 /\ 0 <= x - barrett x * 3329 <= 3329.
Proof.
  intros H. unfold barrett. rewrite Z.div_div by lia. change (65536 * 1024) with 67108864.
  pose proof (Z.div_mod (x * 20159) 67108864 ltac:(lia)).
  pose proof (Z.mod_pos_bound (x * 20159) 67108864 ltac:(lia)).
  set (t := x * 20159 / 67108864) in *. clearbody t.
  assert (0 <= x - t * 3329 <= 3329) by lia. split; [apply s16_id|]; lia.
Qed.

(** *** Nodes *)
Section Nodes.
Variable f : Z -> Z.

Definition ok (s : dag) (w : positive -> Z) : Prop :=
  forall p i, PositiveMap.find p (infos s) = Some i -> (p < next s)%positive /\ sat f w p i.
Definition ext (s : dag) (w : positive -> Z) (s' : dag) (w' : positive -> Z) : Prop :=
  (next s <= next s')%positive /\ forall p, (p < next s)%positive -> w' p = w p.
Definition rel (s : dag) (w : positive -> Z) (v : Z) (p : positive) : Prop :=
  (p < next s)%positive /\ w p = v.

Lemma get_sat s w p : ok s w -> sat f w p (get s p).
Proof.
  intros H. unfold get. destruct (PositiveMap.find p (infos s)) eqn:E; [|exact I].
  now apply H.
Qed.
Lemma sat_ext w w' n p i : (forall x, (x < n)%positive -> w' x = w x) -> (p < n)%positive ->
  sat f w p i -> sat f w' p i.
Proof.
  intros E Hp. pose proof (E p Hp) as Ep. destruct i; cbn; auto; intros; repeat match goal with H : _ /\ _ |- _ => destruct H end;
  repeat match goal with H : (?x < p)%positive |- _ =>
    lazymatch goal with K : w' x = w x |- _ => fail | _ => pose proof (E x (Pos.lt_trans _ _ _ H Hp)) end end;
  repeat match goal with K : w' _ = w _ |- _ => rewrite K; clear K end; auto.
Qed.
Definition upd (w : positive -> Z) (n : positive) (v : Z) (p : positive) : Z :=
  if (p =? n)%positive then v else w p.
Lemma upd_same w n v : upd w n v n = v.
Proof. unfold upd. now rewrite Pos.eqb_refl. Qed.
Lemma upd_old w n v p : (p < n)%positive -> upd w n v p = w p.
Proof. intros H. unfold upd. destruct (Pos.eqb_spec p n); [lia|auto]. Qed.

Lemma fresh_sound s w v i z s' : ok s w -> sat f (upd w (next s) v) (next s) i ->
  fresh s i = (z, s') ->
  exists w', ok s' w' /\ ext s w s' w' /\ rel s' w' v z.
Proof.
  intros Hok Hs [= <- <-]. exists (upd w (next s) v). split; [|split].
  - intros p j. cbn [infos next]. destruct (Pos.eq_dec p (next s)) as [->|N].
    + rewrite PositiveMap.gss. intros [= <-]. split; [lia|auto].
    + rewrite PositiveMap.gso by auto. intros E. destruct (Hok _ _ E) as (L & Q). split; [lia|].
      apply (sat_ext w _ (next s) p j); auto. intros x Hx. now apply upd_old.
  - split; cbn; [lia|]. intros p Hp. now apply upd_old.
  - split; cbn; [lia|]. apply upd_same.
Qed.

Lemma bounded_sat w p o B d : (forall d0, o = Some d0 -> d == value f d0) -> Z.abs d <= B ->
  w p = s16 d -> sat f w p (bounded o B).
Proof.
  intros H HB E. unfold bounded. destruct o as [d0|]; [|exact I].
  destruct (Z.leb_spec B 32767); [|exact I]. cbn. rewrite E, s16_id by lia. split; [auto|]. now apply H.
Qed.
Lemma mont_sound s w x z z' d B : ok s w -> mont s x z z' = Some (d, B) ->
  (z' * 3329 - z) mod 65536 = 0 /\ mont_val (w x) z z' == value f d /\ Z.abs (mont_val (w x) z z') <= B.
Proof.
  intros Hok. unfold mont. pose proof (get_sat _ _ x Hok) as S. destruct (get s x); try discriminate.
  destruct (_ =? 0) eqn:E; [|discriminate]. apply Z.eqb_eq in E. intros [= <- <-]. destruct S as (S1 & S2).
  split; [auto|]. split; [|now apply mont_bound].
  rewrite mont_cg by auto. rewrite S2. unfold value; cbn [dc dm de dj]. rewrite cg_mod. apply cg_of_eq; ring.
Qed.

Lemma op_info_sound s w o a b : ok s w -> (a < next s)%positive -> (b < next s)%positive ->
  sat f (upd w (next s) (word_sem o (w a) (w b))) (next s) (op_info s o a b).
Proof.
  intros Hok La Lb. pose proof (get_sat _ _ a Hok) as Sa. pose proof (get_sat _ _ b Hok) as Sb.
  set (v := word_sem o (w a) (w b)). set (w' := upd w (next s) v).
  assert (E' : w' (next s) = v) by apply upd_same.
  assert (O : forall x, (x < next s)%positive -> w' x = w x) by (intros; now apply upd_old).
  unfold op_info. destruct o.
  - destruct (get s a) as [| |d1 B1| | | |sg c x z| |] eqn:Ga; try exact I;
      [|destruct sg; [exact I|]];
      destruct (get s b) as [| |d2 B2| |y z'|y z'| | |] eqn:Gb; try exact I.
    + destruct Sa as (A1 & A2), Sb as (C1 & C2).
      apply (bounded_sat w' (next s) _ _ (w a + w b)); [|lia|exact E'].
      intros d0 Hd. rewrite A2, C2. now apply dadd_sound.
    + destruct Sb as (C1 & C2). cbn [sat]. rewrite E', (O a), (O y) by lia.
      repeat split; try lia. unfold v, word_sem. cbn [sign]. now rewrite C2, Z.mul_1_l.
    + destruct (get s c) eqn:Gc; try exact I. destruct (mont s x z z') as [[d' B']|] eqn:Gm; try exact I.
      destruct (x =? y)%positive eqn:Exy; [|exact I]. apply Pos.eqb_eq in Exy. subst y.
      destruct (mont_sound _ _ _ _ _ _ _ Hok Gm) as (M0 & M1 & M2).
      pose proof (get_sat _ _ c Hok) as Sc. rewrite Gc in Sc. destruct Sc as (C1 & C2).
      destruct Sa as (_ & _ & A). destruct Sb as (_ & Bq).
      apply (bounded_sat w' (next s) _ _ (w c - mont_val (w x) z z')).
      * intros d0 Hd. rewrite M1, C2. now apply dsub_sound.
      * lia.
      * rewrite E'. unfold v, word_sem. rewrite A, s16_add_l, Bq. f_equal. unfold mont_val. cbn [sign]. lia.
  - destruct (get s a) as [| |d1 B1| |x z| |sg c x z| |] eqn:Ga; try exact I;
      [| |destruct sg; [|exact I]];
      destruct (get s b) as [| |d2 B2| |y z'|y z'| | |y] eqn:Gb; try exact I.
    + destruct Sa as (A1 & A2), Sb as (C1 & C2).
      apply (bounded_sat w' (next s) _ _ (w a - w b)); [|lia|exact E'].
      intros d0 Hd. rewrite A2, C2. now apply dsub_sound.
    + destruct Sb as (C1 & C2). cbn [sat]. rewrite E', (O a), (O y) by lia.
      repeat split; try lia. unfold v, word_sem. cbn [sign]. rewrite C2. f_equal; lia.
    + destruct ((y =? a)%positive && (B1 <=? 32768)) eqn:C; [|exact I]. bools. subst y.
      destruct Sa as (A1 & A2), Sb as (C1 & C2).
      destruct (barrett_red (w a) ltac:(lia)) as (R1 & R2).
      cbn [sat]. rewrite E'. unfold v, word_sem. rewrite C2, s16_sub_r, R1. split; [lia|].
      rewrite <- A2. apply cg_ex. exists (- barrett (w a)). ring.
    + destruct (mont s x z z') as [[d' B']|] eqn:Gm; try exact I.
      destruct (x =? y)%positive eqn:Exy; [|exact I]. apply Pos.eqb_eq in Exy. subst y.
      destruct (mont_sound _ _ _ _ _ _ _ Hok Gm) as (M0 & M1 & M2).
      destruct Sa as (_ & A). destruct Sb as (_ & Bq).
      apply (bounded_sat w' (next s) _ _ (mont_val (w x) z z')).
      * intros d0 [= <-]. exact M1.
      * exact M2.
      * rewrite E'. unfold v, word_sem. now rewrite A, Bq.
    + destruct (get s c) eqn:Gc; try exact I. destruct (mont s x z z') as [[d' B']|] eqn:Gm; try exact I.
      destruct (x =? y)%positive eqn:Exy; [|exact I]. apply Pos.eqb_eq in Exy. subst y.
      destruct (mont_sound _ _ _ _ _ _ _ Hok Gm) as (M0 & M1 & M2).
      pose proof (get_sat _ _ c Hok) as Sc. rewrite Gc in Sc. destruct Sc as (C1 & C2).
      destruct Sa as (_ & _ & A). destruct Sb as (_ & Bq).
      apply (bounded_sat w' (next s) _ _ (w c + mont_val (w x) z z')).
      * intros d0 Hd. rewrite M1, C2. now apply dadd_sound.
      * lia.
      * rewrite E'. unfold v, word_sem. rewrite A. unfold Z.sub at 1. rewrite s16_add_l, Bq. f_equal.
        unfold mont_val. cbn [sign]. lia.
  - destruct (get s a) as [| |d1 B1| | | | |x|] eqn:Ga; try exact I;
      destruct (get s b) as [|z| | | | | | |] eqn:Gb; try exact I.
    + cbn [sat] in *. rewrite E', (O a) by lia. split; [lia|]. unfold v, word_sem. now rewrite Sb.
    + destruct (z =? 3329) eqn:C; [|exact I]. apply Z.eqb_eq in C. subst z. cbn [sat] in *.
      destruct Sa as (A1 & A2). rewrite E', (O x) by lia. split; [lia|]. unfold v, word_sem. now rewrite Sb, A2.
  - destruct (get s a) as [| |d1 B1|x z| | | | |] eqn:Ga; try exact I;
      destruct (get s b) as [|c| | | | | | |] eqn:Gb; try exact I.
    + cbn [sat] in *. rewrite E', (O a) by lia. split; [lia|]. unfold v, word_sem. now rewrite Sb.
    + destruct (c =? 3329) eqn:C; [|exact I]. apply Z.eqb_eq in C. subst c. cbn [sat] in *.
      destruct Sa as (A1 & A2). rewrite E', (O x) by lia. split; [lia|]. unfold v, word_sem. now rewrite Sb, A2.
  - exact I.
  - exact I.
Qed.
Lemma shift_info_sound s w o n a : ok s w -> (a < next s)%positive ->
  sat f (upd w (next s) (shift_sem o n (w a))) (next s) (shift_info s o n a).
Proof.
  intros Hok La. pose proof (get_sat _ _ a Hok) as Sa. unfold shift_info. destruct o; try exact I.
  destruct (get s a) as [| | | |x z| | | |]; try exact I.
  destruct ((n =? 10) && (z =? 20159)) eqn:C; [|exact I]. bools. subst n z. cbn [sat] in *.
  destruct Sa as (A1 & A2). rewrite upd_same, upd_old by lia. split; [lia|].
  unfold shift_sem. now rewrite A2.
Qed.

Lemma nodes_sound : sound nodes ok ext rel.
Proof.
  constructor.
  - intros s w. split; [lia|auto].
  - intros s w s1 w1 s2 w2 (A1 & A2) (B1 & B2). split; [lia|]. intros p Hp. rewrite B2 by lia. now apply A2.
  - intros s w s' w' v x (A1 & A2) (R1 & R2). split; [lia|]. now rewrite A2.
  - intros o s w a x b y z s' Hok (Ra & <-) (Rb & <-) E. apply (fresh_sound s w _ _ z s' Hok (op_info_sound s w o x y Hok Ra Rb) E).
  - intros o n s w a x z s' Hok (Ra & <-) E. apply (fresh_sound s w _ _ z s' Hok (shift_info_sound s w o n x Hok Ra) E).
  - intros s w z s' Hok E. apply (fresh_sound s w _ (Cst 0) z s' Hok (upd_same _ _ _) E).
  - intros s w a x c Hok (Ra & <-). cbn. pose proof (get_sat _ _ x Hok) as Sx.
    destruct (get s x); try discriminate. intros [= <-]. exact Sx.
Qed.
End Nodes.

(** ** Whole runs *)

Fixpoint alloc (l : list info) (s : dag) : list positive * dag :=
  match l with
  | [] => ([], s)
  | i :: l => let '(p, s) := fresh s i in let '(ps, s) := alloc l s in (p :: ps, s)
  end.
Fixpoint allocs (l : list (list info)) (s : dag) : list (list positive) * dag :=
  match l with
  | [] => ([], s)
  | a :: l => let '(p, s) := alloc a s in let '(ps, s) := allocs l s in (p :: ps, s)
  end.
Definition dag0 : dag := Dag 1 (PositiveMap.empty info).
Definition regs0 : list (list info) := repeat (repeat Top 16) 16.

(** The contents of the arrays after a run, given what is known of them before it *)
Definition analyse (p : list instr) (ptrs : gpr -> nat * Z) (arrays : list (list info))
  : option (list (list info)) :=
  let '(rs, s) := allocs regs0 dag0 in
  let '(ms, s) := allocs arrays s in
  match run nodes p (State rs ptrs ms []) s with
  | Some (st, s) => Some (map (map (get s)) (mem st))
  | None => None
  end.

Definition satv (f : Z -> Z) (v : Z) (i : info) : Prop :=
  match i with
  | Top => True
  | Cst c => v = c
  | Den d B => Z.abs v <= B /\ v == value f d
  | _ => False
  end.
Definition satw (f : Z -> Z) (v : Z) (i : info) : Prop :=
  match i with
  | Cst c => v = c
  | Den d B => Z.abs v <= B /\ v == value f d
  | _ => True
  end.

Section Runs.
Variable f : Z -> Z.
Notation ok := (ok f).

Lemma satv_upd w n v i : satv f v i -> sat f (upd w n v) n i.
Proof. destruct i; cbn; try contradiction; now rewrite ?upd_same. Qed.
Lemma alloc_sound l : forall vs s w ps s', ok s w -> Forall2 (satv f) vs l -> alloc l s = (ps, s') ->
  exists w', ok s' w' /\ ext s w s' w' /\ vrel rel s' w' vs ps.
Proof.
  induction l as [|i l IH]; intros vs s w ps s' Hok Hv; inversion Hv as [|v i' vt lt Hvi Ht]; subst; cbn [alloc].
  - intros [= <- <-]. exists w. split; [auto|]. split; [apply (nodes_sound f)|constructor].
  - destruct (fresh s i) as [p s1] eqn:E1. destruct (alloc l s1) as [ps2 s2] eqn:E2. intros [= <- <-].
    destruct (fresh_sound f s w v i p s1 Hok (satv_upd _ _ _ _ Hvi) E1) as (w1 & O1 & X1 & R1).
    destruct (IH vt s1 w1 ps2 s2 O1 Ht E2) as (w2 & O2 & X2 & R2).
    exists w2. split; [auto|]. split; [eapply (ext_trans _ _ _ _ (nodes_sound f)); eauto|].
    constructor; auto. eapply (ext_rel _ _ _ _ (nodes_sound f)); eauto.
Qed.
Lemma allocs_sound l : forall vs s w ps s', ok s w -> Forall2 (Forall2 (satv f)) vs l ->
  allocs l s = (ps, s') ->
  exists w', ok s' w' /\ ext s w s' w' /\ Forall2 (vrel rel s' w') vs ps.
Proof.
  induction l as [|i l IH]; intros vs s w ps s' Hok Hv; inversion Hv as [|v i' vt lt Hvi Ht]; subst; cbn [allocs].
  - intros [= <- <-]. exists w. split; [auto|]. split; [apply (nodes_sound f)|constructor].
  - destruct (alloc i s) as [p s1] eqn:E1. destruct (allocs l s1) as [ps2 s2] eqn:E2. intros [= <- <-].
    destruct (alloc_sound i v s w p s1 Hok Hvi E1) as (w1 & O1 & X1 & R1).
    destruct (IH vt s1 w1 ps2 s2 O1 Ht E2) as (w2 & O2 & X2 & R2).
    exists w2. split; [auto|]. split; [eapply (ext_trans _ _ _ _ (nodes_sound f)); eauto|].
    constructor; auto. eapply (vrel_ext _ _ _ _ (nodes_sound f)); eauto.
Qed.
Lemma top_sat r n : length r = n -> Forall2 (satv f) r (repeat Top n).
Proof. intros <-. induction r; cbn; constructor; auto. exact I. Qed.
Lemma regs_sat (regs : list (list Z)) : length regs = 16%nat -> Forall (fun r => length r = 16%nat) regs ->
  Forall2 (Forall2 (satv f)) regs regs0.
Proof.
  unfold regs0. intros H F. set (t := repeat Top 16). rewrite <- H. clear H.
  induction F; cbn; constructor; auto. exact (top_sat x 16 H).
Qed.
Lemma sat_satw w p i : sat f w p i -> satw f (w p) i.
Proof. destruct i; cbn; auto. Qed.

Lemma analyse_sound p regs ptrs arrays ais ms :
  length regs = 16%nat -> Forall (fun r => length r = 16%nat) regs ->
  Forall2 (Forall2 (satv f)) arrays ais -> analyse p ptrs ais = Some ms ->
  exists st, run_words p regs ptrs arrays = Some st /\ Forall2 (Forall2 (satw f)) (mem st) ms.
Proof.
  intros L F Ha. unfold analyse. destruct (allocs regs0 dag0) as [rs s1] eqn:E1.
  destruct (allocs ais s1) as [mp s2] eqn:E2.
  assert (O0 : ok dag0 (fun _ => 0)) by (intros q i; cbn; rewrite PositiveMap.gempty; discriminate).
  destruct (allocs_sound _ _ _ _ _ _ O0 (regs_sat _ L F) E1) as (w1 & O1 & X1 & R1).
  destruct (allocs_sound _ _ _ _ _ _ O1 Ha E2) as (w2 & O2 & X2 & R2).
  destruct (run nodes p (State rs ptrs mp []) s2) as [[st' s3]|] eqn:E3; [|discriminate]. intros [= <-].
  destruct (run_sound _ _ _ _ (nodes_sound f) p s2 w2 (State regs ptrs arrays []) (State rs ptrs mp []) st' s3 O2)
    as (w3 & st & Er & O3 & X3 & (S1 & S2 & S3 & S4)); auto.
  { repeat split; cbn; auto. eapply (vrels_ext _ _ _ _ (nodes_sound f)); eauto. }
  exists st. split.
  { unfold run_words. now rewrite Er. }
  clear - S3 O3. induction S3 as [|v ps vs pss H S3 IH]; cbn [map]; constructor; auto.
  clear - H O3. unfold vrel in H. induction H as [|v p vs ps (H1 & H2) H IH]; cbn [map]; constructor; auto.
  rewrite <- H2. apply sat_satw, get_sat, O3.
Qed.
End Runs.

(** ** The forward transform *)

Definition nats256 : list Z := map Z.of_nat (seq 0 256).

Definition ntt_in : list (list info) :=
  [map (fun i => Den (mkden 1 256 128 i) 3328) nats256; map Cst qdata].
Definition is_const (c : Z) (i : info) : bool := match i with Cst d => c =? d | _ => false end.
Definition is_den (i : info) (c m e j B : Z) : bool :=
  match i with
  | Den d B' => ((dc d - c) mod 3329 =? 0) && (dm d =? m) && (de d =? e) && (dj d =? j) && (B' <=? B)
  | _ => false
  end.
Fixpoint all2 {A B} (P : A -> B -> bool) (l : list A) (m : list B) : bool :=
  match l, m with
  | [], [] => true
  | x :: l, y :: m => P x y && all2 P l m
  | _, _ => false
  end.
Definition ntt_check (o : option (list (list info))) : bool :=
  match o with
  | Some [m0; m1] =>
      all2 (fun i x => is_den x 1 2 (2 * brv (fips_index i / 2) + 1) (fips_index i mod 2) 26631) nats256 m0
      && all2 is_const qdata m1
  | _ => false
  end.
Lemma ntt_checked : ntt_check (analyse ntt_avx2 args ntt_in) = true. Proof. vm_compute. reflexivity. Qed.

Lemma all2_F2 {A B} (P : A -> B -> bool) l m : all2 P l m = true -> Forall2 (fun x y => P x y = true) l m.
Proof.
  revert m; induction l as [|x l IH]; intros [|y m]; cbn; try discriminate; auto.
  intros H. apply andb_prop in H. constructor; [apply H|apply IH, H].
Qed.
Lemma F2_trans {A B C} (R : A -> B -> Prop) (Q : C -> B -> Prop) a b c :
  Forall2 R a b -> Forall2 Q c b -> Forall2 (fun x z => exists y, R x y /\ Q z y) a c.
Proof. intros H; revert c; induction H; intros c K; inversion K; subst; constructor; eauto. Qed.
Lemma F2_at (R : Z -> Z -> Prop) n m vs : Forall2 R (map Z.of_nat (seq m n)) vs ->
  length vs = n /\ forall i, (i < n)%nat -> R (Z.of_nat (m + i)) (nth i vs 0).
Proof.
  revert m vs; induction n as [|n IH]; intros m vs H; cbn in H; inversion H as [|x y l l' Hxy Hl]; subst.
  - split; [auto|lia].
  - destruct (IH _ _ Hl) as (L & K). split; [cbn; lia|]. intros [|i] Hi; cbn.
    + now rewrite Nat.add_0_r.
    + rewrite <- Nat.add_succ_comm. apply K. lia.
Qed.
Lemma F2_at256 (R : Z -> Z -> Prop) vs : Forall2 R nats256 vs ->
  zlen vs = 256 /\ forall i, 0 <= i < 256 -> R i (at_ vs i).
Proof.
  intros H. destruct (F2_at _ _ _ _ H) as (L & K). split; [unfold zlen; lia|].
  intros i Hi. specialize (K (Z.to_nat i) ltac:(lia)). rewrite Nat.add_0_l, Z2Nat.id in K by lia. exact K.
Qed.
Lemma at256_F2 (R : Z -> info -> Prop) vs (g : Z -> info) : zlen vs = 256 ->
  (forall i, 0 <= i < 256 -> R (at_ vs i) (g i)) -> Forall2 R vs (map g nats256).
Proof.
  intros L H. unfold nats256. rewrite map_map.
  assert (G : forall n m us, length us = n -> (forall i, (i < n)%nat -> R (nth i us 0) (g (Z.of_nat (m + i)))) ->
    Forall2 R us (map (fun x => g (Z.of_nat x)) (seq m n))).
  { induction n as [|n IH]; intros m us Lu Hu; destruct us as [|u us]; try discriminate; cbn; constructor.
    - specialize (Hu 0%nat ltac:(lia)). now rewrite Nat.add_0_r in Hu.
    - apply IH; [cbn in Lu; lia|]. intros i Hi. specialize (Hu (Datatypes.S i) ltac:(lia)).
      cbn in Hu. now rewrite <- Nat.add_succ_comm in Hu. }
  apply G; [unfold zlen in L; lia|]. intros i Hi. rewrite Nat.add_0_l.
  specialize (H (Z.of_nat i) ltac:(lia)). unfold at_ in H. now rewrite Nat2Z.id in H.
Qed.
Lemma const_F2 f l : Forall2 (satv f) l (map Cst l).
Proof. induction l; cbn; constructor; auto. reflexivity. Qed.
Lemma const_eq f l is vs : Forall2 (fun c i => is_const c i = true) l is -> Forall2 (satw f) vs is -> vs = l.
Proof.
  intros H; revert vs; induction H as [|c i l is Hc H IH]; intros vs K; inversion K as [|v j vs' js Hv Hs]; subst; auto.
  f_equal; auto. unfold is_const in Hc. destruct i; try discriminate. apply Z.eqb_eq in Hc. subst. exact Hv.
Qed.
Lemma is_den_sound f v i c m e j B : is_den i c m e j B = true -> satw f v i ->
  Z.abs v <= B /\ v == c * part f m e j.
Proof.
  unfold is_den. destruct i as [| |d B'| | | | | |]; try discriminate. destruct d as [c' m' e' j']; cbn [dc dm de dj].
  intros H. bools. subst m' e' j'. intros (S1 & S2). split; [lia|].
  rewrite S2. unfold value; cbn [dc dm de dj].
  assert (c' == c) as -> by (apply zero_cg; apply Z.eqb_eq; auto). reflexivity.
Qed.

Definition vregs (regs : list (list Z)) : Prop :=
  length regs = 16%nat /\ Forall (fun r => length r = 16%nat) regs.

Lemma ntt_avx2_run regs r : vregs regs -> zlen r = 256 ->
  (forall i, 0 <= i < 256 -> Z.abs (at_ r i) < 3329) ->
  exists st r', run_words ntt_avx2 regs args [r; qdata] = Some st /\ mem st = [r'; qdata] /\
    zlen r' = 256 /\ (forall i, 0 <= i < 256 -> Z.abs (at_ r' i) < 8 * 3329) /\
    (forall i, 0 <= i < 256 -> at_ r' i == at_ (NTT r) (fips_index i)).
Proof.
  intros (L & F) Lr Hr. pose proof ntt_checked as C.
  destruct (analyse ntt_avx2 args ntt_in) as [[|m0 [|m1 [|? ?]]]|] eqn:EA; try discriminate C.
  unfold ntt_check in C.
  apply andb_prop in C. destruct C as (C0 & C1). apply all2_F2 in C0, C1.
  destruct (analyse_sound (at_ r) ntt_avx2 regs args [r; qdata] ntt_in [m0; m1] L F) as (st & Er & S); auto.
  { constructor; [|constructor; [apply const_F2|constructor]].
    apply at256_F2; auto. intros i Hi. cbn [satv]. split; [specialize (Hr i Hi); lia|].
    unfold value; cbn [dc dm de dj]. unfold part. change (256 / 256) with (0 + 1).
    rewrite sum_S by lia. rewrite sum_0. replace (i + 0 * 256) with i by ring.
    replace (128 * 0) with 0 by ring. rewrite Z.pow_0_r. apply cg_of_eq; ring. }
  inversion S as [|r' x l y Sr S']; subst. inversion S' as [|q' x l' y' Sq S'']; subst.
  inversion S''; subst. apply (const_eq _ _ _ _ C1) in Sq. subst q'.
  pose proof (F2_trans _ _ _ _ _ C0 Sr) as T. apply F2_at256 in T. destruct T as (L' & T).
  exists st, r'. split; [exact Er|]. split; [symmetry; assumption|]. split; [exact L'|].
  assert (T' : forall i, 0 <= i < 256 -> Z.abs (at_ r' i) <= 26631 /\
     at_ r' i == 1 * part (at_ r) 2 (2 * brv (fips_index i / 2) + 1) (fips_index i mod 2)).
  { intros i Hi. destruct (T i Hi) as (x & X1 & X2). exact (is_den_sound _ _ _ _ _ _ _ _ X1 X2). }
  split; intros i Hi; destruct (T' i Hi) as (T1 & T2); [lia|].
  rewrite T2. assert (Hs : 0 <= fips_index i < 256).
  { unfold fips_index. pose proof (Z.mod_pos_bound i 16 ltac:(lia)). pose proof (Z.mod_pos_bound (i / 16) 8 ltac:(lia)).
    pose proof (Z.div_le_upper_bound i 128 1 ltac:(lia)). pose proof (Z.div_pos i 128 ltac:(lia) ltac:(lia)).
    assert (i / 128 < 2) by (apply Z.div_lt_upper_bound; lia). lia. }
  rewrite NTT_at by auto. unfold part. change (256 / 2) with 128. rewrite Z.mul_1_l.
  apply sum_cg; [lia|]. intros t Ht. replace (fips_index i mod 2 + t * 2) with (2 * t + fips_index i mod 2) by ring.
  reflexivity.
Qed.

(** ** The inverse transform *)

Definition intt_in : list (list info) :=
  [map (fun i => Den (mkden 1 2 (2 * brv (fips_index i / 2) + 1) (fips_index i mod 2)) 32768) nats256; map Cst qdata].
Definition intt_check (o : option (list (list info))) : bool :=
  match o with
  | Some [m0; m1] =>
      all2 (fun i x => is_den x 65536 256 128 i 26631) nats256 m0
      && all2 is_const qdata m1
  | _ => false
  end.
Lemma intt_checked : intt_check (analyse invntt_avx2 args intt_in) = true.
Proof. vm_compute. reflexivity. Qed.

Lemma fips_index_range i : 0 <= i < 256 -> 0 <= fips_index i < 256.
Proof.
  intros Hi. unfold fips_index. pose proof (Z.mod_pos_bound i 16 ltac:(lia)).
  pose proof (Z.mod_pos_bound (i / 16) 8 ltac:(lia)). pose proof (Z.div_pos i 128 ltac:(lia) ltac:(lia)).
  assert (i / 128 < 2) by (apply Z.div_lt_upper_bound; lia). lia.
Qed.

Lemma invntt_avx2_run regs r g : vregs regs -> zlen r = 256 ->
  (forall i, 0 <= i < 256 -> - 2 ^ 15 <= at_ r i < 2 ^ 15) ->
  reduced g -> (forall i, 0 <= i < 256 -> at_ r i == at_ g (fips_index i)) ->
  exists st r', run_words invntt_avx2 regs args [r; qdata] = Some st /\ mem st = [r'; qdata] /\
    zlen r' = 256 /\ (forall i, 0 <= i < 256 -> Z.abs (at_ r' i) < 8 * 3329) /\
    (forall i, 0 <= i < 256 -> at_ r' i == 65536 * at_ (NTT_inv g) i).
Proof.
  intros (L & F) Lr Hr Hg Hrg. pose proof intt_checked as C.
  destruct (analyse invntt_avx2 args intt_in) as [[|m0 [|m1 [|? ?]]]|] eqn:EA; try discriminate C.
  unfold intt_check in C.
  apply andb_prop in C. destruct C as (C0 & C1). apply all2_F2 in C0, C1.
  set (f := at_ (NTT_inv g)).
  destruct (analyse_sound f invntt_avx2 regs args [r; qdata] intt_in [m0; m1] L F) as (st & Er & S); auto.
  { constructor; [|constructor; [apply const_F2|constructor]].
    apply at256_F2; auto. intros i Hi. cbn [satv]. split; [specialize (Hr i Hi); lia|].
    unfold value; cbn [dc dm de dj]. rewrite Hrg by auto. rewrite <- (NTT_NTT_inv g Hg) at 1.
    rewrite NTT_at by now apply fips_index_range. unfold part. change (256 / 2) with 128. rewrite Z.mul_1_l.
    apply sum_cg; [lia|]. intros t Ht. unfold f.
    replace (fips_index i mod 2 + t * 2) with (2 * t + fips_index i mod 2) by ring. reflexivity. }
  inversion S as [|r' x l y Sr S']; subst. inversion S' as [|q' x l' y' Sq S'']; subst.
  inversion S''; subst. apply (const_eq _ _ _ _ C1) in Sq. subst q'.
  pose proof (F2_trans _ _ _ _ _ C0 Sr) as T. apply F2_at256 in T. destruct T as (L' & T).
  exists st, r'. split; [exact Er|]. split; [symmetry; assumption|]. split; [exact L'|].
  assert (T' : forall i, 0 <= i < 256 -> Z.abs (at_ r' i) <= 26631 /\ at_ r' i == 65536 * part f 256 128 i).
  { intros i Hi. destruct (T i Hi) as (x & X1 & X2). exact (is_den_sound _ _ _ _ _ _ _ _ X1 X2). }
  split; intros i Hi; destruct (T' i Hi) as (T1 & T2); [lia|].
  rewrite T2. unfold part. change (256 / 256) with (0 + 1).
  rewrite sum_S by lia. rewrite sum_0. replace (i + 0 * 256) with i by ring.
  replace (128 * 0) with 0 by ring. rewrite Z.pow_0_r. unfold f. apply cg_of_eq; ring.
Qed.
