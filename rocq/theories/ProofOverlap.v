(** * The coefficientwise functions on overlapping polynomials *)

From Coq Require Import ZArith List Bool Lia Setoid Morphisms.
From Verif Require Import CSem ModelArith ModelKem ModelInPlace ModelOverlap Spec202 Spec203 SpecLink SpecMem CSemFacts
  ProofMem ProofScalar ProofSum ProofNttSpec ProofNtt ProofMul ProofInPlace.
Import ListNotations.
Open Scope Z_scope.
Ltac Zify.zify_post_hook ::= idtac.

Lemma val_mget m a v : m a = Some v -> val (mget m a) = Ok v.
Proof. intros H. unfold mget. now rewrite val_emit, H. Qed.
Lemma val_mset m a b : m a <> None -> val (mset m a b) = Ok (fun x => if x =? a then Some b else m x).
Proof. intros H. unfold mset. rewrite val_emit. now destruct (m a). Qed.
Lemma wp_mget N m a v (Q : Z -> Prop) : m a = Some v -> Q v -> wpn N (mget m a) Q.
Proof. intros H. now apply wp_ok, val_mget. Qed.
Lemma wp_mset N m a b (Q : mem -> Prop) : m a <> None -> Q (fun x => if x =? a then Some b else m x) -> wpn N (mset m a b) Q.
Proof. intros H. now apply wp_ok, val_mset. Qed.

(** [m] is [m0] with the first [n] coefficients of r computed. *)
Definition upto (m0 : mem) (r n : Z) (f : Z -> Z) (m : mem) : Prop :=
  forall x, m x = if (r <=? x) && (x <? r + n) then Some (f (x - r)) else m0 x.

Ltac range_cases := repeat match goal with
  | |- context [?a <=? ?b] => destruct (Z.leb_spec a b); cbn [andb]; try lia
  | |- context [?a <? ?b] => destruct (Z.ltb_spec a b); cbn [andb]; try lia
  | |- context [?a =? ?b] => destruct (Z.eqb_spec a b); try lia
  end.

Lemma upto_step m0 r n f m b : 0 <= n -> upto m0 r n f m -> b = f n ->
  upto m0 r (n + 1) f (fun x => if x =? r + n then Some b else m x).
Proof.
  intros Hn H -> x. cbv beta. rewrite H. range_cases; try reflexivity. subst. do 2 f_equal. lia.
Qed.

Lemma upto_overwrite m0 r n f m : 0 <= n -> upto m0 r n f m -> forall x, m x = overwrite m0 [(r, map f (range n))] x.
Proof.
  intros Hn H x. rewrite H. cbn [overwrite]. rewrite zlen_map, zlen_range by lia. range_cases; try reflexivity.
  fold (zget 0 (map f (range n)) (x - r)). now rewrite zget_map_range by lia.
Qed.

Lemma wp_pointwise (op : Z -> Z -> Z) m0 r b xs ys (Q : mem -> Prop) :
  zlen xs = 256 -> zlen ys = 256 -> contains m0 r xs -> contains m0 b ys -> r <= b \/ b + 256 <= r ->
  (forall i, 0 <= i < 256 -> -32768 <= op (zget 0 xs i) (zget 0 ys i) < 32768) ->
  (forall m, upto m0 r 256 (fun i => op (zget 0 xs i) (zget 0 ys i)) m -> Q m) ->
  wp (for_up 0 MLKEM_N 1 (fun i m =>
    x <- mget m (r + i) ;; y <- mget m (b + i) ;; z <- to_i16 (op x y) ;; mset m (r + i) z) m0) Q.
Proof.
  intros Lx Ly Hx Hy O B HQ. change MLKEM_N with 256.
  apply (wp_for _ (fun i m => upto m0 r i (fun i => op (zget 0 xs i) (zget 0 ys i)) m)); [lia| | |exact HQ].
  - intros x. range_cases; reflexivity.
  - intros i m Hi H. assert (Ex : m (r + i) = Some (zget 0 xs i)).
    { rewrite H. range_cases; apply Hx; lia. }
    apply wp_bind, (wp_mget _ _ _ _ _ Ex).
    apply wp_bind, (wp_mget _ _ _ (zget 0 ys i)).
    { rewrite H. range_cases; apply Hy; lia. }
    apply wp_bind, wp_i16; [apply B; lia|]. apply wp_mset; [congruence|]. apply upto_step; [lia|exact H|reflexivity].
Qed.

Lemma poly_add_overlap m r b xs ys : zlen xs = 256 -> zlen ys = 256 -> contains m r xs -> contains m b ys ->
  r <= b \/ b + 256 <= r ->
  (forall i, 0 <= i < 256 -> - 2 ^ 15 <= at_ xs i + at_ ys i < 2 ^ 15) ->
  exists m', val (poly_add_in m r b) = Ok m' /\
    forall x, m' x = overwrite m [(r, map (fun i => at_ xs i + at_ ys i) (range 256))] x.
Proof.
  intros Lx Ly Hx Hy O B. apply wp_ex. unfold poly_add_in.
  apply (wp_pointwise Z.add m r b xs ys); try assumption. intros m' H. now apply upto_overwrite.
Qed.
Lemma poly_sub_overlap m r b xs ys : zlen xs = 256 -> zlen ys = 256 -> contains m r xs -> contains m b ys ->
  r <= b \/ b + 256 <= r ->
  (forall i, 0 <= i < 256 -> - 2 ^ 15 <= at_ xs i - at_ ys i < 2 ^ 15) ->
  exists m', val (poly_sub_in m r b) = Ok m' /\
    forall x, m' x = overwrite m [(r, map (fun i => at_ xs i - at_ ys i) (range 256))] x.
Proof.
  intros Lx Ly Hx Hy O B. apply wp_ex. unfold poly_sub_in.
  apply (wp_pointwise Z.sub m r b xs ys); try assumption. intros m' H. now apply upto_overwrite.
Qed.

Lemma polyvec_add_overlap p m r b xs ys : let n := 256 * k (set_of p) in
  zlen xs = n -> zlen ys = n -> contains m r xs -> contains m b ys ->
  r <= b \/ b + n <= r ->
  (forall i, 0 <= i < n -> - 2 ^ 15 <= at_ xs i + at_ ys i < 2 ^ 15) ->
  exists m', val (polyvec_add_in p m r b) = Ok m' /\
    forall x, m' x = overwrite m [(r, map (fun i => at_ xs i + at_ ys i) (range n))] x.
Proof.
  intros n Lx Ly Hx Hy O B. assert (E : k (set_of p) = MLKEM_K p) by (destruct p; reflexivity).
  unfold n in *. clear n. rewrite E in *. assert (HK : 2 <= MLKEM_K p <= 4) by (destruct p; cbn; lia).
  apply wp_ex. unfold polyvec_add_in. change MLKEM_N with 256.
  apply (wp_for _ (fun j m' => upto m r (256 * j) (fun i => at_ xs i + at_ ys i) m')); [lia| | |].
  - intros x. range_cases; reflexivity.
  - intros j m1 Hj H.
    apply (wp_pointwise Z.add m1 (r + j * 256) (b + j * 256) (slice xs (256 * j) (256 * j + 256)) (slice ys (256 * j) (256 * j + 256))).
    + rewrite zlen_slice; lia.
    + rewrite zlen_slice; lia.
    + intros i Hi. rewrite zlen_slice in Hi by lia. fold (zget 0 (slice xs (256 * j) (256 * j + 256)) i).
      rewrite zget_slice by lia. rewrite H. range_cases; replace (r + j * 256 + i) with (r + (256 * j + i)) by lia; apply Hx; lia.
    + intros i Hi. rewrite zlen_slice in Hi by lia. fold (zget 0 (slice ys (256 * j) (256 * j + 256)) i).
      rewrite zget_slice by lia. rewrite H. range_cases; replace (b + j * 256 + i) with (b + (256 * j + i)) by lia; apply Hy; lia.
    + lia.
    + intros i Hi. rewrite !zget_slice by lia. apply B. lia.
    + intros m2 H2 x. rewrite H2, H. range_cases; try reflexivity. rewrite !zget_slice by lia.
      unfold at_, zget. do 3 f_equal; f_equal; lia.
  - intros m' H. now apply upto_overwrite; [lia|].
Qed.

(** A destination that begins inside the other argument *)

Lemma wp_add_ones r b : b < r < b + 256 ->
  wp (poly_add_in (fun _ => Some 1) r b) (fun m => m (r + (r - b)) = Some 3).
Proof.
  intros H. unfold poly_add_in. change MLKEM_N with 256.
  apply (wp_for _ (fun i m => upto (fun _ => Some 1) r i (fun k => 2 + k / (r - b)) m)); [lia| | |].
  - intros x. range_cases; reflexivity.
  - intros i m Hi Hm.
    assert (D : 0 <= i / (r - b) <= 255).
    { split; [apply Z.div_pos; lia|]. apply Z.div_le_upper_bound; nia. }
    apply wp_bind, (wp_mget _ _ _ 1). { rewrite Hm. range_cases; reflexivity. }
    apply wp_bind, (wp_mget _ _ _ (1 + i / (r - b))).
    { rewrite Hm. range_cases.
      - replace (b + i - r) with (i + (-1) * (r - b)) by lia. rewrite Z.div_add by lia. f_equal. lia.
      - rewrite Z.div_small by lia. reflexivity. }
    apply wp_bind, wp_i16; [lia|]. apply wp_mset; [rewrite Hm; now destruct (_ && _)|]. apply upto_step; [lia|exact Hm|lia].
  - intros m Hm. rewrite Hm. range_cases. replace (r + (r - b) - r) with (r - b) by lia. rewrite Z.div_same by lia. reflexivity.
Qed.

(** ** Multiplication *)

Lemma slice_two l o : 0 <= o -> o + 2 <= zlen l -> slice l o (o + 2) = [zget 0 l o; zget 0 l (o + 1)].
Proof.
  intros Ho L. assert (Z2 : zlen (slice l o (o + 2)) = 2) by (rewrite zlen_slice; lia).
  assert (E0 : zget 0 (slice l o (o + 2)) 0 = zget 0 l o) by (rewrite zget_slice by lia; f_equal; lia).
  assert (E1 : zget 0 (slice l o (o + 2)) 1 = zget 0 l (o + 1)) by (rewrite zget_slice by lia; reflexivity).
  destruct (slice l o (o + 2)) as [|x [|y [|z t]]]; unfold zlen in Z2; cbn [length] in Z2; try lia.
  cbn in E0, E1. now rewrite <- E0, <- E1.
Qed.

Lemma contains_two m a x y : m a = Some x -> m (a + 1) = Some y -> contains m a [x; y].
Proof.
  intros H0 H1 i Hi. unfold zlen in Hi. cbn [length] in Hi. assert (i = 0 \/ i = 1) as [-> | ->] by lia;
    [rewrite Z.add_0_r|]; assumption.
Qed.
Lemma val_mload m a l n : contains m a l -> zlen l = n -> val (mload m a n) = Ok l.
Proof. intros H L. apply wp_val. now apply (wp_mload _ _ _ l). Qed.

Lemma basemul_block x0 x1 a0 a1 b0 b1 c rs :
  val (basemul_cached [x0; x1] [a0; a1] [b0; b1] c) = Ok rs ->
  exists r0 r1, rs = [r0; r1] /\ forall m r a b,
    m a = Some a0 -> m (a + 1) = Some a1 -> m b = Some b0 -> m (b + 1) = Some b1 ->
    m r <> None -> m (r + 1) <> None ->
    exists m', val (basemul_cached_in m r a b c) = Ok m' /\ stored m [(r, [r0; r1])] m'.
Proof.
  unfold basemul_cached. intros V.
  apply inv_bind in V as ([] & P1 & V).
  apply inv_bind in V as (? & E & V). injection E as <-. apply inv_bind in V as (? & E & V). injection E as <-.
  apply inv_bind in V as (? & E & V). injection E as <-. apply inv_bind in V as (? & E & V). injection E as <-.
  apply inv_bind in V as (t0 & I1 & V). apply inv_bind in V as (x & I2 & V). apply inv_bind in V as (t0' & I3 & V).
  apply inv_bind in V as (t1 & I4 & V). apply inv_bind in V as (x' & I5 & V). apply inv_bind in V as (t1' & I6 & V).
  apply inv_bind in V as (r0 & M0 & V). apply inv_bind in V as (? & E & V). injection E as <-.
  apply inv_bind in V as (r1 & M1 & V). apply inv_bind in V as (? & E & V). injection E as <-.
  apply inv_bind in V as ([] & P2 & V). injection V as <-.
  exists r0, r1. split; [reflexivity|]. intros m r a b Ha0 Ha1 Hb0 Hb1 Hr0 Hr1.
  unfold basemul_cached_in.
  rewrite (val_bind _ _ _ (val_mload m a [a0; a1] 2 (contains_two _ _ _ _ Ha0 Ha1) eq_refl)).
  rewrite (val_bind _ _ _ P1).
  pose proof (val_mget _ _ _ Ha0) as Ga0. pose proof (val_mget _ _ _ Ha1) as Ga1.
  pose proof (val_mget _ _ _ Hb0) as Gb0. pose proof (val_mget _ _ _ Hb1) as Gb1.
  rewrite (val_bind _ _ _ Ga1), (val_bind _ _ _ I1), (val_bind _ _ _ Ga0), (val_bind _ _ _ Gb0), (val_bind _ _ _ I2),
    (val_bind _ _ _ I3), (val_bind _ _ _ Ga0), (val_bind _ _ _ Gb1), (val_bind _ _ _ I4), (val_bind _ _ _ Ga1),
    (val_bind _ _ _ Gb0), (val_bind _ _ _ I5), (val_bind _ _ _ I6), (val_bind _ _ _ M0),
    (val_bind _ _ _ (val_mset _ _ r0 Hr0)), (val_bind _ _ _ M1).
  set (m1 := fun x => if x =? r then Some r0 else m x).
  assert (Hm1 : m1 (r + 1) <> None) by (unfold m1; range_cases; exact Hr1).
  rewrite (val_bind _ _ _ (val_mset _ _ r1 Hm1)).
  set (m2 := fun x => if x =? r + 1 then Some r1 else m1 x).
  assert (C2 : contains m2 r [r0; r1]).
  { apply contains_two; unfold m2, m1; range_cases; reflexivity. }
  rewrite (val_bind _ _ _ (val_mload m2 r [r0; r1] 2 C2 eq_refl)).
  rewrite (val_bind _ _ _ P2). exists m2. split; [reflexivity|].
  intros y. unfold m2, m1. cbn [overwrite]. change (zlen [r0; r1]) with 2. range_cases; try reflexivity.
  - replace (y - r) with 1 by lia. reflexivity.
  - replace (y - r) with 0 by lia. reflexivity.
Qed.

Section Basemul.
Context (m0 : mem) (r a b c : Z) (h A B C : list Z).
Hypothesis (Lh : zlen h = 256) (LA : zlen A = 256) (LB : zlen B = 256) (LC : zlen C = 128).
Hypothesis (Hh : contains m0 r h) (HA : contains m0 a A) (HB : contains m0 b B) (HC : contains m0 c C).
Hypothesis (Oa : r <= a \/ a + 256 <= r) (Ob : r <= b \/ b + 256 <= r) (Oc : r + 127 <= c \/ c + 128 <= r).

(** The first [n] coefficients of r may have changed. *)
Definition sofar (n : Z) (m : mem) (d : list Z) : Prop :=
  zlen d = 256 /\ stored m0 [(r, d)] m /\ forall i, n <= i < 256 -> zget 0 d i = zget 0 h i.

Lemma sofar_old n m d x : 0 <= n -> sofar n m d -> x < r \/ r + n <= x -> m x = m0 x.
Proof.
  intros Hn (L & S & K) H. rewrite (stored_one _ _ _ _ _ S), L. range_cases; try reflexivity.
  rewrite K by lia. unfold zget. rewrite <- (Hh (x - r)) by lia. f_equal. lia.
Qed.

Lemma sim_block o m d e x0 x1 : 0 <= o -> o + 2 <= 256 -> sofar o m d ->
  sim (sofar (o + 2)) (basemul_cached_in m (r + o) (a + o) (b + o) e)
    (rs <- basemul_cached [x0; x1] [zget 0 A o; zget 0 A (o + 1)] [zget 0 B o; zget 0 B (o + 1)] e ;; asplice d o rs).
Proof.
  intros Ho Ho2 S d' V. apply inv_bind in V as (rs & V & E). apply basemul_block in V as (r0 & r1 & -> & V).
  apply asplice_inv in E as (_ & _ & ->).
  change (firstn (Z.to_nat o) d ++ [r0; r1] ++ skipn (Z.to_nat o + length [r0; r1]) d) with (splice d o [r0; r1]).
  assert (Old : forall x, x < r \/ r + o <= x -> m x = m0 x) by (intros x; now apply (sofar_old o m d)).
  destruct S as (L & S & K).
  destruct (V m (r + o) (a + o) (b + o)) as (m' & E & S').
  - rewrite Old by lia. apply HA. lia.
  - rewrite Old by lia. rewrite <- Z.add_assoc. apply HA. lia.
  - rewrite Old by lia. apply HB. lia.
  - rewrite Old by lia. rewrite <- Z.add_assoc. apply HB. lia.
  - rewrite Old by lia. rewrite (Hh o) by lia. discriminate.
  - rewrite Old by lia. rewrite <- Z.add_assoc, (Hh (o + 1)) by lia. discriminate.
  - assert (L2 : zlen [r0; r1] = 2) by reflexivity.
    exists m'. split; [exact E|]. split; [|split].
    + rewrite zlen_splice; lia.
    + apply (stored_splice m0 [] r d [] m o [r0; r1]); [exact S|lia|lia|constructor|exact S'].
    + intros i Hi. rewrite zget_splice by lia. rewrite L2. range_cases. apply K. lia.
Qed.

Lemma sim_basemul : sim (fun m d => zlen d = 256 /\ stored m0 [(r, d)] m)
  (poly_basemul_in m0 r a b c) (poly_basemul_montgomery_cached h A B C).
Proof.
  unfold poly_basemul_in, poly_basemul_montgomery_cached. change (MLKEM_N / 2) with 128. change (MLKEM_N / 4) with 64.
  apply (sim_left _ _ _ _ C); [now apply val_mload|]. apply sim_same. intros _ _.
  apply (sim_mono (sofar (4 * 64))); [intros m d (L & S & _); now split|].
  unfold for_up. apply sim_same. intros _ _. change (Z.to_nat ((64 - 0 + 1 - 1) / 1)) with 64%nat.
  assert (G : forall n i m d f g, Z.of_nat n + i = 64 -> 0 <= i ->
    (forall i m d, 0 <= i < 64 -> sofar (4 * i) m d -> sim (sofar (4 * (i + 1))) (f i m) (g i d)) ->
    sofar (4 * i) m d -> sim (sofar (4 * 64)) (for_n n i 1 f m) (for_n n i 1 g d)).
  { induction n as [|n IH]; intros i m d f g Hn Hi H S; cbn [for_n].
    - apply sim_ret. now replace i with 64 in S by lia.
    - apply (sim_bind (sofar (4 * (i + 1)))); [apply H; [lia|exact S]|]. intros m' d' _ S'. apply IH; (assumption || lia). }
  apply G; [reflexivity|lia| |].
  - clear G. intros i m d Hi S res V.
    apply inv_bind in V as (s1 & E1 & V). apply inv_bind in V as (s2 & E2 & V). apply inv_bind in V as (s3 & E3 & V).
    apply inv_bind in V as (e1 & E4 & V). apply inv_bind in V as (s5 & E5 & V). apply inv_bind in V as (d1 & E6 & V).
    apply inv_bind in V as (s7 & E7 & V). apply inv_bind in V as (s8 & E8 & V). apply inv_bind in V as (s9 & E9 & V).
    apply inv_bind in V as (e2 & E10 & V). apply inv_bind in V as (s11 & E11 & E12).
    apply aslice_inv in E1 as (_ & _ & Q1 & ->). apply aslice_inv in E2 as (_ & _ & _ & ->). apply aslice_inv in E3 as (_ & _ & _ & ->).
    apply aslice_inv in E7 as (_ & _ & Q7 & ->). apply aslice_inv in E8 as (_ & _ & _ & ->). apply aslice_inv in E9 as (_ & _ & _ & ->).
    apply (aget_inv _ _ 0) in E4 as (_ & ->). apply (aget_inv _ _ 0) in E10 as (_ & ->).
    rewrite !slice_two in E5, E11 by lia.
    destruct (sim_block (4 * i) m d (zget 0 C (2 * i)) (zget 0 d (4 * i)) (zget 0 d (4 * i + 1)) ltac:(lia) ltac:(lia) S d1)
      as (m1 & V1 & S1).
    { rewrite (val_bind _ _ _ E5). exact E6. }
    destruct (sim_block (4 * i + 2) m1 d1 (zget 0 C (2 * i + 1)) (zget 0 d1 (4 * i + 2)) (zget 0 d1 (4 * i + 2 + 1))
      ltac:(lia) ltac:(lia) S1 res) as (m2 & V2 & S2).
    { rewrite (val_bind _ _ _ E11). exact E12. }
    assert (C1 : val (mget m (c + 2 * i)) = Ok (zget 0 C (2 * i))).
    { apply val_mget. rewrite (sofar_old (4 * i) m d _ ltac:(lia) S) by lia. apply HC. lia. }
    assert (C2 : val (mget m1 (c + (2 * i + 1))) = Ok (zget 0 C (2 * i + 1))).
    { apply val_mget. rewrite (sofar_old (4 * i + 2) m1 d1 _ ltac:(lia) S1) by lia. apply HC. lia. }
    rewrite (val_bind _ _ _ C1), (val_bind _ _ _ V1), (val_bind _ _ _ C2). exists m2. split; [exact V2|].
    replace (4 * (i + 1)) with (4 * i + 2 + 2) by lia. exact S2.
  - split; [exact Lh|]. split; [now apply stored_nothing|reflexivity].
Qed.
End Basemul.

Lemma poly_basemul_overlap m r a b c xs ys cs c0 :
  accessible m r 256 -> contains m a xs -> contains m b ys -> contains m c cs -> zlen xs = 256 -> zlen ys = 256 ->
  zlen c0 = 128 -> val (poly_mulcache_compute c0 ys) = Ok cs ->
  r <= a \/ a + 256 <= r -> r <= b \/ b + 256 <= r -> r + 127 <= c \/ c + 128 <= r ->
  (forall i, 0 <= i < 256 -> Z.abs (at_ xs i) < q) ->
  (forall i, 0 <= i < 256 -> - 2 ^ 15 <= at_ ys i < 2 ^ 15) ->
  exists m' d, val (poly_basemul_in m r a b c) = Ok m' /\ (forall x, m' x = overwrite m [(r, d)] x) /\
    zlen d = 256 /\ (forall i, 0 <= i < 256 -> Z.abs (at_ d i) < 2 * q) /\
    (forall i, 0 <= i < 256 -> (2 ^ 16 * at_ d i) mod q = at_ (MultiplyNTTs xs ys) i).
Proof.
  intros Ar Ha Hb Hc La Lb L0 E Oa Ob Oc Ba Bb.
  destruct (contents m r 256 ltac:(lia) Ar) as (h & Lh & Hh).
  destruct (basemul_correct h c0 xs ys Lh L0 La Lb Ba Bb) as (d & V & Ld & Bd & Pd).
  rewrite (val_bind _ _ _ E) in V.
  assert (Lc : zlen cs = 128).
  { destruct (wp_ex _ _ (wp_mulcache False c0 ys (fun x => zlen x = 128) L0 Lb (int16s_at _ Lb Bb) (fun x H => proj1 H))) as (cs' & E' & L').
    congruence. }
  destruct (sim_basemul m r a b c h xs ys cs Lh La Lb Lc Hh Ha Hb Hc Oa Ob Oc d V) as (m' & V' & _ & S).
  exists m', d. auto.
Qed.

Lemma poly_add_overlap_wrong r b : b < r < b + 256 -> exists m xs ys,
  zlen xs = 256 /\ zlen ys = 256 /\ contains m r xs /\ contains m b ys /\
  (forall i, 0 <= i < 256 -> - 2 ^ 15 <= at_ xs i + at_ ys i < 2 ^ 15) /\
  exists m', val (poly_add_in m r b) = Ok m' /\
    exists x, m' x <> overwrite m [(r, map (fun i => at_ xs i + at_ ys i) (range 256))] x.
Proof.
  intros H. exists (fun _ => Some 1), (repeat 1 256), (repeat 1 256).
  assert (E : forall i, 0 <= i < 256 -> at_ (repeat 1 256) i = 1).
  { intros i Hi. unfold at_. rewrite (nth_indep _ 0 1) by (rewrite repeat_length; lia). apply nth_repeat. }
  assert (C : forall a, contains (fun _ => Some 1) a (repeat 1 256)).
  { intros a i Hi. change (zlen (repeat 1 256)) with 256 in Hi. f_equal. symmetry. now apply E. }
  split; [reflexivity|]. split; [reflexivity|]. split; [apply C|]. split; [apply C|].
  split. { intros i Hi. rewrite E by exact Hi. lia. }
  destruct (wp_ex _ _ (wp_add_ones r b H)) as (m' & V & F). exists m'. split; [exact V|].
  exists (r + (r - b)). rewrite F. cbn [overwrite]. rewrite zlen_map, zlen_range by lia. range_cases.
  fold (zget 0 (map (fun i => at_ (repeat 1 256) i + at_ (repeat 1 256) i) (range 256)) (r + (r - b) - r)).
  rewrite zget_map_range by lia. rewrite E by lia. discriminate.
Qed.

Lemma wp_sub_ones r b : b < r < b + 256 ->
  wp (poly_sub_in (fun _ => Some 1) r b) (fun m => m (r + (r - b)) = Some 1).
Proof.
  intros H. unfold poly_sub_in. change MLKEM_N with 256.
  apply (wp_for _ (fun i m => upto (fun _ => Some 1) r i (fun k => (k / (r - b)) mod 2) m)); [lia| | |].
  - intros x. range_cases; reflexivity.
  - intros i m Hi Hm. pose proof (Z.mod_pos_bound (i / (r - b)) 2 ltac:(lia)) as D.
    apply wp_bind, (wp_mget _ _ _ 1). { rewrite Hm. range_cases; reflexivity. }
    apply wp_bind, (wp_mget _ _ _ (1 - (i / (r - b)) mod 2)).
    { rewrite Hm. range_cases.
      - replace (b + i - r) with (i + (-1) * (r - b)) by lia. rewrite Z.div_add by lia. f_equal.
        pose proof (Z.div_mod (i / (r - b)) 2 ltac:(lia)).
        pose proof (Z.div_mod (i / (r - b) + -1) 2 ltac:(lia)).
        pose proof (Z.mod_pos_bound (i / (r - b) + -1) 2 ltac:(lia)). lia.
      - rewrite Z.div_small by lia. reflexivity. }
    apply wp_bind, wp_i16; [lia|]. apply wp_mset; [rewrite Hm; now destruct (_ && _)|]. apply upto_step; [lia|exact Hm|lia].
  - intros m Hm. rewrite Hm. range_cases. replace (r + (r - b) - r) with (r - b) by lia. rewrite Z.div_same by lia. reflexivity.
Qed.

Lemma poly_sub_overlap_wrong r b : b < r < b + 256 -> exists m xs ys,
  zlen xs = 256 /\ zlen ys = 256 /\ contains m r xs /\ contains m b ys /\
  (forall i, 0 <= i < 256 -> - 2 ^ 15 <= at_ xs i - at_ ys i < 2 ^ 15) /\
  exists m', val (poly_sub_in m r b) = Ok m' /\
    exists x, m' x <> overwrite m [(r, map (fun i => at_ xs i - at_ ys i) (range 256))] x.
Proof.
  intros H. exists (fun _ => Some 1), (repeat 1 256), (repeat 1 256).
  assert (E : forall i, 0 <= i < 256 -> at_ (repeat 1 256) i = 1).
  { intros i Hi. unfold at_. rewrite (nth_indep _ 0 1) by (rewrite repeat_length; lia). apply nth_repeat. }
  assert (C : forall a, contains (fun _ => Some 1) a (repeat 1 256)).
  { intros a i Hi. change (zlen (repeat 1 256)) with 256 in Hi. f_equal. symmetry. now apply E. }
  split; [reflexivity|]. split; [reflexivity|]. split; [apply C|]. split; [apply C|].
  split. { intros i Hi. rewrite E by exact Hi. lia. }
  destruct (wp_ex _ _ (wp_sub_ones r b H)) as (m' & V & F). exists m'. split; [exact V|].
  exists (r + (r - b)). rewrite F. cbn [overwrite]. rewrite zlen_map, zlen_range by lia. range_cases.
  fold (zget 0 (map (fun i => at_ (repeat 1 256) i - at_ (repeat 1 256) i) (range 256)) (r + (r - b) - r)).
  rewrite zget_map_range by lia. rewrite E by lia. discriminate.
Qed.

(** ** The inner product *)

Lemma sim_for_range {A B} (R : A -> B -> Prop) lo hi f g s t :
  (forall i s t, lo <= i < hi -> R s t -> sim R (f i s) (g i t)) -> R s t ->
  sim R (for_up lo hi 1 f s) (for_up lo hi 1 g t).
Proof.
  intros H Hs. unfold for_up. apply sim_same. intros _ _. replace ((hi - lo + 1 - 1) / 1) with (hi - lo) by (rewrite Z.div_1_r; lia).
  assert (G : forall n i s t, lo <= i -> i + Z.of_nat n <= Z.max hi lo -> R s t -> sim R (for_n n i 1 f s) (for_n n i 1 g t)).
  { induction n as [|n IH]; intros i s' t' Hi Hn Hr; cbn [for_n]; [now apply sim_ret|].
    apply (sim_bind R); [apply H; [lia|exact Hr]|]. intros s2 t2 _ H2. apply IH; (exact H2 || lia). }
  apply G; [lia|lia|exact Hs].
Qed.

(** The vector [u] of arrays of [n] coefficients is stored from [a] on. *)
Definition vector_in (m : mem) (a n : Z) (p : pset) (u : list (list Z)) : Prop :=
  zlen u = MLKEM_K p /\ forall i, 0 <= i < MLKEM_K p -> zlen (zget [] u i) = n /\ contains m (a + i * n) (zget [] u i).

Lemma val_load_vec p m a n u : vector_in m a n p u -> val (load_vec p m a n) = Ok u.
Proof.
  intros [L H]. assert (HK : 2 <= MLKEM_K p <= 4) by (destruct p; cbn; lia). apply wp_val. unfold load_vec.
  apply (wp_for _ (fun i v => v = map (zget [] u) (range i))); [lia|reflexivity| |].
  - intros i v Hi ->. destruct (H i Hi) as [Ln C]. apply wp_bind, (wp_mload _ _ _ _ _ _ C Ln). apply wp_ret.
    rewrite range_S, map_app by lia. reflexivity.
  - intros v ->. rewrite <- L. symmetry. apply zlist_get.
Qed.

Lemma sim_add_local m0 r d m t : accessible m0 r (zlen d) -> stored m0 [(r, d)] m ->
  sim (fun m' d' => zlen d' = zlen d /\ stored m0 [(r, d')] m') (poly_add_local m r t) (poly_add d t).
Proof.
  intros Ha Hm. unfold poly_add_local, poly_add. apply sim_for; [|now split].
  intros i m1 d1 [L H]. apply (sim_bind eq).
  { apply sim_get. apply (stored_contains m0 [] r d1 []); [exact H|constructor]. }
  intros x ? _ ->. apply sim_same. intros y _. apply sim_same. intros z _.
  apply (sim_mono (fun m' d' => zlen d' = zlen d1 /\ stored m0 [(r, d')] m')).
  - intros m' d' [L' H']. split; [congruence|exact H'].
  - apply sim_set; [now rewrite L|exact H].
Qed.

Lemma sim_basemul_acc J p m0 r a b c h u v w :
  zlen h = 256 -> contains m0 r h ->
  vector_in m0 a 256 p u -> vector_in m0 b 256 p v -> vector_in m0 c 128 p w ->
  r <= a \/ a + 256 * MLKEM_K p <= r -> r <= b \/ b + 256 * MLKEM_K p <= r -> r + 128 <= c \/ c + 128 * MLKEM_K p <= r ->
  sim (fun m d => stored m0 [(r, d)] m) (polyvec_basemul_acc_in J p m0 r a b c)
    (polyvec_basemul_acc_montgomery_cached J p h u v w).
Proof.
  intros Lh Hh Hu Hv Hw Oa Ob Oc. assert (HK : 2 <= MLKEM_K p <= 4) by (destruct p; cbn; lia).
  unfold polyvec_basemul_acc_in, polyvec_basemul_acc_montgomery_cached. cbv zeta.
  change (MLKEM_N / 2) with 128. change MLKEM_N with 256.
  apply (sim_left _ _ _ _ u (val_load_vec _ _ _ _ _ Hu)). apply sim_same. intros _ _.
  apply (sim_left _ _ _ _ v (val_load_vec _ _ _ _ _ Hv)). apply sim_same. intros _ _.
  apply (sim_left _ _ _ _ w (val_load_vec _ _ _ _ _ Hw)). apply sim_same. intros _ _.
  apply sim_right. intros u0 E. apply (aget_inv _ _ []) in E as [_ ->].
  apply sim_right. intros v0 E. apply (aget_inv _ _ []) in E as [_ ->].
  apply sim_right. intros w0 E. apply (aget_inv _ _ []) in E as [_ ->].
  destruct Hu as [Lu Hu], Hv as [Lv Hv], Hw as [Lw Hw].
  assert (Ar : accessible m0 r 256) by (rewrite <- Lh; now apply contains_accessible).
  pose (R := fun m d => zlen d = 256 /\ stored m0 [(r, d)] m).
  apply (sim_bind R).
  { destruct (Hu 0 ltac:(lia)) as [L0 C0]. destruct (Hv 0 ltac:(lia)) as [L1 C1]. destruct (Hw 0 ltac:(lia)) as [L2 C2].
    rewrite Z.mul_0_l, Z.add_0_r in C0, C1, C2.
    apply (sim_basemul m0 r a b c h _ _ _ Lh L0 L1 L2 Hh C0 C1 C2); lia. }
  intros m1 d1 _ R1. apply (sim_bind (fun x y => R (fst x) (fst y) /\ snd x = snd y)).
  - apply sim_for_range; [|now split]. intros i [m t] [d t'] Hi [[Ld S] E]. cbn [fst snd] in *. subst t'.
    assert (Rd : forall x n l, contains m0 x l -> zlen l = n -> x + n <= r \/ r + 256 <= x -> val (mload m x n) = Ok l).
    { intros x n l C L O. apply val_mload; [|exact L]. intros j Hj. rewrite (stored_one _ _ _ _ _ S), Ld.
      range_cases; apply C; exact Hj. }
    destruct (Hu i ltac:(lia)) as [L0 C0]. destruct (Hv i ltac:(lia)) as [L1 C1]. destruct (Hw i ltac:(lia)) as [L2 C2].
    apply (sim_left _ _ _ _ _ (Rd _ _ _ C0 L0 ltac:(lia))).
    apply (sim_left _ _ _ _ _ (Rd _ _ _ C1 L1 ltac:(lia))).
    apply (sim_left _ _ _ _ _ (Rd _ _ _ C2 L2 ltac:(lia))).
    apply sim_right. intros ? E. apply (aget_inv _ _ []) in E as [_ ->].
    apply sim_right. intros ? E. apply (aget_inv _ _ []) in E as [_ ->].
    apply sim_right. intros ? E. apply (aget_inv _ _ []) in E as [_ ->].
    apply sim_same. intros t1 _.
    apply (sim_bind R).
    + apply (sim_mono (fun m' d' => zlen d' = zlen d /\ stored m0 [(r, d')] m')).
      * intros m' d' [L' H']. split; [congruence|exact H'].
      * apply sim_add_local; [now rewrite Ld|exact S].
    + intros m2 d2 _ R2. now apply sim_ret.
  - intros [m t] [d t'] _ [[Ld S] _]. cbn [fst] in *.
    assert (C : contains m r d) by (apply (stored_contains m0 [] r d []); [exact S|constructor]).
    apply (sim_left _ _ _ _ d); [now apply val_mload|]. apply sim_same. intros _ _. now apply sim_ret.
Qed.

Lemma is_cache_of c0 ys cs : zlen c0 = 128 -> zlen ys = 256 -> (forall i, 0 <= i < 256 -> - 2 ^ 15 <= at_ ys i < 2 ^ 15) ->
  val (poly_mulcache_compute c0 ys) = Ok cs -> is_cache cs ys.
Proof.
  intros L0 Lb Bb E.
  destruct (wp_ex _ _ (wp_mulcache False c0 ys (fun x => is_cache x ys) L0 Lb (int16s_at _ Lb Bb) (fun x H => H))) as (cs' & E' & H).
  congruence.
Qed.

Lemma polyvec_basemul_acc_overlap J p m r a b c u v w : let K := k (set_of p) in
  accessible m r 256 -> zlen u = K -> zlen v = K -> zlen w = K ->
  (forall j, 0 <= j < K -> zlen (nth (Z.to_nat j) u []) = 256 /\ contains m (a + 256 * j) (nth (Z.to_nat j) u []) /\
     forall i, 0 <= i < 256 -> Z.abs (at_ (nth (Z.to_nat j) u []) i) < q) ->
  (forall j, 0 <= j < K -> zlen (nth (Z.to_nat j) v []) = 256 /\ contains m (b + 256 * j) (nth (Z.to_nat j) v []) /\
     forall i, 0 <= i < 256 -> Z.abs (at_ (nth (Z.to_nat j) v []) i) < 8 * q) ->
  (forall j, 0 <= j < K -> contains m (c + 128 * j) (nth (Z.to_nat j) w []) /\
     exists c0, zlen c0 = 128 /\ val (poly_mulcache_compute c0 (nth (Z.to_nat j) v [])) = Ok (nth (Z.to_nat j) w [])) ->
  r <= a \/ a + 256 * K <= r -> r <= b \/ b + 256 * K <= r -> r + 128 <= c \/ c + 128 * K <= r ->
  exists m' d, val (polyvec_basemul_acc_in J p m r a b c) = Ok m' /\ (forall x, m' x = overwrite m [(r, d)] x) /\
    zlen d = 256 /\ (forall i, 0 <= i < 256 -> (2 ^ 16 * at_ d i) mod q = at_ (dot u v) i).
Proof.
  intros K Ar Lu Lv Lw Hu Hv Hw Oa Ob Oc. assert (E : K = MLKEM_K p) by (unfold K; destruct p; reflexivity).
  clearbody K. rewrite E in *. clear E. destruct (contents m r 256 ltac:(lia) Ar) as (h & Lh & Hh).
  assert (Hc : forall j, 0 <= j < MLKEM_K p -> is_cache (zget [] w j) (zget [] v j)).
  { intros j Hj. destruct (Hv j Hj) as (Lj & _ & Bj). destruct (Hw j Hj) as (_ & c0 & L0 & E). apply (is_cache_of c0); auto.
    intros i Hi. specialize (Bj i Hi). unfold q in Bj. unfold at_, zget in *. lia. }
  assert (W : wp (polyvec_basemul_acc_montgomery_cached J p h u v w)
    (fun d => zlen d = 256 /\ forall i, 0 <= i < 256 -> (2 ^ 16 * at_ d i) mod q = at_ (dot u v) i)).
  { apply wp_basemul_acc; [exact Lh| | |split; [exact Lw|exact Hc]|].
    - split; [exact Lu|]. intros j Hj. destruct (Hu j Hj) as (Lj & _ & Bj). split; [exact Lj|]. now apply bounded_at.
    - split; [exact Lv|]. intros j Hj. destruct (Hv j Hj) as (Lj & _ & Bj). split; [exact Lj|]. now apply bounded_at.
    - intros d Ld _ R. split; [exact Ld|]. intros i Hi. apply repr_residues in R; [|apply dot_reduced].
      rewrite <- R. unfold residues. rewrite (at_zget (map _ _)), (zget_map _ 0) by (rewrite ?zlen_scale; lia).
      now rewrite zget_scale. }
  destruct (wp_ex _ _ W) as (d & V & Ld & Pd).
  edestruct (sim_basemul_acc J p m r a b c h u v w Lh Hh) with (b := d) as (m' & V' & S).
  - split; [exact Lu|]. intros j Hj. destruct (Hu j Hj) as (Lj & Cj & _). rewrite (Z.mul_comm j). now split.
  - split; [exact Lv|]. intros j Hj. destruct (Hv j Hj) as (Lj & Cj & _). rewrite (Z.mul_comm j). now split.
  - split; [exact Lw|]. intros j Hj. destruct (Hw j Hj) as (Cj & _). rewrite (Z.mul_comm j). split; [|exact Cj].
    apply (proj1 (Hc j Hj)).
  - exact Oa.
  - exact Ob.
  - exact Oc.
  - exact V.
  - exists m', d. auto.
Qed.

(** ** The inner product written over the second polynomial of the first vector *)

Definition one_poly (j : Z) : list Z := map (fun i => if (j =? 1) && (i =? 0) then 1 else 0) (range 256).
Definition one_vec (p : pset) : list (list Z) := map one_poly (range (k (set_of p))).
Definition two_ones : memory := fun x => Some (if (x =? 256) || (x =? 4256) then 1 else 0).

Lemma nth_one_vec p j : 0 <= j < k (set_of p) -> nth (Z.to_nat j) (one_vec p) [] = one_poly j.
Proof.
  intros Hj. unfold one_vec. assert (k (set_of p) = 2 \/ k (set_of p) = 3 \/ k (set_of p) = 4) as E by (destruct p; cbn; lia).
  assert (j = 0 \/ j = 1 \/ j = 2 \/ j = 3) as D by lia.
  destruct E as [E | [E | E]]; rewrite E in Hj |- *; destruct D as [-> | [-> | [-> | ->]]]; try lia; reflexivity.
Qed.

Lemma zlen_one j : zlen (one_poly j) = 256.
Proof. unfold one_poly. rewrite zlen_map, zlen_range; lia. Qed.

Lemma at_one j i : 0 <= i < 256 -> at_ (one_poly j) i = if (j =? 1) && (i =? 0) then 1 else 0.
Proof. intros Hi. unfold one_poly. change (at_ ?l i) with (zget 0 l i). now rewrite zget_map_range. Qed.

Lemma two_ones_in a j : a = 0 \/ a = 4000 -> 0 <= j < 4 -> contains two_ones (a + 256 * j) (one_poly j).
Proof.
  intros Ha Hj i Hi. rewrite zlen_one in Hi. unfold two_ones. f_equal. symmetry. etransitivity; [apply at_one; exact Hi|].
  destruct (Z.eqb_spec j 1); destruct (Z.eqb_spec i 0); destruct (Z.eqb_spec (a + 256 * j + i) 256);
    destruct (Z.eqb_spec (a + 256 * j + i) 4256); cbn [andb orb]; try reflexivity; lia.
Qed.

Lemma basemul_acc_overlap_wrong : forall p, let K := k (set_of p) in exists J m r a b c u v w,
  a < r < a + 256 * K /\ (r <= b \/ b + 256 * K <= r) /\ (r + 128 <= c \/ c + 128 * K <= r) /\
  accessible m r 256 /\ zlen u = K /\ zlen v = K /\ zlen w = K /\
  (forall j, 0 <= j < K -> zlen (nth (Z.to_nat j) u []) = 256 /\ contains m (a + 256 * j) (nth (Z.to_nat j) u []) /\
     forall i, 0 <= i < 256 -> Z.abs (at_ (nth (Z.to_nat j) u []) i) < q) /\
  (forall j, 0 <= j < K -> zlen (nth (Z.to_nat j) v []) = 256 /\ contains m (b + 256 * j) (nth (Z.to_nat j) v []) /\
     forall i, 0 <= i < 256 -> Z.abs (at_ (nth (Z.to_nat j) v []) i) < 8 * q) /\
  (forall j, 0 <= j < K -> contains m (c + 128 * j) (nth (Z.to_nat j) w []) /\
     exists c0, zlen c0 = 128 /\ val (poly_mulcache_compute c0 (nth (Z.to_nat j) v [])) = Ok (nth (Z.to_nat j) w [])) /\
  exists m' y, val (polyvec_basemul_acc_in J p m r a b c) = Ok m' /\ m' r = Some y /\
    (2 ^ 16 * y) mod q <> at_ (dot u v) 0.
Proof.
  intros p K. assert (KK : 2 <= K <= 4) by (unfold K; destruct p; cbn; lia).
  exists (fun _ => 0), two_ones, 256, 0, 4000, 8000, (one_vec p), (one_vec p), (repeat (repeat 0 128) (Z.to_nat K)).
  assert (LV : zlen (one_vec p) = K) by (unfold one_vec; rewrite zlen_map, zlen_range; lia).
  split; [lia|]. split; [left; lia|]. split; [left; lia|]. split; [intros x Hx; discriminate|].
  split; [exact LV|]. split; [exact LV|]. split; [unfold zlen; rewrite repeat_length; lia|].
  split; [|split; [|split]].
  - intros j Hj. rewrite nth_one_vec by exact Hj. split; [apply zlen_one|]. split; [apply two_ones_in; lia|].
    intros i Hi. rewrite at_one by exact Hi. unfold q. destruct (_ && _); lia.
  - intros j Hj. rewrite nth_one_vec by exact Hj. split; [apply zlen_one|]. split; [apply two_ones_in; lia|].
    intros i Hi. rewrite at_one by exact Hi. unfold q. destruct (_ && _); lia.
  - intros j Hj. rewrite nth_one_vec by exact Hj.
    assert (EN : nth (Z.to_nat j) (repeat (repeat 0 128) (Z.to_nat K)) [] = repeat 0 128).
    { apply (repeat_spec (Z.to_nat K)). apply nth_In. rewrite repeat_length. lia. }
    rewrite EN. split.
    + intros i Hi. change (zlen (repeat 0 128)) with 128 in Hi. unfold two_ones.
      destruct (Z.eqb_spec (8000 + 128 * j + i) 256); [lia|]. destruct (Z.eqb_spec (8000 + 128 * j + i) 4256); [lia|].
      cbn [orb]. f_equal. symmetry. apply nth_repeat.
    + exists (repeat 0 128). split; [reflexivity|].
      assert (j = 0 \/ j = 1 \/ j = 2 \/ j = 3) as [-> | [-> | [-> | ->]]] by lia; vm_compute; reflexivity.
  - assert (E : match val (polyvec_basemul_acc_in (fun _ => 0) p two_ones 256 0 4000 8000) with
                | Ok m' => m' 256 | _ => None end = Some 0) by (destruct p; vm_compute; reflexivity).
    destruct (val _) as [m'| |]; try discriminate. exists m', 0. split; [reflexivity|]. split; [exact E|].
    destruct p; vm_compute; discriminate.
Qed.

(** ** The cache of a polynomial *)

Definition cached (ys : list Z) (n : Z) : Z :=
  mont (zget 0 ys (2 * n + 1) * (if Z.even n then zget 0 zetas (64 + n / 2) else - zget 0 zetas (64 + n / 2))).
Lemma cached_even ys i : cached ys (2 * i) = mont (zget 0 ys (4 * i + 1) * zget 0 zetas (64 + i)).
Proof.
  unfold cached. rewrite Z.even_mul. cbn [Z.even orb]. replace (2 * i / 2) with i by (apply (Z.div_unique _ _ _ 0); lia).
  now replace (2 * (2 * i) + 1) with (4 * i + 1) by lia.
Qed.
Lemma cached_odd ys i : cached ys (2 * i + 1) = mont (zget 0 ys (4 * i + 3) * - zget 0 zetas (64 + i)).
Proof.
  unfold cached. rewrite Z.even_add, Z.even_mul. cbn [Z.even orb Bool.eqb].
  replace ((2 * i + 1) / 2) with i by (apply (Z.div_unique _ _ _ 1); lia).
  now replace (2 * (2 * i + 1) + 1) with (4 * i + 3) by lia.
Qed.

Lemma cached_ok ys i : zlen ys = 256 -> (forall i, 0 <= i < 256 -> -32768 <= zget 0 ys i < 32768) -> 0 <= i < 128 ->
  Z.abs (cached ys i) < 3329 /\ cached ys i == zget 0 ys (2 * i + 1) * 17 ^ (2 * brv i + 1).
Proof.
  intros L B Hi. pose proof (half_split i) as E. revert E. generalize (i / 2). intros j [-> | ->].
  - pose proof (zetas_bound (64 + j) ltac:(lia)) as Hz. rewrite cached_even. pose proof (B (4 * j + 1) ltac:(lia)). split.
    + pose proof (mont_fqmul_bound (zget 0 ys (4 * j + 1)) _ ltac:(lia) Hz). lia.
    + rewrite mont_cg, <- gamma_even by lia. replace (2 * (2 * j) + 1) with (4 * j + 1) by lia. apply cg_of_eq; ring.
  - pose proof (zetas_bound (64 + j) ltac:(lia)) as Hz. rewrite cached_odd. pose proof (B (4 * j + 3) ltac:(lia)). split.
    + pose proof (mont_fqmul_bound (zget 0 ys (4 * j + 3)) (- zget 0 zetas (64 + j)) ltac:(lia) ltac:(lia)). lia.
    + rewrite mont_cg, <- gamma_odd by lia. replace (2 * (2 * j + 1) + 1) with (4 * j + 3) by lia. apply cg_of_eq; ring.
Qed.

Lemma mulcache_overlap m x a ys :
  accessible m x 128 -> zlen ys = 256 -> contains m a ys ->
  (forall i, 0 <= i < 256 -> - 2 ^ 15 <= at_ ys i < 2 ^ 15) -> x <= a + 2 \/ a + 256 <= x ->
  exists m' c, val (poly_mulcache_compute_in m x a) = Ok m' /\ (forall y, m' y = overwrite m [(x, c)] y) /\
    zlen c = 128 /\ (forall i, 0 <= i < 128 -> Z.abs (at_ c i) < q) /\
    (forall i, 0 <= i < 128 -> at_ c i mod q = (at_ ys (2 * i + 1) * zeta ^ (2 * BitRev7 i + 1)) mod q).
Proof.
  intros Ax L Hy B O. change (forall i, 0 <= i < 256 -> -32768 <= zget 0 ys i < 32768) in B.
  assert (W : wp (poly_mulcache_compute_in m x a) (fun m' => upto m x 128 (cached ys) m')).
  { unfold poly_mulcache_compute_in. change (MLKEM_N / 4) with 64. change (MLKEM_N / 2) with 128. apply wp_bind.
    apply (wp_for _ (fun i m' => upto m x (2 * i) (cached ys) m')); [lia| | |].
    - intros y. range_cases; reflexivity.
    - intros i m1 Hi U. pose proof (zetas_bound (64 + i) ltac:(lia)) as Hz.
      pose proof (B (4 * i + 1) ltac:(lia)). pose proof (B (4 * i + 3) ltac:(lia)).
      apply wp_bind, (wp_mget _ _ _ (zget 0 ys (4 * i + 1))).
      { rewrite U. range_cases; apply Hy; lia. }
      apply wp_bind, (wp_aget 0); [rewrite zetas_len; lia|]. apply wp_bind, wp_fqmul; [lia|exact Hz|].
      replace (x + (2 * i + 0)) with (x + 2 * i) by lia.
      apply wp_bind, wp_mset.
      { rewrite U. range_cases; apply Ax; lia. }
      set (m2 := fun y => _). assert (U2 : upto m x (2 * i + 1) (cached ys) m2).
      { apply upto_step; [lia|exact U|]. symmetry. apply cached_even. }
      clearbody m2.
      apply wp_bind, (wp_mget _ _ _ (zget 0 ys (4 * i + 3))).
      { rewrite U2. range_cases; apply Hy; lia. }
      apply wp_bind, (wp_aget 0); [rewrite zetas_len; lia|]. apply wp_bind, wp_i16; [lia|].
      apply wp_bind, wp_fqmul; [lia|lia|]. apply wp_mset.
      { rewrite U2. range_cases; apply Ax; lia. }
      replace (2 * (i + 1)) with (2 * i + 1 + 1) by lia. apply upto_step; [lia|exact U2|]. symmetry. apply cached_odd.
    - intros m1 U. change (2 * 64) with 128 in U. assert (Lc : zlen (map (cached ys) (range 128)) = 128) by reflexivity.
      apply wp_bind, (wp_mload _ _ _ (map (cached ys) (range 128))); [|exact Lc|].
      { intros i Hi. rewrite Lc in Hi. rewrite U. range_cases. fold (zget 0 (map (cached ys) (range 128)) i).
        rewrite zget_map_range by lia. do 2 f_equal. lia. }
      apply wp_bind, wp_POLY_BOUND; [|apply wp_ret; exact U].
      unfold bounded. apply (Forall_zget _ 0). rewrite Lc. intros i Hi. rewrite zget_map_range by lia.
      destruct (cached_ok ys i L B Hi) as [P _]. unfold MLKEM_Q. lia. }
  destruct (wp_ex _ _ W) as (m' & V & U). exists m', (map (cached ys) (range 128)).
  split; [exact V|]. split; [intros y; now apply upto_overwrite|]. split; [reflexivity|].
  assert (E : forall i, 0 <= i < 128 -> at_ (map (cached ys) (range 128)) i = cached ys i).
  { intros i Hi. change (at_ ?l i) with (zget 0 l i). now rewrite zget_map_range. }
  split; intros i Hi; rewrite E by exact Hi; destruct (cached_ok ys i L B Hi) as [P R]; [exact P|].
  apply cg_out. rewrite BitRev7_brv. exact R.
Qed.
