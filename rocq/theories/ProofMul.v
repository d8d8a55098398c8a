(** * Multiplication in the NTT domain, and the coefficient-wise operations *)

From Coq Require Import ZArith List Bool Lia ZifyBool Setoid Morphisms.
From Verif Require Import CSem ModelArith Spec202 Spec203 SpecLink CSemFacts ProofScalar ProofPack
  ProofSum ProofNttSpec ProofRing ProofNtt.
Import ListNotations.
Open Scope Z_scope.
Ltac Zify.zify_post_hook ::= idtac.
Opaque NTT NTT_inv MultiplyNTTs poly_times poly_plus poly_minus poly_zero.

Lemma cg_out a b : a == b -> a mod q = b mod q.
Proof. intros [H]. exact H. Qed.

(** ** Arrays that represent a polynomial modulo q *)

Definition scale (c : Z) (r : list Z) : list Z := map (fun x => c * x) r.
Definition repr (r G : list Z) : Prop := zlen r = 256 /\ eqf (zget 0 r) (at_ G).

Lemma zget_scale c r i : zget 0 (scale c r) i = c * zget 0 r i.
Proof.
  unfold scale, zget. rewrite <- (map_nth (fun x => c * x) r 0 (Z.to_nat i)).
  f_equal. ring.
Qed.
Lemma zlen_scale c r : zlen (scale c r) = zlen r. Proof. apply zlen_map. Qed.
Lemma repr_refl r : zlen r = 256 -> repr r r.
Proof. intros; split; auto. intros i _. reflexivity. Qed.
Lemma repr_residues r G : repr r G -> reduced G -> residues r = G.
Proof. intros [L H] R. now apply residues_ext. Qed.
Lemma residues_repr r G : zlen r = 256 -> residues r = G -> repr r G.
Proof. intros L <-. split; auto. intros i Hi. symmetry. now apply residues_at. Qed.
Lemma repr_trans r G H : repr r G -> eqf (at_ G) (at_ H) -> repr r H.
Proof. intros [L E] E'. split; auto. now apply eqf_trans with (at_ G). Qed.
Lemma residues_reduced f : zlen f = 256 -> reduced (residues f).
Proof.
  intros. split. { unfold residues. now rewrite zlen_map. }
  apply Forall_map, Forall_forall. intros x _. unfold q. apply Z.mod_pos_bound; lia.
Qed.
Lemma residues_id f : reduced f -> residues f = f.
Proof.
  intros [L R]. apply residues_ext; [exact L|split; assumption|].
  intros i _. reflexivity.
Qed.

Lemma NTT_repr r G : repr r G -> NTT r = NTT G.
Proof. intros [L E]. apply NTT_mod. exact E. Qed.
Lemma NTT_inv_repr r G : repr r G -> NTT_inv r = NTT_inv G.
Proof. intros [L E]. apply ilayers_mod. exact E. Qed.

Lemma MultiplyNTTs_cg f f' g g' : eqf (at_ f) (at_ f') -> eqf (at_ g) (at_ g') ->
  MultiplyNTTs f g = MultiplyNTTs f' g'.
Proof.
  intros Hf Hg. apply reduced_ext; auto using MultiplyNTTs_reduced. apply eqf_parity; intros m Hm.
  - rewrite !MultiplyNTTs_even by auto.
    rewrite (Hf (2 * m)), (Hf (2 * m + 1)), (Hg (2 * m)), (Hg (2 * m + 1)) by lia. reflexivity.
  - rewrite !MultiplyNTTs_odd by auto.
    rewrite (Hf (2 * m)), (Hf (2 * m + 1)), (Hg (2 * m)), (Hg (2 * m + 1)) by lia. reflexivity.
Qed.

(** ** Coefficient-wise operations *)

Lemma residues_range r : zlen r = 256 -> residues r = map (fun i => zget 0 r i mod 3329) (range 256).
Proof. intros L. unfold residues, q. rewrite (zmap_get 0), L. reflexivity. Qed.

Lemma wp_poly_reduce N r (Q : list Z -> Prop) : zlen r = 256 -> int16s r -> Q (residues r) ->
  wpn N (poly_reduce r) Q.
Proof.
  intros Lr Hr HQ. unfold poly_reduce. unfold int16s in Hr. rewrite (Forall_zget _ 0), Lr in Hr.
  apply wp_bind. apply (wp_for_inplace 0 _ (fun _ x => x mod 3329)); auto.
  - intros i pre rest Hi Hp. specialize (Hr i Hi). wgo.
    apply wp_barrett_reduce; [lia|]. pose proof (barr_bound (zget 0 r i) Hr).
    wstep. apply wp_signed_to_unsigned; [lia|]. rewrite barr_cong.
    pose proof (Z.mod_pos_bound (zget 0 r i) 3329 ltac:(lia)).
    wstep. apply wp_i16; [lia|]. wgo. now rewrite <- app_assoc.
  - change MLKEM_N with 256. rewrite <- residues_range by auto.
    apply wp_bind, wp_POLY_UBOUND; [|apply wp_ret; auto]. apply residues_reduced; auto.
Qed.

Lemma wp_poly_tomont N r (Q : list Z -> Prop) : zlen r = 256 -> int16s r ->
  (forall r', zlen r' = 256 -> bounded 3329 r' -> repr r' (scale 65536 r) -> Q r') ->
  wpn N (poly_tomont r) Q.
Proof.
  intros Lr Hr HQ. unfold poly_tomont. unfold int16s in Hr. rewrite (Forall_zget _ 0), Lr in Hr.
  change ((1 << 32) mod MLKEM_Q) with 1353. cbv zeta.
  apply wp_bind. apply (wp_for_inplace 0 _ (fun _ x => mont (x * 1353))); auto.
  - intros i pre rest Hi Hp. specialize (Hr i Hi). wgo.
    apply wp_fqmul; [lia|lia|]. wgo. now rewrite <- app_assoc.
  - change MLKEM_N with 256. set (r' := map _ _).
    assert (L : zlen r' = 256) by (unfold r'; rewrite zlen_map, zlen_range; lia).
    assert (V : forall i, 0 <= i < 256 -> zget 0 r' i = mont (zget 0 r i * 1353)).
    { intros. unfold r'. now rewrite zget_map_range by auto. }
    assert (B : bounded 3329 r').
    { apply bounded_abs; auto. intros i Hi. rewrite V by auto. specialize (Hr i Hi).
      pose proof (mont_fqmul_bound (zget 0 r i) 1353). lia. }
    apply wp_bind, wp_POLY_BOUND; auto. apply wp_ret, HQ; auto. split; auto.
    intros i Hi. rewrite (at_zget (scale _ _)), zget_scale, V, mont_cg by auto.
    transitivity (169 * 1353 * zget 0 r i); [apply cg_of_eq; ring|].
    apply cg_mul; [constructor; reflexivity|reflexivity].
Qed.

Lemma wp_poly_add N r b (Q : list Z -> Prop) : zlen r = 256 -> zlen b = 256 ->
  (forall i, 0 <= i < 256 -> -32768 <= zget 0 r i + zget 0 b i < 32768) ->
  Q (map (fun i => zget 0 r i + zget 0 b i) (range 256)) -> wpn N (poly_add r b) Q.
Proof.
  intros Lr Lb H HQ. unfold poly_add. apply (wp_for_inplace 0 _ (fun i x => x + zget 0 b i)); auto.
  intros i pre rest Hi Hp. change MLKEM_N with 256 in Hi. specialize (H i Hi). wgo.
  apply wp_i16; [lia|]. wgo. now rewrite <- app_assoc.
Qed.
Lemma wp_poly_sub N r b (Q : list Z -> Prop) : zlen r = 256 -> zlen b = 256 ->
  (forall i, 0 <= i < 256 -> -32768 <= zget 0 r i - zget 0 b i < 32768) ->
  Q (map (fun i => zget 0 r i - zget 0 b i) (range 256)) -> wpn N (poly_sub r b) Q.
Proof.
  intros Lr Lb H HQ. unfold poly_sub. apply (wp_for_inplace 0 _ (fun i x => x - zget 0 b i)); auto.
  intros i pre rest Hi Hp. change MLKEM_N with 256 in Hi. specialize (H i Hi). wgo.
  apply wp_i16; [lia|]. wgo. now rewrite <- app_assoc.
Qed.

(** ** The multiplication cache *)

(** [x] is the cache of [a] *)
Definition is_cache (x a : list Z) : Prop :=
  zlen x = 128 /\ bounded 3329 x /\
  forall m, 0 <= m < 128 -> zget 0 x m == zget 0 a (2 * m + 1) * 17 ^ (2 * brv m + 1).

Lemma gamma_even i : 0 <= i < 64 -> 169 * zget 0 zetas (64 + i) == 17 ^ (2 * brv (2 * i) + 1).
Proof.
  intros Hk. constructor. apply Z.eqb_eq.
  apply (upto_spec 64 (fun i => (169 * zget 0 zetas (64 + i)) mod 3329 =? 17 ^ (2 * brv (2 * i) + 1) mod 3329));
    [vm_compute; reflexivity|lia].
Qed.
Lemma gamma_odd i : 0 <= i < 64 -> 169 * - zget 0 zetas (64 + i) == 17 ^ (2 * brv (2 * i + 1) + 1).
Proof.
  intros Hk. constructor. apply Z.eqb_eq.
  apply (upto_spec 64 (fun i => (169 * - zget 0 zetas (64 + i)) mod 3329 =? 17 ^ (2 * brv (2 * i + 1) + 1) mod 3329));
    [vm_compute; reflexivity|lia].
Qed.

Lemma half_split m : m = 2 * (m / 2) \/ m = 2 * (m / 2) + 1.
Proof. pose proof (Z.div_mod m 2). pose proof (Z.mod_pos_bound m 2). lia. Qed.

Lemma wp_mulcache N x a (Q : list Z -> Prop) : zlen x = 128 -> zlen a = 256 -> int16s a ->
  (forall x', is_cache x' a -> Q x') -> wpn N (poly_mulcache_compute x a) Q.
Proof.
  intros Lx La Ha HQ. unfold int16s in Ha. rewrite (Forall_zget _ 0), La in Ha.
  unfold poly_mulcache_compute. apply wp_bind. change (MLKEM_N / 4) with 64.
  apply (wp_for_chunks N (fun i => [mont (zget 0 a (4 * i + 1) * zget 0 zetas (64 + i));
            mont (zget 0 a (4 * i + 3) * - zget 0 zetas (64 + i))]) 2 64); try lia.
  - reflexivity.
  - intros i pre mid rest Hi Hp Hm. explode 2 mid Hm.
    pose proof (zetas_bound (64 + i) ltac:(lia)) as Hz.
    pose proof (Ha (4 * i + 1) ltac:(lia)). pose proof (Ha (4 * i + 3) ltac:(lia)).
    apply wp_bind, (wp_aget 0); [lia|]. apply wp_bind, (wp_aget 0); [rewrite zetas_len; lia|].
    apply wp_bind, wp_fqmul; [lia|auto|].
    apply wp_bind, wp_aset_app; [lia|].
    apply wp_bind, (wp_aget 0); [lia|]. apply wp_bind, (wp_aget 0); [rewrite zetas_len; lia|].
    apply wp_bind, wp_i16; [lia|]. apply wp_bind, wp_fqmul; [lia|lia|].
    apply wp_aset_app; [zl|]. rewrite <- !app_assoc. reflexivity.
  - rewrite skipn_all_z, app_nil_r by lia. set (x' := flat_map _ _).
    assert (L : zlen x' = 128).
    { unfold x'. rewrite (zlen_flat_map _ 2) by reflexivity. rewrite zlen_range; lia. }
    assert (V : forall m, 0 <= m < 128 -> zget 0 x' m =
       zget 0 [mont (zget 0 a (4 * (m / 2) + 1) * zget 0 zetas (64 + m / 2));
               mont (zget 0 a (4 * (m / 2) + 3) * - zget 0 zetas (64 + m / 2))] (m mod 2)).
    { intros m Hm. unfold x'. rewrite (zget_flat_map _ _ 2 64) by (auto; lia). reflexivity. }
    assert (Hd : forall m, 0 <= m < 128 -> 0 <= m / 2 < 64).
    { intros. split; [apply Z.div_pos; lia|apply Z.div_lt_upper_bound; lia]. }
    assert (V' : forall i, 0 <= i < 64 ->
       zget 0 x' (2 * i) = mont (zget 0 a (2 * (2 * i) + 1) * zget 0 zetas (64 + i)) /\
       zget 0 x' (2 * i + 1) = mont (zget 0 a (2 * (2 * i + 1) + 1) * - zget 0 zetas (64 + i))).
    { intros i Hi. rewrite !V by lia.
      assert (E1 : 2 * i / 2 = i) by (symmetry; apply (Z.div_unique _ _ _ 0); lia).
      assert (E2 : (2 * i + 1) / 2 = i) by (symmetry; apply (Z.div_unique _ _ _ 1); lia).
      assert (E3 : 2 * i mod 2 = 0) by (symmetry; apply (Z.mod_unique _ _ i); lia).
      assert (E4 : (2 * i + 1) mod 2 = 1) by (symmetry; apply (Z.mod_unique _ _ i); lia).
      rewrite E1, E2, E3, E4.
      replace (2 * (2 * i) + 1) with (4 * i + 1) by lia.
      replace (2 * (2 * i + 1) + 1) with (4 * i + 3) by lia. split; reflexivity. }
    assert (B : bounded 3329 x').
    { unfold bounded. apply (Forall_zget _ 0). rewrite L. intros m Hm. specialize (Hd m Hm).
      pose proof (zetas_bound (64 + m / 2) ltac:(lia)) as Hz.
      pose proof (Ha (4 * (m / 2) + 1) ltac:(lia)). pose proof (Ha (4 * (m / 2) + 3) ltac:(lia)).
      pose proof (mont_fqmul_bound (zget 0 a (4 * (m / 2) + 1)) _ ltac:(lia) Hz).
      pose proof (mont_fqmul_bound (zget 0 a (4 * (m / 2) + 3)) (- zget 0 zetas (64 + m / 2)) ltac:(lia) ltac:(lia)).
      destruct (V' (m / 2) Hd) as [V0 V1].
      pose proof (half_split m) as E. revert E V0 V1 Hd H H0 H1 H2. clear -Hm. generalize (m / 2). intros i E V0 V1 Hd.
      replace (4 * i + 1) with (2 * (2 * i) + 1) by lia.
      replace (4 * i + 3) with (2 * (2 * i + 1) + 1) by lia. intros.
      destruct E as [-> | ->]; [rewrite V0|rewrite V1]; lia. }
    apply wp_bind, wp_POLY_BOUND; auto. apply wp_ret, HQ. split; [|split]; auto.
    intros m Hm. specialize (Hd m Hm). destruct (V' (m / 2) Hd) as [V0 V1].
    pose proof (half_split m) as E. revert E V0 V1 Hd. clear. generalize (m / 2). intros i E V0 V1 Hd.
    destruct E as [-> | ->].
    + rewrite V0, mont_cg, <- gamma_even by auto. apply cg_of_eq; ring.
    + rewrite V1, mont_cg, <- gamma_odd by auto. apply cg_of_eq; ring.
Qed.

(** ** Multiplication of two polynomials *)

Lemma slice_2 a o : 0 <= o -> o + 2 <= zlen a -> slice a o (o + 2) = [zget 0 a o; zget 0 a (o + 1)].
Proof.
  intros. apply (zlist_ext 0); [rewrite zlen_slice by lia; unfold zlen; cbn [length]; lia|].
  rewrite zlen_slice by lia. intros i Hi. rewrite zget_slice by lia.
  assert (C : i = 0 \/ i = 1) by lia. destruct C as [-> | ->]; [now replace (o + 0) with o by lia|reflexivity].
Qed.

Definition mul0 (a b : list Z) (c : Z) (o : Z) : Z :=
  mont (zget 0 a (o + 1) * c + zget 0 a o * zget 0 b o).
Definition mul1 (a b : list Z) (o : Z) : Z :=
  mont (zget 0 a o * zget 0 b (o + 1) + zget 0 a (o + 1) * zget 0 b o).

Lemma wp_basemul N r0 r1 a0 a1 b0 b1 c (Q : list Z -> Prop) :
  -3329 < a0 < 3329 -> -3329 < a1 < 3329 -> -32768 <= b0 < 32768 -> -32768 <= b1 < 32768 ->
  -3329 < c < 3329 ->
  Q [mont (a1 * c + a0 * b0); mont (a0 * b1 + a1 * b0)] ->
  wpn N (basemul_cached [r0; r1] [a0; a1] [b0; b1] c) Q.
Proof.
  intros. unfold basemul_cached.
  apply wp_bind, wp_POLY_BOUND. { unfold bounded, MLKEM_Q. repeat constructor; lia. }
  do 4 (apply wp_bind, (wp_aget 0); [unfold zlen; cbn [length]; lia|]).
  change (zget 0 [a0; a1] 0) with a0. change (zget 0 [a0; a1] 1) with a1.
  change (zget 0 [b0; b1] 0) with b0. change (zget 0 [b0; b1] 1) with b1.
  assert (P : forall x y M, Z.abs x <= 3328 -> Z.abs y <= M -> Z.abs (x * y) <= 3328 * M).
  { intros. rewrite Z.abs_mul. apply Z.mul_le_mono_nonneg; lia. }
  pose proof (P a1 c 3328 ltac:(lia) ltac:(lia)). pose proof (P a0 b0 32768 ltac:(lia) ltac:(lia)).
  pose proof (P a0 b1 32768 ltac:(lia) ltac:(lia)). pose proof (P a1 b0 32768 ltac:(lia) ltac:(lia)).
  pose proof (mont_bound (a1 * c + a0 * b0) 6656 ltac:(lia)).
  pose proof (mont_bound (a0 * b1 + a1 * b0) 6656 ltac:(lia)).
  do 6 (apply wp_bind, wp_i32; [lia|]).
  apply wp_bind, wp_montgomery_reduce; [lia|].
  apply wp_bind, wp_aset; [unfold zlen; cbn [length]; lia|].
  apply wp_bind, wp_montgomery_reduce; [lia|].
  apply wp_bind, wp_aset; [rewrite zlen_set; unfold zlen; cbn [length]; lia|].
  match goal with |- wpn _ (bind _ (fun _ => ret ?l)) _ =>
    change l with [mont (a1 * c + a0 * b0); mont (a0 * b1 + a1 * b0)] end.
  apply wp_bind, wp_POLY_BOUND; [|apply wp_ret; auto].
  change (3 * MLKEM_Q / 2) with 4993. unfold bounded. repeat constructor; lia.
Qed.

Lemma wp_basemul_poly N r a b c (Q : list Z -> Prop) :
  zlen r = 256 -> zlen a = 256 -> zlen b = 256 -> bounded 3329 a -> int16s b -> is_cache c b ->
  (forall r', bounded 4993 r' -> repr (scale 65536 r') (MultiplyNTTs a b) -> Q r') ->
  wpn N (poly_basemul_montgomery_cached r a b c) Q.
Proof.
  intros Lr La Lb Ba Bb (Lc & Bc & Vc) HQ. unfold poly_basemul_montgomery_cached.
  assert (Ha : forall i, 0 <= i < 256 -> -3329 < zget 0 a i < 3329).
  { unfold bounded in Ba. rewrite (Forall_zget _ 0), La in Ba. auto. }
  assert (Hb : forall i, 0 <= i < 256 -> -32768 <= zget 0 b i < 32768).
  { unfold int16s in Bb. rewrite (Forall_zget _ 0), Lb in Bb. auto. }
  assert (Hc : forall i, 0 <= i < 128 -> -3329 < zget 0 c i < 3329).
  { unfold bounded in Bc. rewrite (Forall_zget _ 0), Lc in Bc. auto. }
  apply wp_bind, wp_POLY_BOUND; [exact Bc|]. change (MLKEM_N / 4) with 64.
  apply (wp_for_chunks N (fun i => [mul0 a b (zget 0 c (2 * i)) (4 * i); mul1 a b (4 * i);
            mul0 a b (zget 0 c (2 * i + 1)) (4 * i + 2); mul1 a b (4 * i + 2)]) 4 64); try lia.
  - reflexivity.
  - intros i pre mid rest Hi Hp Hm. pose proof (zlen_nonneg rest).
    explode 4 mid Hm.
    apply wp_bind, wp_aslice; [lia|lia|zl|].
    change (pre ++ z :: z0 :: z1 :: z2 :: rest) with (pre ++ [z; z0] ++ z1 :: z2 :: rest).
    rewrite slice_mid by (auto; lia).
    do 2 (apply wp_bind, wp_aslice; [lia|lia|lia|]). rewrite !slice_2 by lia.
    apply wp_bind, (wp_aget 0); [lia|].
    apply wp_bind, wp_basemul; try (apply Ha; lia); try (apply Hb; lia); try (apply Hc; lia).
    apply wp_bind, wp_asplice; [lia|rewrite !zlen_app; unfold zlen in *; cbn [length]; lia|].
    rewrite splice_app by auto.
    fold (mul0 a b (zget 0 c (2 * i)) (4 * i)) (mul1 a b (4 * i)).
    rewrite app_assoc.
    change (z1 :: z2 :: rest) with ([z1; z2] ++ rest).
    assert (L2 : zlen (pre ++ [mul0 a b (zget 0 c (2 * i)) (4 * i); mul1 a b (4 * i)]) = 4 * i + 2) by zl.
    apply wp_bind, wp_aslice; [lia|lia|rewrite zlen_app, L2; zl|].
    rewrite slice_mid by (auto; lia).
    do 2 (apply wp_bind, wp_aslice; [lia|lia|lia|]). rewrite !slice_2 by lia.
    apply wp_bind, (wp_aget 0); [lia|].
    apply wp_bind, wp_basemul; try (apply Ha; lia); try (apply Hb; lia); try (apply Hc; lia).
    apply wp_asplice; [lia|rewrite zlen_app, L2; zl|].
    rewrite splice_app by auto.
    rewrite <- app_assoc. reflexivity.
  - rewrite skipn_all_z, app_nil_r by lia. set (r' := flat_map _ _).
    assert (L : zlen r' = 256).
    { unfold r'. rewrite (zlen_flat_map _ 4) by reflexivity. rewrite zlen_range; lia. }
    assert (V : forall m, 0 <= m < 128 ->
       zget 0 r' (2 * m) = mul0 a b (zget 0 c m) (2 * m) /\ zget 0 r' (2 * m + 1) = mul1 a b (2 * m)).
    { intros m Hm. unfold r'.
      assert (Hd : 0 <= m / 2 < 64) by (split; [apply Z.div_pos; lia|apply Z.div_lt_upper_bound; lia]).
      remember (m / 2) as i.
      rewrite !(zget_flat_map _ _ 4 64) by (auto; lia).
      destruct (half_split m) as [E|E]; rewrite <- Heqi in E; subst m.
      - replace ((2 * (2 * i)) / 4) with i by (apply (Z.div_unique _ _ _ 0); lia).
        replace ((2 * (2 * i)) mod 4) with 0 by (apply (Z.mod_unique _ _ i); lia).
        replace ((2 * (2 * i) + 1) / 4) with i by (apply (Z.div_unique _ _ _ 1); lia).
        replace ((2 * (2 * i) + 1) mod 4) with 1 by (apply (Z.mod_unique _ _ i); lia).
        replace (2 * (2 * i)) with (4 * i) by lia. split; reflexivity.
      - replace ((2 * (2 * i + 1)) / 4) with i by (apply (Z.div_unique _ _ _ 2); lia).
        replace ((2 * (2 * i + 1)) mod 4) with 2 by (apply (Z.mod_unique _ _ i); lia).
        replace ((2 * (2 * i + 1) + 1) / 4) with i by (apply (Z.div_unique _ _ _ 3); lia).
        replace ((2 * (2 * i + 1) + 1) mod 4) with 3 by (apply (Z.mod_unique _ _ i); lia).
        replace (2 * (2 * i + 1)) with (4 * i + 2) by lia. split; reflexivity. }
    assert (P : forall x y M, Z.abs x <= 3328 -> Z.abs y <= M -> Z.abs (x * y) <= 3328 * M).
    { intros. rewrite Z.abs_mul. apply Z.mul_le_mono_nonneg; lia. }
    apply HQ.
    + apply bounded_abs; auto. intros j Hj.
      assert (Hd : 0 <= j / 2 < 128) by (split; [apply Z.div_pos; lia|apply Z.div_lt_upper_bound; lia]).
      pose proof (Ha (2 * (j / 2)) ltac:(lia)). pose proof (Ha (2 * (j / 2) + 1) ltac:(lia)).
      pose proof (Hb (2 * (j / 2)) ltac:(lia)). pose proof (Hb (2 * (j / 2) + 1) ltac:(lia)).
      pose proof (Hc (j / 2) ltac:(lia)).
      destruct (V (j / 2) Hd) as [V0 V1]. pose proof (half_split j) as E. revert E. generalize dependent (j / 2). intros i. intros. destruct E as [-> | ->]; [rewrite V0|rewrite V1].
      * unfold mul0.
        pose proof (P (zget 0 a (2 * i + 1)) (zget 0 c i) 3328 ltac:(lia) ltac:(lia)).
        pose proof (P (zget 0 a (2 * i)) (zget 0 b (2 * i)) 32768 ltac:(lia) ltac:(lia)).
        match goal with |- Z.abs (mont ?t) < _ => pose proof (mont_bound t 6656 ltac:(lia)) end. lia.
      * unfold mul1.
        pose proof (P (zget 0 a (2 * i + 1)) (zget 0 b (2 * i)) 32768 ltac:(lia) ltac:(lia)).
        pose proof (P (zget 0 a (2 * i)) (zget 0 b (2 * i + 1)) 32768 ltac:(lia) ltac:(lia)).
        match goal with |- Z.abs (mont ?t) < _ => pose proof (mont_bound t 6656 ltac:(lia)) end. lia.
    + split; [now rewrite zlen_scale|].
      assert (C : forall x, 65536 * (169 * x) == x).
      { intros. rewrite Z.mul_assoc. transitivity (1 * x); [apply cg_mul; [constructor; reflexivity|reflexivity]|].
        apply cg_of_eq; ring. }
      apply eqf_parity; intros m Hm; destruct (V m Hm) as [V0 V1]; rewrite zget_scale.
      * rewrite V0, MultiplyNTTs_even by auto. unfold mul0. rewrite mont_cg, C, (Vc m Hm). unfold at_, zget.
        apply cg_of_eq; ring.
      * rewrite V1, MultiplyNTTs_odd by auto. unfold mul1. rewrite mont_cg, C. unfold at_, zget.
        apply cg_of_eq; ring.
Qed.

(** ** Vectors of polynomials *)

(** What each element of a vector satisfies *)
Definition each (k : Z) (P : Z -> list Z -> Prop) (v : list (list Z)) : Prop :=
  zlen v = k /\ forall i, 0 <= i < k -> P i (zget [] v i).

(** A loop that updates element [i] of an array, for every [i] *)
Lemma wp_for_rel N (P : Z -> list Z -> Prop) body r0 nn (Q : list (list Z) -> Prop) :
  zlen r0 = nn ->
  (forall i s, 0 <= i < nn -> zlen s = nn -> zget [] s i = zget [] r0 i ->
     wpn N (body i s) (fun s' => exists y, P i y /\ s' = zset s i y)) ->
  (forall r, each nn P r -> Q r) ->
  wpn N (for_up 0 nn 1 body r0) Q.
Proof.
  intros Hn Hb HQ. pose proof (zlen_nonneg r0).
  apply (wp_for N (fun i r => zlen r = nn /\ (forall j, 0 <= j < i -> P j (zget [] r j)) /\
     forall j, i <= j < nn -> zget [] r j = zget [] r0 j)); auto; try lia.
  - split; [auto|]. split; intros; [lia|reflexivity].
  - intros i s Hi (Ls & H1 & H2). eapply wp_mono; [apply Hb; auto; apply H2; lia|].
    intros s' (y & Hy & ->). split; [rewrite zlen_set; lia|]. split.
    + intros j Hj. rewrite zget_set by lia. destruct (Z.eqb_spec j i) as [-> |]; auto. apply H1; lia.
    + intros j Hj. rewrite zget_set by lia. replace (j =? i) with false by lia. apply H2; lia.
  - intros s (Ls & H1 & _). apply HQ; split; auto.
Qed.

Lemma each_Forall k (P : list Z -> Prop) v : each k (fun _ => P) v -> Forall P v.
Proof. intros [L H]. apply (Forall_zget _ []). rewrite L. auto. Qed.
Lemma each_weaken k (P P' : Z -> list Z -> Prop) v : (forall i x, 0 <= i < k -> P i x -> P' i x) ->
  each k P v -> each k P' v.
Proof. intros W [L H]. split; auto. Qed.
Lemma each_vec_of k (P : Z -> list Z -> Prop) v : (forall i x, P i x -> zlen x = 256) ->
  each k P v -> vec_of k v.
Proof. intros W [L H]. split; auto. apply (Forall_zget _ []). rewrite L. eauto. Qed.
Lemma each_map k (P : Z -> list Z -> Prop) (f : Z -> list Z) : 0 <= k -> (forall i, 0 <= i < k -> P i (f i)) ->
  each k P (map f (range k)).
Proof.
  intros. split; [rewrite zlen_map, zlen_range; lia|]. intros i Hi. rewrite zget_map_range; auto.
Qed.

Lemma wp_polyvec_ntt N p r (Q : list (list Z) -> Prop) :
  each (MLKEM_K p) (fun _ x => zlen x = 256 /\ bounded 3329 x) r ->
  (forall r', each (MLKEM_K p) (fun i x => zlen x = 256 /\ bounded 20801 x /\
       residues x = NTT (zget [] r i)) r' -> Q r') ->
  wpn N (polyvec_ntt p r) Q.
Proof.
  intros [Lr Hr] HQ. unfold polyvec_ntt.
  eapply wp_for_rel; [exact Lr| |exact HQ].
  intros i s Hi Ls Es. destruct (Hr i Hi) as [L B].
  apply wp_bind, (wp_aget []); [lia|]. rewrite Es. apply wp_bind, wp_poly_ntt; auto.
  intros x Lx Bx Ex. apply wp_aset; [lia|]. exists x; auto.
Qed.

Lemma wp_polyvec_invntt N p r (Q : list (list Z) -> Prop) :
  each (MLKEM_K p) (fun _ x => zlen x = 256 /\ int16s x) r ->
  (forall r', each (MLKEM_K p) (fun i x => zlen x = 256 /\ bounded 1801 x /\
       residues x = residues (scale 65536 (NTT_inv (zget [] r i)))) r' -> Q r') ->
  wpn N (polyvec_invntt_tomont p r) Q.
Proof.
  intros [Lr Hr] HQ. unfold polyvec_invntt_tomont.
  eapply wp_for_rel; [exact Lr| |exact HQ].
  intros i s Hi Ls Es. destruct (Hr i Hi) as [L B].
  apply wp_bind, (wp_aget []); [lia|]. rewrite Es. apply wp_bind, wp_poly_invntt; auto.
  intros x Lx Bx Ex. apply wp_aset; [lia|]. exists x; auto.
Qed.

Lemma wp_polyvec_mulcache N p x a (Q : list (list Z) -> Prop) :
  each (MLKEM_K p) (fun _ x => zlen x = 128) x ->
  each (MLKEM_K p) (fun _ x => zlen x = 256 /\ int16s x) a ->
  (forall x', each (MLKEM_K p) (fun i c => is_cache c (zget [] a i)) x' -> Q x') ->
  wpn N (polyvec_mulcache_compute p x a) Q.
Proof.
  intros [Lx Hx] [La Ha] HQ. unfold polyvec_mulcache_compute.
  eapply wp_for_rel; [exact Lx| |exact HQ].
  intros i s Hi Ls Es. destruct (Ha i Hi) as [L B]. specialize (Hx i Hi).
  do 2 (apply wp_bind, (wp_aget []); [lia|]). rewrite Es. apply wp_bind, wp_mulcache; auto.
  intros c Hc. apply wp_aset; [lia|]. exists c; auto.
Qed.

Lemma wp_polyvec_reduce N p r (Q : list (list Z) -> Prop) :
  each (MLKEM_K p) (fun _ x => zlen x = 256 /\ int16s x) r -> Q (map residues r) ->
  wpn N (polyvec_reduce p r) Q.
Proof.
  intros [Lr Hr] HQ. unfold polyvec_reduce.
  eapply (wp_for_rel _ (fun i x => x = residues (zget [] r i))); [exact Lr| |].
  - intros i s Hi Ls Es. destruct (Hr i Hi) as [L B].
    apply wp_bind, (wp_aget []); [lia|]. rewrite Es. apply wp_bind, wp_poly_reduce; auto.
    apply wp_aset; [lia|]. eexists; eauto.
  - intros r' [L H]. replace r' with (map residues r); auto. apply (zlist_ext []); [rewrite zlen_map; lia|].
    rewrite zlen_map. intros i Hi. rewrite (zget_map _ []) by auto. symmetry. apply H. lia.
Qed.

Lemma wp_polyvec_tomont N p r (Q : list (list Z) -> Prop) :
  each (MLKEM_K p) (fun _ x => zlen x = 256 /\ int16s x) r ->
  (forall r', each (MLKEM_K p) (fun i x => zlen x = 256 /\ bounded 3329 x /\
       repr x (scale 65536 (zget [] r i))) r' -> Q r') ->
  wpn N (polyvec_tomont p r) Q.
Proof.
  intros [Lr Hr] HQ. unfold polyvec_tomont.
  eapply wp_for_rel; [exact Lr| |exact HQ].
  intros i s Hi Ls Es. destruct (Hr i Hi) as [L B].
  apply wp_bind, (wp_aget []); [lia|]. rewrite Es. apply wp_bind, wp_poly_tomont; auto.
  intros x Lx Bx Ex. apply wp_aset; [lia|]. exists x; auto.
Qed.

Definition zadd (r b : list Z) : list Z := map (fun i => zget 0 r i + zget 0 b i) (range 256).
Definition zsub (r b : list Z) : list Z := map (fun i => zget 0 r i - zget 0 b i) (range 256).
Lemma zlen_zadd r b : zlen (zadd r b) = 256.
Proof. unfold zadd. rewrite zlen_map, zlen_range; lia. Qed.
Lemma zlen_zsub r b : zlen (zsub r b) = 256.
Proof. unfold zsub. rewrite zlen_map, zlen_range; lia. Qed.
Lemma bounded_zadd b1 b2 r b : zlen r = 256 -> zlen b = 256 -> bounded b1 r -> bounded b2 b ->
  bounded (b1 + b2 - 1) (zadd r b).
Proof.
  intros L1 L2 B1 B2. apply bounded_abs; [apply zlen_zadd|]. intros i Hi. unfold zadd.
  rewrite zget_map_range by lia. rewrite bounded_abs in B1, B2 by auto.
  specialize (B1 i Hi). specialize (B2 i Hi). lia.
Qed.
Lemma bounded_zsub b1 b2 r b : zlen r = 256 -> zlen b = 256 -> bounded b1 r -> bounded b2 b ->
  bounded (b1 + b2 - 1) (zsub r b).
Proof.
  intros L1 L2 B1 B2. apply bounded_abs; [apply zlen_zsub|]. intros i Hi. unfold zsub.
  rewrite zget_map_range by lia. rewrite bounded_abs in B1, B2 by auto.
  specialize (B1 i Hi). specialize (B2 i Hi). lia.
Qed.
Lemma bounded_int16s b l : b <= 32768 -> bounded b l -> int16s l.
Proof. intros Hb. apply Forall_impl. intros. cbv beta in *. lia. Qed.
Lemma repr_zadd r b F G : repr r F -> repr b G -> repr (zadd r b) (poly_plus F G).
Proof.
  intros [L1 E1] [L2 E2]. split; [apply zlen_zadd|]. intros i Hi. unfold zadd.
  rewrite zget_map_range by lia. rewrite poly_plus_at by auto. rewrite (E1 i Hi), (E2 i Hi). reflexivity.
Qed.
Lemma repr_zsub r b F G : repr r F -> repr b G -> repr (zsub r b) (poly_minus F G).
Proof.
  intros [L1 E1] [L2 E2]. split; [apply zlen_zsub|]. intros i Hi. unfold zsub.
  rewrite zget_map_range by lia. rewrite poly_minus_at by auto. rewrite (E1 i Hi), (E2 i Hi). reflexivity.
Qed.
(** addition of bounded polynomials *)
Lemma wp_poly_add_b N b1 b2 r b (Q : list Z -> Prop) : zlen r = 256 -> zlen b = 256 ->
  bounded b1 r -> bounded b2 b -> b1 + b2 <= 32768 -> Q (zadd r b) -> wpn N (poly_add r b) Q.
Proof.
  intros L1 L2 B1 B2 Hs HQ. apply wp_poly_add; auto. intros i Hi.
  rewrite bounded_abs in B1, B2 by auto. specialize (B1 i Hi). specialize (B2 i Hi). lia.
Qed.
Lemma wp_poly_sub_b N b1 b2 r b (Q : list Z -> Prop) : zlen r = 256 -> zlen b = 256 ->
  bounded b1 r -> bounded b2 b -> b1 + b2 <= 32768 -> Q (zsub r b) -> wpn N (poly_sub r b) Q.
Proof.
  intros L1 L2 B1 B2 Hs HQ. apply wp_poly_sub; auto. intros i Hi.
  rewrite bounded_abs in B1, B2 by auto. specialize (B1 i Hi). specialize (B2 i Hi). lia.
Qed.

Lemma wp_polyvec_add N b1 b2 p r b (Q : list (list Z) -> Prop) : b1 + b2 <= 32768 ->
  each (MLKEM_K p) (fun _ x => zlen x = 256 /\ bounded b1 x) r ->
  each (MLKEM_K p) (fun _ x => zlen x = 256 /\ bounded b2 x) b ->
  (forall r', each (MLKEM_K p) (fun i x => x = zadd (zget [] r i) (zget [] b i)) r' -> Q r') ->
  wpn N (polyvec_add p r b) Q.
Proof.
  intros Hs [Lr Hr] [Lb Hb] HQ. unfold polyvec_add.
  eapply wp_for_rel; [exact Lr| |exact HQ].
  intros i s Hi Ls Es. destruct (Hr i Hi) as [L1 B1], (Hb i Hi) as [L2 B2].
  do 2 (apply wp_bind, (wp_aget []); [lia|]). rewrite Es. apply wp_bind.
  apply (wp_poly_add_b _ b1 b2); auto. apply wp_aset; [lia|]. eexists; split; reflexivity.
Qed.

(** ** Inner products *)

Lemma fold_plus_at l acc j : 0 <= j < 256 ->
  at_ (fold_left poly_plus l acc) j == at_ acc j + sum (zlen l) (fun i => at_ (zget [] l i) j).
Proof.
  intros Hj. revert acc. induction l as [|x l IH] using rev_ind; intros acc.
  - cbn [fold_left]. change (zlen (@nil (list Z))) with 0. rewrite sum_0. apply cg_of_eq. ring.
  - rewrite fold_left_app. cbn [fold_left]. rewrite poly_plus_at, IH by auto.
    rewrite zlen_app. change (zlen [x]) with 1. rewrite sum_S by apply zlen_nonneg.
    rewrite (zget_app [] l [x] (zlen l)) by apply zlen_nonneg.
    replace (zlen l <? zlen l) with false by lia. rewrite Z.sub_diag.
    change (zget [] [x] 0) with x.
    rewrite (sum_ext (zlen l) (fun i => at_ (zget [] (l ++ [x]) i) j) (fun i => at_ (zget [] l i) j)).
    2: { intros i Hi. rewrite zget_app by lia. now replace (i <? zlen l) with true by lia. }
    apply cg_of_eq. ring.
Qed.

Lemma zget_combine {A B} (d : A) (e : B) l m i : zlen l = zlen m ->
  zget (d, e) (combine l m) i = (zget d l i, zget e m i).
Proof. intros H. unfold zget. apply combine_nth. unfold zlen in H. lia. Qed.
Lemma zlen_combine {A B} (l : list A) (m : list B) : zlen l = zlen m -> zlen (combine l m) = zlen l.
Proof. unfold zlen. rewrite combine_length. lia. Qed.

Lemma dot_at k u v j : zlen u = k -> zlen v = k -> 0 <= j < 256 ->
  at_ (dot u v) j == sum k (fun i => at_ (MultiplyNTTs (zget [] u i) (zget [] v i)) j).
Proof.
  intros Lu Lv Hj. unfold dot. rewrite fold_plus_at, poly_zero_at by auto.
  rewrite zlen_map, zlen_combine by lia. rewrite Lu. apply cg_of_eq. rewrite Z.add_0_l.
  apply sum_ext. intros i Hi. rewrite (zget_map _ ([], [])) by (rewrite zlen_combine; lia).
  now rewrite zget_combine by lia.
Qed.
Lemma dot_reduced u v : reduced (dot u v).
Proof.
  unfold dot. generalize (map (fun '(a, b) => MultiplyNTTs a b) (combine u v)). intros l.
  destruct l as [|x l] using rev_ind; [apply poly_zero_reduced|].
  rewrite fold_left_app. apply poly_plus_reduced.
Qed.
Lemma dot_cg k u v u' v' : zlen u = k -> zlen v = k -> zlen u' = k -> zlen v' = k ->
  (forall i, 0 <= i < k -> eqf (at_ (zget [] u i)) (at_ (zget [] u' i))) ->
  (forall i, 0 <= i < k -> eqf (at_ (zget [] v i)) (at_ (zget [] v' i))) -> dot u v = dot u' v'.
Proof.
  intros L1 L2 L3 L4 H1 H2. pose proof (zlen_nonneg u).
  apply reduced_ext; auto using dot_reduced. intros j Hj.
  rewrite (dot_at k u v), (dot_at k u' v') by auto. apply sum_cg; [lia|]. intros i Hi.
  rewrite (MultiplyNTTs_cg _ (zget [] u' i) _ (zget [] v' i)); auto. reflexivity.
Qed.

Lemma wp_basemul_acc N J p r a b c (Q : list Z -> Prop) :
  zlen r = 256 ->
  each (MLKEM_K p) (fun _ x => zlen x = 256 /\ bounded 3329 x) a ->
  each (MLKEM_K p) (fun _ x => zlen x = 256 /\ bounded 26632 x) b ->
  each (MLKEM_K p) (fun i x => is_cache x (zget [] b i)) c ->
  (forall r', zlen r' = 256 -> bounded 19969 r' -> repr (scale 65536 r') (dot a b) -> Q r') ->
  wpn N (polyvec_basemul_acc_montgomery_cached J p r a b c) Q.
Proof.
  intros Lr Ha Hb Hc HQ. pose proof (K_range p) as Hk. unfold polyvec_basemul_acc_montgomery_cached. cbv zeta.
  apply wp_bind, wp_POLYVEC_BOUND.
  { apply (each_Forall (MLKEM_K p)). eapply each_weaken; [|exact Ha]. cbv beta. tauto. }
  apply wp_bind, wp_POLYVEC_BOUND.
  { apply (each_Forall (MLKEM_K p)). eapply each_weaken; [|exact Hb]. cbv beta. intros i x _ [_ H]. exact H. }
  apply wp_bind, wp_POLYVEC_BOUND.
  { apply (each_Forall (MLKEM_K p)). eapply each_weaken; [|exact Hc]. cbv beta. intros i x _ (_ & H & _). exact H. }
  destruct Ha as [La Ha], Hb as [Lb Hb], Hc as [Lc Hc].
  set (G := fun i => MultiplyNTTs (zget [] a i) (zget [] b i)).
  assert (W : forall t i (Q : list Z -> Prop), zlen t = 256 -> 0 <= i < MLKEM_K p ->
    (forall t', bounded 4993 t' -> repr (scale 65536 t') (G i) -> Q t') ->
    wpn N (poly_basemul_montgomery_cached t (zget [] a i) (zget [] b i) (zget [] c i)) Q).
  { intros t i Q' Lt Hi H. destruct (Ha i Hi), (Hb i Hi). apply wp_basemul_poly; auto.
    now apply (bounded_int16s 26632). }
  do 3 (apply wp_bind, (wp_aget []); [lia|]).
  apply wp_bind, W; [auto|lia|]. intros r0 B0 R0.
  assert (L0 : zlen r0 = 256) by (destruct R0 as [R0 _]; now rewrite zlen_scale in R0).
  apply wp_bind.
  apply (wp_for N (fun m '(s, t) => zlen s = 256 /\ zlen t = 256 /\ bounded (4992 * m + 1) s /\
     forall j, 0 <= j < 256 -> 65536 * zget 0 s j == sum m (fun i => at_ (G i) j))).
  - lia.
  - split; auto. split; [apply zlen_uninit; unfold MLKEM_N; lia|]. split; [exact B0|].
    intros j Hj. change 1 with (0 + 1). rewrite sum_S, sum_0 by lia.
    destruct R0 as [_ R0]. specialize (R0 j Hj). rewrite zget_scale in R0. exact R0.
  - intros i [s t] Hi (Ls & Lt & Bs & Es). cbv beta iota.
    do 3 (apply wp_bind, (wp_aget []); [lia|]).
    apply wp_bind, W; [auto|lia|]. intros t' Bt Rt.
    assert (Lt' : zlen t' = 256) by (destruct Rt as [R _]; now rewrite zlen_scale in R).
    apply wp_bind, (wp_poly_add_b _ (4992 * i + 1) 4993); auto; [lia|]. apply wp_ret.
    split; [apply zlen_zadd|]. split; auto. split.
    + replace (4992 * (i + 1) + 1) with (4992 * i + 1 + 4993 - 1) by ring. now apply bounded_zadd.
    + intros j Hj. rewrite sum_S by lia. rewrite <- (Es j Hj). unfold zadd. rewrite zget_map_range by lia.
      destruct Rt as [_ Rt]. specialize (Rt j Hj). rewrite zget_scale in Rt. rewrite <- Rt.
      apply cg_of_eq. ring.
  - intros [s t] (Ls & _ & Bs & Es). cbv beta iota.
    apply wp_bind, wp_POLY_BOUND. { apply (bounded_weaken (4992 * MLKEM_K p + 1)); auto. unfold HALF_Q. lia. }
    apply wp_ret, HQ; auto. { apply (bounded_weaken (4992 * MLKEM_K p + 1)); auto. lia. }
    split; [now rewrite zlen_scale|]. intros j Hj. rewrite zget_scale, (Es j Hj).
    now rewrite (dot_at (MLKEM_K p)).
Qed.

Lemma uninit2_each J i k m : 0 <= k -> 0 <= m -> each k (fun _ x => zlen x = m) (uninit2 J i k m).
Proof.
  intros. split; [now apply zlen_uninit2|]. intros j Hj.
  apply (vec_all (P := fun x => zlen x = m)); [apply uninit2_lens; lia|].
  rewrite zlen_uninit2; lia.
Qed.

Lemma wp_basemul_acc' N J p r a b (Q : list Z -> Prop) :
  zlen r = 256 ->
  each (MLKEM_K p) (fun _ x => zlen x = 256 /\ bounded 3329 x) a ->
  each (MLKEM_K p) (fun _ x => zlen x = 256 /\ bounded 26632 x) b ->
  (forall r', zlen r' = 256 -> bounded 19969 r' -> repr (scale 65536 r') (dot a b) -> Q r') ->
  wpn N (polyvec_basemul_acc_montgomery J p r a b) Q.
Proof.
  intros Lr Ha Hb HQ. pose proof (K_range p). unfold polyvec_basemul_acc_montgomery. cbv zeta.
  apply wp_bind, wp_polyvec_mulcache.
  - apply uninit2_each; [lia|]. vm_compute; discriminate.
  - eapply each_weaken; [|exact Hb]. cbv beta. intros i x _ [L B]. split; auto.
    now apply (bounded_int16s 26632).
  - intros c Hc. now apply wp_basemul_acc.
Qed.

(** Undoing the factor 2^16: basemul followed by the inverse transform *)
Lemma at_scale c r i : at_ (scale c r) i = c * at_ r i.
Proof. apply zget_scale. Qed.
Lemma NTT_inv_scale c r i : 0 <= i < 256 -> at_ (NTT_inv (scale c r)) i == c * at_ (NTT_inv r) i.
Proof.
  intros Hi. rewrite !NTT_inv_layers by auto.
  assert (E : eqf (at_ (scale c r)) (fun i => c * at_ r i)).
  { intros j Hj. rewrite at_scale. reflexivity. }
  rewrite (ilayers_scale c _ _ E i Hi). apply cg_of_eq. ring.
Qed.
Lemma invntt_of_basemul r x D : zlen x = 256 -> repr (scale 65536 r) D ->
  residues x = residues (scale 65536 (NTT_inv r)) -> residues x = NTT_inv D.
Proof.
  intros Lx HD E. rewrite E. pose proof (NTT_inv_reduced r) as [Lr _].
  apply residues_ext; [rewrite zlen_scale; exact Lr|apply NTT_inv_reduced|].
  intros i Hi. rewrite zget_scale. rewrite <- (NTT_inv_repr _ _ HD), NTT_inv_scale by auto.
  reflexivity.
Qed.

Lemma fold_hom {A} (h : A -> A) op : (forall a b, h (op a b) = op (h a) (h b)) ->
  forall l acc, h (fold_left op l acc) = fold_left op (map h l) (h acc).
Proof. intros H. induction l as [|x l IH]; intros acc; cbn [fold_left map]; auto. now rewrite IH, H. Qed.
Lemma sum_list_NTT_inv l acc : NTT_inv (fold_left poly_plus l acc)
  = fold_left poly_plus (map NTT_inv l) (NTT_inv acc).
Proof. exact (fold_hom NTT_inv poly_plus NTT_inv_plus l acc). Qed.
Lemma NTT_inv_zero : NTT_inv poly_zero = poly_zero.
Proof.
  apply reduced_ext; [apply NTT_inv_reduced|apply poly_zero_reduced|]. intros i Hi.
  rewrite NTT_inv_at by auto. rewrite poly_zero_at by auto.
  rewrite (sum_ext 128 _ (fun _ => 0)).
  - rewrite sum_zero by lia. reflexivity.
  - intros j Hj. rewrite poly_zero_at; [ring|].
    pose proof (Z.mod_pos_bound i 2 ltac:(lia)). lia.
Qed.
Lemma combine_map {A B C D} (f : A -> C) (g : B -> D) l m :
  combine (map f l) (map g m) = map (fun '(a, b) => (f a, g b)) (combine l m).
Proof. revert m. induction l; intros [|]; cbn; auto. now rewrite IHl. Qed.
Lemma NTT_inv_dot u v : NTT_inv (dot (map NTT u) (map NTT v)) = inner u v.
Proof.
  unfold dot, inner. rewrite sum_list_NTT_inv, NTT_inv_zero, combine_map, !map_map. f_equal.
  apply map_ext. intros [a b]. apply NTT_inv_times.
Qed.

(** ** The statements of C24 - C26 *)

Lemma bounded_at b l : zlen l = 256 ->
  (bounded b l <-> forall i, 0 <= i < 256 -> Z.abs (at_ l i) < b).
Proof. apply bounded_abs. Qed.
Lemma int16s_at l : zlen l = 256 -> (forall i, 0 <= i < 256 -> - 2 ^ 15 <= at_ l i < 2 ^ 15) -> int16s l.
Proof. intros L H. apply (Forall_zget _ 0). rewrite L. exact H. Qed.

Lemma ntt_correct f : zlen f = 256 -> (forall i, 0 <= i < 256 -> Z.abs (at_ f i) < q) ->
  exists r, val (poly_ntt f) = Ok r /\ zlen r = 256 /\
    (forall i, 0 <= i < 256 -> Z.abs (at_ r i) < 8 * q) /\
    (forall i, 0 <= i < 256 -> at_ r i mod q = at_ (NTT f) i).
Proof.
  intros L B. apply wp_ex, wp_poly_ntt; auto. { now apply bounded_at. }
  intros r Lr Br E. split; auto. split.
  - apply bounded_at; auto. apply (bounded_weaken 20801); auto. unfold q; lia.
  - intros i Hi. rewrite <- E. unfold residues. rewrite (at_zget (map _ _)), (zget_map _ 0) by lia.
    reflexivity.
Qed.

Lemma invntt_correct f : zlen f = 256 -> (forall i, 0 <= i < 256 -> - 2 ^ 15 <= at_ f i < 2 ^ 15) ->
  exists r, val (poly_invntt_tomont f) = Ok r /\ zlen r = 256 /\
    (forall i, 0 <= i < 256 -> Z.abs (at_ r i) < 8 * q) /\
    (forall i, 0 <= i < 256 -> at_ r i mod q = (2 ^ 16 * at_ (NTT_inv f) i) mod q).
Proof.
  intros L B. apply wp_ex, wp_poly_invntt; auto using int16s_at.
  intros r Lr Br E. split; auto. split.
  - apply bounded_at; auto. apply (bounded_weaken 1801); auto. unfold q; lia.
  - intros i Hi. change (map _ (NTT_inv f)) with (scale 65536 (NTT_inv f)) in E.
    pose proof (NTT_inv_reduced f) as [Lf _].
    pose proof (residues_zget _ _ i E Lr Hi) as H.
    rewrite residues_at, zget_scale in H by (rewrite ?zlen_scale; auto).
    apply cg_out in H. exact H.
Qed.

Lemma invntt_ntt f : zlen f = 256 -> (forall i, 0 <= i < 256 -> Z.abs (at_ f i) < q) ->
  exists r, val (g <- poly_ntt f ;; poly_invntt_tomont g) = Ok r /\ zlen r = 256 /\
    (forall i, 0 <= i < 256 -> at_ r i mod q = (2 ^ 16 * at_ f i) mod q).
Proof.
  intros L B. apply wp_ex. apply wp_bind, wp_poly_ntt; auto. { now apply bounded_at. }
  intros g Lg Bg Eg. apply wp_poly_invntt; auto. { apply (bounded_int16s 20801); auto; lia. }
  intros r Lr Br E. split; auto. intros i Hi.
  change (map _ (NTT_inv g)) with (scale 65536 (NTT_inv g)) in E.
  pose proof (NTT_inv_reduced g) as [Lf _].
  pose proof (residues_zget _ _ i E Lr Hi) as H.
  rewrite residues_at, zget_scale in H by (rewrite ?zlen_scale; auto).
  apply cg_out. change (at_ r i) with (zget 0 r i). rewrite H. apply cg_mul; [reflexivity|].
  assert (R : repr f (residues f)) by now apply residues_repr.
  rewrite (NTT_inv_repr g (NTT (residues f))).
  - rewrite NTT_inv_NTT by now apply residues_reduced. apply (residues_at f i L Hi).
  - apply residues_repr; auto. now rewrite <- (NTT_repr f).
Qed.
Lemma ntt_invntt f : zlen f = 256 -> (forall i, 0 <= i < 256 -> - 2 ^ 15 <= at_ f i < 2 ^ 15) ->
  exists r, val (g <- poly_invntt_tomont f ;; poly_ntt g) = Ok r /\ zlen r = 256 /\
    (forall i, 0 <= i < 256 -> at_ r i mod q = (2 ^ 16 * at_ f i) mod q).
Proof.
  intros L B. apply wp_ex. apply wp_bind, wp_poly_invntt; auto using int16s_at.
  intros g Lg Bg Eg. apply wp_poly_ntt; auto. { apply (bounded_weaken 1801); auto; lia. }
  intros r Lr Br E. split; auto. intros i Hi.
  change (map _ (NTT_inv f)) with (scale 65536 (NTT_inv f)) in Eg.
  apply cg_out. change (at_ r i) with (zget 0 r i). rewrite (residues_zget _ _ i E Lr Hi).
  pose proof (NTT_inv_reduced f) as [Lf _].
  assert (R : repr g (NTT_inv (scale 65536 f))).
  { apply (repr_trans _ (scale 65536 (NTT_inv f))).
    - apply residues_repr in Eg; auto. apply (repr_trans _ _ _ Eg). intros j Hj.
      rewrite residues_at by (rewrite ?zlen_scale; auto). reflexivity.
    - intros j Hj. rewrite at_scale, NTT_inv_scale by auto. reflexivity. }
  rewrite (NTT_repr _ _ R).
  assert (R2 : repr (scale 65536 f) (residues (scale 65536 f))).
  { apply residues_repr; auto. now rewrite zlen_scale. }
  rewrite (NTT_inv_repr _ _ R2). rewrite NTT_NTT_inv by (apply residues_reduced; now rewrite zlen_scale).
  rewrite residues_at by (rewrite ?zlen_scale; auto). rewrite zget_scale. reflexivity.
Qed.

(** 2^16 times the result is the product in NTT representation *)
Lemma basemul_correct r0 c0 a b : zlen r0 = 256 -> zlen c0 = 128 -> zlen a = 256 -> zlen b = 256 ->
  (forall i, 0 <= i < 256 -> Z.abs (at_ a i) < q) ->
  (forall i, 0 <= i < 256 -> - 2 ^ 15 <= at_ b i < 2 ^ 15) ->
  exists r, val (c <- poly_mulcache_compute c0 b ;; poly_basemul_montgomery_cached r0 a b c) = Ok r /\
    zlen r = 256 /\ (forall i, 0 <= i < 256 -> Z.abs (at_ r i) < 2 * q) /\
    (forall i, 0 <= i < 256 -> (2 ^ 16 * at_ r i) mod q = at_ (MultiplyNTTs a b) i).
Proof.
  intros Lr Lc La Lb Ba Bb. apply wp_ex. apply wp_bind, wp_mulcache; auto using int16s_at.
  intros c Hc. apply wp_basemul_poly; auto using int16s_at. { now apply bounded_at. }
  intros r Br R. assert (L : zlen r = 256) by (destruct R as [R _]; now rewrite zlen_scale in R).
  split; auto. split.
  - apply bounded_at; auto. apply (bounded_weaken 4993); auto. unfold q; lia.
  - intros i Hi. apply repr_residues in R; [|apply MultiplyNTTs_reduced].
    rewrite <- R. unfold residues. rewrite (at_zget (map _ _)), (zget_map _ 0) by (rewrite ?zlen_scale; lia).
    now rewrite zget_scale.
Qed.

Lemma ntt_mul_correct r0 c0 f g : zlen r0 = 256 -> zlen c0 = 128 -> zlen f = 256 -> zlen g = 256 ->
  (forall i, 0 <= i < 256 -> Z.abs (at_ f i) < q) ->
  (forall i, 0 <= i < 256 -> Z.abs (at_ g i) < q) ->
  exists r, val (f <- poly_ntt f ;; f <- poly_reduce f ;; g <- poly_ntt g ;;
                 c <- poly_mulcache_compute c0 g ;;
                 r <- poly_basemul_montgomery_cached r0 f g c ;;
                 poly_invntt_tomont r) = Ok r /\
    zlen r = 256 /\ (forall i, 0 <= i < 256 -> at_ r i mod q = at_ (poly_times f g) i).
Proof.
  intros Lr Lc Lf Lg Bf Bg. apply wp_ex. apply wp_bind, wp_poly_ntt; auto. { now apply bounded_at. }
  intros f1 L1 B1 E1. apply wp_bind, wp_poly_reduce; auto. { apply (bounded_int16s 20801); auto; lia. }
  apply wp_bind, wp_poly_ntt; auto. { now apply bounded_at. }
  intros g1 L2 B2 E2. assert (I2 : int16s g1) by (apply (bounded_int16s 20801); auto; lia).
  apply wp_bind, wp_mulcache; auto. intros c Hc.
  apply wp_bind, wp_basemul_poly; auto. { apply residues_reduced; auto. }
  { apply ubounded_bounded. apply residues_reduced; auto. }
  intros r Br R. assert (L : zlen r = 256) by (destruct R as [R _]; now rewrite zlen_scale in R).
  apply wp_poly_invntt; auto. { apply (bounded_int16s 4993); auto; lia. }
  intros x Lx Bx Ex. split; auto. intros i Hi.
  change (map _ (NTT_inv r)) with (scale 65536 (NTT_inv r)) in Ex.
  pose proof (invntt_of_basemul _ _ _ Lx R Ex) as Er.
  rewrite (MultiplyNTTs_cg _ (NTT f) _ (NTT g)), NTT_inv_times in Er.
  - rewrite <- Er. unfold residues. rewrite (at_zget (map _ _)), (zget_map _ 0) by lia. reflexivity.
  - rewrite E1. intros j _. reflexivity.
  - rewrite <- E2. intros j Hj. rewrite residues_at by auto. reflexivity.
Qed.

Lemma vec_each k (P : list Z -> Prop) v : zlen v = k -> Forall P v -> each k (fun _ => P) v.
Proof. intros L H. split; auto. intros i Hi. apply vec_all; auto; lia. Qed.

Lemma ntt_inner_correct J p r0 u v : zlen r0 = 256 ->
  zlen u = k (set_of p) -> zlen v = k (set_of p) ->
  Forall (fun f => zlen f = 256 /\ forall i, 0 <= i < 256 -> Z.abs (at_ f i) < q) u ->
  Forall (fun f => zlen f = 256 /\ forall i, 0 <= i < 256 -> Z.abs (at_ f i) < q) v ->
  exists r, val (u <- polyvec_ntt p u ;; u <- polyvec_reduce p u ;; v <- polyvec_ntt p v ;;
                 r <- polyvec_basemul_acc_montgomery J p r0 u v ;;
                 poly_invntt_tomont r) = Ok r /\
    zlen r = 256 /\ (forall i, 0 <= i < 256 -> at_ r i mod q = at_ (inner u v) i).
Proof.
  intros Lr Lu Lv Bu Bv. rewrite k_set in Lu, Lv. pose proof (K_range p) as Hk.
  assert (C : forall w, Forall (fun f => zlen f = 256 /\ forall i, 0 <= i < 256 -> Z.abs (at_ f i) < q) w ->
     Forall (fun x => zlen x = 256 /\ bounded 3329 x) w).
  { intros w. apply Forall_impl. intros x [Lx Hx]. split; auto. now apply bounded_at. }
  apply C in Bu, Bv. clear C.
  apply wp_ex. apply wp_bind, wp_polyvec_ntt; [now apply vec_each|].
  intros u1 H1. apply wp_bind, wp_polyvec_reduce.
  { eapply each_weaken; [|exact H1]. cbv beta. intros i x _ (L & B & _). split; auto.
    apply (bounded_int16s 20801); auto; lia. }
  apply wp_bind, wp_polyvec_ntt; [now apply vec_each|].
  intros v1 H2. apply wp_bind.
  assert (E1 : map residues u1 = map NTT u).
  { destruct H1 as [L1 H1]. apply (zlist_ext []); [rewrite !zlen_map; lia|]. rewrite zlen_map.
    intros i Hi. rewrite !(zget_map _ []) by lia. apply H1; lia. }
  apply wp_basemul_acc'; auto.
  { rewrite E1. apply vec_each; [rewrite zlen_map; lia|]. apply Forall_map, Forall_forall. intros x _.
    pose proof (NTT_reduced x) as [L R]. split; auto. now apply ubounded_bounded. }
  { eapply each_weaken; [|exact H2]. cbv beta. intros i x _ (L & B & _). split; auto.
    apply (bounded_weaken 20801); auto; lia. }
  intros r L Br R. apply wp_poly_invntt; auto. { apply (bounded_int16s 19969); auto; lia. }
  intros x Lx Bx Ex. split; auto. intros i Hi.
  change (map _ (NTT_inv r)) with (scale 65536 (NTT_inv r)) in Ex.
  pose proof (invntt_of_basemul _ _ _ Lx R Ex) as Er.
  destruct H2 as [L2 H2].
  rewrite E1, (dot_cg (MLKEM_K p) _ v1 (map NTT u) (map NTT v)), NTT_inv_dot in Er.
  - rewrite <- Er. unfold residues. rewrite (at_zget (map _ _)), (zget_map _ 0) by lia. reflexivity.
  - rewrite zlen_map; lia.
  - auto.
  - rewrite zlen_map; lia.
  - rewrite zlen_map; lia.
  - intros j _ l _. reflexivity.
  - intros j Hj l Hl. rewrite (zget_map _ []) by lia. destruct (H2 j Hj) as (Lj & _ & <-).
    rewrite residues_at by auto. reflexivity.
Qed.
