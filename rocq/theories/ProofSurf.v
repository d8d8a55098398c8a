(** * Proofs about the generator of the functional tests (C64) *)

From Coq Require Import ZArith List Bool Lia.
From Verif Require Import CSem ModelArith ModelSurf Spec202 Spec203 SpecApi SpecSurf CSemFacts.
Import ListNotations.
Open Scope Z_scope.
Ltac Zify.zify_post_hook ::= idtac.

(** ** The sequence *)
Lemma sequence_len w n : zlen (sequence w n) = 12 + Z.of_nat n.
Proof.
  induction n; cbn [sequence].
  - rewrite zlen_map, zlen_range; lia.
  - rewrite zlen_app, IHn, zlen_cons, zlen_nil. lia.
Qed.
Lemma sequence_stable w n m i : (n <= m)%nat -> 0 <= i < 12 + Z.of_nat n ->
  zget 0 (sequence w m) i = zget 0 (sequence w n) i.
Proof.
  intros Hnm Hi. induction Hnm as [|m Hnm IH]; auto. cbn [sequence].
  rewrite zget_app by lia. rewrite sequence_len.
  replace (i <? 12 + Z.of_nat m) with true by (symmetry; apply Z.ltb_lt; lia). exact IH.
Qed.
Definition Y (w : list Z) (j : Z) : Z := zget 0 (sequence w 384) (j + 12).
Lemma Y_start w j : -12 <= j < 0 -> Y w j = Z.lxor (zget 0 w (j + 12)) (zget 0 surf_seed (12 + (j + 12))).
Proof.
  intros. unfold Y. rewrite (sequence_stable w 0 384) by lia. cbn [sequence]. change at_ with (@zget Z 0).
  now rewrite zget_map_range by lia.
Qed.
Lemma Y_step w j : 0 <= j < 384 ->
  Y w j = (Y w (j - 12)
           + Z.lxor ((Z.lxor (Y w (j - 1)) (zget 0 surf_seed (j mod 12))
                      + (j / 12 + 1) * 2654435769) mod 2 ^ 32)
                    (rotated (Y w (j - 1)) (distance j))) mod 2 ^ 32.
Proof.
  intros Hj. unfold Y at 1. rewrite (sequence_stable w (S (Z.to_nat j)) 384) by lia. cbn [sequence].
  change at_ with (@zget Z 0).
  rewrite zget_app by lia. rewrite sequence_len, Z2Nat.id by lia.
  replace (j + 12 <? 12 + j) with false by (symmetry; apply Z.ltb_ge; lia).
  replace (j + 12 - (12 + j)) with 0 by lia.
  unfold Y. rewrite !(sequence_stable w (Z.to_nat j) 384) by lia. reflexivity.
Qed.

Lemma rotate_rotated x b : 0 <= x < 2 ^ 32 -> 0 < b < 32 -> ROTATE x b = rotated x b.
Proof.
  intros Hx Hb. unfold ROTATE, rotated, u32. rewrite Z.shiftl_mul_pow2, Z.shiftr_div_pow2 by lia.
  change 4294967296 with (2 ^ 32).
  assert (E : Z.land ((x * 2 ^ b) mod 2 ^ 32) (x / 2 ^ (32 - b)) = 0).
  { apply Z.bits_inj'. intros i Hi. rewrite Z.land_spec, Z.bits_0.
    destruct (Z.lt_ge_cases i b).
    - destruct (Z.lt_ge_cases i 32).
      + rewrite Z.mod_pow2_bits_low by lia. rewrite Z.mul_pow2_bits_low by lia. reflexivity.
      + rewrite Z.mod_pow2_bits_high by lia. reflexivity.
    - rewrite Z.div_pow2_bits by lia.
      replace (Z.testbit x (i + (32 - b))) with false; [apply andb_false_r|].
      symmetry. destruct (Z.eq_dec x 0) as [->|]; [apply Z.bits_0|].
      apply Z.bits_above_log2; [lia|]. assert (Z.log2 x < 32) by (apply Z.log2_lt_pow2; lia). lia. }
  rewrite Z.add_nocarry_lxor by exact E.
  apply Z.bits_inj'. intros i Hi. rewrite Z.lor_spec, Z.lxor_spec.
  assert (B := f_equal (fun z => Z.testbit z i) E). cbn beta in B. rewrite Z.land_spec, Z.bits_0 in B.
  destruct (Z.testbit _ i), (Z.testbit _ i); cbn in *; congruence.
Qed.

Definition word (x : Z) : Prop := 0 <= x < 2 ^ 32.
Lemma lxor_word x y : word x -> word y -> word (Z.lxor x y).
Proof.
  unfold word. intros Hx Hy. split; [apply Z.lxor_nonneg; lia|].
  destruct (Z.eq_dec (Z.lxor x y) 0) as [->|]; [lia|].
  assert (0 <= Z.lxor x y) by (apply Z.lxor_nonneg; lia).
  apply Z.log2_lt_pow2; [lia|].
  assert (A := Z.log2_lxor x y ltac:(lia) ltac:(lia)).
  assert (L : forall z, 0 <= z < 2 ^ 32 -> Z.log2 z < 32).
  { intros z Hz. destruct (Z.eq_dec z 0) as [->|]; [cbn; lia|]. apply Z.log2_lt_pow2; lia. }
  specialize (L x Hx) as Lx. specialize (L y Hy) as Ly. lia.
Qed.
Lemma seed_word i : 0 <= i < 32 -> word (zget 0 surf_seed i).
Proof.
  intros. assert (F : Forall word surf_seed) by (unfold surf_seed, word; repeat constructor; lia).
  apply (proj1 (Forall_zget _ 0 _) F). change (zlen surf_seed) with 32. lia.
Qed.
Definition words12 (w : list Z) : Prop := zlen w = 12 /\ Forall word w.
Lemma Y_word w j : words12 w -> -12 <= j < 384 -> word (Y w j).
Proof.
  intros [Lw Fw] Hj. destruct (Z.lt_ge_cases j 0).
  - rewrite Y_start by lia. apply lxor_word; [|apply seed_word; lia].
    apply (proj1 (Forall_zget _ 0 _) Fw). lia.
  - rewrite Y_step by lia. apply Z.mod_pos_bound. lia.
Qed.

(** ** surf *)
(** After [j] MUSH steps *)
Definition mushed (w : list Z) (j : Z) (tx : list Z * Z) : Prop :=
  zlen (fst tx) = 12 /\ snd tx = Y w (j - 1) /\
  forall k, 0 <= k < 12 ->
    zget 0 (fst tx) k = Y w (if k <? j mod 12 then 12 * (j / 12) + k else 12 * (j / 12) - 12 + k).

Lemma wp_mush N w r i b sum tx (Q : list Z * Z -> Prop) :
  words12 w -> 0 <= r < 32 -> 0 <= i < 12 -> b = distance i -> sum = ((r + 1) * 2654435769) mod 2 ^ 32 ->
  mushed w (12 * r + i) tx ->
  (forall tx, mushed w (12 * r + i + 1) tx -> Q tx) ->
  wpn N (MUSH i b sum tx) Q.
Proof.
  intros W Hr Hi Hb Hsum [Lt [Ex Et]] HQ. destruct tx as [t x]. cbn [fst snd] in *.
  assert (Em : (12 * r + i) mod 12 = i).
  { replace (12 * r + i) with (i + r * 12) by lia. rewrite Z.mod_add by lia. apply Z.mod_small; lia. }
  assert (Ed : (12 * r + i) / 12 = r).
  { replace (12 * r + i) with (i + r * 12) by lia. rewrite Z.div_add by lia. rewrite Z.div_small; lia. }
  unfold MUSH. apply wp_bind, (wp_aget 0); [change (zlen seed) with 32; lia|].
  apply wp_bind, (wp_aget 0); [lia|]. cbv zeta.
  apply wp_bind, wp_aset; [lia|]. apply wp_ret, HQ.
  change seed with surf_seed.
  assert (E : u32 (zget 0 t i + (u32 (x .^ zget 0 surf_seed i + sum) .^ ROTATE x b)) = Y w (12 * r + i)).
  { rewrite Y_step by lia. rewrite Em, Ed. rewrite rotate_rotated.
    - rewrite Et by lia. rewrite Em, Ed, Z.ltb_irrefl, Ex, Hsum.
      unfold u32. change 4294967296 with (2 ^ 32). rewrite Zplus_mod_idemp_r.
      replace (12 * r - 12 + i) with (12 * r + i - 12) by lia.
      replace (distance (12 * r + i)) with b; [reflexivity|].
      rewrite Hb. unfold distance. replace (12 * r + i) with (i + (3 * r) * 4) by lia.
      now rewrite Z.mod_add by lia.
    - rewrite Ex. apply Y_word; auto; lia.
    - rewrite Hb. unfold distance.
      assert (0 <= i mod 4 < 4) by (apply Z.mod_pos_bound; lia).
      assert (C : i mod 4 = 0 \/ i mod 4 = 1 \/ i mod 4 = 2 \/ i mod 4 = 3) by lia.
      destruct C as [C|[C|[C|C]]]; rewrite C; split; reflexivity. }
  rewrite E. split; [|split]; cbn [fst snd].
  - rewrite zlen_set; lia.
  - f_equal; lia.
  - intros k Hk. rewrite zget_set by lia.
    assert (C : i = 11 \/ i < 11) by lia. destruct C as [C|C].
    + replace (12 * r + i + 1) with (0 + (r + 1) * 12) by lia.
      rewrite Z.mod_add, Z.div_add by lia. change (0 mod 12) with 0. change (0 / 12) with 0.
      replace (k <? 0) with false by (symmetry; apply Z.ltb_ge; lia).
      destruct (Z.eqb_spec k i).
      * f_equal; lia.
      * rewrite Et by lia. rewrite Em, Ed.
        replace (k <? i) with true by (symmetry; apply Z.ltb_lt; lia). f_equal; lia.
    + replace (12 * r + i + 1) with (i + 1 + r * 12) by lia.
      rewrite Z.mod_add, Z.div_add by lia. rewrite Z.mod_small, Z.div_small by lia.
      destruct (Z.eqb_spec k i).
      * replace (k <? i + 1) with true by (symmetry; apply Z.ltb_lt; lia). f_equal; lia.
      * rewrite Et by lia. rewrite Em, Ed.
        destruct (Z.ltb_spec k i).
        -- replace (k <? i + 1) with true by (symmetry; apply Z.ltb_lt; lia). f_equal; lia.
        -- replace (k <? i + 1) with false by (symmetry; apply Z.ltb_ge; lia). f_equal; lia.
Qed.

Lemma SURF_get w k s : s = sequence w 384 -> 0 <= k < 8 ->
  zget 0 (SURF w) k = Z.lxor (Z.lxor (zget 0 surf_seed (24 + k)) (zget 0 s (184 + k + 12))) (zget 0 s (376 + k + 12)).
Proof. intros Hs Hk. unfold SURF. rewrite <- Hs. rewrite zget_map_range by lia. reflexivity. Qed.
Lemma wp_surf J w out : words12 w -> zlen out = 8 ->
  wp (surf J w out) (fun o => o = SURF w).
Proof.
  intros W Lo. pose proof W as [Lw Fw]. unfold surf.
  apply wp_bind. apply (wp_for _ (fun i t => zlen t = 12 /\ forall k, 0 <= k < i -> zget 0 t k = Y w (k - 12))).
  { lia. } { rewrite zlen_uninit by lia. split; auto. intros; lia. }
  { intros i t Hi [Lt Ht]. apply wp_bind, (wp_aget 0); [lia|].
    apply wp_bind, (wp_aget 0); [change (zlen seed) with 32; lia|]. apply wp_aset; [lia|].
    rewrite zlen_set by lia. split; auto. intros k Hk. rewrite zget_set by lia.
    destruct (Z.eqb_spec k i) as [->|].
    - rewrite Y_start by lia. change seed with surf_seed. now replace (i - 12 + 12) with i by lia.
    - apply Ht; lia. }
  intros t [Lt Ht]. apply wp_bind.
  apply (wp_for _ (fun i (o : list Z) => zlen o = 8 /\ forall k, 0 <= k < i -> zget 0 o k = zget 0 surf_seed (24 + k))).
  { lia. } { split; auto. intros; lia. }
  { intros i o Hi [Lo' Ho]. apply wp_bind, (wp_aget 0); [change (zlen seed) with 32; lia|]. apply wp_aset; [lia|].
    rewrite zlen_set by lia. split; auto. intros k Hk. rewrite zget_set by lia.
    destruct (Z.eqb_spec k i) as [->|]; auto. apply Ho; lia. }
  clear out Lo. intros out [Lo Ho]. apply wp_bind, (wp_aget 0); [lia|]. apply wp_bind.
  apply (wp_for _ (fun l '(t, x, sum, out) =>
     mushed w (192 * l) (t, x) /\ sum = ((16 * l) * 2654435769) mod 2 ^ 32 /\ zlen out = 8 /\
     forall k, 0 <= k < 8 -> zget 0 out k =
       Z.lxor (if 1 <=? l then Z.lxor (zget 0 surf_seed (24 + k)) (Y w (184 + k)) else zget 0 surf_seed (24 + k))
              (if 2 <=? l then Y w (376 + k) else 0))).
  { lia. }
  { split; [|split; [reflexivity|split; auto]].
    - split; [|split]; cbn [fst snd]; auto.
      + rewrite Ht by lia. reflexivity.
      + intros k Hk. change (192 * 0) with 0. change (0 mod 12) with 0. change (0 / 12) with 0.
        replace (k <? 0) with false by (symmetry; apply Z.ltb_ge; lia). rewrite Ht by lia. f_equal; lia.
    - intros k Hk. cbn [Z.leb Z.compare Pos.compare Pos.compare_cont]. rewrite Z.lxor_0_r. apply Ho; lia. }
  { clear t Lt Ht out Lo Ho. intros l [[[t x] sum] out] Hl [Hm [Hs [Lo Ho]]].
    apply wp_bind. apply (wp_for _ (fun r '(t, x, sum) =>
      mushed w (12 * (16 * l + r)) (t, x) /\ sum = ((16 * l + r) * 2654435769) mod 2 ^ 32)).
    { lia. }
    { replace (12 * (16 * l + 0)) with (192 * l) by lia. replace (16 * l + 0) with (16 * l) by lia. auto. }
    { clear t x sum Hm Hs. intros r [[t x] sum] Hr [Hm Hs]. cbv zeta.
      assert (Es : u32 (sum + 2654435769) = ((16 * l + r + 1) * 2654435769) mod 2 ^ 32).
      { rewrite Hs. unfold u32. change 4294967296 with (2 ^ 32). rewrite Zplus_mod_idemp_l. f_equal; lia. }
      rewrite Es. set (R := 16 * l + r) in *. assert (HR : 0 <= R < 32) by lia.
      Local Ltac mush w R W HR := apply wp_bind; eapply (wp_mush _ w R);
        [exact W|exact HR|lia|reflexivity|reflexivity|
         match goal with H : mushed w ?a ?s |- mushed w ?b ?s => replace b with a by lia; exact H end
        |let s := fresh "s" in let H := fresh "Hm" in intros s H].
      do 12 mush w R W HR.
      match goal with H : mushed w (12 * R + 11 + 1) ?s |- _ => destruct s as [t' x'] end.
      apply wp_ret. split; [|unfold R; f_equal; lia].
      now replace (12 * (16 * l + (r + 1))) with (12 * R + 11 + 1) by lia. }
    clear t x sum Hm Hs. intros [[t x] sum] [Hm Hs].
    apply wp_bind. apply (wp_for _ (fun i (o : list Z) => zlen o = 8 /\
      forall k, 0 <= k < 8 -> zget 0 o k = if k <? i then Z.lxor (zget 0 out k) (zget 0 t (k + 4)) else zget 0 out k)).
    { lia. }
    { split; auto. intros k Hk. replace (k <? 0) with false by (symmetry; apply Z.ltb_ge; lia). reflexivity. }
    { intros i o Hi [Lo' Ho']. apply wp_bind, (wp_aget 0); [lia|]. destruct Hm as [Lt _]. cbn [fst] in Lt.
      apply wp_bind, (wp_aget 0); [lia|]. apply wp_aset; [lia|]. rewrite zlen_set by lia. split; auto.
      intros k Hk. rewrite zget_set by lia. rewrite !Ho' by lia. rewrite Z.ltb_irrefl.
      destruct (Z.eqb_spec k i) as [->|].
      - now replace (i <? i + 1) with true by (symmetry; apply Z.ltb_lt; lia).
      - destruct (Z.ltb_spec k i).
        + now replace (k <? i + 1) with true by (symmetry; apply Z.ltb_lt; lia).
        + now replace (k <? i + 1) with false by (symmetry; apply Z.ltb_ge; lia). }
    intros o [Lo' Ho']. apply wp_ret. split; [now replace (192 * (l + 1)) with (12 * (16 * l + 16)) by lia|].
    split; [rewrite Hs; f_equal; lia|]. split; auto. intros k Hk. rewrite Ho' by lia.
    replace (k <? 8) with true by (symmetry; apply Z.ltb_lt; lia).
    destruct Hm as [_ [_ Et]]. cbn [fst] in Et. rewrite Et by lia. rewrite Ho by lia.
    replace (12 * (16 * l + 16)) with (0 + (16 * l + 16) * 12) by lia.
    rewrite Z.mod_add, Z.div_add by lia. change (0 mod 12) with 0. change (0 / 12) with 0.
    replace (k + 4 <? 0) with false by (symmetry; apply Z.ltb_ge; lia).
    assert (C : l = 0 \/ l = 1) by lia. destruct C as [-> | ->].
    - change (1 <=? 0) with false. change (2 <=? 0) with false. change (1 <=? 0 + 1) with true. change (2 <=? 0 + 1) with false.
      cbv iota. rewrite !Z.lxor_0_r. f_equal. f_equal. lia.
    - change (1 <=? 1) with true. change (2 <=? 1) with false. change (1 <=? 1 + 1) with true. change (2 <=? 1 + 1) with true.
      cbv iota. rewrite !Z.lxor_0_r. f_equal. f_equal. lia. }
  clear t Lt Ht out Lo Ho. intros [[[t x] sum] out] [_ [_ [Lo Ho]]]. apply wp_ret.
  apply (zlist_ext 0); [unfold SURF; rewrite zlen_map, zlen_range; lia|].
  intros k Hk. rewrite Ho by lia. rewrite (SURF_get w k _ eq_refl) by lia.
  change (1 <=? 2) with true. change (2 <=? 2) with true. cbv iota. unfold Y. reflexivity.
Qed.

(** ** The counter *)
Lemma carry c : 0 <= c ->
  (c + 1) mod 2 ^ 32 = (c mod 2 ^ 32 + 1) mod 2 ^ 32 /\
  (c + 1) / 2 ^ 32 = c / 2 ^ 32 + (if (c mod 2 ^ 32 + 1) mod 2 ^ 32 =? 0 then 1 else 0).
Proof.
  intros Hc. assert (D := Z.div_mod c (2 ^ 32) ltac:(lia)).
  assert (B := Z.mod_pos_bound c (2 ^ 32) ltac:(lia)).
  split; [now rewrite Zplus_mod_idemp_l|].
  set (q := c / 2 ^ 32) in *. set (r := c mod 2 ^ 32) in *.
  destruct (Z.eq_dec r (2 ^ 32 - 1)) as [E|E].
  - rewrite E. change ((2 ^ 32 - 1 + 1) mod 2 ^ 32 =? 0) with true. cbv iota.
    symmetry. apply (Z.div_unique _ _ _ 0); lia.
  - rewrite (Z.mod_small (r + 1)) by lia.
    replace (r + 1 =? 0) with false by (symmetry; apply Z.eqb_neq; lia).
    symmetry. apply (Z.div_unique _ _ _ (r + 1)); lia.
Qed.
Lemma counter_words_nest c :
  counter_words c = [c mod 2 ^ 32; c / 2 ^ 32 mod 2 ^ 32; c / 2 ^ 32 / 2 ^ 32 mod 2 ^ 32;
                     c / 2 ^ 32 / 2 ^ 32 / 2 ^ 32 mod 2 ^ 32; 0; 0; 0; 0; 0; 0; 0; 0].
Proof.
  unfold counter_words. rewrite !Z.div_div by lia. reflexivity.
Qed.
Lemma count_words c : 0 <= c ->
  wp (count_up (counter_words c)) (fun w => w = counter_words (c + 1)).
Proof.
  intros Hc. rewrite !counter_words_nest.
  destruct (carry c Hc) as [M0 D0].
  assert (H1 : 0 <= c / 2 ^ 32) by (apply Z.div_pos; lia).
  destruct (carry _ H1) as [M1 D1].
  assert (H2 : 0 <= c / 2 ^ 32 / 2 ^ 32) by (apply Z.div_pos; lia).
  destruct (carry _ H2) as [M2 D2].
  assert (H3 : 0 <= c / 2 ^ 32 / 2 ^ 32 / 2 ^ 32) by (apply Z.div_pos; lia).
  destruct (carry _ H3) as [M3 _].
  rewrite D0, M0. clear D0 M0.
  set (c3 := c / 2 ^ 32 / 2 ^ 32 / 2 ^ 32) in *. set (c2 := c / 2 ^ 32 / 2 ^ 32) in *.
  set (c1 := c / 2 ^ 32) in *.
  unfold count_up, u32. change 4294967296 with (2 ^ 32).
  Local Ltac w12 := match goal with |- 0 <= _ < zlen ?l => change (zlen l) with 12; lia end.
  apply wp_bind, (wp_aget 0); [w12|]. apply wp_bind, wp_aset; [w12|].
  match goal with |- context [zget 0 ?l 0] => change (zget 0 l 0) with (c mod 2 ^ 32) end.
  apply wp_branch; intros E0; rewrite E0.
  2: { apply wp_ret. unfold zset. cbn [Z.to_nat firstn skipn app]. now rewrite Z.add_0_r. }
  rewrite D1, M1.
  apply wp_bind, (wp_aget 0); [w12|]. apply wp_bind, wp_aset; [w12|].
  match goal with |- context [zget 0 ?l 1] => change (zget 0 l 1) with (c1 mod 2 ^ 32) end.
  apply wp_branch; intros E1; rewrite E1.
  2: { apply wp_ret. rewrite Z.add_0_r. reflexivity. }
  rewrite D2, M2.
  apply wp_bind, (wp_aget 0); [w12|]. apply wp_bind, wp_aset; [w12|].
  match goal with |- context [zget 0 ?l 2] => change (zget 0 l 2) with (c2 mod 2 ^ 32) end.
  apply wp_branch; intros E2; rewrite E2.
  2: { apply wp_ret. rewrite Z.add_0_r. reflexivity. }
  rewrite M3.
  apply wp_bind, (wp_aget 0); [w12|]. apply wp_aset; [w12|]. reflexivity.
Qed.
Lemma counter_words12 c : words12 (counter_words c).
Proof.
  split; [reflexivity|]. unfold counter_words, word.
  repeat constructor; try (apply Z.mod_pos_bound; lia); lia.
Qed.

(** ** randombytes *)
(** The state after [pos] bytes *)
Definition after (pos : Z) (st : surf_state) : Prop :=
  st_in st = counter_words ((pos + 7) / 8) /\ st_outleft st = (8 - pos mod 8) mod 8 /\ zlen (st_out st) = 8 /\
  (pos mod 8 <> 0 -> st_out st = SURF (counter_words (pos / 8 + 1))).
Lemma wp_surf_randombytes J st pos buf n : 0 <= pos -> 0 <= n -> zlen buf = n -> after pos st ->
  wp (surf_randombytes J st buf n) (fun r => after (pos + n) (fst r) /\ snd r = drawn surf_stream pos n).
Proof.
  intros Hp Hn Lb Hst. unfold surf_randombytes. apply wp_bind.
  apply (wp_while _ (fun k '(st, b, p, m) => after (pos + k) st /\ p = k /\ m = n - k /\ zlen b = n /\
           forall i, 0 <= i < k -> zget 0 b i = surf_stream (pos + i)) n).
  { lia. } { lia. }
  { rewrite Z.add_0_r, Z.sub_0_r. repeat (split; auto). intros; lia. }
  { clear st Hst buf Lb. intros k [[[st b] p] m] Hk [Hst [-> [-> [Lb Hb]]]].
    split; [apply Z.ltb_lt; lia|]. set (P := pos + k) in *.
    assert (HP : 0 <= P) by lia. assert (B := Z.mod_pos_bound P 8 ltac:(lia)).
    assert (D := Z.div_mod P 8 ltac:(lia)). destruct Hst as [Ei [El [Lo Eo]]].
    apply wp_bind.
    apply (wp_mono _ _ (fun st' => st_in st' = counter_words (P / 8 + 1) /\
             st_outleft st' = 8 - P mod 8 /\ st_out st' = SURF (counter_words (P / 8 + 1)))).
    { apply wp_branch; intros Eb.
      - apply Z.eqb_eq in Eb. rewrite El in Eb.
        assert (E0 : P mod 8 = 0).
        { destruct (Z.eq_dec (P mod 8) 0); auto. rewrite Z.mod_small in Eb; lia. }
        assert (Ec : (P + 7) / 8 = P / 8) by (symmetry; apply (Z.div_unique _ _ _ 7); lia).
        rewrite Ei, Ec. apply wp_bind. assert (0 <= P / 8) by (apply Z.div_pos; lia).
        eapply wp_mono; [apply count_words; lia|]. intros w ->.
        apply wp_bind. eapply wp_mono; [apply wp_surf; [apply counter_words12|exact Lo]|].
        intros o ->. apply wp_ret. cbn [st_in st_out st_outleft]. rewrite E0. auto.
      - apply Z.eqb_neq in Eb. rewrite El in Eb.
        assert (E0 : P mod 8 <> 0) by (intros E; rewrite E in Eb; now apply Eb).
        apply wp_ret. split; [|split; [|auto]].
        + rewrite Ei. f_equal. symmetry. apply (Z.div_unique _ _ _ (P mod 8 - 1)); lia.
        + rewrite El. apply Z.mod_small; lia. }
    clear st Ei El Lo Eo. intros st [Ei [El Eo]].
    apply wp_bind. apply wp_i32; [lia|].
    assert (Ls : zlen (SURF (counter_words (P / 8 + 1))) = 8) by (unfold SURF; rewrite zlen_map, zlen_range; lia).
    apply wp_bind, (wp_aget 0); [rewrite Eo, Ls; lia|]. apply wp_bind, wp_aset; [lia|]. apply wp_ret.
    assert (E1 : P + 1 = 8 * (P / 8) + (P mod 8 + 1)) by lia.
    split; [|split; [lia|split; [lia|split; [rewrite zlen_set; lia|]]]].
    - unfold after. cbn [st_in st_out st_outleft]. replace (pos + (k + 1)) with (P + 1) by lia.
      split; [|split; [|split; [now rewrite Eo|]]].
      + rewrite Ei. f_equal. apply (Z.div_unique _ _ _ (P mod 8)); lia.
      + rewrite El. destruct (Z.eq_dec (P mod 8) 7) as [E7|E7].
        * rewrite E7. replace (P + 1) with (0 + (P / 8 + 1) * 8) by lia. rewrite Z.mod_add by lia. reflexivity.
        * rewrite E1. replace (8 * (P / 8) + (P mod 8 + 1)) with (P mod 8 + 1 + P / 8 * 8) by lia.
          rewrite Z.mod_add by lia. rewrite (Z.mod_small (P mod 8 + 1)) by lia.
          rewrite (Z.mod_small (8 - (P mod 8 + 1))) by lia. lia.
      + intros E. rewrite Eo. do 2 f_equal. f_equal.
        destruct (Z.eq_dec (P mod 8) 7) as [E7|E7].
        * exfalso. apply E. replace (P + 1) with (0 + (P / 8 + 1) * 8) by lia. now rewrite Z.mod_add by lia.
        * apply (Z.div_unique _ _ _ (P mod 8 + 1)); lia.
    - intros i Hi. rewrite zget_set by lia. destruct (Z.eqb_spec i k) as [->|]; [|apply Hb; lia].
      rewrite Eo, El. fold P. unfold surf_stream, u8. change at_ with (@zget Z 0).
      now replace (8 - P mod 8 - 1) with (7 - P mod 8) by lia. }
  clear st Hst buf Lb. intros [[[st b] p] m] [Hst [-> [-> [Lb Hb]]]]. split; [apply Z.ltb_ge; lia|].
  apply wp_ret. cbn [fst snd]. split; auto.
  apply (zlist_ext 0); [unfold drawn; rewrite zlen_map, zlen_range; lia|].
  intros i Hi. rewrite Hb by lia. unfold drawn. rewrite zget_map_range by lia.
  unfold surf_stream. now rewrite Zmod_mod.
Qed.

Lemma after_start : after 0 surf_start.
Proof. repeat split. intros H; now elim H. Qed.
Lemma surf_calls_after J : forall bufs pos st, 0 <= pos -> after pos st ->
  val (surf_calls J st bufs) = Ok (dealt surf_stream pos (map (fun b => zlen b) bufs)).
Proof.
  intros bufs; revert J; induction bufs as [|b bufs IH]; intros J pos st Hp Hst; [reflexivity|].
  cbn [surf_calls map dealt]. apply wp_val. apply wp_bind.
  eapply wp_mono; [apply (wp_surf_randombytes _ st pos b (zlen b)); auto; apply zlen_nonneg|].
  intros [st' b'] [Hst' Eb]. cbn [fst snd] in *. subst b'. apply wp_bind.
  eapply wp_ok; [apply IH; [|exact Hst']|]; [pose proof (zlen_nonneg b); lia|].
  apply wp_ret. reflexivity.
Qed.

Lemma surf_calls_stream J bufs :
  val (surf_calls J surf_start bufs) = Ok (dealt surf_stream 0 (map (fun b => zlen b) bufs)).
Proof. apply surf_calls_after; [lia|apply after_start]. Qed.

Lemma drawn_app f pos a b : 0 <= a -> 0 <= b -> drawn f pos (a + b) = drawn f pos a ++ drawn f (pos + a) b.
Proof.
  intros. unfold drawn. rewrite range_app, map_app, map_map by lia. f_equal.
  apply map_ext. intros. do 2 f_equal. lia.
Qed.
Lemma concat_dealt f : forall (bufs : list (list Z)) pos,
  concat (dealt f pos (map (fun b => zlen b) bufs)) = drawn f pos (zlen (concat bufs)).
Proof.
  induction bufs as [|b bufs IH]; intros pos; [reflexivity|]. cbn [map dealt concat].
  rewrite IH, zlen_app, <- drawn_app by apply zlen_nonneg. reflexivity.
Qed.
Lemma surf_chunking J J' bufs bufs' :
  zlen (concat bufs) = zlen (concat bufs') ->
  exists outs outs',
    val (surf_calls J surf_start bufs) = Ok outs /\ val (surf_calls J' surf_start bufs') = Ok outs' /\
    concat outs = concat outs'.
Proof.
  intros E. eexists _, _. split; [apply surf_calls_stream|]. split; [apply surf_calls_stream|].
  now rewrite !concat_dealt, E.
Qed.
