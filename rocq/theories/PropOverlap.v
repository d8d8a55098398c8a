(** * C76: addition, subtraction and multiplication of overlapping polynomials

    The functions go through the coefficients from the first to the last. So the result may
    begin where another argument begins or before, but not further inside it. *)

From Coq Require Import ZArith List Bool Lia.
From Verif Require Import CSem ModelArith ModelKem ModelInPlace ModelOverlap Spec202 Spec203 SpecLink SpecMem
  CSemFacts ProofMul ProofOverlap.
Import ListNotations.
Open Scope Z_scope.

Theorem C76_add : forall m r b xs ys,
  zlen xs = 256 -> zlen ys = 256 -> contains m r xs -> contains m b ys ->
  r <= b \/ b + 256 <= r ->
  (forall i, 0 <= i < 256 -> - 2 ^ 15 <= at_ xs i + at_ ys i < 2 ^ 15) ->
  exists m', val (poly_add_in m r b) = Ok m' /\
    forall x, m' x = overwrite m [(r, map (fun i => at_ xs i + at_ ys i) (range 256))] x.
Proof. exact poly_add_overlap. Qed.
Print Assumptions C76_add.

Theorem C76_sub : forall m r b xs ys,
  zlen xs = 256 -> zlen ys = 256 -> contains m r xs -> contains m b ys ->
  r <= b \/ b + 256 <= r ->
  (forall i, 0 <= i < 256 -> - 2 ^ 15 <= at_ xs i - at_ ys i < 2 ^ 15) ->
  exists m', val (poly_sub_in m r b) = Ok m' /\
    forall x, m' x = overwrite m [(r, map (fun i => at_ xs i - at_ ys i) (range 256))] x.
Proof. exact poly_sub_overlap. Qed.
Print Assumptions C76_sub.

(** The k polynomials of a vector follow each other in memory. *)
Theorem C76_polyvec_add : forall p m r b xs ys, let n := 256 * k (set_of p) in
  zlen xs = n -> zlen ys = n -> contains m r xs -> contains m b ys ->
  r <= b \/ b + n <= r ->
  (forall i, 0 <= i < n -> - 2 ^ 15 <= at_ xs i + at_ ys i < 2 ^ 15) ->
  exists m', val (polyvec_add_in p m r b) = Ok m' /\
    forall x, m' x = overwrite m [(r, map (fun i => at_ xs i + at_ ys i) (range n))] x.
Proof. exact polyvec_add_overlap. Qed.
Print Assumptions C76_polyvec_add.

(** The product may be written over either factor. The cache is read half as fast as the
    product is written, so the product has to begin 127 coefficients before it. *)
Theorem C76_basemul : forall m r a b c xs ys cs c0,
  accessible m r 256 -> contains m a xs -> contains m b ys -> contains m c cs ->
  zlen xs = 256 -> zlen ys = 256 ->
  zlen c0 = 128 -> val (poly_mulcache_compute c0 ys) = Ok cs ->
  r <= a \/ a + 256 <= r -> r <= b \/ b + 256 <= r -> r + 127 <= c \/ c + 128 <= r ->
  (forall i, 0 <= i < 256 -> Z.abs (at_ xs i) < q) ->
  (forall i, 0 <= i < 256 -> - 2 ^ 15 <= at_ ys i < 2 ^ 15) ->
  exists m' d, val (poly_basemul_in m r a b c) = Ok m' /\ (forall x, m' x = overwrite m [(r, d)] x) /\
    zlen d = 256 /\ (forall i, 0 <= i < 256 -> Z.abs (at_ d i) < 2 * q) /\
    (forall i, 0 <= i < 256 -> (2 ^ 16 * at_ d i) mod q = at_ (MultiplyNTTs xs ys) i).
Proof. exact poly_basemul_overlap. Qed.
Print Assumptions C76_basemul.

(** The inner product of two vectors, over the first polynomial of either or before it. *)
Theorem C76_basemul_acc : forall J p m r a b c u v w, let K := k (set_of p) in
  accessible m r 256 -> zlen u = K -> zlen v = K -> zlen w = K ->
  (forall j, 0 <= j < K -> zlen (nth (Z.to_nat j) u []) = 256 /\ contains m (a + 256 * j) (nth (Z.to_nat j) u []) /\
     forall i, 0 <= i < 256 -> Z.abs (at_ (nth (Z.to_nat j) u []) i) < q) ->
  (forall j, 0 <= j < K -> zlen (nth (Z.to_nat j) v []) = 256 /\ contains m (b + 256 * j) (nth (Z.to_nat j) v []) /\
     forall i, 0 <= i < 256 -> Z.abs (at_ (nth (Z.to_nat j) v []) i) < 8 * q) ->
  (forall j, 0 <= j < K -> contains m (c + 128 * j) (nth (Z.to_nat j) w []) /\
     exists c0, zlen c0 = 128 /\ val (poly_mulcache_compute c0 (nth (Z.to_nat j) v [])) = Ok (nth (Z.to_nat j) w [])) ->
  r <= a \/ a + 256 * K <= r -> r <= b \/ b + 256 * K <= r -> r + 128 <= c \/ c + 128 * K <= r ->
  exists m' d, val (polyvec_basemul_acc_in J p m r a b c) = Ok m' /\ (forall x, m' x = overwrite m [(r, d)] x) /\
    zlen d = 256 /\ (forall i, 0 <= i < 256 -> (2 ^ 16 * at_ d i) mod q = at_ (dot u v) i).
Proof. exact polyvec_basemul_acc_overlap. Qed.
Print Assumptions C76_basemul_acc.

(** The cache of a polynomial is written half as fast as the polynomial is read. *)
Theorem C76_mulcache : forall m x a ys,
  accessible m x 128 -> zlen ys = 256 -> contains m a ys ->
  (forall i, 0 <= i < 256 -> - 2 ^ 15 <= at_ ys i < 2 ^ 15) -> x <= a + 2 \/ a + 256 <= x ->
  exists m' c, val (poly_mulcache_compute_in m x a) = Ok m' /\ (forall y, m' y = overwrite m [(x, c)] y) /\
    zlen c = 128 /\ (forall i, 0 <= i < 128 -> Z.abs (at_ c i) < q) /\
    (forall i, 0 <= i < 128 -> at_ c i mod q = (at_ ys (2 * i + 1) * zeta ^ (2 * BitRev7 i + 1)) mod q).
Proof. exact mulcache_overlap. Qed.
Print Assumptions C76_mulcache.

(** For every other overlap the sum and the difference are wrong for some polynomials: that
    they are right wherever the arguments lie is false. *)
Theorem C76_add_refuted : forall r b, b < r < b + 256 -> exists m xs ys,
  zlen xs = 256 /\ zlen ys = 256 /\ contains m r xs /\ contains m b ys /\
  (forall i, 0 <= i < 256 -> - 2 ^ 15 <= at_ xs i + at_ ys i < 2 ^ 15) /\
  exists m', val (poly_add_in m r b) = Ok m' /\
    exists x, m' x <> overwrite m [(r, map (fun i => at_ xs i + at_ ys i) (range 256))] x.
Proof. exact poly_add_overlap_wrong. Qed.
Print Assumptions C76_add_refuted.

Theorem C76_sub_refuted : forall r b, b < r < b + 256 -> exists m xs ys,
  zlen xs = 256 /\ zlen ys = 256 /\ contains m r xs /\ contains m b ys /\
  (forall i, 0 <= i < 256 -> - 2 ^ 15 <= at_ xs i - at_ ys i < 2 ^ 15) /\
  exists m', val (poly_sub_in m r b) = Ok m' /\
    exists x, m' x <> overwrite m [(r, map (fun i => at_ xs i - at_ ys i) (range 256))] x.
Proof. exact poly_sub_overlap_wrong. Qed.
Print Assumptions C76_sub_refuted.

(** Nor is the inner product right for all addresses: not over the second polynomial of a vector. *)
Theorem C76_basemul_acc_refuted : forall p, let K := k (set_of p) in exists J m r a b c u v w,
  a < r < a + 256 * K /\ (r <= b \/ b + 256 * K <= r) /\ (r + 128 <= c \/ c + 128 * K <= r) /\
  accessible m r 256 /\ zlen u = K /\ zlen v = K /\ zlen w = K /\
  (forall j, 0 <= j < K -> zlen (nth (Z.to_nat j) u []) = 256 /\ contains m (a + 256 * j) (nth (Z.to_nat j) u []) /\
     forall i, 0 <= i < 256 -> Z.abs (at_ (nth (Z.to_nat j) u []) i) < q) /\
  (forall j, 0 <= j < K -> zlen (nth (Z.to_nat j) v []) = 256 /\ contains m (b + 256 * j) (nth (Z.to_nat j) v []) /\
     forall i, 0 <= i < 256 -> Z.abs (at_ (nth (Z.to_nat j) v []) i) < 8 * q) /\
  (forall j, 0 <= j < K -> contains m (c + 128 * j) (nth (Z.to_nat j) w []) /\
     exists c0, zlen c0 = 128 /\ val (poly_mulcache_compute c0 (nth (Z.to_nat j) v [])) = Ok (nth (Z.to_nat j) w [])) /\
  exists m' y, val (polyvec_basemul_acc_in J p m r a b c) = Ok m' /\ m' r = Some y /\
    (2 ^ 16 * y) mod q <> at_ (dot u v) 0.
Proof. exact basemul_acc_overlap_wrong. Qed.
Print Assumptions C76_basemul_acc_refuted.

(** ** A memory of coefficients: 3 * x mod 1001 at each address x *)

Definition coefficients : memory := fun x => Some (3 * x mod 1001).
Definition stretch (a n : Z) : list Z := map (fun i => 3 * (a + i) mod 1001) (range n).
Lemma zlen_stretch a n : 0 <= n -> zlen (stretch a n) = n.
Proof. intros H. unfold stretch. now rewrite zlen_map, zlen_range. Qed.
Lemma at_stretch a n i : 0 <= i < n -> at_ (stretch a n) i = 3 * (a + i) mod 1001.
Proof. intros H. unfold stretch. change (at_ ?l i) with (zget 0 l i). now rewrite zget_map_range. Qed.
Lemma stretch_in a n : 0 <= n -> contains coefficients a (stretch a n).
Proof.
  intros H i Hi. rewrite zlen_stretch in Hi by exact H. unfold coefficients. f_equal. symmetry. now apply at_stretch.
Qed.
Lemma stretch_small a n i : 0 <= i < n -> 0 <= at_ (stretch a n) i < 1001.
Proof. intros H. rewrite at_stretch by exact H. apply Z.mod_pos_bound. lia. Qed.

(** A polynomial doubled in place, and one added to a polynomial that begins 100
    coefficients before *)
Example C76_add_case : forall b, b = 1000 \/ b = 1100 -> exists m',
  val (poly_add_in coefficients 1000 b) = Ok m' /\
  m' 1255 = Some (3 * 1255 mod 1001 + 3 * (b + 255) mod 1001) /\ m' 999 = coefficients 999.
Proof.
  intros b Hb. destruct (C76_add coefficients 1000 b (stretch 1000 256) (stretch b 256)) as (m' & V & E);
    try (apply zlen_stretch; lia); try (apply stretch_in; lia); try lia.
  - intros i Hi. pose proof (stretch_small 1000 256 i Hi). pose proof (stretch_small b 256 i Hi). lia.
  - exists m'. split; [exact V|]. rewrite !E. cbn [overwrite]. rewrite zlen_map, zlen_range by lia. cbn [Z.leb Z.ltb Z.add Z.compare Pos.compare andb].
    split; [|reflexivity]. change (1255 - 1000) with 255.
    fold (zget 0 (map (fun i => at_ (stretch 1000 256) i + at_ (stretch b 256) i) (range 256)) 255).
    rewrite zget_map_range by lia. rewrite !at_stretch by lia. reflexivity.
Qed.

(** A square written over its only factor, with the cache behind it *)
Example C76_basemul_case : exists m m' d, contains m 0 (stretch 0 256) /\
  val (poly_basemul_in m 0 0 0 256) = Ok m' /\ contains m' 0 d /\
  forall i, 0 <= i < 256 -> (2 ^ 16 * at_ d i) mod q = at_ (MultiplyNTTs (stretch 0 256) (stretch 0 256)) i.
Proof.
  assert (L : zlen (stretch 0 256) = 256) by (apply zlen_stretch; lia).
  assert (B : forall i, 0 <= i < 256 -> Z.abs (at_ (stretch 0 256) i) < q).
  { intros i Hi. pose proof (stretch_small 0 256 i Hi). unfold q. lia. }
  assert (B16 : forall i, 0 <= i < 256 -> - 2 ^ 15 <= at_ (stretch 0 256) i < 2 ^ 15).
  { intros i Hi. pose proof (stretch_small 0 256 i Hi). lia. }
  destruct (wp_ex _ _ (wp_mulcache False (repeat 0 128) (stretch 0 256) (fun x => zlen x = 128)
    eq_refl L (int16s_at _ L B16) (fun x H => proj1 H))) as (cs & E & Lc).
  set (m := overwrite coefficients [(256, cs)]).
  assert (Old : forall x, 0 <= x < 256 -> m x = coefficients x).
  { intros x Hx. unfold m. cbn [overwrite]. destruct (Z.leb_spec 256 x); [lia|reflexivity]. }
  assert (C0 : contains m 0 (stretch 0 256)).
  { intros i Hi. rewrite L in Hi. rewrite Old by lia. apply stretch_in; [lia|]. now rewrite L. }
  assert (C1 : contains m 256 cs).
  { intros i Hi. unfold m. cbn [overwrite]. destruct (Z.leb_spec 256 (256 + i)); [|lia].
    destruct (Z.ltb_spec (256 + i) (256 + zlen cs)); [|lia]. cbn [andb]. now replace (256 + i - 256) with i by lia. }
  destruct (C76_basemul m 0 0 0 256 (stretch 0 256) (stretch 0 256) cs (repeat 0 128))
    as (m' & d & V & S & Ld & _ & P); try assumption; try lia; try reflexivity.
  { intros x Hx. rewrite Old by lia. discriminate. }
  exists m, m', d. split; [exact C0|]. split; [exact V|]. split; [|exact P].
  intros i Hi. rewrite S. cbn [overwrite]. destruct (Z.leb_spec 0 (0 + i)); [|lia].
  destruct (Z.ltb_spec (0 + i) (0 + zlen d)); [|lia]. cbn [andb]. now replace (0 + i - 0) with i by lia.
Qed.

(** The inner product of a vector of ML-KEM-512 with itself, over its first polynomial *)
Example C76_basemul_acc_case : forall J, exists m m' d,
  contains m 0 (stretch 0 256) /\ contains m 256 (stretch 256 256) /\
  val (polyvec_basemul_acc_in J MLKEM512 m 0 0 0 512) = Ok m' /\ (forall x, m' x = overwrite m [(0, d)] x) /\
  zlen d = 256 /\ forall i, 0 <= i < 256 -> (2 ^ 16 * at_ d i) mod q =
    at_ (dot [stretch 0 256; stretch 256 256] [stretch 0 256; stretch 256 256]) i.
Proof.
  intros J. assert (L : forall a, zlen (stretch a 256) = 256) by (intros a; apply zlen_stretch; lia).
  assert (B : forall a i, 0 <= i < 256 -> Z.abs (at_ (stretch a 256) i) < 1001).
  { intros a i Hi. pose proof (stretch_small a 256 i Hi). lia. }
  assert (W : forall a, exists cs, val (poly_mulcache_compute (repeat 0 128) (stretch a 256)) = Ok cs /\ zlen cs = 128).
  { intros a. apply wp_ex. apply wp_mulcache; [reflexivity|apply L| |intros x H; apply H].
    apply int16s_at; [apply L|]. intros i Hi. specialize (B a i Hi). lia. }
  destruct (W 0) as (c0 & E0 & L0). destruct (W 256) as (c1 & E1 & L1).
  set (m := overwrite coefficients [(512, c0); (640, c1)]).
  assert (Old : forall x, x < 512 -> m x = coefficients x).
  { intros x Hx. unfold m. cbn [overwrite]. destruct (Z.leb_spec 512 x); [lia|]. destruct (Z.leb_spec 640 x); [lia|reflexivity]. }
  assert (C : forall a, a + 256 <= 512 -> contains m a (stretch a 256)).
  { intros a Ha i Hi. rewrite L in Hi. rewrite Old by lia. apply stretch_in; [lia|]. now rewrite L. }
  assert (C0 : contains m 512 c0).
  { intros i Hi. unfold m. cbn [overwrite]. destruct (Z.leb_spec 512 (512 + i)); [|lia].
    destruct (Z.ltb_spec (512 + i) (512 + zlen c0)); [|lia]. cbn [andb]. now replace (512 + i - 512) with i by lia. }
  assert (C1 : contains m 640 c1).
  { intros i Hi. unfold m. cbn [overwrite]. destruct (Z.leb_spec 512 (640 + i)); [|lia].
    destruct (Z.ltb_spec (640 + i) (512 + zlen c0)); [lia|]. cbn [andb]. destruct (Z.leb_spec 640 (640 + i)); [|lia].
    destruct (Z.ltb_spec (640 + i) (640 + zlen c1)); [|lia]. cbn [andb]. now replace (640 + i - 640) with i by lia. }
  destruct (C76_basemul_acc J MLKEM512 m 0 0 0 512 [stretch 0 256; stretch 256 256] [stretch 0 256; stretch 256 256] [c0; c1])
    as (m' & d & V & S & Ld & P); try reflexivity; try (left; lia).
  - intros x Hx. rewrite Old by lia. discriminate.
  - intros j Hj. change (k (set_of MLKEM512)) with 2 in Hj. unfold q. assert (j = 0 \/ j = 1) as [-> | ->] by lia.
    + split; [apply L|]. split; [apply (C 0); lia|]. intros i Hi. specialize (B 0 i Hi). cbn [nth Z.to_nat]. lia.
    + split; [apply L|]. split; [apply (C 256); lia|]. intros i Hi. specialize (B 256 i Hi).
      change (nth (Z.to_nat 1) [stretch 0 256; stretch 256 256] []) with (stretch 256 256). lia.
  - intros j Hj. change (k (set_of MLKEM512)) with 2 in Hj. unfold q. assert (j = 0 \/ j = 1) as [-> | ->] by lia.
    + split; [apply L|]. split; [apply (C 0); lia|]. intros i Hi. specialize (B 0 i Hi). cbn [nth Z.to_nat]. lia.
    + split; [apply L|]. split; [apply (C 256); lia|]. intros i Hi. specialize (B 256 i Hi).
      change (nth (Z.to_nat 1) [stretch 0 256; stretch 256 256] []) with (stretch 256 256). lia.
  - intros j Hj. change (k (set_of MLKEM512)) with 2 in Hj. assert (j = 0 \/ j = 1) as [-> | ->] by lia.
    + split; [exact C0|]. exists (repeat 0 128). split; [reflexivity|exact E0].
    + split; [exact C1|]. exists (repeat 0 128). split; [reflexivity|exact E1].
  - exists m, m', d. split; [apply C; lia|]. split; [apply C; lia|]. auto.
Qed.

(** The cache written over the polynomial, from its third coefficient on *)
Example C76_mulcache_case : exists m' c,
  val (poly_mulcache_compute_in coefficients 2 0) = Ok m' /\ (forall y, m' y = overwrite coefficients [(2, c)] y) /\
  zlen c = 128 /\ forall i, 0 <= i < 128 ->
    at_ c i mod q = (at_ (stretch 0 256) (2 * i + 1) * zeta ^ (2 * BitRev7 i + 1)) mod q.
Proof.
  destruct (C76_mulcache coefficients 2 0 (stretch 0 256)) as (m' & c & V & S & L & _ & P).
  - intros x Hx. discriminate.
  - apply zlen_stretch. lia.
  - apply stretch_in. lia.
  - intros i Hi. pose proof (stretch_small 0 256 i Hi). lia.
  - left. lia.
  - exists m', c. auto.
Qed.
