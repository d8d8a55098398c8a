(** * Proofs for C72 *)

From Coq Require Import ZArith List Bool QArith Lia Lqa.
From Verif Require Import CSem CSemFacts ModelPython ModelBounds ModelGen ModelArith ModelA64 SpecPython ProofScalar ProofGen.
Import ListNotations.
Open Scope Z_scope.
Ltac Zify.zify_post_hook ::= idtac.

Lemma Qinv_out : (3329 * Qinv) mod 65536 = 65535. Proof. reflexivity. Qed.

Lemma lift_out x : lift_signed_i16 x = x - 65536 * ((x + 32768) / 65536).
Proof.
  unfold lift_signed_i16. change R with 65536. change (65536 / 2) with 32768.
  pose proof (Z.div_mod x 65536 ltac:(lia)) as E. pose proof (Z.mod_pos_bound x 65536 ltac:(lia)).
  set (k := x / 65536) in *. set (c := x mod 65536) in *.
  rewrite Z.geb_leb. destruct (32768 <=? c) eqn:L; [apply Z.leb_le in L|apply Z.leb_gt in L].
  - rewrite <- (Z.div_unique (x + 32768) 65536 (k + 1) (c - 32768)); lia.
  - rewrite <- (Z.div_unique (x + 32768) 65536 k (c + 32768)); lia.
Qed.

Lemma lift_range x : - 32768 <= lift_signed_i16 x <= 32767.
Proof.
  rewrite lift_out. pose proof (Z.div_mod (x + 32768) 65536 ltac:(lia)).
  pose proof (Z.mod_pos_bound (x + 32768) 65536 ltac:(lia)). lia.
Qed.

Lemma lift_mod x y : x mod 65536 = y mod 65536 -> lift_signed_i16 x = lift_signed_i16 y.
Proof. intros E. unfold lift_signed_i16. change R with 65536. now rewrite E. Qed.

Lemma lift_cong x : exists k, lift_signed_i16 x = x + 65536 * k.
Proof. exists (- ((x + 32768) / 65536)). rewrite lift_out. lia. Qed.

(** The division in montmul_neg is exact. *)
Lemma montmul_exact_div a b :
  65536 * montmul_neg a b = a * b + 3329 * lift_signed_i16 (a * montmul_neg_twiddle b).
Proof.
  unfold montmul_neg. change R with 65536. change Q with 3329.
  destruct (lift_cong (a * montmul_neg_twiddle b)) as [k ->]. unfold montmul_neg_twiddle. change R with 65536.
  pose proof (Z.div_mod (b * Qinv) 65536 ltac:(lia)) as E. set (m := b * Qinv / 65536) in *.
  set (t := (b * Qinv) mod 65536) in *.
  pose proof (Z.div_mod (3329 * Qinv) 65536 ltac:(lia)) as F. rewrite Qinv_out in F.
  set (n := 3329 * Qinv / 65536) in *.
  assert (X : a * b + 3329 * (a * t + 65536 * k) = 65536 * (3329 * k + a * b * (n + 1) - 3329 * a * m)).
  { replace t with (b * Qinv - 65536 * m) by lia.
    replace (a * b + 3329 * (a * (b * Qinv - 65536 * m) + 65536 * k))
      with (a * b + a * b * (3329 * Qinv) + 65536 * (3329 * k - 3329 * a * m)) by ring.
    rewrite F. ring. }
  rewrite X, (Z.mul_comm 65536 (3329 * k + _ - _)), Z.div_mul by lia. ring.
Qed.

Lemma montmul_product a b : (montmul_neg a b * 2 ^ 16) mod 3329 = (a * b) mod 3329.
Proof.
  change (2 ^ 16) with 65536. rewrite Z.mul_comm, montmul_exact_div.
  rewrite (Z.mul_comm 3329 (lift_signed_i16 _)). now rewrite Z.mod_add by lia.
Qed.

Lemma montmul_abs a b : 65536 * Z.abs (montmul_neg a b) <= Z.abs a * Z.abs b + 3329 * 32768.
Proof.
  pose proof (montmul_exact_div a b). pose proof (lift_range (a * montmul_neg_twiddle b)).
  rewrite <- Z.abs_mul. lia.
Qed.

Lemma montmul_zero b : montmul_neg 0 b = 0.
Proof. reflexivity. Qed.

Lemma montmul_bound a b : Z.abs b <= 1664 -> 10000 * Z.abs (montmul_neg a b) < 254 * Z.abs a + 5000 * 3329.
Proof.
  intros Hb. destruct (Z.eq_dec a 0) as [->|N]; [rewrite montmul_zero; lia|].
  pose proof (montmul_abs a b). assert (Z.abs a * Z.abs b <= Z.abs a * 1664) by nia. lia.
Qed.

(** Barrett and Montgomery *)
Lemma bar_mont div a b : barmul div a b = montmul_neg a (modq_even div (b * R)).
Proof.
  unfold barmul, barrett_twiddle, modq_even, round_even.
  set (t := round (halve (div (b * R) Q))). rewrite (Z.mul_comm 2 t), Z.div_mul by lia.
  set (bp := b * R - Q * (t * 2)).
  assert (65536 * (a * b - Q * sqrdmulh_i16 a t) = 65536 * montmul_neg a bp); [|lia].
  rewrite montmul_exact_div.
  assert (L : lift_signed_i16 (a * montmul_neg_twiddle bp) = lift_signed_i16 (2 * a * t)).
  { apply lift_mod. unfold montmul_neg_twiddle. change R with 65536. rewrite Zmult_mod_idemp_r.
    pose proof (Z.div_mod (3329 * Qinv) 65536 ltac:(lia)) as F. rewrite Qinv_out in F.
    set (n := 3329 * Qinv / 65536) in *.
    unfold bp. change R with 65536. change Q with 3329.
    replace (a * ((b * 65536 - 3329 * (t * 2)) * Qinv))
      with (a * b * Qinv * 65536 - 2 * a * t * (3329 * Qinv)) by ring.
    rewrite F. replace (a * b * Qinv * 65536 - 2 * a * t * (65536 * n + 65535))
      with (2 * a * t + (a * b * Qinv - 2 * a * t * (n + 1)) * 65536) by ring.
    now rewrite Z.mod_add by lia. }
  rewrite L, lift_out. unfold sqrdmulh_i16, bp. change R with 65536. change Q with 3329.
  change (2 ^ 15) with 32768. change (2 ^ 16) with 65536. ring.
Qed.

Lemma barmul_test_true div a b : barmul_test div a b = true.
Proof. unfold barmul_test. cbv zeta. rewrite bar_mont. apply Z.eqb_refl. Qed.

Lemma barmul_product div a b : barmul div a b mod 3329 = (a * b) mod 3329.
Proof.
  unfold barmul. change Q with 3329.
  replace (a * b - 3329 * sqrdmulh_i16 a (barrett_twiddle div b))
    with (a * b + (- sqrdmulh_i16 a (barrett_twiddle div b)) * 3329) by ring.
  now rewrite Z.mod_add by lia.
Qed.

Lemma twiddle_near div b : double_precision div -> Z.abs b < 2 ^ 37 ->
  Z.abs (2 * barrett_twiddle div b * 3329 - b * R) < 3329.
Proof.
  intros D Hb. change R with 65536. change (2 ^ 37) with 137438953472 in Hb.
  assert (N : Z.abs (b * 65536) < 2 ^ 53) by (change (2 ^ 53) with 9007199254740992; lia).
  apply (near_exact div); [exact D|exact N| |].
  - change 65536 with (2 * 32768). rewrite Z.mul_assoc, (Z.mul_comm b 2), <- Z.mul_assoc. now rewrite Z.even_mul.
  - pose proof (D (b * 65536) 3329 N ltac:(lia)) as Hd. unfold barrett_twiddle, round_even.
    change R with 65536. change Q with 3329.
    destruct (div (b * 65536) 3329) as [p s]. destruct Hd as [Hs _].
    rewrite (Z.mul_comm 2 (round _)), Z.div_mul by lia. cbn [fst snd]. unfold halve. cbn [fst snd].
    pose proof (round_near p (2 * s) ltac:(lia)). set (r := round (p, 2 * s)) in *.
    replace (2 * r * s) with (r * (2 * s)) by ring. lia.
Qed.

Lemma barmul_bound div a b : double_precision div -> Z.abs b < 2 ^ 37 ->
  10000 * Z.abs (barmul div a b) < 508 * Z.abs a + 5000 * 3329.
Proof.
  intros D Hb. rewrite bar_mont. destruct (Z.eq_dec a 0) as [->|N]; [rewrite montmul_zero; lia|].
  pose proof (montmul_abs a (modq_even div (b * R))) as M.
  pose proof (twiddle_near div b D Hb) as T.
  assert (B : Z.abs (modq_even div (b * R)) <= 3328).
  { revert T. unfold modq_even, barrett_twiddle, round_even. change Q with 3329.
    rewrite (Z.mul_comm 2 (round _)), Z.div_mul by lia. intros T. lia. }
  assert (Z.abs a * Z.abs (modq_even div (b * R)) <= Z.abs a * 3328) by nia. lia.
Qed.

Lemma twiddle_word div b : double_precision div -> Z.abs b <= 1664 -> barrett_twin b (barrett_twiddle div b).
Proof.
  intros D Hb. apply barrett_twin_bound; [exact Hb|]. rewrite (Z.mul_comm (2 ^ 16) b).
  apply twiddle_near; [exact D|]. change (2 ^ 37) with 137438953472. lia.
Qed.

(** The twin of a root is its Barrett twiddle. *)
Lemma twiddle_generated div root : double_precision div ->
  let (r, t) := prepare_root_for_barrett div root in t = barrett_twiddle div r.
Proof.
  intros D. destruct (barrett_out div root D) as [[_ C] [_ T]].
  destruct (prepare_root_for_barrett div root) as [r t]. cbn [fst snd] in *.
  rewrite (near_unique _ _ T). symmetry. apply near_unique. rewrite (Z.mul_comm (2 ^ 16) r).
  apply twiddle_near; [exact D|]. change (2 ^ 37) with 137438953472. lia.
Qed.

(** The instruction *)
Lemma sqrdmulh_word a b : - 2 ^ 15 <= a < 2 ^ 15 -> - 2 ^ 15 <= b < 2 ^ 15 -> a <> - 2 ^ 15 \/ b <> - 2 ^ 15 ->
  word_sem Sqrdmulh a b = sqrdmulh_i16 a b.
Proof.
  intros Ha Hb N. unfold word_sem, sqrdmulh_i16, sat16. change (2 ^ 15) with 32768 in *. change (2 ^ 16) with 65536.
  assert (P : - 1073741824 < a * b + 1 /\ a * b < 1073741824 - 16384) by nia.
  assert (- 32768 <= (2 * a * b + 32768) / 65536) by (apply Z.div_le_lower_bound; lia).
  assert ((2 * a * b + 32768) / 65536 < 32768) by (apply Z.div_lt_upper_bound; lia).
  lia.
Qed.

Lemma s16_diff x y : s16 (s16 x - s16 y) = s16 (x - y).
Proof.
  assert (E : forall z, exists k, s16 z = z + k * 65536).
  { intros z. unfold s16. exists (- ((z + 32768) / 65536)). pose proof (Z.div_mod (z + 32768) 65536 ltac:(lia)). lia. }
  destruct (E x) as [k ->], (E y) as [m ->]. unfold s16.
  replace (x + k * 65536 - (y + m * 65536) + 32768) with (x - y + 32768 + (k - m) * 65536) by lia.
  now rewrite Z.mod_add by lia.
Qed.

Lemma barmul_word div a b : double_precision div -> - 2 ^ 15 <= a < 2 ^ 15 -> Z.abs b <= 1664 ->
  word_sem Sub (word_sem Mul a b) (word_sem Mul (word_sem Sqrdmulh a (barrett_twiddle div b)) 3329) = barmul div a b.
Proof.
  intros D Ha Hb. pose proof (twiddle_word div b D Hb) as [T T2].
  change (2 ^ 16) with 65536 in T2.
  rewrite sqrdmulh_word; [|exact Ha|exact T|right; change (2 ^ 15) with 32768; lia].
  pose proof (barmul_bound div a b D) as B. change (2 ^ 37) with 137438953472 in B. specialize (B ltac:(lia)).
  change (2 ^ 15) with 32768 in *.
  cbn [word_sem]. unfold barmul in *. cbv zeta in *. change Q with 3329 in *.
  set (s := sqrdmulh_i16 a (barrett_twiddle div b)) in *.
  rewrite s16_diff, (Z.mul_comm s 3329). apply s16_id. lia.
Qed.

(** fqmul of the C code *)
Lemma lift_s16 x : lift_signed_i16 x = s16 x.
Proof.
  rewrite lift_out. unfold s16. pose proof (Z.div_mod (x + 32768) 65536 ltac:(lia)). lia.
Qed.

Lemma fqmul_montmul a b : - 2 ^ 15 <= a < 2 ^ 15 -> Z.abs b <= 1664 ->
  exists r, val (fqmul a b) = Ok r /\
    (r = montmul_neg a b \/ (a * b) mod 2 ^ 16 = 2 ^ 15 /\ r = montmul_neg a b + 3329).
Proof.
  intros Ha Hb. change (2 ^ 15) with 32768 in *. change (2 ^ 16) with 65536.
  apply wp_ex, wp_fqmul; [lia|lia|].
  pose proof (mont_exact (a * b)) as E1. pose proof (montmul_exact_div a b) as E2.
  rewrite lift_s16 in E2. unfold mont_t in E1.
  assert (S : s16 (a * montmul_neg_twiddle b) = s16 (- (a * b * 62209))).
  { rewrite <- !lift_s16. apply lift_mod. unfold montmul_neg_twiddle. change R with 65536.
    rewrite Zmult_mod_idemp_r. change Qinv with 3327.
    replace (a * (b * 3327)) with (- (a * b * 62209) + a * b * 65536) by ring. now rewrite Z.mod_add by lia. }
  rewrite S in E2. set (x := a * b) in *.
  pose proof (s16_range (x * 62209)) as G.
  assert (exists k, s16 (x * 62209) = x * 62209 + k * 65536) as (k & K).
  { unfold s16. exists (- ((x * 62209 + 32768) / 65536)).
    pose proof (Z.div_mod (x * 62209 + 32768) 65536 ltac:(lia)). lia. }
  destruct (Z.eq_dec (s16 (x * 62209)) (-32768)) as [M|M].
  - right. split.
    + assert (X : x = 32768 + (- 1665 - 3329 * k - 3160 * x) * 65536) by lia.
      rewrite X, Z.mod_add by lia. reflexivity.
    + assert (s16 (- (x * 62209)) = -32768); [|lia].
      replace (- (x * 62209)) with (32768 + k * 65536) by lia. unfold s16.
      replace (32768 + k * 65536 + 32768) with (0 + (k + 1) * 65536) by lia. now rewrite Z.mod_add by lia.
  - left. assert (s16 (- (x * 62209)) = - s16 (x * 62209)); [|lia].
    rewrite K. replace (- (x * 62209)) with (- (x * 62209 + k * 65536) + k * 65536) by lia.
    unfold s16 at 1. rewrite <- K. replace (- s16 (x * 62209) + k * 65536 + 32768) with (- s16 (x * 62209) + 32768 + k * 65536) by lia.
    rewrite Z.mod_add, Z.mod_small by lia. lia.
Qed.

(** Layers *)
Lemma funciter_S {A} (f : A -> A) n : forall x, funciter f (S n) x = f (funciter f n x).
Proof. induction n as [|n IH]; intros x; [reflexivity|]. change (funciter f (S (S n)) x) with (funciter f (S n) (f x)). now rewrite IH. Qed.

Lemma bound_inject (N m a : Z) : 10000 * m < N * a + 5000 * 3329 ->
  (inject_Z m <= (N # 10000) * inject_Z a + (3329 # 2))%Q.
Proof.
  intros H. unfold Qle, Qplus, Qmult, inject_Z. cbn [Qnum Qden]. lia.
Qed.

Lemma layers_bound mul (ok : Z -> Prop) N : 0 <= N ->
  (forall a t, ok t -> 10000 * Z.abs (mul a t) < N * Z.abs a + 5000 * 3329) ->
  forall n f g c, layers mul ok n f g -> (forall i, Z.abs (f i) <= c) ->
  forall i, (inject_Z (Z.abs (g i)) <= 3329 * ntt_layer_bound (N # 10000) n c)%Q.
Proof.
  intros HN Hmul n f g c L Hf. unfold ntt_layer_bound. change (inject_Z ModelBounds.Q) with (3329 # 1)%Q.
  induction L as [f|n f g h L IH Ly]; intros i.
  - cbn [funciter]. specialize (Hf i). rewrite Zle_Qle in Hf. apply (Qle_trans _ _ _ Hf).
    apply Qle_lteq. right. field.
  - rewrite funciter_S. unfold ntt_layer_bound_growth at 1.
    set (B := funciter (ntt_layer_bound_growth (N # 10000)) n (inject_Z c / (3329 # 1))%Q) in *.
    specialize (IH Hf). destruct (Ly i) as (j & k & t & Ht & E).
    pose proof (IH j) as Hj. pose proof (IH k) as Hk.
    pose proof (bound_inject _ _ _ (Hmul (g k) t Ht)) as Hm.
    assert (T : Z.abs (h i) <= Z.abs (g j) + Z.abs (mul (g k) t)) by lia.
    rewrite Zle_Qle in T. rewrite inject_Z_plus in T.
    assert (F : ((N # 10000) * inject_Z (Z.abs (g k)) <= (N # 10000) * (3329 * B))%Q).
    { rewrite (Qmult_comm (N # 10000) (inject_Z _)), (Qmult_comm (N # 10000) (3329 * B)).
      apply Qmult_le_compat_r; [exact Hk|]. unfold Qle. cbn. lia. }
    revert T Hj Hm F. set (x := inject_Z (Z.abs (h i))). set (y := inject_Z (Z.abs (g j))).
    set (z := inject_Z (Z.abs (mul (g k) t))). set (w := ((N # 10000) * inject_Z (Z.abs (g k)))%Q).
    set (F := (N # 10000)%Q). clearbody x y z w B F. intros. nra.
Qed.

Lemma barmul_layers div n f g c : double_precision div ->
  layers (barmul div) (fun t => Z.abs t < 2 ^ 37) n f g -> (forall i, Z.abs (f i) <= c) ->
  forall i, (inject_Z (Z.abs (g i)) <= 3329 * ntt_layer_bound (508 # 10000) n c)%Q.
Proof.
  intros D. apply layers_bound; [lia|]. intros a t Ht. now apply barmul_bound.
Qed.

Lemma montmul_layers n f g c :
  layers montmul_neg (fun t => Z.abs t <= 1664) n f g -> (forall i, Z.abs (f i) <= c) ->
  forall i, (inject_Z (Z.abs (g i)) <= 3329 * ntt_layer_bound (254 # 10000) n c)%Q.
Proof. apply layers_bound; [lia|]. intros a t Ht. now apply montmul_bound. Qed.

Lemma barmul_seven : (3329 * barmul_ntt_layer_bound < 18295)%Q. Proof. vm_compute. reflexivity. Qed.

Lemma barmul_ntt div f g : double_precision div ->
  layers (barmul div) (fun t => Z.abs t < 2 ^ 37) 7 f g -> (forall i, Z.abs (f i) <= 3329) ->
  forall i, Z.abs (g i) < 18295.
Proof.
  intros D L Hf i. pose proof (barmul_layers div 7 f g 3329 D L Hf i) as B.
  pose proof barmul_seven as S. unfold barmul_ntt_layer_bound in S. change ModelBounds.Q with 3329 in S.
  rewrite Zlt_Qlt. change (inject_Z 18295) with (18295 # 1)%Q. exact (Qle_lt_trans _ _ _ B S).
Qed.

(** The bounds of the comments in reduce.c *)
Lemma mont_scaled a N D : 0 < D -> Z.abs a * D < 3329 * N ->
  2 ^ 17 * D * Z.abs (mont a) < 3329 * (2 * N + 2 ^ 16 * D).
Proof.
  intros HD Ha. change (2 ^ 17) with 131072. change (2 ^ 16) with 65536.
  pose proof (mont_exact a). pose proof (mont_t_range a).
  assert (65536 * Z.abs (mont a) <= Z.abs a + 3329 * 32768) by lia.
  assert (D * (65536 * Z.abs (mont a)) <= D * (Z.abs a + 3329 * 32768)) by nia.
  replace (131072 * D * Z.abs (mont a)) with (2 * (D * (65536 * Z.abs (mont a)))) by ring.
  replace (D * (Z.abs a + 3329 * 32768)) with (Z.abs a * D + 109084672 * D) in * by ring. lia.
Qed.

Lemma reduce_bound a N D : Z.abs a <= 2 ^ 31 - 1 - 2 ^ 15 * 3329 -> 0 < D -> Z.abs a * D < 3329 * N ->
  exists r, val (montgomery_reduce_generic a) = Ok r /\ 2 ^ 17 * D * Z.abs r < 3329 * (2 * N + 2 ^ 16 * D).
Proof.
  intros H HD Ha. change (2 ^ 31 - 1 - 2 ^ 15 * 3329) with 2038398975 in H.
  apply wp_ex, wp_montgomery_reduce_generic; [exact H|]. now apply mont_scaled.
Qed.

Lemma fqmul_scaled a t N D : - 2 ^ 15 <= a < 2 ^ 15 -> 2 * Z.abs t < 3329 -> 0 < D -> Z.abs a * D < 3329 * N ->
  exists r, val (fqmul a t) = Ok r /\ 10000 * D * Z.abs r < 3329 * (254 * N + 5000 * D).
Proof.
  intros H Ht HD Ha. change (2 ^ 15) with 32768 in H. apply wp_ex, wp_fqmul; [lia|lia|].
  assert (P : Z.abs (a * t) * (1 * D) < 3329 * (1664 * N)).
  { rewrite Z.abs_mul. assert (Z.abs t * (Z.abs a * D) <= 1664 * (Z.abs a * D)) by nia. lia. }
  pose proof (mont_scaled (a * t) (1664 * N) D HD ltac:(lia)) as B.
  change (2 ^ 17) with 131072 in B. change (2 ^ 16) with 65536 in B.
  assert (0 < N) by nia.
  set (x := D * Z.abs (mont (a * t))) in *.
  replace (131072 * D * Z.abs (mont (a * t))) with (131072 * x) in B by (unfold x; ring).
  replace (10000 * D * Z.abs (mont (a * t))) with (10000 * x) by (unfold x; ring). lia.
Qed.

Lemma reduce_product_scaled a t N D : - 2 ^ 15 <= a < 2 ^ 15 -> Z.abs t < 3329 -> 0 < D -> Z.abs a * D < 3329 * N ->
  exists r, val (montgomery_reduce_generic (a * t)) = Ok r /\ 10000 * D * Z.abs r < 3329 * (508 * N + 5000 * D).
Proof.
  intros H Ht HD Ha. change (2 ^ 15) with 32768 in H.
  apply wp_ex, wp_montgomery_reduce_generic; [nia|].
  assert (P : Z.abs (a * t) * (1 * D) < 3329 * (3328 * N)).
  { rewrite Z.abs_mul. assert (Z.abs t * (Z.abs a * D) <= 3328 * (Z.abs a * D)) by nia. lia. }
  pose proof (mont_scaled (a * t) (3328 * N) D HD ltac:(lia)) as B.
  change (2 ^ 17) with 131072 in B. change (2 ^ 16) with 65536 in B.
  assert (0 < N) by nia.
  set (x := D * Z.abs (mont (a * t))) in *.
  replace (131072 * D * Z.abs (mont (a * t))) with (131072 * x) in B by (unfold x; ring).
  replace (10000 * D * Z.abs (mont (a * t))) with (10000 * x) by (unfold x; ring). lia.
Qed.

Lemma factor_refuted : exists a t, In t zetas /\ Z.abs a <= 3329 /\
  204 * Z.abs a + 5000 * 3329 < 10000 * Z.abs (montmul_neg a t) /\ val (fqmul a t) = Ok (montmul_neg a t).
Proof.
  exists (-3239), (-1530). split; [|vm_compute; repeat split; discriminate].
  vm_compute. repeat (left; reflexivity) || right. 
Qed.

Lemma layer_refuted : exists f g, (forall i, Z.abs (f i) <= 3329) /\
  layer montmul_neg (fun t => In t zetas) f g /\
  exists i, (3329 * ntt_layer_bound (204 # 10000) 1 3329 < inject_Z (Z.abs (g i)))%Q.
Proof.
  exists (fun i => match i with O => 3329 | _ => -3239 end), (fun _ => 3329 + montmul_neg (-3239) (-1530)).
  split; [intros [|i]; vm_compute; discriminate|]. split; [|exists O; vm_compute; reflexivity].
  intros i. exists O, 1%nat, (-1530). split; [|left; reflexivity].
  apply (nth_In zetas 0 (n := 113)). vm_compute. repeat constructor.
Qed.
