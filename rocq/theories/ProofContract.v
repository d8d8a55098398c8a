(** * The contracts in the headers: proofs *)

From Coq Require Import ZArith List Bool Lia ZifyBool.
From Verif Require Import ModelKeccak.
From Verif Require Import CSem ModelArith ModelIndcpa ModelRelease Spec202 Spec203 SpecLink SpecContract
  CSemFacts ProofBits ProofScalar ProofPack ProofSum ProofNttSpec ProofRing ProofNtt ProofMul ProofCbd
  ProofNoise ProofRej ProofMatrix ProofPke ProofKem ProofKeys.
Import ListNotations.
Open Scope Z_scope.
Ltac Zify.zify_post_hook ::= idtac.
Opaque NTT NTT_inv MultiplyNTTs poly_times poly_plus poly_minus poly_zero.

(** ** The vocabulary *)

Lemma returns_wp {A} (m : M A) (E : A -> Prop) : wp m E -> returns m E.
Proof. apply wp_ex. Qed.
Lemma runs_wp {A} (m : M A) (E : A -> Prop) : wpn True m E -> returns_or_runs m E.
Proof.
  unfold wpn, returns_or_runs, returns. destruct (val m); [right; eauto|tauto|auto].
Qed.

Lemma i16_len n a : int16_array n a -> zlen a = n. Proof. now intros []. Qed.
Lemma i16_int16s n a : int16_array n a -> int16s a. Proof. intros [_ H]. exact H. Qed.
Lemma u8_len n a : uint8_array n a -> zlen a = n. Proof. now intros []. Qed.
Lemma u8_bytes n a : uint8_array n a -> bytes a. Proof. intros [_ H]. exact H. Qed.
Lemma u8_of n a : zlen a = n -> bytes a -> uint8_array n a. Proof. split; auto. Qed.
Lemma i16_of b n a : b <= 32768 -> zlen a = n -> bounded b a -> int16_array n a.
Proof. intros Hb L H. split; auto. change (- 2 ^ 15) with (-32768). change (2 ^ 15) with 32768. eapply Forall_impl; [|exact H]. cbv beta. lia. Qed.
Lemma i16_of_u b n a : b <= 32768 -> zlen a = n -> ubounded b a -> int16_array n a.
Proof. intros Hb L H. apply (i16_of b); auto. now apply ubounded_bounded. Qed.

Lemma bound_u n B a : zlen a = n -> array_bound a 0 (n - 1) 0 (B - 1) -> ubounded B a.
Proof.
  intros L H. unfold ubounded. rewrite (Forall_zget _ 0), L. intros i Hi. specialize (H i ltac:(lia)).
  unfold zget. lia.
Qed.
Lemma bound_abs n B a : zlen a = n -> array_abs_bound a 0 (n - 1) (B - 1) -> bounded B a.
Proof.
  intros L H. unfold bounded. rewrite (Forall_zget _ 0), L. intros i Hi. specialize (H i ltac:(lia)).
  unfold zget. lia.
Qed.
Lemma u_bound n B a : zlen a = n -> ubounded (B + 1) a -> array_bound a 0 (n - 1) 0 B.
Proof.
  intros L H i Hi. unfold ubounded in H. rewrite (Forall_zget _ 0), L in H. specialize (H i ltac:(lia)).
  unfold zget in H. lia.
Qed.
Lemma abs_bound n B a : zlen a = n -> bounded (B + 1) a -> array_abs_bound a 0 (n - 1) B.
Proof.
  intros L H i Hi. unfold bounded in H. rewrite (Forall_zget _ 0), L in H. specialize (H i ltac:(lia)).
  unfold zget in H. lia.
Qed.

Lemma polys_each k v : poly_array k v -> each k (fun _ x => zlen x = 256 /\ int16s x) v.
Proof.
  intros [L H]. split; auto. intros i Hi. apply (proj1 (Forall_zget (int16_array 256) [] v)) with (i := i) in H; [|lia].
  destruct H as [L1 H1]. split; [exact L1|exact H1].
Qed.
Lemma caches_each k v : mulcache_array k v -> each k (fun _ x => zlen x = 128 /\ int16s x) v.
Proof.
  intros [L H]. split; auto. intros i Hi. apply (proj1 (Forall_zget (int16_array 128) [] v)) with (i := i) in H; [|lia].
  destruct H as [L1 H1]. split; [exact L1|exact H1].
Qed.
Lemma each_len k n P v : each k (fun _ x => zlen x = n /\ P x) v -> each k (fun _ x => zlen x = n) v.
Proof. apply each_weaken. tauto. Qed.
Lemma polys_vec k v : poly_array k v -> vec_of k v.
Proof. intros [L H]. split; auto. eapply Forall_impl; [|exact H]. now intros a []. Qed.
Lemma polys_bounded k B v : poly_array k v -> (forall j, 0 <= j <= k - 1 -> array_abs_bound (elt v j) 0 255 (B - 1)) ->
  each k (fun _ x => zlen x = 256 /\ bounded B x) v.
Proof.
  intros H Hb. destruct (polys_each _ _ H) as [L E]. split; auto. intros i Hi. destruct (E i Hi) as [Lx _].
  split; auto. apply (bound_abs 256); auto. apply Hb. lia.
Qed.
Lemma polys_ubounded k B v : poly_array k v -> (forall j, 0 <= j <= k - 1 -> array_bound (elt v j) 0 255 0 (B - 1)) ->
  Forall (ubounded B) v.
Proof.
  intros H Hb. destruct (polys_each _ _ H) as [L E]. apply (Forall_zget _ []). rewrite L. intros i Hi.
  destruct (E i Hi) as [Lx _]. apply (bound_u 256); auto. apply Hb. lia.
Qed.
(** the other way round *)
Lemma each_polys k B v : B <= 32768 -> each k (fun _ x => zlen x = 256 /\ bounded B x) v -> poly_array k v.
Proof.
  intros HB [L E]. split; auto. apply (Forall_zget _ []). rewrite L. intros i Hi. destruct (E i Hi).
  now apply (i16_of B).
Qed.
Lemma each_abs k B v : each k (fun _ x => zlen x = 256 /\ bounded (B + 1) x) v ->
  forall j, 0 <= j <= k - 1 -> array_abs_bound (elt v j) 0 255 B.
Proof. intros [L E] j Hj. destruct (E j ltac:(lia)). now apply (abs_bound 256). Qed.
Lemma each_u k B v : each k (fun _ x => zlen x = 256 /\ ubounded (B + 1) x) v ->
  forall j, 0 <= j <= k - 1 -> array_bound (elt v j) 0 255 0 B.
Proof. intros [L E] j Hj. destruct (E j ltac:(lia)). now apply (u_bound 256). Qed.
Lemma each_ub k B v : each k (fun _ x => zlen x = 256 /\ ubounded B x) v ->
  each k (fun _ x => zlen x = 256 /\ bounded B x) v.
Proof. apply each_weaken. intros i x _ []. split; auto. now apply ubounded_bounded. Qed.
Lemma each_impl k (P P' : Z -> list Z -> Prop) v : (forall i x, P i x -> P' i x) -> each k P v -> each k P' v.
Proof. intros H. apply each_weaken. auto. Qed.

Ltac i16 :=
  repeat match goal with
  | H : int16_array ?n ?a |- _ =>
      let L := fresh "L" in let B := fresh "B" in
      pose proof (i16_len _ _ H) as L; pose proof (i16_int16s _ _ H) as B; clear H
  | H : uint8_array ?n ?a |- _ =>
      let L := fresh "L" in let B := fresh "B" in
      pose proof (u8_len _ _ H) as L; pose proof (u8_bytes _ _ H) as B; clear H
  end.

(** ** reduce.h *)

Lemma c_montgomery_reduce a : - (2 * 3329 * 32768) < a -> a < 2 * 3329 * 32768 ->
  returns (montgomery_reduce a) (fun r => - (3 * 1665) < r /\ r < 3 * 1665).
Proof.
  intros. apply returns_wp, wp_montgomery_reduce; [lia|].
  pose proof (mont_exact a). pose proof (mont_t_range a). lia.
Qed.
Lemma c_barrett_reduce a : - 2 ^ 15 <= a < 2 ^ 15 ->
  returns (barrett_reduce a) (fun r => -1665 < r /\ r < 1665).
Proof.
  intros H. change (-32768 <= a < 32768) in H. apply returns_wp, wp_barrett_reduce; auto. pose proof (barr_bound a H). lia.
Qed.
Lemma c_fqmul a b : - 2 ^ 15 <= a < 2 ^ 15 -> -1665 < b -> b < 1665 ->
  returns (fqmul a b) (fun r => -3329 < r /\ r < 3329).
Proof.
  intros H H1 H2. change (-32768 <= a < 32768) in H. apply returns_wp, wp_fqmul; [lia|lia|].
  pose proof (mont_fqmul_bound a b ltac:(lia) ltac:(lia)). lia.
Qed.


(** ** poly.h: scalars *)

(** the formula of the contracts *)
Lemma Compress_formula d u : 0 <= u < 3329 -> 0 < d ->
  Compress d u = ((u * 2 ^ d + 3329 / 2) / 3329) mod 2 ^ d.
Proof.
  intros Hu Hd. unfold Compress, q. f_equal. change (3329 / 2) with 1664.
  replace (2 * 2 ^ d * u + 3329) with (1 + 2 * (u * 2 ^ d + 1664)) by ring.
  rewrite <- Z.div_div by lia. f_equal.
  replace (1 + 2 * (u * 2 ^ d + 1664)) with (1 + (u * 2 ^ d + 1664) * 2) by ring.
  rewrite Z.div_add by lia. reflexivity.
Qed.
Lemma c_compress d f u : (forall u, 0 <= u < 3329 -> f u = Compress d u) -> 0 < d -> 0 <= u <= 3328 ->
  f u < 2 ^ d /\ f u = ((u * 2 ^ d + 3329 / 2) / 3329) mod 2 ^ d.
Proof.
  intros H Hd Hu. rewrite H by lia. rewrite Compress_formula by lia. split; auto.
  apply Z.mod_pos_bound. apply Z.pow_pos_nonneg; lia.
Qed.
Lemma c_scalar_compress_d1 u : 0 <= u <= 3328 ->
  scalar_compress_d1 u < 2 /\ scalar_compress_d1 u = ((u * 2 + 3329 / 2) / 3329) mod 2.
Proof. apply (c_compress 1). apply compress_d1. lia. Qed.
Lemma c_scalar_compress_d4 u : 0 <= u <= 3328 ->
  scalar_compress_d4 u < 16 /\ scalar_compress_d4 u = ((u * 16 + 3329 / 2) / 3329) mod 16.
Proof. apply (c_compress 4). apply compress_d4. lia. Qed.
Lemma c_scalar_compress_d5 u : 0 <= u <= 3328 ->
  scalar_compress_d5 u < 32 /\ scalar_compress_d5 u = ((u * 32 + 3329 / 2) / 3329) mod 32.
Proof. apply (c_compress 5). apply compress_d5. lia. Qed.
Lemma c_scalar_compress_d10 u : 0 <= u <= 3328 ->
  scalar_compress_d10 u < 2 ^ 10 /\ scalar_compress_d10 u = ((u * 2 ^ 10 + 3329 / 2) / 3329) mod 2 ^ 10.
Proof. apply (c_compress 10). apply compress_d10. lia. Qed.
Lemma c_scalar_compress_d11 u : 0 <= u <= 3328 ->
  scalar_compress_d11 u < 2 ^ 11 /\ scalar_compress_d11 u = ((u * 2 ^ 11 + 3329 / 2) / 3329) mod 2 ^ 11.
Proof. apply (c_compress 11). apply compress_d11. lia. Qed.
Lemma c_decompress d f u : (forall u, 0 <= u < 2 ^ d -> val (f u) = Ok (Decompress d u)) -> 0 < d <= 12 -> 0 <= u < 2 ^ d ->
  returns (f u) (fun r => 0 <= r <= 3328).
Proof. intros H Hd Hu. eexists. split; [now apply H|]. pose proof (Decompress_range d u Hd Hu). lia. Qed.
Lemma c_scalar_decompress_d4 u : 0 <= u < 16 -> returns (scalar_decompress_d4 u) (fun r => 0 <= r <= 3328).
Proof. apply (c_decompress 4). apply decompress_correct. lia. Qed.
Lemma c_scalar_decompress_d5 u : 0 <= u < 32 -> returns (scalar_decompress_d5 u) (fun r => 0 <= r <= 3328).
Proof. apply (c_decompress 5). apply decompress_correct. lia. Qed.
Lemma c_scalar_decompress_d10 u : 0 <= u < 1024 -> returns (scalar_decompress_d10 u) (fun r => 0 <= r <= 3328).
Proof. apply (c_decompress 10). apply decompress_correct. lia. Qed.
Lemma c_scalar_decompress_d11 u : 0 <= u < 2048 -> returns (scalar_decompress_d11 u) (fun r => 0 <= r <= 3328).
Proof. apply (c_decompress 11). apply decompress_correct. lia. Qed.
Lemma c_signed_to_unsigned c : -3328 <= c <= 3328 ->
  returns (scalar_signed_to_unsigned_q c)
    (fun r => 0 <= r <= 3328 /\ r = c + (if c <? 0 then 1 else 0) * 3329).
Proof.
  intros H. apply returns_wp, wp_signed_to_unsigned; [lia|].
  pose proof (Z.mod_pos_bound c 3329). split; [lia|]. symmetry.
  destruct (Z.ltb_spec c 0); [apply (Z.mod_unique _ _ (-1))|apply (Z.mod_unique _ _ 0)]; lia.
Qed.

(** ** poly.h: polynomials *)

Lemma enc_ok d F n : 0 < d -> zlen F = 256 -> n = 32 * d -> uint8_array n (ByteEncode d F).
Proof.
  intros Hd L ->. apply u8_of; [apply zlen_ByteEncode; lia|].
  apply (bytes_ByteEncode _ _ (32 * d)); lia.
Qed.
Lemma c_poly_compress_du J p r a : uint8_array (32 * du (set_of p)) r -> int16_array 256 a ->
  array_bound a 0 255 0 3328 ->
  returns (poly_compress_du J p r a) (uint8_array (32 * du (set_of p))).
Proof.
  intros Hr Ha Hb. i16. apply returns_wp, wp_poly_compress_du; auto; [now apply (bound_u 256)|].
  apply enc_ok; auto; [destruct p; cbn; lia|now rewrite zlen_map].
Qed.
Lemma c_poly_compress_dv p r a : uint8_array (32 * dv (set_of p)) r -> int16_array 256 a ->
  array_bound a 0 255 0 3328 ->
  returns (poly_compress_dv p r a) (uint8_array (32 * dv (set_of p))).
Proof.
  intros Hr Ha Hb. i16. apply returns_wp, wp_poly_compress_dv; auto; [now apply (bound_u 256)|].
  apply enc_ok; auto; [destruct p; cbn; lia|now rewrite zlen_map].
Qed.
Lemma dec_ok d a : 0 < d <= 12 -> zlen a = 32 * d ->
  int16_array 256 (map (Decompress d) (fields d a)) /\
  array_bound (map (Decompress d) (fields d a)) 0 255 0 3328.
Proof.
  intros Hd L. assert (L1 : zlen (map (Decompress d) (fields d a)) = 256) by now rewrite zlen_map, zlen_fields.
  assert (B : ubounded 3329 (map (Decompress d) (fields d a))) by (apply Decompress_fields_range; lia).
  split; [apply (i16_of_u 3329); auto; lia|now apply (u_bound 256)].
Qed.
Lemma c_poly_decompress_du J p r a : int16_array 256 r -> uint8_array (32 * du (set_of p)) a ->
  returns (poly_decompress_du J p r a) (fun r => int16_array 256 r /\ array_bound r 0 255 0 3328).
Proof.
  intros Hr Ha. i16. apply returns_wp, wp_poly_decompress_du; auto. apply dec_ok; auto. destruct p; cbn; lia.
Qed.
Lemma c_poly_decompress_dv J p r a : int16_array 256 r -> uint8_array (32 * dv (set_of p)) a ->
  returns (poly_decompress_dv J p r a) (fun r => int16_array 256 r /\ array_bound r 0 255 0 3328).
Proof.
  intros Hr Ha. i16. apply returns_wp, wp_poly_decompress_dv; auto. apply dec_ok; auto. destruct p; cbn; lia.
Qed.
Lemma c_poly_tobytes r a : uint8_array 384 r -> int16_array 256 a -> array_bound a 0 255 0 3328 ->
  returns (poly_tobytes r a) (uint8_array 384).
Proof.
  intros Hr Ha Hb. i16. apply returns_wp, wp_poly_tobytes; auto; [now apply (bound_u 256)|].
  apply enc_ok; auto; lia.
Qed.
Lemma fields_ok a : zlen a = 384 -> int16_array 256 (fields 12 a) /\ array_bound (fields 12 a) 0 255 0 4095.
Proof.
  intros L. assert (B : ubounded 4096 (fields 12 a)) by (apply (fields_range 12); lia).
  pose proof (zlen_fields 12 a).
  split; [apply (i16_of_u 4096); auto; lia|now apply (u_bound 256)].
Qed.
Lemma c_poly_frombytes r a : int16_array 256 r -> uint8_array 384 a ->
  returns (poly_frombytes r a) (fun r => int16_array 256 r /\ array_bound r 0 255 0 4095).
Proof. intros Hr Ha. i16. apply returns_wp, wp_poly_frombytes; auto. now apply fields_ok. Qed.
Lemma c_poly_frommsg r msg : int16_array 256 r -> uint8_array 32 msg ->
  returns (poly_frommsg r msg) (fun r => int16_array 256 r /\ array_bound r 0 255 0 3328).
Proof. intros Hr Ha. i16. apply returns_wp, wp_poly_frommsg; auto. apply dec_ok; auto. lia. Qed.
Lemma c_poly_tomsg msg a : uint8_array 32 msg -> int16_array 256 a -> array_bound a 0 255 0 3328 ->
  returns (poly_tomsg msg a) (uint8_array 32).
Proof.
  intros Hr Ha Hb. i16. apply returns_wp, wp_poly_tomsg; auto; [now apply (bound_u 256)|].
  apply enc_ok; auto; [lia|now rewrite zlen_map].
Qed.

Lemma noise_ok eta seed x : eta = 2 \/ eta = 3 ->
  int16_array 256 (noise eta seed x) /\ array_abs_bound (noise eta seed x) 0 255 eta.
Proof.
  intros He. pose proof (bounded_noise eta (eta + 1) seed x He ltac:(lia)) as B.
  pose proof (zlen_noise eta seed x) as L.
  split; [apply (i16_of (eta + 1)); auto; lia|now apply (abs_bound 256)].
Qed.

Lemma c_poly_getnoise_eta1_4x {bo : byte_order} J p r0 r1 r2 r3 seed n0 n1 n2 n3 :
  int16_array 256 r0 -> int16_array 256 r1 -> int16_array 256 r2 -> int16_array 256 r3 ->
  uint8_array 32 seed -> 0 <= n0 < 256 -> 0 <= n1 < 256 -> 0 <= n2 < 256 -> 0 <= n3 < 256 ->
  returns (poly_getnoise_eta1_4x J p r0 r1 r2 r3 seed n0 n1 n2 n3) (fun '(r0, r1, r2, r3) =>
    (int16_array 256 r0 /\ array_abs_bound r0 0 255 (eta1 (set_of p))) /\
    (int16_array 256 r1 /\ array_abs_bound r1 0 255 (eta1 (set_of p))) /\
    (int16_array 256 r2 /\ array_abs_bound r2 0 255 (eta1 (set_of p))) /\
    (int16_array 256 r3 /\ array_abs_bound r3 0 255 (eta1 (set_of p)))).
Proof.
  intros. i16. destruct (eta_range p) as [He _]. apply returns_wp, wp_getnoise1; auto.
  repeat split; now apply noise_ok.
Qed.
Lemma c_poly_getnoise_eta2 {bo : byte_order} J p r seed n : int16_array 256 r -> uint8_array 32 seed -> 0 <= n < 256 ->
  returns (poly_getnoise_eta2 J p r seed n)
    (fun r => int16_array 256 r /\ array_abs_bound r 0 255 (eta2 (set_of p))).
Proof.
  intros. i16. destruct (eta_range p) as [_ He]. apply returns_wp, wp_getnoise2; auto. apply noise_ok; auto.
Qed.
Lemma c_poly_getnoise_eta1122_4x {bo : byte_order} J p r0 r1 r2 r3 seed n0 n1 n2 n3 :
  int16_array 256 r0 -> int16_array 256 r1 -> int16_array 256 r2 -> int16_array 256 r3 ->
  uint8_array 32 seed -> 0 <= n0 < 256 -> 0 <= n1 < 256 -> 0 <= n2 < 256 -> 0 <= n3 < 256 ->
  returns (poly_getnoise_eta1122_4x J p r0 r1 r2 r3 seed n0 n1 n2 n3) (fun '(r0, r1, r2, r3) =>
    (int16_array 256 r0 /\ array_abs_bound r0 0 255 (eta1 (set_of p))) /\
    (int16_array 256 r1 /\ array_abs_bound r1 0 255 (eta1 (set_of p))) /\
    (int16_array 256 r2 /\ array_abs_bound r2 0 255 (eta2 (set_of p))) /\
    (int16_array 256 r3 /\ array_abs_bound r3 0 255 (eta2 (set_of p)))).
Proof.
  intros. i16. destruct (eta_range p) as [He He2]. apply returns_wp, wp_getnoise1122; auto.
  repeat split; apply noise_ok; auto.
Qed.
Lemma c_poly_tomont r : int16_array 256 r ->
  returns (poly_tomont r) (fun r => int16_array 256 r /\ array_abs_bound r 0 255 3328).
Proof.
  intros. i16. apply returns_wp, wp_poly_tomont; auto. intros r' L' B' _.
  split; [apply (i16_of 3329); auto; lia|now apply (abs_bound 256)].
Qed.
Lemma cache_ok x a : is_cache x a -> int16_array 128 x.
Proof. intros (L & B & _). apply (i16_of 3329); auto. lia. Qed.
Lemma c_poly_mulcache_compute x a : int16_array 128 x -> int16_array 256 a ->
  returns (poly_mulcache_compute x a) (int16_array 128).
Proof. intros. i16. apply returns_wp, wp_mulcache; auto. intros x'. apply cache_ok. Qed.
Lemma residues_ok r : zlen r = 256 -> int16_array 256 (residues r) /\ array_bound (residues r) 0 255 0 3328.
Proof.
  intros L. destruct (residues_reduced r L) as [L' B'].
  split; [apply (i16_of_u 3329); auto; lia|now apply (u_bound 256)].
Qed.
Lemma c_poly_reduce r : int16_array 256 r ->
  returns (poly_reduce r) (fun r => int16_array 256 r /\ array_bound r 0 255 0 3328).
Proof. intros. i16. apply returns_wp, wp_poly_reduce; auto. now apply residues_ok. Qed.
Lemma c_poly_add r b : int16_array 256 r -> int16_array 256 b ->
  (forall i, 0 <= i <= 255 -> nth (Z.to_nat i) r 0 + nth (Z.to_nat i) b 0 <= 2 ^ 15 - 1) ->
  (forall i, 0 <= i <= 255 -> nth (Z.to_nat i) r 0 + nth (Z.to_nat i) b 0 >= - 2 ^ 15) ->
  returns (poly_add r b) (fun r' => int16_array 256 r' /\
    forall i, 0 <= i <= 255 -> nth (Z.to_nat i) r' 0 = nth (Z.to_nat i) r 0 + nth (Z.to_nat i) b 0).
Proof.
  intros Hr Hb H1 H2. i16. change (2 ^ 15) with 32768 in *. change (- 2 ^ 15) with (-32768) in *.
  assert (H : forall i, 0 <= i < 256 -> -32768 <= zget 0 r i + zget 0 b i < 32768).
  { intros i Hi. specialize (H1 i ltac:(lia)). specialize (H2 i ltac:(lia)). unfold zget. lia. }
  apply returns_wp, wp_poly_add; auto. split; [split|].
  - now rewrite zlen_map, zlen_range.
  - apply Forall_map_range. intros i Hi. now apply H.
  - intros i Hi. exact (zget_map_range (fun i => zget 0 r i + zget 0 b i) 0 i 256 ltac:(lia)).
Qed.
Lemma c_poly_sub r b : int16_array 256 r -> int16_array 256 b ->
  (forall i, 0 <= i <= 255 -> nth (Z.to_nat i) r 0 - nth (Z.to_nat i) b 0 <= 2 ^ 15 - 1) ->
  (forall i, 0 <= i <= 255 -> nth (Z.to_nat i) r 0 - nth (Z.to_nat i) b 0 >= - 2 ^ 15) ->
  returns (poly_sub r b) (fun r' => int16_array 256 r' /\
    forall i, 0 <= i <= 255 -> nth (Z.to_nat i) r' 0 = nth (Z.to_nat i) r 0 - nth (Z.to_nat i) b 0).
Proof.
  intros Hr Hb H1 H2. i16. change (2 ^ 15) with 32768 in *. change (- 2 ^ 15) with (-32768) in *.
  assert (H : forall i, 0 <= i < 256 -> -32768 <= zget 0 r i - zget 0 b i < 32768).
  { intros i Hi. specialize (H1 i ltac:(lia)). specialize (H2 i ltac:(lia)). unfold zget. lia. }
  apply returns_wp, wp_poly_sub; auto. split; [split|].
  - now rewrite zlen_map, zlen_range.
  - apply Forall_map_range. intros i Hi. now apply H.
  - intros i Hi. exact (zget_map_range (fun i => zget 0 r i - zget 0 b i) 0 i 256 ltac:(lia)).
Qed.

(** ** polyvec.h *)

Lemma K_k p : MLKEM_K p = k (set_of p). Proof. apply MLKEM_K_k. Qed.

Lemma c_polyvec_compress_du J p r a : let P := set_of p in
  uint8_array (32 * du P * k P) r -> poly_array (k P) a ->
  (forall j, 0 <= j <= k P - 1 -> array_bound (elt a j) 0 255 0 3328) ->
  returns (polyvec_compress_du J p r a) (uint8_array (32 * du P * k P)).
Proof.
  intros P Hr Ha Hb. pose proof (polys_vec _ _ Ha) as V. pose proof (polys_ubounded _ 3329 _ Ha Hb) as U. i16.
  unfold P in *. rewrite <- K_k in *. apply returns_wp, wp_polyvec_compress_du; auto.
  destruct V as [La Va]. change (du_ p) with (du (set_of p)).
  assert (Hd : 0 < du (set_of p)) by (destruct p; cbn; lia).
  assert (E : Forall (uint8_array (32 * du (set_of p)))
     (map (fun f => ByteEncode (du (set_of p)) (map (Compress (du (set_of p))) f)) a)).
  { apply Forall_map. eapply Forall_impl; [|exact Va]. intros f Hf. apply enc_ok; auto. now rewrite zlen_map. }
  apply u8_of.
  - rewrite (concat_const (32 * du (set_of p))); [rewrite zlen_map, La; reflexivity|lia|].
    eapply Forall_impl; [|exact E]. intros f [Hf _]. exact Hf.
  - apply Forall_concat. eapply Forall_impl; [|exact E]. intros f [_ Hf]. exact Hf.
Qed.
Lemma c_polyvec_tobytes p r a : let P := set_of p in
  uint8_array (384 * k P) r -> poly_array (k P) a ->
  (forall j, 0 <= j <= k P - 1 -> array_bound (elt a j) 0 255 0 3328) ->
  returns (polyvec_tobytes p r a) (uint8_array (384 * k P)).
Proof.
  intros P Hr Ha Hb. pose proof (polys_vec _ _ Ha) as V. pose proof (polys_ubounded _ 3329 _ Ha Hb) as U. i16.
  unfold P in *. rewrite <- K_k in *. apply returns_wp, wp_polyvec_tobytes; auto.
  destruct V as [La Va]. apply u8_of.
  - rewrite (concat_const 384); [rewrite zlen_map, La; reflexivity|lia|].
    apply Forall_map. eapply Forall_impl; [|exact Va]. intros f Hf. apply (u8_len _ _ (enc_ok 12 f 384 ltac:(lia) Hf eq_refl)).
  - apply Forall_concat. apply Forall_map. eapply Forall_impl; [|exact Va]. intros f Hf.
    apply (u8_bytes _ _ (enc_ok 12 f 384 ltac:(lia) Hf eq_refl)).
Qed.
Lemma polyvec_of K B f : 0 <= K -> (forall i, 0 <= i < K -> int16_array 256 (f i) /\ array_bound (f i) 0 255 0 B) ->
  poly_array K (map f (range K)) /\ forall j, 0 <= j <= K - 1 -> array_bound (elt (map f (range K)) j) 0 255 0 B.
Proof.
  intros HK H. split; [split|].
  - rewrite zlen_map, zlen_range; lia.
  - apply Forall_map_range. intros i Hi. now apply H.
  - intros j Hj. change (elt (map f (range K)) j) with (zget [] (map f (range K)) j).
    rewrite zget_map_range by lia. apply H. lia.
Qed.
Lemma c_polyvec_frombytes p r a : let P := set_of p in
  poly_array (k P) r -> uint8_array (384 * k P) a ->
  returns (polyvec_frombytes p r a) (fun r => poly_array (k P) r /\
    forall j, 0 <= j <= k P - 1 -> array_bound (elt r j) 0 255 0 4095).
Proof.
  intros P Hr Ha. apply polys_vec in Hr. i16. unfold P in *. rewrite <- K_k in *. pose proof (K_range p).
  apply returns_wp, wp_polyvec_frombytes; auto; [lia|]. apply polyvec_of; [lia|]. intros i Hi. apply fields_ok.
  rewrite zlen_slice by lia. lia.
Qed.
Lemma c_polyvec_decompress_du J p r a : let P := set_of p in
  poly_array (k P) r -> uint8_array (32 * du P * k P) a ->
  returns (polyvec_decompress_du J p r a) (fun r => poly_array (k P) r /\
    forall j, 0 <= j <= k P - 1 -> array_bound (elt r j) 0 255 0 3328).
Proof.
  intros P Hr Ha. apply polys_vec in Hr. i16. unfold P in *. rewrite <- K_k in *. pose proof (K_range p).
  assert (Hd : 0 < du (set_of p) <= 12) by (destruct p; cbn; lia).
  apply returns_wp, wp_polyvec_decompress_du; auto; [change (du_ p) with (du (set_of p)); lia|].
  change (du_ p) with (du (set_of p)).
  apply polyvec_of; [lia|]. intros i Hi. apply dec_ok; auto. rewrite zlen_slice by nia. lia.
Qed.
Ltac vecs := intros P; unfold P in *; clear P; rewrite <- K_k in *.
Lemma abs_ok k B B' v : B <= B' + 1 -> B' < 32767 -> each k (fun _ x => zlen x = 256 /\ bounded B x) v ->
  poly_array k v /\ forall j, 0 <= j <= k - 1 -> array_abs_bound (elt v j) 0 255 B'.
Proof.
  intros H1 H2 H. assert (E : each k (fun _ x => zlen x = 256 /\ bounded (B' + 1) x) v).
  { eapply each_impl; [|exact H]. cbv beta. intros _ x [L B0]. split; auto. now apply (bounded_weaken B). }
  split; [apply (each_polys _ (B' + 1)); auto; lia|now apply each_abs].
Qed.
Lemma c_polyvec_ntt p r : let P := set_of p in
  poly_array (k P) r -> (forall j, 0 <= j <= k P - 1 -> array_abs_bound (elt r j) 0 255 3328) ->
  returns (polyvec_ntt p r) (fun r => poly_array (k P) r /\
    forall j, 0 <= j <= k P - 1 -> array_abs_bound (elt r j) 0 255 (8 * 3329 - 1)).
Proof.
  vecs. intros Hr Hb. apply returns_wp, wp_polyvec_ntt; [now apply polys_bounded|].
  intros r' H. apply (abs_ok _ 20801); [lia|lia|]. eapply each_impl; [|exact H]. cbv beta. tauto.
Qed.
Lemma c_polyvec_invntt_tomont p r : let P := set_of p in poly_array (k P) r ->
  returns (polyvec_invntt_tomont p r) (fun r => poly_array (k P) r /\
    forall j, 0 <= j <= k P - 1 -> array_abs_bound (elt r j) 0 255 (8 * 3329 - 1)).
Proof.
  vecs. intros Hr. apply returns_wp, wp_polyvec_invntt; [now apply polys_each|].
  intros r' H. apply (abs_ok _ 1801); [lia|lia|]. eapply each_impl; [|exact H]. cbv beta. tauto.
Qed.
Lemma c_polyvec_mulcache_compute p x a : let P := set_of p in
  mulcache_array (k P) x -> poly_array (k P) a ->
  returns (polyvec_mulcache_compute p x a) (mulcache_array (k P)).
Proof.
  vecs. intros Hx Ha. apply returns_wp, wp_polyvec_mulcache.
  - eapply each_len, caches_each; eauto.
  - now apply polys_each.
  - intros x' [L H]. split; auto. apply (Forall_zget _ []). rewrite L. intros i Hi. eapply cache_ok, H; auto.
Qed.
Lemma c_polyvec_reduce p r : let P := set_of p in poly_array (k P) r ->
  returns (polyvec_reduce p r) (fun r => poly_array (k P) r /\
    forall j, 0 <= j <= k P - 1 -> array_bound (elt r j) 0 255 0 3328).
Proof.
  vecs. intros Hr. apply returns_wp, wp_polyvec_reduce; [now apply polys_each|].
  destruct (polys_each _ _ Hr) as [L E].
  assert (F : forall i, 0 <= i < MLKEM_K p -> int16_array 256 (zget [] (map residues r) i) /\
     array_bound (zget [] (map residues r) i) 0 255 0 3328).
  { intros i Hi. rewrite (zget_map _ []) by lia. apply residues_ok, E. auto. }
  split; [split|].
  - now rewrite zlen_map.
  - apply (Forall_zget _ []). rewrite zlen_map, L. intros i Hi. now apply F.
  - intros j Hj. apply F. lia.
Qed.
Lemma c_polyvec_tomont p r : let P := set_of p in poly_array (k P) r ->
  returns (polyvec_tomont p r) (fun r => poly_array (k P) r /\
    forall j, 0 <= j <= k P - 1 -> array_abs_bound (elt r j) 0 255 3328).
Proof.
  vecs. intros Hr. apply returns_wp, wp_polyvec_tomont; [now apply polys_each|].
  intros r' H. apply (abs_ok _ 3329); [lia|lia|]. eapply each_impl; [|exact H]. cbv beta. tauto.
Qed.
Lemma c_polyvec_add p r b : let P := set_of p in
  poly_array (k P) r -> poly_array (k P) b ->
  (forall j i, 0 <= j <= k P - 1 -> 0 <= i <= 255 ->
     nth (Z.to_nat i) (elt r j) 0 + nth (Z.to_nat i) (elt b j) 0 <= 2 ^ 15 - 1) ->
  (forall j i, 0 <= j <= k P - 1 -> 0 <= i <= 255 ->
     nth (Z.to_nat i) (elt r j) 0 + nth (Z.to_nat i) (elt b j) 0 >= - 2 ^ 15) ->
  returns (polyvec_add p r b) (fun r' => poly_array (k P) r' /\
    forall j i, 0 <= j <= k P - 1 -> 0 <= i <= 255 -> nth (Z.to_nat i) (elt r' j) 0
      = nth (Z.to_nat i) (elt r j) 0 + nth (Z.to_nat i) (elt b j) 0).
Proof.
  vecs. intros Hr Hb H1 H2. change (2 ^ 15) with 32768 in *. change (- 2 ^ 15) with (-32768) in *.
  destruct (polys_each _ _ Hr) as [Lr Er]. destruct (polys_each _ _ Hb) as [Lb Eb].
  set (F := fun j => map (fun i => zget 0 (zget [] r j) i + zget 0 (zget [] b j) i) (range 256)).
  assert (H : forall j i, 0 <= j < MLKEM_K p -> 0 <= i < 256 ->
     -32768 <= zget 0 (zget [] r j) i + zget 0 (zget [] b j) i < 32768).
  { intros j i Hj Hi. specialize (H1 j i ltac:(lia) ltac:(lia)). specialize (H2 j i ltac:(lia) ltac:(lia)).
    unfold elt in *. unfold zget. lia. }
  apply returns_wp. unfold polyvec_add.
  apply (wp_for_rel _ (fun j x => x = F j)); [exact Lr| |].
  - intros i s Hi Ls Es. destruct (Er i Hi) as [L1 _], (Eb i Hi) as [L2 _].
    do 2 (apply wp_bind, (wp_aget []); [lia|]). rewrite Es. apply wp_bind, wp_poly_add; auto.
    apply wp_aset; [lia|]. eexists; split; reflexivity.
  - intros r' [L' E']. split; [split; auto|].
    + apply (Forall_zget _ []). rewrite L'. intros i Hi. rewrite E' by auto. split; [unfold F; now rewrite zlen_map, zlen_range|].
      apply Forall_map_range. intros; now apply H.
    + intros j i Hj Hi. change (elt r' j) with (zget [] r' j). rewrite E' by lia.
      exact (zget_map_range (fun i => zget 0 (zget [] r j) i + zget 0 (zget [] b j) i) 0 i 256 ltac:(lia)).
Qed.

(** ** ntt.h and ntt.c *)

Lemma c_poly_ntt r : int16_array 256 r -> array_abs_bound r 0 255 3328 ->
  returns (poly_ntt r) (fun r => int16_array 256 r /\ array_abs_bound r 0 255 (8 * 3329 - 1)).
Proof.
  intros Hr Hb. i16. apply returns_wp, wp_poly_ntt; auto; [now apply (bound_abs 256)|]. intros r' L' B' _.
  assert (B2 : bounded 26632 r') by (apply (bounded_weaken 20801); auto; lia).
  split; [apply (i16_of 26632); auto; lia|now apply (abs_bound 256)].
Qed.
Lemma c_poly_invntt_tomont r : int16_array 256 r ->
  returns (poly_invntt_tomont r) (fun r => int16_array 256 r /\ array_abs_bound r 0 255 (8 * 3329 - 1)).
Proof.
  intros Hr. i16. apply returns_wp, wp_poly_invntt; auto. intros r' L' B' _.
  assert (B2 : bounded 26632 r') by (apply (bounded_weaken 1801); auto; lia).
  split; [apply (i16_of 26632); auto; lia|now apply (abs_bound 256)].
Qed.

Lemma array_of (f : Z -> Prop) (n : Z) r : zlen r = n -> (forall i, 0 <= i < n -> f (zget 0 r i)) -> Forall f r.
Proof. intros L H. apply (Forall_zget _ 0). now rewrite L. Qed.

Lemma c_ntt_butterfly_block r zeta start len bound :
  0 <= start < 256 -> 1 <= len <= 128 -> start + 2 * len <= 256 ->
  0 <= bound < 32767 - 3329 -> -1665 < zeta < 1665 -> int16_array 256 r ->
  array_abs_bound r 0 (start - 1) (bound + 3329) -> array_abs_bound r start 255 bound ->
  returns (ntt_butterfly_block r zeta start len) (fun r => int16_array 256 r /\
    array_abs_bound r 0 (start + 2 * len - 1) (bound + 3329) /\
    array_abs_bound r (start + 2 * len) 255 bound).
Proof.
  intros H1 H2 H3 H4 H5 Hr B1 B2. i16. apply returns_wp, (wp_bfly _ _ _ _ _ bound); auto; try lia.
  { intros i Hi. specialize (B2 i ltac:(lia)). unfold zget. lia. }
  intros r' L' V.
  assert (X : forall i, 0 <= i < 256 -> Z.abs (zget 0 r' i) <= (if i <? start + 2 * len then bound + 3329 else bound)).
  { intros i Hi. rewrite V by auto. unfold bfly. 
    assert (X0 : forall j, start <= j < start + 2 * len -> -bound <= zget 0 r j <= bound)
      by (intros j Hj; apply B2; lia).
    assert (M : forall j, start <= j < start + 2 * len -> Z.abs (mont (zget 0 r j * zeta)) <= 2496)
      by (intros j Hj; specialize (X0 j Hj); apply mont_fqmul_bound; lia).
    destruct ((start <=? i) && (i <? start + len)) eqn:C1.
    { replace (i <? start + 2 * len) with true by lia.
      specialize (M (i + len) ltac:(lia)). specialize (X0 i ltac:(lia)). lia. }
    destruct ((start + len <=? i) && (i <? start + 2 * len)) eqn:C2.
    { replace (i <? start + 2 * len) with true by lia.
      specialize (M i ltac:(lia)). specialize (X0 (i - len) ltac:(lia)). lia. }
    destruct (Z.ltb_spec i (start + 2 * len)).
    { specialize (B1 i ltac:(lia)). unfold zget. lia. }
    specialize (B2 i ltac:(lia)). unfold zget. lia. }
  split; [split; auto|split].
  - apply (array_of _ 256); auto. intros i Hi. specialize (X i Hi). destruct (_ <? _); lia.
  - intros i Hi. specialize (X i ltac:(lia)). replace (i <? start + 2 * len) with true in X by lia. unfold zget in X. lia.
  - intros i Hi. specialize (X i ltac:(lia)). replace (i <? start + 2 * len) with false in X by lia. unfold zget in X. lia.
Qed.

Lemma layer_shape layer : 1 <= layer <= 7 -> shape (2 ^ (layer - 1)) (2 ^ (8 - layer)).
Proof.
  intros H. assert (C : In layer [1; 2; 3; 4; 5; 6; 7]) by (cbn; lia). cbn in C.
  repeat destruct C as [<-|C]; [..|tauto]; cbn; auto with shape.
Qed.
Lemma c_ntt_layer r len layer : int16_array 256 r -> 1 <= layer <= 7 -> len = 256 / 2 ^ layer ->
  array_abs_bound r 0 255 (layer * 3329 - 1) ->
  returns (ntt_layer r len) (fun r => int16_array 256 r /\ array_abs_bound r 0 255 ((layer + 1) * 3329 - 1)).
Proof.
  intros Hr Hl -> Hb. i16.
  replace (256 / 2 ^ layer) with (2 ^ (8 - layer)).
  2:{ change 256 with (2 ^ 8). rewrite <- Z.pow_sub_r by lia. reflexivity. }
  apply returns_wp, (wp_ntt_layer _ _ (2 ^ (layer - 1)) _ (layer * 3329 - 1)); auto using layer_shape; try lia.
  { intros i Hi. specialize (Hb i ltac:(lia)). unfold zget. lia. }
  intros r' L' X _. split; [split; auto|].
  - apply (array_of _ 256); auto. intros i Hi. specialize (X i Hi). lia.
  - intros i Hi. specialize (X i ltac:(lia)). unfold zget in X. lia.
Qed.

Lemma larger_mont a b : Z.abs a <= 6658 -> Z.abs b <= 1664 -> Z.abs (mont (a * b)) <= 1834.
Proof.
  intros. assert (Z.abs (a * b) <= 339 * 32768) by (rewrite Z.abs_mul; nia).
  pose proof (mont_bound (a * b) 339 H1). lia.
Qed.
(** as ProofNtt.wp_invntt_layer, for larger inputs *)
Lemma wp_invntt_layer_any N r nb len (Q : list Z -> Prop) :
  shape nb len -> zlen r = 256 ->
  (forall i, 0 <= i < 256 -> Z.abs (zget 0 r i) <= 3329) ->
  (forall r', zlen r' = 256 -> (forall i, 0 <= i < 256 -> Z.abs (zget 0 r' i) <= 1834) -> Q r') ->
  wpn N (invntt_layer r len) Q.
Proof.
  intros S Lr Hb HQ. destruct (shape_prod _ _ S) as (P & Hl & Hn). unfold invntt_layer.
  apply wp_bind, wp_div.
  replace (MLKEM_N / len) with (2 * nb)
    by (unfold MLKEM_N; rewrite <- P; replace (nb * (2 * len)) with (2 * nb * len) by ring; symmetry; apply Z.div_mul; lia).
  apply wp_bind.
  assert (Hnb : nb <= 64) by (shapes S; lia).
  apply (wp_for_step N (fun k '(s, kk) => kk = 2 * nb - 1 - k /\ zlen s = 256 /\
     forall i, 0 <= i < 256 -> zget 0 s i = if i <? k * (2 * len) then ilayc nb len r i else zget 0 r i)
     _ _ _ nb).
  - unfold MLKEM_N. rewrite <- P. replace (nb * (2 * len) - 0 + 2 * len - 1) with (nb * (2 * len) + (2 * len - 1)) by ring.
    rewrite Z.div_add_l by lia. rewrite (Z.div_small (2 * len - 1)) by lia. lia.
  - lia.
  - split; [lia|]. split; auto. intros i Hi. now replace (i <? 0 * (2 * len)) with false by lia.
  - intros k [s kk] Hk (-> & Ls & Hg). cbv beta iota.
    assert (Hk2 : (k + 1) * (2 * len) <= nb * (2 * len)) by nia.
    apply wp_bind, (wp_aget 0); [rewrite zetas_len; lia|].
    pose proof (zetas_bound (2 * nb - 1 - k) ltac:(lia)) as Hz.
    replace (0 + k * (2 * len)) with (k * (2 * len)) by lia.
    set (st := k * (2 * len)) in *. assert (Hst : 0 <= st) by (unfold st; nia).
    assert (Hst2 : st + 2 * len <= 256) by (unfold st; nia).
    assert (Ebl : (k + 1) * (2 * len) = st + 2 * len) by (unfold st; ring).
    apply wp_bind.
    apply (wp_for N (fun j u => zlen u = 256 /\ forall i, 0 <= i < 256 -> zget 0 u i =
       if (i <? j) || ((st + len <=? i) && (i <? j + len))
       then ilayc nb len r i else zget 0 r i)).
    + lia.
    + split; auto. intros i Hi. rewrite Hg by auto.
      replace ((i <? st) || ((st + len <=? i) && (i <? st + len))) with (i <? st) by lia. reflexivity.
    + intros j u Hj [Lu Hu].
      assert (G1 : zget 0 u (j + len) = zget 0 r (j + len)) by
        (rewrite Hu by lia; now replace (_ || _) with false by lia).
      assert (G0 : zget 0 u j = zget 0 r j) by
        (rewrite Hu by lia; now replace (_ || _) with false by lia).
      pose proof (Hb j ltac:(lia)) as B0. pose proof (Hb (j + len) ltac:(lia)) as B1.
      apply wp_bind, (wp_aget 0); [lia|]. rewrite G0.
      apply wp_bind, (wp_aget 0); [lia|]. rewrite G1.
      apply wp_bind, wp_i16; [lia|].
      apply wp_bind, wp_barrett_reduce; [lia|].
      apply wp_bind, wp_aset; [lia|].
      apply wp_bind, (wp_aget 0); [zs|].
      rewrite zget_set by lia. replace (j + len =? j) with false by lia. rewrite G1.
      apply wp_bind, wp_i16; [lia|].
      apply wp_bind, wp_aset; [zs|].
      apply wp_bind, (wp_aget 0); [zs|].
      rewrite zget_set by (zs). replace (j + len =? j + len) with true by lia.
      apply wp_bind, wp_fqmul; [lia|auto|].
      apply wp_aset; [zs|].
      split; [zs|].
      intros i Hi. rewrite !zget_set by (zs). rewrite Hu by auto.
      destruct (block_of k len j Hl ltac:(lia)) as [Dv Md].
      destruct (block_of k len (j + len) Hl ltac:(lia)) as [Dv' Md']. fold st in Md, Md'.
      destruct (i =? j + len) eqn:E1; [|destruct (i =? j) eqn:E2].
      * assert (i = j + len) by lia. subst i. replace (_ || _) with true by lia.
        unfold ilayc. rewrite Md', Dv'. replace (_ <? len) with false by lia.
        now replace (j + len - len) with j by lia.
      * assert (i = j) by lia. subst i. replace (_ || _) with true by lia.
        unfold ilayc. rewrite Md. now replace (_ <? len) with true by lia.
      * replace ((i <? j + 1) || ((st + len <=? i) && (i <? j + 1 + len)))
          with ((i <? j) || ((st + len <=? i) && (i <? j + len))) by lia. reflexivity.
    + intros u [Lu Hu]. apply wp_ret. split; [lia|]. split; auto. intros i Hi.
      rewrite Hu by auto. rewrite Ebl.
      now replace ((i <? st + len) || ((st + len <=? i) && (i <? st + len + len))) with (i <? st + 2 * len) by lia.
  - intros [s kk] (_ & Ls & Hg). apply wp_ret.
    assert (Hv : forall i, 0 <= i < 256 -> zget 0 s i = ilayc nb len r i).
    { intros i Hi. rewrite Hg by auto. now replace (i <? nb * (2 * len)) with true by lia. }
    apply HQ; auto.
    intros i Hi. rewrite Hv by auto. unfold ilayc.
      pose proof (block_range _ _ _ S Hi) as Hbk.
      pose proof (zetas_bound (2 * nb - 1 - i / (2 * len)) ltac:(lia)) as Hz.
      destruct (_ <? len) eqn:E.
      + destruct (lower_partner nb len i S Hi ltac:(lia)) as [R _].
        pose proof (Hb i Hi). pose proof (Hb _ R).
        pose proof (barr_bound (zget 0 r i + zget 0 r (i + len)) ltac:(lia)). lia.
      + destruct (upper_partner nb len i S Hi ltac:(lia)) as [R _].
        pose proof (Hb i Hi). pose proof (Hb _ R).
        apply larger_mont; [lia|auto].
Qed.

Lemma c_invntt_layer r len layer : int16_array 256 r -> 2 <= len <= 128 -> 1 <= layer <= 7 ->
  len = 2 ^ (8 - layer) -> array_abs_bound r 0 255 3329 ->
  returns (invntt_layer r len) (fun r => int16_array 256 r /\ array_abs_bound r 0 255 3329).
Proof.
  intros Hr _ Hl -> Hb. i16.
  apply returns_wp, (wp_invntt_layer_any _ _ (2 ^ (layer - 1))); auto using layer_shape.
  { intros i Hi. specialize (Hb i ltac:(lia)). unfold zget. lia. }
  intros r' L' X. split; [split; auto|].
  - apply (array_of _ 256); auto. intros i Hi. specialize (X i Hi). lia.
  - intros i Hi. specialize (X i ltac:(lia)). unfold zget in X. lia.
Qed.

(** ** The products *)

Lemma wp_basemul_any N rs a b c (Q : list Z -> Prop) :
  zlen rs = 2 -> zlen a = 2 -> zlen b = 2 -> bounded 3329 a -> int16s b -> -32768 <= c < 32768 ->
  (forall r', zlen r' = 2 -> bounded 4993 r' -> Q r') ->
  wpn N (basemul_cached rs a b c) Q.
Proof.
  intros Lr La Lb Ba Bb Hc HQ. explode 2 rs Lr. explode 2 a La. explode 2 b Lb.
  inversion Ba as [|? ? A0 Ba1]; subst. inversion Ba1 as [|? ? A1 _]; subst.
  inversion Bb as [|? ? B0 Bb1]; subst. inversion Bb1 as [|? ? B1 _]; subst.
  unfold basemul_cached.
  apply wp_bind, wp_POLY_BOUND. { exact Ba. }
  do 4 (apply wp_bind, (wp_aget 0); [unfold zlen; cbn [length]; lia|]).
  match goal with H : bounded 3329 [?a0; ?a1] |- _ =>
    change (zget 0 [a0; a1] 0) with a0; change (zget 0 [a0; a1] 1) with a1; set (x0 := a0) in *; set (x1 := a1) in * end.
  match goal with H : int16s [?b0; ?b1] |- _ =>
    change (zget 0 [b0; b1] 0) with b0; change (zget 0 [b0; b1] 1) with b1; set (y0 := b0) in *; set (y1 := b1) in * end.
  assert (P : forall x y M, Z.abs x <= 3328 -> Z.abs y <= M -> Z.abs (x * y) <= 3328 * M).
  { intros. rewrite Z.abs_mul. apply Z.mul_le_mono_nonneg; lia. }
  pose proof (P x1 c 32768 ltac:(lia) ltac:(lia)). pose proof (P x0 y0 32768 ltac:(lia) ltac:(lia)).
  pose proof (P x0 y1 32768 ltac:(lia) ltac:(lia)). pose proof (P x1 y0 32768 ltac:(lia) ltac:(lia)).
  pose proof (mont_bound (x1 * c + x0 * y0) 6656 ltac:(lia)).
  pose proof (mont_bound (x0 * y1 + x1 * y0) 6656 ltac:(lia)).
  do 6 (apply wp_bind, wp_i32; [lia|]).
  apply wp_bind, wp_montgomery_reduce; [lia|].
  apply wp_bind, wp_aset; [unfold zlen; cbn [length]; lia|].
  apply wp_bind, wp_montgomery_reduce; [lia|].
  apply wp_bind, wp_aset; [rewrite zlen_set; unfold zlen; cbn [length]; lia|].
  match goal with |- wpn _ (bind _ (fun _ => ret ?l)) _ =>
    change l with [mont (x1 * c + x0 * y0); mont (x0 * y1 + x1 * y0)] end.
  assert (Bd : bounded 4993 [mont (x1 * c + x0 * y0); mont (x0 * y1 + x1 * y0)]).
  { unfold bounded. repeat constructor; lia. }
  apply wp_bind, wp_POLY_BOUND; [exact Bd|]. apply wp_ret, HQ; auto.
Qed.

Lemma c_basemul_cached r a b b_cached : int16_array 2 r -> int16_array 2 a -> int16_array 2 b ->
  - 2 ^ 15 <= b_cached < 2 ^ 15 -> array_abs_bound a 0 1 3328 ->
  returns (basemul_cached r a b b_cached) (fun r => int16_array 2 r /\ array_abs_bound r 0 1 (3 * 1665 - 1)).
Proof.
  intros Hr Ha Hb Hc Ba. i16. change (-32768 <= b_cached < 32768) in Hc.
  apply returns_wp, wp_basemul_any; auto; [now apply (bound_abs 2)|].
  intros r' L' B'. assert (B9 : bounded 4995 r') by (apply (bounded_weaken 4993); auto; lia).
  split; [apply (i16_of 4995); auto; lia|now apply (abs_bound 2)].
Qed.

(** the first [m] coefficients are written *)
Definition upto (m : Z) (s : list Z) : Prop :=
  zlen s = 256 /\ forall j, 0 <= j < m -> -4993 < zget 0 s j < 4993.

Lemma upto_splice m s x : upto m s -> 0 <= m -> m + 2 <= 256 -> zlen x = 2 -> bounded 4993 x -> upto (m + 2) (splice s m x).
Proof.
  intros [L H] Hm Hm2 Lx Bx. split; [rewrite zlen_splice; lia|]. intros j Hj.
  rewrite zget_splice by lia. rewrite Lx.
  destruct (Z.leb_spec m j); cbn [andb]; [|apply H; lia].
  destruct (Z.ltb_spec j (m + 2)); [|lia].
  unfold bounded in Bx. rewrite (Forall_zget _ 0), Lx in Bx. apply Bx. lia.
Qed.
Lemma slice_bounded b l x y : bounded b l -> bounded b (slice l x y).
Proof. intros H. apply Forall_firstn. now apply Forall_skipn. Qed.
Lemma slice_int16s l x y : int16s l -> int16s (slice l x y).
Proof. intros H. apply Forall_firstn. now apply Forall_skipn. Qed.

Lemma wp_basemul_poly_any N r a b c (Q : list Z -> Prop) :
  zlen r = 256 -> zlen a = 256 -> zlen b = 256 -> zlen c = 128 -> bounded 3329 a -> int16s b -> int16s c ->
  (forall r', zlen r' = 256 -> bounded 4993 r' -> Q r') ->
  wpn N (poly_basemul_montgomery_cached_ndebug r a b c) Q.
Proof.
  intros Lr La Lb Lc Ba Bb Bc HQ. unfold poly_basemul_montgomery_cached_ndebug. change (MLKEM_N / 4) with 64.
  assert (Hc : forall i, 0 <= i < 128 -> -32768 <= zget 0 c i < 32768).
  { unfold int16s in Bc. rewrite (Forall_zget _ 0), Lc in Bc. auto. }
  apply (wp_for N (fun i s => upto (4 * i) s)); [lia| | |].
  - split; auto. intros; lia.
  - intros i s Hi U. pose proof U as [Ls _].
    do 3 (apply wp_bind, wp_aslice; [lia|lia|lia|]). apply wp_bind, (wp_aget 0); [lia|].
    apply wp_bind, wp_basemul_any; try (rewrite zlen_slice by lia; lia); try (now apply slice_bounded);
      try (now apply slice_int16s); try (apply Hc; lia).
    intros x Lx Bx. apply wp_bind, wp_asplice; [lia|lia|].
    assert (U1 : upto (4 * i + 2) (splice s (4 * i) x)) by (apply upto_splice; auto; lia).
    pose proof U1 as [L1 _].
    do 3 (apply wp_bind, wp_aslice; [lia|lia|lia|]). apply wp_bind, (wp_aget 0); [lia|].
    apply wp_bind, wp_basemul_any; try (rewrite zlen_slice by lia; lia); try (now apply slice_bounded);
      try (now apply slice_int16s); try (apply Hc; lia).
    intros y Ly By. apply wp_asplice; [lia|lia|].
    replace (4 * (i + 1)) with (4 * i + 2 + 2) by lia. apply upto_splice; auto; lia.
  - intros s [Ls Hs]. apply HQ; auto. apply (array_of _ 256); auto.
Qed.

Lemma c_poly_basemul r a b b_cache : int16_array 256 r -> int16_array 256 a -> int16_array 256 b ->
  int16_array 128 b_cache -> array_abs_bound a 0 255 3328 ->
  returns (poly_basemul_montgomery_cached_ndebug r a b b_cache)
    (fun r => int16_array 256 r /\ array_abs_bound r 0 255 (3 * 1665 - 1)).
Proof.
  intros Hr Ha Hb Hc Ba. i16. apply returns_wp, wp_basemul_poly_any; auto; [now apply (bound_abs 256)|].
  intros r' L' B'. assert (B9 : bounded 4995 r') by (apply (bounded_weaken 4993); auto; lia).
  split; [apply (i16_of 4995); auto; lia|now apply (abs_bound 256)].
Qed.

Lemma wp_basemul_acc_any N J p r a b c (Q : list Z -> Prop) :
  zlen r = 256 ->
  each (MLKEM_K p) (fun _ x => zlen x = 256 /\ bounded 3329 x) a ->
  each (MLKEM_K p) (fun _ x => zlen x = 256 /\ int16s x) b ->
  each (MLKEM_K p) (fun _ x => zlen x = 128 /\ int16s x) c ->
  (forall r', zlen r' = 256 -> bounded 19969 r' -> Q r') ->
  wpn N (polyvec_basemul_acc_montgomery_cached_ndebug J p r a b c) Q.
Proof.
  intros Lr [La Ha] [Lb Hb] [Lc Hc] HQ. pose proof (K_range p) as Hk.
  unfold polyvec_basemul_acc_montgomery_cached_ndebug. cbv zeta.
  assert (W : forall t i (Q : list Z -> Prop), zlen t = 256 -> 0 <= i < MLKEM_K p ->
    (forall t', zlen t' = 256 -> bounded 4993 t' -> Q t') ->
    wpn N (poly_basemul_montgomery_cached_ndebug t (zget [] a i) (zget [] b i) (zget [] c i)) Q).
  { intros t i Q' Lt Hi H. destruct (Ha i Hi), (Hb i Hi), (Hc i Hi). apply wp_basemul_poly_any; auto. }
  do 3 (apply wp_bind, (wp_aget []); [lia|]).
  apply wp_bind, W; [auto|lia|]. intros r0 L0 B0.
  apply wp_bind.
  apply (wp_for N (fun m '(s, t) => zlen s = 256 /\ zlen t = 256 /\ bounded (4992 * m + 1) s)).
  - lia.
  - split; [exact L0|]. split; [apply zlen_uninit; unfold MLKEM_N; lia|exact B0].
  - intros i [s t] Hi (Ls & Lt & Bs). cbv beta iota.
    do 3 (apply wp_bind, (wp_aget []); [lia|]).
    apply wp_bind, W; [auto|lia|]. intros t' Lt' Bt.
    apply wp_bind, (wp_poly_add_b _ (4992 * i + 1) 4993); auto; [lia|]. apply wp_ret.
    split; [apply zlen_zadd|]. split; auto.
    replace (4992 * (i + 1) + 1) with (4992 * i + 1 + 4993 - 1) by ring. now apply bounded_zadd.
  - intros [s t] (Ls & _ & Bs). cbv beta iota.
    apply wp_bind, wp_POLY_BOUND. { apply (bounded_weaken (4992 * MLKEM_K p + 1)); auto. unfold HALF_Q. lia. }
    apply wp_ret, HQ; auto. apply (bounded_weaken (4992 * MLKEM_K p + 1)); auto. lia.
Qed.

Lemma c_polyvec_basemul_acc J p r a b b_cache : let P := set_of p in
  int16_array 256 r -> poly_array (k P) a -> poly_array (k P) b -> mulcache_array (k P) b_cache ->
  (forall j, 0 <= j <= k P - 1 -> array_abs_bound (elt a j) 0 255 3328) ->
  returns (polyvec_basemul_acc_montgomery_cached_ndebug J p r a b b_cache) (int16_array 256).
Proof.
  vecs. intros Hr Ha Hb Hc Ba. i16. apply returns_wp, wp_basemul_acc_any; auto.
  - now apply polys_bounded.
  - now apply polys_each.
  - now apply caches_each.
  - intros r' L' B'. apply (i16_of 19969); auto. lia.
Qed.

Lemma c_matvec_mul J p out a v vc : let P := set_of p in
  poly_array (k P) out -> poly_array (k P * k P) a -> poly_array (k P) v -> mulcache_array (k P) vc ->
  (forall i j, 0 <= i <= k P - 1 -> 0 <= j <= k P - 1 -> array_abs_bound (elt a (k P * i + j)) 0 255 3328) ->
  returns (matvec_mul_ndebug J p out a v vc) (poly_array (k P)).
Proof.
  vecs. intros Ho Ha Hv Hc Ba. pose proof (K_range p) as HK. destruct (polys_each _ _ Ha) as [La Ea].
  destruct (polys_each _ _ Ho) as [Lo Eo].
  apply returns_wp. unfold matvec_mul_ndebug.
  apply (wp_for_rel _ (fun _ x => int16_array 256 x)); [exact Lo| |].
  - intros i s Hi Ls Es. apply wp_bind, (wp_aget []); [lia|]. rewrite Es.
    apply wp_bind, wp_aslice; [nia|lia|nia|].
    apply wp_bind, wp_basemul_acc_any.
    + apply Eo; auto.
    + split; [rewrite zlen_slice by nia; lia|]. intros j Hj. rewrite zget_slice by nia.
      destruct (Ea (MLKEM_K p * i + j) ltac:(nia)) as [L1 _]. split; auto.
      apply (bound_abs 256); auto. apply Ba; lia.
    + now apply polys_each.
    + now apply caches_each.
    + intros r' L' B'. apply wp_aset; [lia|]. exists r'. split; auto. apply (i16_of 19969); auto. lia.
  - intros r [L H]. split; auto. apply (Forall_zget _ []). rewrite L. auto.
Qed.
