(** * The contracts in the headers for the functions with native code: proofs *)

From Coq Require Import ZArith List Bool Lia.
From Verif Require Import ModelA64 ModelA64Asm ModelA64Poly ProofA64Sym ProofA64Word ProofA64Poly ProofA64Rej.
From Verif Require Import CSem ModelArith ModelX86Asm ModelX86Poly ModelAvx2 Spec202 Spec203 SpecLink SpecX86
  SpecContract SpecNative CSemFacts ProofBits ProofScalar ProofPack ProofSum ProofNttSpec ProofRing ProofNtt ProofMul
  ProofRej ProofMatrix ProofX86Sym ProofX86Word ProofX86Poly ProofAvx2 ProofContract ProofContract2.
Import ListNotations.
Open Scope Z_scope.
Ltac Zify.zify_post_hook ::= idtac.
Opaque NTT NTT_inv MultiplyNTTs.

Lemma n_poly_ntt n J r : int16_array 256 r -> array_abs_bound r 0 255 3328 ->
  returns (poly_ntt_on n J r) (fun r => int16_array 256 r /\ array_abs_bound r 0 255 (8 * 3329 - 1)).
Proof.
  intros Hr Hb. i16. apply (bound_abs 256 3329) in Hb; auto. apply returns_wp.
  destruct n; cbn [poly_ntt_on]; [apply wp_ntt_x86|apply wp_ntt_a64]; auto; intros r' L' B' _.
  - split; [apply (i16_of 26632); auto; lia|now apply (abs_bound 256)].
  - apply (bounded_weaken 19974 26632) in B'; [|lia].
    split; [apply (i16_of 26632); auto; lia|now apply (abs_bound 256)].
Qed.
Lemma n_poly_invntt_tomont n J r : int16_array 256 r ->
  returns (poly_invntt_tomont_on n J r) (fun r => int16_array 256 r /\ array_abs_bound r 0 255 (8 * 3329 - 1)).
Proof.
  intros Hr. i16. apply returns_wp.
  destruct n; cbn [poly_invntt_tomont_on]; [apply wp_invntt_x86|apply wp_invntt_a64]; auto; intros r' L' B' _;
  (split; [apply (i16_of 26632); auto; lia|now apply (abs_bound 256)]).
Qed.
Lemma n_poly_reduce n J r : int16_array 256 r ->
  returns (poly_reduce_on n J r) (fun r => int16_array 256 r /\ array_bound r 0 255 0 3328).
Proof.
  intros Hr. i16. apply returns_wp.
  destruct n; cbn [poly_reduce_on]; [apply wp_reduce_x86|apply wp_reduce_a64]; auto; now apply residues_ok.
Qed.
Lemma n_poly_tomont n J r : int16_array 256 r ->
  returns (poly_tomont_on n J r) (fun r => int16_array 256 r /\ array_abs_bound r 0 255 3328).
Proof.
  intros Hr. i16. apply returns_wp.
  destruct n; cbn [poly_tomont_on]; [apply wp_tomont_x86|apply wp_tomont_a64]; auto; intros r' L' B' _;
  (split; [apply (i16_of 3329); auto; lia|now apply (abs_bound 256)]).
Qed.
Lemma n_poly_mulcache_compute n J x a : int16_array 128 x -> int16_array 256 a ->
  returns (poly_mulcache_compute_on n J x a) (int16_array 128).
Proof.
  intros Hx Ha. destruct n; cbn [poly_mulcache_compute_on].
  - exists x. split; [reflexivity|exact Hx].
  - i16. apply returns_wp, wp_mulcache_a64; auto. intros x'. apply cache_ok.
Qed.
Lemma n_poly_tobytes n J r a : uint8_array 384 r -> int16_array 256 a -> array_bound a 0 255 0 3328 ->
  returns (poly_tobytes_on n J r a) (uint8_array 384).
Proof.
  intros Hr Ha Hb. i16. apply (bound_u 256 3329) in Hb; auto. apply returns_wp.
  destruct n; cbn [poly_tobytes_on]; [apply wp_tobytes_x86|apply wp_tobytes_a64]; auto;
  apply (enc_ok 12 _ 384); try reflexivity; auto using zlen_fips_order; lia.
Qed.
Lemma custom_order_Forall (P : Z -> Prop) f : zlen f = 256 -> Forall P f -> Forall P (custom_order f).
Proof. intros L H. apply (fips_order_Forall _ _ (zlen_custom_order _)). now rewrite fips_custom_order. Qed.
Lemma custom_fields_ok b : zlen b = 384 ->
  int16_array 256 (custom_order (fields 12 b)) /\ array_bound (custom_order (fields 12 b)) 0 255 0 4095.
Proof.
  intros L. destruct (fields_ok b L) as [[L1 B1] B2]. apply (bound_u 256 4096) in B2; auto.
  split; [split; [apply zlen_custom_order|now apply custom_order_Forall]|].
  apply (u_bound 256 4095); [apply zlen_custom_order|]. now apply custom_order_Forall.
Qed.
Lemma n_poly_frombytes n J r a : int16_array 256 r -> uint8_array 384 a ->
  returns (poly_frombytes_on n J r a) (fun r => int16_array 256 r /\ array_bound r 0 255 0 4095).
Proof.
  intros Hr Ha. destruct n; cbn [poly_frombytes_on]; [|now apply c_poly_frombytes].
  i16. apply returns_wp, wp_frombytes_x86; auto. now apply custom_fields_ok.
Qed.

(** ** polyvec.h *)

Lemma n_polyvec_ntt n J p r : let P := set_of p in
  poly_array (k P) r -> (forall j, 0 <= j <= k P - 1 -> array_abs_bound (elt r j) 0 255 3328) ->
  returns (polyvec_ntt_on n J p r) (fun r => poly_array (k P) r /\
    forall j, 0 <= j <= k P - 1 -> array_abs_bound (elt r j) 0 255 (8 * 3329 - 1)).
Proof.
  vecs. intros Hr Hb. apply returns_wp.
  destruct n; cbn [polyvec_ntt_on]; [apply wp_polyvec_ntt_x86|apply wp_polyvec_ntt_a64]; try now apply polys_bounded.
  - intros r' H. apply (abs_ok _ 26632); [lia|lia|]. eapply each_impl; [|exact H]. cbv beta. tauto.
  - intros r' H. apply (abs_ok _ 19974); [lia|lia|]. eapply each_impl; [|exact H]. cbv beta. tauto.
Qed.
Lemma n_polyvec_invntt_tomont n J p r : let P := set_of p in poly_array (k P) r ->
  returns (polyvec_invntt_tomont_on n J p r) (fun r => poly_array (k P) r /\
    forall j, 0 <= j <= k P - 1 -> array_abs_bound (elt r j) 0 255 (8 * 3329 - 1)).
Proof.
  vecs. intros Hr. apply returns_wp.
  destruct n; cbn [polyvec_invntt_tomont_on]; [apply wp_polyvec_invntt_x86|apply wp_polyvec_invntt_a64];
    try now apply polys_each.
  - intros r' H. apply (abs_ok _ 26632); [lia|lia|]. eapply each_impl; [|exact H]. cbv beta. tauto.
  - intros r' H. apply (abs_ok _ 26632); [lia|lia|]. eapply each_impl; [|exact H]. cbv beta. tauto.
Qed.
Lemma residues_vec K r : poly_array K r -> poly_array K (map residues r) /\
  forall j, 0 <= j <= K - 1 -> array_bound (elt (map residues r) j) 0 255 0 3328.
Proof.
  intros Hr. destruct (polys_each _ _ Hr) as [L E].
  assert (F : forall i, 0 <= i < K -> int16_array 256 (zget [] (map residues r) i) /\
     array_bound (zget [] (map residues r) i) 0 255 0 3328).
  { intros i Hi. rewrite (zget_map _ []) by lia. apply residues_ok, E. auto. }
  split; [split|].
  - now rewrite zlen_map.
  - apply (Forall_zget _ []). rewrite zlen_map, L. intros i Hi. now apply F.
  - intros j Hj. apply F. lia.
Qed.
Lemma n_polyvec_reduce n J p r : let P := set_of p in poly_array (k P) r ->
  returns (polyvec_reduce_on n J p r) (fun r => poly_array (k P) r /\
    forall j, 0 <= j <= k P - 1 -> array_bound (elt r j) 0 255 0 3328).
Proof.
  vecs. intros Hr. apply returns_wp.
  destruct n; cbn [polyvec_reduce_on]; [apply wp_polyvec_reduce_x86|apply wp_polyvec_reduce_a64];
    try now apply polys_each.
  all: now apply residues_vec.
Qed.
Lemma n_polyvec_tomont n J p r : let P := set_of p in poly_array (k P) r ->
  returns (polyvec_tomont_on n J p r) (fun r => poly_array (k P) r /\
    forall j, 0 <= j <= k P - 1 -> array_abs_bound (elt r j) 0 255 3328).
Proof.
  vecs. intros Hr. apply returns_wp.
  destruct n; cbn [polyvec_tomont_on]; [apply wp_polyvec_tomont_x86|apply wp_polyvec_tomont_a64];
    try now apply polys_each.
  - intros r' H. apply (abs_ok _ 3329); [lia|lia|]. eapply each_impl; [|exact H]. cbv beta. tauto.
  - intros r' H. apply (abs_ok _ 3329); [lia|lia|]. eapply each_impl; [|exact H]. cbv beta. tauto.
Qed.
Lemma wp_mulcache_x86_same N p x a (Q : list (list Z) -> Prop) : zlen x = MLKEM_K p -> zlen a = MLKEM_K p -> Q x ->
  wpn N (polyvec_mulcache_compute_x86_64 p x a) Q.
Proof.
  intros Lx La HQ. pose proof (K_range p). unfold polyvec_mulcache_compute_x86_64.
  apply (wp_for N (fun _ s => s = x)); [lia|reflexivity| |intros s ->; exact HQ].
  intros i s Hi ->. do 2 (apply wp_bind, (wp_aget []); [lia|]). unfold poly_mulcache_compute_x86_64.
  apply wp_bind, wp_ret, wp_aset; [lia|].
  apply (zlist_ext []); [now rewrite zlen_set by lia|]. intros j Hj. rewrite zlen_set in Hj by lia.
  rewrite zget_set by lia. destruct (Z.eqb_spec j i) as [->|]; reflexivity.
Qed.
Lemma n_polyvec_mulcache_compute n J p x a : let P := set_of p in
  mulcache_array (k P) x -> poly_array (k P) a ->
  returns (polyvec_mulcache_compute_on n J p x a) (mulcache_array (k P)).
Proof.
  vecs. intros Hx Ha. apply returns_wp. destruct n; cbn [polyvec_mulcache_compute_on].
  - apply wp_mulcache_x86_same; [apply Hx|apply Ha|exact Hx].
  - apply wp_polyvec_mulcache_a64.
    + eapply each_len, caches_each; eauto.
    + now apply polys_each.
    + intros x' [L H]. split; auto. apply (Forall_zget _ []). rewrite L. intros i Hi. eapply cache_ok, H; auto.
Qed.
Lemma enc_vec K (f : list Z -> list Z) a : zlen a = K -> Forall (fun x => zlen x = 256) a ->
  (forall x, zlen x = 256 -> zlen (f x) = 256) -> uint8_array (384 * K) (concat (map (fun x => ByteEncode 12 (f x)) a)).
Proof.
  intros La Va Hf. apply u8_of.
  - rewrite (concat_const 384); [rewrite zlen_map, La; reflexivity|lia|].
    apply Forall_map. eapply Forall_impl; [|exact Va]. intros x Hx.
    apply (u8_len _ _ (enc_ok 12 (f x) 384 ltac:(lia) (Hf x Hx) eq_refl)).
  - apply Forall_concat. apply Forall_map. eapply Forall_impl; [|exact Va]. intros x Hx.
    apply (u8_bytes _ _ (enc_ok 12 (f x) 384 ltac:(lia) (Hf x Hx) eq_refl)).
Qed.
Lemma n_polyvec_tobytes n J p r a : let P := set_of p in
  uint8_array (384 * k P) r -> poly_array (k P) a ->
  (forall j, 0 <= j <= k P - 1 -> array_bound (elt a j) 0 255 0 3328) ->
  returns (polyvec_tobytes_on n J p r a) (uint8_array (384 * k P)).
Proof.
  intros P Hr Ha Hb. pose proof (polys_vec _ _ Ha) as V. pose proof (polys_ubounded _ 3329 _ Ha Hb) as U. i16.
  unfold P in *. rewrite <- K_k in *. apply returns_wp.
  destruct n; cbn [polyvec_tobytes_on]; [apply wp_polyvec_tobytes_x86|apply wp_polyvec_tobytes_a64]; auto;
  destruct V as [La Va].
  - apply (enc_vec _ fips_order); auto using zlen_fips_order.
  - now apply (enc_vec _ (fun x => x)).
Qed.
Lemma n_polyvec_frombytes n J p r a : let P := set_of p in
  poly_array (k P) r -> uint8_array (384 * k P) a ->
  returns (polyvec_frombytes_on n J p r a) (fun r => poly_array (k P) r /\
    forall j, 0 <= j <= k P - 1 -> array_bound (elt r j) 0 255 0 4095).
Proof.
  intros P Hr Ha. destruct n; cbn [polyvec_frombytes_on]; [|now apply c_polyvec_frombytes].
  apply polys_vec in Hr. i16. unfold P in *. rewrite <- K_k in *. pose proof (K_range p).
  apply returns_wp, wp_polyvec_frombytes_x86; auto; [lia|]. apply polyvec_of; [lia|]. intros i Hi.
  apply custom_fields_ok. rewrite zlen_slice by lia. lia.
Qed.

Lemma wp_basemul_any_x86 N J p r a b (Q : list Z -> Prop) : zlen r = 256 ->
  each (MLKEM_K p) (fun _ x => zlen x = 256 /\ bounded 3329 x) a ->
  each (MLKEM_K p) (fun _ x => zlen x = 256 /\ int16s x) b ->
  (forall r', zlen r' = 256 -> bounded 26632 r' -> Q r') ->
  wpn N (polyvec_basemul_acc_montgomery_cached_avx2 J p r a b) Q.
Proof.
  intros Lr [La Ha] [Lb Hb] HQ. pose proof (K_range p) as Hk.
  unfold polyvec_basemul_acc_montgomery_cached_avx2. cbv zeta.
  assert (W : forall J t i (Q : list Z -> Prop), zlen t = 256 -> 0 <= i < MLKEM_K p ->
    (forall t', zlen t' = 256 -> bounded 6658 t' -> Q t') ->
    wpn N (poly_basemul_montgomery_avx2 J t (zget [] a i) (zget [] b i)) Q).
  { intros J' t i Q' Lt Hi H. destruct (Ha i Hi) as (A1 & A2), (Hb i Hi) as (C1 & C2).
    apply wp_basemul_x86; auto. }
  do 2 (apply wp_bind, (wp_aget []); [lia|]).
  apply wp_bind, W; [auto|lia|]. intros r0 L0 B0. apply wp_bind.
  apply (wp_for N (fun m '(s, t) => zlen s = 256 /\ zlen t = 256 /\ bounded (6657 * m + 1) s)).
  - lia.
  - split; [exact L0|]. split; [apply zlen_uninit; unfold MLKEM_N; lia|exact B0].
  - intros i [s t] Hi (Ls & Lt & Bs). cbv beta iota.
    do 2 (apply wp_bind, (wp_aget []); [lia|]).
    apply wp_bind, W; [auto|lia|]. intros t' Lt' Bt.
    apply wp_bind, (wp_add_avx2 _ (6657 * i + 1) 6658); auto; [lia|]. apply wp_ret.
    split; [apply zlen_zadd|]. split; [exact Lt'|].
    replace (6657 * (i + 1) + 1) with (6657 * i + 1 + 6658 - 1) by ring. now apply bounded_zadd.
  - intros [s t] (Ls & _ & Bs). cbv beta iota. apply wp_ret, HQ; auto.
    apply (bounded_weaken (6657 * MLKEM_K p + 1)); auto. lia.
Qed.
Lemma wp_basemul_any_a64 N b J p r a v c (Q : list Z -> Prop) : zlen r = 256 ->
  each (MLKEM_K p) (fun _ x => zlen x = 256) a -> each (MLKEM_K p) (fun _ x => zlen x = 256) v ->
  each (MLKEM_K p) (fun _ x => zlen x = 128) c ->
  (forall r', int16_array 256 r' -> Q r') ->
  wpn N (ModelA64Poly.polyvec_basemul_acc_montgomery_cached_native b J p r a v c) Q.
Proof.
  intros Lr Ha Hb Hc HQ. pose proof (K_range p) as Hk.
  unfold polyvec_basemul_acc_montgomery_cached_native. fold (polyvec_const b).
  assert (E : forall n x, 0 <= n -> each (MLKEM_K p) (fun _ y => zlen y = n) x -> zlen (concat x) = n * MLKEM_K p).
  { intros n x Hn Hx. rewrite (concat_const n); [now rewrite (proj1 Hx)|lia|]. apply (each_Forall (MLKEM_K p)). exact Hx. }
  apply E in Ha; [|lia]. apply E in Hb; [|lia]. apply E in Hc; [|lia].
  eapply ProofA64Word.wp_call_sym; [|exact (ProofA64Word.basemul_checked b p)|].
  { unfold zlen in *. repeat (constructor; [first [reflexivity|cbn [ProofA64Sym.fits]; lia]|]). constructor. }
  rewrite map_map. apply HQ. split; [apply zlen_seq_map|]. apply Forall_map, Forall_forall. intros s _.
  unfold ProofA64Word.e_basemul, ProofA64Word.e_redc. cbn [ProofA64Sym.eval]. apply s16_range.
Qed.
Lemma n_polyvec_basemul_acc n J p r a b b_cache : let P := set_of p in
  int16_array 256 r -> poly_array (k P) a -> poly_array (k P) b -> mulcache_array (k P) b_cache ->
  (forall j, 0 <= j <= k P - 1 -> array_abs_bound (elt a j) 0 255 3328) ->
  returns (polyvec_basemul_acc_montgomery_cached_on n J p r a b b_cache) (int16_array 256).
Proof.
  vecs. intros Hr Ha Hb Hc H. apply returns_wp. destruct n; cbn [polyvec_basemul_acc_montgomery_cached_on].
  - apply wp_basemul_any_x86; [apply Hr|now apply polys_bounded|now apply polys_each|].
    intros r' L B. apply (i16_of 26632); auto. lia.
  - apply wp_basemul_any_a64; [apply Hr| | | |auto];
    [eapply each_len, polys_each; eauto|eapply each_len, polys_each; eauto|eapply each_len, caches_each; eauto].
Qed.

(** ** rej_uniform.h *)

Lemma n_rej_uniform n J r target offset buf buflen :
  0 <= offset <= target -> target <= 4096 -> 0 <= buflen <= 4096 -> buflen mod 3 = 0 ->
  int16_array target r -> uint8_array buflen buf ->
  (offset > 0 -> array_bound r 0 (offset - 1) 0 3328) ->
  returns (rej_uniform_on n J r target offset buf buflen) (fun '(r, ret) =>
    zlen r = target /\ offset <= ret <= target /\ (ret > 0 -> array_bound r 0 (ret - 1) 0 3328)).
Proof.
  intros Ho Ht Hl Hm Hr Hb Hp.
  destruct (c_rej_uniform r target offset buf buflen Ho Ht Hl Hm Hr Hb Hp) as ((r1 & c) & E1 & (L1 & _) & Hc & B1).
  i16.
  assert (X : exists r2, val (rej_uniform_on n J r target offset buf buflen) = Ok (r2, c) /\
    slice r2 0 c = slice r1 0 c /\ zlen r2 = zlen r).
  { destruct n; cbn [rej_uniform_on];
    [destruct (avx2_agrees J r target offset buf buflen) as (r1' & r2 & c' & E1' & E2 & _ & S & L2 & _)
    |destruct (a64rej_agrees J r target offset buf buflen) as (r1' & r2 & c' & E1' & E2 & _ & S & L2 & _)];
    auto; try lia; rewrite E1 in E1'; injection E1' as <- <-; eauto. }
  destruct X as (r2 & E2 & S & L2). exists (r2, c). split; [exact E2|]. split; [lia|]. split; [exact Hc|].
  intros Hc0 i Hi. specialize (B1 Hc0 i Hi).
  assert (G : zget 0 r2 i = zget 0 r1 i).
  { rewrite <- (Z.add_0_l i), <- !(zget_slice 0 _ 0 c) by lia. now rewrite S. }
  unfold zget in G. rewrite G. exact B1.
Qed.

(** ** The documentation of poly_tobytes_native *)

Lemma tobytes_signed n J : val (tobytes_routine n J (repeat 0 384) (repeat (-1) 256)) = Ok (repeat 255 384).
Proof.
  apply wp_val. destruct n; cbn [tobytes_routine].
  - apply wp_bind. eapply ProofX86Word.wp_call_sym; [|exact ProofX86Word.tobytes_checked|].
    { constructor; [reflexivity|]. constructor; [reflexivity|]. constructor; [reflexivity|constructor]. }
    apply wp_ret. generalize (uninit2 J 0 16 16). intros regs. vm_compute. reflexivity.
  - unfold ModelA64Poly.poly_tobytes_native. apply wp_bind.
    eapply ProofA64Word.wp_call_sym; [|exact ProofA64Word.tobytes_checked|].
    { constructor; [reflexivity|]. constructor; [reflexivity|]. constructor; [reflexivity|constructor]. }
    apply wp_ret. generalize (uninit2 J 0 32 8) (uninit J 1 (STACK / 2)). intros regs stk. vm_compute. reflexivity.
Qed.
Lemma tobytes_signed_differs n J : exists r a, uint8_array 384 r /\ int16_array 256 a /\ array_abs_bound a 0 255 3328 /\
  (forall i, 0 <= i < 256 -> at_ a i = -1) /\
  val (tobytes_routine n J r a) <> Ok (ByteEncode 12 (map (fun x => x mod q) a)).
Proof.
  exists (repeat 0 384), (repeat (-1) 256).
  assert (A : forall i, 0 <= i < 256 -> nth (Z.to_nat i) (repeat (-1) 256) 0 = -1).
  { intros i Hi. apply (repeat_spec 256 (-1)). apply nth_In. rewrite repeat_length. lia. }
  split; [|split; [|split; [|split]]].
  - split; [reflexivity|]. apply Forall_forall. intros x Hx. apply repeat_spec in Hx. lia.
  - split; [reflexivity|]. apply Forall_forall. intros x Hx. apply repeat_spec in Hx. lia.
  - intros i Hi. rewrite A by lia. lia.
  - exact A.
  - rewrite tobytes_signed. intros H. injection H. vm_compute. discriminate.
Qed.
