(** * The K-PKE component scheme in the x86_64 build *)

From Coq Require Import ZArith List Bool Lia.
From Verif Require Import CSem ModelArith ModelKeccak ModelIndcpa ModelAvx2 ModelX86 ModelX86Asm ModelX86Poly
  ModelX86Keccak ModelX86Indcpa Spec202 Spec203 SpecLink SpecX86
  ProofX86Ntt ProofX86Word CSemFacts ProofScalar ProofBits ProofPack ProofRej ProofCbd ProofSponge ProofHash
  ProofX86Hash ProofSum ProofNttSpec ProofRing ProofNtt ProofMul ProofMatrix ProofNoise ProofAvx2Matrix ProofPke
  ProofX86Poly ProofX86Noise ProofX86Matrix.
Import ListNotations.
Open Scope Z_scope.
#[local] Existing Instance LittleEndian.
Ltac Zify.zify_post_hook ::= idtac.


(** ** Vectors in the order of the assembly *)

Lemma ford_bounded b x : zlen x = 256 -> bounded b x <-> bounded b (fips_order x).
Proof. intros. unfold bounded. now apply fips_order_Forall. Qed.
Lemma ford_zadd a b : zlen a = 256 -> zlen b = 256 -> fips_order (zadd a b) = zadd (fips_order a) (fips_order b).
Proof.
  intros La Lb. apply (zlist_ext 0); rewrite zlen_fips_order; [now rewrite zlen_zadd|]. intros i Hi.
  pose proof (custom_index_range i Hi). rewrite zget_fips_order by auto. unfold zadd.
  rewrite !zget_map_range by auto. now rewrite !zget_fips_order by auto.
Qed.
Lemma ford_scale c x : zlen x = 256 -> fips_order (scale c x) = scale c (fips_order x).
Proof.
  intros L. apply (zlist_ext 0); rewrite zlen_fips_order; [now rewrite zlen_scale, zlen_fips_order|]. intros i Hi.
  pose proof (custom_index_range i Hi). rewrite zget_fips_order by auto. rewrite !zget_scale.
  now rewrite zget_fips_order by auto.
Qed.
Lemma ford_repr x y : zlen x = 256 -> zlen y = 256 -> repr x y -> repr (fips_order x) (fips_order y).
Proof.
  intros Lx Ly [_ E]. split; [apply zlen_fips_order|]. intros i Hi. pose proof (custom_index_range i Hi).
  rewrite zget_fips_order by auto. rewrite (E _ H). rewrite ?at_zget. now rewrite zget_fips_order by auto.
Qed.

(** ** Matrix times vector *)

Lemma map_slice {A B} (f : A -> B) l i j : map f (slice l i j) = slice (map f l) i j.
Proof. unfold slice. now rewrite <- firstn_map, <- skipn_map. Qed.

Lemma wp_matvec_x86 N J p out A a v vc (Q : list (list Z) -> Prop) :
  let K := MLKEM_K p in
  each K (fun _ x => zlen x = 256) out -> rows_ok K A ->
  each (K * K) (fun _ x => zlen x = 256) a -> map fips_order a = concat A ->
  each K (fun _ x => zlen x = 256 /\ bounded 26632 x) v ->
  (forall r, each K (fun i x => zlen x = 256 /\ bounded 26632 x /\
       repr (scale 65536 (fips_order x)) (dot (zget [] A i) (map fips_order v))) r -> Q r) ->
  wpn N (matvec_mul_x86_64 J p out a v vc) Q.
Proof.
  intros K Ho HA [La Ha] EA Hv HQ. pose proof (MLKEM_K_range p) as HK. fold K in HK. unfold matvec_mul_x86_64. fold K.
  eapply wp_for_rel; [apply Ho| |exact HQ].
  intros i s Hi Ls Es. apply wp_bind, (wp_aget []); [lia|]. rewrite Es.
  apply wp_bind, wp_aslice; [nia|lia|nia|].
  assert (ER : map fips_order (slice a (K * i) (K * i + K)) = zget [] A i).
  { rewrite map_slice, EA. apply slice_concat_const; [lia|now apply rows_lens|destruct HA as [-> _]; lia]. }
  assert (LS : zlen (slice a (K * i) (K * i + K)) = K) by (rewrite zlen_slice; nia).
  apply wp_bind, wp_basemul_acc_x86; [now apply Ho| |exact Hv|].
  { fold K. split; [exact LS|]. intros j Hj. destruct HA as [_ HA]. destruct (HA i Hi) as [_ HAi].
    destruct (HAi j Hj) as [_ B]. rewrite <- ER in B. rewrite (zget_map _ [] []) in B by lia.
    assert (Lj : zlen (zget [] (slice a (K * i) (K * i + K)) j) = 256).
    { rewrite zget_slice by nia. apply Ha. nia. }
    split; [exact Lj|]. now apply (ford_bounded _ _ Lj). }
  rewrite ER. intros r' L' B' E'. apply wp_aset; [lia|]. exists r'. auto.
Qed.

Lemma ntt_noise_x86 p eta seed first r : 
  map residues (nvec eta seed first (MLKEM_K p)) = noise_vec (set_of p) eta seed first ->
  each (MLKEM_K p) (fun i x => zlen x = 256 /\ bounded 26632 x /\
       residues (fips_order x) = NTT (zget [] (nvec eta seed first (MLKEM_K p)) i)) r ->
  map residues (map fips_order r) = map NTT (noise_vec (set_of p) eta seed first) /\
  vrepr (MLKEM_K p) (map fips_order r) (map NTT (noise_vec (set_of p) eta seed first)).
Proof.
  intros E H. pose proof (MLKEM_K_range p) as HK. set (K := MLKEM_K p) in *.
  destruct (nvec_polys eta seed first K ltac:(lia)) as [Ln Hn]. destruct H as [Lr H].
  assert (X : forall i, 0 <= i < K ->
    zget [] (map NTT (noise_vec (set_of p) eta seed first)) i = residues (fips_order (zget [] r i))).
  { intros i Hi. rewrite <- E. rewrite map_map. rewrite (zget_map _ [] []) by lia.
    destruct (H i Hi) as (_ & _ & ->). symmetry. apply NTT_repr.
    apply residues_repr; [|reflexivity]. rewrite (Forall_zget _ []) in Hn. apply Hn. lia. }
  assert (LN : zlen (map NTT (noise_vec (set_of p) eta seed first)) = K).
  { rewrite <- E, !zlen_map. exact Ln. }
  split.
  - apply (vec_eq K); [now rewrite !zlen_map|exact LN|]. intros i Hi.
    rewrite !(zget_map _ [] []) by (rewrite ?zlen_map; lia). now rewrite X.
  - split; [now rewrite zlen_map|]. split; [exact LN|]. intros i Hi. rewrite X by auto.
    rewrite (zget_map _ [] []) by lia. apply residues_repr; [apply zlen_fips_order|reflexivity].
Qed.

(** ** Keys as bytes *)

Lemma concat_ford (v : list (list Z)) :
  concat (map (fun x => ByteEncode 12 (fips_order x)) v) = concat (map (ByteEncode 12) (map fips_order v)).
Proof. now rewrite map_map. Qed.

Lemma wp_pack_pk_x86 N J p r v seed (Q : list Z -> Prop) :
  zlen r = 384 * MLKEM_K p + 32 -> vec_of (MLKEM_K p) v -> Forall (ubounded 3329) v -> zlen seed = 32 ->
  Q (concat (map (ByteEncode 12) (map fips_order v)) ++ seed) -> wpn N (pack_pk_x86_64 J p r v seed) Q.
Proof.
  intros Lr Hv Bv Ls HQ. pose proof (MLKEM_K_range p) as HK. unfold pack_pk_x86_64, MLKEM_SYMBYTES.
  assert (E : MLKEM_POLYVECBYTES p = 384 * MLKEM_K p) by (destruct p; reflexivity). rewrite E.
  apply wp_bind, wp_POLYVEC_BOUND.
  { eapply Forall_impl; [|exact Bv]. intros. now apply ubounded_bounded. }
  apply wp_bind, wp_aslice; try lia. apply wp_bind, wp_polyvec_tobytes_x86; auto.
  { rewrite zlen_slice; lia. }
  rewrite concat_ford. set (T := concat _) in *.
  assert (LT : zlen T = 384 * MLKEM_K p).
  { unfold T. rewrite (concat_const 384); [|lia|].
    - rewrite !zlen_map. destruct Hv as [-> _]. reflexivity.
    - apply Forall_forall. intros x Hx. apply in_map_iff in Hx as (f & <- & Hf).
      apply in_map_iff in Hf as (g & <- & _).
      apply zlen_ByteEncode; [lia|]. rewrite zlen_fips_order. reflexivity. }
  clearbody T. apply wp_bind, wp_asplice; try lia.
  apply wp_memcpy; try lia. { rewrite zlen_splice; lia. }
  change (0 + 32) with 32. rewrite slice_zlen by auto.
  replace (splice (splice r 0 T) (384 * MLKEM_K p) seed) with (T ++ seed); [exact HQ|].
  symmetry. unfold splice at 2. cbn [Z.to_nat firstn app Nat.add].
  replace (length T) with (Z.to_nat (384 * MLKEM_K p)) by (unfold zlen in LT; lia).
  set (rest := skipn _ r). assert (Lrest : zlen rest = 32) by (unfold rest; rewrite zlen_skipn; lia).
  rewrite <- (app_nil_r rest). rewrite splice_app by lia. now rewrite app_nil_r.
Qed.

(** the vector decoded from bytes, in the order of the assembly *)
Lemma residues_custom r : zlen r = 256 -> residues (custom_order r) = custom_order (residues r).
Proof.
  intros L. assert (L' : zlen (residues r) = 256) by (unfold residues; now rewrite zlen_map).
  apply fips_order_inj; [unfold residues; now rewrite zlen_map, zlen_custom_order|apply zlen_custom_order|].
  rewrite <- residues_fips by apply zlen_custom_order. now rewrite !fips_custom_order.
Qed.
Lemma fields_each_x86 p B : 384 * MLKEM_K p <= zlen B ->
  each (MLKEM_K p) (fun _ x => zlen x = 256 /\ int16s x)
    (map (fun i => custom_order (fields 12 (slice B (384 * i) (384 * i + 384)))) (range (MLKEM_K p))).
Proof.
  intros LB. pose proof (MLKEM_K_range p) as HK. apply each_map; [lia|]. intros i Hi.
  assert (L : zlen (slice B (384 * i) (384 * i + 384)) = 384) by (rewrite zlen_slice; lia).
  split; [apply zlen_custom_order|]. pose proof (fields_range 12 (slice B (384 * i) (384 * i + 384)) ltac:(lia) ltac:(lia)) as F.
  unfold int16s. apply (fips_order_Forall _ _ (zlen_custom_order _)). rewrite fips_custom_order by apply zlen_fields.
  eapply Forall_impl; [|exact F]. cbv beta. change (2 ^ 12) with 4096. intros. lia.
Qed.
Lemma fields_decode_x86 p B :
  map residues (map (fun i => custom_order (fields 12 (slice B (384 * i) (384 * i + 384)))) (range (MLKEM_K p))) =
  map custom_order (decode_vec (set_of p) 12 B).
Proof.
  rewrite <- fields_decode. rewrite !map_map. apply map_ext. intros i.
  apply residues_custom, zlen_fields.
Qed.
Lemma decode_each_x86 p B : 384 * MLKEM_K p <= zlen B -> bytes B ->
  let v := map custom_order (decode_vec (set_of p) 12 B) in
  each (MLKEM_K p) (fun _ x => zlen x = 256 /\ bounded 3329 x) v /\
  map fips_order v = decode_vec (set_of p) 12 B.
Proof.
  intros LB HB v. unfold v. destruct (decode_each p B LB HB) as [Ld Hd]. split.
  - split; [now rewrite zlen_map|]. intros i Hi. rewrite (zget_map _ [] []) by lia.
    destruct (Hd i Hi) as [L U]. split; [apply zlen_custom_order|].
    apply (ford_bounded _ _ (zlen_custom_order _)). rewrite fips_custom_order by auto. now apply ubounded_bounded.
  - apply (vec_eq (MLKEM_K p)); [now rewrite !zlen_map|exact Ld|]. intros i Hi.
    rewrite !(zget_map _ [] []) by (rewrite ?zlen_map; lia). apply fips_custom_order. now apply Hd.
Qed.
Lemma wp_unpack_sk_x86 N J p r B (Q : list (list Z) -> Prop) : vec_of (MLKEM_K p) r ->
  384 * MLKEM_K p <= zlen B -> bytes B -> Q (map custom_order (decode_vec (set_of p) 12 B)) ->
  wpn N (unpack_sk_x86_64 J p r B) Q.
Proof.
  intros Hr LB HB HQ. unfold unpack_sk_x86_64.
  apply wp_bind, wp_polyvec_frombytes_x86; auto. apply wp_polyvec_reduce_x86; [now apply fields_each_x86|].
  now rewrite fields_decode_x86.
Qed.
Lemma wp_unpack_pk_x86 N J p r seed B (Q : list (list Z) * list Z -> Prop) : vec_of (MLKEM_K p) r -> zlen seed = 32 ->
  zlen B = 384 * MLKEM_K p + 32 -> bytes B ->
  Q (map custom_order (decode_vec (set_of p) 12 B), slice B (384 * MLKEM_K p) (384 * MLKEM_K p + 32)) ->
  wpn N (unpack_pk_x86_64 J p r seed B) Q.
Proof.
  intros Hr Ls LB HB HQ. pose proof (MLKEM_K_range p) as HK. unfold unpack_pk_x86_64, MLKEM_SYMBYTES.
  assert (E : MLKEM_POLYVECBYTES p = 384 * MLKEM_K p) by (destruct p; reflexivity). rewrite E.
  apply wp_bind, wp_polyvec_frombytes_x86; auto; [lia|].
  apply wp_bind, wp_memcpy; try lia.
  set (rho := slice B _ _) in *. assert (Lr : zlen rho = 32) by (unfold rho; rewrite zlen_slice; lia).
  replace (splice seed 0 rho) with rho.
  2:{ unfold splice. cbn [Z.to_nat firstn app Nat.add]. rewrite skipn_all2; [now rewrite app_nil_r|]. unfold zlen in *. lia. }
  apply wp_bind, wp_polyvec_reduce_x86; [apply fields_each_x86; lia|].
  apply wp_ret. now rewrite fields_decode_x86.
Qed.

(** ** Key generation *)

(** indcpa_keypair_derand after the two seeds have been computed *)
Definition keypair_tail_x86 (J : junk) (fuel : nat) (p : pset) (pk sk publicseed noiseseed : list Z) : M (list Z * list Z) :=
  let K := MLKEM_K p in
  let a := uninit2 J 1 (K * K) MLKEM_N in
  let e := uninit2 J 2 K MLKEM_N in
  let pkpv := uninit2 J 3 K MLKEM_N in
  let skpv := uninit2 J 4 K MLKEM_N in
  let skpv_cache := uninit2 J 5 K (MLKEM_N / 2) in
  a <- gen_matrix_x86_64 (sub J 8) fuel p a publicseed false ;;
  '(skpv, e, pkpv) <- keypair_noise_x86_64 (sub J 9) p skpv e pkpv noiseseed ;;
  skpv <- polyvec_ntt_x86_64 (sub J 11) p skpv ;;
  e <- polyvec_ntt_x86_64 (sub J 12) p e ;;
  skpv_cache <- polyvec_mulcache_compute_x86_64 p skpv_cache skpv ;;
  pkpv <- matvec_mul_x86_64 (sub J 10) p pkpv a skpv skpv_cache ;;
  pkpv <- polyvec_tomont_x86_64 (sub J 13) p pkpv ;;
  pkpv <- polyvec_add p pkpv e ;;
  pkpv <- polyvec_reduce_x86_64 (sub J 14) p pkpv ;;
  skpv <- polyvec_reduce_x86_64 (sub J 15) p skpv ;;
  sk <- pack_sk_x86_64 (sub J 16) p sk skpv ;;
  pk <- pack_pk_x86_64 (sub J 17) p pk pkpv publicseed ;;
  ret (pk, sk).

Lemma ford_residues K v : each K (fun _ x => zlen x = 256) v -> map fips_order (map residues v) = map residues (map fips_order v).
Proof.
  intros [L H]. rewrite !map_map. apply map_ext_in. intros x Hx. symmetry. apply residues_fips.
  assert (F : Forall (fun x => zlen x = 256) v) by (apply (Forall_zget _ []); now rewrite L).
  rewrite Forall_forall in F. auto.
Qed.

Lemma wp_keypair_tail_x86 (N : Prop) J fuel p pk sk rho sigma (Q : list Z * list Z -> Prop) :
  let P := set_of p in
  zlen pk = 384 * MLKEM_K p + 32 -> zlen sk = 384 * MLKEM_K p -> zlen rho = 32 -> bytes rho -> zlen sigma = 32 -> bytes sigma ->
  (keys_from_seeds P (3 + Z.of_nat fuel) rho sigma = None -> N) ->
  (forall ek dk, keys_from_seeds P (3 + Z.of_nat fuel) rho sigma = Some (ek, dk) -> Q (ek, dk)) ->
  wpn N (keypair_tail_x86 J fuel p pk sk rho sigma) Q.
Proof.
  intros P Lpk Lsk Lr Br Ls Bs HN HQ. pose proof (MLKEM_K_range p) as HK.
  unfold keys_from_seeds in HN, HQ. unfold P in *. clear P. rewrite <- MLKEM_K_k in HN, HQ. unfold keypair_tail_x86. cbv zeta.
  unfold MLKEM_SYMBYTES, MLKEM_N. set (K := MLKEM_K p) in *. change (256 / 2) with 128.
  set (P := set_of p) in *. cbv zeta in HN, HQ.
  apply wp_bind, wp_matrix_x86; fold K; fold P; auto.
  { apply (uninit2_each J 1 (K * K) 256); nia. } { apply (uninit2_each J 1 (K * K) 256); nia. }
  { intros E. apply HN. now rewrite E. }
  intros A a EA Hma Ema. rewrite EA in HN, HQ. destruct (ExpandA_rows p (3 + Z.of_nat fuel) rho A Br ltac:(lia) EA) as [RA _]. fold K in RA. rewrite stored_false in Ema.
  apply wp_bind, wp_keypair_noise_x86; auto; try (apply uninit_polys; lia). intros pkpv Hpk. fold K P in Hpk |- *. cbv beta iota.
  destruct (eta_ok p) as [He _]. fold P in He.
  apply wp_bind, wp_polyvec_ntt_x86. { eapply each_bw; [|apply nvec_each; auto]. lia. } intros sh Hsh.
  apply wp_bind, wp_polyvec_ntt_x86. { eapply each_bw; [|apply nvec_each; auto]. lia. } intros eh Heh.
  destruct (ntt_noise_x86 p (eta1 P) sigma 0 sh ltac:(apply nvec_spec1; auto; fold K; lia) Hsh) as [Es Vs].
  destruct (ntt_noise_x86 p (eta1 P) sigma K eh ltac:(apply nvec_spec1; auto; fold K; lia) Heh) as [Ee Ve].
  fold K P in Es, Vs, Ee, Ve, Hsh, Heh.
  assert (Hs1 : each K (fun _ x => zlen x = 256 /\ bounded 26632 x) sh) by (eapply each_weaken; [|exact Hsh]; cbv beta; tauto).
  assert (He1 : each K (fun _ x => zlen x = 256 /\ bounded 26632 x) eh) by (eapply each_weaken; [|exact Heh]; cbv beta; tauto).
  clear Hsh Heh.
  apply wp_bind, wp_polyvec_mulcache_x86; [apply zlen_uninit2; lia|apply Hs1|]. intros ca Hca.
  apply wp_bind, (wp_matvec_x86 N _ p pkpv A); auto. { apply vec_each; apply Hpk. }
  fold K. intros b Hb. apply wp_bind, wp_polyvec_tomont_x86.
  { eapply each_weaken; [|exact Hb]. cbv beta. intros i x _ (L & B & _). split; auto. eapply bounded_int16s; [|exact B]. lia. }
  fold K. intros t Ht. apply wp_bind, (wp_polyvec_add N 3329 26632); [lia| |exact He1|].
  { eapply each_weaken; [|exact Ht]. cbv beta. tauto. }
  fold K. intros t1 Ht1.
  assert (Lt1 : each K (fun _ x => zlen x = 256) t1) by (eapply each_weaken; [|exact Ht1]; cbv beta; intros i x _ ->; apply zlen_zadd).
  apply wp_bind, wp_polyvec_reduce_x86.
  { fold K. split; [apply Ht1|]. intros i Hi. destruct Ht1 as [_ Ht1]. rewrite (Ht1 i Hi). split; [apply zlen_zadd|].
    apply (bounded_int16s (3329 + 26632 - 1)); [lia|]. apply bounded_zadd; try apply Ht; try apply He1; auto. }
  apply wp_bind, wp_polyvec_reduce_x86. { eapply each_i16; [|exact Hs1]. lia. }
  assert (Lsh : each K (fun _ x => zlen x = 256) sh) by (eapply each_weaken; [|exact Hs1]; cbv beta; tauto).
  destruct (map_residues_ok K sh Lsh) as [Vsh Ush].
  destruct (map_residues_ok K t1 Lt1) as [Vt1 Ut1].
  apply wp_bind. unfold pack_sk_x86_64. apply wp_bind, wp_POLYVEC_BOUND.
  { eapply Forall_impl; [|exact Ush]. intros. now apply ubounded_bounded. }
  apply wp_polyvec_tobytes_x86; auto. apply wp_bind, wp_pack_pk_x86; auto. apply wp_ret.
  rewrite concat_ford. rewrite !(ford_residues K) by assumption. apply HQ. do 2 f_equal.
  - do 2 f_equal. f_equal. destruct RA as [LA RA]. destruct Ve as (_ & LV & Ve).
    assert (LM : zlen (mat_vec A (map NTT (noise_vec P (eta1 P) sigma 0))) = K) by now apply zlen_mat_vec.
    destruct Lt1 as [Lt1 _].
    apply (vec_eq K).
    + rewrite zlen_vec_plus; [exact LM|]. unfold vec in *. congruence.
    + now rewrite !zlen_map.
    + intros i Hi. rewrite zget_vec_plus; unfold vec in *; [|congruence|now rewrite LM].
      rewrite zget_mat_vec by (unfold vec; now rewrite LA).
      rewrite (zget_map residues [] []) by (rewrite ?zlen_map; lia). rewrite (zget_map fips_order [] []) by lia. destruct Ht1 as [_ Ht1]. rewrite (Ht1 i Hi).
      destruct Ht as [Lt Ht]. destruct (Ht i Hi) as (Lti & _ & Rt). destruct He1 as [Leh He1]. destruct (He1 i Hi) as [Lei _].
      destruct Hb as [_ Hb]. destruct (Hb i Hi) as (Lbi & _ & Rb).
      rewrite ford_zadd by assumption.
      symmetry. apply repr_residues; [|apply poly_plus_reduced].
      apply repr_zadd.
      * rewrite <- (dot_vrepr K _ (map fips_order sh)); [|now apply RA|exact Vs].
        eapply repr_scale_inv; [|exact Rb]. rewrite <- ford_scale by assumption. apply ford_repr; auto. now rewrite zlen_scale.
      * specialize (Ve i Hi). rewrite (zget_map _ [] []) in Ve by lia. exact Ve.
  - now rewrite <- Es.
Qed.

Lemma wp_indcpa_keypair_x86 (N : Prop) J fuel p pk sk coins (Q : list Z * list Z -> Prop) :
  let P := set_of p in
  zlen pk = 384 * MLKEM_K p + 32 -> zlen sk = 384 * MLKEM_K p -> zlen coins = 32 -> bytes coins ->
  (K_PKE_KeyGen P (3 + Z.of_nat fuel) coins = None -> N) ->
  (forall ek dk, K_PKE_KeyGen P (3 + Z.of_nat fuel) coins = Some (ek, dk) -> Q (ek, dk)) ->
  wpn N (indcpa_keypair_derand_x86_64 J fuel p pk sk coins) Q.
Proof.
  intros P Lpk Lsk Lc Bc HN HQ. pose proof (MLKEM_K_range p) as HK.
  rewrite KeyGen_seeds in HN, HQ. unfold P in *. clear P. rewrite <- MLKEM_K_k in HN, HQ. unfold indcpa_keypair_derand_x86_64.
  unfold MLKEM_SYMBYTES, MLKEM_N. set (K := MLKEM_K p) in *. change (256 / 2) with 128. change (2 * 32) with 64. change (32 + 1) with 33.
  set (P := set_of p) in *. 
  rename coins into d, Lc into Ld, Bc into Bd.
  apply wp_bind, ext_copy; auto. intros e0 Le0 He0.
  apply wp_bind, wp_aset; [lia|]. rewrite He0. clear e0 Le0 He0.
  assert (BdK : bytes (d ++ [K])).
  { apply Forall_app; split; [exact Bd|]. constructor; [unfold is_byte; lia|constructor]. }
  apply wp_bind. unfold hash_g. apply wp_sha3_512; auto; try lia.
  { rewrite zlen_app, Ld. change (zlen [K]) with 1. lia. } { rewrite zlen_uninit; lia. }
  rewrite (slice_zlen (d ++ [K])) by (rewrite zlen_app, Ld; reflexivity).
  unfold G in HN, HQ. set (g := SHA3_512 (d ++ [K])) in *.
  assert (Lg : zlen g = 64) by now apply zlen_SHA3_512. assert (Bg : bytes g) by now apply bytes_SHA3_512.
  replace (g ++ skipn 64 _) with g.
  2:{ rewrite skipn_all2; [now rewrite app_nil_r|]. pose proof (zlen_uninit J 0 64). unfold zlen in *. lia. }
  clearbody g. apply wp_bind, wp_aslice; try lia. apply wp_bind, wp_aslice; try lia.
  change (0 + 32) with 32. change (32 + 32) with 64.
  set (rho := slice g 0 32) in *. set (sigma := slice g 32 64) in *.
  assert (Lr : zlen rho = 32) by (unfold rho; rewrite zlen_slice; lia).
  assert (Ls : zlen sigma = 32) by (unfold sigma; rewrite zlen_slice; lia).
  assert (Br : bytes rho) by (apply bytes_slice; auto; lia). assert (Bs : bytes sigma) by (apply bytes_slice; auto; lia).
  clearbody rho sigma. clear g Lg Bg. cbv beta iota in HN, HQ.
  apply (wp_keypair_tail_x86 N J fuel p pk sk rho sigma Q); auto.
Qed.

(** ** Encryption *)

Lemma wp_indcpa_enc_x86 (N : Prop) J fuel p c m pk coins (Q : list Z -> Prop) :
  let P := set_of p in
  zlen c = 32 * (du P * MLKEM_K p + dv P) -> zlen m = 32 -> bytes m ->
  zlen pk = 384 * MLKEM_K p + 32 -> bytes pk -> zlen coins = 32 -> bytes coins ->
  (K_PKE_Encrypt P (3 + Z.of_nat fuel) pk m coins = None -> N) ->
  (forall ct, K_PKE_Encrypt P (3 + Z.of_nat fuel) pk m coins = Some ct -> Q ct) ->
  wpn N (indcpa_enc_x86_64 J fuel p c m pk coins) Q.
Proof.
  intros P Lc Lm Bm Lpk Bpk Lco Bco HN HQ. pose proof (MLKEM_K_range p) as HK.
  unfold K_PKE_Encrypt in HN, HQ. unfold P in *. clear P. rewrite <- MLKEM_K_k in HN, HQ. unfold indcpa_enc_x86_64.
  unfold MLKEM_SYMBYTES, MLKEM_N. set (K := MLKEM_K p) in *. change (256 / 2) with 128.
  set (P := set_of p) in *. set (rho := slice pk (384 * K) (384 * K + 32)) in *.
  assert (Lr : zlen rho = 32) by (unfold rho; rewrite zlen_slice; lia).
  assert (Br : bytes rho) by (apply bytes_slice; auto; lia).
  apply wp_bind, wp_unpack_pk_x86; fold K; auto. { apply uninit_polys; lia. }
  fold P rho. cbv beta iota.
  destruct (frommsg_ok m Lm Bm) as (Em & Lmu & Bmu). set (mu := map (Decompress 1) (ByteDecode 1 m)) in *.
  apply wp_bind, wp_poly_frommsg; auto. rewrite Em.
  cbv zeta in HN, HQ. fold mu in HQ. clearbody mu rho.
  apply wp_bind, wp_matrix_x86; fold K; fold P; auto.
  { apply (uninit2_each J 4 (K * K) 256); nia. } { apply (uninit2_each J 4 (K * K) 256); nia. }
  { intros E. apply HN. now rewrite E. }
  intros A a EA Hma Ema. rewrite EA in HN, HQ.
  destruct (ExpandA_rows p (3 + Z.of_nat fuel) rho A Br ltac:(lia) EA) as [_ RA]. fold K in RA. rewrite stored_true in Ema.
  apply wp_bind, wp_enc_noise_x86; auto; try (apply uninit_polys; lia).
  intros b0 Hb0. fold K P in Hb0 |- *. cbv beta iota.
  destruct (eta_ok p) as [He He2]. fold P in He, He2.
  apply wp_bind, wp_polyvec_ntt_x86. { eapply each_bw; [|apply nvec_each; auto]. lia. } intros sh Hsh.
  destruct (ntt_noise_x86 p (eta1 P) coins 0 sh ltac:(apply nvec_spec1; auto; fold K; lia) Hsh) as [Es Vs].
  fold K P in Es, Vs, Hsh.
  assert (Hs1 : each K (fun _ x => zlen x = 256 /\ bounded 26632 x) sh) by (eapply each_weaken; [|exact Hsh]; cbv beta; tauto).
  clear Hsh.
  apply wp_bind, wp_polyvec_mulcache_x86; [apply zlen_uninit2; lia|apply Hs1|]. intros ca Hca.
  apply wp_bind, (wp_matvec_x86 N _ p b0 (transpose A)); auto. { apply vec_each; apply Hb0. }
  fold K. intros b Hb.
  destruct (decode_each_x86 p pk ltac:(fold K; lia) Bpk) as [Hd Ed]. fold K P in Hd, Ed.
  apply wp_bind, wp_basemul_acc_x86; auto.
  intros v Lv Bv Rv. rewrite Ed in Rv.
  apply wp_bind, wp_polyvec_invntt_x86.
  { fold K. eapply each_weaken; [|exact Hb]. cbv beta. intros i x _ (L & B & _). split; auto. eapply bounded_int16s; [|exact B]. lia. }
  fold K. intros b1 Hb1. apply wp_bind, wp_invntt_x86; auto. { eapply bounded_int16s; [|exact Bv]. lia. }
  intros v1 Lv1 Bv1 Ev1.
  pose proof (nvec_each p (eta2 P) coins K He2) as Hn2. fold K in Hn2.
  apply wp_bind, (wp_polyvec_add N 26632 4); [lia| |exact Hn2|]. { fold K. eapply each_weaken; [|exact Hb1]. cbv beta. tauto. }
  fold K. intros b2 Hb2.
  assert (Bn : bounded 4 (noise (eta2 P) coins (2 * K))).
  { apply bounded_noise; auto; lia. }
  apply wp_bind, (wp_poly_add_b N 26632 4); try apply zlen_noise; try lia; try assumption.
  apply wp_bind, (wp_poly_add_b N 26635 3329); try apply zlen_zadd; try assumption; [|now apply ubounded_bounded|lia|].
  { apply (bounded_zadd 26632 4); auto. }
  apply wp_bind, wp_polyvec_reduce_x86.
  { fold K. split; [apply Hb2|]. intros i Hi. destruct Hb2 as [_ Hb2]. rewrite (Hb2 i Hi). split; [apply zlen_zadd|].
    apply (bounded_int16s 26635); [lia|]. apply (bounded_zadd 26632 4); try apply Hb1; try apply Hn2; auto. }
  apply wp_bind, wp_reduce_x86. { apply zlen_zadd. }
  { apply (bounded_int16s 29963); [lia|]. apply (bounded_zadd 26635 3329); auto; [|now apply ubounded_bounded].
    apply (bounded_zadd 26632 4); auto. }
  destruct (map_residues_ok K b2) as [Vb2 Ub2]. { eapply each_weaken; [|exact Hb2]. cbv beta. intros i x _ ->. apply zlen_zadd. }
  assert (EV : residues (zadd (zadd v1 (noise (eta2 P) coins (2 * K))) mu) =
    poly_plus (poly_plus (NTT_inv (dot (decode_vec P 12 pk) (map NTT (noise_vec P (eta1 P) coins 0))))
       (SamplePolyCBD (eta2 P) (PRF (eta2 P) coins (2 * K)))) mu).
  { apply repr_residues; [|apply poly_plus_reduced]. apply repr_zadd; [|now apply repr_refl].
    apply repr_zadd; [|apply noise_repr; auto; lia].
    apply residues_repr; [exact Lv1|]. rewrite <- (dot_vrepr K _ (map fips_order sh)); [|rewrite decode_len; [symmetry; apply MLKEM_K_k|unfold P; rewrite <- MLKEM_K_k; fold K; lia]|exact Vs].
    eapply invntt_of_basemul; [exact Lv1|exact Rv|exact Ev1]. }
  assert (EU : map residues b2 =
    vec_plus (map NTT_inv (mat_vec (transpose A) (map NTT (noise_vec P (eta1 P) coins 0)))) (noise_vec P (eta2 P) coins K)).
  { pose proof (nvec_spec2 p coins K Bco ltac:(lia) ltac:(fold K; lia)) as E2. fold P K in E2. rewrite <- E2.
    destruct RA as [LA RA].
    assert (LM : zlen (map NTT_inv (mat_vec (transpose A) (map NTT (noise_vec P (eta1 P) coins 0)))) = K).
    { rewrite zlen_map. now apply zlen_mat_vec. }
    assert (LN : zlen (map residues (nvec (eta2 P) coins K K)) = K) by (rewrite zlen_map; apply Hn2).
    apply (vec_eq K).
    - apply Vb2.
    - rewrite zlen_vec_plus; [exact LM|]. unfold vec in *. congruence.
    - intros i Hi. rewrite zget_vec_plus; unfold vec in *; [|congruence|now rewrite LM].
      rewrite (zget_map NTT_inv [] []) by (rewrite zlen_map in LM; now rewrite LM).
      rewrite zget_mat_vec by (unfold vec; now rewrite LA).
      rewrite (zget_map residues [] [] b2) by (destruct Hb2; lia).
      rewrite (zget_map residues [] [] (nvec _ _ _ _)) by (destruct Hn2; lia).
      destruct Hb2 as [_ Hb2]. rewrite (Hb2 i Hi).
      apply repr_residues; [|apply poly_plus_reduced].
      destruct Hb1 as [_ Hb1]. destruct (Hb1 i Hi) as (Lx & _ & Ex). destruct Hb as [_ Hb]. destruct (Hb i Hi) as (_ & _ & Rx).
      apply repr_zadd.
      + apply residues_repr; [exact Lx|]. rewrite <- (dot_vrepr K _ (map fips_order sh)); [|now apply RA|exact Vs].
        eapply invntt_of_basemul; [exact Lx|exact Rx|exact Ex].
      + apply residues_repr; [|reflexivity]. now apply Hn2. }
  apply wp_pack_ciphertext; fold P; fold K; auto.
  { rewrite EV. apply poly_plus_reduced. }
  rewrite EV, EU. apply HQ. reflexivity.
Qed.

(** ** Decryption *)

Lemma wp_indcpa_dec_x86 N J p m c sk (Q : list Z -> Prop) :
  let P := set_of p in
  zlen m = 32 -> zlen c = 32 * (du P * MLKEM_K p + dv P) -> bytes c ->
  zlen sk = 384 * MLKEM_K p -> bytes sk ->
  Q (K_PKE_Decrypt P sk c) -> wpn N (indcpa_dec_x86_64 J p m c sk) Q.
Proof.
  intros P Lm Lc Bc Lsk Bsk HQ. pose proof (MLKEM_K_range p) as HK. destruct (du_dv p) as (_ & _ & Hdu & Hdv).
  unfold K_PKE_Decrypt in HQ. cbv zeta in HQ. unfold indcpa_dec_x86_64, MLKEM_N. set (K := MLKEM_K p) in *.
  assert (EK : k P = K) by (symmetry; apply MLKEM_K_k). rewrite EK in HQ. fold P in Hdu, Hdv.
  apply wp_bind, wp_unpack_ciphertext; fold K; auto. { apply uninit_polys; lia. }
  fold P. set (c2 := slice c _ (32 * (du P * K + dv P))) in *.
  assert (Hu : each K (fun _ x => zlen x = 256 /\ ubounded 3329 x)
    (map (map (Decompress (du P))) (decode_vec P (du P) (slice c 0 (32 * du P * K))))).
  { unfold P, K. rewrite decode_du by (fold P K; nia). fold P K. apply each_map; [lia|]. intros i Hi.
    split; [rewrite zlen_map; apply zlen_fields|]. apply Decompress_fields_range; [lia|]. rewrite zlen_slice; nia. }
  assert (L2 : zlen c2 = 32 * dv P) by (unfold c2; rewrite zlen_slice; nia).
  assert (Hv : zlen (map (Decompress (dv P)) (ByteDecode (dv P) c2)) = 256 /\ ubounded 3329 (map (Decompress (dv P)) (ByteDecode (dv P) c2))).
  { rewrite ByteDecode_fields by lia. split; [rewrite zlen_map; apply zlen_fields|]. apply Decompress_fields_range; lia. }
  set (u := map (map (Decompress (du P))) _) in *. set (v := map (Decompress (dv P)) _) in *. clearbody u v. destruct Hv as [Lv Bv].
  apply wp_bind, wp_unpack_sk_x86; auto. { apply uninit_polys; lia. } { fold K; lia. }
  fold P. destruct (decode_each_x86 p sk ltac:(fold K; lia) Bsk) as [Hd Ed]. fold P K in Hd, Ed.
  apply wp_bind, wp_polyvec_ntt_x86.
  { fold K. eapply each_weaken; [|exact Hu]. cbv beta. intros i x _ [L B]. split; auto. now apply ubounded_bounded. }
  fold K. intros uh Huh. apply wp_bind, wp_basemul_acc_x86'; auto.
  { fold K. eapply each_weaken; [|exact Huh]. cbv beta. intros i x _ (L & B & _). split; auto. }
  intros sb Lsb Bsb Rsb. rewrite Ed in Rsb.
  apply wp_bind, wp_invntt_x86; auto. { eapply bounded_int16s; [|exact Bsb]. lia. } intros w Lw Bw Ew.
  apply wp_bind, (wp_poly_sub_b N 3329 26632); auto; [now apply ubounded_bounded|lia|].
  apply wp_bind, wp_reduce_x86. { apply zlen_zsub. }
  { apply (bounded_int16s (3329 + 26632 - 1)); [lia|]. apply bounded_zsub; auto. now apply ubounded_bounded. }
  assert (E : residues (zsub v w) = poly_minus v (NTT_inv (dot (decode_vec P 12 sk) (map NTT u)))).
  { apply repr_residues; [|apply poly_minus_reduced]. apply repr_zsub; [now apply repr_refl|].
    apply residues_repr; [exact Lw|]. rewrite <- (dot_vrepr K _ (map fips_order uh)); [|rewrite decode_len; [exact EK|rewrite EK; lia]|].
    - eapply invntt_of_basemul; [exact Lw|exact Rsb|exact Ew].
    - destruct Huh as [Luh Huh]. split; [now rewrite zlen_map|]. split; [rewrite zlen_map; apply Hu|]. intros i Hi.
      destruct (Huh i Hi) as (Lx & _ & Ex). rewrite (zget_map fips_order [] []) by lia. apply residues_repr; [apply zlen_fips_order|]. rewrite Ex.
      symmetry. apply (zget_map NTT [] []). destruct Hu as [-> _]. lia. }
  apply wp_poly_tomsg; auto; [rewrite E; apply poly_minus_reduced|]. rewrite E. exact HQ.
Qed.
