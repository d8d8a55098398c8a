(** * The K-PKE component scheme in the AArch64 build *)

From Coq Require Import ZArith List Bool Lia.
From Verif Require Import ModelA64Poly ModelA64Fips202 ModelA64Sponge ModelA64Indcpa ProofA64Word ProofA64Poly
  ProofA64Hash ProofA64Matrix ProofA64Noise.
From Verif Require Import CSem ModelArith ModelKeccak ModelIndcpa Spec202 Spec203 SpecLink
  CSemFacts ProofScalar ProofBits ProofPack ProofRej ProofCbd ProofSponge ProofHash
  ProofSum ProofNttSpec ProofRing ProofNtt ProofMul ProofMatrix ProofNoise ProofPke.
Import ListNotations.
Open Scope Z_scope.
#[local] Existing Instance LittleEndian.
Ltac Zify.zify_post_hook ::= idtac.

Lemma wp_matvec_a64 bd N J p out A v vc (Q : list (list Z) -> Prop) :
  let K := MLKEM_K p in
  each K (fun _ x => zlen x = 256) out -> rows_ok K A ->
  each K (fun _ x => zlen x = 256 /\ bounded 26632 x) v ->
  each K (fun i x => is_cache x (zget [] v i)) vc ->
  (forall r, each K (fun i x => zlen x = 256 /\ bounded 13316 x /\
       repr (scale 65536 x) (dot (zget [] A i) v)) r -> Q r) ->
  wpn N (matvec_mul_aarch64 bd J p out (concat A) v vc) Q.
Proof.
  intros K Ho HA Hv Hc HQ. pose proof (MLKEM_K_range p) as HK. fold K in HK. unfold matvec_mul_aarch64. fold K.
  eapply wp_for_rel; [apply Ho| |exact HQ].
  intros i s Hi Ls Es. apply wp_bind, (wp_aget []); [lia|]. rewrite Es.
  assert (LA : zlen (concat A) = K * K).
  { rewrite (concat_const K); [|lia|now apply rows_lens]. destruct HA as [-> _]. reflexivity. }
  apply wp_bind, wp_aslice; [nia|lia|nia|].
  rewrite slice_concat_const; [|lia|now apply rows_lens|destruct HA as [-> _]; lia].
  apply wp_bind, wp_basemul_acc_a64; [now apply Ho|now apply HA|exact Hv|exact Hc|].
  intros r' L' B' E'. apply wp_aset; [lia|]. exists r'. auto.
Qed.

Lemma ntt_noise_a64 p eta seed first r : bytes seed -> 0 <= first -> first + MLKEM_K p <= 256 ->
  map residues (nvec eta seed first (MLKEM_K p)) = noise_vec (set_of p) eta seed first ->
  each (MLKEM_K p) (fun i x => zlen x = 256 /\ bounded 19974 x /\
       residues x = NTT (zget [] (nvec eta seed first (MLKEM_K p)) i)) r ->
  map residues r = map NTT (noise_vec (set_of p) eta seed first) /\
  vrepr (MLKEM_K p) r (map NTT (noise_vec (set_of p) eta seed first)).
Proof.
  intros Bs Hf Hf' E H. apply ntt_noise; auto. eapply each_weaken; [|exact H]. cbv beta.
  intros i x _ (L & B & R). split; [exact L|]. split; [|exact R]. eapply bounded_weaken; [|exact B]. lia.
Qed.

(** ** Layout of keys *)

Lemma wp_pack_pk_a64 bd N J p r v seed (Q : list Z -> Prop) :
  zlen r = 384 * MLKEM_K p + 32 -> vec_of (MLKEM_K p) v -> Forall (ubounded 3329) v -> zlen seed = 32 ->
  Q (concat (map (ByteEncode 12) v) ++ seed) -> wpn N (pack_pk_aarch64 bd J p r v seed) Q.
Proof.
  intros Lr Hv Bv Ls HQ. pose proof (MLKEM_K_range p) as HK. unfold pack_pk_aarch64, MLKEM_SYMBYTES.
  assert (E : MLKEM_POLYVECBYTES p = 384 * MLKEM_K p) by (destruct p; reflexivity). rewrite E.
  apply wp_bind, wp_POLYVEC_BOUND.
  { eapply Forall_impl; [|exact Bv]. intros. now apply ubounded_bounded. }
  apply wp_bind, wp_aslice; try lia. apply wp_bind, wp_polyvec_tobytes_a64; auto.
  { rewrite zlen_slice; lia. }
  set (T := concat _) in *.
  assert (LT : zlen T = 384 * MLKEM_K p).
  { unfold T. rewrite (concat_const 384); [|lia|].
    - rewrite zlen_map. destruct Hv as [-> _]. reflexivity.
    - apply Forall_forall. intros x Hx. apply in_map_iff in Hx as (f & <- & Hf).
      apply zlen_ByteEncode; [lia|]. destruct Hv as [_ Hv]. rewrite Forall_forall in Hv. rewrite (Hv f Hf). reflexivity. }
  clearbody T. apply wp_bind, wp_asplice; try lia.
  apply wp_memcpy; try lia. { rewrite zlen_splice; lia. }
  change (0 + 32) with 32. rewrite slice_zlen by auto.
  replace (splice (splice r 0 T) (384 * MLKEM_K p) seed) with (T ++ seed); [exact HQ|].
  symmetry. unfold splice at 2. cbn [Z.to_nat firstn app Nat.add].
  replace (length T) with (Z.to_nat (384 * MLKEM_K p)) by (unfold zlen in LT; lia).
  set (rest := skipn _ r). assert (Lrest : zlen rest = 32) by (unfold rest; rewrite zlen_skipn; lia).
  rewrite <- (app_nil_r rest). rewrite splice_app by lia. now rewrite app_nil_r.
Qed.

Lemma wp_unpack_a64 bd N J p r B (Q : list (list Z) -> Prop) : vec_of (MLKEM_K p) r ->
  384 * MLKEM_K p <= zlen B -> bytes B -> Q (decode_vec (set_of p) 12 B) ->
  wpn N (unpack_sk_aarch64 bd J p r B) Q.
Proof.
  intros Hr LB HB HQ. unfold unpack_sk_aarch64.
  apply wp_bind, wp_polyvec_frombytes; auto. apply wp_polyvec_reduce_a64; [now apply fields_each|].
  now rewrite fields_decode.
Qed.

Lemma wp_unpack_pk_a64 bd N J p r seed B (Q : list (list Z) * list Z -> Prop) : vec_of (MLKEM_K p) r -> zlen seed = 32 ->
  zlen B = 384 * MLKEM_K p + 32 -> bytes B ->
  Q (decode_vec (set_of p) 12 B, slice B (384 * MLKEM_K p) (384 * MLKEM_K p + 32)) ->
  wpn N (unpack_pk_aarch64 bd J p r seed B) Q.
Proof.
  intros Hr Ls LB HB HQ. pose proof (MLKEM_K_range p) as HK. unfold unpack_pk_aarch64, MLKEM_SYMBYTES.
  assert (E : MLKEM_POLYVECBYTES p = 384 * MLKEM_K p) by (destruct p; reflexivity). rewrite E.
  apply wp_bind, wp_polyvec_frombytes; auto; [lia|].
  apply wp_bind, wp_memcpy; try lia.
  set (rho := slice B _ _) in *. assert (Lr : zlen rho = 32) by (unfold rho; rewrite zlen_slice; lia).
  replace (splice seed 0 rho) with rho.
  2:{ unfold splice. cbn [Z.to_nat firstn app Nat.add]. rewrite skipn_all2; [now rewrite app_nil_r|]. unfold zlen in *. lia. }
  apply wp_bind, wp_polyvec_reduce_a64; [apply fields_each; lia|].
  apply wp_ret. now rewrite fields_decode.
Qed.

(** ** Key generation *)

(** indcpa_keypair_derand_aarch64 after the two seeds have been computed *)
Definition keypair_tail_a64 (bd : a64_build) (J : junk) (fuel : nat) (p : pset) (pk sk publicseed noiseseed : list Z)
  : M (list Z * list Z) :=
  let K := MLKEM_K p in
  let a := uninit2 J 1 (K * K) MLKEM_N in
  let e := uninit2 J 2 K MLKEM_N in
  let pkpv := uninit2 J 3 K MLKEM_N in
  let skpv := uninit2 J 4 K MLKEM_N in
  let skpv_cache := uninit2 J 5 K (MLKEM_N / 2) in
  a <- gen_matrix_aarch64 bd (sub J 8) fuel p a publicseed false ;;
  '(skpv, e, pkpv) <- keypair_noise_aarch64 bd (sub J 9) p skpv e pkpv noiseseed ;;
  skpv <- polyvec_ntt_aarch64 (b_arith bd) (sub J 11) p skpv ;;
  e <- polyvec_ntt_aarch64 (b_arith bd) (sub J 12) p e ;;
  skpv_cache <- polyvec_mulcache_compute_aarch64 (b_arith bd) (sub J 18) p skpv_cache skpv ;;
  pkpv <- matvec_mul_aarch64 bd (sub J 10) p pkpv a skpv skpv_cache ;;
  pkpv <- polyvec_tomont_aarch64 (b_arith bd) (sub J 13) p pkpv ;;
  pkpv <- polyvec_add p pkpv e ;;
  pkpv <- polyvec_reduce_aarch64 (b_arith bd) (sub J 14) p pkpv ;;
  skpv <- polyvec_reduce_aarch64 (b_arith bd) (sub J 15) p skpv ;;
  sk <- pack_sk_aarch64 bd (sub J 16) p sk skpv ;;
  pk <- pack_pk_aarch64 bd (sub J 17) p pk pkpv publicseed ;;
  ret (pk, sk).

Lemma wp_keypair_tail_a64 bd (N : Prop) J fuel p pk sk rho sigma (Q : list Z * list Z -> Prop) :
  let P := set_of p in
  zlen pk = 384 * MLKEM_K p + 32 -> zlen sk = 384 * MLKEM_K p -> zlen rho = 32 -> bytes rho -> zlen sigma = 32 -> bytes sigma ->
  (keys_from_seeds P (3 + Z.of_nat fuel) rho sigma = None -> N) ->
  (forall ek dk, keys_from_seeds P (3 + Z.of_nat fuel) rho sigma = Some (ek, dk) -> Q (ek, dk)) ->
  wpn N (keypair_tail_a64 bd J fuel p pk sk rho sigma) Q.
Proof.
  intros P Lpk Lsk Lr Br Ls Bs HN HQ. pose proof (MLKEM_K_range p) as HK.
  unfold keys_from_seeds in HN, HQ. unfold P in *. clear P. rewrite <- MLKEM_K_k in HN, HQ. unfold keypair_tail_a64. cbv zeta.
  unfold MLKEM_SYMBYTES, MLKEM_N. set (K := MLKEM_K p) in *. change (256 / 2) with 128.
  set (P := set_of p) in *. cbv zeta in HN, HQ.
  apply wp_bind, wp_matrix_a64; fold K; fold P; auto.
  { apply (uninit2_each J 1 (K * K) 256); nia. } { apply (uninit2_each J 1 (K * K) 256); nia. }
  { intros E. apply HN. now rewrite E. }
  intros A EA. rewrite EA in HN, HQ. destruct (ExpandA_rows p (3 + Z.of_nat fuel) rho A Br ltac:(lia) EA) as [RA _]. fold K in RA. rewrite stored_false.
  apply wp_bind, wp_keypair_noise_a64; auto; try (apply uninit_polys; lia). intros pkpv Hpk. fold K P in Hpk |- *. cbv beta iota.
  destruct (eta_ok p) as [He _]. fold P in He.
  apply wp_bind, wp_polyvec_ntt_a64. { eapply each_bw; [|apply nvec_each; auto]. lia. } intros sh Hsh.
  apply wp_bind, wp_polyvec_ntt_a64. { eapply each_bw; [|apply nvec_each; auto]. lia. } intros eh Heh.
  destruct (ntt_noise_a64 p (eta1 P) sigma 0 sh Bs ltac:(lia) ltac:(fold K; lia) ltac:(apply nvec_spec1; auto; lia) Hsh) as [Es Vs].
  destruct (ntt_noise_a64 p (eta1 P) sigma K eh Bs ltac:(lia) ltac:(fold K; lia) ltac:(apply nvec_spec1; auto; lia) Heh) as [Ee Ve].
  fold K P in Es, Vs, Ee, Ve, Hsh, Heh.
  assert (Hs1 : each K (fun _ x => zlen x = 256 /\ bounded 19974 x) sh) by (eapply each_weaken; [|exact Hsh]; cbv beta; tauto).
  assert (He1 : each K (fun _ x => zlen x = 256 /\ bounded 19974 x) eh) by (eapply each_weaken; [|exact Heh]; cbv beta; tauto).
  clear Hsh Heh.
  apply wp_bind, wp_polyvec_mulcache_a64; [apply uninit2_each; lia|eapply each_i16; [|exact Hs1]; lia|]. intros ca Hca.
  apply wp_bind, (wp_matvec_a64 bd N); auto. { apply vec_each; apply Hpk. } { eapply each_bw; [|exact Hs1]. lia. }
  fold K. intros b Hb. apply wp_bind, wp_polyvec_tomont_a64.
  { eapply each_weaken; [|exact Hb]. cbv beta. intros i x _ (L & B & _). split; auto. eapply bounded_int16s; [|exact B]. lia. }
  fold K. intros t Ht. apply wp_bind, (wp_polyvec_add N 3329 19974); [lia| |exact He1|].
  { eapply each_weaken; [|exact Ht]. cbv beta. tauto. }
  fold K. intros t1 Ht1.
  apply wp_bind, wp_polyvec_reduce_a64.
  { fold K. split; [apply Ht1|]. intros i Hi. destruct Ht1 as [_ Ht1]. rewrite (Ht1 i Hi). split; [apply zlen_zadd|].
    apply (bounded_int16s (3329 + 19974 - 1)); [lia|]. apply bounded_zadd; try apply Ht; try apply He1; auto. }
  apply wp_bind, wp_polyvec_reduce_a64. { eapply each_i16; [|exact Hs1]. lia. }
  destruct (map_residues_ok K sh) as [Vsh Ush]. { eapply each_weaken; [|exact Hs1]. cbv beta. tauto. }
  destruct (map_residues_ok K t1) as [Vt1 Ut1]. { eapply each_weaken; [|exact Ht1]. cbv beta. intros i x _ ->. apply zlen_zadd. }
  apply wp_bind. unfold pack_sk_aarch64. apply wp_bind, wp_POLYVEC_BOUND.
  { eapply Forall_impl; [|exact Ush]. intros. now apply ubounded_bounded. }
  apply wp_polyvec_tobytes_a64; auto. apply wp_bind, wp_pack_pk_a64; auto. apply wp_ret. apply HQ. do 2 f_equal.
  - do 2 f_equal. f_equal. destruct RA as [LA RA]. destruct Ve as (_ & LV & Ve).
    assert (LM : zlen (mat_vec A (map NTT (noise_vec P (eta1 P) sigma 0))) = K) by now apply zlen_mat_vec.
    apply (vec_eq K).
    + rewrite zlen_vec_plus; [exact LM|]. unfold vec in *. congruence.
    + apply Vt1.
    + intros i Hi. rewrite zget_vec_plus; unfold vec in *; [|congruence|now rewrite LM].
      rewrite zget_mat_vec by (unfold vec; now rewrite LA).
      destruct Ht1 as [Lt1 Ht1]. rewrite (zget_map residues [] []) by lia. rewrite (Ht1 i Hi).
      symmetry. apply repr_residues; [|apply poly_plus_reduced].
      apply repr_zadd; [|now apply Ve]. rewrite <- (dot_vrepr K _ sh); [|now apply RA|exact Vs].
      destruct Hb as [_ Hb]. destruct (Hb i Hi) as (_ & _ & Rb). eapply repr_scale_inv; [|exact Rb]. now apply Ht.
  - now rewrite <- Es.
Qed.

Lemma wp_indcpa_keypair_a64 bd (N : Prop) J fuel p pk sk coins (Q : list Z * list Z -> Prop) :
  let P := set_of p in
  zlen pk = 384 * MLKEM_K p + 32 -> zlen sk = 384 * MLKEM_K p -> zlen coins = 32 -> bytes coins ->
  (K_PKE_KeyGen P (3 + Z.of_nat fuel) coins = None -> N) ->
  (forall ek dk, K_PKE_KeyGen P (3 + Z.of_nat fuel) coins = Some (ek, dk) -> Q (ek, dk)) ->
  wpn N (indcpa_keypair_derand_aarch64 bd J fuel p pk sk coins) Q.
Proof.
  intros P Lpk Lsk Lc Bc HN HQ. pose proof (MLKEM_K_range p) as HK.
  rewrite KeyGen_seeds in HN, HQ. unfold P in *. clear P. rewrite <- MLKEM_K_k in HN, HQ. unfold indcpa_keypair_derand_aarch64.
  unfold MLKEM_SYMBYTES, MLKEM_N. set (K := MLKEM_K p) in *. change (256 / 2) with 128. change (2 * 32) with 64. change (32 + 1) with 33.
  set (P := set_of p) in *. 
  rename coins into d, Lc into Ld, Bc into Bd.
  apply wp_bind, ext_copy; auto. intros e0 Le0 He0.
  apply wp_bind, wp_aset; [lia|]. rewrite He0. clear e0 Le0 He0.
  assert (BdK : bytes (d ++ [K])).
  { apply Forall_app; split; [exact Bd|]. constructor; [unfold is_byte; lia|constructor]. }
  apply wp_bind. unfold hash_g_aarch64. apply wp_sha3_512_a64; auto; try lia.
  { rewrite zlen_app, Ld. change (zlen [K]) with 1. lia. } { rewrite zlen_uninit; lia. }
  rewrite (slice_zlen (d ++ [K])) by (rewrite zlen_app, Ld; reflexivity).
  unfold G in HN, HQ. set (g := SHA3_512 (d ++ [K])) in *.
  assert (Lg : zlen g = 64) by now apply zlen_SHA3_512. assert (Bg : bytes g) by now apply bytes_SHA3_512.
  replace (g ++ skipn 64 _) with g.
  2:{ rewrite skipn_all2; [now rewrite app_nil_r|]. pose proof (zlen_uninit J 0 64). unfold zlen in *. lia. }
  clearbody g. apply wp_bind, wp_aslice; try lia. apply wp_bind, wp_aslice; try lia.
  change (0 + 32) with 32. change (32 + 32) with 64.
  set (rho := slice g 0 32) in *. set (sigma := slice g 32 64) in *.
  assert (Lr : zlen rho = 32) by (unfold rho; rewrite zlen_slice; lia).
  assert (Ls : zlen sigma = 32) by (unfold sigma; rewrite zlen_slice; lia).
  assert (Br : bytes rho) by (apply bytes_slice; auto; lia). assert (Bs : bytes sigma) by (apply bytes_slice; auto; lia).
  clearbody rho sigma. clear g Lg Bg. cbv beta iota in HN, HQ.
  apply (wp_keypair_tail_a64 bd N J fuel p pk sk rho sigma Q); auto.
Qed.

(** ** Encryption *)

Lemma wp_indcpa_enc_a64 bd (N : Prop) J fuel p c m pk coins (Q : list Z -> Prop) :
  let P := set_of p in
  zlen c = 32 * (du P * MLKEM_K p + dv P) -> zlen m = 32 -> bytes m ->
  zlen pk = 384 * MLKEM_K p + 32 -> bytes pk -> zlen coins = 32 -> bytes coins ->
  (K_PKE_Encrypt P (3 + Z.of_nat fuel) pk m coins = None -> N) ->
  (forall ct, K_PKE_Encrypt P (3 + Z.of_nat fuel) pk m coins = Some ct -> Q ct) ->
  wpn N (indcpa_enc_aarch64 bd J fuel p c m pk coins) Q.
Proof.
  intros P Lc Lm Bm Lpk Bpk Lco Bco HN HQ. pose proof (MLKEM_K_range p) as HK.
  unfold K_PKE_Encrypt in HN, HQ. unfold P in *. clear P. rewrite <- MLKEM_K_k in HN, HQ. unfold indcpa_enc_aarch64.
  unfold MLKEM_SYMBYTES, MLKEM_N. set (K := MLKEM_K p) in *. change (256 / 2) with 128.
  set (P := set_of p) in *. set (rho := slice pk (384 * K) (384 * K + 32)) in *.
  assert (Lr : zlen rho = 32) by (unfold rho; rewrite zlen_slice; lia).
  assert (Br : bytes rho) by (apply bytes_slice; auto; lia).
  apply wp_bind, wp_unpack_pk_a64; fold K; auto. { apply uninit_polys; lia. }
  fold P rho. cbv beta iota.
  destruct (frommsg_ok m Lm Bm) as (Em & Lmu & Bmu). set (mu := map (Decompress 1) (ByteDecode 1 m)) in *.
  apply wp_bind, wp_poly_frommsg; auto. rewrite Em.
  cbv zeta in HN, HQ. fold mu in HQ. clearbody mu rho.
  apply wp_bind, wp_matrix_a64; fold K; fold P; auto.
  { apply (uninit2_each J 4 (K * K) 256); nia. } { apply (uninit2_each J 4 (K * K) 256); nia. }
  { intros E. apply HN. now rewrite E. }
  intros A EA. rewrite EA in HN, HQ.
  destruct (ExpandA_rows p (3 + Z.of_nat fuel) rho A Br ltac:(lia) EA) as [_ RA]. fold K in RA. rewrite stored_true.
  apply wp_bind, wp_enc_noise_a64; auto; try (apply uninit_polys; lia).
  intros b0 Hb0. fold K P in Hb0 |- *. cbv beta iota.
  destruct (eta_ok p) as [He He2]. fold P in He, He2.
  apply wp_bind, wp_polyvec_ntt_a64. { eapply each_bw; [|apply nvec_each; auto]. lia. } intros sh Hsh.
  destruct (ntt_noise_a64 p (eta1 P) coins 0 sh Bco ltac:(lia) ltac:(fold K; lia) ltac:(apply nvec_spec1; auto; lia) Hsh) as [Es Vs].
  fold K P in Es, Vs, Hsh.
  assert (Hs1 : each K (fun _ x => zlen x = 256 /\ bounded 19974 x) sh) by (eapply each_weaken; [|exact Hsh]; cbv beta; tauto).
  clear Hsh.
  apply wp_bind, wp_polyvec_mulcache_a64; [apply uninit2_each; lia|eapply each_i16; [|exact Hs1]; lia|]. intros ca Hca.
  apply wp_bind, (wp_matvec_a64 bd N); auto. { apply vec_each; apply Hb0. } { eapply each_bw; [|exact Hs1]. lia. }
  fold K. intros b Hb.
  pose proof (decode_each p pk ltac:(fold K; lia) Bpk) as Hd. fold K P in Hd.
  apply wp_bind, wp_basemul_acc_a64; auto.
  { fold K. eapply each_weaken; [|exact Hd]. cbv beta. intros i x _ [L B]. split; auto. now apply ubounded_bounded. }
  { fold K. eapply each_bw; [|exact Hs1]. lia. }
  intros v Lv Bv Rv.
  apply wp_bind, wp_polyvec_invntt_a64.
  { fold K. eapply each_weaken; [|exact Hb]. cbv beta. intros i x _ (L & B & _). split; auto. eapply bounded_int16s; [|exact B]. lia. }
  fold K. intros b1 Hb1. apply wp_bind, wp_invntt_a64; auto. { eapply bounded_int16s; [|exact Bv]. lia. }
  intros v1 Lv1 Bv1 Ev1.
  pose proof (nvec_each p (eta2 P) coins K He2) as Hn2. fold K in Hn2.
  apply wp_bind, (wp_polyvec_add N 26632 4); [lia| |exact Hn2|]. { fold K. eapply each_weaken; [|exact Hb1]. cbv beta. tauto. }
  fold K. intros b2 Hb2.
  assert (Bn : bounded 4 (noise (eta2 P) coins (2 * K))).
  { apply bounded_noise; auto; lia. }
  apply wp_bind, (wp_poly_add_b N 26632 4); try apply zlen_noise; try lia; try assumption.
  apply wp_bind, (wp_poly_add_b N 26635 3329); try apply zlen_zadd; try assumption; [|now apply ubounded_bounded|lia|].
  { apply (bounded_zadd 26632 4); auto. }
  apply wp_bind, wp_polyvec_reduce_a64.
  { fold K. split; [apply Hb2|]. intros i Hi. destruct Hb2 as [_ Hb2]. rewrite (Hb2 i Hi). split; [apply zlen_zadd|].
    apply (bounded_int16s 26635); [lia|]. apply (bounded_zadd 26632 4); try apply Hb1; try apply Hn2; auto. }
  apply wp_bind, wp_reduce_a64. { apply zlen_zadd. }
  { apply (bounded_int16s 29963); [lia|]. apply (bounded_zadd 26635 3329); auto; [|now apply ubounded_bounded].
    apply (bounded_zadd 26632 4); auto. }
  destruct (map_residues_ok K b2) as [Vb2 Ub2]. { eapply each_weaken; [|exact Hb2]. cbv beta. intros i x _ ->. apply zlen_zadd. }
  assert (EV : residues (zadd (zadd v1 (noise (eta2 P) coins (2 * K))) mu) =
    poly_plus (poly_plus (NTT_inv (dot (decode_vec P 12 pk) (map NTT (noise_vec P (eta1 P) coins 0))))
       (SamplePolyCBD (eta2 P) (PRF (eta2 P) coins (2 * K)))) mu).
  { apply repr_residues; [|apply poly_plus_reduced]. apply repr_zadd; [|now apply repr_refl].
    apply repr_zadd; [|apply noise_repr; auto; lia].
    apply residues_repr; [exact Lv1|]. rewrite <- (dot_vrepr K _ sh); [|apply Hd|exact Vs].
    eapply invntt_of_basemul; [exact Lv1|exact Rv|exact Ev1]. }
  assert (EU : map residues b2 =
    vec_plus (map NTT_inv (mat_vec (transpose A) (map NTT (noise_vec P (eta1 P) coins 0)))) (noise_vec P (eta2 P) coins K)).
  { pose proof (nvec_spec2 p coins K Bco ltac:(lia) ltac:(fold K; lia)) as E2. fold P K in E2. rewrite <- E2.
    destruct RA as [LA RA].
    assert (LM : zlen (map NTT_inv (mat_vec (transpose A) (map NTT (noise_vec P (eta1 P) coins 0)))) = K).
    { rewrite zlen_map. now apply zlen_mat_vec. }
    assert (LN : zlen (map residues (nvec (eta2 P) coins K K)) = K) by (rewrite zlen_map; apply Hn2).
    apply (vec_eq K).
    - apply Vb2.
    - rewrite zlen_vec_plus; [exact LM|]. unfold vec in *. congruence.
    - intros i Hi. rewrite zget_vec_plus; unfold vec in *; [|congruence|now rewrite LM].
      rewrite (zget_map NTT_inv [] []) by (rewrite zlen_map in LM; now rewrite LM).
      rewrite zget_mat_vec by (unfold vec; now rewrite LA).
      rewrite (zget_map residues [] [] b2) by (destruct Hb2; lia).
      rewrite (zget_map residues [] [] (nvec _ _ _ _)) by (destruct Hn2; lia).
      destruct Hb2 as [_ Hb2]. rewrite (Hb2 i Hi).
      apply repr_residues; [|apply poly_plus_reduced].
      destruct Hb1 as [_ Hb1]. destruct (Hb1 i Hi) as (Lx & _ & Ex). destruct Hb as [_ Hb]. destruct (Hb i Hi) as (_ & _ & Rx).
      apply repr_zadd.
      + apply residues_repr; [exact Lx|]. rewrite <- (dot_vrepr K _ sh); [|now apply RA|exact Vs].
        eapply invntt_of_basemul; [exact Lx|exact Rx|exact Ex].
      + apply residues_repr; [|reflexivity]. now apply Hn2. }
  apply wp_pack_ciphertext; fold P; fold K; auto.
  { rewrite EV. apply poly_plus_reduced. }
  rewrite EV, EU. apply HQ. reflexivity.
Qed.

(** ** Decryption *)

Lemma wp_indcpa_dec_a64 bd N J p m c sk (Q : list Z -> Prop) :
  let P := set_of p in
  zlen m = 32 -> zlen c = 32 * (du P * MLKEM_K p + dv P) -> bytes c ->
  zlen sk = 384 * MLKEM_K p -> bytes sk ->
  Q (K_PKE_Decrypt P sk c) -> wpn N (indcpa_dec_aarch64 bd J p m c sk) Q.
Proof.
  intros P Lm Lc Bc Lsk Bsk HQ. pose proof (MLKEM_K_range p) as HK. destruct (du_dv p) as (_ & _ & Hdu & Hdv).
  unfold K_PKE_Decrypt in HQ. cbv zeta in HQ. unfold indcpa_dec_aarch64, MLKEM_N. set (K := MLKEM_K p) in *.
  assert (EK : k P = K) by (symmetry; apply MLKEM_K_k). rewrite EK in HQ. fold P in Hdu, Hdv.
  apply wp_bind, wp_unpack_ciphertext; fold K; auto. { apply uninit_polys; lia. }
  fold P. set (c2 := slice c _ (32 * (du P * K + dv P))) in *.
  assert (Hu : each K (fun _ x => zlen x = 256 /\ ubounded 3329 x)
    (map (map (Decompress (du P))) (decode_vec P (du P) (slice c 0 (32 * du P * K))))).
  { unfold P, K. rewrite decode_du by (fold P K; nia). fold P K. apply each_map; [lia|]. intros i Hi.
    split; [rewrite zlen_map; apply zlen_fields|]. apply Decompress_fields_range; [lia|]. rewrite zlen_slice; nia. }
  assert (L2 : zlen c2 = 32 * dv P) by (unfold c2; rewrite zlen_slice; nia).
  assert (Hv : zlen (map (Decompress (dv P)) (ByteDecode (dv P) c2)) = 256 /\ ubounded 3329 (map (Decompress (dv P)) (ByteDecode (dv P) c2))).
  { rewrite ByteDecode_fields by lia. split; [rewrite zlen_map; apply zlen_fields|]. apply Decompress_fields_range; lia. }
  set (u := map (map (Decompress (du P))) _) in *. set (v := map (Decompress (dv P)) _) in *. clearbody u v. destruct Hv as [Lv Bv].
  apply wp_bind, wp_unpack_a64; auto. { apply uninit_polys; lia. } { fold K; lia. }
  fold P. pose proof (decode_each p sk ltac:(fold K; lia) Bsk) as Hd. fold P K in Hd.
  apply wp_bind, wp_polyvec_ntt_a64.
  { fold K. eapply each_weaken; [|exact Hu]. cbv beta. intros i x _ [L B]. split; auto. now apply ubounded_bounded. }
  fold K. intros uh Huh. apply wp_bind, wp_basemul_acc_a64'; auto.
  { fold K. eapply each_weaken; [|exact Hd]. cbv beta. intros i x _ [L B]. split; auto. now apply ubounded_bounded. }
  { fold K. eapply each_weaken; [|exact Huh]. cbv beta. intros i x _ (L & B & _). split; auto. eapply bounded_weaken; [|exact B]. lia. }
  intros sb Lsb Bsb Rsb.
  apply wp_bind, wp_invntt_a64; auto. { eapply bounded_int16s; [|exact Bsb]. lia. } intros w Lw Bw Ew.
  apply wp_bind, (wp_poly_sub_b N 3329 26632); auto; [now apply ubounded_bounded|lia|].
  apply wp_bind, wp_reduce_a64. { apply zlen_zsub. }
  { apply (bounded_int16s (3329 + 26632 - 1)); [lia|]. apply bounded_zsub; auto. now apply ubounded_bounded. }
  assert (E : residues (zsub v w) = poly_minus v (NTT_inv (dot (decode_vec P 12 sk) (map NTT u)))).
  { apply repr_residues; [|apply poly_minus_reduced]. apply repr_zsub; [now apply repr_refl|].
    apply residues_repr; [exact Lw|]. rewrite <- (dot_vrepr K _ uh); [|apply Hd|].
    - eapply invntt_of_basemul; [exact Lw|exact Rsb|exact Ew].
    - destruct Huh as [Luh Huh]. split; [exact Luh|]. split; [rewrite zlen_map; apply Hu|]. intros i Hi.
      destruct (Huh i Hi) as (Lx & _ & Ex). apply residues_repr; [exact Lx|]. rewrite Ex.
      symmetry. apply (zget_map NTT [] []). destruct Hu as [-> _]. lia. }
  apply wp_poly_tomsg; auto; [rewrite E; apply poly_minus_reduced|]. rewrite E. exact HQ.
Qed.
