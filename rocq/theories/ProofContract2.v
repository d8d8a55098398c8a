(** * The contracts of the samplers, of the encryption scheme, of verify.h and of fips202: proofs *)

From Coq Require Import ZArith List Bool Lia ZifyBool.
From Verif Require Import CSem ModelArith ModelKeccak ModelIndcpa ModelRelease Spec202 Spec203 SpecLink SpecContract
  CSemFacts ProofBits ProofScalar ProofPack ProofSum ProofNttSpec ProofRing ProofNtt ProofMul ProofCbd
  ProofKeccakF ProofSponge ProofHash ProofNoise ProofRej ProofMatrix ProofPke ProofKem ProofKeys ProofContract.
Import ListNotations.
Open Scope Z_scope.
Ltac Zify.zify_post_hook ::= idtac.

(** ** Debug checks that fail under the contract *)

Lemma c_basemul_debug : exists r a b b_cache,
  int16_array 256 r /\ int16_array 256 a /\ int16_array 256 b /\ int16_array 128 b_cache /\
  array_abs_bound a 0 255 3328 /\
  val (poly_basemul_montgomery_cached r a b b_cache) = UB DebugCheck.
Proof.
  exists (repeat 0 256), (repeat 0 256), (repeat 0 256), (repeat 3329 128).
  assert (R : forall n x, -32768 <= x < 32768 -> int16_array (Z.of_nat n) (repeat x n)).
  { intros n x Hx. split; [unfold zlen; now rewrite repeat_length|].
    apply Forall_forall. intros y Hy. apply repeat_spec in Hy. subst y. exact Hx. }
  split; [apply (R 256%nat); lia|]. split; [apply (R 256%nat); lia|]. split; [apply (R 256%nat); lia|].
  split; [apply (R 128%nat); lia|]. split; [|reflexivity].
  intros i _. rewrite nth_repeat. lia.
Qed.

Lemma c_basemul_acc_debug J : exists r a b b_cache, let P := set_of MLKEM512 in
  int16_array 256 r /\ poly_array (k P) a /\ poly_array (k P) b /\ mulcache_array (k P) b_cache /\
  (forall j, 0 <= j <= k P - 1 -> array_abs_bound (elt a j) 0 255 3328) /\
  val (polyvec_basemul_acc_montgomery_cached J MLKEM512 r a b b_cache) = UB DebugCheck.
Proof.
  exists (repeat 0 256), (repeat (repeat 0 256) 2), (repeat (repeat 0 256) 2), (repeat (repeat 3329 128) 2).
  assert (R : forall n x, -32768 <= x < 32768 -> int16_array (Z.of_nat n) (repeat x n)).
  { intros n x Hx. split; [unfold zlen; now rewrite repeat_length|].
    apply Forall_forall. intros y Hy. apply repeat_spec in Hy. subst y. exact Hx. }
  assert (A0 : poly_array 2 (repeat (repeat 0 256) 2)).
  { split; [reflexivity|]. apply Forall_forall. intros y Hy. apply repeat_spec in Hy. subst y. apply (R 256%nat); lia. }
  assert (A1 : mulcache_array 2 (repeat (repeat 3329 128) 2)).
  { split; [reflexivity|]. apply Forall_forall. intros y Hy. apply repeat_spec in Hy. subst y. apply (R 128%nat); lia. }
  cbv zeta. split; [apply (R 256%nat); lia|]. split; [exact A0|]. split; [exact A0|]. split; [exact A1|].
  split; [|reflexivity].
  intros j Hj i _. change (k (set_of MLKEM512)) with 2 in Hj. unfold elt.
  replace (nth (Z.to_nat j) (repeat (repeat 0 256) 2) []) with (repeat 0 256); [rewrite nth_repeat; lia|].
  assert (Hj' : j = 0 \/ j = 1) by lia. destruct Hj' as [-> | ->]; reflexivity.
Qed.

(** ** The samplers *)

Lemma c_poly_cbd_eta1 p r buf : let P := set_of p in
  int16_array 256 r -> uint8_array (64 * eta1 P) buf ->
  returns (poly_cbd_eta1 p r buf) (fun r => int16_array 256 r /\ array_abs_bound r 0 255 (eta1 P)).
Proof.
  intros P Hr Hb. i16. pose proof (eta_range p) as [He _]. fold P in He.
  apply returns_wp, wp_poly_cbd_eta1; auto. fold P.
  assert (B1 : bounded (eta1 P + 1) (cbd (eta1 P) buf)).
  { unfold bounded. eapply Forall_impl; [|apply cbd_range; lia]. cbv beta. lia. }
  pose proof (zlen_cbd (eta1 P) buf).
  split; [apply (i16_of (eta1 P + 1)); auto; lia|now apply (abs_bound 256)].
Qed.
Lemma c_poly_cbd_eta2 p r buf : let P := set_of p in
  int16_array 256 r -> uint8_array (64 * eta2 P) buf ->
  returns (poly_cbd_eta2 r buf) (fun r => int16_array 256 r /\ array_abs_bound r 0 255 (eta2 P)).
Proof.
  intros P Hr Hb. i16. pose proof (eta_range p) as [_ He]. fold P in He.
  apply returns_wp, (wp_poly_cbd_eta2 _ p); auto. fold P.
  assert (B1 : bounded (eta2 P + 1) (cbd (eta2 P) buf)).
  { unfold bounded. eapply Forall_impl; [|apply cbd_range; lia]. cbv beta. lia. }
  pose proof (zlen_cbd (eta2 P) buf).
  split; [apply (i16_of (eta2 P + 1)); auto; lia|now apply (abs_bound 256)].
Qed.

Lemma c_rej_uniform r target offset buf buflen :
  0 <= offset <= target -> target <= 4096 -> 0 <= buflen <= 4096 -> buflen mod 3 = 0 ->
  int16_array target r -> uint8_array buflen buf ->
  (offset > 0 -> array_bound r 0 (offset - 1) 0 3328) ->
  returns (rej_uniform r target offset buf buflen) (fun '(r, ret) =>
    int16_array target r /\ offset <= ret <= target /\ (ret > 0 -> array_bound r 0 (ret - 1) 0 3328)).
Proof.
  intros Ho Ht Hl _ Hr Hb Hp. pose proof Hr as [Lr Fr]. i16.
  destruct (rej_correct r target offset buf buflen) as (acc & Ea & E); auto; try lia.
  exists (acc ++ skipn (length acc) r, zlen acc). split; [exact E|]. clear E.
  assert (Ls : zlen (slice r 0 offset) = offset) by (rewrite zlen_slice; lia).
  assert (Ua : ubounded 3329 acc).
  { rewrite Ea. apply Forall_firstn, Forall_app. split.
    - destruct (Z.eq_dec offset 0) as [->|Hn]; [constructor|].
      apply (Forall_zget _ 0). rewrite Ls. intros i Hi. rewrite zget_slice by lia.
      specialize (Hp ltac:(lia) (0 + i) ltac:(lia)). unfold zget. lia.
    - apply accepted_range. now apply bytes_slice'. }
  assert (La : offset <= zlen acc <= target).
  { rewrite Ea. unfold zlen in Ls |- *. rewrite firstn_length, app_length. lia. }
  split; [split|split; [exact La|]].
  - rewrite zlen_app, Nat2Z.id || rewrite zlen_app. unfold zlen in La, Lr |- *. rewrite skipn_length. lia.
  - apply Forall_app. split; [|now apply Forall_skipn].
    change (- 2 ^ 15) with (-32768). change (2 ^ 15) with 32768. eapply Forall_impl; [|exact Ua]. cbv beta. lia.
  - intros _ i Hi. rewrite app_nth1 by (unfold zlen in Hi; lia).
    unfold ubounded in Ua. rewrite (Forall_zget _ 0) in Ua. specialize (Ua i ltac:(lia)). unfold zget in Ua. lia.
Qed.

Lemma entry_ok fuel s a : bytes s -> SampleNTT (3 + Z.of_nat fuel) s = Some a ->
  int16_array 256 a /\ array_bound a 0 255 0 3328.
Proof.
  intros Bs E. apply SampleNTT_ok in E as [L U]; [|auto|lia].
  split; [apply (i16_of_u 3329); auto; lia|now apply (u_bound 256)].
Qed.

Lemma c_gen_matrix_entry {bo : byte_order} J fuel entry seed : int16_array 256 entry -> uint8_array 34 seed ->
  returns_or_runs (gen_matrix_entry J fuel entry seed)
    (fun entry => int16_array 256 entry /\ array_bound entry 0 255 0 3328).
Proof.
  intros He Hs. i16. apply runs_wp, wp_gen_matrix_entry; auto. intros a E. now apply (entry_ok fuel seed).
Qed.

Lemma c_gen_matrix_entry_x4 {bo : byte_order} J fuel vec seed : poly_array 4 vec -> zlen seed = 4 -> Forall (uint8_array 34) seed ->
  returns_or_runs (gen_matrix_entry_x4 J fuel vec seed)
    (fun vec => poly_array 4 vec /\ forall i, 0 <= i <= 3 -> array_bound (elt vec i) 0 255 0 3328).
Proof.
  intros [Lv Hv] Ls Hs.
  destruct vec as [|x0 [|x1 [|x2 [|x3 [|? ?]]]]]; unfold zlen in Lv; cbn [length] in Lv; try lia.
  destruct seed as [|y0 [|y1 [|y2 [|y3 [|? ?]]]]]; unfold zlen in Ls; cbn [length] in Ls; try lia.
  repeat match goal with H : Forall _ (_ :: _) |- _ => apply Forall_cons_iff in H as [? ?] end. i16.
  apply runs_wp, wp_gen_matrix_entry_x4; auto.
  intros v0 v1 v2 v3 (E0 & E1 & E2 & E3).
  apply entry_ok in E0 as [I0 B0']; auto. apply entry_ok in E1 as [I1 B1']; auto.
  apply entry_ok in E2 as [I2 B2']; auto. apply entry_ok in E3 as [I3 B3']; auto.
  split; [split; [reflexivity|repeat constructor; auto; apply I0 || apply I1 || apply I2 || apply I3]|].
  intros i Hi. assert (Hc : i = 0 \/ i = 1 \/ i = 2 \/ i = 3) by lia.
  destruct Hc as [->|[->|[->| ->]]]; assumption.
Qed.

Lemma c_gen_matrix {bo : byte_order} J fuel p a seed tr : let P := set_of p in
  poly_array (k P * k P) a -> uint8_array 32 seed ->
  returns_or_runs (gen_matrix J fuel p a seed tr)
    (fun a => poly_array (k P * k P) a /\
       forall x y, 0 <= x <= k P - 1 -> 0 <= y <= k P - 1 -> array_bound (elt a (k P * x + y)) 0 255 0 3328).
Proof.
  vecs. intros Ha Hs. pose proof (K_range p) as HK. destruct (polys_each _ _ Ha) as [La Ea]. i16.
  apply runs_wp, wp_gen_matrix; auto. { intros i Hi. now apply Ea. }
  intros a' La' Ha'.
  assert (E : forall i, 0 <= i < MLKEM_K p * MLKEM_K p ->
    int16_array 256 (zget [] a' i) /\ array_bound (zget [] a' i) 0 255 0 3328).
  { intros i Hi. apply (entry_ok fuel (mseed seed tr (MLKEM_K p) i)); [|now apply Ha']. apply mseed_ok; auto. }
  split; [split; auto; apply (Forall_zget _ []); rewrite La'; intros; now apply E|].
  intros x y Hx Hy. apply E. nia.
Qed.

(** ** The encryption scheme *)

Lemma c_indcpa_keypair {bo : byte_order} J fuel p pk sk coins : let P := set_of p in
  uint8_array (384 * k P + 32) pk -> uint8_array (384 * k P) sk -> uint8_array 32 coins ->
  returns_or_runs (indcpa_keypair_derand J fuel p pk sk coins)
    (fun '(pk, sk) => uint8_array (384 * k P + 32) pk /\ uint8_array (384 * k P) sk).
Proof.
  intros P Hp Hs Hc. i16. assert (E : k P = MLKEM_K p) by (symmetry; apply MLKEM_K_k).
  apply runs_wp, wp_indcpa_keypair; rewrite <- ?E; auto.
  intros ek dk Ek. apply keygen_out in Ek as (L1' & B1' & L2' & B2'); auto; [|lia]. fold P in L1', L2'.
  unfold ek_size in L1'. split; apply u8_of; auto.
Qed.
Lemma c_indcpa_enc {bo : byte_order} J fuel p c m pk coins : let P := set_of p in
  uint8_array (32 * (du P * k P + dv P)) c -> uint8_array 32 m -> uint8_array (384 * k P + 32) pk ->
  uint8_array 32 coins ->
  returns_or_runs (indcpa_enc J fuel p c m pk coins) (uint8_array (32 * (du P * k P + dv P))).
Proof.
  intros P Hc Hm Hp Ho. i16. assert (E : k P = MLKEM_K p) by (symmetry; apply MLKEM_K_k).
  apply runs_wp, wp_indcpa_enc; fold P; rewrite <- ?E; auto.
  intros ct Ec. apply encrypt_out in Ec as (L1' & B1'); auto; [|lia]. fold P in L1'. apply u8_of; auto.
Qed.
Lemma c_indcpa_dec J p m c sk : let P := set_of p in
  uint8_array 32 m -> uint8_array (32 * (du P * k P + dv P)) c -> uint8_array (384 * k P) sk ->
  returns (indcpa_dec J p m c sk) (uint8_array 32).
Proof.
  intros P Hm Hc Hs. i16. assert (E : k P = MLKEM_K p) by (symmetry; apply MLKEM_K_k).
  apply returns_wp, wp_indcpa_dec; fold P; rewrite <- ?E; auto. apply decrypt_out.
Qed.

(** ** symmetric.h *)

Lemma skipn_nil (l : list Z) n : zlen l = n -> skipn (Z.to_nat n) l = [].
Proof. intros <-. unfold zlen. rewrite Nat2Z.id. apply skipn_all. Qed.

Lemma shake_array m n l : bytes m -> 0 <= n -> zlen l = n -> uint8_array n (SHAKE256 m n ++ skipn (Z.to_nat n) l).
Proof.
  intros Bm Hn L. rewrite skipn_nil, app_nil_r by auto. apply u8_of; [now apply zlen_SHAKE256|now apply bytes_SHAKE256].
Qed.

Lemma c_prf {bo : byte_order} J out outlen key nonce : 0 <= outlen < 2 ^ 63 ->
  uint8_array outlen out -> uint8_array 32 key -> 0 <= nonce < 2 ^ 8 ->
  returns (mlkem_shake256_prf J out outlen key nonce) (uint8_array outlen).
Proof.
  intros Hl Ho Hk Hn. change (2 ^ 8) with 256 in Hn. i16. apply returns_wp. unfold mlkem_shake256_prf, MLKEM_SYMBYTES.
  cbv zeta. change (32 + 1) with 33. apply wp_bind, ext_copy; auto. intros e Le Ee. apply wp_bind, wp_aset; [lia|]. rewrite Ee.
  assert (Be : bytes (key ++ [nonce])) by (apply Forall_app; split; auto).
  apply wp_shake256; auto; try lia. { rewrite zlen_app. change (zlen [nonce]) with 1. lia. }
  apply shake_array; auto; [now apply bytes_slice'|lia].
Qed.

Lemma c_rkprf {bo : byte_order} J p out key input : let P := set_of p in
  uint8_array 32 out -> uint8_array 32 key -> uint8_array (32 * (du P * k P + dv P)) input ->
  returns (mlkem_shake256_rkprf J p out key input) (uint8_array 32).
Proof.
  intros P Ho Hk Hi. i16. apply returns_wp, wp_rkprf; auto. fold P.
  assert (Bm : bytes (key ++ input)) by (apply Forall_app; split; auto).
  unfold Spec203.J. apply u8_of; [now apply zlen_SHAKE256|now apply bytes_SHAKE256].
Qed.

(** ** verify.h *)

Lemma c_ct_memcmp a b len : 0 <= len <= 2147483647 -> uint8_array len a -> uint8_array len b ->
  returns (ct_memcmp a b len) (fun r => 0 <= r < 2 ^ 8 /\
    (r = 0 <-> forall i, 0 <= i <= len - 1 -> nth (Z.to_nat i) a 0 = nth (Z.to_nat i) b 0)).
Proof.
  intros Hl Ha Hb. i16.
  destruct (ct_memcmp_correct a b len) as (r & E & Hr & Hz); auto; try lia.
  exists r. split; auto. split; auto. rewrite Hz, !slice_zlen by auto. split.
  - intros -> i _. reflexivity.
  - intros H. apply (zlist_ext 0); [lia|]. intros i Hi. apply H. lia.
Qed.
Lemma c_ct_cmov_zero r x len b : uint8_array len r -> uint8_array len x -> 0 <= b < 2 ^ 8 ->
  returns (ct_cmov_zero r x len b) (uint8_array len).
Proof.
  intros Hr Hx Hb. i16. eexists. split; [apply ct_cmov_zero_correct; auto; lia|].
  destruct (b =? 0); [rewrite slice_zlen by auto|]; now apply u8_of.
Qed.

(** ** fips202.h and fips202x4.h *)

Lemma u64_wfs s : uint64_array 25 s -> wfs s. Proof. intros [L H]. split; [exact L|exact H]. Qed.
Lemma wfs_u64 s : wfs s -> uint64_array 25 s. Proof. intros [L H]. split; [exact L|exact H]. Qed.

Lemma c_shake128_absorb {bo : byte_order} state input inlen : uint64_array 25 state -> 0 <= inlen < 2 ^ 63 -> uint8_array inlen input ->
  returns (shake128_absorb state input inlen) (uint64_array 25).
Proof.
  intros Hs Hl Hi. i16. apply returns_wp, wp_shake128_absorb; auto; try lia; [apply Hs|].
  intros s' [_ [W _]]. now apply wfs_u64.
Qed.

Lemma stream_array r S n l : wfb S -> 0 <= n -> zlen l = n ->
  uint8_array n (map (fun i => stream r (fb S) (0 + i)) (range n) ++ skipn (Z.to_nat n) l).
Proof.
  intros W Hn L. rewrite skipn_nil, app_nil_r by auto. apply u8_of; [rewrite zlen_map, zlen_range; lia|].
  apply Forall_map_range. intros i _. apply stream_byte. apply wfb_fb, W.
Qed.

Lemma c_shake128_squeezeblocks {bo : byte_order} output nblocks state : 0 <= nblocks -> uint8_array (nblocks * 168) output ->
  uint64_array 25 state ->
  returns (shake128_squeezeblocks output nblocks state)
    (fun '(output, state) => uint8_array (nblocks * 168) output /\ uint64_array 25 state).
Proof.
  intros Hn Ho Hs. i16. apply u64_wfs in Hs. apply returns_wp. unfold shake128_squeezeblocks, SHAKE128_RATE.
  apply (wp_squeezeblocks _ _ _ _ _ (state_bytes state) 0).
  - apply squeezing_start; auto; [lia|]. now apply wfb_state, Hs.
  - lia.
  - lia.
  - lia.
  - intros s' [W _]. rewrite (Z.mul_comm nblocks) in *. split; [|now apply wfs_u64].
    apply stream_array; auto; [now apply wfb_state, Hs|lia].
Qed.

(** The 26 words of the incremental state: 25 words and the counter *)
Definition inc_ok (st : list Z) : Prop := exists s c, st = inc s c /\ wfs s /\ 0 <= c < 136.

Lemma inc_ok_of st : uint64_array 26 st -> 0 <= nth 25 st 0 < 136 -> inc_ok st.
Proof.
  intros [L F] C. exists (firstn 25 st), (nth 25 st 0).
  assert (Ls : length st = 26%nat) by (unfold zlen in L; lia).
  assert (E : st = inc (firstn 25 st) (nth 25 st 0)).
  { do 26 (destruct st as [|? st]; [discriminate|]). destruct st; [reflexivity|discriminate]. }
  split; [exact E|]. split; [|exact C].
  split; [unfold zlen; rewrite firstn_length; lia|]. now apply Forall_firstn.
Qed.
Lemma inc_ok_array st : inc_ok st -> uint64_array 26 st /\ 0 <= nth 25 st 0 < 136.
Proof.
  intros (s & c & -> & [L F] & C). unfold inc. split; [split|].
  - rewrite zlen_app, L. reflexivity.
  - apply Forall_app'; [exact F|]. constructor; [|constructor]. lia.
  - rewrite app_nth2; unfold zlen in L; [|lia]. replace (25 - length s)%nat with 0%nat by lia. exact C.
Qed.

Lemma wp_inc_absorb_any {bo : byte_order} N st m mlen (Q : list Z -> Prop) :
  inc_ok st -> bytes m -> 0 <= mlen <= zlen m -> mlen < 2 ^ 63 ->
  (forall st', inc_ok st' -> Q st') -> wpn N (keccak_inc_absorb st 136 m mlen) Q.
Proof.
  intros (s & cnt & -> & W0 & C0) Bm Hl Hb HQ. unfold keccak_inc_absorb.
  change (2 ^ 63) with 9223372036854775808 in Hb.
  apply wp_bind, wp_inc_get; [apply W0|]. apply wp_bind.
  apply (wp_while_measure N (fun '(st, cnt, pos, ml) => 0 <= pos /\ 0 <= ml /\ pos + ml = mlen /\ 0 <= cnt < 136 /\
            exists s, st = inc s cnt /\ wfs s)
          (fun '(s, cnt, pos, ml) => ml)).
  - do 4 (split; [lia|]). exists s. split; auto.
  - lia.
  - intros [[[st c] pos] ml] (Hp & Hml & Esum & Ec & s1 & -> & W1) Hc.
    assert (Hc' : 136 <= ml + c).
    { rewrite u64_id in Hc; [lia|]. change (2 ^ 64) with 18446744073709551616. lia. }
    split; [lia|]. uid. apply wp_bind, wp_aslice; try lia. uid.
    apply wp_bind, wp_inc_on; [apply W1|].
    apply wp_xor_then; auto; [now apply bytes_slice'|lia|rewrite zlen_slice; lia|lia|].
    intros s2 W2 _. split; [apply W2|]. apply wp_bind, wp_inc_set; [apply W2|].
    apply wp_bind, wp_inc_on; [apply W2|]. apply wp_permute_bytes; auto. intros s3 W3 _. split; [apply W3|].
    apply wp_bind, wp_inc_get; [apply W3|]. uid. apply wp_ret.
    split; [|lia]. do 4 (split; [lia|]). exists s3. split; auto.
  - intros [[[st c] pos] ml] (Hp & Hml & Esum & Ec & s1 & -> & W1) Hc.
    assert (Hc' : ml + c < 136).
    { rewrite u64_id in Hc; [lia|]. change (2 ^ 64) with 18446744073709551616. lia. }
    uid. apply wp_bind, wp_aslice; try lia.
    apply wp_bind, wp_inc_on; [apply W1|].
    apply wp_xor_then; auto; [now apply bytes_slice'|lia|rewrite zlen_slice; lia|lia|].
    intros s2 W2 _. split; [apply W2|]. apply wp_inc_set; [apply W2|].
    apply HQ. exists s2, (c + ml). split; [reflexivity|]. split; [exact W2|lia].
Qed.

Lemma wp_inc_finalize_any {bo : byte_order} N st (Q : list Z -> Prop) : inc_ok st ->
  (forall st', inc_ok st' -> Q st') -> wpn N (keccak_inc_finalize st 136 31) Q.
Proof.
  intros (s & cnt & -> & W0 & C0) HQ. unfold keccak_inc_finalize.
  assert (P : forall x, 0 <= x < 256 -> bytes [x]) by (intros; repeat constructor; lia).
  assert (F : forall s', wfs s' -> wpn N (aset (inc s' cnt) 25 0) Q).
  { intros s' W'. apply wp_inc_set; [apply W'|]. apply HQ. exists s', 0. split; [reflexivity|]. split; [exact W'|lia]. }
  apply wp_bind, wp_inc_get; [apply W0|]. uid. cbv zeta. apply wp_bind, wp_branch; intros Hc.
  - apply wp_inc_on; [apply W0|].
    apply wp_xor_then; auto; [apply P; cbn; lia|lia|lia|].
    intros s' W _. split; [apply W|]. now apply F.
  - apply wp_bind, wp_inc_on; [apply W0|].
    apply wp_xor_then; auto; [apply P; lia|lia|lia|].
    intros s1 W1 _. split; [apply W1|]. apply wp_inc_on; [apply W1|].
    apply wp_xor_then; auto; [apply P; lia|lia|lia|].
    intros s' W _. split; [apply W|]. now apply F.
Qed.

Lemma bytes_splice l o x : bytes l -> bytes x -> bytes (splice l o x).
Proof.
  intros Bl Bx. unfold splice. repeat apply Forall_app'; auto; [now apply Forall_firstn|now apply Forall_skipn].
Qed.
Lemma bytes_state s a b : wfs s -> bytes (slice (state_bytes s) a b).
Proof. intros W. apply bytes_slice'. apply wfb_state, W. Qed.

Lemma wp_inc_squeeze_any {bo : byte_order} N h outlen st (Q : list Z * list Z -> Prop) :
  inc_ok st -> zlen h = outlen -> bytes h -> outlen < 2 ^ 63 ->
  (forall h' st', zlen h' = outlen -> bytes h' -> inc_ok st' -> Q (h', st')) ->
  wpn N (keccak_inc_squeeze h outlen st 136) Q.
Proof.
  intros (s & cnt & -> & W & C) Lh Bh Hb HQ. unfold keccak_inc_squeeze.
  change (2 ^ 63) with 9223372036854775808 in Hb. pose proof (zlen_nonneg h).
  apply wp_bind, wp_inc_get; [apply W|].
  apply wp_bind. apply wp_mono with (Q := fun len => len = Z.min outlen cnt).
  { apply wp_branch; intros; apply wp_ret; lia. }
  intros len ->. set (len := Z.min outlen cnt).
  assert (Hlen : 0 <= len /\ len <= cnt /\ len <= outlen /\ (len = cnt \/ len = outlen)) by lia.
  clearbody len. destruct Hlen as (L1 & L2 & L3 & L4).
  apply wp_bind, wp_aslice; try lia. apply wp_bind, wp_inc_at; [apply W|]. uid.
  pose proof (zlen_state_bytes s (proj1 W)) as Lb.
  apply wp_bind, wp_extract_all; auto; try lia; [rewrite zlen_slice; lia|].
  apply wp_bind, wp_asplice; [lia|rewrite zlen_slice; lia|]. uid.
  apply wp_bind, wp_inc_set; [apply W|]. apply wp_bind.
  apply (wp_while_measure N (fun '(h', pos, ol, st) => 0 <= pos /\ 0 <= ol /\ pos + ol = outlen /\
            zlen h' = outlen /\ bytes h' /\ inc_ok st)
          (fun '(h', pos, ol, st) => ol)).
  - do 3 (split; [lia|]). split; [rewrite zlen_splice; rewrite ?zlen_slice; lia|].
    split; [apply bytes_splice; auto; now apply bytes_state|].
    exists s, (cnt - len). split; [reflexivity|]. split; [exact W|lia].
  - lia.
  - intros [[[h' pos] ol] st1] (Hp & Hol & Es & Eh & Bh' & s1 & c1 & -> & W1 & Hc1) Hcond.
    split; [lia|].
    apply wp_bind, wp_inc_on; [apply W1|]. apply wp_permute_bytes; auto. intros s2 W2 _. split; [apply W2|].
    apply wp_bind. apply wp_mono with (Q := fun len => len = Z.min ol 136).
    { apply wp_branch; intros; apply wp_ret; lia. }
    intros n ->. set (n := Z.min ol 136).
    assert (Hn : 0 < n /\ n <= 136 /\ n <= ol /\ (n = 136 \/ n = ol)) by lia.
    clearbody n. destruct Hn as (N1 & N2 & N3 & N4).
    pose proof (zlen_state_bytes s2 (proj1 W2)) as Lb2.
    apply wp_bind, wp_aslice; try lia. apply wp_bind, wp_inc_at; [apply W2|]. uid.
    apply wp_bind, wp_extract_all; auto; try lia; [rewrite zlen_slice; lia|].
    apply wp_bind, wp_asplice; [lia|rewrite zlen_slice; lia|].
    apply wp_bind, wp_inc_set; [apply W2|].
    apply wp_ret. split; [|lia]. do 3 (split; [lia|]). split; [rewrite zlen_splice; rewrite ?zlen_slice; lia|].
    split; [apply bytes_splice; auto; now apply bytes_state|].
    exists s2, (136 - n). split; [reflexivity|]. split; [exact W2|lia].
  - intros [[[h' pos] ol] st1] (Hp & Hol & Es & Eh & Bh' & I1) Hcond.
    apply wp_ret. apply HQ; auto.
Qed.

Lemma c_shake256_inc_init state : uint64_array 26 state ->
  returns (shake256_inc_init state) (fun state => uint64_array 26 state /\ nth 25 state 0 = 0).
Proof.
  intros [L _]. apply returns_wp. unfold shake256_inc_init. apply (wp_inc_init _ _ 136); [exact L|lia|].
  intros st (s & c & -> & [W _] & ->). destruct (inc_ok_array (inc s (zlen (@nil Z) mod 136))) as [A C].
  - exists s, (zlen (@nil Z) mod 136). split; [reflexivity|]. split; [exact W|]. change (zlen (@nil Z) mod 136) with 0. lia.
  - split; [exact A|]. unfold inc. rewrite app_nth2; destruct W as [Ls _]; unfold zlen in Ls; [|lia].
    replace (25 - length s)%nat with 0%nat by lia. reflexivity.
Qed.
Lemma c_shake256_inc_absorb {bo : byte_order} state input inlen : uint64_array 26 state -> 0 <= nth 25 state 0 < 136 ->
  0 <= inlen < 2 ^ 63 -> uint8_array inlen input ->
  returns (shake256_inc_absorb state input inlen) (fun state => uint64_array 26 state /\ 0 <= nth 25 state 0 < 136).
Proof.
  intros W C Hl Hi. pose proof (inc_ok_of _ W C). i16. apply returns_wp, wp_inc_absorb_any; auto; try lia.
  apply inc_ok_array.
Qed.
Lemma c_shake256_inc_finalize {bo : byte_order} state : uint64_array 26 state -> 0 <= nth 25 state 0 < 136 ->
  returns (shake256_inc_finalize state) (fun state => uint64_array 26 state /\ 0 <= nth 25 state 0 < 136).
Proof.
  intros W C. apply returns_wp, wp_inc_finalize_any; [now apply inc_ok_of|]. apply inc_ok_array.
Qed.
Lemma c_shake256_inc_squeeze {bo : byte_order} output outlen state : 0 <= outlen < 2 ^ 63 -> uint8_array outlen output ->
  uint64_array 26 state -> 0 <= nth 25 state 0 < 136 ->
  returns (shake256_inc_squeeze output outlen state)
    (fun '(output, state) => uint8_array outlen output /\ uint64_array 26 state /\ 0 <= nth 25 state 0 < 136).
Proof.
  intros Hl Ho W C. pose proof (inc_ok_of _ W C). i16. apply returns_wp, wp_inc_squeeze_any; auto; try lia.
  intros h' st' L' B' I'. split; [now apply u8_of|]. now apply inc_ok_array.
Qed.

Lemma counter_array c : 0 <= c < 2 ^ 64 -> uint64_array 26 (repeat 0 25 ++ [c]).
Proof. intros Hc. split; [reflexivity|]. cbn [repeat app]. repeat constructor; lia. Qed.

Lemma c_inc_absorb_counter {bo : byte_order} : exists state input,
  uint64_array 26 state /\ uint8_array 0 input /\
  val (shake256_inc_absorb state input 0) = UB OutOfBounds.
Proof.
  exists (repeat 0 25 ++ [137]), []. split; [apply counter_array; lia|].
  split; [split; [reflexivity|constructor]|reflexivity].
Qed.
Lemma c_inc_finalize_counter {bo : byte_order} : exists state,
  uint64_array 26 state /\ val (shake256_inc_finalize state) = UB OutOfBounds.
Proof.
  exists (repeat 0 25 ++ [208]). split; [apply counter_array; lia|]. destruct bo; reflexivity.
Qed.
Lemma c_inc_squeeze_counter {bo : byte_order} : exists output state,
  uint8_array 137 output /\ uint64_array 26 state /\
  val (shake256_inc_squeeze output 137 state) = UB OutOfBounds.
Proof.
  exists (repeat 0 137), (repeat 0 25 ++ [137]).
  split; [split; [reflexivity|apply Forall_forall; intros y Hy; apply repeat_spec in Hy; lia]|].
  split; [apply counter_array; lia|destruct bo; reflexivity].
Qed.

Lemma c_shake256 {bo : byte_order} J output outlen input inlen : 0 <= inlen < 2 ^ 63 -> 0 <= outlen < 2 ^ 63 ->
  uint8_array inlen input -> uint8_array outlen output ->
  returns (shake256 J output outlen input inlen) (uint8_array outlen).
Proof.
  intros Hi Ho Ai Ao. i16. apply returns_wp, wp_shake256; auto; try lia.
  apply shake_array; auto; [now apply bytes_slice'|lia].
Qed.
Lemma c_sha3_256 {bo : byte_order} J output input inlen : 0 <= inlen < 2 ^ 63 -> uint8_array inlen input -> uint8_array 32 output ->
  returns (sha3_256 J output input inlen) (uint8_array 32).
Proof.
  intros Hi Ai Ao. i16. apply returns_wp, wp_sha3_256; auto; try lia.
  change 32%nat with (Z.to_nat 32). rewrite skipn_nil, app_nil_r by auto.
  apply u8_of; [apply zlen_SHA3_256|apply bytes_SHA3_256]; now apply bytes_slice'.
Qed.
Lemma c_sha3_512 {bo : byte_order} J output input inlen : 0 <= inlen < 2 ^ 63 -> uint8_array inlen input -> uint8_array 64 output ->
  returns (sha3_512 J output input inlen) (uint8_array 64).
Proof.
  intros Hi Ai Ao. i16. apply returns_wp, wp_sha3_512; auto; try lia.
  change 64%nat with (Z.to_nat 64). rewrite skipn_nil, app_nil_r by auto.
  apply u8_of; [apply zlen_SHA3_512|apply bytes_SHA3_512]; now apply bytes_slice'.
Qed.

(** The state of the four-way functions: a hundred words *)

Lemma c_shakex4_absorb {bo : byte_order} r in0 in1 in2 in3 inlen : r = 168 \/ r = 136 -> 0 <= inlen < 2 ^ 63 ->
  uint8_array inlen in0 -> uint8_array inlen in1 -> uint8_array inlen in2 -> uint8_array inlen in3 ->
  returns (bind zero_x4 (fun s => keccak_absorb_x4 s r in0 in1 in2 in3 inlen 31)) (uint64_array 100).
Proof.
  intros Hr Hl A0 A1 A2 A3. i16. apply returns_wp, wp_keccak_absorb_x4; auto; try lia.
  intros s (s0 & s1 & s2 & s3 & -> & [W0 _] & [W1 _] & [W2 _] & [W3 _]). now apply join4_array.
Qed.

Lemma c_shake128x4_absorb {bo : byte_order} in0 in1 in2 in3 inlen : 0 <= inlen < 2 ^ 63 ->
  uint8_array inlen in0 -> uint8_array inlen in1 -> uint8_array inlen in2 -> uint8_array inlen in3 ->
  returns (shake128x4_absorb in0 in1 in2 in3 inlen) (uint64_array 100).
Proof. exact (c_shakex4_absorb 168 in0 in1 in2 in3 inlen (or_introl eq_refl)). Qed.
Lemma c_shake256x4_absorb {bo : byte_order} in0 in1 in2 in3 inlen : 0 <= inlen < 2 ^ 63 ->
  uint8_array inlen in0 -> uint8_array inlen in1 -> uint8_array inlen in2 -> uint8_array inlen in3 ->
  returns (shake256x4_absorb in0 in1 in2 in3 inlen) (uint64_array 100).
Proof. exact (c_shakex4_absorb 136 in0 in1 in2 in3 inlen (or_intror eq_refl)). Qed.

Lemma c_shake128x4_squeezeblocks {bo : byte_order} out0 out1 out2 out3 nblocks state : 0 <= nblocks ->
  uint8_array (nblocks * 168) out0 -> uint8_array (nblocks * 168) out1 ->
  uint8_array (nblocks * 168) out2 -> uint8_array (nblocks * 168) out3 ->
  uint64_array 100 state ->
  returns (shake128x4_squeezeblocks out0 out1 out2 out3 nblocks state)
    (fun '((out0, out1, out2, out3), state) =>
       uint8_array (nblocks * 168) out0 /\ uint8_array (nblocks * 168) out1 /\
       uint8_array (nblocks * 168) out2 /\ uint8_array (nblocks * 168) out3 /\
       uint64_array 100 state).
Proof.
  intros Hn A0 A1 A2 A3 As. destruct (array_join4 _ As) as (s0 & s1 & s2 & s3 & -> & W0 & W1 & W2 & W3). i16.
  apply returns_wp. unfold shake128x4_squeezeblocks, SHAKE128_RATE.
  apply (wp_squeezeblocks_x4 _ _ _ _ _ _ _ _ (state_bytes s0) (state_bytes s1) (state_bytes s2) (state_bytes s3) 0); try lia.
  - exists s0, s1, s2, s3. split; [reflexivity|].
    split; [|split; [|split]]; (apply squeezing_start; [lia|assumption|apply wfb_state; apply W0 || apply W1 || apply W2 || apply W3|reflexivity]).
  - cbv zeta. intros t (t0 & t1 & t2 & t3 & -> & [V0 _] & [V1 _] & [V2 _] & [V3 _]).
    rewrite (Z.mul_comm nblocks) in *.
    assert (forall s, wfs s -> wfb (state_bytes s)) by (intros s Ws; apply wfb_state, Ws).
    split; [apply stream_array; auto; lia|]. split; [apply stream_array; auto; lia|].
    split; [apply stream_array; auto; lia|]. split; [apply stream_array; auto; lia|].
    now apply join4_array.
Qed.

Lemma c_shake256x4 {bo : byte_order} J out0 out1 out2 out3 outlen in0 in1 in2 in3 inlen :
  0 <= inlen < 2 ^ 63 -> 0 <= outlen < 2 ^ 63 ->
  uint8_array inlen in0 -> uint8_array inlen in1 -> uint8_array inlen in2 -> uint8_array inlen in3 ->
  uint8_array outlen out0 -> uint8_array outlen out1 -> uint8_array outlen out2 -> uint8_array outlen out3 ->
  returns (shake256x4 J out0 out1 out2 out3 outlen in0 in1 in2 in3 inlen) (fun '(out0, out1, out2, out3) =>
    uint8_array outlen out0 /\ uint8_array outlen out1 /\ uint8_array outlen out2 /\ uint8_array outlen out3).
Proof.
  intros Hi Ho I0 I1 I2 I3 O0 O1 O2 O3. i16. apply returns_wp, wp_shake256x4; auto; try lia.
  cbv zeta. split; [|split; [|split]]; (apply shake_array; auto; [now apply bytes_slice'|lia]).
Qed.
