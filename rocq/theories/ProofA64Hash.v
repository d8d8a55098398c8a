(** * The hash functions on the AArch64 permutations

    The proofs of ProofHash.v and ProofHistory.v with the permutations of the AArch64 build. *)

From Coq Require Import ZArith List Bool Lia ZifyBool.
From Verif Require Import ModelA64Fips202 ModelA64Sponge SpecA64Build ProofA64Permute.
From Verif Require Import CSem ModelArith ModelKeccak Spec202 SpecHistory CSemFacts
  ProofScalar ProofBits ProofKeccakF ProofSponge ProofHash ProofHistory.
Import ListNotations.
Open Scope Z_scope.
#[local] Existing Instance LittleEndian.
Ltac Zify.zify_post_hook ::= idtac.
#[local] Opaque KECCAK_f1600 fb KeccakF1600_StatePermute_aarch64 KeccakF1600x4_StatePermute_aarch64.

Lemma permute_bytes s s' : wfs s -> wfs s' -> sbits s' = KECCAK_f1600 (sbits s) ->
  state_bytes s' = fb (state_bytes s).
Proof.
  intros W W' E. rewrite !sbits_bytes in E by apply W || apply W'.
  rewrite <- (bits_to_bytes_to_bits (state_bytes s')) by apply wfb_state, W'.
  rewrite E. rewrite <- bits_fb by apply zlen_state_bytes, W.
  apply bits_to_bytes_to_bits. apply wfb_fb. apply zlen_state_bytes, W.
Qed.
Lemma wp_permute_bytes_a64 cf J N s (Q : list Z -> Prop) : wfs s ->
  (forall s', wfs s' -> state_bytes s' = fb (state_bytes s) -> Q s') ->
  wpn N (KeccakF1600_StatePermute_aarch64 cf J s) Q.
Proof.
  intros W HQ. apply wp_permute_a64; [exact W|]. intros s' W' E. apply HQ; [exact W'|].
  apply permute_bytes; assumption.
Qed.
Lemma wp_permute_x4_bytes cf J N s0 s1 s2 s3 (Q : list Z -> Prop) :
  wfs s0 -> wfs s1 -> wfs s2 -> wfs s3 ->
  (forall t0 t1 t2 t3, wfs t0 -> state_bytes t0 = fb (state_bytes s0) -> wfs t1 -> state_bytes t1 = fb (state_bytes s1) ->
     wfs t2 -> state_bytes t2 = fb (state_bytes s2) -> wfs t3 -> state_bytes t3 = fb (state_bytes s3) ->
     Q (join4 t0 t1 t2 t3)) ->
  wpn N (KeccakF1600x4_StatePermute_aarch64 cf J (join4 s0 s1 s2 s3)) Q.
Proof.
  intros W0 W1 W2 W3 HQ. apply wp_permute_x4_a64; [exact W0|exact W1|exact W2|exact W3|].
  intros t0 t1 t2 t3 V0 E0 V1 E1 V2 E2 V3 E3.
  apply HQ; auto using permute_bytes.
Qed.

Lemma wp_xor_full_a64 {A} cf J N r m s x len off (f : list Z -> M A) (Q : A -> Prop) :
  holds r m s -> 0 < r <= 200 -> bytes x ->
  off = zlen m mod r -> len = zlen x -> 0 < zlen x -> off + zlen x = r ->
  (forall s', holds r (m ++ x) s' -> wpn N (f s') Q) ->
  wpn N (bind (KeccakF1600_StateXORBytes s x off len) (fun s => bind (KeccakF1600_StatePermute_aarch64 cf J s) f)) Q.
Proof.
  intros (W & Bm & E) Hr Bx -> -> Hp Hlt HQ. pose proof (Z.mod_pos_bound (zlen m) r ltac:(lia)).
  apply wp_bind, wp_xor; auto; try lia. intros s1 W1 E1.
  apply wp_bind, wp_permute_bytes_a64; auto. intros s2 W2 E2. apply HQ.
  split; [auto|]. split; [now apply bytes_app|].
  destruct (absb_full r m x) as [-> ->]; [lia|lia|lia|].
  rewrite xat_nil by (apply wfb_fb, zlen_xat).
  rewrite E2, E1, slice_all, E. f_equal.
  rewrite <- (Z.add_0_l (zlen m mod r)), <- (zlen_tailb r m) by lia. apply xat_xat. lia.
Qed.

Lemma wp_keccak_absorb_a64 cf J N s r m mlen p (Q : list Z -> Prop) :
  wfs s -> (forall i, 0 <= i < 25 -> zget 0 s i = 0) -> 0 < r <= 200 -> 0 <= p < 128 -> bytes m ->
  0 <= mlen <= zlen m -> mlen < 2 ^ 63 ->
  (forall s', wfs s' -> state_bytes s' = final r p (slice m 0 mlen) -> Q s') ->
  wpn N (keccak_absorb_aarch64 cf J s r m mlen p) Q.
Proof.
  intros W0 Z0 Hr Hp Bm Hl Hb HQ. unfold keccak_absorb_aarch64. apply wp_bind.
  apply (wp_while_measure N (fun '(s, pos, ml) => exists k, pos = r * k /\ 0 <= k /\ 0 <= ml /\ pos + ml = mlen /\
            holds r (slice m 0 pos) s)
          (fun '(s, pos, ml) => ml)).
  - exists 0. do 4 (split; [lia|]). rewrite slice_nil. apply holds_zero; auto; lia.
  - lia.
  - intros [[st pos] ml] (k & Ep & Hk & Hml & Esum & HH) Hc.
    assert (0 <= pos) by nia.
    split; [lia|]. uid. apply wp_bind, wp_aslice; try lia.
    eapply (wp_xor_full_a64 _ _ N r (slice m 0 pos)); eauto; try (rewrite ?zlen_slice; lia).
    + now apply bytes_slice'.
    + rewrite zlen_slice by lia. rewrite Z.sub_0_r, Ep. rewrite Z.mul_comm, Z.mod_mul; lia.
    + intros s' HH'. apply wp_ret. split; [|lia]. exists (k + 1). do 4 (split; [lia|]).
      rewrite <- (slice_cat m 0 pos (pos + r)) by lia. exact HH'.
  - intros [[st pos] ml] (k & Ep & Hk & Hml & Esum & HH) Hc.
    assert (0 <= pos) by nia.
    assert (Em : zlen (slice m 0 pos) mod r = 0).
    { rewrite zlen_slice by lia. rewrite Z.sub_0_r, Ep, Z.mul_comm. apply Z.mod_mul; lia. }
    assert (Em' : ml = zlen (slice m 0 mlen) mod r).
    { rewrite zlen_slice by lia. apply (Z.mod_unique _ _ k); lia. }
    uid. apply wp_bind. cbv zeta.
    assert (P : forall s', holds r (slice m 0 mlen) s' ->
       wpn N (branch (ml =? r - 1)
           (KeccakF1600_StateXORBytes s' [u8 (p .| 128)] ml 1)
           (bind (KeccakF1600_StateXORBytes s' [p] ml 1)
              (fun s => KeccakF1600_StateXORBytes s [128] (r - 1) 1))) Q).
    { intros s' HH'.
      enough (G : wpn N (bind (branch (ml =? r - 1)
           (KeccakF1600_StateXORBytes s' [u8 (p .| 128)] ml 1)
           (bind (KeccakF1600_StateXORBytes s' [p] ml 1)
              (fun s => KeccakF1600_StateXORBytes s [128] (r - 1) 1))) ret) Q).
      { unfold wpn in *. unfold bind in G. destruct (branch _ _ _) as [[a| |] e]; cbn in *; auto. }
      eapply wp_pad; eauto. intros s2 W2 _ E2. apply wp_ret. now apply HQ. }
    apply wp_branch; intros C.
    + apply wp_bind, wp_aslice; try lia.
      apply (wp_xor_part N r (slice m 0 pos));
        [exact HH|lia|now apply bytes_slice'|symmetry; exact Em|rewrite zlen_slice; lia|rewrite zlen_slice; lia|].
      intros s' HH'. apply P. rewrite slice_cat in HH' by lia. now rewrite <- Esum.
    + apply wp_ret. apply P. replace mlen with pos by lia. exact HH.
Qed.

Lemma wp_inc_absorb_a64 cf J N st r m0 m mlen (Q : list Z -> Prop) :
  absorbing r m0 st -> 0 < r <= 200 -> bytes m -> 0 <= mlen <= zlen m -> mlen < 2 ^ 63 ->
  (forall st', absorbing r (m0 ++ slice m 0 mlen) st' -> Q st') ->
  wpn N (keccak_inc_absorb_aarch64 cf J st r m mlen) Q.
Proof.
  intros (s & cnt & -> & H0 & C0) Hr Bm Hl Hb HQ. unfold keccak_inc_absorb_aarch64.
  apply wp_bind, wp_inc_get; [apply H0|]. apply wp_bind.
  apply (wp_while_measure N (fun '(st, cnt, pos, ml) => 0 <= pos /\ 0 <= ml /\ pos + ml = mlen /\
            exists s, st = inc s cnt /\
            holds r (m0 ++ slice m 0 pos) s /\ cnt = zlen (m0 ++ slice m 0 pos) mod r)
          (fun '(s, cnt, pos, ml) => ml)).
  - do 3 (split; [lia|]). exists s. rewrite slice_nil, app_nil_r. now repeat split; try apply H0.
  - lia.
  - intros [[[st' c] pos] ml] (Hp & Hml & Esum & st & -> & HH & Ec) Hc.
    set (M := m0 ++ slice m 0 pos) in *.
    pose proof (Z.mod_pos_bound (zlen M) r ltac:(lia)) as Hm.
    assert (Hc' : r <= ml + c).
    { rewrite u64_id in Hc; [lia|]. change (2 ^ 63) with 9223372036854775808 in Hb.
      change (2 ^ 64) with 18446744073709551616. lia. }
    split; [lia|]. uid. apply wp_bind, wp_aslice; try lia. uid.
    apply wp_bind, wp_inc_on; [apply HH|].
    apply wp_xor_then; [apply HH|now apply bytes_slice'|lia|rewrite zlen_slice; lia|lia|].
    intros s1 W1 E1. split; [apply W1|]. apply wp_bind, wp_inc_set; [apply W1|].
    apply wp_bind, wp_inc_on; [apply W1|]. apply wp_permute_bytes_a64; auto. intros s' W2 E2. split; [apply W2|].
    assert (HH' : holds r (M ++ slice m pos (pos + (r - c))) s').
    { apply (holds_xor_full r M st _ s1 s' c);
      [exact HH|lia|now apply bytes_slice'|exact Ec|rewrite zlen_slice; lia|rewrite zlen_slice; lia
      |exact E1|exact W2|exact E2]. }
    apply wp_bind, wp_inc_get; [apply W2|].
    uid. apply wp_ret. split; [|lia]. do 3 (split; [lia|]). exists s'. split; [reflexivity|].
    unfold M in HH'. rewrite <- app_assoc, slice_cat in HH' by lia. split; [exact HH'|].
    symmetry. rewrite <- (slice_cat m 0 pos (pos + (r - c))) by lia. rewrite app_assoc. fold M.
    rewrite zlen_app, zlen_slice by lia. symmetry. apply (Z.mod_unique _ _ (zlen M / r + 1)); [lia|].
    pose proof (Z.div_mod (zlen M) r ltac:(lia)). lia.
  - intros [[[st' c] pos] ml] (Hp & Hml & Esum & st & -> & HH & Ec) Hc.
    set (M := m0 ++ slice m 0 pos) in *.
    pose proof (Z.mod_pos_bound (zlen M) r ltac:(lia)) as Hm.
    assert (Hc' : ml + c < r).
    { rewrite u64_id in Hc; [lia|]. change (2 ^ 63) with 9223372036854775808 in Hb.
      change (2 ^ 64) with 18446744073709551616. lia. }
    uid. apply wp_bind, wp_aslice; try lia.
    apply wp_bind, wp_inc_on; [apply HH|]. apply (wp_xor_part N r M);
      [exact HH|lia|now apply bytes_slice'|exact Ec|rewrite zlen_slice; lia|rewrite zlen_slice; lia|].
    intros s' HH'. split; [apply HH'|]. apply wp_inc_set; [apply HH'|]. apply HQ. unfold M in HH'.
    rewrite <- app_assoc, slice_cat, Esum in HH' by lia.
    exists s', (c + ml). split; [reflexivity|]. split; [exact HH'|].
    rewrite <- (slice_cat m 0 pos mlen) by lia. rewrite app_assoc. fold M.
    rewrite zlen_app, zlen_slice by lia. apply (Z.mod_unique _ _ (zlen M / r)); [lia|].
    pose proof (Z.div_mod (zlen M) r ltac:(lia)). lia.
Qed.

Lemma wp_inc_squeeze_a64 cf J N h outlen st r S0 j (Q : list Z * list Z -> Prop) :
  squeezing_inc r S0 j st -> 0 < r <= 200 -> 0 <= outlen <= zlen h -> outlen < 2 ^ 63 ->
  (forall st', squeezing_inc r S0 (j + outlen) st' ->
     Q (map (fun i => stream r (fb S0) (j + i)) (range outlen) ++ skipn (Z.to_nat outlen) h, st')) ->
  wpn N (keccak_inc_squeeze_aarch64 cf J h outlen st r) Q.
Proof.
  intros (s & cnt & -> & Hs) Hr Ho Hb HQ. unfold keccak_inc_squeeze_aarch64.
  pose proof Hs as (W & WS & Hc & Hj & q & Hq & E & C). cbn [fst snd] in *.
  change (2 ^ 63) with 9223372036854775808 in Hb. apply wp_bind, wp_inc_get; [apply W|].
  apply wp_bind. apply wp_mono with (Q := fun len => len = Z.min outlen cnt).
  { apply wp_branch; intros; apply wp_ret; lia. }
  intros len ->. set (len := Z.min outlen cnt).
  assert (Hlen : 0 <= len /\ len <= cnt /\ len <= outlen /\ (len = cnt \/ len = outlen)) by lia.
  clearbody len. destruct Hlen as (L1 & L2 & L3 & L4).
  apply wp_bind, wp_aslice; try lia. apply wp_bind, wp_inc_at; [apply W|]. uid.
  set (F := fun i => stream r (fb S0) (j + i)) in *.
  change h with (map F (range 0) ++ skipn (Z.to_nat 0) h) at 2.
  apply (wp_emit_bytes N F h 0 len); try lia.
  { apply wp_extract_all; auto; try lia; [rewrite zlen_slice; lia|].
    rewrite (squeeze_slice r S0 j) by (auto; lia). reflexivity. }
  rewrite Z.add_0_l. apply wp_bind, wp_inc_set; [apply W|]. apply wp_bind.
  apply (wp_while_measure N (fun '(h', pos, ol, st) => 0 <= pos /\ 0 <= ol /\ pos + ol = outlen /\
            h' = map F (range pos) ++ skipn (Z.to_nat pos) h /\
            exists s c, st = inc s c /\ squeezing r S0 (j + pos) (s, c) /\ (c = 0 \/ ol = 0))
          (fun '(h', pos, ol, st) => ol)).
  - do 3 (split; [lia|]). split; [reflexivity|]. exists s, (cnt - len). split; [reflexivity|]. split; [|lia].
    split; [exact W|]. split; [exact WS|]. cbn [fst snd]. split; [lia|]. split; [lia|].
    exists q. split; [lia|]. split; [exact E|]. lia.
  - lia.
  - intros [[[h' pos] ol] st1] (Hp & Hol & Es & Eh & s1 & c1 & -> & Hs1 & Hc1) Hcond.
    split; [lia|]. assert (c1 = 0) by lia. subst c1.
    pose proof Hs1 as (W1 & _ & _ & Hj1 & q1 & Hq1 & E1 & C1). cbn [fst snd] in *.
    apply wp_bind, wp_inc_on; [apply W1|]. apply wp_permute_bytes_a64; auto. intros s2 W2 E2. split; [apply W2|].
    apply wp_bind. apply wp_mono with (Q := fun len => len = Z.min ol r).
    { apply wp_branch; intros; apply wp_ret; lia. }
    intros n ->. set (n := Z.min ol r).
    assert (Hn : 0 < n /\ n <= r /\ n <= ol /\ (n = r \/ n = ol)) by lia.
    clearbody n. destruct Hn as (N1 & N2 & N3 & N4).
    assert (Lh : zlen h' = zlen h).
    { rewrite Eh, zlen_app, zlen_map, zlen_range, zlen_skipn by lia. lia. }
    apply wp_bind, wp_aslice; try lia. apply wp_bind, wp_inc_at; [apply W2|].
    uid. subst h'. apply (wp_emit_bytes N F h pos n); try lia.
    { apply wp_extract_all; auto; try lia; [rewrite zlen_slice; lia|].
      rewrite Z.add_0_l, (fresh_slice r S0 (j + pos) s1) by (auto; lia). apply map_range_ext.
      intros i Hi. unfold F. f_equal. lia. }
    apply wp_bind, wp_inc_set; [apply W2|].
    apply wp_ret. split; [|lia]. do 3 (split; [lia|]). split; [reflexivity|].
    exists s2, (r - n). split; [reflexivity|]. split; [|lia].
    split; [exact W2|]. split; [exact WS|]. cbn [fst snd]. split; [lia|]. split; [lia|].
    exists (q1 + 1). split; [lia|]. split; [|lia].
    rewrite E2, E1. replace (Z.to_nat (q1 + 1)) with (Datatypes.S (Z.to_nat q1)) by lia. reflexivity.
  - intros [[[h' pos] ol] st1] (Hp & Hol & Es & Eh & s1 & c1 & -> & Hs1 & Hc1) Hcond.
    apply wp_ret. assert (pos = outlen) by lia. subst pos. rewrite Eh. apply HQ. now exists s1, c1.
Qed.

Lemma wp_squeezeblocks_a64 cf J N h nblocks s r S0 j (Q : list Z * list Z -> Prop) :
  squeezing r S0 j (s, 0) -> 0 < r <= 200 -> 0 <= nblocks -> r * nblocks <= zlen h ->
  (forall s', squeezing r S0 (j + r * nblocks) (s', 0) ->
     Q (map (fun i => stream r (fb S0) (j + i)) (range (r * nblocks)) ++
          skipn (Z.to_nat (r * nblocks)) h, s')) ->
  wpn N (keccak_squeezeblocks_aarch64 cf J h nblocks s r) Q.
Proof.
  intros Hs Hr Hn Hh HQ. unfold keccak_squeezeblocks_aarch64. apply wp_bind.
  set (F := fun i => stream r (fb S0) (j + i)) in *.
  apply (wp_while N (fun k '(h', pos, nb, s) => pos = r * k /\ nb = nblocks - k /\
            h' = map F (range pos) ++ skipn (Z.to_nat pos) h /\ squeezing r S0 (j + pos) (s, 0)) nblocks).
  - lia.
  - lia.
  - split; [lia|]. split; [lia|]. split; [reflexivity|]. now rewrite Z.add_0_r.
  - intros k [[[h' pos] nb] s1] Hk (Ep & En & Eh & Hs1). split; [lia|].
    pose proof Hs1 as (W1 & WS & _ & Hj1 & q1 & Hq1 & E1 & C1). cbn [fst snd] in *.
    assert (0 <= pos) by nia. assert (pos + r <= zlen h) by nia.
    assert (Lh : zlen h' = zlen h).
    { rewrite Eh, zlen_app, zlen_map, zlen_range, zlen_skipn by lia. lia. }
    apply wp_bind, wp_permute_bytes_a64; auto. intros s2 W2 E2.
    apply wp_bind, wp_aslice; try lia. subst h'. apply (wp_emit_bytes N F h pos r); try lia.
    { apply wp_extract_all; auto; try lia; [rewrite zlen_slice; lia|].
      rewrite Z.add_0_l, (fresh_slice r S0 (j + pos) s1) by (auto; lia). apply map_range_ext.
      intros i Hi. unfold F. f_equal. lia. }
    apply wp_ret. split; [lia|]. split; [lia|]. split; [reflexivity|].
    split; [exact W2|]. split; [exact WS|]. cbn [fst snd]. split; [lia|]. split; [lia|].
    exists (q1 + 1). split; [lia|]. split; [|lia].
    rewrite E2, E1. replace (Z.to_nat (q1 + 1)) with (Datatypes.S (Z.to_nat q1)) by lia. reflexivity.
  - intros [[[h' pos] nb] s1] (Ep & En & Eh & Hs1). split; [lia|].
    apply wp_ret. rewrite Eh, Ep. apply HQ. now rewrite <- Ep.
Qed.

Lemma wp_sponge_a64 cf J N out outlen m mlen r p (Q : list Z -> Prop) :
  0 < r <= 200 -> 0 <= p < 128 -> bytes m -> 0 <= mlen <= zlen m -> mlen < 2 ^ 63 ->
  0 <= outlen <= zlen out -> outlen < 2 ^ 63 ->
  Q (map (stream r (fb (final r p (slice m 0 mlen)))) (range outlen) ++ skipn (Z.to_nat outlen) out) ->
  wpn N (bind (keccak_inc_init (uninit_inc J)) (fun st =>
         bind (keccak_inc_absorb_aarch64 cf (sub J 2) st r m mlen) (fun st =>
         bind (keccak_inc_finalize st r p) (fun st =>
         bind (keccak_inc_squeeze_aarch64 cf (sub J 3) out outlen st r) (fun '(out, _) => ret out))))) Q.
Proof.
  intros Hr Hp Bm Hm Hm' Ho Ho' HQ. unfold uninit_inc.
  apply wp_bind, (wp_inc_init _ _ r); [apply zlen_uninit; lia|lia|]. intros s0 H0.
  apply wp_bind, (wp_inc_absorb_a64 _ _ _ _ _ []); auto. intros s1 H1. cbn [app] in H1.
  apply wp_bind, (wp_inc_finalize _ _ _ _ (slice m 0 mlen)); auto. intros s2 H2.
  apply wp_bind. eapply wp_inc_squeeze_a64; [exact H2|lia|lia|lia|]. intros s3 _. apply wp_ret.
  rewrite stream_at_0. exact HQ.
Qed.

Lemma wp_shake256_a64 cf J N out outlen m mlen (Q : list Z -> Prop) :
  bytes m -> 0 <= mlen <= zlen m -> mlen < 2 ^ 63 -> 0 <= outlen <= zlen out -> outlen < 2 ^ 63 ->
  Q (SHAKE256 (slice m 0 mlen) outlen ++ skipn (Z.to_nat outlen) out) ->
  wpn N (shake256_aarch64 cf J out outlen m mlen) Q.
Proof.
  intros Bm Hm Hm' Ho Ho' HQ. unfold shake256_aarch64, SHAKE256_RATE. apply wp_sponge_a64; auto; try lia.
  rewrite SHAKE256_stream in HQ by (auto; lia || now apply bytes_slice'). exact HQ.
Qed.

Lemma wp_sha3_256_a64 cf J N out m mlen (Q : list Z -> Prop) :
  bytes m -> 0 <= mlen <= zlen m -> mlen < 2 ^ 63 -> 32 <= zlen out ->
  Q (SHA3_256 (slice m 0 mlen) ++ skipn 32 out) ->
  wpn N (sha3_256_aarch64 cf J out m mlen) Q.
Proof.
  intros Bm Hm Hm' Ho HQ. unfold sha3_256_aarch64, SHA3_256_RATE. apply wp_sponge_a64; auto; try lia.
  rewrite SHA3_256_stream in HQ by (now apply bytes_slice'). exact HQ.
Qed.

Lemma wp_sha3_512_a64 cf J N out m mlen (Q : list Z -> Prop) :
  bytes m -> 0 <= mlen <= zlen m -> mlen < 2 ^ 63 -> 64 <= zlen out ->
  Q (SHA3_512 (slice m 0 mlen) ++ skipn 64 out) ->
  wpn N (sha3_512_aarch64 cf J out m mlen) Q.
Proof.
  intros Bm Hm Hm' Ho HQ. unfold sha3_512_aarch64, SHA3_512_RATE. apply wp_sponge_a64; auto; try lia.
  rewrite SHA3_512_stream in HQ by (now apply bytes_slice'). exact HQ.
Qed.

Lemma wp_shake128_absorb_a64 cf J N s m mlen (Q : list Z -> Prop) :
  zlen s = 25 -> bytes m -> 0 <= mlen <= zlen m -> mlen < 2 ^ 63 ->
  (forall s', xof 168 (slice m 0 mlen) 0 s' -> Q s') ->
  wpn N (shake128_absorb_aarch64 cf J s m mlen) Q.
Proof.
  intros L Bm Hm Hm' HQ. unfold shake128_absorb_aarch64, SHAKE128_RATE.
  apply wp_bind, wp_zero_loop; auto. intros s' W Z0.
  apply wp_keccak_absorb_a64; auto; try lia. intros s2 W2 E2. apply HQ.
  assert (bytes (slice m 0 mlen)) by now apply bytes_slice'.
  split; auto. apply squeezing_start; auto; [lia|]. apply wfb_final; auto; lia.
Qed.

Lemma wp_shake128_squeezeblocks_a64 cf J N h nblocks s m j (Q : list Z * list Z -> Prop) :
  xof 168 m j s -> 0 <= j -> 0 <= nblocks -> 168 * nblocks <= zlen h ->
  (forall s', xof 168 m (j + 168 * nblocks) s' ->
     Q (slice (SHAKE128 m (j + 168 * nblocks)) j (j + 168 * nblocks) ++
        skipn (Z.to_nat (168 * nblocks)) h, s')) ->
  wpn N (shake128_squeezeblocks_aarch64 cf J h nblocks s) Q.
Proof.
  intros [Bm Hs] Hj Hn Hh HQ. unfold shake128_squeezeblocks_aarch64, SHAKE128_RATE.
  eapply wp_squeezeblocks_a64; eauto; try lia. intros s' Hs'. rewrite stream_SHAKE128 by (auto; lia).
  apply HQ. split; auto.
Qed.

Lemma sha3_256_correct_a64 cf J out m n : bytes m -> 0 <= n <= zlen m -> n < 2 ^ 63 -> 32 <= zlen out ->
  val (sha3_256_aarch64 cf J out m n) = Ok (SHA3_256 (slice m 0 n) ++ skipn 32 out).
Proof. intros. apply wp_val. apply wp_sha3_256_a64; auto. Qed.

Lemma sha3_512_correct_a64 cf J out m n : bytes m -> 0 <= n <= zlen m -> n < 2 ^ 63 -> 64 <= zlen out ->
  val (sha3_512_aarch64 cf J out m n) = Ok (SHA3_512 (slice m 0 n) ++ skipn 64 out).
Proof. intros. apply wp_val. apply wp_sha3_512_a64; auto. Qed.

Lemma shake256_correct_a64 cf J out outlen m n : bytes m -> 0 <= n <= zlen m -> n < 2 ^ 63 ->
  0 <= outlen <= zlen out -> outlen < 2 ^ 63 ->
  val (shake256_aarch64 cf J out outlen m n) = Ok (SHAKE256 (slice m 0 n) outlen ++ skipn (Z.to_nat outlen) out).
Proof. intros. apply wp_val. apply wp_shake256_a64; auto. Qed.

Lemma wp_squeeze_all_a64 cf N S0 r : forall bufs J st j (Q : list (list Z) -> Prop), r = 136 ->
  squeezing_inc r S0 j st -> Forall (fun b => zlen b < 2 ^ 63) bufs ->
  (forall outs, map zlen outs = map zlen bufs ->
     concat outs = map (fun i => stream r (fb S0) (j + i)) (range (zlen (concat bufs))) -> Q outs) ->
  wpn N (squeeze_all_aarch64 cf J st bufs) Q.
Proof.
  induction bufs as [|b bs IH]; intros J st j Q Er Hs Hb HQ; cbn [squeeze_all_aarch64].
  - apply wp_ret, HQ; [reflexivity|]. reflexivity.
  - inversion Hb as [|? ? Hb0 Hbs]; subst. pose proof (zlen_nonneg b) as Ln.
    apply wp_bind. unfold shake256_inc_squeeze_aarch64, SHAKE256_RATE.
    eapply wp_inc_squeeze_a64; [exact Hs|lia|lia|exact Hb0|]. intros st' Hs'.
    replace (Z.to_nat (zlen b)) with (length b) by (unfold zlen; lia). rewrite skipn_all, app_nil_r.
    apply wp_bind. eapply IH; eauto. intros outs Lo Eo. apply wp_ret, HQ.
    + cbn [map]. rewrite zlen_map, zlen_range by lia. now rewrite Lo.
    + cbn [concat]. rewrite zlen_app, range_app, map_app by (try apply zlen_nonneg). rewrite map_map. f_equal.
      rewrite Eo. apply map_range_ext. intros i Hi. f_equal. lia.
Qed.

Lemma wp_absorb_all_a64 cf N r : forall chunks J st m (Q : list Z -> Prop), r = 136 ->
  absorbing r m st -> Forall (fun c => bytes c /\ zlen c < 2 ^ 63) chunks ->
  (forall st', absorbing r (m ++ concat chunks) st' -> Q st') -> wpn N (absorb_all_aarch64 cf J st chunks) Q.
Proof.
  induction chunks as [|c cs IH]; intros J st m Q Er Hs Hc HQ; cbn [absorb_all_aarch64].
  - apply wp_ret, HQ. cbn [concat]. now rewrite app_nil_r.
  - inversion Hc as [|? ? [Bc Lc] Hcs]; subst. pose proof (zlen_nonneg c) as Ln.
    apply wp_bind. unfold shake256_inc_absorb_aarch64, SHAKE256_RATE.
    eapply wp_inc_absorb_a64; [exact Hs|lia|exact Bc|lia|exact Lc|]. intros st' Hs'. rewrite slice_all in Hs'.
    eapply IH; eauto. intros st2 Hs2. apply HQ. cbn [concat]. now rewrite app_assoc.
Qed.

Lemma incremental_correct_a64 cf J s chunks bufs : zlen s = 26 ->
  Forall (fun c => bytes c /\ zlen c < 2 ^ 63) chunks -> Forall (fun b => zlen b < 2 ^ 63) bufs ->
  exists outs,
    val (st <- shake256_inc_init s ;;
         st <- absorb_all_aarch64 cf (sub J 0) st chunks ;;
         st <- shake256_inc_finalize st ;;
         squeeze_all_aarch64 cf (sub J 1) st bufs) = Ok outs /\
    map zlen outs = map zlen bufs /\
    concat outs = SHAKE256 (concat chunks) (zlen (concat bufs)).
Proof.
  intros L Hc Hb. apply wp_ex. unfold shake256_inc_init.
  apply wp_bind, (wp_inc_init _ _ 136); [auto|lia|]. intros s0 H0.
  apply wp_bind. eapply (wp_absorb_all_a64 _ _ 136); eauto. intros s1 H1. cbn [app] in H1.
  apply wp_bind. unfold shake256_inc_finalize, SHAKE256_RATE.
  apply (wp_inc_finalize _ _ _ _ (concat chunks)); auto; try lia. intros s2 H2.
  eapply (wp_squeeze_all_a64 _ _ _ 136); eauto. intros outs Lo Eo. split; auto.
  rewrite Eo, SHAKE256_stream.
  - apply map_range_ext. intros. f_equal.
  - apply bytes_concat. eapply Forall_impl; [|exact Hc]. now intros a [Ha _].
  - apply zlen_nonneg.
Qed.

Lemma wp_squeeze_blocks_all_a64 cf N m : forall bufs J s j (Q : list (list Z) -> Prop),
  xof 168 m j s -> 0 <= j -> Forall (fun b => zlen b mod 168 = 0) bufs ->
  (forall outs, map zlen outs = map zlen bufs ->
     concat outs = map (fun i => stream 168 (fb (final 168 31 m)) (j + i)) (range (zlen (concat bufs))) -> Q outs) ->
  wpn N (squeeze_blocks_all_aarch64 cf J s bufs) Q.
Proof.
  induction bufs as [|b bs IH]; intros J st j Q Hs Hj Hb HQ; cbn [squeeze_blocks_all_aarch64].
  - apply wp_ret, HQ; reflexivity.
  - inversion Hb as [|? ? Hb0 Hbs]; subst. pose proof (zlen_nonneg b) as Ln.
    pose proof (Z.div_mod (zlen b) 168 ltac:(lia)) as Hd. pose proof (Z.div_pos (zlen b) 168 ltac:(lia) ltac:(lia)).
    apply wp_bind. unfold shake128_squeezeblocks_aarch64, SHAKE128_RATE. destruct Hs as [Bm Hs].
    eapply wp_squeezeblocks_a64; [exact Hs|lia|lia|lia|]. intros st' Hs'.
    replace (168 * (zlen b / 168)) with (zlen b) in * by lia.
    replace (Z.to_nat (zlen b)) with (length b) by (unfold zlen; lia). rewrite skipn_all, app_nil_r.
    apply wp_bind. apply (IH (sub J 1) st' (j + zlen b)); [split; auto|lia|auto|]. intros outs Lo Eo. apply wp_ret, HQ.
    + cbn [map]. rewrite zlen_map, zlen_range by lia. now rewrite Lo.
    + cbn [concat]. rewrite zlen_app, range_app, map_app by (try apply zlen_nonneg). rewrite map_map. f_equal.
      rewrite Eo. apply map_range_ext. intros i Hi. f_equal. lia.
Qed.

Lemma shake128_correct_a64 cf J s0 m n bufs : zlen s0 = 25 -> bytes m -> 0 <= n <= zlen m -> n < 2 ^ 63 ->
  Forall (fun b => zlen b mod 168 = 0) bufs ->
  exists outs, val (s <- shake128_absorb_aarch64 cf (sub J 0) s0 m n ;; squeeze_blocks_all_aarch64 cf (sub J 1) s bufs) = Ok outs /\
    map zlen outs = map zlen bufs /\
    concat outs = SHAKE128 (slice m 0 n) (zlen (concat bufs)).
Proof.
  intros L Bm Hn Hn' Hb. apply wp_ex. apply wp_bind, wp_shake128_absorb_a64; auto. intros s Hs.
  eapply wp_squeeze_blocks_all_a64; eauto; [lia|]. intros outs Lo Eo. split; auto.
  rewrite Eo, SHAKE128_stream by (try apply zlen_nonneg; now apply bytes_slice').
  apply map_range_ext. intros. f_equal.
Qed.

Lemma wp_xor4_full_a64 {A} cf J N r m0 m1 m2 m3 s x0 x1 x2 x3 len off (f : list Z -> M A) (Q : A -> Prop) :
  holds4 r m0 m1 m2 m3 s -> 0 < r <= 200 -> bytes x0 -> bytes x1 -> bytes x2 -> bytes x3 ->
  off = zlen m0 mod r -> off = zlen m1 mod r -> off = zlen m2 mod r -> off = zlen m3 mod r ->
  len = zlen x0 -> len = zlen x1 -> len = zlen x2 -> len = zlen x3 -> 0 < len -> off + len = r ->
  (forall s', holds4 r (m0 ++ x0) (m1 ++ x1) (m2 ++ x2) (m3 ++ x3) s' -> wpn N (f s') Q) ->
  wpn N (bind (KeccakF1600x4_StateXORBytes s x0 x1 x2 x3 off len)
           (fun s => bind (KeccakF1600x4_StatePermute_aarch64 cf J s) f)) Q.
Proof.
  intros (s0 & s1 & s2 & s3 & -> & H0 & H1 & H2 & H3) Hr B0 B1 B2 B3 O0 O1 O2 O3 L0 L1 L2 L3 Hp Hlt HQ.
  pose proof (Z.mod_pos_bound (zlen m0) r ltac:(lia)) as Hm.
  pose proof (proj1 (proj1 H0)). pose proof (proj1 (proj1 H1)). pose proof (proj1 (proj1 H2)). pose proof (proj1 (proj1 H3)).
  unfold KeccakF1600x4_StateXORBytes.
  apply wp_bind.
  apply wp_bind, wp_on0; auto. apply wp_xor_then; auto; try lia; [apply H0|]. intros t0 W0 T0. pose proof (proj1 W0). split; [auto|].
  apply wp_bind, wp_on1; auto. apply wp_xor_then; auto; try lia; [apply H1|]. intros t1 W1 T1. pose proof (proj1 W1). split; [auto|].
  apply wp_bind, wp_on2; auto. apply wp_xor_then; auto; try lia; [apply H2|]. intros t2 W2 T2. pose proof (proj1 W2). split; [auto|].
  apply wp_on3; auto. apply wp_xor_then; auto; try lia; [apply H3|]. intros t3 W3 T3. pose proof (proj1 W3). split; [auto|].
  apply wp_bind, wp_permute_x4_bytes; auto. intros u0 u1 u2 u3 V0 U0 V1 U1 V2 U2 V3 U3.
  apply HQ. exists u0, u1, u2, u3. split; [reflexivity|]. split; [|split; [|split]].
  - apply (holds_xor_full r m0 s0 x0 t0 u0 off); auto; lia.
  - apply (holds_xor_full r m1 s1 x1 t1 u1 off); auto; lia.
  - apply (holds_xor_full r m2 s2 x2 t2 u2 off); auto; lia.
  - apply (holds_xor_full r m3 s3 x3 t3 u3 off); auto; lia.
Qed.

Lemma wp_keccak_absorb_x4_a64 cf J N r in0 in1 in2 in3 inlen p (Q : list Z -> Prop) :
  0 < r <= 200 -> 0 <= p < 128 -> bytes in0 -> bytes in1 -> bytes in2 -> bytes in3 ->
  0 <= inlen < 2 ^ 63 -> inlen <= zlen in0 -> inlen <= zlen in1 -> inlen <= zlen in2 -> inlen <= zlen in3 ->
  (forall s', states4 (final r p (slice in0 0 inlen)) (final r p (slice in1 0 inlen))
                      (final r p (slice in2 0 inlen)) (final r p (slice in3 0 inlen)) s' -> Q s') ->
  wpn N (bind zero_x4 (fun s => keccak_absorb_x4_aarch64 cf J s r in0 in1 in2 in3 inlen p)) Q.
Proof.
  intros Hr Hp B0 B1 B2 B3 Hi L0 L1 L2 L3 HQ. apply wp_bind. unfold zero_x4.
  apply wp_bind, wp_emit, wp_ret. unfold keccak_absorb_x4_aarch64. apply wp_bind.
  assert (Z0 : holds r [] (repeat 0 25)).
  { apply holds_zero; [lia| |].
    - split; [reflexivity|]. apply Forall_forall. intros x Hx. apply repeat_spec in Hx. subst. unfold wf64; lia.
    - intros i Hi'. apply zget_repeat. lia. }
  apply (wp_while_measure N (fun '(s, pos, ml) => exists k, pos = r * k /\ 0 <= k /\ 0 <= ml /\ pos + ml = inlen /\
            holds4 r (slice in0 0 pos) (slice in1 0 pos) (slice in2 0 pos) (slice in3 0 pos) s)
          (fun '(s, pos, ml) => ml)).
  - exists 0. do 4 (split; [lia|]). rewrite !slice_nil.
    exists (repeat 0 25), (repeat 0 25), (repeat 0 25), (repeat 0 25). split; [reflexivity|].
    split; [|split; [|split]]; exact Z0.
  - lia.
  - intros [[st pos] ml] (k & Ep & Hk & Hml & Esum & HH) Hc.
    assert (0 <= pos) by nia.
    split; [lia|]. uid. do 4 (apply wp_bind, wp_aslice; try lia).
    assert (Em : 0 = pos mod r) by (rewrite Ep, Z.mul_comm, Z.mod_mul; lia).
    eapply (wp_xor4_full_a64 _ _ N r); [exact HH| ..]; try (apply bytes_slice'; assumption);
      try (rewrite ?zlen_slice; lia); try (rewrite zlen_slice, Z.sub_0_r by lia; exact Em).
    intros s' HH'. apply wp_ret. split; [|lia]. exists (k + 1). do 4 (split; [lia|]).
    rewrite !slice_cat in HH' by lia. exact HH'.
  - intros [[st pos] ml] (k & Ep & Hk & Hml & Esum & HH) Hc.
    assert (0 <= pos) by nia.
    assert (Em : 0 = pos mod r) by (rewrite Ep, Z.mul_comm, Z.mod_mul; lia).
    assert (Em' : ml = inlen mod r) by (apply (Z.mod_unique _ _ k); lia).
    uid. apply wp_bind. cbv zeta.
    assert (P : forall s', holds4 r (slice in0 0 inlen) (slice in1 0 inlen) (slice in2 0 inlen) (slice in3 0 inlen) s' ->
       wpn N (branch (ml =? r - 1)
           (KeccakF1600x4_StateXORBytes s' [u8 (p .| 128)] [u8 (p .| 128)] [u8 (p .| 128)] [u8 (p .| 128)] ml 1)
           (bind (KeccakF1600x4_StateXORBytes s' [p] [p] [p] [p] ml 1)
              (fun s => KeccakF1600x4_StateXORBytes s [128] [128] [128] [128] (r - 1) 1))) Q).
    { intros s' HH'. eapply wp_pad4; [exact HH'|lia|lia| | | | |exact HQ];
        rewrite zlen_slice, Z.sub_0_r by lia; exact Em'. }
    apply wp_branch; intros C.
    + do 4 (apply wp_bind, wp_aslice; try lia).
      eapply (wp_xor4_part N r); [exact HH| ..]; try (apply bytes_slice'; assumption);
        try (rewrite ?zlen_slice; lia); try (rewrite zlen_slice, Z.sub_0_r by lia; exact Em).
      intros s' HH'. apply P. rewrite !slice_cat, !Esum in HH' by lia. exact HH'.
    + apply wp_ret. apply P. replace inlen with pos by lia. exact HH.
Qed.

Lemma wp_squeezeblocks_x4_a64 cf J N h0 h1 h2 h3 nblocks s r S0 S1 S2 S3 j (Q : x4 (list Z) * list Z -> Prop) :
  squeezing4 r S0 S1 S2 S3 j s -> 0 < r <= 200 -> 0 <= nblocks ->
  r * nblocks <= zlen h0 -> r * nblocks <= zlen h1 -> r * nblocks <= zlen h2 -> r * nblocks <= zlen h3 ->
  (let out S h := map (fun i => stream r (fb S) (j + i)) (range (r * nblocks)) ++ skipn (Z.to_nat (r * nblocks)) h in
   forall s', squeezing4 r S0 S1 S2 S3 (j + r * nblocks) s' ->
     Q ((out S0 h0, out S1 h1, out S2 h2, out S3 h3), s')) ->
  wpn N (keccak_squeezeblocks_x4_aarch64 cf J h0 h1 h2 h3 nblocks s r) Q.
Proof.
  intros Hs Hr Hn L0 L1 L2 L3 HQ. unfold keccak_squeezeblocks_x4_aarch64. apply wp_bind. cbv zeta in HQ.
  set (F := fun S i => stream r (fb S) (j + i)) in *.
  set (O := fun S h pos => map (F S) (range pos) ++ skipn (Z.to_nat pos) h).
  apply (wp_while N (fun k '(h', pos, nb, s) => pos = r * k /\ nb = nblocks - k /\
            h' = (O S0 h0 pos, O S1 h1 pos, O S2 h2 pos, O S3 h3 pos) /\
            squeezing4 r S0 S1 S2 S3 (j + pos) s) nblocks).
  - lia.
  - lia.
  - split; [lia|]. split; [lia|]. split; [reflexivity|]. now rewrite Z.add_0_r.
  - intros k [[[h' pos] nb] s1] Hk (Ep & En & Eh & Hs1). split; [lia|].
    destruct Hs1 as (s0' & s1' & s2' & s3' & -> & Q0 & Q1 & Q2 & Q3). rewrite Eh.
    assert (K0 : zlen s0' = 25) by apply Q0. assert (K1 : zlen s1' = 25) by apply Q1.
    assert (K2 : zlen s2' = 25) by apply Q2. assert (K3 : zlen s3' = 25) by apply Q3.
    assert (0 <= pos) by nia. assert (pos + r <= r * nblocks) by nia.
    assert (LO : forall S h, r * nblocks <= zlen h -> zlen (O S h pos) = zlen h).
    { intros S h Lh. unfold O. rewrite zlen_app, zlen_map, zlen_range, zlen_skipn by lia. lia. }
    pose proof (LO S0 h0 L0). pose proof (LO S1 h1 L1). pose proof (LO S2 h2 L2). pose proof (LO S3 h3 L3).
    unfold KeccakF1600x4_StateExtractBytes.
    apply wp_bind.
    apply wp_permute_x4_bytes; [apply Q0|apply Q1|apply Q2|apply Q3|].
    intros u0 u1 u2 u3 V0 U0 V1 U1 V2 U2 V3 U3.
    pose proof (proj1 V0). pose proof (proj1 V1). pose proof (proj1 V2). pose proof (proj1 V3).
    do 4 (apply wp_bind, wp_aslice; try lia). apply wp_bind.
    apply wp_bind, wp_at0; auto. apply wp_bind, wp_extract_all; [assumption|lia|rewrite zlen_slice; lia|lia|].
    apply wp_bind, wp_at1; auto. apply wp_bind, wp_extract_all; [assumption|lia|rewrite zlen_slice; lia|lia|].
    apply wp_bind, wp_at2; auto. apply wp_bind, wp_extract_all; [assumption|lia|rewrite zlen_slice; lia|lia|].
    apply wp_bind, wp_at3; auto. apply wp_bind, wp_extract_all; [assumption|lia|rewrite zlen_slice; lia|lia|].
    apply wp_ret. rewrite !Z.add_0_l.
    assert (SL : forall S s s', squeezing r S (j + pos) (s, 0) -> wfs s' -> state_bytes s' = fb (state_bytes s) ->
      slice (state_bytes s') 0 r = map (fun i => F S (pos + i)) (range r)).
    { intros S s2 s3 HS W2 E2. rewrite (fresh_slice r S (j + pos) s2) by (auto; lia). apply map_range_ext.
      intros i Hi. unfold F. f_equal. lia. }
    apply wp_bind, (wp_put N (F S0) h0 pos r); try lia; [apply (SL _ _ _ Q0 V0 U0)|].
    apply wp_bind, (wp_put N (F S1) h1 pos r); try lia; [apply (SL _ _ _ Q1 V1 U1)|].
    apply wp_bind, (wp_put N (F S2) h2 pos r); try lia; [apply (SL _ _ _ Q2 V2 U2)|].
    apply wp_bind, (wp_put N (F S3) h3 pos r); try lia; [apply (SL _ _ _ Q3 V3 U3)|].
    apply wp_ret. split; [lia|]. split; [lia|]. split; [reflexivity|].
    rewrite Z.add_assoc. exists u0, u1, u2, u3. split; [reflexivity|].
    split; [|split; [|split]]; (eapply squeezing_next; [eassumption|lia|assumption|assumption]).
  - intros [[[h' pos] nb] s1] (Ep & En & Eh & Hs1). split; [lia|].
    apply wp_ret. rewrite Eh, Ep. apply HQ. now rewrite <- Ep.
Qed.

Lemma wp_shakex4_absorb_a64 cf J N r in0 in1 in2 in3 inlen (Q : list Z -> Prop) :
  0 < r <= 200 -> bytes in0 -> bytes in1 -> bytes in2 -> bytes in3 -> 0 <= inlen < 2 ^ 63 ->
  inlen <= zlen in0 -> inlen <= zlen in1 -> inlen <= zlen in2 -> inlen <= zlen in3 ->
  (forall s', xof4 r (slice in0 0 inlen) (slice in1 0 inlen) (slice in2 0 inlen) (slice in3 0 inlen) 0 s' -> Q s') ->
  wpn N (bind zero_x4 (fun s => keccak_absorb_x4_aarch64 cf J s r in0 in1 in2 in3 inlen 31)) Q.
Proof.
  intros Hr B0 B1 B2 B3 Hi L0 L1 L2 L3 HQ. apply wp_keccak_absorb_x4_a64; auto; try lia.
  intros s (s0 & s1 & s2 & s3 & -> & [W0 E0] & [W1 E1] & [W2 E2] & [W3 E3]). apply HQ. apply xof4_squeezing.
  split; [repeat split; now apply bytes_slice'|]. exists s0, s1, s2, s3. split; [reflexivity|].
  split; [|split; [|split]]; (apply squeezing_start; auto; [lia|apply wfb_final; auto; [lia|now apply bytes_slice']]).
Qed.

Lemma wp_shake128x4_absorb_a64 cf J N in0 in1 in2 in3 inlen (Q : list Z -> Prop) :
  bytes in0 -> bytes in1 -> bytes in2 -> bytes in3 -> 0 <= inlen < 2 ^ 63 ->
  inlen <= zlen in0 -> inlen <= zlen in1 -> inlen <= zlen in2 -> inlen <= zlen in3 ->
  (forall s', xof4 168 (slice in0 0 inlen) (slice in1 0 inlen) (slice in2 0 inlen) (slice in3 0 inlen) 0 s' -> Q s') ->
  wpn N (shake128x4_absorb_aarch64 cf J in0 in1 in2 in3 inlen) Q.
Proof. intros. unfold shake128x4_absorb_aarch64, SHAKE128_RATE. apply wp_shakex4_absorb_a64; auto; lia. Qed.

Lemma wp_shake128x4_squeezeblocks_a64 cf J N h0 h1 h2 h3 nblocks s m0 m1 m2 m3 j (Q : x4 (list Z) * list Z -> Prop) :
  xof4 168 m0 m1 m2 m3 j s -> 0 <= j -> 0 <= nblocks -> 168 * nblocks <= zlen h0 -> 168 * nblocks <= zlen h1 ->
  168 * nblocks <= zlen h2 -> 168 * nblocks <= zlen h3 ->
  (let out m h := slice (SHAKE128 m (j + 168 * nblocks)) j (j + 168 * nblocks) ++
                  skipn (Z.to_nat (168 * nblocks)) h in
   forall s', xof4 168 m0 m1 m2 m3 (j + 168 * nblocks) s' ->
     Q ((out m0 h0, out m1 h1, out m2 h2, out m3 h3), s')) ->
  wpn N (shake128x4_squeezeblocks_aarch64 cf J h0 h1 h2 h3 nblocks s) Q.
Proof.
  intros Hx Hj Hn L0 L1 L2 L3 HQ. unfold shake128x4_squeezeblocks_aarch64, SHAKE128_RATE. cbv zeta in HQ.
  apply xof4_squeezing in Hx as [(B0 & B1 & B2 & B3) Hs].
  eapply wp_squeezeblocks_x4_a64; [exact Hs|lia|lia|lia|lia|lia|lia|]. intros out s' Hs'. unfold out.
  rewrite !stream_SHAKE128 by (auto; lia). apply HQ. apply xof4_squeezing. auto.
Qed.

Lemma wp_shake256x4_a64 cf J N h0 h1 h2 h3 outlen in0 in1 in2 in3 inlen (Q : x4 (list Z) -> Prop) :
  bytes in0 -> bytes in1 -> bytes in2 -> bytes in3 -> 0 <= inlen < 2 ^ 63 ->
  inlen <= zlen in0 -> inlen <= zlen in1 -> inlen <= zlen in2 -> inlen <= zlen in3 ->
  0 <= outlen < 2 ^ 63 ->
  outlen <= zlen h0 -> outlen <= zlen h1 -> outlen <= zlen h2 -> outlen <= zlen h3 ->
  (let out m h := SHAKE256 (slice m 0 inlen) outlen ++ skipn (Z.to_nat outlen) h in
   Q (out in0 h0, out in1 h1, out in2 h2, out in3 h3)) ->
  wpn N (shake256x4_aarch64 cf J h0 h1 h2 h3 outlen in0 in1 in2 in3 inlen) Q.
Proof.
  intros B0 B1 B2 B3 Hi I0 I1 I2 I3 Ho L0 L1 L2 L3 HQ. cbv zeta in HQ. unfold shake256x4_aarch64, SHAKE256_RATE.
  pose proof (Z.div_mod outlen 136 ltac:(lia)) as Hd. pose proof (Z.mod_pos_bound outlen 136 ltac:(lia)) as Hm.
  assert (0 <= outlen / 136) by (apply Z.div_pos; lia).
  apply wp_bind, wp_div. set (nb := outlen / 136) in *. clearbody nb.
  apply wp_bind. unfold shake256x4_absorb_aarch64, SHAKE256_RATE. apply wp_shakex4_absorb_a64; auto; try lia.
  intros s Hx. apply xof4_squeezing in Hx as [(C0 & C1 & C2 & C3) Hs].
  apply wp_bind. unfold shake256x4_squeezeblocks_aarch64, SHAKE256_RATE.
  eapply wp_squeezeblocks_x4_a64; [exact Hs|lia|lia|lia|lia|lia|lia|]. intros out s' Hs'. unfold out. clear out.
  rewrite !stream_at_0. rewrite Z.add_0_l in Hs'.
  assert (Eo : u64 (outlen - nb * 136) = outlen - nb * 136).
  { apply u64_id. change (2 ^ 64) with 18446744073709551616. lia. }
  rewrite !Eo. clear Eo. set (n := outlen - nb * 136). 
  replace outlen with (136 * nb + n) in * by (unfold n; lia). rewrite (Z.mul_comm nb 136).
  assert (Hn : 0 <= n < 136) by (unfold n; lia). clearbody n. clear Hd Hm.
  rewrite !SHAKE256_stream in HQ by (auto; lia).
  apply wp_branch; intros C.
  - apply wp_bind. eapply wp_squeezeblocks_x4_a64; [exact Hs'|lia|lia| | | | |];
      try (rewrite zlen_uninit by lia; lia).
    intros out s'' _. unfold out. clear out. change (136 * 1) with 136.
    assert (LT : forall S, zlen (map (fun i => stream 136 S (136 * nb + i)) (range 136)) = 136)
      by (intros; rewrite zlen_map, zlen_range; lia).
    assert (LH : forall S h, 136 * nb + n <= zlen h ->
       zlen (map (stream 136 S) (range (136 * nb)) ++ skipn (Z.to_nat (136 * nb)) h) = zlen h).
    { intros S h Lh. rewrite zlen_app, zlen_map, zlen_range, zlen_skipn by lia. lia. }
    assert (ST : forall S h k, 136 * nb + n <= zlen h ->
      splice (map (stream 136 S) (range (136 * nb)) ++ skipn (Z.to_nat (136 * nb)) h) (136 * nb)
        (slice (map (fun i => stream 136 S (136 * nb + i)) (range 136) ++ skipn (Z.to_nat 136) (uninit J k 136)) 0 (0 + n)) =
      map (stream 136 S) (range (136 * nb + n)) ++ skipn (Z.to_nat (136 * nb + n)) h).
    { intros S h k Lh. rewrite <- (stream_tail S h 136 nb n) by lia. rewrite Z.add_0_l.
      rewrite slice_app_prefix by (rewrite ?LT; lia).
      unfold splice. f_equal. f_equal. f_equal.
      set (sl := slice _ 0 n). assert (Lsl : zlen sl = n) by (unfold sl; rewrite zlen_slice; rewrite ?LT; lia).
      unfold zlen in Lsl. lia. }
    assert (LU : forall S k, zlen (map (fun i => stream 136 S (136 * nb + i)) (range 136) ++
        skipn (Z.to_nat 136) (uninit J k 136)) = 136).
    { intros. rewrite zlen_app, LT, zlen_skipn; rewrite zlen_uninit; lia. }
    do 4 (apply wp_bind, wp_memcpy; [lia|lia|rewrite LU; lia|lia|rewrite LH; lia|]; rewrite ST by assumption).
    apply wp_ret. exact HQ.
  - apply wp_ret. assert (n = 0) by lia. subst n. rewrite Z.add_0_r in HQ. exact HQ.
Qed.

Lemma wp_squeeze_blocks_all_x4_a64 cf N m0 m1 m2 m3 : forall bufs J s j (Q : list (x4 (list Z)) -> Prop),
  xof4 168 m0 m1 m2 m3 j s -> 0 <= j ->
  Forall (fun '(b0, b1, b2, b3) => zlen b0 mod 168 = 0 /\ zlen b1 = zlen b0 /\ zlen b2 = zlen b0 /\ zlen b3 = zlen b0) bufs ->
  (let n := zlen (concat (map (lane 0) bufs)) in
   forall outs, length outs = length bufs ->
     concat (map (lane 0) outs) = map (str m0 j) (range n) ->
     concat (map (lane 1) outs) = map (str m1 j) (range n) ->
     concat (map (lane 2) outs) = map (str m2 j) (range n) ->
     concat (map (lane 3) outs) = map (str m3 j) (range n) -> Q outs) ->
  wpn N (squeeze_blocks_all_x4_aarch64 cf J s bufs) Q.
Proof.
  induction bufs as [|b bs IH]; intros J st j Q Hs Hj Hb HQ; cbn [squeeze_blocks_all_x4_aarch64].
  - apply wp_ret. apply HQ; reflexivity.
  - inversion Hb as [|? ? Hb0 Hbs]; subst. destruct b as [[[b0 b1] b2] b3]. destruct Hb0 as (Hb0 & E1 & E2 & E3).
    pose proof (zlen_nonneg b0) as Ln.
    pose proof (Z.div_mod (zlen b0) 168 ltac:(lia)) as Hd. pose proof (Z.div_pos (zlen b0) 168 ltac:(lia) ltac:(lia)).
    apply wp_bind. unfold shake128x4_squeezeblocks_aarch64, SHAKE128_RATE.
    apply xof4_squeezing in Hs as [Bm Hs].
    eapply wp_squeezeblocks_x4_a64; [exact Hs|lia|lia|lia|lia|lia|lia|]. intros out st' Hs'. unfold out. clear out.
    replace (168 * (zlen b0 / 168)) with (zlen b0) in * by lia.
    assert (SK : forall b : list Z, zlen b = zlen b0 -> skipn (Z.to_nat (zlen b0)) b = []).
    { intros b <-. unfold zlen. rewrite Nat2Z.id. apply skipn_all. }
    rewrite !SK, !app_nil_r by auto.
    apply wp_bind. apply (IH (sub J 1) st' (j + zlen b0)); [apply xof4_squeezing; split; auto|lia|auto|].
    intros n' outs Lo O0 O1 O2 O3. apply wp_ret. apply HQ; [cbn [length]; now rewrite Lo| | | |];
      cbn [map concat lane Z.eqb Pos.eqb]; rewrite zlen_app, range_app, map_app by (try apply zlen_nonneg);
      rewrite map_map; (apply f_equal2; [reflexivity|]);
      (rewrite O0 || rewrite O1 || rewrite O2 || rewrite O3);
      apply map_range_ext; intros i Hi; unfold str; f_equal; lia.
Qed.

Lemma shake128x4_correct_a64 cf J m0 m1 m2 m3 n bufs :
  bytes m0 -> bytes m1 -> bytes m2 -> bytes m3 -> 0 <= n < 2 ^ 63 ->
  n <= zlen m0 -> n <= zlen m1 -> n <= zlen m2 -> n <= zlen m3 ->
  Forall (fun '(b0, b1, b2, b3) => zlen b0 mod 168 = 0 /\ zlen b1 = zlen b0 /\ zlen b2 = zlen b0 /\ zlen b3 = zlen b0) bufs ->
  exists outs, val (s <- shake128x4_absorb_aarch64 cf (sub J 0) m0 m1 m2 m3 n ;; squeeze_blocks_all_x4_aarch64 cf (sub J 1) s bufs) = Ok outs /\
    length outs = length bufs /\
    forall i, 0 <= i < 4 ->
      concat (map (lane i) outs) = SHAKE128 (slice (lane i (m0, m1, m2, m3)) 0 n) (zlen (concat (map (lane i) bufs))).
Proof.
  intros B0 B1 B2 B3 Hn L0 L1 L2 L3 Hb. apply wp_ex. apply wp_bind, wp_shake128x4_absorb_a64; auto. intros s Hs.
  assert (EL : forall i, 0 <= i < 4 -> zlen (concat (map (lane i) bufs)) = zlen (concat (map (lane 0) bufs))).
  { intros i Hi. clear Hs. induction Hb as [|[[[b0 b1] b2] b3] bs (Hb0 & E1 & E2 & E3) Hbs IH]; [reflexivity|].
    cbn [map concat]. rewrite !zlen_app, IH. f_equal.
    assert (C : i = 0 \/ i = 1 \/ i = 2 \/ i = 3) by lia.
    destruct C as [-> |[-> |[-> | ->]]]; cbn [lane Z.eqb Pos.eqb]; auto. }
  eapply wp_squeeze_blocks_all_x4_a64; [exact Hs|lia|exact Hb|].
  intros n' outs Lo O0 O1 O2 O3. split; [auto|]. intros i Hi.
  assert (G : forall m, bytes m -> map (str (slice m 0 n) 0) (range n') = SHAKE128 (slice m 0 n) n').
  { intros m Bm. rewrite SHAKE128_stream by (try apply zlen_nonneg; now apply bytes_slice').
    apply map_range_ext. intros. unfold str. f_equal. }
  assert (C : i = 0 \/ i = 1 \/ i = 2 \/ i = 3) by lia. rewrite (EL i Hi). fold n'.
  destruct C as [-> |[-> |[-> | ->]]]; cbn [lane Z.eqb Pos.eqb];
    (rewrite O0 || rewrite O1 || rewrite O2 || rewrite O3); now apply G.
Qed.

Lemma shake256x4_correct_a64 cf J h0 h1 h2 h3 outlen in0 in1 in2 in3 n :
  bytes in0 -> bytes in1 -> bytes in2 -> bytes in3 -> 0 <= n < 2 ^ 63 ->
  n <= zlen in0 -> n <= zlen in1 -> n <= zlen in2 -> n <= zlen in3 ->
  0 <= outlen < 2 ^ 63 ->
  outlen <= zlen h0 -> outlen <= zlen h1 -> outlen <= zlen h2 -> outlen <= zlen h3 ->
  val (shake256x4_aarch64 cf J h0 h1 h2 h3 outlen in0 in1 in2 in3 n) =
  Ok (SHAKE256 (slice in0 0 n) outlen ++ skipn (Z.to_nat outlen) h0,
      SHAKE256 (slice in1 0 n) outlen ++ skipn (Z.to_nat outlen) h1,
      SHAKE256 (slice in2 0 n) outlen ++ skipn (Z.to_nat outlen) h2,
      SHAKE256 (slice in3 0 n) outlen ++ skipn (Z.to_nat outlen) h3).
Proof. intros. apply wp_val. apply wp_shake256x4_a64; auto; reflexivity. Qed.
