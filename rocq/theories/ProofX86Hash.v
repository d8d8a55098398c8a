(** * The four-way hash functions on the AVX2 permutation

    The proofs of ProofHash.v and ProofHistory.v with the four calls of the portable
    permutation replaced by one of the AVX2 one. *)

From Coq Require Import ZArith List Bool Lia ZifyBool.
From Verif Require Import CSem ModelArith ModelKeccak ModelX86Keccak Spec202 SpecHistory SpecX86Build CSemFacts
  ProofScalar ProofBits ProofKeccakF ProofX86Keccak ProofSponge ProofHash ProofHistory.
Import ListNotations.
Open Scope Z_scope.
#[local] Existing Instance LittleEndian.
Ltac Zify.zify_post_hook ::= idtac.
#[local] Opaque KECCAK_f1600 fb KeccakF1600x4_StatePermute_x86_64.

Lemma permute_bytes s s' : wfs s -> wfs s' -> sbits s' = KECCAK_f1600 (sbits s) ->
  state_bytes s' = fb (state_bytes s).
Proof.
  intros W W' E. rewrite !sbits_bytes in E by apply W || apply W'.
  rewrite <- (bits_to_bytes_to_bits (state_bytes s')) by apply wfb_state, W'.
  rewrite E. rewrite <- bits_fb by apply zlen_state_bytes, W.
  apply bits_to_bytes_to_bits. apply wfb_fb. apply zlen_state_bytes, W.
Qed.
Lemma wp_permute_x4_bytes N s0 s1 s2 s3 (Q : list Z -> Prop) :
  wfs s0 -> wfs s1 -> wfs s2 -> wfs s3 ->
  (forall t0 t1 t2 t3, wfs t0 -> state_bytes t0 = fb (state_bytes s0) -> wfs t1 -> state_bytes t1 = fb (state_bytes s1) ->
     wfs t2 -> state_bytes t2 = fb (state_bytes s2) -> wfs t3 -> state_bytes t3 = fb (state_bytes s3) ->
     Q (join4 t0 t1 t2 t3)) ->
  wpn N (KeccakF1600x4_StatePermute_x86_64 (join4 s0 s1 s2 s3)) Q.
Proof.
  intros W0 W1 W2 W3 HQ. apply wp_permute_x4_x86; auto. intros t0 t1 t2 t3 V0 E0 V1 E1 V2 E2 V3 E3.
  apply HQ; auto using permute_bytes.
Qed.

Lemma wp_xor4_full_x86 {A} N r m0 m1 m2 m3 s x0 x1 x2 x3 len off (f : list Z -> M A) (Q : A -> Prop) :
  holds4 r m0 m1 m2 m3 s -> 0 < r <= 200 -> bytes x0 -> bytes x1 -> bytes x2 -> bytes x3 ->
  off = zlen m0 mod r -> off = zlen m1 mod r -> off = zlen m2 mod r -> off = zlen m3 mod r ->
  len = zlen x0 -> len = zlen x1 -> len = zlen x2 -> len = zlen x3 -> 0 < len -> off + len = r ->
  (forall s', holds4 r (m0 ++ x0) (m1 ++ x1) (m2 ++ x2) (m3 ++ x3) s' -> wpn N (f s') Q) ->
  wpn N (bind (KeccakF1600x4_StateXORBytes s x0 x1 x2 x3 off len)
           (fun s => bind (KeccakF1600x4_StatePermute_x86_64 s) f)) Q.
Proof.
  intros (s0 & s1 & s2 & s3 & -> & H0 & H1 & H2 & H3) Hr B0 B1 B2 B3 O0 O1 O2 O3 L0 L1 L2 L3 Hp Hlt HQ.
  pose proof (Z.mod_pos_bound (zlen m0) r ltac:(lia)) as Hm.
  pose proof (proj1 (proj1 H0)). pose proof (proj1 (proj1 H1)). pose proof (proj1 (proj1 H2)). pose proof (proj1 (proj1 H3)).
  unfold KeccakF1600x4_StateXORBytes.
  apply wp_bind.
  apply wp_bind, wp_on0; auto. apply wp_xor_then; auto; try lia; [apply H0|]. intros t0 W0 T0. pose proof (proj1 W0). split; [auto|].
  apply wp_bind, wp_on1; auto. apply wp_xor_then; auto; try lia; [apply H1|]. intros t1 W1 T1. pose proof (proj1 W1). split; [auto|].
  apply wp_bind, wp_on2; auto. apply wp_xor_then; auto; try lia; [apply H2|]. intros t2 W2 T2. pose proof (proj1 W2). split; [auto|].
  apply wp_on3; auto. apply wp_xor_then; auto; try lia; [apply H3|]. intros t3 W3 T3. pose proof (proj1 W3). split; [auto|].
  apply wp_bind, wp_permute_x4_bytes; auto. intros u0 u1 u2 u3 V0 U0 V1 U1 V2 U2 V3 U3.
  apply HQ. exists u0, u1, u2, u3. split; [reflexivity|]. split; [|split; [|split]].
  - apply (holds_xor_full r m0 s0 x0 t0 u0 off); auto; lia.
  - apply (holds_xor_full r m1 s1 x1 t1 u1 off); auto; lia.
  - apply (holds_xor_full r m2 s2 x2 t2 u2 off); auto; lia.
  - apply (holds_xor_full r m3 s3 x3 t3 u3 off); auto; lia.
Qed.

Lemma wp_keccak_absorb_x4_x86 N r in0 in1 in2 in3 inlen p (Q : list Z -> Prop) :
  0 < r <= 200 -> 0 <= p < 128 -> bytes in0 -> bytes in1 -> bytes in2 -> bytes in3 ->
  0 <= inlen < 2 ^ 63 -> inlen <= zlen in0 -> inlen <= zlen in1 -> inlen <= zlen in2 -> inlen <= zlen in3 ->
  (forall s', states4 (final r p (slice in0 0 inlen)) (final r p (slice in1 0 inlen))
                      (final r p (slice in2 0 inlen)) (final r p (slice in3 0 inlen)) s' -> Q s') ->
  wpn N (bind zero_x4 (fun s => keccak_absorb_x4_x86_64 s r in0 in1 in2 in3 inlen p)) Q.
Proof.
  intros Hr Hp B0 B1 B2 B3 Hi L0 L1 L2 L3 HQ. apply wp_bind. unfold zero_x4.
  apply wp_bind, wp_emit, wp_ret. unfold keccak_absorb_x4_x86_64. apply wp_bind.
  assert (Z0 : holds r [] (repeat 0 25)).
  { apply holds_zero; [lia| |].
    - split; [reflexivity|]. apply Forall_forall. intros x Hx. apply repeat_spec in Hx. subst. unfold wf64; lia.
    - intros i Hi'. apply zget_repeat. lia. }
  apply (wp_while_measure N (fun '(s, pos, ml) => exists k, pos = r * k /\ 0 <= k /\ 0 <= ml /\ pos + ml = inlen /\
            holds4 r (slice in0 0 pos) (slice in1 0 pos) (slice in2 0 pos) (slice in3 0 pos) s)
          (fun '(s, pos, ml) => ml)).
  - exists 0. do 4 (split; [lia|]). rewrite !slice_nil.
    exists (repeat 0 25), (repeat 0 25), (repeat 0 25), (repeat 0 25). split; [reflexivity|].
    split; [|split; [|split]]; exact Z0.
  - lia.
  - intros [[st pos] ml] (k & Ep & Hk & Hml & Esum & HH) Hc.
    assert (0 <= pos) by nia.
    split; [lia|]. uid. do 4 (apply wp_bind, wp_aslice; try lia).
    assert (Em : 0 = pos mod r) by (rewrite Ep, Z.mul_comm, Z.mod_mul; lia).
    eapply (wp_xor4_full_x86 N r); [exact HH| ..]; try (apply bytes_slice'; assumption);
      try (rewrite ?zlen_slice; lia); try (rewrite zlen_slice, Z.sub_0_r by lia; exact Em).
    intros s' HH'. apply wp_ret. split; [|lia]. exists (k + 1). do 4 (split; [lia|]).
    rewrite !slice_cat in HH' by lia. exact HH'.
  - intros [[st pos] ml] (k & Ep & Hk & Hml & Esum & HH) Hc.
    assert (0 <= pos) by nia.
    assert (Em : 0 = pos mod r) by (rewrite Ep, Z.mul_comm, Z.mod_mul; lia).
    assert (Em' : ml = inlen mod r) by (apply (Z.mod_unique _ _ k); lia).
    uid. apply wp_bind. cbv zeta.
    assert (P : forall s', holds4 r (slice in0 0 inlen) (slice in1 0 inlen) (slice in2 0 inlen) (slice in3 0 inlen) s' ->
       wpn N (branch (ml =? r - 1)
           (KeccakF1600x4_StateXORBytes s' [u8 (p .| 128)] [u8 (p .| 128)] [u8 (p .| 128)] [u8 (p .| 128)] ml 1)
           (bind (KeccakF1600x4_StateXORBytes s' [p] [p] [p] [p] ml 1)
              (fun s => KeccakF1600x4_StateXORBytes s [128] [128] [128] [128] (r - 1) 1))) Q).
    { intros s' HH'. eapply wp_pad4; [exact HH'|lia|lia| | | | |exact HQ];
        rewrite zlen_slice, Z.sub_0_r by lia; exact Em'. }
    apply wp_branch; intros C.
    + do 4 (apply wp_bind, wp_aslice; try lia).
      eapply (wp_xor4_part N r); [exact HH| ..]; try (apply bytes_slice'; assumption);
        try (rewrite ?zlen_slice; lia); try (rewrite zlen_slice, Z.sub_0_r by lia; exact Em).
      intros s' HH'. apply P. rewrite !slice_cat, !Esum in HH' by lia. exact HH'.
    + apply wp_ret. apply P. replace inlen with pos by lia. exact HH.
Qed.

Lemma wp_squeezeblocks_x4_x86 N h0 h1 h2 h3 nblocks s r S0 S1 S2 S3 j (Q : x4 (list Z) * list Z -> Prop) :
  squeezing4 r S0 S1 S2 S3 j s -> 0 < r <= 200 -> 0 <= nblocks ->
  r * nblocks <= zlen h0 -> r * nblocks <= zlen h1 -> r * nblocks <= zlen h2 -> r * nblocks <= zlen h3 ->
  (let out S h := map (fun i => stream r (fb S) (j + i)) (range (r * nblocks)) ++ skipn (Z.to_nat (r * nblocks)) h in
   forall s', squeezing4 r S0 S1 S2 S3 (j + r * nblocks) s' ->
     Q ((out S0 h0, out S1 h1, out S2 h2, out S3 h3), s')) ->
  wpn N (keccak_squeezeblocks_x4_x86_64 h0 h1 h2 h3 nblocks s r) Q.
Proof.
  intros Hs Hr Hn L0 L1 L2 L3 HQ. unfold keccak_squeezeblocks_x4_x86_64. apply wp_bind. cbv zeta in HQ.
  set (F := fun S i => stream r (fb S) (j + i)) in *.
  set (O := fun S h pos => map (F S) (range pos) ++ skipn (Z.to_nat pos) h).
  apply (wp_while N (fun k '(h', pos, nb, s) => pos = r * k /\ nb = nblocks - k /\
            h' = (O S0 h0 pos, O S1 h1 pos, O S2 h2 pos, O S3 h3 pos) /\
            squeezing4 r S0 S1 S2 S3 (j + pos) s) nblocks).
  - lia.
  - lia.
  - split; [lia|]. split; [lia|]. split; [reflexivity|]. now rewrite Z.add_0_r.
  - intros k [[[h' pos] nb] s1] Hk (Ep & En & Eh & Hs1). split; [lia|].
    destruct Hs1 as (s0' & s1' & s2' & s3' & -> & Q0 & Q1 & Q2 & Q3). rewrite Eh.
    assert (K0 : zlen s0' = 25) by apply Q0. assert (K1 : zlen s1' = 25) by apply Q1.
    assert (K2 : zlen s2' = 25) by apply Q2. assert (K3 : zlen s3' = 25) by apply Q3.
    assert (0 <= pos) by nia. assert (pos + r <= r * nblocks) by nia.
    assert (LO : forall S h, r * nblocks <= zlen h -> zlen (O S h pos) = zlen h).
    { intros S h Lh. unfold O. rewrite zlen_app, zlen_map, zlen_range, zlen_skipn by lia. lia. }
    pose proof (LO S0 h0 L0). pose proof (LO S1 h1 L1). pose proof (LO S2 h2 L2). pose proof (LO S3 h3 L3).
    unfold KeccakF1600x4_StateExtractBytes.
    apply wp_bind.
    apply wp_permute_x4_bytes; [apply Q0|apply Q1|apply Q2|apply Q3|].
    intros u0 u1 u2 u3 V0 U0 V1 U1 V2 U2 V3 U3.
    pose proof (proj1 V0). pose proof (proj1 V1). pose proof (proj1 V2). pose proof (proj1 V3).
    do 4 (apply wp_bind, wp_aslice; try lia). apply wp_bind.
    apply wp_bind, wp_at0; auto. apply wp_bind, wp_extract_all; [assumption|lia|rewrite zlen_slice; lia|lia|].
    apply wp_bind, wp_at1; auto. apply wp_bind, wp_extract_all; [assumption|lia|rewrite zlen_slice; lia|lia|].
    apply wp_bind, wp_at2; auto. apply wp_bind, wp_extract_all; [assumption|lia|rewrite zlen_slice; lia|lia|].
    apply wp_bind, wp_at3; auto. apply wp_bind, wp_extract_all; [assumption|lia|rewrite zlen_slice; lia|lia|].
    apply wp_ret. rewrite !Z.add_0_l.
    assert (SL : forall S s s', squeezing r S (j + pos) (s, 0) -> wfs s' -> state_bytes s' = fb (state_bytes s) ->
      slice (state_bytes s') 0 r = map (fun i => F S (pos + i)) (range r)).
    { intros S s2 s3 HS W2 E2. rewrite (fresh_slice r S (j + pos) s2) by (auto; lia). apply map_range_ext.
      intros i Hi. unfold F. f_equal. lia. }
    apply wp_bind, (wp_put N (F S0) h0 pos r); try lia; [apply (SL _ _ _ Q0 V0 U0)|].
    apply wp_bind, (wp_put N (F S1) h1 pos r); try lia; [apply (SL _ _ _ Q1 V1 U1)|].
    apply wp_bind, (wp_put N (F S2) h2 pos r); try lia; [apply (SL _ _ _ Q2 V2 U2)|].
    apply wp_bind, (wp_put N (F S3) h3 pos r); try lia; [apply (SL _ _ _ Q3 V3 U3)|].
    apply wp_ret. split; [lia|]. split; [lia|]. split; [reflexivity|].
    rewrite Z.add_assoc. exists u0, u1, u2, u3. split; [reflexivity|].
    split; [|split; [|split]]; (eapply squeezing_next; [eassumption|lia|assumption|assumption]).
  - intros [[[h' pos] nb] s1] (Ep & En & Eh & Hs1). split; [lia|].
    apply wp_ret. rewrite Eh, Ep. apply HQ. now rewrite <- Ep.
Qed.

Lemma wp_shakex4_absorb_x86 N r in0 in1 in2 in3 inlen (Q : list Z -> Prop) :
  0 < r <= 200 -> bytes in0 -> bytes in1 -> bytes in2 -> bytes in3 -> 0 <= inlen < 2 ^ 63 ->
  inlen <= zlen in0 -> inlen <= zlen in1 -> inlen <= zlen in2 -> inlen <= zlen in3 ->
  (forall s', xof4 r (slice in0 0 inlen) (slice in1 0 inlen) (slice in2 0 inlen) (slice in3 0 inlen) 0 s' -> Q s') ->
  wpn N (bind zero_x4 (fun s => keccak_absorb_x4_x86_64 s r in0 in1 in2 in3 inlen 31)) Q.
Proof.
  intros Hr B0 B1 B2 B3 Hi L0 L1 L2 L3 HQ. apply wp_keccak_absorb_x4_x86; auto; try lia.
  intros s (s0 & s1 & s2 & s3 & -> & [W0 E0] & [W1 E1] & [W2 E2] & [W3 E3]). apply HQ. apply xof4_squeezing.
  split; [repeat split; now apply bytes_slice'|]. exists s0, s1, s2, s3. split; [reflexivity|].
  split; [|split; [|split]]; (apply squeezing_start; auto; [lia|apply wfb_final; auto; [lia|now apply bytes_slice']]).
Qed.

Lemma wp_shake128x4_absorb_x86 N in0 in1 in2 in3 inlen (Q : list Z -> Prop) :
  bytes in0 -> bytes in1 -> bytes in2 -> bytes in3 -> 0 <= inlen < 2 ^ 63 ->
  inlen <= zlen in0 -> inlen <= zlen in1 -> inlen <= zlen in2 -> inlen <= zlen in3 ->
  (forall s', xof4 168 (slice in0 0 inlen) (slice in1 0 inlen) (slice in2 0 inlen) (slice in3 0 inlen) 0 s' -> Q s') ->
  wpn N (shake128x4_absorb_x86_64 in0 in1 in2 in3 inlen) Q.
Proof. intros. unfold shake128x4_absorb_x86_64, SHAKE128_RATE. apply wp_shakex4_absorb_x86; auto; lia. Qed.

Lemma wp_shake128x4_squeezeblocks_x86 N h0 h1 h2 h3 nblocks s m0 m1 m2 m3 j (Q : x4 (list Z) * list Z -> Prop) :
  xof4 168 m0 m1 m2 m3 j s -> 0 <= j -> 0 <= nblocks -> 168 * nblocks <= zlen h0 -> 168 * nblocks <= zlen h1 ->
  168 * nblocks <= zlen h2 -> 168 * nblocks <= zlen h3 ->
  (let out m h := slice (SHAKE128 m (j + 168 * nblocks)) j (j + 168 * nblocks) ++
                  skipn (Z.to_nat (168 * nblocks)) h in
   forall s', xof4 168 m0 m1 m2 m3 (j + 168 * nblocks) s' ->
     Q ((out m0 h0, out m1 h1, out m2 h2, out m3 h3), s')) ->
  wpn N (shake128x4_squeezeblocks_x86_64 h0 h1 h2 h3 nblocks s) Q.
Proof.
  intros Hx Hj Hn L0 L1 L2 L3 HQ. unfold shake128x4_squeezeblocks_x86_64, SHAKE128_RATE. cbv zeta in HQ.
  apply xof4_squeezing in Hx as [(B0 & B1 & B2 & B3) Hs].
  eapply wp_squeezeblocks_x4_x86; [exact Hs|lia|lia|lia|lia|lia|lia|]. intros out s' Hs'. unfold out.
  rewrite !stream_SHAKE128 by (auto; lia). apply HQ. apply xof4_squeezing. auto.
Qed.

Lemma wp_shake256x4_x86 N J h0 h1 h2 h3 outlen in0 in1 in2 in3 inlen (Q : x4 (list Z) -> Prop) :
  bytes in0 -> bytes in1 -> bytes in2 -> bytes in3 -> 0 <= inlen < 2 ^ 63 ->
  inlen <= zlen in0 -> inlen <= zlen in1 -> inlen <= zlen in2 -> inlen <= zlen in3 ->
  0 <= outlen < 2 ^ 63 ->
  outlen <= zlen h0 -> outlen <= zlen h1 -> outlen <= zlen h2 -> outlen <= zlen h3 ->
  (let out m h := SHAKE256 (slice m 0 inlen) outlen ++ skipn (Z.to_nat outlen) h in
   Q (out in0 h0, out in1 h1, out in2 h2, out in3 h3)) ->
  wpn N (shake256x4_x86_64 J h0 h1 h2 h3 outlen in0 in1 in2 in3 inlen) Q.
Proof.
  intros B0 B1 B2 B3 Hi I0 I1 I2 I3 Ho L0 L1 L2 L3 HQ. cbv zeta in HQ. unfold shake256x4_x86_64, SHAKE256_RATE.
  pose proof (Z.div_mod outlen 136 ltac:(lia)) as Hd. pose proof (Z.mod_pos_bound outlen 136 ltac:(lia)) as Hm.
  assert (0 <= outlen / 136) by (apply Z.div_pos; lia).
  apply wp_bind, wp_div. set (nb := outlen / 136) in *. clearbody nb.
  apply wp_bind. unfold shake256x4_absorb_x86_64, SHAKE256_RATE. apply wp_shakex4_absorb_x86; auto; try lia.
  intros s Hx. apply xof4_squeezing in Hx as [(C0 & C1 & C2 & C3) Hs].
  apply wp_bind. unfold shake256x4_squeezeblocks_x86_64, SHAKE256_RATE.
  eapply wp_squeezeblocks_x4_x86; [exact Hs|lia|lia|lia|lia|lia|lia|]. intros out s' Hs'. unfold out. clear out.
  rewrite !stream_at_0. rewrite Z.add_0_l in Hs'.
  assert (Eo : u64 (outlen - nb * 136) = outlen - nb * 136).
  { apply u64_id. change (2 ^ 64) with 18446744073709551616. lia. }
  rewrite !Eo. clear Eo. set (n := outlen - nb * 136). 
  replace outlen with (136 * nb + n) in * by (unfold n; lia). rewrite (Z.mul_comm nb 136).
  assert (Hn : 0 <= n < 136) by (unfold n; lia). clearbody n. clear Hd Hm.
  rewrite !SHAKE256_stream in HQ by (auto; lia).
  apply wp_branch; intros C.
  - apply wp_bind. eapply wp_squeezeblocks_x4_x86; [exact Hs'|lia|lia| | | | |];
      try (rewrite zlen_uninit by lia; lia).
    intros out s'' _. unfold out. clear out. change (136 * 1) with 136.
    assert (LT : forall S, zlen (map (fun i => stream 136 S (136 * nb + i)) (range 136)) = 136)
      by (intros; rewrite zlen_map, zlen_range; lia).
    assert (LH : forall S h, 136 * nb + n <= zlen h ->
       zlen (map (stream 136 S) (range (136 * nb)) ++ skipn (Z.to_nat (136 * nb)) h) = zlen h).
    { intros S h Lh. rewrite zlen_app, zlen_map, zlen_range, zlen_skipn by lia. lia. }
    assert (ST : forall S h k, 136 * nb + n <= zlen h ->
      splice (map (stream 136 S) (range (136 * nb)) ++ skipn (Z.to_nat (136 * nb)) h) (136 * nb)
        (slice (map (fun i => stream 136 S (136 * nb + i)) (range 136) ++ skipn (Z.to_nat 136) (uninit J k 136)) 0 (0 + n)) =
      map (stream 136 S) (range (136 * nb + n)) ++ skipn (Z.to_nat (136 * nb + n)) h).
    { intros S h k Lh. rewrite <- (stream_tail S h 136 nb n) by lia. rewrite Z.add_0_l.
      rewrite slice_app_prefix by (rewrite ?LT; lia).
      unfold splice. f_equal. f_equal. f_equal.
      set (sl := slice _ 0 n). assert (Lsl : zlen sl = n) by (unfold sl; rewrite zlen_slice; rewrite ?LT; lia).
      unfold zlen in Lsl. lia. }
    assert (LU : forall S k, zlen (map (fun i => stream 136 S (136 * nb + i)) (range 136) ++
        skipn (Z.to_nat 136) (uninit J k 136)) = 136).
    { intros. rewrite zlen_app, LT, zlen_skipn; rewrite zlen_uninit; lia. }
    do 4 (apply wp_bind, wp_memcpy; [lia|lia|rewrite LU; lia|lia|rewrite LH; lia|]; rewrite ST by assumption).
    apply wp_ret. exact HQ.
  - apply wp_ret. assert (n = 0) by lia. subst n. rewrite Z.add_0_r in HQ. exact HQ.
Qed.

Lemma wp_squeeze_blocks_all_x4_x86 N m0 m1 m2 m3 : forall bufs s j (Q : list (x4 (list Z)) -> Prop),
  xof4 168 m0 m1 m2 m3 j s -> 0 <= j ->
  Forall (fun '(b0, b1, b2, b3) => zlen b0 mod 168 = 0 /\ zlen b1 = zlen b0 /\ zlen b2 = zlen b0 /\ zlen b3 = zlen b0) bufs ->
  (let n := zlen (concat (map (lane 0) bufs)) in
   forall outs, length outs = length bufs ->
     concat (map (lane 0) outs) = map (str m0 j) (range n) ->
     concat (map (lane 1) outs) = map (str m1 j) (range n) ->
     concat (map (lane 2) outs) = map (str m2 j) (range n) ->
     concat (map (lane 3) outs) = map (str m3 j) (range n) -> Q outs) ->
  wpn N (squeeze_blocks_all_x4_x86_64 s bufs) Q.
Proof.
  induction bufs as [|b bs IH]; intros st j Q Hs Hj Hb HQ; cbn [squeeze_blocks_all_x4_x86_64].
  - apply wp_ret. apply HQ; reflexivity.
  - inversion Hb as [|? ? Hb0 Hbs]; subst. destruct b as [[[b0 b1] b2] b3]. destruct Hb0 as (Hb0 & E1 & E2 & E3).
    pose proof (zlen_nonneg b0) as Ln.
    pose proof (Z.div_mod (zlen b0) 168 ltac:(lia)) as Hd. pose proof (Z.div_pos (zlen b0) 168 ltac:(lia) ltac:(lia)).
    apply wp_bind. unfold shake128x4_squeezeblocks_x86_64, SHAKE128_RATE.
    apply xof4_squeezing in Hs as [Bm Hs].
    eapply wp_squeezeblocks_x4_x86; [exact Hs|lia|lia|lia|lia|lia|lia|]. intros out st' Hs'. unfold out. clear out.
    replace (168 * (zlen b0 / 168)) with (zlen b0) in * by lia.
    assert (SK : forall b : list Z, zlen b = zlen b0 -> skipn (Z.to_nat (zlen b0)) b = []).
    { intros b <-. unfold zlen. rewrite Nat2Z.id. apply skipn_all. }
    rewrite !SK, !app_nil_r by auto.
    apply wp_bind. apply (IH st' (j + zlen b0)); [apply xof4_squeezing; split; auto|lia|auto|].
    intros n' outs Lo O0 O1 O2 O3. apply wp_ret. apply HQ; [cbn [length]; now rewrite Lo| | | |];
      cbn [map concat lane Z.eqb Pos.eqb]; rewrite zlen_app, range_app, map_app by (try apply zlen_nonneg);
      rewrite map_map; (apply f_equal2; [reflexivity|]);
      (rewrite O0 || rewrite O1 || rewrite O2 || rewrite O3);
      apply map_range_ext; intros i Hi; unfold str; f_equal; lia.
Qed.

Lemma shake128x4_correct_x86 m0 m1 m2 m3 n bufs :
  bytes m0 -> bytes m1 -> bytes m2 -> bytes m3 -> 0 <= n < 2 ^ 63 ->
  n <= zlen m0 -> n <= zlen m1 -> n <= zlen m2 -> n <= zlen m3 ->
  Forall (fun '(b0, b1, b2, b3) => zlen b0 mod 168 = 0 /\ zlen b1 = zlen b0 /\ zlen b2 = zlen b0 /\ zlen b3 = zlen b0) bufs ->
  exists outs, val (s <- shake128x4_absorb_x86_64 m0 m1 m2 m3 n ;; squeeze_blocks_all_x4_x86_64 s bufs) = Ok outs /\
    length outs = length bufs /\
    forall i, 0 <= i < 4 ->
      concat (map (lane i) outs) = SHAKE128 (slice (lane i (m0, m1, m2, m3)) 0 n) (zlen (concat (map (lane i) bufs))).
Proof.
  intros B0 B1 B2 B3 Hn L0 L1 L2 L3 Hb. apply wp_ex. apply wp_bind, wp_shake128x4_absorb_x86; auto. intros s Hs.
  assert (EL : forall i, 0 <= i < 4 -> zlen (concat (map (lane i) bufs)) = zlen (concat (map (lane 0) bufs))).
  { intros i Hi. clear Hs. induction Hb as [|[[[b0 b1] b2] b3] bs (Hb0 & E1 & E2 & E3) Hbs IH]; [reflexivity|].
    cbn [map concat]. rewrite !zlen_app, IH. f_equal.
    assert (C : i = 0 \/ i = 1 \/ i = 2 \/ i = 3) by lia.
    destruct C as [-> |[-> |[-> | ->]]]; cbn [lane Z.eqb Pos.eqb]; auto. }
  eapply wp_squeeze_blocks_all_x4_x86; [exact Hs|lia|exact Hb|].
  intros n' outs Lo O0 O1 O2 O3. split; [auto|]. intros i Hi.
  assert (G : forall m, bytes m -> map (str (slice m 0 n) 0) (range n') = SHAKE128 (slice m 0 n) n').
  { intros m Bm. rewrite SHAKE128_stream by (try apply zlen_nonneg; now apply bytes_slice').
    apply map_range_ext. intros. unfold str. f_equal. }
  assert (C : i = 0 \/ i = 1 \/ i = 2 \/ i = 3) by lia. rewrite (EL i Hi). fold n'.
  destruct C as [-> |[-> |[-> | ->]]]; cbn [lane Z.eqb Pos.eqb];
    (rewrite O0 || rewrite O1 || rewrite O2 || rewrite O3); now apply G.
Qed.

Lemma shake256x4_correct_x86 J h0 h1 h2 h3 outlen in0 in1 in2 in3 n :
  bytes in0 -> bytes in1 -> bytes in2 -> bytes in3 -> 0 <= n < 2 ^ 63 ->
  n <= zlen in0 -> n <= zlen in1 -> n <= zlen in2 -> n <= zlen in3 ->
  0 <= outlen < 2 ^ 63 ->
  outlen <= zlen h0 -> outlen <= zlen h1 -> outlen <= zlen h2 -> outlen <= zlen h3 ->
  val (shake256x4_x86_64 J h0 h1 h2 h3 outlen in0 in1 in2 in3 n) =
  Ok (SHAKE256 (slice in0 0 n) outlen ++ skipn (Z.to_nat outlen) h0,
      SHAKE256 (slice in1 0 n) outlen ++ skipn (Z.to_nat outlen) h1,
      SHAKE256 (slice in2 0 n) outlen ++ skipn (Z.to_nat outlen) h2,
      SHAKE256 (slice in3 0 n) outlen ++ skipn (Z.to_nat outlen) h3).
Proof. intros. apply wp_val. apply wp_shake256x4_x86; auto; reflexivity. Qed.

(** ** The permutation itself *)

Lemma permute_x4_correct s0 s1 s2 s3 :
  lane_array s0 -> lane_array s1 -> lane_array s2 -> lane_array s3 ->
  exists t0 t1 t2 t3, val (KeccakF1600x4_StatePermute_x86_64 (s0 ++ s1 ++ s2 ++ s3)) = Ok (t0 ++ t1 ++ t2 ++ t3) /\
    (lane_array t0 /\ state_bits t0 = KECCAK_f1600 (state_bits s0)) /\
    (lane_array t1 /\ state_bits t1 = KECCAK_f1600 (state_bits s1)) /\
    (lane_array t2 /\ state_bits t2 = KECCAK_f1600 (state_bits s2)) /\
    (lane_array t3 /\ state_bits t3 = KECCAK_f1600 (state_bits s3)).
Proof.
  intros W0 W1 W2 W3.
  destruct (permute_x4_runs s0 s1 s2 s3 W0 W1 W2 W3) as (t0 & t1 & t2 & t3 & E & G).
  exists t0, t1, t2, t3. unfold val. rewrite E. split; [reflexivity|exact G].
Qed.

Lemma lane_bits_inj a b : wf64 a -> wf64 b ->
  map (Z.testbit a) (range 64) = map (Z.testbit b) (range 64) -> a = b.
Proof.
  intros Wa Wb E. apply Z.bits_inj'. intros i Hi.
  destruct (Z_lt_ge_dec i 64) as [L|G].
  - assert (G : zget false (map (Z.testbit a) (range 64)) i = zget false (map (Z.testbit b) (range 64)) i) by now rewrite E.
    now rewrite !zget_map_range in G by lia.
  - assert (2 ^ 64 <= 2 ^ i) by (apply Z.pow_le_mono_r; lia). unfold wf64 in *.
    rewrite (testbit_high a 64), (testbit_high b 64) by lia. reflexivity.
Qed.
Lemma sbits_inj : forall s t, Forall wf64 s -> Forall wf64 t -> sbits s = sbits t -> s = t.
Proof.
  assert (L64 : forall x, length (map (Z.testbit x) (range 64)) = 64%nat).
  { intros x. pose proof (zlen_range 64 ltac:(lia)) as L. rewrite map_length. unfold zlen in L. lia. }
  induction s as [|a s IH]; intros [|b t] Ws Wt E; auto.
  - exfalso. apply (f_equal (@length bool)) in E. unfold sbits in E. cbn [flat_map length] in E.
    rewrite app_length, L64 in E. discriminate E.
  - exfalso. apply (f_equal (@length bool)) in E. unfold sbits in E. cbn [flat_map length] in E.
    rewrite app_length, L64 in E. discriminate E.
  - inversion Ws as [|? ? Wa Ws']; subst. inversion Wt as [|? ? Wb Wt']; subst.
    unfold sbits in E. cbn [flat_map] in E.
    assert (E1 : map (Z.testbit a) (range 64) = map (Z.testbit b) (range 64)).
    { apply (f_equal (firstn 64)) in E. rewrite !firstn_app in E.
      replace (64 - length (map (Z.testbit a) (range 64)))%nat with 0%nat in E by (rewrite L64; reflexivity).
      replace (64 - length (map (Z.testbit b) (range 64)))%nat with 0%nat in E by (rewrite L64; reflexivity).
      rewrite !firstn_O, !app_nil_r, !firstn_all2 in E by (rewrite L64; apply le_n). exact E. }
    rewrite E1 in E. apply app_inv_head in E. f_equal; [now apply lane_bits_inj|now apply IH].
Qed.

Lemma permute_x4_agrees s0 s1 s2 s3 :
  lane_array s0 -> lane_array s1 -> lane_array s2 -> lane_array s3 ->
  val (KeccakF1600x4_StatePermute_x86_64 (s0 ++ s1 ++ s2 ++ s3)) = val (KeccakF1600x4_StatePermute (s0 ++ s1 ++ s2 ++ s3)).
Proof.
  intros W0 W1 W2 W3.
  destruct (permute_x4_correct s0 s1 s2 s3 W0 W1 W2 W3)
    as (t0 & t1 & t2 & t3 & -> & (V0 & E0) & (V1 & E1) & (V2 & E2) & V3 & E3).
  symmetry. apply wp_val. unfold KeccakF1600x4_StatePermute. fold (join4 s0 s1 s2 s3).
  pose proof (proj1 W0). pose proof (proj1 W1). pose proof (proj1 W2). pose proof (proj1 W3).
  apply wp_bind, wp_on0; auto. apply wp_permute; auto. intros u0 X0 Y0. pose proof (proj1 X0). split; [auto|].
  apply wp_bind, wp_on1; auto. apply wp_permute; auto. intros u1 X1 Y1. pose proof (proj1 X1). split; [auto|].
  apply wp_bind, wp_on2; auto. apply wp_permute; auto. intros u2 X2 Y2. pose proof (proj1 X2). split; [auto|].
  apply wp_on3; auto. apply wp_permute; auto. intros u3 X3 Y3. split; [apply X3|].
  assert (G : forall s t u, wfs t -> sbits t = KECCAK_f1600 (sbits s) -> wfs u ->
    sbits u = KECCAK_f1600 (sbits s) -> u = t).
  { intros s t u [_ Wt] Et [_ Wu] Eu. apply sbits_inj; [exact Wu|exact Wt|]. exact (eq_trans Eu (eq_sym Et)). }
  rewrite (G s0 t0 u0 V0 E0 X0 Y0), (G s1 t1 u1 V1 E1 X1 Y1), (G s2 t2 u2 V2 E2 X2 Y2), (G s3 t3 u3 V3 E3 X3 Y3).
  reflexivity.
Qed.

Lemma permute_x4_trace s0 s1 s2 s3 t0 t1 t2 t3 :
  lane_array s0 -> lane_array s1 -> lane_array s2 -> lane_array s3 ->
  lane_array t0 -> lane_array t1 -> lane_array t2 -> lane_array t3 ->
  snd (KeccakF1600x4_StatePermute_x86_64 (s0 ++ s1 ++ s2 ++ s3)) =
  snd (KeccakF1600x4_StatePermute_x86_64 (t0 ++ t1 ++ t2 ++ t3)).
Proof.
  intros S0 S1 S2 S3 T0 T1 T2 T3.
  destruct (permute_x4_runs s0 s1 s2 s3 S0 S1 S2 S3) as (? & ? & ? & ? & -> & _).
  destruct (permute_x4_runs t0 t1 t2 t3 T0 T1 T2 T3) as (? & ? & ? & ? & -> & _). reflexivity.
Qed.
