(** * Sequences of calls of the hash functions *)

From Coq Require Import ZArith List Bool Lia ZifyBool.
From Verif Require Import CSem ModelArith ModelKeccak Spec202 SpecHistory CSemFacts ProofScalar ProofBits ProofKeccakF
  ProofSponge ProofHash.
Import ListNotations.
Open Scope Z_scope.
Ltac Zify.zify_post_hook ::= idtac.
#[local] Opaque KECCAK_f1600 fb.

Lemma permute_correct s : lane_array s -> exists s', val (KeccakF1600_StatePermute s) = Ok s' /\
  lane_array s' /\ state_bits s' = KECCAK_f1600 (state_bits s).
Proof. intros H. apply wp_ex. apply wp_permute; auto. Qed.

Lemma sha3_256_correct {bo : byte_order} J out m n : bytes m -> 0 <= n <= zlen m -> n < 2 ^ 63 -> 32 <= zlen out ->
  val (sha3_256 J out m n) = Ok (SHA3_256 (slice m 0 n) ++ skipn 32 out).
Proof. intros. apply wp_val. apply wp_sha3_256; auto. Qed.
Lemma sha3_512_correct {bo : byte_order} J out m n : bytes m -> 0 <= n <= zlen m -> n < 2 ^ 63 -> 64 <= zlen out ->
  val (sha3_512 J out m n) = Ok (SHA3_512 (slice m 0 n) ++ skipn 64 out).
Proof. intros. apply wp_val. apply wp_sha3_512; auto. Qed.
Lemma shake256_correct {bo : byte_order} J out outlen m n : bytes m -> 0 <= n <= zlen m -> n < 2 ^ 63 ->
  0 <= outlen <= zlen out -> outlen < 2 ^ 63 ->
  val (shake256 J out outlen m n) = Ok (SHAKE256 (slice m 0 n) outlen ++ skipn (Z.to_nat outlen) out).
Proof. intros. apply wp_val. apply wp_shake256; auto. Qed.

(** ** Output in pieces *)

Lemma wp_squeeze_all {bo : byte_order} N S0 r : forall bufs st j (Q : list (list Z) -> Prop), r = 136 ->
  squeezing_inc r S0 j st -> Forall (fun b => zlen b < 2 ^ 63) bufs ->
  (forall outs, map zlen outs = map zlen bufs ->
     concat outs = map (fun i => stream r (fb S0) (j + i)) (range (zlen (concat bufs))) -> Q outs) ->
  wpn N (squeeze_all st bufs) Q.
Proof.
  induction bufs as [|b bs IH]; intros st j Q Er Hs Hb HQ; cbn [squeeze_all].
  - apply wp_ret, HQ; [reflexivity|]. reflexivity.
  - inversion Hb as [|? ? Hb0 Hbs]; subst. pose proof (zlen_nonneg b) as Ln.
    apply wp_bind. unfold shake256_inc_squeeze, SHAKE256_RATE.
    eapply wp_inc_squeeze; [exact Hs|lia|lia|exact Hb0|]. intros st' Hs'.
    replace (Z.to_nat (zlen b)) with (length b) by (unfold zlen; lia). rewrite skipn_all, app_nil_r.
    apply wp_bind. eapply IH; eauto. intros outs Lo Eo. apply wp_ret, HQ.
    + cbn [map]. rewrite zlen_map, zlen_range by lia. now rewrite Lo.
    + cbn [concat]. rewrite zlen_app, range_app, map_app by (try apply zlen_nonneg). rewrite map_map. f_equal.
      rewrite Eo. apply map_range_ext. intros i Hi. f_equal. lia.
Qed.

Lemma wp_absorb_all {bo : byte_order} N r : forall chunks st m (Q : list Z -> Prop), r = 136 ->
  absorbing r m st -> Forall (fun c => bytes c /\ zlen c < 2 ^ 63) chunks ->
  (forall st', absorbing r (m ++ concat chunks) st' -> Q st') -> wpn N (absorb_all st chunks) Q.
Proof.
  induction chunks as [|c cs IH]; intros st m Q Er Hs Hc HQ; cbn [absorb_all].
  - apply wp_ret, HQ. cbn [concat]. now rewrite app_nil_r.
  - inversion Hc as [|? ? [Bc Lc] Hcs]; subst. pose proof (zlen_nonneg c) as Ln.
    apply wp_bind. unfold shake256_inc_absorb, SHAKE256_RATE.
    eapply wp_inc_absorb; [exact Hs|lia|exact Bc|lia|exact Lc|]. intros st' Hs'. rewrite slice_all in Hs'.
    eapply IH; eauto. intros st2 Hs2. apply HQ. cbn [concat]. now rewrite app_assoc.
Qed.

Lemma bytes_concat l : Forall bytes l -> bytes (concat l).
Proof. induction 1; cbn [concat]; [constructor|now apply bytes_app]. Qed.

Lemma incremental_correct {bo : byte_order} s chunks bufs : zlen s = 26 ->
  Forall (fun c => bytes c /\ zlen c < 2 ^ 63) chunks -> Forall (fun b => zlen b < 2 ^ 63) bufs ->
  exists outs,
    val (st <- shake256_inc_init s ;;
         st <- absorb_all st chunks ;;
         st <- shake256_inc_finalize st ;;
         squeeze_all st bufs) = Ok outs /\
    map zlen outs = map zlen bufs /\
    concat outs = SHAKE256 (concat chunks) (zlen (concat bufs)).
Proof.
  intros L Hc Hb. apply wp_ex. unfold shake256_inc_init.
  apply wp_bind, (wp_inc_init _ _ 136); [auto|lia|]. intros s0 H0.
  apply wp_bind. eapply (wp_absorb_all _ 136); eauto. intros s1 H1. cbn [app] in H1.
  apply wp_bind. unfold shake256_inc_finalize, SHAKE256_RATE.
  apply (wp_inc_finalize _ _ _ _ (concat chunks)); auto; try lia. intros s2 H2.
  eapply (wp_squeeze_all _ _ 136); eauto. intros outs Lo Eo. split; auto.
  rewrite Eo, SHAKE256_stream.
  - apply map_range_ext. intros. f_equal.
  - apply bytes_concat. eapply Forall_impl; [|exact Hc]. now intros a [Ha _].
  - apply zlen_nonneg.
Qed.

(** ** Blocks *)

Lemma wp_squeeze_blocks_all {bo : byte_order} N m : forall bufs s j (Q : list (list Z) -> Prop),
  xof 168 m j s -> 0 <= j -> Forall (fun b => zlen b mod 168 = 0) bufs ->
  (forall outs, map zlen outs = map zlen bufs ->
     concat outs = map (fun i => stream 168 (fb (final 168 31 m)) (j + i)) (range (zlen (concat bufs))) -> Q outs) ->
  wpn N (squeeze_blocks_all s bufs) Q.
Proof.
  induction bufs as [|b bs IH]; intros st j Q Hs Hj Hb HQ; cbn [squeeze_blocks_all].
  - apply wp_ret, HQ; reflexivity.
  - inversion Hb as [|? ? Hb0 Hbs]; subst. pose proof (zlen_nonneg b) as Ln.
    pose proof (Z.div_mod (zlen b) 168 ltac:(lia)) as Hd. pose proof (Z.div_pos (zlen b) 168 ltac:(lia) ltac:(lia)).
    apply wp_bind. unfold shake128_squeezeblocks, SHAKE128_RATE. destruct Hs as [Bm Hs].
    eapply wp_squeezeblocks; [exact Hs|lia|lia|lia|]. intros st' Hs'.
    replace (168 * (zlen b / 168)) with (zlen b) in * by lia.
    replace (Z.to_nat (zlen b)) with (length b) by (unfold zlen; lia). rewrite skipn_all, app_nil_r.
    apply wp_bind. apply (IH st' (j + zlen b)); [split; auto|lia|auto|]. intros outs Lo Eo. apply wp_ret, HQ.
    + cbn [map]. rewrite zlen_map, zlen_range by lia. now rewrite Lo.
    + cbn [concat]. rewrite zlen_app, range_app, map_app by (try apply zlen_nonneg). rewrite map_map. f_equal.
      rewrite Eo. apply map_range_ext. intros i Hi. f_equal. lia.
Qed.

Lemma shake128_correct {bo : byte_order} s0 m n bufs : zlen s0 = 25 -> bytes m -> 0 <= n <= zlen m -> n < 2 ^ 63 ->
  Forall (fun b => zlen b mod 168 = 0) bufs ->
  exists outs, val (s <- shake128_absorb s0 m n ;; squeeze_blocks_all s bufs) = Ok outs /\
    map zlen outs = map zlen bufs /\
    concat outs = SHAKE128 (slice m 0 n) (zlen (concat bufs)).
Proof.
  intros L Bm Hn Hn' Hb. apply wp_ex. apply wp_bind, wp_shake128_absorb; auto. intros s Hs.
  eapply wp_squeeze_blocks_all; eauto; [lia|]. intros outs Lo Eo. split; auto.
  rewrite Eo, SHAKE128_stream by (try apply zlen_nonneg; now apply bytes_slice').
  apply map_range_ext. intros. f_equal.
Qed.

(** ** Four lanes *)

Definition lanes_of {A} (i : Z) (l : list (x4 A)) : list A := map (lane i) l.
Definition str (m : list Z) (j : Z) (i : Z) : Z := stream 168 (fb (final 168 31 m)) (j + i).

Lemma wp_squeeze_blocks_all_x4 {bo : byte_order} N m0 m1 m2 m3 : forall bufs s j (Q : list (x4 (list Z)) -> Prop),
  xof4 168 m0 m1 m2 m3 j s -> 0 <= j ->
  Forall (fun '(b0, b1, b2, b3) => zlen b0 mod 168 = 0 /\ zlen b1 = zlen b0 /\ zlen b2 = zlen b0 /\ zlen b3 = zlen b0) bufs ->
  (let n := zlen (concat (map (lane 0) bufs)) in
   forall outs, length outs = length bufs ->
     concat (map (lane 0) outs) = map (str m0 j) (range n) ->
     concat (map (lane 1) outs) = map (str m1 j) (range n) ->
     concat (map (lane 2) outs) = map (str m2 j) (range n) ->
     concat (map (lane 3) outs) = map (str m3 j) (range n) -> Q outs) ->
  wpn N (squeeze_blocks_all_x4 s bufs) Q.
Proof.
  induction bufs as [|b bs IH]; intros st j Q Hs Hj Hb HQ; cbn [squeeze_blocks_all_x4].
  - apply wp_ret. apply HQ; reflexivity.
  - inversion Hb as [|? ? Hb0 Hbs]; subst. destruct b as [[[b0 b1] b2] b3]. destruct Hb0 as (Hb0 & E1 & E2 & E3).
    pose proof (zlen_nonneg b0) as Ln.
    pose proof (Z.div_mod (zlen b0) 168 ltac:(lia)) as Hd. pose proof (Z.div_pos (zlen b0) 168 ltac:(lia) ltac:(lia)).
    apply wp_bind. unfold shake128x4_squeezeblocks, SHAKE128_RATE.
    apply xof4_squeezing in Hs as [Bm Hs].
    eapply wp_squeezeblocks_x4; [exact Hs|lia|lia|lia|lia|lia|lia|]. intros out st' Hs'. unfold out. clear out.
    replace (168 * (zlen b0 / 168)) with (zlen b0) in * by lia.
    assert (SK : forall b : list Z, zlen b = zlen b0 -> skipn (Z.to_nat (zlen b0)) b = []).
    { intros b <-. unfold zlen. rewrite Nat2Z.id. apply skipn_all. }
    rewrite !SK, !app_nil_r by auto.
    apply wp_bind. apply (IH st' (j + zlen b0)); [apply xof4_squeezing; split; auto|lia|auto|].
    intros n' outs Lo O0 O1 O2 O3. apply wp_ret. apply HQ; [cbn [length]; now rewrite Lo| | | |];
      cbn [map concat lane Z.eqb Pos.eqb]; rewrite zlen_app, range_app, map_app by (try apply zlen_nonneg);
      rewrite map_map; (apply f_equal2; [reflexivity|]);
      (rewrite O0 || rewrite O1 || rewrite O2 || rewrite O3);
      apply map_range_ext; intros i Hi; unfold str; f_equal; lia.
Qed.

Lemma shake128x4_correct {bo : byte_order} m0 m1 m2 m3 n bufs :
  bytes m0 -> bytes m1 -> bytes m2 -> bytes m3 -> 0 <= n < 2 ^ 63 ->
  n <= zlen m0 -> n <= zlen m1 -> n <= zlen m2 -> n <= zlen m3 ->
  Forall (fun '(b0, b1, b2, b3) => zlen b0 mod 168 = 0 /\ zlen b1 = zlen b0 /\ zlen b2 = zlen b0 /\ zlen b3 = zlen b0) bufs ->
  exists outs, val (s <- shake128x4_absorb m0 m1 m2 m3 n ;; squeeze_blocks_all_x4 s bufs) = Ok outs /\
    length outs = length bufs /\
    forall i, 0 <= i < 4 ->
      concat (map (lane i) outs) = SHAKE128 (slice (lane i (m0, m1, m2, m3)) 0 n) (zlen (concat (map (lane i) bufs))).
Proof.
  intros B0 B1 B2 B3 Hn L0 L1 L2 L3 Hb. apply wp_ex. apply wp_bind, wp_shake128x4_absorb; auto. intros s Hs.
  assert (EL : forall i, 0 <= i < 4 -> zlen (concat (map (lane i) bufs)) = zlen (concat (map (lane 0) bufs))).
  { intros i Hi. clear Hs. induction Hb as [|[[[b0 b1] b2] b3] bs (Hb0 & E1 & E2 & E3) Hbs IH]; [reflexivity|].
    cbn [map concat]. rewrite !zlen_app, IH. f_equal.
    assert (C : i = 0 \/ i = 1 \/ i = 2 \/ i = 3) by lia.
    destruct C as [-> |[-> |[-> | ->]]]; cbn [lane Z.eqb Pos.eqb]; auto. }
  eapply wp_squeeze_blocks_all_x4; [exact Hs|lia|exact Hb|].
  intros n' outs Lo O0 O1 O2 O3. split; [auto|]. intros i Hi.
  assert (G : forall m, bytes m -> map (str (slice m 0 n) 0) (range n') = SHAKE128 (slice m 0 n) n').
  { intros m Bm. rewrite SHAKE128_stream by (try apply zlen_nonneg; now apply bytes_slice').
    apply map_range_ext. intros. unfold str. f_equal. }
  assert (C : i = 0 \/ i = 1 \/ i = 2 \/ i = 3) by lia. rewrite (EL i Hi). fold n'.
  destruct C as [-> |[-> |[-> | ->]]]; cbn [lane Z.eqb Pos.eqb];
    (rewrite O0 || rewrite O1 || rewrite O2 || rewrite O3); now apply G.
Qed.

Lemma shake256x4_correct {bo : byte_order} J h0 h1 h2 h3 outlen in0 in1 in2 in3 n :
  bytes in0 -> bytes in1 -> bytes in2 -> bytes in3 -> 0 <= n < 2 ^ 63 ->
  n <= zlen in0 -> n <= zlen in1 -> n <= zlen in2 -> n <= zlen in3 ->
  0 <= outlen < 2 ^ 63 ->
  outlen <= zlen h0 -> outlen <= zlen h1 -> outlen <= zlen h2 -> outlen <= zlen h3 ->
  val (shake256x4 J h0 h1 h2 h3 outlen in0 in1 in2 in3 n) =
  Ok (SHAKE256 (slice in0 0 n) outlen ++ skipn (Z.to_nat outlen) h0,
      SHAKE256 (slice in1 0 n) outlen ++ skipn (Z.to_nat outlen) h1,
      SHAKE256 (slice in2 0 n) outlen ++ skipn (Z.to_nat outlen) h2,
      SHAKE256 (slice in3 0 n) outlen ++ skipn (Z.to_nat outlen) h3).
Proof. intros. apply wp_val. apply wp_shake256x4; auto; reflexivity. Qed.

(** ** Byte accesses *)

Lemma extract_correct {bo : byte_order} s data off len :
  lane_array s -> 0 <= off -> 0 <= len <= zlen data -> off + len <= 200 ->
  val (KeccakF1600_StateExtractBytes s data off len) =
  Ok (map (fun i => (at_ s ((off + i) / 8) / 2 ^ (8 * ((off + i) mod 8))) mod 256) (range len)
      ++ skipn (Z.to_nat len) data).
Proof.
  intros W Ho Hl H2. apply wp_val. apply wp_extract; auto. f_equal. apply (zlist_ext 0).
  - rewrite zlen_slice, zlen_map, zlen_range; rewrite ?zlen_state_bytes; try apply W; lia.
  - rewrite zlen_slice by (rewrite ?zlen_state_bytes; try apply W; lia). intros i Hi.
    rewrite zget_slice, zget_map_range by lia. rewrite zget_state_bytes by (try apply W; lia).
    unfold u8. rewrite Z.shiftr_div_pow2; [reflexivity|].
    pose proof (Z.mod_pos_bound (off + i) 8 ltac:(lia)). lia.
Qed.

Lemma zlen_state_bits s : zlen s = 25 -> zlen (state_bits s) = 1600.
Proof. apply zlen_sbits. Qed.
Lemma xor_correct {bo : byte_order} s data off len :
  lane_array s -> bytes data -> 0 <= off -> 0 <= len <= zlen data -> off + len <= 200 ->
  exists s', val (KeccakF1600_StateXORBytes s data off len) = Ok s' /\ lane_array s' /\
    state_bits s' =
    xor_bits (state_bits s)
      (repeat false (Z.to_nat (8 * off)) ++ bytes_to_bits (slice data 0 len)
       ++ repeat false (Z.to_nat (8 * (200 - off - len)))).
Proof.
  intros W Bd Ho Hl H2. apply wp_ex. apply wp_xor; auto. intros s' W' E'. split; [exact W'|].
  change (state_bits s') with (sbits s'). change (state_bits s) with (sbits s).
  assert (LD : zlen (slice data 0 len) = len) by (rewrite zlen_slice; lia).
  pose proof (zlen_bytes_to_bits (slice data 0 len)) as LB.
  pose proof (zlen_sbits s (proj1 W)) as L1. pose proof (zlen_sbits s' (proj1 W')) as L2.
  set (pat := repeat false (Z.to_nat (8 * off)) ++ _).
  assert (LP : zlen pat = 1600) by (unfold pat; rewrite !zlen_app, !zlen_repeat; lia).
  apply (zlist_ext false); [rewrite zlen_xor_bits; lia|]. rewrite L2. intros i Hi.
  rewrite zget_combine_xor by lia. rewrite !sbits_bytes by (apply W || apply W'). rewrite E'.
  pose proof (Z.div_mod i 8 ltac:(lia)) as Hd. pose proof (Z.mod_pos_bound i 8 ltac:(lia)) as Hm.
  rewrite zget_bytes_to_bits by (rewrite zlen_xat; lia).
  rewrite zget_bytes_to_bits by (rewrite zlen_state_bytes by apply W; lia).
  rewrite zget_xat by lia. rewrite Z.lxor_spec. f_equal. rewrite LD.
  unfold pat. rewrite zget_app by lia. rewrite zlen_repeat.
  replace (Z.of_nat (Z.to_nat (8 * off))) with (8 * off) by lia.
  destruct (Z.ltb_spec i (8 * off)).
  { replace ((off <=? i / 8) && (i / 8 <? off + len)) with false by lia.
    rewrite zget_repeat by lia. now rewrite Z.bits_0. }
  rewrite zget_app by lia. rewrite LB, LD. destruct (Z.ltb_spec (i - 8 * off) (8 * len)).
  - replace ((off <=? i / 8) && (i / 8 <? off + len)) with true by lia.
    rewrite zget_bytes_to_bits by lia. f_equal.
    + f_equal. apply (Z.div_unique _ _ _ (i mod 8)); lia.
    + apply (Z.mod_unique _ _ (i / 8 - off)); lia.
  - replace ((off <=? i / 8) && (i / 8 <? off + len)) with false by lia.
    rewrite zget_repeat by lia. now rewrite Z.bits_0.
Qed.
