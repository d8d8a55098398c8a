(** * The generator of the known-answer tests is CTR_DRBG *)

From Coq Require Import ZArith List Bool Lia.
From Verif Require Import CSem ModelArith ModelAes ModelDrbg Spec202 SpecAes SpecDrbg CSemFacts
  ProofAesBits ProofAesRound ProofAesKey ProofAes.
Import ListNotations.
Open Scope Z_scope.
Ltac Zify.zify_post_hook ::= idtac.

(** ** The cipher yields bytes *)
Lemma from_bits_byte f : is_byte (from_bits f).
Proof.
  unfold from_bits, sum, is_byte.
  change (range 8) with [0; 1; 2; 3; 4; 5; 6; 7]. cbn [map fold_right].
  repeat match goal with |- context [if ?b then _ else _] => destruct b end; cbn; lia.
Qed.
Lemma SubBytes_bytes s : Forall is_byte (SubBytes s).
Proof. apply Forall_map, Forall_forall. intros. apply from_bits_byte. Qed.
Lemma ShiftRows_bytes s : Forall is_byte s -> Forall is_byte (ShiftRows s).
Proof.
  intros Hs. apply Forall_map_range. intros i Hi. unfold entry, at_.
  destruct (nth_in_or_default (Z.to_nat (i mod 4 + 4 * ((i / 4 + i mod 4) mod 4))) s 0) as [H| ->].
  - rewrite Forall_forall in Hs. now apply Hs.
  - unfold is_byte. lia.
Qed.
Lemma AES256_eq key s : AES256 key s = Cipher 14 (KeyExpansion 8 14 key) s.
Proof. reflexivity. Qed.
Lemma words_256 key : zlen key = 32 -> Forall is_byte key -> words_ok (KeyExpansion 8 14 key) 14.
Proof.
  intros Lk Bk.
  assert (K : key_size 8 14) by (right; right; auto).
  assert (H := wp_keysched (fun _ => 0) (repeat 0 30) key 8 14 K Lk Bk eq_refl).
  apply wp_ex in H. destruct H as (c & _ & _ & HW & _). exact HW.
Qed.
Lemma Cipher_bytes W s : words_ok W 14 -> Forall is_byte (Cipher 14 W s).
Proof.
  intros HW.
  unfold Cipher. cbv zeta.
  set (s1 := SubBytes _). assert (B1 : Forall is_byte (ShiftRows s1)) by apply ShiftRows_bytes, SubBytes_bytes.
  clearbody s1. destruct HW as [LW HW]. rewrite (slice_words [] _) by lia.
  unfold AddRoundKey, xor_bytes. apply Forall_map, Forall_forall. intros [x y] Hxy. cbn [fst snd].
  apply lxor_byte.
  - rewrite Forall_forall in B1. apply B1. now apply in_combine_l in Hxy.
  - apply in_combine_r in Hxy. cbn [concat] in Hxy.
    rewrite !in_app_iff in Hxy.
    destruct Hxy as [H|[H|[H|[H|[]]]]];
      match type of H with In _ (zget _ _ ?u) => destruct (HW u ltac:(lia)) as [_ B]; rewrite Forall_forall in B; now apply B end.
Qed.

Lemma AES256_bytes key s : zlen key = 32 -> Forall is_byte key -> Forall is_byte (AES256 key s) /\ zlen (AES256 key s) = 16.
Proof.
  intros Lk Bk. rewrite AES256_eq. assert (HW := words_256 key Lk Bk). split; [now apply Cipher_bytes|].
  apply zlen_Cipher; [auto|lia].
Qed.

(** ** The counter *)
Lemma zlen_block v : zlen (block_of v) = 16.
Proof. unfold block_of. rewrite zlen_map, zlen_range; lia. Qed.
Lemma block_bytes v : Forall is_byte (block_of v).
Proof. apply Forall_map_range. intros. apply Z.mod_pos_bound. lia. Qed.
Lemma zget_block v i : 0 <= i < 16 -> zget 0 (block_of v) i = v / 256 ^ (15 - i) mod 256.
Proof. intros. unfold block_of. now rewrite zget_map_range by lia. Qed.
Lemma block_mod v : block_of (v mod 2 ^ 128) = block_of v.
Proof.
  apply (zlist_ext 0); [now rewrite !zlen_block|]. rewrite zlen_block. intros i Hi. rewrite !zget_block by auto.
  change (2 ^ 128) with (256 ^ 16). replace (256 ^ 16) with (256 ^ (15 - i) * 256 ^ (i + 1)) by (rewrite <- Z.pow_add_r by lia; f_equal; lia).
  assert (0 < 256 ^ (15 - i)) by (apply Z.pow_pos_nonneg; lia). assert (0 < 256 ^ (i + 1)) by (apply Z.pow_pos_nonneg; lia).
  rewrite Z.rem_mul_r by lia. rewrite (Z.mul_comm (256 ^ (15 - i)) (_ mod _)), Z.div_add by lia.
  rewrite Z.div_small by (apply Z.mod_pos_bound; lia). rewrite Z.add_0_l.
  rewrite Z.pow_add_r by lia. change (256 ^ 1) with 256. rewrite (Z.mul_comm (256 ^ i)).
  assert (0 < 256 ^ i) by (apply Z.pow_pos_nonneg; lia).
  rewrite Z.rem_mul_r by lia. rewrite Z.mul_comm, Z.mod_add by lia. apply Z.mod_mod. lia.
Qed.
Lemma wp_increment v : wp (ctr_increment (block_of v)) (fun c => c = block_of (v + 1)).
Proof.
  unfold ctr_increment. apply wp_bind.
  apply (wp_while_measure _ (fun '(c, j, go) => zlen c = 16 /\ -1 <= j <= 15 /\
     if go : bool then (v + 1) mod 256 ^ (15 - j) = 0 /\
       forall i, 0 <= i < 16 -> zget 0 c i = if i <=? j then v / 256 ^ (15 - i) mod 256 else 0
     else c = block_of (v + 1)) (fun '(c, j, _) => j + 1)).
  { split; [apply zlen_block|]. split; [lia|]. change (15 - 15) with 0. rewrite Z.pow_0_r, Z.mod_1_r.
    split; [auto|]. intros i Hi. rewrite zget_block by auto. destruct (Z.leb_spec i 15); [auto|lia]. }
  { cbn. lia. }
  - intros [[c j] go] [L [Hj H]] E. apply andb_true_iff in E as [-> E]. apply Z.leb_le in E. destruct H as [Hm H].
    split; [lia|]. apply wp_bind, (wp_aget 0); [lia|]. apply wp_bind, wp_aset; [lia|].
    apply wp_bind, wp_i32; [lia|]. apply wp_ret. split; [|lia].
    split; [rewrite zlen_set; lia|]. split; [lia|].
    rewrite (H j) by lia. rewrite Z.leb_refl.
    set (k := 15 - j) in *. assert (Hk : 0 <= k <= 15) by lia.
    assert (P : 0 < 256 ^ k) by (apply Z.pow_pos_nonneg; lia).
    apply Z.mod_divide in Hm; [|lia]. destruct Hm as [q Hq].
    assert (D : v / 256 ^ k = q - 1) by (symmetry; apply (Z.div_unique _ _ _ (256 ^ k - 1)); lia).
    rewrite D.
    assert (U : u8 ((q - 1) mod 256 + 1) = q mod 256).
    { unfold u8. rewrite Z.add_mod_idemp_l by lia. f_equal. lia. }
    rewrite U.
    assert (Q : forall i, 0 <= i < j -> v / 256 ^ (15 - i) = (q - 1) / 256 / 256 ^ (j - i - 1) /\
                                       (v + 1) / 256 ^ (15 - i) = q / 256 / 256 ^ (j - i - 1)).
    { intros i Hi. replace (256 ^ (15 - i)) with (256 ^ k * 256 * 256 ^ (j - i - 1)).
      2: { change 256 with (256 ^ 1) at 2. rewrite <- !Z.pow_add_r by lia. f_equal. lia. }
      assert (0 < 256 ^ (j - i - 1)) by (apply Z.pow_pos_nonneg; lia).
      rewrite <- !Z.div_div by lia. rewrite D, Hq, Z.div_mul by lia. auto. }
    destruct (Z.eqb_spec (q mod 256) 0) as [E0|E0].
    + split.
      * rewrite Hq. replace (15 - (j - 1)) with (k + 1) by lia. rewrite Z.pow_add_r by lia. change (256 ^ 1) with 256.
        rewrite (Z.mul_comm q). rewrite Z.mul_mod_distr_l by lia. rewrite E0. lia.
      * intros i Hi. rewrite zget_set by lia. rewrite H by lia.
        destruct (Z.eqb_spec i j), (Z.leb_spec i j), (Z.leb_spec i (j - 1)); try lia; auto.
    + apply (zlist_ext 0); [rewrite zlen_set, zlen_block; lia|]. rewrite zlen_set by lia. rewrite L. intros i Hi.
      rewrite zget_set by lia. rewrite zget_block by auto. rewrite H by auto.
      destruct (Z.eqb_spec i j) as [->|].
      { fold k. rewrite Hq, Z.div_mul by lia. reflexivity. }
      destruct (Z.leb_spec i j).
      * destruct (Q i ltac:(lia)) as [-> ->]. do 2 f_equal.
        assert (B := Z.mod_pos_bound q 256 ltac:(lia)). assert (DM := Z.div_mod q 256 ltac:(lia)).
        symmetry. apply (Z.div_unique _ _ _ (q mod 256 - 1)); lia.
      * rewrite Hq. replace (256 ^ k) with (256 ^ (i - j - 1) * 256 * 256 ^ (15 - i)).
        2: { change 256 with (256 ^ 1) at 2. rewrite <- !Z.pow_add_r by lia. f_equal. lia. }
        rewrite !Z.mul_assoc. assert (0 < 256 ^ (15 - i)) by (apply Z.pow_pos_nonneg; lia).
        rewrite Z.div_mul by lia. symmetry. apply Z.mod_mul. lia.
  - intros [[c j] go] [L [Hj H]] E. apply wp_ret.
    destruct go; [|exact H]. cbn [andb] in E. apply Z.leb_gt in E. assert (j = -1) by lia. subst j.
    destruct H as [Hm H]. change (15 - -1) with 16 in Hm.
    apply (zlist_ext 0); [now rewrite zlen_block|]. rewrite L. intros i Hi. rewrite H, zget_block by auto.
    destruct (Z.leb_spec i (-1)); [lia|]. apply Z.mod_divide in Hm; [|lia]. destruct Hm as [q ->].
    replace (256 ^ 16) with (256 ^ i * 256 * 256 ^ (15 - i)).
    2: { change 256 with (256 ^ 1) at 2. rewrite <- !Z.pow_add_r by lia. f_equal. lia. }
    rewrite !Z.mul_assoc. assert (0 < 256 ^ (15 - i)) by (apply Z.pow_pos_nonneg; lia).
    rewrite Z.div_mul by lia. symmetry. apply Z.mod_mul. lia.
Qed.

(** ** One block *)
Definition ctx_of (key : list Z) (v : Z) : nistkatctx := {| ctx_key := key; ctx_ctr := block_of v |}.
Lemma slice_all {A} (l : list A) n : zlen l = n -> slice l 0 n = l.
Proof. intros <-. unfold slice, zlen. rewrite Z.sub_0_r, Nat2Z.id. cbn. apply firstn_all. Qed.
Lemma wp_block_update J key v block off : zlen key = 32 -> Forall is_byte key -> 0 <= off -> off + 16 <= zlen block ->
  wp (aes256_block_update J (ctx_of key v) block off) (fun '(ctx, b) =>
    ctx = ctx_of key (v + 1) /\ b = splice block off (AES256 key (block_of (v + 1)))).
Proof.
  intros Lk Bk Ho Hl. unfold aes256_block_update. cbn [ctx_key ctx_ctr ctx_of].
  apply wp_bind. eapply wp_mono; [apply wp_increment|]. intros c ->.
  apply wp_bind. unfold _aes256_ecb, aes256_ecb_keyexp.
  apply wp_bind. eapply wp_mono.
  { apply (wp_keyexp _ _ _ key 8 14); [right; right; auto|exact Lk|exact Bk|rewrite zlen_uninit; lia|rewrite zlen_uninit; lia]. }
  intros sk [HW Hsk]. apply wp_bind, wp_aslice; try lia. apply wp_bind. unfold aes256_ecb.
  eapply wp_mono.
  { apply (wp_ecb _ _ _ _ (KeyExpansion 8 14 key)); auto; try lia; [rewrite zlen_block; lia|rewrite zlen_slice; lia|apply block_bytes]. }
  intros b ->. rewrite zlen_slice by lia.
  assert (E : ECB (Cipher 14 (KeyExpansion 8 14 key)) 1 (block_of (v + 1)) ++
    slice (slice block off (off + 16)) (16 * 1) (off + 16 - off) = AES256 key (block_of (v + 1))).
  { replace (off + 16 - off) with 16 by lia. change (slice (slice block off (off + 16)) (16 * 1) 16) with
      (firstn (Z.to_nat (16 - 16)) (skipn 16 (slice block off (off + 16)))). cbn [Z.sub Z.to_nat firstn].
    rewrite app_nil_r. unfold ECB. change (range 1) with [0]. cbn [flat_map].
    rewrite app_nil_r. change (16 * 0) with 0. change (0 + 16) with 16. rewrite slice_all by apply zlen_block. reflexivity. }
  rewrite E. apply wp_asplice; [lia| |].
  - destruct (AES256_bytes key (block_of (v + 1)) Lk Bk) as [_ ->]. lia.
  - apply wp_ret. auto.
Qed.

(** ** Bytes xored together *)
Lemma wp_xor_data data tmp d : zlen tmp = 48 -> zlen d = 48 ->
  data = Some d \/ (data = None /\ d = repeat 0 48) ->
  wp (xor_data data tmp) (fun t => t = xor_bytes tmp d).
Proof.
  intros Lt Ld [->|[-> ->]]; cbn [xor_data].
  - apply (wp_for_inplace 0 _ (fun i x => Z.lxor x (zget 0 d i)) _ _ 48).
    { exact Lt. }
    { intros i pre rest Hi Hp. apply wp_bind, wp_aget_app; auto. apply wp_bind, (wp_aget 0); [lia|].
      apply wp_aset_app; [exact Hp|now rewrite <- app_assoc]. }
    apply (zlist_ext 0).
    + rewrite zlen_map, zlen_range, zlen_xor_bytes by lia. lia.
    + rewrite zlen_map, zlen_range by lia. intros i Hi. rewrite zget_map_range by lia.
      rewrite zget_xor_bytes by lia. reflexivity.
  - apply wp_ret. apply (zlist_ext 0).
    + rewrite zlen_xor_bytes; [auto|exact Lt].
    + intros i Hi. rewrite zget_xor_bytes by (auto; lia).
      assert (E : zget 0 (repeat 0 48) i = 0).
      { unfold zget. destruct (nth_in_or_default (Z.to_nat i) (repeat 0 48) 0) as [H|H]; [|auto].
        now apply repeat_spec in H. }
      rewrite E. now rewrite Z.lxor_0_r.
Qed.

(** ** Numbers and blocks *)
Lemma number_snoc l x : number_of (l ++ [x]) = 256 * number_of l + x.
Proof. unfold number_of. now rewrite fold_left_app. Qed.
Lemma number_digit l : Forall is_byte l -> forall i, 0 <= i < zlen l ->
  number_of l / 256 ^ (zlen l - 1 - i) mod 256 = zget 0 l i.
Proof.
  induction l as [|x l IH] using rev_ind; intros Hb i Hi; [unfold zlen in Hi; cbn in Hi; lia|].
  apply Forall_app in Hb as [Hl Hx]. inversion Hx as [|? ? Bx _]; subst. unfold is_byte in Bx.
  assert (Ll : zlen (l ++ [x]) = zlen l + 1) by (rewrite zlen_app; reflexivity).
  rewrite Ll in Hi |- *. rewrite number_snoc. rewrite zget_app by lia.
  destruct (Z.ltb_spec i (zlen l)).
  - replace (zlen l + 1 - 1 - i) with (1 + (zlen l - 1 - i)) by lia. rewrite Z.pow_add_r by lia. change (256 ^ 1) with 256.
    assert (0 < 256 ^ (zlen l - 1 - i)) by (apply Z.pow_pos_nonneg; lia).
    rewrite <- Z.div_div by lia.
    replace ((256 * number_of l + x) / 256) with (number_of l) by (apply (Z.div_unique _ _ _ x); lia).
    apply IH; auto; lia.
  - assert (i = zlen l) by lia. subst i. replace (zlen l + 1 - 1 - zlen l) with 0 by lia.
    rewrite Z.pow_0_r, Z.div_1_r, Z.sub_diag. change (zget 0 [x] 0) with x.
    symmetry. apply (Z.mod_unique _ _ (number_of l)); lia.
Qed.
Lemma block_number b : zlen b = 16 -> Forall is_byte b -> block_of (number_of b) = b.
Proof.
  intros L B. apply (zlist_ext 0); [now rewrite zlen_block|]. rewrite zlen_block. intros i Hi.
  rewrite zget_block by auto. rewrite <- (number_digit b B i) by lia. rewrite L. do 3 f_equal; lia.
Qed.

(** ** Consecutive blocks *)
Definition blocks_from (key : list Z) (v n : Z) : list Z := flat_map (fun i => AES256 key (block_of (v + 1 + i))) (range n).
Lemma output_blocks_from key v n : output_blocks (key, v) n = blocks_from key v n.
Proof.
  unfold output_blocks, blocks_from. apply flat_map_ext. intros i. rewrite block_mod. reflexivity.
Qed.
Lemma blocks_from_mod key v n : output_blocks (key, v mod 2 ^ 128) n = output_blocks (key, v) n.
Proof.
  unfold output_blocks. apply flat_map_ext. intros i. apply f_equal, f_equal.
  rewrite <- !Z.add_assoc. apply Z.add_mod_idemp_l. lia.
Qed.
Lemma blocks_next key v n : 0 <= n -> blocks_from key v (n + 1) = blocks_from key v n ++ AES256 key (block_of (v + n + 1)).
Proof.
  intros Hn. unfold blocks_from. rewrite range_S by auto. rewrite flat_map_app'. cbn [flat_map].
  rewrite app_nil_r. replace (v + 1 + n) with (v + n + 1) by lia. reflexivity.
Qed.
Lemma zlen_blocks key v n : zlen key = 32 -> Forall is_byte key -> 0 <= n -> zlen (blocks_from key v n) = 16 * n.
Proof.
  intros Lk Bk Hn. unfold blocks_from. rewrite (zlen_flat_map _ 16) by (intros; now apply AES256_bytes).
  rewrite zlen_range; lia.
Qed.
Lemma blocks_bytes key v n : zlen key = 32 -> Forall is_byte key -> Forall is_byte (blocks_from key v n).
Proof.
  intros Lk Bk. unfold blocks_from. induction (range n) as [|i l IH]; [constructor|].
  cbn [flat_map]. apply Forall_app. split; [now apply AES256_bytes|auto].
Qed.
Lemma skipn_block {A} (l : list A) i : 0 <= i -> i + 16 <= zlen l ->
  exists b, zlen b = 16 /\ skipn (Z.to_nat i) l = b ++ skipn (Z.to_nat (i + 16)) l.
Proof.
  intros Hi Hl. exists (firstn 16 (skipn (Z.to_nat i) l)). unfold zlen in *. split.
  - rewrite firstn_length, skipn_length. lia.
  - rewrite <- (firstn_skipn 16 (skipn (Z.to_nat i) l)) at 1. f_equal.
    replace (Z.to_nat (i + 16)) with (Z.to_nat i + 16)%nat by lia.
    generalize (Z.to_nat i) as k. clear. induction l as [|x l IH]; intros k; [now rewrite !skipn_nil|].
    destruct k; [reflexivity|]. cbn [skipn Nat.add]. apply IH.
Qed.
Lemma splice_blocks (buf : list Z) i (a new : list Z) : 0 <= i -> zlen a = i -> zlen new = 16 -> i + 16 <= zlen buf ->
  splice (a ++ skipn (Z.to_nat i) buf) i new = (a ++ new) ++ skipn (Z.to_nat (i + 16)) buf.
Proof.
  intros Hi La Ln Hl. destruct (skipn_block buf i Hi Hl) as [b [Lb ->]].
  rewrite splice_app by lia. apply app_assoc.
Qed.

(** ** The update function *)
Definition good (st : drbg) : Prop := zlen (fst st) = 32 /\ Forall is_byte (fst st).
Definition ctx_st (st : drbg) : nistkatctx := ctx_of (fst st) (snd st).
Lemma splice_whole (l new : list Z) : zlen l = zlen new -> splice l 0 new = new.
Proof.
  intros E. unfold splice, zlen in *. change (Z.to_nat 0) with 0%nat. cbn [firstn app Nat.add].
  rewrite skipn_all2 by lia. apply app_nil_r.
Qed.
Lemma xor_all_bytes a b : Forall is_byte a -> Forall is_byte b -> Forall is_byte (xor_bytes a b).
Proof.
  intros Ba Bb. unfold xor_bytes. apply Forall_map, Forall_forall. intros [x y] H. cbn [fst snd].
  rewrite Forall_forall in Ba, Bb. apply lxor_byte; [apply Ba|apply Bb]; [now apply in_combine_l in H|now apply in_combine_r in H].
Qed.
Lemma slice_bytes (l : list Z) a b : Forall is_byte l -> Forall is_byte (slice l a b).
Proof.
  intros H. unfold slice. apply Forall_forall. intros x Hx. rewrite Forall_forall in H. apply H.
  rewrite <- (firstn_skipn (Z.to_nat a) l). apply in_or_app. right.
  rewrite <- (firstn_skipn (Z.to_nat (b - a)) (skipn (Z.to_nat a) l)). apply in_or_app. now left.
Qed.
Lemma wp_update J data st d : good st -> zlen d = 48 -> Forall is_byte d ->
  data = Some d \/ (data = None /\ d = repeat 0 48) ->
  wp (nistkat_update J data (ctx_st st)) (fun c => c = ctx_st (drbg_update d st) /\ good (drbg_update d st)).
Proof.
  destruct st as [key v]. intros [Lk Bk] Ld Bd Hd. cbn [fst snd] in Lk, Bk. unfold ctx_st. cbn [fst snd].
  unfold nistkat_update, drbg_update. rewrite output_blocks_from.
  set (tmp0 := uninit J 3 48). assert (L0 : zlen tmp0 = 48) by (apply zlen_uninit; lia). clearbody tmp0.
  apply wp_bind.
  apply (wp_for _ (fun i '(ctx, tmp) => ctx = ctx_of key (v + i) /\
     tmp = blocks_from key v i ++ skipn (Z.to_nat (16 * i)) tmp0)).
  { lia. } { rewrite Z.add_0_r. split; reflexivity. }
  { intros i [ctx tmp] Hi [-> ->].
    assert (LB : zlen (blocks_from key v i) = 16 * i) by (apply zlen_blocks; auto; lia).
    eapply wp_mono.
    { apply wp_block_update; auto; [lia|]. rewrite zlen_app, LB. unfold zlen in *. rewrite skipn_length. lia. }
    intros [c b] [-> ->]. split; [f_equal; lia|].
    rewrite blocks_next by lia. rewrite splice_blocks; [|lia|auto|now apply AES256_bytes|lia].
    do 2 f_equal. lia. }
  intros [ctx tmp] [-> ->].
  change (16 * 3) with 48. rewrite (skipn_all2 tmp0) by (unfold zlen in L0; lia). rewrite app_nil_r.
  assert (LB : zlen (blocks_from key v 3) = 48) by (apply (zlen_blocks key v 3); auto; lia).
  assert (BB : Forall is_byte (blocks_from key v 3)) by now apply blocks_bytes.
  set (B := blocks_from key v 3) in *. clearbody B.
  apply wp_bind. eapply wp_mono; [now apply (wp_xor_data data B d)|]. intros t ->.
  assert (LT : zlen (xor_bytes B d) = 48) by (rewrite zlen_xor_bytes; lia).
  assert (BT : Forall is_byte (xor_bytes B d)) by now apply xor_all_bytes.
  set (T := xor_bytes B d) in *. clearbody T. cbn [ctx_of ctx_key ctx_ctr].
  assert (Z1 : zlen (slice T 0 32) = 32) by (rewrite zlen_slice; lia).
  assert (Z2 : zlen (slice T 32 48) = 16) by (rewrite zlen_slice; lia).
  apply wp_bind, wp_memcpy; try lia. change (0 + 32) with 32.
  apply wp_bind, wp_memcpy; rewrite ?zlen_block; try lia. change (32 + 16) with 48.
  apply wp_ret. rewrite !splice_whole by (rewrite ?zlen_block; lia). split.
  - unfold ctx_of. cbn [fst snd]. now rewrite block_number by (auto using slice_bytes).
  - split; cbn [fst]; [auto|now apply slice_bytes].
Qed.

(** ** The interface *)
Lemma bytes_zeros n : Forall is_byte (repeat 0 n).
Proof. apply Forall_forall. intros x Hx. apply repeat_spec in Hx. subst. unfold is_byte. lia. Qed.
Definition is_ctx (c : nistkatctx) : Prop := zlen (ctx_key c) = 32 /\ zlen (ctx_ctr c) = 16.
Lemma wp_init J entropy pers p c : is_ctx c -> zlen entropy = 48 -> Forall is_byte entropy ->
  zlen p = 48 -> Forall is_byte p -> pers = Some p \/ (pers = None /\ p = repeat 0 48) ->
  wp (nist_kat_init J entropy pers c) (fun c => c = ctx_st (drbg_instantiate entropy p) /\ good (drbg_instantiate entropy p)).
Proof.
  intros [Lk Lc] Le Be Lp Bp Hp. unfold nist_kat_init.
  assert (Zu : zlen (uninit J 0 48) = 48) by (apply zlen_uninit; lia).
  apply wp_bind, wp_memcpy; try lia. change (0 + 48) with 48. rewrite slice_all by auto. rewrite splice_whole by lia.
  apply wp_bind. eapply wp_mono; [apply (wp_xor_data _ _ p); auto|]. intros sm ->.
  apply wp_bind, wp_asplice; [lia|change (zlen (repeat 0 32)) with 32; lia|].
  apply wp_bind, wp_asplice; [lia|change (zlen (repeat 0 16)) with 16; lia|].
  rewrite !splice_whole by (rewrite ?Lk, ?Lc; reflexivity).
  assert (E : {| ctx_key := repeat 0 32; ctx_ctr := repeat 0 16 |} = ctx_st (repeat 0 32, 0)) by (vm_compute; reflexivity).
  rewrite E. eapply wp_mono; [apply (wp_update _ _ (repeat 0 32, 0) (xor_bytes entropy p)); auto|].
  - split; cbn [fst]; [reflexivity|apply bytes_zeros].
  - rewrite zlen_xor_bytes; lia.
  - now apply xor_all_bytes.
  - auto.
Qed.
Lemma wp_randombytes J st buf n : good st -> 0 <= n <= zlen buf ->
  wp (kat_randombytes J (ctx_st st) buf n) (fun '(c, b) =>
    c = ctx_st (snd (drbg_generate st n)) /\ good (snd (drbg_generate st n)) /\
    b = fst (drbg_generate st n) ++ slice buf n (zlen buf)).
Proof.
  destruct st as [key v]. intros [Lk Bk] Hn. cbn [fst snd] in Lk, Bk. unfold ctx_st. cbn [fst snd].
  unfold kat_randombytes, drbg_generate. cbv zeta. set (nb := n / 16). set (tail := n mod 16).
  assert (D : n = 16 * nb + tail) by (apply Z.div_mod; lia).
  assert (Ht : 0 <= tail < 16) by (apply Z.mod_pos_bound; lia).
  assert (Hnb : 0 <= nb) by (apply Z.div_pos; lia). clearbody nb tail.
  assert (LB : forall i, 0 <= i -> zlen (blocks_from key v i) = 16 * i) by (intros; now apply zlen_blocks).
  set (nn := (n + 15) / 16). cbn [fst snd].
  assert (Hnn : nn = if 0 <? tail then nb + 1 else nb).
  { unfold nn. symmetry. destruct (Z.ltb_spec 0 tail); [apply (Z.div_unique _ _ _ (tail - 1)); lia|apply (Z.div_unique _ _ _ 15); lia]. }
  clearbody nn.
  assert (Tl : slice buf n (zlen buf) = skipn (Z.to_nat n) buf).
  { unfold slice. apply firstn_all2. rewrite skipn_length. unfold zlen. lia. }
  rewrite Tl, output_blocks_from.
  set (block0 := uninit J 0 16). assert (L0 : zlen block0 = 16) by (apply zlen_uninit; lia). clearbody block0.
  apply wp_bind.
  apply (wp_for _ (fun i '(ctx, block, b) => ctx = ctx_of key (v + i) /\ zlen block = 16 /\
     b = blocks_from key v i ++ skipn (Z.to_nat (16 * i)) buf)).
  { lia. } { rewrite Z.add_0_r. auto. }
  { clear block0 L0. intros i [[ctx block] b] Hi [-> [L0 ->]]. apply wp_bind.
    eapply wp_mono; [apply wp_block_update; auto; lia|]. intros [c bl] [-> ->].
    rewrite splice_whole by (rewrite L0; symmetry; now apply AES256_bytes).
    destruct (AES256_bytes key (block_of (v + i + 1)) Lk Bk) as [_ LA].
    apply wp_bind, wp_memcpy; try lia.
    { rewrite zlen_app, LB by lia. unfold zlen in *. rewrite skipn_length. lia. }
    apply wp_ret. split; [f_equal; lia|]. split; [auto|].
    change (0 + 16) with 16. rewrite slice_all by auto. rewrite blocks_next by lia.
    rewrite (Z.mul_comm i 16). rewrite splice_blocks; [|lia|apply LB; lia|auto|lia]. do 2 f_equal. lia. }
  clear block0 L0. intros [[ctx block] b] [-> [L0 ->]].
  assert (FIN : forall c b', c = ctx_of key (v + nn) -> b' = slice (blocks_from key v nn) 0 n ++ skipn (Z.to_nat n) buf ->
    wp (bind (nistkat_update (sub J 2) None c) (fun ctx => ret (ctx, b'))) (fun '(c, b0) =>
      c = ctx_of (fst (drbg_update (repeat 0 48) (key, (v + nn) mod 2 ^ 128))) (snd (drbg_update (repeat 0 48) (key, (v + nn) mod 2 ^ 128))) /\
      good (drbg_update (repeat 0 48) (key, (v + nn) mod 2 ^ 128)) /\
      b0 = slice (blocks_from key v nn) 0 n ++ skipn (Z.to_nat n) buf)).
  { intros c b' -> ->. apply wp_bind.
    assert (E : drbg_update (repeat 0 48) (key, (v + nn) mod 2 ^ 128) = drbg_update (repeat 0 48) (key, v + nn)).
    { unfold drbg_update. now rewrite blocks_from_mod. }
    rewrite E.
    eapply wp_mono; [apply (wp_update _ _ (key, v + nn) (repeat 0 48)); [split; auto|reflexivity|apply bytes_zeros|auto]|].
    intros c' [-> Hg]. apply wp_ret. auto. }
  apply wp_bind. apply wp_branch; intros E; rewrite E in Hnn; [apply Z.ltb_lt in E|apply Z.ltb_ge in E].
  - apply wp_bind. eapply wp_mono; [apply wp_block_update; auto; lia|]. intros [c bl] [-> ->].
    rewrite splice_whole by (rewrite L0; symmetry; now apply AES256_bytes).
    destruct (AES256_bytes key (block_of (v + nb + 1)) Lk Bk) as [_ LA].
    assert (LA2 : zlen (blocks_from key v nb ++ skipn (Z.to_nat (16 * nb)) buf) = zlen buf).
    { rewrite zlen_app, LB by lia. unfold zlen in *. rewrite skipn_length. lia. }
    apply wp_bind, wp_memcpy; try lia. apply wp_ret. apply FIN; [f_equal; lia|].
    apply (zlist_ext 0).
    + rewrite zlen_splice by (rewrite ?zlen_slice; lia). rewrite LA2, zlen_app, zlen_slice by (rewrite ?LB; lia).
      unfold zlen in *. rewrite skipn_length. lia.
    + rewrite zlen_splice by (rewrite ?zlen_slice; lia). rewrite LA2. intros m Hm.
      rewrite zget_splice by (rewrite ?zlen_slice; lia). rewrite zlen_slice by lia.
      rewrite Hnn, blocks_next by lia.
      rewrite !zget_app by (rewrite ?zlen_slice; rewrite ?zlen_app, ?LB, ?LA; lia).
      rewrite zlen_slice by (rewrite ?zlen_app, ?LB, ?LA; lia). rewrite LB by lia.
      destruct (Z.ltb_spec m (n - 0)).
      * rewrite (zget_slice _ (blocks_from key v nb ++ _)) by (rewrite ?zlen_app, ?LB, ?LA; lia). change (0 + m) with m. rewrite zget_app by lia. rewrite LB by lia.
        destruct (Z.leb_spec (nb * 16) m), (Z.ltb_spec m (nb * 16 + (0 + tail - 0))), (Z.ltb_spec m (16 * nb)); cbn [andb]; try lia; try reflexivity.
        rewrite zget_slice by lia. replace (0 + (m - nb * 16)) with (m - 16 * nb) by lia. reflexivity.
      * destruct (Z.leb_spec (nb * 16) m), (Z.ltb_spec m (nb * 16 + (0 + tail - 0))), (Z.ltb_spec m (16 * nb)); cbn [andb]; try lia.
        rewrite !zget_skipn by lia. f_equal. lia.
  - apply wp_ret. assert (tail = 0) by lia. subst tail. rewrite Z.add_0_r in D. subst n.
    apply FIN; [now rewrite Hnn|]. rewrite Hnn. now rewrite slice_all by (apply LB; lia).
Qed.
Lemma wp_calls bufs : forall J st, good st ->
  wp (kat_calls J (ctx_st st) bufs) (fun outs => outs = drbg_requests st (map (fun b => zlen b) bufs)).
Proof.
  induction bufs as [|buf bufs IH]; intros J st Hs; [now apply wp_ret|].
  cbn [kat_calls map drbg_requests]. apply wp_bind. fold (zlen buf).
  eapply wp_mono; [apply (wp_randombytes _ st buf (zlen buf)); [auto|pose proof (zlen_nonneg buf); lia]|].
  intros [c b] [-> [Hg ->]]. apply wp_bind. eapply wp_mono; [now apply IH|]. intros outs ->. apply wp_ret.
  destruct (drbg_generate st (zlen buf)) as [out st']. cbn [fst snd]. f_equal.
  unfold slice. rewrite Z.sub_diag. cbn [Z.to_nat firstn]. apply app_nil_r.
Qed.
Lemma init_calls J J' ctx entropy p bufs :
  zlen (ctx_key ctx) = 32 -> zlen (ctx_ctr ctx) = 16 ->
  zlen entropy = 48 -> Forall is_byte entropy -> zlen p = 48 -> Forall is_byte p ->
  val (bind (nist_kat_init J entropy (Some p) ctx) (fun ctx => kat_calls J' ctx bufs)) =
  Ok (drbg_requests (drbg_instantiate entropy p) (map (fun b => zlen b) bufs)).
Proof.
  intros Lk Lc Le Be Lp Bp. apply wp_val, wp_bind.
  eapply wp_mono; [apply (wp_init _ _ _ p); auto; split; auto|]. intros c [-> Hg]. now apply wp_calls.
Qed.
Lemma init_calls_none J J' ctx entropy bufs :
  zlen (ctx_key ctx) = 32 -> zlen (ctx_ctr ctx) = 16 -> zlen entropy = 48 -> Forall is_byte entropy ->
  val (bind (nist_kat_init J entropy None ctx) (fun ctx => kat_calls J' ctx bufs)) =
  Ok (drbg_requests (drbg_instantiate entropy (repeat 0 48)) (map (fun b => zlen b) bufs)).
Proof.
  intros Lk Lc Le Be. apply wp_val, wp_bind.
  eapply wp_mono; [apply (wp_init _ _ _ (repeat 0 48)); auto; [split; auto|apply bytes_zeros]|].
  intros c [-> Hg]. now apply wp_calls.
Qed.
