(** * The key schedule of the bitsliced AES *)

From Coq Require Import ZArith List Bool Lia.
From Verif Require Import CSem ModelArith ModelAes Spec202 SpecAes CSemFacts ProofAesBits ProofAesRound.
Import ListNotations.
Open Scope Z_scope.
Ltac Zify.zify_post_hook ::= idtac.

(** ** Words and their bytes *)
Definition holds4 (w : Z) (l : list Z) : Prop :=
  word32 w /\ zlen l = 4 /\ Forall is_byte l /\
  forall r k, 0 <= r < 4 -> 0 <= k < 8 -> Z.testbit w (8 * r + k) = Z.testbit (zget 0 l r) k.
Definition bytes_of (w : Z) : list Z := map (fun r => u8 (Z.shiftr w (8 * r))) (range 4).
Lemma u8_byte x : is_byte (u8 x).
Proof. apply Z.mod_pos_bound. reflexivity. Qed.
Lemma u8_bit x k : 0 <= k < 8 -> Z.testbit (u8 x) k = Z.testbit x k.
Proof. intros. unfold u8. change 256 with (2 ^ 8). now rewrite Z.mod_pow2_bits_low by lia. Qed.
Lemma holds_bytes_of w : word32 w -> holds4 w (bytes_of w).
Proof.
  intros Hw. split; [auto|]. unfold bytes_of. split; [rewrite zlen_map, zlen_range; lia|]. split.
  - apply Forall_map_range. intros. apply u8_byte.
  - intros r k Hr Hk. rewrite zget_map_range by lia. rewrite u8_bit by auto.
    rewrite Z.shiftr_spec by lia. f_equal. lia.
Qed.
Lemma byte_ext x y : is_byte x -> is_byte y -> (forall k, 0 <= k < 8 -> Z.testbit x k = Z.testbit y k) -> x = y.
Proof. intros. apply (word_ext 8); auto; lia. Qed.
Lemma holds_byte w l r : holds4 w l -> 0 <= r < 4 -> u8 (Z.shiftr w (8 * r)) = zget 0 l r.
Proof.
  intros [Hw [Ll [Bl H]]] Hr. apply byte_ext; [apply u8_byte|apply (proj1 (Forall_zget _ 0 _) Bl); lia|].
  intros k Hk. rewrite u8_bit by auto. rewrite Z.shiftr_spec by lia. rewrite <- H by auto. f_equal; lia.
Qed.
Lemma holds_bytes w l : holds4 w l -> bytes_of w = l.
Proof.
  intros H. pose proof H as [_ [Ll _]]. apply (zlist_ext 0).
  - unfold bytes_of. rewrite zlen_map, zlen_range; lia.
  - intros r Hr. unfold bytes_of in *. rewrite zlen_map, zlen_range in Hr by lia.
    rewrite zget_map_range by lia. now apply holds_byte.
Qed.
(** A word is determined by its bits in the four bytes. *)
Lemma bit_split (P : Z -> Prop) : (forall r k, 0 <= r < 4 -> 0 <= k < 8 -> P (8 * r + k)) -> forall j, 0 <= j < 32 -> P j.
Proof.
  intros H j Hj. rewrite (Z.div_mod j 8) by lia. apply H.
  - split; [apply Z.div_pos; lia|apply Z.div_lt_upper_bound; lia].
  - apply Z.mod_pos_bound; lia.
Qed.
Lemma zlen_xor_bytes a b : zlen a = zlen b -> zlen (xor_bytes a b) = zlen a.
Proof. unfold zlen, xor_bytes. intros. rewrite map_length, combine_length. lia. Qed.
Lemma zget_xor_bytes a b i : zlen a = zlen b -> 0 <= i < zlen a ->
  zget 0 (xor_bytes a b) i = Z.lxor (zget 0 a i) (zget 0 b i).
Proof.
  intros E Hi. unfold xor_bytes. rewrite (zget_map _ (0, 0)).
  - unfold zget. rewrite combine_nth by (unfold zlen in E; lia). reflexivity.
  - unfold zlen in *. rewrite combine_length. lia.
Qed.
Lemma Forall_byte_get l i : Forall is_byte l -> 0 <= i < zlen l -> is_byte (zget 0 l i).
Proof. intros H Hi. now apply (proj1 (Forall_zget _ 0 _) H). Qed.
Lemma xor_bytes_bytes a b : zlen a = zlen b -> Forall is_byte a -> Forall is_byte b -> Forall is_byte (xor_bytes a b).
Proof.
  intros E Ha Hb. apply (Forall_zget _ 0). rewrite zlen_xor_bytes by auto. intros i Hi.
  rewrite zget_xor_bytes by auto. apply lxor_byte; apply Forall_byte_get; auto; lia.
Qed.
Lemma holds_xor w v l m : holds4 w l -> holds4 v m -> holds4 (Z.lxor w v) (xor_bytes l m).
Proof.
  intros [Hw [Ll [Bl H]]] [Hv [Lm [Bm H']]]. split; [apply lxor_range; auto; lia|].
  split; [rewrite zlen_xor_bytes; lia|]. split; [apply xor_bytes_bytes; auto; lia|].
  intros r k Hr Hk. rewrite zget_xor_bytes by lia. rewrite !Z.lxor_spec, H, H' by auto. reflexivity.
Qed.
Lemma lxor_bytes_comm a b : zlen a = zlen b -> xor_bytes a b = xor_bytes b a.
Proof.
  intros E. apply (zlist_ext 0); [rewrite !zlen_xor_bytes; lia|].
  rewrite zlen_xor_bytes by auto. intros i Hi. rewrite !zget_xor_bytes by lia. apply Z.lxor_comm.
Qed.
Lemma take4 (l : list Z) : zlen l = 4 -> l = [zget 0 l 0; zget 0 l 1; zget 0 l 2; zget 0 l 3].
Proof.
  unfold zlen. intros H. do 4 (destruct l as [|? l]; [cbn in H; lia|]).
  destruct l; [reflexivity|cbn [length] in H; lia].
Qed.
Lemma four r : 0 <= r < 4 -> r = 0 \/ r = 1 \/ r = 2 \/ r = 3.
Proof. lia. Qed.

(** Loading *)
Lemma wp_dec32le src off (Q : Z -> Prop) : 0 <= off -> off + 4 <= zlen src -> Forall is_byte src ->
  (forall w, holds4 w (slice src off (off + 4)) -> Q w) -> wp (br_dec32le src off) Q.
Proof.
  intros Ho Hs Bs HQ. unfold br_dec32le.
  do 4 (apply wp_bind, (wp_aget 0); [lia|]). apply wp_ret, HQ.
  assert (B4 : forall r, 0 <= r < 4 -> is_byte (zget 0 src (off + r))) by (intros; apply Forall_byte_get; auto; lia).
  assert (B0 := B4 0 ltac:(lia)). assert (B1 := B4 1 ltac:(lia)). assert (B2 := B4 2 ltac:(lia)). assert (B3 := B4 3 ltac:(lia)).
  rewrite Z.add_0_r in B0.
  split; [|split; [|split]].
  - repeat apply lor_range; try lia; try apply u32_range. unfold is_byte in B0. lia.
  - rewrite zlen_slice; lia.
  - apply (Forall_zget _ 0). rewrite zlen_slice by lia. intros i Hi. rewrite zget_slice by lia. apply B4; lia.
  - intros r k Hr Hk. rewrite zget_slice by lia.
    rewrite !Z.lor_spec. unfold u32. change 4294967296 with (2 ^ 32). rewrite !Z.mod_pow2_bits_low by lia.
    rewrite !Z.shiftl_spec by lia.
    assert (Hi : forall a j, is_byte a -> 8 <= j -> Z.testbit a j = false) by (intros; now apply (bit_above _ 8)).
    destruct (four r Hr) as [-> |[-> |[-> | ->]]].
    + rewrite Z.add_0_r. change (8 * 0 + k) with k.
      rewrite (Z.testbit_neg_r _ (k - 8)), (Z.testbit_neg_r _ (k - 16)), (Z.testbit_neg_r _ (k - 24)) by lia.
      now rewrite !orb_false_r.
    + rewrite (Hi _ (8 * 1 + k)) by (auto; lia).
      rewrite (Z.testbit_neg_r _ (8 * 1 + k - 16)), (Z.testbit_neg_r _ (8 * 1 + k - 24)) by lia.
      rewrite !orb_false_r. cbn [orb]. f_equal. lia.
    + rewrite (Hi _ (8 * 2 + k)), (Hi _ (8 * 2 + k - 8)) by (auto; lia).
      rewrite (Z.testbit_neg_r _ (8 * 2 + k - 24)) by lia.
      rewrite !orb_false_r. cbn [orb]. f_equal. lia.
    + rewrite (Hi _ (8 * 3 + k)), (Hi _ (8 * 3 + k - 8)), (Hi _ (8 * 3 + k - 16)) by (auto; lia).
      cbn [orb]. f_equal. lia.
Qed.
(** The first [num] words are loaded; the others stay. *)
Lemma wp_range_dec32le v num src off (Q : list Z -> Prop) :
  0 <= num <= zlen v -> 0 <= off -> off + 4 * num <= zlen src -> Forall is_byte src ->
  (forall v', zlen v' = zlen v ->
     (forall i, 0 <= i < num -> holds4 (zget 0 v' i) (slice src (off + 4 * i) (off + 4 * i + 4))) ->
     (forall i, num <= i < zlen v -> zget 0 v' i = zget 0 v i) -> Q v') ->
  wp (br_range_dec32le v num src off) Q.
Proof.
  intros Hn Ho Hs Bs HQ. unfold br_range_dec32le.
  apply (wp_for _ (fun n v' => zlen v' = zlen v /\
     (forall i, 0 <= i < n -> holds4 (zget 0 v' i) (slice src (off + 4 * i) (off + 4 * i + 4))) /\
     (forall i, n <= i < zlen v -> zget 0 v' i = zget 0 v i))).
  { lia. } { repeat split; auto; intros; lia. }
  { intros i v' Hi [L [H1 H2]]. apply wp_bind. apply wp_dec32le; auto; try lia.
    intros w Hw. apply wp_aset; [lia|]. rewrite zlen_set by lia. split; auto. split.
    - intros j Hj. rewrite zget_set by lia. destruct (Z.eqb_spec j i) as [->|]; auto. apply H1; lia.
    - intros j Hj. rewrite zget_set by lia. destruct (Z.eqb_spec j i); [lia|]. apply H2; lia. }
  intros v' [L [H1 H2]]. auto.
Qed.

(** ** RotWord and SubWord *)
Lemma rot_holds w l : holds4 w l -> holds4 (u32 (w << 24) .| (w >> 8)) (RotWord l).
Proof.
  intros [Hw [Ll [Bl H]]].
  assert (E : RotWord l = [zget 0 l 1; zget 0 l 2; zget 0 l 3; zget 0 l 0]) by (rewrite (take4 l Ll); reflexivity).
  assert (Bg : forall r, 0 <= r < 4 -> is_byte (zget 0 l r)) by (intros; apply Forall_byte_get; auto; lia).
  rewrite E. split; [|split; [|split]].
  - apply lor_range; [lia|apply u32_range|apply shiftr_range; auto; lia].
  - reflexivity.
  - repeat constructor; apply Bg; lia.
  - intros r k Hr Hk. rewrite Z.lor_spec. unfold u32. change 4294967296 with (2 ^ 32).
    rewrite Z.mod_pow2_bits_low by lia. rewrite Z.shiftl_spec, Z.shiftr_spec by lia.
    destruct (four r Hr) as [-> |[-> |[-> | ->]]].
    + rewrite Z.testbit_neg_r by lia. cbn [orb]. rewrite <- (H 1) by lia. f_equal. lia.
    + rewrite Z.testbit_neg_r by lia. cbn [orb]. rewrite <- (H 2) by lia. f_equal. lia.
    + rewrite Z.testbit_neg_r by lia. cbn [orb]. rewrite <- (H 3) by lia. f_equal. lia.
    + rewrite (bit_above w 32 (8 * 3 + k + 8)) by (auto; lia). rewrite orb_false_r.
      change (zget 0 [zget 0 l 1; zget 0 l 2; zget 0 l 3; zget 0 l 0] 3) with (zget 0 l 0).
      rewrite <- (H 0) by lia. f_equal. lia.
Qed.

Lemma wp_ortho q (Q : list Z -> Prop) : zlen q = 8 -> Forall word64 q ->
  (forall q', zlen q' = 8 -> Forall word64 q' ->
     (forall k i, 0 <= k < 8 -> 0 <= i < 64 -> Z.testbit (zget 0 q' k) i = Z.testbit (zget 0 q (i mod 8)) (8 * (i / 8) + k)) -> Q q') ->
  wp (br_aes_ct64_ortho q) Q.
Proof.
  intros L W HQ. unfold br_aes_ct64_ortho. apply wp_with8; auto. rewrite ortho_denote, <- take8 by auto.
  apply HQ.
  - reflexivity.
  - now apply ortho_range.
  - intros k i Hk Hi. now apply ortho_bit.
Qed.
Lemma word32_64 x : word32 x -> word64 x.
Proof. unfold word32, word64. lia. Qed.
Lemma wp_sub_word w l : holds4 w l -> wp (sub_word w) (fun w' => holds4 w' (SubWord l)).
Proof.
  intros [Hw [Ll [Bl H]]]. unfold sub_word. apply wp_bind.
  assert (Bg : forall r, 0 <= r < 4 -> is_byte (zget 0 l r)) by (intros; apply Forall_byte_get; auto; lia).
  apply wp_ortho; [reflexivity| |].
  { constructor; [now apply word32_64|]. repeat constructor; lia. }
  intros q Lq Wq Hq. apply wp_bind. eapply wp_mono.
  { apply (wp_sbox q (fun i => if (i mod 8 =? 0) && (i <? 32) then zget 0 l (i / 8) else 0)).
    split; [auto|split; [auto|split]].
    - intros i Hi. destruct (Z.ltb_spec i 32); [|rewrite andb_false_r; unfold is_byte; lia].
      destruct (i mod 8 =? 0); cbn [andb]; [|unfold is_byte; lia].
      apply Bg. split; [apply Z.div_pos; lia|apply Z.div_lt_upper_bound; lia].
    - intros k i Hk Hi. rewrite Hq by auto. assert (Bm := Z.mod_pos_bound i 8 ltac:(lia)).
      destruct (Z.eqb_spec (i mod 8) 0) as [E|E].
      + rewrite E. change (zget 0 [w; 0; 0; 0; 0; 0; 0; 0] 0) with w.
        assert (0 <= i / 8) by (apply Z.div_pos; lia).
        destruct (Z.ltb_spec i 32); cbn [andb].
        * apply H; auto. split; auto. apply Z.div_lt_upper_bound; lia.
        * rewrite Z.bits_0. apply (bit_above w 32); auto. assert (4 <= i / 8) by (apply Z.div_le_lower_bound; lia). lia.
      + cbn [andb]. rewrite Z.bits_0.
        assert (C : i mod 8 = 1 \/ i mod 8 = 2 \/ i mod 8 = 3 \/ i mod 8 = 4 \/ i mod 8 = 5 \/ i mod 8 = 6 \/ i mod 8 = 7) by lia.
        destruct C as [C|[C|[C|[C|[C|[C|C]]]]]]; rewrite C; apply Z.bits_0. }
  clear q Lq Wq Hq. intros q [Lq [Wq [Bq Hq]]]. apply wp_bind. apply wp_ortho; auto.
  intros q' Lq' Wq' Hq'. apply wp_bind, (wp_aget 0); [lia|]. apply wp_ret.
  split; [apply u32_range|]. unfold SubWord. split; [now rewrite zlen_map|]. split.
  - apply Forall_map. apply (Forall_impl _ SBox_byte Bl).
  - intros r k Hr Hk. unfold u32. change 4294967296 with (2 ^ 32). rewrite Z.mod_pow2_bits_low by lia.
    assert (Em : (8 * r + k) mod 8 = k) by (replace (8 * r + k) with (k + r * 8) by lia; rewrite Z.mod_add by lia; apply Z.mod_small; lia).
    assert (Ed : (8 * r + k) / 8 = r) by (replace (8 * r + k) with (k + r * 8) by lia; rewrite Z.div_add by lia; rewrite Z.div_small; lia).
    rewrite Hq' by lia. rewrite Em, Ed, Z.add_0_r. rewrite Hq by lia.
    replace (8 * r mod 8) with 0 by (rewrite Z.mul_comm, Z.mod_mul; lia).
    replace (8 * r / 8) with r by (rewrite Z.mul_comm, Z.div_mul; lia).
    replace (8 * r <? 32) with true by (symmetry; apply Z.ltb_lt; lia). cbn [Z.eqb andb].
    now rewrite (zget_map _ 0) by lia.
Qed.

(** ** The words of the key schedule *)
Definition key_size (nk nr : Z) : Prop := (nk = 4 /\ nr = 10) \/ (nk = 6 /\ nr = 12) \/ (nk = 8 /\ nr = 14).
Lemma expand_spec nk : 0 < nk -> forall n i w, zlen w = i -> nk <= i ->
  zlen (expand n nk i w) = i + Z.of_nat n /\
  (forall j, 0 <= j < i -> zget [] (expand n nk i w) j = zget [] w j) /\
  (forall j, i <= j < i + Z.of_nat n -> zget [] (expand n nk i w) j = next_word nk (expand n nk i w) j).
Proof.
  intros Hk. induction n as [|n IH]; intros i w L Hi.
  - cbn [expand]. split; [lia|]. split; [auto|intros; lia].
  - cbn [expand]. set (w1 := w ++ [next_word nk w i]).
    assert (L1 : zlen w1 = i + 1) by (unfold w1; rewrite zlen_app, zlen_cons, zlen_nil; lia).
    destruct (IH (i + 1) w1 L1 ltac:(lia)) as [H1 [H2 H3]].
    set (W := expand n nk (i + 1) w1) in *.
    assert (P : forall j, 0 <= j < i -> zget [] W j = zget [] w j).
    { intros j Hj. rewrite H2 by lia. unfold w1. rewrite zget_app by lia.
      now replace (j <? zlen w) with true by (symmetry; apply Z.ltb_lt; lia). }
    split; [lia|]. split; [auto|]. intros j Hj.
    destruct (Z.eq_dec j i) as [->|]; [|apply H3; lia].
    rewrite H2 by lia. unfold w1. rewrite zget_app by lia.
    replace (i <? zlen w) with false by (symmetry; apply Z.ltb_ge; lia).
    replace (i - zlen w) with 0 by lia. change (zget [] [next_word nk w i] 0) with (next_word nk w i).
    unfold next_word.
    assert (E : forall j, 0 <= j < i -> nth (Z.to_nat j) w [] = nth (Z.to_nat j) W []) by (intros; symmetry; now apply P).
    rewrite (E (i - 1)), (E (i - nk)) by lia. reflexivity.
Qed.
Lemma expansion_spec nk nr key : 0 < nk -> nk <= 4 * (nr + 1) ->
  let W := KeyExpansion nk nr key in
  zlen W = 4 * (nr + 1) /\
  (forall j, 0 <= j < nk -> zget [] W j = slice key (4 * j) (4 * j + 4)) /\
  (forall j, nk <= j < 4 * (nr + 1) -> zget [] W j = next_word nk W j).
Proof.
  intros Hk Hn W. unfold W, KeyExpansion.
  destruct (expand_spec nk Hk (Z.to_nat (4 * (nr + 1) - nk)) nk
     (map (fun i => slice key (4 * i) (4 * i + 4)) (range nk))) as [H1 [H2 H3]];
    [rewrite zlen_map, zlen_range; lia|lia|].
  rewrite Z2Nat.id in * by lia. split; [lia|]. split.
  - intros j Hj. rewrite H2 by lia. now rewrite zget_map_range by lia.
  - intros j Hj. apply H3. lia.
Qed.

Definition rcon_check : bool :=
  forallb (fun k => zget 0 Rcon k =? Nat.iter (Z.to_nat (k + 1 - 1)) xtimes 1) (range 10).
Lemma rcon_ok k : 0 <= k < 10 -> holds4 (zget 0 Rcon k) (Rcon_word (k + 1)).
Proof.
  intros Hk. assert (H : rcon_check = true) by (vm_compute; reflexivity).
  unfold rcon_check in H. rewrite forallb_forall in H. specialize (H k (proj2 (in_range k 10) Hk)).
  apply Z.eqb_eq in H. unfold Rcon_word. rewrite <- H.
  assert (B : is_byte (zget 0 Rcon k)).
  { apply Forall_byte_get; [|change (zlen Rcon) with 10; lia]. unfold Rcon, is_byte. repeat constructor; lia. }
  split; [unfold word32, is_byte in *; lia|]. split; [reflexivity|].
  split; [constructor; [auto|]; do 3 (constructor; [unfold is_byte; lia|]); constructor|]. intros r j Hr Hj.
  destruct (four r Hr) as [-> |[-> |[-> | ->]]]; [reflexivity| | |];
    (rewrite (bit_above (zget 0 Rcon k) 8) by (auto; lia); symmetry; apply Z.bits_0).
Qed.
Lemma SubWord_len l : zlen (SubWord l) = zlen l.
Proof. apply zlen_map. Qed.
Lemma RotWord_len l : zlen l = 4 -> zlen (RotWord l) = 4.
Proof. intros H. rewrite (take4 l H). reflexivity. Qed.

Lemma wp_keysched_words J key nk nr : key_size nk nr -> zlen key = 4 * nk -> Forall is_byte key ->
  wp (keysched_words J key (4 * nk)) (fun sk => zlen sk = 60 /\
    forall i, 0 <= i < 4 * (nr + 1) -> holds4 (zget 0 sk i) (zget [] (KeyExpansion nk nr key) i)).
Proof.
  intros Hs Lk Bk. unfold keysched_words.
  assert (E1 : Z.shiftr (4 * nk) 2 = nk) by (destruct Hs as [[-> _]|[[-> _]|[-> _]]]; reflexivity).
  assert (E2 : Z.shiftl (10 + Z.shiftr (4 * nk - 16) 2 + 1) 2 = 4 * (nr + 1)) by (destruct Hs as [[-> ->]|[[-> ->]|[-> ->]]]; reflexivity).
  cbv zeta. rewrite E1, E2.
  assert (Hnk : 4 <= nk <= 8 /\ nk < 4 * (nr + 1) <= 60 /\ 4 * (nr + 1) <= 11 * nk) by (destruct Hs as [[-> ->]|[[-> ->]|[-> ->]]]; lia).
  set (W := KeyExpansion nk nr key).
  destruct (expansion_spec nk nr key ltac:(lia) ltac:(lia)) as [LW [W0 W1]]. fold W in LW, W0, W1.
  apply wp_bind. apply wp_range_dec32le; try lia; auto.
  { rewrite zlen_uninit by lia. lia. }
  intros sk Lsk Hsk _. rewrite zlen_uninit in Lsk by lia.
  apply wp_bind, (wp_aget 0); [lia|]. apply wp_bind.
  apply (wp_for _ (fun i '(sk, tmp, j, k) => zlen sk = 60 /\ j = i mod nk /\ k = i / nk - 1 /\ tmp = zget 0 sk (i - 1) /\
     forall m, 0 <= m < i -> holds4 (zget 0 sk m) (zget [] W m))).
  { lia. }
  { split; [auto|]. split; [symmetry; apply Z.mod_same; lia|]. split; [rewrite Z.div_same by lia; reflexivity|].
    split; [auto|]. intros m Hm. rewrite W0 by auto. apply Hsk. auto. }
  { clear sk Lsk Hsk. intros i [[[sk tmp] j] k] Hi [Lsk [-> [-> [-> Hsk]]]].
    assert (Bm := Z.mod_pos_bound i nk ltac:(lia)). assert (Dm := Z.div_mod i nk ltac:(lia)).
    assert (Hq : 1 <= i / nk <= 10) by (split; [apply Z.div_le_lower_bound; lia|apply Z.lt_succ_r, Z.div_lt_upper_bound; lia]).
    assert (Hp := Hsk (i - 1) ltac:(lia)).
    pose proof Hp as [_ [Lp _]].
    set (T := if i mod nk =? 0 then xor_bytes (SubWord (RotWord (zget [] W (i - 1)))) (Rcon_word (i / nk))
              else if (6 <? nk) && (i mod nk =? 4) then SubWord (zget [] W (i - 1)) else zget [] W (i - 1)).
    apply wp_bind. apply (wp_mono _ _ (fun t => holds4 t T)).
    { apply wp_branch; intros E; unfold T; rewrite E.
      - apply wp_bind. eapply wp_mono; [apply wp_sub_word, rot_holds, Hp|]. intros s Hs'.
        apply wp_bind, (wp_aget 0); [change (zlen Rcon) with 10; lia|]. apply wp_ret.
        apply holds_xor; auto. replace (i / nk) with (i / nk - 1 + 1) at 2 by lia. apply rcon_ok. lia.
      - apply wp_branch; intros E'; rewrite E'; [apply wp_sub_word, Hp|apply wp_ret, Hp]. }
    intros t Ht. apply wp_bind, (wp_aget 0); [lia|]. apply wp_bind, wp_aset; [lia|].
    assert (Hi' := Hsk (i - nk) ltac:(lia)).
    assert (Hn : holds4 (t .^ zget 0 sk (i - nk)) (zget [] W i)).
    { rewrite W1 by lia. change (next_word nk W i) with (xor_bytes (zget [] W (i - nk)) T).
      rewrite lxor_bytes_comm; [now apply holds_xor|].
      destruct Hi' as [_ [-> _]]. destruct Ht as [_ [-> _]]. reflexivity. }
    assert (G : zlen (zset sk i (t .^ zget 0 sk (i - nk))) = 60 /\
      (t .^ zget 0 sk (i - nk)) = zget 0 (zset sk i (t .^ zget 0 sk (i - nk))) (i + 1 - 1) /\
      forall m, 0 <= m < i + 1 -> holds4 (zget 0 (zset sk i (t .^ zget 0 sk (i - nk))) m) (zget [] W m)).
    { rewrite zlen_set by lia. split; [auto|]. replace (i + 1 - 1) with i by lia.
      rewrite zget_set by lia. rewrite Z.eqb_refl. split; [auto|].
      intros m Hm. rewrite zget_set by lia. destruct (Z.eqb_spec m i) as [->|]; auto. apply Hsk; lia. }
    destruct G as [G1 [G2 G3]].
    apply wp_branch; intros E.
    - apply Z.eqb_eq in E. apply wp_ret. split; [auto|].
      assert (Ei : i + 1 = 0 + (i / nk + 1) * nk) by lia.
      split; [rewrite Ei, Z.mod_add, Z.mod_0_l by lia; reflexivity|].
      split; [rewrite Ei, Z.div_add, Z.div_0_l by lia; lia|]. auto.
    - apply Z.eqb_neq in E. apply wp_ret. split; [auto|].
      assert (Ei : i + 1 = i mod nk + 1 + i / nk * nk) by lia.
      split; [rewrite Ei, Z.mod_add, (Z.mod_small (i mod nk + 1)) by lia; reflexivity|].
      split; [rewrite Ei, Z.div_add, (Z.div_small (i mod nk + 1)) by lia; lia|]. auto. }
  clear sk Lsk Hsk. intros [[[sk tmp] j] k] [Lsk [_ [_ [_ Hsk]]]]. apply wp_ret. auto.
Qed.

(** ** Slicing four blocks *)
Definition word_index (i : Z) : Z * Z := (i mod 4, (i / 4) mod 4).
Lemma index_facts i : 0 <= i < 64 ->
  0 <= i mod 4 < 4 /\ 0 <= (i / 4) mod 4 < 4 /\ 0 <= i / 16 < 4 /\ 0 <= i / 8 < 8 /\
  i mod 8 = 4 * ((i / 4) mod 2) + i mod 4 /\ i / 8 = 2 * (i / 16) + (i / 4) mod 4 / 2 /\
  ((i / 4) mod 2 = (i / 4) mod 4 mod 2) /\ i = 16 * (i / 16) + 4 * ((i / 4) mod 4) + i mod 4.
Proof.
  intros Hi.
  assert (T : forallb (fun i =>
    (0 <=? i mod 4) && (i mod 4 <? 4) && (0 <=? (i / 4) mod 4) && ((i / 4) mod 4 <? 4) &&
    (0 <=? i / 16) && (i / 16 <? 4) && (0 <=? i / 8) && (i / 8 <? 8) &&
    (i mod 8 =? 4 * ((i / 4) mod 2) + i mod 4) && (i / 8 =? 2 * (i / 16) + (i / 4) mod 4 / 2) &&
    ((i / 4) mod 2 =? (i / 4) mod 4 mod 2) && (i =? 16 * (i / 16) + 4 * ((i / 4) mod 4) + i mod 4)) (range 64) = true)
    by (vm_compute; reflexivity).
  rewrite forallb_forall in T. specialize (T i (proj2 (in_range i 64) Hi)).
  rewrite !andb_true_iff, !Z.leb_le, !Z.ltb_lt, !Z.eqb_eq in T. intuition.
Qed.
(** The words [wd b c] of four blocks [b], interleaved: even columns in the first four words, odd
    ones in the others. *)
Definition interleaved (wd : Z -> Z -> Z) (q : list Z) : Prop :=
  zlen q = 8 /\ forall j, 0 <= j < 4 ->
    zget 0 q j = interleave (wd j 0) (wd j 2) /\ zget 0 q (j + 4) = interleave (wd j 1) (wd j 3).
Lemma interleaved_words wd q : interleaved wd q ->
  (forall b c, 0 <= b < 4 -> 0 <= c < 4 -> word32 (wd b c)) -> Forall word64 q.
Proof.
  intros [L H] W. apply (Forall_zget _ 0). rewrite L. intros i Hi.
  destruct (Z.lt_ge_cases i 4).
  - destruct (H i ltac:(lia)) as [-> _]. apply interleave_range; apply W; lia.
  - destruct (H (i - 4) ltac:(lia)) as [_ E]. replace (i - 4 + 4) with i in E by lia. rewrite E.
    apply interleave_range; apply W; lia.
Qed.
Lemma interleaved_bit wd q i k : interleaved wd q ->
  (forall b c, 0 <= b < 4 -> 0 <= c < 4 -> word32 (wd b c)) -> 0 <= i < 64 -> 0 <= k < 8 ->
  Z.testbit (zget 0 q (i mod 8)) (8 * (i / 8) + k) = Z.testbit (wd (i mod 4) ((i / 4) mod 4)) (8 * (i / 16) + k).
Proof.
  intros [L H] W Hi Hk. destruct (index_facts i Hi) as [Hb [Hc [Hr [H8 [E1 [E2 [E3 E4]]]]]]].
  set (b := i mod 4) in *. set (c := (i / 4) mod 4) in *. set (r := i / 16) in *.
  assert (P1 : (8 * (i / 8) + k) / 8 = i / 8) by (symmetry; apply (Z.div_unique _ _ _ k); lia).
  assert (P2 : (8 * (i / 8) + k) mod 8 = k) by (symmetry; apply (Z.mod_unique _ _ (i / 8)); lia).
  assert (Hc2 : 0 <= c / 2 < 2) by (split; [apply Z.div_pos; lia|apply Z.div_lt_upper_bound; lia]).
  assert (P3 : (8 * (i / 8) + k) / 16 = r) by (symmetry; apply (Z.div_unique _ _ _ (8 * (c / 2) + k)); lia).
  assert (P4 : (i / 8) mod 2 = c / 2) by (symmetry; apply (Z.mod_unique _ _ r); lia).
  rewrite E1, E3. destruct (H b Hb) as [Q0 Q1].
  assert (C := four c Hc).
  assert (D : c mod 2 = 0 /\ (c / 2 = 0 /\ c = 0 \/ c / 2 = 1 /\ c = 2) \/ c mod 2 = 1 /\ (c / 2 = 0 /\ c = 1 \/ c / 2 = 1 /\ c = 3)).
  { destruct C as [-> |[-> |[-> | ->]]]; cbn; auto. }
  destruct D as [[D0 D]|[D0 D]]; rewrite D0.
  - change (4 * 0 + b) with b. rewrite Q0. rewrite interleave_bit by (try apply W; lia).
    rewrite P1, P2, P3, P4. destruct D as [[D1 D2]|[D1 D2]]; rewrite D1, D2; reflexivity.
  - replace (4 * 1 + b) with (b + 4) by lia. rewrite Q1. rewrite interleave_bit by (try apply W; lia).
    rewrite P1, P2, P3, P4. destruct D as [[D1 D2]|[D1 D2]]; rewrite D1, D2; reflexivity.
Qed.
Lemma wp_load wd by_ q : interleaved wd q ->
  (forall b c, 0 <= b < 4 -> 0 <= c < 4 -> holds4 (wd b c) (by_ b c)) ->
  wp (br_aes_ct64_ortho q) (fun q' => sliced q' (fun i => zget 0 (by_ (i mod 4) ((i / 4) mod 4)) (i / 16))).
Proof.
  intros Hq Hw.
  assert (W : forall b c, 0 <= b < 4 -> 0 <= c < 4 -> word32 (wd b c)) by (intros; now apply Hw).
  apply wp_ortho; [apply Hq|now apply (interleaved_words wd)|].
  intros q' L' W' H'. split; [auto|split; [auto|split]].
  - intros i Hi. destruct (index_facts i Hi) as [Hb [Hc [Hr _]]].
    destruct (Hw _ _ Hb Hc) as [_ [Ll [Bl _]]]. apply Forall_byte_get; auto; lia.
  - intros k i Hk Hi. destruct (index_facts i Hi) as [Hb [Hc [Hr _]]].
    rewrite H' by auto. rewrite (interleaved_bit wd) by auto.
    destruct (Hw _ _ Hb Hc) as [_ [_ [_ Hbit]]]. now apply Hbit.
Qed.
Lemma wp_interleave_in w off (Q : Z * Z -> Prop) : 0 <= off -> off + 4 <= zlen w ->
  Q (interleave (zget 0 w off) (zget 0 w (off + 2)), interleave (zget 0 w (off + 1)) (zget 0 w (off + 3))) ->
  wp (br_aes_ct64_interleave_in w off) Q.
Proof.
  intros Ho Hl HQ. unfold br_aes_ct64_interleave_in. do 4 (apply wp_bind, (wp_aget 0); [lia|]).
  now apply wp_ret.
Qed.

(** ** Round keys *)
(** The byte of round key [r] at position [i] of the sliced state, the same in all four blocks *)
Definition key_byte (W : list (list Z)) (r i : Z) : Z := zget 0 (zget [] W (4 * r + (i / 4) mod 4)) (i / 16).
Definition comp_ok (W : list (list Z)) (comp : list Z) (n : Z) : Prop :=
  forall u, 0 <= u < n -> word64 (zget 0 comp u) /\
    forall i, 0 <= i < 64 -> Z.testbit (zget 0 comp u) i = Z.testbit (key_byte W (u / 2) i) (4 * (u mod 2) + i mod 4).
Definition words_ok (W : list (list Z)) (nr : Z) : Prop :=
  zlen W = 4 * (nr + 1) /\ forall u, 0 <= u < 4 * (nr + 1) -> zlen (zget [] W u) = 4 /\ Forall is_byte (zget [] W u).
Lemma wp_keysched J comp key nk nr : key_size nk nr -> zlen key = 4 * nk -> Forall is_byte key ->
  zlen comp = 2 * (nr + 1) ->
  wp (br_aes_ct64_keysched J comp key (4 * nk)) (fun c => zlen c = 2 * (nr + 1) /\
    words_ok (KeyExpansion nk nr key) nr /\ comp_ok (KeyExpansion nk nr key) c (2 * (nr + 1))).
Proof.
  intros Hs Lk Bk Lc. unfold br_aes_ct64_keysched. cbv zeta.
  assert (E2 : Z.shiftl (10 + Z.shiftr (4 * nk - 16) 2 + 1) 2 = 4 * (nr + 1)) by (destruct Hs as [[-> ->]|[[-> ->]|[-> ->]]]; reflexivity).
  rewrite E2. set (W := KeyExpansion nk nr key).
  assert (Hr : 10 <= nr <= 14) by (destruct Hs as [[_ ->]|[[_ ->]|[_ ->]]]; lia).
  apply wp_bind. eapply wp_mono; [apply (wp_keysched_words _ _ nk nr); auto|].
  intros sk [Lsk Hsk]. fold W in Hsk.
  assert (OK : words_ok W nr).
  { split; [apply expansion_spec; destruct Hs as [[-> _]|[[-> _]|[-> _]]]; lia|].
    intros u Hu. destruct (Hsk u Hu) as [_ [H1 [H2 _]]]. auto. }
  apply wp_bind.
  apply (wp_for_step _ (fun r '(c, j) => zlen c = 2 * (nr + 1) /\ j = 2 * r /\ comp_ok W c (2 * r)) _ _ _ (nr + 1)).
  { apply (Z.div_unique _ _ _ 3); lia. }
  { lia. }
  { split; [auto|]. split; [auto|]. intros u Hu. lia. }
  { clear comp Lc. intros r [c j] Hr' [Lc [-> Hc]]. replace (0 + r * 4) with (4 * r) by lia.
    apply wp_bind. apply wp_interleave_in; try lia.
    set (x := interleave _ _). set (y := interleave _ _).
    apply wp_bind. eapply wp_mono.
    { apply (wp_load (fun _ c => zget 0 sk (4 * r + c)) (fun _ c => zget [] W (4 * r + c))).
      - split; [reflexivity|]. intros b Hb. rewrite Z.add_0_r.
        destruct (four b Hb) as [-> |[-> |[-> | ->]]]; split; reflexivity.
      - intros b c' Hb Hc'. apply Hsk. lia. }
    intros q Hq. cbv beta in Hq. change (sliced q (key_byte W r)) in Hq.
    destruct Hq as [Lq [Wq [_ Bq]]].
    assert (Wk : forall k, 0 <= k < 8 -> word64 (zget 0 q k)) by (intros; apply (proj1 (Forall_zget _ 0 _) Wq); lia).
    apply wp_bind. apply wp_with8; auto. apply wp_bind, wp_aset; [lia|].
    apply wp_bind, wp_aset; [rewrite zlen_set; lia|]. apply wp_ret.
    split; [rewrite !zlen_set; rewrite ?zlen_set; lia|]. split; [lia|].
    intros u Hu. rewrite zget_set by (rewrite ?zlen_set; lia).
    destruct (Z.eqb_spec u (2 * r + 1)) as [->|N1].
    { split; [apply compress_range; apply Wk; lia|]. intros i Hi.
      rewrite compress_bit by (try apply Wk; lia).
      replace ((2 * r + 1) / 2) with r by (apply (Z.div_unique _ _ _ 1); lia).
      replace ((2 * r + 1) mod 2) with 1 by (apply (Z.mod_unique _ _ r); lia).
      assert (Bm := Z.mod_pos_bound i 4 ltac:(lia)). rewrite <- Bq by lia. f_equal.
      destruct (four (i mod 4) Bm) as [-> |[-> |[-> | ->]]]; reflexivity. }
    rewrite zget_set by lia. destruct (Z.eqb_spec u (2 * r)) as [->|N2].
    { split; [apply compress_range; apply Wk; lia|]. intros i Hi.
      rewrite compress_bit by (try apply Wk; lia).
      replace ((2 * r) / 2) with r by (apply (Z.div_unique _ _ _ 0); lia).
      replace ((2 * r) mod 2) with 0 by (apply (Z.mod_unique _ _ r); lia).
      assert (Bm := Z.mod_pos_bound i 4 ltac:(lia)). rewrite <- Bq by lia. f_equal.
      destruct (four (i mod 4) Bm) as [-> |[-> |[-> | ->]]]; reflexivity. }
    apply Hc. lia. }
  clear comp Lc. intros [c j] [Lc [_ Hc]]. apply wp_ret. auto.
Qed.

(** The expanded round keys: words 8 r .. 8 r + 7 are the sliced round key r. *)
Definition expanded (W : list (list Z)) (nr : Z) (sk : list Z) : Prop :=
  zlen sk = 8 * (nr + 1) /\ forall r, 0 <= r <= nr -> sliced (slice sk (8 * r) (8 * r + 8)) (key_byte W r).
Lemma key_byte_ok W nr r i : words_ok W nr -> 0 <= r <= nr -> 0 <= i < 64 -> is_byte (key_byte W r i).
Proof.
  intros [_ H] Hr Hi. destruct (index_facts i Hi) as [_ [Hc [Hq _]]].
  destruct (H (4 * r + (i / 4) mod 4) ltac:(lia)) as [Ll Bl]. apply Forall_byte_get; auto; lia.
Qed.
Lemma wp_skey_expand W sk comp nr : 0 <= nr -> zlen sk = 8 * (nr + 1) -> zlen comp = 2 * (nr + 1) ->
  words_ok W nr -> comp_ok W comp (2 * (nr + 1)) ->
  wp (br_aes_ct64_skey_expand sk comp nr) (expanded W nr).
Proof.
  intros Hr Lsk Lc Bk Hc. unfold br_aes_ct64_skey_expand. cbv zeta.
  assert (E : Z.shiftl (nr + 1) 1 = 2 * (nr + 1)) by (rewrite Z.shiftl_mul_pow2 by lia; lia).
  rewrite E. apply wp_bind.
  apply (wp_for _ (fun u '(sk, v) => zlen sk = 8 * (nr + 1) /\ v = 4 * u /\
     forall m, 0 <= m < 4 * u -> zget 0 sk m = key_part (zget 0 comp (m / 4)) (m mod 4))).
  { lia. } { split; [auto|]. split; [auto|]. intros; lia. }
  { clear sk Lsk. intros u [sk v] Hu [Lsk [-> Hsk]]. apply wp_bind, (wp_aget 0); [lia|].
    apply wp_bind, wp_aset; [lia|]. apply wp_bind, wp_aset; [rewrite zlen_set; lia|].
    apply wp_bind, wp_aset; [rewrite !zlen_set; rewrite ?zlen_set; lia|].
    apply wp_bind, wp_aset; [rewrite !zlen_set; rewrite ?zlen_set; rewrite ?zlen_set; lia|]. apply wp_ret.
    split; [rewrite !zlen_set; rewrite ?zlen_set; rewrite ?zlen_set; rewrite ?zlen_set; lia|].
    split; [lia|]. intros m Hm.
    rewrite !zget_set by (rewrite ?zlen_set; rewrite ?zlen_set; rewrite ?zlen_set; lia).
    assert (K : forall n, 0 <= n < 4 -> m = 4 * u + n -> m / 4 = u /\ m mod 4 = n).
    { intros n Hn ->. split; [symmetry; apply (Z.div_unique _ _ _ n); lia|symmetry; apply (Z.mod_unique _ _ u); lia]. }
    destruct (Z.eqb_spec m (4 * u + 3)) as [E3|]; [destruct (K 3 ltac:(lia) E3) as [-> ->]; reflexivity|].
    destruct (Z.eqb_spec m (4 * u + 2)) as [E3|]; [destruct (K 2 ltac:(lia) E3) as [-> ->]; reflexivity|].
    destruct (Z.eqb_spec m (4 * u + 1)) as [E3|]; [destruct (K 1 ltac:(lia) E3) as [-> ->]; reflexivity|].
    destruct (Z.eqb_spec m (4 * u)) as [E3|].
    - destruct (K 0 ltac:(lia) ltac:(lia)) as [-> ->]. unfold key_part.
      now rewrite Z.shiftr_0_r.
    - apply Hsk. lia. }
  clear sk Lsk. intros [sk v] [Lsk [_ Hsk]]. apply wp_ret. split; [auto|]. intros r Hr'.
  assert (G : forall k, 0 <= k < 8 -> zget 0 (slice sk (8 * r) (8 * r + 8)) k = key_part (zget 0 comp (2 * r + k / 4)) (k mod 4)).
  { intros k Hk. rewrite zget_slice by lia. rewrite Hsk by lia.
    replace (8 * r + k) with (k + (2 * r) * 4) by lia. rewrite Z.div_add, Z.mod_add by lia. do 2 f_equal. lia. }
  assert (D : forall k, 0 <= k < 8 -> 0 <= k / 4 < 2 /\ 0 <= k mod 4 < 4 /\ k = 4 * (k / 4) + k mod 4).
  { intros k Hk. split; [split; [apply Z.div_pos; lia|apply Z.div_lt_upper_bound; lia]|].
    split; [apply Z.mod_pos_bound; lia|apply Z.div_mod; lia]. }
  assert (Ls : zlen (slice sk (8 * r) (8 * r + 8)) = 8) by (rewrite zlen_slice; lia).
  split; [auto|split; [|split]].
  - apply (Forall_zget _ 0). rewrite Ls. intros k Hk. rewrite G by auto. apply smear_range.
  - intros i Hi. now apply (key_byte_ok W nr).
  - intros k i Hk Hi. rewrite G by auto. destruct (D k Hk) as [D1 [D2 D3]].
    destruct (Hc (2 * r + k / 4) ltac:(lia)) as [Wc Hbit].
    rewrite key_part_bit by auto.
    assert (Hi4 : 0 <= i / 4 < 16) by (split; [apply Z.div_pos; lia|apply Z.div_lt_upper_bound; lia]).
    rewrite Hbit by lia.
    replace ((2 * r + k / 4) / 2) with r by (apply (Z.div_unique _ _ _ (k / 4)); lia).
    replace ((2 * r + k / 4) mod 2) with (k / 4) by (apply (Z.mod_unique _ _ r); lia).
    replace ((4 * (i / 4) + k mod 4) mod 4) with (k mod 4) by (apply (Z.mod_unique _ _ (i / 4)); lia).
    rewrite <- D3. f_equal. unfold key_byte.
    replace ((4 * (i / 4) + k mod 4) / 4) with (i / 4) by (apply (Z.div_unique _ _ _ (k mod 4)); lia).
    replace ((4 * (i / 4) + k mod 4) / 16) with (i / 16); [reflexivity|].
    change 16 with (4 * 4). rewrite <- !Z.div_div by lia. f_equal.
    apply (Z.div_unique _ _ _ (k mod 4)); lia.
Qed.
