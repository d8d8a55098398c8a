(** * The bit shuffling of poly.c: a group of bytes against a group of coefficients *)

From Coq Require Import ZArith List Bool Lia ZifyBool.
From Verif Require Import CSem ModelArith Spec202 Spec203 CSemFacts ProofScalar ProofBits.
Import ListNotations.
Open Scope Z_scope.
Ltac Zify.zify_post_hook ::= Z.to_euclidean_division_equations.

(** ** Bits of machine expressions *)

Lemma u8_bits x j : 0 <= j < 8 -> Z.testbit (u8 x) j = Z.testbit x j.
Proof. intros; unfold u8. apply (Z.mod_pow2_bits_low x 8 j). lia. Qed.
Lemma u16_bits x j : 0 <= j < 16 -> Z.testbit (u16 x) j = Z.testbit x j.
Proof. intros; unfold u16. apply (Z.mod_pow2_bits_low x 16 j). lia. Qed.
Lemma u32_bits x j : 0 <= j < 32 -> Z.testbit (u32 x) j = Z.testbit x j.
Proof. intros; unfold u32. apply (Z.mod_pow2_bits_low x 32 j). lia. Qed.

Ltac bits_norm :=
  repeat match goal with
  | |- context [Z.testbit ?x (?a + ?b)] =>
      let c := eval compute in (a + b) in change (Z.testbit x (a + b)) with (Z.testbit x c)
  | |- context [Z.testbit ?x (?a - ?b)] =>
      let c := eval compute in (a - b) in change (Z.testbit x (a - b)) with (Z.testbit x c)
  end.
(** ** Encoding chunks *)

Definition enc_chunk (d w : Z) (g : Z -> Z) : list Z :=
  map (fun c => val_of 8 (fun b => Z.testbit (g ((8 * c + b) / d)) ((8 * c + b) mod d))) (range w).
Definition dec_chunk (d e : Z) (g : Z -> Z) : list Z :=
  map (fun c => val_of d (fun b => Z.testbit (g ((c * d + b) / 8)) ((c * d + b) mod 8))) (range e).

Lemma ByteEncode_enc d e w m F : 0 < d -> 0 < w -> 0 < e -> 0 <= m ->
  e * d = 8 * w -> zlen F = e * m ->
  ByteEncode d F = flat_map (fun i => enc_chunk d w (fun x => zget 0 F (e * i + x))) (range m).
Proof. intros. now apply ByteEncode_chunks. Qed.
Lemma fields_dec d e w m B : 0 < d -> 0 < w -> 0 < e -> 0 <= m ->
  e * d = 8 * w -> e * m = 256 -> zlen B = w * m ->
  fields d B = flat_map (fun i => dec_chunk d e (fun x => zget 0 B (w * i + x))) (range m).
Proof. intros. now apply fields_chunks. Qed.
Lemma zlen_enc_chunk d w g : 0 <= w -> zlen (enc_chunk d w g) = w.
Proof. intros; unfold enc_chunk; now rewrite zlen_map, zlen_range. Qed.
Lemma zlen_dec_chunk d e g : 0 <= e -> zlen (dec_chunk d e g) = e.
Proof. intros; unfold dec_chunk; now rewrite zlen_map, zlen_range. Qed.

Lemma range_2 : range 2 = [0; 1]. Proof. reflexivity. Qed.
Lemma range_3 : range 3 = [0; 1; 2]. Proof. reflexivity. Qed.
Lemma range_4 : range 4 = [0; 1; 2; 3]. Proof. reflexivity. Qed.
Lemma range_5 : range 5 = [0; 1; 2; 3; 4]. Proof. reflexivity. Qed.
Lemma range_8 : range 8 = [0; 1; 2; 3; 4; 5; 6; 7]. Proof. reflexivity. Qed.
Lemma range_11 : range 11 = [0; 1; 2; 3; 4; 5; 6; 7; 8; 9; 10]. Proof. reflexivity. Qed.

Lemma below_8 j : 0 <= j < 8 ->
  j = 0 \/ j = 1 \/ j = 2 \/ j = 3 \/ j = 4 \/ j = 5 \/ j = 6 \/ j = 7.
Proof. lia. Qed.
Lemma below_12 j : 0 <= j < 12 ->
  j = 0 \/ j = 1 \/ j = 2 \/ j = 3 \/ j = 4 \/ j = 5 \/ j = 6 \/ j = 7 \/ j = 8 \/ j = 9
  \/ j = 10 \/ j = 11.
Proof. lia. Qed.

Lemma u8_range x : 0 <= u8 x < 256. Proof. unfold u8; lia. Qed.

(** Normalise [g (a / b)] and [(a mod b)] for closed a, b. *)
Ltac closed_norm :=
  repeat match goal with
  | |- context [(?a) / (?b)] =>
      let c := eval compute in (a / b) in
      match c with Z0 => idtac | Zpos _ => idtac end; change (a / b) with c
  | |- context [(?a) mod (?b)] =>
      let c := eval compute in (a mod b) in
      match c with Z0 => idtac | Zpos _ => idtac end; change (a mod b) with c
  end.

Ltac kill_high Hg d :=
  repeat match goal with
  | |- context [Z.testbit (?g ?i) ?k] =>
      rewrite (testbit_high (g i) d k (Hg i ltac:(lia)) ltac:(lia))
  end.
Ltac bits_simp1 :=
  repeat first [ rewrite Z.lor_spec | rewrite Z.land_spec | rewrite Z.lxor_spec
               | rewrite Z.shiftr_spec by lia | rewrite Z.shiftl_spec by lia
               | rewrite u8_bits by lia | rewrite u16_bits by lia | rewrite u32_bits by lia ];
  bits_norm;
  repeat match goal with
  | |- context [Z.testbit ?x ?k] =>
      match x with
      | Zpos _ => let c := eval compute in (Z.testbit x k) in change (Z.testbit x k) with c
      | Z0 => rewrite (Z.testbit_0_l k)
      | _ => match k with Zneg _ => rewrite (Z.testbit_neg_r x k) by lia end
      end
  end.
Ltac bool_done :=
  rewrite ?andb_true_r, ?andb_true_l, ?andb_false_r, ?andb_false_l,
    ?orb_false_r, ?orb_false_l; reflexivity.
(** One encoded byte *)
Ltac enc_byte Hg d :=
  symmetry; apply val_of_unique; [lia | apply u8_range | ];
  let j := fresh "j" in let Hj := fresh "Hj" in
  intros j Hj; apply below_8 in Hj;
  repeat (destruct Hj as [Hj|Hj]); subst j; closed_norm; bits_simp1;
  kill_high Hg d; bool_done.

Lemma enc_chunk_12 g : (forall i, 0 <= i < 2 -> 0 <= g i < 2 ^ 12) ->
  enc_chunk 12 3 g =
  [u8 (g 0 .& 255); u8 ((g 0 >> 8) .| ((g 1 << 4) .& 240)); u8 (g 1 >> 4)].
Proof.
  intros Hg. unfold enc_chunk. rewrite range_3. cbn [map].
  f_equal; [enc_byte Hg 12|]. f_equal; [enc_byte Hg 12|]. f_equal; enc_byte Hg 12.
Qed.

Ltac enc_bytes Hg d :=
  cbn [map]; repeat (apply f_equal2; [enc_byte Hg d|]); reflexivity.

Lemma enc_chunk_11 g : (forall i, 0 <= i < 8 -> 0 <= g i < 2 ^ 11) ->
  enc_chunk 11 11 g =
  [u8 ((g 0 >> 0) .& 255); u8 ((g 0 >> 8) .| ((g 1 << 3) .& 255));
   u8 ((g 1 >> 5) .| ((g 2 << 6) .& 255)); u8 ((g 2 >> 2) .& 255);
   u8 ((g 2 >> 10) .| ((g 3 << 1) .& 255)); u8 ((g 3 >> 7) .| ((g 4 << 4) .& 255));
   u8 ((g 4 >> 4) .| ((g 5 << 7) .& 255)); u8 ((g 5 >> 1) .& 255);
   u8 ((g 5 >> 9) .| ((g 6 << 2) .& 255)); u8 ((g 6 >> 6) .| ((g 7 << 5) .& 255));
   u8 (g 7 >> 3)].
Proof. intros Hg. unfold enc_chunk. rewrite range_11. enc_bytes Hg 11. Qed.

Lemma enc_chunk_10 g : (forall i, 0 <= i < 4 -> 0 <= g i < 2 ^ 10) ->
  enc_chunk 10 5 g =
  [u8 ((g 0 >> 0) .& 255); u8 ((g 0 >> 8) .| ((g 1 << 2) .& 255));
   u8 ((g 1 >> 6) .| ((g 2 << 4) .& 255)); u8 ((g 2 >> 4) .| ((g 3 << 6) .& 255));
   u8 (g 3 >> 2)].
Proof. intros Hg. unfold enc_chunk. rewrite range_5. enc_bytes Hg 10. Qed.

Lemma enc_chunk_5 g : (forall i, 0 <= i < 8 -> 0 <= g i < 2 ^ 5) ->
  enc_chunk 5 5 g =
  [u8 (255 .& ((g 0 >> 0) .| (g 1 << 5)));
   u8 (255 .& ((g 1 >> 3) .| (g 2 << 2) .| (g 3 << 7)));
   u8 (255 .& ((g 3 >> 1) .| (g 4 << 4)));
   u8 (255 .& ((g 4 >> 4) .| (g 5 << 1) .| (g 6 << 6)));
   u8 (255 .& ((g 6 >> 2) .| (g 7 << 3)))].
Proof. intros Hg. unfold enc_chunk. rewrite range_5. enc_bytes Hg 5. Qed.

Lemma enc_chunk_4 g : (forall i, 0 <= i < 8 -> 0 <= g i < 2 ^ 4) ->
  enc_chunk 4 4 g =
  [u8 (g 0 .| (g 1 << 4)); u8 (g 2 .| (g 3 << 4)); u8 (g 4 .| (g 5 << 4));
   u8 (g 6 .| (g 7 << 4))].
Proof. intros Hg. unfold enc_chunk. rewrite range_4. enc_bytes Hg 4. Qed.

(** ** Decoding chunks *)

Lemma land_range a d x : 0 <= d -> a = 2 ^ d - 1 -> 0 <= Z.land a x < 2 ^ d.
Proof.
  intros Hd ->. rewrite Z.land_comm, land_mod by auto. apply Z.mod_pos_bound.
  apply Z.pow_pos_nonneg; lia.
Qed.

(** One decoded field of d bits *)
Ltac dec_field Hg :=
  symmetry; apply val_of_unique; [lia | | ];
  [ | let j := fresh "j" in let Hj := fresh "Hj" in let Hc := fresh "Hc" in
      intros j Hj; assert (Hc := below_12 j ltac:(lia));
      repeat (destruct Hc as [Hc|Hc]); subst j; try (exfalso; lia);
      clear Hj; closed_norm; bits_simp1; kill_high Hg 8; bool_done ].
Ltac dec_fields Hg tac :=
  cbn [map]; repeat (apply f_equal2; [dec_field Hg; tac|]); reflexivity.

Lemma dec_chunk_12 g : (forall i, 0 <= i < 3 -> 0 <= g i < 2 ^ 8) ->
  dec_chunk 12 2 g = [g 0 .| ((g 1 << 8) .& 4095); (g 1 >> 4) .| (g 2 << 4)].
Proof.
  intros Hg. unfold dec_chunk. rewrite range_2.
  assert (H0 := Hg 0 ltac:(lia)). assert (H1 := Hg 1 ltac:(lia)). assert (H2 := Hg 2 ltac:(lia)).
  cbn [map]. apply f_equal2; [|apply f_equal2; [|reflexivity]].
  - dec_field Hg. apply lor_range; [lia|cbn in *; lia|].
    rewrite Z.land_comm. apply land_range; lia.
  - dec_field Hg. rewrite shr_div, shl_mul by lia. apply lor_range; cbn in *; lia.
Qed.

Lemma u16_land_range m d x : 0 <= d <= 16 -> m = 2 ^ d - 1 -> 0 <= u16 (m .& x) < 2 ^ d.
Proof.
  intros Hd E. pose proof (land_range m d x ltac:(lia) E).
  pose proof (Z.pow_le_mono_r 2 d 16 ltac:(lia) ltac:(lia)) as P. change (2 ^ 16) with 65536 in P.
  rewrite u16_small; lia.
Qed.
Lemma u8_land_range m d x : 0 <= d <= 8 -> m = 2 ^ d - 1 -> 0 <= u8 (m .& x) < 2 ^ d.
Proof.
  intros Hd E. pose proof (land_range m d x ltac:(lia) E).
  pose proof (Z.pow_le_mono_r 2 d 8 ltac:(lia) ltac:(lia)) as P. change (2 ^ 8) with 256 in P.
  rewrite u8_small; lia.
Qed.
Ltac land_tac d := first [apply u16_land_range | apply u8_land_range]; [lia|reflexivity].

Lemma dec_chunk_11 g : (forall i, 0 <= i < 11 -> 0 <= g i < 2 ^ 8) ->
  dec_chunk 11 8 g =
  [u16 (2047 .& ((g 0 >> 0) .| (g 1 << 8))); u16 (2047 .& ((g 1 >> 3) .| (g 2 << 5)));
   u16 (2047 .& ((g 2 >> 6) .| (g 3 << 2) .| (g 4 << 10)));
   u16 (2047 .& ((g 4 >> 1) .| (g 5 << 7))); u16 (2047 .& ((g 5 >> 4) .| (g 6 << 4)));
   u16 (2047 .& ((g 6 >> 7) .| (g 7 << 1) .| (g 8 << 9)));
   u16 (2047 .& ((g 8 >> 2) .| (g 9 << 6))); u16 (2047 .& ((g 9 >> 5) .| (g 10 << 3)))].
Proof. intros Hg. unfold dec_chunk. rewrite range_8. dec_fields Hg ltac:(land_tac 11). Qed.

Lemma dec_chunk_10 g : (forall i, 0 <= i < 5 -> 0 <= g i < 2 ^ 8) ->
  dec_chunk 10 4 g =
  [u16 (1023 .& ((g 0 >> 0) .| (g 1 << 8))); u16 (1023 .& ((g 1 >> 2) .| (g 2 << 6)));
   u16 (1023 .& ((g 2 >> 4) .| (g 3 << 4))); u16 (1023 .& ((g 3 >> 6) .| (g 4 << 2)))].
Proof. intros Hg. unfold dec_chunk. rewrite range_4. dec_fields Hg ltac:(land_tac 10). Qed.

Lemma dec_chunk_5 g : (forall i, 0 <= i < 5 -> 0 <= g i < 2 ^ 8) ->
  dec_chunk 5 8 g =
  [u8 (31 .& (g 0 >> 0)); u8 (31 .& ((g 0 >> 5) .| (g 1 << 3))); u8 (31 .& (g 1 >> 2));
   u8 (31 .& ((g 1 >> 7) .| (g 2 << 1))); u8 (31 .& ((g 2 >> 4) .| (g 3 << 4)));
   u8 (31 .& (g 3 >> 1)); u8 (31 .& ((g 3 >> 6) .| (g 4 << 2))); u8 (31 .& (g 4 >> 3))].
Proof. intros Hg. unfold dec_chunk. rewrite range_8. dec_fields Hg ltac:(land_tac 5). Qed.

Lemma dec_chunk_4 g : (forall i, 0 <= i < 1 -> 0 <= g i < 2 ^ 8) ->
  dec_chunk 4 2 g = [(g 0 >> 0) .& 15; (g 0 >> 4) .& 15].
Proof.
  intros Hg. unfold dec_chunk. rewrite range_2. cbn [map].
  apply f_equal2; [|apply f_equal2; [|reflexivity]];
    (dec_field Hg; rewrite Z.land_comm; apply land_range; lia).
Qed.

