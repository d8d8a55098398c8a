(** * Proofs about serialisation and compression of polynomials (poly.c, polyvec.c) *)

From Coq Require Import ZArith List Bool Lia ZifyBool.
From Verif Require Import CSem ModelArith Spec202 Spec203 SpecLink CSemFacts ProofScalar ProofBits
  ProofChunk.
Import ListNotations.
Open Scope Z_scope.
Ltac Zify.zify_post_hook ::= Z.to_euclidean_division_equations.

(** ** Stepping through straight-line code on arrays *)

Ltac zl := rewrite ?zlen_app, ?zlen_cons, ?(@zlen_nil Z); lia.
Tactic Notation "explode" integer(n) ident(mid) hyp(H) :=
  do n (destruct mid as [|? mid];
        [exfalso; rewrite ?zlen_cons, (@zlen_nil Z) in H; lia|]);
  destruct mid as [|? mid];
  [clear H
  | exfalso; rewrite !zlen_cons in H; pose proof (zlen_nonneg mid); lia];
  cbn [app].
Ltac wstep :=
  lazymatch goal with
  | |- wpn _ (bind _ _) _ => apply wp_bind
  | |- wpn _ (ret _) _ => apply wp_ret
  | |- wpn _ (aget (_ ++ _ :: _) _) _ => apply wp_aget_app; [zl|]
  | |- wpn _ (aget _ _) _ => apply (wp_aget 0); [lia|]
  | |- wpn _ (aset (_ ++ _ :: _) _ _) _ => apply wp_aset_app; [zl|]
  | |- wpn _ (let x := ?a in @?f x) _ => change (wpn _ (f a) _); cbv beta
  end.
Ltac wgo := repeat wstep.

Lemma skipn_all_z {A} (l : list A) m : zlen l <= m -> skipn (Z.to_nat m) l = [].
Proof. intros; apply skipn_all2. unfold zlen in *; lia. Qed.

Lemma coef_range b l i : ubounded b l -> 0 <= i < zlen l -> 0 <= zget 0 l i < b.
Proof. intros H Hi. unfold ubounded in H. rewrite (Forall_zget _ 0) in H. now apply H. Qed.
Lemma coef_bound b l i : bounded b l -> 0 <= i < zlen l -> - b < zget 0 l i < b.
Proof. intros H Hi. unfold bounded in H. rewrite (Forall_zget _ 0) in H. now apply H. Qed.
Lemma byte_range l i : bytes l -> 0 <= i < zlen l -> 0 <= zget 0 l i < 256.
Proof. intros H Hi. unfold bytes in H. rewrite (Forall_zget _ 0) in H. now apply H. Qed.

Lemma wp_aget_map {A} N (f : Z -> A) m i (Q : A -> Prop) : 0 <= i < m -> Q (f i) ->
  wpn N (aget (map f (range m)) i) Q.
Proof.
  intros Hi HQ. apply (wp_aget (f 0)); [rewrite zlen_map, zlen_range; lia|].
  now rewrite zget_map_range by lia.
Qed.

(** A counted loop that fills a segment of an array. *)
Lemma wp_for_fill_at {A} N (f : Z -> A) nn body (pre mid rest : list A) (Q : list A -> Prop) :
  zlen mid = nn ->
  (forall i pre' x rest', 0 <= i < nn -> zlen pre' = zlen pre + i ->
     wpn N (body i (pre' ++ x :: rest')) (fun r => r = pre' ++ f i :: rest')) ->
  Q (pre ++ map f (range nn) ++ rest) ->
  wpn N (for_up 0 nn 1 body (pre ++ mid ++ rest)) Q.
Proof.
  intros Hm HB HQ. pose proof (zlen_nonneg mid).
  apply (wp_for N (fun i r => r = (pre ++ map f (range i)) ++ skipn (Z.to_nat i) mid ++ rest)).
  - lia.
  - rewrite range_0. cbn [map]. now rewrite app_nil_r.
  - intros i r Hi ->. destruct mid as [|x0 mid0]; [rewrite zlen_nil in Hm; lia|].
    rewrite (skipn_zget x0) by lia. cbn [app]. eapply wp_mono.
    + apply HB; auto. rewrite zlen_app, zlen_map, zlen_range; lia.
    + cbn. intros r ->. rewrite range_S by lia. rewrite map_app. cbn [map].
      rewrite <- !app_assoc. reflexivity.
  - intros r ->. rewrite skipn_all_z, app_nil_l, <- app_assoc by lia. exact HQ.
Qed.

Lemma wp_poly_tobytes N r a (Q : list Z -> Prop) : zlen r = 384 -> zlen a = 256 ->
  ubounded 3329 a -> Q (ByteEncode 12 a) -> wpn N (poly_tobytes r a) Q.
Proof.
  intros Hr Ha Hb HQ. unfold poly_tobytes. wstep. apply wp_POLY_UBOUND; [exact Hb|].
  apply (wp_for_chunks N (fun i => enc_chunk 12 3 (fun x => zget 0 a (2 * i + x))) 3 128);
    try lia; [intros; now apply zlen_enc_chunk| |].
  - intros i pre mid rest Hi Hp Hm. explode 3 mid Hm. wgo.
    assert (R : forall x, 0 <= x < 2 -> 0 <= zget 0 a (2 * i + x) < 3329)
      by (intros; apply coef_range; auto; lia).
    rewrite enc_chunk_12.
    2:{ intros x Hx. specialize (R x Hx). change (2 ^ 12) with 4096; lia. }
    rewrite Z.add_0_r. pose proof (R 0 ltac:(lia)) as R0. pose proof (R 1 ltac:(lia)) as R1.
    rewrite Z.add_0_r in R0.
    rewrite !u16_small by lia. now rewrite <- !app_assoc.
  - rewrite <- ByteEncode_enc with (e := 2) by lia.
    rewrite skipn_all_z, app_nil_r by lia. exact HQ.
Qed.

Lemma wp_poly_frombytes N r a (Q : list Z -> Prop) : zlen r = 256 -> zlen a = 384 ->
  bytes a -> Q (fields 12 a) -> wpn N (poly_frombytes r a) Q.
Proof.
  intros Hr Ha Hb HQ. unfold poly_frombytes. wstep.
  apply (wp_for_chunks N (fun i => dec_chunk 12 2 (fun x => zget 0 a (3 * i + x))) 2 128);
    try lia; [intros; now apply zlen_dec_chunk| |].
  - intros i pre mid rest Hi Hp Hm. explode 2 mid Hm.
    assert (R : forall x, 0 <= x < 3 -> 0 <= zget 0 a (3 * i + x) < 2 ^ 8)
      by (intros; apply byte_range; auto; lia).
    pose proof (dec_chunk_12 _ R) as E.
    pose proof (val_of_range 12) as V.
    wgo. apply wp_i16.
    { apply (f_equal (fun l => nth 0 l 0)) in E. cbn [nth] in E.
      unfold dec_chunk in E. rewrite range_2 in E. cbn [map nth] in E. rewrite <- E.
      specialize (V (fun b => Z.testbit (zget 0 a (3 * i + (0 * 12 + b) / 8)) ((0 * 12 + b) mod 8))
                    ltac:(lia)). change (2 ^ 12) with 4096 in V. lia. }
    wgo. apply wp_i16.
    { apply (f_equal (fun l => nth 1 l 0)) in E. cbn [nth] in E.
      unfold dec_chunk in E. rewrite range_2 in E. cbn [map nth] in E. rewrite <- E.
      specialize (V (fun b => Z.testbit (zget 0 a (3 * i + (1 * 12 + b) / 8)) ((1 * 12 + b) mod 8))
                    ltac:(lia)). change (2 ^ 12) with 4096 in V. lia. }
    wgo. rewrite E. now rewrite <- !app_assoc.
  - rewrite <- fields_dec by lia.
    rewrite skipn_all_z, app_nil_r by lia.
    wstep. apply wp_POLY_UBOUND.
    + apply (fields_range 12); lia.
    + wgo. exact HQ.
Qed.

(** ** Compression *)

Lemma Compress_map_chunk d e w m a : 0 < d -> 0 < w -> 0 < e -> 0 <= m ->
  e * d = 8 * w -> zlen a = e * m ->
  ByteEncode d (map (Compress d) a)
  = flat_map (fun i => enc_chunk d w (fun x => zget 0 (map (Compress d) a) (e * i + x))) (range m).
Proof. intros. apply ByteEncode_enc; auto. now rewrite zlen_map. Qed.

Notation du_ p := (du (set_of p)).
Notation dv_ p := (dv (set_of p)).
Lemma du_pos p : MLKEM_POLYCOMPRESSEDBYTES_DU p = 32 * du_ p.
Proof. now destruct p. Qed.
Lemma k_set p : k (set_of p) = MLKEM_K p.
Proof. now destruct p. Qed.

Lemma zget_Compress d a i : 0 <= i < zlen a ->
  zget 0 (map (Compress d) a) i = Compress d (zget 0 a i).
Proof. intros. now apply zget_map. Qed.

Ltac t_loop f :=
  wstep; apply (wp_for_fill _ f);
  [ rewrite ?zlen_uninit, ?zlen_repeat; lia | | ].

Lemma wp_compress_du_11 N J r a (Q : list Z -> Prop) : zlen r = 352 -> zlen a = 256 ->
  ubounded 3329 a -> Q (ByteEncode 11 (map (Compress 11) a)) ->
  wpn N (poly_compress_du J MLKEM1024 r a) Q.
Proof.
  intros Hr Ha Hb HQ. unfold poly_compress_du.
  set (F := map (Compress 11) a).
  apply (wp_for_chunks N (fun i => enc_chunk 11 11 (fun x => zget 0 F (8 * i + x))) 11 32);
    try lia; [intros; now apply zlen_enc_chunk| |].
  - intros i pre mid rest Hi Hp Hm. explode 11 mid Hm.
    t_loop (fun x => zget 0 F (8 * i + x)).
    + intros j pre' x rest' Hj Hp'. wgo.
      rewrite (u16_small (zget 0 a _)) by (pose proof (coef_range _ _ (8 * i + j) Hb ltac:(lia)); lia).
      rewrite compress_d11 by (apply coef_range; auto; lia).
      unfold F. rewrite zget_Compress by lia.
      pose proof (Compress_range 11 (zget 0 a (8 * i + j)) ltac:(lia)) as C.
      change (2 ^ 11) with 2048 in C. rewrite u16_small by lia. now rewrite <- app_assoc.
    + rewrite skipn_all_z, app_nil_r by (rewrite zlen_uninit; lia).
      do 8 (wstep; apply wp_aget_map; [lia|]). wgo.
      rewrite enc_chunk_11.
      2:{ intros x Hx. unfold F. rewrite zget_Compress by lia. apply Compress_range; lia. }
      now rewrite <- !app_assoc.
  - subst F. rewrite <- Compress_map_chunk by lia.
    rewrite skipn_all_z, app_nil_r by lia. exact HQ.
Qed.

Lemma wp_compress_du_10 N J p r a (Q : list Z -> Prop) : p <> MLKEM1024 ->
  zlen r = 320 -> zlen a = 256 ->
  ubounded 3329 a -> Q (ByteEncode 10 (map (Compress 10) a)) ->
  wpn N (poly_compress_du J p r a) Q.
Proof.
  intros Hp1 Hr Ha Hb HQ.
  assert (E : poly_compress_du J p r a = poly_compress_du J MLKEM512 r a)
    by (destruct p; [reflexivity|reflexivity|congruence]).
  rewrite E; clear E. unfold poly_compress_du.
  set (F := map (Compress 10) a).
  apply (wp_for_chunks N (fun i => enc_chunk 10 5 (fun x => zget 0 F (4 * i + x))) 5 64);
    try lia; [intros; now apply zlen_enc_chunk| |].
  - intros i pre mid rest Hi Hp Hm. explode 5 mid Hm.
    t_loop (fun x => zget 0 F (4 * i + x)).
    + intros j pre' x rest' Hj Hp'. wgo.
      rewrite (u16_small (zget 0 a _)) by (pose proof (coef_range _ _ (4 * i + j) Hb ltac:(lia)); lia).
      rewrite compress_d10 by (apply coef_range; auto; lia).
      unfold F. rewrite zget_Compress by lia.
      pose proof (Compress_range 10 (zget 0 a (4 * i + j)) ltac:(lia)) as C.
      change (2 ^ 10) with 1024 in C. rewrite u16_small by lia. now rewrite <- app_assoc.
    + rewrite skipn_all_z, app_nil_r by (rewrite zlen_uninit; lia).
      do 4 (wstep; apply wp_aget_map; [lia|]). wgo.
      rewrite enc_chunk_10.
      2:{ intros x Hx. unfold F. rewrite zget_Compress by lia. apply Compress_range; lia. }
      now rewrite <- !app_assoc.
  - subst F. rewrite <- Compress_map_chunk by lia.
    rewrite skipn_all_z, app_nil_r by lia. exact HQ.
Qed.

Lemma wp_poly_compress_du N J p r a (Q : list Z -> Prop) :
  zlen r = 32 * du_ p -> zlen a = 256 ->
  ubounded 3329 a -> Q (ByteEncode (du_ p) (map (Compress (du_ p)) a)) ->
  wpn N (poly_compress_du J p r a) Q.
Proof.
  intros. destruct p; [apply wp_compress_du_10|apply wp_compress_du_10|apply wp_compress_du_11];
    auto; congruence.
Qed.

Lemma wp_compress_dv_5 N r a (Q : list Z -> Prop) : zlen r = 160 -> zlen a = 256 ->
  ubounded 3329 a -> Q (ByteEncode 5 (map (Compress 5) a)) ->
  wpn N (poly_compress_dv MLKEM1024 r a) Q.
Proof.
  intros Hr Ha Hb HQ. unfold poly_compress_dv. wstep. apply wp_POLY_UBOUND; [exact Hb|].
  set (F := map (Compress 5) a).
  apply (wp_for_chunks N (fun i => enc_chunk 5 5 (fun x => zget 0 F (8 * i + x))) 5 32);
    try lia; [intros; now apply zlen_enc_chunk| |].
  - intros i pre mid rest Hi Hp Hm. explode 5 mid Hm.
    t_loop (fun x => zget 0 F (8 * i + x)).
    + intros j pre' x rest' Hj Hp'. wgo.
      rewrite (u16_small (zget 0 a _)) by (pose proof (coef_range _ _ (8 * i + j) Hb ltac:(lia)); lia).
      rewrite compress_d5 by (apply coef_range; auto; lia).
      unfold F. rewrite zget_Compress by lia.
      pose proof (Compress_range 5 (zget 0 a (8 * i + j)) ltac:(lia)) as C.
      change (2 ^ 5) with 32 in C. rewrite u8_small by lia. now rewrite <- app_assoc.
    + rewrite skipn_all_z, app_nil_r by (rewrite zlen_repeat; lia).
      do 8 (wstep; apply wp_aget_map; [lia|]). wgo.
      rewrite enc_chunk_5.
      2:{ intros x Hx. unfold F. rewrite zget_Compress by lia. apply Compress_range; lia. }
      now rewrite <- !app_assoc.
  - subst F. rewrite <- Compress_map_chunk by lia.
    rewrite skipn_all_z, app_nil_r by lia. exact HQ.
Qed.

Lemma wp_compress_dv_4 N p r a (Q : list Z -> Prop) : p <> MLKEM1024 ->
  zlen r = 128 -> zlen a = 256 ->
  ubounded 3329 a -> Q (ByteEncode 4 (map (Compress 4) a)) ->
  wpn N (poly_compress_dv p r a) Q.
Proof.
  intros Hp1 Hr Ha Hb HQ.
  assert (E : poly_compress_dv p r a = poly_compress_dv MLKEM512 r a)
    by (destruct p; [reflexivity|reflexivity|congruence]).
  rewrite E; clear E. unfold poly_compress_dv. wstep. apply wp_POLY_UBOUND; [exact Hb|].
  set (F := map (Compress 4) a).
  apply (wp_for_chunks N (fun i => enc_chunk 4 4 (fun x => zget 0 F (8 * i + x))) 4 32);
    try lia; [intros; now apply zlen_enc_chunk| |].
  - intros i pre mid rest Hi Hp Hm. explode 4 mid Hm.
    t_loop (fun x => zget 0 F (8 * i + x)).
    + intros j pre' x rest' Hj Hp'. wgo.
      rewrite (u16_small (zget 0 a _)) by (pose proof (coef_range _ _ (8 * i + j) Hb ltac:(lia)); lia).
      rewrite compress_d4 by (apply coef_range; auto; lia).
      unfold F. rewrite zget_Compress by lia.
      pose proof (Compress_range 4 (zget 0 a (8 * i + j)) ltac:(lia)) as C.
      change (2 ^ 4) with 16 in C. rewrite u8_small by lia. now rewrite <- app_assoc.
    + rewrite skipn_all_z, app_nil_r by (rewrite zlen_repeat; lia).
      do 8 (wstep; apply wp_aget_map; [lia|]). wgo.
      rewrite enc_chunk_4.
      2:{ intros x Hx. unfold F. rewrite zget_Compress by lia. apply Compress_range; lia. }
      now rewrite <- !app_assoc.
  - subst F. rewrite <- Compress_map_chunk by lia.
    rewrite skipn_all_z, app_nil_r by lia. exact HQ.
Qed.

Lemma wp_poly_compress_dv N p r a (Q : list Z -> Prop) :
  zlen r = 32 * dv_ p -> zlen a = 256 ->
  ubounded 3329 a -> Q (ByteEncode (dv_ p) (map (Compress (dv_ p)) a)) ->
  wpn N (poly_compress_dv p r a) Q.
Proof.
  intros. destruct p; [apply wp_compress_dv_4|apply wp_compress_dv_4|apply wp_compress_dv_5];
    auto; congruence.
Qed.

(** ** Decompression *)

Lemma map_flat_map {A B C} (g : B -> C) (f : A -> list B) l :
  map g (flat_map f l) = flat_map (fun x => map g (f x)) l.
Proof. induction l; cbn; auto. now rewrite map_app, IHl. Qed.

Lemma wp_aset_cons {A} N (x : A) rest v (Q : list A -> Prop) :
  Q ([v] ++ rest) -> wpn N (aset (x :: rest) 0 v) Q.
Proof. intros HQ. apply (wp_aset_app N [] x rest 0 v); auto. Qed.

Lemma zget_dec_chunk d e g c : 0 <= c < e ->
  zget 0 (dec_chunk d e g) c = val_of d (fun b => Z.testbit (g ((c * d + b) / 8)) ((c * d + b) mod 8)).
Proof. intros. unfold dec_chunk. now rewrite zget_map_range by lia. Qed.

Lemma map_zget_chunk (h : Z -> Z) d e g : 0 <= e ->
  map (fun c => h (zget 0 (dec_chunk d e g) c)) (range e) = map h (dec_chunk d e g).
Proof.
  intros. unfold dec_chunk. rewrite map_map. apply map_range_ext. intros c Hc.
  f_equal. now rewrite zget_map_range by lia.
Qed.

Lemma wp_decompress_du_11 N J r a (Q : list Z -> Prop) : zlen r = 256 -> zlen a = 352 ->
  bytes a -> Q (map (Decompress 11) (fields 11 a)) ->
  wpn N (poly_decompress_du J MLKEM1024 r a) Q.
Proof.
  intros Hr Ha Hb HQ. unfold poly_decompress_du.
  set (D := fun i => dec_chunk 11 8 (fun x => zget 0 a (11 * i + x))).
  apply (wp_for_chunks N (fun i => map (Decompress 11) (D i)) 8 32);
    try lia; [intros; unfold D; rewrite zlen_map; now apply zlen_dec_chunk| |].
  - intros i pre mid rest Hi Hp Hm. do 22 wstep.
    pose proof (zlen_uninit (sub J i) 0 8 ltac:(lia)) as Ht. revert Ht.
    generalize (uninit (sub J i) 0 8) as t; intros t Ht. explode 8 t Ht.
    wstep. apply wp_aset_cons. do 14 wstep.
    match goal with |- wpn _ (for_up _ _ _ (fun k r => bind (aget ?t k) _) _) _ =>
      replace t with (D i) end.
    2:{ unfold D. rewrite dec_chunk_11; [reflexivity|].
        intros; apply byte_range; auto; lia. }
    apply (wp_for_fill_at N (fun c => Decompress 11 (zget 0 (D i) c)));
      [exact Hm| |unfold D; now rewrite map_zget_chunk by lia].
    intros c pre' x rest' Hc Hp'. wstep. apply (wp_aget 0).
    { unfold D. rewrite zlen_dec_chunk; lia. }
    assert (R : 0 <= zget 0 (D i) c < 2048)
      by (unfold D; rewrite zget_dec_chunk by lia; apply (val_of_range 11); lia).
    wstep. apply wp_decompress_d11; auto.
    pose proof (Decompress_range 11 _ ltac:(lia) R). wstep. apply wp_i16; [lia|].
    wgo. now rewrite <- app_assoc.
  - unfold D. rewrite <- map_flat_map. rewrite <- fields_dec by lia.
    rewrite skipn_all_z, app_nil_r by lia. exact HQ.
Qed.

Lemma wp_decompress_du_10 N J p r a (Q : list Z -> Prop) : p <> MLKEM1024 ->
  zlen r = 256 -> zlen a = 320 ->
  bytes a -> Q (map (Decompress 10) (fields 10 a)) ->
  wpn N (poly_decompress_du J p r a) Q.
Proof.
  intros Hp1 Hr Ha Hb HQ.
  assert (E : poly_decompress_du J p r a = poly_decompress_du J MLKEM512 r a)
    by (destruct p; [reflexivity|reflexivity|congruence]).
  rewrite E; clear E. unfold poly_decompress_du.
  set (D := fun i => dec_chunk 10 4 (fun x => zget 0 a (5 * i + x))).
  apply (wp_for_chunks N (fun i => map (Decompress 10) (D i)) 4 64);
    try lia; [intros; unfold D; rewrite zlen_map; now apply zlen_dec_chunk| |].
  - intros i pre mid rest Hi Hp Hm. do 10 wstep.
    pose proof (zlen_uninit (sub J i) 0 4 ltac:(lia)) as Ht. revert Ht.
    generalize (uninit (sub J i) 0 4) as t; intros t Ht. explode 4 t Ht.
    wstep. apply wp_aset_cons. do 6 wstep.
    match goal with |- wpn _ (for_up _ _ _ (fun k r => bind (aget ?t k) _) _) _ =>
      replace t with (D i) end.
    2:{ unfold D. rewrite dec_chunk_10; [reflexivity|].
        intros; apply byte_range; auto; lia. }
    apply (wp_for_fill_at N (fun c => Decompress 10 (zget 0 (D i) c)));
      [exact Hm| |unfold D; now rewrite map_zget_chunk by lia].
    intros c pre' x rest' Hc Hp'. wstep. apply (wp_aget 0).
    { unfold D. rewrite zlen_dec_chunk; lia. }
    assert (R : 0 <= zget 0 (D i) c < 1024)
      by (unfold D; rewrite zget_dec_chunk by lia; apply (val_of_range 10); lia).
    wstep. apply wp_decompress_d10; auto.
    pose proof (Decompress_range 10 _ ltac:(lia) R). wstep. apply wp_i16; [lia|].
    wgo. now rewrite <- app_assoc.
  - unfold D. rewrite <- map_flat_map. rewrite <- fields_dec by lia.
    rewrite skipn_all_z, app_nil_r by lia. exact HQ.
Qed.

Lemma wp_poly_decompress_du N J p r a (Q : list Z -> Prop) :
  zlen r = 256 -> zlen a = 32 * du_ p ->
  bytes a -> Q (map (Decompress (du_ p)) (fields (du_ p) a)) ->
  wpn N (poly_decompress_du J p r a) Q.
Proof.
  intros. destruct p;
    [apply wp_decompress_du_10|apply wp_decompress_du_10|apply wp_decompress_du_11];
    auto; congruence.
Qed.

Lemma Decompress_fields_range d a : 0 < d <= 12 -> 8 * zlen a = 256 * d ->
  ubounded 3329 (map (Decompress d) (fields d a)).
Proof.
  intros Hd Ha. eapply Forall_map_imp; [apply fields_range; auto; lia|].
  cbn. intros x Hx. apply Decompress_range; auto.
Qed.

Lemma wp_decompress_dv_5 N J r a (Q : list Z -> Prop) : zlen r = 256 -> zlen a = 160 ->
  bytes a -> Q (map (Decompress 5) (fields 5 a)) ->
  wpn N (poly_decompress_dv J MLKEM1024 r a) Q.
Proof.
  intros Hr Ha Hb HQ. unfold poly_decompress_dv. wstep.
  set (D := fun i => dec_chunk 5 8 (fun x => zget 0 a (5 * i + x))).
  apply (wp_for_chunks N (fun i => map (Decompress 5) (D i)) 8 32);
    try lia; [intros; unfold D; rewrite zlen_map; now apply zlen_dec_chunk| |].
  - intros i pre mid rest Hi Hp Hm. rewrite (Z.mul_comm i 5). do 10 wstep.
    pose proof (zlen_uninit (sub J i) 0 8 ltac:(lia)) as Ht. revert Ht.
    generalize (uninit (sub J i) 0 8) as t; intros t Ht. explode 8 t Ht.
    wstep. apply wp_aset_cons. do 14 wstep.
    match goal with |- wpn _ (for_up _ _ _ (fun k r => bind (aget ?t k) _) _) _ =>
      replace t with (D i) end.
    2:{ unfold D. rewrite dec_chunk_5; [reflexivity|].
        intros; apply byte_range; auto; lia. }
    apply (wp_for_fill_at N (fun c => Decompress 5 (zget 0 (D i) c)));
      [exact Hm| |unfold D; now rewrite map_zget_chunk by lia].
    intros c pre' x rest' Hc Hp'. wstep. apply (wp_aget 0).
    { unfold D. rewrite zlen_dec_chunk; lia. }
    assert (R : 0 <= zget 0 (D i) c < 32)
      by (unfold D; rewrite zget_dec_chunk by lia; apply (val_of_range 5); lia).
    wstep. apply wp_decompress_d5; auto.
    pose proof (Decompress_range 5 _ ltac:(lia) R). wstep. apply wp_i16; [lia|].
    wgo. now rewrite <- app_assoc.
  - unfold D. rewrite <- map_flat_map. rewrite <- fields_dec by lia.
    rewrite skipn_all_z, app_nil_r by lia.
    wstep. apply wp_POLY_UBOUND; [apply Decompress_fields_range; lia|]. wgo. exact HQ.
Qed.

Lemma wp_decompress_dv_4 N J p r a (Q : list Z -> Prop) : p <> MLKEM1024 ->
  zlen r = 256 -> zlen a = 128 ->
  bytes a -> Q (map (Decompress 4) (fields 4 a)) ->
  wpn N (poly_decompress_dv J p r a) Q.
Proof.
  intros Hp1 Hr Ha Hb HQ.
  assert (E : poly_decompress_dv J p r a = poly_decompress_dv J MLKEM512 r a)
    by (destruct p; [reflexivity|reflexivity|congruence]).
  rewrite E; clear E. unfold poly_decompress_dv. wstep.
  set (D := fun i => dec_chunk 4 2 (fun x => zget 0 a (1 * i + x))).
  apply (wp_for_chunks N (fun i => map (Decompress 4) (D i)) 2 128);
    try lia; [intros; unfold D; rewrite zlen_map; now apply zlen_dec_chunk| |].
  - intros i pre mid rest Hi Hp Hm. explode 2 mid Hm.
    assert (E : D i = [(zget 0 a i >> 0) .& 15; (zget 0 a i >> 4) .& 15]).
    { unfold D. rewrite dec_chunk_4.
      - now rewrite Z.add_0_r, Z.mul_1_l.
      - intros; apply byte_range; auto; lia. }
    assert (R : forall c, 0 <= c < 2 -> 0 <= zget 0 (D i) c < 16)
      by (intros; unfold D; rewrite zget_dec_chunk by lia; apply (val_of_range 4); lia).
    rewrite E in *. pose proof (R 0 ltac:(lia)) as R0. pose proof (R 1 ltac:(lia)) as R1.
    unfold zget at 1 in R0. unfold zget at 1 in R1. cbn [nth Z.to_nat Pos.to_nat Pos.iter_op] in R0, R1.
    pose proof (Decompress_range 4 _ ltac:(lia) R0). pose proof (Decompress_range 4 _ ltac:(lia) R1).
    wgo. apply wp_decompress_d4; auto. wstep. apply wp_i16; [lia|].
    wgo. apply wp_decompress_d4; auto. wstep. apply wp_i16; [lia|].
    wgo. cbn [map]. now rewrite <- !app_assoc.
  - unfold D. rewrite <- map_flat_map. rewrite <- fields_dec by lia.
    rewrite skipn_all_z, app_nil_r by lia.
    wstep. apply wp_POLY_UBOUND; [apply Decompress_fields_range; lia|]. wgo. exact HQ.
Qed.

Lemma wp_poly_decompress_dv N J p r a (Q : list Z -> Prop) :
  zlen r = 256 -> zlen a = 32 * dv_ p ->
  bytes a -> Q (map (Decompress (dv_ p)) (fields (dv_ p) a)) ->
  wpn N (poly_decompress_dv J p r a) Q.
Proof.
  intros. destruct p;
    [apply wp_decompress_dv_4|apply wp_decompress_dv_4|apply wp_decompress_dv_5];
    auto; congruence.
Qed.

(** ** Messages *)

Lemma land_pow2 m j : 0 <= j -> m .& (1 << j) = if Z.testbit m j then 2 ^ j else 0.
Proof.
  intros Hj. rewrite Z.shiftl_1_l. apply Z.bits_inj'. intros b Hb.
  rewrite Z.land_spec, Z.pow2_bits_eqb by lia.
  destruct (Z.eqb_spec j b) as [->|Hn].
  - destruct (Z.testbit m b) eqn:E; [now rewrite Z.pow2_bits_true|]. now rewrite Z.testbit_0_l.
  - rewrite andb_false_r. destruct (Z.testbit m j);
      [rewrite Z.pow2_bits_false by auto; auto | now rewrite Z.testbit_0_l].
Qed.

Lemma pow2_small j m : 0 <= j < m -> 0 < 2 ^ j < 2 ^ m.
Proof. intros. split; [apply Z.pow_pos_nonneg; lia|]. apply Z.pow_lt_mono_r; lia. Qed.

Lemma val_of_1 f : val_of 1 f = Z.b2z (f 0).
Proof. unfold val_of. change (range 1) with [0]. cbn. destruct (f 0); reflexivity. Qed.

Lemma wp_poly_frommsg N r msg (Q : list Z -> Prop) : zlen r = 256 -> zlen msg = 32 ->
  bytes msg -> Q (map (Decompress 1) (fields 1 msg)) -> wpn N (poly_frommsg r msg) Q.
Proof.
  intros Hr Ha Hb HQ. unfold poly_frommsg. wstep.
  set (D := fun i => dec_chunk 1 8 (fun x => zget 0 msg (1 * i + x))).
  apply (wp_for_chunks N (fun i => map (Decompress 1) (D i)) 8 32);
    try lia; [intros; unfold D; rewrite zlen_map; now apply zlen_dec_chunk| |].
  - intros i pre mid rest Hi Hp Hm.
    apply (wp_for_fill_at N (fun c => Decompress 1 (zget 0 (D i) c)));
      [exact Hm| |unfold D; now rewrite map_zget_chunk by lia].
    intros j pre' x rest' Hj Hp'. wgo.
    rewrite <- app_assoc. cbn [app]. f_equal. f_equal.
    unfold D. rewrite zget_dec_chunk by lia. rewrite val_of_1.
    rewrite Z.mul_1_r, Z.add_0_r, Z.mul_1_l, Z.div_small, Z.add_0_r, Z.mod_small by lia.
    unfold value_barrier. pose proof (pow2_small j 8 ltac:(lia)) as P. change (2 ^ 8) with 256 in P.
    rewrite (u8_small (1 << j)) by (rewrite Z.shiftl_1_l; lia).
    rewrite land_pow2 by lia.
    rewrite sel_int16.
    + destruct (Z.testbit _ _); [|reflexivity].
      rewrite u16_small by lia. destruct (Z.eqb_spec (2 ^ j) 0); [lia|reflexivity].
    + unfold HALF_Q; lia.
    + lia.
    + unfold u16; lia.
  - unfold D. rewrite <- map_flat_map. rewrite <- fields_dec by lia.
    rewrite skipn_all_z, app_nil_r by lia.
    wstep. apply wp_POLY_BOUND.
    + apply ubounded_bounded. apply Decompress_fields_range; lia.
    + wgo. exact HQ.
Qed.

Lemma wp_poly_tomsg N msg a (Q : list Z -> Prop) : zlen msg = 32 -> zlen a = 256 ->
  ubounded 3329 a -> Q (ByteEncode 1 (map (Compress 1) a)) -> wpn N (poly_tomsg msg a) Q.
Proof.
  intros Hr Ha Hb HQ. unfold poly_tomsg. wstep. apply wp_POLY_UBOUND; [exact Hb|].
  set (F := map (Compress 1) a).
  apply (wp_for_chunks N (fun i => enc_chunk 1 1 (fun x => zget 0 F (8 * i + x))) 1 32);
    try lia; [intros; now apply zlen_enc_chunk| |].
  - intros i pre mid rest Hi Hp Hm. explode 1 mid Hm. wgo.
    set (bit b := Z.testbit (zget 0 F (8 * i + b)) 0).
    apply (wp_for N (fun j r => r = pre ++ val_of 8 (fun b => (b <? j) && bit b) :: rest)).
    + lia.
    + rewrite <- app_assoc. cbn [app]. f_equal.
    + intros j r Hj ->. wgo. rewrite <- app_assoc. cbn [app]. f_equal. f_equal.
      rewrite (u16_small (zget 0 a _))
        by (pose proof (coef_range _ _ (8 * i + j) Hb ltac:(lia)); lia).
      rewrite compress_d1 by (apply coef_range; auto; lia).
      rewrite <- (zget_Compress 1) by lia. fold F.
      assert (C : 0 <= zget 0 F (8 * i + j) < 2 ^ 1)
        by (unfold F; rewrite zget_Compress by lia; apply Compress_range; lia).
      apply val_of_unique; [lia|apply u8_range|]. intros b Hb8.
      rewrite u8_bits, Z.lor_spec, u32_bits, Z.shiftl_spec, testbit_val_of by lia.
      replace (b <? 8) with true by lia. cbn [andb].
      destruct (Z.ltb_spec b j) as [Hlt|Hge].
      * rewrite Z.testbit_neg_r by lia. rewrite orb_false_r.
        now replace (b <? j + 1) with true by lia.
      * cbn [andb orb]. destruct (Z.eqb_spec b j) as [->|].
        -- rewrite Z.sub_diag. now replace (j <? j + 1) with true by lia.
        -- replace (b <? j + 1) with false by lia. apply (testbit_high _ 1); auto; lia.
    + intros r ->. unfold enc_chunk. change (range 1) with [0]. cbn [map app].
      f_equal.
  - subst F. rewrite <- Compress_map_chunk by lia.
    rewrite skipn_all_z, app_nil_r by lia. exact HQ.
Qed.

(** ** Vectors *)

(** [k] polynomials of 256 coefficients *)
Definition vec_of (k : Z) (v : list (list Z)) : Prop :=
  zlen v = k /\ Forall (fun l => zlen l = 256) v.

Lemma vec_get k v i : vec_of k v -> 0 <= i < k -> zlen (zget [] v i) = 256.
Proof. intros [Hv Hf] Hi. rewrite (Forall_zget _ []) in Hf. apply Hf. lia. Qed.
Lemma vec_all {P : list Z -> Prop} v i : Forall P v -> 0 <= i < zlen v -> P (zget [] v i).
Proof. intros Hf Hi. rewrite (Forall_zget _ []) in Hf. now apply Hf. Qed.

Lemma concat_map_range {A B} (d : A) (f : A -> list B) v :
  concat (map f v) = flat_map (fun i => f (zget d v i)) (range (zlen v)).
Proof. rewrite flat_map_concat_map. f_equal. apply zmap_get. Qed.

Lemma slice_mid {A} (pre mid rest : list A) o m : zlen pre = o -> zlen mid = m ->
  slice (pre ++ mid ++ rest) o (o + m) = mid.
Proof. intros <- <-. apply slice_app_mid. Qed.

Lemma K_range p : 2 <= MLKEM_K p <= 4.
Proof. destruct p; cbn; lia. Qed.

Lemma wp_polyvec_tobytes N p r a (Q : list Z -> Prop) :
  zlen r = 384 * MLKEM_K p -> vec_of (MLKEM_K p) a -> Forall (ubounded 3329) a ->
  Q (concat (map (ByteEncode 12) a)) -> wpn N (polyvec_tobytes p r a) Q.
Proof.
  intros Hr Ha Hb HQ. pose proof (K_range p) as Hk. destruct Ha as [Hl Hf] eqn:Ea.
  unfold polyvec_tobytes.
  apply (wp_for_chunks N (fun i => ByteEncode 12 (zget [] a i)) 384); try lia.
  - intros i Hi. apply zlen_ByteEncode; [lia|]. rewrite (vec_get _ _ _ Ha Hi). lia.
  - intros i pre mid rest Hi Hp Hm. pose proof (vec_get _ _ _ Ha Hi) as Hz.
    unfold MLKEM_POLYBYTES.
    wstep. apply (wp_aget []); [lia|]. wstep. apply wp_aslice; try lia.
    { rewrite !zlen_app. pose proof (zlen_nonneg rest). lia. }
    rewrite slice_mid by lia.
    wstep. apply wp_poly_tobytes; auto; [apply vec_all; auto; lia|].
    assert (zlen (ByteEncode 12 (zget [] a i)) = 384) by (apply zlen_ByteEncode; lia).
    apply wp_asplice; [lia| |].
    { rewrite !zlen_app. pose proof (zlen_nonneg rest). lia. }
    apply splice_app; lia.
  - rewrite skipn_all_z, app_nil_r by lia. rewrite <- Hl, <- (concat_map_range []). exact HQ.
Qed.

Lemma wp_polyvec_frombytes N p r a (Q : list (list Z) -> Prop) :
  vec_of (MLKEM_K p) r -> 384 * MLKEM_K p <= zlen a -> bytes a ->
  Q (map (fun i => fields 12 (slice a (384 * i) (384 * i + 384))) (range (MLKEM_K p))) ->
  wpn N (polyvec_frombytes p r a) Q.
Proof.
  intros Hr Ha Hb HQ. pose proof (K_range p) as Hk. unfold polyvec_frombytes.
  apply (wp_for_inplace [] N (fun i _ => fields 12 (slice a (384 * i) (384 * i + 384))));
    [apply Hr| |exact HQ].
  intros i pre rest Hi Hp. pose proof (vec_get _ _ _ Hr Hi) as Hz. unfold MLKEM_POLYBYTES.
  wgo. apply wp_aslice; try lia. wstep. rewrite (Z.mul_comm i 384).
  apply wp_poly_frombytes; auto.
  - rewrite zlen_slice by lia. lia.
  - unfold bytes. apply (Forall_zget _ 0). intros x Hx. rewrite zlen_slice in Hx by lia.
    rewrite zget_slice by lia. apply byte_range; auto; lia.
  - apply wp_aset_app; [zl|]. now rewrite <- app_assoc.
Qed.

Lemma wp_polyvec_compress_du N J p r a (Q : list Z -> Prop) :
  zlen r = 32 * du_ p * MLKEM_K p -> vec_of (MLKEM_K p) a -> Forall (ubounded 3329) a ->
  Q (concat (map (fun f => ByteEncode (du_ p) (map (Compress (du_ p)) f)) a)) ->
  wpn N (polyvec_compress_du J p r a) Q.
Proof.
  intros Hr Ha Hb HQ. pose proof (K_range p) as Hk. destruct Ha as [Hl Hf] eqn:Ea.
  assert (Hd : 10 <= du_ p <= 11) by (destruct p; cbn; lia).
  unfold polyvec_compress_du. wstep. apply wp_POLYVEC_UBOUND; [exact Hb|].
  rewrite (du_pos p).
  apply (wp_for_chunks N (fun i => ByteEncode (du_ p) (map (Compress (du_ p)) (zget [] a i)))
           (32 * du_ p)); try lia.
  - intros i Hi. apply zlen_ByteEncode; [lia|]. rewrite zlen_map, (vec_get _ _ _ Ha Hi). lia.
  - intros i pre mid rest Hi Hp Hm. pose proof (vec_get _ _ _ Ha Hi) as Hz.
    wstep. apply (wp_aget []); [lia|]. wstep. apply wp_aslice; try lia.
    { rewrite !zlen_app. pose proof (zlen_nonneg rest). lia. }
    rewrite slice_mid by lia.
    wstep. apply wp_poly_compress_du; auto; [apply vec_all; auto; lia|].
    assert (zlen (ByteEncode (du_ p) (map (Compress (du_ p)) (zget [] a i))) = 32 * du_ p)
      by (apply zlen_ByteEncode; rewrite ?zlen_map; lia).
    apply wp_asplice; [lia| |].
    { rewrite !zlen_app. pose proof (zlen_nonneg rest). lia. }
    apply splice_app; lia.
  - rewrite skipn_all_z, app_nil_r by lia. rewrite <- Hl.
    rewrite <- (concat_map_range [] (fun f => ByteEncode (du_ p) (map (Compress (du_ p)) f))).
    exact HQ.
Qed.

Lemma bytes_slice a x y : bytes a -> 0 <= x <= y -> y <= zlen a -> bytes (slice a x y).
Proof.
  intros. unfold bytes. apply (Forall_zget _ 0). intros i Hi. rewrite zlen_slice in Hi by lia.
  rewrite zget_slice by lia. apply byte_range; auto; lia.
Qed.

Lemma wp_polyvec_decompress_du N J p r a (Q : list (list Z) -> Prop) :
  vec_of (MLKEM_K p) r -> 32 * du_ p * MLKEM_K p <= zlen a -> bytes a ->
  Q (map (fun i => map (Decompress (du_ p))
       (fields (du_ p) (slice a (32 * du_ p * i) (32 * du_ p * i + 32 * du_ p)))) (range (MLKEM_K p))) ->
  wpn N (polyvec_decompress_du J p r a) Q.
Proof.
  intros Hr Ha Hb HQ. pose proof (K_range p) as Hk. unfold polyvec_decompress_du.
  assert (Hd : 10 <= du_ p <= 11) by (destruct p; cbn; lia).
  rewrite (du_pos p). wstep.
  apply (wp_for_inplace [] N (fun i _ => map (Decompress (du_ p))
       (fields (du_ p) (slice a (32 * du_ p * i) (32 * du_ p * i + 32 * du_ p))))).
  - apply Hr.
  - intros i pre rest Hi Hp. pose proof (vec_get _ _ _ Hr Hi) as Hz.
    wgo. apply wp_aslice; try lia; [nia|]. wstep. rewrite (Z.mul_comm i (32 * du_ p)).
    apply wp_poly_decompress_du; auto.
    + rewrite zlen_slice; lia || nia.
    + apply bytes_slice; auto; lia || nia.
    + apply wp_aset_app; [zl|]. now rewrite <- app_assoc.
  - wstep. apply wp_POLYVEC_UBOUND; [|wgo; exact HQ].
    apply Forall_map_range. intros i Hi. apply Decompress_fields_range; [lia|].
    rewrite zlen_slice by nia. lia.
Qed.

(** ** The statements of C17 - C20 *)

Lemma reduced_vec_of p v : reduced_vec (set_of p) v ->
  vec_of (MLKEM_K p) v /\ Forall (ubounded 3329) v.
Proof.
  intros [Hl Hf]. rewrite k_set in Hl. repeat split; auto;
    (eapply Forall_impl; [|exact Hf]); intros f [? ?]; auto.
Qed.

Lemma tobytes_correct r a : zlen r = 384 -> reduced a ->
  val (poly_tobytes r a) = Ok (ByteEncode 12 a).
Proof. intros Hr [Ha Hb]. apply wp_val. now apply wp_poly_tobytes. Qed.
Lemma frombytes_correct r b : zlen r = 256 -> zlen b = 384 -> bytes b ->
  val (poly_frombytes r b) = Ok (fields 12 b).
Proof. intros. apply wp_val. now apply wp_poly_frombytes. Qed.
Lemma frombytes_tobytes r r' a : zlen r = 384 -> zlen r' = 256 -> reduced a ->
  val (b <- poly_tobytes r a ;; poly_frombytes r' b) = Ok a.
Proof.
  intros Hr Hr' [Ha Hb]. unfold n in Ha. apply wp_val. wstep. apply wp_poly_tobytes; auto.
  apply wp_poly_frombytes; auto.
  - apply zlen_ByteEncode; lia.
  - apply (bytes_ByteEncode 12 a 384); lia.
  - apply fields_ByteEncode; auto; [lia|]. apply (ubounded_weaken 3329); [cbn; lia|exact Hb].
Qed.
Lemma ByteEncode12_fields b : zlen b = 384 -> bytes b -> ByteEncode 12 (fields 12 b) = b.
Proof. intros. apply ByteEncode_fields; auto; lia. Qed.
(** poly_tobytes checks in debug builds that its input is reduced, hence the condition;
    the unconditional round trip is the one of the two functions of the standard. *)
Lemma tobytes_frombytes r r' b : zlen r = 256 -> zlen r' = 384 -> zlen b = 384 -> bytes b ->
  reduced (fields 12 b) ->
  val (f <- poly_frombytes r b ;; poly_tobytes r' f) = Ok b.
Proof.
  intros Hr Hr' Hz Hb [Ha Hf]. unfold n in Ha. apply wp_val. wstep. apply wp_poly_frombytes; auto.
  apply wp_poly_tobytes; auto. apply ByteEncode_fields; auto; lia.
Qed.

Lemma polyvec_tobytes_correct p r a : zlen r = 384 * k (set_of p) -> reduced_vec (set_of p) a ->
  val (polyvec_tobytes p r a) = Ok (concat (map (ByteEncode 12) a)).
Proof.
  intros Hr Ha. destruct (reduced_vec_of _ _ Ha). rewrite k_set in Hr.
  apply wp_val. now apply wp_polyvec_tobytes.
Qed.
Lemma polyvec_frombytes_correct p r b :
  zlen r = k (set_of p) -> Forall (fun f => zlen f = 256) r ->
  zlen b = 384 * k (set_of p) -> bytes b ->
  val (polyvec_frombytes p r b)
  = Ok (map (fun i => fields 12 (slice b (384 * i) (384 * i + 384))) (range (k (set_of p)))).
Proof.
  rewrite k_set. intros Hr Hf Hb HB. apply wp_val. apply wp_polyvec_frombytes; auto; [now split|lia].
Qed.

Lemma compress_du_correct J p r a : zlen r = 32 * du (set_of p) -> reduced a ->
  val (poly_compress_du J p r a) = Ok (ByteEncode (du (set_of p)) (map (Compress (du (set_of p))) a)).
Proof. intros Hr [Ha Hb]. apply wp_val. now apply wp_poly_compress_du. Qed.
Lemma compress_dv_correct p r a : zlen r = 32 * dv (set_of p) -> reduced a ->
  val (poly_compress_dv p r a) = Ok (ByteEncode (dv (set_of p)) (map (Compress (dv (set_of p))) a)).
Proof. intros Hr [Ha Hb]. apply wp_val. now apply wp_poly_compress_dv. Qed.
Lemma decompress_du_correct J p r b : zlen r = 256 -> zlen b = 32 * du (set_of p) -> bytes b ->
  val (poly_decompress_du J p r b)
  = Ok (map (Decompress (du (set_of p))) (ByteDecode (du (set_of p)) b)).
Proof.
  intros Hr Hb HB. assert (Hd : 10 <= du_ p <= 11) by (destruct p; cbn; lia).
  apply wp_val. apply wp_poly_decompress_du; auto. now rewrite ByteDecode_fields by lia.
Qed.
Lemma decompress_dv_correct J p r b : zlen r = 256 -> zlen b = 32 * dv (set_of p) -> bytes b ->
  val (poly_decompress_dv J p r b)
  = Ok (map (Decompress (dv (set_of p))) (ByteDecode (dv (set_of p)) b)).
Proof.
  intros Hr Hb HB. assert (Hd : 4 <= dv_ p <= 5) by (destruct p; cbn; lia).
  apply wp_val. apply wp_poly_decompress_dv; auto. now rewrite ByteDecode_fields by lia.
Qed.
Lemma polyvec_compress_du_correct J p r a :
  zlen r = 32 * du (set_of p) * k (set_of p) -> reduced_vec (set_of p) a ->
  val (polyvec_compress_du J p r a)
  = Ok (concat (map (fun f => ByteEncode (du (set_of p)) (map (Compress (du (set_of p))) f)) a)).
Proof.
  intros Hr Ha. destruct (reduced_vec_of _ _ Ha). rewrite k_set in Hr.
  apply wp_val. now apply wp_polyvec_compress_du.
Qed.
Lemma polyvec_decompress_du_correct J p r b :
  zlen r = k (set_of p) -> Forall (fun f => zlen f = 256) r ->
  zlen b = 32 * du (set_of p) * k (set_of p) -> bytes b ->
  val (polyvec_decompress_du J p r b)
  = Ok (map (map (Decompress (du (set_of p)))) (decode_vec (set_of p) (du (set_of p)) b)).
Proof.
  rewrite k_set. intros Hr Hf Hb HB. assert (Hd : 10 <= du_ p <= 11) by (destruct p; cbn; lia).
  apply wp_val. apply wp_polyvec_decompress_du; auto; [now split|lia|].
  unfold decode_vec. rewrite map_map, k_set. apply map_range_ext. intros i Hi.
  f_equal. symmetry. apply ByteDecode_fields; [lia|lia|]. rewrite zlen_slice by nia. lia.
Qed.

Lemma d_in p : In (du (set_of p)) [1; 4; 5; 10; 11] /\ In (dv (set_of p)) [1; 4; 5; 10; 11].
Proof. destruct p; cbn; auto 10. Qed.

Lemma Compress_Decompress_fields d b : In d [1; 4; 5; 10; 11] -> zlen b = 32 * d -> bytes b ->
  ByteEncode d (map (Compress d) (map (Decompress d) (fields d b))) = b.
Proof.
  intros Hd Hb HB. assert (0 < d <= 11) by (cbn in Hd; lia).
  rewrite map_map. rewrite <- (ByteEncode_fields d b) at 2 by (auto; lia). f_equal.
  rewrite <- (map_id (fields d b)) at 2. apply map_ext_in. intros y Hy.
  apply Compress_Decompress; auto.
  pose proof (fields_range d b ltac:(lia) ltac:(lia)) as F. unfold ubounded in F.
  rewrite Forall_forall in F. now apply F.
Qed.

Lemma compress_decompress_du J J' p r r' b :
  zlen r = 256 -> zlen r' = 32 * du (set_of p) -> zlen b = 32 * du (set_of p) -> bytes b ->
  val (f <- poly_decompress_du J p r b ;; poly_compress_du J' p r' f) = Ok b.
Proof.
  intros Hr Hr' Hb HB. assert (Hd : 10 <= du_ p <= 11) by (destruct p; cbn; lia).
  apply wp_val. wstep. apply wp_poly_decompress_du; auto.
  apply wp_poly_compress_du; auto.
  - apply Decompress_fields_range; lia.
  - apply Compress_Decompress_fields; auto. apply d_in.
Qed.
Lemma compress_decompress_dv J p r r' b :
  zlen r = 256 -> zlen r' = 32 * dv (set_of p) -> zlen b = 32 * dv (set_of p) -> bytes b ->
  val (f <- poly_decompress_dv J p r b ;; poly_compress_dv p r' f) = Ok b.
Proof.
  intros Hr Hr' Hb HB. assert (Hd : 4 <= dv_ p <= 5) by (destruct p; cbn; lia).
  apply wp_val. wstep. apply wp_poly_decompress_dv; auto.
  apply wp_poly_compress_dv; auto.
  - apply Decompress_fields_range; lia.
  - apply Compress_Decompress_fields; auto. apply d_in.
Qed.

Lemma fields_Compress d a : 0 < d -> zlen a = 256 ->
  fields d (ByteEncode d (map (Compress d) a)) = map (Compress d) a.
Proof.
  intros Hd Ha. apply fields_ByteEncode; auto; [now rewrite zlen_map|].
  apply Forall_map. apply Forall_forall. intros; apply Compress_range; lia.
Qed.
Lemma decompress_compress_du J J' p r r' a :
  zlen r = 256 -> zlen r' = 32 * du (set_of p) -> reduced a ->
  exists a', val (b <- poly_compress_du J p r' a ;; poly_decompress_du J' p r b) = Ok a' /\
    zlen a' = 256 /\
    forall i, 0 <= i < 256 -> dist (at_ a' i) (at_ a i)
      <= (2 * q + 2 ^ (du (set_of p) + 1)) / (2 * 2 ^ (du (set_of p) + 1)).
Proof.
  intros Hr Hr' [Ha HA]. unfold n in Ha. assert (Hd : 10 <= du_ p <= 11) by (destruct p; cbn; lia).
  apply wp_ex. wstep. apply wp_poly_compress_du; auto.
  apply wp_poly_decompress_du; auto.
  - apply zlen_ByteEncode; rewrite ?zlen_map; lia.
  - apply (bytes_ByteEncode _ _ (32 * du_ p)); rewrite ?zlen_map; lia.
  - rewrite fields_Compress by lia. split; [now rewrite !zlen_map|]. intros i Hi.
    unfold at_. fold (zget 0 a i).
    match goal with |- context [nth _ ?l _] => fold (zget 0 l i) end.
    rewrite (zget_map _ 0), (zget_map _ 0) by (rewrite ?zlen_map; lia).
    apply Decompress_Compress; [apply d_in|]. now apply coef_range; [|lia].
Qed.
Lemma decompress_compress_dv J p r r' a :
  zlen r = 256 -> zlen r' = 32 * dv (set_of p) -> reduced a ->
  exists a', val (b <- poly_compress_dv p r' a ;; poly_decompress_dv J p r b) = Ok a' /\
    zlen a' = 256 /\
    forall i, 0 <= i < 256 -> dist (at_ a' i) (at_ a i)
      <= (2 * q + 2 ^ (dv (set_of p) + 1)) / (2 * 2 ^ (dv (set_of p) + 1)).
Proof.
  intros Hr Hr' [Ha HA]. unfold n in Ha. assert (Hd : 4 <= dv_ p <= 5) by (destruct p; cbn; lia).
  apply wp_ex. wstep. apply wp_poly_compress_dv; auto.
  apply wp_poly_decompress_dv; auto.
  - apply zlen_ByteEncode; rewrite ?zlen_map; lia.
  - apply (bytes_ByteEncode _ _ (32 * dv_ p)); rewrite ?zlen_map; lia.
  - rewrite fields_Compress by lia. split; [now rewrite !zlen_map|]. intros i Hi.
    unfold at_. fold (zget 0 a i).
    match goal with |- context [nth _ ?l _] => fold (zget 0 l i) end.
    rewrite (zget_map _ 0), (zget_map _ 0) by (rewrite ?zlen_map; lia).
    apply Decompress_Compress; [apply d_in|]. now apply coef_range; [|lia].
Qed.

(** Messages *)
Lemma fields1_eq m i : zlen m = 32 -> 0 <= i < 256 ->
  zget 0 (fields 1 m) i = Z.b2z (Z.testbit (at_ m (i / 8)) (i mod 8)).
Proof.
  intros Hm Hi. rewrite fields_eq by lia. rewrite zget_map_range by lia.
  rewrite val_of_1. now rewrite Z.mul_1_r, Z.add_0_r.
Qed.
Lemma frommsg_correct r m : zlen r = 256 -> zlen m = 32 -> bytes m ->
  val (poly_frommsg r m)
  = Ok (map (fun i => 1665 * Z.b2z (Z.testbit (at_ m (i / 8)) (i mod 8))) (range 256)).
Proof.
  intros Hr Hm HB. apply wp_val. apply wp_poly_frommsg; auto.
  rewrite (zlist_get 0 (fields 1 m)), zlen_fields, map_map.
  apply map_range_ext. intros i Hi. rewrite fields1_eq by auto.
  now destruct (Z.testbit _ _).
Qed.
Lemma frommsg_fips r m : zlen r = 256 -> zlen m = 32 -> bytes m ->
  val (poly_frommsg r m) = Ok (map (Decompress 1) (ByteDecode 1 m)).
Proof.
  intros Hr Hm HB. apply wp_val. apply wp_poly_frommsg; auto. rewrite ByteDecode_fields; auto; lia.
Qed.
Lemma tomsg_fips r a : zlen r = 32 -> reduced a ->
  val (poly_tomsg r a) = Ok (ByteEncode 1 (map (Compress 1) a)).
Proof. intros Hr [Ha HA]. apply wp_val. now apply wp_poly_tomsg. Qed.
Lemma decode_noisy m a : zlen m = 32 -> bytes m -> reduced a ->
  (forall i, 0 <= i < 256 -> exists e, -832 <= e <= 831 /\
     at_ a i = (1665 * Z.b2z (Z.testbit (at_ m (i / 8)) (i mod 8)) + e) mod q) ->
  ByteEncode 1 (map (Compress 1) a) = m.
Proof.
  intros Hm HB [Ha HA] He. unfold n in Ha. rewrite <- (ByteEncode_fields 1 m) by (auto; lia).
  f_equal. apply (zlist_ext 0); [now rewrite zlen_map, zlen_fields|].
  rewrite zlen_map, Ha. intros i Hi. rewrite zget_Compress by lia. rewrite fields1_eq by auto.
  destruct (He i Hi) as (e & Hr & E). unfold at_ in E at 1. fold (zget 0 a i) in E. rewrite E.
  unfold Compress, q. change (2 ^ 1) with 2. destruct (Z.testbit _ _); cbn [Z.b2z]; lia.
Qed.
Lemma tomsg_noisy r m a : zlen r = 32 -> zlen m = 32 -> bytes m -> reduced a ->
  (forall i, 0 <= i < 256 -> exists e, -832 <= e <= 831 /\
     at_ a i = (1665 * Z.b2z (Z.testbit (at_ m (i / 8)) (i mod 8)) + e) mod q) ->
  val (poly_tomsg r a) = Ok m.
Proof. intros. rewrite tomsg_fips by auto. f_equal. now apply decode_noisy. Qed.
