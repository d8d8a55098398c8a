(** * The forward and inverse NTT of the code *)

From Coq Require Import ZArith List Bool Lia ZifyBool Setoid Morphisms.
From Verif Require Import CSem ModelArith Spec202 Spec203 CSemFacts ProofScalar ProofPack
  ProofSum ProofNttSpec.
Import ListNotations.
Open Scope Z_scope.
Ltac Zify.zify_post_hook ::= idtac.

Ltac zs := rewrite ?zlen_set by zs; lia.

(** ** The table of zetas *)

Lemma zetas_len : zlen zetas = 128. Proof. reflexivity. Qed.
Lemma zetas_bound k : 0 <= k < 128 -> Z.abs (zget 0 zetas k) <= 1664.
Proof.
  intros Hk. apply Z.leb_le.
  apply (upto_spec 128 (fun k => Z.abs (zget 0 zetas k) <=? 1664)); [vm_compute; reflexivity|lia].
Qed.
Lemma zetas_zt k : 0 <= k < 128 -> 169 * zget 0 zetas k == zt k.
Proof.
  intros Hk. constructor. apply Z.eqb_eq.
  apply (upto_spec 128 (fun k => (169 * zget 0 zetas k) mod 3329 =? zt k mod 3329));
    [vm_compute; reflexivity|lia].
Qed.
Lemma mont_cg a : mont a == 169 * a.
Proof. constructor. apply mont_cong'. Qed.
Lemma mont_zt a k : 0 <= k < 128 -> mont (a * zget 0 zetas k) == a * zt k.
Proof.
  intros. rewrite mont_cg. rewrite <- zetas_zt by auto. apply cg_of_eq; ring.
Qed.
Lemma barr_cg a : barr a == a.
Proof. constructor. apply barr_cong. Qed.

(** ** Forward transform *)

Definition bfly (r : list Z) (z start len i : Z) : Z :=
  if (start <=? i) && (i <? start + len) then zget 0 r i + mont (zget 0 r (i + len) * z)
  else if (start + len <=? i) && (i <? start + 2 * len)
       then zget 0 r (i - len) - mont (zget 0 r i * z)
       else zget 0 r i.

Lemma wp_bfly N r z start len B (Q : list Z -> Prop) :
  zlen r = 256 -> 0 <= start -> 0 < len -> start + 2 * len <= 256 -> Z.abs z <= 1664 ->
  0 <= B <= 30000 -> (forall i, start <= i < start + 2 * len -> Z.abs (zget 0 r i) <= B) ->
  (forall r', zlen r' = 256 -> (forall i, 0 <= i < 256 -> zget 0 r' i = bfly r z start len i) -> Q r') ->
  wpn N (ntt_butterfly_block r z start len) Q.
Proof.
  intros Lr Hs Hl Hsl Hz HB Hb HQ. unfold ntt_butterfly_block.
  apply (wp_for N (fun j s => zlen s = 256 /\ forall i, 0 <= i < 256 -> zget 0 s i =
     if ((start <=? i) && (i <? j)) || ((start + len <=? i) && (i <? j + len))
     then bfly r z start len i else zget 0 r i)).
  - lia.
  - split; auto. intros i Hi. now replace (_ || _) with false by lia.
  - intros j s Hj [Ls Hg].
    assert (G1 : zget 0 s (j + len) = zget 0 r (j + len)) by
      (rewrite Hg by lia; now replace (_ || _) with false by lia).
    assert (G0 : zget 0 s j = zget 0 r j) by
      (rewrite Hg by lia; now replace (_ || _) with false by lia).
    pose proof (Hb j ltac:(lia)) as B0. pose proof (Hb (j + len) ltac:(lia)) as B1.
    pose proof (mont_fqmul_bound (zget 0 r (j + len)) z ltac:(lia) Hz) as Bm.
    apply wp_bind, (wp_aget 0); [lia|]. rewrite G1.
    apply wp_bind, wp_fqmul; [lia|auto|].
    apply wp_bind, (wp_aget 0); [lia|]. rewrite G0.
    apply wp_bind, wp_i16; [lia|].
    apply wp_bind, wp_aset; [lia|].
    apply wp_bind, (wp_aget 0); [zs|].
    rewrite zget_set by lia. replace (j =? j + len) with false by lia. rewrite G0.
    apply wp_bind, wp_i16; [lia|].
    apply wp_aset; [zs|].
    split; [zs|].
    intros i Hi. rewrite !zget_set by (zs). rewrite Hg by auto.
    destruct (i =? j) eqn:E1; [|destruct (i =? j + len) eqn:E2].
    + assert (i = j) by lia. subst i. replace (_ || _) with true by lia.
      unfold bfly. now replace (_ && _) with true by lia.
    + assert (i = j + len) by lia. subst i. replace (_ || _) with true by lia.
      unfold bfly. replace ((start <=? j + len) && (j + len <? start + len)) with false by lia.
      replace ((start + len <=? j + len) && (j + len <? start + 2 * len)) with true by lia.
      now replace (j + len - len) with j by lia.
    + replace ((start <=? i) && (i <? j + 1) || (start + len <=? i) && (i <? j + 1 + len))
        with ((start <=? i) && (i <? j) || (start + len <=? i) && (i <? j + len)) by lia.
      reflexivity.
  - intros s [Ls Hg]. apply HQ; auto. intros i Hi. rewrite Hg by auto.
    destruct (_ || _) eqn:E; auto. unfold bfly.
    replace ((start <=? i) && (i <? start + len)) with false by lia.
    now replace ((start + len <=? i) && (i <? start + 2 * len)) with false by lia.
Qed.

(** A layer of the code *)
Definition layc (nb len : Z) (r : list Z) (i : Z) : Z :=
  if i mod (2 * len) <? len
  then zget 0 r i + mont (zget 0 r (i + len) * zget 0 zetas (nb + i / (2 * len)))
  else zget 0 r (i - len) - mont (zget 0 r i * zget 0 zetas (nb + i / (2 * len))).

Lemma block_of k len i : 0 < len -> k * (2 * len) <= i < (k + 1) * (2 * len) ->
  i / (2 * len) = k /\ i mod (2 * len) = i - k * (2 * len).
Proof.
  intros. assert (i / (2 * len) = k).
  { symmetry. apply (Z.div_unique i (2 * len) k (i - k * (2 * len))); nia. }
  split; auto. rewrite Z.mod_eq by lia. nia.
Qed.
Lemma wp_ntt_layer N r nb len B (Q : list Z -> Prop) :
  shape nb len -> zlen r = 256 -> 0 <= B <= 30000 ->
  (forall i, 0 <= i < 256 -> Z.abs (zget 0 r i) <= B) ->
  (forall r', zlen r' = 256 -> (forall i, 0 <= i < 256 -> Z.abs (zget 0 r' i) <= B + 2496) ->
     eqf (zget 0 r') (lay nb len (zget 0 r)) -> Q r') ->
  wpn N (ntt_layer r len) Q.
Proof.
  intros S Lr HB Hb HQ. destruct (shape_prod _ _ S) as (P & Hl & Hn). unfold ntt_layer.
  apply wp_bind, wp_div.
  replace (MLKEM_N / (2 * len)) with nb by (unfold MLKEM_N; rewrite <- P; symmetry; apply Z.div_mul; lia).
  apply wp_bind.
  apply (wp_for_step N (fun k '(s, kk) => kk = nb + k /\ zlen s = 256 /\
     forall i, 0 <= i < 256 -> zget 0 s i = if i <? k * (2 * len) then layc nb len r i else zget 0 r i)
     _ _ _ nb).
  - unfold MLKEM_N. rewrite <- P. replace (nb * (2 * len) - 0 + 2 * len - 1) with (nb * (2 * len) + (2 * len - 1)) by ring.
    rewrite Z.div_add_l by lia. rewrite (Z.div_small (2 * len - 1)) by lia. lia.
  - lia.
  - split; [lia|]. split; auto. intros i Hi. now replace (i <? 0 * (2 * len)) with false by lia.
  - intros k [s kk] Hk (-> & Ls & Hg). cbv beta iota.
    assert (Hk2 : (k + 1) * (2 * len) <= nb * (2 * len)) by nia.
    assert (Hnb : nb <= 64) by (shapes S; lia).
    apply wp_bind, (wp_aget 0); [rewrite zetas_len; lia|].
    apply wp_bind, (wp_bfly _ _ _ _ _ B); auto; try nia.
    + apply zetas_bound; lia.
    + intros i Hi. rewrite Hg by lia. replace (i <? k * (2 * len)) with false by lia. apply Hb; lia.
    + intros s' Ls' Hg'. apply wp_ret. split; [lia|]. split; auto. intros i Hi.
      rewrite Hg' by auto. unfold bfly.
      replace (0 + k * (2 * len)) with (k * (2 * len)) by lia.
      destruct (Z.ltb_spec i ((k + 1) * (2 * len))) as [Hlt|Hge].
      * destruct (Z.ltb_spec i (k * (2 * len))) as [Hlt'|Hge'].
        -- replace ((k * (2 * len) <=? i) && _) with false by lia.
           replace ((k * (2 * len) + len <=? i) && _) with false by lia.
           rewrite Hg by auto. now replace (i <? k * (2 * len)) with true by lia.
        -- destruct (block_of k len i Hl ltac:(lia)) as [Dv Md]. unfold layc. rewrite Dv, Md.
           destruct (i - k * (2 * len) <? len) eqn:E.
           ++ replace ((k * (2 * len) <=? i) && _) with true by lia.
              rewrite !Hg by lia. replace (i <? k * (2 * len)) with false by lia.
              now replace (i + len <? k * (2 * len)) with false by lia.
           ++ replace ((k * (2 * len) <=? i) && _) with false by lia.
              replace ((k * (2 * len) + len <=? i) && _) with true by lia.
              rewrite !Hg by lia. replace (i <? k * (2 * len)) with false by lia.
              now replace (i - len <? k * (2 * len)) with false by lia.
      * replace ((k * (2 * len) <=? i) && _) with false by lia.
        replace ((k * (2 * len) + len <=? i) && _) with false by lia.
        rewrite Hg by auto. now replace (i <? k * (2 * len)) with false by lia.
  - intros [s kk] (_ & Ls & Hg). apply wp_ret.
    assert (Hv : forall i, 0 <= i < 256 -> zget 0 s i = layc nb len r i).
    { intros i Hi. rewrite Hg by auto. now replace (i <? nb * (2 * len)) with true by lia. }
    apply HQ; auto.
    + intros i Hi. rewrite Hv by auto. unfold layc.
      pose proof (block_range _ _ _ S Hi) as Hbk. assert (Hnb : nb <= 64) by (shapes S; lia).
      pose proof (zetas_bound (nb + i / (2 * len)) ltac:(lia)) as Hz.
      destruct (_ <? len) eqn:E.
      * destruct (lower_partner nb len i S Hi ltac:(lia)) as [R _].
        pose proof (Hb i Hi). pose proof (Hb _ R).
        pose proof (mont_fqmul_bound (zget 0 r (i + len)) _ ltac:(lia) Hz). lia.
      * destruct (upper_partner nb len i S Hi ltac:(lia)) as [R _].
        pose proof (Hb i Hi). pose proof (Hb _ R).
        pose proof (mont_fqmul_bound (zget 0 r i) _ ltac:(lia) Hz). lia.
    + intros i Hi. rewrite Hv by auto. unfold layc, lay.
      pose proof (block_range _ _ _ S Hi) as Hbk. assert (Hnb : nb <= 64) by (shapes S; lia).
      destruct (_ <? len) eqn:E; rewrite mont_zt by lia; reflexivity.
Qed.

Lemma wp_while_step {S} N fuel cond body (s : S) (Q : S -> Prop) :
  cond s = true -> wpn N (body s) (fun s' => wpn N (while fuel cond body s') Q) ->
  wpn N (while (Datatypes.S fuel) cond body s) Q.
Proof. intros E H. cbn [while]. apply wp_bind, wp_emit. rewrite E. now apply wp_bind. Qed.
Lemma wp_while_done {S} N fuel cond body (s : S) (Q : S -> Prop) :
  cond s = false -> Q s -> wpn N (while fuel cond body s) Q.
Proof. intros E H. destruct fuel; cbn [while]; apply wp_bind, wp_emit; rewrite E; now apply wp_ret. Qed.

Lemma bounded_abs b l : zlen l = 256 ->
  (bounded b l <-> forall i, 0 <= i < 256 -> Z.abs (zget 0 l i) < b).
Proof.
  intros Hl. unfold bounded. rewrite (Forall_zget _ 0), Hl.
  split; intros H i Hi; specialize (H i Hi); lia.
Qed.

(** The residues of an array *)
Definition residues (f : list Z) : list Z := map (fun x => x mod q) f.
Lemma residues_ext f g : zlen f = 256 -> reduced g -> eqf (zget 0 f) (at_ g) -> residues f = g.
Proof.
  intros Lf Hg H. apply reduced_ext; auto.
  - split. { unfold residues. now rewrite zlen_map. }
    apply Forall_map, Forall_forall. intros x _. unfold q. apply Z.mod_pos_bound; lia.
  - intros i Hi. unfold residues. rewrite at_zget, (zget_map _ 0) by lia. unfold q.
    rewrite cg_mod. now apply H.
Qed.
Lemma residues_at f i : zlen f = 256 -> 0 <= i < 256 -> at_ (residues f) i == zget 0 f i.
Proof. intros. unfold residues. rewrite at_zget, (zget_map _ 0) by lia. apply cg_mod. Qed.
Lemma residues_zget f g i : residues f = g -> zlen f = 256 -> 0 <= i < 256 -> zget 0 f i == at_ g i.
Proof. intros <- ? ?. now rewrite residues_at. Qed.

Lemma wp_poly_ntt N r (Q : list Z -> Prop) : zlen r = 256 -> bounded 3329 r ->
  (forall r', zlen r' = 256 -> bounded 20801 r' -> residues r' = NTT r -> Q r') ->
  wpn N (poly_ntt r) Q.
Proof.
  intros Lr Hb HQ. unfold poly_ntt. apply wp_bind, wp_POLY_BOUND; auto.
  apply wp_bind. rewrite bounded_abs in Hb by auto.
  apply wp_while_step; [reflexivity|]. cbv beta iota.
  apply wp_bind, (wp_ntt_layer _ _ 1 128 3328); auto with shape; try lia. { intros; specialize (Hb i); lia. }
  intros r1 L1 B1 E1. apply wp_ret. change (128 >> 1) with 64.
  apply wp_while_step; [reflexivity|]. cbv beta iota.
  apply wp_bind, (wp_ntt_layer _ _ 2 64 (3328 + 2496)); auto with shape; try lia.
  intros r2 L2 B2 E2. apply wp_ret. change (64 >> 1) with 32.
  apply wp_while_step; [reflexivity|]. cbv beta iota.
  apply wp_bind, (wp_ntt_layer _ _ 4 32 (3328 + 2496 + 2496)); auto with shape; try lia.
  intros r3 L3 B3 E3. apply wp_ret. change (32 >> 1) with 16.
  apply wp_while_step; [reflexivity|]. cbv beta iota.
  apply wp_bind, (wp_ntt_layer _ _ 8 16 (3328 + 2496 + 2496 + 2496)); auto with shape; try lia.
  intros r4 L4 B4 E4. apply wp_ret. change (16 >> 1) with 8.
  apply wp_while_step; [reflexivity|]. cbv beta iota.
  apply wp_bind, (wp_ntt_layer _ _ 16 8 (3328 + 2496 + 2496 + 2496 + 2496)); auto with shape; try lia.
  intros r5 L5 B5 E5. apply wp_ret. change (8 >> 1) with 4.
  apply wp_while_step; [reflexivity|]. cbv beta iota.
  apply wp_bind, (wp_ntt_layer _ _ 32 4 (3328 + 2496 + 2496 + 2496 + 2496 + 2496)); auto with shape; try lia.
  intros r6 L6 B6 E6. apply wp_ret. change (4 >> 1) with 2.
  apply wp_while_step; [reflexivity|]. cbv beta iota.
  apply wp_bind, (wp_ntt_layer _ _ 64 2 (3328 + 2496 + 2496 + 2496 + 2496 + 2496 + 2496)); auto with shape; try lia.
  intros r7 L7 B7 E7. apply wp_ret. change (2 >> 1) with 1.
  apply wp_while_done; [reflexivity|]. cbv beta iota.
  assert (B : bounded 20801 r7). { apply bounded_abs; auto. intros i Hi. specialize (B7 i Hi). lia. }
  apply wp_bind, wp_POLY_BOUND. { apply (bounded_weaken 20801); auto. unfold NTT_BOUND, MLKEM_Q. lia. }
  apply wp_ret. apply HQ; auto. apply residues_ext; auto using NTT_reduced.
  apply eqf_trans with (layers (zget 0 r)).
  - unfold layers.
    eapply eqf_trans; [exact E7|apply lay_cg; auto with shape].
    eapply eqf_trans; [exact E6|apply lay_cg; auto with shape].
    eapply eqf_trans; [exact E5|apply lay_cg; auto with shape].
    eapply eqf_trans; [exact E4|apply lay_cg; auto with shape].
    eapply eqf_trans; [exact E3|apply lay_cg; auto with shape].
    eapply eqf_trans; [exact E2|apply lay_cg; auto with shape].
  - apply eqf_sym. intros i Hi. now apply NTT_layers.
Qed.

(** ** Inverse transform *)

Definition ilayc (nb len : Z) (r : list Z) (i : Z) : Z :=
  if i mod (2 * len) <? len then barr (zget 0 r i + zget 0 r (i + len))
  else mont ((zget 0 r i - zget 0 r (i - len)) * zget 0 zetas (2 * nb - 1 - i / (2 * len))).

Lemma small_mont a b : Z.abs a <= 4992 -> Z.abs b <= 1664 -> Z.abs (mont (a * b)) <= 1800.
Proof.
  intros. assert (Z.abs (a * b) <= 254 * 32768) by (rewrite Z.abs_mul; nia).
  pose proof (mont_bound (a * b) 254 H1). lia.
Qed.

Lemma wp_invntt_layer N r nb len (Q : list Z -> Prop) :
  shape nb len -> zlen r = 256 ->
  (forall i, 0 <= i < 256 -> Z.abs (zget 0 r i) <= 2496) ->
  (forall r', zlen r' = 256 -> (forall i, 0 <= i < 256 -> Z.abs (zget 0 r' i) <= 1800) ->
     eqf (zget 0 r') (ilay nb len (zget 0 r)) -> Q r') ->
  wpn N (invntt_layer r len) Q.
Proof.
  intros S Lr Hb HQ. destruct (shape_prod _ _ S) as (P & Hl & Hn). unfold invntt_layer.
  apply wp_bind, wp_div.
  replace (MLKEM_N / len) with (2 * nb)
    by (unfold MLKEM_N; rewrite <- P; replace (nb * (2 * len)) with (2 * nb * len) by ring; symmetry; apply Z.div_mul; lia).
  apply wp_bind.
  assert (Hnb : nb <= 64) by (shapes S; lia).
  apply (wp_for_step N (fun k '(s, kk) => kk = 2 * nb - 1 - k /\ zlen s = 256 /\
     forall i, 0 <= i < 256 -> zget 0 s i = if i <? k * (2 * len) then ilayc nb len r i else zget 0 r i)
     _ _ _ nb).
  - unfold MLKEM_N. rewrite <- P. replace (nb * (2 * len) - 0 + 2 * len - 1) with (nb * (2 * len) + (2 * len - 1)) by ring.
    rewrite Z.div_add_l by lia. rewrite (Z.div_small (2 * len - 1)) by lia. lia.
  - lia.
  - split; [lia|]. split; auto. intros i Hi. now replace (i <? 0 * (2 * len)) with false by lia.
  - intros k [s kk] Hk (-> & Ls & Hg). cbv beta iota.
    assert (Hk2 : (k + 1) * (2 * len) <= nb * (2 * len)) by nia.
    apply wp_bind, (wp_aget 0); [rewrite zetas_len; lia|].
    pose proof (zetas_bound (2 * nb - 1 - k) ltac:(lia)) as Hz.
    replace (0 + k * (2 * len)) with (k * (2 * len)) by lia.
    set (st := k * (2 * len)) in *. assert (Hst : 0 <= st) by (unfold st; nia).
    assert (Hst2 : st + 2 * len <= 256) by (unfold st; nia).
    assert (Ebl : (k + 1) * (2 * len) = st + 2 * len) by (unfold st; ring).
    apply wp_bind.
    apply (wp_for N (fun j u => zlen u = 256 /\ forall i, 0 <= i < 256 -> zget 0 u i =
       if (i <? j) || ((st + len <=? i) && (i <? j + len))
       then ilayc nb len r i else zget 0 r i)).
    + lia.
    + split; auto. intros i Hi. rewrite Hg by auto.
      replace ((i <? st) || ((st + len <=? i) && (i <? st + len))) with (i <? st) by lia. reflexivity.
    + intros j u Hj [Lu Hu].
      assert (G1 : zget 0 u (j + len) = zget 0 r (j + len)) by
        (rewrite Hu by lia; now replace (_ || _) with false by lia).
      assert (G0 : zget 0 u j = zget 0 r j) by
        (rewrite Hu by lia; now replace (_ || _) with false by lia).
      pose proof (Hb j ltac:(lia)) as B0. pose proof (Hb (j + len) ltac:(lia)) as B1.
      apply wp_bind, (wp_aget 0); [lia|]. rewrite G0.
      apply wp_bind, (wp_aget 0); [lia|]. rewrite G1.
      apply wp_bind, wp_i16; [lia|].
      apply wp_bind, wp_barrett_reduce; [lia|].
      apply wp_bind, wp_aset; [lia|].
      apply wp_bind, (wp_aget 0); [zs|].
      rewrite zget_set by lia. replace (j + len =? j) with false by lia. rewrite G1.
      apply wp_bind, wp_i16; [lia|].
      apply wp_bind, wp_aset; [zs|].
      apply wp_bind, (wp_aget 0); [zs|].
      rewrite zget_set by (zs). replace (j + len =? j + len) with true by lia.
      apply wp_bind, wp_fqmul; [lia|auto|].
      apply wp_aset; [zs|].
      split; [zs|].
      intros i Hi. rewrite !zget_set by (zs). rewrite Hu by auto.
      destruct (block_of k len j Hl ltac:(lia)) as [Dv Md].
      destruct (block_of k len (j + len) Hl ltac:(lia)) as [Dv' Md']. fold st in Md, Md'.
      destruct (i =? j + len) eqn:E1; [|destruct (i =? j) eqn:E2].
      * assert (i = j + len) by lia. subst i. replace (_ || _) with true by lia.
        unfold ilayc. rewrite Md', Dv'. replace (_ <? len) with false by lia.
        now replace (j + len - len) with j by lia.
      * assert (i = j) by lia. subst i. replace (_ || _) with true by lia.
        unfold ilayc. rewrite Md. now replace (_ <? len) with true by lia.
      * replace ((i <? j + 1) || ((st + len <=? i) && (i <? j + 1 + len)))
          with ((i <? j) || ((st + len <=? i) && (i <? j + len))) by lia. reflexivity.
    + intros u [Lu Hu]. apply wp_ret. split; [lia|]. split; auto. intros i Hi.
      rewrite Hu by auto. rewrite Ebl.
      now replace ((i <? st + len) || ((st + len <=? i) && (i <? st + len + len))) with (i <? st + 2 * len) by lia.
  - intros [s kk] (_ & Ls & Hg). apply wp_ret.
    assert (Hv : forall i, 0 <= i < 256 -> zget 0 s i = ilayc nb len r i).
    { intros i Hi. rewrite Hg by auto. now replace (i <? nb * (2 * len)) with true by lia. }
    apply HQ; auto.
    + intros i Hi. rewrite Hv by auto. unfold ilayc.
      pose proof (block_range _ _ _ S Hi) as Hbk.
      pose proof (zetas_bound (2 * nb - 1 - i / (2 * len)) ltac:(lia)) as Hz.
      destruct (_ <? len) eqn:E.
      * destruct (lower_partner nb len i S Hi ltac:(lia)) as [R _].
        pose proof (Hb i Hi). pose proof (Hb _ R).
        pose proof (barr_bound (zget 0 r i + zget 0 r (i + len)) ltac:(lia)). lia.
      * destruct (upper_partner nb len i S Hi ltac:(lia)) as [R _].
        pose proof (Hb i Hi). pose proof (Hb _ R).
        apply small_mont; [lia|auto].
    + intros i Hi. rewrite Hv by auto. unfold ilayc, ilay.
      pose proof (block_range _ _ _ S Hi) as Hbk.
      destruct (_ <? len) eqn:E; [apply barr_cg|apply mont_zt; lia].
Qed.

Definition int16s (l : list Z) : Prop := Forall (fun x => -32768 <= x < 32768) l.

Lemma wp_poly_invntt N r (Q : list Z -> Prop) : zlen r = 256 -> int16s r ->
  (forall r', zlen r' = 256 -> bounded 1801 r' ->
     residues r' = residues (map (fun x => 65536 * x) (NTT_inv r)) -> Q r') ->
  wpn N (poly_invntt_tomont r) Q.
Proof.
  intros Lr Hr HQ. unfold poly_invntt_tomont. cbv zeta.
  assert (Hi16 : forall i, 0 <= i < 256 -> -32768 <= zget 0 r i < 32768).
  { unfold int16s in Hr. rewrite (Forall_zget _ 0), Lr in Hr. auto. }
  apply wp_bind. apply (wp_for_inplace 0 _ (fun _ x => mont (x * 1441))); auto.
  { intros i pre rest Hi Hp. specialize (Hi16 i Hi). apply wp_bind, wp_aget_app; auto.
    apply wp_bind, wp_fqmul; [lia|lia|]. apply wp_aset_app; auto. now rewrite <- app_assoc. }
  set (r0 := map _ (range _)).
  assert (L0 : zlen r0 = 256) by (unfold r0; rewrite zlen_map, zlen_range; unfold MLKEM_N; lia).
  assert (V0 : forall i, 0 <= i < 256 -> zget 0 r0 i = mont (zget 0 r i * 1441)).
  { intros. unfold r0. now rewrite zget_map_range by auto. }
  clearbody r0.
  assert (B0 : forall i, 0 <= i < 256 -> Z.abs (zget 0 r0 i) <= 2496).
  { intros i Hi. rewrite V0 by auto. specialize (Hi16 i Hi). apply mont_fqmul_bound; lia. }
  apply wp_bind.
  assert (W : forall l, (forall i, 0 <= i < 256 -> Z.abs (zget 0 l i) <= 1800) ->
     forall i, 0 <= i < 256 -> Z.abs (zget 0 l i) <= 2496) by (intros l H i Hi; specialize (H i Hi); lia).
  apply wp_while_step; [reflexivity|]. cbv beta iota.
  apply wp_bind, (wp_invntt_layer _ _ 64 2); auto with shape.
  intros r1 L1 B1 E1. apply wp_ret. change (2 << 1) with 4.
  apply wp_while_step; [reflexivity|]. cbv beta iota.
  apply wp_bind, (wp_invntt_layer _ _ 32 4); auto with shape.
  intros r2 L2 B2 E2. apply wp_ret. change (4 << 1) with 8.
  apply wp_while_step; [reflexivity|]. cbv beta iota.
  apply wp_bind, (wp_invntt_layer _ _ 16 8); auto with shape.
  intros r3 L3 B3 E3. apply wp_ret. change (8 << 1) with 16.
  apply wp_while_step; [reflexivity|]. cbv beta iota.
  apply wp_bind, (wp_invntt_layer _ _ 8 16); auto with shape.
  intros r4 L4 B4 E4. apply wp_ret. change (16 << 1) with 32.
  apply wp_while_step; [reflexivity|]. cbv beta iota.
  apply wp_bind, (wp_invntt_layer _ _ 4 32); auto with shape.
  intros r5 L5 B5 E5. apply wp_ret. change (32 << 1) with 64.
  apply wp_while_step; [reflexivity|]. cbv beta iota.
  apply wp_bind, (wp_invntt_layer _ _ 2 64); auto with shape.
  intros r6 L6 B6 E6. apply wp_ret. change (64 << 1) with 128.
  apply wp_while_step; [reflexivity|]. cbv beta iota.
  apply wp_bind, (wp_invntt_layer _ _ 1 128); auto with shape.
  intros r7 L7 B7 E7. apply wp_ret. change (128 << 1) with 256.
  apply wp_while_done; [reflexivity|]. cbv beta iota.
  assert (B : bounded 1801 r7). { apply bounded_abs; auto. intros i Hi. specialize (B7 i Hi). lia. }
  apply wp_bind, wp_POLY_BOUND. { apply (bounded_weaken 1801); auto. vm_compute; discriminate. }
  apply wp_ret. apply HQ; auto.
  assert (Lm : zlen (map (fun x => 65536 * x) (NTT_inv r)) = 256)
    by (rewrite zlen_map; apply NTT_inv_reduced).
  apply residues_ext; auto.
  { split. { unfold residues. now rewrite zlen_map. }
    apply Forall_map, Forall_forall. intros x _. unfold q. apply Z.mod_pos_bound; lia. }
  apply eqf_trans with (ilayers (zget 0 r0)).
  - unfold ilayers.
    eapply eqf_trans; [exact E7|apply ilay_cg; auto with shape].
    eapply eqf_trans; [exact E6|apply ilay_cg; auto with shape].
    eapply eqf_trans; [exact E5|apply ilay_cg; auto with shape].
    eapply eqf_trans; [exact E4|apply ilay_cg; auto with shape].
    eapply eqf_trans; [exact E3|apply ilay_cg; auto with shape].
    eapply eqf_trans; [exact E2|apply ilay_cg; auto with shape].
  - eapply eqf_trans. { apply (ilayers_scale (169 * 1441) (zget 0 r)). intros i Hi.
      rewrite V0 by auto. rewrite mont_cg. apply cg_of_eq; ring. }
    intros i Hi. rewrite residues_at by auto.
    rewrite (zget_map _ 0) by (pose proof (NTT_inv_reduced r) as [E _]; rewrite E; unfold n; lia).
    rewrite <- at_zget, NTT_inv_layers by auto. rewrite Z.mul_assoc.
    apply cg_mul; [constructor; reflexivity|reflexivity].
Qed.
