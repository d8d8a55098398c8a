(** * The matrix in the x86_64 build *)

From Coq Require Import ZArith List Bool Lia.
From Verif Require Import CSem ModelArith ModelKeccak ModelIndcpa ModelAvx2 ModelX86 ModelX86Asm ModelX86Poly
  ModelX86Keccak ModelX86Indcpa Spec202 Spec203 SpecLink SpecX86
  ProofX86Ntt ProofX86Word CSemFacts ProofScalar ProofBits ProofPack ProofRej ProofCbd ProofSponge ProofHash
  ProofX86Hash ProofSum ProofNttSpec ProofRing ProofNtt ProofMul ProofMatrix ProofNoise ProofAvx2Matrix ProofX86Poly.
Import ListNotations.
Open Scope Z_scope.
#[local] Existing Instance LittleEndian.
Ltac Zify.zify_post_hook ::= idtac.

(** the loop that puts every polynomial into the order of the assembly *)
Lemma wp_permute_loop N J K a (Q : list (list Z) -> Prop) : 0 <= K -> zlen a = K * K ->
  (forall i, 0 <= i < K * K -> zlen (zget [] a i) = 256) ->
  (forall a', zlen a' = K * K -> (forall i, 0 <= i < K * K -> zget [] a' i = custom_order (zget [] a i)) -> Q a') ->
  wpn N (for_up 0 K 1 (fun i a => for_up 0 K 1 (fun j a =>
       e <- aget a (K * i + j) ;;
       e <- poly_permute_bitrev_to_custom (sub J (K * i + j)) e ;;
       aset a (K * i + j) e) a) a) Q.
Proof.
  intros HK La Ha HQ.
  apply (wp_for N (fun i s => zlen s = K * K /\ forall x, 0 <= x < K * K ->
     zget [] s x = if x <? K * i then custom_order (zget [] a x) else zget [] a x)); [lia| | |].
  - split; auto. intros x Hx. replace (x <? K * 0) with false by (symmetry; apply Z.ltb_ge; lia). reflexivity.
  - intros i s Hi [Ls Es].
    apply (wp_for N (fun j s => zlen s = K * K /\ forall x, 0 <= x < K * K ->
       zget [] s x = if x <? K * i + j then custom_order (zget [] a x) else zget [] a x)); [lia| | |].
    + split; auto. intros x Hx. rewrite Z.add_0_r. auto.
    + intros j s' Hj [Ls' Es']. pose proof (idx_lt K i j Hi Hj) as Hij.
      assert (Eij : zget [] s' (K * i + j) = zget [] a (K * i + j)).
      { rewrite Es' by auto. now rewrite Z.ltb_irrefl. }
      apply wp_bind, (wp_aget []); [lia|]. rewrite Eij.
      apply wp_bind, wp_unpack_x86; [now apply Ha|]. apply wp_aset; [lia|].
      split; [rewrite zlen_set; lia|]. intros x Hx. rewrite zget_set by lia.
      destruct (Z.eqb_spec x (K * i + j)) as [->|Hne].
      * replace (K * i + j <? K * i + (j + 1)) with true by (symmetry; apply Z.ltb_lt; lia). reflexivity.
      * rewrite Es' by auto.
        destruct (Z.ltb_spec x (K * i + j)), (Z.ltb_spec x (K * i + (j + 1))); try lia; auto.
    + intros s' [Ls' Es']. split; auto. intros x Hx. replace (K * (i + 1)) with (K * i + K) by ring. auto.
  - intros s [Ls Es]. apply HQ; auto. intros x Hx. rewrite Es by auto.
    replace (x <? K * K) with true by (symmetry; apply Z.ltb_lt; lia). reflexivity.
Qed.

Lemma wp_gen_matrix_x86 (N : Prop) J fuel p a seed tr (Q : list (list Z) -> Prop) :
  let K := MLKEM_K p in
  zlen a = K * K -> (forall i, 0 <= i < K * K -> zlen (zget [] a i) = 256) ->
  zlen seed = 32 -> bytes seed ->
  (forall i, 0 <= i < K * K -> SampleNTT (3 + Z.of_nat fuel) (mseed seed tr K i) = None -> N) ->
  (forall a', zlen a' = K * K ->
     (forall i, 0 <= i < K * K -> SampleNTT (3 + Z.of_nat fuel) (mseed seed tr K i) = Some (fips_order (zget [] a' i)) /\ zlen (zget [] a' i) = 256) ->
     Q a') ->
  wpn N (gen_matrix_x86_64 J fuel p a seed tr) Q.
Proof.
  intros K La Ea Ls Bs HN HQ. unfold gen_matrix_x86_64. fold K.
  pose proof (MLKEM_K_range p) as HK. fold K in HK. unfold MLKEM_SYMBYTES. change (32 + 2) with 34. cbv zeta.
  set (b := 3 + Z.of_nat fuel) in *. assert (Hb : 3 <= b) by lia.
  assert (P : forall a0, zlen a0 = K * K ->
     (forall i, 0 <= i < K * K -> SampleNTT b (mseed seed tr K i) = Some (zget [] a0 i)) ->
     wpn N (for_up 0 K 1 (fun i a => for_up 0 K 1 (fun j a =>
       e <- aget a (K * i + j) ;;
       e <- poly_permute_bitrev_to_custom (sub (sub J 3) (K * i + j)) e ;;
       aset a (K * i + j) e) a) a0) Q).
  { intros a0 L0 E0.
    assert (F0 : forall i, 0 <= i < K * K -> zlen (zget [] a0 i) = 256).
    { intros i Hi. pose proof (E0 i Hi) as H. apply SampleNTT_ok in H; [tauto| |lia]. now apply mseed_ok. }
    apply wp_permute_loop; [lia|auto|auto|]. intros a' La' Ea'. apply HQ; auto. intros i Hi. rewrite Ea' by auto.
    rewrite fips_custom_order by auto. split; [auto|apply zlen_custom_order]. }
  apply wp_bind.
  apply (wp_for N (fun j s => zlen s = 4 /\ (forall i, 0 <= i < 4 -> zlen (zget [] s i) = 34) /\
     forall i, 0 <= i < j -> firstn 32 (zget [] s i) = seed)); [lia| | |].
  { split; [now rewrite zlen_uninit2|]. split; intros; [|lia]. apply zget_uninit2; lia. }
  { intros j s Hj (L4 & L34 & E). apply wp_bind, (wp_aget []); [lia|].
    apply wp_bind, wp_memcpy; rewrite ?L34; try lia. change (0 + 32) with 32.
    rewrite slice_zlen by auto. apply wp_aset; [lia|].
    split; [rewrite zlen_set; lia|]. split.
    - intros i Hi. rewrite zget_set by lia. destruct (Z.eqb_spec i j); auto.
      rewrite zlen_splice; rewrite ?L34; lia.
    - intros i Hi. rewrite zget_set by lia. destruct (Z.eqb_spec i j); [|apply E; lia].
      unfold splice. rewrite firstn_O. unfold zlen in Ls. cbn [app]. rewrite firstn_app_full by lia.
      apply firstn_all2. lia. }
  intros s0 (L4 & L34 & E32).
  assert (S0 : seeds_ok seed s0) by (split; auto). clear L4 L34 E32.
  set (cnt := K * K / 4).
  assert (Hcnt : 0 <= cnt /\ cnt * 4 <= K * K < cnt * 4 + 4).
  { unfold cnt. pose proof (Z.div_mod (K * K) 4). pose proof (Z.mod_pos_bound (K * K) 4). 
    assert (0 <= K * K / 4) by (apply Z.div_pos; lia). lia. }
  clearbody cnt.
  apply wp_bind.
  apply (wp_for_step N (fun kk '(a, s) => zlen a = K * K /\
     (forall i, 0 <= i < K * K -> zlen (zget [] a i) = 256) /\
     (forall i, 0 <= i < 4 * kk -> SampleNTT b (mseed seed tr K i) = Some (zget [] a i)) /\
     seeds_ok seed s) 0 (cnt * 4) 4 cnt).
  { replace (cnt * 4 - 0 + 4 - 1) with (3 + cnt * 4) by lia. rewrite Z.div_add by lia. reflexivity. }
  { lia. }
  { split; [auto|]. split; [auto|]. split; [lia|auto]. }
  - intros kk [a1 s1] Hk (La1 & Ea1 & Sa1 & So1). replace (0 + kk * 4) with (4 * kk) by lia.
    apply wp_bind.
    apply (wp_for N (fun j s => seeds_ok seed s /\
       forall j', 0 <= j' < j -> zget [] s j' = mseed seed tr K (4 * kk + j'))); [lia| | |].
    { split; auto. lia. }
    { intros j s Hj (So & E). destruct So as [L4 H4].
      apply wp_bind, wp_div. apply wp_bind, wp_modc. cbv zeta.
      apply wp_bind, (wp_aget []); [lia|]. destruct (H4 j Hj) as [L34 E32].
      assert (Hidx : 0 <= 4 * kk + j < K * K) by lia.
      apply wp_bind, (wp_set_xy N _ seed); auto.
      apply wp_aset; [lia|]. split.
      - split; [rewrite zlen_set; lia|]. intros j' Hj'. rewrite zget_set by lia.
        destruct (Z.eqb_spec j' j); [|now apply H4].
        split; [now apply mseed_ok|now apply firstn_mseed].
      - intros j' Hj'. rewrite zget_set by lia. destruct (Z.eqb_spec j' j) as [->|]; auto.
        apply E. lia. }
    intros s2 (So2 & E2). apply wp_bind, wp_aslice; try lia.
    destruct So2 as [L4 H4].
    rewrite (four [] s2 L4). rewrite !E2 by lia.
    rewrite (four [] (slice a1 (4 * kk) (4 * kk + 4))) by (rewrite zlen_slice; lia).
    rewrite !zget_slice by lia.
    assert (Hm : forall j, 0 <= j < 4 -> zlen (mseed seed tr K (4 * kk + j)) = 34 /\ bytes (mseed seed tr K (4 * kk + j))).
    { intros j Hj. apply mseed_ok; auto. lia. }
    apply wp_bind, wp_gen_matrix_entry_x4_x86; try (apply Ea1; lia); try (apply Hm; lia).
    { intros s Hs HNone. cbn [In] in Hs. destruct Hs as [<-|[<-|[<-|[<-|[]]]]].
      - apply (HN (4 * kk + 0)); [lia|exact HNone].
      - apply (HN (4 * kk + 1)); [lia|exact HNone].
      - apply (HN (4 * kk + 2)); [lia|exact HNone].
      - apply (HN (4 * kk + 3)); [lia|exact HNone]. }
    fold b. intros v0 v1 v2 v3 (H0 & H1 & H2 & H3).
    apply wp_bind, wp_asplice; [lia|change (zlen [v0; v1; v2; v3]) with 4; lia|]. apply wp_ret.
    assert (Hv : forall j, 0 <= j < 4 -> SampleNTT b (mseed seed tr K (4 * kk + j)) = Some (zget [] [v0; v1; v2; v3] j)).
    { intros j Hj. assert (j = 0 \/ j = 1 \/ j = 2 \/ j = 3) as [->|[->|[->| ->]]] by lia; assumption. }
    clear H0 H1 H2 H3. set (vv := [v0; v1; v2; v3]) in *.
    assert (Lv : zlen vv = 4) by reflexivity. clearbody vv.
    split; [rewrite zlen_splice; lia|]. split; [|split].
    + intros i Hi. rewrite zget_splice by lia. rewrite Lv.
      destruct (Z.leb_spec (4 * kk) i); cbn [andb]; [|now apply Ea1].
      destruct (Z.ltb_spec i (4 * kk + 4)); [|now apply Ea1].
      assert (Hi' : 0 <= i - 4 * kk < 4) by lia. specialize (Hv _ Hi').
      replace (4 * kk + (i - 4 * kk)) with i in Hv by lia.
      apply SampleNTT_ok in Hv; [tauto| |lia]. now apply mseed_ok.
    + intros i Hi. rewrite zget_splice by lia. rewrite Lv.
      destruct (Z.leb_spec (4 * kk) i); cbn [andb]; [|apply Sa1; lia].
      destruct (Z.ltb_spec i (4 * kk + 4)); [|lia].
      assert (Hi' : 0 <= i - 4 * kk < 4) by lia. specialize (Hv _ Hi').
      replace (4 * kk + (i - 4 * kk)) with i in Hv by lia. exact Hv.
    + split; [reflexivity|]. intros j Hj.
      assert (j = 0 \/ j = 1 \/ j = 2 \/ j = 3) as [->|[->|[->| ->]]] by lia;
        (split; [apply Hm; lia|now apply firstn_mseed]).
  - intros [a1 s1] (La1 & Ea1 & Sa1 & So1). apply wp_bind, wp_branch; intros Hbr.
    + assert (E9 : K * K = cnt * 4 + 1).
      { destruct p; unfold K in *; cbn in *; lia. }
      cbv zeta. apply wp_bind, wp_div. apply wp_bind, wp_modc.
      destruct So1 as [L4 H4]. destruct (H4 0 ltac:(lia)) as [L34 E32].
      apply wp_bind, (wp_aget []); [lia|].
      apply wp_bind, (wp_set_xy N _ seed); auto; [lia|].
      apply wp_bind, (wp_aget []); [lia|].
      assert (Hidx : 0 <= cnt * 4 < K * K) by lia.
      apply wp_bind, wp_gen_matrix_entry_x86; [now apply Ea1|now apply mseed_ok|now apply mseed_ok|now apply HN|].
      fold b. intros v Hv. apply wp_aset; [lia|]. apply P; [rewrite zlen_set; lia|].
      intros i Hi. rewrite zget_set by lia. destruct (Z.eqb_spec i (cnt * 4)) as [->|]; [exact Hv|].
      apply Sa1. lia.
    + apply wp_ret, P; auto. intros i Hi. apply Sa1. lia.
Qed.

Lemma wp_matrix_x86 (N : Prop) J fuel p a seed tr (Q : list (list Z) -> Prop) :
  let K := MLKEM_K p in
  zlen a = K * K -> (forall i, 0 <= i < K * K -> zlen (zget [] a i) = 256) ->
  zlen seed = 32 -> bytes seed ->
  (ExpandA (set_of p) (3 + Z.of_nat fuel) seed = None -> N) ->
  (forall A a', ExpandA (set_of p) (3 + Z.of_nat fuel) seed = Some A ->
     each (K * K) (fun _ x => zlen x = 256) a' -> map fips_order a' = stored tr A -> Q a') ->
  wpn N (gen_matrix_x86_64 J fuel p a seed tr) Q.
Proof.
  intros K La Ea Ls Bs HN HQ. apply wp_gen_matrix_x86; auto.
  - intros i Hi H. apply HN. exact (mseed_None p _ seed tr i Hi H).
  - fold K. intros a' La' Ha'.
    destruct (gen_matrix_ExpandA p (3 + Z.of_nat fuel) seed tr (map fips_order a')) as (A & EA & E').
    { fold K. now rewrite zlen_map. }
    { fold K. intros i Hi. rewrite (zget_map _ [] []) by lia. now apply Ha'. }
    apply (HQ A); auto. split; [exact La'|]. intros i Hi. now apply Ha'.
Qed.
