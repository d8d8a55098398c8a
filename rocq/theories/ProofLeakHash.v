(** * Leakage of the hash functions, of matrix sampling and of decompression *)

From Coq Require Import ZArith List Bool Lia.
From Verif Require Import CSem ModelArith ModelKeccak ModelIndcpa ModelKem Spec202 CSemFacts ProofLeak ProofMatrix.
Import ListNotations.
Open Scope Z_scope.
Ltac Zify.zify_post_hook ::= idtac.

(** ** Keccak *)
Lemma l_extract {bo : byte_order} s s' d d' off len : same any (KeccakF1600_StateExtractBytes s d off len) (KeccakF1600_StateExtractBytes s' d' off len).
Proof. destruct bo; unfold KeccakF1600_StateExtractBytes, KeccakF1600_StateExtractBytes_le, KeccakF1600_StateExtractBytes_be; leak. Qed.
Lemma l_xor {bo : byte_order} s s' d d' off len : same any (KeccakF1600_StateXORBytes s d off len) (KeccakF1600_StateXORBytes s' d' off len).
Proof. destruct bo; unfold KeccakF1600_StateXORBytes, KeccakF1600_StateXORBytes_le, KeccakF1600_StateXORBytes_be; leak. Qed.
Lemma l_permute s s' : same any (KeccakF1600_StatePermute s) (KeccakF1600_StatePermute s').
Proof.
  unfold KeccakF1600_StatePermute.
  do 25 (destruct s as [|? s]; [apply same_fail_l|]). destruct s; [|apply same_fail_l].
  do 25 (destruct s' as [|? s']; [apply same_fail_r|]). destruct s'; [|apply same_fail_r].
  apply (same_bind' any).
  - apply same_for_any. intros j s t. leak.
  - intros a b _. repeat match goal with x : lanes |- _ => destruct x | x : (_ * _)%type |- _ => destruct x end.
    apply same_ret. exact I.
Qed.
#[export] Hint Resolve l_extract l_xor l_permute : leak.

Lemma l_absorb {bo : byte_order} s s' r m m' mlen p : same any (keccak_absorb s r m mlen p) (keccak_absorb s' r m' mlen p).
Proof.
  unfold keccak_absorb. apply (same_bind' (fun '(_, pos, l) '(_, pos', l') => pos = pos' /\ l = l')).
  - apply same_while; [now split| |]; intros [[a pos] l] [[b pos'] l'] [<- <-]; [reflexivity|]. leak. now apply same_ret.
  - intros [[a pos] l] [[b pos'] l'] [<- <-]. apply (same_bind' any); [|intros; leak]. leak.
Qed.
(** States inside larger arrays *)
Lemma l_on s t o (f g : list Z -> M (list Z)) : (forall a b, same any (f a) (g b)) -> same any (on_state s o f) (on_state t o g).
Proof.
  intros H. unfold on_state. eapply same_bind'; [apply same_aslice|]. intros a b _. apply (same_bind' any); [apply H|].
  intros c d _. apply same_asplice.
Qed.
(** incremental states with the same counter *)
Definition samecnt (s t : list Z) : Prop := nth_error s 25 = nth_error t 25.
Lemma splice_cnt (s d : list Z) : (length d <= 25)%nat -> Z.of_nat (length d) <= Z.of_nat (length s) ->
  nth_error (firstn (Z.to_nat 0) s ++ d ++ skipn (Z.to_nat 0 + length d) s) 25 = nth_error s 25.
Proof.
  intros Hd Hs. cbn [Z.to_nat firstn app Nat.add]. rewrite nth_error_app2 by lia.
  rewrite <- (firstn_skipn (length d) s) at 2. rewrite nth_error_app2 by (rewrite firstn_length; lia).
  rewrite firstn_length, Nat.min_l by lia. reflexivity.
Qed.
Lemma l_on_cnt s t (f g : list Z -> M (list Z)) : samecnt s t -> (forall a b, same any (f a) (g b)) ->
  same samecnt (on_state s 0 f) (on_state t 0 g).
Proof.
  intros E H. unfold on_state. eapply same_bind'; [apply same_aslice|]. intros a b _. apply (same_bind' any); [apply H|].
  intros c d _. unfold asplice. apply (same_bind' any); [apply same_emit|]. intros _ _ _.
  set (c' := firstn _ c). set (d' := firstn _ d).
  assert (Lc : (length c' <= 25)%nat) by (unfold c'; rewrite firstn_length; unfold KECCAK_LANES; lia).
  assert (Ld : (length d' <= 25)%nat) by (unfold d'; rewrite firstn_length; unfold KECCAK_LANES; lia).
  clearbody c' d'.
  destruct ((0 <=? 0) && (0 + Z.of_nat (length c') <=? _)) eqn:E1; [|apply same_fail_l].
  destruct ((0 <=? 0) && (0 + Z.of_nat (length d') <=? _)) eqn:E2; [|apply same_fail_r].
  apply andb_true_iff in E1 as [_ E1]. apply andb_true_iff in E2 as [_ E2]. apply Z.leb_le in E1, E2.
  apply same_ret. unfold samecnt. rewrite !splice_cnt by lia. exact E.
Qed.
Lemma upd_nth_same {A} (l : list A) n x l' : upd l n x = Some l' -> nth_error l' n = Some x.
Proof.
  revert n l'. induction l as [|h t IH]; intros n l'; [discriminate|]. destruct n; cbn [upd].
  - intros [= <-]. reflexivity.
  - destruct (upd t n x) eqn:E; [|discriminate]. intros [= <-]. cbn. eauto.
Qed.
Lemma l_get_cnt s t : samecnt s t -> same eq (aget s 25) (aget t 25).
Proof.
  intros E. unfold aget, samecnt in *. change (Z.to_nat 25) with 25%nat. rewrite E. apply same_refl.
Qed.
Lemma l_set_cnt s t x : same samecnt (aset s 25 x) (aset t 25 x).
Proof.
  unfold aset. apply (same_bind' any); [apply same_emit|]. intros _ _ _. change (25 <? 0) with false. cbv iota.
  change (Z.to_nat 25) with 25%nat.
  destruct (upd s _ _) eqn:E1; [|apply same_fail_l]. destruct (upd t _ _) eqn:E2; [|apply same_fail_r]. apply same_ret.
  unfold samecnt. now rewrite (upd_nth_same _ _ _ _ E1), (upd_nth_same _ _ _ _ E2).
Qed.
Lemma l_inc_init st st' : same samecnt (keccak_inc_init st) (keccak_inc_init st').
Proof. unfold keccak_inc_init. apply (same_bind' any); [leak|]. intros; apply l_set_cnt. Qed.
Lemma l_inc_absorb {bo : byte_order} st st' r m m' mlen : samecnt st st' ->
  same samecnt (keccak_inc_absorb st r m mlen) (keccak_inc_absorb st' r m' mlen).
Proof.
  intros E. unfold keccak_inc_absorb. eapply same_bind'; [apply l_get_cnt, E|]. intros c ? <-.
  apply (same_bind' (fun '(s, c, pos, l) '(s', c', pos', l') => samecnt s s' /\ c = c' /\ pos = pos' /\ l = l')).
  - apply same_while; [auto| |]; intros [[[a k] pos] l] [[[b k'] pos'] l'] (H & <- & <- & <-); [reflexivity|].
    cbv zeta. eapply same_bind'; [apply same_aslice|]. intros d d' _.
    eapply same_bind'; [apply l_on_cnt; [exact H|intros; apply l_xor]|]. intros s1 t1 H1.
    eapply same_bind'; [apply l_set_cnt|]. intros s2 t2 H2.
    eapply same_bind'; [apply l_on_cnt; [exact H2|intros; apply l_permute]|]. intros s3 t3 H3.
    eapply same_bind'; [apply l_get_cnt, H3|]. intros c3 ? <-. now apply same_ret.
  - intros [[[a k] pos] l] [[[b k'] pos'] l'] (H & <- & <- & <-).
    eapply same_bind'; [apply same_aslice|]. intros d d' _.
    eapply same_bind'; [apply l_on_cnt; [exact H|intros; apply l_xor]|]. intros s1 t1 H1. apply l_set_cnt.
Qed.
Lemma l_inc_finalize {bo : byte_order} st st' r p : samecnt st st' -> same samecnt (keccak_inc_finalize st r p) (keccak_inc_finalize st' r p).
Proof.
  intros E. unfold keccak_inc_finalize. eapply same_bind'; [apply l_get_cnt, E|]. intros c ? <-.
  apply (same_bind' any); [|intros; apply l_set_cnt]. cbv zeta. apply same_branch.
  - apply l_on. intros; apply l_xor.
  - eapply same_bind'; [apply l_on; intros; apply l_xor|]. intros. apply l_on. intros; apply l_xor.
Qed.
Lemma l_inc_squeeze {bo : byte_order} h h' outlen st st' r : samecnt st st' ->
  same any (keccak_inc_squeeze h outlen st r) (keccak_inc_squeeze h' outlen st' r).
Proof.
  intros E. unfold keccak_inc_squeeze. eapply same_bind'; [apply l_get_cnt, E|]. intros c ? <-.
  leak_step. leak_step. leak_step. leak_step. leak_step. cbv zeta. leak_step.
  apply (same_bind' (fun '(_, pos, l, _) '(_, pos', l', _) => pos = pos' /\ l = l')).
  - apply same_while; [auto| |]; intros [[[? pos0] n] ?] [[[? pos'] n'] ?] (<- & <-); [reflexivity|].
    apply (same_bind' any); [apply l_on; intros; apply l_permute|]. intros ? ? _.
    leak. now apply same_ret.
  - intros [[[? ?] ?] ?] [[[? ?] ?] ?] _. leak.
Qed.
Lemma l_sponge {bo : byte_order} J J' h h' outlen m m' mlen r p : same any
  (st <- keccak_inc_init (uninit_inc J) ;; st <- keccak_inc_absorb st r m mlen ;;
   st <- keccak_inc_finalize st r p ;; '(output, _) <- keccak_inc_squeeze h outlen st r ;; ret output)
  (st <- keccak_inc_init (uninit_inc J') ;; st <- keccak_inc_absorb st r m' mlen ;;
   st <- keccak_inc_finalize st r p ;; '(output, _) <- keccak_inc_squeeze h' outlen st r ;; ret output).
Proof.
  apply (same_bind' samecnt); [apply l_inc_init|]. intros a b E1.
  apply (same_bind' samecnt); [now apply l_inc_absorb|]. intros a' b' E2.
  apply (same_bind' samecnt); [now apply l_inc_finalize|]. intros a2 b2 E3.
  apply (same_bind' any); [now apply l_inc_squeeze|]. intros [? ?] [? ?] _. leak.
Qed.
Lemma l_shake256 {bo : byte_order} J J' h h' n m m' mlen : same any (shake256 J h n m mlen) (shake256 J' h' n m' mlen).
Proof. apply l_sponge. Qed.
Lemma l_sha3_256 {bo : byte_order} J J' h h' m m' mlen : same any (sha3_256 J h m mlen) (sha3_256 J' h' m' mlen).
Proof. apply l_sponge. Qed.
Lemma l_sha3_512 {bo : byte_order} J J' h h' m m' mlen : same any (sha3_512 J h m mlen) (sha3_512 J' h' m' mlen).
Proof. apply l_sponge. Qed.
Lemma l_hash_h {bo : byte_order} J J' h h' m m' mlen : same any (hash_h J h m mlen) (hash_h J' h' m' mlen).
Proof. apply l_sponge. Qed.
Lemma l_hash_g {bo : byte_order} J J' h h' m m' mlen : same any (hash_g J h m mlen) (hash_g J' h' m' mlen).
Proof. apply l_sponge. Qed.
#[export] Hint Resolve l_absorb l_shake256 l_hash_h l_hash_g : leak.
Lemma l_prf {bo : byte_order} J J' h h' n k k' x x' : same any (mlkem_shake256_prf J h n k x) (mlkem_shake256_prf J' h' n k' x').
Proof. unfold mlkem_shake256_prf. leak. Qed.
Lemma l_rkprf {bo : byte_order} J J' p h h' k k' c c' : same any (mlkem_shake256_rkprf J p h k c) (mlkem_shake256_rkprf J' p h' k' c').
Proof.
  unfold mlkem_shake256_rkprf.
  apply (same_bind' samecnt); [apply l_inc_init|]. intros a b E1.
  apply (same_bind' samecnt); [now apply l_inc_absorb|]. intros a' b' E2.
  apply (same_bind' samecnt); [now apply l_inc_absorb|]. intros a1 b1 E2'.
  apply (same_bind' samecnt); [now apply l_inc_finalize|]. intros a2 b2 E3.
  apply (same_bind' any); [now apply l_inc_squeeze|]. intros [? ?] [? ?] _. leak.
Qed.
#[export] Hint Resolve l_prf l_rkprf : leak.

(** four-way *)
Lemma l_extract4 {bo : byte_order} s s' d0 d1 d2 d3 d0' d1' d2' d3' off len :
  same any (KeccakF1600x4_StateExtractBytes s d0 d1 d2 d3 off len) (KeccakF1600x4_StateExtractBytes s' d0' d1' d2' d3' off len).
Proof. unfold KeccakF1600x4_StateExtractBytes. leak. Qed.
Lemma l_xor4 {bo : byte_order} s s' d0 d1 d2 d3 d0' d1' d2' d3' off len :
  same any (KeccakF1600x4_StateXORBytes s d0 d1 d2 d3 off len) (KeccakF1600x4_StateXORBytes s' d0' d1' d2' d3' off len).
Proof.
  unfold KeccakF1600x4_StateXORBytes.
  do 3 (apply (same_bind' any); [apply l_on; intros; apply l_xor|intros ? ? _]). apply l_on; intros; apply l_xor.
Qed.
Lemma l_permute4 s s' : same any (KeccakF1600x4_StatePermute s) (KeccakF1600x4_StatePermute s').
Proof.
  unfold KeccakF1600x4_StatePermute.
  do 3 (apply (same_bind' any); [apply l_on; intros; apply l_permute|intros ? ? _]). apply l_on; intros; apply l_permute.
Qed.
#[export] Hint Resolve l_extract4 l_xor4 l_permute4 : leak.
Lemma l_absorb4 {bo : byte_order} s s' r m0 m1 m2 m3 m0' m1' m2' m3' mlen p :
  same any (keccak_absorb_x4 s r m0 m1 m2 m3 mlen p) (keccak_absorb_x4 s' r m0' m1' m2' m3' mlen p).
Proof.
  unfold keccak_absorb_x4. apply (same_bind' (fun '(_, pos, l) '(_, pos', l') => pos = pos' /\ l = l')).
  - apply same_while; [now split| |]; intros [[a pos] l] [[b pos'] l'] [<- <-]; [reflexivity|]. leak. now apply same_ret.
  - intros [[a pos] l] [[b pos'] l'] [<- <-]. apply (same_bind' any); [|intros; leak]. leak.
Qed.
#[export] Hint Resolve l_absorb4 : leak.
Lemma l_squeezeblocks4 {bo : byte_order} h0 h1 h2 h3 h0' h1' h2' h3' nb s s' r :
  same any (keccak_squeezeblocks_x4 h0 h1 h2 h3 nb s r) (keccak_squeezeblocks_x4 h0' h1' h2' h3' nb s' r).
Proof.
  unfold keccak_squeezeblocks_x4.
  apply (same_bind' (fun '(_, pos, n, _) '(_, pos', n', _) => pos = pos' /\ n = n')).
  - apply same_while; [now split| |]; intros [[[[[[? ?] ?] ?] pos] n] s1] [[[[[[? ?] ?] ?] pos'] n'] s2] [<- <-]; [reflexivity|].
    leak. now apply same_ret.
  - intros [[[? ?] ?] ?] [[[? ?] ?] ?] _. leak.
Qed.
Lemma l_shake256x4_absorb {bo : byte_order} m0 m1 m2 m3 m0' m1' m2' m3' mlen :
  same any (shake256x4_absorb m0 m1 m2 m3 mlen) (shake256x4_absorb m0' m1' m2' m3' mlen).
Proof. unfold shake256x4_absorb. leak. Qed.
Lemma l_shake256x4_squeeze {bo : byte_order} h0 h1 h2 h3 h0' h1' h2' h3' nb s s' :
  same any (shake256x4_squeezeblocks h0 h1 h2 h3 nb s) (shake256x4_squeezeblocks h0' h1' h2' h3' nb s').
Proof. apply l_squeezeblocks4. Qed.
#[export] Hint Resolve l_shake256x4_absorb l_shake256x4_squeeze : leak.
Lemma l_shake256x4 {bo : byte_order} J J' h0 h1 h2 h3 h0' h1' h2' h3' n m0 m1 m2 m3 m0' m1' m2' m3' mlen :
  same any (shake256x4 J h0 h1 h2 h3 n m0 m1 m2 m3 mlen) (shake256x4 J' h0' h1' h2' h3' n m0' m1' m2' m3' mlen).
Proof. unfold shake256x4. leak. Qed.
#[export] Hint Resolve l_shake256x4 : leak.

(** ** Public data computed in both runs from the same bytes but different uninitialised memory *)
Lemma l_extract_eq {bo : byte_order} s d d' r : 0 <= r -> zlen d = r -> zlen d' = r ->
  same (fun a b => a = b /\ zlen a = r) (KeccakF1600_StateExtractBytes s d 0 r) (KeccakF1600_StateExtractBytes s d' 0 r).
Proof.
  intros Hr L1 L2. destruct bo; unfold KeccakF1600_StateExtractBytes, KeccakF1600_StateExtractBytes_le, KeccakF1600_StateExtractBytes_be;
    (apply (same_mono (agree r r));
    [ apply (same_for_to (agree r)); [exact Hr|now apply agree_0|]; intros j s1 s2 E; leak_step; now apply same_aset_next
    | intros a b E; split; [apply (agree_all r r a b E); lia|exact (proj1 E)] ]).
Qed.
Definition squeezed L (x y : list Z * Z * Z * list Z) r n : Prop :=
  let '(h, pos, nb, s) := x in let '(h', pos', nb', s') := y in
  pos = pos' /\ nb = nb' /\ s = s' /\ agree L pos h h' /\ pos = (n - nb) * r /\ 0 <= nb.
Lemma l_squeezeblocks {bo : byte_order} h h' n s r L : 0 <= r -> 0 <= n -> zlen h = L -> zlen h' = L -> L <= n * r ->
  same eq (keccak_squeezeblocks h n s r) (keccak_squeezeblocks h' n s r).
Proof.
  intros Hr Hn L1 L2 HL. unfold keccak_squeezeblocks.
  apply (same_bind' (fun x y => squeezed L x y r n /\ (let '(_, _, nb, _) := x in 0 <? nb) = false)).
  - apply same_while_exit.
    + repeat split; auto; lia.
    + intros [[[a pos] nb] t] [[[b pos'] nb'] t'] (<- & <- & _). reflexivity.
    + intros [[[a pos] nb] t] [[[b pos'] nb'] t'] (<- & <- & <- & E & EP & Hb) C. leak_step.
      eapply same_bind'; [apply same_aslice|]. intros d1 d2 [D1 D2].
      eapply same_bind'; [now apply l_extract_eq|]. intros e1 e2 [<- HE].
      eapply same_bind'; [apply same_asplice_next, E|]. intros k1 k2 K. apply same_ret. rewrite HE in K.
      apply Z.ltb_lt in C. split; [reflexivity|]. split; [reflexivity|]. split; [reflexivity|]. split; [exact K|].
      split; [rewrite EP; ring|lia].
  - intros [[[a pos] nb] t] [[[b pos'] nb'] t'] ((<- & <- & <- & E & EP & Hb) & C). apply same_ret.
    apply Z.ltb_ge in C. f_equal. apply (agree_all L pos); auto. replace nb with 0 in EP by lia. lia.
Qed.
Definition squeezed4 L (x y : x4 (list Z) * Z * Z * list Z) r n : Prop :=
  let '((h0, h1, h2, h3), pos, nb, s) := x in let '((g0, g1, g2, g3), pos', nb', s') := y in
  pos = pos' /\ nb = nb' /\ s = s' /\ agree L pos h0 g0 /\ agree L pos h1 g1 /\ agree L pos h2 g2 /\ agree L pos h3 g3 /\
  pos = (n - nb) * r /\ 0 <= nb.
Lemma l_squeezeblocks4_eq {bo : byte_order} h0 h1 h2 h3 g0 g1 g2 g3 n s r L : 0 <= r -> 0 <= n ->
  zlen h0 = L -> zlen h1 = L -> zlen h2 = L -> zlen h3 = L -> zlen g0 = L -> zlen g1 = L -> zlen g2 = L -> zlen g3 = L ->
  L <= n * r ->
  same eq (keccak_squeezeblocks_x4 h0 h1 h2 h3 n s r) (keccak_squeezeblocks_x4 g0 g1 g2 g3 n s r).
Proof.
  intros Hr Hn L0 L1 L2 L3 M0 M1 M2 M3 HL. unfold keccak_squeezeblocks_x4.
  apply (same_bind' (fun x y => squeezed4 L x y r n /\ (let '(_, _, nb, _) := x in 0 <? nb) = false)).
  - apply same_while_exit.
    + do 3 (split; [reflexivity|]). do 4 (split; [now apply agree_0|]). lia.
    + intros [[[[[[? ?] ?] ?] pos] nb] t] [[[[[[? ?] ?] ?] pos'] nb'] t'] (<- & <- & _). reflexivity.
    + intros [[[[[[a0 a1] a2] a3] pos] nb] t] [[[[[[b0 b1] b2] b3] pos'] nb'] t'] (<- & <- & <- & E0 & E1 & E2 & E3 & EP & Hb) C.
      leak_step.
      eapply same_bind'; [apply same_aslice|]. intros d0 d0' [D0 D0'].
      eapply same_bind'; [apply same_aslice|]. intros d1 d1' [D1 D1'].
      eapply same_bind'; [apply same_aslice|]. intros d2 d2' [D2 D2'].
      eapply same_bind'; [apply same_aslice|]. intros d3 d3' [D3 D3'].
      apply (same_bind' (fun '(e0, e1, e2, e3) f => (e0, e1, e2, e3) = f /\ zlen e0 = r /\ zlen e1 = r /\ zlen e2 = r /\ zlen e3 = r)).
      { unfold KeccakF1600x4_StateExtractBytes.
        eapply same_bind'; [apply same_refl|]. intros s0 ? <-.
        eapply same_bind'; [now apply l_extract_eq|]. intros e0 f0 [<- X0].
        eapply same_bind'; [apply same_refl|]. intros s1 ? <-.
        eapply same_bind'; [now apply l_extract_eq|]. intros e1 f1 [<- X1].
        eapply same_bind'; [apply same_refl|]. intros s2 ? <-.
        eapply same_bind'; [now apply l_extract_eq|]. intros e2 f2 [<- X2].
        eapply same_bind'; [apply same_refl|]. intros s3 ? <-.
        eapply same_bind'; [now apply l_extract_eq|]. intros e3 f3 [<- X3].
        apply same_ret. auto. }
      intros [[[e0 e1] e2] e3] f (<- & X0 & X1 & X2 & X3).
      eapply same_bind'; [apply same_asplice_next, E0|]. intros k0 k0' K0. rewrite X0 in K0.
      eapply same_bind'; [apply same_asplice_next, E1|]. intros k1 k1' K1. rewrite X1 in K1.
      eapply same_bind'; [apply same_asplice_next, E2|]. intros k2 k2' K2. rewrite X2 in K2.
      eapply same_bind'; [apply same_asplice_next, E3|]. intros k3 k3' K3. rewrite X3 in K3.
      apply same_ret. apply Z.ltb_lt in C. do 3 (split; [reflexivity|]).
      do 4 (split; [assumption|]). split; [rewrite EP; ring|lia].
  - intros [[[[[[a0 a1] a2] a3] pos] nb] t] [[[[[[b0 b1] b2] b3] pos'] nb'] t'] ((<- & <- & <- & E0 & E1 & E2 & E3 & EP & Hb) & C).
    apply same_ret. apply Z.ltb_ge in C. replace nb with 0 in EP by lia.
    assert (HP : L <= pos) by lia.
    rewrite (agree_all L pos _ _ E0 HP), (agree_all L pos _ _ E1 HP), (agree_all L pos _ _ E2 HP), (agree_all L pos _ _ E3 HP).
    reflexivity.
Qed.

(** ** Decompression of public ciphertexts *)
Ltac leak_next H := eapply same_bind'; [apply same_aset_next; exact H|clear H; intros ? ? H].
Ltac pub := cbv beta zeta; match goal with
  | |- same _ (bind ?m _) (bind ?m _) => eapply same_bind'; [apply same_refl|intros ? ? <-]
  end.
Lemma uninit_agree J J' t n : 0 <= n -> agree n 0 (uninit J t n) (uninit J' t n).
Proof. intros. apply agree_0; now apply zlen_uninit. Qed.
Lemma l_decompress_du J J' p r r' a : same any (poly_decompress_du J p r a) (poly_decompress_du J' p r' a).
Proof.
  unfold poly_decompress_du. destruct p; apply same_for_any; intros j s t; repeat pub.
  - pose proof (uninit_agree (sub J j) (sub J' j) 0 4 ltac:(lia)) as H.
    do 4 leak_next H. apply agree_all in H; [subst|lia]. leak.
  - pose proof (uninit_agree (sub J j) (sub J' j) 0 4 ltac:(lia)) as H.
    do 4 leak_next H. apply agree_all in H; [subst|lia]. leak.
  - pose proof (uninit_agree (sub J j) (sub J' j) 0 8 ltac:(lia)) as H.
    do 8 leak_next H. apply agree_all in H; [subst|lia]. leak.
Qed.
Lemma l_decompress_dv J J' p r r' a : same any (poly_decompress_dv J p r a) (poly_decompress_dv J' p r' a).
Proof.
  unfold poly_decompress_dv. apply (same_bind' any); [|intros; leak].
  destruct p; apply same_for_any; intros j s t; repeat pub; [leak|leak|].
  pose proof (uninit_agree (sub J j) (sub J' j) 0 8 ltac:(lia)) as H.
  do 8 leak_next H. apply agree_all in H; [subst|lia]. leak.
Qed.
#[export] Hint Resolve l_decompress_du l_decompress_dv : leak.
Lemma l_polyvec_decompress J J' p r r' a : same any (polyvec_decompress_du J p r a) (polyvec_decompress_du J' p r' a).
Proof. unfold polyvec_decompress_du. leak. Qed.
#[export] Hint Resolve l_polyvec_decompress : leak.
Lemma l_unpack_ciphertext J J' p b b' v v' c : same any (unpack_ciphertext J p b v c) (unpack_ciphertext J' p b' v' c).
Proof. unfold unpack_ciphertext. leak. Qed.

(** ** Rejection sampling of the public matrix *)
Lemma l_rej r r' target offset buf buflen :
  same same2 (rej_uniform r target offset buf buflen) (rej_uniform r' target offset buf buflen).
Proof.
  unfold rej_uniform, rej_uniform_scalar.
  apply (same_bind' (fun '(_, c, pos) '(_, c', pos') => c = c' /\ pos = pos')).
  - apply same_while; [now split| |]; intros [[a c] pos] [[b c'] pos'] [<- <-]; [reflexivity|].
    repeat pub. apply (same_bind' same2).
    { apply same_branch; [leak; now apply same_ret|now apply same_ret]. }
    intros [? k1] [? k2] E. cbv [same2 snd] in E. subst k2.
    apply (same_bind' same2).
    { apply same_branch; [leak; now apply same_ret|now apply same_ret]. }
    intros [? k2] [? k3] E. cbv [same2 snd] in E. subst k3. now apply same_ret.
  - intros [[a c] pos] [[b c'] pos'] [<- <-]. now apply same_ret.
Qed.
Ltac rej := eapply same_bind'; [apply l_rej|]; let E := fresh in intros [? ?] [? ?] E; cbv [same2 snd] in E; subst.
Lemma l_shake128_absorb {bo : byte_order} J J' t seed n :
  same eq (shake128_absorb (uninit J t 25) seed n) (shake128_absorb (uninit J' t 25) seed n).
Proof.
  unfold shake128_absorb. apply (same_bind' eq); [|intros a b <-; apply same_refl].
  apply (same_mono (agree 25 25)).
  - apply (same_for_to (agree 25)); [lia|now apply uninit_agree|]. intros j s1 s2 E. now apply same_aset_next.
  - intros a b E. apply (agree_all 25 25 a b E). lia.
Qed.
Lemma l_gen_matrix_entry {bo : byte_order} J J' fuel e e' seed : same any (gen_matrix_entry J fuel e seed) (gen_matrix_entry J' fuel e' seed).
Proof.
  unfold gen_matrix_entry. eapply same_bind'; [apply l_shake128_absorb|]. intros s s' <-.
  eapply same_bind'.
  { apply (l_squeezeblocks _ _ _ _ _ (MLKEM_GEN_MATRIX_NBLOCKS * SHAKE128_RATE)); try (vm_compute; discriminate);
      try (apply zlen_uninit; vm_compute; discriminate). }
  intros [buf st] ? <-. rej.
  apply (same_bind' (fun '(s, b, c, _) '(s', b', c', _) => s = s' /\ b = b' /\ c = c')).
  - apply same_while; [auto| |]; intros [[[a b] c] x] [[[a' b'] c'] x'] (<- & <- & <-); [reflexivity|].
    pub. destruct a0 as [? ?]. rej. now apply same_ret.
  - intros [[[a b] c] x] [[[a' b'] c'] x'] _. leak.
Qed.
Lemma l_gen_matrix_entry_x4 {bo : byte_order} J J' fuel v v' seed :
  same any (gen_matrix_entry_x4 J fuel v seed) (gen_matrix_entry_x4 J' fuel v' seed).
Proof.
  unfold gen_matrix_entry_x4. do 5 pub.
  eapply same_bind'.
  { apply (l_squeezeblocks4_eq _ _ _ _ _ _ _ _ _ _ _ (MLKEM_GEN_MATRIX_NBLOCKS * SHAKE128_RATE)); try (vm_compute; discriminate);
      try (apply zlen_uninit; vm_compute; discriminate). }
  intros [[[[b0 b1] b2] b3] st] ? <-. do 4 leak_step. do 4 rej.
  apply (same_bind' (fun '(s, b, c, _) '(s', b', c', _) => s = s' /\ b = b' /\ c = c')).
  - apply same_while; [auto| |].
    + intros [[[? ?] [[[? ?] ?] ?]] ?] [[[? ?] [[[? ?] ?] ?]] ?] (<- & <- & E). injection E as <- <- <- <-. reflexivity.
    + intros [[[? [[[? ?] ?] ?]] [[[? ?] ?] ?]] [[[? ?] ?] ?]] [[[? [[[? ?] ?] ?]] [[[? ?] ?] ?]] [[[? ?] ?] ?]] (<- & E & E').
      injection E as <- <- <- <-. injection E' as <- <- <- <-.
      pub. match goal with x : (x4 (list Z) * list Z)%type |- _ => destruct x as [[[[? ?] ?] ?] ?] end.
      do 4 rej. now apply same_ret.
  - intros [[[? ?] ?] [[[? ?] ?] ?]] [[[? ?] ?] [[[? ?] ?] ?]] _. leak.
Qed.
#[export] Hint Resolve l_unpack_ciphertext l_gen_matrix_entry l_gen_matrix_entry_x4 : leak.

(** the four extended seeds: element [k] of both arrays has length 34 and agrees on its first [g k] bytes *)
Definition rows (g : Z -> Z) (l1 l2 : list (list Z)) : Prop :=
  zlen l1 = 4 /\ zlen l2 = 4 /\
  forall k x y, 0 <= k -> nth_error l1 (Z.to_nat k) = Some x -> nth_error l2 (Z.to_nat k) = Some y -> agree 34 (g k) x y.
Lemma rows_le g g' l1 l2 : rows g l1 l2 -> (forall k, 0 <= k < 4 -> g' k <= g k) -> rows g' l1 l2.
Proof.
  intros (L1 & L2 & R) H. split; [|split]; auto. intros k x y Hk E1 E2. eapply agree_le; [eapply R; eauto|]. apply H.
  unfold zlen in L1. assert (nth_error l1 (Z.to_nat k) <> None) by congruence. apply nth_error_Some in H0. lia.
Qed.
Lemma rows_aget g l1 l2 i : rows g l1 l2 -> same (agree 34 (g i)) (aget l1 i) (aget l2 i).
Proof.
  intros (L1 & L2 & R). unfold aget. apply (same_bind' any); [apply same_emit|]. intros _ _ _.
  destruct (Z.ltb_spec i 0); [apply same_fail_l|].
  destruct (nth_error l1 _) eqn:E1; [|apply same_fail_l]. destruct (nth_error l2 _) eqn:E2; [|apply same_fail_r].
  apply same_ret. eapply R; eauto.
Qed.
Lemma upd_nth {A} (l : list A) n x l' k : upd l n x = Some l' ->
  nth_error l' k = if Nat.eqb k n then Some x else nth_error l k.
Proof.
  revert n l' k. induction l as [|h t IH]; intros n l' k; [discriminate|]. destruct n; cbn [upd].
  - intros [= <-]. destruct k; reflexivity.
  - destruct (upd t n x) eqn:E; [|discriminate]. intros [= <-]. destruct k; [reflexivity|]. cbn. eauto.
Qed.
Lemma rows_aset g l1 l2 i n x y : rows g l1 l2 -> agree 34 n x y ->
  same (rows (fun k => if k =? i then n else g k)) (aset l1 i x) (aset l2 i y).
Proof.
  intros (L1 & L2 & R) HA. unfold aset. apply (same_bind' any); [apply same_emit|]. intros _ _ _.
  destruct (Z.ltb_spec i 0); [apply same_fail_l|].
  destruct (upd l1 _ _) eqn:E1; [|apply same_fail_l]. destruct (upd l2 _ _) eqn:E2; [|apply same_fail_r].
  apply same_ret. unfold rows, zlen in *. rewrite (upd_length _ _ _ _ E1), (upd_length _ _ _ _ E2).
  split; [|split]; auto. intros k u v Hk. rewrite (upd_nth _ _ _ _ _ E1), (upd_nth _ _ _ _ _ E2).
  destruct (Nat.eqb_spec (Z.to_nat k) (Z.to_nat i)), (Z.eqb_spec k i); try lia.
  - intros [= <-] [= <-]. exact HA.
  - now apply R.
Qed.
Lemma nth_error_ext {A} (l1 l2 : list A) : (forall n, nth_error l1 n = nth_error l2 n) -> l1 = l2.
Proof.
  revert l2. induction l1 as [|h t IH]; intros [|h' t'] H; auto; try (specialize (H 0%nat); discriminate).
  pose proof (H 0%nat) as H0. injection H0 as <-. f_equal. apply IH. intros n. exact (H (S n)).
Qed.
Lemma rows_eq l1 l2 : rows (fun _ => 34) l1 l2 -> l1 = l2.
Proof.
  intros (L1 & L2 & R). unfold zlen in *. apply nth_error_ext. intros n.
  destruct (nth_error l1 n) eqn:E1, (nth_error l2 n) eqn:E2; auto.
  - f_equal. apply (agree_all 34 34); [|lia]. apply (R (Z.of_nat n)); rewrite ?Nat2Z.id; auto; lia.
  - apply nth_error_None in E2. assert (nth_error l1 n <> None) by congruence. apply nth_error_Some in H. lia.
  - apply nth_error_None in E1. assert (nth_error l2 n <> None) by congruence. apply nth_error_Some in H. lia.
Qed.
Lemma l_set_xy s s' x y tr : agree 34 32 s s' -> same (agree 34 34) (set_xy s x y tr) (set_xy s' x y tr).
Proof.
  intros H. unfold set_xy. apply same_branch.
  - eapply same_bind'; [apply same_aset_next, H|]. intros. now apply same_aset_next.
  - eapply same_bind'; [apply same_aset_next, H|]. intros. now apply same_aset_next.
Qed.
Lemma l_gen_matrix {bo : byte_order} J J' fuel p a a' seed tr : same any (gen_matrix J fuel p a seed tr) (gen_matrix J' fuel p a' seed tr).
Proof.
  unfold gen_matrix. cbv zeta.
  apply (same_bind' (rows (fun _ => 32))).
  { apply (same_mono (rows (fun k => if k <? 4 then 32 else 0))).
    - apply (same_for_to (fun j => rows (fun k => if k <? j then 32 else 0))); [lia| |].
      + split; [|split]; try (apply zlen_uninit2; lia). intros k x y Hk E1 E2. destruct (Z.ltb_spec k 0); [lia|].
        unfold uninit2 in E1, E2. apply nth_error_In, in_map_iff in E1 as (i & <- & _).
        apply nth_error_In, in_map_iff in E2 as (i' & <- & _). apply agree_0; now apply zlen_uninit.
      + intros j s t H. eapply same_bind'; [apply rows_aget, H|]. intros x y E. cbv beta in E. rewrite Z.ltb_irrefl in E.
        eapply same_bind'; [apply same_memcpy_next, E|]. intros x1 y1 E1.
        eapply same_mono; [apply rows_aset; [exact H|exact E1]|]. intros l1 l2 G. eapply rows_le; [exact G|].
        intros k Hk. cbv beta. destruct (Z.eqb_spec k j), (Z.ltb_spec k (j+1)), (Z.ltb_spec k j); unfold MLKEM_SYMBYTES; lia.
    - intros l1 l2 G. eapply rows_le; [exact G|]. intros k Hk. cbv beta. destruct (Z.ltb_spec k 4); lia. }
  intros sx sx' HS.
  apply (same_bind' (fun x y => rows (fun _ => 32) (snd x) (snd y))).
  { apply same_for; [exact HS|]. intros i [b s] [b' t] HR. cbn [snd] in HR.
    apply (same_bind' (rows (fun _ => 34))).
    { apply (same_mono (rows (fun k => if k <? 4 then 34 else 32))).
      - apply (same_for_to (fun j => rows (fun k => if k <? j then 34 else 32))); [lia| |].
        + eapply rows_le; [exact HR|]. intros k Hk. destruct (Z.ltb_spec k 0); lia.
        + intros j s1 t1 H. do 2 pub. eapply same_bind'; [apply rows_aget, H|]. intros x y E. cbv beta in E. rewrite Z.ltb_irrefl in E.
          eapply same_bind'; [apply l_set_xy, E|]. intros x1 y1 E1.
          eapply same_mono; [apply rows_aset; [exact H|exact E1]|]. intros l1 l2 G. eapply rows_le; [exact G|].
          intros k Hk. cbv beta. destruct (Z.eqb_spec k j), (Z.ltb_spec k (j+1)), (Z.ltb_spec k j); lia.
      - intros l1 l2 G. eapply rows_le; [exact G|]. intros k Hk. cbv beta. destruct (Z.ltb_spec k 4); lia. }
    intros l1 l2 G. pose proof (rows_eq _ _ G) as <-. leak. apply same_ret. cbn [snd].
    eapply rows_le; [exact G|]. intros. lia. }
  intros [b s] [b' t] HR. cbn [snd] in HR. apply same_branch; [|leak].
  do 2 pub. eapply same_bind'; [apply rows_aget, HR|]. intros x y E.
  eapply same_bind'; [apply l_set_xy, E|]. intros x1 y1 E1. apply agree_all in E1; [subst y1|lia]. leak.
Qed.
#[export] Hint Resolve l_gen_matrix : leak.

(** ** Noise, packing and matrix-vector products: any data *)
Lemma l_extkeys J J' s s' n0 n1 n2 n3 n0' n1' n2' n3' : same any (extkeys_4x J s n0 n1 n2 n3) (extkeys_4x J' s' n0' n1' n2' n3').
Proof. unfold extkeys_4x. leak. Qed.
#[export] Hint Resolve l_extkeys : leak.
Lemma l_eta1_4x {bo : byte_order} J J' p r0 r1 r2 r3 r0' r1' r2' r3' s s' n0 n1 n2 n3 n0' n1' n2' n3' :
  same any (poly_getnoise_eta1_4x J p r0 r1 r2 r3 s n0 n1 n2 n3) (poly_getnoise_eta1_4x J' p r0' r1' r2' r3' s' n0' n1' n2' n3').
Proof. unfold poly_getnoise_eta1_4x. leak. Qed.
Lemma l_eta2_4x {bo : byte_order} J J' p r0 r1 r2 r3 r0' r1' r2' r3' s s' n0 n1 n2 n3 n0' n1' n2' n3' :
  same any (poly_getnoise_eta2_4x J p r0 r1 r2 r3 s n0 n1 n2 n3) (poly_getnoise_eta2_4x J' p r0' r1' r2' r3' s' n0' n1' n2' n3').
Proof. apply l_eta1_4x. Qed.
Lemma l_eta2 {bo : byte_order} J J' p r r' s s' n n' : same any (poly_getnoise_eta2 J p r s n) (poly_getnoise_eta2 J' p r' s' n').
Proof. unfold poly_getnoise_eta2. leak. Qed.
Lemma l_eta1122 {bo : byte_order} J J' p r0 r1 r2 r3 r0' r1' r2' r3' s s' n0 n1 n2 n3 n0' n1' n2' n3' :
  same any (poly_getnoise_eta1122_4x J p r0 r1 r2 r3 s n0 n1 n2 n3) (poly_getnoise_eta1122_4x J' p r0' r1' r2' r3' s' n0' n1' n2' n3').
Proof.
  unfold poly_getnoise_eta1122_4x. leak_step. cbv beta zeta; pairs.
  apply (same_bind' any); [destruct p; [leak|apply l_shake256x4|apply l_shake256x4]|]. intros ? ? _. leak.
Qed.
#[export] Hint Resolve l_eta1_4x l_eta2_4x l_eta2 l_eta1122 : leak.
Lemma l_get4 l l' : same any (get4 l) (get4 l').
Proof. unfold get4. leak. Qed.
#[export] Hint Resolve l_get4 : leak.
Lemma l_keypair_noise {bo : byte_order} J J' p s s' e e' k k' n n' : same any (keypair_noise J p s e k n) (keypair_noise J' p s' e' k' n').
Proof. unfold keypair_noise. destruct p; leak. Qed.
Lemma l_enc_noise {bo : byte_order} J J' p s s' e e' f f' b b' c c' : same any (enc_noise J p s e f b c) (enc_noise J' p s' e' f' b' c').
Proof. unfold enc_noise. destruct p; leak. Qed.
Lemma l_matvec J J' p o o' a a' v v' c c' : same any (matvec_mul J p o a v c) (matvec_mul J' p o' a' v' c').
Proof. unfold matvec_mul. leak. Qed.
Lemma l_pack_pk p r r' k k' s s' : same any (pack_pk p r k s) (pack_pk p r' k' s').
Proof. unfold pack_pk. leak. Qed.
Lemma l_pack_sk p r r' k k' : same any (pack_sk p r k) (pack_sk p r' k').
Proof. unfold pack_sk. leak. Qed.
Lemma l_unpack_sk p r r' k k' : same any (unpack_sk p r k) (unpack_sk p r' k').
Proof. unfold unpack_sk. leak. Qed.
Lemma l_pack_ciphertext J J' p r r' b b' v v' : same any (pack_ciphertext J p r b v) (pack_ciphertext J' p r' b' v').
Proof. unfold pack_ciphertext. leak. Qed.
#[export] Hint Resolve l_keypair_noise l_enc_noise l_matvec l_pack_pk l_pack_sk l_unpack_sk l_pack_ciphertext : leak.

(** ** mlkem/indcpa.c *)
Lemma l_unpack_pk p v v' J J' t k : same (fun x y => snd x = snd y) (unpack_pk p v (uninit J t 32) k) (unpack_pk p v' (uninit J' t 32) k).
Proof.
  unfold unpack_pk. leak_step. eapply same_bind'; [apply same_memcpy_next, uninit_agree; lia|]. intros x y E.
  apply agree_all in E; [subst y|unfold MLKEM_SYMBYTES; lia]. leak. now apply same_ret.
Qed.
Lemma l_indcpa_enc {bo : byte_order} J J' fuel p c c' m m' pk k k' : same any (indcpa_enc J fuel p c m pk k) (indcpa_enc J' fuel p c' m' pk k').
Proof.
  unfold indcpa_enc. cbv zeta. eapply same_bind'; [apply l_unpack_pk|]. intros [x sd] [y ?] E. cbn [snd] in E. subst. leak.
Qed.
Lemma l_indcpa_dec J J' p m m' c k k' : same any (indcpa_dec J p m c k) (indcpa_dec J' p m' c k').
Proof. unfold indcpa_dec. leak. Qed.
#[export] Hint Resolve l_indcpa_enc l_indcpa_dec : leak.
