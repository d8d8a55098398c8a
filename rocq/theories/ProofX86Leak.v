(** * Leakage of the functions of the x86_64 build *)

From Coq Require Import ZArith List Bool Lia.
From Verif Require Import CSem ModelArith ModelKeccak ModelIndcpa ModelKem ModelAvx2 ModelX86 ModelX86Asm ModelX86Poly
  ModelX86Keccak ModelX86Indcpa ModelX86Kem Spec202 CSemFacts ProofLeak ProofMatrix ProofLeakHash.
Import ListNotations.
Open Scope Z_scope.
#[local] Existing Instance LittleEndian.
Ltac Zify.zify_post_hook ::= idtac.

(** ** Assembly routines: the addresses depend on the program and the pointers only *)

(** the pointers and the trace after one instruction *)
Definition at_op (o : operand) (x : (gpr -> nat * Z) * list (nat * Z)) : (gpr -> nat * Z) * list (nat * Z) :=
  match o with Y _ => x | Mem b d => (fst x, (fst (fst x b), snd (fst x b) + d) :: snd x) end.
Definition walk1 (i : instr) (x : (gpr -> nat * Z) * list (nat * Z)) : (gpr -> nat * Z) * list (nat * Z) :=
  let set g p := (fun y => if gpr_eqb y g then p else fst x y) in
  match i with
  | load _ b d _ | store _ _ b d | vpbroadcastq b d _ => at_op (Mem b d) x
  | vpop _ o _ _ | vpermq _ o _ | vpermd o _ _ => at_op o x
  | lea b d dst => (set dst (fst (fst x b), snd (fst x b) + d), snd x)
  | add_imm n dst => (set dst (fst (fst x dst), snd (fst x dst) + n), snd x)
  | _ => x
  end.
Definition where_ {A} (st : state A) := (ptr st, trace st).

Section Walk.
Context {A S : Type} (D : domain A S).
Lemma w_set_reg (st st' : state A) n v : set_reg st n v = Some st' -> where_ st' = where_ st.
Proof. unfold set_reg. destruct (_ <? _)%nat; [|discriminate]. now intros [= <-]. Qed.
Lemma w_touch (st : state A) b d : where_ (touch st b d) = at_op (Mem b d) (where_ st).
Proof. unfold touch, where_. cbn. now destruct (ptr st b). Qed.
Lemma w_read (st st' : state A) al n b d v : read st al n b d = Some (v, st') -> where_ st' = at_op (Mem b d) (where_ st).
Proof.
  unfold read, obind. destruct (address _ _ _ _ _) as [[[? ?] ?]|]; [|discriminate]. intros [= _ <-]. apply w_touch.
Qed.
Lemma w_write (st st' : state A) al b d v : write st al b d v = Some st' -> where_ st' = at_op (Mem b d) (where_ st).
Proof.
  unfold write, obind. destruct (address _ _ _ _ _) as [[[? ?] ?]|]; [|discriminate]. intros [= <-].
  exact (w_touch st b d).
Qed.
Lemma w_source (st st' : state A) o v : source st o = Some (v, st') -> where_ st' = at_op o (where_ st).
Proof.
  destruct o; cbn [source]; [|apply w_read]. unfold obind. destruct (reg st n); [|discriminate]. now intros [= _ <-].
Qed.
Lemma w_move1 st (s : S) f src dst (st' : state A) s' : move1 st s f src dst = Some (st', s') -> where_ st' = where_ st.
Proof.
  unfold move1, obind. destruct (reg st src); [|discriminate]. destruct (set_reg st dst (f l)) eqn:E; [|discriminate].
  intros [= <- _]. exact (w_set_reg _ _ _ _ E).
Qed.
Lemma w_move2 st (s : S) f s2 s1 dst (st' : state A) s' : move2 st s f s2 s1 dst = Some (st', s') -> where_ st' = where_ st.
Proof.
  unfold move2, obind. destruct (reg st s2) as [b|]; [|discriminate]. destruct (reg st s1) as [a|]; [|discriminate].
  destruct (set_reg st dst (f b a)) eqn:E; [|discriminate]. intros [= <- _]. exact (w_set_reg _ _ _ _ E).
Qed.
Lemma w_exec i st s st' s' : exec D i st s = Some (st', s') -> where_ st' = walk1 i (where_ st).
Proof.
  destruct i; cbn [exec walk1]; unfold obind; try exact (w_move1 _ _ _ _ _ _ _); try exact (w_move2 _ _ _ _ _ _ _ _);
  try (destruct (_ =? _); [|discriminate]; destruct (d_zero D s); exact (w_move1 _ _ _ _ _ _ _)).
  - destruct (read _ _ _ _ _) as [[v st1]|] eqn:E; [|discriminate]. destruct (set_reg _ _ _) eqn:F; [|discriminate].
    intros [= <- _]. rewrite (w_set_reg _ _ _ _ F). exact (w_read _ _ _ _ _ _ _ E).
  - destruct (reg _ _); [|discriminate]. destruct (write _ _ _ _ _) eqn:E; [|discriminate]. intros [= <- _].
    exact (w_write _ _ _ _ _ _ E).
  - destruct (source _ _) as [[v st1]|] eqn:E; [|discriminate]. destruct (reg _ _); [|discriminate].
    destruct (lanes2 _ _ _ _). destruct (set_reg _ _ _) eqn:F; [|discriminate].
    intros [= <- _]. rewrite (w_set_reg _ _ _ _ F). exact (w_source _ _ _ _ E).
  - destruct (reg _ _); [|discriminate].
    destruct (lanes1 _ _ _). destruct (set_reg _ _ _) eqn:F; [|discriminate].
    intros [= <- _]. exact (w_set_reg _ _ _ _ F).
  - destruct (source _ _) as [[v st1]|] eqn:E; [|discriminate]. destruct (set_reg _ _ _) eqn:F; [|discriminate].
    intros [= <- _]. rewrite (w_set_reg _ _ _ _ F). exact (w_source _ _ _ _ E).
  - destruct (source _ _) as [[v st1]|] eqn:E; [|discriminate]. destruct (reg _ _); [|discriminate].
    destruct (controls _ _ _); [|discriminate]. destruct (set_reg _ _ _) eqn:F; [|discriminate].
    intros [= <- _]. rewrite (w_set_reg _ _ _ _ F). exact (w_source _ _ _ _ E).
  - destruct (reg _ src); [|discriminate]. destruct (reg _ _); [|discriminate]. destruct (controls _ _ _); [|discriminate].
    destruct (do_vpshufb _ _); [|discriminate]. destruct (set_reg _ _ _) eqn:F; [|discriminate].
    intros [= <- _]. exact (w_set_reg _ _ _ _ F).
  - destruct (read _ _ _ _ _) as [[v st1]|] eqn:E; [|discriminate]. destruct (set_reg _ _ _) eqn:F; [|discriminate].
    intros [= <- _]. rewrite (w_set_reg _ _ _ _ F). exact (w_read _ _ _ _ _ _ _ E).
  - unfold where_. cbn [fst snd]. destruct (ptr st b) as [a off]. intros [= <- _]. reflexivity.
  - unfold where_. cbn [fst snd]. destruct (ptr st dst) as [a off]. intros [= <- _]. reflexivity.
Qed.
Lemma w_run p st s st' s' : run D p st s = Some (st', s') -> where_ st' = fold_left (fun x i => walk1 i x) p (where_ st).
Proof.
  revert st s. induction p as [|i p IH]; intros st s; cbn [run fold_left]; [now intros [= <- _]|]. unfold obind.
  destruct (exec D i st s) as [[st1 s1]|] eqn:E; [|discriminate]. rewrite <- (w_exec _ _ _ _ _ E). apply IH.
Qed.
End Walk.
Lemma w_run_words p regs ptrs arrays st : run_words p regs ptrs arrays = Some st ->
  trace st = snd (fold_left (fun x i => walk1 i x) p (ptrs, [])).
Proof.
  unfold run_words, obind. destruct (run _ _ _ _) as [[st' ?]|] eqn:E; [|discriminate]. intros [= <-].
  apply w_run in E. exact (f_equal snd E).
Qed.
Lemma l_call J J' p ar ar' : same any (call J p ar) (call J' p ar').
Proof.
  unfold call. destruct (run_words p _ _ ar) eqn:E1; [|apply same_fail_l].
  destruct (run_words p _ _ ar') eqn:E2; [|apply same_fail_r]. intros _ _. cbn [fst snd].
  rewrite (w_run_words _ _ _ _ _ E1), (w_run_words _ _ _ _ _ E2). split; [reflexivity|exact I].
Qed.
#[export] Hint Resolve l_call : leak.
Lemma l_call_rdi J J' p ar ar' : same any (call_rdi J p ar) (call_rdi J' p ar').
Proof. unfold call_rdi. leak. Qed.
#[export] Hint Resolve l_call_rdi : leak.

(** ** mlkem/ntt.c, poly.c, polyvec.c, native/x86_64/basemul.c *)
Lemma l_ntt_x86 J J' r r' : same any (poly_ntt_x86_64 J r) (poly_ntt_x86_64 J' r').
Proof. unfold poly_ntt_x86_64. leak. Qed.
Lemma l_invntt_x86 J J' r r' : same any (poly_invntt_tomont_x86_64 J r) (poly_invntt_tomont_x86_64 J' r').
Proof. unfold poly_invntt_tomont_x86_64. leak. Qed.
Lemma l_tobytes_x86 J J' r r' a a' : same any (poly_tobytes_x86_64 J r a) (poly_tobytes_x86_64 J' r' a').
Proof. unfold poly_tobytes_x86_64. leak. Qed.
Lemma l_frombytes_x86 J J' r r' a a' : same any (poly_frombytes_x86_64 J r a) (poly_frombytes_x86_64 J' r' a').
Proof. unfold poly_frombytes_x86_64. leak. Qed.
Lemma l_tomont_x86 J J' r r' : same any (poly_tomont_x86_64 J r) (poly_tomont_x86_64 J' r').
Proof. unfold poly_tomont_x86_64. leak. Qed.
Lemma l_reduce_x86 J J' r r' : same any (poly_reduce_x86_64 J r) (poly_reduce_x86_64 J' r').
Proof. unfold poly_reduce_x86_64. leak. Qed.
Lemma l_mulcache_x86 x x' a a' : same any (poly_mulcache_compute_x86_64 x a) (poly_mulcache_compute_x86_64 x' a').
Proof. unfold poly_mulcache_compute_x86_64. leak. Qed.
Lemma l_permute_custom J J' r r' : same any (poly_permute_bitrev_to_custom J r) (poly_permute_bitrev_to_custom J' r').
Proof. unfold poly_permute_bitrev_to_custom. leak. Qed.
Lemma l_basemul_avx2 J J' r r' a a' b b' : same any (poly_basemul_montgomery_avx2 J r a b) (poly_basemul_montgomery_avx2 J' r' a' b').
Proof. unfold poly_basemul_montgomery_avx2. leak. Qed.
Lemma l_add_avx2 r r' b b' : same any (poly_add_avx2 r b) (poly_add_avx2 r' b').
Proof. unfold poly_add_avx2. leak. Qed.
#[export] Hint Resolve l_ntt_x86 l_invntt_x86 l_tobytes_x86 l_frombytes_x86 l_tomont_x86 l_reduce_x86 l_mulcache_x86
  l_permute_custom l_basemul_avx2 l_add_avx2 : leak.
Lemma l_basemul_acc_avx2 J J' p r r' a a' b b' : same any (polyvec_basemul_acc_montgomery_cached_avx2 J p r a b)
  (polyvec_basemul_acc_montgomery_cached_avx2 J' p r' a' b').
Proof. unfold polyvec_basemul_acc_montgomery_cached_avx2. leak. Qed.
#[export] Hint Resolve l_basemul_acc_avx2 : leak.
Lemma l_polyvec_basemul_cached_x86 J J' p r r' a a' b b' c c' :
  same any (polyvec_basemul_acc_montgomery_cached_x86_64 J p r a b c) (polyvec_basemul_acc_montgomery_cached_x86_64 J' p r' a' b' c').
Proof. unfold polyvec_basemul_acc_montgomery_cached_x86_64. leak. Qed.
Lemma l_polyvec_tobytes_x86 J J' p r r' a a' : same any (polyvec_tobytes_x86_64 J p r a) (polyvec_tobytes_x86_64 J' p r' a').
Proof. unfold polyvec_tobytes_x86_64. leak. Qed.
Lemma l_polyvec_frombytes_x86 J J' p r r' a a' : same any (polyvec_frombytes_x86_64 J p r a) (polyvec_frombytes_x86_64 J' p r' a').
Proof. unfold polyvec_frombytes_x86_64. leak. Qed.
Lemma l_polyvec_ntt_x86 J J' p r r' : same any (polyvec_ntt_x86_64 J p r) (polyvec_ntt_x86_64 J' p r').
Proof. unfold polyvec_ntt_x86_64. leak. Qed.
Lemma l_polyvec_invntt_x86 J J' p r r' : same any (polyvec_invntt_tomont_x86_64 J p r) (polyvec_invntt_tomont_x86_64 J' p r').
Proof. unfold polyvec_invntt_tomont_x86_64. leak. Qed.
Lemma l_polyvec_mulcache_x86 p x x' a a' : same any (polyvec_mulcache_compute_x86_64 p x a) (polyvec_mulcache_compute_x86_64 p x' a').
Proof. unfold polyvec_mulcache_compute_x86_64. leak. Qed.
Lemma l_polyvec_reduce_x86 J J' p r r' : same any (polyvec_reduce_x86_64 J p r) (polyvec_reduce_x86_64 J' p r').
Proof. unfold polyvec_reduce_x86_64. leak. Qed.
Lemma l_polyvec_tomont_x86 J J' p r r' : same any (polyvec_tomont_x86_64 J p r) (polyvec_tomont_x86_64 J' p r').
Proof. unfold polyvec_tomont_x86_64. leak. Qed.
#[export] Hint Resolve l_polyvec_basemul_cached_x86 l_polyvec_tobytes_x86 l_polyvec_frombytes_x86 l_polyvec_ntt_x86
  l_polyvec_invntt_x86 l_polyvec_mulcache_x86 l_polyvec_reduce_x86 l_polyvec_tomont_x86 : leak.
Lemma l_polyvec_basemul_x86 J J' p r r' a a' b b' :
  same any (polyvec_basemul_acc_montgomery_x86_64 J p r a b) (polyvec_basemul_acc_montgomery_x86_64 J' p r' a' b').
Proof. unfold polyvec_basemul_acc_montgomery_x86_64. leak. Qed.
#[export] Hint Resolve l_polyvec_basemul_x86 : leak.

(** ** Four-way Keccak *)
Lemma l_gather s s' i : same any (gather s i) (gather s' i).
Proof. unfold gather. leak. Qed.
Lemma l_scatter s s' i v v' : same any (SCATTER_STORE256 s i v) (SCATTER_STORE256 s' i v').
Proof. unfold SCATTER_STORE256. leak. Qed.
#[export] Hint Resolve l_gather l_scatter : leak.
Lemma l_copyFromState s s' : same any (copyFromState s) (copyFromState s').
Proof. unfold copyFromState. leak. Qed.
Lemma l_copyToState s s' A A' : same any (copyToState s A) (copyToState s' A').
Proof.
  repeat match goal with x : lanes4 |- _ => unfold lanes4 in x | x : (_ * _)%type |- _ => destruct x end.
  unfold copyToState. leak.
Qed.
#[export] Hint Resolve l_copyFromState l_copyToState : leak.
Lemma l_permute24 s s' : same any (KeccakP1600times4_PermuteAll_24rounds s) (KeccakP1600times4_PermuteAll_24rounds s').
Proof.
  unfold KeccakP1600times4_PermuteAll_24rounds. apply (same_bind' any); [apply l_copyFromState|]. intros ? ? _. apply l_copyToState.
Qed.
#[export] Hint Resolve l_permute24 : leak.
Lemma l_permute4_x86 s s' : same any (KeccakF1600x4_StatePermute_x86_64 s) (KeccakF1600x4_StatePermute_x86_64 s').
Proof. apply l_permute24. Qed.
#[export] Hint Resolve l_permute4_x86 : leak.
Lemma l_absorb4_x86 s s' r m0 m1 m2 m3 m0' m1' m2' m3' mlen p :
  same any (keccak_absorb_x4_x86_64 s r m0 m1 m2 m3 mlen p) (keccak_absorb_x4_x86_64 s' r m0' m1' m2' m3' mlen p).
Proof.
  unfold keccak_absorb_x4_x86_64. apply (same_bind' (fun '(_, pos, l) '(_, pos', l') => pos = pos' /\ l = l')).
  - apply same_while; [now split| |]; intros [[a pos] l] [[b pos'] l'] [<- <-]; [reflexivity|]. leak. now apply same_ret.
  - intros [[a pos] l] [[b pos'] l'] [<- <-]. apply (same_bind' any); [|intros; leak]. leak.
Qed.
#[export] Hint Resolve l_absorb4_x86 : leak.
Lemma l_squeezeblocks4_x86 h0 h1 h2 h3 h0' h1' h2' h3' nb s s' r :
  same any (keccak_squeezeblocks_x4_x86_64 h0 h1 h2 h3 nb s r) (keccak_squeezeblocks_x4_x86_64 h0' h1' h2' h3' nb s' r).
Proof.
  unfold keccak_squeezeblocks_x4_x86_64.
  apply (same_bind' (fun '(_, pos, n, _) '(_, pos', n', _) => pos = pos' /\ n = n')).
  - apply same_while; [now split| |]; intros [[[[[[? ?] ?] ?] pos] n] s1] [[[[[[? ?] ?] ?] pos'] n'] s2] [<- <-]; [reflexivity|].
    leak. now apply same_ret.
  - intros [[[? ?] ?] ?] [[[? ?] ?] ?] _. leak.
Qed.
Lemma l_shake256x4_absorb_x86 m0 m1 m2 m3 m0' m1' m2' m3' mlen :
  same any (shake256x4_absorb_x86_64 m0 m1 m2 m3 mlen) (shake256x4_absorb_x86_64 m0' m1' m2' m3' mlen).
Proof. unfold shake256x4_absorb_x86_64. leak. Qed.
Lemma l_shake256x4_squeeze_x86 h0 h1 h2 h3 h0' h1' h2' h3' nb s s' :
  same any (shake256x4_squeezeblocks_x86_64 h0 h1 h2 h3 nb s) (shake256x4_squeezeblocks_x86_64 h0' h1' h2' h3' nb s').
Proof. apply l_squeezeblocks4_x86. Qed.
#[export] Hint Resolve l_shake256x4_absorb_x86 l_shake256x4_squeeze_x86 : leak.
Lemma l_shake256x4_x86 J J' h0 h1 h2 h3 h0' h1' h2' h3' n m0 m1 m2 m3 m0' m1' m2' m3' mlen :
  same any (shake256x4_x86_64 J h0 h1 h2 h3 n m0 m1 m2 m3 mlen) (shake256x4_x86_64 J' h0' h1' h2' h3' n m0' m1' m2' m3' mlen).
Proof. unfold shake256x4_x86_64. leak. Qed.
#[export] Hint Resolve l_shake256x4_x86 : leak.
Lemma l_squeezeblocks4_eq_x86 h0 h1 h2 h3 g0 g1 g2 g3 n s r L : 0 <= r -> 0 <= n ->
  zlen h0 = L -> zlen h1 = L -> zlen h2 = L -> zlen h3 = L -> zlen g0 = L -> zlen g1 = L -> zlen g2 = L -> zlen g3 = L ->
  L <= n * r ->
  same eq (keccak_squeezeblocks_x4_x86_64 h0 h1 h2 h3 n s r) (keccak_squeezeblocks_x4_x86_64 g0 g1 g2 g3 n s r).
Proof.
  intros Hr Hn L0 L1 L2 L3 M0 M1 M2 M3 HL. unfold keccak_squeezeblocks_x4_x86_64.
  apply (same_bind' (fun x y => squeezed4 L x y r n /\ (let '(_, _, nb, _) := x in 0 <? nb) = false)).
  - apply same_while_exit.
    + do 3 (split; [reflexivity|]). do 4 (split; [now apply agree_0|]). lia.
    + intros [[[[[[? ?] ?] ?] pos] nb] t] [[[[[[? ?] ?] ?] pos'] nb'] t'] (<- & <- & _). reflexivity.
    + intros [[[[[[a0 a1] a2] a3] pos] nb] t] [[[[[[b0 b1] b2] b3] pos'] nb'] t'] (<- & <- & <- & E0 & E1 & E2 & E3 & EP & Hb) C.
      leak_step.
      eapply same_bind'; [apply same_aslice|]. intros d0 d0' [D0 D0'].
      eapply same_bind'; [apply same_aslice|]. intros d1 d1' [D1 D1'].
      eapply same_bind'; [apply same_aslice|]. intros d2 d2' [D2 D2'].
      eapply same_bind'; [apply same_aslice|]. intros d3 d3' [D3 D3'].
      apply (same_bind' (fun '(e0, e1, e2, e3) f => (e0, e1, e2, e3) = f /\ zlen e0 = r /\ zlen e1 = r /\ zlen e2 = r /\ zlen e3 = r)).
      { unfold KeccakF1600x4_StateExtractBytes.
        eapply same_bind'; [apply same_refl|]. intros s0 ? <-.
        eapply same_bind'; [now apply l_extract_eq|]. intros e0 f0 [<- X0].
        eapply same_bind'; [apply same_refl|]. intros s1 ? <-.
        eapply same_bind'; [now apply l_extract_eq|]. intros e1 f1 [<- X1].
        eapply same_bind'; [apply same_refl|]. intros s2 ? <-.
        eapply same_bind'; [now apply l_extract_eq|]. intros e2 f2 [<- X2].
        eapply same_bind'; [apply same_refl|]. intros s3 ? <-.
        eapply same_bind'; [now apply l_extract_eq|]. intros e3 f3 [<- X3].
        apply same_ret. auto. }
      intros [[[e0 e1] e2] e3] f (<- & X0 & X1 & X2 & X3).
      eapply same_bind'; [apply same_asplice_next, E0|]. intros k0 k0' K0. rewrite X0 in K0.
      eapply same_bind'; [apply same_asplice_next, E1|]. intros k1 k1' K1. rewrite X1 in K1.
      eapply same_bind'; [apply same_asplice_next, E2|]. intros k2 k2' K2. rewrite X2 in K2.
      eapply same_bind'; [apply same_asplice_next, E3|]. intros k3 k3' K3. rewrite X3 in K3.
      apply same_ret. apply Z.ltb_lt in C. do 3 (split; [reflexivity|]).
      do 4 (split; [assumption|]). split; [rewrite EP; ring|lia].
  - intros [[[[[[a0 a1] a2] a3] pos] nb] t] [[[[[[b0 b1] b2] b3] pos'] nb'] t'] ((<- & <- & <- & E0 & E1 & E2 & E3 & EP & Hb) & C).
    apply same_ret. apply Z.ltb_ge in C. replace nb with 0 in EP by lia.
    assert (HP : L <= pos) by lia.
    rewrite (agree_all L pos _ _ E0 HP), (agree_all L pos _ _ E1 HP), (agree_all L pos _ _ E2 HP), (agree_all L pos _ _ E3 HP).
    reflexivity.
Qed.

(** ** Rejection sampling of the public matrix *)
Lemma same_aslice_len {A} (l1 l2 : list A) o n1 n2 : same any (aslice l1 o n1) (aslice l2 o n2).
Proof.
  unfold aslice. apply (same_bind' any); [apply same_emit|]. intros _ _ _.
  destruct (_ && _) eqn:E1; [|apply same_fail_l]. destruct (_ && (_ <=? Z.of_nat (length l2))) eqn:E2; [|apply same_fail_r].
  apply same_ret. exact I.
Qed.
Lemma l_storeu r r' i a a' : same any (_mm_storeu_si128 r i a) (_mm_storeu_si128 r' i a').
Proof. apply same_asplice. Qed.
#[export] Hint Resolve l_storeu : leak.
(** the counters are the same *)
Definition counters (x y : list Z * Z * Z) : Prop := snd (fst x) = snd (fst y) /\ snd x = snd y.
Lemma l_rej_32 J J' r r' buf ctr pos : same counters (rej_loop_32 J r buf ctr pos) (rej_loop_32 J' r' buf ctr pos).
Proof.
  unfold rej_loop_32. apply same_while; [now split| |]; intros [[a c] q] [[b c'] q'] [E1 E2]; cbn [fst snd] in E1, E2; subst c' q';
    [reflexivity|].
  repeat pub. leak. now apply same_ret.
Qed.
Lemma l_rej_8 r r' buf ctr pos : same counters (rej_loop_8 r buf ctr pos) (rej_loop_8 r' buf ctr pos).
Proof.
  unfold rej_loop_8. apply same_while; [now split| |]; intros [[a c] q] [[b c'] q'] [E1 E2]; cbn [fst snd] in E1, E2; subst c' q';
    [reflexivity|].
  repeat pub. leak. now apply same_ret.
Qed.
Lemma l_rej_1 r r' buf ctr pos : same counters (rej_loop_1 r buf ctr pos) (rej_loop_1 r' buf ctr pos).
Proof.
  unfold rej_loop_1. apply same_while; [now split| |]; intros [[a c] q] [[b c'] q'] [E1 E2]; cbn [fst snd] in E1, E2; subst c' q';
    [reflexivity|].
  repeat pub. apply (same_bind' same2).
  { apply same_branch; [leak; now apply same_ret|now apply same_ret]. }
  intros [? k1] [? k2] E. cbv [same2 snd] in E. subst k2.
  apply (same_bind' same2).
  { apply same_branch; [leak; now apply same_ret|now apply same_ret]. }
  intros [? k2] [? k3] E. cbv [same2 snd] in E. subst k3. now apply same_ret.
Qed.
Ltac counters := let E1 := fresh in let E2 := fresh in intros [[? ?] ?] [[? ?] ?] [E1 E2]; cbn [fst snd] in E1, E2; subst.
Lemma l_rej_avx2 J J' r r' buf : same same2 (rej_uniform_avx2 J r buf) (rej_uniform_avx2 J' r' buf).
Proof.
  unfold rej_uniform_avx2. eapply same_bind'; [apply l_rej_32|]. counters.
  eapply same_bind'; [apply l_rej_8|]. counters. eapply same_bind'; [apply l_rej_1|]. counters. now apply same_ret.
Qed.
Lemma l_rej_native J J' r r' len buf n : same same2 (rej_uniform_native J r len buf n) (rej_uniform_native J' r' len buf n).
Proof. unfold rej_uniform_native. apply same_branch; [now apply same_ret|apply l_rej_avx2]. Qed.
Lemma l_rej_x86 J J' r r' target offset buf buflen :
  same same2 (rej_uniform_x86_64 J r target offset buf buflen) (rej_uniform_x86_64 J' r' target offset buf buflen).
Proof.
  unfold rej_uniform_x86_64. apply (same_bind' any); [apply same_aslice_len|]. intros t t' _.
  eapply same_bind'; [apply l_rej_native|]. intros [? ?] [? ?] E. cbv [same2 snd] in E. subst. leak_step.
  apply same_branch; [now apply same_ret|exact (l_rej _ _ target offset buf buflen)].
Qed.
Ltac rej_x86 := eapply same_bind'; [apply l_rej_x86|]; let E := fresh in intros [? ?] [? ?] E; cbv [same2 snd] in E; subst.
Lemma l_gen_matrix_entry_x86 J J' fuel e e' seed : same any (gen_matrix_entry_x86_64 J fuel e seed) (gen_matrix_entry_x86_64 J' fuel e' seed).
Proof.
  unfold gen_matrix_entry_x86_64. eapply same_bind'; [apply l_shake128_absorb|]. intros s s' <-.
  eapply same_bind'.
  { apply (l_squeezeblocks _ _ _ _ _ (MLKEM_GEN_MATRIX_NBLOCKS * SHAKE128_RATE)); try (vm_compute; discriminate);
      try (apply zlen_uninit; vm_compute; discriminate). }
  intros [buf st] ? <-. rej_x86.
  apply (same_bind' (fun '(_, s, b, c, _) '(_, s', b', c', _) => s = s' /\ b = b' /\ c = c')).
  - apply same_while; [auto| |]; intros [[[[? a] b] c] x] [[[[? a'] b'] c'] x'] (<- & <- & <-); [reflexivity|].
    pub. destruct a0 as [? ?]. rej_x86. now apply same_ret.
  - intros [[[[? a] b] c] x] [[[[? a'] b'] c'] x'] _. leak.
Qed.
Lemma l_gen_matrix_entry_x4_x86 J J' fuel v v' seed :
  same any (gen_matrix_entry_x4_x86_64 J fuel v seed) (gen_matrix_entry_x4_x86_64 J' fuel v' seed).
Proof.
  unfold gen_matrix_entry_x4_x86_64. do 5 pub.
  eapply same_bind'.
  { apply (l_squeezeblocks4_eq_x86 _ _ _ _ _ _ _ _ _ _ _ (MLKEM_GEN_MATRIX_NBLOCKS * SHAKE128_RATE)); try (vm_compute; discriminate);
      try (apply zlen_uninit; vm_compute; discriminate). }
  intros [[[[b0 b1] b2] b3] st] ? <-. do 4 leak_step. do 4 rej_x86.
  apply (same_bind' (fun '(_, s, b, c, _) '(_, s', b', c', _) => s = s' /\ b = b' /\ c = c')).
  - apply same_while; [auto| |].
    + intros [[[[? ?] ?] [[[? ?] ?] ?]] ?] [[[[? ?] ?] [[[? ?] ?] ?]] ?] (<- & <- & E). injection E as <- <- <- <-. reflexivity.
    + intros [[[[? ?] [[[? ?] ?] ?]] [[[? ?] ?] ?]] [[[? ?] ?] ?]] [[[[? ?] [[[? ?] ?] ?]] [[[? ?] ?] ?]] [[[? ?] ?] ?]] (<- & E & E').
      injection E as <- <- <- <-. injection E' as <- <- <- <-.
      pub. match goal with x : (x4 (list Z) * list Z)%type |- _ => destruct x as [[[[? ?] ?] ?] ?] end.
      do 4 rej_x86. now apply same_ret.
  - intros [[[[? ?] ?] ?] [[[? ?] ?] ?]] [[[[? ?] ?] ?] [[[? ?] ?] ?]] _. leak.
Qed.
#[export] Hint Resolve l_gen_matrix_entry_x86 l_gen_matrix_entry_x4_x86 : leak.

Lemma l_gen_matrix_x86 J J' fuel p a a' seed tr : same any (gen_matrix_x86_64 J fuel p a seed tr) (gen_matrix_x86_64 J' fuel p a' seed tr).
Proof.
  unfold gen_matrix_x86_64. cbv zeta.
  apply (same_bind' (rows (fun _ => 32))).
  { apply (same_mono (rows (fun k => if k <? 4 then 32 else 0))).
    - apply (same_for_to (fun j => rows (fun k => if k <? j then 32 else 0))); [lia| |].
      + split; [|split]; try (apply zlen_uninit2; lia). intros k x y Hk E1 E2. destruct (Z.ltb_spec k 0); [lia|].
        unfold uninit2 in E1, E2. apply nth_error_In, in_map_iff in E1 as (i & <- & _).
        apply nth_error_In, in_map_iff in E2 as (i' & <- & _). apply agree_0; now apply zlen_uninit.
      + intros j s t H. eapply same_bind'; [apply rows_aget, H|]. intros x y E. cbv beta in E. rewrite Z.ltb_irrefl in E.
        eapply same_bind'; [apply same_memcpy_next, E|]. intros x1 y1 E1.
        eapply same_mono; [apply rows_aset; [exact H|exact E1]|]. intros l1 l2 G. eapply rows_le; [exact G|].
        intros k Hk. cbv beta. destruct (Z.eqb_spec k j), (Z.ltb_spec k (j+1)), (Z.ltb_spec k j); unfold MLKEM_SYMBYTES; lia.
    - intros l1 l2 G. eapply rows_le; [exact G|]. intros k Hk. cbv beta. destruct (Z.ltb_spec k 4); lia. }
  intros sx sx' HS.
  apply (same_bind' (fun x y => rows (fun _ => 32) (snd x) (snd y))).
  { apply same_for; [exact HS|]. intros i [b s] [b' t] HR. cbn [snd] in HR.
    apply (same_bind' (rows (fun _ => 34))).
    { apply (same_mono (rows (fun k => if k <? 4 then 34 else 32))).
      - apply (same_for_to (fun j => rows (fun k => if k <? j then 34 else 32))); [lia| |].
        + eapply rows_le; [exact HR|]. intros k Hk. destruct (Z.ltb_spec k 0); lia.
        + intros j s1 t1 H. do 2 pub. eapply same_bind'; [apply rows_aget, H|]. intros x y E. cbv beta in E. rewrite Z.ltb_irrefl in E.
          eapply same_bind'; [apply l_set_xy, E|]. intros x1 y1 E1.
          eapply same_mono; [apply rows_aset; [exact H|exact E1]|]. intros l1 l2 G. eapply rows_le; [exact G|].
          intros k Hk. cbv beta. destruct (Z.eqb_spec k j), (Z.ltb_spec k (j+1)), (Z.ltb_spec k j); lia.
      - intros l1 l2 G. eapply rows_le; [exact G|]. intros k Hk. cbv beta. destruct (Z.ltb_spec k 4); lia. }
    intros l1 l2 G. pose proof (rows_eq _ _ G) as <-. leak. apply same_ret. cbn [snd].
    eapply rows_le; [exact G|]. intros. lia. }
  intros [b s] [b' t] HR. cbn [snd] in HR. apply (same_bind' any); [|intros ? ? _; leak]. apply same_branch; [|leak].
  do 2 pub. eapply same_bind'; [apply rows_aget, HR|]. intros x y E.
  eapply same_bind'; [apply l_set_xy, E|]. intros x1 y1 E1. apply agree_all in E1; [subst y1|lia]. leak.
Qed.
#[export] Hint Resolve l_gen_matrix_x86 : leak.

(** ** Noise, packing and matrix-vector products *)
Lemma l_eta1_4x_x86 J J' p r0 r1 r2 r3 r0' r1' r2' r3' s s' n0 n1 n2 n3 n0' n1' n2' n3' :
  same any (poly_getnoise_eta1_4x_x86_64 J p r0 r1 r2 r3 s n0 n1 n2 n3) (poly_getnoise_eta1_4x_x86_64 J' p r0' r1' r2' r3' s' n0' n1' n2' n3').
Proof. unfold poly_getnoise_eta1_4x_x86_64. leak. Qed.
Lemma l_eta2_4x_x86 J J' p r0 r1 r2 r3 r0' r1' r2' r3' s s' n0 n1 n2 n3 n0' n1' n2' n3' :
  same any (poly_getnoise_eta2_4x_x86_64 J p r0 r1 r2 r3 s n0 n1 n2 n3) (poly_getnoise_eta2_4x_x86_64 J' p r0' r1' r2' r3' s' n0' n1' n2' n3').
Proof. apply l_eta1_4x_x86. Qed.
Lemma l_eta1122_x86 J J' p r0 r1 r2 r3 r0' r1' r2' r3' s s' n0 n1 n2 n3 n0' n1' n2' n3' :
  same any (poly_getnoise_eta1122_4x_x86_64 J p r0 r1 r2 r3 s n0 n1 n2 n3) (poly_getnoise_eta1122_4x_x86_64 J' p r0' r1' r2' r3' s' n0' n1' n2' n3').
Proof.
  unfold poly_getnoise_eta1122_4x_x86_64. leak_step. cbv beta zeta; pairs.
  apply (same_bind' any); [destruct p; [leak|apply l_shake256x4_x86|apply l_shake256x4_x86]|]. intros ? ? _. leak.
Qed.
#[export] Hint Resolve l_eta1_4x_x86 l_eta2_4x_x86 l_eta1122_x86 : leak.
Lemma l_keypair_noise_x86 J J' p s s' e e' k k' n n' : same any (keypair_noise_x86_64 J p s e k n) (keypair_noise_x86_64 J' p s' e' k' n').
Proof. unfold keypair_noise_x86_64. destruct p; leak. Qed.
Lemma l_enc_noise_x86 J J' p s s' e e' f f' b b' c c' : same any (enc_noise_x86_64 J p s e f b c) (enc_noise_x86_64 J' p s' e' f' b' c').
Proof. unfold enc_noise_x86_64. destruct p; leak. Qed.
Lemma l_matvec_x86 J J' p o o' a a' v v' c c' : same any (matvec_mul_x86_64 J p o a v c) (matvec_mul_x86_64 J' p o' a' v' c').
Proof. unfold matvec_mul_x86_64. leak. Qed.
Lemma l_pack_pk_x86 J J' p r r' k k' s s' : same any (pack_pk_x86_64 J p r k s) (pack_pk_x86_64 J' p r' k' s').
Proof. unfold pack_pk_x86_64. leak. Qed.
Lemma l_pack_sk_x86 J J' p r r' k k' : same any (pack_sk_x86_64 J p r k) (pack_sk_x86_64 J' p r' k').
Proof. unfold pack_sk_x86_64. leak. Qed.
Lemma l_unpack_sk_x86 J J' p r r' k k' : same any (unpack_sk_x86_64 J p r k) (unpack_sk_x86_64 J' p r' k').
Proof. unfold unpack_sk_x86_64. leak. Qed.
#[export] Hint Resolve l_pack_pk_x86 l_pack_sk_x86 l_unpack_sk_x86 : leak.
Lemma l_unpack_pk_x86 L L' p v v' J J' t k :
  same (fun x y => snd x = snd y) (unpack_pk_x86_64 L p v (uninit J t 32) k) (unpack_pk_x86_64 L' p v' (uninit J' t 32) k).
Proof.
  unfold unpack_pk_x86_64. leak_step. eapply same_bind'; [apply same_memcpy_next, uninit_agree; lia|]. intros x y E.
  apply agree_all in E; [subst y|unfold MLKEM_SYMBYTES; lia]. leak. now apply same_ret.
Qed.
#[export] Hint Resolve l_keypair_noise_x86 l_enc_noise_x86 l_matvec_x86 : leak.
Lemma l_indcpa_enc_x86 J J' fuel p c c' m m' pk k k' : same any (indcpa_enc_x86_64 J fuel p c m pk k) (indcpa_enc_x86_64 J' fuel p c' m' pk k').
Proof.
  unfold indcpa_enc_x86_64. cbv zeta. eapply same_bind'; [apply l_unpack_pk_x86|]. intros [x sd] [y ?] E. cbn [snd] in E. subst. leak.
Qed.
Lemma l_indcpa_dec_x86 J J' p m m' c k k' : same any (indcpa_dec_x86_64 J p m c k) (indcpa_dec_x86_64 J' p m' c k').
Proof. unfold indcpa_dec_x86_64. leak. Qed.
#[export] Hint Resolve l_indcpa_enc_x86 l_indcpa_dec_x86 : leak.
