(** * Two runs of the same function leak the same trace

    [same R m1 m2]: if neither run has undefined behaviour then both leak the same events
    and either both deliver values, related by [R], or both run out of fuel. *)

From Coq Require Import ZArith List Bool Lia.
From Verif Require Import CSem ModelArith ModelKeccak ModelIndcpa ModelKem Spec202 CSemFacts.
Import ListNotations.
Open Scope Z_scope.
Ltac Zify.zify_post_hook ::= idtac.

Definition safe {A} (m : M A) : Prop := forall r, fst m <> UB r.
Definition same {A B} (R : A -> B -> Prop) (m1 : M A) (m2 : M B) : Prop :=
  safe m1 -> safe m2 ->
  snd m1 = snd m2 /\
  match fst m1, fst m2 with
  | Ok a, Ok b => R a b
  | NoFuel, NoFuel => True
  | _, _ => False
  end.
Definition any {A B} : A -> B -> Prop := fun _ _ => True.

Lemma same_refl {A} (m : M A) : same eq m m.
Proof. intros S _. split; auto. destruct (fst m) eqn:E; auto. now apply (S r). Qed.
Lemma same_ret {A B} (R : A -> B -> Prop) a b : R a b -> same R (ret a) (ret b).
Proof. intros H _ _. split; auto. Qed.
Lemma same_fail_l {A B} (R : A -> B -> Prop) r (m : M B) : same R (@fail A r) m.
Proof. intros S. now destruct (S r). Qed.
Lemma same_fail_r {A B} (R : A -> B -> Prop) r (m : M A) : same R m (@fail B r).
Proof. intros _ S. now destruct (S r). Qed.
Lemma same_nofuel {A B} (R : A -> B -> Prop) : same R (@nofuel A) (@nofuel B).
Proof. intros _ _. split; auto. exact I. Qed.
Lemma same_mono {A B} (R R' : A -> B -> Prop) m1 m2 : same R m1 m2 -> (forall a b, R a b -> R' a b) -> same R' m1 m2.
Proof.
  intros H HR S1 S2. destruct (H S1 S2) as [E H']. split; auto. destruct (fst m1), (fst m2); auto.
Qed.
Lemma same_any {A B} (R : A -> B -> Prop) m1 m2 : same R m1 m2 -> same any m1 m2.
Proof. intros H. apply (same_mono _ _ _ _ H). intros; exact I. Qed.

Lemma safe_bind {A B} (m : M A) (f : A -> M B) : safe (bind m f) -> safe m /\ forall a, fst m = Ok a -> safe (f a).
Proof.
  destruct m as [o t]. intros S. split.
  - intros r E. cbn in E. subst o. now apply (S r).
  - intros a E r. cbn in E. subst o. specialize (S r). unfold bind in S. now destruct (f a).
Qed.
Lemma same_bind {A B C D} (R : A -> B -> Prop) (Q : C -> D -> Prop) m1 m2 f g : same R m1 m2 ->
  (forall a b, fst m1 = Ok a -> fst m2 = Ok b -> R a b -> same Q (f a) (g b)) -> same Q (bind m1 f) (bind m2 g).
Proof.
  intros H HF S1 S2. destruct (safe_bind _ _ S1) as [S1' F1]. destruct (safe_bind _ _ S2) as [S2' F2].
  destruct (H S1' S2') as [E HR]. destruct m1 as [o1 t1], m2 as [o2 t2]. cbn [fst snd] in *. subst t2.
  destruct o1 as [a|r|], o2 as [b|r'|]; try (now destruct (S1' r)); try (now destruct (S2' r')); try contradiction.
  - destruct (HF a b eq_refl eq_refl HR (F1 a eq_refl) (F2 b eq_refl)) as [E' H']. unfold bind.
    destruct (f a) as [o t], (g b) as [o' t']. cbn [fst snd] in *. subst t'. split; auto.
  - split; auto.
Qed.
Lemma same_bind' {A B C D} (R : A -> B -> Prop) (Q : C -> D -> Prop) m1 m2 f g : same R m1 m2 ->
  (forall a b, R a b -> same Q (f a) (g b)) -> same Q (bind m1 f) (bind m2 g).
Proof. intros H HF. apply (same_bind R); auto. Qed.
(** the values may be known from the functional specification *)
Lemma wp_fst {A} (m : M A) (P : A -> Prop) : wpn True m P -> forall a, fst m = Ok a -> P a.
Proof. unfold wpn, val. intros H a E. now rewrite E in H. Qed.
Lemma same_bind_wp {A B C D} (P1 : A -> Prop) (P2 : B -> Prop) (Q : C -> D -> Prop) m1 m2 f g :
  same any m1 m2 -> wpn True m1 P1 -> wpn True m2 P2 ->
  (forall a b, P1 a -> P2 b -> same Q (f a) (g b)) -> same Q (bind m1 f) (bind m2 g).
Proof. intros H W1 W2 HF. apply (same_bind any); auto. intros a b E1 E2 _. apply HF; eapply wp_fst; eauto. Qed.

Lemma same_emit e : same any (emit e) (emit e).
Proof. intros _ _. split; auto. exact I. Qed.
Lemma same_i32 x y : same any (i32 x) (i32 y).
Proof. unfold i32. destruct (_ && _); [destruct (_ && _)|]; [apply same_ret; exact I|apply same_fail_r|apply same_fail_l]. Qed.
Lemma same_i16 x y : same any (to_i16 x) (to_i16 y).
Proof. unfold to_i16. destruct (_ && _); [destruct (_ && _)|]; [apply same_ret; exact I|apply same_fail_r|apply same_fail_l]. Qed.
Lemma same_dbg b c : same any (dbg b) (dbg c).
Proof. unfold dbg. destruct b; [destruct c|]; [apply same_ret; exact I|apply same_fail_r|apply same_fail_l]. Qed.

Lemma same_aget {A} (l1 l2 : list A) i : same any (aget l1 i) (aget l2 i).
Proof.
  unfold aget. apply (same_bind' any); [apply same_emit|]. intros _ _ _. destruct (i <? 0); [apply same_fail_l|].
  destruct (nth_error l1 _); [|apply same_fail_l]. destruct (nth_error l2 _); [|apply same_fail_r]. apply same_ret. exact I.
Qed.
(** arrays of length [L] with equal first [n] elements *)
Definition agree {A} (L n : Z) (l1 l2 : list A) : Prop :=
  zlen l1 = L /\ zlen l2 = L /\ firstn (Z.to_nat n) l1 = firstn (Z.to_nat n) l2.
Lemma agree_0 {A} L (l1 l2 : list A) : zlen l1 = L -> zlen l2 = L -> agree L 0 l1 l2.
Proof. intros. now split. Qed.
Lemma agree_all {A} L n (l1 l2 : list A) : agree L n l1 l2 -> L <= n -> l1 = l2.
Proof. unfold agree, zlen. intros (L1 & L2 & E) Hn. rewrite !firstn_all2 in E by lia. exact E. Qed.
Lemma agree_le {A} L n m (l1 l2 : list A) : agree L n l1 l2 -> m <= n -> agree L m l1 l2.
Proof.
  unfold agree. intros (L1 & L2 & E) Hn. split; [|split]; auto.
  replace (Z.to_nat m) with (Nat.min (Z.to_nat m) (Z.to_nat n)) by lia. rewrite <- !firstn_firstn. now f_equal.
Qed.
Lemma upd_length {A} (l : list A) n x l' : upd l n x = Some l' -> length l' = length l.
Proof.
  revert n l'. induction l as [|h t IH]; intros n l'; [discriminate|]. destruct n; cbn [upd].
  - intros [= <-]. reflexivity.
  - destruct (upd t n x) eqn:E; [|discriminate]. intros [= <-]. cbn. f_equal. eauto.
Qed.
Lemma upd_agree {A} n (l1 l2 : list A) x l1' l2' : firstn n l1 = firstn n l2 ->
  upd l1 n x = Some l1' -> upd l2 n x = Some l2' -> firstn (S n) l1' = firstn (S n) l2'.
Proof.
  revert l1 l2 l1' l2'. induction n as [|n IH]; intros l1 l2 l1' l2' E U1 U2; destruct l1 as [|h1 t1], l2 as [|h2 t2]; try discriminate.
  - cbn in U1, U2. injection U1 as <-. injection U2 as <-. reflexivity.
  - cbn [upd firstn] in *. injection E as -> E.
    destruct (upd t1 n x) eqn:E1; [|discriminate]. destruct (upd t2 n x) eqn:E2; [|discriminate].
    injection U1 as <-. injection U2 as <-. cbn [firstn]. f_equal. eauto.
Qed.
Lemma same_aset {A} (l1 l2 : list A) i x y : same any (aset l1 i x) (aset l2 i y).
Proof.
  unfold aset. apply (same_bind' any); [apply same_emit|]. intros _ _ _. destruct (i <? 0); [apply same_fail_l|].
  destruct (upd l1 _ _); [|apply same_fail_l]. destruct (upd l2 _ _); [|apply same_fail_r]. apply same_ret. exact I.
Qed.
Lemma same_aset_next {A} L (l1 l2 : list A) i x : agree L i l1 l2 -> same (agree L (i + 1)) (aset l1 i x) (aset l2 i x).
Proof.
  intros (L1 & L2 & E). unfold aset. apply (same_bind' any); [apply same_emit|]. intros _ _ _.
  destruct (Z.ltb_spec i 0); [apply same_fail_l|].
  destruct (upd l1 _ _) eqn:E1; [|apply same_fail_l]. destruct (upd l2 _ _) eqn:E2; [|apply same_fail_r]. apply same_ret.
  unfold agree, zlen in *. rewrite (upd_length _ _ _ _ E1), (upd_length _ _ _ _ E2). split; [|split]; auto.
  replace (Z.to_nat (i + 1)) with (S (Z.to_nat i)) by lia. eapply upd_agree; eauto.
Qed.
Lemma same_aslice {A} (l1 l2 : list A) o n : same (fun a b => zlen a = n /\ zlen b = n) (aslice l1 o n) (aslice l2 o n).
Proof.
  unfold aslice. apply (same_bind' any); [apply same_emit|]. intros _ _ _.
  destruct (_ && _) eqn:E1; [|apply same_fail_l]. destruct (_ && (_ <=? Z.of_nat (length l2))) eqn:E2; [|apply same_fail_r].
  apply same_ret. unfold zlen. rewrite !firstn_length, !skipn_length.
  apply andb_true_iff in E1 as [E0 E1]. apply andb_true_iff in E0 as [E0 E0']. apply andb_true_iff in E2 as [_ E2].
  apply Z.leb_le in E0, E0', E1, E2. lia.
Qed.
Lemma same_asplice {A} (l1 l2 : list A) o n1 n2 : same any (asplice l1 o n1) (asplice l2 o n2).
Proof.
  unfold asplice. apply (same_bind' any); [apply same_emit|]. intros _ _ _.
  destruct (_ && _) eqn:E1; [|apply same_fail_l]. destruct (_ && (_ <=? Z.of_nat (length l2))) eqn:E2; [|apply same_fail_r].
  apply same_ret. exact I.
Qed.
Lemma same_asplice_next {A} L (l1 l2 : list A) o new : agree L o l1 l2 ->
  same (agree L (o + zlen new)) (asplice l1 o new) (asplice l2 o new).
Proof.
  intros (L1 & L2 & E). unfold asplice. apply (same_bind' any); [apply same_emit|]. intros _ _ _.
  destruct (_ && _) eqn:E1; [|apply same_fail_l]. destruct (_ && (_ <=? Z.of_nat (length l2))) eqn:E2; [|apply same_fail_r].
  apply same_ret. apply andb_true_iff in E1 as [E0 E1]. apply andb_true_iff in E2 as [_ E2]. apply Z.leb_le in E0, E1, E2.
  unfold agree, zlen in *. split; [|split].
  - rewrite !app_length, !firstn_length, !skipn_length. lia.
  - rewrite !app_length, !firstn_length, !skipn_length. lia.
  - rewrite E, !app_assoc. replace (Z.to_nat (_ + Z.of_nat _)) with (length (firstn (Z.to_nat o) l2 ++ new) + 0)%nat.
    2: { rewrite app_length, firstn_length. lia. }
    rewrite !firstn_app_2. reflexivity.
Qed.
Lemma same_memcpy {A} (d1 d2 s1 s2 : list A) x y n : same any (memcpy d1 x s1 y n) (memcpy d2 x s2 y n).
Proof.
  unfold memcpy. apply (same_bind' any); [apply same_emit|]. intros _ _ _.
  apply (same_bind' any); [eapply same_any, same_aslice|]. intros a b _. apply same_asplice.
Qed.
Lemma same_memcpy_next {A} L (d1 d2 s : list A) x y n : agree L x d1 d2 ->
  same (agree L (x + n)) (memcpy d1 x s y n) (memcpy d2 x s y n).
Proof.
  intros HA. unfold memcpy. apply (same_bind' any); [apply same_emit|]. intros _ _ _.
  apply (same_bind' (fun a b => a = b /\ zlen a = n)).
  - intros S1 S2. destruct (same_aslice s s y n S1 S2) as [_ H1]. destruct (same_refl (aslice s y n) S1 S2) as [E H2].
    split; auto. destruct (fst (aslice s y n)); tauto.
  - intros a b [<- E]. rewrite <- E. now apply same_asplice_next.
Qed.

Lemma same_for_n {S T} (R : Z -> S -> T -> Prop) n i step f g : 
  (forall j s t, R j s t -> same (R (j + step)) (f j s) (g j t)) ->
  forall s t, R i s t -> same (R (i + step * Z.of_nat n)) (for_n n i step f s) (for_n n i step g t).
Proof.
  intros HF. revert i. induction n as [|n IH]; intros i s t H.
  - cbn [for_n]. apply same_ret. now rewrite Z.mul_0_r, Z.add_0_r.
  - cbn [for_n]. apply (same_bind' (R (i + step))); auto. intros a b HR.
    replace (i + step * Z.of_nat (Datatypes.S n)) with (i + step + step * Z.of_nat n) by lia. now apply IH.
Qed.
Lemma same_for_to {S T} (R : Z -> S -> T -> Prop) hi f g s t : 0 <= hi -> R 0 s t ->
  (forall j s t, R j s t -> same (R (j + 1)) (f j s) (g j t)) ->
  same (R hi) (for_up 0 hi 1 f s) (for_up 0 hi 1 g t).
Proof.
  intros Hh H HF. unfold for_up. apply (same_bind' any); [apply same_emit|]. intros _ _ _.
  pose proof (same_for_n R (Z.to_nat ((hi - 0 + 1 - 1) / 1)) 0 1 f g HF s t H) as G.
  rewrite Z.div_1_r in *. replace (0 + 1 * Z.of_nat (Z.to_nat (hi - 0 + 1 - 1))) with hi in G by lia. exact G.
Qed.
Lemma same_for {S T} (R : S -> T -> Prop) lo hi step f g s t : R s t ->
  (forall j s t, R s t -> same R (f j s) (g j t)) -> same R (for_up lo hi step f s) (for_up lo hi step g t).
Proof.
  intros H HF. unfold for_up. apply (same_bind' any); [apply same_emit|]. intros _ _ _.
  apply (same_for_n (fun _ => R)); auto.
Qed.
Lemma same_for_any {S T} lo hi step (f : Z -> S -> M S) (g : Z -> T -> M T) s t :
  (forall j s t, same any (f j s) (g j t)) -> same any (for_up lo hi step f s) (for_up lo hi step g t).
Proof. intros H. apply same_for; [exact I|]. auto. Qed.
Lemma same_while {S T} (R : S -> T -> Prop) fuel c1 c2 f g s t : R s t ->
  (forall s t, R s t -> c1 s = c2 t) -> (forall s t, R s t -> same R (f s) (g t)) ->
  same R (while fuel c1 f s) (while fuel c2 g t).
Proof.
  intros H HC HF. revert s t H. induction fuel as [|n IH]; intros s t H; cbn [while]; rewrite (HC s t H);
    (apply (same_bind' any); [apply same_emit|]); intros _ _ _; destruct (c2 t).
  - apply same_nofuel.
  - now apply same_ret.
  - apply (same_bind' R); auto.
  - now apply same_ret.
Qed.
Lemma same_while_exit {S T} (R : S -> T -> Prop) fuel c1 c2 f g s t : R s t ->
  (forall s t, R s t -> c1 s = c2 t) -> (forall s t, R s t -> c1 s = true -> same R (f s) (g t)) ->
  same (fun s t => R s t /\ c1 s = false) (while fuel c1 f s) (while fuel c2 g t).
Proof.
  intros H HC HF. revert s t H. induction fuel as [|n IH]; intros s t H; cbn [while]; rewrite <- (HC s t H);
    (apply (same_bind' any); [apply same_emit|]); intros _ _ _; destruct (c1 s) eqn:E.
  - apply same_nofuel.
  - now apply same_ret.
  - apply (same_bind' R); auto.
  - now apply same_ret.
Qed.
Lemma same_branch {A B} (R : A -> B -> Prop) b m1 m2 n1 n2 : same R m1 n1 -> same R m2 n2 ->
  same R (branch b m1 m2) (branch b n1 n2).
Proof. intros. unfold branch. apply (same_bind' any); [apply same_emit|]. intros _ _ _. now destruct b. Qed.

(** ** Automation *)
Create HintDb leak discriminated.
#[export] Hint Constants Opaque : leak.
#[export] Hint Resolve same_emit same_i32 same_i16 same_dbg same_aget same_aset same_asplice same_memcpy : leak.
Lemma same_aslice_any {A} (l1 l2 : list A) o n : same any (aslice l1 o n) (aslice l2 o n).
Proof. eapply same_any, same_aslice. Qed.
#[export] Hint Resolve same_aslice_any : leak.
#[export] Hint Extern 1 (same any (ret _) (ret _)) => (apply same_ret; exact I) : leak.
#[export] Hint Extern 1 (same any (POLY_BOUND _ _) (POLY_BOUND _ _)) => apply same_dbg : leak.
#[export] Hint Extern 1 (same any (POLY_UBOUND _ _) (POLY_UBOUND _ _)) => apply same_dbg : leak.
#[export] Hint Extern 1 (same any (POLYVEC_BOUND _ _) (POLYVEC_BOUND _ _)) => apply same_dbg : leak.
#[export] Hint Extern 1 (same any (POLYVEC_UBOUND _ _) (POLYVEC_UBOUND _ _)) => apply same_dbg : leak.
#[export] Hint Extern 1 (same any (SCALAR_BOUND _ _) (SCALAR_BOUND _ _)) => apply same_dbg : leak.

Ltac pairs := repeat match goal with
  | |- same _ (let '(_, _) := ?x in _) _ => is_var x; destruct x
  | |- same _ _ (let '(_, _) := ?x in _) => is_var x; destruct x
  end.
Ltac leak_step := cbv beta zeta; pairs; match goal with
  | |- same _ (bind ?m _) (bind ?m _) => eapply same_bind'; [apply same_refl|intros ? ? <-]
  | |- same _ (bind _ _) (bind _ _) => apply (same_bind' any); [solve [auto 1 with leak nocore]|intros ? ? _]
  | |- same _ (bind (for_up _ _ _ _ _) _) (bind (for_up _ _ _ _ _) _) =>
      apply (same_bind' any); [apply same_for_any; intros|intros ? ? _]
  | |- same any (for_up _ _ _ _ _) (for_up _ _ _ _ _) => apply same_for_any; intros
  | |- same _ (branch ?b _ _) (branch ?b _ _) => apply same_branch
  | |- same any _ _ => solve [auto 1 with leak nocore]
  end.
Ltac leak := repeat leak_step.

(** ** mlkem/reduce.c, verify.h, poly.c, ntt.c, polyvec.c, cbd.c *)
Lemma l_montgomery x y : same any (montgomery_reduce x) (montgomery_reduce y).
Proof. unfold montgomery_reduce, montgomery_reduce_generic. 
  leak_step. apply (same_bind' any). { leak. } intros ? ? _. leak. Qed.
#[export] Hint Resolve l_montgomery : leak.
Lemma l_fqmul x y a b : same any (fqmul x a) (fqmul y b).
Proof. unfold fqmul. leak. Qed.
Lemma l_barrett x y : same any (barrett_reduce x) (barrett_reduce y).
Proof. unfold barrett_reduce. leak. Qed.
Lemma l_signed x y : same any (scalar_signed_to_unsigned_q x) (scalar_signed_to_unsigned_q y).
Proof. unfold scalar_signed_to_unsigned_q. leak. Qed.
#[export] Hint Resolve l_fqmul l_barrett l_signed : leak.
Lemma l_memcmp a b a' b' len : same any (ct_memcmp a b len) (ct_memcmp a' b' len).
Proof. unfold ct_memcmp. leak. Qed.
Lemma l_cmov r x r' x' len b b' : same any (ct_cmov_zero r x len b) (ct_cmov_zero r' x' len b').
Proof. unfold ct_cmov_zero. leak. Qed.
Lemma l_compress_du J J' p r r' a a' : same any (poly_compress_du J p r a) (poly_compress_du J' p r' a').
Proof. unfold poly_compress_du. destruct p; leak. Qed.
Lemma l_compress_dv p r r' a a' : same any (poly_compress_dv p r a) (poly_compress_dv p r' a').
Proof. unfold poly_compress_dv. destruct p; leak. Qed.
Lemma l_tobytes r r' a a' : same any (poly_tobytes r a) (poly_tobytes r' a').
Proof. unfold poly_tobytes. leak. Qed.
Lemma l_frombytes r r' a a' : same any (poly_frombytes r a) (poly_frombytes r' a').
Proof. unfold poly_frombytes. leak. Qed.
Lemma l_frommsg r r' a a' : same any (poly_frommsg r a) (poly_frommsg r' a').
Proof. unfold poly_frommsg. leak. Qed.
Lemma l_tomsg r r' a a' : same any (poly_tomsg r a) (poly_tomsg r' a').
Proof. unfold poly_tomsg. leak. Qed.
Lemma l_tomont r r' : same any (poly_tomont r) (poly_tomont r').
Proof. unfold poly_tomont. leak. Qed.
Lemma l_reduce r r' : same any (poly_reduce r) (poly_reduce r').
Proof. unfold poly_reduce. leak. Qed.
Lemma l_add r r' a a' : same any (poly_add r a) (poly_add r' a').
Proof. unfold poly_add. leak. Qed.
Lemma l_sub r r' a a' : same any (poly_sub r a) (poly_sub r' a').
Proof. unfold poly_sub. leak. Qed.
Lemma l_mulcache x x' a a' : same any (poly_mulcache_compute x a) (poly_mulcache_compute x' a').
Proof. unfold poly_mulcache_compute. leak. Qed.
#[export] Hint Resolve l_memcmp l_cmov l_compress_du l_compress_dv l_tobytes l_frombytes l_frommsg l_tomsg
  l_tomont l_reduce l_add l_sub l_mulcache : leak.
Lemma l_butterfly r r' z z' start len : same any (ntt_butterfly_block r z start len) (ntt_butterfly_block r' z' start len).
Proof. unfold ntt_butterfly_block. leak. Qed.
#[export] Hint Resolve l_butterfly : leak.
Definition same2 {A B} (x y : A * B) : Prop := snd x = snd y.
Lemma l_ntt_layer r r' len : same any (ntt_layer r len) (ntt_layer r' len).
Proof.
  unfold ntt_layer. leak_step. apply (same_bind' same2); [|intros [? ?] [? ?] _; leak].
  apply same_for; [reflexivity|]. intros j [s k] [t k'] E. cbv [same2 snd] in E. subst k'. leak. apply same_ret. reflexivity.
Qed.
#[export] Hint Resolve l_ntt_layer : leak.
Lemma l_ntt r r' : same any (poly_ntt r) (poly_ntt r').
Proof.
  unfold poly_ntt. leak_step. apply (same_bind' same2); [|intros [? ?] [? ?] _; leak].
  apply same_while; [reflexivity| |].
  - intros [s k] [t k'] E. cbv [same2 snd] in E. now subst k'.
  - intros [s k] [t k'] E. cbv [same2 snd] in E. subst k'. leak. apply same_ret. reflexivity.
Qed.
Lemma l_invntt_layer r r' len : same any (invntt_layer r len) (invntt_layer r' len).
Proof.
  unfold invntt_layer. leak_step. cbv zeta. apply (same_bind' same2); [|intros [? ?] [? ?] _; leak].
  apply same_for; [reflexivity|]. intros j [s k] [t k'] E. cbv [same2 snd] in E. subst k'. leak. apply same_ret. reflexivity.
Qed.
#[export] Hint Resolve l_ntt l_invntt_layer : leak.
Lemma l_invntt r r' : same any (poly_invntt_tomont r) (poly_invntt_tomont r').
Proof.
  unfold poly_invntt_tomont. cbv zeta. apply (same_bind' any); [leak|intros ? ? _].
  apply (same_bind' same2); [|intros [? ?] [? ?] _; leak].
  apply same_while; [reflexivity| |].
  - intros [s k] [t k'] E. cbv [same2 snd] in E. now subst k'.
  - intros [s k] [t k'] E. cbv [same2 snd] in E. subst k'. leak. apply same_ret. reflexivity.
Qed.
#[export] Hint Resolve l_invntt : leak.
Lemma l_basemul_cached r r' a a' b b' c c' : same any (basemul_cached r a b c) (basemul_cached r' a' b' c').
Proof. unfold basemul_cached. leak. Qed.
#[export] Hint Resolve l_basemul_cached : leak.
Lemma l_basemul r r' a a' b b' c c' :
  same any (poly_basemul_montgomery_cached r a b c) (poly_basemul_montgomery_cached r' a' b' c').
Proof. unfold poly_basemul_montgomery_cached. leak. Qed.
#[export] Hint Resolve l_basemul : leak.
Lemma l_polyvec_compress J J' p r r' a a' : same any (polyvec_compress_du J p r a) (polyvec_compress_du J' p r' a').
Proof. unfold polyvec_compress_du. leak. Qed.
Lemma l_polyvec_tobytes p r r' a a' : same any (polyvec_tobytes p r a) (polyvec_tobytes p r' a').
Proof. unfold polyvec_tobytes. leak. Qed.
Lemma l_polyvec_frombytes p r r' a a' : same any (polyvec_frombytes p r a) (polyvec_frombytes p r' a').
Proof. unfold polyvec_frombytes. leak. Qed.
Lemma l_polyvec_ntt p r r' : same any (polyvec_ntt p r) (polyvec_ntt p r').
Proof. unfold polyvec_ntt. leak. Qed.
Lemma l_polyvec_invntt p r r' : same any (polyvec_invntt_tomont p r) (polyvec_invntt_tomont p r').
Proof. unfold polyvec_invntt_tomont. leak. Qed.
Lemma l_polyvec_basemul_cached J J' p r r' a a' b b' c c' :
  same any (polyvec_basemul_acc_montgomery_cached J p r a b c) (polyvec_basemul_acc_montgomery_cached J' p r' a' b' c').
Proof. unfold polyvec_basemul_acc_montgomery_cached. leak. Qed.
Lemma l_polyvec_mulcache p x x' a a' : same any (polyvec_mulcache_compute p x a) (polyvec_mulcache_compute p x' a').
Proof. unfold polyvec_mulcache_compute. leak. Qed.
#[export] Hint Resolve l_polyvec_compress l_polyvec_tobytes l_polyvec_frombytes l_polyvec_ntt l_polyvec_invntt
  l_polyvec_basemul_cached l_polyvec_mulcache : leak.
Lemma l_polyvec_basemul J J' p r r' a a' b b' :
  same any (polyvec_basemul_acc_montgomery J p r a b) (polyvec_basemul_acc_montgomery J' p r' a' b').
Proof. unfold polyvec_basemul_acc_montgomery. leak. Qed.
Lemma l_polyvec_reduce p r r' : same any (polyvec_reduce p r) (polyvec_reduce p r').
Proof. unfold polyvec_reduce. leak. Qed.
Lemma l_polyvec_add p r r' b b' : same any (polyvec_add p r b) (polyvec_add p r' b').
Proof. unfold polyvec_add. leak. Qed.
Lemma l_polyvec_tomont p r r' : same any (polyvec_tomont p r) (polyvec_tomont p r').
Proof. unfold polyvec_tomont. leak. Qed.
#[export] Hint Resolve l_polyvec_basemul l_polyvec_reduce l_polyvec_add l_polyvec_tomont : leak.
Lemma l_load32 a b : same any (load32_littleendian a) (load32_littleendian b).
Proof. unfold load32_littleendian. leak. Qed.
Lemma l_load24 a b : same any (load24_littleendian a) (load24_littleendian b).
Proof. unfold load24_littleendian. leak. Qed.
#[export] Hint Resolve l_load32 l_load24 : leak.
Lemma l_cbd2 r r' b b' : same any (cbd2 r b) (cbd2 r' b').
Proof. unfold cbd2. leak. Qed.
Lemma l_cbd3 r r' b b' : same any (cbd3 r b) (cbd3 r' b').
Proof. unfold cbd3. leak. Qed.
Lemma l_cbd_eta1 p r r' b b' : same any (poly_cbd_eta1 p r b) (poly_cbd_eta1 p r' b').
Proof. unfold poly_cbd_eta1. destruct p; [apply l_cbd3|apply l_cbd2..]. Qed.
Lemma l_cbd_eta2 r r' b b' : same any (poly_cbd_eta2 r b) (poly_cbd_eta2 r' b').
Proof. apply l_cbd2. Qed.
#[export] Hint Resolve l_cbd_eta1 l_cbd_eta2 : leak.
