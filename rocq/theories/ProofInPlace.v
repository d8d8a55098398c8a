(** * The hash functions in one memory do what they do on separate buffers *)

From Coq Require Import ZArith List Bool Lia.
From Verif Require Import CSem ModelArith ModelKeccak ModelIndcpa ModelKem ModelInPlace Spec202 Spec203 SpecMem CSemFacts
  SpecLink ProofHash ProofHistory ProofMatrix ProofNoise ProofMem ProofKem.
Import ListNotations.
Open Scope Z_scope.
Ltac Zify.zify_post_hook ::= idtac.

(** Whenever [y] succeeds, so does [x], with a related result. *)
Definition sim {A B} (R : A -> B -> Prop) (x : M A) (y : M B) : Prop :=
  forall b, val y = Ok b -> exists a, val x = Ok a /\ R a b.

Lemma inv_bind {A B} (x : M A) (f : A -> M B) b :
  val (bind x f) = Ok b -> exists a, val x = Ok a /\ val (f a) = Ok b.
Proof.
  destruct x as [[a|r|] t]; cbn; try discriminate. destruct (f a) as [o t'] eqn:E. cbn.
  intros ->. exists a. now rewrite E.
Qed.
Lemma val_bind {A B} (x : M A) (f : A -> M B) a : val x = Ok a -> val (bind x f) = val (f a).
Proof.
  destruct x as [[c|r|] t]; cbn; try discriminate. intros [= ->]. now destruct (f a).
Qed.
Lemma val_emit {A} e (k : unit -> M A) : val (bind (emit e) k) = val (k tt).
Proof. now apply val_bind. Qed.

Lemma sim_ret {A B} (R : A -> B -> Prop) a b : R a b -> sim R (ret a) (ret b).
Proof. intros H b' [= <-]. exists a. now split. Qed.
Lemma sim_eq {A} (x : M A) : sim eq x x.
Proof. intros b H. exists b. now split. Qed.
Lemma sim_bind {A B A' B'} (R : A -> B -> Prop) (S : A' -> B' -> Prop) x y f g :
  sim R x y -> (forall a b, val y = Ok b -> R a b -> sim S (f a) (g b)) -> sim S (bind x f) (bind y g).
Proof.
  intros H K b Hb. apply inv_bind in Hb. destruct Hb as (b0 & E & Hb).
  destruct (H _ E) as (a0 & E' & Hr). rewrite (val_bind _ _ _ E'). exact (K _ _ E Hr _ Hb).
Qed.
Lemma sim_same {A A' B'} (S : A' -> B' -> Prop) (x : M A) f g :
  (forall a, val x = Ok a -> sim S (f a) (g a)) -> sim S (bind x f) (bind x g).
Proof. intros H. apply (sim_bind eq); [apply sim_eq|]. intros a b E ->. auto. Qed.
Lemma sim_left {A B A'} (S : A' -> B -> Prop) (x : M A) (f : A -> M A') y a :
  val x = Ok a -> sim S (f a) y -> sim S (bind x f) y.
Proof. intros E H b Hb. rewrite (val_bind _ _ _ E). auto. Qed.
Lemma sim_right {A B B'} (S : A -> B' -> Prop) x (y : M B) (g : B -> M B') :
  (forall b, val y = Ok b -> sim S x (g b)) -> sim S x (bind y g).
Proof. intros H b Hb. apply inv_bind in Hb. destruct Hb as (b0 & E & Hb). exact (H _ E _ Hb). Qed.
Lemma sim_mono {A B} (R S : A -> B -> Prop) x y : (forall a b, R a b -> S a b) -> sim R x y -> sim S x y.
Proof. intros H K b Hb. destruct (K b Hb) as (a & E & Hr). exists a. auto. Qed.
Lemma sim_branch {A B} (R : A -> B -> Prop) c x x' y y' :
  (c = true -> sim R x y) -> (c = false -> sim R x' y') -> sim R (branch c x x') (branch c y y').
Proof.
  intros H K. unfold branch. apply sim_same. intros _ _. destruct c; auto.
Qed.
Lemma sim_for_n {A B} (R : A -> B -> Prop) n : forall i step f g s t,
  (forall i s t, R s t -> sim R (f i s) (g i t)) -> R s t -> sim R (for_n n i step f s) (for_n n i step g t).
Proof.
  induction n as [|n IH]; intros i step f g s t H Hs; cbn [for_n].
  - now apply sim_ret.
  - apply (sim_bind R); [now apply H|]. intros a b _ Hab. now apply IH.
Qed.
Lemma sim_for {A B} (R : A -> B -> Prop) lo hi step f g s t :
  (forall i s t, R s t -> sim R (f i s) (g i t)) -> R s t -> sim R (for_up lo hi step f s) (for_up lo hi step g t).
Proof. intros H Hs. unfold for_up. apply sim_same. intros _ _. now apply sim_for_n. Qed.
Lemma sim_while {A B} (R : A -> B -> Prop) fuel : forall c c' f g s t,
  (forall s t, R s t -> c s = c' t) -> (forall s t, R s t -> sim R (f s) (g t)) -> R s t ->
  sim R (while fuel c f s) (while fuel c' g t).
Proof.
  induction fuel as [|fuel IH]; intros c c' f g s t Hc H Hs; cbn [while]; rewrite (Hc _ _ Hs);
    apply sim_same; intros _ _; destruct (c' t).
  - intros b Hb. discriminate Hb.
  - now apply sim_ret.
  - apply (sim_bind R); [now apply H|]. intros a b _ Hab. now apply IH.
  - now apply sim_ret.
Qed.

(** ** Single accesses *)

Lemma aget_inv {A} (l : list A) i d b : val (aget l i) = Ok b -> 0 <= i < zlen l /\ b = zget d l i.
Proof.
  unfold aget. rewrite val_emit. destruct (Z.ltb_spec i 0) as [|Hi]; [discriminate|].
  destruct (nth_error l (Z.to_nat i)) eqn:E; [|discriminate]. intros [= <-].
  assert (L : (Z.to_nat i < length l)%nat) by (apply nth_error_Some; congruence).
  split; [unfold zlen; lia|]. unfold zget. symmetry. now apply nth_error_nth.
Qed.
Lemma upd_length {A} (l : list A) n x l' : upd l n x = Some l' -> (n < length l)%nat.
Proof.
  revert n l'. induction l as [|h t IH]; intros [|n] l'; cbn; try discriminate; [lia|].
  destruct (upd t n x) eqn:E; [|discriminate]. intros _. apply IH in E. lia.
Qed.
Lemma aset_inv {A} (l : list A) i x l' : val (aset l i x) = Ok l' -> 0 <= i < zlen l /\ l' = zset l i x.
Proof.
  unfold aset. rewrite val_emit. destruct (Z.ltb_spec i 0) as [|Hi]; [discriminate|].
  destruct (upd l (Z.to_nat i) x) eqn:E; [|discriminate]. intros [= <-].
  pose proof (upd_length _ _ _ _ E) as L. assert (H : 0 <= i < zlen l) by (unfold zlen; lia).
  split; [exact H|]. rewrite upd_zset in E by exact H. now injection E.
Qed.
Lemma aslice_inv {A} (l : list A) o n d : val (aslice l o n) = Ok d ->
  0 <= o /\ 0 <= n /\ o + n <= zlen l /\ d = slice l o (o + n).
Proof.
  unfold aslice. rewrite val_emit.
  destruct ((0 <=? o) && (0 <=? n) && (o + n <=? Z.of_nat (length l))) eqn:E; [|discriminate].
  rewrite !andb_true_iff, !Z.leb_le in E. intros [= <-]. unfold zlen. repeat split; try tauto.
  unfold slice. f_equal. f_equal. lia.
Qed.
Lemma asplice_inv {A} (l new : list A) o d : val (asplice l o new) = Ok d ->
  0 <= o /\ o + zlen new <= zlen l /\ d = firstn (Z.to_nat o) l ++ new ++ skipn (Z.to_nat o + length new) l.
Proof.
  unfold asplice. rewrite val_emit.
  destruct ((0 <=? o) && (o + Z.of_nat (length new) <=? Z.of_nat (length l))) eqn:E; [|discriminate].
  rewrite !andb_true_iff, !Z.leb_le in E. intros [= <-]. unfold zlen. tauto.
Qed.

Lemma sim_get m a d i : contains m a d -> sim eq (mget m (a + i)) (aget d i).
Proof.
  intros H b E. apply (aget_inv _ _ 0) in E. destruct E as [Hi ->]. exists (zget 0 d i). split; [|reflexivity].
  unfold mget. rewrite val_emit. rewrite (H i Hi). reflexivity.
Qed.

(** ** Reading *)

Lemma sim_xor {bo : byte_order} s m a d off len : contains m a d ->
  sim eq (StateXORBytes s m a off len) (KeccakF1600_StateXORBytes s d off len).
Proof.
  intros H. unfold StateXORBytes, KeccakF1600_StateXORBytes. destruct bo.
  - unfold StateXORBytes_le, KeccakF1600_StateXORBytes_le. apply (sim_bind eq).
    + apply sim_for; [|reflexivity]. intros i ? s' ->. apply sim_same. intros b _.
      apply (sim_bind eq); [now apply sim_get|]. intros x ? _ ->. apply sim_eq.
    + intros x ? _ ->. apply sim_eq.
  - unfold StateXORBytes_be, KeccakF1600_StateXORBytes_be. apply sim_for; [|reflexivity]. intros i ? s' ->.
    apply (sim_bind eq); [now apply sim_get|]. intros x ? _ ->. apply sim_eq.
Qed.

Lemma sim_on_state s off f g : (forall t, sim eq (f t) (g t)) -> sim eq (on_state s off f) (on_state s off g).
Proof.
  intros H. unfold on_state. apply sim_same. intros t _. apply (sim_bind eq); [apply H|].
  intros x ? _ ->. apply sim_eq.
Qed.

Lemma sim_inc_absorb {bo : byte_order} s r m a d n : contains m a d ->
  sim eq (inc_absorb s r m a n) (keccak_inc_absorb s r d n).
Proof.
  intros H. unfold inc_absorb, keccak_inc_absorb. apply sim_same. intros cnt _.
  pose (R := fun (x : list Z * Z * Z * Z) (y : list Z * Z * Z * Z) =>
    let '(s, c, p, n) := x in let '(s', c', p', n') := y in s = s' /\ c = c' /\ p = a + p' /\ n = n').
  apply (sim_bind R).
  - apply sim_while.
    + intros [[[? ?] ?] ?] [[[? ?] ?] ?] (-> & -> & -> & ->). reflexivity.
    + intros [[[s1 c1] p1] n1] [[[s2 c2] p2] n2] (-> & -> & -> & ->). cbv zeta.
      apply sim_right. intros e E. apply aslice_inv in E. destruct E as (P0 & N0 & L & ->).
      apply (sim_bind eq).
      { apply sim_on_state. intros t. apply sim_xor. apply contains_slice; [exact H|lia|lia]. }
      intros x ? _ ->. apply sim_same. intros y _. apply sim_same. intros z _. apply sim_same. intros c _.
      apply sim_ret. cbn. repeat split. lia.
    + cbn. repeat split. lia.
  - intros [[[s1 c1] p1] n1] [[[s2 c2] p2] n2] _ (-> & -> & -> & ->).
    apply sim_right. intros e E. apply aslice_inv in E. destruct E as (P0 & N0 & L & ->).
    apply (sim_bind eq).
    { apply sim_on_state. intros t. apply sim_xor. apply contains_slice; [exact H|lia|lia]. }
    intros x ? _ ->. apply sim_eq.
Qed.

(** ** Writing *)

(** [m] is [m0] with the buffers [bufs] stored in it. *)
Definition stored (m0 : mem) (bufs : list (Z * list Z)) (m : mem) : Prop :=
  forall x, m x = overwrite m0 bufs x.

Lemma stored_one m0 a d m x : stored m0 [(a, d)] m ->
  m x = if (a <=? x) && (x <? a + zlen d) then Some (zget 0 d (x - a)) else m0 x.
Proof. intros H. rewrite H. reflexivity. Qed.

Lemma stored_nothing m a d : contains m a d -> stored m [(a, d)] m.
Proof.
  intros H x. cbn [overwrite].
  destruct ((a <=? x) && (x <? a + zlen d)) eqn:E; [|reflexivity].
  rewrite andb_true_iff, Z.leb_le, Z.ltb_lt in E. rewrite <- (H (x - a)) by lia. f_equal. lia.
Qed.

Lemma sim_set m0 a d m i b : accessible m0 a (zlen d) -> stored m0 [(a, d)] m ->
  sim (fun m' d' => zlen d' = zlen d /\ stored m0 [(a, d')] m') (mset m (a + i) b) (aset d i b).
Proof.
  intros Ha H d' E. apply aset_inv in E. destruct E as [Hi ->].
  assert (L : zlen (zset d i b) = zlen d) by now apply zlen_set.
  unfold mset. rewrite val_emit, (stored_one _ _ _ _ _ H).
  replace ((a <=? a + i) && (a + i <? a + zlen d)) with true
    by (symmetry; rewrite andb_true_iff, Z.leb_le, Z.ltb_lt; lia).
  eexists. split; [reflexivity|]. split; [exact L|]. intros x. cbn [overwrite]. fz. rewrite L.
  destruct (Z.eqb_spec x (a + i)) as [->|Hx].
  - replace ((a <=? a + i) && (a + i <? a + zlen d)) with true
      by (symmetry; rewrite andb_true_iff, Z.leb_le, Z.ltb_lt; lia).
    replace (a + i - a) with i by lia. rewrite zget_set by lia. now rewrite Z.eqb_refl.
  - rewrite (stored_one _ _ _ _ _ H).
    destruct ((a <=? x) && (x <? a + zlen d)) eqn:E; [|reflexivity].
    rewrite andb_true_iff, Z.leb_le, Z.ltb_lt in E. rewrite zget_set by lia.
    destruct (Z.eqb_spec i (x - a)); [lia|]. destruct (Z.eqb_spec (x - a) i); [lia|]. reflexivity.
Qed.

Lemma sim_extract {bo : byte_order} s m0 a d off len : contains m0 a d ->
  sim (fun m' d' => zlen d' = zlen d /\ stored m0 [(a, d')] m')
    (StateExtractBytes s m0 a off len) (KeccakF1600_StateExtractBytes s d off len).
Proof.
  intros H. pose proof (contains_accessible _ _ _ H) as Ha.
  assert (G : forall i m e b, zlen e = zlen d /\ stored m0 [(a, e)] m ->
    sim (fun m' d' => zlen d' = zlen d /\ stored m0 [(a, d')] m') (mset m (a + i) b) (aset e i b)).
  { intros i m e b [L Hm].
    apply (sim_mono (fun m' d' => zlen d' = zlen e /\ stored m0 [(a, d')] m')).
    - intros m' d' [L' Hm']. split; [congruence|exact Hm'].
    - apply sim_set; [now rewrite L|exact Hm]. }
  unfold StateExtractBytes, KeccakF1600_StateExtractBytes. destruct bo;
    [unfold StateExtractBytes_le, KeccakF1600_StateExtractBytes_le
    |unfold StateExtractBytes_be, KeccakF1600_StateExtractBytes_be];
    (apply sim_for; [|split; [reflexivity|now apply stored_nothing]]);
    intros i m e Hm; apply sim_same; intros b _; now apply G.
Qed.

Lemma zget_splice l o new i : 0 <= o -> o + zlen new <= zlen l -> 0 <= i ->
  zget 0 (splice l o new) i = if (o <=? i) && (i <? o + zlen new) then zget 0 new (i - o) else zget 0 l i.
Proof.
  intros Ho L Hi. pose proof (zlen_nonneg new). unfold splice. rewrite zget_app by lia.
  rewrite zlen_firstn by lia. destruct (Z.ltb_spec i o).
  - replace (o <=? i) with false by (symmetry; apply Z.leb_gt; lia). apply zget_firstn. lia.
  - replace (o <=? i) with true by (symmetry; apply Z.leb_le; lia). cbn [andb].
    rewrite zget_app by lia. destruct (Z.ltb_spec (i - o) (zlen new)).
    + now replace (i <? o + zlen new) with true by (symmetry; apply Z.ltb_lt; lia).
    + replace (i <? o + zlen new) with false by (symmetry; apply Z.ltb_ge; lia).
      replace (Z.to_nat o + length new)%nat with (Z.to_nat (o + zlen new)) by (unfold zlen; lia).
      rewrite zget_skipn by lia. f_equal. lia.
Qed.

(** One of several buffers is written in part. The buffers before it are apart from it. *)
Lemma stored_splice m0 pre a d post m o e m' :
  stored m0 (pre ++ (a, d) :: post) m -> 0 <= o -> o + zlen e <= zlen d ->
  Forall (fun q => apart (fst q, zlen (snd q)) (a, zlen d)) pre ->
  stored m [(a + o, e)] m' -> stored m0 (pre ++ (a, splice d o e) :: post) m'.
Proof.
  intros H Ho L Hp H' x. rewrite (stored_one _ _ _ _ _ H'), H. clear H H'. pose proof (zlen_nonneg e).
  assert (Ls : zlen (splice d o e) = zlen d) by (apply zlen_splice; lia).
  induction Hp as [|[b c] pre Hb Hp IH]; cbn [app overwrite].
  - fz. rewrite Ls. destruct ((a <=? x) && (x <? a + zlen d)) eqn:E.
    + rewrite andb_true_iff, Z.leb_le, Z.ltb_lt in E. rewrite zget_splice by lia.
      replace (o <=? x - a) with (a + o <=? x) by (destruct (Z.leb_spec (a + o) x), (Z.leb_spec o (x - a)); lia).
      replace (x - a <? o + zlen e) with (x <? a + o + zlen e)
        by (destruct (Z.ltb_spec x (a + o + zlen e)), (Z.ltb_spec (x - a) (o + zlen e)); lia).
      destruct ((a + o <=? x) && (x <? a + o + zlen e)); [|reflexivity]. do 2 f_equal. lia.
    + replace ((a + o <=? x) && (x <? a + o + zlen e)) with false; [reflexivity|].
      symmetry. rewrite andb_false_iff, Z.leb_gt, Z.ltb_ge in *. lia.
  - fz. unfold apart in Hb. cbn in Hb. destruct ((b <=? x) && (x <? b + zlen c)) eqn:E; [|exact IH].
    rewrite andb_true_iff, Z.leb_le, Z.ltb_lt in E.
    replace ((a + o <=? x) && (x <? a + o + zlen e)) with false; [reflexivity|].
    symmetry. rewrite andb_false_iff, Z.leb_gt, Z.ltb_ge. lia.
Qed.

Lemma stored_contains m0 pre a d post m : stored m0 (pre ++ (a, d) :: post) m ->
  Forall (fun q => apart (fst q, zlen (snd q)) (a, zlen d)) pre -> contains m a d.
Proof.
  intros H Hp i Hi. rewrite H. clear H. induction Hp as [|[b c] pre Hb Hp IH]; cbn [app overwrite].
  - replace ((a <=? a + i) && (a + i <? a + zlen d)) with true
      by (symmetry; rewrite andb_true_iff, Z.leb_le, Z.ltb_lt; lia). do 3 f_equal. lia.
  - unfold apart in Hb. cbn in Hb. replace ((b <=? a + i) && (a + i <? b + zlen c)) with false; [exact IH|].
    symmetry. rewrite andb_false_iff, Z.leb_gt, Z.ltb_ge. lia.
Qed.

(** Extracting into a part of one of several buffers *)
Lemma sim_extract_part {bo : byte_order} m0 pre a d post m s o n off len :
  stored m0 (pre ++ (a, d) :: post) m ->
  Forall (fun q => apart (fst q, zlen (snd q)) (a, zlen d)) pre ->
  sim (fun m' d' => zlen d' = zlen d /\ stored m0 (pre ++ (a, d') :: post) m')
    (StateExtractBytes s m (a + o) off len)
    (e <- aslice d o n ;; e <- KeccakF1600_StateExtractBytes s e off len ;; asplice d o e).
Proof.
  intros H Hp. apply sim_right. intros e E. apply aslice_inv in E. destruct E as (P0 & N0 & L & ->).
  assert (C : contains m (a + o) (slice d o (o + n))).
  { apply contains_slice; [|lia|lia]. now apply (stored_contains m0 pre a d post). }
  intros d' Hd. apply inv_bind in Hd. destruct Hd as (e' & E' & Hd). apply asplice_inv in Hd.
  destruct Hd as (_ & L' & ->). fold (splice d o e').
  destruct (sim_extract s m (a + o) (slice d o (o + n)) off len C _ E') as (m' & Em & Le & Hm).
  exists m'. split; [exact Em|]. rewrite zlen_slice in Le by lia. split.
  - apply zlen_splice; lia.
  - now apply (stored_splice m0 pre a d post m o e' m').
Qed.

Lemma sim_inc_squeeze {bo : byte_order} m0 a h n s r : contains m0 a h ->
  sim (fun x y => zlen (fst y) = zlen h /\ stored m0 [(a, fst y)] (fst x) /\ snd x = snd y)
    (inc_squeeze m0 a n s r) (keccak_inc_squeeze h n s r).
Proof.
  intros H. unfold inc_squeeze, keccak_inc_squeeze. apply sim_same. intros cnt _. apply sim_same. intros len _.
  intros res Hres. apply inv_bind in Hres. destruct Hres as (e & E1 & Hres).
  apply inv_bind in Hres. destruct Hres as (st & E2 & Hres).
  apply inv_bind in Hres. destruct Hres as (e' & E3 & Hres).
  apply inv_bind in Hres. destruct Hres as (h1 & E4 & Hres).
  assert (X : val (e <- aslice h 0 len ;; e <- KeccakF1600_StateExtractBytes st e (u32 (r - cnt)) (u32 len) ;; asplice h 0 e) = Ok h1).
  { rewrite (val_bind _ _ _ E1), (val_bind _ _ _ E3). exact E4. }
  destruct (sim_extract_part m0 [] a h [] m0 st 0 len (u32 (r - cnt)) (u32 len) (stored_nothing _ _ _ H)
              ltac:(constructor) _ X) as (m1 & Em & L1 & S1). rewrite Z.add_0_r in Em. cbn [app] in S1.
  rewrite (val_bind _ _ _ E2), (val_bind _ _ _ Em). clear Em X E1 E2 E3 E4 e e' st.
  revert res Hres. change (sim (fun x y => zlen (fst y) = zlen h /\ stored m0 [(a, fst y)] (fst x) /\ snd x = snd y)
    (let h0 := a + len in let outlen := u64 (n - len) in
     s_inc <- aset s 25 (u64 (cnt - len));;
     ' (m, _, _, s_inc0) <- while (S (Z.to_nat outlen)) (fun '(_, _, outlen0, _) => 0 <? outlen0)
        (fun '(m, h2, outlen0, s_inc0) =>
          s_inc1 <- on_state s_inc0 0 KeccakF1600_StatePermute;;
          len0 <- branch (outlen0 <? r) (ret outlen0) (ret r);;
          st <- aslice s_inc1 0 KECCAK_LANES;;
          m' <- StateExtractBytes st m h2 0 (u32 len0);;
          s_inc2 <- aset s_inc1 25 (u64 (r - len0));;
          ret (m', h2 + len0, u64 (outlen0 - len0), s_inc2)) (m1, h0, outlen, s_inc) ;;
     ret (m, s_inc0))
    (let pos := len in let outlen := u64 (n - len) in
     s_inc <- aset s 25 (u64 (cnt - len));;
     ' (h0, _, _, s_inc0) <- while (S (Z.to_nat outlen)) (fun '(_, _, outlen0, _) => 0 <? outlen0)
        (fun '(h0, pos0, outlen0, s_inc0) =>
          s_inc1 <- on_state s_inc0 0 KeccakF1600_StatePermute;;
          len0 <- branch (outlen0 <? r) (ret outlen0) (ret r);;
          d <- aslice h0 pos0 len0;;
          st <- aslice s_inc1 0 KECCAK_LANES;;
          d0 <- KeccakF1600_StateExtractBytes st d 0 (u32 len0);;
          h2 <- asplice h0 pos0 d0;;
          s_inc2 <- aset s_inc1 25 (u64 (r - len0));;
          ret (h2, pos0 + len0, u64 (outlen0 - len0), s_inc2)) (h1, pos, outlen, s_inc) ;;
     ret (h0, s_inc0))).
  cbv zeta. apply sim_same. intros s1 _.
  pose (R := fun (x : mem * Z * Z * list Z) (y : list Z * Z * Z * list Z) =>
    let '(m, p, n, s) := x in let '(h', p', n', s') := y in
    zlen h' = zlen h /\ stored m0 [(a, h')] m /\ p = a + p' /\ n = n' /\ s = s').
  apply (sim_bind R).
  - apply sim_while.
    + intros [[[? ?] ?] ?] [[[? ?] ?] ?] (_ & _ & -> & -> & ->). reflexivity.
    + intros [[[m p] k] t] [[[h' p'] k'] t'] (Lh & Hm & -> & -> & ->).
      apply sim_same. intros t1 _. apply sim_same. intros len0 _.
      intros res Hres. apply inv_bind in Hres. destruct Hres as (e & E1 & Hres).
      apply inv_bind in Hres. destruct Hres as (st & E2 & Hres).
      apply inv_bind in Hres. destruct Hres as (e' & E3 & Hres).
      apply inv_bind in Hres. destruct Hres as (h2 & E4 & Hres).
      assert (X : val (e <- aslice h' p' len0 ;; e <- KeccakF1600_StateExtractBytes st e 0 (u32 len0) ;; asplice h' p' e) = Ok h2).
      { rewrite (val_bind _ _ _ E1), (val_bind _ _ _ E3). exact E4. }
      destruct (sim_extract_part m0 [] a h' [] m st p' len0 0 (u32 len0) Hm ltac:(constructor) _ X)
        as (m2 & Em & L2 & S2). cbn [app] in S2.
      rewrite (val_bind _ _ _ E2), (val_bind _ _ _ Em).
      apply inv_bind in Hres. destruct Hres as (t2 & E5 & Hres). rewrite (val_bind _ _ _ E5).
      injection Hres as <-. eexists. split; [reflexivity|]. cbn. repeat split; [congruence|exact S2|lia].
    + cbn. repeat split; [exact L1|exact S1].
  - intros [[[m p] k] t] [[[h' p'] k'] t'] _ (Lh & Hm & -> & -> & ->). apply sim_ret. cbn. auto.
Qed.

(** ** Four at a time *)

Lemma stored_contained m bufs : Forall (fun q => contains m (fst q) (snd q)) bufs -> stored m bufs m.
Proof.
  intros H x. induction H as [|[a d] bufs Hd H IH]; [reflexivity|]. cbn [overwrite fst snd] in *.
  destruct ((a <=? x) && (x <? a + zlen d)) eqn:E; [|exact IH].
  rewrite andb_true_iff, Z.leb_le, Z.ltb_lt in E. rewrite <- (Hd (x - a)) by lia. f_equal. lia.
Qed.

Lemma sim_xor_x4 {bo : byte_order} s m a0 a1 a2 a3 d0 d1 d2 d3 off len :
  contains m a0 d0 -> contains m a1 d1 -> contains m a2 d2 -> contains m a3 d3 ->
  sim eq (x4_StateXORBytes s m a0 a1 a2 a3 off len) (KeccakF1600x4_StateXORBytes s d0 d1 d2 d3 off len).
Proof.
  intros H0 H1 H2 H3. unfold x4_StateXORBytes, KeccakF1600x4_StateXORBytes.
  apply (sim_bind eq); [apply sim_on_state; intros t; now apply sim_xor|]. intros x ? _ ->.
  apply (sim_bind eq); [apply sim_on_state; intros t; now apply sim_xor|]. intros x ? _ ->.
  apply (sim_bind eq); [apply sim_on_state; intros t; now apply sim_xor|]. intros x ? _ ->.
  apply sim_on_state; intros t; now apply sim_xor.
Qed.

Lemma sim_absorb_x4 {bo : byte_order} s r m a0 a1 a2 a3 d0 d1 d2 d3 n p :
  contains m a0 d0 -> contains m a1 d1 -> contains m a2 d2 -> contains m a3 d3 ->
  sim eq (absorb_x4 s r m a0 a1 a2 a3 n p) (keccak_absorb_x4 s r d0 d1 d2 d3 n p).
Proof.
  intros H0 H1 H2 H3. unfold absorb_x4, keccak_absorb_x4.
  assert (X : forall s o k off len,
    sim eq (x4_StateXORBytes s m (a0 + o) (a1 + o) (a2 + o) (a3 + o) off len)
      (e0 <- aslice d0 o k ;; e1 <- aslice d1 o k ;; e2 <- aslice d2 o k ;; e3 <- aslice d3 o k ;;
       KeccakF1600x4_StateXORBytes s e0 e1 e2 e3 off len)).
  { intros t o k off len. do 4 (apply sim_right; intros ? E; apply aslice_inv in E; destruct E as (? & ? & ? & ->)).
    apply sim_xor_x4; apply contains_slice; assumption || lia. }
  apply (sim_bind eq).
  - apply sim_while; [intros ? ? ->; reflexivity| |reflexivity].
    intros ? [[t o] k] ->. intros res Hres.
    assert (V : exists t', val (e0 <- aslice d0 o r ;; e1 <- aslice d1 o r ;; e2 <- aslice d2 o r ;; e3 <- aslice d3 o r ;;
       KeccakF1600x4_StateXORBytes t e0 e1 e2 e3 0 r) = Ok t' /\
       val (s <- KeccakF1600x4_StatePermute t' ;; ret (s, o + r, u64 (k - r))) = Ok res).
    { do 5 (apply inv_bind in Hres; let e := fresh "e" in let E := fresh "E" in destruct Hres as (e & E & Hres)).
      eexists. split; [|exact Hres].
      repeat match goal with E : val ?x = Ok _ |- val (bind ?x _) = _ => rewrite (val_bind _ _ _ E) end. assumption. }
    destruct V as (t' & V & W). destruct (X _ _ _ _ _ _ V) as (? & E & ->).
    rewrite (val_bind _ _ _ E). exists res. now split.
  - intros ? [[t o] k] _ ->. apply (sim_bind eq).
    + apply sim_branch; intros _; [apply X|apply sim_eq].
    + intros ? t' _ ->. apply sim_eq.
Qed.

Definition spaced (a0 a1 a2 a3 n0 n1 n2 n3 : Z) : Prop := all_apart [(a0, n0); (a1, n1); (a2, n2); (a3, n3)].

Lemma spaced_all a0 a1 a2 a3 n0 n1 n2 n3 : spaced a0 a1 a2 a3 n0 n1 n2 n3 ->
  (apart (a0, n0) (a1, n1) /\ apart (a0, n0) (a2, n2) /\ apart (a0, n0) (a3, n3)) /\
  (apart (a1, n1) (a2, n2) /\ apart (a1, n1) (a3, n3)) /\ apart (a2, n2) (a3, n3).
Proof.
  unfold spaced, all_apart. intros H.
  repeat match goal with
  | H : ForallOrdPairs apart (_ :: _) |- _ => inversion H; clear H; subst
  | H : Forall (apart _) (_ :: _) |- _ => inversion H; clear H; subst
  end. auto 10.
Qed.

Ltac parts := repeat (apply Forall_cons || apply Forall_nil); cbn [fst snd].

Section Four.
Context {bo : byte_order} (m0 : mem) (a0 a1 a2 a3 n0 n1 n2 n3 : Z).

(** The four output buffers of the model with lists, stored in the memory *)
Definition four (m : mem) (d : x4 (list Z)) : Prop :=
  let '(d0, d1, d2, d3) := d in
  zlen d0 = n0 /\ zlen d1 = n1 /\ zlen d2 = n2 /\ zlen d3 = n3 /\
  stored m0 [(a0, d0); (a1, d1); (a2, d2); (a3, d3)] m.

Hypothesis Hs : spaced a0 a1 a2 a3 n0 n1 n2 n3.

Lemma sim_extract_x4 m d0 d1 d2 d3 s o n off len : four m (d0, d1, d2, d3) ->
  sim four (x4_StateExtractBytes s m (a0 + o) (a1 + o) (a2 + o) (a3 + o) off len)
    (e0 <- aslice d0 o n ;; e1 <- aslice d1 o n ;; e2 <- aslice d2 o n ;; e3 <- aslice d3 o n ;;
     '(e0, e1, e2, e3) <- KeccakF1600x4_StateExtractBytes s e0 e1 e2 e3 off len ;;
     f0 <- asplice d0 o e0 ;; f1 <- asplice d1 o e1 ;; f2 <- asplice d2 o e2 ;; f3 <- asplice d3 o e3 ;;
     ret (f0, f1, f2, f3)).
Proof.
  intros (L0 & L1 & L2 & L3 & H). destruct (spaced_all _ _ _ _ _ _ _ _ Hs) as ((A01 & A02 & A03) & (A12 & A13) & A23).
  intros res Hr.
  apply inv_bind in Hr. destruct Hr as (e0 & E0 & Hr). apply inv_bind in Hr. destruct Hr as (e1 & E1 & Hr).
  apply inv_bind in Hr. destruct Hr as (e2 & E2 & Hr). apply inv_bind in Hr. destruct Hr as (e3 & E3 & Hr).
  apply inv_bind in Hr. destruct Hr as ([[[g0 g1] g2] g3] & G & Hr). unfold KeccakF1600x4_StateExtractBytes in G.
  apply inv_bind in G. destruct G as (s0 & S0 & G). apply inv_bind in G. destruct G as (x0 & G0 & G).
  apply inv_bind in G. destruct G as (s1 & S1 & G). apply inv_bind in G. destruct G as (x1 & G1 & G).
  apply inv_bind in G. destruct G as (s2 & S2 & G). apply inv_bind in G. destruct G as (x2 & G2 & G).
  apply inv_bind in G. destruct G as (s3 & S3 & G). apply inv_bind in G. destruct G as (x3 & G3 & G).
  injection G as -> -> -> ->.
  apply inv_bind in Hr. destruct Hr as (f0 & F0 & Hr). apply inv_bind in Hr. destruct Hr as (f1 & F1 & Hr).
  apply inv_bind in Hr. destruct Hr as (f2 & F2 & Hr). apply inv_bind in Hr. destruct Hr as (f3 & F3 & Hr).
  injection Hr as <-. unfold x4_StateExtractBytes. rewrite (val_bind _ _ _ S0).
  destruct (sim_extract_part m0 [] a0 d0 [(a1, d1); (a2, d2); (a3, d3)] m s0 o n off len H ltac:(constructor) f0)
    as (m1 & M1 & Z0 & H1).
  { rewrite (val_bind _ _ _ E0), (val_bind _ _ _ G0). exact F0. }
  rewrite (val_bind _ _ _ M1), (val_bind _ _ _ S1).
  destruct (sim_extract_part m0 [(a0, f0)] a1 d1 [(a2, d2); (a3, d3)] m1 s1 o n off len H1) with (b := f1)
    as (m2 & M2 & Z1 & H2).
  { parts; now rewrite Z0, L0, L1. }
  { rewrite (val_bind _ _ _ E1), (val_bind _ _ _ G1). exact F1. }
  rewrite (val_bind _ _ _ M2), (val_bind _ _ _ S2).
  destruct (sim_extract_part m0 [(a0, f0); (a1, f1)] a2 d2 [(a3, d3)] m2 s2 o n off len H2) with (b := f2)
    as (m3 & M3 & Z2 & H3).
  { parts; [now rewrite Z0, L0, L2|now rewrite Z1, L1, L2]. }
  { rewrite (val_bind _ _ _ E2), (val_bind _ _ _ G2). exact F2. }
  rewrite (val_bind _ _ _ M3), (val_bind _ _ _ S3).
  destruct (sim_extract_part m0 [(a0, f0); (a1, f1); (a2, f2)] a3 d3 [] m3 s3 o n off len H3) with (b := f3)
    as (m4 & M4 & Z3 & H4).
  { parts; [now rewrite Z0, L0, L3|now rewrite Z1, L1, L3|now rewrite Z2, L2, L3]. }
  { rewrite (val_bind _ _ _ E3), (val_bind _ _ _ G3). exact F3. }
  exists m4. split; [exact M4|]. cbn. repeat split; try congruence. exact H4.
Qed.

Lemma sim_squeezeblocks_x4 m h0 h1 h2 h3 k s r : four m (h0, h1, h2, h3) ->
  sim (fun x y => four (fst x) (fst y) /\ snd x = snd y)
    (squeezeblocks_x4 m a0 a1 a2 a3 k s r) (keccak_squeezeblocks_x4 h0 h1 h2 h3 k s r).
Proof.
  intros H. unfold squeezeblocks_x4, keccak_squeezeblocks_x4.
  pose (R := fun (x : mem * Z * Z * list Z) (y : x4 (list Z) * Z * Z * list Z) =>
    let '(m, p, n, s) := x in let '(h', p', n', s') := y in four m h' /\ p = p' /\ n = n' /\ s = s').
  apply (sim_bind R).
  - apply sim_while.
    + intros [[[? ?] ?] ?] [[[? ?] ?] ?] (_ & -> & -> & ->). reflexivity.
    + intros [[[m1 p] n] t] [[[[[[d0 d1] d2] d3] p'] n'] t'] (F & -> & -> & ->).
      apply sim_same. intros t1 _. intros res Hres.
      assert (V : exists f, val (e0 <- aslice d0 p' r ;; e1 <- aslice d1 p' r ;; e2 <- aslice d2 p' r ;; e3 <- aslice d3 p' r ;;
          '(e0, e1, e2, e3) <- KeccakF1600x4_StateExtractBytes t1 e0 e1 e2 e3 0 r ;;
          f0 <- asplice d0 p' e0 ;; f1 <- asplice d1 p' e1 ;; f2 <- asplice d2 p' e2 ;; f3 <- asplice d3 p' e3 ;;
          ret (f0, f1, f2, f3)) = Ok f /\ res = (f, p' + r, n' - 1, t1)).
      { do 4 (apply inv_bind in Hres; let e := fresh "e" in let E := fresh "E" in destruct Hres as (e & E & Hres);
              rewrite (val_bind _ _ _ E); clear E).
        apply inv_bind in Hres. destruct Hres as ([[[g0 g1] g2] g3] & E & Hres). rewrite (val_bind _ _ _ E). clear E.
        do 4 (apply inv_bind in Hres; let e := fresh "e" in let E := fresh "E" in destruct Hres as (e & E & Hres);
              rewrite (val_bind _ _ _ E); clear E).
        injection Hres as <-. eexists. split; reflexivity. }
      destruct V as (f & V & ->). destruct (sim_extract_x4 m1 d0 d1 d2 d3 t1 p' r 0 r F _ V) as (m2 & E & F2).
      rewrite (val_bind _ _ _ E). eexists. split; [reflexivity|]. cbn. auto.
    + cbn. auto.
  - intros [[[m1 p] n] t] [[[h' p'] n'] t'] _ (F & -> & -> & ->). apply sim_ret. cbn. auto.
Qed.

Lemma sim_memcpy pre a d post m o src n : stored m0 (pre ++ (a, d) :: post) m ->
  Forall (fun q => apart (fst q, zlen (snd q)) (a, zlen d)) pre ->
  sim (fun m' d' => zlen d' = zlen d /\ stored m0 (pre ++ (a, d') :: post) m')
    (memcpy_in m (a + o) src n) (memcpy d o src 0 n).
Proof.
  intros H Hp. unfold memcpy_in, memcpy. apply sim_same. intros _ _. apply sim_same. intros e _.
  intros d' E. apply asplice_inv in E. destruct E as (P0 & L & ->). fold (splice d o e).
  assert (C : contains m a d) by now apply (stored_contains m0 pre a d post).
  assert (A : accessible m (a + o) (zlen e)).
  { intros x Hx. pose proof (contains_accessible _ _ _ C x). apply H0. lia. }
  pose proof (wp_mstore False m (a + o) e (fun x => x = mwrite m (a + o) e) A eq_refl) as W.
  unfold mstore in *. rewrite val_emit. exists (mwrite m (a + o) e). split.
  - apply wp_val in W. rewrite val_emit in W. exact W.
  - split; [apply zlen_splice; lia|]. apply (stored_splice m0 pre a d post m o e); try assumption.
    intros x. apply mwrite_eq.
Qed.

Lemma sim_shake256x4 J h0 h1 h2 h3 n i0 i1 i2 i3 b0 b1 b2 b3 k :
  contains m0 a0 h0 -> contains m0 a1 h1 -> contains m0 a2 h2 -> contains m0 a3 h3 ->
  zlen h0 = n0 -> zlen h1 = n1 -> zlen h2 = n2 -> zlen h3 = n3 ->
  contains m0 i0 b0 -> contains m0 i1 b1 -> contains m0 i2 b2 -> contains m0 i3 b3 ->
  sim four (shake256x4_in J m0 a0 a1 a2 a3 n i0 i1 i2 i3 k) (shake256x4 J h0 h1 h2 h3 n b0 b1 b2 b3 k).
Proof.
  intros C0 C1 C2 C3 L0 L1 L2 L3 B0 B1 B2 B3. unfold shake256x4_in, shake256x4. apply sim_same. intros nb _.
  unfold shake256x4_absorb. apply (sim_bind eq).
  { apply sim_same. intros s _. now apply sim_absorb_x4. }
  intros ? s _ ->. unfold shake256x4_squeezeblocks.
  apply (sim_bind (fun x y => four (fst x) (fst y) /\ snd x = snd y)).
  { apply sim_squeezeblocks_x4. cbn. repeat split; try assumption. apply stored_contained.
    repeat constructor; assumption. }
  intros [m1 s1] [[[[d0 d1] d2] d3] s2] _ [F E]. cbn in E. subst s2. cbv zeta. cbn [fst] in F.
  apply sim_branch; intros _; [|now apply sim_ret].
  apply sim_same. intros [[[[t0 t1] t2] t3] s3] _. destruct F as (K0 & K1 & K2 & K3 & F).
  destruct (spaced_all _ _ _ _ _ _ _ _ Hs) as ((A01 & A02 & A03) & (A12 & A13) & A23).
  apply (sim_bind (fun m' d' => zlen d' = zlen d0 /\ stored m0 [(a0, d'); (a1, d1); (a2, d2); (a3, d3)] m')).
  { apply (sim_memcpy [] a0 d0 [(a1, d1); (a2, d2); (a3, d3)]); [exact F|constructor]. }
  intros m2 f0 _ [Z0 F0].
  apply (sim_bind (fun m' d' => zlen d' = zlen d1 /\ stored m0 [(a0, f0); (a1, d'); (a2, d2); (a3, d3)] m')).
  { apply (sim_memcpy [(a0, f0)] a1 d1 [(a2, d2); (a3, d3)]); [exact F0|]. parts; now rewrite Z0, K0, K1. }
  intros m3 f1 _ [Z1 F1].
  apply (sim_bind (fun m' d' => zlen d' = zlen d2 /\ stored m0 [(a0, f0); (a1, f1); (a2, d'); (a3, d3)] m')).
  { apply (sim_memcpy [(a0, f0); (a1, f1)] a2 d2 [(a3, d3)]); [exact F1|].
    parts; [now rewrite Z0, K0, K2|now rewrite Z1, K1, K2]. }
  intros m4 f2 _ [Z2 F2].
  intros res Hres. apply inv_bind in Hres. destruct Hres as (f3 & E3 & Hres). injection Hres as <-.
  destruct (sim_memcpy [(a0, f0); (a1, f1); (a2, f2)] a3 d3 [] m4 (nb * SHAKE256_RATE) t3 (u64 (n - nb * SHAKE256_RATE)) F2)
    with (b := f3) as (m5 & E5 & Z3 & F3); [|exact E3|].
  { parts; [now rewrite Z0, K0, K3|now rewrite Z1, K1, K3|now rewrite Z2, K2, K3]. }
  exists m5. split; [exact E5|]. cbn. repeat split; try congruence. exact F3.
Qed.
End Four.

(** ** The functions *)

Lemma sim_output {bo : byte_order} m0 a h n s r : contains m0 a h ->
  sim (fun m d => stored m0 [(a, d)] m)
    ('(m, _) <- inc_squeeze m0 a n s r ;; ret m) ('(d, _) <- keccak_inc_squeeze h n s r ;; ret d).
Proof.
  intros H. eapply sim_bind; [now apply sim_inc_squeeze|].
  intros [m ?] [d ?] _ (_ & E & _). cbn in E. now apply sim_ret.
Qed.

(** A call that gives [d] on lists, when the output buffer holds [h] *)
Lemma sim_result m0 a n d (x : M mem) (y : list Z -> M (list Z)) : 0 <= n -> accessible m0 a n ->
  (forall h, contains m0 a h -> sim (fun m d => stored m0 [(a, d)] m) x (y h)) ->
  (forall h, zlen h = n -> val (y h) = Ok d) ->
  exists m, val x = Ok m /\ forall b, m b = overwrite m0 [(a, d)] b.
Proof.
  intros Hn A Hs Hy. destruct (contents m0 a n Hn A) as (h & L & C). exact (Hs h C d (Hy h L)).
Qed.

Lemma skipn_zlen {A} (l : list A) n : zlen l = n -> skipn (Z.to_nat n) l = [].
Proof. intros H. apply skipn_all2. unfold zlen in H. lia. Qed.

Section Result.
Context {bo : byte_order} (J : junk) (m : mem) (output input : Z) (l : list Z).
Hypothesis (Bm : byte_memory m) (Hl : contains m input l) (Ll : zlen l < 2 ^ 63).
Let Bl : bytes l := contains_bytes _ _ _ Bm Hl.

Lemma sha3_256_in_place : accessible m output 32 ->
  exists m', val (sha3_256_in J m output input (zlen l)) = Ok m' /\
    forall x, m' x = overwrite m [(output, SHA3_256 l)] x.
Proof.
  intros A. apply (sim_result m output 32 (SHA3_256 l) _ (fun h => sha3_256 J h l (zlen l))); [lia|exact A| |].
  - intros h C. unfold sha3_256_in, sha3_256. apply sim_same. intros s _.
    apply (sim_bind eq); [now apply sim_inc_absorb|]. intros ? s1 _ ->. apply sim_same. intros s2 _.
    now apply sim_output.
  - intros h L. rewrite sha3_256_correct; try assumption; try (pose proof (zlen_nonneg l)); try lia.
    rewrite slice_zlen by reflexivity. change 32%nat with (Z.to_nat 32). now rewrite skipn_zlen, app_nil_r.
Qed.

Lemma sha3_512_in_place : accessible m output 64 ->
  exists m', val (sha3_512_in J m output input (zlen l)) = Ok m' /\
    forall x, m' x = overwrite m [(output, SHA3_512 l)] x.
Proof.
  intros A. apply (sim_result m output 64 (SHA3_512 l) _ (fun h => sha3_512 J h l (zlen l))); [lia|exact A| |].
  - intros h C. unfold sha3_512_in, sha3_512. apply sim_same. intros s _.
    apply (sim_bind eq); [now apply sim_inc_absorb|]. intros ? s1 _ ->. apply sim_same. intros s2 _.
    now apply sim_output.
  - intros h L. rewrite sha3_512_correct; try assumption; try (pose proof (zlen_nonneg l)); try lia.
    rewrite slice_zlen by reflexivity. change 64%nat with (Z.to_nat 64). now rewrite skipn_zlen, app_nil_r.
Qed.

Lemma shake256_in_place outlen : 0 <= outlen < 2 ^ 63 -> accessible m output outlen ->
  exists m', val (shake256_in J m output outlen input (zlen l)) = Ok m' /\
    forall x, m' x = overwrite m [(output, SHAKE256 l outlen)] x.
Proof.
  intros Ho A. apply (sim_result m output outlen (SHAKE256 l outlen) _ (fun h => shake256 J h outlen l (zlen l)));
    [lia|exact A| |].
  - intros h C. unfold shake256_in, shake256. apply sim_same. intros s _.
    apply (sim_bind eq); [now apply sim_inc_absorb|]. intros ? s1 _ ->. apply sim_same. intros s2 _.
    now apply sim_output.
  - intros h L. rewrite shake256_correct; try assumption; try (pose proof (zlen_nonneg l)); try lia.
    rewrite slice_zlen by reflexivity. now rewrite skipn_zlen, app_nil_r.
Qed.
End Result.

Lemma rkprf_in_place {bo : byte_order} J p m out key input z c :
  byte_memory m -> contains m key z -> zlen z = 32 -> contains m input c -> zlen c = ct_size (set_of p) ->
  accessible m out 32 ->
  exists m', val (rkprf_in J p m out key input) = Ok m' /\
    forall x, m' x = overwrite m [(out, Spec203.J (z ++ c))] x.
Proof.
  intros Bm Hz Lz Hc Lc A.
  apply (sim_result m out 32 (Spec203.J (z ++ c)) _ (fun h => mlkem_shake256_rkprf J p h z c)); [lia|exact A| |].
  - intros h C. unfold rkprf_in, mlkem_shake256_rkprf, shake256_inc_absorb, shake256_inc_squeeze.
    apply sim_same. intros s _.
    apply (sim_bind eq); [now apply sim_inc_absorb|]. intros ? s1 _ ->.
    apply (sim_bind eq); [now apply sim_inc_absorb|]. intros ? s2 _ ->.
    apply sim_same. intros s3 _. now apply sim_output.
  - intros h L. apply wp_val. apply wp_rkprf; try assumption; try reflexivity; eapply contains_bytes; eassumption.
Qed.

Lemma shake256x4_in_place {bo : byte_order} J m o0 o1 o2 o3 outlen i0 i1 i2 i3 l0 l1 l2 l3 n :
  byte_memory m -> 0 <= n < 2 ^ 63 -> 0 <= outlen < 2 ^ 63 ->
  contains m i0 l0 -> contains m i1 l1 -> contains m i2 l2 -> contains m i3 l3 ->
  zlen l0 = n -> zlen l1 = n -> zlen l2 = n -> zlen l3 = n ->
  accessible m o0 outlen -> accessible m o1 outlen -> accessible m o2 outlen -> accessible m o3 outlen ->
  all_apart [(o0, outlen); (o1, outlen); (o2, outlen); (o3, outlen)] ->
  exists m', val (shake256x4_in J m o0 o1 o2 o3 outlen i0 i1 i2 i3 n) = Ok m' /\
    forall x, m' x = overwrite m
      [(o0, SHAKE256 l0 outlen); (o1, SHAKE256 l1 outlen); (o2, SHAKE256 l2 outlen); (o3, SHAKE256 l3 outlen)] x.
Proof.
  intros Bm Hn Ho C0 C1 C2 C3 L0 L1 L2 L3 A0 A1 A2 A3 Ap.
  destruct (contents m o0 outlen ltac:(lia) A0) as (h0 & K0 & H0).
  destruct (contents m o1 outlen ltac:(lia) A1) as (h1 & K1 & H1).
  destruct (contents m o2 outlen ltac:(lia) A2) as (h2 & K2 & H2).
  destruct (contents m o3 outlen ltac:(lia) A3) as (h3 & K3 & H3).
  assert (E : val (shake256x4 J h0 h1 h2 h3 outlen l0 l1 l2 l3 n) =
    Ok (SHAKE256 l0 outlen, SHAKE256 l1 outlen, SHAKE256 l2 outlen, SHAKE256 l3 outlen)).
  { rewrite shake256x4_correct; try lia; try (eapply contains_bytes; eassumption).
    rewrite !slice_zlen by congruence. now rewrite !skipn_zlen, !app_nil_r by assumption. }
  edestruct (sim_shake256x4 m o0 o1 o2 o3 outlen outlen outlen outlen Ap J h0 h1 h2 h3 outlen i0 i1 i2 i3 l0 l1 l2 l3 n)
    as (m' & V & F); try eassumption. exists m'. split; [exact V|]. apply F.
Qed.
