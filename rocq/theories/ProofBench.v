(** * Proofs about the statistics of the benchmark programs *)

From Coq Require Import ZArith List Bool Lia Permutation Sorted String.
From Verif Require Import CSem ModelBench Spec202 SpecBench CSemFacts.
Import ListNotations.
Open Scope Z_scope.
Ltac Zify.zify_post_hook ::= idtac.

(** ** The comparison function *)
Lemma s32_u64 x : s32 (u64 x) = (x + 2147483648) mod 4294967296 - 2147483648.
Proof.
  unfold s32, u64. f_equal. rewrite (Z.div_mod x 18446744073709551616) at 2 by lia.
  replace (18446744073709551616 * (x / 18446744073709551616) + x mod 18446744073709551616 + 2147483648)
    with (x mod 18446744073709551616 + 2147483648 + (4294967296 * (x / 18446744073709551616)) * 4294967296) by lia.
  now rewrite Z.mod_add by lia.
Qed.
Lemma cmp_close a b : Z.abs (a - b) < 2 ^ 31 -> cmp_uint64_t a b = a - b.
Proof.
  change (2 ^ 31) with 2147483648. intros H. unfold cmp_uint64_t. rewrite s32_u64, Z.mod_small; lia.
Qed.
Lemma cmp_zero a b : cmp_uint64_t a b = 0 <-> (a - b) mod 2 ^ 32 = 0.
Proof.
  unfold cmp_uint64_t. rewrite s32_u64. change (2 ^ 32) with 4294967296.
  pose proof (Z.mod_pos_bound (a - b) 4294967296 ltac:(lia)) as B.
  pose proof (Z.div_mod (a - b) 4294967296 ltac:(lia)) as E. set (d := (a - b) / 4294967296) in *. set (r := (a - b) mod 4294967296) in *.
  clearbody d r. rewrite E.
  replace (4294967296 * d + r + 2147483648) with (r + 2147483648 + d * 4294967296) by lia. rewrite Z.mod_add by lia.
  destruct (Z_lt_dec r 2147483648) as [H|H].
  - rewrite Z.mod_small by lia. lia.
  - replace (r + 2147483648) with (r - 2147483648 + 1 * 4294967296) by lia. rewrite Z.mod_add, Z.mod_small by lia. lia.
Qed.
(** The range of distances for which the sign is right *)
Lemma cmp_sign a b : Z.abs (a - b) < 2 ^ 31 -> Z.sgn (cmp_uint64_t a b) = Z.sgn (a - b).
Proof. intros H. now rewrite cmp_close. Qed.

Lemma close_consistent l : close l -> consistent cmp_uint64_t l.
Proof.
  intros H. split.
  - intros x y Hx Hy. rewrite !cmp_close by auto. lia.
  - intros x y z Hx Hy Hz. rewrite !cmp_close by auto. lia.
Qed.

(** ** Order statistics *)
Lemma Sorted_mono {A} (R S : A -> A -> Prop) l : (forall x y, In x l -> In y l -> R x y -> S x y) ->
  StronglySorted R l -> StronglySorted S l.
Proof.
  induction l as [|a l IH]; intros H HS; constructor; inversion HS as [|? ? H1 H2]; subst.
  - apply IH; auto. intros x y Hx Hy. apply H; cbn; auto.
  - rewrite Forall_forall in *. intros x Hx. apply H; cbn; auto.
Qed.
Lemma Sorted_split a v b : StronglySorted Z.le (a ++ v :: b) ->
  Forall (fun x => x <= v) a /\ Forall (fun x => v <= x) b.
Proof.
  induction a as [|y a IH]; cbn [app]; intros H; inversion H as [|? ? H1 H2]; subst; [auto|].
  destruct (IH H1) as [Ha Hb]. split; [|exact Hb]. constructor; [|exact Ha].
  rewrite Forall_forall in H2. apply H2, in_or_app. right. now left.
Qed.
Lemma filter_perm (f : Z -> bool) l l' : Permutation l l' -> Permutation (filter f l) (filter f l').
Proof.
  induction 1; cbn [filter]; auto.
  - now destruct (f x); auto.
  - destruct (f x), (f y); auto. apply perm_swap.
  - eapply perm_trans; eauto.
Qed.
Lemma count_perm f l l' : Permutation l l' -> count f l = count f l'.
Proof. intros H. unfold count, zlen. f_equal. apply Permutation_length, filter_perm, H. Qed.
Lemma count_app f a b : count f (a ++ b) = count f a + count f b.
Proof. unfold count. rewrite filter_app. apply zlen_app. Qed.
Lemma count_all f l : Forall (fun x => f x = true) l -> count f l = zlen l.
Proof. induction 1 as [|x l Hx Hl IH]; [reflexivity|]. unfold count in *. cbn [filter]. rewrite Hx. rewrite !zlen_cons. lia. Qed.
Lemma count_none f l : Forall (fun x => f x = false) l -> count f l = 0.
Proof. induction 1 as [|x l Hx Hl IH]; [reflexivity|]. unfold count in *. cbn [filter]. now rewrite Hx. Qed.
Lemma count_bound f l : 0 <= count f l <= zlen l.
Proof.
  induction l as [|x l IH]; [unfold count, zlen; cbn; lia|]. unfold count in *. cbn [filter]. destruct (f x); rewrite !zlen_cons; lia.
Qed.
Lemma sorted_rank l l' r v : Permutation l l' -> StronglySorted Z.le l' -> 0 <= r < zlen l' -> zget 0 l' r = v ->
  at_rank l r v.
Proof.
  intros HP HS Hr HV. unfold zget, zlen in *.
  destruct (nth_split l' 0 (n := Z.to_nat r) ltac:(lia)) as (a & b & E & La). rewrite HV in E.
  unfold at_rank. rewrite !(count_perm _ _ _ HP). rewrite E in *.
  destruct (Sorted_split _ _ _ HS) as [Ha Hb]. split.
  - eapply Permutation_in; [apply Permutation_sym, HP|]. apply in_or_app. right. now left.
  - change (v :: b) with ([v] ++ b). rewrite !count_app.
    rewrite (count_none (fun x => x <? v) b). 2:{ eapply Forall_impl; [|exact Hb]. cbn. intros; lia. }
    rewrite (count_none (fun x => x <? v) [v]). 2:{ constructor; [apply Z.ltb_irrefl|constructor]. }
    rewrite (count_all (fun x => x <=? v) a). 2:{ eapply Forall_impl; [|exact Ha]. cbn. intros; lia. }
    rewrite (count_all (fun x => x <=? v) [v]). 2:{ constructor; [apply Z.leb_refl|constructor]. }
    pose proof (count_bound (fun x => x <? v) a). pose proof (count_bound (fun x => x <=? v) b).
    unfold zlen in *. cbn [Datatypes.length]. lia.
Qed.
(** A rank has one element. *)
Lemma rank_unique l r v w : at_rank l r v -> at_rank l r w -> v = w.
Proof.
  assert (H : forall v w, v < w -> count (fun x => x <=? v) l <= count (fun x => x <? w) l).
  { intros v0 w0 L. unfold count. induction l as [|x t IH]; [reflexivity|]. cbn [filter].
    destruct (x <=? v0) eqn:E1, (x <? w0) eqn:E2; rewrite ?zlen_cons; lia. }
  intros (_ & V1 & V2) (_ & W1 & W2). destruct (Z.lt_total v w) as [L|[L|L]]; auto; apply H in L; lia.
Qed.

(** ** The array after qsort *)
Lemma qsort_rank qs l r : sorts qs -> close l -> 0 <= r < zlen l ->
  zlen (qs cmp_uint64_t l) = zlen l /\ at_rank l r (zget 0 (qs cmp_uint64_t l) r).
Proof.
  intros HS HC Hr. destruct (HS _ _ (close_consistent _ HC)) as [HP HO].
  assert (L : zlen (qs cmp_uint64_t l) = zlen l) by (unfold zlen; f_equal; symmetry; apply Permutation_length, HP).
  split; [exact L|]. apply (sorted_rank l (qs cmp_uint64_t l)); auto; [|lia].
  eapply Sorted_mono; [|exact HO]. intros x y Hx Hy. cbn.
  apply (Permutation_in _ (Permutation_sym HP)) in Hx. apply (Permutation_in _ (Permutation_sym HP)) in Hy.
  rewrite cmp_close by auto. lia.
Qed.

(** ** The measurements *)
Lemma elapsed now reading i j : reads now reading -> 0 <= now j - now i < 2 ^ 64 ->
  u64 (reading j - reading i) = now j - now i.
Proof.
  intros H B. rewrite !H. unfold u64. change 18446744073709551616 with (2 ^ 64). rewrite <- Zminus_mod.
  now rewrite Z.mod_small.
Qed.
Lemma in_durations now n f i : 0 <= i < n -> In (now (f i + 1) - now (f i)) (durations now n f).
Proof. intros H. apply in_map_iff. exists i. split; [reflexivity|]. now apply in_range. Qed.

(** An array of n elements of which the first i are filled *)
Definition filled (l : list Z) (n i : Z) (g : Z -> Z) : Prop :=
  zlen l = n /\ forall j, 0 <= j < i -> zget 0 l j = g j.
Lemma filled_step l n i g : 0 <= i < n -> filled l n i g -> filled (zset l i (g i)) n (i + 1) g.
Proof.
  intros Hi [L H]. split; [rewrite zlen_set; lia|]. intros j Hj.
  rewrite zget_set by lia. destruct (Z.eqb_spec j i) as [->|Hn]; [reflexivity|]. apply H. lia.
Qed.
Lemma filled_all l n g : 0 <= n -> filled l n n g -> l = map g (range n).
Proof.
  intros Hn [L H]. apply (zlist_ext 0); [rewrite zlen_map, zlen_range; lia|]. intros i Hi. rewrite H by lia.
  symmetry. apply zget_map_range. lia.
Qed.

(** ** Printing *)
Lemma median_out txt cyc : zlen cyc = 500 -> val (print_median txt cyc) = Ok (Cycles txt (zget 0 cyc 250 / 300)).
Proof.
  intros L. apply wp_val. unfold print_median. change (Z.shiftr NTESTS 1) with 250.
  apply wp_bind, (wp_aget 0); [lia|]. now apply wp_ret.
Qed.
Lemma legend_out : val print_percentile_legend = Ok (Legend [1; 10; 20; 30; 40; 50; 60; 70; 80; 90; 99]).
Proof. reflexivity. Qed.

Lemma percentiles_range i : 0 <= i < 11 -> 1 <= zget 0 percentiles i <= 99.
Proof.
  intros H. assert (F : forallb (fun i => (1 <=? zget 0 percentiles i) && (zget 0 percentiles i <=? 99)) (range 11) = true) by reflexivity.
  rewrite forallb_forall in F. specialize (F i (proj2 (in_range i 11) H)). lia.
Qed.
Lemma percentiles_out txt cyc : zlen cyc = 500 ->
  val (print_percentiles txt cyc) = Ok (Percentiles txt (map (fun p => zget 0 cyc (5 * p) / 300) percentiles)).
Proof.
  intros L. apply wp_val. unfold print_percentiles. apply wp_bind.
  apply (wp_for _ (fun i l => l = map (fun j => zget 0 cyc (5 * zget 0 percentiles j) / 300) (range i))); [lia|reflexivity| |].
  - intros i l Hi ->. pose proof (percentiles_range i Hi) as HP.
    apply wp_bind, (wp_aget 0); [exact Hi|]. apply wp_bind, wp_i32; [unfold NTESTS; lia|].
    replace (NTESTS * zget 0 percentiles i / 100) with (5 * zget 0 percentiles i)
      by (unfold NTESTS; replace (500 * zget 0 percentiles i) with (5 * zget 0 percentiles i * 100) by lia; now rewrite Z.div_mul by lia).
    apply wp_bind, (wp_aget 0); [lia|]. apply wp_ret. rewrite range_S, map_app by lia. reflexivity.
  - intros l ->. apply wp_ret. f_equal.
Qed.

(** ** The loop *)
Lemma bench_loop J reading agree : let f k i := u64 (reading (6 * i + k + 1) - reading (6 * i + k)) in
  val (for_up 0 NTESTS 1 (fun i r =>
         match r with
         | None => ret None
         | Some (kg, enc, dec) =>
             kg <- aset kg i (u64 (reading (6 * i + 1) - reading (6 * i))) ;;
             enc <- aset enc i (u64 (reading (6 * i + 3) - reading (6 * i + 2))) ;;
             dec <- aset dec i (u64 (reading (6 * i + 5) - reading (6 * i + 4))) ;;
             branch (negb (agree i)) (ret None) (ret (Some (kg, enc, dec)))
         end) (Some (uninit J 0 NTESTS, uninit J 1 NTESTS, uninit J 2 NTESTS))) =
  Ok (if forallb agree (range 500) then Some (map (f 0) (range 500), map (f 2) (range 500), map (f 4) (range 500)) else None).
Proof.
  intros f. apply wp_val. unfold NTESTS.
  apply (wp_for _ (fun i r => match r with
    | None => forallb agree (range i) = false
    | Some (kg, enc, dec) => forallb agree (range i) = true /\ filled kg 500 i (f 0) /\ filled enc 500 i (f 2) /\ filled dec 500 i (f 4)
    end)); [lia| | |].
  - split; [reflexivity|]. repeat split; try (now rewrite zlen_uninit); intros; lia.
  - intros i r Hi HI. rewrite range_S, forallb_app by lia. cbn [forallb]. rewrite andb_true_r.
    destruct r as [[[kg enc] dec]|]; [|apply wp_ret; now rewrite HI].
    destruct HI as (HA & Hk & He & Hd). rewrite HA. cbn [andb].
    apply wp_bind, wp_aset; [destruct Hk as [-> _]; exact Hi|]. apply wp_bind, wp_aset; [destruct He as [-> _]; exact Hi|].
    apply wp_bind, wp_aset; [destruct Hd as [-> _]; exact Hi|].
    apply wp_branch; destruct (agree i); cbn [negb]; intros E; try discriminate; apply wp_ret; [reflexivity|].
    split; [reflexivity|]. split; [|split].
    + replace (u64 _) with (f 0 i) by (unfold f; do 2 f_equal; f_equal; lia). now apply filled_step.
    + replace (u64 _) with (f 2 i) by (unfold f; do 2 f_equal; f_equal; lia). now apply filled_step.
    + replace (u64 _) with (f 4 i) by (unfold f; do 2 f_equal; f_equal; lia). now apply filled_step.
  - intros [[[kg enc] dec]|] HI; [|now rewrite HI]. destruct HI as (-> & Hk & He & Hd).
    apply filled_all in Hk, He, Hd; try lia. now subst.
Qed.

Lemma durations_filled now reading n k g : reads now reading -> 0 <= n ->
  measurable (durations now n (fun i => g * i + k)) ->
  map (fun i => u64 (reading (g * i + k + 1) - reading (g * i + k))) (range n) = durations now n (fun i => g * i + k).
Proof.
  intros HR Hn HM. apply map_ext_in. intros i Hi. apply in_range in Hi. apply elapsed; [exact HR|].
  apply HM, (in_durations now n (fun i => g * i + k) i Hi).
Qed.
Lemma zlen_durations now n f : 0 <= n -> zlen (durations now n f) = n.
Proof. intros H. unfold durations. rewrite zlen_map. now apply zlen_range. Qed.

Lemma percentile_ranks qs l : sorts qs -> close l -> zlen l = 500 ->
  Forall2 (fun p n => per_iteration l (5 * p) n) percentiles (map (fun p => zget 0 (qs cmp_uint64_t l) (5 * p) / 300) percentiles).
Proof.
  intros HS HC L. assert (F : Forall (fun p => 0 <= 5 * p < 500) percentiles) by (repeat constructor; discriminate || reflexivity).
  induction F as [|p t Hp Ht IH]; cbn [map]; constructor; [|exact IH].
  exists (zget 0 (qs cmp_uint64_t l) (5 * p)). split; [|reflexivity]. apply qsort_rank; auto. lia.
Qed.

Definition LEGEND : list Z := [1; 10; 20; 30; 40; 50; 60; 70; 80; 90; 99].

(** What is printed, whatever qsort does, as long as it keeps the lengths *)
Lemma bench_lines J qs reading agree now : reads now reading ->
  (forall i, 0 <= i < 500 -> agree i = true) ->
  let kg := durations now 500 (fun i => 6 * i) in
  let enc := durations now 500 (fun i => 6 * i + 2) in
  let dec := durations now 500 (fun i => 6 * i + 4) in
  measurable kg -> measurable enc -> measurable dec ->
  zlen (qs cmp_uint64_t kg) = 500 -> zlen (qs cmp_uint64_t enc) = 500 -> zlen (qs cmp_uint64_t dec) = 500 ->
  val (bench J qs reading agree) =
    Ok (0, [Cycles "keypair" (zget 0 (qs cmp_uint64_t kg) 250 / 300);
            Cycles "encaps" (zget 0 (qs cmp_uint64_t enc) 250 / 300);
            Cycles "decaps" (zget 0 (qs cmp_uint64_t dec) 250 / 300); Empty; Legend LEGEND;
            Percentiles "keypair" (map (fun p => zget 0 (qs cmp_uint64_t kg) (5 * p) / 300) percentiles);
            Percentiles "encaps" (map (fun p => zget 0 (qs cmp_uint64_t enc) (5 * p) / 300) percentiles);
            Percentiles "decaps" (map (fun p => zget 0 (qs cmp_uint64_t dec) (5 * p) / 300) percentiles)]).
Proof.
  intros HR HA kg enc dec M1 M2 M3 Qk Qe Qd.
  assert (Ek : kg = durations now 500 (fun i => 6 * i + 0)) by (apply map_ext; intros i; do 2 f_equal; lia).
  rewrite Ek in *. clear Ek. clear kg. set (kg := durations now 500 (fun i => 6 * i + 0)) in *.
  pose proof (bench_loop J reading agree) as HL. cbv zeta in HL.
  replace (forallb agree (range 500)) with true in HL
    by (symmetry; apply forallb_forall; intros i Hi; apply in_range in Hi; auto).
  rewrite (durations_filled now reading 500 0 6 HR ltac:(lia) M1) in HL.
  rewrite (durations_filled now reading 500 2 6 HR ltac:(lia) M2) in HL.
  rewrite (durations_filled now reading 500 4 6 HR ltac:(lia) M3) in HL.
  fold kg enc dec in HL. clearbody kg enc dec.
  apply wp_val. unfold bench. apply wp_bind. eapply wp_ok; [exact HL|]. cbv zeta iota beta.
  apply wp_bind. eapply wp_ok; [apply median_out; lia|]. apply wp_bind. eapply wp_ok; [apply median_out; lia|].
  apply wp_bind. eapply wp_ok; [apply median_out; lia|]. apply wp_bind. eapply wp_ok; [apply legend_out|].
  apply wp_bind. eapply wp_ok; [apply percentiles_out; lia|]. apply wp_bind. eapply wp_ok; [apply percentiles_out; lia|].
  apply wp_bind. eapply wp_ok; [apply percentiles_out; lia|]. now apply wp_ret.
Qed.

Lemma bench_out J qs reading agree now : sorts qs -> reads now reading ->
  (forall i, 0 <= i < 500 -> agree i = true) ->
  let kg := durations now 500 (fun i => 6 * i) in
  let enc := durations now 500 (fun i => 6 * i + 2) in
  let dec := durations now 500 (fun i => 6 * i + 4) in
  measurable kg -> measurable enc -> measurable dec -> close kg -> close enc -> close dec ->
  exists m1 m2 m3 p1 p2 p3,
    val (bench J qs reading agree) =
      Ok (0, [Cycles "keypair" m1; Cycles "encaps" m2; Cycles "decaps" m3; Empty;
              Legend [1; 10; 20; 30; 40; 50; 60; 70; 80; 90; 99];
              Percentiles "keypair" p1; Percentiles "encaps" p2; Percentiles "decaps" p3]) /\
    per_iteration kg 250 m1 /\ per_iteration enc 250 m2 /\ per_iteration dec 250 m3 /\
    Forall2 (fun p n => per_iteration kg (5 * p) n) [1; 10; 20; 30; 40; 50; 60; 70; 80; 90; 99] p1 /\
    Forall2 (fun p n => per_iteration enc (5 * p) n) [1; 10; 20; 30; 40; 50; 60; 70; 80; 90; 99] p2 /\
    Forall2 (fun p n => per_iteration dec (5 * p) n) [1; 10; 20; 30; 40; 50; 60; 70; 80; 90; 99] p3.
Proof.
  intros HS HR HA kg enc dec M1 M2 M3 C1 C2 C3.
  pose proof (bench_lines J qs reading agree now HR HA M1 M2 M3) as HB. fold kg enc dec in HB.
  assert (Lk : zlen kg = 500) by now apply zlen_durations.
  assert (Le : zlen enc = 500) by now apply zlen_durations.
  assert (Ld : zlen dec = 500) by now apply zlen_durations.
  clearbody kg enc dec.
  destruct (qsort_rank qs kg 250 HS C1 ltac:(lia)) as [Qk Rk].
  destruct (qsort_rank qs enc 250 HS C2 ltac:(lia)) as [Qe Re].
  destruct (qsort_rank qs dec 250 HS C3 ltac:(lia)) as [Qd Rd].
  do 6 eexists. split; [apply HB; lia|].
  repeat split; try (apply (percentile_ranks qs); auto); eexists; split; try eassumption; reflexivity.
Qed.

Lemma bench_error J qs reading agree i : 0 <= i < 500 -> agree i = false ->
  val (bench J qs reading agree) = Ok (1, [ErrorKeys]).
Proof.
  intros Hi HA. pose proof (bench_loop J reading agree) as HL. cbv zeta in HL.
  destruct (forallb agree (range 500)) eqn:E.
  { rewrite forallb_forall in E. rewrite E in HA by now apply in_range. discriminate. }
  apply wp_val. unfold bench. apply wp_bind. eapply wp_ok; [exact HL|]. now apply wp_ret.
Qed.

Lemma component_out qs reading now txt cyc : sorts qs -> reads now reading -> zlen cyc = 200 ->
  let l := durations now 200 (fun i => 2 * i) in
  measurable l -> close l ->
  exists cyc' n, val (BENCH qs reading txt cyc) = Ok (cyc', Cycles txt n) /\ zlen cyc' = 200 /\ per_iteration l 100 n.
Proof.
  intros HS HR L l HM HC.
  assert (El : l = durations now 200 (fun i => 2 * i + 0)) by (apply map_ext; intros i; do 2 f_equal; lia).
  rewrite El in *. clear El l. set (l := durations now 200 (fun i => 2 * i + 0)) in *.
  assert (Ll : zlen l = 200) by now apply zlen_durations.
  destruct (qsort_rank qs l 100 HS HC ltac:(lia)) as [Q R].
  exists (qs cmp_uint64_t l), (zget 0 (qs cmp_uint64_t l) 100 / 300). split; [|split; [lia|eexists; split; [exact R|reflexivity]]].
  apply wp_val. unfold BENCH. apply wp_bind.
  apply (wp_for _ (fun i c => filled c 200 i (fun i => u64 (reading (2 * i + 0 + 1) - reading (2 * i + 0))))); [lia| | |].
  - split; [exact L|]. intros; lia.
  - intros i c Hi HF. apply wp_aset; [destruct HF as [-> _]; exact Hi|].
    replace (u64 _) with (u64 (reading (2 * i + 0 + 1) - reading (2 * i + 0))) by (do 2 f_equal; f_equal; lia).
    exact (filled_step c 200 i (fun i => u64 (reading (2 * i + 0 + 1) - reading (2 * i + 0))) Hi HF).
  - intros c HF. apply filled_all in HF; [|lia].
    rewrite (durations_filled now reading 200 0 2 HR ltac:(lia) HM) in HF. fold l in HF. subst c.
    change (Z.shiftr 200 1) with 100. cbv zeta. apply wp_bind, (wp_aget 0); [lia|]. now apply wp_ret.
Qed.
