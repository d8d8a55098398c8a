(** * How many byte strings give a polynomial *)

From Coq Require Import ZArith List Bool Lia.
From Verif Require Import CSem ModelArith Spec202 Spec203 SpecLink SpecCount CSemFacts ProofBits ProofSponge ProofCbd ProofRej.
Import ListNotations.
Open Scope Z_scope.
Ltac Zify.zify_post_hook ::= idtac.

(** ** Counting *)

Lemma counted_ext {A} (P Q : A -> Prop) N : (forall x, P x <-> Q x) -> counted P N -> counted Q N.
Proof. intros E (l & D & I & L). exists l. split; [exact D|]. split; [|exact L]. intros x. now rewrite I. Qed.
Lemma counted_none {A} (P : A -> Prop) : (forall x, ~ P x) -> counted P 0.
Proof. intros H. exists []. split; [constructor|]. split; [|reflexivity]. intros x. split; [intros []|apply H]. Qed.
Lemma counted_one {A} (a : A) : counted (fun x => x = a) 1.
Proof. exists [a]. split; [repeat constructor; intros []|]. split; [|reflexivity]. intros x. split; [intros [->|[]]; reflexivity|intros ->; now left]. Qed.
Lemma NoDup_map_on {A B} (g : A -> B) l : NoDup l -> (forall x y, In x l -> In y l -> g x = g y -> x = y) -> NoDup (map g l).
Proof.
  induction 1 as [|a l Ha Hl IH]; intros G; cbn; [constructor|]. constructor.
  - intros H. apply in_map_iff in H as (b & E & Hb). apply Ha. rewrite (G a b); [exact Hb|now left|now right|now symmetry].
  - apply IH. intros x y Hx Hy. apply G; now right.
Qed.
Lemma counted_image {A B} (P : A -> Prop) (g : A -> B) N : counted P N -> (forall x y, P x -> P y -> g x = g y -> x = y) ->
  counted (fun b => exists a, P a /\ b = g a) N.
Proof.
  intros (l & D & I & L) G. exists (map g l). split; [|split].
  - apply NoDup_map_on; [exact D|]. intros x y Hx Hy. apply G; now apply I.
  - intros b. rewrite in_map_iff. split; intros (a & H1 & H2); exists a; [apply I in H2; auto|apply I in H1; auto].
  - unfold zlen in *. now rewrite map_length.
Qed.
Lemma NoDup_join {A} (l m : list A) : NoDup l -> NoDup m -> (forall x, In x l -> ~ In x m) -> NoDup (l ++ m).
Proof.
  induction 1 as [|a l Ha Hl IH]; intros Hm D; [exact Hm|]. cbn. constructor.
  - rewrite in_app_iff. intros [H|H]; [contradiction|]. apply (D a); [now left|exact H].
  - apply IH; [exact Hm|]. intros x Hx. apply D. now right.
Qed.
Lemma counted_or {A} (P Q : A -> Prop) N M : counted P N -> counted Q M -> (forall x, P x -> ~ Q x) ->
  counted (fun x => P x \/ Q x) (N + M).
Proof.
  intros (l & D & I & L) (m & D' & I' & L') X. exists (l ++ m). split; [|split].
  - apply NoDup_join; auto. intros x Hx Hm. apply (X x); [now apply I|now apply I'].
  - intros x. now rewrite in_app_iff, I, I'.
  - rewrite zlen_app. lia.
Qed.
Lemma counted_pair {A B} (P : A -> Prop) (Q : B -> Prop) N M : counted P N -> counted Q M ->
  counted (fun x => P (fst x) /\ Q (snd x)) (N * M).
Proof.
  intros (l & D & I & L) (m & D' & I' & L'). exists (list_prod l m). split; [|split].
  - clear I L. induction D as [|a l Ha Hl IH]; [constructor|]. cbn. apply NoDup_join; [|exact IH|].
    + apply NoDup_map_on; [exact D'|]. intros x y _ _ E. now injection E.
    + intros [x y] H1 H2. apply in_map_iff in H1 as (b & E & _). injection E as <- _. apply in_prod_iff in H2. tauto.
  - intros [x y]. now rewrite in_prod_iff, I, I'.
  - unfold zlen in *. rewrite prod_length. lia.
Qed.

(** ** Centred binomial distribution *)

Fixpoint bit_strings (n : nat) : list (list bool) :=
  match n with O => [[]] | S n => map (cons false) (bit_strings n) ++ map (cons true) (bit_strings n) end.
Lemma bit_strings_in n : forall c, In c (bit_strings n) <-> length c = n.
Proof.
  induction n as [|n IH]; intros c; cbn [bit_strings].
  - split; [intros [<-|[]]; reflexivity|]. destruct c; [now left|discriminate].
  - rewrite in_app_iff, !in_map_iff. split.
    + intros [(t & <- & H)|(t & <- & H)]; cbn; f_equal; now apply IH.
    + destruct c as [|[] c]; [discriminate| |]; intros L; injection L as L; [right|left]; exists c; (split; [reflexivity|now apply IH]).
Qed.
Lemma bit_strings_nodup n : NoDup (bit_strings n).
Proof.
  induction n as [|n IH]; cbn [bit_strings]; [repeat constructor; intros []|]. apply NoDup_join.
  - apply NoDup_map_on; [exact IH|]. intros x y _ _ E. now injection E.
  - apply NoDup_map_on; [exact IH|]. intros x y _ _ E. now injection E.
  - intros x H1 H2. apply in_map_iff in H1 as (a & <- & _). apply in_map_iff in H2 as (b & E & _). discriminate.
Qed.

Definition ones (c : list bool) : Z := fold_right (fun b a => Z.b2z b + a) 0 c.
Definition excess (eta : nat) (c : list bool) : Z := ones (firstn eta c) - ones (skipn eta c).
Definition chunk (eta : nat) (x : Z) (c : list bool) : Prop := length c = (2 * eta)%nat /\ excess eta c = x.

Lemma count_chunk eta x : (eta = 2 \/ eta = 3)%nat -> - Z.of_nat eta <= x <= Z.of_nat eta ->
  counted (chunk eta x) (binomial (Z.of_nat eta) x).
Proof.
  intros He Hx. exists (filter (fun c => excess eta c =? x) (bit_strings (2 * eta))). split; [|split].
  - apply NoDup_filter, bit_strings_nodup.
  - intros c. rewrite filter_In, bit_strings_in, Z.eqb_eq. reflexivity.
  - destruct He as [-> | ->].
    + assert (H : x = -2 \/ x = -1 \/ x = 0 \/ x = 1 \/ x = 2) by lia. destruct H as [-> | [-> | [-> | [-> | ->]]]]; vm_compute; reflexivity.
    + assert (H : x = -3 \/ x = -2 \/ x = -1 \/ x = 0 \/ x = 1 \/ x = 2 \/ x = 3) by lia.
      destruct H as [-> | [-> | [-> | [-> | [-> | [-> | ->]]]]]]; vm_compute; reflexivity.
Qed.

Fixpoint chunks (eta : nat) (f : list Z) (b : list bool) : Prop :=
  match f with
  | [] => b = []
  | x :: f => exists y, (chunk eta x (fst y) /\ chunks eta f (snd y)) /\ b = fst y ++ snd y
  end.
Lemma app_same_length {A} (a a' b b' : list A) : length a = length a' -> a ++ b = a' ++ b' -> a = a' /\ b = b'.
Proof.
  revert a'. induction a as [|x a IH]; intros [|x' a'] L E; try discriminate; [auto|]. injection L as L. injection E as -> E.
  destruct (IH _ L E). now subst.
Qed.
Lemma count_chunks eta f : (eta = 2 \/ eta = 3)%nat -> Forall (fun x => - Z.of_nat eta <= x <= Z.of_nat eta) f ->
  counted (chunks eta f) (product (map (binomial (Z.of_nat eta)) f)).
Proof.
  intros He F. induction F as [|x f Hx F IH]; cbn [chunks map product fold_right]; [apply counted_one|].
  apply counted_image with (g := fun y => fst y ++ snd y).
  - apply (counted_pair (chunk eta x) (chunks eta f)); [now apply count_chunk|exact IH].
  - intros [c t] [c' t'] [[L _] _] [[L' _] _] E. cbn [fst snd] in *. destruct (app_same_length c c' t t'); [congruence|exact E|]. now subst.
Qed.

(** The same, position by position *)
Lemma chunks_iff eta f : forall b, chunks eta f b <->
  length b = (2 * eta * length f)%nat /\
  forall i, (i < length f)%nat -> excess eta (firstn (2 * eta) (skipn (2 * eta * i) b)) = nth i f 0.
Proof.
  induction f as [|x f IH]; intros b; cbn [chunks].
  - split; [intros ->; cbn; split; [lia|intros; lia]|]. intros [L _]. cbn in L. rewrite Nat.mul_0_r in L. destruct b; [reflexivity|discriminate].
  - split.
    + intros ([c t] & [[Lc Ec] Ht] & ->). cbn [fst snd] in *. apply IH in Ht as [Lt Et]. split; [rewrite app_length; cbn [length]; lia|].
      intros [|i] Hi; cbn [length] in Hi.
      * rewrite Nat.mul_0_r. cbn [skipn]. rewrite <- Lc, firstn_app, Nat.sub_diag, firstn_all. cbn [firstn]. now rewrite app_nil_r.
      * cbn [nth]. rewrite <- Et by lia. f_equal. f_equal. replace (2 * eta * S i)%nat with (length c + 2 * eta * i)%nat by lia.
        rewrite skipn_app, skipn_all2 by lia. cbn. f_equal. lia.
    + intros [L E]. cbn [length] in L. exists (firstn (2 * eta) b, skipn (2 * eta) b). cbn [fst snd]. split; [|now rewrite firstn_skipn].
      split; [split; [rewrite firstn_length; lia|]|].
      * specialize (E 0%nat ltac:(cbn; lia)). rewrite Nat.mul_0_r in E. exact E.
      * apply IH. split; [rewrite skipn_length; lia|]. intros i Hi. specialize (E (S i) ltac:(cbn; lia)). cbn [nth] in E. rewrite <- E. f_equal. f_equal.
        rewrite skipn_skipn'. f_equal. lia.
Qed.

Lemma nth_skipn' {A} (d : A) a b l : nth a (skipn b l) d = nth (b + a) l d.
Proof. revert l. induction b as [|b IH]; intros l; [reflexivity|]. destruct l; [destruct a; reflexivity|]. apply IH. Qed.
Lemma excess_bits eta (b : list bool) i : (eta = 2 \/ eta = 3)%nat -> (2 * eta * i + 2 * eta <= length b)%nat ->
  let bit k := Z.b2z (nth (Z.to_nat k) b false) in let e := Z.of_nat eta in let z := Z.of_nat i in
  excess eta (firstn (2 * eta) (skipn (2 * eta * i) b)) =
  sum e (fun j => bit (2 * z * e + j)) - sum e (fun j => bit (2 * z * e + e + j)).
Proof.
  intros He L bit e z.
  assert (B : forall k, 0 <= k -> bit (2 * z * e + k) = Z.b2z (nth (Z.to_nat k) (skipn (2 * eta * i) b) false)).
  { intros k Hk. unfold bit. rewrite nth_skipn'. do 2 f_equal. unfold z, e. lia. }
  set (w := skipn (2 * eta * i) b) in *. assert (Lw : (2 * eta <= length w)%nat) by (unfold w; rewrite skipn_length; lia). clearbody w.
  unfold sum.
  destruct He as [-> | ->].
  - change (range e) with [0; 1]. cbn [map fold_right]. rewrite <- !(Z.add_assoc (2 * z * e) e).
    rewrite !B by (unfold e; lia).
    destruct w as [|w0 [|w1 [|w2 [|w3 w]]]]; cbn [length] in Lw; try lia.
    destruct w0, w1, w2, w3; reflexivity.
  - change (range e) with [0; 1; 2]. cbn [map fold_right]. rewrite <- !(Z.add_assoc (2 * z * e) e).
    rewrite !B by (unfold e; lia).
    destruct w as [|w0 [|w1 [|w2 [|w3 [|w4 [|w5 w]]]]]]; cbn [length] in Lw; try lia.
    destruct w0, w1, w2, w3, w4, w5; reflexivity.
Qed.
Lemma mod_range_inj eta x y : eta <= 3 -> - eta <= x <= eta -> - eta <= y <= eta -> x mod q = y mod q -> x = y.
Proof.
  intros He Hx Hy E. unfold q in E. assert (M : (x - y) mod 3329 = 0) by (rewrite Zminus_mod, E, Z.sub_diag; reflexivity).
  apply Z.mod_divide in M; [|lia]. destruct M as [k M]. assert (k = 0) by nia. lia.
Qed.
Lemma ones_range c : 0 <= ones c <= Z.of_nat (length c).
Proof. induction c as [|[] c IH]; cbn [ones fold_right length] in *; [cbn; lia|fold (ones c); cbn [Z.b2z]; lia..]. Qed.
Lemma excess_range eta c : length c = (2 * eta)%nat -> - Z.of_nat eta <= excess eta c <= Z.of_nat eta.
Proof.
  intros L. unfold excess. pose proof (ones_range (firstn eta c)). pose proof (ones_range (skipn eta c)).
  rewrite firstn_length in *. rewrite skipn_length in *. lia.
Qed.

Lemma cbd_chunks eta f f' B : (eta = 2 \/ eta = 3)%nat -> let e := Z.of_nat eta in
  zlen f = 256 -> zlen f' = 256 -> Forall (fun x => - e <= x <= e) f' -> zlen B = 64 * e ->
  map (fun x => x mod q) f' = SamplePolyCBD e B -> (f' = f <-> chunks eta f (BytesToBits B)).
Proof.
  intros He e Lf Lf' F LB E. assert (Lb : zlen (BytesToBits B) = 8 * zlen B) by apply zlen_bytes_to_bits.
  unfold zlen in Lf, Lf', Lb, LB. set (b := BytesToBits B) in *.
  assert (X : forall i, (i < 256)%nat -> excess eta (firstn (2 * eta) (skipn (2 * eta * i) b)) = nth i f' 0).
  { intros i Hi. assert (Hl : (2 * eta * i + 2 * eta <= length b)%nat) by nia.
    apply (mod_range_inj e); [lia|apply excess_range; rewrite firstn_length, skipn_length; lia| |].
    - rewrite Forall_forall in F. apply F. apply nth_In. lia.
    - pose proof (f_equal (fun l => zget 0 l (Z.of_nat i)) E) as E'. cbv beta in E'. unfold SamplePolyCBD in E'. cbv zeta in E'. fold b in E'.
      rewrite (zget_map _ 0) in E' by (unfold zlen; lia). rewrite zget_map_range in E' by (unfold n; lia).
      unfold zget in E'. rewrite Nat2Z.id in E'. rewrite E'. f_equal. rewrite (excess_bits eta b i He Hl). reflexivity. }
  rewrite chunks_iff. split.
  - intros ->. split; [lia|]. intros i Hi. apply X. lia.
  - intros [_ Y]. apply (nth_ext _ _ 0 0); [lia|]. intros i Hi. rewrite <- X by lia. apply Y. lia.
Qed.

Lemma count_cbd eta (out : list Z -> outcome (list Z)) f : (eta = 2 \/ eta = 3)%nat -> let e := Z.of_nat eta in
  (forall B, zlen B = 64 * e -> bytes B -> exists f', out B = Ok f' /\ zlen f' = 256 /\ Forall (fun x => - e <= x <= e) f' /\
     map (fun x => x mod q) f' = SamplePolyCBD e B) ->
  zlen f = 256 -> Forall (fun x => - e <= x <= e) f ->
  counted (fun B => zlen B = 64 * e /\ bytes B /\ out B = Ok f) (product (map (binomial e) f)).
Proof.
  intros He e O Lf F. eapply counted_ext; [|apply (counted_image _ bits_to_bytes _ (count_chunks eta f He F))].
  - intros B. split.
    + intros (b & C & ->). assert (Lb : zlen b = 8 * (64 * e)).
      { apply chunks_iff in C as [L _]. unfold zlen in *. rewrite L. lia. }
      split; [now apply zlen_bits_to_bytes|]. split; [now apply (bytes_bits_to_bytes _ (64 * e))|].
      destruct (O (bits_to_bytes b)) as (f' & Ef & L' & F' & M); [now apply zlen_bits_to_bytes|now apply (bytes_bits_to_bytes _ (64 * e))|].
      rewrite Ef. f_equal. apply (cbd_chunks eta f f' (bits_to_bytes b) He Lf L' F'); [now apply zlen_bits_to_bytes|exact M|].
      unfold BytesToBits. now rewrite (bytes_to_bits_to_bytes _ (64 * e)).
    + intros (LB & BB & Eo). destruct (O B LB BB) as (f' & Ef & L' & F' & M). rewrite Eo in Ef. injection Ef as <-.
      exists (BytesToBits B). split; [now apply (cbd_chunks eta f f B He Lf Lf F LB M)|]. symmetry. now apply bits_to_bytes_to_bits.
  - intros x y Hx Hy E. apply chunks_iff in Hx as [Lx _]. apply chunks_iff in Hy as [Ly _]. 
    rewrite <- (bytes_to_bits_to_bytes x (64 * e)), <- (bytes_to_bits_to_bytes y (64 * e)), E; auto; unfold zlen in *; lia.
Qed.

Lemma count_cbd_eta1 p r f : zlen r = 256 -> zlen f = 256 -> let eta := eta1 (set_of p) in
  Forall (fun x => - eta <= x <= eta) f ->
  counted (fun B => zlen B = 64 * eta /\ bytes B /\ val (poly_cbd_eta1 p r B) = Ok f) (product (map (binomial eta) f)).
Proof.
  intros Lr Lf eta F. assert (E : exists e, (e = 2 \/ e = 3)%nat /\ eta = Z.of_nat e) by (destruct p; [exists 3%nat|exists 2%nat|exists 2%nat]; auto).
  destruct E as (e & He & Ee). pose proof (fun B H1 H2 => cbd_eta1_correct p r B Lr H1 H2) as C. fold eta in C. rewrite Ee in *.
  apply (count_cbd e (fun B => val (poly_cbd_eta1 p r B)) f He C Lf F).
Qed.
Lemma count_cbd_eta2 p r f : zlen r = 256 -> zlen f = 256 -> let eta := eta2 (set_of p) in
  Forall (fun x => - eta <= x <= eta) f ->
  counted (fun B => zlen B = 64 * eta /\ bytes B /\ val (poly_cbd_eta2 r B) = Ok f) (product (map (binomial eta) f)).
Proof.
  intros Lr Lf eta F. assert (E : exists e, (e = 2 \/ e = 3)%nat /\ eta = Z.of_nat e) by (destruct p; exists 2%nat; auto).
  destruct E as (e & He & Ee). pose proof (fun B H1 H2 => cbd_eta2_correct p r B Lr H1 H2) as C. fold eta in C. rewrite Ee in *.
  apply (count_cbd e (fun B => val (poly_cbd_eta2 r B)) f He C Lf F).
Qed.

(** ** Rejection sampling *)

Definition tries (c T : nat) (f cs : list Z) : Prop :=
  length cs = c /\ Forall (fun x => 0 <= x < 4096) cs /\ firstn T (filter (fun x => x <? q) cs) = f.
Fixpoint ways (c T m : nat) : Z :=
  match c with
  | O => match m with O => 1 | S _ => 0 end
  | S c => (4096 - q) * ways c T m +
           match T, m with O, _ => q * ways c 0 m | S T, O => 0 | S T, S m => ways c T m end
  end.
Lemma ways_nonneg c : forall T m, 0 <= ways c T m.
Proof.
  induction c as [|c IH]; intros T m; cbn [ways]; [destruct m; lia|]. pose proof (IH T m). unfold q.
  destruct T as [|T]; [pose proof (IH O m); lia|]. destruct m as [|m]; [lia|]. pose proof (IH T m). lia.
Qed.
Lemma ways_pos c : forall T m, (m <= T)%nat -> (m <= c)%nat -> 0 < ways c T m.
Proof.
  induction c as [|c IH]; intros T m H1 H2; cbn [ways]; [destruct m; lia|]. unfold q.
  destruct (Nat.eq_dec m (S c)) as [->|N].
  - destruct T as [|T]; [lia|]. pose proof (ways_nonneg c (S T) (S c)). pose proof (IH T c ltac:(lia) ltac:(lia)). lia.
  - pose proof (IH T m H1 ltac:(lia)). destruct T as [|T]; [pose proof (ways_nonneg c 0 m); lia|]. destruct m as [|m]; [lia|]. pose proof (ways_nonneg c T m). lia.
Qed.

Local Transparent range.
Lemma range_nodup m : NoDup (range m).
Proof. unfold range. apply NoDup_map_on; [apply seq_NoDup|]. intros; lia. Qed.
Local Opaque range.
Lemma counted_interval a b : a <= b -> counted (fun x => a <= x < b) (b - a).
Proof.
  intros H. exists (map (fun i => a + i) (range (b - a))). split; [|split].
  - apply NoDup_map_on; [apply range_nodup|intros; lia].
  - intros x. rewrite in_map_iff. split.
    + intros (i & <- & Hi). apply in_range in Hi. lia.
    + intros Hx. exists (x - a). split; [lia|]. apply in_range. lia.
  - rewrite zlen_map, zlen_range; lia.
Qed.
Lemma counted_cons {A} (P : A -> Prop) (Q : list A -> Prop) N M : counted P N -> counted Q M ->
  counted (fun l => exists x t, l = x :: t /\ P x /\ Q t) (N * M).
Proof.
  intros HP HQ. eapply counted_ext; [|apply (counted_image _ (fun y => fst y :: snd y) _ (counted_pair P Q N M HP HQ))].
  - intros l. split.
    + intros ([x t] & H & ->). exists x, t. auto.
    + intros (x & t & -> & H). exists (x, t). auto.
  - intros [x t] [y s] _ _ E. cbn in E. now injection E as -> ->.
Qed.

Lemma count_tries c : forall T f, (length f <= T)%nat -> Forall (fun x => 0 <= x < q) f -> counted (tries c T f) (ways c T (length f)).
Proof.
  induction c as [|c IH]; intros T f Lf F; cbn [ways].
  - destruct f as [|v f]; cbn [length].
    + eapply counted_ext; [|apply (counted_one (@nil Z))]. intros cs. unfold tries. split.
      * intros ->. split; [reflexivity|]. split; [constructor|]. now destruct T.
      * intros (L & _). now destruct cs.
    + apply counted_none. intros cs (L & _ & E). destruct cs; [|discriminate]. cbn in E. rewrite firstn_nil in E. discriminate.
  - eapply counted_ext with (P := fun cs =>
      (exists x t, cs = x :: t /\ q <= x < 4096 /\ tries c T f t) \/
      (exists x t, cs = x :: t /\ 0 <= x < q /\ (length t = c /\ Forall (fun x => 0 <= x < 4096) t /\ firstn T (x :: filter (fun x => x <? q) t) = f))).
    { intros cs. unfold tries. split.
      - intros [(x & t & -> & Hx & L & Ft & E)|(x & t & -> & Hx & L & Ft & E)]; cbn [length filter].
        + replace (x <? q) with false by lia. split; [now f_equal|]. split; [|exact E]. constructor; [unfold q in Hx; lia|exact Ft].
        + replace (x <? q) with true by lia. split; [now f_equal|]. split; [|exact E]. constructor; [unfold q in Hx; lia|exact Ft].
      - intros (L & Ft & E). destruct cs as [|x t]; [discriminate|]. injection L as L. inversion_clear Ft as [|? ? Hx Ft']. cbn [filter] in E.
        destruct (x <? q) eqn:Q; [right|left]; exists x, t; (split; [reflexivity|]); (split; [lia|]); auto. }
    apply counted_or.
    + apply (counted_cons (fun x => q <= x < 4096) (tries c T f)); [apply counted_interval; unfold q; lia|]. now apply IH.
    + destruct T as [|T].
      * assert (f = []) by (destruct f; [reflexivity|cbn in Lf; lia]). subst f. cbn [length].
        eapply counted_ext; [|apply (counted_cons (fun x => 0 <= x < q) (tries c 0 [])); [replace q with (q - 0) at 2 by lia; apply counted_interval; unfold q; lia|apply (IH O []); auto]].
        intros cs. unfold tries. cbn [firstn]. reflexivity.
      * destruct f as [|v f]; cbn [length].
        -- apply counted_none. intros cs (x & t & _ & _ & _ & _ & E). discriminate.
        -- inversion_clear F as [|? ? Hv F']. cbn [length] in Lf.
           eapply counted_ext with (P := fun cs => exists x t, cs = x :: t /\ x = v /\ tries c T f t).
           { intros cs. unfold tries. cbn [firstn]. split.
             - intros (x & t & -> & -> & L & Ft & E). exists v, t. split; [reflexivity|]. split; [exact Hv|]. split; [exact L|]. split; [exact Ft|]. now f_equal.
             - intros (x & t & -> & Hx & L & Ft & E). injection E as -> E. exists v, t. auto. }
           replace (ways c T (length f)) with (1 * ways c T (length f)) by lia.
           apply counted_cons; [apply counted_one|]. apply IH; [lia|exact F'].
    + intros cs (x & t & -> & Hx & _) (x' & t' & E & Hx' & _). injection E as <- _. lia.
Qed.

(** Candidates and bytes *)
Fixpoint pack (cs : list Z) : list Z :=
  match cs with
  | a :: b :: cs => a mod 256 :: a / 256 + 16 * (b mod 16) :: b / 16 :: pack cs
  | _ => []
  end.
Lemma candidates_pack g : forall cs, length cs = (2 * g)%nat -> Forall (fun x => 0 <= x < 4096) cs ->
  candidates (pack cs) = cs /\ bytes (pack cs) /\ zlen (pack cs) = 3 * Z.of_nat g.
Proof.
  induction g as [|g IH]; intros cs L F.
  - destruct cs; [|discriminate]. split; [reflexivity|]. split; [constructor|reflexivity].
  - destruct cs as [|a [|b cs]]; [discriminate|cbn in L; lia|]. inversion_clear F as [|? ? Ha F']. inversion_clear F' as [|? ? Hb F].
    destruct (IH cs) as (C & B & Z); [cbn in L; lia|exact F|]. cbn [pack candidates]. rewrite C.
    pose proof (Z.div_mod a 256 ltac:(lia)). pose proof (Z.mod_pos_bound a 256 ltac:(lia)). pose proof (Z.div_mod b 16 ltac:(lia)). pose proof (Z.mod_pos_bound b 16 ltac:(lia)).
    assert (0 <= a / 256 < 16) by lia. assert (0 <= b / 16 < 256) by lia.
    replace ((a / 256 + 16 * (b mod 16)) mod 16) with (a / 256).
    2:{ rewrite Z.mul_comm, Z_mod_plus_full. symmetry. now apply Z.mod_small. }
    replace ((a / 256 + 16 * (b mod 16)) / 16) with (b mod 16).
    2:{ rewrite Z.mul_comm, Z_div_plus_full by lia. rewrite Z.div_small by lia. reflexivity. }
    split; [f_equal; [lia|]; f_equal; lia|]. split; [repeat (constructor; [unfold is_byte; lia|]); exact B|].
    unfold zlen in *. cbn [length]. lia.
Qed.
Lemma pack_candidates g : forall B, zlen B = 3 * Z.of_nat g -> bytes B ->
  pack (candidates B) = B /\ length (candidates B) = (2 * g)%nat /\ Forall (fun x => 0 <= x < 4096) (candidates B).
Proof.
  induction g as [|g IH]; intros B L F.
  - destruct B; [|unfold zlen in L; cbn [length] in L; lia]. split; [reflexivity|]. split; [reflexivity|constructor].
  - destruct B as [|x [|y [|z B]]]; try (unfold zlen in L; cbn [length] in L; lia).
    inversion_clear F as [|? ? Hx F']. inversion_clear F' as [|? ? Hy F'']. inversion_clear F'' as [|? ? Hz F]. unfold is_byte in *.
    destruct (IH B) as (P & Lc & Fc); [unfold zlen in *; cbn [length] in L; lia|exact F|]. cbn [candidates pack]. rewrite P.
    pose proof (Z.div_mod y 16 ltac:(lia)). pose proof (Z.mod_pos_bound y 16 ltac:(lia)). assert (0 <= y / 16 < 16) by lia.
    replace ((x + 256 * (y mod 16)) mod 256) with x.
    2:{ rewrite Z.mul_comm, Z_mod_plus_full. symmetry. now apply Z.mod_small. }
    replace ((x + 256 * (y mod 16)) / 256) with (y mod 16).
    2:{ rewrite Z.mul_comm, Z_div_plus_full by lia. rewrite Z.div_small by lia. reflexivity. }
    replace ((y / 16 + 16 * z) mod 16) with (y / 16).
    2:{ rewrite Z.mul_comm, Z_mod_plus_full. symmetry. now apply Z.mod_small. }
    replace ((y / 16 + 16 * z) / 16) with z.
    2:{ rewrite Z.mul_comm, Z_div_plus_full by lia. rewrite Z.div_small by lia. reflexivity. }
    split; [do 2 f_equal; lia|]. split; [cbn [length]; lia|]. repeat (constructor; [lia|]). exact Fc.
Qed.

Lemma count_rej r target g f : 0 <= g -> 3 * g < 2 ^ 31 -> target <= zlen r -> target < 2 ^ 31 ->
  zlen f <= target -> Forall (fun x => 0 <= x < q) f ->
  counted (fun B => zlen B = 3 * g /\ bytes B /\
    exists r', val (rej_uniform r target 0 B (3 * g)) = Ok (r', zlen f) /\ slice r' 0 (zlen f) = f)
    (ways (2 * Z.to_nat g) (Z.to_nat target) (length f)).
Proof.
  intros Hg Hl Hr Ht Lf F. assert (Lf' : (length f <= Z.to_nat target)%nat) by (unfold zlen in Lf; lia).
  pose proof (zlen_nonneg f) as Nf.
  eapply counted_ext; [|apply (counted_image _ pack _ (count_tries (2 * Z.to_nat g) (Z.to_nat target) f Lf' F))].
  - assert (R : forall B, zlen B = 3 * g -> bytes B ->
      ((exists r', val (rej_uniform r target 0 B (3 * g)) = Ok (r', zlen f) /\ slice r' 0 (zlen f) = f) <->
       firstn (Z.to_nat target) (accepted B) = f)).
    { intros B LB BB. destruct (rej_correct r target 0 B (3 * g)) as (acc & Ea & E); auto; try lia.
      replace (slice r 0 0) with (@nil Z) in Ea by reflexivity. cbn [app] in Ea.
      replace (slice B 0 (3 * g)) with B in Ea by (rewrite <- LB; symmetry; apply slice_all). rewrite <- Ea. rewrite E. split.
      - intros (r' & E1 & E2). injection E1 as <- L. rewrite <- E2, <- L. symmetry. apply slice_app_l.
      - intros ->. eexists. split; [reflexivity|]. apply slice_app_l. }
    intros B. split.
    + intros (cs & (L & Fc & E) & ->). destruct (candidates_pack (Z.to_nat g) cs L Fc) as (C & BB & LB). rewrite Z2Nat.id in LB by lia.
      split; [exact LB|]. split; [exact BB|]. apply R; auto. unfold accepted. now rewrite C.
    + intros (LB & BB & X). apply R in X; auto. destruct (pack_candidates (Z.to_nat g) B) as (P & L & Fc); [lia|exact BB|].
      exists (candidates B). split; [|now symmetry]. split; [exact L|]. split; [exact Fc|exact X].
  - intros x y (Lx & Fx & _) (Ly & Fy & _) E. destruct (candidates_pack _ x Lx Fx) as (Cx & _). destruct (candidates_pack _ y Ly Fy) as (Cy & _). congruence.
Qed.
Lemma rej_unbiased r target g f f' : 0 <= g -> 3 * g < 2 ^ 31 -> target <= zlen r -> target < 2 ^ 31 ->
  zlen f <= target -> Forall (fun x => 0 <= x < q) f -> zlen f' = zlen f -> Forall (fun x => 0 <= x < q) f' ->
  let gives f B := zlen B = 3 * g /\ bytes B /\
    exists r', val (rej_uniform r target 0 B (3 * g)) = Ok (r', zlen f) /\ slice r' 0 (zlen f) = f in
  exists N, counted (gives f) N /\ counted (gives f') N /\ (zlen f <= 2 * g -> 0 < N).
Proof.
  intros Hg Hl Hr Ht Lf F Lf' F' gives. exists (ways (2 * Z.to_nat g) (Z.to_nat target) (length f)).
  split; [now apply count_rej|]. split.
  - assert (L : length f = length f') by (unfold zlen in Lf'; lia). rewrite L. apply count_rej; auto; lia.
  - intros H. apply ways_pos; unfold zlen in *; lia.
Qed.

Lemma count_bytes (len : nat) : counted (fun B => zlen B = Z.of_nat len /\ bytes B) (256 ^ Z.of_nat len).
Proof.
  induction len as [|len IH].
  - change (256 ^ Z.of_nat 0) with 1. eapply counted_ext; [|apply (counted_one (@nil Z))]. intros B. split.
    + intros ->. split; [reflexivity|constructor].
    + intros [L _]. destruct B; [reflexivity|unfold zlen in L; cbn [length] in L; lia].
  - rewrite Nat2Z.inj_succ, Z.pow_succ_r by lia.
    eapply counted_ext; [|apply (counted_cons (fun x => 0 <= x < 256) _ (256 - 0) _ (counted_interval 0 256 ltac:(lia)) IH)].
    intros B. split.
    + intros (x & t & -> & Hx & L & F). split; [unfold zlen in *; cbn [length]; lia|]. constructor; [unfold is_byte; lia|exact F].
    + intros [L F]. destruct B as [|x t]; [unfold zlen in L; cbn [length] in L; lia|]. inversion_clear F as [|? ? Hx Ft].
      exists x, t. split; [reflexivity|]. split; [exact Hx|]. split; [unfold zlen in *; cbn [length] in L; lia|exact Ft].
Qed.
