(** * The ACVP program *)

From Coq Require Import ZArith List Bool Lia Ascii String.
From Verif Require Import CSem ModelArith ModelKeccak ModelKem ModelTests ModelKat ModelAcvp
  Spec202 Spec203 SpecLink SpecMem SpecApi SpecMachine SpecBuilds SpecTests SpecKat SpecAcvp
  CSemFacts ProofMem ProofKem ProofKeys ProofApi ProofReturn ProofCorrect ProofMachine ProofBuilds ProofTests ProofKat.
Import ListNotations.
Open Scope Z_scope.
Open Scope list_scope.
Ltac Zify.zify_post_hook ::= idtac.

(** ** Characters *)

Lemma chars_ascii s : chars s = ascii s.
Proof. unfold chars, ascii. apply map_ext. intros a. unfold nat_of_ascii. apply N_nat_Z. Qed.

Lemma position_out c s i : (forall x, In x s -> c <> x) -> position c s i = None.
Proof.
  revert i. induction s as [|x s IH]; intros i H; [reflexivity|]. cbn [position].
  destruct (Z.eqb_spec c x) as [->|]; [now elim (H x (or_introl eq_refl))|]. apply IH. intros y Hy. apply H. now right.
Qed.
Lemma digit_decode c : digit c = (if decode_hex_char c =? 255 then None else Some (decode_hex_char c)) /\
  (decode_hex_char c <> 255 -> 0 <= decode_hex_char c < 16).
Proof.
  destruct (Z_lt_dec c 48) as [Hc|Hc]; [|destruct (Z_lt_dec 102 c) as [Hd|Hd]].
  - assert (E : decode_hex_char c = 255).
    { unfold decode_hex_char. replace (c >=? 48) with false by (symmetry; rewrite Z.geb_leb; apply Z.leb_gt; lia).
      replace (c >=? 65) with false by (symmetry; rewrite Z.geb_leb; apply Z.leb_gt; lia).
      replace (c >=? 97) with false by (symmetry; rewrite Z.geb_leb; apply Z.leb_gt; lia). reflexivity. }
    rewrite E. split; [|lia]. cbn [Z.eqb Pos.eqb]. unfold digit.
    rewrite !position_out; [reflexivity| |]; intros x Hx; vm_compute in Hx; lia.
  - assert (E : decode_hex_char c = 255).
    { unfold decode_hex_char. replace (c <=? 57) with false by (symmetry; apply Z.leb_gt; lia).
      replace (c <=? 70) with false by (symmetry; apply Z.leb_gt; lia).
      replace (c <=? 102) with false by (symmetry; apply Z.leb_gt; lia). rewrite !andb_false_r. reflexivity. }
    rewrite E. split; [|lia]. cbn [Z.eqb Pos.eqb]. unfold digit.
    rewrite !position_out; [reflexivity| |]; intros x Hx; vm_compute in Hx; lia.
  - assert (H : In c (map (fun i => 48 + Z.of_nat i) (seq 0 55))).
    { apply in_map_iff. exists (Z.to_nat (c - 48)). split; [lia|]. apply in_seq. lia. }
    vm_compute in H. repeat (destruct H as [<-|H]; [split; [vm_compute; reflexivity|vm_compute; intros X; split; [discriminate X || (intros Y; discriminate Y)|first [reflexivity|now elim X]]]|]).
    destruct H.
Qed.

(** ** Hexadecimal text *)

Lemma two_ind (Q : list Z -> Prop) : Q [] -> (forall a, Q [a]) -> (forall a b s, Q s -> Q (a :: b :: s)) -> forall s, Q s.
Proof.
  intros H0 H1 H2. assert (G : forall s, Q s /\ forall a, Q (a :: s)).
  { induction s as [|x s [I J]]; [auto|]. split; [apply J|]. intros a. now apply H2. }
  intros s. apply G.
Qed.
Lemma from_hex_len s : forall l, from_hex s = Some l -> zlen s = 2 * zlen l.
Proof.
  induction s as [|a|a b s IH] using two_ind; intros l E; cbn [from_hex] in E.
  - injection E as <-. reflexivity.
  - discriminate.
  - destruct (digit a), (digit b), (from_hex s) as [l'|]; try discriminate. injection E as <-.
    specialize (IH _ eq_refl). unfold zlen in *. cbn [List.length]. lia.
Qed.
Lemma from_hex_bytes s : forall l, from_hex s = Some l -> bytes l.
Proof.
  induction s as [|a|a b s IH] using two_ind; intros l E; cbn [from_hex] in E.
  - injection E as <-. constructor.
  - discriminate.
  - destruct (digit_decode a) as [Da Ra], (digit_decode b) as [Db Rb].
    destruct (digit a) as [x|], (digit b) as [y|], (from_hex s) as [l'|]; try discriminate.
    assert (El : l = 16 * x + y :: l') by congruence. rewrite El.
    constructor; [|now apply IH].
    destruct (Z.eqb_spec (decode_hex_char a) 255) as [|Na]; [discriminate|].
    destruct (Z.eqb_spec (decode_hex_char b) 255) as [|Nb]; [discriminate|].
    injection Da as ->. injection Db as ->. specialize (Ra Na). specialize (Rb Nb). unfold is_byte. lia.
Qed.
Lemma from_hex_app u v : Z.even (zlen u) = true -> from_hex (u ++ v) =
  match from_hex u, from_hex v with Some a, Some b => Some (a ++ b) | _, _ => None end.
Proof.
  induction u as [|a|a b s IH] using two_ind; intros E.
  - cbn. now destruct (from_hex v).
  - discriminate.
  - cbn [app from_hex]. rewrite IH.
    + destruct (digit a), (digit b), (from_hex s), (from_hex v); reflexivity.
    + unfold zlen in *. cbn [List.length] in E. replace (Z.of_nat (Datatypes.S (Datatypes.S (List.length s)))) with (Z.of_nat (List.length s) + 2 * 1) in E by lia.
      now rewrite Z.even_add_mul_2 in E.
Qed.

Lemma combine_digits x y : 0 <= x < 16 -> 0 <= y < 16 -> u8 (Z.lor (u32 (Z.shiftl x 4)) y) = 16 * x + y.
Proof.
  intros Hx Hy. rewrite Z.lor_comm, Z.shiftl_mul_pow2 by lia. change (2 ^ 4) with 16.
  unfold u32. rewrite (Z.mod_small (x * 16)) by lia.
  pose proof (ProofRej.lor_add y x 4 ltac:(lia) ltac:(lia)) as E. change (2 ^ 4) with 16 in E. rewrite E.
  unfold u8. rewrite Z.mod_small; lia.
Qed.

Lemma zset_here (a r : list Z) x y i : zlen a = i -> zset (a ++ y :: r) i x = a ++ x :: r.
Proof.
  intros <-. assert (U : upd (a ++ y :: r) (List.length a) x = Some (a ++ x :: r)).
  { induction a as [|b a IH]; cbn; [reflexivity|]. now rewrite IH. }
  pose proof (upd_zset (a ++ y :: r) (zlen a) x) as V.
  replace (Z.to_nat (zlen a)) with (List.length a) in V by (unfold zlen; lia). rewrite U in V.
  symmetry. assert (X : Some (a ++ x :: r) = Some (zset (a ++ y :: r) (zlen a) x)); [|congruence]. apply V.
  rewrite zlen_app. unfold zlen. cbn [List.length]. lia.
Qed.
Lemma firstn_plus {A} a b (l : list A) : firstn (a + b) l = firstn a l ++ firstn b (skipn a l).
Proof. revert l. induction a as [|a IH]; intros l; [reflexivity|]. destruct l; cbn; [now rewrite firstn_nil|]. now rewrite IH. Qed.

Lemma decode_ok name out n hex : zlen out = n -> 0 <= n < 2 ^ 62 ->
  exists r out', val (decode_hex (chars name) out n hex) = Ok (r, out') /\
    (r = 0 /\ argument name n hex out' /\ bytes out' \/ r = 1 /\ forall l, ~ argument name n hex l).
Proof.
  intros L Hn. unfold decode_hex. rewrite chars_ascii. change strlen with (@zlen Z).
  set (pre := ascii name). pose proof (zlen_nonneg pre) as Hp.
  assert (W : wp (decode_hex pre out n hex) (fun '(r, out') =>
    r = 0 /\ argument name n hex out' /\ bytes out' \/ r = 1 /\ forall l, ~ argument name n hex l)).
  { unfold decode_hex. change strlen with (@zlen Z).
    assert (One : forall digits, hex = pre ++ ascii "=" ++ digits -> zlen hex = zlen pre + 1 + zlen digits).
    { intros digits ->. rewrite !zlen_app. change (zlen (ascii "=")) with 1. lia. }
    apply wp_branch; intros E1.
    { apply Z.ltb_lt in E1. apply wp_ret. right. split; [reflexivity|]. intros l (ds & E & _).
      specialize (One ds E). pose proof (zlen_nonneg ds). lia. }
    apply Z.ltb_ge in E1. apply wp_bind, wp_aslice; [lia|lia|lia|].
    replace (slice hex 0 (0 + zlen pre)) with (firstn (Z.to_nat (zlen pre)) hex)
      by (unfold slice; replace (0 + zlen pre - 0) with (zlen pre) by lia; reflexivity).
    set (b := firstn (Z.to_nat (zlen pre)) hex).
    assert (Hb : forall digits, hex = pre ++ ascii "=" ++ digits -> b = pre).
    { intros ds ->. unfold b. rewrite firstn_app. unfold zlen. rewrite Nat2Z.id, firstn_all, Nat.sub_diag. apply app_nil_r. }
    apply wp_bind, wp_memcmp; intros HE; apply wp_branch; cbn [negb Z.eqb]; intros Eb; try discriminate.
    2:{ apply wp_ret. right. split; [reflexivity|]. intros l (ds & E & _). apply HE. symmetry. exact (Hb ds E). }
    clear Eb. set (rest := skipn (Z.to_nat (zlen pre)) hex).
    assert (Hh : hex = pre ++ rest) by (rewrite HE at 1; unfold b, rest; now rewrite firstn_skipn).
    assert (Lr : zlen rest = zlen hex - zlen pre) by (rewrite Hh, zlen_app; lia).
    destruct rest as [|e digits] eqn:Er; [change (zlen (@nil Z)) with 0 in Lr; lia|].
    assert (Ge : zget 0 hex (zlen pre) = e).
    { rewrite Hh. unfold zget, zlen. rewrite Nat2Z.id, app_nth2, Nat.sub_diag by lia. reflexivity. }
    apply wp_bind, (wp_aget 0); [lia|]. rewrite Ge.
    apply wp_branch; intros Ee.
    { apply negb_true_iff, Z.eqb_neq in Ee. apply wp_ret. right. split; [reflexivity|]. intros l (ds & E & _).
      rewrite Hh in E. apply app_inv_head in E. injection E as E _. apply Ee. exact E. }
    apply negb_false_iff, Z.eqb_eq in Ee. clear Ge. subst e.
    apply wp_bind, wp_aslice; [lia|lia|lia|].
    assert (Ed : slice hex (zlen pre + 1) (zlen pre + 1 + (zlen hex - (zlen pre + 1))) = digits).
    { unfold slice. replace (zlen pre + 1 + (zlen hex - (zlen pre + 1)) - (zlen pre + 1)) with (zlen hex - (zlen pre + 1)) by lia.
      assert (Es : skipn (Z.to_nat (zlen pre + 1)) hex = digits).
      { replace (Z.to_nat (zlen pre + 1)) with (1 + Z.to_nat (zlen pre))%nat by lia. rewrite <- CSemFacts.skipn_skipn'. fold rest. now rewrite Er. }
      rewrite Es. replace (Z.to_nat (zlen hex - (zlen pre + 1))) with (List.length digits); [apply firstn_all|].
      unfold zlen in *. cbn [List.length] in Lr. lia. }
    rewrite Ed.
    assert (Ld : zlen digits = zlen hex - (zlen pre + 1)) by (unfold zlen in *; cbn [List.length] in Lr; lia).
    assert (Arg : forall l, argument name n hex l <-> from_hex digits = Some l /\ zlen l = n).
    { intros l. unfold argument. fold pre. split.
      - intros (ds & E & F & Z). rewrite Hh in E. apply app_inv_head in E. injection E as E. now rewrite E.
      - intros (F & Z). exists digits. split; [exact Hh|]. auto. }
    rewrite <- Ld. unfold u64. rewrite Z.mod_small by lia.
    apply wp_branch; intros El.
    { apply negb_true_iff, Z.eqb_neq in El. apply wp_ret. right. split; [reflexivity|]. intros l A. apply Arg in A as (F & Z).
      apply from_hex_len in F. lia. }
    apply negb_false_iff, Z.eqb_eq in El.
    set (Inv := fun '(i, o, bad) => 0 <= i <= n /\ (exists l, from_hex (firstn (Z.to_nat (2 * i)) digits) = Some l /\
       o = l ++ skipn (Z.to_nat i) out) /\ (bad = true -> from_hex digits = None)).
    apply wp_bind. apply (wp_while_measure _ Inv (fun '(i, _, bad) => if bad then 0 else n - i + 1)).
    - split; [lia|]. split; [exists []; auto|]. discriminate.
    - lia.
    - intros [[i o] bad] (Hi & (l & F & Ho) & _) Hc. apply andb_true_iff in Hc as [Hc Hbad].
      apply Z.ltb_lt in Hc. apply negb_true_iff in Hbad. subst bad. split; [lia|].
      apply wp_bind, (wp_aget 0); [lia|]. apply wp_bind, (wp_aget 0); [lia|].
      set (x := zget 0 digits (2 * i)). set (y := zget 0 digits (2 * i + 1)).
      assert (Sp : skipn (Z.to_nat (2 * i)) digits = x :: y :: skipn (Z.to_nat (2 * (i + 1))) digits).
      { unfold x, y. rewrite (skipn_zget 0) by lia. apply f_equal. replace (2 * (i + 1)) with (2 * i + 1 + 1) by lia.
        rewrite <- (skipn_zget 0) by lia. reflexivity. }
      assert (Sd : digits = firstn (Z.to_nat (2 * i)) digits ++ x :: y :: skipn (Z.to_nat (2 * (i + 1))) digits)
        by (rewrite <- Sp; now rewrite firstn_skipn).
      assert (Ev : Z.even (zlen (firstn (Z.to_nat (2 * i)) digits)) = true).
      { rewrite zlen_firstn by lia. rewrite Z.even_mul. reflexivity. }
      destruct (digit_decode x) as [Dx Rx], (digit_decode y) as [Dy Ry].
      apply wp_branch; intros Eb.
      + apply wp_ret. split; [|lia]. split; [lia|]. split; [exists l; auto|]. intros _.
        rewrite Sd, from_hex_app, F by exact Ev. cbn [from_hex]. rewrite Dx, Dy.
        apply orb_true_iff in Eb as [-> | ->]; [reflexivity|]. now destruct (decode_hex_char x =? 255).
      + apply orb_false_iff in Eb as [Ex Ey]. rewrite Ex in Dx. rewrite Ey in Dy.
        apply Z.eqb_neq in Ex, Ey. specialize (Rx Ex). specialize (Ry Ey).
        assert (Ll : zlen l = i). { apply from_hex_len in F. rewrite zlen_firstn in F by lia. lia. }
        assert (So : skipn (Z.to_nat i) out = zget 0 out i :: skipn (Z.to_nat (i + 1)) out) by (apply (skipn_zget 0); lia).
        apply wp_bind, wp_aset; [rewrite Ho, So, zlen_app; unfold zlen at 2; cbn [List.length]; lia|]. apply wp_ret. split; [|lia].
        split; [lia|]. split; [|discriminate]. exists (l ++ [16 * decode_hex_char x + decode_hex_char y]). split.
        * assert (Sf : firstn (Z.to_nat (2 * (i + 1))) digits = firstn (Z.to_nat (2 * i)) digits ++ [x; y]).
          { replace (Z.to_nat (2 * (i + 1))) with (Z.to_nat (2 * i) + 2)%nat by lia. rewrite firstn_plus, Sp. reflexivity. }
          rewrite Sf, from_hex_app, F by exact Ev. cbn [from_hex]. now rewrite Dx, Dy.
        * rewrite combine_digits by lia. rewrite Ho, So, <- app_assoc. apply zset_here. exact Ll.
    - intros [[i o] bad] (Hi & (l & F & Ho) & Hbad) Hc. apply wp_ret. destruct bad.
      + right. split; [reflexivity|]. intros l' A. apply Arg in A as (F' & _). rewrite Hbad in F' by reflexivity. discriminate.
      + left. split; [reflexivity|]. cbn [negb] in Hc. rewrite andb_true_r in Hc. apply Z.ltb_ge in Hc. assert (i = n) by lia. subst i.
        rewrite firstn_all2 in F by (unfold zlen in *; lia). rewrite skipn_all2, app_nil_r in Ho by (unfold zlen in *; lia). subst o.
        split; [|now apply (from_hex_bytes digits)]. apply Arg. split; [exact F|]. apply from_hex_len in F. lia. }
  destruct (wp_ex _ _ W) as ([r o] & E & Hq). exists r, o. auto.
Qed.

Lemma argument_same name n s l l' : argument name n s l -> argument name n s l' -> l = l'.
Proof.
  intros (ds & -> & F & _) (ds' & E & F' & _). apply app_inv_head, app_inv_head in E. subst ds'. congruence.
Qed.
Lemma argument_len name n s l : argument name n s l -> zlen l = n.
Proof. now intros (_ & _ & _ & L). Qed.
Lemma argument_bytes name n s l : argument name n s l -> bytes l.
Proof. intros (ds & _ & F & _). now apply from_hex_bytes in F. Qed.

Lemma asks_same P argv r r' : asks P argv r -> asks P argv r' -> r = r'.
Proof.
  intros A A'. destruct A; inversion A'; subst; try discriminate; f_equal; eapply argument_same; eassumption.
Qed.

Lemma take_cases name out n argv next : zlen out = n -> 0 <= n < 2 ^ 62 ->
  (exists s more l, argv = s :: more /\ argument name n s l /\ val (take_argument (chars name) out n argv next) = val (next l more)) \/
  ((forall s more l, argv = s :: more -> ~ argument name n s l) /\ val (take_argument (chars name) out n argv next) = Ok (1, [])).
Proof.
  intros L Hn. destruct argv as [|s more]; [right; split; [discriminate|reflexivity]|]. cbn [take_argument].
  destruct (decode_ok name out n s L Hn) as (r & o & E & [(-> & A & B)|(-> & A)]); rewrite (val_ok _ _ _ E); cbv beta iota;
    rewrite val_branch; cbn [negb Z.eqb Pos.eqb].
  - left. exists s, more, o. auto.
  - right. split; [|reflexivity]. intros s' more' l Es. injection Es as <- <-. apply A.
Qed.

(** ** Printing *)

Lemma print_text name l : bytes l -> print_hex (chars name) l = text name l.
Proof.
  intros B. unfold print_hex, text. rewrite !chars_ascii. enough (E : flat_map printf_02X l = to_hex l) by now rewrite E.
  induction B as [|x l Hx B IH]; [reflexivity|]. cbn [flat_map to_hex]. rewrite IH. unfold printf_02X. cbn [app].
  assert (H : forall y, 0 <= y < 16 -> hex_digit y = nth (Z.to_nat y) (ascii "0123456789ABCDEF") 0).
  { intros y Hy. assert (I : In y (range 16)) by (apply in_range; lia). vm_compute in I.
    repeat (destruct I as [<-|I]; [vm_compute; reflexivity|]). destruct I. }
  unfold is_byte in Hx. rewrite (H (x / 16)) by (split; [apply Z.div_pos; lia|apply Z.div_lt_upper_bound; lia]).
  rewrite (H (x mod 16)) by (apply Z.mod_pos_bound; lia). reflexivity.
Qed.
Lemma to_hex_back l : bytes l -> from_hex (to_hex l) = Some l.
Proof.
  induction 1 as [|x l Hx B IH]; [reflexivity|]. cbn [to_hex from_hex]. rewrite IH.
  assert (H : forall y, 0 <= y < 16 -> digit (nth (Z.to_nat y) (ascii "0123456789ABCDEF") 0) = Some y).
  { intros y Hy. assert (I : In y (range 16)) by (apply in_range; lia). vm_compute in I.
    repeat (destruct I as [<-|I]; [vm_compute; reflexivity|]). destruct I. }
  unfold is_byte in Hx. rewrite (H (x / 16)) by (split; [apply Z.div_pos; lia|apply Z.div_lt_upper_bound; lia]).
  rewrite (H (x mod 16)) by (apply Z.mod_pos_bound; lia). rewrite <- Z.div_mod by lia. reflexivity.
Qed.
(** a printed line without its newline is an argument *)
Lemma printed_argument name l : bytes l -> argument name (zlen l) (removelast (text name l)) l.
Proof.
  intros B. exists (to_hex l). split; [|split; [now apply to_hex_back|reflexivity]].
  unfold text. rewrite !app_assoc. apply removelast_last.
Qed.

(** ** Calls that fail *)

Section Fail.
Variables (St : setting).
Let P := set_of (the_set St).
Let f := the_frame St.

Lemma enc_derand_fail J m pos coins ek : frame_ok P m f -> coins_ok P m f coins -> contains m (pk_at f) ek -> zlen ek = ek_size P ->
  ~ modulus_check P ek ->
  exists m', val (api_call St J (EncDerand (ct_at f) (key_b_at f) (pk_at f) (coins + 64)) m pos) = Ok (-1, m', pos) /\ forall x, m' x = m x.
Proof.
  intros F Fc C L HM. pose proof (frame_apart _ _ _ F) as (Ap1 & Ap2 & Ap3 & Ap4 & Ap5 & Ap6 & Ap7 & Ap8 & Ap9 & Ap10).
  pose proof (coins_apart St _ _ Fc) as (Q1 & Q2 & Q3 & Q4 & Q5).
  destruct F as (B & A1 & A2 & A3 & A4 & A5 & _ & V).
  assert (Fi : fits P m (EncDerand (ct_at f) (key_b_at f) (pk_at f) (coins + 64))).
  { cbn [fits]. refine (conj A3 (conj A5 (conj A1 (conj _ _)))).
    - apply (accessible_part _ _ 96); [apply Fc|lia|lia].
    - assert (R : forall a o, apart (coins, 96) (a, o) -> apart (a, o) (coins + 64, 32)).
      { intros a o H. apply apart_sym. eapply apart_part; [exact H|lia|lia]. }
      unfold all_apart. repeat (constructor; [repeat (constructor; [first [assumption|now apply apart_sym|now apply R]|]); constructor|]).
      constructor. }
  pose proof (build_call_follows (the_build St) {| junk_of := J; fuel_of := the_fuel St; pset_of := the_set St;
    call_of := EncDerand (ct_at f) (key_b_at f) (pk_at f) (coins + 64) |} (the_rng St) m pos B Fi) as G.
  cbn [pset_of fuel_of call_of machine_call] in G. fold P in G. unfold api_call.
  rewrite (read_contains m _ ek _ C L) in G. unfold modulus_check in HM. apply same_false in HM. rewrite HM in G.
  cbn [good] in G. destruct G as (m' & G & X & _). exists m'. auto.
Qed.
Lemma dec_fail J m pos dk : frame_ok P m f -> contains m (sk_at f) dk -> zlen dk = dk_size P -> ~ hash_check P dk ->
  exists m', val (api_call St J (Dec (key_a_at f) (ct_at f) (sk_at f)) m pos) = Ok (-1, m', pos) /\ forall x, m' x = m x.
Proof.
  intros F C L HH. pose proof (frame_apart _ _ _ F) as (Ap1 & Ap2 & Ap3 & Ap4 & Ap5 & Ap6 & Ap7 & Ap8 & Ap9 & Ap10).
  destruct F as (B & A1 & A2 & A3 & A4 & A5 & _ & V).
  assert (Fi : fits P m (Dec (key_a_at f) (ct_at f) (sk_at f))).
  { cbn [fits]. refine (conj A4 (conj A3 (conj A2 _))). apply all_apart3; first [assumption|now apply apart_sym]. }
  pose proof (build_call_follows (the_build St) {| junk_of := J; fuel_of := the_fuel St; pset_of := the_set St;
    call_of := Dec (key_a_at f) (ct_at f) (sk_at f) |} (the_rng St) m pos B Fi) as G.
  cbn [pset_of fuel_of call_of machine_call] in G. fold P in G. unfold api_call.
  rewrite (read_contains m _ dk _ C L) in G. cbv zeta in G. unfold hash_check in HH. apply same_false in HH. rewrite HH in G.
  cbn [good] in G. destruct G as (m' & G & X & _). exists m'. auto.
Qed.
End Fail.

(** ** The program *)

(** What a run does with a request: [m] is the memory in which it begins. *)
Definition fulfils (T : kat_setting) (m : memory) (o : outcome (Z * list Z)) (r : request) : Prop :=
  let P := set_of (kat_set T) in let n := 3 + Z.of_nat (kat_fuel T) in let f := kat_frame T in
  match r with
  | AskKeyGen d z =>
      match ML_KEM_KeyGen_internal P n d z with
      | Some (ek, dk) => o = Ok (0, text "ek" ek ++ text "dk" dk)
      | None => o = NoFuel
      end
  | AskEncaps ek r =>
      (modulus_check P ek ->
       match ML_KEM_Encaps_internal P n ek r with
       | Some (K, c) => o = Ok (0, text "c" c ++ text "k" K)
       | None => o = NoFuel
       end) /\
      (~ modulus_check P ek -> o = Ok (0, text "c" (read m (ct_at f) (ct_size P)) ++ text "k" (read m (key_b_at f) 32)))
  | AskDecaps dk c =>
      (hash_check P dk ->
       match ML_KEM_Decaps_internal P n dk c with
       | Some K => o = Ok (0, text "k" K)
       | None => o = NoFuel
       end) /\
      (~ hash_check P dk -> o = Ok (0, text "k" (read m (key_a_at f) 32)))
  end.

Section Program.
Variables (T : kat_setting) (coins : Z) (m : memory).
Let P := set_of (kat_set T).
Let n := 3 + Z.of_nat (kat_fuel T).
Let f := kat_frame T.
Let St := with_rng T (fun _ => 0).
Hypothesis F : frame_ok P m f.
Hypothesis Fc : coins_ok P m f coins.

Lemma set_bounds : 0 <= ek_size P < 2 ^ 62 /\ 0 <= dk_size P < 2 ^ 62 /\ 0 <= ct_size P < 2 ^ 62.
Proof. unfold P. destruct (kat_set T); vm_compute; repeat split; congruence. Qed.

Lemma kept_write m0 a l (Fm : frame_ok P m0 f) (Fcm : coins_ok P m0 f coins) : accessible m0 a (zlen l) -> bytes l ->
  val (mstore m0 a l) = Ok (mwrite m0 a l) /\ frame_ok P (mwrite m0 a l) f /\ coins_ok P (mwrite m0 a l) f coins.
Proof.
  intros A B. split; [now apply val_mstore|]. pose proof (domain_mwrite m0 a l A) as D. split.
  - apply (frame_kept _ _ _ _ Fm); [|exact D]. apply byte_mwrite; [apply Fm|exact B].
  - now apply (coins_kept St m0).
Qed.

Lemma keygen_run J d z : zlen d = 32 -> zlen z = 32 -> bytes d -> bytes z ->
  match ML_KEM_KeyGen_internal P n d z with
  | Some (ek, dk) => val (acvp_mlkem_keyGen_AFT T coins J z d m) = Ok (text "ek" ek ++ text "dk" dk)
  | None => val (acvp_mlkem_keyGen_AFT T coins J z d m) = NoFuel
  end.
Proof.
  intros Ld Lz Bd Bz. unfold acvp_mlkem_keyGen_AFT, MLKEM_SYMBYTES. fold f.
  pose proof (proj1 Fc) as A.
  destruct (kept_write m coins d F Fc) as (R1 & F1 & Fc1); [rewrite Ld; intros x Hx; apply A; lia|exact Bd|].
  rewrite (val_ok _ _ _ R1). cbv beta. pose proof (contains_same m coins d) as C1. set (m1 := mwrite m coins d) in *. clearbody m1.
  destruct (kept_write m1 (coins + 32) z F1 Fc1) as (R2 & F2 & Fc2);
    [rewrite Lz; intros x Hx; apply (proj1 Fc1); lia|exact Bz|].
  rewrite (val_ok _ _ _ R2). cbv beta. pose proof (contains_same m1 (coins + 32) z) as C2.
  assert (C1' : contains (mwrite m1 (coins + 32) z) coins d).
  { apply contains_other; [|exact C1]. unfold apart. cbn. lia. }
  set (m2 := mwrite m1 (coins + 32) z) in *. clearbody m2.
  assert (A3 : accessible m2 (coins + 64) 32) by (apply (accessible_part _ _ 96); [apply Fc2|lia|lia]).
  assert (C3 : contains m2 coins (d ++ z ++ read m2 (coins + 64) 32)).
  { apply ProofMem.contains_app. split; [exact C1'|]. apply ProofMem.contains_app. rewrite Ld, Lz. split; [exact C2|].
    replace (coins + 32 + 32) with (coins + 64) by lia. apply contains_read; [lia|exact A3]. }
  pose proof (keypair_derand_step St J m2 0 coins d z _ F2 Fc2 C3 Ld Lz ltac:(apply zlen_read; lia) Bd Bz) as H1.
  change (set_of (the_set St)) with P in H1. change (the_frame St) with f in H1. change (3 + Z.of_nat (the_fuel St)) with n in H1.
  fold St.
  destruct (ML_KEM_KeyGen_internal P n d z) as [[ek dk]|] eqn:EK; [|apply val_nofuel; exact H1].
  destruct H1 as (m3 & R3 & B3 & D3 & C4 & C5 & _ & L1 & L2 & Be & Bdk & _).
  rewrite (val_ok _ _ _ R3). cbv beta iota.
  destruct (ProofKem.sizes (kat_set T)) as (_ & Epk & Esk & _). fold P in Epk, Esk.
  rewrite (val_ok _ _ _ (val_mload m3 (pk_at f) ek _ C4 (eq_trans L1 (eq_sym Epk)))). cbv beta.
  rewrite (val_ok _ _ _ (val_mload m3 (sk_at f) dk _ C5 (eq_trans L2 (eq_sym Esk)))). cbv beta.
  now rewrite !print_text.
Qed.

Lemma encaps_run J m2 ek r : frame_ok P m2 f -> coins_ok P m2 f coins -> contains m2 (pk_at f) ek -> contains m2 (coins + 64) r ->
  zlen ek = ek_size P -> zlen r = 32 -> bytes ek -> bytes r ->
  (modulus_check P ek ->
   match ML_KEM_Encaps_internal P n ek r with
   | Some (K, c) => val (acvp_mlkem_encapDecp_AFT_encapsulation T coins J m2) = Ok (text "c" c ++ text "k" K)
   | None => val (acvp_mlkem_encapDecp_AFT_encapsulation T coins J m2) = NoFuel
   end) /\
  (~ modulus_check P ek -> forall c K, contains m2 (ct_at f) c -> contains m2 (key_b_at f) K -> zlen c = ct_size P -> zlen K = 32 ->
   val (acvp_mlkem_encapDecp_AFT_encapsulation T coins J m2) = Ok (text "c" c ++ text "k" K)).
Proof.
  intros F2 Fc2 C1 C2 Le Lr Be Br. unfold acvp_mlkem_encapDecp_AFT_encapsulation, MLKEM_SYMBYTES, MLKEM_SSBYTES.
  change (2 * 32) with 64. fold f St.
  destruct (ProofKem.sizes (kat_set T)) as (_ & _ & _ & _ & _ & Ect & _). fold P in Ect. split.
  - intros HM. pose proof (enc_derand_step St J m2 0 coins r ek F2 Fc2 C1 Le Be HM C2 Lr Br) as H2.
    change (set_of (the_set St)) with P in H2. change (the_frame St) with f in H2. change (3 + Z.of_nat (the_fuel St)) with n in H2.
    destruct (ML_KEM_Encaps_internal P n ek r) as [[K c]|]; [|apply val_nofuel; exact H2].
    destruct H2 as (m3 & R2 & B2 & D2 & C4 & C5 & L3 & L4 & Bc & BK & _). rewrite (val_ok _ _ _ R2). cbv beta iota.
    rewrite (val_ok _ _ _ (val_mload m3 (ct_at f) c _ C4 (eq_trans L3 (eq_sym Ect)))). cbv beta.
    rewrite (val_ok _ _ _ (val_mload m3 (key_b_at f) K _ C5 L4)). cbv beta. now rewrite !print_text.
  - intros HM c K Cc CK Lc LK.
    destruct (enc_derand_fail St J m2 0 coins ek F2 Fc2 C1 Le HM) as (m3 & R2 & X).
    change (the_frame St) with f in R2. rewrite (val_ok _ _ _ R2). cbv beta iota.
    assert (Bc : bytes c) by exact (contains_bytes _ _ _ (proj1 F2) Cc).
    assert (BK : bytes K) by exact (contains_bytes _ _ _ (proj1 F2) CK).
    assert (Cc' : contains m3 (ct_at f) c) by (intros i Hi; rewrite X; now apply Cc).
    assert (CK' : contains m3 (key_b_at f) K) by (intros i Hi; rewrite X; now apply CK).
    rewrite (val_ok _ _ _ (val_mload m3 (ct_at f) c _ Cc' (eq_trans Lc (eq_sym Ect)))). cbv beta.
    rewrite (val_ok _ _ _ (val_mload m3 (key_b_at f) K _ CK' LK)). cbv beta. now rewrite !print_text.
Qed.

Lemma decaps_run J m2 dk c : frame_ok P m2 f -> contains m2 (sk_at f) dk -> contains m2 (ct_at f) c ->
  zlen dk = dk_size P -> zlen c = ct_size P -> bytes dk -> bytes c ->
  (hash_check P dk ->
   match ML_KEM_Decaps_internal P n dk c with
   | Some K => val (acvp_mlkem_encapDecp_VAL_decapsulation T J m2) = Ok (text "k" K)
   | None => val (acvp_mlkem_encapDecp_VAL_decapsulation T J m2) = NoFuel
   end) /\
  (~ hash_check P dk -> forall K, contains m2 (key_a_at f) K -> zlen K = 32 ->
   val (acvp_mlkem_encapDecp_VAL_decapsulation T J m2) = Ok (text "k" K)).
Proof.
  intros F2 C1 C2 Ld Lc Bd Bc. unfold acvp_mlkem_encapDecp_VAL_decapsulation, MLKEM_SSBYTES. fold f St. split.
  - intros HH. destruct (dec_step St J m2 0 dk c F2 C1 Ld Bd C2 Lc Bc) as (H3 & _). specialize (H3 HH).
    change (set_of (the_set St)) with P in H3. change (the_frame St) with f in H3. change (3 + Z.of_nat (the_fuel St)) with n in H3.
    unfold call_dec in H3. change (the_frame St) with f in H3.
    destruct (ML_KEM_Decaps_internal P n dk c) as [K'|]; [|apply val_nofuel; exact H3].
    destruct H3 as (m3 & R3 & B3 & D3 & Ca & La & _). rewrite (val_ok _ _ _ R3). cbv beta iota.
    assert (BK : bytes K') by exact (contains_bytes _ _ _ B3 Ca).
    rewrite (val_ok _ _ _ (val_mload m3 (key_a_at f) K' _ Ca La)). cbv beta. now rewrite print_text.
  - intros HH K CK LK. destruct (dec_fail St J m2 0 dk F2 C1 Ld HH) as (m3 & R2 & X).
    change (the_frame St) with f in R2. rewrite (val_ok _ _ _ R2). cbv beta iota.
    assert (BK : bytes K) by exact (contains_bytes _ _ _ (proj1 F2) CK).
    assert (CK' : contains m3 (key_a_at f) K) by (intros i Hi; rewrite X; now apply CK).
    rewrite (val_ok _ _ _ (val_mload m3 (key_a_at f) K _ CK' LK)). cbv beta. now rewrite print_text.
Qed.

(** The two arguments are there and are well formed *)
Definition two (argv : list (list Z)) (na nb : string) (sa sb : Z) : Prop :=
  exists s t more a b, argv = s :: t :: more /\ argument na sa s a /\ argument nb sb t b.

Lemma case_encaps_ok J argv :
  (exists s t more ek r, argv = s :: t :: more /\ argument "ek" (ek_size P) s ek /\ argument "m" 32 t r /\
     fulfils T m (val (case_encapsulation T coins J AFT argv m)) (AskEncaps ek r)) \/
  (~ two argv "ek" "m" (ek_size P) 32 /\ val (case_encapsulation T coins J AFT argv m) = Ok (1, [])).
Proof.
  pose proof set_bounds as (Be & _). unfold case_encapsulation, MLKEM_SYMBYTES. change (2 * 32) with 64. fold f.
  destruct (ProofKem.sizes (kat_set T)) as (_ & Epk & _). fold P in Epk. rewrite Epk.
  pose proof F as (B & A1 & A2 & A3 & A4 & A5 & _ & V).
  pose proof (frame_apart _ _ _ F) as (Ap1 & Ap2 & Ap3 & Ap4 & Ap5 & Ap6 & Ap7 & Ap8 & Ap9 & Ap10).
  pose proof (coins_apart St _ _ Fc) as (Q1 & Q2 & Q3 & Q4 & Q5).
  change (set_of (the_set St)) with P in *. change (the_frame St) with f in *.
  rewrite (val_ok _ _ _ (val_mread m (pk_at f) (ek_size P) ltac:(lia) A1)). cbv beta.
  match goal with |- context [take_argument _ ?o _ _ ?nx] =>
    destruct (take_cases "ek" o (ek_size P) argv nx ltac:(apply zlen_read; lia) Be) as [(s & more & ek & -> & Ae & E)|(N & E)] end;
    rewrite E; clear E.
  2:{ right. split; [|reflexivity]. intros (s & t & more & a & b & Ea & Ha & _). now apply (N s (t :: more) a). }
  pose proof (argument_len _ _ _ _ Ae) as Le. pose proof (argument_bytes _ _ _ _ Ae) as Bek.
  destruct (kept_write m (pk_at f) ek F Fc) as (R1 & F1 & Fc1); [now rewrite Le|exact Bek|].
  rewrite (val_ok _ _ _ R1). cbv beta. pose proof (contains_same m (pk_at f) ek) as C1.
  set (m1 := mwrite m (pk_at f) ek) in *.
  assert (A6 : accessible m1 (coins + 64) 32) by (apply (accessible_part _ _ 96); [apply Fc1|lia|lia]).
  rewrite (val_ok _ _ _ (val_mread m1 (coins + 64) 32 ltac:(lia) A6)). cbv beta.
  match goal with |- context [take_argument _ ?o _ _ ?nx] =>
    destruct (take_cases "m" o 32 more nx ltac:(apply zlen_read; lia) ltac:(lia)) as [(t & more' & r & -> & Ar & E)|(N & E)] end;
    rewrite E; clear E.
  2:{ right. split; [|reflexivity]. intros (s' & t & more' & a & b & Ea & _ & Hb). injection Ea as <- Ea. now apply (N t more' b). }
  left. exists s, t, more', ek, r. split; [reflexivity|]. split; [exact Ae|]. split; [exact Ar|].
  pose proof (argument_len _ _ _ _ Ar) as Lr. pose proof (argument_bytes _ _ _ _ Ar) as Br.
  destruct (kept_write m1 (coins + 64) r F1 Fc1) as (R2 & F2 & Fc2); [now rewrite Lr|exact Br|].
  rewrite (val_ok _ _ _ R2). cbv beta.
  assert (Keep : forall a l, apart (coins, 96) (a, zlen l) -> contains m1 a l -> contains (mwrite m1 (coins + 64) r) a l).
  { intros a l Ha Hl. apply contains_other; [|exact Hl]. rewrite Lr. eapply apart_part; [exact Ha|lia|lia]. }
  assert (C2 : contains (mwrite m1 (coins + 64) r) (pk_at f) ek) by (apply Keep; [now rewrite Le|exact C1]).
  pose proof (contains_same m1 (coins + 64) r) as C3.
  destruct (encaps_run J (mwrite m1 (coins + 64) r) ek r F2 Fc2 C2 C3 Le Lr Bek Br) as (H1 & H2). split.
  - intros HM. specialize (H1 HM). fold P n.
    destruct (ML_KEM_Encaps_internal P n ek r) as [[K c]|]; [now rewrite (val_ok _ _ _ H1)|now apply val_nofuel].
  - intros HM. rewrite (val_ok _ _ _ (H2 HM (read m (ct_at f) (ct_size P)) (read m (key_b_at f) 32)
      ltac:(apply Keep; [rewrite zlen_read by (apply set_bounds); exact Q3|apply contains_other;
              [rewrite Le, zlen_read by (apply set_bounds); first [assumption|now apply apart_sym]|apply contains_read; [apply set_bounds|exact A3]]])
      ltac:(apply Keep; [rewrite zlen_read by lia; exact Q5|apply contains_other;
              [rewrite Le, zlen_read by lia; first [assumption|now apply apart_sym]|apply contains_read; [lia|exact A5]]])
      ltac:(apply zlen_read, set_bounds) ltac:(apply zlen_read; lia))). reflexivity.
Qed.

Lemma case_decaps_ok J argv :
  (exists s t more dk c, argv = s :: t :: more /\ argument "dk" (dk_size P) s dk /\ argument "c" (ct_size P) t c /\
     fulfils T m (val (case_decapsulation T J VAL argv m)) (AskDecaps dk c)) \/
  (~ two argv "dk" "c" (dk_size P) (ct_size P) /\ val (case_decapsulation T J VAL argv m) = Ok (1, [])).
Proof.
  pose proof set_bounds as (_ & Bd & Bct). unfold case_decapsulation. fold f.
  destruct (ProofKem.sizes (kat_set T)) as (_ & _ & Esk & _ & _ & Ect & _). fold P in Esk, Ect. rewrite Esk, Ect.
  pose proof F as (B & A1 & A2 & A3 & A4 & A5 & _ & V).
  pose proof (frame_apart _ _ _ F) as (Ap1 & Ap2 & Ap3 & Ap4 & Ap5 & Ap6 & Ap7 & Ap8 & Ap9 & Ap10).
  rewrite (val_ok _ _ _ (val_mread m (sk_at f) (dk_size P) ltac:(lia) A2)). cbv beta.
  match goal with |- context [take_argument _ ?o _ _ ?nx] =>
    destruct (take_cases "dk" o (dk_size P) argv nx ltac:(apply zlen_read; lia) Bd) as [(s & more & dk & -> & Ae & E)|(N & E)] end;
    rewrite E; clear E.
  2:{ right. split; [|reflexivity]. intros (s & t & more & a & b & Ea & Ha & _). now apply (N s (t :: more) a). }
  pose proof (argument_len _ _ _ _ Ae) as Ld. pose proof (argument_bytes _ _ _ _ Ae) as Bdk.
  destruct (kept_write m (sk_at f) dk F Fc) as (R1 & F1 & Fc1); [now rewrite Ld|exact Bdk|].
  rewrite (val_ok _ _ _ R1). cbv beta. pose proof (contains_same m (sk_at f) dk) as C1.
  set (m1 := mwrite m (sk_at f) dk) in *.
  assert (A6 : accessible m1 (ct_at f) (ct_size P)) by apply F1.
  rewrite (val_ok _ _ _ (val_mread m1 (ct_at f) (ct_size P) ltac:(lia) A6)). cbv beta.
  match goal with |- context [take_argument _ ?o _ _ ?nx] =>
    destruct (take_cases "c" o (ct_size P) more nx ltac:(apply zlen_read; lia) ltac:(lia)) as [(t & more' & c & -> & Ar & E)|(N & E)] end;
    rewrite E; clear E.
  2:{ right. split; [|reflexivity]. intros (s' & t & more' & a & b & Ea & _ & Hb). injection Ea as <- Ea. now apply (N t more' b). }
  left. exists s, t, more', dk, c. split; [reflexivity|]. split; [exact Ae|]. split; [exact Ar|].
  pose proof (argument_len _ _ _ _ Ar) as Lc. pose proof (argument_bytes _ _ _ _ Ar) as Bc.
  destruct (kept_write m1 (ct_at f) c F1 Fc1) as (R2 & F2 & Fc2); [now rewrite Lc|exact Bc|].
  rewrite (val_ok _ _ _ R2). cbv beta.
  assert (C2 : contains (mwrite m1 (ct_at f) c) (sk_at f) dk)
    by (apply contains_other; [rewrite Ld, Lc; first [assumption|now apply apart_sym]|exact C1]).
  pose proof (contains_same m1 (ct_at f) c) as C3.
  destruct (decaps_run J (mwrite m1 (ct_at f) c) dk c F2 C2 C3 Ld Lc Bdk Bc) as (H1 & H2). split.
  - intros HH. specialize (H1 HH). fold P n.
    destruct (ML_KEM_Decaps_internal P n dk c) as [K|]; [now rewrite (val_ok _ _ _ H1)|now apply val_nofuel].
  - intros HH. rewrite (val_ok _ _ _ (H2 HH (read m (key_a_at f) 32)
      ltac:(apply contains_other; [rewrite Lc, zlen_read by lia; first [assumption|now apply apart_sym]|apply contains_other;
              [rewrite Ld, zlen_read by lia; first [assumption|now apply apart_sym]|apply contains_read; [lia|exact A4]]])
      ltac:(apply zlen_read; lia))). reflexivity.
Qed.

Lemma case_keygen_ok J argv :
  (exists s t more z d, argv = s :: t :: more /\ argument "z" 32 s z /\ argument "d" 32 t d /\
     fulfils T m (val (case_keyGen T coins J AFT argv m)) (AskKeyGen d z)) \/
  (~ two argv "z" "d" 32 32 /\ val (case_keyGen T coins J AFT argv m) = Ok (1, [])).
Proof.
  unfold case_keyGen, MLKEM_SYMBYTES.
  match goal with |- context [take_argument _ ?o _ _ ?nx] =>
    destruct (take_cases "z" o 32 argv nx ltac:(apply zlen_uninit; lia) ltac:(lia)) as [(s & more & z & -> & Ae & E)|(N & E)] end;
    rewrite E; clear E.
  2:{ right. split; [|reflexivity]. intros (s & t & more & a & b & Ea & Ha & _). now apply (N s (t :: more) a). }
  match goal with |- context [take_argument _ ?o _ _ ?nx] =>
    destruct (take_cases "d" o 32 more nx ltac:(apply zlen_uninit; lia) ltac:(lia)) as [(t & more' & d & -> & Ar & E)|(N & E)] end;
    rewrite E; clear E.
  2:{ right. split; [|reflexivity]. intros (s' & t & more' & a & b & Ea & _ & Hb). injection Ea as <- Ea. now apply (N t more' b). }
  left. exists s, t, more', z, d. split; [reflexivity|]. split; [exact Ae|]. split; [exact Ar|].
  pose proof (keygen_run (sub J 2) d z (argument_len _ _ _ _ Ar) (argument_len _ _ _ _ Ae) (argument_bytes _ _ _ _ Ar) (argument_bytes _ _ _ _ Ae)) as H.
  unfold fulfils. fold P n. destruct (ML_KEM_KeyGen_internal P n d z) as [[ek dk]|]; [now rewrite (val_ok _ _ _ H)|now apply val_nofuel].
Qed.

Ltac strange := right; split; [|reflexivity]; intros r A; inversion A; subst; first [discriminate|congruence].
Lemma main_ok J argv :
  (exists r, asks P argv r /\ fulfils T m (val (acvp_main T coins J argv m)) r) \/
  ((forall r, ~ asks P argv r) /\ val (acvp_main T coins J argv m) = Ok (1, [])).
Proof.
  unfold acvp_main, strcmp_eq. rewrite !chars_ascii.
  destruct argv as [|prog argv]; [strange|]. destruct argv as [|mode argv]; [strange|].
  destruct (list_eq_dec Z.eq_dec mode (ascii "encapDecap")) as [->|N1];
    [|destruct (list_eq_dec Z.eq_dec mode (ascii "keyGen")) as [->|N2]; [|strange]].
  - destruct argv as [|type argv]; [strange|].
    destruct (list_eq_dec Z.eq_dec type (ascii "AFT")) as [->|N3];
      [|destruct (list_eq_dec Z.eq_dec type (ascii "VAL")) as [->|N4]; [|strange]].
    + destruct argv as [|fct argv]; [strange|].
      destruct (list_eq_dec Z.eq_dec fct (ascii "encapsulation")) as [->|N5];
        [|destruct (list_eq_dec Z.eq_dec fct (ascii "decapsulation")) as [->|N6]; [|strange]].
      * destruct (case_encaps_ok J argv) as [(s & t & more & ek & r & -> & Ae & Ar & H)|(N & H)].
        -- left. exists (AskEncaps ek r). split; [now constructor|exact H].
        -- right. split; [|exact H]. intros r A. apply N. inversion A; subst. unfold two. eauto 10.
      * cbn [case_decapsulation]. strange.
    + destruct argv as [|fct argv]; [strange|].
      destruct (list_eq_dec Z.eq_dec fct (ascii "encapsulation")) as [->|N5];
        [|destruct (list_eq_dec Z.eq_dec fct (ascii "decapsulation")) as [->|N6]; [|strange]].
      * cbn [case_encapsulation]. strange.
      * destruct (case_decaps_ok J argv) as [(s & t & more & dk & c & -> & Ae & Ar & H)|(N & H)].
        -- left. exists (AskDecaps dk c). split; [now constructor|exact H].
        -- right. split; [|exact H]. intros r A. apply N. inversion A; subst. unfold two. eauto 10.
  - destruct argv as [|type argv]; [strange|].
    destruct (list_eq_dec Z.eq_dec type (ascii "AFT")) as [->|N3];
      [|destruct (list_eq_dec Z.eq_dec type (ascii "VAL")) as [->|N4]; [|strange]].
    + destruct (case_keygen_ok J argv) as [(s & t & more & z & d & -> & Ae & Ar & H)|(N & H)].
      * left. exists (AskKeyGen d z). split; [now constructor|exact H].
      * right. split; [|exact H]. intros r A. apply N. inversion A; subst. unfold two. eauto 10.
    + cbn [case_keyGen]. strange.
Qed.
End Program.

(** ** The theorems *)

Section Theorems.
Variables (T : kat_setting) (coins : Z) (J : junk) (argv : list (list Z)) (m : memory).
Let P := set_of (kat_set T).
Let n := 3 + Z.of_nat (kat_fuel T).
Let f := kat_frame T.
Hypothesis F : frame_ok P m f.
Hypothesis Fc : coins_ok P m f coins.

Lemma main_asked r : asks P argv r -> fulfils T m (val (acvp_main T coins J argv m)) r.
Proof.
  intros A. destruct (main_ok T coins m F Fc J argv) as [(r' & A' & H)|(N & _)]; [|now elim (N r)].
  now rewrite (asks_same P argv r r' A A').
Qed.
Lemma main_keygen d z : asks P argv (AskKeyGen d z) ->
  match ML_KEM_KeyGen_internal P n d z with
  | Some (ek, dk) => val (acvp_main T coins J argv m) = Ok (0, text "ek" ek ++ text "dk" dk)
  | None => val (acvp_main T coins J argv m) = NoFuel
  end.
Proof. intros A. exact (main_asked _ A). Qed.
Lemma main_encaps ek r : asks P argv (AskEncaps ek r) ->
  (modulus_check P ek ->
   match ML_KEM_Encaps_internal P n ek r with
   | Some (K, c) => val (acvp_main T coins J argv m) = Ok (0, text "c" c ++ text "k" K)
   | None => val (acvp_main T coins J argv m) = NoFuel
   end) /\
  (~ modulus_check P ek ->
   val (acvp_main T coins J argv m) = Ok (0, text "c" (read m (ct_at f) (ct_size P)) ++ text "k" (read m (key_b_at f) 32))).
Proof. intros A. exact (main_asked _ A). Qed.
Lemma main_decaps dk c : asks P argv (AskDecaps dk c) ->
  (hash_check P dk ->
   match ML_KEM_Decaps_internal P n dk c with
   | Some K => val (acvp_main T coins J argv m) = Ok (0, text "k" K)
   | None => val (acvp_main T coins J argv m) = NoFuel
   end) /\
  (~ hash_check P dk -> val (acvp_main T coins J argv m) = Ok (0, text "k" (read m (key_a_at f) 32))).
Proof. intros A. exact (main_asked _ A). Qed.
Lemma main_usage : (forall r, ~ asks P argv r) -> val (acvp_main T coins J argv m) = Ok (1, []).
Proof. intros N. destruct (main_ok T coins m F Fc J argv) as [(r & A & _)|(_ & H)]; [now elim (N r)|exact H]. Qed.
End Theorems.
