(** * The functional tests *)

From Coq Require Import ZArith List Bool Lia.
From Verif Require Import CSem ModelArith ModelKeccak ModelKem ModelTests Spec202 Spec203 SpecLink SpecMem SpecApi SpecNoise SpecMachine SpecBuilds SpecTests
  CSemFacts ProofMem ProofKeys ProofApi ProofReturn ProofNoise ProofCorrect ProofMachine ProofBuilds.
Import ListNotations.
Open Scope Z_scope.
Ltac Zify.zify_post_hook ::= idtac.

(** ** Values *)

Lemma val_ok {A B} (m : M A) (f : A -> M B) a : val m = Ok a -> val (bind m f) = val (f a).
Proof. unfold val, bind. destruct m as [o t]. cbn [fst]. intros ->. destruct (f a) as [o' t']. reflexivity. Qed.
Lemma val_nofuel {A B} (m : M A) (f : A -> M B) : val m = NoFuel -> val (bind m f) = NoFuel.
Proof. unfold val, bind. destruct m as [o t]. cbn [fst]. now intros ->. Qed.
Lemma val_branch {A} b (x y : M A) : val (branch b x y) = val (if b then x else y).
Proof. unfold branch. now rewrite (val_ok (emit (EBranch b)) (fun _ => if b then x else y) tt). Qed.
Lemma val_mload m a l n : contains m a l -> zlen l = n -> val (mload m a n) = Ok l.
Proof.
  intros C L. pose proof (wp_mload False m a l n (fun x => x = l) C L eq_refl) as W.
  unfold wpn in W. unfold val. destruct (mload m a n) as [[x|e|] t]; cbn in *; try contradiction; now subst.
Qed.
Lemma val_mstore m a l : accessible m a (zlen l) -> val (mstore m a l) = Ok (mwrite m a l).
Proof.
  intros A. pose proof (wp_mstore False m a l (fun x => x = mwrite m a l) A eq_refl) as W.
  unfold wpn in W. unfold val. destruct (mstore m a l) as [[x|e|] t]; cbn in *; try contradiction; now subst.
Qed.
Lemma val_memcmp a b : val (memcmp a b) = Ok (if same a b then 0 else 1).
Proof. unfold memcmp, same. destruct (list_eq_dec Z.eq_dec a b); reflexivity. Qed.

(** ** Memory *)

Lemma read_contains m a l n : contains m a l -> zlen l = n -> read m a n = l.
Proof.
  intros C L. pose proof (zlen_nonneg l). apply (zlist_ext 0); [rewrite zlen_read; lia|].
  rewrite zlen_read by lia. intros i Hi. unfold read. rewrite (zget_map _ 0) by (rewrite zlen_range; lia). rewrite zget_range by lia.
  rewrite C by lia. reflexivity.
Qed.
Lemma domain_trans m1 m2 m3 : same_domain m1 m2 -> same_domain m2 m3 -> same_domain m1 m3.
Proof. intros H1 H2 x. rewrite (H2 x). apply H1. Qed.
Lemma domain_mwrite m a l : accessible m a (zlen l) -> same_domain m (mwrite m a l).
Proof.
  intros A x. rewrite mwrite_eq. apply (overwrite_domain m [(a, l)]). intros b o [E|[]]. now injection E as <- <-.
Qed.
Lemma domain_accessible m m' a n : same_domain m m' -> accessible m a n -> accessible m' a n.
Proof. intros D H x Hx E. apply (H x Hx). now apply D. Qed.
Lemma domain_vacant m m' a n : same_domain m m' -> vacant m a n -> vacant m' a n.
Proof. intros D H x Hx. now apply D, H. Qed.

Lemma zlen_patch l i new : 0 <= i -> i + zlen new <= zlen l -> zlen (patch l i new) = zlen l.
Proof. intros Hi Hl. pose proof (zlen_nonneg new). unfold patch. rewrite !zlen_app, !zlen_slice by lia. lia. Qed.
Lemma zget_patch l i new j : 0 <= i -> i + zlen new <= zlen l -> 0 <= j < zlen l ->
  zget 0 (patch l i new) j = if (i <=? j) && (j <? i + zlen new) then zget 0 new (j - i) else zget 0 l j.
Proof.
  intros Hi Hl Hj. pose proof (zlen_nonneg new). unfold patch. rewrite zget_app, zlen_slice by lia.
  destruct (j <? i - 0) eqn:E; [rewrite zget_slice by lia; replace (i <=? j) with false by lia; cbn [andb]; f_equal; lia|].
  rewrite zget_app by lia. replace (i <=? j) with true by lia. cbn [andb].
  destruct (j - (i - 0) <? zlen new) eqn:F.
  - replace (j <? i + zlen new) with true by lia. f_equal. lia.
  - replace (j <? i + zlen new) with false by lia. rewrite zget_slice by lia. f_equal. lia.
Qed.
Lemma bytes_patch l i new : bytes l -> bytes new -> bytes (patch l i new).
Proof. intros Hl Hn. unfold patch. apply Forall_app. split; [now apply ProofSponge.bytes_slice'|]. apply Forall_app. split; [exact Hn|now apply ProofSponge.bytes_slice']. Qed.
Lemma contains_patch m a l i new : contains m a l -> 0 <= i -> i + zlen new <= zlen l ->
  contains (mwrite m (a + i) new) a (patch l i new).
Proof.
  intros C Hi Hl j Hj. rewrite zlen_patch in Hj by auto. fold (zget 0 (patch l i new) j). rewrite zget_patch by auto.
  rewrite mwrite_eq. cbn [overwrite].
  replace ((a + i <=? a + j) && (a + j <? a + i + zlen new)) with ((i <=? j) && (j <? i + zlen new)) by lia.
  destruct ((i <=? j) && (j <? i + zlen new)); [|now apply C]. unfold zget. do 2 f_equal. lia.
Qed.
Lemma patch_accessible m a n i (l : list Z) : accessible m a n -> 0 <= i -> i + zlen l <= n -> accessible m (a + i) (zlen l).
Proof. intros A Hi Hl x Hx. apply A. lia. Qed.

Lemma slice_patch_after l i new x y : 0 <= i -> i + zlen new <= x -> x <= y -> y <= zlen l -> slice (patch l i new) x y = slice l x y.
Proof.
  intros Hi Hx Hy Hl. pose proof (zlen_nonneg new). assert (L : zlen (patch l i new) = zlen l) by (apply zlen_patch; lia).
  apply (zlist_ext 0); [rewrite !zlen_slice by lia; reflexivity|]. rewrite zlen_slice by lia. intros j Hj.
  rewrite !zget_slice, zget_patch by lia. replace (x + j <? i + zlen new) with false by lia. now rewrite andb_false_r.
Qed.
Lemma slice_patch_before l i new x y : 0 <= x <= y -> y <= i -> i + zlen new <= zlen l -> slice (patch l i new) x y = slice l x y.
Proof.
  intros Hi Hx Hy. pose proof (zlen_nonneg new). assert (L : zlen (patch l i new) = zlen l) by (apply zlen_patch; lia).
  apply (zlist_ext 0); [rewrite !zlen_slice by lia; reflexivity|]. rewrite zlen_slice by lia. intros j Hj.
  rewrite !zget_slice, zget_patch by lia. replace (i <=? x + j) with false by lia. reflexivity.
Qed.
Lemma slice_patch_there l i new y : 0 <= i -> y = i + zlen new -> y <= zlen l -> slice (patch l i new) i y = new.
Proof.
  intros Hi -> Hy. pose proof (zlen_nonneg new). assert (L : zlen (patch l i new) = zlen l) by (apply zlen_patch; lia).
  apply (zlist_ext 0); [rewrite !zlen_slice by lia; lia|]. rewrite zlen_slice by lia. intros j Hj.
  rewrite !zget_slice, zget_patch by lia. replace (i <=? i + j) with true by lia. replace (i + j <? i + zlen new) with true by lia. cbn [andb]. f_equal. lia.
Qed.
Lemma lxor_byte a b : 0 <= a < 256 -> 0 <= b < 256 -> 0 <= Z.lxor a b < 256.
Proof.
  intros Ha Hb. split; [apply Z.lxor_nonneg; lia|]. destruct (Z.eq_dec (Z.lxor a b) 0) as [->|N]; [lia|].
  apply Z.log2_lt_pow2 with (b := 8); [pose proof (Z.lxor_nonneg a b); lia|].
  eapply Z.le_lt_trans; [apply Z.log2_lxor; lia|]. apply Z.max_lub_lt.
  - destruct (Z.eq_dec a 0) as [->|]; [cbn; lia|]. apply Z.log2_lt_pow2; lia.
  - destruct (Z.eq_dec b 0) as [->|]; [cbn; lia|]. apply Z.log2_lt_pow2; lia.
Qed.
Lemma size_t_number bo l : zlen l = 8 -> load_size_t bo l = number bo l.
Proof.
  intros L. destruct l as [|a [|b [|c [|d [|e [|g [|h [|i [|? ?]]]]]]]]]; unfold zlen in L; cbn [length] in L; try lia.
  destruct bo; unfold load_size_t.
  - transitivity (1 * a + (256 * b + (65536 * c + (16777216 * d + (4294967296 * e + (1099511627776 * g + (281474976710656 * h + (72057594037927936 * i + 0)))))))); [|reflexivity].
    cbn [bytes_lane]. lia.
  - transitivity (1 * i + (256 * h + (65536 * g + (16777216 * e + (4294967296 * d + (1099511627776 * c + (281474976710656 * b + (72057594037927936 * a + 0)))))))); [|reflexivity].
    cbn [rev app bytes_lane]. lia.
Qed.
Lemma kept_after m a l b l' : contains m b l' -> apart (a, zlen l) (b, zlen l') -> contains (mwrite m a l) b l'.
Proof. intros. now apply contains_other. Qed.

(** ** Calls *)

Lemma sizes p : 0 < ct_size (set_of p) /\ ek_size (set_of p) = 384 * k (set_of p) + 32 /\ dk_size (set_of p) = 768 * k (set_of p) + 96 /\
  MLKEM_SECRETKEYBYTES p = dk_size (set_of p) /\ MLKEM_CIPHERTEXTBYTES p = ct_size (set_of p) /\ 2 <= k (set_of p) <= 4.
Proof. destruct p; cbv; repeat split; congruence. Qed.

Definition holding (m0 m : memory) (f : frame) (ek dk K c : list Z) : Prop :=
  byte_memory m /\ same_domain m0 m /\ contains m (pk_at f) ek /\ contains m (sk_at f) dk /\
  contains m (ct_at f) c /\ contains m (key_b_at f) K.
Definition shapes (P : params) (ek dk K c : list Z) : Prop :=
  zlen ek = ek_size P /\ zlen dk = dk_size P /\ zlen K = 32 /\ zlen c = ct_size P /\ bytes ek /\ bytes dk /\ bytes K /\ bytes c.

Lemma frame_apart P m f : frame_ok P m f ->
  apart (pk_at f, ek_size P) (sk_at f, dk_size P) /\ apart (pk_at f, ek_size P) (ct_at f, ct_size P) /\
  apart (pk_at f, ek_size P) (key_a_at f, 32) /\ apart (pk_at f, ek_size P) (key_b_at f, 32) /\
  apart (sk_at f, dk_size P) (ct_at f, ct_size P) /\ apart (sk_at f, dk_size P) (key_a_at f, 32) /\
  apart (sk_at f, dk_size P) (key_b_at f, 32) /\ apart (ct_at f, ct_size P) (key_a_at f, 32) /\
  apart (ct_at f, ct_size P) (key_b_at f, 32) /\ apart (key_a_at f, 32) (key_b_at f, 32).
Proof.
  intros (_ & _ & _ & _ & _ & _ & Ap & _). unfold all_apart in Ap.
  repeat match goal with F : ForallOrdPairs _ (_ :: _) |- _ => inversion_clear F end.
  repeat match goal with F : Forall _ (_ :: _) |- _ => apply Forall_cons_iff in F as [? F] end. tauto.
Qed.
Lemma frame_kept P m m' f : frame_ok P m f -> byte_memory m' -> same_domain m m' -> frame_ok P m' f.
Proof.
  intros (_ & A1 & A2 & A3 & A4 & A5 & Ap & V) B D.
  refine (conj B (conj _ (conj _ (conj _ (conj _ (conj _ (conj Ap _))))))); eauto using domain_accessible, domain_vacant.
Qed.
Lemma vacant_less m a n n' : vacant m a n -> n' <= n -> vacant m a n'.
Proof. intros V H x Hx. apply V. lia. Qed.

Lemma all_apart2 x y : apart x y -> all_apart [x; y].
Proof. intros. repeat (constructor; auto). Qed.
Lemma all_apart3 x y z : apart x y -> apart x z -> apart y z -> all_apart [x; y; z].
Proof. intros. repeat (constructor; auto). Qed.

Section Calls.
Variables (St : setting).
Let P := set_of (the_set St).
Let n := 3 + Z.of_nat (the_fuel St).
Let rng := the_rng St.
Let f := the_frame St.
Let Hn : 0 <= n.
Proof. unfold n. lia. Qed.

Lemma keypair_step J m pos : frame_ok P m f ->
  match ML_KEM_KeyGen_internal P n (drawn rng pos 32) (drawn rng (pos + 32) 32) with
  | Some (ek, dk) => exists m', val (call_keypair St J m pos) = Ok (0, m', pos + 64) /\
      byte_memory m' /\ same_domain m m' /\ contains m' (pk_at f) ek /\ contains m' (sk_at f) dk /\
      zlen ek = ek_size P /\ zlen dk = dk_size P /\ bytes ek /\ bytes dk /\ modulus_check P ek /\ hash_check P dk /\
      (exists dkp z, dk = dkp ++ ek ++ Spec203.H ek ++ z /\ zlen dkp = 384 * k P /\ zlen z = 32 /\ bytes z)
  | None => val (call_keypair St J m pos) = NoFuel
  end.
Proof.
  intros F. pose proof (frame_apart _ _ _ F) as (Ap & _). destruct F as (B & A1 & A2 & A3 & A4 & A5 & _ & V).
  assert (Fi : fits P m (Keypair (fp_at f) (pk_at f) (sk_at f))).
  { cbn [fits]. refine (conj A1 (conj A2 (conj _ V))). now apply all_apart2. }
  pose proof (build_call_follows (the_build St) {| junk_of := J; fuel_of := the_fuel St; pset_of := the_set St;
    call_of := Keypair (fp_at f) (pk_at f) (sk_at f) |} rng m pos B Fi) as G.
  cbn [pset_of fuel_of call_of machine_call] in G. fold P n in G. unfold call_keypair, api_call. fold f rng.
  destruct (ML_KEM_KeyGen_internal P n (drawn rng pos 32) (drawn rng (pos + 32) 32)) as [[ek dk]|] eqn:E; [|exact G].
  cbn [good] in G. destruct G as (m' & G & X & B' & D). exists m'. split; [exact G|]. split; [exact B'|]. split; [exact D|].
  assert (Lz : zlen (drawn rng (pos + 32) 32) = 32) by (apply zlen_drawn; lia).
  pose proof (bytes_drawn rng pos 32) as Bd. pose proof (bytes_drawn rng (pos + 32) 32) as Bz.
  destruct (keygen_keys _ _ _ _ _ _ Bd Bz Lz Hn E) as (L1 & Be & L2 & Bdk & _ & HM & HH & dkp & E4 & L4 & _).
  fold P in L1, L2, HM, HH.
  split; [exact (stored_first _ _ _ _ _ X)|]. split; [refine (stored_second _ _ _ _ _ _ _ _ X); now rewrite L1, L2|].
  repeat (split; [assumption|]). exists dkp, (drawn rng (pos + 32) 32). auto.
Qed.

Lemma enc_step J m pos ek : frame_ok P m f -> contains m (pk_at f) ek -> zlen ek = ek_size P -> bytes ek ->
  (modulus_check P ek ->
   match ML_KEM_Encaps_internal P n ek (drawn rng pos 32) with
   | Some (K, c) => exists m', val (call_enc St J m pos) = Ok (0, m', pos + 32) /\ byte_memory m' /\ same_domain m m' /\
       contains m' (ct_at f) c /\ contains m' (key_b_at f) K /\ zlen c = ct_size P /\ zlen K = 32 /\ bytes c /\ bytes K /\
       (forall a l, apart (ct_at f, ct_size P) (a, zlen l) -> apart (key_b_at f, 32) (a, zlen l) -> contains m a l -> contains m' a l)
   | None => val (call_enc St J m pos) = NoFuel
   end) /\
  (~ modulus_check P ek ->
   exists m', val (call_enc St J m pos) = Ok (-1, m', pos + 32) /\ byte_memory m' /\ same_domain m m').
Proof.
  intros F C L Be. pose proof (frame_apart _ _ _ F) as (Ap1 & Ap2 & Ap3 & Ap4 & Ap5 & Ap6 & Ap7 & Ap8 & Ap9 & Ap10).
  destruct F as (B & A1 & A2 & A3 & A4 & A5 & _ & V).
  assert (Fi : fits P m (Enc (fp_at f) (ct_at f) (key_b_at f) (pk_at f))).
  { cbn [fits]. refine (conj A3 (conj A5 (conj A1 (conj _ _)))); [|refine (vacant_less _ _ _ _ V _); lia].
    apply all_apart3; first [assumption|now apply apart_sym]. }
  pose proof (build_call_follows (the_build St) {| junk_of := J; fuel_of := the_fuel St; pset_of := the_set St;
    call_of := Enc (fp_at f) (ct_at f) (key_b_at f) (pk_at f) |} rng m pos B Fi) as G.
  cbn [pset_of fuel_of call_of machine_call] in G. fold P n in G. unfold call_enc, api_call. fold f rng.
  rewrite (read_contains m _ ek _ C L) in G. unfold modulus_check.
  destruct (same (concat (map (ByteEncode 12) (decode_vec P 12 ek))) (slice ek 0 (384 * k P))) eqn:S.
  - apply same_true in S. split; [intros _|intros N; now elim N].
    destruct (ML_KEM_Encaps_internal P n ek (drawn rng pos 32)) as [[K c]|] eqn:E; [|exact G].
    cbn [good] in G. destruct G as (m' & G & X & B' & D). exists m'. split; [exact G|]. split; [exact B'|]. split; [exact D|].
    destruct (encaps_out _ _ _ _ _ _ Be (bytes_drawn rng pos 32) L (zlen_drawn rng pos 32 ltac:(lia)) Hn E) as (L1 & B1 & L2 & B2).
    fold P in L2.
    split; [exact (stored_first _ _ _ _ _ X)|]. split; [refine (stored_second _ _ _ _ _ _ _ _ X); now rewrite L1, L2|].
    repeat (split; [assumption|]). intros a l Ha Hb Hc. refine (contains_kept _ _ _ _ _ Hc X _).
    intros x o [Ex|[Ex|[]]]; injection Ex as <- <-; now rewrite ?L1, ?L2.
  - apply same_false in S. split; [intros N; now elim S|intros _].
    cbn [good] in G. destruct G as (m' & G & X & B' & D). exists m'. auto.
Qed.

Lemma dec_step J m pos dk c : frame_ok P m f -> contains m (sk_at f) dk -> zlen dk = dk_size P -> bytes dk ->
  contains m (ct_at f) c -> zlen c = ct_size P -> bytes c ->
  (hash_check P dk ->
   match ML_KEM_Decaps_internal P n dk c with
   | Some K => exists m', val (call_dec St J m pos) = Ok (0, m', pos) /\ byte_memory m' /\ same_domain m m' /\
       contains m' (key_a_at f) K /\ zlen K = 32 /\
       (forall a l, apart (key_a_at f, 32) (a, zlen l) -> contains m a l -> contains m' a l)
   | None => val (call_dec St J m pos) = NoFuel
   end) /\
  (~ hash_check P dk -> exists m', val (call_dec St J m pos) = Ok (-1, m', pos) /\ byte_memory m' /\ same_domain m m').
Proof.
  intros F C L Bd C' L' Bc. pose proof (frame_apart _ _ _ F) as (Ap1 & Ap2 & Ap3 & Ap4 & Ap5 & Ap6 & Ap7 & Ap8 & Ap9 & Ap10).
  destruct F as (B & A1 & A2 & A3 & A4 & A5 & _ & V).
  assert (Fi : fits P m (Dec (key_a_at f) (ct_at f) (sk_at f))).
  { cbn [fits]. refine (conj A4 (conj A3 (conj A2 _))). apply all_apart3; first [assumption|now apply apart_sym]. }
  pose proof (build_call_follows (the_build St) {| junk_of := J; fuel_of := the_fuel St; pset_of := the_set St;
    call_of := Dec (key_a_at f) (ct_at f) (sk_at f) |} rng m pos B Fi) as G.
  cbn [pset_of fuel_of call_of machine_call] in G. fold P n in G. unfold call_dec, api_call. fold f rng.
  rewrite (read_contains m _ dk _ C L), (read_contains m _ c _ C' L') in G. cbv zeta in G. unfold hash_check.
  destruct (same (Spec203.H (slice dk (384 * k P) (768 * k P + 32))) (slice dk (768 * k P + 32) (768 * k P + 64))) eqn:S.
  - apply same_true in S. split; [intros _|intros N; now elim N].
    destruct (ML_KEM_Decaps_internal P n dk c) as [K|] eqn:E; [|exact G].
    cbn [good] in G. destruct G as (m' & G & X & B' & D). exists m'. split; [exact G|]. split; [exact B'|]. split; [exact D|].
    destruct (decaps_out _ _ _ _ _ Bd Bc Hn E) as (L1 & B1).
    split; [exact (stored_first _ _ _ _ _ X)|]. split; [exact L1|].
    intros a l Ha Hc. refine (contains_kept _ _ _ _ _ Hc X _). intros x o [Ex|[]]; injection Ex as <- <-; now rewrite L1.
  - apply same_false in S. split; [intros N; now elim S|intros _].
    cbn [good] in G. destruct G as (m' & G & X & B' & D). exists m'. auto.
Qed.

(** The beginning of every test *)
Lemma begin J0 J1 m pos : frame_ok P m f ->
  match exchange P n rng pos with
  | Some (ek, dk, K, c) => exists m1 m2, val (call_keypair St J0 m pos) = Ok (0, m1, pos + 64) /\
      val (call_enc St J1 m1 (pos + 64)) = Ok (0, m2, pos + 96) /\
      holding m m2 f ek dk K c /\ shapes P ek dk K c /\ modulus_check P ek /\ hash_check P dk /\
      (exists dkp z, dk = dkp ++ ek ++ Spec203.H ek ++ z /\ zlen dkp = 384 * k P /\ zlen z = 32 /\ bytes z)
  | None => val (call_keypair St J0 m pos) = NoFuel
  end.
Proof.
  intros F. pose proof (keypair_step J0 m pos F) as H1. unfold exchange.
  destruct (ML_KEM_KeyGen_internal P n (drawn rng pos 32) (drawn rng (pos + 32) 32)) as [[ek dk]|] eqn:EK; [|exact H1].
  destruct H1 as (m1 & R1 & B1 & D1 & C1 & C2 & L1 & L2 & Be & Bd & HM & HH & Hdk).
  pose proof (frame_kept _ _ _ _ F B1 D1) as F1.
  pose proof (frame_apart _ _ _ F) as (Ap1 & Ap2 & Ap3 & Ap4 & Ap5 & Ap6 & Ap7 & Ap8 & Ap9 & Ap10).
  destruct (enc_step J1 m1 (pos + 64) ek F1 C1 L1 Be) as (H2 & _). specialize (H2 HM).
  assert (EE : exists x, ML_KEM_Encaps_internal P n ek (drawn rng (pos + 64) 32) = Some x).
  { apply encaps_iff; [unfold P; destruct (sizes (the_set St)) as (_ & _ & _ & _ & _ & ?); lia|].
    unfold P. rewrite (keygen_rho_ek _ n _ _ _ _ (bytes_drawn rng pos 32) (bytes_drawn rng (pos + 32) 32) (zlen_drawn rng (pos + 32) 32 ltac:(lia)) Hn EK).
    apply (keygen_iff _ n _ (drawn rng (pos + 32) 32)); [destruct (sizes (the_set St)) as (_ & _ & _ & _ & _ & ?); lia|eauto]. }
  destruct EE as ([K c] & EE). rewrite EE in H2 |- *.
  destruct H2 as (m2 & R2 & B2 & D2 & C3 & C4 & L3 & L4 & Bc & BK & Kept).
  exists m1, m2. split; [exact R1|]. split; [replace (pos + 96) with (pos + 64 + 32) by lia; exact R2|]. split; [|split].
  - refine (conj B2 (conj (domain_trans _ _ _ D1 D2) (conj _ (conj _ (conj C3 C4))))).
    + apply Kept; [rewrite L1; now apply apart_sym|rewrite L1; now apply apart_sym|exact C1].
    + apply Kept; [rewrite L2; now apply apart_sym|rewrite L2; now apply apart_sym|exact C2].
  - unfold shapes. tauto.
  - tauto.
Qed.

Definition tested (m : memory) (o : outcome (Z * mem * Z)) (v : option (Z * Z)) : Prop :=
  match v with
  | Some (r, pos') => exists m', o = Ok (r, m', pos') /\ byte_memory m' /\ same_domain m m'
  | None => o = NoFuel
  end.

Lemma compare_ok m K K' : contains m (key_a_at f) K' -> contains m (key_b_at f) K -> zlen K = 32 -> zlen K' = 32 ->
  val (compare_keys St m) = Ok (if same K' K then 0 else 1).
Proof.
  intros Ca Cb L L'. unfold compare_keys. rewrite (val_ok _ _ K') by (apply val_mload; auto).
  rewrite (val_ok _ _ K) by (apply val_mload; auto). apply val_memcmp.
Qed.

Lemma keys_ok J m pos : frame_ok P m f -> tested m (val (test_keys St J m pos)) (keys_verdict P n rng pos).
Proof.
  intros F. pose proof (begin (sub J 0) (sub J 1) m pos F) as H. unfold keys_verdict, test_keys.
  destruct (exchange P n rng pos) as [[[[ek dk] K] c]|]; [|apply val_nofuel; exact H].
  destruct H as (m1 & m2 & R1 & R2 & (B & D & C1 & C2 & C3 & C4) & (L1 & L2 & L3 & L4 & B1 & B2 & B3 & B4) & HM & HH & _).
  pose proof (frame_apart _ _ _ F) as (Ap1 & Ap2 & Ap3 & Ap4 & Ap5 & Ap6 & Ap7 & Ap8 & Ap9 & Ap10).
  rewrite (val_ok _ _ _ R1). cbv beta iota. rewrite (val_ok _ _ _ R2). cbv beta iota.
  destruct (dec_step (sub J 2) m2 (pos + 96) dk c (frame_kept _ _ _ _ F B D) C2 L2 B2 C3 L4 B4) as (H3 & _). specialize (H3 HH).
  destruct (ML_KEM_Decaps_internal P n dk c) as [K'|]; [|apply val_nofuel; exact H3].
  destruct H3 as (m3 & R3 & B' & D' & Ca & La & Kept). rewrite (val_ok _ _ _ R3). cbv beta iota.
  assert (Cb : contains m3 (key_b_at f) K) by (apply Kept; [rewrite L3; exact Ap10|exact C4]).
  rewrite (val_ok _ _ _ (compare_ok m3 K K' Ca Cb L3 La)). cbv beta. rewrite val_branch. cbn [tested].
  exists m3. split; [|split; [exact B'|exact (domain_trans _ _ _ D D')]]. destruct (same K' K); reflexivity.
Qed.

(** The public key with its first coefficient set to 4095 *)
Lemma bad_pk ek v : bytes ek -> zlen ek = ek_size P -> v = at_ ek 1 ->
  ~ modulus_check P (patch (patch ek 0 [255]) 1 [Z.lor v 15]).
Proof.
  intros Be L ->. destruct (sizes (the_set St)) as (_ & E1 & _ & _ & _ & Hk). fold P in E1, Hk.
  assert (Bv : 0 <= at_ ek 1 < 256).
  { unfold bytes in Be. rewrite Forall_forall in Be. apply Be. unfold at_. apply nth_In. unfold zlen in L. lia. }
  assert (Bl : 0 <= Z.lor (at_ ek 1) 15 < 256).
  { split; [apply Z.lor_nonneg; lia|]. apply Z.log2_lt_cancel. rewrite Z.log2_lor by lia. change (Z.log2 256) with 8. change (Z.log2 15) with 3.
    apply Z.max_lub_lt; [|lia]. destruct (Z.eq_dec (at_ ek 1) 0) as [->|]; [cbn; lia|]. apply Z.log2_lt_pow2; lia. }
  set (ek' := patch (patch ek 0 [255]) 1 [Z.lor (at_ ek 1) 15]).
  assert (Lp : zlen (patch ek 0 [255]) = zlen ek) by (apply zlen_patch; change (zlen [255]) with 1; lia).
  assert (L' : zlen ek' = ek_size P) by (unfold ek'; rewrite zlen_patch; [lia|lia|]; change (zlen [Z.lor (at_ ek 1) 15]) with 1; lia).
  apply not_modulus_check; auto.
  { unfold ek'. repeat apply bytes_patch; auto; (constructor; [|constructor]); unfold is_byte; lia. }
  fold P. assert (E0 : zget 0 ek' 0 = 255 /\ zget 0 ek' 1 = Z.lor (at_ ek 1) 15).
  { unfold ek'. split; rewrite !zget_patch; try (change (zlen [Z.lor (at_ ek 1) 15]) with 1; change (zlen [255]) with 1; lia); reflexivity. }
  destruct E0 as (E0 & E2). unfold slice. cbn [Z.to_nat skipn]. rewrite Z.sub_0_r.
  destruct ek' as [|x0 [|x1 [|x2 r]]]; try (unfold zlen in L'; cbn in L'; lia).
  change (x0 = 255) in E0. change (x1 = Z.lor (at_ ek 1) 15) in E2. rewrite E0, E2.
  replace (Z.to_nat (384 * k P)) with (Datatypes.S (Datatypes.S (Datatypes.S (Z.to_nat (384 * k P) - 3)))) by lia.
  cbn [firstn candidates]. apply Exists_cons_hd.
  assert (M : Z.lor (at_ ek 1) 15 mod 16 = 15).
  { change 16 with (2 ^ 4). rewrite <- Z.land_ones by lia. change (Z.ones 4) with 15. rewrite Z.land_lor_distr_l, Z.land_diag.
    rewrite Z.lor_comm. apply Z.bits_inj'. intros i Hi. rewrite Z.lor_spec, Z.land_spec. destruct (Z.testbit 15 i); [reflexivity|]. now rewrite andb_false_r. }
  rewrite M. unfold q. lia.
Qed.

Lemma invalid_pk_ok J m pos : frame_ok P m f -> tested m (val (test_invalid_pk St J m pos)) (invalid_pk_verdict P n rng pos).
Proof.
  intros F. pose proof (begin (sub J 0) (sub J 1) m pos F) as H. unfold invalid_pk_verdict, test_invalid_pk. cbv zeta.
  destruct (exchange P n rng pos) as [[[[ek dk] K] c]|]; [|apply val_nofuel; exact H].
  destruct H as (m1 & m2 & R1 & R2 & (B & D & C1 & C2 & C3 & C4) & (L1 & L2 & L3 & L4 & B1 & B2 & B3 & B4) & HM & HH & _).
  rewrite (val_ok _ _ _ R1). cbv beta iota. rewrite (val_ok _ _ _ R2). cbv beta iota. rewrite val_branch. cbn [Z.eqb negb]. fold f.
  pose proof (frame_kept _ _ _ _ F B D) as F2. destruct (sizes (the_set St)) as (_ & E1 & _ & _ & _ & Hk). fold P in E1, Hk.
  pose proof F2 as (_ & A1 & _).
  assert (S1 : accessible m2 (pk_at f) (zlen [255])) by (intros x Hx; apply A1; change (zlen [255]) with 1 in Hx; lia).
  rewrite (val_ok _ _ _ (val_mstore _ _ _ S1)). cbv beta.
  set (m3 := mwrite m2 (pk_at f) [255]).
  assert (C3' : contains m3 (pk_at f) (patch ek 0 [255])).
  { unfold m3. replace (pk_at f) with (pk_at f + 0) at 1 by lia. apply contains_patch; [exact C1|lia|change (zlen [255]) with 1; lia]. }
  assert (Lp : zlen (patch ek 0 [255]) = zlen ek) by (apply zlen_patch; change (zlen [255]) with 1; lia).
  assert (V : contains m3 (pk_at f + 1) [at_ ek 1]).
  { intros i Hi. change (zlen [at_ ek 1]) with 1 in Hi. assert (i = 0) by lia. subst i. replace (pk_at f + 1 + 0) with (pk_at f + 1) by lia.
    rewrite (C3' 1) by lia. fold (zget 0 (patch ek 0 [255]) 1). rewrite zget_patch by (change (zlen [255]) with 1; lia). reflexivity. }
  rewrite (val_ok _ _ _ (val_mload _ _ _ 1 V eq_refl)). cbv beta.
  rewrite (val_ok _ _ (at_ ek 1)) by reflexivity. cbv beta.
  assert (Bv : 0 <= at_ ek 1 < 256).
  { unfold bytes in B1. rewrite Forall_forall in B1. apply B1. unfold at_. apply nth_In. unfold zlen in L1. lia. }
  assert (U : u8 (Z.lor (at_ ek 1) 15) = Z.lor (at_ ek 1) 15).
  { unfold u8. apply Z.mod_small. split; [apply Z.lor_nonneg; lia|]. apply Z.log2_lt_cancel. rewrite Z.log2_lor by lia. change (Z.log2 256) with 8. change (Z.log2 15) with 3.
    apply Z.max_lub_lt; [|lia]. destruct (Z.eq_dec (at_ ek 1) 0) as [->|]; [cbn; lia|]. apply Z.log2_lt_pow2; lia. }
  rewrite U. set (w := Z.lor (at_ ek 1) 15) in *. assert (Bw : 0 <= w < 256) by (rewrite <- U; unfold u8; apply Z.mod_pos_bound; lia).
  assert (D3 : same_domain m2 m3) by now apply domain_mwrite.
  assert (S2 : accessible m3 (pk_at f + 1) (zlen [w])).
  { apply (domain_accessible _ _ _ _ D3). intros x Hx. apply A1. change (zlen [w]) with 1 in Hx. lia. }
  rewrite (val_ok _ _ _ (val_mstore _ _ _ S2)). cbv beta.
  set (m4 := mwrite m3 (pk_at f + 1) [w]).
  assert (C4' : contains m4 (pk_at f) (patch (patch ek 0 [255]) 1 [w])).
  { apply contains_patch; [exact C3'|lia|change (zlen [w]) with 1; lia]. }
  assert (Bb : bytes [255] /\ bytes [w]) by (split; (constructor; [|constructor]); unfold is_byte; lia).
  assert (D4 : same_domain m2 m4) by (eapply domain_trans; [exact D3|now apply domain_mwrite]).
  assert (B4' : byte_memory m4) by (apply byte_mwrite; [apply byte_mwrite; [exact B|tauto]|tauto]).
  destruct (enc_step (sub J 2) m4 (pos + 96) (patch (patch ek 0 [255]) 1 [w]) (frame_kept _ _ _ _ F2 B4' D4) C4') as (_ & R).
  { rewrite zlen_patch; [lia|lia|]. change (zlen [w]) with 1. lia. }
  { repeat apply bytes_patch; tauto. }
  destruct R as (m5 & R & B5 & D5); [now apply bad_pk|].
  rewrite (val_ok _ _ _ R). cbv beta iota. rewrite val_branch. cbn [Z.eqb]. cbn [tested]. exists m5.
  split; [replace (pos + 128) with (pos + 96 + 32) by lia; reflexivity|]. split; [exact B5|].
  exact (domain_trans _ _ _ D (domain_trans _ _ _ D4 D5)).
Qed.

Lemma val_fill m pos a len : 0 <= len -> accessible m a len ->
  val (fill St m pos a len) = Ok (mwrite m a (drawn rng pos len), pos + len).
Proof.
  intros Hl A. unfold fill. fold rng. rewrite randombytes_drawn by lia.
  rewrite (val_ok _ _ (mwrite m a (drawn rng pos len))); [reflexivity|]. apply val_mstore. now rewrite zlen_drawn.
Qed.



Lemma invalid_sk_a_ok J m pos : frame_ok P m f -> tested m (val (test_invalid_sk_a St J m pos)) (invalid_sk_a_verdict P n rng pos).
Proof.
  intros F. pose proof (begin (sub J 0) (sub J 1) m pos F) as H. unfold invalid_sk_a_verdict, test_invalid_sk_a.
  destruct (exchange P n rng pos) as [[[[ek dk] K] c]|]; [|apply val_nofuel; exact H].
  destruct H as (m1 & m2 & R1 & R2 & (B & D & C1 & C2 & C3 & C4) & (L1 & L2 & L3 & L4 & B1 & B2 & B3 & B4) & HM & HH & _).
  pose proof (frame_apart _ _ _ F) as (Ap1 & Ap2 & Ap3 & Ap4 & Ap5 & Ap6 & Ap7 & Ap8 & Ap9 & Ap10).
  rewrite (val_ok _ _ _ R1). cbv beta iota. rewrite (val_ok _ _ _ R2). cbv beta iota. fold f.
  pose proof (frame_kept _ _ _ _ F B D) as F2. destruct (sizes (the_set St)) as (_ & E1 & E2 & _ & _ & Hk). fold P in E1, E2, Hk.
  pose proof F2 as (_ & _ & A2 & _).
  set (r := drawn rng (pos + 96) 10). assert (Lr : zlen r = 10) by (apply zlen_drawn; lia). pose proof (bytes_drawn rng (pos + 96) 10) as Br. fold r in Br.
  assert (A2' : accessible m2 (sk_at f) 10) by (intros x Hx; apply A2; lia).
  rewrite (val_ok _ _ _ (val_fill m2 (pos + 96) (sk_at f) 10 ltac:(lia) A2')). cbv beta iota. fold r.
  set (m3 := mwrite m2 (sk_at f) r).
  assert (D3 : same_domain m2 m3) by (apply domain_mwrite; now rewrite Lr).
  assert (B3' : byte_memory m3) by now apply byte_mwrite.
  assert (C2' : contains m3 (sk_at f) (patch dk 0 r)).
  { unfold m3. replace (sk_at f) with (sk_at f + 0) at 1 by lia. apply contains_patch; [exact C2|lia|lia]. }
  assert (C3' : contains m3 (ct_at f) c).
  { apply kept_after; [exact C3|]. rewrite Lr, L4. unfold apart in Ap5 |- *. cbn [fst snd] in *. lia. }
  assert (C4' : contains m3 (key_b_at f) K).
  { apply kept_after; [exact C4|]. rewrite Lr, L3. unfold apart in Ap7 |- *. cbn [fst snd] in *. lia. }
  assert (L2' : zlen (patch dk 0 r) = dk_size P) by (rewrite zlen_patch; lia).
  destruct (dec_step (sub J 2) m3 (pos + 96 + 10) (patch dk 0 r) c (frame_kept _ _ _ _ F2 B3' D3) C2' L2' (bytes_patch _ _ _ B2 Br) C3' L4 B4) as (H3 & _).
  assert (HH' : hash_check P (patch dk 0 r)).
  { unfold hash_check in *. rewrite !slice_patch_after by lia. exact HH. }
  specialize (H3 HH').
  destruct (ML_KEM_Decaps_internal P n (patch dk 0 r) c) as [K'|]; [|apply val_nofuel; exact H3].
  destruct H3 as (m4 & R3 & B' & D' & Ca & La & Kept). rewrite (val_ok _ _ _ R3). cbv beta iota. rewrite val_branch. cbn [Z.eqb negb].
  assert (Cb : contains m4 (key_b_at f) K) by (apply Kept; [rewrite L3; exact Ap10|exact C4']).
  rewrite (val_ok _ _ _ (compare_ok m4 K K' Ca Cb L3 La)). cbv beta. rewrite val_branch. cbn [tested].
  exists m4. split; [|split; [exact B'|exact (domain_trans _ _ _ D (domain_trans _ _ _ D3 D'))]].
  replace (pos + 106) with (pos + 96 + 10) by lia. destruct (same K' K); reflexivity.
Qed.

Lemma invalid_sk_b_ok J m pos : frame_ok P m f -> tested m (val (test_invalid_sk_b St J m pos)) (invalid_sk_b_verdict P n rng pos).
Proof.
  intros F. pose proof (begin (sub J 0) (sub J 1) m pos F) as H. unfold invalid_sk_b_verdict, test_invalid_sk_b.
  destruct (exchange P n rng pos) as [[[[ek dk] K] c]|] eqn:X; [|apply val_nofuel; exact H].
  destruct H as (m1 & m2 & R1 & R2 & (B & D & C1 & C2 & C3 & C4) & (L1 & L2 & L3 & L4 & B1 & B2 & B3 & B4) & HM & HH & (dkp & z & E & Lp & Lz & Bz)).
  pose proof (frame_apart _ _ _ F) as (Ap1 & Ap2 & Ap3 & Ap4 & Ap5 & Ap6 & Ap7 & Ap8 & Ap9 & Ap10).
  rewrite (val_ok _ _ _ R1). cbv beta iota. rewrite (val_ok _ _ _ R2). cbv beta iota. fold f.
  pose proof (frame_kept _ _ _ _ F B D) as F2. destruct (sizes (the_set St)) as (_ & E1 & E2 & E3 & _ & Hk). fold P in E1, E2, E3, Hk. rewrite E3.
  pose proof F2 as (_ & _ & A2 & _).
  set (r := drawn rng (pos + 96) 32). assert (Lr : zlen r = 32) by (apply zlen_drawn; lia). pose proof (bytes_drawn rng (pos + 96) 32) as Br. fold r in Br.
  replace (sk_at f + dk_size P - 64) with (sk_at f + (768 * k P + 32)) by lia.
  assert (A2' : accessible m2 (sk_at f + (768 * k P + 32)) 32) by (intros x Hx; apply A2; lia).
  rewrite (val_ok _ _ _ (val_fill m2 (pos + 96) _ 32 ltac:(lia) A2')). cbv beta iota. fold r.
  set (m3 := mwrite m2 (sk_at f + (768 * k P + 32)) r).
  assert (D3 : same_domain m2 m3) by (apply domain_mwrite; now rewrite Lr).
  assert (B3' : byte_memory m3) by now apply byte_mwrite.
  set (dk' := patch dk (768 * k P + 32) r).
  assert (C2' : contains m3 (sk_at f) dk') by (apply contains_patch; [exact C2|lia|lia]).
  assert (C3' : contains m3 (ct_at f) c).
  { apply kept_after; [exact C3|]. rewrite Lr, L4. unfold apart in Ap5 |- *. cbn [fst snd] in *. lia. }
  assert (L2' : zlen dk' = dk_size P) by (unfold dk'; rewrite zlen_patch; lia).
  destruct (dec_step (sub J 2) m3 (pos + 96 + 32) dk' c (frame_kept _ _ _ _ F2 B3' D3) C2' L2' (bytes_patch _ _ _ B2 Br) C3' L4 B4) as (H3 & H4).
  assert (HE : Spec203.H ek = slice dk (768 * k P + 32) (768 * k P + 64)).
  { unfold hash_check in HH. rewrite <- HH. f_equal. rewrite E. symmetry.
    replace (384 * k P) with (zlen dkp) by lia. replace (768 * k P + 32) with (zlen dkp + zlen ek) by lia. apply slice_app_mid. }
  assert (I : hash_check P dk' <-> r = Spec203.H ek).
  { unfold hash_check, dk'. rewrite slice_patch_before by lia. rewrite slice_patch_there by lia. unfold hash_check in HH. rewrite HH, HE. split; congruence. }
  cbn [tested]. replace (pos + 128) with (pos + 96 + 32) by lia. destruct (same r (Spec203.H ek)) eqn:S.
  - apply same_true in S. specialize (H3 (proj2 I S)).
    assert (EE : exists x, ML_KEM_Decaps_internal P n dk' c = Some x).
    { unfold exchange in X. destruct (ML_KEM_KeyGen_internal P n (drawn rng pos 32) (drawn rng (pos + 32) 32)) as [[ek0 dk0]|] eqn:EK; [|discriminate].
      destruct (ML_KEM_Encaps_internal P n ek0 (drawn rng (pos + 64) 32)) as [[K0 c0]|]; [|discriminate]. injection X as -> -> -> ->.
      apply decaps_iff; [lia|].
      replace (dk_rho P dk') with (keygen_rho P (drawn rng pos 32)).
      - apply (keygen_iff P n _ (drawn rng (pos + 32) 32)); [lia|eauto].
      - unfold P at 1. rewrite <- (keygen_rho_ek _ n _ _ _ _ (bytes_drawn rng pos 32) (bytes_drawn rng (pos + 32) 32) (zlen_drawn rng (pos + 32) 32 ltac:(lia)) Hn EK).
        fold P. unfold ek_rho, dk_rho, dk'. rewrite slice_patch_before by lia.
        rewrite E. apply (zlist_ext 0).
        + rewrite !zlen_slice; rewrite ?zlen_app; pose proof (zlen_nonneg (Spec203.H ek)); lia.
        + rewrite zlen_slice by lia. intros j Hj. rewrite !zget_slice by lia. rewrite zget_app by lia.
          replace (768 * k P + j <? zlen dkp) with false by lia. rewrite zget_app by lia.
          replace (768 * k P + j - zlen dkp <? zlen ek) with true by lia. f_equal. lia. }
    destruct EE as (K' & EE). rewrite EE in H3. destruct H3 as (m4 & R3 & B' & D' & _).
    rewrite (val_ok _ _ _ R3). cbv beta iota. rewrite val_branch. cbn [Z.eqb]. exists m4. split; [reflexivity|]. split; [exact B'|].
    exact (domain_trans _ _ _ D (domain_trans _ _ _ D3 D')).
  - apply same_false in S. destruct H4 as (m4 & R3 & B' & D'); [intros N; now apply S, I|].
    rewrite (val_ok _ _ _ R3). cbv beta iota. rewrite val_branch. cbn [Z.eqb]. exists m4. split; [reflexivity|]. split; [exact B'|].
    exact (domain_trans _ _ _ D (domain_trans _ _ _ D3 D')).
Qed.

Lemma val_draw limit : forall pos, val (draw_nonzero limit rng pos) =
  match first_nonzero limit rng pos with Some e => Ok (rng e mod 256, e + 1) | None => NoFuel end.
Proof.
  induction limit as [|limit IH]; intros pos; [reflexivity|]. cbn [draw_nonzero first_nonzero]. cbv zeta. rewrite val_branch.
  unfold u8 at 1. destruct (rng pos mod 256 =? 0); cbn [negb]; [apply IH|reflexivity].
Qed.
Lemma first_nonzero_spec limit : forall pos e, first_nonzero limit rng pos = Some e -> rng e mod 256 <> 0.
Proof.
  induction limit as [|limit IH]; intros pos e; [discriminate|]. cbn [first_nonzero].
  destruct (rng pos mod 256 =? 0) eqn:E; [apply IH|]. intros X. injection X as <-. lia.
Qed.


Lemma invalid_ciphertext_ok J m pos : frame_ok P m f ->
  tested m (val (test_invalid_ciphertext St J m pos))
    (invalid_ciphertext_verdict (build_order (the_build St)) (the_fuel St) P n rng pos).
Proof.
  intros F. unfold invalid_ciphertext_verdict, test_invalid_ciphertext. fold rng. pose proof (val_draw (the_fuel St) pos) as Dr.
  destruct (first_nonzero (the_fuel St) rng pos) as [e|]; [|apply val_nofuel; exact Dr].
  rewrite (val_ok _ _ _ Dr). cbv beta iota zeta. rewrite randombytes_drawn by lia.
  rewrite size_t_number by (apply zlen_drawn; lia).
  pose proof (begin (sub J 0) (sub J 1) m (e + 1 + 8) F) as H. replace (e + 1 + 8) with (e + 9) in * by lia.
  destruct (exchange P n rng (e + 9)) as [[[[ek dk] K] c]|]; [|apply val_nofuel; exact H].
  destruct H as (m1 & m2 & R1 & R2 & (B & D & C1 & C2 & C3 & C4) & (L1 & L2 & L3 & L4 & B1 & B2 & B3 & B4) & HM & HH & _).
  pose proof (frame_apart _ _ _ F) as (Ap1 & Ap2 & Ap3 & Ap4 & Ap5 & Ap6 & Ap7 & Ap8 & Ap9 & Ap10).
  rewrite (val_ok _ _ _ R1). cbv beta iota. rewrite (val_ok _ _ _ R2). cbv beta iota. fold f.
  pose proof (frame_kept _ _ _ _ F B D) as F2. destruct (sizes (the_set St)) as (Hct & E1 & E2 & E3 & E4 & Hk). fold P in Hct, E1, E2, E3, E4, Hk. rewrite E4.
  pose proof F2 as (_ & _ & _ & A3 & _).
  set (i := number (build_order (the_build St)) (drawn rng (e + 1) 8) mod ct_size P).
  assert (Hi : 0 <= i < ct_size P) by (apply Z.mod_pos_bound; lia).
  assert (V : contains m2 (ct_at f + i) [at_ c i]).
  { intros j Hj. change (zlen [at_ c i]) with 1 in Hj. assert (j = 0) by lia. subst j. replace (ct_at f + i + 0) with (ct_at f + i) by lia. rewrite C3 by lia. reflexivity. }
  rewrite (val_ok _ _ _ (val_mload _ _ _ 1 V eq_refl)). cbv beta. rewrite (val_ok _ _ (at_ c i)) by reflexivity. cbv beta.
  assert (Bv : 0 <= at_ c i < 256).
  { unfold bytes in B4. rewrite Forall_forall in B4. apply B4. unfold at_. apply nth_In. unfold zlen in L4. lia. }
  assert (Bx : 0 <= Z.lxor (at_ c i) (rng e mod 256) < 256) by (apply lxor_byte; [exact Bv|apply Z.mod_pos_bound; lia]).
  assert (U : u8 (Z.lxor (at_ c i) (rng e mod 256)) = Z.lxor (at_ c i) (rng e mod 256)) by (apply Z.mod_small; exact Bx).
  rewrite U. set (w := Z.lxor (at_ c i) (rng e mod 256)) in *.
  assert (S1 : accessible m2 (ct_at f + i) (zlen [w])) by (intros x Hx; apply A3; change (zlen [w]) with 1 in Hx; lia).
  rewrite (val_ok _ _ _ (val_mstore _ _ _ S1)). cbv beta.
  set (m3 := mwrite m2 (ct_at f + i) [w]).
  assert (D3 : same_domain m2 m3) by now apply domain_mwrite.
  assert (Bw : bytes [w]) by ((constructor; [|constructor]); exact Bx).
  assert (B3' : byte_memory m3) by now apply byte_mwrite.
  assert (C3' : contains m3 (ct_at f) (patch c i [w])) by (apply contains_patch; [exact C3|lia|change (zlen [w]) with 1; lia]).
  assert (C2' : contains m3 (sk_at f) dk).
  { apply kept_after; [exact C2|]. change (zlen [w]) with 1. rewrite L2. unfold apart in Ap5 |- *. cbn [fst snd] in *. lia. }
  assert (C4' : contains m3 (key_b_at f) K).
  { apply kept_after; [exact C4|]. change (zlen [w]) with 1. rewrite L3. unfold apart in Ap9 |- *. cbn [fst snd] in *. lia. }
  assert (L4' : zlen (patch c i [w]) = ct_size P) by (rewrite zlen_patch; [exact L4|lia|]; change (zlen [w]) with 1; lia).
  destruct (dec_step (sub J 2) m3 (e + 9 + 96) dk (patch c i [w]) (frame_kept _ _ _ _ F2 B3' D3) C2' L2 B2 C3' L4' (bytes_patch _ _ _ B4 Bw)) as (H3 & _).
  specialize (H3 HH).
  destruct (ML_KEM_Decaps_internal P n dk (patch c i [w])) as [K'|]; [|apply val_nofuel; exact H3].
  destruct H3 as (m4 & R3 & B' & D' & Ca & La & Kept). rewrite (val_ok _ _ _ R3). cbv beta iota.
  assert (Cb : contains m4 (key_b_at f) K) by (apply Kept; [rewrite L3; exact Ap10|exact C4']).
  rewrite (val_ok _ _ _ (compare_ok m4 K K' Ca Cb L3 La)). cbv beta. rewrite val_branch. cbn [tested].
  exists m4. split; [|split; [exact B'|exact (domain_trans _ _ _ D (domain_trans _ _ _ D3 D'))]].
  replace (e + 105) with (e + 9 + 96) by lia. destruct (same K' K); reflexivity.
Qed.

(** ** The whole program *)

Lemma tested_bind {A} m (x : M (Z * mem * Z)) v (g : Z * mem * Z -> M A) : frame_ok P m f -> tested m (val x) v ->
  match v with
  | Some (r, pos') => exists m', val (bind x g) = val (g (r, m', pos')) /\ frame_ok P m' f /\ same_domain m m'
  | None => val (bind x g) = NoFuel
  end.
Proof.
  intros F T. unfold tested in T. destruct v as [[r pos']|]; [|now apply val_nofuel].
  destruct T as (m' & E & B & D). exists m'. split; [now apply val_ok|]. split; [now apply (frame_kept _ m)|exact D].
Qed.

Lemma keys_range pos r pos' : keys_verdict P n rng pos = Some (r, pos') -> r = 0 \/ r = 1.
Proof.
  unfold keys_verdict. destruct (exchange P n rng pos) as [[[[? ?] K] ?]|]; [|discriminate].
  destruct (ML_KEM_Decaps_internal _ _ _ _) as [K'|]; [|discriminate]. intros E. injection E as <- <-. destruct (same K' K); auto.
Qed.
Lemma pk_range pos r pos' : invalid_pk_verdict P n rng pos = Some (r, pos') -> r = 0 \/ r = 1.
Proof. unfold invalid_pk_verdict. destruct (exchange P n rng pos) as [[[[? ?] K] ?]|]; [|discriminate]. intros E. injection E as <- <-. auto. Qed.
Lemma sk_a_range pos r pos' : invalid_sk_a_verdict P n rng pos = Some (r, pos') -> r = 0 \/ r = 1.
Proof.
  unfold invalid_sk_a_verdict. destruct (exchange P n rng pos) as [[[[? ?] K] ?]|]; [|discriminate].
  destruct (ML_KEM_Decaps_internal _ _ _ _) as [K'|]; [|discriminate]. intros E. injection E as <- <-. destruct (same K' K); auto.
Qed.
Lemma sk_b_range pos r pos' : invalid_sk_b_verdict P n rng pos = Some (r, pos') -> r = 0 \/ r = 1.
Proof.
  unfold invalid_sk_b_verdict. destruct (exchange P n rng pos) as [[[[? ?] K] ?]|]; [|discriminate]. intros E. injection E as <- <-. destruct (same _ _); auto.
Qed.
Lemma ciphertext_range bo l pos r pos' : invalid_ciphertext_verdict bo l P n rng pos = Some (r, pos') -> r = 0 \/ r = 1.
Proof.
  unfold invalid_ciphertext_verdict. destruct (first_nonzero l rng pos) as [e|]; [|discriminate].
  destruct (exchange P n rng (e + 9)) as [[[[? ?] K] ?]|]; [|discriminate]. cbv zeta.
  destruct (ML_KEM_Decaps_internal _ _ _ _) as [K'|]; [|discriminate]. intros E. injection E as <- <-. destruct (same K' K); auto.
Qed.

Lemma main_ok ntests : forall J m pos, frame_ok P m f ->
  tested m (val (test_main ntests St J m pos)) (main_verdict ntests (build_order (the_build St)) (the_fuel St) P n rng pos).
Proof.
  induction ntests as [|ntests IH]; intros J m pos F.
  { cbn [main_verdict tested test_main]. exists m. split; [reflexivity|]. split; [apply F|]. intros x. tauto. }
  cbn [test_main main_verdict in_turn].
  match goal with |- tested _ (val (bind _ ?g)) _ => pose proof (tested_bind m _ _ g F (keys_ok (sub J 0) m pos F)) as H end.
  destruct (keys_verdict P n rng pos) as [[r0 pos0]|] eqn:E0; [|exact H].
  destruct H as (m0 & -> & F0 & D0). cbv beta iota.
  match goal with |- tested _ (val (bind _ ?g)) _ => pose proof (tested_bind m0 _ _ g F0 (invalid_pk_ok (sub J 1) m0 pos0 F0)) as H end.
  destruct (invalid_pk_verdict P n rng pos0) as [[r1 pos1]|] eqn:E1; [|exact H].
  destruct H as (m1 & -> & F1 & D1). cbv beta iota.
  match goal with |- tested _ (val (bind _ ?g)) _ => pose proof (tested_bind m1 _ _ g F1 (invalid_sk_a_ok (sub J 2) m1 pos1 F1)) as H end.
  destruct (invalid_sk_a_verdict P n rng pos1) as [[r2 pos2]|] eqn:E2; [|exact H].
  destruct H as (m2 & -> & F2 & D2). cbv beta iota.
  match goal with |- tested _ (val (bind _ ?g)) _ => pose proof (tested_bind m2 _ _ g F2 (invalid_sk_b_ok (sub J 3) m2 pos2 F2)) as H end.
  destruct (invalid_sk_b_verdict P n rng pos2) as [[r3 pos3]|] eqn:E3; [|exact H].
  destruct H as (m3 & -> & F3 & D3). cbv beta iota.
  match goal with |- tested _ (val (bind _ ?g)) _ => pose proof (tested_bind m3 _ _ g F3 (invalid_ciphertext_ok (sub J 4) m3 pos3 F3)) as H end.
  destruct (invalid_ciphertext_verdict _ _ P n rng pos3) as [[r4 pos4]|] eqn:E4; [|exact H].
  destruct H as (m4 & -> & F4 & D4). cbv beta iota zeta. rewrite val_branch.
  assert (D : same_domain m m4) by (repeat (eapply domain_trans; [eassumption|]); intros x; tauto).
  apply keys_range in E0. apply pk_range in E1. apply sk_a_range in E2. apply sk_b_range in E3. apply ciphertext_range in E4.
  assert (T : negb (Z.lor (Z.lor (Z.lor (Z.lor r0 r1) r2) r3) r4 =? 0) = negb (forallb (Z.eqb 0) [r0; r1; r2; r3; r4])).
  { destruct E0, E1, E2, E3, E4; subst; reflexivity. }
  rewrite T. destruct (forallb (Z.eqb 0) [r0; r1; r2; r3; r4]); cbn [negb].
  - specialize (IH (sub J 5) m4 pos4 F4). unfold tested in IH |- *.
    destruct (main_verdict _ _ _ P n rng pos4) as [[r pos']|]; [|exact IH].
    destruct IH as (m' & E & B' & D'). exists m'. split; [exact E|]. split; [exact B'|]. exact (domain_trans _ _ _ D D').
  - cbn [tested]. exists m4. split; [reflexivity|]. split; [apply F4|exact D].
Qed.
End Calls.

(** ** When the tests pass *)

Lemma exchange_parts p n rng pos ek dk K c : 0 <= n -> exchange (set_of p) n rng pos = Some (ek, dk, K, c) ->
  ML_KEM_KeyGen_internal (set_of p) n (drawn rng pos 32) (drawn rng (pos + 32) 32) = Some (ek, dk) /\
  ML_KEM_Encaps_internal (set_of p) n ek (drawn rng (pos + 64) 32) = Some (K, c).
Proof.
  intros Hn. unfold exchange. destruct (ML_KEM_KeyGen_internal _ _ _ _) as [[ek0 dk0]|] eqn:EK; [|discriminate].
  destruct (ML_KEM_Encaps_internal _ _ _ _) as [[K0 c0]|] eqn:EE; [|discriminate]. intros E. injection E as -> -> -> ->. auto.
Qed.
Lemma exchange_returns p n rng pos : 0 <= n ->
  (exchange (set_of p) n rng pos = None <-> ML_KEM_KeyGen_internal (set_of p) n (drawn rng pos 32) (drawn rng (pos + 32) 32) = None).
Proof.
  intros Hn. unfold exchange. destruct (ML_KEM_KeyGen_internal _ _ _ _) as [[ek dk]|] eqn:EK; [|tauto].
  assert (EE : exists x, ML_KEM_Encaps_internal (set_of p) n ek (drawn rng (pos + 64) 32) = Some x).
  { destruct (sizes p) as (_ & _ & _ & _ & _ & ?). apply encaps_iff; [lia|].
    rewrite (keygen_rho_ek _ n _ _ _ _ (bytes_drawn rng pos 32) (bytes_drawn rng (pos + 32) 32) (zlen_drawn rng (pos + 32) 32 ltac:(lia)) Hn EK).
    apply (keygen_iff _ n _ (drawn rng (pos + 32) 32)); [lia|eauto]. }
  destruct EE as ([K c] & ->). split; discriminate.
Qed.

Lemma keys_pass p n rng pos nz : 0 <= n ->
  kem_noise (set_of p) n (drawn rng pos 32) (drawn rng (pos + 64) 32) = Some nz -> harmless_noise (drawn rng (pos + 64) 32) nz ->
  keys_verdict (set_of p) n rng pos = Some (0, pos + 96).
Proof.
  intros Hn EN Hh. destruct (exchange (set_of p) n rng pos) as [[[[ek dk] K] c]|] eqn:X.
  - destruct (exchange_parts _ _ _ _ _ _ _ _ Hn X) as [EK EE]. unfold keys_verdict. rewrite X.
    rewrite (kem_correct p n (drawn rng pos 32) (drawn rng (pos + 32) 32) (drawn rng (pos + 64) 32) ek dk K c nz); auto using bytes_drawn;
      try (apply zlen_drawn; lia).
    unfold same. destruct (list_eq_dec Z.eq_dec K K); [reflexivity|contradiction].
  - apply exchange_returns in X; [|exact Hn]. unfold kem_noise in EN. unfold ML_KEM_KeyGen_internal in X.
    destruct (K_PKE_KeyGen _ _ _) as [[? ?]|]; discriminate.
Qed.

Lemma patch_changes l i x : 0 <= i < zlen l -> x <> 0 -> patch l i [Z.lxor (at_ l i) x] <> l.
Proof.
  intros Hi Hx E. assert (X : zget 0 (patch l i [Z.lxor (at_ l i) x]) i = zget 0 l i) by now rewrite E.
  rewrite zget_patch in X by (change (zlen [Z.lxor (at_ l i) x]) with 1; lia). change (zlen [Z.lxor (at_ l i) x]) with 1 in X.
  replace ((i <=? i) && (i <? i + 1)) with true in X by lia. replace (i - i) with 0 in X by lia.
  change (Z.lxor (at_ l i) x = at_ l i) in X. apply (f_equal (Z.lxor (at_ l i))) in X.
  rewrite <- Z.lxor_assoc, Z.lxor_nilpotent, Z.lxor_0_l in X. exact (Hx X).
Qed.

Lemma ciphertext_events bo limit p n rng pos r pos' : 0 <= n ->
  invalid_ciphertext_verdict bo limit (set_of p) n rng pos = Some (r, pos') ->
  exists e ek dk K c i, first_nonzero limit rng pos = Some e /\ exchange (set_of p) n rng (e + 9) = Some (ek, dk, K, c) /\
    0 <= i < zlen c /\
    let c' := patch c i [Z.lxor (at_ c i) (rng e mod 256)] in
    c' <> c /\
    (r = 0 \/ Spec203.J (drawn rng (e + 41) 32 ++ c') = K \/
     exists m r', K_PKE_Encrypt (set_of p) n ek m r' = Some c' /\ G (m ++ Spec203.H ek) = (K, r')).
Proof.
  intros Hn. unfold invalid_ciphertext_verdict. destruct (first_nonzero limit rng pos) as [e|] eqn:F; [|discriminate].
  destruct (exchange (set_of p) n rng (e + 9)) as [[[[ek dk] K] c]|] eqn:X; [|discriminate]. cbv zeta.
  destruct (exchange_parts _ _ _ _ _ _ _ _ Hn X) as [EK EE].
  assert (Lz : zlen (drawn rng (e + 9 + 32) 32) = 32) by (apply zlen_drawn; lia).
  destruct (keygen_keys _ _ _ _ _ _ (bytes_drawn rng (e + 9) 32) (bytes_drawn rng (e + 9 + 32) 32) Lz Hn EK) as (L1 & Be & L2 & Bdk & _ & HM & HH & dkp & E4 & L4 & _).
  destruct (encaps_out _ _ _ _ _ _ Be (bytes_drawn rng (e + 9 + 64) 32) L1 (zlen_drawn rng (e + 9 + 64) 32 ltac:(lia)) Hn EE) as (LK & _ & Lc & _).
  destruct (sizes p) as (Hct & E1 & E2 & _ & _ & Hk). set (P := set_of p) in *.
  set (i := number bo (drawn rng (e + 1) 8) mod ct_size P). assert (Hi : 0 <= i < ct_size P) by (apply Z.mod_pos_bound; lia).
  set (c' := patch c i [Z.lxor (at_ c i) (rng e mod 256)]).
  destruct (ML_KEM_Decaps_internal P n dk c') as [K'|] eqn:ED; [|discriminate].
  intros R. assert (Er : (if same K' K then 1 else 0) = r) by congruence. clear R.
  exists e, ek, dk, K, c, i. split; [reflexivity|]. split; [exact X|]. split; [lia|].
  fold c'. split; [apply patch_changes; [lia|now apply (first_nonzero_spec (Setting X86_64 0 p rng (Frame 0 0 0 0 0 0)) limit pos)]|].
  destruct (same K' K) eqn:S; [|now left]. apply same_true in S. subst K'. right.
  assert (LH : zlen (Spec203.H ek) = 32) by now apply ProofPke.zlen_SHA3_256.
  destruct (dk_parts P dkp ek (Spec203.H ek) (drawn rng (e + 9 + 32) 32)) as (S1 & S2 & S3 & S4); auto; [lia|].
  rewrite <- E4 in S1, S2, S3, S4. unfold ML_KEM_Decaps_internal in ED. cbv zeta in ED. rewrite S1, S2, S3, S4 in ED.
  destruct (G (K_PKE_Decrypt P dkp c' ++ Spec203.H ek)) as [K1 r1] eqn:EG.
  destruct (K_PKE_Encrypt P n ek (K_PKE_Decrypt P dkp c') r1) as [c2|] eqn:E5; [|discriminate].
  destruct (list_eq_dec Z.eq_dec c' c2) as [Ec|Ec].
  - right. exists (K_PKE_Decrypt P dkp c'), r1. subst c2. split; [exact E5|]. injection ED as <-. exact EG.
  - left. replace (e + 41) with (e + 9 + 32) by lia. congruence.
Qed.

Lemma decaps_returns p n rng pos ek dk K c dk' c' : let P := set_of p in 0 <= n ->
  exchange P n rng pos = Some (ek, dk, K, c) -> slice dk' (768 * k P) (768 * k P + 32) = slice dk (768 * k P) (768 * k P + 32) ->
  exists K', ML_KEM_Decaps_internal P n dk' c' = Some K'.
Proof.
  intros P Hn X Es. destruct (exchange_parts _ _ _ _ _ _ _ _ Hn X) as [EK EE].
  assert (Lz : zlen (drawn rng (pos + 32) 32) = 32) by (apply zlen_drawn; lia).
  destruct (keygen_keys _ _ _ _ _ _ (bytes_drawn rng pos 32) (bytes_drawn rng (pos + 32) 32) Lz Hn EK) as (L1 & Be & L2 & Bdk & _ & HM & HH & dkp & E4 & L4 & _).
  destruct (sizes p) as (Hct & E1 & E2 & _ & _ & Hk). fold P in L1, L2, L4, EK, E1, E2, Hk.
  apply decaps_iff; [lia|].
  replace (dk_rho P dk') with (keygen_rho P (drawn rng pos 32)); [apply (keygen_iff P n _ (drawn rng (pos + 32) 32)); [lia|eauto]|].
  unfold P at 1. rewrite <- (keygen_rho_ek _ n _ _ _ _ (bytes_drawn rng pos 32) (bytes_drawn rng (pos + 32) 32) Lz Hn EK).
  fold P. unfold ek_rho, dk_rho. rewrite Es, E4. pose proof (zlen_nonneg (Spec203.H ek)). apply (zlist_ext 0).
  - rewrite !zlen_slice; rewrite ?zlen_app; lia.
  - rewrite zlen_slice by (rewrite ?zlen_app; lia). intros j Hj. rewrite !zget_slice by lia. rewrite zget_app by lia.
    replace (768 * k P + j <? zlen dkp) with false by lia. rewrite zget_app by lia.
    replace (768 * k P + j - zlen dkp <? zlen ek) with true by lia. f_equal. lia.
Qed.

Lemma tests_return p n rng pos bo limit e : let P := set_of p in 0 <= n ->
  let returns pos := ML_KEM_KeyGen_internal P n (drawn rng pos 32) (drawn rng (pos + 32) 32) <> None in
  (keys_verdict P n rng pos <> None <-> returns pos) /\ (invalid_pk_verdict P n rng pos <> None <-> returns pos) /\
  (invalid_sk_a_verdict P n rng pos <> None <-> returns pos) /\ (invalid_sk_b_verdict P n rng pos <> None <-> returns pos) /\
  (first_nonzero limit rng pos = Some e -> (invalid_ciphertext_verdict bo limit P n rng pos <> None <-> returns (e + 9))).
Proof.
  intros P Hn returns.
  assert (R : forall pos, exchange P n rng pos <> None <-> returns pos).
  { intros x. unfold returns, P. pose proof (exchange_returns p n rng x Hn). tauto. }
  rewrite <- !R. destruct (sizes p) as (Hct & E1 & E2 & _ & _ & Hk). fold P in Hct, E1, E2, Hk.
  assert (D : forall pos ek dk K c, exchange P n rng pos = Some (ek, dk, K, c) -> zlen dk = dk_size P).
  { intros x ek dk K c X. destruct (exchange_parts _ _ _ _ _ _ _ _ Hn X) as [EK _].
    assert (Lz : zlen (drawn rng (x + 32) 32) = 32) by (apply zlen_drawn; lia).
    apply (keygen_keys p n _ _ ek dk (bytes_drawn rng x 32) (bytes_drawn rng (x + 32) 32) Lz Hn EK). }
  unfold keys_verdict, invalid_pk_verdict, invalid_sk_a_verdict, invalid_sk_b_verdict, invalid_ciphertext_verdict.
  split; [|split; [|split; [|split]]].
  - destruct (exchange P n rng pos) as [[[[ek dk] K] c]|] eqn:X; [|tauto].
    destruct (decaps_returns p n rng pos _ _ _ _ dk c Hn X eq_refl) as (K' & EQ). fold P in EQ. rewrite EQ. split; discriminate.
  - destruct (exchange P n rng pos) as [[[[ek dk] K] c]|] eqn:X; [|tauto]. split; discriminate.
  - destruct (exchange P n rng pos) as [[[[ek dk] K] c]|] eqn:X; [|tauto].
    assert (Lr : zlen (drawn rng (pos + 96) 10) = 10) by (apply zlen_drawn; lia). pose proof (D _ _ _ _ _ X) as Ld.
    destruct (decaps_returns p n rng pos _ _ _ _ (patch dk 0 (drawn rng (pos + 96) 10)) c Hn X) as (K' & EQ).
    { fold P. apply slice_patch_after; lia. }
    fold P in EQ. rewrite EQ. split; discriminate.
  - destruct (exchange P n rng pos) as [[[[ek dk] K] c]|] eqn:X; [|tauto]. split; discriminate.
  - intros ->. cbv zeta. destruct (exchange P n rng (e + 9)) as [[[[ek dk] K] c]|] eqn:X; [|tauto].
    match goal with |- context [ML_KEM_Decaps_internal P n dk ?c'] => destruct (decaps_returns p n rng (e + 9) _ _ _ _ dk c' Hn X eq_refl) as (K' & EQ) end.
    fold P in EQ. rewrite EQ. split; discriminate.
Qed.

Lemma keys_test_passes St J m pos nz : let P := set_of (the_set St) in
  frame_ok P m (the_frame St) ->
  kem_noise P (3 + Z.of_nat (the_fuel St)) (drawn (the_rng St) pos 32) (drawn (the_rng St) (pos + 64) 32) = Some nz ->
  harmless_noise (drawn (the_rng St) (pos + 64) 32) nz ->
  exists m', val (test_keys St J m pos) = Ok (0, m', pos + 96) /\ byte_memory m' /\ (forall x, m' x = None <-> m x = None).
Proof.
  intros P F EN Hh. pose proof (keys_ok St J m pos F) as T. unfold P in EN.
  assert (Hn : 0 <= 3 + Z.of_nat (the_fuel St)) by lia. rewrite (keys_pass _ _ _ _ _ Hn EN Hh) in T. exact T.
Qed.
Lemma invalid_pk_passes St J m pos : let P := set_of (the_set St) in
  frame_ok P m (the_frame St) ->
  match invalid_pk_verdict P (3 + Z.of_nat (the_fuel St)) (the_rng St) pos with
  | Some (r, pos') => r = 0 /\ exists m', val (test_invalid_pk St J m pos) = Ok (r, m', pos') /\ byte_memory m' /\ (forall x, m' x = None <-> m x = None)
  | None => val (test_invalid_pk St J m pos) = NoFuel
  end.
Proof.
  intros P F. pose proof (invalid_pk_ok St J m pos F) as T. fold P in T. unfold tested in T. unfold invalid_pk_verdict in *.
  destruct (exchange _ _ _ _) as [[[[? ?] ?] ?]|]; [split; [reflexivity|exact T]|exact T].
Qed.
Lemma main_follows ntests St J m pos : let P := set_of (the_set St) in
  frame_ok P m (the_frame St) ->
  match main_verdict ntests (build_order (the_build St)) (the_fuel St) P (3 + Z.of_nat (the_fuel St)) (the_rng St) pos with
  | Some (r, pos') => exists m', val (test_main ntests St J m pos) = Ok (r, m', pos') /\ byte_memory m' /\ (forall x, m' x = None <-> m x = None)
  | None => val (test_main ntests St J m pos) = NoFuel
  end.
Proof. exact (main_ok St ntests J m pos). Qed.
