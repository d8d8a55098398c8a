(** * The known-answer program with the generator of NIST *)

From Coq Require Import ZArith List Bool Lia.
From Verif Require Import CSem ModelArith ModelKeccak ModelKem ModelAes ModelDrbg ModelTests ModelKat
  Spec202 Spec203 SpecLink SpecMem SpecApi SpecMachine SpecBuilds SpecTests SpecAes SpecDrbg SpecKat
  CSemFacts ProofMem ProofKeys ProofApi ProofCorrect ProofMachine ProofTests ProofDrbg ProofKat.
Import ListNotations.
Open Scope Z_scope.
Ltac Zify.zify_post_hook ::= idtac.

Lemma generate_length st n : good st -> 0 <= n -> zlen (fst (drbg_generate st n)) = n.
Proof.
  destruct st as [key v]. intros [Lk Bk] Hn. unfold drbg_generate. cbv zeta. cbn [fst] in *.
  rewrite output_blocks_from. pose proof (Z.div_mod (n + 15) 16 ltac:(lia)). pose proof (Z.mod_pos_bound (n + 15) 16 ltac:(lia)).
  assert (0 <= (n + 15) / 16) by (apply Z.div_pos; lia).
  rewrite zlen_slice; [lia|lia|]. rewrite zlen_blocks by auto. lia.
Qed.
Lemma generate_bytes st n : good st -> bytes (fst (drbg_generate st n)).
Proof.
  destruct st as [key v]. intros [Lk Bk]. unfold drbg_generate. cbv zeta. cbn [fst] in *.
  rewrite output_blocks_from. apply slice_bytes. now apply blocks_bytes.
Qed.
#[local] Opaque drbg_generate drbg_instantiate.

Lemma is_ctx_st st : good st -> is_ctx (ctx_st st).
Proof. intros [L _]. split; [exact L|apply zlen_block]. Qed.

(** The state before request number [i] for 48 bytes *)
Definition before (i : nat) (st : drbg) : drbg := Nat.iter i (fun st => snd (drbg_generate st 48)) st.
Lemma before_S i st : before (S i) st = snd (drbg_generate (before i st) 48).
Proof. reflexivity. Qed.
Lemma before_step i st : before i (snd (drbg_generate st 48)) = before (S i) st.
Proof. induction i as [|i IH]; [reflexivity|]. rewrite before_S, IH. reflexivity. Qed.
Lemma request_nth i : forall st, nth i (drbg_requests st (repeat 48 (S i))) [] = fst (drbg_generate (before i st) 48).
Proof.
  induction i as [|i IH]; intros st.
  - cbn [repeat drbg_requests]. destruct (drbg_generate st 48) eqn:E. cbn [nth before Nat.iter]. change (before 0 st) with st. now rewrite E.
  - change (repeat 48 (S (S i))) with (48 :: repeat 48 (S i)). cbn [drbg_requests].
    rewrite <- before_step. destruct (drbg_generate st 48) as [out st']. cbn [fst snd nth]. apply IH.
Qed.
Lemma nist_seed_eq count : nist_seed count = fst (drbg_generate (before (Z.to_nat count) (drbg_of (range 48))) 48).
Proof. unfold nist_seed. apply request_nth. Qed.

Lemma wp_nth J ctx seed count : is_ctx ctx -> zlen seed = 48 -> 0 <= count < 2 ^ 31 ->
  wp (randombytes_nth J ctx seed (u64 count) 48) (fun '(ctx, seed) =>
    is_ctx ctx /\ seed = nist_seed count /\ zlen seed = 48 /\ bytes seed).
Proof.
  intros Hc Ls Hn. change (2 ^ 31) with 2147483648 in Hn. unfold randombytes_nth.
  assert (U : forall x, 0 <= x <= 2147483648 -> u64 x = x) by (intros; unfold u64; apply Z.mod_small; lia).
  rewrite (U count) by lia. rewrite (U (count + 1)) by lia.
  match goal with |- context [nist_kat_init _ ?l _ _] => change l with (range 48) end.
  apply wp_bind. eapply wp_mono; [apply (wp_init _ _ _ (repeat 0 48) ctx Hc); auto|].
  - apply Forall_forall. intros x Hx. apply in_range in Hx. unfold is_byte. lia.
  - apply bytes_zeros.
  - intros c [-> Hg]. fold (drbg_of (range 48)) in *. set (st := drbg_of (range 48)) in *.
    apply (wp_for _ (fun i '(ctx, s) => exists st', st' = before (Z.to_nat i) st /\ ctx = ctx_st st' /\ good st' /\ zlen s = 48 /\ bytes (if i =? 0 then [] else s) /\
       (0 < i -> s = fst (drbg_generate (before (Z.to_nat (i - 1)) st) 48)))).
    + lia.
    + exists st. split; [reflexivity|]. split; [reflexivity|]. split; [exact Hg|]. split; [exact Ls|]. split; [constructor|lia].
    + intros i [c s] Hi (st' & E & -> & Hg' & L' & _).
      eapply wp_mono; [apply (wp_randombytes _ st' s 48 Hg'); lia|].
      intros [c' s'] (-> & Hg2 & ->).
      assert (E0 : slice s 48 (zlen s) = []) by (rewrite L'; reflexivity). rewrite E0, app_nil_r.
      exists (snd (drbg_generate st' 48)). split; [|split; [reflexivity|split; [exact Hg2|split; [|split]]]].
      * replace (Z.to_nat (i + 1)) with (S (Z.to_nat i)) by lia. rewrite before_S, <- E. reflexivity.
      * apply generate_length; [exact Hg'|lia].
      * destruct (i + 1 =? 0); [constructor|]. now apply generate_bytes.
      * intros _. replace (i + 1 - 1) with i by lia. now rewrite <- E.
    + intros [c s] (st' & E & -> & Hg' & L' & B' & Es). split; [now apply is_ctx_st|].
      split; [|split; [exact L'|]].
      * rewrite nist_seed_eq. rewrite (Es ltac:(lia)). replace (count + 1 - 1) with count by lia. reflexivity.
      * destruct (Z.eqb_spec (count + 1) 0); [lia|exact B'].
Qed.

Lemma drawn_slice l pos len : bytes l -> 0 <= pos -> 0 <= len -> pos + len <= zlen l ->
  drawn (fun i => nth (Z.to_nat i) l 0) pos len = slice l pos (pos + len).
Proof.
  intros B Hp Hl Hb. apply (zlist_ext 0); [rewrite zlen_drawn, zlen_slice; lia|]. rewrite zlen_drawn by lia. intros i Hi.
  rewrite zget_slice by lia. unfold drawn. rewrite zget_map_range by lia. fold (zget 0 l (pos + i)).
  apply Z.mod_small. apply (Forall_zget is_byte); [exact B|lia].
Qed.
Lemma requests_2 st a b : drbg_requests st [a; b] =
  [fst (drbg_generate st a); fst (drbg_generate (snd (drbg_generate st a)) b)].
Proof. cbn [drbg_requests]. destruct (drbg_generate st a) as [x st1]. cbn [fst snd]. destruct (drbg_generate st1 b) as [y st2]. reflexivity. Qed.

Lemma wp_library J st : good st ->
  wp (library_requests J (ctx_st st)) (fun '(ctx, rng) => is_ctx ctx /\
    let dz := nth 0 (drbg_requests st [64; 32]) [] in
    drawn rng 0 32 = slice dz 0 32 /\ drawn rng (0 + 32) 32 = slice dz 32 64 /\ drawn rng (0 + 64) 32 = nth 1 (drbg_requests st [64; 32]) []).
Proof.
  intros Hg. unfold library_requests. rewrite requests_2. cbn [nth].
  assert (L1 : zlen (uninit J 2 64) = 64) by (apply zlen_uninit; lia).
  assert (L2 : zlen (uninit J 3 32) = 32) by (apply zlen_uninit; lia).
  assert (E : forall l : list Z, slice l (zlen l) (zlen l) = []).
  { intros l. unfold slice. rewrite Z.sub_diag. reflexivity. }
  apply wp_bind. eapply wp_mono; [apply (wp_randombytes _ st (uninit J 2 64) 64 Hg); lia|].
  intros [c b1] (-> & Hg1 & ->). set (st1 := snd (drbg_generate st 64)) in *.
  pose proof (generate_length st 64 Hg ltac:(lia)) as La. pose proof (generate_bytes st 64 Hg) as Ba.
  set (a := fst (drbg_generate st 64)) in *.
  apply wp_bind. eapply wp_mono; [apply (wp_randombytes _ st1 (uninit J 3 32) 32 Hg1); lia|].
  intros [c b2] (-> & Hg2 & ->).
  pose proof (generate_length st1 32 Hg1 ltac:(lia)) as Lb. pose proof (generate_bytes st1 32 Hg1) as Bb.
  set (b := fst (drbg_generate st1 32)) in *. set (st2 := snd (drbg_generate st1 32)) in *.
  replace (slice (uninit J 2 64) 64 (zlen (uninit J 2 64))) with (@nil Z) by (rewrite <- L1 at 2; now rewrite E).
  replace (slice (uninit J 3 32) 32 (zlen (uninit J 3 32))) with (@nil Z) by (rewrite <- L2 at 2; now rewrite E).
  rewrite !app_nil_r. clearbody a b st2. apply wp_ret. split; [now apply is_ctx_st|]. cbv zeta.
  assert (Bab : bytes (a ++ b)) by (apply Forall_app; auto).
  assert (Lab : zlen (a ++ b) = 96) by (rewrite zlen_app; lia).
  rewrite !drawn_slice by (auto; lia).
  assert (X : forall x y, 0 <= x <= y -> y <= 64 -> slice (a ++ b) x y = slice a x y).
  { intros x y Hx Hy. apply (zlist_ext 0); [rewrite !zlen_slice; lia|]. rewrite zlen_slice by lia. intros i Hi.
    rewrite !zget_slice by lia. rewrite zget_app by lia. destruct (Z.ltb_spec (x + i) (zlen a)); [reflexivity|lia]. }
  split; [apply X; lia|]. split; [apply X; lia|].
  apply (zlist_ext 0); [rewrite !zlen_slice; lia|]. rewrite zlen_slice by lia. intros i Hi.
  rewrite !zget_slice by lia. rewrite zget_app by lia. destruct (Z.ltb_spec (0 + 64 + i) (zlen a)); [lia|].
  f_equal. lia.
Qed.

Lemma gen_nistkat_rounds_ok T rounds : forall J ctx seed m count,
  let P := set_of (kat_set T) in
  is_ctx ctx -> zlen seed = 48 -> 0 <= count -> count + Z.of_nat rounds < 2 ^ 31 -> frame_ok P m (kat_frame T) ->
  printed (val (gen_nistkat_rounds rounds T J ctx count seed m)) (nistkat_output rounds P (3 + Z.of_nat (kat_fuel T)) count).
Proof.
  induction rounds as [|rounds IH]; intros J ctx seed m count P Hc Ls Hn Hb F; [reflexivity|].
  cbn [gen_nistkat_rounds nistkat_output]. set (n := 3 + Z.of_nat (kat_fuel T)). set (f := kat_frame T) in *.
  destruct (wp_ex _ _ (wp_nth (sub J 0) ctx seed count Hc Ls ltac:(lia))) as ([ctx1 sd] & R0 & Hc1 & Es & Ls1 & Bs).
  rewrite (val_ok _ _ _ R0). cbv beta iota. clear R0 Hc Ls ctx seed.
  destruct (wp_ex _ _ (wp_init (sub J 1) sd None (repeat 0 48) ctx1 Hc1 Ls1 Bs eq_refl (bytes_zeros 48) (or_intror (conj eq_refl eq_refl))))
    as (ctx2 & R1 & -> & Hg). rewrite (val_ok _ _ _ R1). cbv beta. clear R1 Hc1 ctx1.
  fold (drbg_of sd) in *.
  destruct (wp_ex _ _ (wp_library (sub J 2) (drbg_of sd) Hg)) as ([ctx3 rng] & R2 & Hc3 & Ed).
  rewrite (val_ok _ _ _ R2). cbv beta iota. clear R2.
  unfold nist_request. rewrite <- Es. cbv zeta in Ed |- *. destruct Ed as (E1 & E2 & E3). rewrite <- E1, <- E2, <- E3. clear E1 E2 E3 Hg.
  set (St := with_rng T rng).
  pose proof (begin St (sub J 3) (sub J 4) m 0 F) as H. unfold exchange in H.
  change (set_of (the_set St)) with P in H. change (the_frame St) with f in H. change (3 + Z.of_nat (the_fuel St)) with n in H.
  change (the_rng St) with rng in H. unfold answer.
  pose proof (frame_apart _ _ _ F) as (Ap1 & Ap2 & Ap3 & Ap4 & Ap5 & Ap6 & Ap7 & Ap8 & Ap9 & Ap10).
  pose proof (keypair_step St (sub J 3) m 0 F) as K1.
  change (set_of (the_set St)) with P in K1. change (the_frame St) with f in K1. change (3 + Z.of_nat (the_fuel St)) with n in K1.
  change (the_rng St) with rng in K1.
  destruct (ML_KEM_KeyGen_internal P n (drawn rng 0 32) (drawn rng (0 + 32) 32)) as [[ek dk]|] eqn:EK; [|apply val_nofuel; exact H].
  destruct K1 as (m1 & R1 & B1 & D1 & C1 & C2 & L1 & L2 & Be & Bdk & HM & HH & _).
  rewrite (val_ok _ _ _ R1). cbv beta iota. rewrite val_branch. cbn [negb Z.eqb].
  destruct (sizes (kat_set T)) as (_ & _ & _ & Esk & Ect & _). fold P in Esk, Ect.
  rewrite (val_ok _ _ _ (val_mload m1 (pk_at f) ek _ C1 ltac:(rewrite L1; symmetry; apply pk_bytes))).
  rewrite (val_ok _ _ _ (val_mload m1 (sk_at f) dk _ C2 ltac:(rewrite L2; symmetry; exact Esk))).
  assert (F1 : frame_ok P m1 f) by exact (frame_kept _ _ _ _ F B1 D1).
  destruct (enc_step St (sub J 4) m1 (0 + 64) ek F1 C1 L1 Be) as (H2 & _). specialize (H2 HM).
  change (set_of (the_set St)) with P in H2. change (the_frame St) with f in H2. change (3 + Z.of_nat (the_fuel St)) with n in H2.
  change (the_rng St) with rng in H2.
  destruct (ML_KEM_Encaps_internal P n ek (drawn rng (0 + 64) 32)) as [[K c]|]; [|apply val_nofuel; exact H2]. clear H.
  destruct H2 as (m2 & R2 & B2 & D2 & C4 & C5 & L3 & L4 & Bc & BK & Kept). rewrite (val_ok _ _ _ R2). cbv beta iota.
  rewrite val_branch. cbn [negb Z.eqb].
  rewrite (val_ok _ _ _ (val_mload m2 (ct_at f) c _ C4 ltac:(rewrite L3; symmetry; exact Ect))).
  rewrite (val_ok _ _ _ (val_mload m2 (key_b_at f) K _ C5 L4)).
  assert (C2' : contains m2 (sk_at f) dk) by (apply Kept; [rewrite L2; now apply apart_sym|rewrite L2; now apply apart_sym|exact C2]).
  assert (F2 : frame_ok P m2 f) by exact (frame_kept _ _ _ _ F1 B2 D2).
  destruct (dec_step St (sub J 5) m2 (0 + 64 + 32) dk c F2 C2' L2 Bdk C4 L3 Bc) as (H3 & _). specialize (H3 HH).
  change (set_of (the_set St)) with P in H3. change (the_frame St) with f in H3. change (3 + Z.of_nat (the_fuel St)) with n in H3.
  destruct (ML_KEM_Decaps_internal P n dk c) as [K'|]; [|apply val_nofuel; exact H3].
  destruct H3 as (m3 & R3 & B3 & D3 & Ca & La & Kept3). rewrite (val_ok _ _ _ R3). cbv beta iota.
  rewrite val_branch. cbn [negb Z.eqb].
  assert (Cb : contains m3 (key_b_at f) K) by (apply Kept3; [rewrite L4; exact Ap10|exact C5]).
  rewrite (val_ok _ _ _ (val_mload m3 (key_b_at f) K _ Cb L4)). rewrite (val_ok _ _ _ (val_mload m3 (key_a_at f) K' _ Ca La)).
  rewrite (val_ok _ _ _ (val_memcmp K K')). cbv beta. rewrite val_branch.
  destruct (same K K'); cbn [negb Z.eqb]; [|reflexivity].
  assert (F3 : frame_ok P m3 f) by exact (frame_kept _ _ _ _ F2 B3 D3).
  assert (Ei : val (i32 (count + 1)) = Ok (count + 1)) by (apply wp_val, wp_i32; [lia|reflexivity]).
  rewrite (val_ok _ _ _ Ei).
  pose proof (IH (sub J 6) ctx3 sd m3 (count + 1) Hc3 Ls1 ltac:(lia) ltac:(lia) F3) as H4. fold P n in H4.
  destruct (nistkat_output rounds P n (count + 1)) as [[rc rest]|]; cbn [printed] in H4 |- *.
  - rewrite (val_ok _ _ _ H4). reflexivity.
  - apply val_nofuel; exact H4.
Qed.

Definition titled (p : pset) (v : option (Z * list line)) : option (Z * list line) :=
  match v with Some (r, out) => Some (r, Algorithm p :: out) | None => None end.
Lemma gen_nistkat_ok rounds T J m : let P := set_of (kat_set T) in
  Z.of_nat rounds < 2 ^ 31 -> frame_ok P m (kat_frame T) ->
  printed (val (gen_nistkat rounds T J m)) (titled (kat_set T) (nistkat_output rounds P (3 + Z.of_nat (kat_fuel T)) 0)).
Proof.
  intros P Hr F. unfold gen_nistkat.
  assert (H := gen_nistkat_rounds_ok T rounds (sub J 0) ctx_start (uninit J 1 48) m 0 ltac:(split; reflexivity)
    ltac:(apply zlen_uninit; lia) ltac:(lia) Hr F). fold P in H.
  destruct (nistkat_output rounds P (3 + Z.of_nat (kat_fuel T)) 0) as [[r out]|]; cbn [printed titled] in *.
  - rewrite (val_ok _ _ _ H). reflexivity.
  - apply val_nofuel; exact H.
Qed.

(** ** The statements *)

Lemma gen_kat_follows rounds T coins J m : let P := set_of (kat_set T) in
  frame_ok P m (kat_frame T) -> coins_ok P m (kat_frame T) coins ->
  match kat_output rounds P (3 + Z.of_nat (kat_fuel T)) 0 with
  | Some (r, out) => val (gen_kat rounds T coins J m) = Ok (r, out)
  | None => val (gen_kat rounds T coins J m) = NoFuel
  end.
Proof.
  intros P F Fc. pose proof (gen_kat_ok rounds T coins J m F Fc) as H. fold P in H.
  destruct (kat_output rounds P (3 + Z.of_nat (kat_fuel T)) 0) as [[r out]|]; exact H.
Qed.
Lemma gen_nistkat_follows rounds T J m : let P := set_of (kat_set T) in
  Z.of_nat rounds < 2 ^ 31 -> frame_ok P m (kat_frame T) ->
  match nistkat_output rounds P (3 + Z.of_nat (kat_fuel T)) 0 with
  | Some (r, out) => val (gen_nistkat rounds T J m) = Ok (r, Algorithm (kat_set T) :: out)
  | None => val (gen_nistkat rounds T J m) = NoFuel
  end.
Proof.
  intros P Hr F. pose proof (gen_nistkat_ok rounds T J m Hr F) as H. fold P in H.
  destruct (nistkat_output rounds P (3 + Z.of_nat (kat_fuel T)) 0) as [[r out]|]; exact H.
Qed.
Lemma printed_same o o' v : printed o v -> printed o' v -> o = o'.
Proof. destruct v; cbn; congruence. Qed.
Lemma kat_same rounds T T' coins coins' J J' m m' :
  kat_set T = kat_set T' -> kat_fuel T = kat_fuel T' ->
  frame_ok (set_of (kat_set T)) m (kat_frame T) -> coins_ok (set_of (kat_set T)) m (kat_frame T) coins ->
  frame_ok (set_of (kat_set T)) m' (kat_frame T') -> coins_ok (set_of (kat_set T)) m' (kat_frame T') coins' ->
  val (gen_kat rounds T coins J m) = val (gen_kat rounds T' coins' J' m') /\
  (Z.of_nat rounds < 2 ^ 31 -> val (gen_nistkat rounds T J m) = val (gen_nistkat rounds T' J' m')).
Proof.
  intros Ep Ef F C F' C'. split.
  - apply (printed_same _ _ _ (gen_kat_ok rounds T coins J m F C)). rewrite Ep, Ef in *. now apply gen_kat_ok.
  - intros Hr. apply (printed_same _ _ _ (gen_nistkat_ok rounds T J m Hr F)). rewrite Ep, Ef in *. now apply gen_nistkat_ok.
Qed.
