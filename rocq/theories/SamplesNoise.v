(** * A key exchange with small noise *)

From Coq Require Import ZArith List Bool Lia.
From Verif Require Import CSem ModelArith ModelKeccak ModelIndcpa ModelKem Spec202 Spec203 SpecLink SpecMem SpecApi SpecNoise
  CSemFacts ProofKeccakF ProofSponge ProofHash ProofHistory ProofMatrix ProofPke ProofMem ProofKem ProofKeys ProofApi ProofReturn ProofCorrect Samples SamplesKem.
Import ListNotations.
Open Scope Z_scope.
#[local] Existing Instance BigEndian.

(** The message of 256 ones encrypted under the key of the coins [sample_d] comes back. *)
Definition ones_msg : list Z := repeat 255 32.
Definition junk0 : junk := fun _ => 0.
Definition zero_bytes (n : Z) : list Z := repeat 0 (Z.to_nat n).
Definition same_list (a b : list Z) : bool := if list_eq_dec Z.eq_dec a b then true else false.
Definition when_ok {A} (o : outcome A) (f : A -> bool) : bool := match o with Ok x => f x | _ => false end.
Definition exchange_check : bool :=
  when_ok (val (indcpa_keypair_derand junk0 0 MLKEM512 (zero_bytes 800) (zero_bytes 768) sample_d)) (fun '(ek, dk) =>
  when_ok (val (sha3_256 junk0 (zero_bytes 32) ek 800)) (fun h =>
  when_ok (val (sha3_512 junk0 (zero_bytes 64) (ones_msg ++ h) 64)) (fun kr =>
  when_ok (val (indcpa_enc junk0 0 MLKEM512 (zero_bytes 768) ones_msg ek (slice kr 32 64))) (fun c =>
  when_ok (val (indcpa_dec junk0 MLKEM512 (zero_bytes 32) c dk)) (fun m => same_list m ones_msg))))).
Lemma exchange_checked : exchange_check = true.
Proof. vm_cast_no_check (eq_refl true). Qed.

Lemma when_ok_inv {A} (o : outcome A) f : when_ok o f = true -> exists x, o = Ok x /\ f x = true.
Proof. destruct o; [eauto|discriminate|discriminate]. Qed.
Lemma wpn_ok {A} N (c : M A) Q y : wpn N c Q -> val c = Ok y -> Q y.
Proof. unfold wpn. intros H E. now rewrite E in H. Qed.
Lemma zlen_zeros n : 0 <= n -> zlen (zero_bytes n) = n.
Proof. intros. unfold zlen, zero_bytes. rewrite repeat_length. lia. Qed.
Lemma ones_ok : zlen ones_msg = 32 /\ bytes ones_msg.
Proof. split; [reflexivity|]. apply Forall_forall. intros x Hx. apply repeat_spec in Hx as ->. unfold is_byte. lia. Qed.
Lemma ones_bit i : 0 <= i < 256 -> Z.testbit (at_ ones_msg (i / 8)) (i mod 8) = true.
Proof.
  intros Hi. pose proof (Z.mod_pos_bound i 8 ltac:(lia)) as Hm.
  assert (0 <= i / 8 < 32) by (split; [apply Z.div_pos; lia|apply Z.div_lt_upper_bound; lia]).
  unfold at_. replace (nth (Z.to_nat (i / 8)) ones_msg 0) with 255.
  - change 255 with (Z.ones 8). apply Z.ones_spec_low. lia.
  - symmetry. apply (repeat_spec 32 255). apply nth_In. unfold ones_msg. rewrite repeat_length. lia.
Qed.

Lemma sample_noise : exists nz, kem_noise ML_KEM_512 3 sample_d ones_msg = Some nz /\ small_noise nz.
Proof.
  destruct sample_bytes_d as [Bd Ld]. destruct ones_ok as [Lm Bm].
  pose proof exchange_checked as X. unfold exchange_check in X.
  apply when_ok_inv in X as ([ek dk] & E1 & X). apply when_ok_inv in X as (h & E2 & X).
  apply when_ok_inv in X as (kr & E3 & X). apply when_ok_inv in X as (c & E4 & X).
  apply when_ok_inv in X as (m & E5 & X).
  assert (Em : m = ones_msg) by (unfold same_list in X; destruct (list_eq_dec Z.eq_dec m ones_msg); [assumption|discriminate]).
  clear X. subst m.
  assert (KG : K_PKE_KeyGen ML_KEM_512 3 sample_d = Some (ek, dk)).
  { revert E1. apply (wpn_ok True _ (fun r => K_PKE_KeyGen ML_KEM_512 3 sample_d = Some r)).
    apply (wp_indcpa_keypair True junk0 0 MLKEM512); auto. }
  clear E1. destruct (keygen_out MLKEM512 3 sample_d ek dk Bd KG ltac:(lia)) as (Le & Be & Ldk & Bdk).
  change (set_of MLKEM512) with ML_KEM_512 in *. change (ek_size ML_KEM_512) with 800 in Le. change (384 * k ML_KEM_512) with 768 in Ldk.
  rewrite sha3_256_correct in E2; [|exact Be|lia|reflexivity|rewrite zlen_zeros; lia].
  change (skipn 32 (zero_bytes 32)) with (@nil Z) in E2. rewrite <- Le, slice_all, app_nil_r in E2. injection E2 as <-.
  assert (LH : zlen (SHA3_256 ek) = 32) by now apply zlen_SHA3_256.
  assert (BH : bytes (SHA3_256 ek)) by now apply bytes_SHA3_256.
  assert (LG : zlen (ones_msg ++ SHA3_256 ek) = 64) by (rewrite zlen_app; lia).
  assert (BG : bytes (ones_msg ++ SHA3_256 ek)) by (apply Forall_app; auto).
  rewrite sha3_512_correct in E3; [|exact BG|lia|reflexivity|rewrite zlen_zeros; lia].
  change (skipn 64 (zero_bytes 64)) with (@nil Z) in E3. rewrite <- LG, slice_all, app_nil_r in E3. injection E3 as <-.
  set (r := slice (SHA3_512 (ones_msg ++ SHA3_256 ek)) 32 64) in *.
  assert (LS : zlen (SHA3_512 (ones_msg ++ SHA3_256 ek)) = 64) by now apply zlen_SHA3_512.
  assert (Lr : zlen r = 32) by (unfold r; rewrite zlen_slice; lia).
  assert (Br : bytes r) by now apply bytes_slice', bytes_SHA3_512.
  assert (EC : K_PKE_Encrypt ML_KEM_512 3 ek ones_msg r = Some c).
  { revert E4. apply (wpn_ok True _ (fun x => K_PKE_Encrypt ML_KEM_512 3 ek ones_msg r = Some x)).
    apply (wp_indcpa_enc True junk0 0 MLKEM512); auto. }
  clear E4.
  assert (Lc : zlen c = 768 /\ bytes c).
  { destruct (encrypt_out MLKEM512 3 ek ones_msg r c) as [L B]; auto; lia. }
  assert (ED : K_PKE_Decrypt ML_KEM_512 dk c = ones_msg).
  { revert E5. apply (wpn_ok True _ (fun x => K_PKE_Decrypt ML_KEM_512 dk c = x)).
    apply (wp_indcpa_dec True junk0 MLKEM512); auto; apply Lc. }
  destruct (pke_correct_iff MLKEM512 3 sample_d ek dk ones_msg r c Bd ltac:(lia) Lm Bm KG EC) as (nz & EN & HD).
  change (set_of MLKEM512) with ML_KEM_512 in *. apply HD in ED.
  exists nz. split.
  - unfold kem_noise. rewrite KG. exact EN.
  - intros i Hi. specialize (ED i Hi). rewrite ones_bit in ED by exact Hi. destruct ED as [D1 [D2|[D2 _]]]; [exact (conj D1 D2)|discriminate D2].
Qed.

(** pk at 0, sk at 2000, coins at 6000, ct at 8000, ss at 10000, coins2 at 11000, ss2 at 12000 *)
Definition exchange_sample : memory := sample_memory [(6000, sample_d ++ sample_z); (11000, ones_msg)].
Lemma exchange_sample_ok :
  exchange_memory ML_KEM_512 exchange_sample 0 2000 6000 8000 10000 11000 12000 sample_d sample_z ones_msg.
Proof.
  destruct sample_bytes_d as [Bd Ld]. destruct sample_bytes_z as [Bz Lz]. destruct ones_ok as [Lm Bm].
  assert (L64 : zlen (sample_d ++ sample_z) = 64) by (rewrite zlen_app; lia).
  unfold exchange_memory, ek_size, dk_size, ct_size. change (k ML_KEM_512) with 2. change (du ML_KEM_512) with 10. change (dv ML_KEM_512) with 4.
  refine (conj _ (conj _ (conj _ (conj _ (conj _ (conj _ (conj _ (conj Ld (conj Lz (conj _ (conj Lm _))))))))))).
  - apply overwrite_bytes; [apply sample_base_bytes|]. constructor; [apply Forall_app; auto|]. constructor; [exact Bm|constructor].
  - apply sample_accessible; lia.
  - apply sample_accessible; lia.
  - apply sample_accessible; lia.
  - apply sample_accessible; lia.
  - apply sample_accessible; lia.
  - apply (stored_first sample_base _ _ _ [(11000, ones_msg)]). reflexivity.
  - apply (stored_second sample_base _ 6000 (sample_d ++ sample_z) _ _ []); [rewrite L64, Lm; unfold apart; cbn; lia|reflexivity].
  - unfold all_apart. repeat (constructor; [repeat constructor; unfold apart; cbn; lia|]). constructor.
Qed.
Lemma exchange_vacant a n : 20000 <= a -> vacant exchange_sample a n.
Proof.
  intros Ha x Hx. unfold exchange_sample, sample_memory. destruct sample_bytes_d as [Bd Ld]. destruct sample_bytes_z as [Bz Lz].
  assert (L64 : zlen (sample_d ++ sample_z) = 64) by (rewrite zlen_app; lia). destruct ones_ok as [Lm _].
  rewrite overwrite_outside.
  - unfold sample_base. replace (x <? 20000) with false by (symmetry; apply Z.ltb_ge; lia). now rewrite andb_false_r.
  - intros b l [E|[E|[]]]; injection E as <- <-; [rewrite L64|rewrite Lm]; lia.
Qed.
