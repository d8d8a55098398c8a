(** * Concrete calls of the API functions, to show that hypotheses can be met *)

From Coq Require Import ZArith List Bool Lia.
From Verif Require Import CSem ModelArith ModelKeccak ModelIndcpa ModelKem Spec202 Spec203 SpecLink SpecMem SpecApi
  CSemFacts ProofScalar ProofSponge ProofHash ProofHistory ProofMatrix ProofNoise ProofPke ProofMem ProofKem ProofKeys ProofApi ProofReturn Samples.
Import ListNotations.
Open Scope Z_scope.
#[local] Existing Instance BigEndian.
Ltac Zify.zify_post_hook ::= idtac.

(** Twenty thousand bytes of memory from address 0 on, with given contents *)
Definition sample_base : memory := fun x => if (0 <=? x) && (x <? 20000) then Some (x mod 256) else None.
Definition sample_memory (contents : list (Z * list Z)) : memory := overwrite sample_base contents.

Lemma sample_base_bytes : byte_memory sample_base.
Proof. intros x v. unfold sample_base. destruct (_ && _); [|discriminate]. intros [= <-]. apply Z.mod_pos_bound. lia. Qed.
Lemma overwrite_bytes m outs : byte_memory m -> Forall (fun o => bytes (snd o)) outs -> byte_memory (overwrite m outs).
Proof.
  intros Bm. induction 1 as [|[a l] outs Hl Hr IH]; [exact Bm|]. intros x v. cbn [overwrite snd] in *.
  destruct ((a <=? x) && (x <? a + zlen l)) eqn:E; [|apply IH]. intros [= <-].
  unfold bytes in Hl. rewrite Forall_forall in Hl. apply Hl. apply nth_In. unfold zlen in E. lia.
Qed.
Lemma sample_accessible contents a n : 0 <= a -> a + n <= 20000 -> accessible (sample_memory contents) a n.
Proof.
  intros Ha Hn x Hx. unfold sample_memory. induction contents as [|[b l] c IH]; cbn [overwrite].
  - unfold sample_base. replace ((0 <=? x) && (x <? 20000)) with true; [discriminate|].
    symmetry. apply andb_true_intro. lia.
  - destruct (_ && _); [discriminate|exact IH].
Qed.
Lemma sample_vacant a n : 20000 <= a -> vacant (sample_memory []) a n.
Proof.
  intros Ha x Hx. unfold sample_memory. cbn [overwrite]. unfold sample_base.
  replace (x <? 20000) with false by (symmetry; apply Z.ltb_ge; lia). now rewrite andb_false_r.
Qed.

(** The coins of the sample key generation *)
Definition sample_d : list Z := sample_bytes 1 32.
Definition sample_z : list Z := sample_bytes 2 32.

(** The sample seed: three blocks suffice for all four matrix entries. *)
Definition sample_check : bool :=
  match val (sha3_512 (fun _ => 0) (repeat 0 64) (sample_d ++ [2]) 33) with
  | Ok r =>
      match val (gen_matrix (fun _ => 0) 0 MLKEM512 (repeat (repeat 0 256) 4) (slice r 0 32) false) with
      | Ok _ => true
      | _ => false
      end
  | _ => false
  end.
Lemma sample_checked : sample_check = true.
Proof. vm_cast_no_check (eq_refl true). Qed.

Lemma sample_bytes_d : bytes sample_d /\ zlen sample_d = 32.
Proof. split; apply sample_bytes_ok; lia. Qed.
Lemma sample_bytes_z : bytes sample_z /\ zlen sample_z = 32.
Proof. split; apply sample_bytes_ok; lia. Qed.
Definition sample_seed : list Z := keygen_rho ML_KEM_512 sample_d.
Lemma sample_seed_ok : zlen sample_seed = 32 /\ bytes sample_seed.
Proof.
  assert (B : bytes (sample_d ++ [2])) by (apply Forall_app; split; [apply sample_bytes_d|repeat constructor; lia]).
  unfold sample_seed, keygen_rho, G. cbn [fst]. change (k ML_KEM_512) with 2. split.
  - rewrite zlen_slice; rewrite ?zlen_SHA3_512 by auto; lia.
  - now apply bytes_slice', bytes_SHA3_512.
Qed.

Lemma sample_suffices b : 3 <= b -> blocks_suffice ML_KEM_512 sample_seed b.
Proof.
  intros Hb. apply (suffice_mono ML_KEM_512 sample_seed 3); [apply sample_seed_ok|cbn; lia|lia|].
  apply ExpandA_iff; [cbn; lia|].
  pose proof sample_checked as H. unfold sample_check in H.
  assert (B : bytes (sample_d ++ [2])) by (apply Forall_app; split; [apply sample_bytes_d|repeat constructor; lia]).
  assert (L : zlen (sample_d ++ [2]) = 33) by (rewrite zlen_app; destruct sample_bytes_d as [_ ->]; reflexivity).
  rewrite sha3_512_correct in H; [|exact B|lia|reflexivity|vm_compute; discriminate].
  rewrite <- L, slice_all in H.
  replace (slice (SHA3_512 (sample_d ++ [2]) ++ skipn 64 (repeat 0 64)) 0 32) with sample_seed in H.
  2: { rewrite slice_app_prefix by (rewrite ?zlen_SHA3_512 by auto; lia). reflexivity. }
  rewrite (gen_matrix_correct (fun _ => 0) 0 MLKEM512) in H; try apply sample_seed_ok.
  - change (set_of MLKEM512) with ML_KEM_512 in H. change (3 + Z.of_nat 0) with 3 in H.
    destruct (ExpandA ML_KEM_512 3 sample_seed) as [A|]; [eauto|discriminate].
  - reflexivity.
  - repeat constructor.
Qed.

(** A key generation call: pk at 0, sk at 2000, coins at 6000 *)
Definition keypair_memory : memory := sample_memory [(6000, sample_d ++ sample_z)].
Lemma sample_keypair_call : keypair_call ML_KEM_512 keypair_memory 0 2000 6000 sample_d sample_z.
Proof.
  destruct sample_bytes_d as [Bd Ld]. destruct sample_bytes_z as [Bz Lz].
  unfold keypair_call, ek_size, dk_size. change (k ML_KEM_512) with 2.
  split; [|split; [|split; [|split; [|split; [exact Ld|split; [exact Lz|]]]]]].
  - apply overwrite_bytes; [apply sample_base_bytes|]. constructor; [|constructor]. apply Forall_app; auto.
  - apply sample_accessible; lia.
  - apply sample_accessible; lia.
  - apply (stored_first sample_base _ _ _ []). reflexivity.
  - apply apart3; unfold apart; cbn; lia.
Qed.

(** An encapsulation call: ct at 0, ss at 2000, pk at 4000, coins at 6000 *)
Definition sample_ek : list Z := repeat 0 768 ++ sample_seed.
Definition sample_msg : list Z := sample_bytes 3 32.
Definition enc_memory (ek : list Z) : memory := sample_memory [(4000, ek); (6000, sample_msg)].
Lemma zeros n : bytes (repeat 0 n).
Proof. apply Forall_forall. intros x Hx. apply repeat_spec in Hx as ->. unfold is_byte. lia. Qed.
Lemma sample_ek_ok : zlen sample_ek = ek_size ML_KEM_512 /\ bytes sample_ek.
Proof.
  destruct sample_seed_ok as [L B]. split.
  - unfold sample_ek. rewrite zlen_app, L. reflexivity.
  - apply Forall_app. split; [apply zeros|exact B].
Qed.
Lemma sample_ek_rho : ek_rho ML_KEM_512 sample_ek = sample_seed.
Proof.
  unfold ek_rho, sample_ek. change (384 * k ML_KEM_512) with (zlen (repeat 0 768)).
  apply slice_app_r; [reflexivity|]. destruct sample_seed_ok as [-> _]. reflexivity.
Qed.
Lemma candidates_zeros m : forall x, In x (candidates (repeat 0 (3 * m))) -> x = 0.
Proof.
  induction m as [|m IH]; intros x Hx; [destruct Hx|].
  replace (3 * S m)%nat with (S (S (S (3 * m)))) in Hx by lia. cbn [repeat candidates] in Hx.
  destruct Hx as [<-|[<-|Hx]]; [reflexivity|reflexivity|auto].
Qed.
Lemma sample_ek_check : modulus_check ML_KEM_512 sample_ek.
Proof.
  destruct sample_ek_ok as [L B]. apply (modulus_check_iff MLKEM512); auto.
  change (set_of MLKEM512) with ML_KEM_512. unfold sample_ek.
  change (384 * k ML_KEM_512) with (zlen (repeat 0 768)). rewrite slice_app_l by reflexivity.
  apply Forall_forall. intros x Hx. apply (candidates_zeros 256) in Hx as ->. reflexivity.
Qed.
Definition enc_memory_of (ek msg : list Z) : memory := sample_memory [(4000, ek); (6000, msg)].
Lemma enc_call_of ek msg : zlen ek = ek_size ML_KEM_512 -> bytes ek -> zlen msg = 32 -> bytes msg ->
  enc_call ML_KEM_512 (enc_memory_of ek msg) 0 2000 4000 6000 ek msg.
Proof.
  intros L B Lm Bm.
  unfold enc_call. rewrite <- L. unfold ct_size. cbn [k du dv ML_KEM_512].
  assert (L8 : zlen ek = 800) by (rewrite L; reflexivity).
  split; [|split; [|split; [|split; [|split; [reflexivity|split; [|split; [exact Lm|]]]]]]].
  - apply overwrite_bytes; [apply sample_base_bytes|]. constructor; [exact B|]. constructor; [exact Bm|constructor].
  - apply sample_accessible; lia.
  - apply sample_accessible; lia.
  - apply (stored_first sample_base _ _ _ [(6000, msg)]). reflexivity.
  - apply (stored_second sample_base _ 4000 ek _ _ []); [|reflexivity]. unfold apart. cbn [fst snd]. lia.
  - apply apart4; unfold apart; cbn [fst snd]; lia.
Qed.
Lemma sample_enc_call ek : zlen ek = ek_size ML_KEM_512 -> bytes ek ->
  enc_call ML_KEM_512 (enc_memory ek) 0 2000 4000 6000 ek sample_msg.
Proof. intros L B. apply enc_call_of; auto; apply sample_bytes_ok; lia. Qed.
Lemma other_msg : zlen (repeat 255 32) = 32 /\ bytes (repeat 255 32).
Proof. split; [reflexivity|]. apply Forall_forall. intros x Hx. apply repeat_spec in Hx. unfold is_byte. lia. Qed.

(** An encapsulation key with a value of q or more *)
Definition bad_ek : list Z := [255; 255] ++ repeat 0 798.
Lemma bad_ek_ok : zlen bad_ek = ek_size ML_KEM_512 /\ bytes bad_ek.
Proof. split; [reflexivity|]. constructor; [split; [discriminate|reflexivity]|]. constructor; [split; [discriminate|reflexivity]|]. apply zeros. Qed.
Lemma bad_ek_value : Exists (fun v => q <= v) (candidates (slice bad_ek 0 (384 * k ML_KEM_512))).
Proof. constructor. vm_compute. discriminate. Qed.

(** A decapsulation call: ss at 0, ct at 2000, sk at 6000 *)
Definition sample_ct : list Z := sample_bytes 5 768.
Definition sample_dk : list Z := repeat 1 768 ++ sample_ek ++ Spec203.H sample_ek ++ sample_z.
Definition dec_memory (dk : list Z) : memory := sample_memory [(2000, sample_ct); (6000, dk)].
Lemma sample_hash_ok : zlen (Spec203.H sample_ek) = 32 /\ bytes (Spec203.H sample_ek).
Proof. split; [apply zlen_SHA3_256|apply bytes_SHA3_256]; apply sample_ek_ok. Qed.
Lemma ones n : bytes (repeat 1 n).
Proof. apply Forall_forall. intros x Hx. apply repeat_spec in Hx as ->. unfold is_byte. lia. Qed.
Lemma sample_dk_ok : zlen sample_dk = dk_size ML_KEM_512 /\ bytes sample_dk.
Proof.
  destruct sample_ek_ok as [L1 B1]. destruct sample_hash_ok as [L2 B2]. destruct sample_bytes_z as [B3 L3]. unfold sample_dk. split.
  - rewrite !zlen_app, L1, L2, L3. reflexivity.
  - apply Forall_app; split; [apply ones|]. apply Forall_app; split; [exact B1|]. apply Forall_app; split; [exact B2|exact B3].
Qed.
Lemma sample_dk_parts :
  slice sample_dk (384 * k ML_KEM_512) (768 * k ML_KEM_512 + 32) = sample_ek /\
  slice sample_dk (768 * k ML_KEM_512 + 32) (768 * k ML_KEM_512 + 64) = Spec203.H sample_ek.
Proof.
  destruct sample_ek_ok as [L1 B1]. destruct sample_hash_ok as [L2 B2]. destruct sample_bytes_z as [B3 L3].
  destruct (dk_parts ML_KEM_512 (repeat 1 768) sample_ek (Spec203.H sample_ek) sample_z) as (_ & D2 & D3 & _); auto.
  cbn. lia.
Qed.
Lemma sample_dk_check : hash_check ML_KEM_512 sample_dk.
Proof. unfold hash_check. destruct sample_dk_parts as [D2 D3]. rewrite D2, D3. reflexivity. Qed.
Lemma sample_dk_rho : dk_rho ML_KEM_512 sample_dk = sample_seed.
Proof.
  rewrite <- sample_ek_rho. unfold ek_rho, dk_rho. destruct sample_dk_parts as [D _]. rewrite <- D at 1.
  assert (E : k ML_KEM_512 = 2) by reflexivity. rewrite slice_slice by lia. f_equal; lia.
Qed.
Lemma sample_dec_call dk : zlen dk = dk_size ML_KEM_512 -> bytes dk ->
  dec_call ML_KEM_512 (dec_memory dk) 0 2000 6000 dk sample_ct.
Proof.
  intros L B. assert (Lc : zlen sample_ct = 768) by (apply sample_bytes_ok; lia).
  assert (Bc : bytes sample_ct) by (apply sample_bytes_ok; lia).
  assert (L8 : zlen dk = 1632) by (rewrite L; reflexivity).
  unfold dec_call. rewrite <- L. change (ct_size ML_KEM_512) with 768.
  split; [|split; [|split; [|split; [reflexivity|split; [|split; [exact Lc|]]]]]].
  - apply overwrite_bytes; [apply sample_base_bytes|]. constructor; [exact Bc|]. constructor; [exact B|constructor].
  - apply sample_accessible; lia.
  - apply (stored_second sample_base _ 2000 sample_ct _ _ []); [|reflexivity]. unfold apart. cbn [fst snd]. lia.
  - apply (stored_first sample_base _ _ _ [(6000, dk)]). reflexivity.
  - apply apart3; unfold apart; cbn [fst snd]; lia.
Qed.

(** A secret key whose stored hash is wrong *)
Definition bad_dk : list Z := repeat 1 768 ++ sample_ek ++ map (fun x => 255 - x) (Spec203.H sample_ek) ++ sample_z.
Lemma flipped l : 0 < zlen l -> l <> map (fun x => 255 - x) l.
Proof.
  intros L E. destruct l as [|x l]; [discriminate|]. apply (f_equal (hd 0)) in E. cbn [hd map] in E.
  assert (H : Z.odd (x + x) = Z.odd 255) by (f_equal; lia). rewrite Z.odd_add, xorb_nilpotent in H. discriminate.
Qed.
Lemma bad_dk_ok : zlen bad_dk = dk_size ML_KEM_512 /\ bytes bad_dk /\ ~ hash_check ML_KEM_512 bad_dk.
Proof.
  destruct sample_ek_ok as [L1 B1]. destruct sample_hash_ok as [L2 B2]. destruct sample_bytes_z as [B3 L3].
  set (h := map (fun x => 255 - x) (Spec203.H sample_ek)).
  assert (Lh : zlen h = 32) by (unfold h; now rewrite zlen_map).
  split; [|split].
  - unfold bad_dk. fold h. rewrite !zlen_app, L1, Lh, L3. reflexivity.
  - apply Forall_app; split; [apply ones|]. apply Forall_app; split; [exact B1|]. apply Forall_app; split; [|exact B3].
    apply Forall_map. eapply Forall_impl; [|exact B2]. unfold is_byte. intros; lia.
  - unfold hash_check. destruct (dk_parts ML_KEM_512 (repeat 1 768) sample_ek h sample_z) as (_ & D2 & D3 & _); auto; [cbn; lia|].
    fold bad_dk in D2, D3. unfold bad_dk. fold h. rewrite D2, D3. unfold h.
    apply flipped. rewrite L2. lia.
Qed.

(** Calls of the randomised functions: the local array is at 30000 *)
Lemma sample_keypair_rand_call : keypair_rand_call ML_KEM_512 (sample_memory []) 30000 0 2000.
Proof.
  unfold keypair_rand_call, ek_size, dk_size. change (k ML_KEM_512) with 2.
  split; [apply overwrite_bytes; [apply sample_base_bytes|constructor]|].
  split; [apply sample_accessible; lia|]. split; [apply sample_accessible; lia|].
  split; [|apply sample_vacant; lia]. repeat constructor. unfold apart. cbn. lia.
Qed.
Lemma sample_enc_rand_call ek : zlen ek = ek_size ML_KEM_512 -> bytes ek ->
  enc_rand_call ML_KEM_512 (enc_memory ek) 30000 0 2000 4000 ek.
Proof.
  intros L B. pose proof (sample_enc_call ek L B) as (B1 & A1 & A2 & C1 & L1 & _ & Lm & Ap).
  split; [exact B1|]. split; [exact A1|]. split; [exact A2|]. split; [exact C1|]. split; [exact L|].
  apply all_apart4 in Ap as (Q1 & Q2 & _ & Q3 & _). split; [now apply apart3|].
  intros x Hx. unfold enc_memory, sample_memory. cbn [overwrite]. rewrite L. change (ek_size ML_KEM_512) with 800. rewrite Lm.
  replace (x <? 4000 + 800) with false by (symmetry; apply Z.ltb_ge; lia).
  replace (x <? 6000 + 32) with false by (symmetry; apply Z.ltb_ge; lia).
  rewrite !andb_false_r. unfold sample_base. replace (x <? 20000) with false by (symmetry; apply Z.ltb_ge; lia).
  now rewrite andb_false_r.
Qed.

(** A key pair call with another z *)
Definition other_keypair_memory : memory := sample_memory [(6000, sample_d ++ repeat 255 32)].
Lemma other_keypair_call : keypair_call ML_KEM_512 other_keypair_memory 0 2000 6000 sample_d (repeat 255 32).
Proof.
  destruct sample_bytes_d as [Bd Ld]. destruct other_msg as [Lz Bz].
  unfold keypair_call, ek_size, dk_size. change (k ML_KEM_512) with 2.
  split; [|split; [|split; [|split; [|split; [exact Ld|split; [exact Lz|]]]]]].
  - apply overwrite_bytes; [apply sample_base_bytes|]. constructor; [|constructor]. apply Forall_app; auto.
  - apply sample_accessible; lia.
  - apply sample_accessible; lia.
  - apply (stored_first sample_base _ _ _ []). reflexivity.
  - apply apart3; unfold apart; cbn; lia.
Qed.
(** A second key with the public part of [sample_dk] and other secrets *)
Definition other_dk : list Z := repeat 2 768 ++ sample_ek ++ Spec203.H sample_ek ++ repeat 9 32.
Lemma other_dk_ok : zlen other_dk = dk_size ML_KEM_512 /\ bytes other_dk.
Proof.
  destruct sample_ek_ok as [L B], sample_hash_ok as [LH BH]. unfold other_dk. split.
  - rewrite !zlen_app, L, LH. reflexivity.
  - assert (R : forall a n, 0 <= a < 256 -> bytes (repeat a n)).
    { intros a n Ha. apply Forall_forall. intros x Hx. apply repeat_spec in Hx. unfold is_byte. lia. }
    apply Forall_app; split; [apply R; lia|]. apply Forall_app; split; [exact B|].
    apply Forall_app; split; [exact BH|apply R; lia].
Qed.
Lemma other_dk_public : slice sample_dk 768 1600 = slice other_dk 768 1600.
Proof.
  unfold sample_dk, other_dk, slice. change (1600 - 768) with 832.
  destruct sample_ek_ok as [Le _], sample_hash_ok as [LH _]. unfold zlen in Le, LH. change (ek_size ML_KEM_512) with 800 in Le.
  assert (Ee : length sample_ek = 800%nat) by lia. assert (EH : length (Spec203.H sample_ek) = 32%nat) by lia.
  clear - Ee EH. revert Ee EH. generalize sample_ek. intros e. generalize (Spec203.H e). intros h Ee EH.
  assert (skip : forall a (x : list Z), skipn (Z.to_nat 768) (repeat a 768 ++ x) = x).
  { intros a x. rewrite skipn_app, repeat_length, skipn_all2 by (rewrite repeat_length; lia).
    replace (Z.to_nat 768 - 768)%nat with 0%nat by lia. reflexivity. }
  rewrite !skip, !app_assoc.
  rewrite !(firstn_app _ (e ++ h)), app_length, Ee, EH.
  replace (Z.to_nat 832 - (800 + 32))%nat with 0%nat by lia. reflexivity.
Qed.
Lemma other_dk_secret : slice sample_dk 0 768 <> slice other_dk 0 768.
Proof.
  unfold sample_dk, other_dk, slice. intros E. apply (f_equal (hd 0)) in E. discriminate.
Qed.
