(** * Noise sampling: poly_getnoise_*, keypair_noise, enc_noise *)

From Coq Require Import ZArith List Bool Lia.
From Verif Require Import CSem ModelArith ModelKeccak ModelIndcpa Spec202 Spec203 SpecLink
  CSemFacts ProofScalar ProofBits ProofPack ProofCbd ProofSponge ProofHash ProofNtt ProofMul ProofMatrix.
Import ListNotations.
Open Scope Z_scope.
Ltac Zify.zify_post_hook ::= idtac.

(** the signed polynomial sampled for one nonce *)
Definition noise (eta : Z) (seed : list Z) (x : Z) : list Z := cbd eta (PRF eta seed x).

Lemma zlen_noise eta seed x : zlen (noise eta seed x) = 256.
Proof. apply zlen_cbd. Qed.
Lemma zlen_SHAKE256 m n : bytes m -> 0 <= n -> zlen (SHAKE256 m n) = n.
Proof. intros. rewrite SHAKE256_stream by auto. rewrite zlen_map, zlen_range; lia. Qed.
Lemma bytes_SHAKE256 m n : bytes m -> 0 <= n -> bytes (SHAKE256 m n).
Proof.
  intros Bm Hn. rewrite SHAKE256_stream by auto. apply Forall_forall. intros x Hx.
  apply in_map_iff in Hx as (i & <- & _).
  apply stream_byte. apply wfb_fb, wfb_final; auto; lia.
Qed.
Lemma PRF_eq eta s b : PRF eta s b = SHAKE256 (s ++ [b]) (64 * eta).
Proof. reflexivity. Qed.
Global Opaque PRF.

Lemma ext_bytes seed x : bytes seed -> 0 <= x < 256 -> bytes (seed ++ [x]).
Proof. intros Bs Hx. apply Forall_app; split; auto. Qed.
Lemma PRF_ok eta seed x : 0 <= eta -> bytes seed -> 0 <= x < 256 ->
  zlen (PRF eta seed x) = 64 * eta /\ bytes (PRF eta seed x).
Proof.
  intros. rewrite PRF_eq. pose proof (ext_bytes seed x). split; [apply zlen_SHAKE256|apply bytes_SHAKE256]; auto; lia.
Qed.
Lemma eta_range p : (eta1 (set_of p) = 2 \/ eta1 (set_of p) = 3) /\ eta2 (set_of p) = 2.
Proof. destruct p; cbn; auto. Qed.

Lemma residues_noise1 p seed x : bytes seed -> 0 <= x < 256 ->
  residues (noise (eta1 (set_of p)) seed x) = SamplePolyCBD (eta1 (set_of p)) (PRF (eta1 (set_of p)) seed x).
Proof.
  intros. pose proof (eta_range p). destruct (PRF_ok (eta1 (set_of p)) seed x) as [L B]; auto; [lia|].
  apply cbd_SamplePolyCBD; auto. lia.
Qed.
Lemma residues_noise2 p seed x : bytes seed -> 0 <= x < 256 ->
  residues (noise (eta2 (set_of p)) seed x) = SamplePolyCBD (eta2 (set_of p)) (PRF (eta2 (set_of p)) seed x).
Proof.
  intros. pose proof (eta_range p). destruct (PRF_ok (eta2 (set_of p)) seed x) as [L B]; auto; [lia|].
  apply cbd_SamplePolyCBD; auto. lia.
Qed.
Lemma bounded_noise eta b seed x : eta = 2 \/ eta = 3 -> eta < b -> bounded b (noise eta seed x).
Proof.
  intros He Hb. unfold bounded, noise. eapply Forall_impl; [|apply cbd_range; exact He]. cbv beta. lia.
Qed.

(** ** Extended seeds *)

Lemma ext_set J kk (seed : list Z) x (Q : list Z -> Prop) N :
  zlen seed = 32 -> Q (seed ++ [x]) ->
  wpn N (e <- memcpy (uninit J kk 33) 0 seed 0 32 ;; aset e 32 x) Q.
Proof.
  intros Ls HQ. apply wp_bind, wp_memcpy; rewrite ?zlen_uninit; try lia.
  change (0 + 32) with 32. rewrite slice_zlen by auto.
  set (e := splice _ _ _).
  assert (Le : zlen e = 33) by (unfold e; rewrite zlen_splice; rewrite ?zlen_uninit; lia).
  assert (Ee : forall i, 0 <= i < 32 -> zget 0 e i = zget 0 seed i).
  { intros i Hi. unfold e. rewrite zget_splice by (rewrite ?zlen_uninit; lia).
    destruct (Z.leb_spec 0 i); [|lia]. destruct (Z.ltb_spec i (0 + zlen seed)); [|lia]. cbn [andb].
    f_equal. lia. }
  clearbody e. apply wp_aset; [lia|].
  replace (zset _ _ _) with (seed ++ [x]); auto. symmetry. apply (zlist_ext 0).
  - rewrite zlen_set, zlen_app by lia. change (zlen [x]) with 1. lia.
  - rewrite zlen_set by lia. intros i Hi.
    rewrite zget_set by lia. rewrite zget_app by lia. rewrite Ls.
    destruct (Z.eqb_spec i 32) as [->|]; [reflexivity|].
    destruct (Z.ltb_spec i 32); [|lia]. apply Ee. lia.
Qed.

(** [memcpy] and the store of the nonce are separated by other statements in the code *)
Lemma ext_copy N J kk (seed : list Z) (Q : list Z -> Prop) :
  zlen seed = 32 ->
  (forall e, zlen e = 33 -> (forall x, zset e 32 x = seed ++ [x]) -> Q e) ->
  wpn N (memcpy (uninit J kk 33) 0 seed 0 32) Q.
Proof.
  intros Ls HQ. apply wp_memcpy; rewrite ?zlen_uninit; try lia. apply HQ.
  - rewrite zlen_splice; rewrite ?zlen_uninit, ?zlen_slice; lia.
  - intros x. pose proof (ext_set J kk seed x (fun e => e = seed ++ [x]) False Ls eq_refl) as H.
    unfold wpn in H.
    destruct (val (e <- memcpy (uninit J kk 33) 0 seed 0 32 ;; aset e 32 x)) eqn:E; try contradiction.
    subst a.
    assert (H2 : wp (e <- memcpy (uninit J kk 33) 0 seed 0 32 ;; aset e 32 x)
      (fun e => e = zset (splice (uninit J kk 33) 0 (slice seed 0 (0 + 32))) 32 x)).
    { apply wp_bind, wp_memcpy; rewrite ?zlen_uninit; try lia. apply wp_aset; auto.
      rewrite zlen_splice; rewrite ?zlen_uninit, ?zlen_slice; lia. }
    unfold wpn in H2. rewrite E in H2. auto.
Qed.

Lemma wp_extkeys N J seed n0 n1 n2 n3 (Q : x4 (list Z) -> Prop) : zlen seed = 32 ->
  Q (seed ++ [n0], seed ++ [n1], seed ++ [n2], seed ++ [n3]) ->
  wpn N (extkeys_4x J seed n0 n1 n2 n3) Q.
Proof.
  intros Ls HQ. unfold extkeys_4x, MLKEM_SYMBYTES. change (32 + 1) with 33.
  apply wp_bind, ext_copy; auto. intros e0 L0 E0. apply wp_bind, ext_copy; auto. intros e1 L1 E1.
  apply wp_bind, ext_copy; auto. intros e2 L2 E2. apply wp_bind, ext_copy; auto. intros e3 L3 E3.
  do 4 (apply wp_bind, wp_aset; [lia|]). apply wp_ret. now rewrite E0, E1, E2, E3.
Qed.

(** ** The samplers *)

Lemma slice_ext (seed : list Z) x : zlen seed = 32 -> slice (seed ++ [x]) 0 (MLKEM_SYMBYTES + 1) = seed ++ [x].
Proof. intros. apply slice_zlen. rewrite zlen_app. change (zlen [x]) with 1. unfold MLKEM_SYMBYTES. lia. Qed.

Lemma skipn_uninit {A} (l : list A) n : zlen l <= n -> skipn (Z.to_nat n) l = [].
Proof. intros. apply skipn_all2. unfold zlen in *. lia. Qed.
Lemma skip_uninit J k n : 0 <= n -> skipn (Z.to_nat n) (uninit J k n) = [].
Proof. intros. apply skipn_uninit. rewrite zlen_uninit; lia. Qed.

Ltac nonce_facts :=
  match goal with Bs : bytes ?seed, H : 0 <= ?x < 256 |- _ => pose proof (ext_bytes seed x Bs H) end.

Lemma zlen_ext (seed : list Z) x : zlen seed = 32 -> zlen (seed ++ [x]) = 33.
Proof. intros. rewrite zlen_app. change (zlen [x]) with 1. lia. Qed.

Lemma wp_cbd1_noise N p r seed x (Q : list Z -> Prop) : zlen r = 256 -> bytes seed -> 0 <= x < 256 ->
  Q (noise (eta1 (set_of p)) seed x) -> wpn N (poly_cbd_eta1 p r (PRF (eta1 (set_of p)) seed x)) Q.
Proof.
  intros. pose proof (eta_range p). destruct (PRF_ok (eta1 (set_of p)) seed x) as [L B]; auto; [lia|].
  apply wp_poly_cbd_eta1; auto.
Qed.
Lemma wp_cbd2_noise N p r seed x (Q : list Z -> Prop) : zlen r = 256 -> bytes seed -> 0 <= x < 256 ->
  Q (noise (eta2 (set_of p)) seed x) -> wpn N (poly_cbd_eta2 r (PRF (eta2 (set_of p)) seed x)) Q.
Proof.
  intros. pose proof (eta_range p). destruct (PRF_ok (eta2 (set_of p)) seed x) as [L B]; auto; [lia|].
  apply (wp_poly_cbd_eta2 _ p); auto.
Qed.
Lemma wp_bound_noise {A} N eta b seed x (m : M A) Q : eta = 2 \/ eta = 3 -> eta < b -> wpn N m Q ->
  wpn N (POLY_BOUND (noise eta seed x) b ;;; m) Q.
Proof. intros. apply wp_bind, wp_POLY_BOUND; auto. now apply bounded_noise. Qed.

Lemma wp_getnoise1 {bo : byte_order} N J p r0 r1 r2 r3 seed n0 n1 n2 n3 (Q : x4 (list Z) -> Prop) :
  zlen r0 = 256 -> zlen r1 = 256 -> zlen r2 = 256 -> zlen r3 = 256 ->
  zlen seed = 32 -> bytes seed ->
  0 <= n0 < 256 -> 0 <= n1 < 256 -> 0 <= n2 < 256 -> 0 <= n3 < 256 ->
  (let ns := noise (eta1 (set_of p)) seed in Q (ns n0, ns n1, ns n2, ns n3)) ->
  wpn N (poly_getnoise_eta1_4x J p r0 r1 r2 r3 seed n0 n1 n2 n3) Q.
Proof.
  intros L0 L1 L2 L3 Ls Bs H0 H1 H2 H3 HQ. cbv zeta in HQ. unfold poly_getnoise_eta1_4x.
  pose proof (eta_range p) as [He _].
  assert (En : MLKEM_ETA1 p * MLKEM_N / 4 = 64 * eta1 (set_of p)) by (destruct p; reflexivity).
  rewrite En. cbv zeta. assert (Ee : MLKEM_ETA1 p = eta1 (set_of p)) by (destruct p; reflexivity). rewrite Ee.
  apply wp_bind, wp_extkeys; auto. cbv beta iota.
  apply wp_bind, wp_shake256x4; try (apply ext_bytes; assumption); rewrite ?zlen_ext by auto;
    rewrite ?zlen_uninit by lia; unfold MLKEM_SYMBYTES; try lia.
  change 32 with MLKEM_SYMBYTES. cbv zeta. rewrite !slice_ext by auto. rewrite !skip_uninit by lia.
  rewrite !app_nil_r, <- !PRF_eq. cbv beta iota.
  do 4 (apply wp_bind, wp_cbd1_noise; auto).
  do 4 (apply wp_bound_noise; [auto|lia|]). now apply wp_ret.
Qed.

Lemma wp_getnoise2 {bo : byte_order} N J p r seed x (Q : list Z -> Prop) :
  zlen r = 256 -> zlen seed = 32 -> bytes seed -> 0 <= x < 256 ->
  Q (noise (eta2 (set_of p)) seed x) -> wpn N (poly_getnoise_eta2 J p r seed x) Q.
Proof.
  intros Lr Ls Bs Hx HQ. unfold poly_getnoise_eta2, mlkem_shake256_prf.
  pose proof (eta_range p) as [He He2].
  change (MLKEM_ETA2 * MLKEM_N / 4) with 128. cbv zeta. unfold MLKEM_SYMBYTES. change (32 + 1) with 33.
  apply wp_bind. apply wp_bind, ext_copy; auto. intros e L E. apply wp_bind, wp_aset; [lia|]. rewrite E.
  apply wp_shake256; [now apply ext_bytes|rewrite zlen_ext by auto; lia|lia|rewrite zlen_uninit; lia|lia|].
  change 33 with (MLKEM_SYMBYTES + 1). rewrite slice_ext by auto. rewrite skip_uninit, app_nil_r by lia.
  replace 128 with (64 * eta2 (set_of p)) by (rewrite He2; reflexivity). rewrite <- PRF_eq.
  apply wp_bind, (wp_cbd2_noise N p); auto.
  apply wp_bound_noise; [auto| |now apply wp_ret]. destruct p; reflexivity.
Qed.

Lemma wp_getnoise1122 {bo : byte_order} N J p r0 r1 r2 r3 seed n0 n1 n2 n3 (Q : x4 (list Z) -> Prop) :
  zlen r0 = 256 -> zlen r1 = 256 -> zlen r2 = 256 -> zlen r3 = 256 ->
  zlen seed = 32 -> bytes seed ->
  0 <= n0 < 256 -> 0 <= n1 < 256 -> 0 <= n2 < 256 -> 0 <= n3 < 256 ->
  (let ns1 := noise (eta1 (set_of p)) seed in let ns2 := noise (eta2 (set_of p)) seed in
   Q (ns1 n0, ns1 n1, ns2 n2, ns2 n3)) ->
  wpn N (poly_getnoise_eta1122_4x J p r0 r1 r2 r3 seed n0 n1 n2 n3) Q.
Proof.
  intros L0 L1 L2 L3 Ls Bs H0 H1 H2 H3 HQ. cbv zeta in HQ. unfold poly_getnoise_eta1122_4x.
  pose proof (eta_range p) as [He He2].
  assert (En : MLKEM_ETA1 p * MLKEM_N / 4 = 64 * eta1 (set_of p)) by (destruct p; reflexivity).
  assert (En2 : MLKEM_ETA2 * MLKEM_N / 4 = 64 * eta2 (set_of p)) by (destruct p; reflexivity).
  rewrite En, En2. cbv zeta. assert (Ee : MLKEM_ETA1 p = eta1 (set_of p)) by (destruct p; reflexivity). rewrite Ee.
  apply wp_bind, wp_extkeys; auto. cbv beta iota.
  apply wp_bind.
  match goal with |- wpn _ _ ?Q0 => enough (HQ' : Q0 (PRF (eta1 (set_of p)) seed n0, PRF (eta1 (set_of p)) seed n1,
     PRF (eta2 (set_of p)) seed n2, PRF (eta2 (set_of p)) seed n3)) end.
  { destruct p.
    - change 32 with MLKEM_SYMBYTES.
      do 2 (apply wp_bind, wp_shake256; [now apply ext_bytes|rewrite zlen_ext by auto; unfold MLKEM_SYMBYTES; lia|unfold MLKEM_SYMBYTES; lia|rewrite zlen_uninit; lia|lia|];
        rewrite slice_ext by auto; rewrite skip_uninit, app_nil_r by lia; rewrite <- PRF_eq).
      do 2 (apply wp_bind, wp_shake256; [now apply ext_bytes|rewrite zlen_ext by auto; unfold MLKEM_SYMBYTES; lia|unfold MLKEM_SYMBYTES; lia|rewrite zlen_uninit; lia|lia|];
        rewrite slice_ext by auto; rewrite skip_uninit, app_nil_r by lia; rewrite <- PRF_eq).
      apply wp_ret. exact HQ'.
    - change (eta2 (set_of MLKEM768)) with (eta1 (set_of MLKEM768)) in HQ' |- *.
      apply wp_shake256x4; try (apply ext_bytes; assumption); rewrite ?zlen_ext by auto;
        rewrite ?zlen_uninit by lia; unfold MLKEM_SYMBYTES; try lia.
      change 32 with MLKEM_SYMBYTES. cbv zeta. rewrite !slice_ext by auto. rewrite !skip_uninit by lia.
      rewrite !app_nil_r, <- !PRF_eq. exact HQ'.
    - change (eta2 (set_of MLKEM1024)) with (eta1 (set_of MLKEM1024)) in HQ' |- *.
      apply wp_shake256x4; try (apply ext_bytes; assumption); rewrite ?zlen_ext by auto;
        rewrite ?zlen_uninit by lia; unfold MLKEM_SYMBYTES; try lia.
      change 32 with MLKEM_SYMBYTES. cbv zeta. rewrite !slice_ext by auto. rewrite !skip_uninit by lia.
      rewrite !app_nil_r, <- !PRF_eq. exact HQ'. }
  cbv beta iota.
  do 2 (apply wp_bind, wp_cbd1_noise; auto). do 2 (apply wp_bind, (wp_cbd2_noise N p); auto).
  do 2 (apply wp_bound_noise; [auto|lia|]).
  do 2 (apply wp_bound_noise; [auto|rewrite He2; reflexivity|]). now apply wp_ret.
Qed.

(** ** The noise vectors of key generation and encryption *)

Definition nvec (eta : Z) (seed : list Z) (first K : Z) : list (list Z) :=
  map (fun i => noise eta seed (first + i)) (range K).
Definition polys (K : Z) (v : list (list Z)) : Prop := zlen v = K /\ Forall (fun e => zlen e = 256) v.

Lemma polys_get K v i : polys K v -> 0 <= i < K -> zlen (zget [] v i) = 256.
Proof.
  intros [L F] Hi. rewrite Forall_forall in F. apply F. unfold zget. apply nth_In. unfold zlen in L. lia.
Qed.
Lemma two {A} (d : A) l : zlen l = 2 -> l = [zget d l 0; zget d l 1].
Proof.
  intros H. destruct l as [|a [|b [|c l]]]; try discriminate H; [reflexivity|].
  exfalso. unfold zlen in H. cbn [length] in H. lia.
Qed.
Lemma three {A} (d : A) l : zlen l = 3 -> l = [zget d l 0; zget d l 1; zget d l 2].
Proof.
  intros H. destruct l as [|a [|b [|c [|e l]]]]; try discriminate H; [reflexivity|].
  exfalso. unfold zlen in H. cbn [length] in H. lia.
Qed.

Ltac small_arrays :=
  repeat (apply wp_bind; first
    [ apply (wp_aget []); [rewrite ?zlen_cons; change (zlen (@nil (list Z))) with 0; lia|];
      cbv [zget nth Z.to_nat Pos.to_nat Pos.iter_op Nat.add]
    | apply wp_aset; [rewrite ?zlen_cons; change (zlen (@nil (list Z))) with 0; lia|];
      cbv [zset app firstn skipn Z.to_nat Pos.to_nat Pos.iter_op Nat.add] ]).

Lemma wp_keypair_noise {bo : byte_order} N J p skpv e pkpv seed (Q : list (list Z) * list (list Z) * list (list Z) -> Prop) :
  let K := MLKEM_K p in
  polys K skpv -> polys K e -> polys K pkpv -> zlen seed = 32 -> bytes seed ->
  (forall pkpv', polys K pkpv' ->
     Q (nvec (eta1 (set_of p)) seed 0 K, nvec (eta1 (set_of p)) seed K K, pkpv')) ->
  wpn N (keypair_noise J p skpv e pkpv seed) Q.
Proof.
  intros K [Ls Fs] [Le Fe] [Lp Fp] Lseed Bs HQ. unfold K in *. clear K. unfold keypair_noise.
  destruct p; cbv [MLKEM_K] in *.
  - rewrite (two [] skpv Ls), (two [] e Le) in *. 
    repeat match goal with H : Forall _ (_ :: _) |- _ => apply Forall_cons_iff in H as [? H] end.
    small_arrays. apply wp_bind, wp_getnoise1; auto; try lia. cbv beta iota zeta.
    small_arrays. apply wp_ret. apply HQ. split; auto.
  - rewrite (three [] skpv Ls), (three [] e Le), (three [] pkpv Lp) in *.
    repeat match goal with H : Forall _ (_ :: _) |- _ => apply Forall_cons_iff in H as [? H] end.
    small_arrays. apply wp_bind, wp_getnoise1; auto; try lia. cbv beta iota zeta.
    small_arrays. apply wp_bind, wp_getnoise1; auto; try lia. cbv beta iota zeta.
    small_arrays. apply wp_ret. apply HQ. split; [reflexivity|].
    repeat (apply Forall_cons; [first [assumption|apply zlen_noise]|]). apply Forall_nil.
  - rewrite (four [] skpv Ls), (four [] e Le) in *.
    repeat match goal with H : Forall _ (_ :: _) |- _ => apply Forall_cons_iff in H as [? H] end.
    unfold get4. apply wp_bind. small_arrays. apply wp_ret. cbv beta iota. apply wp_bind, wp_getnoise1; auto; try lia. cbv beta iota zeta.
    small_arrays. apply wp_bind. small_arrays. apply wp_ret. cbv beta iota. apply wp_bind, wp_getnoise1; auto; try lia. cbv beta iota zeta.
    small_arrays. apply wp_ret. apply HQ. split; auto.
Qed.

Lemma wp_enc_noise {bo : byte_order} N J p sp ep epp b seed (Q : list (list Z) * list (list Z) * list Z * list (list Z) -> Prop) :
  let K := MLKEM_K p in
  polys K sp -> polys K ep -> zlen epp = 256 -> polys K b -> zlen seed = 32 -> bytes seed ->
  (forall b', polys K b' ->
     Q (nvec (eta1 (set_of p)) seed 0 K, nvec (eta2 (set_of p)) seed K K, noise (eta2 (set_of p)) seed (2 * K), b')) ->
  wpn N (enc_noise J p sp ep epp b seed) Q.
Proof.
  intros K [Ls Fs] [Le Fe] Lepp [Lp Fp] Lseed Bs HQ. unfold K in *. clear K. unfold enc_noise.
  destruct p; cbv [MLKEM_K] in *.
  - rewrite (two [] sp Ls), (two [] ep Le) in *. 
    repeat match goal with H : Forall _ (_ :: _) |- _ => apply Forall_cons_iff in H as [? H] end.
    small_arrays. apply wp_bind, wp_getnoise1122; auto; try lia. cbv beta iota zeta.
    small_arrays. apply wp_bind, (wp_getnoise2 N _ MLKEM512); auto; try lia. apply wp_ret. apply HQ. split; auto.
  - rewrite (three [] sp Ls), (three [] ep Le), (three [] b Lp) in *.
    repeat match goal with H : Forall _ (_ :: _) |- _ => apply Forall_cons_iff in H as [? H] end.
    small_arrays. apply wp_bind, wp_getnoise1; auto; try lia. cbv beta iota zeta.
    small_arrays. apply wp_bind. unfold poly_getnoise_eta2_4x.
    change (eta2 (set_of MLKEM768)) with (eta1 (set_of MLKEM768)) in HQ.
    apply wp_getnoise1; auto; try lia. cbv beta iota zeta.
    small_arrays. apply wp_ret. apply HQ. split; [reflexivity|].
    repeat (apply Forall_cons; [first [assumption|apply zlen_noise]|]). apply Forall_nil.
  - rewrite (four [] sp Ls), (four [] ep Le) in *.
    repeat match goal with H : Forall _ (_ :: _) |- _ => apply Forall_cons_iff in H as [? H] end.
    unfold get4. apply wp_bind. small_arrays. apply wp_ret. cbv beta iota. apply wp_bind, wp_getnoise1; auto; try lia. cbv beta iota zeta.
    small_arrays. apply wp_bind. small_arrays. apply wp_ret. cbv beta iota. apply wp_bind. unfold poly_getnoise_eta2_4x.
    change (eta2 (set_of MLKEM1024)) with (eta1 (set_of MLKEM1024)) in HQ.
    apply wp_getnoise1; auto; try lia. cbv beta iota zeta.
    small_arrays. apply wp_bind, (wp_getnoise2 N _ MLKEM1024); auto; try lia. apply wp_ret. apply HQ. split; auto.
Qed.

(** in terms of FIPS 203 *)
Lemma nvec_spec1 p seed first : bytes seed -> 0 <= first -> first + MLKEM_K p <= 256 ->
  map residues (nvec (eta1 (set_of p)) seed first (MLKEM_K p)) = noise_vec (set_of p) (eta1 (set_of p)) seed first.
Proof.
  intros. unfold nvec, noise_vec. rewrite map_map, <- MLKEM_K_k. apply map_range_ext. intros i Hi.
  apply residues_noise1; auto. lia.
Qed.
Lemma nvec_spec2 p seed first : bytes seed -> 0 <= first -> first + MLKEM_K p <= 256 ->
  map residues (nvec (eta2 (set_of p)) seed first (MLKEM_K p)) = noise_vec (set_of p) (eta2 (set_of p)) seed first.
Proof.
  intros. unfold nvec, noise_vec. rewrite map_map, <- MLKEM_K_k. apply map_range_ext. intros i Hi.
  apply residues_noise2; auto. lia.
Qed.
Lemma nvec_polys eta seed first K : 0 <= K -> polys K (nvec eta seed first K).
Proof.
  intros. split; [unfold nvec; rewrite zlen_map, zlen_range; lia|]. apply Forall_map_range. intros. apply zlen_noise.
Qed.
Lemma nvec_small eta seed first K : eta = 2 \/ eta = 3 ->
  Forall (Forall (fun x => - eta <= x <= eta)) (nvec eta seed first K).
Proof. intros. apply Forall_map_range. intros. now apply cbd_range. Qed.

Lemma keypair_noise_correct {bo : byte_order} J p skpv e pkpv seed :
  let P := set_of p in let poly_array v := zlen v = k P /\ Forall (fun f => zlen f = 256) v in
  poly_array skpv -> poly_array e -> poly_array pkpv -> zlen seed = 32 -> bytes seed ->
  exists s' e' pkpv', val (keypair_noise J p skpv e pkpv seed) = Ok (s', e', pkpv') /\
    map (map (fun x => x mod q)) s' = noise_vec P (eta1 P) seed 0 /\
    map (map (fun x => x mod q)) e' = noise_vec P (eta1 P) seed (k P) /\
    Forall (Forall (fun x => - eta1 P <= x <= eta1 P)) (s' ++ e') /\ poly_array pkpv'.
Proof.
  intros P pa Hs He Hp Ls Bs. subst pa. cbv beta in *. subst P. rewrite <- MLKEM_K_k in *.
  pose proof (MLKEM_K_range p) as HK.
  assert (H : wp (keypair_noise J p skpv e pkpv seed) (fun '(s', e', pkpv') =>
    s' = nvec (eta1 (set_of p)) seed 0 (MLKEM_K p) /\ e' = nvec (eta1 (set_of p)) seed (MLKEM_K p) (MLKEM_K p) /\
    polys (MLKEM_K p) pkpv')).
  { apply wp_keypair_noise; try assumption. intros. split; [reflexivity|]. split; [reflexivity|assumption]. }
  apply wp_ex in H as ([[s' e'] pkpv'] & E & -> & -> & Hp').
  eexists _, _, _. split; [exact E|]. split; [apply nvec_spec1; auto; lia|].
  split; [apply nvec_spec1; auto; lia|]. split; [|exact Hp'].
  apply Forall_app; split; apply nvec_small, eta_range.
Qed.

Lemma enc_noise_correct {bo : byte_order} J p sp ep epp b seed :
  let P := set_of p in let poly_array v := zlen v = k P /\ Forall (fun f => zlen f = 256) v in
  poly_array sp -> poly_array ep -> zlen epp = 256 -> poly_array b -> zlen seed = 32 -> bytes seed ->
  exists y e1 e2 b', val (enc_noise J p sp ep epp b seed) = Ok (y, e1, e2, b') /\
    map (map (fun x => x mod q)) y = noise_vec P (eta1 P) seed 0 /\
    map (map (fun x => x mod q)) e1 = noise_vec P (eta2 P) seed (k P) /\
    map (fun x => x mod q) e2 = SamplePolyCBD (eta2 P) (PRF (eta2 P) seed (2 * k P)) /\
    Forall (Forall (fun x => - eta1 P <= x <= eta1 P)) y /\
    Forall (Forall (fun x => - eta2 P <= x <= eta2 P)) (e2 :: e1) /\ poly_array b'.
Proof.
  intros P pa Hs He Hepp Hp Ls Bs. subst pa. cbv beta in *. subst P. rewrite <- MLKEM_K_k in *.
  pose proof (MLKEM_K_range p) as HK.
  assert (H : wp (enc_noise J p sp ep epp b seed) (fun '(s', e', e2, b') =>
    s' = nvec (eta1 (set_of p)) seed 0 (MLKEM_K p) /\ e' = nvec (eta2 (set_of p)) seed (MLKEM_K p) (MLKEM_K p) /\
    e2 = noise (eta2 (set_of p)) seed (2 * MLKEM_K p) /\ polys (MLKEM_K p) b')).
  { apply wp_enc_noise; try assumption. intros. split; [reflexivity|]. split; [reflexivity|]. split; [reflexivity|assumption]. }
  apply wp_ex in H as ([[[s' e'] e2] pkpv'] & E & -> & -> & -> & Hp').
  eexists _, _, _, _. split; [exact E|]. split; [apply nvec_spec1; auto; lia|].
  split; [apply nvec_spec2; auto; lia|]. split; [apply residues_noise2; auto; lia|].
  split; [apply nvec_small, eta_range|]. split; [|exact Hp'].
  pose proof (eta_range p) as [_ E2]. apply Forall_cons; [apply cbd_range; auto|apply nvec_small; auto].
Qed.
