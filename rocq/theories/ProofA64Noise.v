(** * Noise sampling in the AArch64 build *)

From Coq Require Import ZArith List Bool Lia.
From Verif Require Import ModelA64Poly ModelA64Fips202 ModelA64Sponge ModelA64Indcpa ProofA64Hash.
From Verif Require Import CSem ModelArith ModelKeccak ModelIndcpa Spec202 Spec203 SpecLink
  CSemFacts ProofScalar ProofBits ProofPack ProofRej ProofCbd ProofSponge ProofHash
  ProofSum ProofNttSpec ProofRing ProofNtt ProofMul ProofMatrix ProofNoise.
Import ListNotations.
Open Scope Z_scope.
#[local] Existing Instance LittleEndian.
Ltac Zify.zify_post_hook ::= idtac.

Lemma wp_getnoise1_a64 bd N J p r0 r1 r2 r3 seed n0 n1 n2 n3 (Q : x4 (list Z) -> Prop) :
  zlen r0 = 256 -> zlen r1 = 256 -> zlen r2 = 256 -> zlen r3 = 256 ->
  zlen seed = 32 -> bytes seed ->
  0 <= n0 < 256 -> 0 <= n1 < 256 -> 0 <= n2 < 256 -> 0 <= n3 < 256 ->
  (let ns := noise (eta1 (set_of p)) seed in Q (ns n0, ns n1, ns n2, ns n3)) ->
  wpn N (poly_getnoise_eta1_4x_aarch64 bd J p r0 r1 r2 r3 seed n0 n1 n2 n3) Q.
Proof.
  intros L0 L1 L2 L3 Ls Bs H0 H1 H2 H3 HQ. cbv zeta in HQ. unfold poly_getnoise_eta1_4x_aarch64.
  pose proof (eta_range p) as [He _].
  assert (En : MLKEM_ETA1 p * MLKEM_N / 4 = 64 * eta1 (set_of p)) by (destruct p; reflexivity).
  rewrite En. cbv zeta. assert (Ee : MLKEM_ETA1 p = eta1 (set_of p)) by (destruct p; reflexivity). rewrite Ee.
  apply wp_bind, wp_extkeys; auto. cbv beta iota.
  apply wp_bind, wp_shake256x4_a64; try (apply ext_bytes; assumption); rewrite ?zlen_ext by auto;
    rewrite ?zlen_uninit by lia; unfold MLKEM_SYMBYTES; try lia.
  change 32 with MLKEM_SYMBYTES. cbv zeta. rewrite !slice_ext by auto. rewrite !skip_uninit by lia.
  rewrite !app_nil_r, <- !PRF_eq. cbv beta iota.
  do 4 (apply wp_bind, wp_cbd1_noise; auto).
  do 4 (apply wp_bound_noise; [auto|lia|]). now apply wp_ret.
Qed.

Lemma wp_getnoise1122_a64 bd N J p r0 r1 r2 r3 seed n0 n1 n2 n3 (Q : x4 (list Z) -> Prop) :
  zlen r0 = 256 -> zlen r1 = 256 -> zlen r2 = 256 -> zlen r3 = 256 ->
  zlen seed = 32 -> bytes seed ->
  0 <= n0 < 256 -> 0 <= n1 < 256 -> 0 <= n2 < 256 -> 0 <= n3 < 256 ->
  (let ns1 := noise (eta1 (set_of p)) seed in let ns2 := noise (eta2 (set_of p)) seed in
   Q (ns1 n0, ns1 n1, ns2 n2, ns2 n3)) ->
  wpn N (poly_getnoise_eta1122_4x_aarch64 bd J p r0 r1 r2 r3 seed n0 n1 n2 n3) Q.
Proof.
  intros L0 L1 L2 L3 Ls Bs H0 H1 H2 H3 HQ. cbv zeta in HQ. unfold poly_getnoise_eta1122_4x_aarch64.
  pose proof (eta_range p) as [He He2].
  assert (En : MLKEM_ETA1 p * MLKEM_N / 4 = 64 * eta1 (set_of p)) by (destruct p; reflexivity).
  assert (En2 : MLKEM_ETA2 * MLKEM_N / 4 = 64 * eta2 (set_of p)) by (destruct p; reflexivity).
  rewrite En, En2. cbv zeta. assert (Ee : MLKEM_ETA1 p = eta1 (set_of p)) by (destruct p; reflexivity). rewrite Ee.
  apply wp_bind, wp_extkeys; auto. cbv beta iota.
  apply wp_bind.
  match goal with |- wpn _ _ ?Q0 => enough (HQ' : Q0 (PRF (eta1 (set_of p)) seed n0, PRF (eta1 (set_of p)) seed n1,
     PRF (eta2 (set_of p)) seed n2, PRF (eta2 (set_of p)) seed n3)) end.
  { destruct p.
    - change 32 with MLKEM_SYMBYTES.
      do 2 (apply wp_bind, wp_shake256_a64; [now apply ext_bytes|rewrite zlen_ext by auto; unfold MLKEM_SYMBYTES; lia|unfold MLKEM_SYMBYTES; lia|rewrite zlen_uninit; lia|lia|];
        rewrite slice_ext by auto; rewrite skip_uninit, app_nil_r by lia; rewrite <- PRF_eq).
      do 2 (apply wp_bind, wp_shake256_a64; [now apply ext_bytes|rewrite zlen_ext by auto; unfold MLKEM_SYMBYTES; lia|unfold MLKEM_SYMBYTES; lia|rewrite zlen_uninit; lia|lia|];
        rewrite slice_ext by auto; rewrite skip_uninit, app_nil_r by lia; rewrite <- PRF_eq).
      apply wp_ret. exact HQ'.
    - change (eta2 (set_of MLKEM768)) with (eta1 (set_of MLKEM768)) in HQ' |- *.
      apply wp_shake256x4_a64; try (apply ext_bytes; assumption); rewrite ?zlen_ext by auto;
        rewrite ?zlen_uninit by lia; unfold MLKEM_SYMBYTES; try lia.
      change 32 with MLKEM_SYMBYTES. cbv zeta. rewrite !slice_ext by auto. rewrite !skip_uninit by lia.
      rewrite !app_nil_r, <- !PRF_eq. exact HQ'.
    - change (eta2 (set_of MLKEM1024)) with (eta1 (set_of MLKEM1024)) in HQ' |- *.
      apply wp_shake256x4_a64; try (apply ext_bytes; assumption); rewrite ?zlen_ext by auto;
        rewrite ?zlen_uninit by lia; unfold MLKEM_SYMBYTES; try lia.
      change 32 with MLKEM_SYMBYTES. cbv zeta. rewrite !slice_ext by auto. rewrite !skip_uninit by lia.
      rewrite !app_nil_r, <- !PRF_eq. exact HQ'. }
  cbv beta iota.
  do 2 (apply wp_bind, wp_cbd1_noise; auto). do 2 (apply wp_bind, (wp_cbd2_noise N p); auto).
  do 2 (apply wp_bound_noise; [auto|lia|]).
  do 2 (apply wp_bound_noise; [auto|rewrite He2; reflexivity|]). now apply wp_ret.
Qed.

Lemma wp_getnoise2_a64 bd N J p r seed x (Q : list Z -> Prop) :
  zlen r = 256 -> zlen seed = 32 -> bytes seed -> 0 <= x < 256 ->
  Q (noise (eta2 (set_of p)) seed x) -> wpn N (poly_getnoise_eta2_aarch64 bd J p r seed x) Q.
Proof.
  intros Lr Ls Bs Hx HQ. unfold poly_getnoise_eta2_aarch64, mlkem_shake256_prf_aarch64.
  pose proof (eta_range p) as [He He2].
  change (MLKEM_ETA2 * MLKEM_N / 4) with 128. cbv zeta. unfold MLKEM_SYMBYTES. change (32 + 1) with 33.
  apply wp_bind. apply wp_bind, ext_copy; auto. intros e L E. apply wp_bind, wp_aset; [lia|]. rewrite E.
  apply wp_shake256_a64; [now apply ext_bytes|rewrite zlen_ext by auto; lia|lia|rewrite zlen_uninit; lia|lia|].
  change 33 with (MLKEM_SYMBYTES + 1). rewrite slice_ext by auto. rewrite skip_uninit, app_nil_r by lia.
  replace 128 with (64 * eta2 (set_of p)) by (rewrite He2; reflexivity). rewrite <- PRF_eq.
  apply wp_bind, (wp_cbd2_noise N p); auto.
  apply wp_bound_noise; [auto| |now apply wp_ret]. destruct p; reflexivity.
Qed.

Lemma wp_keypair_noise_a64 bd N J p skpv e pkpv seed (Q : list (list Z) * list (list Z) * list (list Z) -> Prop) :
  let K := MLKEM_K p in
  polys K skpv -> polys K e -> polys K pkpv -> zlen seed = 32 -> bytes seed ->
  (forall pkpv', polys K pkpv' ->
     Q (nvec (eta1 (set_of p)) seed 0 K, nvec (eta1 (set_of p)) seed K K, pkpv')) ->
  wpn N (keypair_noise_aarch64 bd J p skpv e pkpv seed) Q.
Proof.
  intros K [Ls Fs] [Le Fe] [Lp Fp] Lseed Bs HQ. unfold K in *. clear K. unfold keypair_noise_aarch64.
  destruct p; cbv [MLKEM_K] in *.
  - rewrite (two [] skpv Ls), (two [] e Le) in *. 
    repeat match goal with H : Forall _ (_ :: _) |- _ => apply Forall_cons_iff in H as [? H] end.
    small_arrays. apply wp_bind, wp_getnoise1_a64; auto; try lia. cbv beta iota zeta.
    small_arrays. apply wp_ret. apply HQ. split; auto.
  - rewrite (three [] skpv Ls), (three [] e Le), (three [] pkpv Lp) in *.
    repeat match goal with H : Forall _ (_ :: _) |- _ => apply Forall_cons_iff in H as [? H] end.
    small_arrays. apply wp_bind, wp_getnoise1_a64; auto; try lia. cbv beta iota zeta.
    small_arrays. apply wp_bind, wp_getnoise1_a64; auto; try lia. cbv beta iota zeta.
    small_arrays. apply wp_ret. apply HQ. split; [reflexivity|].
    repeat (apply Forall_cons; [first [assumption|apply zlen_noise]|]). apply Forall_nil.
  - rewrite (four [] skpv Ls), (four [] e Le) in *.
    repeat match goal with H : Forall _ (_ :: _) |- _ => apply Forall_cons_iff in H as [? H] end.
    unfold get4. apply wp_bind. small_arrays. apply wp_ret. cbv beta iota. apply wp_bind, wp_getnoise1_a64; auto; try lia. cbv beta iota zeta.
    small_arrays. apply wp_bind. small_arrays. apply wp_ret. cbv beta iota. apply wp_bind, wp_getnoise1_a64; auto; try lia. cbv beta iota zeta.
    small_arrays. apply wp_ret. apply HQ. split; auto.
Qed.

Lemma wp_enc_noise_a64 bd N J p sp ep epp b seed (Q : list (list Z) * list (list Z) * list Z * list (list Z) -> Prop) :
  let K := MLKEM_K p in
  polys K sp -> polys K ep -> zlen epp = 256 -> polys K b -> zlen seed = 32 -> bytes seed ->
  (forall b', polys K b' ->
     Q (nvec (eta1 (set_of p)) seed 0 K, nvec (eta2 (set_of p)) seed K K, noise (eta2 (set_of p)) seed (2 * K), b')) ->
  wpn N (enc_noise_aarch64 bd J p sp ep epp b seed) Q.
Proof.
  intros K [Ls Fs] [Le Fe] Lepp [Lp Fp] Lseed Bs HQ. unfold K in *. clear K. unfold enc_noise_aarch64.
  destruct p; cbv [MLKEM_K] in *.
  - rewrite (two [] sp Ls), (two [] ep Le) in *. 
    repeat match goal with H : Forall _ (_ :: _) |- _ => apply Forall_cons_iff in H as [? H] end.
    small_arrays. apply wp_bind, wp_getnoise1122_a64; auto; try lia. cbv beta iota zeta.
    small_arrays. apply wp_bind, (wp_getnoise2_a64 bd N _ MLKEM512); auto; try lia. apply wp_ret. apply HQ. split; auto.
  - rewrite (three [] sp Ls), (three [] ep Le), (three [] b Lp) in *.
    repeat match goal with H : Forall _ (_ :: _) |- _ => apply Forall_cons_iff in H as [? H] end.
    small_arrays. apply wp_bind, wp_getnoise1_a64; auto; try lia. cbv beta iota zeta.
    small_arrays. apply wp_bind. unfold poly_getnoise_eta2_4x_aarch64.
    change (eta2 (set_of MLKEM768)) with (eta1 (set_of MLKEM768)) in HQ.
    apply wp_getnoise1_a64; auto; try lia. cbv beta iota zeta.
    small_arrays. apply wp_ret. apply HQ. split; [reflexivity|].
    repeat (apply Forall_cons; [first [assumption|apply zlen_noise]|]). apply Forall_nil.
  - rewrite (four [] sp Ls), (four [] ep Le) in *.
    repeat match goal with H : Forall _ (_ :: _) |- _ => apply Forall_cons_iff in H as [? H] end.
    unfold get4. apply wp_bind. small_arrays. apply wp_ret. cbv beta iota. apply wp_bind, wp_getnoise1_a64; auto; try lia. cbv beta iota zeta.
    small_arrays. apply wp_bind. small_arrays. apply wp_ret. cbv beta iota. apply wp_bind. unfold poly_getnoise_eta2_4x_aarch64.
    change (eta2 (set_of MLKEM1024)) with (eta1 (set_of MLKEM1024)) in HQ.
    apply wp_getnoise1_a64; auto; try lia. cbv beta iota zeta.
    small_arrays. apply wp_bind, (wp_getnoise2_a64 bd N _ MLKEM1024); auto; try lia. apply wp_ret. apply HQ. split; auto.
Qed.
