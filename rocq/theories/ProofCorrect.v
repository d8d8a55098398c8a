(** * Decryption gives back the message as long as the noise is small *)

From Coq Require Import ZArith List Bool Lia Setoid Morphisms.
From Verif Require Import ModelKeccak.
From Verif Require Import CSem ModelArith ModelKem Spec202 Spec203 SpecLink SpecMem SpecApi SpecNoise CSemFacts ProofScalar ProofBits
  ProofChunk ProofPack ProofCbd ProofSum ProofNttSpec ProofRing ProofMul ProofSponge ProofHash ProofMatrix ProofNoise ProofPke ProofMem ProofKem ProofKeys ProofApi ProofReturn.
Import ListNotations.
Open Scope Z_scope.
Ltac Zify.zify_post_hook ::= idtac.

(** ** The ring *)
Lemma ext_at f g : reduced f -> reduced g -> (forall i, 0 <= i < 256 -> at_ f i == at_ g i) -> f = g.
Proof. intros. apply reduced_ext; auto. Qed.
Lemma plus_minus_cancel f g : reduced f -> poly_plus g (poly_minus f g) = f.
Proof.
  intros R. apply ext_at; [apply poly_plus_reduced|exact R|]. intros i Hi.
  rewrite poly_plus_at, poly_minus_at by auto. apply cg_of_eq. ring.
Qed.

(** *** Bilinearity of the inner product in NTT representation *)
Definition pair_mul0 (g a0 a1 b0 b1 : Z) : Z := a0 * b0 + a1 * b1 * g.
Definition pair_mul1 (a0 a1 b0 b1 : Z) : Z := a0 * b1 + a1 * b0.

Lemma dot_even K u v m : 0 <= K -> zlen u = K -> zlen v = K -> 0 <= m < 128 ->
  at_ (dot u v) (2 * m) == sum K (fun i => pair_mul0 (17 ^ (2 * brv m + 1))
    (at_ (zget [] u i) (2 * m)) (at_ (zget [] u i) (2 * m + 1)) (at_ (zget [] v i) (2 * m)) (at_ (zget [] v i) (2 * m + 1))).
Proof.
  intros HK Hu Hv Hm. rewrite (dot_at K) by (auto; lia). apply sum_cg; [lia|]. intros i Hi.
  rewrite MultiplyNTTs_even by auto. reflexivity.
Qed.
Lemma dot_odd K u v m : 0 <= K -> zlen u = K -> zlen v = K -> 0 <= m < 128 ->
  at_ (dot u v) (2 * m + 1) == sum K (fun i => pair_mul1
    (at_ (zget [] u i) (2 * m)) (at_ (zget [] u i) (2 * m + 1)) (at_ (zget [] v i) (2 * m)) (at_ (zget [] v i) (2 * m + 1))).
Proof.
  intros HK Hu Hv Hm. rewrite (dot_at K) by (auto; lia). apply sum_cg; [lia|]. intros i Hi.
  rewrite MultiplyNTTs_odd by auto. reflexivity.
Qed.
Lemma ext_parity f g : reduced f -> reduced g ->
  (forall m, 0 <= m < 128 -> at_ f (2 * m) == at_ g (2 * m)) ->
  (forall m, 0 <= m < 128 -> at_ f (2 * m + 1) == at_ g (2 * m + 1)) -> f = g.
Proof. intros Rf Rg E O. apply reduced_ext; auto. now apply eqf_parity. Qed.

Lemma dot_plus_l K u v w : 0 <= K -> zlen u = K -> zlen v = K -> zlen w = K ->
  dot (vec_plus u v) w = poly_plus (dot u w) (dot v w).
Proof.
  intros HK Hu Hv Hw. assert (L : zlen (vec_plus u v) = K) by (rewrite zlen_vec_plus; lia).
  apply ext_parity; [apply dot_reduced|apply poly_plus_reduced| |]; intros m Hm.
  - rewrite poly_plus_at by lia. rewrite !(dot_even K) by auto. rewrite <- sum_add by auto.
    apply sum_cg; [auto|]. intros i Hi. rewrite zget_vec_plus by lia. unfold pair_mul0.
    rewrite !poly_plus_at by lia. apply cg_of_eq. ring.
  - rewrite poly_plus_at by lia. rewrite !(dot_odd K) by auto. rewrite <- sum_add by auto.
    apply sum_cg; [auto|]. intros i Hi. rewrite zget_vec_plus by lia. unfold pair_mul1.
    rewrite !poly_plus_at by lia. apply cg_of_eq. ring.
Qed.
Lemma dot_comm K u v : 0 <= K -> zlen u = K -> zlen v = K -> dot u v = dot v u.
Proof.
  intros HK Hu Hv. apply ext_parity; try apply dot_reduced; intros m Hm.
  - rewrite !(dot_even K) by auto. apply cg_of_eq, sum_ext. intros i Hi. unfold pair_mul0. ring.
  - rewrite !(dot_odd K) by auto. apply cg_of_eq, sum_ext. intros i Hi. unfold pair_mul1. ring.
Qed.
Lemma dot_plus_r K u v w : 0 <= K -> zlen u = K -> zlen v = K -> zlen w = K ->
  dot w (vec_plus u v) = poly_plus (dot w u) (dot w v).
Proof.
  intros HK Hu Hv Hw. rewrite (dot_comm K) by (rewrite ?zlen_vec_plus; lia).
  rewrite (dot_plus_l K), (dot_comm K u), (dot_comm K v) by auto. reflexivity.
Qed.

(** *** (A x) . y = x . (A^T y) *)
Lemma zget_transpose K A i : zlen A = K -> 0 <= i < K ->
  zget [] (transpose A) i = map (fun row => zget [] row i) A.
Proof.
  intros L Hi. unfold transpose. fold (zlen A). rewrite L. rewrite zget_map_range by lia. reflexivity.
Qed.
Lemma zlen_transpose K (A : list vec) : 0 <= K -> zlen A = K -> zlen (transpose A) = K.
Proof. intros HK L. unfold transpose. fold (zlen A). rewrite zlen_map, L. now apply zlen_range. Qed.
Lemma pair_sum0 g K a0 a1 (b0 b1 : Z) : 0 <= K ->
  pair_mul0 g (sum K a0) (sum K a1) b0 b1 = sum K (fun i => pair_mul0 g (a0 i) (a1 i) b0 b1).
Proof.
  intros HK. unfold pair_mul0. rewrite sum_add, sum_mul_r by auto. f_equal.
  rewrite <- sum_mul_r by auto. rewrite <- sum_mul_r by auto. reflexivity.
Qed.
Lemma pair_sum1 K a0 a1 (b0 b1 : Z) : 0 <= K ->
  pair_mul1 (sum K a0) (sum K a1) b0 b1 = sum K (fun i => pair_mul1 (a0 i) (a1 i) b0 b1).
Proof. intros HK. unfold pair_mul1. now rewrite sum_add, !sum_mul_r by auto. Qed.
Lemma pair_sum0r g K a0 a1 (b0 b1 : Z) : 0 <= K ->
  pair_mul0 g b0 b1 (sum K a0) (sum K a1) = sum K (fun i => pair_mul0 g b0 b1 (a0 i) (a1 i)).
Proof.
  intros HK. unfold pair_mul0. rewrite sum_add, sum_mul_l, sum_mul_r by auto. f_equal. rewrite sum_mul_l; auto.
Qed.
Lemma pair_sum1r K a0 a1 (b0 b1 : Z) : 0 <= K ->
  pair_mul1 b0 b1 (sum K a0) (sum K a1) = sum K (fun i => pair_mul1 b0 b1 (a0 i) (a1 i)).
Proof. intros HK. unfold pair_mul1. now rewrite sum_add, !sum_mul_l by auto. Qed.

Global Instance pair_mul0_cg g : Proper (respectful cg (respectful cg (respectful cg (respectful cg cg)))) (pair_mul0 g).
Proof. intros a a' Ha b b' Hb c c' Hc d d' Hd. unfold pair_mul0. now rewrite Ha, Hb, Hc, Hd. Qed.
Global Instance pair_mul1_cg : Proper (respectful cg (respectful cg (respectful cg (respectful cg cg)))) pair_mul1.
Proof. intros a a' Ha b b' Hb c c' Hc d d' Hd. unfold pair_mul1. now rewrite Ha, Hb, Hc, Hd. Qed.

Lemma dot_adjoint K A x y : 0 <= K -> zlen A = K -> (forall i, 0 <= i < K -> zlen (zget [] A i) = K) ->
  zlen x = K -> zlen y = K -> dot (mat_vec A x) y = dot x (mat_vec (transpose A) y).
Proof.
  intros HK LA LR Lx Ly. assert (LT : zlen (transpose A) = K) by now apply zlen_transpose.
  assert (LTR : forall i, 0 <= i < K -> zlen (zget [] (transpose A) i) = K).
  { intros i Hi. rewrite (zget_transpose K) by auto. now rewrite zlen_map. }
  assert (ZT : forall i j, 0 <= i < K -> 0 <= j < K -> zget [] (zget [] (transpose A) j) i = zget [] (zget [] A i) j).
  { intros i j Hi Hj. rewrite (zget_transpose K) by auto. now rewrite (zget_map _ []) by lia. }
  apply ext_parity; try apply dot_reduced; intros m Hm.
  - set (g := 17 ^ (2 * brv m + 1)).
    set (a := fun i l o => at_ (zget [] (zget [] A i) l) (2 * m + o)).
    set (X := fun l o => at_ (zget [] x l) (2 * m + o)). set (Y := fun i o => at_ (zget [] y i) (2 * m + o)).
    transitivity (sum K (fun i => sum K (fun l =>
      pair_mul0 g (pair_mul0 g (a i l 0) (a i l 1) (X l 0) (X l 1)) (pair_mul1 (a i l 0) (a i l 1) (X l 0) (X l 1)) (Y i 0) (Y i 1)))).
    + rewrite (dot_even K) by (auto; now apply zlen_mat_vec). apply sum_cg; [auto|]. intros i Hi.
      rewrite zget_mat_vec by (unfold vec in *; lia). rewrite (dot_even K), (dot_odd K) by auto. fold g.
      rewrite pair_sum0 by auto. unfold a, X, Y. rewrite Z.add_0_r. reflexivity.
    + rewrite sum_swap by auto. rewrite (dot_even K) by (auto; now apply zlen_mat_vec). apply sum_cg; [auto|]. intros l Hl.
      rewrite zget_mat_vec by (unfold vec in *; lia). rewrite (dot_even K), (dot_odd K) by auto. fold g.
      rewrite pair_sum0r by auto. apply sum_cg; [auto|]. intros i Hi. rewrite ZT by auto.
      unfold a, X, Y. rewrite Z.add_0_r. apply cg_of_eq. unfold pair_mul0, pair_mul1. ring.
  - set (g := 17 ^ (2 * brv m + 1)).
    set (a := fun i l o => at_ (zget [] (zget [] A i) l) (2 * m + o)).
    set (X := fun l o => at_ (zget [] x l) (2 * m + o)). set (Y := fun i o => at_ (zget [] y i) (2 * m + o)).
    transitivity (sum K (fun i => sum K (fun l =>
      pair_mul1 (pair_mul0 g (a i l 0) (a i l 1) (X l 0) (X l 1)) (pair_mul1 (a i l 0) (a i l 1) (X l 0) (X l 1)) (Y i 0) (Y i 1)))).
    + rewrite (dot_odd K) by (auto; now apply zlen_mat_vec). apply sum_cg; [auto|]. intros i Hi.
      rewrite zget_mat_vec by (unfold vec in *; lia). rewrite (dot_even K), (dot_odd K) by auto. fold g.
      rewrite pair_sum1 by auto. unfold a, X, Y. rewrite Z.add_0_r. reflexivity.
    + rewrite sum_swap by auto. rewrite (dot_odd K) by (auto; now apply zlen_mat_vec). apply sum_cg; [auto|]. intros l Hl.
      rewrite zget_mat_vec by (unfold vec in *; lia). rewrite (dot_even K), (dot_odd K) by auto. fold g.
      rewrite pair_sum1r by auto. apply sum_cg; [auto|]. intros i Hi. rewrite ZT by auto.
      unfold a, X, Y. rewrite Z.add_0_r. apply cg_of_eq. unfold pair_mul0, pair_mul1. ring.
Qed.

(** *** Vectors *)
Lemma map_NTT_plus u v : zlen u = zlen v -> map NTT (vec_plus u v) = vec_plus (map NTT u) (map NTT v).
Proof.
  unfold vec_plus. intros _. rewrite combine_map, !map_map. apply map_ext. intros [a b]. apply NTT_plus.
Qed.
Lemma map_NTT_inv v : Forall reduced v -> map NTT (map NTT_inv v) = v.
Proof.
  intros R. rewrite map_map. rewrite <- (map_id v) at 2. apply map_ext_in. intros a Ha.
  rewrite Forall_forall in R. now apply NTT_NTT_inv, R.
Qed.
Lemma mat_vec_reduced A u : Forall reduced (mat_vec A u).
Proof. unfold mat_vec. apply Forall_map, Forall_forall. intros. apply dot_reduced. Qed.
Lemma inner_plus K s u v : 0 <= K -> zlen s = K -> zlen u = K -> zlen v = K ->
  inner s (vec_plus u v) = poly_plus (inner s u) (inner s v).
Proof.
  intros HK Ls Lu Lv. rewrite <- !NTT_inv_dot. rewrite map_NTT_plus by lia.
  rewrite (dot_plus_r K) by (rewrite ?zlen_map; auto). apply NTT_inv_plus.
Qed.

(** ** What decryption computes from an honest ciphertext: message plus noise *)
Definition rounded (d : Z) (f : list Z) : list Z := map (Decompress d) (map (Compress d) f).
Lemma rounded_reduced d f : In d [1; 4; 5; 10; 11] -> zlen f = 256 -> reduced (rounded d f).
Proof.
  intros Hd L. split; [unfold rounded; now rewrite !zlen_map|]. unfold rounded. rewrite map_map.
  apply Forall_map, Forall_forall. intros x _. apply Decompress_range; [cbn in Hd; lia|].
  unfold Compress. apply Z.mod_pos_bound, Z.pow_pos_nonneg; cbn in Hd; lia.
Qed.
Lemma rounded_split d f : In d [1; 4; 5; 10; 11] -> zlen f = 256 -> rounded d f = poly_plus f (rounding d f).
Proof. intros Hd L. symmetry. apply plus_minus_cancel. now apply rounded_reduced. Qed.
Lemma rounded_vec d u : In d [1; 4; 5; 10; 11] -> Forall (fun f => zlen f = 256) u ->
  map (rounded d) u = vec_plus u (map (rounding d) u).
Proof.
  intros Hd F. unfold vec_plus. induction F as [|f u Hf Hu IH]; [reflexivity|].
  cbn [map combine]. rewrite IH. now rewrite rounded_split at 1.
Qed.

Lemma vec_plus_lens u v : Forall (fun f => zlen f = 256) (vec_plus u v).
Proof. unfold vec_plus. apply Forall_map, Forall_forall. intros [a b] _. apply poly_plus_reduced. Qed.

Lemma message_plus_noise P A s e y e1 e2 mu : 
  In (du P) [1; 4; 5; 10; 11] -> In (dv P) [1; 4; 5; 10; 11] -> 0 <= k P ->
  zlen A = k P -> (forall i, 0 <= i < k P -> zlen (zget [] A i) = k P) ->
  zlen s = k P -> zlen e = k P -> zlen y = k P -> zlen e1 = k P ->
  let t_hat := vec_plus (mat_vec A (map NTT s)) (map NTT e) in
  let u := vec_plus (map NTT_inv (mat_vec (transpose A) (map NTT y))) e1 in
  let v := poly_plus (poly_plus (NTT_inv (dot t_hat (map NTT y))) e2) mu in
  poly_minus (rounded (dv P) v) (NTT_inv (dot (map NTT s) (map NTT (map (rounded (du P)) u))))
  = poly_plus mu (noise_of P A s e y e1 e2 mu).
Proof.
  intros Hu Hv HK LA LR Ls Le Ly L1 t_hat u v. set (K := k P) in *.
  assert (LT : zlen (transpose A) = K) by now apply zlen_transpose.
  assert (LAs : zlen (mat_vec A (map NTT s)) = K) by now apply zlen_mat_vec.
  assert (LAy : zlen (mat_vec (transpose A) (map NTT y)) = K) by now apply zlen_mat_vec.
  assert (Lu : zlen u = K) by (unfold u; rewrite zlen_vec_plus; rewrite zlen_map; lia).
  unfold noise_of. fold t_hat. fold u. fold v. set (cu := map (rounding (du P)) u). set (cv := rounding (dv P) v).
  assert (Lcu : zlen cu = K) by (unfold cu; now rewrite zlen_map).
  rewrite rounded_split by (auto; apply poly_plus_reduced). fold cv.
  rewrite rounded_vec by (auto; apply vec_plus_lens). fold cu.
  rewrite NTT_inv_dot. rewrite (inner_plus K) by auto.
  assert (Eu : inner s u = poly_plus (NTT_inv (dot (mat_vec A (map NTT s)) (map NTT y))) (inner s e1)).
  { unfold u. rewrite (inner_plus K) by (rewrite ?zlen_map; auto). f_equal.
    rewrite <- NTT_inv_dot. rewrite map_NTT_inv by apply mat_vec_reduced.
    now rewrite (dot_adjoint K) by (rewrite ?zlen_map; auto). }
  assert (Ev : NTT_inv (dot t_hat (map NTT y)) = poly_plus (NTT_inv (dot (mat_vec A (map NTT s)) (map NTT y))) (inner e y)).
  { unfold t_hat. rewrite (dot_plus_l K) by (rewrite ?zlen_map; auto). now rewrite NTT_inv_plus, NTT_inv_dot. }
  rewrite Eu, (inner_plus K) by auto. subst v. rewrite Ev. clearbody cv. clear Eu Ev.
  apply ext_at; [apply poly_minus_reduced|apply poly_plus_reduced|]. intros i Hi.
  repeat ((rewrite poly_plus_at by auto) || (rewrite poly_minus_at by auto)). apply cg_of_eq. ring.
Qed.

(** ** Encodings are read back *)
Lemma slice_left {A} (l r : list A) a b : 0 <= a <= b -> b <= zlen l -> slice (l ++ r) a b = slice l a b.
Proof.
  intros Ha Hb. unfold slice, zlen in *. rewrite skipn_app, firstn_app, skipn_length.
  replace (Z.to_nat (b - a) - (length l - Z.to_nat a))%nat with 0%nat by lia. cbn [firstn]. apply app_nil_r.
Qed.
Lemma decode_concat P d (f : list Z -> list Z) v rest : 0 < d -> 0 <= k P -> zlen v = k P ->
  (forall x, In x v -> zlen (f x) = 32 * d) ->
  decode_vec P d (concat (map f v) ++ rest) = map (fun x => ByteDecode d (f x)) v.
Proof.
  Transparent decode_vec. intros Hd HK Lv Hf. unfold decode_vec. Opaque decode_vec.
  assert (F : Forall (fun r => zlen r = 32 * d) (map f v)) by (apply Forall_map, Forall_forall; exact Hf).
  assert (LC : zlen (concat (map f v)) = 32 * d * k P).
  { rewrite (concat_const (32 * d)); [|lia|exact F]. rewrite zlen_map. lia. }
  apply (zlist_ext []); [rewrite !zlen_map, zlen_range; auto|]. rewrite zlen_map, zlen_range by auto.
  intros i Hi. rewrite zget_map_range by auto. rewrite (zget_map _ []) by lia. f_equal.
  rewrite slice_left by nia. rewrite (slice_concat_const (32 * d)); [|lia|exact F|rewrite zlen_map; lia].
  now rewrite (zget_map _ []) by lia.
Qed.
Lemma decode_encode12 P v rest : 0 <= k P -> zlen v = k P -> Forall reduced v ->
  decode_vec P 12 (concat (map (ByteEncode 12) v) ++ rest) = v.
Proof.
  intros HK Lv R. rewrite Forall_forall in R. rewrite decode_concat; [|lia|auto|auto|].
  - rewrite <- (map_id v) at 2. apply map_ext_in. intros x Hx. destruct (R x Hx) as [L B].
    rewrite ByteDecode_12, fields_ByteEncode; [|lia|exact L|].
    + rewrite <- (map_id x) at 2. apply map_ext_in. intros y Hy. rewrite Forall_forall in B. now apply Z.mod_small, B.
    + eapply Forall_impl; [|exact B]. cbv beta. change (2 ^ 12) with 4096. unfold q. intros; lia.
  - intros x Hx. destruct (R x Hx) as [L _]. apply zlen_ByteEncode; [lia|]. rewrite L. reflexivity.
Qed.
Lemma decode_compressed P d v rest : In d [1; 4; 5; 10; 11] -> 0 <= k P -> zlen v = k P -> Forall (fun f => zlen f = 256) v ->
  map (map (Decompress d)) (decode_vec P d (concat (map (fun f => ByteEncode d (map (Compress d) f)) v) ++ rest)) = map (rounded d) v.
Proof.
  intros Hd HK Lv R. assert (0 < d <= 11) by (cbn in Hd; lia). rewrite Forall_forall in R.
  assert (LE : forall x, In x v -> zlen (ByteEncode d (map (Compress d) x)) = 32 * d).
  { intros x Hx. apply zlen_ByteEncode; [lia|]. rewrite zlen_map, R by auto. lia. }
  rewrite decode_concat; [|lia|auto|auto|exact LE].
  rewrite map_map. apply map_ext_in. intros x Hx. specialize (LE x Hx).
  rewrite ByteDecode_fields by lia. rewrite fields_Compress by (auto; lia). reflexivity.
Qed.
Lemma decode_compressed1 d f : In d [1; 4; 5; 10; 11] -> zlen f = 256 ->
  map (Decompress d) (ByteDecode d (ByteEncode d (map (Compress d) f))) = rounded d f.
Proof.
  intros Hd Lf. assert (0 < d <= 11) by (cbn in Hd; lia).
  assert (LE : zlen (ByteEncode d (map (Compress d) f)) = 32 * d) by (apply zlen_ByteEncode; rewrite ?zlen_map; lia).
  rewrite ByteDecode_fields by lia. rewrite fields_Compress by (auto; lia). reflexivity.
Qed.

(** ** K-PKE: what is decrypted is the message plus the noise *)
Lemma noise_vec_len P eta s f : 0 <= k P -> zlen (noise_vec P eta s f) = k P.
Proof. intros. unfold noise_vec. now rewrite zlen_map, zlen_range. Qed.

Lemma G_fst_len m : bytes m -> zlen (fst (G m)) = 32.
Proof. intros B. unfold G. cbn [fst]. rewrite zlen_slice; rewrite ?zlen_SHA3_512 by exact B; lia. Qed.

Lemma G_bytes_fst m : bytes m -> bytes (fst (G m)).
Proof. intros B. unfold G. cbn [fst]. now apply bytes_slice', bytes_SHA3_512. Qed.

Lemma pke_noisy p b d ek dk m r c : let P := set_of p in
  bytes d -> 0 <= b -> K_PKE_KeyGen P b d = Some (ek, dk) -> K_PKE_Encrypt P b ek m r = Some c ->
  exists nz, pke_noise P b d m r = Some nz /\
    K_PKE_Decrypt P dk c = ByteEncode 1 (map (Compress 1) (poly_plus (map (Decompress 1) (ByteDecode 1 m)) nz)).
Proof.
  intros P Bd Hb EK EE. pose proof (k_range p) as HK. fold P in HK. destruct (d_in p) as [Du Dv]. fold P in Du, Dv.
  assert (BG : bytes (d ++ [k P])) by (apply Forall_app; split; [exact Bd|repeat constructor; lia]).
  pose proof (G_fst_len _ BG) as Lr. pose proof (G_bytes_fst _ BG) as Br.
  Transparent K_PKE_KeyGen. unfold K_PKE_KeyGen in EK. Opaque K_PKE_KeyGen. unfold pke_noise.
  destruct (G (d ++ [k P])) as [rho sigma]. cbn [fst] in Lr, Br.
  destruct (ExpandA P b rho) as [A|] eqn:EA; [|discriminate]. cbv zeta in EK. injection EK as <- <-.
  destruct (ExpandA_rows p b rho A Br Hb EA) as [[LA RA] _].
  rewrite MLKEM_K_k in LA, RA. fold P in LA, RA. eexists. split; [reflexivity|].
  set (s := noise_vec P (eta1 P) sigma 0) in *. set (e := noise_vec P (eta1 P) sigma (k P)) in *.
  set (t_hat := vec_plus (mat_vec A (map NTT s)) (map NTT e)) in *.
  assert (Ls : zlen s = k P) by (apply noise_vec_len; lia). assert (Le : zlen e = k P) by (apply noise_vec_len; lia).
  assert (LAs : zlen (mat_vec A (map NTT s)) = k P) by (apply zlen_mat_vec; exact LA).
  assert (Lt : zlen t_hat = k P) by (unfold t_hat; rewrite zlen_vec_plus; rewrite ?zlen_map; lia).
  Transparent K_PKE_Encrypt. unfold K_PKE_Encrypt in EE. Opaque K_PKE_Encrypt. cbv zeta in EE.
  rewrite decode_encode12 in EE; [|lia|exact Lt|apply vec_plus_reduced].
  assert (LE : zlen (concat (map (ByteEncode 12) t_hat)) = 384 * k P).
  { rewrite (zlen_concat_enc (k P) 12 (fun x => x)); [lia|lia|exact Lt|].
    intros x Hx. pose proof (vec_plus_reduced (mat_vec A (map NTT s)) (map NTT e)) as R. rewrite Forall_forall in R. now apply R. }
  replace (slice (concat (map (ByteEncode 12) t_hat) ++ rho) (384 * k P) (384 * k P + 32)) with rho in EE.
  2:{ rewrite <- LE. replace 32 with (zlen rho) by lia. symmetry. now apply slice_app_r. }
  rewrite EA in EE. set (y := noise_vec P (eta1 P) r 0) in *. set (e1 := noise_vec P (eta2 P) r (k P)) in *.
  set (e2 := SamplePolyCBD (eta2 P) (PRF (eta2 P) r (2 * k P))) in *. set (mu := map (Decompress 1) (ByteDecode 1 m)) in *.
  assert (Ly : zlen y = k P) by (apply noise_vec_len; lia). assert (L1 : zlen e1 = k P) by (apply noise_vec_len; lia).
  set (u := vec_plus _ e1) in *. set (v := poly_plus _ mu) in *. injection EE as <-.
  assert (Lu : zlen u = k P).
  { unfold u. rewrite zlen_vec_plus; rewrite zlen_map, (zlen_mat_vec (k P)); auto; rewrite ?L1; auto; apply zlen_transpose; auto; lia. }
  assert (Fu : Forall (fun f => zlen f = 256) u) by apply vec_plus_lens.
  assert (Lv : zlen v = 256) by apply poly_plus_reduced.
  set (c1 := concat (map (fun f => ByteEncode (du P) (map (Compress (du P)) f)) u)). set (c2 := ByteEncode (dv P) (map (Compress (dv P)) v)).
  assert (Lc1 : zlen c1 = 32 * du P * k P).
  { unfold c1. apply (zlen_concat_enc (k P) (du P) (map (Compress (du P)))); auto; [cbn in Du; lia|].
    intros x Hx. rewrite zlen_map. rewrite Forall_forall in Fu. now apply Fu. }
  assert (Lc2 : zlen c2 = 32 * dv P).
  { unfold c2. apply zlen_ByteEncode; [cbn in Dv; lia|]. rewrite zlen_map, Lv. lia. }
  Transparent K_PKE_Decrypt. unfold K_PKE_Decrypt. Opaque K_PKE_Decrypt. cbv zeta.
  replace (slice (c1 ++ c2) 0 (32 * du P * k P)) with (c1 ++ []) by (rewrite app_nil_r, <- Lc1; symmetry; now apply slice_app_l).
  replace (slice (c1 ++ c2) (32 * du P * k P) (32 * (du P * k P + dv P))) with c2.
  2:{ replace (32 * (du P * k P + dv P)) with (zlen c1 + zlen c2) by lia. rewrite <- Lc1. symmetry. now apply slice_app_r. }
  rewrite <- (app_nil_r (concat (map (ByteEncode 12) (map NTT s)))).
  rewrite decode_encode12; [|lia|rewrite zlen_map; exact Ls|apply map_NTT_reduced].
  unfold c1, c2. rewrite decode_compressed by (auto; lia). rewrite decode_compressed1 by auto.
  unfold u, v, t_hat. rewrite message_plus_noise; auto; [lia|].
  intros i Hi. apply (RA i Hi).
Qed.

(** ** When the noise is harmless *)
Lemma poly_plus_entry f g i : 0 <= i < 256 -> at_ (poly_plus f g) i = (at_ f i + at_ g i) mod q.
Proof.
  intros Hi. Transparent poly_plus. unfold poly_plus. Opaque poly_plus. unfold at_ at 1.
  match goal with |- context [nth _ ?l _] => fold (zget 0 l i) end. now rewrite zget_map_range.
Qed.
Lemma bit_survives b x : 0 <= b <= 1 ->
  (Compress 1 ((1665 * b + x) mod q) = b <-> -832 <= centred x /\ (centred x <= 831 \/ b = 0 /\ centred x = 832)).
Proof.
  intros Hb. unfold centred. set (c := (x + 1664) mod q - 1664).
  assert (Hc : -1664 <= c <= 1664) by (unfold c; pose proof (Z.mod_pos_bound (x + 1664) q eq_refl); unfold q in *; lia).
  assert (E : (1665 * b + x) mod q = (1665 * b + c) mod q).
  { unfold c. replace (1665 * b + ((x + 1664) mod q - 1664)) with ((1665 * b - 1664) + (x + 1664) mod q) by ring.
    rewrite Zplus_mod_idemp_r. f_equal. ring. }
  rewrite E. clearbody c. clear E. unfold Compress, q. change (2 ^ 1) with 2.
  assert (D : b = 0 \/ b = 1) by lia. destruct D as [-> | ->].
  - rewrite Z.mul_0_r, Z.add_0_l. destruct (Z.lt_ge_cases c 0) as [Hn|Hp].
    + replace (c mod 3329) with (c + 3329) by (apply (Z.mod_unique_pos _ _ (-1)); lia).
      split.
      * intros H. destruct (Z.lt_ge_cases c (-832)) as [Hl|Hl]; [exfalso|lia].
        replace ((2 * 2 * (c + 3329) + 3329) / (2 * 3329)) with 1 in H; [discriminate|].
        apply (Z.div_unique_pos _ _ _ (2 * 2 * (c + 3329) + 3329 - 6658)); lia.
      * intros H. replace ((2 * 2 * (c + 3329) + 3329) / (2 * 3329)) with 2; [reflexivity|].
        apply (Z.div_unique_pos _ _ _ (2 * 2 * (c + 3329) + 3329 - 2 * 6658)); lia.
    + rewrite (Z.mod_small c) by lia. split.
      * intros H. destruct (Z.lt_ge_cases 832 c) as [Hl|Hl]; [exfalso|lia].
        replace ((2 * 2 * c + 3329) / (2 * 3329)) with 1 in H; [discriminate|].
        apply (Z.div_unique_pos _ _ _ (2 * 2 * c + 3329 - 6658)); lia.
      * intros H. replace ((2 * 2 * c + 3329) / (2 * 3329)) with 0; [reflexivity|].
        apply (Z.div_unique_pos _ _ _ (2 * 2 * c + 3329)); lia.
  - rewrite Z.mul_1_r. destruct (Z.eq_dec c 1664) as [->|Hne].
    + change ((1665 + 1664) mod 3329) with 0. split; [discriminate|lia].
    + rewrite (Z.mod_small (1665 + c)) by lia. split.
      * intros H. destruct (Z.lt_ge_cases c (-832)) as [Hl|Hl]; [exfalso|].
        { replace ((2 * 2 * (1665 + c) + 3329) / (2 * 3329)) with 0 in H; [discriminate|].
          apply (Z.div_unique_pos _ _ _ (2 * 2 * (1665 + c) + 3329)); lia. }
        destruct (Z.lt_ge_cases 831 c) as [Hm|Hm]; [exfalso|lia].
        replace ((2 * 2 * (1665 + c) + 3329) / (2 * 3329)) with 2 in H; [discriminate|].
        apply (Z.div_unique_pos _ _ _ (2 * 2 * (1665 + c) + 3329 - 2 * 6658)); lia.
      * intros H. replace ((2 * 2 * (1665 + c) + 3329) / (2 * 3329)) with 1; [reflexivity|].
        apply (Z.div_unique_pos _ _ _ (2 * 2 * (1665 + c) + 3329 - 6658)); lia.
Qed.
Lemma mu_at m i : zlen m = 32 -> 0 <= i < 256 ->
  at_ (map (Decompress 1) (ByteDecode 1 m)) i = 1665 * Z.b2z (Z.testbit (at_ m (i / 8)) (i mod 8)).
Proof.
  intros Hm Hi. rewrite ByteDecode_fields by lia. unfold at_ at 1.
  match goal with |- context [nth _ ?l _] => fold (zget 0 l i) end.
  rewrite (zget_map _ 0) by (rewrite zlen_fields; lia). rewrite fields1_eq by auto.
  now destruct (Z.testbit _ _).
Qed.
Lemma b2z_false b : Z.b2z b = 0 <-> b = false.
Proof. destruct b; cbn; split; congruence. Qed.
Lemma decode_iff m nz : zlen m = 32 -> bytes m ->
  (ByteEncode 1 (map (Compress 1) (poly_plus (map (Decompress 1) (ByteDecode 1 m)) nz)) = m <-> harmless_noise m nz).
Proof.
  intros Hm HB. set (w := poly_plus _ nz).
  assert (Lw : zlen w = 256) by apply poly_plus_reduced.
  assert (C : forall i, 0 <= i < 256 -> zget 0 (map (Compress 1) w) i
            = Compress 1 ((1665 * Z.b2z (Z.testbit (at_ m (i / 8)) (i mod 8)) + at_ nz i) mod q)).
  { intros i Hi. rewrite zget_Compress by lia. f_equal. change (zget 0 w i) with (at_ w i).
    unfold w. rewrite poly_plus_entry by auto. now rewrite mu_at. }
  assert (X : ByteEncode 1 (map (Compress 1) w) = m <-> map (Compress 1) w = fields 1 m).
  { split.
    - intros E. rewrite <- (fields_Compress 1 w) by (auto; lia). now rewrite E.
    - intros E. rewrite E. apply ByteEncode_fields; auto; lia. }
  rewrite X. clear X. split.
  - intros E i Hi. change n with 256 in Hi. specialize (C i Hi). rewrite E, fields1_eq in C by auto. symmetry in C.
    apply bit_survives in C; [|destruct (Z.testbit _ _); cbn; lia]. now rewrite b2z_false in C.
  - intros Hh. apply (zlist_ext 0); [now rewrite zlen_map, zlen_fields|]. rewrite zlen_map, Lw. intros i Hi.
    rewrite C, fields1_eq by auto. apply bit_survives; [destruct (Z.testbit _ _); cbn; lia|].
    rewrite b2z_false. apply Hh. exact Hi.
Qed.

Theorem pke_correct_iff p b d ek dk m r c : let P := set_of p in
  bytes d -> 0 <= b -> zlen m = 32 -> bytes m ->
  K_PKE_KeyGen P b d = Some (ek, dk) -> K_PKE_Encrypt P b ek m r = Some c ->
  exists nz, pke_noise P b d m r = Some nz /\ (K_PKE_Decrypt P dk c = m <-> harmless_noise m nz).
Proof.
  intros P Bd Hb Lm Bm EK EE. destruct (pke_noisy p b d ek dk m r c Bd Hb EK EE) as (nz & E & D).
  exists nz. split; [exact E|]. fold P in D. rewrite D. now apply decode_iff.
Qed.

(** ** The KEM *)
Lemma small_harmless m nz : small_noise nz -> harmless_noise m nz.
Proof. intros H i Hi. specialize (H i Hi). lia. Qed.

Lemma keygen_rho_ek p b d z ek dk : bytes d -> bytes z -> zlen z = 32 -> 0 <= b ->
  ML_KEM_KeyGen_internal (set_of p) b d z = Some (ek, dk) -> ek_rho (set_of p) ek = keygen_rho (set_of p) d.
Proof.
  intros Bd Bz Lz Hb E. destruct (keygen_keys p b d z ek dk Bd Bz Lz Hb E) as (L & _).
  pose proof (k_range p) as HK. set (P := set_of p) in *. unfold ML_KEM_KeyGen_internal in E.
  assert (BG : bytes (d ++ [k P])) by (apply Forall_app; split; [exact Bd|repeat constructor; lia]).
  pose proof (G_fst_len _ BG) as Lr. unfold keygen_rho, ek_rho.
  Transparent K_PKE_KeyGen. unfold K_PKE_KeyGen in E. Opaque K_PKE_KeyGen.
  destruct (G (d ++ [k P])) as [rho sigma]. cbn [fst] in Lr |- *.
  destruct (ExpandA P b rho) as [A|]; [|discriminate]. cbv zeta in E. injection E as <- <-.
  rewrite zlen_app in L. unfold ek_size in L. apply slice_app_r; lia.
Qed.

Lemma kem_correct p b d z msg ek dk K c nz : let P := set_of p in
  bytes d -> bytes z -> zlen z = 32 -> bytes msg -> zlen msg = 32 -> 0 <= b ->
  ML_KEM_KeyGen_internal P b d z = Some (ek, dk) -> ML_KEM_Encaps_internal P b ek msg = Some (K, c) ->
  kem_noise P b d msg = Some nz -> harmless_noise msg nz -> ML_KEM_Decaps_internal P b dk c = Some K.
Proof.
  intros P Bd Bz Lz Bm Lm Hb EK EE EN Hh. pose proof (k_range p) as HK. fold P in HK.
  unfold kem_noise in EN. unfold ML_KEM_KeyGen_internal in EK.
  destruct (K_PKE_KeyGen P b d) as [[ek' dkp]|] eqn:E; [|discriminate]. injection EK as -> <-.
  destruct (keygen_out p b d ek dkp Bd E Hb) as (L1 & B1 & L2 & B2). fold P in L1, L2.
  assert (LH : zlen (Spec203.H ek) = 32) by now apply zlen_SHA3_256.
  destruct (dk_parts P dkp ek (Spec203.H ek) z) as (S1 & S2 & S3 & S4); auto; [lia|].
  unfold ML_KEM_Decaps_internal. cbv zeta. rewrite S1, S2, S3, S4. clear S1 S2 S3 S4.
  unfold ML_KEM_Encaps_internal in EE. destruct (G (msg ++ Spec203.H ek)) as [K' r] eqn:EG. cbn [snd] in EN.
  destruct (K_PKE_Encrypt P b ek msg r) as [c'|] eqn:EC; [|discriminate]. injection EE as -> ->.
  destruct (pke_correct_iff p b d ek dkp msg r c Bd Hb Lm Bm E EC) as (nz' & EN' & HD). fold P in EN', HD.
  rewrite EN in EN'. injection EN' as <-. apply HD in Hh. rewrite Hh, EG, EC.
  destruct (list_eq_dec Z.eq_dec c c); [reflexivity|congruence].
Qed.

(** ** Memory after a call *)
Lemma contains_kept m m' outs a l : contains m a l -> (forall x, m' x = overwrite m outs x) ->
  (forall b o, In (b, o) outs -> apart (b, zlen o) (a, zlen l)) -> contains m' a l.
Proof.
  intros C H A i Hi. rewrite H, overwrite_outside; [now apply C|]. intros b o Ho.
  specialize (A b o Ho). unfold apart in A. cbn [fst snd] in A. lia.
Qed.
Lemma overwrite_some m outs x : m x <> None -> overwrite m outs x <> None.
Proof. intros H. induction outs as [|[a l] outs IH]; cbn [overwrite]; [exact H|]. destruct (_ && _); [discriminate|exact IH]. Qed.
Lemma accessible_kept m m' outs a nn : accessible m a nn -> (forall x, m' x = overwrite m outs x) -> accessible m' a nn.
Proof. intros A H x Hx. rewrite H. now apply overwrite_some, A. Qed.
Lemma byte_kept m m' outs : byte_memory m -> (forall x, m' x = overwrite m outs x) ->
  (forall b o, In (b, o) outs -> bytes o) -> byte_memory m'.
Proof.
  intros B H O x v. rewrite H. clear H. induction outs as [|[a l] outs IH]; cbn [overwrite]; [apply B|].
  destruct ((a <=? x) && (x <? a + zlen l)) eqn:E.
  - intros E'. injection E' as <-. specialize (O a l (or_introl eq_refl)). unfold bytes in O. rewrite Forall_forall in O.
    apply O. apply nth_In. unfold zlen in E. lia.
  - apply IH. intros b o Ho. apply (O b o). now right.
Qed.

Lemma apart_sym x y : apart x y -> apart y x.
Proof. unfold apart. tauto. Qed.

Lemma honest_exchange {bo : byte_order} J1 J2 J3 fuel p m pk sk coins ct ss coins2 ss2 d z msg nz : let P := set_of p in
  exchange_memory P m pk sk coins ct ss coins2 ss2 d z msg ->
  kem_noise P (3 + Z.of_nat fuel) d msg = Some nz -> harmless_noise msg nz ->
  exists m1 m2 m3 K, 
    val (crypto_kem_keypair_derand J1 fuel p m pk sk coins) = Ok (0, m1) /\
    val (crypto_kem_enc_derand J2 fuel p m1 ct ss pk coins2) = Ok (0, m2) /\
    val (crypto_kem_dec J3 fuel p m2 ss2 ct sk) = Ok (0, m3) /\
    zlen K = 32 /\ contains m3 ss K /\ contains m3 ss2 K.
Proof.
  intros P (Bm & A1 & A2 & A3 & A4 & A5 & C1 & Ld & Lz & C2 & Lm & Ap) EN Hh.
  pose proof (k_range p) as HK. fold P in HK.
  unfold all_apart in Ap. inversion_clear Ap as [|? ? Fpk Ap1]. inversion_clear Ap1 as [|? ? Fsk Ap2].
  inversion_clear Ap2 as [|? ? Fco Ap3]. inversion_clear Ap3 as [|? ? Fct Ap4]. inversion_clear Ap4 as [|? ? Fss Ap5].
  inversion_clear Ap5 as [|? ? Fc2 _]. 
  repeat match goal with F : Forall _ (_ :: _) |- _ => apply Forall_cons_iff in F as [? F] end.
  assert (KC : keypair_call P m pk sk coins d z).
  { refine (conj Bm (conj A1 (conj A2 (conj C1 (conj Ld (conj Lz _)))))). apply apart3; assumption. }
  destruct (keypair_call_bytes _ _ _ _ _ _ _ KC) as [Bd Bz].
  assert (Bmsg : bytes msg) by exact (contains_bytes _ _ _ Bm C2).
  set (b := 3 + Z.of_nat fuel) in *. assert (Hb : 0 <= b) by (unfold b; lia).
  assert (EK : exists ek dk, ML_KEM_KeyGen_internal P b d z = Some (ek, dk)).
  { unfold kem_noise in EN. unfold ML_KEM_KeyGen_internal. destruct (K_PKE_KeyGen P b d) as [[ek dkp]|]; [eauto|discriminate]. }
  destruct EK as (ek & dk & EK).
  destruct (keygen_keys p b d z ek dk Bd Bz Lz Hb EK) as (Le & Be & Ldk & Bdk & _ & HM & HH & _). fold P in Le, Ldk, HM, HH.
  pose proof (keypair_derand_exact J1 fuel p m pk sk coins d z KC) as R1. fold P b in R1. rewrite EK in R1.
  destruct R1 as (m1 & R1 & M1).
  assert (K1 : contains m1 pk ek) by exact (stored_first _ _ _ _ _ M1).
  assert (K2 : contains m1 sk dk) by (refine (stored_second _ _ _ _ _ _ _ _ M1); now rewrite Le, Ldk).
  assert (EC : enc_call P m1 ct ss pk coins2 ek msg).
  { refine (conj _ (conj _ (conj _ (conj K1 (conj Le (conj _ (conj Lm _))))))).
    - refine (byte_kept _ _ _ Bm M1 _). intros x o [E|[E|[]]]; injection E as <- <-; assumption.
    - exact (accessible_kept _ _ _ _ _ A3 M1).
    - exact (accessible_kept _ _ _ _ _ A4 M1).
    - refine (contains_kept _ _ _ _ _ C2 M1 _). intros x o [E|[E|[]]]; injection E as <- <-; rewrite Lm, ?Le, ?Ldk; assumption.
    - apply apart4; first [assumption|apply apart_sym; assumption]. }
  assert (EE : exists K c, ML_KEM_Encaps_internal P b ek msg = Some (K, c)).
  { pose proof (keygen_rho_ek p b d z ek dk Bd Bz Lz Hb EK) as ER. fold P in ER.
    destruct (proj2 (encaps_iff P b ek msg ltac:(lia))) as [[K c] EE]; [|eauto].
    rewrite ER. apply (keygen_iff P b d z); [lia|eauto]. }
  destruct EE as (K & c & EE).
  destruct (encaps_out p b ek msg K c Be Bmsg Le Lm Hb EE) as (LK & BK & Lc & Bc). fold P in Lc.
  pose proof (enc_derand_exact J2 fuel p m1 ct ss pk coins2 ek msg EC HM) as R2. fold P b in R2. rewrite EE in R2.
  destruct R2 as (m2 & R2 & M2).
  assert (K3 : contains m2 ct c) by exact (stored_first _ _ _ _ _ M2).
  assert (K4 : contains m2 ss K) by (refine (stored_second _ _ _ _ _ _ _ _ M2); now rewrite LK, Lc).
  assert (DC : dec_call P m2 ss2 ct sk dk c).
  { refine (conj _ (conj _ (conj _ (conj Ldk (conj K3 (conj Lc _)))))).
    - refine (byte_kept _ _ _ (proj1 EC) M2 _). intros x o [E|[E|[]]]; injection E as <- <-; assumption.
    - exact (accessible_kept _ _ _ _ _ (accessible_kept _ _ _ _ _ A5 M1) M2).
    - refine (contains_kept _ _ _ _ _ K2 M2 _). intros x o [E|[E|[]]]; injection E as <- <-; rewrite ?LK, ?Lc, ?Ldk; now apply apart_sym.
    - apply apart3; first [assumption|apply apart_sym; assumption]. }
  pose proof (dec_exact J3 fuel p m2 ss2 ct sk dk c DC HH) as R3. fold P b in R3.
  pose proof (kem_correct p b d z msg ek dk K c nz Bd Bz Lz Bmsg Lm Hb EK EE EN Hh) as ED. fold P in ED. rewrite ED in R3.
  destruct R3 as (m3 & R3 & M3).
  exists m1, m2, m3, K. refine (conj R1 (conj R2 (conj R3 (conj LK (conj _ _))))).
  - refine (contains_kept _ _ _ _ _ K4 M3 _). intros x o [E|[]]. injection E as <- <-. rewrite LK. now apply apart_sym.
  - exact (stored_first _ _ _ _ _ M3).
Qed.
