(** * Proofs for C71 *)

From Coq Require Import ZArith Zpow_facts List Bool Lia.
From Verif Require Import CSem ModelPython ModelGen ModelArith ModelA64Asm ModelX86Asm SpecPython Spec202 Spec203.
Import ListNotations.
Open Scope Z_scope.
Ltac Zify.zify_post_hook ::= idtac.

Lemma round_near p s : 0 < s -> Z.abs (2 * (round (p, s) * s - p)) <= s.
Proof.
  intros Hs. unfold round. cbn [fst snd].
  pose proof (Z.div_mod p s ltac:(lia)) as E. pose proof (Z.mod_pos_bound p s Hs).
  set (n := p / s) in *. set (m := p mod s) in *.
  destruct (Z.compare_spec (2 * m) s); try destruct (Z.even n); nia.
Qed.

Lemma round_to_even_near p s : 0 < s ->
  exists t, round_to_even (p, s) = 2 * t /\ Z.abs (2 * t * s - p) <= s.
Proof.
  intros Hs. pose proof (round_near p s Hs) as Hn. unfold round_to_even, int_le. cbn [fst snd].
  set (rt := round (p, s)) in *.
  pose proof (Z.div_mod rt 2 ltac:(lia)) as E. pose proof (Z.mod_pos_bound rt 2 ltac:(lia)).
  set (h := rt / 2) in *.
  destruct (rt mod 2 =? 0) eqn:P.
  - apply Z.eqb_eq in P. exists h. split; [lia|]. replace (2 * h) with rt by lia. lia.
  - apply Z.eqb_neq in P. assert (rt = 2 * h + 1) by lia.
    destruct (rt * s <=? p) eqn:L; [apply Z.leb_le in L; exists (h + 1)|apply Z.leb_gt in L; exists h];
      (split; [lia|]).
    + replace (2 * (h + 1) * s) with (rt * s + s) by (rewrite H0; ring). lia.
    + replace (2 * h * s) with (rt * s - s) by (rewrite H0; ring). lia.
Qed.

(** An even multiple that is near to the rounded quotient is near to the quotient itself. *)
Lemma near_exact div n t : double_precision div -> Z.abs n < 2 ^ 53 -> Z.even n = true ->
  Z.abs (2 * t * snd (div n 3329) - fst (div n 3329)) <= snd (div n 3329) ->
  Z.abs (2 * t * 3329 - n) < 3329.
Proof.
  intros D Hn He Ht. pose proof (D n 3329 Hn ltac:(lia)) as Hd. destruct (div n 3329) as [p s].
  cbn [fst snd] in Ht. destruct Hd as [Hs Hd].
  assert (A : Z.abs (p * 3329 - n * s) < s).
  { assert (Z.abs n * s < 2 ^ 53 * s) by nia. change (2 ^ 53) with 9007199254740992 in *. nia. }
  assert (B : Z.abs ((2 * t * 3329 - n) * s) < 3330 * s).
  { replace ((2 * t * 3329 - n) * s) with ((2 * t * s - p) * 3329 + (p * 3329 - n * s)) by ring. lia. }
  rewrite Z.abs_mul, (Z.abs_eq s) in B by lia.
  assert (C : Z.abs (2 * t * 3329 - n) < 3330) by nia.
  apply Z.even_spec in He. destruct He as [m ->].
  assert (2 * t * 3329 - 2 * m = 2 * (t * 3329 - m)) by ring. lia.
Qed.

Lemma near_unique n t : Z.abs (2 * t * 3329 - n) < 3329 -> t = (n + 3329) / 6658.
Proof. intros H. apply Z.div_unique with (n + 3329 - 6658 * t); lia. Qed.

(** signed_reduce *)
Definition centre (a : Z) : Z := (a + 1664) mod 3329 - 1664.

Lemma signed_reduce_centre div a : double_precision div -> signed_reduce div a = centre a.
Proof.
  intros D. unfold signed_reduce, int_ge, centre. change modulus with 3329.
  pose proof (D 3329 2 ltac:(lia) ltac:(lia)) as Hd. destruct (div 3329 2) as [p s].
  cbn [fst snd]. destruct Hd as [Hs Hd]. change (Z.abs 3329) with 3329 in Hd.
  change (2 ^ 53) with 9007199254740992 in Hd.
  pose proof (Z.div_mod a 3329 ltac:(lia)) as E. pose proof (Z.mod_pos_bound a 3329 ltac:(lia)).
  set (k := a / 3329) in *. set (c := a mod 3329) in *.
  assert (M : Z.abs (p * 2 - 3329 * s) < s) by lia.
  destruct (p <=? c * s) eqn:L.
  - apply Z.leb_le in L. assert (1664 < c) by nia.
    replace (a + 1664) with (c + 1664 - 3329 + (k + 1) * 3329) by lia.
    rewrite Z.mod_add, Z.mod_small by lia. lia.
  - apply Z.leb_gt in L. assert (c < 1665) by nia.
    replace (a + 1664) with (c + 1664 + k * 3329) by lia.
    rewrite Z.mod_add, Z.mod_small by lia. lia.
Qed.

Lemma centre_centred a : centred a (centre a).
Proof.
  unfold centred, centre. pose proof (Z.mod_pos_bound (a + 1664) 3329 ltac:(lia)). split; [|lia].
  rewrite Zminus_mod_idemp_l. f_equal. lia.
Qed.

Lemma signed_reduce_out div a : double_precision div -> centred a (signed_reduce div a).
Proof. intros D. rewrite signed_reduce_centre by auto. apply centre_centred. Qed.

(** bitreverse *)
Lemma bitreverse_from_out n : forall r i, bitreverse_from r i n = r * 2 ^ Z.of_nat n + bitreverse_from 0 i n.
Proof.
  induction n as [|n IH]; intros r i; cbn [bitreverse_from]; [cbn; lia|].
  rewrite (IH (2 * r + _)), (IH (2 * 0 + _)). rewrite Nat2Z.inj_succ, Z.pow_succ_r by lia. ring.
Qed.

Lemma land_1 i : Z.land i 1 = Z.b2z (Z.testbit i 0).
Proof. change 1 with (Z.ones 1) at 1. rewrite Z.land_ones by lia. now rewrite Z.bit0_mod. Qed.

Lemma bitreverse_S i n : bitreverse i (S n) = Z.b2z (Z.testbit i 0) * 2 ^ Z.of_nat n + bitreverse (Z.shiftr i 1) n.
Proof.
  unfold bitreverse. cbn [bitreverse_from]. rewrite bitreverse_from_out, land_1. f_equal. 
Qed.

Lemma bitreverse_range n : forall i, 0 <= bitreverse i n < 2 ^ Z.of_nat n.
Proof.
  induction n as [|n IH]; intros i; [cbn; lia|].
  rewrite bitreverse_S, Nat2Z.inj_succ, Z.pow_succ_r by lia. specialize (IH (Z.shiftr i 1)).
  destruct (Z.testbit i 0); cbn [Z.b2z]; lia.
Qed.

Lemma bitreverse_bits n : forall i j, 0 <= j < Z.of_nat n ->
  Z.testbit (bitreverse i n) j = Z.testbit i (Z.of_nat n - 1 - j).
Proof.
  induction n as [|n IH]; intros i j Hj; [lia|].
  rewrite bitreverse_S. pose proof (bitreverse_range n (Z.shiftr i 1)) as B.
  destruct (Z.eq_dec j (Z.of_nat n)) as [->|N].
  - replace (Z.of_nat (S n) - 1 - Z.of_nat n) with 0 by lia.
    apply Z.b2z_inj. rewrite Z.testbit_spec' by lia.
    rewrite Z.div_add_l, (Z.div_small (bitreverse _ _)) by lia.
    now destruct (Z.testbit i 0).
  - assert (0 <= j < Z.of_nat n) by lia.
    rewrite <- (Z.mod_pow2_bits_low _ (Z.of_nat n) j) by lia.
    rewrite Z.add_comm, Z.mod_add, Z.mod_small by lia.
    rewrite IH, Z.shiftr_spec by lia. f_equal. lia.
Qed.

Lemma bitreverse_out i n : 0 <= bitreverse i n < 2 ^ Z.of_nat n /\
  forall j, 0 <= j < Z.of_nat n -> Z.testbit (bitreverse i n) j = Z.testbit i (Z.of_nat n - 1 - j).
Proof. split; [apply bitreverse_range|apply bitreverse_bits]. Qed.

(** pow *)
Lemma pow_pos_out b m e : 0 < m -> pow_pos b e m = b ^ Zpos e mod m.
Proof.
  intros Hm. induction e as [e IH|e IH|]; cbn [pow_pos].
  - rewrite IH. rewrite <- Zmult_mod, Zmult_mod_idemp_l.
    f_equal. rewrite Pos2Z.inj_xI, Z.pow_add_r, Z.pow_1_r by lia.
    replace (2 * Zpos e) with (Zpos e + Zpos e) by lia. now rewrite Z.pow_add_r by lia.
  - rewrite IH. rewrite <- Zmult_mod. f_equal. rewrite Pos2Z.inj_xO.
    replace (2 * Zpos e) with (Zpos e + Zpos e) by lia. now rewrite Z.pow_add_r by lia.
  - now rewrite Z.pow_1_r.
Qed.

Lemma pow3_out b e m : 0 < m -> 0 <= e -> pow3 b e m = b ^ e mod m.
Proof. intros Hm He. destruct e as [|e|e]; [reflexivity|now apply pow_pos_out|lia]. Qed.

Lemma pow3_neg b c e m : 0 < m -> invmod (b mod m) m = c -> (b * c) mod m = 1 mod m -> 0 <= e ->
  (pow3 b (- e) m * b ^ e) mod m = 1 mod m.
Proof.
  intros Hm Hc Hbc He. destruct e as [|e|e]; [|cbn [pow3 Z.opp]|lia].
  - cbn. now rewrite Z.mul_1_r, Zmod_mod.
  - rewrite Hc, pow_pos_out, Zmult_mod_idemp_l, <- Z.pow_mul_l, (Z.mul_comm c b) by lia.
    rewrite Zpower_mod, Hbc, <- Zpower_mod by lia. now rewrite Z.pow_1_l by lia.
Qed.

(** prepare_root_for_barrett *)
Lemma barrett_twin_bound r t : Z.abs r <= 1664 -> Z.abs (2 * t * 3329 - 2 ^ 16 * r) < 3329 -> barrett_twin r t.
Proof. intros Hr H. split; [|exact H]. change (2 ^ 16) with 65536 in H. change (2 ^ 15) with 32768. lia. Qed.

Lemma barrett_out div root : double_precision div ->
  centred root (fst (prepare_root_for_barrett div root)) /\
  barrett_twin (fst (prepare_root_for_barrett div root)) (snd (prepare_root_for_barrett div root)).
Proof.
  intros D. unfold prepare_root_for_barrett. cbn [fst snd].
  pose proof (signed_reduce_out div root D) as C. set (r := signed_reduce div root) in *.
  split; [exact C|]. destruct C as [_ C]. change modulus with 3329.
  apply barrett_twin_bound; [exact C|]. rewrite (Z.mul_comm (2 ^ 16) r).
  apply (near_exact div); [exact D|change (2 ^ 16) with 65536; change (2 ^ 53) with 9007199254740992; lia| |].
  - change (2 ^ 16) with (2 * 32768). rewrite Z.mul_assoc, (Z.mul_comm r 2), <- Z.mul_assoc. now rewrite Z.even_mul.
  - pose proof (D (r * 2 ^ 16) 3329) as Hd.
    destruct (div (r * 2 ^ 16) 3329) as [p s]. cbn [fst snd].
    destruct Hd as [Hs _]; [change (2 ^ 16) with 65536; change (2 ^ 53) with 9007199254740992; lia|lia|].
    destruct (round_to_even_near p s Hs) as (t & E & B). rewrite E, (Z.mul_comm 2 t), Z.div_mul by lia. exact B.
Qed.

Definition barrett_pair (root : Z) : Z * Z :=
  let r := centre root in (r, (r * 65536 + 3329) / 6658).

Lemma barrett_exact div root : double_precision div -> prepare_root_for_barrett div root = barrett_pair root.
Proof.
  intros D. destruct (barrett_out div root D) as [_ [_ B]]. unfold barrett_pair. rewrite <- (signed_reduce_centre div) by exact D.
  rewrite (surjective_pairing (prepare_root_for_barrett div root)). f_equal.
  apply near_unique. rewrite (Z.mul_comm _ 65536). exact B.
Qed.

(** prepare_root_for_montmul *)
Lemma signed_reduce_u16_out x : - 2 ^ 15 <= signed_reduce_u16 x < 2 ^ 15 /\ signed_reduce_u16 x mod 2 ^ 16 = x mod 2 ^ 16.
Proof.
  unfold signed_reduce_u16. pose proof (Z.mod_pos_bound x (2 ^ 16) ltac:(lia)).
  change (2 ^ 15) with 32768. change (2 ^ 16) with 65536 in *.
  rewrite Z.geb_leb. destruct (32768 <=? x mod 65536) eqn:L; [apply Z.leb_le in L|apply Z.leb_gt in L].
  - split; [lia|]. replace (x mod 65536 - 65536) with (x mod 65536 + (-1) * 65536) by lia. now rewrite Z.mod_add, Zmod_mod by lia.
  - split; [lia|]. apply Zmod_mod.
Qed.

Lemma montmul_out div root : double_precision div ->
  centred (root * 2 ^ 16) (fst (prepare_root_for_montmul div root)) /\
  montgomery_twin (fst (prepare_root_for_montmul div root)) (snd (prepare_root_for_montmul div root)).
Proof.
  intros D. unfold prepare_root_for_montmul. cbn [fst snd].
  pose proof (signed_reduce_out div (root * montgomery_factor) D) as C.
  set (r := signed_reduce div (root * montgomery_factor)) in *.
  split.
  - destruct C as [C1 C2]. split; [|exact C2]. rewrite C1. change montgomery_factor with (2 ^ 16 mod 3329).
    now rewrite Zmult_mod_idemp_r.
  - destruct (signed_reduce_u16_out (r * pow3 modulus (-1) (2 ^ 16))) as [B E]. split; [exact B|].
    rewrite <- Zmult_mod_idemp_l, E, Zmult_mod_idemp_l, <- Z.mul_assoc, <- Zmult_mod_idemp_r.
    change ((pow3 modulus (-1) (2 ^ 16) * 3329) mod 2 ^ 16) with 1. now rewrite Z.mul_1_r.
Qed.

Definition montmul_pair (root : Z) : Z * Z :=
  let r := centre (root * montgomery_factor) in (r, signed_reduce_u16 (r * pow3 modulus (-1) (2 ^ 16))).

Lemma montmul_exact div root : double_precision div -> prepare_root_for_montmul div root = montmul_pair root.
Proof. intros D. unfold prepare_root_for_montmul, montmul_pair. now rewrite signed_reduce_centre. Qed.

(** The roots of a block *)
Lemma inv_17 : invmod (17 mod 3329) 3329 = 1175. Proof. reflexivity. Qed.

Lemma BitRev7_bitreverse i : 0 <= i < 128 -> bitreverse i 7 = BitRev7 i.
Proof.
  intros H. assert (F : forallb (fun i => bitreverse i 7 =? BitRev7 i) (prange 128) = true) by (vm_compute; reflexivity).
  rewrite forallb_forall in F. apply Z.eqb_eq, F. unfold prange. apply in_map_iff. exists (Z.to_nat i).
  split; [lia|]. apply in_seq. lia.
Qed.

(** The exponent of a block *)
Lemma block_index layer block : 0 <= layer < 7 -> 0 <= block < 2 ^ layer -> 0 <= 2 ^ layer + block < 128.
Proof.
  intros Hl Hb. pose proof (Z.pow_pos_nonneg 2 layer ltac:(lia) ltac:(lia)).
  assert (2 ^ (layer + 1) <= 2 ^ 7) by (apply Z.pow_le_mono_r; lia).
  rewrite Z.pow_add_r, Z.pow_1_r in H0 by lia. change (2 ^ 7) with 128 in H0. lia.
Qed.

Lemma centred_mod a b r : a mod 3329 = b mod 3329 -> centred a r -> centred b r.
Proof. intros E [H1 H2]. split; congruence. Qed.

Lemma fwd_block div layer block : double_precision div -> 0 <= layer < 7 -> 0 <= block < 2 ^ layer ->
  let (r, t) := gen_aarch64_root_of_unity_for_block div layer block false in
  centred (17 ^ BitRev7 (2 ^ layer + block)) r /\ barrett_twin r t.
Proof.
  intros D Hl Hb. pose proof (block_index layer block Hl Hb). unfold gen_aarch64_root_of_unity_for_block.
  rewrite BitRev7_bitreverse by lia.
  pose proof (barrett_out div (pow3 root_of_unity (BitRev7 (2 ^ layer + block)) modulus) D) as [C T].
  rewrite (surjective_pairing (prepare_root_for_barrett _ _)). split; [|exact T].
  revert C. apply centred_mod. change root_of_unity with 17. change modulus with 3329.
  rewrite pow3_out, Zmod_mod; [reflexivity|lia|].
  rewrite <- BitRev7_bitreverse by lia. apply bitreverse_range.
Qed.

Lemma inv_block div layer block : double_precision div -> 0 <= layer < 7 -> 0 <= block < 2 ^ layer ->
  let (r, t) := gen_aarch64_root_of_unity_for_block div layer block true in
  Z.abs r <= 1664 /\ (r * 17 ^ BitRev7 (2 ^ layer + block)) mod 3329 = 1 /\ barrett_twin r t.
Proof.
  intros D Hl Hb. pose proof (block_index layer block Hl Hb). unfold gen_aarch64_root_of_unity_for_block.
  rewrite BitRev7_bitreverse by lia.
  pose proof (barrett_out div (pow3 root_of_unity (- BitRev7 (2 ^ layer + block)) modulus) D) as [[C B] T].
  rewrite (surjective_pairing (prepare_root_for_barrett _ _)). split; [exact B|]. split; [|exact T].
  rewrite <- Zmult_mod_idemp_l, C, Zmult_mod_idemp_l. change root_of_unity with 17. change modulus with 3329.
  rewrite (pow3_neg 17 1175); [reflexivity|lia|exact inv_17|reflexivity|].
  rewrite <- BitRev7_bitreverse by lia. apply bitreverse_range.
Qed.

Lemma avx2_block div layer block : double_precision div -> 0 <= layer < 7 -> 0 <= block < 2 ^ layer ->
  let (r, t) := gen_avx2_root_of_unity_for_block div layer block false in
  centred (17 ^ BitRev7 (2 ^ layer + block) * 2 ^ 16) r /\ montgomery_twin r t.
Proof.
  intros D Hl Hb. pose proof (block_index layer block Hl Hb). unfold gen_avx2_root_of_unity_for_block.
  rewrite BitRev7_bitreverse by lia.
  pose proof (montmul_out div (pow3 root_of_unity (BitRev7 (2 ^ layer + block)) modulus) D) as [C T].
  rewrite (surjective_pairing (prepare_root_for_montmul _ _)). split; [|exact T].
  revert C. apply centred_mod. change root_of_unity with 17. change modulus with 3329.
  rewrite pow3_out, Zmult_mod_idemp_l; [reflexivity|lia|].
  rewrite <- BitRev7_bitreverse by lia. apply bitreverse_range.
Qed.

(** Tables *)
Lemma nth_prange {A} (f : Z -> A) n i d : 0 <= i < Z.of_nat n -> nth (Z.to_nat i) (map f (prange n)) d = f i.
Proof.
  intros H. unfold prange. rewrite map_map.
  rewrite (nth_indep _ d (f (Z.of_nat 0))) by (rewrite map_length, seq_length; lia).
  rewrite (map_nth (fun k => f (Z.of_nat k))), seq_nth by lia. f_equal. lia.
Qed.

Lemma c_zetas_entry div i : double_precision div -> 0 <= i < 128 ->
  centred (17 ^ BitRev7 i * 2 ^ 16) (at_ (gen_c_zetas div) i).
Proof.
  intros D Hi. unfold at_, gen_c_zetas. rewrite nth_prange by lia.
  pose proof (bitreverse_range 7 i) as B. change (2 ^ Z.of_nat 7) with 128 in B. rewrite nth_prange by lia.
  rewrite BitRev7_bitreverse in * by lia.
  assert (C := signed_reduce_out div (pow3 root_of_unity (BitRev7 i) modulus * montgomery_factor) D).
  revert C. apply centred_mod. change root_of_unity with 17. change modulus with 3329.
  change montgomery_factor with (2 ^ 16 mod 3329).
  rewrite pow3_out by lia. now rewrite <- Zmult_mod.
Qed.

Lemma table_c div : double_precision div -> gen_c_zetas div = zetas.
Proof.
  intros D. unfold gen_c_zetas.
  rewrite (map_ext (fun i => signed_reduce div (pow3 root_of_unity i modulus * montgomery_factor))
    (fun i => centre (pow3 root_of_unity i modulus * montgomery_factor)))
    by (intros; now apply signed_reduce_centre).
  vm_compute. reflexivity.
Qed.

Definition a64_pair (layer block : Z) (inv : bool) : Z * Z :=
  let log := bitreverse (2 ^ layer + block) 7 in
  let log := if inv then - log else log in
  barrett_pair (pow3 root_of_unity log modulus).
Lemma a64_exact div l b inv : double_precision div -> gen_aarch64_root_of_unity_for_block div l b inv = a64_pair l b inv.
Proof. intros D. unfold gen_aarch64_root_of_unity_for_block. now rewrite barrett_exact. Qed.

Lemma flat_map_eq {A B} (f g : A -> list B) l m : (forall x, f x = g x) -> flat_map g l = m -> flat_map f l = m.
Proof. intros E <-. now apply flat_map_ext. Qed.

Lemma table_fwd01234 div : double_precision div -> gen_aarch64_fwd_ntt_zetas_layer01234 div = aarch64_ntt_zetas_layer01234.
Proof.
  intros D. unfold gen_aarch64_fwd_ntt_zetas_layer01234. cbv zeta.
  rewrite !(a64_exact div) by exact D. erewrite flat_map_ext.
  2:{ intros b. rewrite !(a64_exact div) by exact D. reflexivity. }
  vm_compute. reflexivity.
Qed.
Lemma table_inv01234 div : double_precision div -> gen_aarch64_inv_ntt_zetas_layer01234 div = aarch64_invntt_zetas_layer01234.
Proof.
  intros D. unfold gen_aarch64_inv_ntt_zetas_layer01234. cbv zeta.
  rewrite !(a64_exact div) by exact D. erewrite flat_map_ext.
  2:{ intros b. rewrite !(a64_exact div) by exact D. reflexivity. }
  vm_compute. reflexivity.
Qed.

Definition layer56 (inv : bool) : list Z :=
  let g layer block := a64_pair layer block inv in
  flat_map (fun block =>
    flat_map (fun i =>
      double_ith (g 5 (4 * block + 0)) i ++ double_ith (g 5 (4 * block + 1)) i ++
      double_ith (g 5 (4 * block + 2)) i ++ double_ith (g 5 (4 * block + 3)) i) (prange 2) ++
    flat_map (fun i =>
      double_ith (g 6 (8 * block + 0)) i ++ double_ith (g 6 (8 * block + 2)) i ++
      double_ith (g 6 (8 * block + 4)) i ++ double_ith (g 6 (8 * block + 6)) i) (prange 2) ++
    flat_map (fun i =>
      double_ith (g 6 (8 * block + 1)) i ++ double_ith (g 6 (8 * block + 3)) i ++
      double_ith (g 6 (8 * block + 5)) i ++ double_ith (g 6 (8 * block + 7)) i) (prange 2))
  (prange 8).
Lemma gen_layer56_exact div inv : double_precision div -> gen_layer56 div inv = layer56 inv.
Proof.
  intros D. unfold gen_layer56, layer56. cbv zeta. apply flat_map_ext. intros b.
  f_equal; [|f_equal]; apply flat_map_ext; intros i; now rewrite !(a64_exact div) by exact D.
Qed.
Lemma table_fwd56 div : double_precision div -> gen_aarch64_fwd_ntt_zetas_layer56 div = aarch64_ntt_zetas_layer56.
Proof. intros D. unfold gen_aarch64_fwd_ntt_zetas_layer56. rewrite gen_layer56_exact by exact D. vm_compute. reflexivity. Qed.
Lemma table_inv56 div : double_precision div -> gen_aarch64_inv_ntt_zetas_layer56 div = aarch64_invntt_zetas_layer56.
Proof. intros D. unfold gen_aarch64_inv_ntt_zetas_layer56. rewrite gen_layer56_exact by exact D. vm_compute. reflexivity. Qed.

Lemma table_mulcache div : double_precision div -> gen_aarch64_mulcache_twiddles div = aarch64_zetas_mulcache_native.
Proof.
  intros D. unfold gen_aarch64_mulcache_twiddles. erewrite flat_map_ext.
  2:{ intros b. cbv zeta. rewrite !(barrett_exact div) by exact D. reflexivity. }
  vm_compute. reflexivity.
Qed.
Lemma table_mulcache_twisted div : double_precision div ->
  gen_aarch64_mulcache_twiddles_twisted div = aarch64_zetas_mulcache_twisted_native.
Proof.
  intros D. unfold gen_aarch64_mulcache_twiddles_twisted. erewrite flat_map_ext.
  2:{ intros b. cbv zeta. rewrite !(barrett_exact div) by exact D. reflexivity. }
  vm_compute. reflexivity.
Qed.

Definition avx2_many (layer block_base : Z) (block_offsets : list Z) (n : nat) : list Z :=
  let g x := montmul_pair (pow3 root_of_unity (bitreverse (2 ^ layer + (block_base + x)) 7) modulus) in
  flat_map (fun x => repeat (snd (g x)) n) block_offsets ++ flat_map (fun x => repeat (fst (g x)) n) block_offsets.
Lemma flat_map_map {A B C} (f : B -> list C) (g : A -> B) l : flat_map f (map g l) = flat_map (fun x => f (g x)) l.
Proof. induction l as [|x l IH]; cbn; [reflexivity|now rewrite IH]. Qed.
Lemma avx2_many_exact div layer base offs n : double_precision div ->
  gen_twiddles_many div layer base offs n = avx2_many layer base offs n.
Proof.
  intros D. unfold gen_twiddles_many, avx2_many, gen_twiddles, gen_avx2_root_of_unity_for_block. cbv zeta.
  rewrite !flat_map_map. f_equal; apply flat_map_ext; intros x; cbn [fst snd]; now rewrite (montmul_exact div) by exact D.
Qed.
Lemma table_avx2 div : double_precision div -> gen_avx2_fwd_ntt_zetas div = zetas_exp.
Proof.
  intros D. unfold gen_avx2_fwd_ntt_zetas.
  transitivity (avx2_many 0 0 (prange 1) 4 ++ repeat 0 8 ++ flat_map (fun i =>
    avx2_many 1 (i * 2 ^ 0) (prange 1) 16 ++
    avx2_many 2 (i * 2 ^ 1) (prange 2) 8 ++
    avx2_many 3 (i * 2 ^ 2) (prange 4) 4 ++
    avx2_many 4 (i * 2 ^ 3) (prange 8) 2 ++
    avx2_many 5 (i * 2 ^ 4) (prange 16) 1 ++
    avx2_many 6 (i * 2 ^ 5) (map (fun j => 2 * j) (prange 16)) 1 ++
    avx2_many 6 (i * 2 ^ 5) (map (fun j => 2 * j + 1) (prange 16)) 1) (prange 2)).
  - rewrite (avx2_many_exact div 0) by exact D. do 2 f_equal. apply flat_map_ext. intros b.
    now rewrite !(avx2_many_exact div) by exact D.
  - vm_compute. reflexivity.
Qed.

Lemma barrett_twin_unique r t u : barrett_twin r t -> barrett_twin r u -> t = u.
Proof. intros [_ H] [_ G]. rewrite (near_unique _ _ H). symmetry. exact (near_unique _ _ G). Qed.
