(** * The other routines of the AArch64 backend: reduce, tomont, mulcache, tobytes, basemul *)

From Coq Require Import ZArith List Bool Lia.
From Verif Require Import ProofX86Word ProofX86Ntt.
From Verif Require Import ModelA64 ModelA64Asm ProofA64 ProofA64Ntt ProofA64Sym.
From Verif Require Import CSem ModelArith ModelAvx2 ModelA64Poly Spec202 Spec203 SpecLink CSemFacts ProofBits
  ProofChunk ProofPack ProofSum ProofNttSpec ProofRing ProofNtt ProofMul ProofMatrix.
Import ListNotations.
Open Scope Z_scope.
Ltac Zify.zify_post_hook ::= idtac.
Local Arguments Z.mul : simpl never.
Local Arguments Z.add : simpl never.
Local Arguments Z.sub : simpl never.

(** ** Calls *)

Lemma vregs_uninit J : vregs_ok (uninit2 J 0 32 8).
Proof.
  split.
  - pose proof (zlen_uninit2 J 0 32 8 ltac:(lia)) as H. unfold zlen in H. lia.
  - eapply Forall_impl; [|apply (uninit2_lens J 0 32 8); lia]. intros l H. unfold zlen in H. lia.
Qed.
Lemma stack_uninit J : length (uninit J 1 (STACK / 2)) = 32%nat.
Proof. pose proof (zlen_uninit J 1 (STACK / 2) ltac:(vm_compute; discriminate)) as H. unfold zlen in H.
  change (STACK / 2) with 32 in H at 2. lia. Qed.

Lemma wp_call_run N J p n arrays st stk r ms (Q : list Z -> Prop) :
  run_words p (uninit2 J 0 32 8) (args n STACK) (uninit J 1 (STACK / 2) :: arrays) = Some st ->
  ModelA64.mem st = stk :: r :: ms -> Q r -> wpn N (call_x0 J p n arrays) Q.
Proof.
  intros E Em HQ. unfold call_x0. apply wp_bind. apply (wp_ok N _ (skipn 1 (ModelA64.mem st))).
  - unfold ModelA64Poly.call. rewrite E. reflexivity.
  - apply wp_ret. rewrite Em. exact HQ.
Qed.
Lemma wp_call_sym N J p n arrays ds m0 ms (Q : list Z -> Prop) :
  Forall2 fits ds arrays -> yields (symbolic p n STACK (inl 32%nat :: ds)) (m0 :: ms) = true ->
  Q (map (eval (uninit2 J 0 32 8) (uninit J 1 (STACK / 2) :: arrays)) m0) -> wpn N (call_x0 J p n arrays) Q.
Proof.
  intros Hf Hy HQ.
  assert (Hf' : Forall2 fits (inl 32%nat :: ds) (uninit J 1 (STACK / 2) :: arrays)).
  { constructor; [exact (stack_uninit J)|exact Hf]. }
  destruct (yields_sound p _ n STACK _ _ _ (vregs_uninit J) Hf' Hy) as (st & stk & E & Em).
  eapply wp_call_run; [exact E|exact Em|exact HQ].
Qed.

(** ** reduce *)

Definition e_q : expr := Num 3329.
Definition e_barrett (x : expr) : expr :=
  Op Sub x (Op Mul (Sh Srshr 11 (Op Sqdmulh x (Num 20159))) e_q).
Definition e_unsigned (y : expr) : expr := Op Add y (Op And e_q (Sh Sshr 15 y)).
Lemma reduce_checked b : yields (symbolic (of_profile b poly_reduce_asm_clean poly_reduce_asm_opt) 1 STACK
    [inl 32%nat; inl 256%nat; inr (poly_const_addr b)])
  [map (fun i => e_unsigned (e_barrett (Var 1 i))) (seq 0 256); map Num (poly_const_addr b)] = true.
Proof. destruct b; vm_compute; reflexivity. Qed.

Lemma s16_sub_r' x y : s16 (x - s16 y) = s16 (x - y).
Proof. destruct (s16_ex y) as (t & ->). rewrite <- (s16_shift (x - y) (- t)). f_equal. ring. Qed.
Lemma barrett_word x : i16 x ->
  word_sem Sub x (word_sem Mul (shift_sem Srshr 11 (word_sem Sqdmulh x 20159)) 3329) = x - rbar x * 3329.
Proof.
  intros Hx. unfold i16 in Hx. cbn [word_sem shift_sem]. rewrite dh_sat by lia.
  change (2 ^ (11 - 1)) with 1024. change (2 ^ 11) with 2048. fold (rbar x).
  rewrite s16_sub_r'. apply s16_id. pose proof (rbar_red x). lia.
Qed.
Lemma reduce_word x : i16 x ->
  let y := word_sem Sub x (word_sem Mul (shift_sem Srshr 11 (word_sem Sqdmulh x 20159)) 3329) in
  word_sem Add y (word_sem And 3329 (shift_sem Sshr 15 y)) = x mod 3329.
Proof.
  intros Hx. cbv zeta. rewrite barrett_word by auto. unfold i16 in Hx.
  pose proof (rbar_red x ltac:(lia)) as B.
  assert (E : (x - rbar x * 3329) mod 3329 = x mod 3329).
  { replace (x - rbar x * 3329) with (x + (- rbar x) * 3329) by ring. apply Z.mod_add. lia. }
  set (y := x - rbar x * 3329) in *. clearbody y. rewrite <- E. cbn [word_sem shift_sem].
  change (2 ^ 15) with 32768. destruct (Z.le_gt_cases 0 y).
  - rewrite (Z.div_small y 32768) by lia. rewrite Z.land_0_r, Z.add_0_r, s16_id, Z.mod_small by lia. reflexivity.
  - assert (y / 32768 = -1) as -> by (symmetry; apply (Z.div_unique _ _ _ (y + 32768)); lia).
    rewrite Z.land_m1_r, s16_id by lia. apply (Z.mod_unique _ _ (-1)); lia.
Qed.

Lemma wp_reduce_a64 N b J r (Q : list Z -> Prop) : zlen r = 256 -> int16s r -> Q (residues r) ->
  wpn N (poly_reduce_aarch64 b J r) Q.
Proof.
  intros L Hr HQ. unfold poly_reduce_aarch64, poly_reduce_native. apply wp_bind.
  eapply wp_call_sym; [|exact (reduce_checked b)|].
  { constructor; [cbn; unfold zlen in L; lia|]. constructor; [reflexivity|constructor]. }
  rewrite map_map.
  match goal with |- wpn _ (bind (_ (map ?f _) _) _) _ => set (F := f) end.
  assert (E : map F (seq 0 256) = residues r).
  { unfold residues, q. rewrite <- (map_seq_nth (fun x => x mod 3329) r 256) by (unfold zlen in L; lia).
    apply map_ext_in. intros i Hi. apply in_seq in Hi. unfold F, e_unsigned, e_barrett, e_q. cbn [eval nth].
    apply reduce_word. unfold int16s in Hr. rewrite Forall_forall in Hr. apply (Hr (nth i r 0)). apply nth_In.
    unfold zlen in L. lia. }
  rewrite E. apply wp_bind, wp_POLY_UBOUND.
  - apply Forall_map, Forall_forall. intros x _. apply Z.mod_pos_bound. reflexivity.
  - apply wp_ret. exact HQ.
Qed.

(** ** tomont and mulcache: products by constants *)

Definition e_fqmul (x : expr) (z z' : Z) : expr :=
  Op Sub (Op Mul x (Num z)) (Op Mul (Op Sqrdmulh x (Num z')) e_q).
Lemma tomont_checked b : yields (symbolic (of_profile b poly_tomont_asm_clean poly_tomont_asm_opt) 1 STACK
    [inl 32%nat; inl 256%nat; inr (poly_const_addr b)])
  [map (fun i => e_fqmul (Var 1 i) (-1044) (-10276)) (seq 0 256); map Num (poly_const_addr b)] = true.
Proof. destruct b; vm_compute; reflexivity. Qed.

(** The constants z and z' of a product: z' is close to 2^15 z / q. *)
Definition twisted (z z' : Z) : bool :=
  (Z.abs z' <=? 32767) && (32768 * Z.abs (32768 * z - 3329 * z') + 3329 * 16384 <? 32768 * 3329).
Lemma fqmul_word x z z' : i16 x -> twisted z z' = true ->
  let v := word_sem Sub (word_sem Mul x z) (word_sem Mul (word_sem Sqrdmulh x z') 3329) in
  v == x * z /\ Z.abs v < 3329.
Proof.
  intros Hx T v. unfold i16 in Hx. unfold twisted in T. apply andb_prop in T. destruct T as (T1 & T2).
  apply Z.leb_le in T1. apply Z.ltb_lt in T2.
  pose proof (rmul_bound x z z' 32768 ltac:(lia)) as B.
  assert (B' : Z.abs (x * z - rmul x z' * 3329) < 3329).
  { eapply Z.le_lt_trans; [exact B|]. apply Z.div_lt_upper_bound; lia. }
  assert (V : v = x * z - rmul x z' * 3329).
  { unfold v. cbn [word_sem]. fold (rmul x z'). rewrite rmul_sat by lia. rewrite s16_sub_r', s16_sub_l.
    apply s16_id. lia. }
  rewrite V. split; [|exact B']. apply cg_ex. exists (- rmul x z'). ring.
Qed.

Lemma wp_tomont_a64 N b J r (Q : list Z -> Prop) : zlen r = 256 -> int16s r ->
  (forall r', zlen r' = 256 -> CSemFacts.bounded 3329 r' -> repr r' (scale 65536 r) -> Q r') ->
  wpn N (poly_tomont_aarch64 b J r) Q.
Proof.
  intros L Hr HQ. unfold poly_tomont_aarch64, poly_tomont_native. apply wp_bind.
  eapply wp_call_sym; [|exact (tomont_checked b)|].
  { constructor; [cbn; unfold zlen in L; lia|]. constructor; [reflexivity|constructor]. }
  rewrite map_map. set (r' := map _ _).
  assert (L' : zlen r' = 256) by apply zlen_seq_map.
  assert (V : forall i, 0 <= i < 256 -> zget 0 r' i == 65536 * zget 0 r i /\ Z.abs (zget 0 r' i) < 3329).
  { intros i Hi. unfold r'. rewrite zget_map_seq by lia. unfold e_fqmul, e_q. cbn [eval nth].
    change (nth (Z.to_nat i) r 0) with (zget 0 r i).
    destruct (fqmul_word (zget 0 r i) (-1044) (-10276)) as (E & B); [|reflexivity|].
    - unfold int16s in Hr. rewrite (Forall_zget _ 0), L in Hr. exact (Hr i Hi).
    - split; [|exact B]. rewrite E. apply cg_ex. exists (zget 0 r i * -20). ring. }
  assert (B : CSemFacts.bounded 3329 r').
  { apply (Forall_zget _ 0). rewrite L'. intros i Hi. destruct (V i Hi) as (_ & B). lia. }
  apply wp_bind, wp_POLY_BOUND; [exact B|]. apply wp_ret, HQ; auto.
  split; auto. intros i Hi. rewrite (at_zget (scale _ _)), zget_scale. now apply V.
Qed.

Lemma mulcache_checked b :
  yields (symbolic (of_profile b poly_mulcache_compute_asm_clean poly_mulcache_compute_asm_opt) 4 STACK
    [inl 32%nat; inl 128%nat; inl 256%nat; inr aarch64_zetas_mulcache_native;
     inr aarch64_zetas_mulcache_twisted_native; inr (poly_const_addr b)])
  [map (fun i => e_fqmul (Var 2 (2 * i + 1)) (nth i aarch64_zetas_mulcache_native 0)
                         (nth i aarch64_zetas_mulcache_twisted_native 0)) (seq 0 128);
   map (Var 2) (seq 0 256); map Num aarch64_zetas_mulcache_native;
   map Num aarch64_zetas_mulcache_twisted_native; map Num (poly_const_addr b)] = true.
Proof. destruct b; vm_compute; reflexivity. Qed.
Lemma mulcache_zetas : upto 128 (fun m =>
  twisted (zget 0 aarch64_zetas_mulcache_native m) (zget 0 aarch64_zetas_mulcache_twisted_native m) &&
  ((zget 0 aarch64_zetas_mulcache_native m - 17 ^ (2 * brv m + 1)) mod 3329 =? 0)) = true.
Proof. vm_compute. reflexivity. Qed.

Lemma wp_mulcache_a64 N b J x a (Q : list Z -> Prop) : zlen x = 128 -> zlen a = 256 -> int16s a ->
  (forall x', is_cache x' a -> Q x') -> wpn N (poly_mulcache_compute_aarch64 b J x a) Q.
Proof.
  intros Lx La Ha HQ. unfold poly_mulcache_compute_aarch64, poly_mulcache_compute_native.
  eapply wp_call_sym; [|exact (mulcache_checked b)|].
  { unfold zlen in *. repeat (constructor; [first [reflexivity|cbn; lia]|]). constructor. }
  rewrite map_map. set (x' := map _ _).
  assert (L' : zlen x' = 128) by apply zlen_seq_map.
  assert (V : forall m, 0 <= m < 128 ->
    zget 0 x' m == zget 0 a (2 * m + 1) * 17 ^ (2 * brv m + 1) /\ Z.abs (zget 0 x' m) < 3329).
  { intros m Hm. unfold x'. rewrite zget_map_seq by lia. unfold e_fqmul, e_q. cbn [eval nth].
    replace (nth (2 * Z.to_nat m + 1) a 0) with (zget 0 a (2 * m + 1)) by (unfold zget; f_equal; lia).
    change (nth (Z.to_nat m) aarch64_zetas_mulcache_native 0) with (zget 0 aarch64_zetas_mulcache_native m).
    change (nth (Z.to_nat m) aarch64_zetas_mulcache_twisted_native 0)
      with (zget 0 aarch64_zetas_mulcache_twisted_native m).
    pose proof (upto_spec _ _ mulcache_zetas m Hm) as K. cbv beta in K.
    apply andb_prop in K. destruct K as (K1 & K2). apply Z.eqb_eq in K2.
    set (z := zget 0 aarch64_zetas_mulcache_native m) in *. clearbody z.
    set (z' := zget 0 aarch64_zetas_mulcache_twisted_native m) in *. clearbody z'.
    destruct (fqmul_word (zget 0 a (2 * m + 1)) z z') as (E & B); [|exact K1|].
    - unfold int16s in Ha. rewrite (Forall_zget _ 0), La in Ha. apply (Ha (2 * m + 1)). lia.
    - split; [|exact B]. rewrite E.
      set (y := 17 ^ (2 * brv m + 1)) in *. clearbody y.
      assert (Ez : z == y).
      { apply cg_ex. exists ((z - y) / 3329). pose proof (Z.div_mod (z - y) 3329 ltac:(lia)). lia. }
      rewrite Ez. reflexivity. }
  apply HQ. split; [exact L'|]. split.
  - apply (Forall_zget _ 0). rewrite L'. intros m Hm. destruct (V m Hm) as (_ & B). lia.
  - intros m Hm. now apply V.
Qed.

(** ** tobytes *)

Definition e_tobytes (g : nat) : list expr :=
  let c t := Var 2 (4 * g + t) in
  let out0 := Op (Shrn 0) (c 0%nat) (c 2%nat) in
  let out1 := Op (Sli8 4) (Op (Shrn 8) (c 0%nat) (c 2%nat)) (Op (Shrn 0) (c 1%nat) (c 3%nat)) in
  let out2 := Op (Shrn 4) (c 1%nat) (c 3%nat) in
  [Op (Bytes false false) out0 out1; Op (Bytes false true) out2 out0; Op (Bytes true true) out1 out2].
Lemma tobytes_checked : yields (symbolic poly_tobytes_asm_clean 2 STACK
    [inl 32%nat; inl 192%nat; inl 256%nat; inr poly_clean_const_addr])
  [flat_map e_tobytes (seq 0 64); map (Var 2) (seq 0 256); map Num poly_clean_const_addr] = true.
Proof. vm_compute. reflexivity. Qed.

Definition byte (x : Z) : Prop := 0 <= x < 256.
Lemma u16_two_bytes a b : byte a -> byte b -> u16 (two_bytes a b) = a + 256 * b.
Proof.
  unfold byte. intros Ha Hb. unfold two_bytes. destruct (s16_ex (a + 256 * b)) as (t & ->).
  unfold u16. rewrite Z.mod_add by lia. apply Z.mod_small. lia.
Qed.
Lemma byte_lo a b : byte a -> byte b -> byte_of false (two_bytes a b) = a.
Proof.
  intros Ha Hb. unfold byte_of. rewrite u16_two_bytes by auto. unfold byte in *. symmetry. apply (Z.mod_unique _ _ b); lia.
Qed.
Lemma byte_hi a b : byte a -> byte b -> byte_of true (two_bytes a b) = b.
Proof.
  intros Ha Hb. unfold byte_of. rewrite u16_two_bytes by auto. unfold byte in *. symmetry. apply (Z.div_unique _ _ b a); lia.
Qed.
Lemma byte_mod x : byte (x mod 256).
Proof. apply Z.mod_pos_bound. lia. Qed.
Lemma byte_sli x y : byte (sli8 4 x y).
Proof.
  unfold byte, sli8. change (2 ^ 4) with 16. pose proof (Z.mod_pos_bound x 16 ltac:(lia)).
  assert (E : y * 16 mod 256 = 16 * (y mod 16)).
  { change 256 with (16 * 16). rewrite (Z.mul_comm y), Z.mul_mod_distr_l by lia. reflexivity. }
  rewrite E. pose proof (Z.mod_pos_bound y 16 ltac:(lia)). lia.
Qed.
Lemma unwords_two_bytes a b : byte a -> byte b -> [u8 (two_bytes a b); u8 (two_bytes a b / 256)] = [a; b].
Proof.
  intros Ha Hb. unfold byte in *. unfold two_bytes. destruct (s16_ex (a + 256 * b)) as (t & ->). unfold u8.
  replace (a + 256 * b + t * 65536) with (a + (b + t * 256) * 256) by ring.
  rewrite Z.mod_add, Z.div_add by lia. rewrite (Z.div_small a 256), Z.add_0_l by lia.
  rewrite Z.mod_add by lia. rewrite !Z.mod_small by lia. reflexivity.
Qed.

Lemma add_lor4 a b : 0 <= a < 16 -> a + 16 * b = a .| (b << 4).
Proof.
  intros H. rewrite <- mul_shl by lia. change (2 ^ 4) with 16.
  rewrite <- Z.lxor_lor, <- Z.add_nocarry_lxor; [ring| |].
  all: apply Z.bits_inj'; intros j Hj; rewrite Z.land_spec, Z.bits_0;
    change 16 with (2 ^ 4); rewrite Z.mul_pow2_bits by lia;
    destruct (Z.ltb_spec j 4); [rewrite (Z.testbit_neg_r b) by lia; apply andb_false_r|];
    rewrite (testbit_high a 4 j); [reflexivity|exact H|lia].
Qed.
Lemma sli8_lor x y : 0 <= x < 4096 -> 0 <= y < 4096 ->
  sli8 4 (x / 256 mod 256) (y mod 256) = u8 ((x >> 8) .| (y << 4)).
Proof.
  intros Hx Hy. rewrite Z.shiftr_div_pow2 by lia. change (2 ^ 8) with 256.
  assert (D : 0 <= x / 256 < 16) by (split; [apply Z.div_pos; lia|apply Z.div_lt_upper_bound; lia]).
  rewrite <- add_lor4 by exact D. unfold sli8, u8. change (2 ^ 4) with 16.
  rewrite (Z.mod_small (x / 256) 256), (Z.mod_small (x / 256) 16) by lia.
  assert (E : y mod 256 * 16 mod 256 = 16 * (y mod 16)).
  { rewrite Z.mul_mod_idemp_l by lia. change 256 with (16 * 16). rewrite (Z.mul_comm y), Z.mul_mod_distr_l by lia. reflexivity. }
  rewrite E. pose proof (Z.mod_pos_bound y 16 ltac:(lia)). pose proof (Z.div_mod y 16 ltac:(lia)).
  apply (Z.mod_unique _ _ (y / 16)); lia.
Qed.
Lemma enc_chunk_words g : (forall i, 0 <= i < 4 -> 0 <= g i < 2 ^ 12) ->
  enc_chunk 12 6 g =
  [u8 (g 0); u8 ((g 0 >> 8) .| (g 1 << 4)); u8 (g 1 >> 4); u8 (g 2); u8 ((g 2 >> 8) .| (g 3 << 4)); u8 (g 3 >> 4)].
Proof.
  intros Hg. unfold enc_chunk. change (range 6) with [0; 1; 2; 3; 4; 5]. cbn [map].
  repeat (apply f_equal2; [
    symmetry; apply val_of_unique; [lia | apply u8_range | ];
    let j := fresh "j" in let Hj := fresh "Hj" in
    intros j Hj; apply below_8 in Hj;
    repeat (destruct Hj as [Hj|Hj]); subst j; closed_norm; bits_simp2; bits_simp2;
    kill_high Hg 12; bool_done | ]). reflexivity.
Qed.
Lemma tobytes_words g : (forall i, 0 <= i < 4 -> 0 <= g i < 2 ^ 12) ->
  let out0 := word_sem (Shrn 0) (g 0) (g 2) in
  let out1 := word_sem (Sli8 4) (word_sem (Shrn 8) (g 0) (g 2)) (word_sem (Shrn 0) (g 1) (g 3)) in
  let out2 := word_sem (Shrn 4) (g 1) (g 3) in
  unwords [word_sem (Bytes false false) out0 out1; word_sem (Bytes false true) out2 out0;
           word_sem (Bytes true true) out1 out2] = enc_chunk 12 6 g.
Proof.
  intros Hg. cbv zeta. rewrite enc_chunk_words by exact Hg. cbn [word_sem]. unfold unwords. cbn [flat_map].
  rewrite !byte_lo, !byte_hi by (auto using byte_mod, byte_sli).
  rewrite !unwords_two_bytes by (auto using byte_mod, byte_sli). cbn [app].
  change (2 ^ 12) with 4096 in Hg.
  assert (U : forall i, 0 <= i < 4 -> u16 (g i) = g i).
  { intros i Hi. specialize (Hg i Hi). unfold u16. apply Z.mod_small. lia. }
  rewrite !U by lia. change (2 ^ 0) with 1. rewrite !Z.div_1_r. change (2 ^ 8) with 256.
  rewrite !sli8_lor by (apply Hg; lia). rewrite !div_shr by lia. reflexivity.
Qed.

Lemma wp_tobytes_a64 N J r a (Q : list Z -> Prop) : zlen r = 384 -> zlen a = 256 ->
  ubounded 3329 a -> Q (ByteEncode 12 a) -> wpn N (poly_tobytes_aarch64 J r a) Q.
Proof.
  intros Lr La Ha HQ. unfold poly_tobytes_aarch64, poly_tobytes_native. apply wp_bind, wp_POLY_UBOUND; [exact Ha|].
  apply wp_bind. eapply wp_call_sym; [|exact tobytes_checked|].
  { pose proof (zlen_words16 r 192 ltac:(lia)) as Lw. unfold ModelX86Poly.words16, zlen in Lw. unfold zlen in La.
    constructor; [cbn; unfold words16; lia|]. constructor; [cbn; lia|]. constructor; [reflexivity|constructor]. }
  apply wp_ret. match goal with |- Q ?x => replace x with (ByteEncode 12 a) end; [exact HQ|].
  rewrite (ByteEncode_enc 12 4 6 64) by lia.
  rewrite map_flat_map, flat_map_seq. unfold unwords. rewrite flat_map_flat_map. apply flat_map_ext_in.
  intros i Hi. change (Z.of_nat 64) with 64 in Hi. apply in_range' in Hi.
  assert (R : forall t, 0 <= t < 4 -> 0 <= zget 0 a (4 * i + t) < 2 ^ 12).
  { intros t Ht. unfold ubounded in Ha. rewrite (Forall_zget _ 0), La in Ha.
    specialize (Ha (4 * i + t) ltac:(lia)). change (2 ^ 12) with 4096. lia. }
  rewrite <- (tobytes_words _ R). unfold e_tobytes. cbn [map eval nth].
  replace (4 * Z.to_nat i + 0)%nat with (Z.to_nat (4 * i + 0)) by lia.
  replace (4 * Z.to_nat i + 1)%nat with (Z.to_nat (4 * i + 1)) by lia.
  replace (4 * Z.to_nat i + 2)%nat with (Z.to_nat (4 * i + 2)) by lia.
  replace (4 * Z.to_nat i + 3)%nat with (Z.to_nat (4 * i + 3)) by lia.
  reflexivity.
Qed.

(** ** basemul *)

Definition coef (v i m j : nat) : expr := Var v (256 * i + 2 * m + j).
Definition e_term (odd : bool) (m i : nat) : (expr * expr) * (expr * expr) :=
  if odd then ((coef 2 i m 0, coef 3 i m 1), (coef 2 i m 1, coef 3 i m 0))
  else ((coef 2 i m 0, coef 3 i m 0), (coef 2 i m 1, Var 4 (128 * i + m))).
Fixpoint e_sum (odd : bool) (m k : nat) : expr :=
  match k with
  | O => Num 0
  | S O => let '((x, y), (z, w)) := e_term odd m 0 in Acc (Prod x y) z w
  | S k' => let '((x, y), (z, w)) := e_term odd m k' in Acc (Acc (e_sum odd m k') x y) z w
  end.
Definition e_redc (s : expr) : expr := Half true (Acc s (Op Mul (Half false s) (Num 3327)) e_q).
Definition e_basemul (k : nat) (s : nat) : expr := e_redc (e_sum (Nat.odd s) (Nat.div2 s) k).
Definition polyvec_const (b : profile) : list Z := of_profile b polyvec_clean_const_addr polyvec_opt_const_addr.
Lemma basemul_checked b p : let k := Z.to_nat (MLKEM_K p) in
  yields (symbolic (basemul_asm b p) 4 STACK
    [inl 32%nat; inl 256%nat; inl (256 * k)%nat; inl (256 * k)%nat; inl (128 * k)%nat; inr (polyvec_const b)])
  [map (e_basemul k) (seq 0 256); map (Var 2) (seq 0 (256 * k)); map (Var 3) (seq 0 (256 * k));
   map (Var 4) (seq 0 (128 * k)); map Num (polyvec_const b)] = true.
Proof. destruct b, p; vm_compute; reflexivity. Qed.

Lemma redc_word S : Z.abs S <= 709023744 ->
  let v := s16 ((S + word_sem Mul (s16 S) 3327 * 3329) / 65536) in
  65536 * v == S /\ Z.abs v < 12484.
Proof.
  intros HS v. cbn [word_sem] in v.
  assert (E : exists t, s16 (s16 S * 3327) = s16 (S * 3327) /\ s16 (S * 3327) = S * 3327 + t * 65536).
  { destruct (s16_ex (S * 3327)) as (t & E). exists t. split; [|exact E].
    destruct (s16_ex S) as (u & ->). rewrite <- (s16_shift (S * 3327) (u * 3327)). f_equal. ring. }
  destruct E as (t & E1 & E2). pose proof (s16_range (S * 3327)) as R.
  set (y := s16 (S * 3327)) in *. clearbody y.
  assert (D : S + y * 3329 = (S * 169 + t * 3329) * 65536) by (rewrite E2; ring).
  assert (V : v = S * 169 + t * 3329).
  { unfold v. rewrite E1, D, Z.div_mul by lia. apply s16_id. lia. }
  rewrite V. split; [|lia]. apply cg_ex. exists (y). rewrite Z.mul_comm, <- D. ring.
Qed.

Section Basemul.
Variables (K : Z) (regs : list (list Z)) (stk r c0 : list Z) (a b c : list (list Z)).
Let arrays : list (list Z) := [stk; r; concat a; concat b; concat c; c0].
Let ev := eval regs arrays.
Hypothesis HK : 2 <= K <= 4.
Hypothesis Ha : each K (fun _ x => zlen x = 256 /\ CSemFacts.bounded 3329 x) a.
Hypothesis Hb : each K (fun _ x => zlen x = 256 /\ CSemFacts.bounded 26632 x) b.
Hypothesis Hc : each K (fun i x => is_cache x (zget [] b i)) c.

Lemma each_lens k P n v : each k P v -> (forall i x, P i x -> zlen x = n) -> Forall (fun r => zlen r = n) v.
Proof. intros E H. apply (each_Forall k). eapply each_weaken; [|exact E]. intros i x _. apply H. Qed.
Lemma a_lens : Forall (fun r => zlen r = 256) a. Proof. eapply each_lens; [exact Ha|]. now intros i x [? _]. Qed.
Lemma b_lens : Forall (fun r => zlen r = 256) b. Proof. eapply each_lens; [exact Hb|]. now intros i x [? _]. Qed.
Lemma c_lens : Forall (fun r => zlen r = 128) c. Proof. eapply each_lens; [exact Hc|]. now intros i x [? _]. Qed.

Lemma ev_a i m j : 0 <= i < K -> 0 <= m < 128 -> 0 <= j < 2 ->
  ev (coef 2 (Z.to_nat i) (Z.to_nat m) (Z.to_nat j)) = zget 0 (zget [] a i) (2 * m + j).
Proof.
  intros Hi Hm Hj. unfold ev, coef. cbn [eval nth arrays].
  replace (256 * Z.to_nat i + 2 * Z.to_nat m + Z.to_nat j)%nat with (Z.to_nat (256 * i + (2 * m + j))) by lia.
  change (zget 0 (concat a) (256 * i + (2 * m + j)) = zget 0 (zget [] a i) (2 * m + j)).
  apply zget_concat_const; [lia|apply a_lens| |lia]. destruct Ha as [-> _]. lia.
Qed.
Lemma ev_b i m j : 0 <= i < K -> 0 <= m < 128 -> 0 <= j < 2 ->
  ev (coef 3 (Z.to_nat i) (Z.to_nat m) (Z.to_nat j)) = zget 0 (zget [] b i) (2 * m + j).
Proof.
  intros Hi Hm Hj. unfold ev, coef. cbn [eval nth arrays].
  replace (256 * Z.to_nat i + 2 * Z.to_nat m + Z.to_nat j)%nat with (Z.to_nat (256 * i + (2 * m + j))) by lia.
  change (zget 0 (concat b) (256 * i + (2 * m + j)) = zget 0 (zget [] b i) (2 * m + j)).
  apply zget_concat_const; [lia|apply b_lens| |lia]. destruct Hb as [-> _]. lia.
Qed.
Lemma ev_c i m : 0 <= i < K -> 0 <= m < 128 ->
  ev (Var 4 (128 * Z.to_nat i + Z.to_nat m)) = zget 0 (zget [] c i) m.
Proof.
  intros Hi Hm. unfold ev. cbn [eval nth arrays].
  replace (128 * Z.to_nat i + Z.to_nat m)%nat with (Z.to_nat (128 * i + m)) by lia.
  change (zget 0 (concat c) (128 * i + m) = zget 0 (zget [] c i) m).
  apply zget_concat_const; [lia|apply c_lens| |lia]. destruct Hc as [-> _]. lia.
Qed.

Lemma ev_acc z x y : ev (Acc z x y) = ev z + ev x * ev y. Proof. reflexivity. Qed.
Definition term (odd : bool) (m i : Z) : Z :=
  let '((x, y), (z, w)) := e_term odd (Z.to_nat m) (Z.to_nat i) in ev x * ev y + ev z * ev w.
Lemma ev_sum odd m k : (0 < k)%nat -> ev (e_sum odd (Z.to_nat m) k) = sum (Z.of_nat k) (term odd m).
Proof.
  intros Hk. induction k as [|k IH]; [lia|].
  replace (Z.of_nat (S k)) with (Z.of_nat k + 1) by lia. rewrite sum_S by lia.
  destruct k as [|k].
  - cbn [e_sum]. unfold term. rewrite Nat2Z.id. destruct odd; reflexivity.
  - rewrite <- IH by lia. change (e_sum odd (Z.to_nat m) (S (S k))) with
      (let '((x, y), (z, w)) := e_term odd (Z.to_nat m) (S k) in Acc (Acc (e_sum odd (Z.to_nat m) (S k)) x y) z w).
    unfold term. rewrite Nat2Z.id. destruct odd; cbn [e_term]; rewrite !ev_acc; ring.
Qed.

Lemma abs_prod x y A B : Z.abs x <= A -> Z.abs y <= B -> Z.abs (x * y) <= A * B.
Proof. intros. rewrite Z.abs_mul. apply Z.mul_le_mono_nonneg; lia. Qed.
Lemma entry_a i j : 0 <= i < K -> 0 <= j < 256 -> Z.abs (zget 0 (zget [] a i) j) <= 3328.
Proof.
  intros Hi Hj. destruct Ha as [_ H]. destruct (H i Hi) as [L B]. unfold CSemFacts.bounded in B.
  rewrite (Forall_zget _ 0), L in B. specialize (B j Hj). lia.
Qed.
Lemma entry_b i j : 0 <= i < K -> 0 <= j < 256 -> Z.abs (zget 0 (zget [] b i) j) <= 26631.
Proof.
  intros Hi Hj. destruct Hb as [_ H]. destruct (H i Hi) as [L B]. unfold CSemFacts.bounded in B.
  rewrite (Forall_zget _ 0), L in B. specialize (B j Hj). lia.
Qed.
Lemma entry_c i j : 0 <= i < K -> 0 <= j < 128 -> Z.abs (zget 0 (zget [] c i) j) <= 3328.
Proof.
  intros Hi Hj. destruct Hc as [_ H]. destruct (H i Hi) as (L & B & _). unfold CSemFacts.bounded in B.
  rewrite (Forall_zget _ 0), L in B. specialize (B j Hj). lia.
Qed.
Lemma term_facts odd m i : 0 <= i < K -> 0 <= m < 128 ->
  Z.abs (term odd m i) <= 177255936 /\
  term odd m i == at_ (MultiplyNTTs (zget [] a i) (zget [] b i)) (2 * m + if odd then 1 else 0).
Proof.
  intros Hi Hm. unfold term, e_term.
  pose proof (ev_a i m 0 Hi Hm ltac:(lia)) as A0. pose proof (ev_a i m 1 Hi Hm ltac:(lia)) as A1.
  pose proof (ev_b i m 0 Hi Hm ltac:(lia)) as B0. pose proof (ev_b i m 1 Hi Hm ltac:(lia)) as B1.
  pose proof (ev_c i m Hi Hm) as C.
  change (Z.to_nat 0) with 0%nat in *. change (Z.to_nat 1) with 1%nat in *. rewrite Z.add_0_r in *.
  pose proof (entry_a i (2 * m) Hi ltac:(lia)). pose proof (entry_a i (2 * m + 1) Hi ltac:(lia)).
  pose proof (entry_b i (2 * m) Hi ltac:(lia)). pose proof (entry_b i (2 * m + 1) Hi ltac:(lia)).
  pose proof (entry_c i m Hi Hm).
  destruct odd.
  - rewrite A0, A1, B0, B1. split.
    + pose proof (abs_prod (zget 0 (zget [] a i) (2 * m)) (zget 0 (zget [] b i) (2 * m + 1)) 3328 26631).
      pose proof (abs_prod (zget 0 (zget [] a i) (2 * m + 1)) (zget 0 (zget [] b i) (2 * m)) 3328 26631). lia.
    + now rewrite MultiplyNTTs_odd.
  - rewrite A0, A1, B0, C. split.
    + pose proof (abs_prod (zget 0 (zget [] a i) (2 * m)) (zget 0 (zget [] b i) (2 * m)) 3328 26631).
      pose proof (abs_prod (zget 0 (zget [] a i) (2 * m + 1)) (zget 0 (zget [] c i) m) 3328 3328). lia.
    + rewrite Z.add_0_r, MultiplyNTTs_even by auto. destruct Hc as [_ H']. destruct (H' i Hi) as (_ & _ & E).
      rewrite (E m Hm). apply cg_of_eq. unfold at_, zget. ring.
Qed.

Lemma abs_sum k f B : 0 <= k -> (forall i, 0 <= i < k -> Z.abs (f i) <= B) -> Z.abs (sum k f) <= k * B.
Proof.
  intros Hk. revert k Hk. apply (sum_ind (fun k => (forall i, 0 <= i < k -> Z.abs (f i) <= B) -> Z.abs (sum k f) <= k * B)).
  - intros _. rewrite sum_0. lia.
  - intros k Hk IH H. rewrite sum_S by lia. specialize (IH ltac:(intros; apply H; lia)). specialize (H k ltac:(lia)). lia.
Qed.

Lemma basemul_values s : 0 <= s < 256 ->
  let v := ev (e_basemul (Z.to_nat K) (Z.to_nat s)) in
  Z.abs v < 12484 /\ 65536 * v == at_ (dot a b) s.
Proof.
  intros Hs. cbv zeta. unfold e_basemul, e_redc, e_q, ev. cbn [eval]. fold ev.
  replace (Nat.div2 (Z.to_nat s)) with (Z.to_nat (s / 2)) by (rewrite Nat.div2_div, Z2Nat.inj_div by lia; reflexivity).
  set (odd := Nat.odd (Z.to_nat s)). set (m := s / 2).
  assert (Hm : 0 <= m < 128) by (unfold m; split; [apply Z.div_pos; lia|apply Z.div_lt_upper_bound; lia]).
  assert (Es : s = 2 * m + if odd then 1 else 0).
  { unfold m, odd. rewrite <- Nat.negb_even. destruct (Nat.even (Z.to_nat s)) eqn:Ev; cbn [negb].
    - apply Nat.even_spec in Ev. destruct Ev as (n & En). assert (s = 2 * Z.of_nat n) by lia. subst s.
      rewrite Z.mul_comm, Z.div_mul by lia. lia.
    - assert (O : Nat.odd (Z.to_nat s) = true) by (rewrite <- Nat.negb_even, Ev; reflexivity).
      apply Nat.odd_spec in O. destruct O as (n & En).
      assert (s = 2 * Z.of_nat n + 1) by lia. subst s.
      rewrite <- (Z.div_unique (2 * Z.of_nat n + 1) 2 (Z.of_nat n) 1) by lia. lia. }
  rewrite ev_sum by lia. rewrite Z2Nat.id by lia.
  assert (B : Z.abs (sum K (term odd m)) <= 709023744).
  { pose proof (abs_sum K (term odd m) 177255936 ltac:(lia)) as H.
    specialize (H ltac:(intros i Hi; now apply term_facts)). lia. }
  destruct (redc_word _ B) as (E & B'). split; [exact B'|]. rewrite E.
  rewrite (dot_at K) by (first [lia|apply Ha|apply Hb]). apply sum_cg; [lia|]. intros i Hi.
  rewrite Es. now apply term_facts.
Qed.
End Basemul.

Lemma wp_basemul_acc_a64 N b J p r a v c (Q : list Z -> Prop) :
  zlen r = 256 ->
  each (MLKEM_K p) (fun _ x => zlen x = 256 /\ CSemFacts.bounded 3329 x) a ->
  each (MLKEM_K p) (fun _ x => zlen x = 256 /\ CSemFacts.bounded 26632 x) v ->
  each (MLKEM_K p) (fun i x => is_cache x (zget [] v i)) c ->
  (forall r', zlen r' = 256 -> CSemFacts.bounded 13316 r' -> repr (scale 65536 r') (dot a v) -> Q r') ->
  wpn N (polyvec_basemul_acc_montgomery_cached_aarch64 b J p r a v c) Q.
Proof.
  intros Lr Ha Hb Hc HQ. pose proof (K_range p) as Hk. unfold polyvec_basemul_acc_montgomery_cached_aarch64.
  apply wp_bind, wp_POLYVEC_BOUND.
  { apply (each_Forall (MLKEM_K p)). eapply each_weaken; [|exact Ha]. cbv beta. tauto. }
  apply wp_bind, wp_POLYVEC_BOUND.
  { apply (each_Forall (MLKEM_K p)). eapply each_weaken; [|exact Hb]. cbv beta. intros i x _ [_ H]. exact H. }
  unfold polyvec_basemul_acc_montgomery_cached_native. fold (polyvec_const b).
  assert (LA : zlen (concat a) = 256 * MLKEM_K p).
  { destruct Ha as [La Ha']. rewrite (concat_const 256), La; [reflexivity|lia|].
    eapply (a_lens (MLKEM_K p)). split; eauto. }
  assert (LB : zlen (concat v) = 256 * MLKEM_K p).
  { destruct Hb as [La Ha']. rewrite (concat_const 256), La; [reflexivity|lia|].
    eapply (b_lens (MLKEM_K p)). split; eauto. }
  assert (LC : zlen (concat c) = 128 * MLKEM_K p).
  { destruct Hc as [La Ha']. rewrite (concat_const 128), La; [reflexivity|lia|].
    eapply (c_lens (MLKEM_K p) v). split; eauto. }
  eapply wp_call_sym; [|exact (basemul_checked b p)|].
  { unfold zlen in *. repeat (constructor; [first [reflexivity|cbn [fits]; lia]|]). constructor. }
  rewrite map_map. set (r' := map _ _).
  assert (L' : zlen r' = 256) by apply zlen_seq_map.
  assert (V : forall s, 0 <= s < 256 -> Z.abs (zget 0 r' s) < 12484 /\ 65536 * zget 0 r' s == at_ (dot a v) s).
  { intros s Hs. unfold r'. rewrite zget_map_seq by lia. now apply basemul_values. }
  apply HQ; [exact L'| |].
  - apply (Forall_zget _ 0). rewrite L'. intros s Hs. destruct (V s Hs) as (B & _). lia.
  - split; [now rewrite zlen_scale|]. intros s Hs. rewrite zget_scale. now apply V.
Qed.
