(** * The other routines of the x86_64 backend: reduce, tomont, unpack, tobytes, frombytes,
      basemul *)

From Coq Require Import ZArith List Bool Lia.
From Verif Require Import CSem ModelArith ModelAvx2 ModelX86 ModelX86Asm ModelX86Poly Spec202 Spec203 SpecX86
  CSemFacts ProofBits ProofChunk ProofPack ProofSum ProofNttSpec ProofRing ProofNtt ProofX86 ProofX86Ntt ProofX86Sym.
Import ListNotations.
Open Scope Z_scope.
Ltac Zify.zify_post_hook ::= idtac.
Local Arguments Z.mul : simpl never.
Local Arguments Z.add : simpl never.
Local Arguments Z.sub : simpl never.

(** ** Calls *)

Lemma vregs_uninit J : vregs (uninit2 J 0 16 16).
Proof.
  split.
  - pose proof (zlen_uninit2 J 0 16 16 ltac:(lia)) as H. unfold zlen in H. lia.
  - eapply Forall_impl; [|apply (uninit2_lens J 0 16 16); lia]. intros l H. unfold zlen in H. lia.
Qed.

Lemma wp_call_run N J p arrays st r ms (Q : list Z -> Prop) :
  run_words p (uninit2 J 0 16 16) args arrays = Some st -> mem st = r :: ms -> Q r ->
  wpn N (call_rdi J p arrays) Q.
Proof.
  intros E Em HQ. unfold call_rdi. apply wp_bind. apply (wp_ok N _ (mem st)).
  - unfold call. rewrite E. reflexivity.
  - apply wp_ret. rewrite Em. exact HQ.
Qed.

Lemma wp_call_sym N J p arrays ds m0 ms (Q : list Z -> Prop) :
  Forall2 fits ds arrays -> yields (symbolic p args ds) (m0 :: ms) = true ->
  Q (map (eval (uninit2 J 0 16 16) arrays) m0) -> wpn N (call_rdi J p arrays) Q.
Proof.
  intros Hf Hy HQ. apply yields_eq in Hy. destruct (vregs_uninit J) as (L & F).
  destruct (symbolic_sound p _ args arrays ds (m0 :: ms) L F Hf Hy) as (st & E & Em).
  eapply wp_call_run; [exact E|exact Em|exact HQ].
Qed.

(** ** The order of coefficients *)

Lemma custom_index_range s : 0 <= s < 256 -> 0 <= custom_index s < 256.
Proof.
  intros H. unfold custom_index. pose proof (Z.mod_pos_bound s 8 ltac:(lia)).
  pose proof (Z.mod_pos_bound s 128 ltac:(lia)). pose proof (Z.div_pos s 128 ltac:(lia) ltac:(lia)).
  assert (s / 128 < 2) by (apply Z.div_lt_upper_bound; lia).
  assert (0 <= s mod 128 / 8) by (apply Z.div_pos; lia).
  assert (s mod 128 / 8 < 16) by (apply Z.div_lt_upper_bound; lia). lia.
Qed.
Lemma index_inv s : 0 <= s < 256 -> fips_index (custom_index s) = s /\ custom_index (fips_index s) = s.
Proof.
  intros H.
  assert (C : upto 256 (fun s => (fips_index (custom_index s) =? s) && (custom_index (fips_index s) =? s)) = true)
    by (vm_compute; reflexivity).
  pose proof (upto_spec _ _ C s H) as K. cbv beta in K. apply andb_prop in K. destruct K as (K1 & K2).
  apply Z.eqb_eq in K1, K2. auto.
Qed.

Lemma zlen_fips_order r : zlen (fips_order r) = 256.
Proof. unfold fips_order. rewrite zlen_map, zlen_range; lia. Qed.
Lemma zget_fips_order r s : 0 <= s < 256 -> zget 0 (fips_order r) s = zget 0 r (custom_index s).
Proof. intros. unfold fips_order. now rewrite zget_map_range. Qed.
Lemma zlen_custom_order r : zlen (custom_order r) = 256.
Proof. unfold custom_order. rewrite zlen_map, zlen_range; lia. Qed.
Lemma zget_custom_order r s : 0 <= s < 256 -> zget 0 (custom_order r) s = zget 0 r (fips_index s).
Proof. intros. unfold custom_order. now rewrite zget_map_range. Qed.
Lemma fips_custom_order r : zlen r = 256 -> fips_order (custom_order r) = r.
Proof.
  intros L. apply (zlist_ext 0); rewrite zlen_fips_order; [lia|]. intros s Hs.
  rewrite zget_fips_order, zget_custom_order by (auto using custom_index_range).
  now destruct (index_inv s Hs) as (-> & _).
Qed.
Lemma custom_fips_order r : zlen r = 256 -> custom_order (fips_order r) = r.
Proof.
  intros L. apply (zlist_ext 0); rewrite zlen_custom_order; [lia|]. intros s Hs.
  rewrite zget_custom_order, zget_fips_order by (auto using fips_index_range).
  now destruct (index_inv s Hs) as (_ & ->).
Qed.
Lemma fips_order_Forall (P : Z -> Prop) r : zlen r = 256 -> Forall P r <-> Forall P (fips_order r).
Proof.
  intros L. rewrite !(Forall_zget _ 0), zlen_fips_order, L. split; intros H i Hi.
  - rewrite zget_fips_order by auto. apply H. now apply custom_index_range.
  - specialize (H (fips_index i) (fips_index_range i Hi)). rewrite zget_fips_order in H by now apply fips_index_range.
    now destruct (index_inv i Hi) as (_ & <-).
Qed.

(** Lists of expressions indexed by position *)
Lemma zlen_seq_map {A} (f : nat -> A) n : zlen (map f (seq 0 n)) = Z.of_nat n.
Proof. unfold zlen. rewrite map_length, seq_length. reflexivity. Qed.
Lemma zget_map_seq {A} (d : A) (f : nat -> A) n i : 0 <= i < Z.of_nat n ->
  zget d (map f (seq 0 n)) i = f (Z.to_nat i).
Proof.
  intros H. unfold zget. rewrite (nth_indep _ d (f 0%nat)) by (rewrite map_length, seq_length; lia).
  rewrite map_nth. rewrite seq_nth by lia. reflexivity.
Qed.
Lemma fips_order_map (g : expr -> Z) (F : Z -> expr) :
  fips_order (map g (map (fun i => F (fips_index (Z.of_nat i))) (seq 0 256))) = map (fun s => g (F s)) (range 256).
Proof.
  apply (zlist_ext 0); rewrite zlen_fips_order, ?zlen_map, ?zlen_range by lia; [lia|].
  intros s Hs. rewrite zget_fips_order, zget_map_range by auto. pose proof (custom_index_range s Hs).
  rewrite map_map, zget_map_seq by lia. rewrite Z2Nat.id by lia. now destruct (index_inv s Hs) as (-> & _).
Qed.

(** ** reduce *)

Definition e_q : expr := Num 3329.
Definition e_red16 (x : expr) : expr := Op Sub x (Op Mullo (Sh Sra 10 (Op Mulhi x (Num 20159))) e_q).
Definition e_csubq (x : expr) : expr := let y := Op Sub x e_q in Op Add y (Op And (Sh Sra 15 y) e_q).
Lemma reduce_checked : yields (symbolic reduce_avx2 args [inl 256%nat; inr qdata])
  [map (fun i => e_csubq (e_red16 (Var 0 i))) (seq 0 256); map Num qdata] = true.
Proof. vm_compute. reflexivity. Qed.

Definition i16 (x : Z) : Prop := -32768 <= x < 32768.
Lemma land_m1_l x : Z.land (-1) x = x.
Proof. apply Z.land_m1_l. Qed.
Lemma reduce_word x : i16 x ->
  let y := word_sem Sub x (word_sem Mullo (shift_sem Sra 10 (word_sem Mulhi x 20159)) 3329) in
  let z := word_sem Sub y 3329 in
  word_sem Add z (word_sem And (shift_sem Sra 15 z) 3329) = x mod 3329.
Proof.
  intros Hx. unfold i16 in Hx. cbn [word_sem shift_sem]. change (2 ^ 10) with 1024. change (2 ^ 15) with 32768.
  rewrite s16_sub_r. fold (barrett x). destruct (barrett_red x) as (E & B); [lia|]. rewrite E.
  assert (C : exists k, x - barrett x * 3329 = x mod 3329 + k * 3329 /\ (k = 0 \/ k = 1)).
  { pose proof (Z.div_mod x 3329 ltac:(lia)). pose proof (Z.mod_pos_bound x 3329 ltac:(lia)).
    exists (x / 3329 - barrett x). nia. }
  destruct C as (k & C & Hk). set (v := x - barrett x * 3329) in *. clearbody v.
  pose proof (Z.mod_pos_bound x 3329 ltac:(lia)).
  rewrite (s16_id (v - 3329)) by lia.
  destruct Hk as [-> | ->].
  - assert ((v - 3329) / 32768 = -1) as -> by (symmetry; apply (Z.div_unique _ _ _ (v - 3329 + 32768)); lia).
    rewrite land_m1_l, s16_id by lia. lia.
  - assert ((v - 3329) / 32768 = 0) as -> by (apply Z.div_small; lia).
    rewrite Z.land_0_l, s16_id by lia. lia.
Qed.

Lemma zget_at l i : zget 0 l i = at_ l i. Proof. reflexivity. Qed.
Lemma eval_map_seq regs arrays (F : nat -> expr) n : map (eval regs arrays) (map F (seq 0 n)) = map (fun i => eval regs arrays (F i)) (seq 0 n).
Proof. apply map_map. Qed.
Lemma map_seq_nth (f : Z -> Z) r n : length r = n -> map (fun i => f (nth i r 0)) (seq 0 n) = map f r.
Proof.
  intros <-. rewrite <- (map_map (fun i => nth i r 0) f). f_equal.
  induction r as [|a r IH]; [reflexivity|]. cbn [length seq map nth]. f_equal.
  rewrite <- seq_shift, map_map. exact IH.
Qed.

Lemma wp_reduce_x86 N J r (Q : list Z -> Prop) : zlen r = 256 -> int16s r -> Q (residues r) ->
  wpn N (poly_reduce_x86_64 J r) Q.
Proof.
  intros L Hr HQ. unfold poly_reduce_x86_64. apply wp_bind.
  eapply wp_call_sym; [|exact reduce_checked|].
  { constructor; [cbn; unfold zlen in L; lia|]. constructor; [reflexivity|constructor]. }
  rewrite eval_map_seq.
  assert (E : map (fun i => eval (uninit2 J 0 16 16) [r; qdata] (e_csubq (e_red16 (Var 0 i)))) (seq 0 256) = residues r).
  { unfold residues, q. rewrite <- (map_seq_nth (fun x => x mod 3329) r 256) by (unfold zlen in L; lia).
    apply map_ext_in. intros i Hi. apply in_seq in Hi. unfold e_csubq, e_red16, e_q. cbn [eval nth].
    apply reduce_word. unfold int16s in Hr. rewrite Forall_forall in Hr. apply (Hr (nth i r 0)). apply nth_In.
    unfold zlen in L. lia. }
  rewrite E. apply wp_bind, wp_POLY_UBOUND.
  - apply Forall_map, Forall_forall. intros x _. apply Z.mod_pos_bound. reflexivity.
  - apply wp_ret. exact HQ.
Qed.

(** ** tomont *)

Definition e_fqmul (x : expr) (zl zh : Z) : expr :=
  Op Sub (Op Mulhi x (Num zh)) (Op Mulhi (Op Mullo x (Num zl)) e_q).
Lemma tomont_checked : yields (symbolic tomont_avx2 args [inl 256%nat; inr qdata])
  [map (fun i => e_fqmul (Var 0 i) 20553 1353) (seq 0 256); map Num qdata] = true.
Proof. vm_compute. reflexivity. Qed.

(** ** unpack *)

Lemma unpack_checked : yields (symbolic nttunpack_avx2 args [inl 256%nat; inr qdata])
  [map (fun i => Var 0 (Z.to_nat (fips_index (Z.of_nat i)))) (seq 0 256); map Num qdata] = true.
Proof. vm_compute. reflexivity. Qed.

(** ** tobytes and frombytes *)

Definition coef (a : nat) (s : Z) : expr := Var a (Z.to_nat (custom_index s)).
Definition e_tobytes (g : nat) : list expr :=
  let c t := coef 1 (4 * Z.of_nat g + t) in
  [Op Or (c 0) (Sh Sll 12 (c 1)); Op Or (Sh Sll 8 (c 2)) (Sh Srl 4 (c 1)); Op Or (Sh Sll 4 (c 3)) (Sh Srl 8 (c 2))].
Lemma tobytes_checked : yields (symbolic ntttobytes_avx2 args [inl 192%nat; inl 256%nat; inr qdata])
  [flat_map e_tobytes (seq 0 64); map (Var 1) (seq 0 256); map Num qdata] = true.
Proof. vm_compute. reflexivity. Qed.

Definition e_mask : expr := Num 4095.
Definition e_frombytes (s : Z) : expr :=
  let w t := Var 1 (Z.to_nat (3 * (s / 4) + t)) in
  match s mod 4 with
  | 0 => Op And (w 0) e_mask
  | 1 => Op And (Op Or (Sh Sll 4 (w 1)) (Sh Srl 12 (w 0))) e_mask
  | 2 => Op And (Op Or (Sh Sll 8 (w 2)) (Sh Srl 8 (w 1))) e_mask
  | _ => Op And (Sh Srl 4 (w 2)) e_mask
  end.
Lemma frombytes_checked : yields (symbolic nttfrombytes_avx2 args [inl 256%nat; inl 192%nat; inr qdata])
  [map (fun i => e_frombytes (fips_index (Z.of_nat i))) (seq 0 256); map (Var 1) (seq 0 192); map Num qdata] = true.
Proof. vm_compute. reflexivity. Qed.

(** ** basemul *)

Definition m_hi (a b : expr) : expr := Op Mulhi a b.
Definition m_q (a b : expr) : expr := Op Mulhi (Op Mullo (Op Mullo a (Num (-3327))) b) e_q.
Definition e_mont (a b : expr) : expr := Op Sub (m_hi a b) (m_q a b).
(** The index of the zeta of the pair of coefficients 2m and 2m+1 (low word) *)
Definition zeta_lo (m : Z) : Z :=
  let i := custom_index (2 * m) in
  336 + nth (Z.to_nat (i / 64)) [0; 32; 224; 256] 0 + i mod 16.
Definition e_basemul (s : Z) : expr :=
  let m := s / 2 in
  let a j := coef 1 (2 * m + j) in
  let b j := coef 2 (2 * m + j) in
  let z := e_fqmul (e_mont (a 1) (b 1)) (nth (Z.to_nat (zeta_lo m)) qdata 0) (nth (Z.to_nat (zeta_lo m + 16)) qdata 0) in
  if s mod 2 =? 0 then
    if m mod 2 =? 0 then Op Sub z (Op Sub (m_q (a 0) (b 0)) (m_hi (a 0) (b 0)))
    else Op Sub (e_mont (a 0) (b 0)) z
  else Op Add (e_mont (a 0) (b 1)) (e_mont (a 1) (b 0)).
Definition scratch (l : nat) : expr := m_hi (Var 1 (192 + l)) (Var 2 (192 + l)).
Lemma basemul_checked : yields (symbolic basemul_avx2 args [inl 256%nat; inl 256%nat; inl 256%nat; inr qdata; inl 16%nat])
  [map (fun i => e_basemul (fips_index (Z.of_nat i))) (seq 0 256); map (Var 1) (seq 0 256); map (Var 2) (seq 0 256);
   map Num qdata; map scratch (seq 0 16)] = true.
Proof. vm_compute. reflexivity. Qed.

(** ** Words as bytes *)

Lemma s16_bits x j : 0 <= j < 16 -> Z.testbit (s16 x) j = Z.testbit x j.
Proof.
  intros H. destruct (s16_ex x) as (t & ->).
  rewrite <- (Z.mod_pow2_bits_low (x + t * 65536) 16), <- (Z.mod_pow2_bits_low x 16) by lia.
  change (2 ^ 16) with 65536. now rewrite Z.mod_add.
Qed.
Lemma div_shr a n : 0 <= n -> a / 2 ^ n = a >> n.
Proof. intros. symmetry. now apply Z.shiftr_div_pow2. Qed.
Lemma mul_shl a n : 0 <= n -> a * 2 ^ n = a << n.
Proof. intros. symmetry. now apply Z.shiftl_mul_pow2. Qed.
Ltac word_bits :=
  unfold unwords; cbn [flat_map app word_sem shift_sem];
  change 256 with (2 ^ 8); rewrite ?div_shr, ?mul_shl by lia.
Lemma u16_high x j : 16 <= j -> Z.testbit (u16 x) j = false.
Proof. intros H. apply (testbit_high _ 16); [apply Z.mod_pos_bound; reflexivity|exact H]. Qed.
Ltac bits_simp2 :=
  repeat first [ rewrite Z.lor_spec | rewrite Z.land_spec
               | rewrite Z.shiftr_spec by lia | rewrite Z.shiftl_spec by lia
               | rewrite u8_bits by lia | rewrite u16_bits by lia | rewrite u16_high by lia | rewrite s16_bits by lia ];
  bits_norm; bits_simp1.

Lemma enc_chunk_words g : (forall i, 0 <= i < 4 -> 0 <= g i < 2 ^ 12) ->
  enc_chunk 12 6 g =
  unwords [word_sem Or (g 0) (shift_sem Sll 12 (g 1));
           word_sem Or (shift_sem Sll 8 (g 2)) (shift_sem Srl 4 (g 1));
           word_sem Or (shift_sem Sll 4 (g 3)) (shift_sem Srl 8 (g 2))].
Proof.
  intros Hg. unfold enc_chunk. change (range 6) with [0; 1; 2; 3; 4; 5]. cbn [map].
  assert (U : forall i, 0 <= i < 4 -> u16 (g i) = g i).
  { intros i Hi. specialize (Hg i Hi). change (2 ^ 12) with 4096 in Hg. unfold u16. apply Z.mod_small. lia. }
  word_bits. rewrite !U by lia.
  repeat (apply f_equal2; [
    symmetry; apply val_of_unique; [lia | apply u8_range | ];
    let j := fresh "j" in let Hj := fresh "Hj" in
    intros j Hj; apply below_8 in Hj;
    repeat (destruct Hj as [Hj|Hj]); subst j; closed_norm; bits_simp2; bits_simp2;
    kill_high Hg 12; bool_done | ]). reflexivity.
Qed.
Ltac closed_args :=
  change (2 * 0 + 1) with 1; change (2 * 1 + 1) with 3; change (2 * 2 + 1) with 5;
  change (2 * 0) with 0; change (2 * 1) with 2; change (2 * 2) with 4.
Definition word_of (g : Z -> Z) (k : Z) : Z := s16 (g (2 * k) + 256 * g (2 * k + 1)).
Lemma add_lor a b : 0 <= a < 256 -> a + 256 * b = a .| (b << 8).
Proof.
  intros H. rewrite <- mul_shl by lia. change (2 ^ 8) with 256.
  rewrite <- Z.lxor_lor, <- Z.add_nocarry_lxor; [ring| |].
  all: apply Z.bits_inj'; intros j Hj; rewrite Z.land_spec, Z.bits_0;
    change 256 with (2 ^ 8); rewrite Z.mul_pow2_bits by lia;
    destruct (Z.ltb_spec j 8); [rewrite (Z.testbit_neg_r b) by lia; apply andb_false_r|];
    rewrite (testbit_high a 8 j); [reflexivity|exact H|lia].
Qed.
Lemma dec_chunk_words g : (forall i, 0 <= i < 6 -> 0 <= g i < 2 ^ 8) ->
  let w := word_of g in
  dec_chunk 12 4 g =
  [word_sem And (w 0) 4095;
   word_sem And (word_sem Or (shift_sem Sll 4 (w 1)) (shift_sem Srl 12 (w 0))) 4095;
   word_sem And (word_sem Or (shift_sem Sll 8 (w 2)) (shift_sem Srl 8 (w 1))) 4095;
   word_sem And (shift_sem Srl 4 (w 2)) 4095].
Proof.
  intros Hg w. unfold dec_chunk. change (range 4) with [0; 1; 2; 3]. cbn [map].
  unfold w, word_of. rewrite !add_lor by (apply Hg; lia). closed_args.
  cbn [word_sem shift_sem]. rewrite ?div_shr, ?mul_shl by lia.
  repeat (apply f_equal2; [
    symmetry; apply val_of_unique; [lia | rewrite Z.land_comm; apply land_range; lia | ];
    let j := fresh "j" in let Hj := fresh "Hj" in
    intros j Hj; apply below_12 in Hj;
    repeat (destruct Hj as [Hj|Hj]); subst j; closed_norm; bits_simp2; bits_simp2; 
    kill_high Hg 8; bool_done | ]). reflexivity.
Qed.

(** ** Montgomery products *)

Lemma mont_word x z z' : Z.abs (x * z) <= 3328 * 32768 -> (z' * 3329 - z) mod 65536 = 0 ->
  Z.abs (mont_val x z z') < 3329.
Proof.
  intros Hx E. pose proof (mont_exact x z z' E) as M. pose proof (s16_range (x * z')). lia.
Qed.
Lemma fqmul_word x zl zh : i16 x -> Z.abs zh < 3329 -> (zl * 3329 - zh) mod 65536 = 0 ->
  let v := word_sem Sub (word_sem Mulhi x zh) (word_sem Mulhi (word_sem Mullo x zl) 3329) in
  v == x * zh * 169 /\ Z.abs v < 3329.
Proof.
  intros Hx Hz E v. unfold i16 in Hx.
  assert (B : Z.abs (mont_val x zh zl) < 3329) by (apply mont_word; [rewrite Z.abs_mul; nia|auto]).
  assert (V : v = mont_val x zh zl).
  { unfold v, mont_val. cbn [word_sem]. apply s16_id. fold (mont_val x zh zl). lia. }
  rewrite V. split; [now apply mont_cg|exact B].
Qed.

(** The Montgomery product of two words of which one is reduced *)
Definition mprod (a b : Z) : Z := mont_val a b (b * -3327).
Lemma mprod_facts a b : Z.abs a < 3329 -> i16 b -> mprod a b == a * b * 169 /\ Z.abs (mprod a b) < 3329.
Proof.
  intros Ha Hb. unfold i16 in Hb.
  assert (E : (b * -3327 * 3329 - b) mod 65536 = 0).
  { replace (b * -3327 * 3329 - b) with ((- 169 * b) * 65536) by ring. now apply Z.mod_mul. }
  split; [now apply mont_cg|]. apply mont_word; auto. rewrite Z.abs_mul. nia.
Qed.
Lemma mprod_words a b :
  let hi := word_sem Mulhi a b in
  let lo := word_sem Mulhi (word_sem Mullo (word_sem Mullo a (-3327)) b) 3329 in
  hi - lo = mprod a b.
Proof.
  cbn [word_sem]. unfold mprod, mont_val. f_equal. f_equal. f_equal.
  destruct (s16_ex (a * -3327)) as (t & ->).
  rewrite <- (s16_shift (a * (b * -3327)) (t * b)). f_equal. ring.
Qed.

Lemma wp_tomont_x86 N J r (Q : list Z -> Prop) : zlen r = 256 -> int16s r ->
  (forall r', zlen r' = 256 -> CSemFacts.bounded 3329 r' -> eqf (zget 0 r') (fun i => 65536 * at_ r i) -> Q r') ->
  wpn N (poly_tomont_x86_64 J r) Q.
Proof.
  intros L Hr HQ. unfold poly_tomont_x86_64. apply wp_bind.
  eapply wp_call_sym; [|exact tomont_checked|].
  { constructor; [cbn; unfold zlen in L; lia|]. constructor; [reflexivity|constructor]. }
  rewrite eval_map_seq. set (r' := map _ _).
  assert (L' : zlen r' = 256) by apply zlen_seq_map.
  assert (V : forall i, 0 <= i < 256 -> zget 0 r' i == 65536 * at_ r i /\ Z.abs (zget 0 r' i) < 3329).
  { intros i Hi. unfold r'. rewrite zget_map_seq by lia. unfold e_fqmul, e_q. cbn [eval].
    change (nth (Z.to_nat i) (nth 0 [r; qdata] []) 0) with (at_ r i).
    destruct (fqmul_word (at_ r i) 20553 1353) as (E & B); [|lia|reflexivity|].
    - unfold int16s in Hr. rewrite (Forall_zget _ 0), L in Hr. exact (Hr i Hi).
    - split; [|exact B]. rewrite E. apply cg_ex. exists (at_ r i * 49). ring. }
  apply wp_bind, wp_POLY_BOUND.
  - apply (Forall_zget _ 0). rewrite L'. intros i Hi. change MLKEM_Q with 3329. destruct (V i Hi) as (_ & B). lia.
  - apply wp_ret, HQ; auto.
    + apply (Forall_zget _ 0). rewrite L'. intros i Hi. destruct (V i Hi) as (_ & B). lia.
    + intros i Hi. now apply V.
Qed.

Lemma wp_unpack_x86 N J r (Q : list Z -> Prop) : zlen r = 256 -> Q (custom_order r) ->
  wpn N (poly_permute_bitrev_to_custom J r) Q.
Proof.
  intros L HQ. unfold poly_permute_bitrev_to_custom.
  eapply wp_call_sym; [|exact unpack_checked|].
  { constructor; [cbn; unfold zlen in L; lia|]. constructor; [reflexivity|constructor]. }
  rewrite eval_map_seq. cbn [eval].
  match goal with |- Q ?x => replace x with (custom_order r) end; [exact HQ|].
  apply (zlist_ext 0); rewrite ?zlen_custom_order, ?zlen_seq_map; [reflexivity|].
  intros i Hi. rewrite zget_custom_order, zget_map_seq by lia. rewrite Z2Nat.id by lia. reflexivity.
Qed.

(** ** Bytes *)

Lemma zlen_words a : forall n, zlen a = 2 * n -> zlen (words a) = n.
Proof.
  assert (H : forall k a n, (length a <= k)%nat -> zlen a = 2 * n -> zlen (words a) = n).
  { clear. induction k as [|k IH]; intros a n Hk Hn.
    - destruct a; [change (zlen (@nil Z)) with 0 in *; cbn [words]; change (zlen (@nil Z)) with 0; lia|cbn in Hk; lia].
    - destruct a as [|x [|y a]]; cbn [words].
      + change (zlen (@nil Z)) with 0 in *. lia.
      + unfold zlen in Hn. cbn in Hn. lia.
      + rewrite !zlen_cons in *. cbn [length] in Hk. rewrite (IH a (n - 1)) by lia. lia. }
  intros. eapply H; eauto.
Qed.
Lemma zget_words a : forall n k, zlen a = 2 * n -> 0 <= k < n ->
  zget 0 (words a) k = zget 0 a (2 * k) + 256 * zget 0 a (2 * k + 1).
Proof.
  assert (H : forall m a n k, (length a <= m)%nat -> zlen a = 2 * n -> 0 <= k < n ->
    zget 0 (words a) k = zget 0 a (2 * k) + 256 * zget 0 a (2 * k + 1)).
  { clear. induction m as [|m IH]; intros a n k Hm Hn Hk.
    - destruct a; [change (zlen (@nil Z)) with 0 in *; lia|cbn in Hm; lia].
    - destruct a as [|x [|y a]]; cbn [words].
      + change (zlen (@nil Z)) with 0 in *. lia.
      + unfold zlen in Hn. cbn in Hn. lia.
      + rewrite !zlen_cons in *. cbn [length] in Hm. rewrite zget_cons by lia.
        destruct (Z.eqb_spec k 0) as [->|Hne]; [reflexivity|].
        rewrite (IH a (n - 1)) by lia.
        rewrite (zget_cons _ _ _ (2 * k)), (zget_cons _ _ _ (2 * k - 1)), (zget_cons _ _ _ (2 * k + 1)), (zget_cons _ _ _ (2 * k + 1 - 1)) by lia.
        destruct (Z.eqb_spec (2 * k) 0); [lia|]. destruct (Z.eqb_spec (2 * k - 1) 0); [lia|].
        destruct (Z.eqb_spec (2 * k + 1) 0); [lia|]. destruct (Z.eqb_spec (2 * k + 1 - 1) 0); [lia|].
        f_equal; [f_equal; lia|]. f_equal. f_equal. lia. }
  intros. eapply H; eauto.
Qed.
Lemma zlen_words16 a n : zlen a = 2 * n -> zlen (words16 a) = n.
Proof. intros. unfold words16. rewrite zlen_map. now apply zlen_words. Qed.
Lemma zget_words16 a n k : zlen a = 2 * n -> 0 <= k < n -> zget 0 (words16 a) k = word_of (zget 0 a) k.
Proof.
  intros L Hk. unfold words16. rewrite (zget_map _ 0) by (rewrite (zlen_words a n); auto).
  rewrite (zget_words a n) by auto. reflexivity.
Qed.

Lemma flat_map_seq {A} (f : nat -> list A) n : flat_map f (seq 0 n) = flat_map (fun i => f (Z.to_nat i)) (range (Z.of_nat n)).
Proof.
  rewrite !flat_map_concat_map. f_equal. apply (zlist_ext []).
  - rewrite zlen_seq_map, zlen_map, zlen_range; lia.
  - rewrite zlen_seq_map. intros i Hi. rewrite zget_map_seq, zget_map_range by lia. reflexivity.
Qed.
Lemma map_flat_map {A B C} (g : B -> C) (f : A -> list B) l : map g (flat_map f l) = flat_map (fun x => map g (f x)) l.
Proof. induction l as [|x l IH]; cbn [flat_map]; [reflexivity|]. now rewrite map_app, IH. Qed.
Lemma flat_map_flat_map {A B C} (g : B -> list C) (f : A -> list B) l :
  flat_map g (flat_map f l) = flat_map (fun x => flat_map g (f x)) l.
Proof. induction l as [|x l IH]; cbn [flat_map]; [reflexivity|]. now rewrite flat_map_app, IH. Qed.
Lemma flat_map_ext_in {A B} (f g : A -> list B) l : (forall x, In x l -> f x = g x) -> flat_map f l = flat_map g l.
Proof. induction l as [|x l IH]; intros H; cbn [flat_map]; [reflexivity|]. rewrite H by now left. f_equal. apply IH. intros; apply H; now right. Qed.
Lemma in_range' n i : In i (range n) -> 0 <= i < n.
Proof. apply in_range. Qed.

Lemma eval_coef regs arrays a s : 0 <= s < 256 -> eval regs arrays (coef a s) = zget 0 (fips_order (nth a arrays [])) s.
Proof. intros H. rewrite zget_fips_order by auto. reflexivity. Qed.

Lemma wp_tobytes_x86 N J r a (Q : list Z -> Prop) : zlen r = 384 -> zlen a = 256 ->
  ubounded 3329 a -> Q (ByteEncode 12 (fips_order a)) -> wpn N (poly_tobytes_x86_64 J r a) Q.
Proof.
  intros Lr La Ha HQ. unfold poly_tobytes_x86_64. apply wp_bind, wp_POLY_UBOUND; [exact Ha|].
  apply wp_bind. eapply wp_call_sym; [|exact tobytes_checked|].
  { pose proof (zlen_words16 r 192 ltac:(lia)) as Lw. unfold zlen in Lw, La.
    constructor; [cbn; lia|]. constructor; [cbn; lia|]. constructor; [reflexivity|constructor]. }
  apply wp_ret. match goal with |- Q ?x => replace x with (ByteEncode 12 (fips_order a)) end; [exact HQ|].
  rewrite (ByteEncode_enc 12 4 6 64) by (rewrite ?zlen_fips_order; lia).
  rewrite map_flat_map, flat_map_seq. unfold unwords. rewrite flat_map_flat_map. apply flat_map_ext_in.
  intros i Hi. change (Z.of_nat 64) with 64 in Hi. apply in_range' in Hi.
  assert (R : forall t, 0 <= t < 4 -> 0 <= zget 0 (fips_order a) (4 * i + t) < 2 ^ 12).
  { intros t Ht. apply (fips_order_Forall _ a La) in Ha. rewrite (Forall_zget _ 0), zlen_fips_order in Ha.
    specialize (Ha (4 * i + t) ltac:(lia)). change (2 ^ 12) with 4096. lia. }
  rewrite (enc_chunk_words _ R). unfold e_tobytes. rewrite Z2Nat.id by lia. cbn [map eval].
  rewrite !eval_coef by lia. reflexivity.
Qed.

Lemma wp_frombytes_x86 N J r a (Q : list Z -> Prop) : zlen r = 256 -> zlen a = 384 -> bytes a ->
  Q (custom_order (fields 12 a)) -> wpn N (poly_frombytes_x86_64 J r a) Q.
Proof.
  intros Lr La Ha HQ. unfold poly_frombytes_x86_64.
  pose proof (zlen_words16 a 192 ltac:(lia)) as Lw.
  eapply wp_call_sym; [|exact frombytes_checked|].
  { unfold zlen in Lw, Lr.
    constructor; [cbn; lia|]. constructor; [cbn; lia|]. constructor; [reflexivity|constructor]. }
  match goal with |- Q ?x => replace x with (custom_order (fields 12 a)) end; [exact HQ|].
  match goal with |- _ = map ?g _ => set (ev := g) end.
  rewrite <- (custom_fips_order (map ev _)) by (rewrite zlen_map; apply zlen_seq_map).
  f_equal. rewrite fips_order_map. rewrite (fields_dec 12 4 6 64) by lia.
  change 256 with (4 * 64). rewrite map_range_chunks by lia.
  apply flat_map_ext_in. intros i Hi. apply in_range' in Hi.
  rewrite dec_chunk_words.
  2:{ intros t Ht. apply byte_range; auto. lia. }
  change (range 4) with [0; 1; 2; 3]. cbn [map].
  assert (W : forall t, 0 <= t < 3 -> ev (Var 1 (Z.to_nat (3 * i + t))) = word_of (fun x => zget 0 a (6 * i + x)) t).
  { intros t Ht. unfold ev. cbn [eval]. change (zget 0 (words16 a) (3 * i + t) = word_of (fun x => zget 0 a (6 * i + x)) t).
    rewrite (zget_words16 a 192) by lia. unfold word_of. f_equal. f_equal; [f_equal; lia|]. f_equal. f_equal. lia. }
  assert (M : forall t, 0 <= t < 4 -> (4 * i + t) / 4 = i /\ (4 * i + t) mod 4 = t).
  { intros t Ht. split; [symmetry; apply (Z.div_unique _ 4 i t); lia|symmetry; apply (Z.mod_unique _ 4 i t); lia]. }
  unfold e_frombytes.
  destruct (M 0 ltac:(lia)) as (-> & ->). destruct (M 1 ltac:(lia)) as (-> & ->).
  destruct (M 2 ltac:(lia)) as (-> & ->). destruct (M 3 ltac:(lia)) as (-> & ->).
  pose proof (W 0 ltac:(lia)) as W0. pose proof (W 1 ltac:(lia)) as W1. pose proof (W 2 ltac:(lia)) as W2.
  rewrite <- W0, <- W1, <- W2. reflexivity.
Qed.

(** ** basemul *)

Definition sgn (m : Z) : Z := if m mod 2 =? 0 then 1 else -1.
Definition zlo (m : Z) : Z := nth (Z.to_nat (zeta_lo m)) qdata 0.
Definition zhi (m : Z) : Z := nth (Z.to_nat (zeta_lo m + 16)) qdata 0.
Lemma zeta_checked : upto 128 (fun m =>
  (Z.abs (zhi m) <? 3329) && ((zlo m * 3329 - zhi m) mod 65536 =? 0) &&
  ((sgn m * zhi m - 65536 * 17 ^ (2 * brv m + 1)) mod 3329 =? 0)) = true.
Proof. vm_compute. reflexivity. Qed.
Lemma zeta_facts m : 0 <= m < 128 -> Z.abs (zhi m) < 3329 /\ (zlo m * 3329 - zhi m) mod 65536 = 0 /\
  sgn m * zhi m == 65536 * 17 ^ (2 * brv m + 1).
Proof.
  intros H. pose proof (upto_spec _ _ zeta_checked m H) as K. cbv beta in K.
  apply andb_prop in K. destruct K as (K & K3). apply andb_prop in K. destruct K as (K1 & K2).
  apply Z.ltb_lt in K1. apply Z.eqb_eq in K2, K3. split; [auto|]. split; [auto|].
  set (x := sgn m * zhi m) in *. set (y := 65536 * 17 ^ (2 * brv m + 1)) in *. clearbody x y.
  apply cg_ex. exists ((x - y) / 3329). pose proof (Z.div_mod (x - y) 3329 ltac:(lia)). lia.
Qed.

Lemma eval_mont regs arrays a b : Z.abs (eval regs arrays a) < 3329 -> i16 (eval regs arrays b) ->
  eval regs arrays (e_mont a b) = mprod (eval regs arrays a) (eval regs arrays b).
Proof.
  intros Ha Hb. unfold e_mont. cbn [eval]. change (s16 (eval regs arrays (m_hi a b) - eval regs arrays (m_q a b)) =
    mprod (eval regs arrays a) (eval regs arrays b)).
  unfold m_hi, m_q, e_q. cbn [eval]. rewrite mprod_words. destruct (mprod_facts _ _ Ha Hb). apply s16_id. lia.
Qed.

Lemma basemul_even regs arrays m (a0 a1 b0 b1 : expr) :
  0 <= m < 128 ->
  let ev := eval regs arrays in
  Z.abs (ev a0) < 3329 -> Z.abs (ev a1) < 3329 -> i16 (ev b0) -> i16 (ev b1) ->
  let z := e_fqmul (e_mont a1 b1) (zlo m) (zhi m) in
  let v := ev (if m mod 2 =? 0 then Op Sub z (Op Sub (m_q a0 b0) (m_hi a0 b0)) else Op Sub (e_mont a0 b0) z) in
  65536 * v == ev a0 * ev b0 + ev a1 * ev b1 * 17 ^ (2 * brv m + 1) /\ Z.abs v < 2 * 3329.
Proof.
  intros Hm ev Ha0 Ha1 Hb0 Hb1 z v.
  destruct (mprod_facts (ev a0) (ev b0)) as (E0 & B0); auto.
  destruct (mprod_facts (ev a1) (ev b1)) as (E1 & B1); auto.
  destruct (zeta_facts m Hm) as (Z1 & Z2 & Z3).
  assert (Hz : ev z == mprod (ev a1) (ev b1) * zhi m * 169 /\ Z.abs (ev z) < 3329).
  { unfold z, e_fqmul, e_q, ev. cbn [eval]. rewrite eval_mont by auto. fold ev.
    apply fqmul_word; auto. unfold i16. lia. }
  destruct Hz as (Ez & Bz).
  assert (V : v = mprod (ev a0) (ev b0) + sgn m * ev z).
  { unfold v, sgn. destruct (m mod 2 =? 0).
    - change (s16 (ev z - s16 (ev (m_q a0 b0) - ev (m_hi a0 b0))) = mprod (ev a0) (ev b0) + 1 * ev z).
      rewrite s16_sub_r.
      assert (P : ev (m_hi a0 b0) - ev (m_q a0 b0) = mprod (ev a0) (ev b0)).
      { unfold m_hi, m_q, e_q, ev. cbn [eval]. apply mprod_words. }
      rewrite s16_id; lia.
    - change (s16 (ev (e_mont a0 b0) - ev z) = mprod (ev a0) (ev b0) + -1 * ev z).
      unfold ev at 1. rewrite eval_mont by auto. fold ev. rewrite s16_id; lia. }
  assert (S : Z.abs (sgn m * ev z) < 3329) by (unfold sgn; destruct (m mod 2 =? 0); lia).
  split; [|lia]. rewrite V. 
  assert (P : 169 * 65536 == 1) by (constructor; reflexivity).
  transitivity (65536 * mprod (ev a0) (ev b0) + 65536 * (sgn m * (mprod (ev a1) (ev b1) * zhi m * 169))).
  { rewrite <- Ez. apply cg_of_eq. ring. }
  rewrite E0, E1.
  transitivity (169 * 65536 * (ev a0 * ev b0) + 169 * 65536 * (ev a1 * ev b1 * 169 * (sgn m * zhi m))).
  { apply cg_of_eq. ring. }
  rewrite Z3, P.
  transitivity (1 * (ev a0 * ev b0) + 169 * 65536 * (ev a1 * ev b1 * 17 ^ (2 * brv m + 1))).
  { apply cg_of_eq. ring. }
  rewrite P. apply cg_of_eq. ring.
Qed.
Lemma basemul_odd regs arrays (a0 a1 b0 b1 : expr) :
  let ev := eval regs arrays in
  Z.abs (ev a0) < 3329 -> Z.abs (ev a1) < 3329 -> i16 (ev b0) -> i16 (ev b1) ->
  let v := ev (Op Add (e_mont a0 b1) (e_mont a1 b0)) in
  65536 * v == ev a0 * ev b1 + ev a1 * ev b0 /\ Z.abs v < 2 * 3329.
Proof.
  intros ev Ha0 Ha1 Hb0 Hb1 v.
  destruct (mprod_facts (ev a0) (ev b1)) as (E0 & B0); auto.
  destruct (mprod_facts (ev a1) (ev b0)) as (E1 & B1); auto.
  assert (V : v = mprod (ev a0) (ev b1) + mprod (ev a1) (ev b0)).
  { change v with (s16 (ev (e_mont a0 b1) + ev (e_mont a1 b0))). unfold ev. rewrite !eval_mont by auto.
    fold ev. apply s16_id. lia. }
  split; [|lia]. rewrite V.
  assert (P : 169 * 65536 == 1) by (constructor; reflexivity).
  transitivity (65536 * mprod (ev a0) (ev b1) + 65536 * mprod (ev a1) (ev b0)); [apply cg_of_eq; ring|].
  rewrite E0, E1. transitivity (169 * 65536 * (ev a0 * ev b1 + ev a1 * ev b0)); [apply cg_of_eq; ring|].
  rewrite P. apply cg_of_eq. ring.
Qed.

Lemma wp_basemul_x86 N J r a b (Q : list Z -> Prop) : zlen r = 256 -> zlen a = 256 -> zlen b = 256 ->
  CSemFacts.bounded 3329 a -> int16s b ->
  (forall r', zlen r' = 256 -> CSemFacts.bounded 6658 r' ->
     eqf (fun s => 65536 * at_ (fips_order r') s) (at_ (MultiplyNTTs (fips_order a) (fips_order b))) -> Q r') ->
  wpn N (poly_basemul_montgomery_avx2 J r a b) Q.
Proof.
  intros Lr La Lb Ha Hb HQ. unfold poly_basemul_montgomery_avx2.
  pose proof (zlen_uninit J 1 16 ltac:(lia)) as Lu.
  eapply wp_call_sym; [|exact basemul_checked|].
  { unfold zlen in *. repeat (constructor; [first [reflexivity|cbn; lia]|]). constructor. }
  match goal with |- context [eval ?re ?ar] => set (regs := re); set (arrays := ar) end.
  set (r' := map _ _).
  assert (L' : zlen r' = 256) by (unfold r'; rewrite zlen_map; apply zlen_seq_map).
  assert (O : fips_order r' = map (fun s => eval regs arrays (e_basemul s)) (range 256)) by apply fips_order_map.
  apply (fips_order_Forall _ a La) in Ha. apply (fips_order_Forall _ b Lb) in Hb.
  rewrite (Forall_zget _ 0), zlen_fips_order in Ha. rewrite (Forall_zget _ 0), zlen_fips_order in Hb.
  assert (Ca : forall s, 0 <= s < 256 -> eval regs arrays (coef 1 s) = at_ (fips_order a) s) by (intros; apply eval_coef; auto).
  assert (Cb : forall s, 0 <= s < 256 -> eval regs arrays (coef 2 s) = at_ (fips_order b) s) by (intros; apply eval_coef; auto).
  assert (Ba : forall s, 0 <= s < 256 -> Z.abs (eval regs arrays (coef 1 s)) < 3329).
  { intros s Hs. rewrite Ca by auto. specialize (Ha s Hs). change (at_ (fips_order a) s) with (zget 0 (fips_order a) s). lia. }
  assert (Bb : forall s, 0 <= s < 256 -> i16 (eval regs arrays (coef 2 s))).
  { intros s Hs. rewrite Cb by auto. exact (Hb s Hs). }
  assert (V : forall s, 0 <= s < 256 -> Z.abs (at_ (fips_order r') s) < 6658 /\
    65536 * at_ (fips_order r') s == at_ (MultiplyNTTs (fips_order a) (fips_order b)) s).
  { intros s Hs. rewrite O. rewrite at_zget, zget_map_range by auto.
    pose proof (Z.div_mod s 2 ltac:(lia)) as D. set (m := s / 2) in *.
    pose proof (Z.mod_pos_bound s 2 ltac:(lia)) as M.
    assert (Hm : 0 <= m < 128) by lia.
    unfold e_basemul. fold m. rewrite Z.add_0_r. fold (zlo m). fold (zhi m).
    destruct (Z.eqb_spec (s mod 2) 0) as [E|E].
    - destruct (basemul_even regs arrays m (coef 1 (2 * m)) (coef 1 (2 * m + 1)) (coef 2 (2 * m)) (coef 2 (2 * m + 1)) Hm) as (K & B);
        try (apply Ba; lia); try (apply Bb; lia).
      split; [exact B|]. rewrite K. rewrite !Ca, !Cb by lia.
      replace s with (2 * m) by lia. now rewrite MultiplyNTTs_even by lia.
    - destruct (basemul_odd regs arrays (coef 1 (2 * m)) (coef 1 (2 * m + 1)) (coef 2 (2 * m)) (coef 2 (2 * m + 1))) as (K & B);
        try (apply Ba; lia); try (apply Bb; lia).
      split; [exact B|]. rewrite K. rewrite !Ca, !Cb by lia.
      replace s with (2 * m + 1) by lia. now rewrite MultiplyNTTs_odd by lia. }
  apply HQ; [exact L'| |].
  - apply (fips_order_Forall _ r' L'). apply (Forall_zget _ 0). rewrite zlen_fips_order. intros s Hs.
    destruct (V s Hs) as (B & _). change (zget 0 (fips_order r') s) with (at_ (fips_order r') s). lia.
  - intros s Hs. now apply V.
Qed.
