(** * Proofs about reduce.c, verify.h and the scalar functions of poly.h *)

From Coq Require Import ZArith List Bool Lia ZifyBool.
From Verif Require Import CSem ModelArith Spec202 Spec203 CSemFacts.
Import ListNotations.
Open Scope Z_scope.
Ltac Zify.zify_post_hook ::= Z.to_euclidean_division_equations.

(** ** Finite sweeps *)
Lemma sweep (P : Z -> bool) m : forallb P (range m) = true -> forall i, 0 <= i < m -> P i = true.
Proof. intros H i Hi. rewrite forallb_forall in H. apply H. now apply in_range. Qed.

(** ** Bits *)
Lemma shr_div a k : 0 <= k -> a >> k = a / 2 ^ k.
Proof. apply Z.shiftr_div_pow2. Qed.
Lemma shl_mul a k : 0 <= k -> a << k = a * 2 ^ k.
Proof. apply Z.shiftl_mul_pow2. Qed.
Lemma land_mod a k : 0 <= k -> a .& (2 ^ k - 1) = a mod 2 ^ k.
Proof. intros. rewrite <- Z.land_ones by auto. f_equal. rewrite Z.ones_equiv. lia. Qed.
Lemma land_65535 a : a .& 65535 = a mod 65536.
Proof. apply (land_mod a 16); lia. Qed.
Lemma land_255 a : a .& 255 = a mod 256.
Proof. apply (land_mod a 8); lia. Qed.

Lemma s16_range x : -32768 <= s16 x < 32768.
Proof. unfold s16; lia. Qed.
Lemma s16_id x : -32768 <= x < 32768 -> s16 x = x.
Proof. unfold s16; lia. Qed.
Lemma s16_u16 x : s16 (u16 x) = s16 x.
Proof. unfold s16, u16. lia. Qed.
Lemma u16_s16 x : u16 (s16 x) = u16 x.
Proof. unfold s16, u16. lia. Qed.
Lemma u8_small x : 0 <= x < 256 -> u8 x = x.
Proof. intros; unfold u8; apply Z.mod_small; lia. Qed.
Lemma u16_small x : 0 <= x < 65536 -> u16 x = x.
Proof. intros; unfold u16; apply Z.mod_small; lia. Qed.
Lemma u32_small x : 0 <= x < 4294967296 -> u32 x = x.
Proof. intros; unfold u32; apply Z.mod_small; lia. Qed.
Lemma u64_small x : 0 <= x < 18446744073709551616 -> u64 x = x.
Proof. intros; unfold u64; apply Z.mod_small; lia. Qed.

(** ** Montgomery reduction *)

(** The value computed by montgomery_reduce. *)
Definition mont_t (a : Z) : Z := s16 (a * 62209).
Definition mont (a : Z) : Z := (a - 3329 * mont_t a) / 65536.

Lemma mont_exact a : 65536 * mont a = a - 3329 * mont_t a.
Proof.
  unfold mont, mont_t, s16.
  assert (((a - 3329 * ((a * 62209 + 32768) mod 65536 - 32768)) mod 65536 = 0)); [|lia].
  rewrite Z.mod_eq with (a := a * 62209 + 32768) by lia.
  set (m := (a * 62209 + 32768) / 65536).
  replace (a - 3329 * (a * 62209 + 32768 - 65536 * m - 32768))
    with ((3329 * m - 3160 * a) * 65536) by ring.
  apply Z.mod_mul; lia.
Qed.
Lemma mont_t_range a : -32768 <= mont_t a < 32768.
Proof. apply s16_range. Qed.
Lemma mont_cong a : (65536 * mont a) mod 3329 = a mod 3329.
Proof. rewrite mont_exact. replace (a - 3329 * mont_t a) with (a + (- mont_t a) * 3329) by ring.
  apply Z.mod_add; lia. Qed.
Lemma mont_cong' a : mont a mod 3329 = (169 * a) mod 3329.
Proof.
  pose proof (mont_exact a) as E.
  replace (169 * a) with (mont a + (3327 * mont a + 169 * mont_t a) * 3329).
  - rewrite Z.mod_add by lia. reflexivity.
  - lia.
Qed.
Lemma mont_bound a B : Z.abs a <= B * 32768 -> 2 * Z.abs (mont a) <= B + 3329.
Proof.
  intros H. pose proof (mont_exact a). pose proof (mont_t_range a). lia.
Qed.

Lemma wp_montgomery_reduce_generic N a (Q : Z -> Prop) :
  Z.abs a <= 2038398975 -> Q (mont a) -> wpn N (montgomery_reduce_generic a) Q.
Proof.
  intros Ha HQ. unfold montgomery_reduce_generic, cast_uint16_to_int16.
  assert (Et : s16 (u16 (u32 (u16 (a .& 65535) * QINV) .& 65535)) = mont_t a).
  { rewrite !land_65535. unfold mont_t, s16, u16, u32, QINV. lia. }
  rewrite Et. pose proof (mont_t_range a) as Ht. pose proof (mont_exact a) as E.
  apply wp_bind, wp_i32; [unfold MLKEM_Q; lia|].
  apply wp_bind, wp_i32; [unfold MLKEM_Q; lia|].
  rewrite shr_div by lia.
  replace ((a - mont_t a * MLKEM_Q) / 2 ^ 16) with (mont a).
  2:{ change (2 ^ 16) with 65536. unfold mont, MLKEM_Q. do 2 f_equal. lia. }
  apply wp_i16; auto. lia.
Qed.

Lemma wp_montgomery_reduce N a (Q : Z -> Prop) :
  Z.abs a < 218169344 -> Q (mont a) -> wpn N (montgomery_reduce a) Q.
Proof.
  intros Ha HQ. unfold montgomery_reduce.
  apply wp_bind, wp_SCALAR_BOUND; [unfold MLKEM_Q; lia|].
  apply wp_bind, wp_montgomery_reduce_generic; [lia|].
  apply wp_bind, wp_SCALAR_BOUND; [|apply wp_ret; auto].
  change (3 * (MLKEM_Q + 1) / 2) with 4995.
  pose proof (mont_exact a). pose proof (mont_t_range a). lia.
Qed.

Lemma fqmul_prod a b : Z.abs a <= 32768 -> Z.abs b <= 1664 -> Z.abs (a * b) <= 54525952.
Proof. intros. rewrite Z.abs_mul. nia. Qed.

Lemma wp_fqmul N a b (Q : Z -> Prop) :
  Z.abs a <= 32768 -> Z.abs b <= 1664 -> Q (mont (a * b)) -> wpn N (fqmul a b) Q.
Proof.
  intros Ha Hb HQ. pose proof (fqmul_prod a b Ha Hb). unfold fqmul.
  apply wp_bind, wp_SCALAR_BOUND; [unfold HALF_Q; lia|].
  apply wp_bind, wp_i32; [lia|].
  apply wp_bind, wp_montgomery_reduce; [lia|].
  apply wp_bind, wp_SCALAR_BOUND; [|apply wp_ret; auto].
  pose proof (mont_bound (a * b) 1664 ltac:(lia)). unfold MLKEM_Q; lia.
Qed.
Lemma mont_fqmul_bound a b : Z.abs a <= 32768 -> Z.abs b <= 1664 -> Z.abs (mont (a * b)) <= 2496.
Proof.
  intros Ha Hb. pose proof (fqmul_prod a b Ha Hb).
  pose proof (mont_bound (a * b) 1664 ltac:(lia)). lia.
Qed.

(** ** Barrett reduction *)

Definition barr (a : Z) : Z := a - 3329 * ((20159 * a + 33554432) / 67108864).
Lemma wp_barrett_reduce N a (Q : Z -> Prop) :
  -32768 <= a < 32768 -> Q (barr a) -> wpn N (barrett_reduce a) Q.
Proof.
  intros Ha HQ. unfold barrett_reduce.
  change barrett_multiplier with 20159. change (1 << (BPOWER - 1)) with 33554432.
  apply wp_bind, wp_i32; [lia|].
  apply wp_bind, wp_i32; [lia|].
  change BPOWER with 26. rewrite shr_div by lia. change (2 ^ 26) with 67108864.
  apply wp_bind, wp_i32; [unfold MLKEM_Q; lia|].
  apply wp_bind, wp_i32; [unfold MLKEM_Q; lia|].
  replace (a - _) with (barr a) by (unfold barr, MLKEM_Q; lia).
  apply wp_i16; auto. unfold barr; lia.
Qed.
Lemma barr_bound a : -32768 <= a < 32768 -> -1664 <= barr a <= 1664.
Proof. unfold barr; lia. Qed.
Lemma barr_cong a : barr a mod 3329 = a mod 3329.
Proof.
  unfold barr. set (t := _ / _).
  replace (a - 3329 * t) with (a + (- t) * 3329) by ring. apply Z.mod_add; lia.
Qed.

(** ** Constant-time selection *)

Lemma cmask_nonzero_u16 x : 0 <= x < 65536 ->
  ct_cmask_nonzero_u16 x = if x =? 0 then 0 else 65535.
Proof.
  intros. unfold ct_cmask_nonzero_u16, value_barrier, u16, u32.
  rewrite shr_div by lia. change (2 ^ 16) with 65536. destruct (x =? 0) eqn:E; lia.
Qed.
Lemma cmask_nonzero_u8 x : 0 <= x < 256 ->
  ct_cmask_nonzero_u8 x = if x =? 0 then 0 else 255.
Proof.
  intros. unfold ct_cmask_nonzero_u8, value_barrier, u8, u32.
  rewrite shr_div by lia. change (2 ^ 24) with 16777216. destruct (x =? 0) eqn:E; lia.
Qed.
Lemma cmask_neg_i16 x : -32768 <= x < 32768 ->
  ct_cmask_neg_i16 x = if x <? 0 then 65535 else 0.
Proof.
  intros. unfold ct_cmask_neg_i16, value_barrier, u16, s16.
  rewrite shr_div by lia. change (2 ^ 16) with 65536. destruct (x <? 0) eqn:E; lia.
Qed.

Lemma lxor_range a b m : 0 <= m -> 0 <= a < 2 ^ m -> 0 <= b < 2 ^ m -> 0 <= a .^ b < 2 ^ m.
Proof.
  intros Hm Ha Hb. assert (0 <= a .^ b) by (apply Z.lxor_nonneg; lia).
  split; auto.
  assert (E : Z.lxor a b = (Z.lxor a b) mod 2 ^ m); [|rewrite E; apply Z.mod_pos_bound; lia].
  rewrite <- Z.land_ones by auto. apply Z.bits_inj'. intros n Hn.
  rewrite Z.land_spec, Z.lxor_spec, Z.testbit_ones_nonneg by auto.
  destruct (n <? m) eqn:E; [now rewrite andb_true_r|].
  rewrite andb_false_r.
  rewrite <- (Z.mod_small a (2 ^ m)), <- (Z.mod_small b (2 ^ m)) by lia.
  rewrite !Z.mod_pow2_bits_high by lia. reflexivity.
Qed.
Lemma lor_range a b m : 0 <= m -> 0 <= a < 2 ^ m -> 0 <= b < 2 ^ m -> 0 <= a .| b < 2 ^ m.
Proof.
  intros Hm Ha Hb. assert (0 <= a .| b) by (apply Z.lor_nonneg; lia).
  split; auto.
  assert (E : Z.lor a b = (Z.lor a b) mod 2 ^ m); [|rewrite E; apply Z.mod_pos_bound; lia].
  rewrite <- Z.land_ones by auto. apply Z.bits_inj'. intros n Hn.
  rewrite Z.land_spec, Z.lor_spec, Z.testbit_ones_nonneg by auto.
  destruct (n <? m) eqn:E; [now rewrite andb_true_r|].
  rewrite andb_false_r.
  rewrite <- (Z.mod_small a (2 ^ m)), <- (Z.mod_small b (2 ^ m)) by lia.
  rewrite !Z.mod_pow2_bits_high by lia. reflexivity.
Qed.
Lemma sel_mask a b m : 0 <= m -> 0 <= a < 2 ^ m -> 0 <= b < 2 ^ m ->
  b .^ ((2 ^ m - 1) .& (a .^ b)) = a.
Proof.
  intros Hm Ha Hb. rewrite Z.land_comm, land_mod by auto.
  rewrite Z.mod_small by (apply lxor_range; auto).
  rewrite (Z.lxor_comm a b), <- Z.lxor_assoc, Z.lxor_nilpotent. apply Z.lxor_0_l.
Qed.

Lemma sel_int16 a b cond : -32768 <= a < 32768 -> -32768 <= b < 32768 -> 0 <= cond < 65536 ->
  ct_sel_int16 a b cond = if cond =? 0 then b else a.
Proof.
  intros Ha Hb Hc. unfold ct_sel_int16. rewrite cmask_nonzero_u16 by auto.
  destruct (cond =? 0).
  - rewrite Z.land_0_l, Z.lxor_0_r. rewrite s16_u16, s16_u16. now apply s16_id.
  - change 65535 with (2 ^ 16 - 1).
    rewrite (sel_mask (u16 a) (u16 b) 16); try lia;
      try (unfold u16; change (2 ^ 16) with 65536; lia).
    rewrite !s16_u16. now apply s16_id.
Qed.
Lemma sel_uint8 a b cond : 0 <= a < 256 -> 0 <= b < 256 -> 0 <= cond < 256 ->
  ct_sel_uint8 a b cond = if cond =? 0 then b else a.
Proof.
  intros Ha Hb Hc. unfold ct_sel_uint8. rewrite cmask_nonzero_u8 by auto.
  destruct (cond =? 0).
  - rewrite Z.land_0_l, Z.lxor_0_r. now apply u8_small.
  - change 255 with (2 ^ 8 - 1). rewrite (sel_mask a b 8) by lia. now apply u8_small.
Qed.

Lemma wp_signed_to_unsigned N c (Q : Z -> Prop) :
  -3329 < c < 3329 -> Q (c mod 3329) -> wpn N (scalar_signed_to_unsigned_q c) Q.
Proof.
  intros Hc HQ. unfold scalar_signed_to_unsigned_q.
  apply wp_bind, wp_i16; [unfold MLKEM_Q; lia|].
  apply wp_ret. rewrite cmask_neg_i16 by lia.
  rewrite sel_int16; try (unfold MLKEM_Q; lia); [|destruct (c <? 0); lia].
  replace (u16 _) with (c mod 3329); auto.
  unfold u16, MLKEM_Q. destruct (c <? 0) eqn:E.
  - change (65535 =? 0) with false. cbv iota. lia.
  - change (0 =? 0) with true. cbv iota. lia.
Qed.

(** ** ct_memcmp and ct_cmov_zero *)


Lemma lxor_byte a b : is_byte a -> is_byte b -> is_byte (a .^ b).
Proof. intros; apply (lxor_range a b 8); unfold is_byte in *; cbn; lia. Qed.
Lemma lor_byte a b : is_byte a -> is_byte b -> is_byte (a .| b).
Proof. intros; apply (lor_range a b 8); unfold is_byte in *; cbn; lia. Qed.

Lemma slice_byte a len i : bytes (slice a 0 len) -> 0 <= len <= zlen a -> 0 <= i < len -> is_byte (zget 0 a i).
Proof.
  intros B Hl Hi. change i with (0 + i). rewrite <- (zget_slice 0 a 0 len) by lia.
  apply (proj1 (Forall_zget _ 0 _) B). rewrite zlen_slice; lia.
Qed.
Lemma bytes_slice0 a len : bytes a -> 0 <= len <= zlen a -> bytes (slice a 0 len).
Proof.
  intros B Hl. apply (Forall_zget _ 0). rewrite zlen_slice by lia. intros i Hi. rewrite zget_slice by lia.
  apply (proj1 (Forall_zget _ 0 _) B). lia.
Qed.

Lemma wp_ct_memcmp N a b len (Q : Z -> Prop) :
  0 <= len < 2147483648 -> len <= zlen a -> len <= zlen b -> bytes (slice a 0 len) -> bytes (slice b 0 len) ->
  Q (if list_eq_dec Z.eq_dec (slice a 0 len) (slice b 0 len) then 0 else 255) ->
  wpn N (ct_memcmp a b len) Q.
Proof.
  intros Hl La Lb Ba Bb HQ. unfold ct_memcmp.
  apply wp_bind, wp_i32; [lia|].
  apply wp_bind.
  apply (wp_for N (fun i '(r, s) => is_byte r /\ is_byte s /\
     (r = 0 <-> (forall j, 0 <= j < i -> zget 0 a j = zget 0 b j)))); [lia|..].
  - unfold is_byte. repeat split; intros; lia.
  - intros i [r s] Hi (Hr & Hs & Hrs).
    assert (Hai : is_byte (zget 0 a i)) by (apply (slice_byte _ _ _ Ba); lia).
    assert (Hbi : is_byte (zget 0 b i)) by (apply (slice_byte _ _ _ Bb); lia).
    apply wp_bind, (wp_aget 0); [lia|]. apply wp_bind, (wp_aget 0); [lia|]. apply wp_ret.
    pose proof (lxor_byte _ _ Hai Hbi) as Hx.
    pose proof (lor_byte _ _ Hr Hx) as Ho. pose proof (lxor_byte _ _ Hs Hx) as Hy.
    rewrite !u8_small by (unfold is_byte in *; lia).
    repeat split; try (unfold is_byte in *; lia).
    + intros E j Hj. apply Z.lor_eq_0_iff in E as [E1 E2].
      destruct (Z.eq_dec j i); [subst; now apply Z.lxor_eq|].
      apply Hrs; auto; lia.
    + intros E. apply Z.lor_eq_0_iff. split.
      * apply Hrs. intros; apply E; lia.
      * rewrite E by lia. apply Z.lxor_nilpotent.
  - intros [r s] (Hr & Hs & Hrs). apply wp_ret.
    rewrite cmask_nonzero_u8 by auto. unfold value_barrier.
    assert (Hm : is_byte (if r =? 0 then 0 else 255)) by (unfold is_byte; destruct (r =? 0); lia).
    pose proof (lxor_byte _ _ Hm Hs) as Hms.
    rewrite (u8_small ((if r =? 0 then 0 else 255) .^ s)) by auto.
    rewrite Z.lxor_assoc, Z.lxor_nilpotent, Z.lxor_0_r, u8_small by auto.
    destruct (list_eq_dec Z.eq_dec (slice a 0 len) (slice b 0 len)) as [E|NE].
    + assert (r = 0); [|subst; exact HQ]. apply Hrs. intros j Hj.
      change j with (0 + j). rewrite <- (zget_slice 0 a 0 len j) by lia. rewrite E.
      now rewrite zget_slice by lia.
    + replace (r =? 0) with false; auto. symmetry; apply Z.eqb_neq. intros E0. apply NE.
      apply (zlist_ext 0).
      * rewrite !zlen_slice; lia.
      * intros i Hi. rewrite zlen_slice in Hi by lia. rewrite !zget_slice by lia.
        apply Hrs; auto; lia.
Qed.

Lemma wp_ct_cmov_zero N r x len b (Q : list Z -> Prop) :
  zlen r = len -> len <= zlen x -> bytes r -> bytes x -> is_byte b ->
  Q (if b =? 0 then slice x 0 len else r) ->
  wpn N (ct_cmov_zero r x len b) Q.
Proof.
  intros Lr Lx Br Bx Hb HQ. unfold ct_cmov_zero.
  apply (wp_for_inplace 0 N (fun i ri => if b =? 0 then zget 0 x i else ri)); auto.
  - intros i pre rest Hi Hp.
    assert (Hri : is_byte (zget 0 r i)) by (apply (proj1 (Forall_zget _ 0 _) Br); lia).
    assert (Hxi : is_byte (zget 0 x i)) by (apply (proj1 (Forall_zget _ 0 _) Bx); lia).
    apply wp_bind, wp_aget_app; auto. apply wp_bind, (wp_aget 0); [lia|].
    rewrite sel_uint8 by auto. apply wp_aset_app; auto. now rewrite <- app_assoc.
  - replace (map _ _) with (if b =? 0 then slice x 0 len else r); auto.
    pose proof (zlen_nonneg r).
    destruct (b =? 0).
    + apply (zlist_ext 0); [rewrite zlen_slice, zlen_map, zlen_range; lia|].
      intros i Hi. rewrite zlen_slice in Hi by lia.
      rewrite zget_slice, zget_map_range by lia. reflexivity.
    + rewrite <- Lr. apply (zlist_get 0).
Qed.

(** ** Compression and decompression of scalars *)

(** Dividing and reducing: (x mod (2^s 2^d)) / 2^s = (x / 2^s) mod 2^d. *)
Lemma mod_shift x b c : 0 < b -> 0 < c -> (x mod (b * c)) / b = (x / b) mod c.
Proof.
  intros. rewrite Z.rem_mul_r by lia.
  rewrite Z.add_comm, Z.mul_comm, Z.div_add_l by lia.
  rewrite (Z.div_small (x mod b)) by (apply Z.mod_pos_bound; lia). lia.
Qed.

(** The rounding (a u + q) / (2 q), a = 2^(d+1), computed as (m u + h) / b with
    m / b close to a / (2 q). The remainder of the former is odd, hence not 0. *)
Lemma round_mul a u m h b :
  0 <= u < 3329 -> a mod 2 = 0 -> 0 < b ->
  (forall x rho, 1 <= rho < 6658 -> rho mod 2 = 1 -> a * u + 3329 = 6658 * x + rho -> 0 <= 6658 * (m * u + h) - b * (a * u + 3329 - rho) < 6658 * b) ->
  (m * u + h) / b = (a * u + 3329) / 6658.
Proof.
  intros Hu Ha Hb Hr.
  set (x := (a * u + 3329) / 6658).
  pose proof (Z.div_mod (a * u + 3329) 6658 ltac:(lia)) as E. fold x in E.
  pose proof (Z.mod_pos_bound (a * u + 3329) 6658 ltac:(lia)) as B.
  set (rho := (a * u + 3329) mod 6658) in *.
  assert (rho mod 2 = 1).
  { replace rho with (a * u + 3329 - (3329 * x) * 2) by lia.
    rewrite <- (Z.mod_add _ (3329 * x)) by lia.
    replace (a * u + 3329 - 3329 * x * 2 + 3329 * x * 2) with (a * u + 3329) by lia.
    rewrite Z.add_mod, Z.mul_mod, Ha by lia. reflexivity. }
  specialize (Hr x rho ltac:(lia) H E).
  symmetry. apply Z.div_unique with (m * u + h - b * x); [left; nia | lia].
Qed.

Lemma compress_d1 u : 0 <= u < 3329 -> scalar_compress_d1 u = Compress 1 u.
Proof.
  intros Hu. unfold scalar_compress_d1, Compress, q.
  rewrite shl_mul, shr_div by lia. change (1 << 30) with 1073741824.
  change (2 ^ 31) with 2147483648. change (2 * 2 ^ 1) with 4. change (2 * 3329) with 6658.
  change (2 ^ 1) with 2.
  rewrite (u32_small (u * 2)), (u32_small (u * 2 * 645083)) by lia.
  unfold u32. change 4294967296 with (2147483648 * 2). rewrite mod_shift by lia.
  f_equal. replace (u * 2 * 645083) with (1290166 * u) by lia.
  apply round_mul; auto; lia.
Qed.
Lemma compress_d4 u : 0 <= u < 3329 -> scalar_compress_d4 u = Compress 4 u.
Proof.
  intros Hu. unfold scalar_compress_d4, Compress, q. rewrite shr_div by lia.
  change (1 << 27) with 134217728. change (2 ^ 28) with 268435456.
  change (2 * 2 ^ 4) with 32. change (2 * 3329) with 6658. change (2 ^ 4) with 16.
  rewrite (u32_small (u * _)) by lia.
  unfold u32. change 4294967296 with (268435456 * 16). rewrite mod_shift by lia.
  f_equal. rewrite Z.mul_comm. apply round_mul; auto; lia.
Qed.
Lemma compress_d5 u : 0 <= u < 3329 -> scalar_compress_d5 u = Compress 5 u.
Proof.
  intros Hu. unfold scalar_compress_d5, Compress, q. rewrite shr_div by lia.
  change (1 << 26) with 67108864. change (2 ^ 27) with 134217728.
  change (2 * 2 ^ 5) with 64. change (2 * 3329) with 6658. change (2 ^ 5) with 32.
  rewrite (u32_small (u * _)) by lia.
  unfold u32. change 4294967296 with (134217728 * 32). rewrite mod_shift by lia.
  f_equal. rewrite Z.mul_comm. apply round_mul; auto; lia.
Qed.
Lemma compress_d10 u : 0 <= u < 3329 -> scalar_compress_d10 u = Compress 10 u.
Proof.
  intros Hu. unfold scalar_compress_d10, Compress, q. rewrite shr_div by lia.
  change (1 << 32) with 4294967296. change 1023 with (2 ^ 10 - 1). rewrite land_mod by lia.
  change (2 ^ 33) with 8589934592.
  change (2 * 2 ^ 10) with 2048. change (2 * 3329) with 6658. change (2 ^ 10) with 1024.
  rewrite (u64_small (u * _)) by lia. rewrite u64_small by lia.
  rewrite u32_small by lia.
  f_equal. rewrite Z.mul_comm. apply round_mul; auto; lia.
Qed.
Lemma compress_d11 u : 0 <= u < 3329 -> scalar_compress_d11 u = Compress 11 u.
Proof.
  intros Hu. unfold scalar_compress_d11, Compress, q. rewrite shr_div by lia.
  change (1 << 32) with 4294967296. change 2047 with (2 ^ 11 - 1). rewrite land_mod by lia.
  change (2 ^ 33) with 8589934592.
  change (2 * 2 ^ 11) with 4096. change (2 * 3329) with 6658. change (2 ^ 11) with 2048.
  rewrite (u64_small (u * _)) by lia. rewrite u64_small by lia.
  rewrite u32_small by lia.
  f_equal. rewrite Z.mul_comm. apply round_mul; auto; lia.
Qed.

Lemma Compress_range d u : 0 <= d -> 0 <= Compress d u < 2 ^ d.
Proof. intros; unfold Compress. apply Z.mod_pos_bound. apply Z.pow_pos_nonneg; lia. Qed.

Lemma Decompress_range d y : 0 < d <= 12 -> 0 <= y < 2 ^ d -> 0 <= Decompress d y < 3329.
Proof.
  intros Hd Hy. unfold Decompress, q.
  assert (2 <= 2 ^ d) by (change 2 with (2 ^ 1) at 1; apply Z.pow_le_mono_r; lia).
  assert (2 ^ d <= 4096) by (change 4096 with (2 ^ 12); apply Z.pow_le_mono_r; lia).
  generalize dependent (2 ^ d); intros m Hy Hm Hm'.
  split; [apply Z.div_pos; nia|]. apply Z.div_lt_upper_bound; nia.
Qed.

Lemma wp_decompress_d4 N y (Q : Z -> Prop) : 0 <= y < 16 -> Q (Decompress 4 y) ->
  wpn N (scalar_decompress_d4 y) Q.
Proof.
  intros Hy HQ. unfold scalar_decompress_d4. apply wp_bind, wp_div, wp_ret.
  replace (u16 _) with (Decompress 4 y); auto.
  unfold Decompress, u16, u32, MLKEM_Q, q. change (2 ^ 4) with 16.
  change (2 * 16) with 32. change (2 * 3329) with 6658. clear HQ. lia.
Qed.
Lemma wp_decompress_d5 N y (Q : Z -> Prop) : 0 <= y < 32 -> Q (Decompress 5 y) ->
  wpn N (scalar_decompress_d5 y) Q.
Proof.
  intros Hy HQ. unfold scalar_decompress_d5. apply wp_bind, wp_div, wp_ret.
  replace (u16 _) with (Decompress 5 y); auto.
  unfold Decompress, u16, u32, MLKEM_Q, q. change (2 ^ 5) with 32.
  change (2 * 32) with 64. change (2 * 3329) with 6658. clear HQ. lia.
Qed.
Lemma wp_decompress_d10 N y (Q : Z -> Prop) : 0 <= y < 1024 -> Q (Decompress 10 y) ->
  wpn N (scalar_decompress_d10 y) Q.
Proof.
  intros Hy HQ. unfold scalar_decompress_d10. apply wp_bind, wp_div, wp_ret.
  replace (u16 _) with (Decompress 10 y); auto.
  unfold Decompress, u16, u32, MLKEM_Q, q. change (2 ^ 10) with 1024.
  change (2 * 1024) with 2048. change (2 * 3329) with 6658. clear HQ. lia.
Qed.
Lemma wp_decompress_d11 N y (Q : Z -> Prop) : 0 <= y < 2048 -> Q (Decompress 11 y) ->
  wpn N (scalar_decompress_d11 y) Q.
Proof.
  intros Hy HQ. unfold scalar_decompress_d11. apply wp_bind, wp_div, wp_ret.
  replace (u16 _) with (Decompress 11 y); auto.
  unfold Decompress, u16, u32, MLKEM_Q, q. change (2 ^ 11) with 2048.
  change (2 * 2048) with 4096. change (2 * 3329) with 6658. clear HQ. lia.
Qed.

(** ** The statements of C15, C16, C17 (scalar part) and C31 *)

Lemma mod0_of_cong a b m : m <> 0 -> a mod m = b mod m -> (a - b) mod m = 0.
Proof. intros Hm E. rewrite Zminus_mod, E, Z.sub_diag. now apply Z.mod_0_l. Qed.

Lemma montgomery_reduce_correct a : Z.abs a < 2 * 3329 * 2 ^ 15 ->
  exists r, val (montgomery_reduce a) = Ok r /\
    (r * 2 ^ 16 - a) mod 3329 = 0 /\ Z.abs r < 3 * (3329 + 1) / 2.
Proof.
  intros Ha. change (2 * 3329 * 2 ^ 15) with 218169344 in Ha.
  apply wp_ex, wp_montgomery_reduce; auto. split.
  - rewrite Z.mul_comm. apply mod0_of_cong; [lia|]. apply mont_cong.
  - change (3 * (3329 + 1) / 2) with 4995.
    pose proof (mont_exact a). pose proof (mont_t_range a). lia.
Qed.

Lemma montgomery_reduce_generic_correct a : Z.abs a <= 2 ^ 31 - 1 - 2 ^ 15 * 3329 ->
  exists r, val (montgomery_reduce_generic a) = Ok r /\
    (r * 2 ^ 16 - a) mod 3329 = 0 /\ - 2 ^ 15 <= r < 2 ^ 15.
Proof.
  intros Ha. change (2 ^ 31 - 1 - 2 ^ 15 * 3329) with 2038398975 in Ha.
  apply wp_ex, wp_montgomery_reduce_generic; auto. split.
  - rewrite Z.mul_comm. apply mod0_of_cong; [lia|]. apply mont_cong.
  - change (2 ^ 15) with 32768.
    pose proof (mont_exact a). pose proof (mont_t_range a). lia.
Qed.

Lemma fqmul_correct a b : - 2 ^ 15 <= a < 2 ^ 15 -> 2 * Z.abs b < 3329 ->
  exists r, val (fqmul a b) = Ok r /\
    (r * 2 ^ 16 - a * b) mod 3329 = 0 /\ Z.abs r < 3329.
Proof.
  intros Ha Hb. change (2 ^ 15) with 32768 in *.
  apply wp_ex, wp_fqmul; try lia. split.
  - rewrite Z.mul_comm. apply mod0_of_cong; [lia|]. apply mont_cong.
  - pose proof (mont_fqmul_bound a b ltac:(lia) ltac:(lia)). lia.
Qed.

Lemma barrett_reduce_correct a : - 2 ^ 15 <= a < 2 ^ 15 ->
  exists r, val (barrett_reduce a) = Ok r /\ (r - a) mod 3329 = 0 /\ 2 * Z.abs r < 3329.
Proof.
  intros Ha. change (2 ^ 15) with 32768 in *.
  apply wp_ex, wp_barrett_reduce; auto. split.
  - apply mod0_of_cong; [lia|]. apply barr_cong.
  - pose proof (barr_bound a Ha). lia.
Qed.

Lemma signed_to_unsigned_correct c : - 3329 < c < 3329 ->
  val (scalar_signed_to_unsigned_q c) = Ok (c mod 3329).
Proof. intros; apply wp_val, wp_signed_to_unsigned; auto. Qed.

Lemma Compress_Decompress d y : In d [1; 4; 5; 10; 11] -> 0 <= y < 2 ^ d ->
  Compress d (Decompress d y) = y.
Proof.
  intros Hd Hy. assert (Hm : 2 <= 2 ^ d <= 2048).
  { destruct Hd as [<-|[<-|[<-|[<-|[<-|[]]]]]]; cbv; split; discriminate. }
  unfold Compress, Decompress, q. generalize dependent (2 ^ d); intros m Hy Hm.
  set (x := (2 * 3329 * y + m) / (2 * m)).
  pose proof (Z.div_mod (2 * 3329 * y + m) (2 * m) ltac:(lia)) as E. fold x in E.
  pose proof (Z.mod_pos_bound (2 * 3329 * y + m) (2 * m) ltac:(lia)) as B.
  set (rho := (2 * 3329 * y + m) mod (2 * m)) in *.
  replace ((2 * m * x + 3329) / (2 * 3329)) with y by
    (apply Z.div_unique with (m + 3329 - rho); [left; lia | lia]).
  apply Z.mod_small; lia.
Qed.

Lemma Decompress_Compress d x : In d [1; 4; 5; 10; 11] -> 0 <= x < q ->
  dist (Decompress d (Compress d x)) x <= (2 * q + 2 ^ (d + 1)) / (2 * 2 ^ (d + 1)).
Proof.
  intros Hd Hx. unfold dist, Decompress, Compress, q in *.
  destruct Hd as [<-|[<-|[<-|[<-|[<-|[]]]]]];
    match goal with |- context [2 ^ (?d + 1)] =>
      let a := eval compute in (2 ^ d) in let b := eval compute in (2 ^ (d + 1)) in
      change (2 ^ d) with a; change (2 ^ (d + 1)) with b end;
    repeat match goal with |- context [?a * ?b] =>
      match a with Zpos _ => match b with Zpos _ => let c := eval compute in (a * b) in change (a * b) with c end end end;
  lia.
Qed.

Lemma ct_memcmp_correct a b len :
  0 <= len < 2 ^ 31 -> len <= zlen a -> len <= zlen b -> bytes a -> bytes b ->
  exists r, val (ct_memcmp a b len) = Ok r /\ 0 <= r < 256 /\
    (r = 0 <-> slice a 0 len = slice b 0 len).
Proof.
  intros. apply wp_ex, wp_ct_memcmp; auto; try (apply bytes_slice0; auto; lia).
  destruct (list_eq_dec Z.eq_dec (slice a 0 len) (slice b 0 len)); split; try lia; split; auto; try lia.
  intros; contradiction.
Qed.
Lemma ct_cmov_zero_correct r x len b :
  zlen r = len -> len <= zlen x -> bytes r -> bytes x -> is_byte b ->
  val (ct_cmov_zero r x len b) = Ok (if b =? 0 then slice x 0 len else r).
Proof. intros; apply wp_val, wp_ct_cmov_zero; auto. Qed.
Lemma decompress_correct :
  (forall y, 0 <= y < 16 -> val (scalar_decompress_d4 y) = Ok (Decompress 4 y)) /\
  (forall y, 0 <= y < 32 -> val (scalar_decompress_d5 y) = Ok (Decompress 5 y)) /\
  (forall y, 0 <= y < 1024 -> val (scalar_decompress_d10 y) = Ok (Decompress 10 y)) /\
  (forall y, 0 <= y < 2048 -> val (scalar_decompress_d11 y) = Ok (Decompress 11 y)).
Proof.
  repeat split; intros; apply wp_val;
    [apply wp_decompress_d4 | apply wp_decompress_d5 | apply wp_decompress_d10
     | apply wp_decompress_d11]; auto.
Qed.
