(** * Bits of words: expressions whose bits are computed symbolically *)

From Coq Require Import ZArith List Bool Lia.
From Verif Require Import CSem ModelArith ModelAes Spec202 CSemFacts.
Import ListNotations.
Open Scope Z_scope.
Ltac Zify.zify_post_hook ::= idtac.

(** ** Word expressions *)
Inductive wx : Type :=
| V (n : nat)
| C (c : Z)
| And (a b : wx)
| Or (a b : wx)
| Xor (a b : wx)
| Shl (a : wx) (n : Z)
| Shr (a : wx) (n : Z)
| Mod (a : wx) (n : Z).
Fixpoint denote (env : nat -> Z) (e : wx) : Z :=
  match e with
  | V n => env n
  | C c => c
  | And a b => Z.land (denote env a) (denote env b)
  | Or a b => Z.lor (denote env a) (denote env b)
  | Xor a b => Z.lxor (denote env a) (denote env b)
  | Shl a n => Z.shiftl (denote env a) n
  | Shr a n => Z.shiftr (denote env a) n
  | Mod a n => (denote env a) mod 2 ^ n
  end.

(** Symbolic bits *)
Inductive bx : Type :=
| F
| Tr
| B (v : nat) (i : Z)
| BAnd (a b : bx)
| BOr (a b : bx)
| BXor (a b : bx).
Fixpoint bden (env : nat -> Z) (b : bx) : bool :=
  match b with
  | F => false
  | Tr => true
  | B v i => Z.testbit (env v) i
  | BAnd a b => bden env a && bden env b
  | BOr a b => bden env a || bden env b
  | BXor a b => xorb (bden env a) (bden env b)
  end.
Definition sand (a b : bx) : bx :=
  match a, b with F, _ => F | _, F => F | Tr, x => x | x, Tr => x | _, _ => BAnd a b end.
Definition sor (a b : bx) : bx :=
  match a, b with F, x => x | x, F => x | Tr, _ => Tr | _, Tr => Tr | _, _ => BOr a b end.
Definition sxor (a b : bx) : bx :=
  match a, b with F, x => x | x, F => x | _, _ => BXor a b end.
Lemma sand_ok env a b : bden env (sand a b) = bden env a && bden env b.
Proof.
  destruct a, b; cbn [sand bden];
    rewrite ?andb_true_l, ?andb_true_r, ?andb_false_l, ?andb_false_r; reflexivity.
Qed.
Lemma sor_ok env a b : bden env (sor a b) = bden env a || bden env b.
Proof.
  destruct a, b; cbn [sor bden];
    rewrite ?orb_true_l, ?orb_true_r, ?orb_false_l, ?orb_false_r; reflexivity.
Qed.
Lemma sxor_ok env a b : bden env (sxor a b) = xorb (bden env a) (bden env b).
Proof. destruct a, b; cbn [sxor bden]; rewrite ?xorb_false_r, ?xorb_false_l; reflexivity. Qed.

(** The bit [i] of an expression, for variables of the given widths *)
Fixpoint sbit (width : nat -> Z) (e : wx) (i : Z) : bx :=
  if i <? 0 then F else
  match e with
  | V n => if i <? width n then B n i else F
  | C c => if Z.testbit c i then Tr else F
  | And a b => sand (sbit width a i) (sbit width b i)
  | Or a b => sor (sbit width a i) (sbit width b i)
  | Xor a b => sxor (sbit width a i) (sbit width b i)
  | Shl a n => sbit width a (i - n)
  | Shr a n => sbit width a (i + n)
  | Mod a n => if i <? n then sbit width a i else F
  end.
Definition fits (width : nat -> Z) (env : nat -> Z) : Prop :=
  forall n, 0 <= width n /\ 0 <= env n < 2 ^ width n.
(** Shift distances that are not negative *)
Fixpoint shifts_ok (e : wx) : bool :=
  match e with
  | V _ | C _ => true
  | And a b | Or a b | Xor a b => shifts_ok a && shifts_ok b
  | Shl a n | Shr a n | Mod a n => (0 <=? n) && shifts_ok a
  end.
Lemma bit_above x w i : 0 <= x < 2 ^ w -> w <= i -> Z.testbit x i = false.
Proof.
  intros Hx Hi. destruct (Z.eq_dec x 0) as [->|]; [apply Z.bits_0|].
  apply Z.bits_above_log2; [lia|]. assert (Z.log2 x < w); [|lia].
  apply Z.log2_lt_pow2; lia.
Qed.
Lemma sbit_ok width env : fits width env -> forall e i, shifts_ok e = true ->
  bden env (sbit width e i) = Z.testbit (denote env e) i.
Proof.
  intros Hf e. induction e; intros i Hs; cbn [sbit denote shifts_ok] in *;
    (destruct (Z.ltb_spec i 0); [cbn; symmetry; now apply Z.testbit_neg_r|]).
  - destruct (Z.ltb_spec i (width n)); [reflexivity|]. cbn.
    destruct (Hf n). symmetry. now apply (bit_above _ (width n)).
  - destruct (Z.testbit c i); reflexivity.
  - apply andb_prop in Hs as [Ha Hb]. now rewrite sand_ok, IHe1, IHe2, Z.land_spec.
  - apply andb_prop in Hs as [Ha Hb]. now rewrite sor_ok, IHe1, IHe2, Z.lor_spec.
  - apply andb_prop in Hs as [Ha Hb]. now rewrite sxor_ok, IHe1, IHe2, Z.lxor_spec.
  - apply andb_prop in Hs as [Ha Hb]. now rewrite IHe, Z.shiftl_spec by auto.
  - apply andb_prop in Hs as [Ha Hb]. apply Z.leb_le in Ha.
    now rewrite IHe, Z.shiftr_spec by auto.
  - apply andb_prop in Hs as [Ha Hb]. apply Z.leb_le in Ha.
    destruct (Z.ltb_spec i n).
    + now rewrite IHe, Z.mod_pow2_bits_low by auto.
    + cbn. now rewrite Z.mod_pow2_bits_high by lia.
Qed.

(** Equality of symbolic bits *)
Fixpoint bx_eqb (a b : bx) : bool :=
  match a, b with
  | F, F | Tr, Tr => true
  | B v i, B w j => Nat.eqb v w && (i =? j)
  | BAnd a b, BAnd c d | BOr a b, BOr c d | BXor a b, BXor c d => bx_eqb a c && bx_eqb b d
  | _, _ => false
  end.
Lemma bx_eqb_ok a : forall b, bx_eqb a b = true -> a = b.
Proof.
  induction a; destruct b; cbn; intros H; try discriminate; auto;
    apply andb_prop in H as [H1 H2].
  - apply Nat.eqb_eq in H1. apply Z.eqb_eq in H2. now subst.
  - f_equal; auto.
  - f_equal; auto.
  - f_equal; auto.
Qed.

(** The bits of the expression [e] below [n] are those of the symbolic bits [f]. *)
Definition bits_are (width : nat -> Z) (n : Z) (e : wx) (f : Z -> bx) : bool :=
  shifts_ok e && forallb (fun i => bx_eqb (sbit width e i) (f i)) (range n).
Lemma bits_are_ok width n e f env i :
  bits_are width n e f = true -> fits width env -> 0 <= i < n ->
  Z.testbit (denote env e) i = bden env (f i).
Proof.
  intros H Hf Hi. apply andb_prop in H as [Hs H]. rewrite forallb_forall in H.
  rewrite <- (sbit_ok width) by auto. f_equal. apply bx_eqb_ok, H. now apply in_range.
Qed.

Definition word64 (x : Z) : Prop := 0 <= x < 2 ^ 64.
Definition word32 (x : Z) : Prop := 0 <= x < 2 ^ 32.
Lemma range_bits x w : 0 <= w -> (0 <= x < 2 ^ w <-> 0 <= x /\ forall i, w <= i -> Z.testbit x i = false).
Proof.
  intros Hw. split.
  - intros H. split; [lia|]. intros i Hi. now apply (bit_above _ w).
  - intros [H0 H]. split; auto.
    assert (E : x = x mod 2 ^ w); [|rewrite E; apply Z.mod_pos_bound; lia].
    apply Z.bits_inj'. intros i Hi. destruct (Z.lt_ge_cases i w).
    + now rewrite Z.mod_pow2_bits_low by lia.
    + rewrite Z.mod_pow2_bits_high by lia. auto.
Qed.
Lemma land_range x y w : 0 <= w -> 0 <= x < 2 ^ w -> 0 <= y -> 0 <= Z.land x y < 2 ^ w.
Proof.
  intros Hw Hx Hy. apply range_bits; auto. split; [apply Z.land_nonneg; lia|].
  intros i Hi. now rewrite Z.land_spec, (bit_above x w).
Qed.
Lemma lor_range x y w : 0 <= w -> 0 <= x < 2 ^ w -> 0 <= y < 2 ^ w -> 0 <= Z.lor x y < 2 ^ w.
Proof.
  intros Hw Hx Hy. apply range_bits; auto. split; [apply Z.lor_nonneg; lia|].
  intros i Hi. now rewrite Z.lor_spec, (bit_above x w), (bit_above y w).
Qed.
Lemma lxor_range x y w : 0 <= w -> 0 <= x < 2 ^ w -> 0 <= y < 2 ^ w -> 0 <= Z.lxor x y < 2 ^ w.
Proof.
  intros Hw Hx Hy. apply range_bits; auto. split; [apply Z.lxor_nonneg; lia|].
  intros i Hi. now rewrite Z.lxor_spec, (bit_above x w), (bit_above y w).
Qed.
Lemma shiftr_range x n w : 0 <= w -> 0 <= n -> 0 <= x < 2 ^ w -> 0 <= Z.shiftr x n < 2 ^ w.
Proof.
  intros Hw Hn Hx. apply range_bits; auto. split; [apply Z.shiftr_nonneg; lia|].
  intros i Hi. rewrite Z.shiftr_spec by lia. apply (bit_above x w); lia.
Qed.
Lemma u64_range x : word64 (u64 x).
Proof. apply Z.mod_pos_bound. reflexivity. Qed.
Lemma u32_range x : word32 (u32 x).
Proof. apply Z.mod_pos_bound. reflexivity. Qed.

(** Equality of words from their bits *)
Lemma word_ext w x y : 0 <= w -> 0 <= x < 2 ^ w -> 0 <= y < 2 ^ w ->
  (forall i, 0 <= i < w -> Z.testbit x i = Z.testbit y i) -> x = y.
Proof.
  intros Hw Hx Hy H. apply Z.bits_inj'. intros i Hi. destruct (Z.lt_ge_cases i w); auto.
  now rewrite (bit_above x w), (bit_above y w).
Qed.

(** ** The bit permutations of the code *)
Definition w64 (_ : nat) : Z := 64.
Definition w32 (_ : nat) : Z := 32.
Definition env8 (q : list Z) (n : nat) : Z := nth n q 0.
Lemma fits_env8 (q : list Z) : Forall word64 q -> fits w64 (env8 q).
Proof.
  intros H n. split; [unfold w64; lia|]. unfold env8.
  destruct (Nat.lt_ge_cases n (length q)) as [L|L].
  - now apply Forall_nth.
  - rewrite nth_overflow by auto. unfold w64; lia.
Qed.

(** shift_rows *)
Definition shift_wx : wx :=
  let x := V 0 in
  Or (Or (Or (Or (Or (Or (And x (C 0xFFFF)) (Shr (And x (C 0xFFF00000)) 4)) (Mod (Shl (And x (C 0xF0000)) 12) 64))
    (Shr (And x (C 0x0000FF0000000000)) 8)) (Mod (Shl (And x (C 0x000000FF00000000)) 8) 64))
    (Shr (And x (C 0xF000000000000000)) 12)) (Mod (Shl (And x (C 0x0FFF000000000000)) 4) 64).
Lemma shift_word_bit x i : word64 x -> 0 <= i < 64 ->
  Z.testbit (shift_word x) i = Z.testbit x (16 * (i / 16) + (i + 4 * (i / 16)) mod 16).
Proof.
  intros Hx Hi. change (shift_word x) with (denote (env8 [x]) shift_wx).
  rewrite (bits_are_ok w64 64 _ (fun i => B 0 (16 * (i / 16) + (i + 4 * (i / 16)) mod 16)));
    [reflexivity|vm_compute; reflexivity|apply fits_env8; repeat constructor; apply Hx|auto].
Qed.
Lemma shift_word_range x : word64 x -> word64 (shift_word x).
Proof.
  intros Hx. unfold shift_word.
  repeat apply lor_range; try lia; try apply u64_range; try (apply land_range; [lia|exact Hx|lia]);
    apply shiftr_range; try lia; apply land_range; try lia; exact Hx.
Qed.

(** Rotations *)
Definition rot16_wx (a : wx) : wx := Or (Shr a 16) (Mod (Shl a 48) 64).
Definition rot32_wx (a : wx) : wx := Or (Mod (Shl a 32) 64) (Shr a 32).
Lemma rotr16_bit x i : word64 x -> 0 <= i < 64 -> Z.testbit (rotr16 x) i = Z.testbit x ((i + 16) mod 64).
Proof.
  intros Hx Hi. change (rotr16 x) with (denote (env8 [x]) (rot16_wx (V 0))).
  rewrite (bits_are_ok w64 64 _ (fun i => B 0 ((i + 16) mod 64)));
    [reflexivity|vm_compute; reflexivity|apply fits_env8; repeat constructor; apply Hx|auto].
Qed.
Lemma rotr32_bit x i : word64 x -> 0 <= i < 64 -> Z.testbit (rotr32 x) i = Z.testbit x ((i + 32) mod 64).
Proof.
  intros Hx Hi. change (rotr32 x) with (denote (env8 [x]) (rot32_wx (V 0))).
  rewrite (bits_are_ok w64 64 _ (fun i => B 0 ((i + 32) mod 64)));
    [reflexivity|vm_compute; reflexivity|apply fits_env8; repeat constructor; apply Hx|auto].
Qed.
Lemma rotr16_range x : word64 x -> word64 (rotr16 x).
Proof. intros Hx. apply lor_range; [lia|apply shiftr_range; try lia; exact Hx|apply u64_range]. Qed.
Lemma rotr32_range x : word64 x -> word64 (rotr32 x).
Proof. intros Hx. apply lor_range; [lia|apply u64_range|apply shiftr_range; try lia; exact Hx]. Qed.

(** ortho: in every group of eight bits, the bit r of word k becomes the bit k of word r. *)
Definition swapx_wx (cl s : Z) (a b : wx) : wx := Or (And a (C cl)) (Mod (Shl (And b (C cl)) s) 64).
Definition swapy_wx (ch s : Z) (a b : wx) : wx := Or (Shr (And a (C ch)) s) (And b (C ch)).
Definition x2 := swapx_wx 0x5555555555555555 1.
Definition y2 := swapy_wx 0xAAAAAAAAAAAAAAAA 1.
Definition x4 := swapx_wx 0x3333333333333333 2.
Definition y4 := swapy_wx 0xCCCCCCCCCCCCCCCC 2.
Definition x8 := swapx_wx 0x0F0F0F0F0F0F0F0F 4.
Definition y8 := swapy_wx 0xF0F0F0F0F0F0F0F0 4.
Definition ortho_wx : list wx :=
  let q0 := V 0 in let q1 := V 1 in let q2 := V 2 in let q3 := V 3 in
  let q4 := V 4 in let q5 := V 5 in let q6 := V 6 in let q7 := V 7 in
  let a0 := x2 q0 q1 in let a1 := y2 q0 q1 in let a2 := x2 q2 q3 in let a3 := y2 q2 q3 in
  let a4 := x2 q4 q5 in let a5 := y2 q4 q5 in let a6 := x2 q6 q7 in let a7 := y2 q6 q7 in
  let b0 := x4 a0 a2 in let b2 := y4 a0 a2 in let b1 := x4 a1 a3 in let b3 := y4 a1 a3 in
  let b4 := x4 a4 a6 in let b6 := y4 a4 a6 in let b5 := x4 a5 a7 in let b7 := y4 a5 a7 in
  let c0 := x8 b0 b4 in let c4 := y8 b0 b4 in let c1 := x8 b1 b5 in let c5 := y8 b1 b5 in
  let c2 := x8 b2 b6 in let c6 := y8 b2 b6 in let c3 := x8 b3 b7 in let c7 := y8 b3 b7 in
  [c0; c1; c2; c3; c4; c5; c6; c7].
Lemma ortho_denote q0 q1 q2 q3 q4 q5 q6 q7 :
  ortho_words q0 q1 q2 q3 q4 q5 q6 q7 = map (denote (env8 [q0; q1; q2; q3; q4; q5; q6; q7])) ortho_wx.
Proof. reflexivity. Qed.
Definition ortho_check : bool :=
  forallb (fun k => bits_are w64 64 (nth (Z.to_nat k) ortho_wx (C 0)) (fun i => B (Z.to_nat (i mod 8)) (8 * (i / 8) + k)))
    (range 8).
Lemma ortho_check_true : ortho_check = true.
Proof. vm_compute. reflexivity. Qed.
Lemma ortho_bit (q : list Z) k i : zlen q = 8 -> Forall word64 q -> 0 <= k < 8 -> 0 <= i < 64 ->
  Z.testbit (zget 0 (map (denote (env8 q)) ortho_wx) k) i = Z.testbit (zget 0 q (i mod 8)) (8 * (i / 8) + k).
Proof.
  intros Hl Hq Hk Hi. rewrite (zget_map _ (C 0)) by (change (zlen ortho_wx) with 8; lia).
  assert (H := ortho_check_true). unfold ortho_check in H. rewrite forallb_forall in H.
  specialize (H k (proj2 (in_range k 8) Hk)).
  unfold zget at 1. now rewrite (bits_are_ok _ _ _ _ _ _ H (fits_env8 _ Hq) Hi).
Qed.

(** Values stay below 2^64. *)
Fixpoint size_ok (width : nat -> Z) (w : Z) (e : wx) : bool :=
  match e with
  | V n => width n <=? w
  | C c => (0 <=? c) && (c <? 2 ^ w)
  | And a b => (size_ok width w a && size_ok width w b)
  | Or a b | Xor a b => size_ok width w a && size_ok width w b
  | Shl a n => false
  | Shr a n => size_ok width w a && (0 <=? n)
  | Mod a n => (0 <=? n) && (n <=? w)
  end.
Lemma size_ok_range width env w : 0 <= w -> fits width env -> forall e, size_ok width w e = true ->
  0 <= denote env e < 2 ^ w.
Proof.
  intros Hw Hf. induction e; cbn [size_ok denote]; intros H.
  - apply Z.leb_le in H. destruct (Hf n). assert (2 ^ width n <= 2 ^ w) by (apply Z.pow_le_mono_r; lia). lia.
  - apply andb_prop in H as [H1 H2]. apply Z.leb_le in H1. apply Z.ltb_lt in H2. lia.
  - apply andb_prop in H as [H1 H2]. apply land_range; auto. now apply IHe2.
  - apply andb_prop in H as [H1 H2]. apply lor_range; auto.
  - apply andb_prop in H as [H1 H2]. apply lxor_range; auto.
  - discriminate.
  - apply andb_prop in H as [H1 H2]. apply Z.leb_le in H2. apply shiftr_range; auto.
  - apply andb_prop in H as [H1 H2]. apply Z.leb_le in H1, H2.
    assert (2 ^ n <= 2 ^ w) by (apply Z.pow_le_mono_r; lia).
    assert (0 <= denote env e mod 2 ^ n < 2 ^ n) by (apply Z.mod_pos_bound; lia). lia.
Qed.
Lemma ortho_range (q : list Z) : Forall word64 q -> Forall word64 (map (denote (env8 q)) ortho_wx).
Proof.
  intros Hq. assert (H : forallb (size_ok w64 64) ortho_wx = true) by (vm_compute; reflexivity).
  rewrite forallb_forall in H. apply Forall_map, Forall_forall. intros e He.
  apply (size_ok_range w64); [lia|now apply fits_env8|auto].
Qed.

(** interleave_in *)
Definition spread_wx (x : wx) : wx :=
  let x := Or x (Mod (Shl x 16) 64) in
  let x := And x (C 0x0000FFFF0000FFFF) in
  let x := Or x (Mod (Shl x 8) 64) in
  And x (C 0x00FF00FF00FF00FF).
Definition interleave_wx : wx := Or (spread_wx (V 0)) (Mod (Shl (spread_wx (V 1)) 8) 64).
Lemma fits_env32 (q : list Z) : Forall word32 q -> fits w32 (env8 q).
Proof.
  intros H n. split; [unfold w32; lia|]. unfold env8.
  destruct (Nat.lt_ge_cases n (length q)) as [L|L].
  - now apply Forall_nth.
  - rewrite nth_overflow by auto. unfold w32; lia.
Qed.
Lemma interleave_bit x0 x2 p : word32 x0 -> word32 x2 -> 0 <= p < 64 ->
  Z.testbit (interleave x0 x2) p = Z.testbit (if (p / 8) mod 2 =? 0 then x0 else x2) (8 * (p / 16) + p mod 8).
Proof.
  intros H0 H2 Hp. change (interleave x0 x2) with (denote (env8 [x0; x2]) interleave_wx).
  rewrite (bits_are_ok w32 64 _ (fun p => B (if (p / 8) mod 2 =? 0 then 0%nat else 1%nat) (8 * (p / 16) + p mod 8)));
    [|vm_compute; reflexivity|apply fits_env32; repeat constructor; auto; apply H0 || apply H2|auto].
  cbn [bden]. unfold env8. destruct (_ =? 0); reflexivity.
Qed.
Lemma interleave_range x0 x2 : word32 x0 -> word32 x2 -> word64 (interleave x0 x2).
Proof.
  intros H0 H2. change (interleave x0 x2) with (denote (env8 [x0; x2]) interleave_wx).
  apply (size_ok_range w32); [lia|apply fits_env32; repeat constructor; auto; apply H0 || apply H2|reflexivity].
Qed.

(** interleave_out *)
Definition gather_wx (x : wx) : wx :=
  let x := Or x (Shr x 8) in
  let x := And x (C 0x0000FFFF0000FFFF) in
  Or (Mod x 32) (Mod (Shr x 16) 32).
Lemma gather0_bit x j : word64 x -> 0 <= j < 32 ->
  Z.testbit (gather (Z.land x 0x00FF00FF00FF00FF)) j = Z.testbit x (16 * (j / 8) + j mod 8).
Proof.
  intros Hx Hj. change (gather (Z.land x 0x00FF00FF00FF00FF)) with (denote (env8 [x]) (gather_wx (And (V 0) (C 0x00FF00FF00FF00FF)))).
  rewrite (bits_are_ok w64 32 _ (fun j => B 0 (16 * (j / 8) + j mod 8)));
    [reflexivity|vm_compute; reflexivity|apply fits_env8; repeat constructor; apply Hx|auto].
Qed.
Lemma gather1_bit x j : word64 x -> 0 <= j < 32 ->
  Z.testbit (gather (Z.land (Z.shiftr x 8) 0x00FF00FF00FF00FF)) j = Z.testbit x (16 * (j / 8) + 8 + j mod 8).
Proof.
  intros Hx Hj. change (gather (Z.land (Z.shiftr x 8) 0x00FF00FF00FF00FF)) with (denote (env8 [x]) (gather_wx (And (Shr (V 0) 8) (C 0x00FF00FF00FF00FF)))).
  rewrite (bits_are_ok w64 32 _ (fun j => B 0 (16 * (j / 8) + 8 + j mod 8)));
    [reflexivity|vm_compute; reflexivity|apply fits_env8; repeat constructor; apply Hx|auto].
Qed.
Lemma gather_range x : word32 (gather x).
Proof. apply lor_range; [lia| |]; apply u32_range. Qed.

(** Compressed and expanded round keys *)
Lemma compress_bit q0 q1 q2 q3 i : word64 q0 -> word64 q1 -> word64 q2 -> word64 q3 -> 0 <= i < 64 ->
  Z.testbit (compress q0 q1 q2 q3) i = Z.testbit (zget 0 [q0; q1; q2; q3] (i mod 4)) i.
Proof.
  intros H0 H1 H2 H3 Hi.
  change (compress q0 q1 q2 q3) with (denote (env8 [q0; q1; q2; q3])
    (Or (Or (Or (And (V 0) (C mask1)) (And (V 1) (C mask2))) (And (V 2) (C mask4))) (And (V 3) (C mask8)))).
  rewrite (bits_are_ok w64 64 _ (fun i => B (Z.to_nat (i mod 4)) i));
    [reflexivity|vm_compute; reflexivity| |auto].
  apply fits_env8. repeat (constructor; [auto; fail|]). constructor.
Qed.
Lemma compress_range q0 q1 q2 q3 : word64 q0 -> word64 q1 -> word64 q2 -> word64 q3 ->
  word64 (compress q0 q1 q2 q3).
Proof.
  intros H0 H1 H2 H3. unfold compress.
  repeat apply lor_range; try lia; (apply land_range; [lia|assumption|unfold mask1, mask2, mask4, mask8; lia]).
Qed.
(** One bit in every four, multiplied by 15, fills the four. *)
Lemma smear_bit x i : word64 x -> (forall j, 0 <= j -> j mod 4 <> 0 -> Z.testbit x j = false) -> 0 <= i < 64 ->
  Z.testbit (smear x) i = Z.testbit x (4 * (i / 4)).
Proof.
  intros Hx Hz Hi.
  assert (D : forall n m, 0 <= n < 4 -> 0 <= m < 4 -> n <> m -> Z.land (Z.shiftl x n) (Z.shiftl x m) = 0).
  { intros n m Hn Hm Hnm. apply Z.bits_inj'. intros j Hj. rewrite Z.land_spec, Z.bits_0.
    rewrite !Z.shiftl_spec by lia.
    destruct (Z.lt_ge_cases (j - n) 0); [rewrite Z.testbit_neg_r by lia; reflexivity|].
    destruct (Z.lt_ge_cases (j - m) 0); [rewrite (Z.testbit_neg_r x (j - m)) by lia; apply andb_false_r|].
    destruct (Z.eq_dec ((j - n) mod 4) 0) as [E|E]; [|rewrite Hz by lia; reflexivity].
    rewrite (Hz (j - m)); [apply andb_false_r|lia|]. intros E'.
    apply Z.mod_divide in E; [|lia]. apply Z.mod_divide in E'; [|lia].
    destruct E as [a Ea], E' as [b Eb]. lia. }
  assert (S4 : x + 2 * x + 4 * x + 8 * x = Z.lor (Z.lor (Z.lor (Z.shiftl x 0) (Z.shiftl x 1)) (Z.shiftl x 2)) (Z.shiftl x 3)).
  { assert (A : forall a b, Z.land a b = 0 -> a + b = Z.lor a b).
    { intros a b Hab. rewrite Z.add_nocarry_lxor by auto.
      apply Z.bits_inj'. intros j Hj. assert (E := f_equal (fun z => Z.testbit z j) Hab). cbn beta in E.
      rewrite Z.land_spec, Z.bits_0 in E. rewrite Z.lxor_spec, Z.lor_spec.
      destruct (Z.testbit a j), (Z.testbit b j); cbn in *; congruence. }
    rewrite <- (A (Z.shiftl x 0) (Z.shiftl x 1)) by (apply D; lia).
    assert (L : forall a b c, Z.land a c = 0 -> Z.land b c = 0 -> Z.land (Z.lor a b) c = 0).
    { intros a b c H1 H2. now rewrite Z.land_lor_distr_l, H1, H2. }
    rewrite <- (A _ (Z.shiftl x 2)).
    2: { rewrite (A (Z.shiftl x 0)) by (apply D; lia). apply L; apply D; lia. }
    rewrite <- (A _ (Z.shiftl x 3)).
    2: { rewrite (A (Z.shiftl x 0)) by (apply D; lia).
         rewrite (A (Z.lor _ _)) by (apply L; apply D; lia). repeat apply L; apply D; lia. }
    rewrite !Z.shiftl_mul_pow2 by lia. lia. }
  unfold smear.
  assert (E : u64 (u64 (Z.shiftl x 4) - x) = u64 (Z.lor (Z.lor (Z.lor (Z.shiftl x 0) (Z.shiftl x 1)) (Z.shiftl x 2)) (Z.shiftl x 3))).
  { rewrite <- S4. unfold u64. rewrite Zminus_mod_idemp_l. f_equal. rewrite Z.shiftl_mul_pow2 by lia. lia. }
  rewrite E. unfold u64. change 18446744073709551616 with (2 ^ 64). rewrite Z.mod_pow2_bits_low by lia.
  rewrite !Z.lor_spec, !Z.shiftl_spec by lia.
  assert (Bm := Z.mod_pos_bound i 4 ltac:(lia)). assert (Dm := Z.div_mod i 4 ltac:(lia)).
  assert (Z0 : forall n, 0 <= n < 4 -> i mod 4 <> n -> Z.testbit x (i - n) = false).
  { intros n Hn Hne. destruct (Z.lt_ge_cases (i - n) 0); [now apply Z.testbit_neg_r|].
    apply Hz; [lia|]. intros E'. apply Z.mod_divide in E'; [|lia]. destruct E' as [a Ea]. lia. }
  assert (C : i mod 4 = 0 \/ i mod 4 = 1 \/ i mod 4 = 2 \/ i mod 4 = 3) by lia.
  destruct C as [C|[C|[C|C]]];
    repeat match goal with |- context [Z.testbit x (i - ?n)] =>
      first [rewrite (Z0 n) by lia | replace (i - n) with (4 * (i / 4)) by lia] end;
    rewrite ?orb_false_r, ?orb_false_l; reflexivity.
Qed.
Lemma smear_range x : word64 (smear x).
Proof. apply u64_range. Qed.
Definition key_part (c n : Z) : Z :=
  smear (Z.shiftr (Z.land c (zget 0 [mask1; mask2; mask4; mask8] n)) n).
Lemma key_part_bit c n i : word64 c -> 0 <= n < 4 -> 0 <= i < 64 ->
  Z.testbit (key_part c n) i = Z.testbit c (4 * (i / 4) + n).
Proof.
  intros Hc Hn Hi. unfold key_part. set (m := zget 0 _ n).
  assert (Hm : 0 <= m < 2 ^ 64 /\ forall j, 0 <= j < 64 -> Z.testbit m j = (j mod 4 =? n)).
  { unfold m. assert (C : n = 0 \/ n = 1 \/ n = 2 \/ n = 3) by lia.
    assert (A : forall k, In k (range 4) -> forallb (fun j => Bool.eqb (Z.testbit (zget 0 [mask1; mask2; mask4; mask8] k) j) (j mod 4 =? k)) (range 64) = true).
    { intros k Hk. assert (T : forallb (fun k => forallb (fun j => Bool.eqb (Z.testbit (zget 0 [mask1; mask2; mask4; mask8] k) j) (j mod 4 =? k)) (range 64)) (range 4) = true) by (vm_compute; reflexivity).
      rewrite forallb_forall in T. auto. }
    specialize (A n (proj2 (in_range n 4) Hn)). rewrite forallb_forall in A. split.
    - destruct C as [-> | [-> | [-> | ->]]]; vm_compute; split; congruence.
    - intros j Hj. apply eqb_prop, A, in_range, Hj. }
  destruct Hm as [Hm Hmb].
  assert (R : word64 (Z.shiftr (Z.land c m) n)) by (apply shiftr_range; try lia; apply land_range; try lia; exact Hc).
  rewrite smear_bit; auto.
  - assert (0 <= i / 4 < 16) by (split; [apply Z.div_pos; lia|apply Z.div_lt_upper_bound; lia]).
    rewrite Z.shiftr_spec by lia. rewrite Z.land_spec, Hmb by lia.
    replace (4 * (i / 4) + n) with (n + i / 4 * 4) at 2 by lia.
    rewrite Z.mod_add, Z.mod_small, Z.eqb_refl by lia. apply andb_true_r.
  - intros j Hj E. rewrite Z.shiftr_spec, Z.land_spec by lia.
    destruct (Z.lt_ge_cases (j + n) 64).
    + rewrite Hmb by lia. replace (_ =? n) with false; [apply andb_false_r|].
      symmetry. apply Z.eqb_neq. intros E'. apply E.
      assert (D := Z.div_mod (j + n) 4 ltac:(lia)). rewrite E' in D.
      replace j with (0 + (j + n) / 4 * 4) by lia. now rewrite Z.mod_add by lia.
    + rewrite (bit_above c 64) by (auto; lia). reflexivity.
Qed.
