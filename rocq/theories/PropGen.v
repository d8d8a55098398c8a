(** * Property C71: the zeta tables are what scripts/autogenerate_files.py generates

    [double_precision div]: the division of ints rounds as IEEE double precision does, by at most
    one part in 2^53; nothing else is assumed about it. [centred a r]: r is the representative of
    least absolute value of a modulo 3329. [barrett_twin r t]: 2 t is the even number nearest to
    2^16 r / 3329. [montgomery_twin r t]: t is r / 3329 modulo 2^16 (SpecPython.v). [BitRev7] is
    that of FIPS 203. *)

From Coq Require Import ZArith List Bool Lia.
From Verif Require Import CSem ModelPython ModelGen ModelArith ModelA64Asm ModelX86Asm SpecPython Spec202 Spec203
  ProofGen SamplesPython.
Import ListNotations.
Open Scope Z_scope.

(** The tables of mlkem/zetas.c, aarch64_zetas.c and x86_64_zetas.i are the lists generated. *)
Theorem C71_tables : forall div, double_precision div ->
  gen_c_zetas div = zetas /\
  gen_aarch64_fwd_ntt_zetas_layer01234 div = aarch64_ntt_zetas_layer01234 /\
  gen_aarch64_fwd_ntt_zetas_layer56 div = aarch64_ntt_zetas_layer56 /\
  gen_aarch64_inv_ntt_zetas_layer01234 div = aarch64_invntt_zetas_layer01234 /\
  gen_aarch64_inv_ntt_zetas_layer56 div = aarch64_invntt_zetas_layer56 /\
  gen_aarch64_mulcache_twiddles div = aarch64_zetas_mulcache_native /\
  gen_aarch64_mulcache_twiddles_twisted div = aarch64_zetas_mulcache_twisted_native /\
  gen_avx2_fwd_ntt_zetas div = zetas_exp.
Proof.
  exact (fun div D => conj (table_c div D) (conj (table_fwd01234 div D) (conj (table_fwd56 div D)
    (conj (table_inv01234 div D) (conj (table_inv56 div D) (conj (table_mulcache div D)
    (conj (table_mulcache_twisted div D) (table_avx2 div D)))))))).
Qed.
Print Assumptions C71_tables.

(** The entries of the table of the C code *)
Theorem C71_c_zetas : forall div i, double_precision div -> 0 <= i < 128 ->
  centred (17 ^ BitRev7 i * 2 ^ 16) (at_ (gen_c_zetas div) i).
Proof. exact c_zetas_entry. Qed.
Print Assumptions C71_c_zetas.

(** The roots of a block of a layer, for AArch64, forward *)
Theorem C71_aarch64_block : forall div layer block, double_precision div -> 0 <= layer < 7 -> 0 <= block < 2 ^ layer ->
  let (r, t) := gen_aarch64_root_of_unity_for_block div layer block false in
  centred (17 ^ BitRev7 (2 ^ layer + block)) r /\ barrett_twin r t.
Proof. exact fwd_block. Qed.
Print Assumptions C71_aarch64_block.

(** and inverse, *)
Theorem C71_aarch64_inverse_block : forall div layer block, double_precision div -> 0 <= layer < 7 -> 0 <= block < 2 ^ layer ->
  let (r, t) := gen_aarch64_root_of_unity_for_block div layer block true in
  Z.abs r <= 1664 /\ (r * 17 ^ BitRev7 (2 ^ layer + block)) mod 3329 = 1 /\ barrett_twin r t.
Proof. exact inv_block. Qed.
Print Assumptions C71_aarch64_inverse_block.

(** and for AVX2 *)
Theorem C71_avx2_block : forall div layer block, double_precision div -> 0 <= layer < 7 -> 0 <= block < 2 ^ layer ->
  let (r, t) := gen_avx2_root_of_unity_for_block div layer block false in
  centred (17 ^ BitRev7 (2 ^ layer + block) * 2 ^ 16) r /\ montgomery_twin r t.
Proof. exact avx2_block. Qed.
Print Assumptions C71_avx2_block.

(** The functions of the script on every argument *)
Theorem C71_bitreverse : forall i n, 0 <= bitreverse i n < 2 ^ Z.of_nat n /\
  forall j, 0 <= j < Z.of_nat n -> Z.testbit (bitreverse i n) j = Z.testbit i (Z.of_nat n - 1 - j).
Proof. exact bitreverse_out. Qed.
Print Assumptions C71_bitreverse.

Theorem C71_signed_reduce : forall div a, double_precision div -> centred a (signed_reduce div a).
Proof. exact signed_reduce_out. Qed.
Print Assumptions C71_signed_reduce.

Theorem C71_barrett : forall div root, double_precision div ->
  centred root (fst (prepare_root_for_barrett div root)) /\
  barrett_twin (fst (prepare_root_for_barrett div root)) (snd (prepare_root_for_barrett div root)).
Proof. exact barrett_out. Qed.
Print Assumptions C71_barrett.

Theorem C71_montmul : forall div root, double_precision div ->
  centred (root * 2 ^ 16) (fst (prepare_root_for_montmul div root)) /\
  montgomery_twin (fst (prepare_root_for_montmul div root)) (snd (prepare_root_for_montmul div root)).
Proof. exact montmul_out. Qed.
Print Assumptions C71_montmul.

(** A twin is determined by its root. *)
Theorem C71_barrett_unique : forall r t u, barrett_twin r t -> barrett_twin r u -> t = u.
Proof. exact barrett_twin_unique. Qed.
Print Assumptions C71_barrett_unique.

(** A division that rounds and meets the hypothesis *)
Example C71_case : double_precision sample_div /\ (let (p, s) := sample_div 65536 3329 in p * 3329 <> 65536 * s) /\
  prepare_root_for_barrett sample_div 1729 = (-1600, -15749) /\
  gen_aarch64_root_of_unity_for_block sample_div 6 63 true = (-17, -167).
Proof. split; [exact sample_div_double|]. split; [exact sample_div_rounds|]. split; vm_compute; reflexivity. Qed.
