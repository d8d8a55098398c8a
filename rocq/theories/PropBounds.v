(** * Property C72: the claims of test/test_bounds.py

    The script checks them on random arguments or on all int16_t; here they are for all integers.
    [layers mul ok n f g]: the coefficients g come from the coefficients f by n layers of
    butterflies with the multiplication [mul] and twiddles that satisfy [ok] (SpecPython.v). *)

From Coq Require Import ZArith List Bool QArith Lia.
From Verif Require Import CSem ModelPython ModelBounds ModelGen ModelArith ModelA64 SpecPython ProofBounds SamplesPython.
Import ListNotations.
Open Scope Z_scope.

(** The assertion of barmul_test never fails, whatever the rounding of the division. *)
Theorem C72_relation : forall div a b, barmul_test div a b = true.
Proof. exact barmul_test_true. Qed.
Print Assumptions C72_relation.
Theorem C72_equal : forall div a b, barmul div a b = montmul_neg a (modq_even div (b * 2 ^ 16)).
Proof. exact bar_mont. Qed.
Print Assumptions C72_equal.

(** Both are products modulo 3329. *)
Theorem C72_barmul : forall div a b, barmul div a b mod 3329 = (a * b) mod 3329.
Proof. exact barmul_product. Qed.
Print Assumptions C72_barmul.
Theorem C72_montmul : forall a b, (montmul_neg a b * 2 ^ 16) mod 3329 = (a * b) mod 3329.
Proof. exact montmul_product. Qed.
Print Assumptions C72_montmul.

(** |barmul(a,b)| < 0.0508 |a| + q / 2 *)
Theorem C72_barmul_bound : forall div a b, double_precision div -> Z.abs b < 2 ^ 37 ->
  10000 * Z.abs (barmul div a b) < 508 * Z.abs a + 5000 * 3329.
Proof. exact barmul_bound. Qed.
Print Assumptions C72_barmul_bound.

(** The progression of the bounds through n layers *)
Theorem C72_layers : forall div n f g c, double_precision div ->
  layers (barmul div) (fun t => Z.abs t < 2 ^ 37) n f g -> (forall i, Z.abs (f i) <= c) ->
  forall i, (inject_Z (Z.abs (g i)) <= 3329 * ntt_layer_bound (508 # 10000) n c)%Q.
Proof. exact barmul_layers. Qed.
Print Assumptions C72_layers.
(** Seven layers stay below 18295, as the comment in the assembly says. *)
Theorem C72_ntt : forall div f g, double_precision div ->
  layers (barmul div) (fun t => Z.abs t < 2 ^ 37) 7 f g -> (forall i, Z.abs (f i) <= 3329) ->
  forall i, Z.abs (g i) < 18295.
Proof. exact barmul_ntt. Qed.
Print Assumptions C72_ntt.

(** The factor 0.0204 of the script is no bound for Montgomery multiplication, not even with the
    zetas of the table, *)
Theorem C72_factor_refuted : exists a t, In t zetas /\ Z.abs a <= 3329 /\
  204 * Z.abs a + 5000 * 3329 < 10000 * Z.abs (montmul_neg a t) /\ val (fqmul a t) = Ok (montmul_neg a t).
Proof. exact factor_refuted. Qed.
Print Assumptions C72_factor_refuted.
(** and the progression computed with it is wrong from the first layer on. *)
Theorem C72_layer_refuted : exists f g, (forall i, Z.abs (f i) <= 3329) /\
  layer montmul_neg (fun t => In t zetas) f g /\
  exists i, (3329 * ntt_layer_bound (204 # 10000) 1 3329 < inject_Z (Z.abs (g i)))%Q.
Proof. exact layer_refuted. Qed.
Print Assumptions C72_layer_refuted.
(** With 0.0254 the claims hold. *)
Theorem C72_montmul_bound : forall a b, Z.abs b <= 1664 -> 10000 * Z.abs (montmul_neg a b) < 254 * Z.abs a + 5000 * 3329.
Proof. exact montmul_bound. Qed.
Print Assumptions C72_montmul_bound.
Theorem C72_montmul_layers : forall n f g c,
  layers montmul_neg (fun t => Z.abs t <= 1664) n f g -> (forall i, Z.abs (f i) <= c) ->
  forall i, (inject_Z (Z.abs (g i)) <= 3329 * ntt_layer_bound (254 # 10000) n c)%Q.
Proof. exact montmul_layers. Qed.
Print Assumptions C72_montmul_layers.

(** The functions of the script are those of the code: three instructions of AArch64, with the
    constants of the generator of the tables, *)
Theorem C72_aarch64 : forall div a b, double_precision div -> - 2 ^ 15 <= a < 2 ^ 15 -> Z.abs b <= 1664 ->
  word_sem Sub (word_sem Mul a b) (word_sem Mul (word_sem Sqrdmulh a (barrett_twiddle div b)) 3329) = barmul div a b.
Proof. exact barmul_word. Qed.
Print Assumptions C72_aarch64.
Theorem C72_twiddle : forall div root, double_precision div ->
  let (r, t) := prepare_root_for_barrett div root in t = barrett_twiddle div r.
Proof. exact twiddle_generated. Qed.
Print Assumptions C72_twiddle.
(** and fqmul, except that the two differ by q if the low half of the product is 2^15. *)
Theorem C72_fqmul : forall a b, - 2 ^ 15 <= a < 2 ^ 15 -> Z.abs b <= 1664 ->
  exists r, val (fqmul a b) = Ok r /\
    (r = montmul_neg a b \/ (a * b) mod 2 ^ 16 = 2 ^ 15 /\ r = montmul_neg a b + 3329).
Proof. exact fqmul_montmul. Qed.
Print Assumptions C72_fqmul.

(** The bounds that the comments in reduce.c give for a C = N / D with |a| < q C: less than
    q (C / 2^16 + 1/2) for a Montgomery reduction, *)
Theorem C72_reduce_bound : forall a N D, Z.abs a <= 2 ^ 31 - 1 - 2 ^ 15 * 3329 -> 0 < D -> Z.abs a * D < 3329 * N ->
  exists r, val (montgomery_reduce_generic a) = Ok r /\ 2 ^ 17 * D * Z.abs r < 3329 * (2 * N + 2 ^ 16 * D).
Proof. exact reduce_bound. Qed.
Print Assumptions C72_reduce_bound.
(** q (0.0254 C + 1/2) for a product with a constant less than q / 2, *)
Theorem C72_fqmul_bound : forall a t N D, - 2 ^ 15 <= a < 2 ^ 15 -> 2 * Z.abs t < 3329 -> 0 < D -> Z.abs a * D < 3329 * N ->
  exists r, val (fqmul a t) = Ok r /\ 10000 * D * Z.abs r < 3329 * (254 * N + 5000 * D).
Proof. exact fqmul_scaled. Qed.
Print Assumptions C72_fqmul_bound.
(** q (0.0508 C + 1/2) for a product with a constant less than q *)
Theorem C72_product_bound : forall a t N D, - 2 ^ 15 <= a < 2 ^ 15 -> Z.abs t < 3329 -> 0 < D -> Z.abs a * D < 3329 * N ->
  exists r, val (montgomery_reduce_generic (a * t)) = Ok r /\ 10000 * D * Z.abs r < 3329 * (508 * N + 5000 * D).
Proof. exact reduce_product_scaled. Qed.
Print Assumptions C72_product_bound.
Example C72_bound_case : Z.abs 20000 * 1 < 3329 * 7 /\ val (fqmul 20000 (-1530)) = Ok (-1569) /\
  10000 * 1 * 1569 < 3329 * (254 * 7 + 5000 * 1).
Proof. vm_compute. repeat split; reflexivity. Qed.

(** A division that rounds, two layers of butterflies, and a product of each kind *)
Example C72_case : double_precision sample_div /\
  layers (barmul sample_div) (fun t => Z.abs t < 2 ^ 37) 2 sample_f sample_h /\
  (forall i, Z.abs (sample_f i) <= 3329) /\
  barmul sample_div 20000 (-1600) = -1652 /\ val (fqmul (-32768) 1663) = Ok (montmul_neg (-32768) 1663 + 3329).
Proof.
  split; [exact sample_div_double|]. split; [exact sample_layers|].
  split; [intros i; unfold sample_f; destruct (Nat.even i); vm_compute; discriminate|].
  split; vm_compute; reflexivity.
Qed.
