(** * The number-theoretic transform and multiplication: C24, C25, C26

    [NTT], [NTT_inv], [MultiplyNTTs] and [poly_times] are the formulas of FIPS 203
    (Spec203.v): NTT f has in positions 2i, 2i+1 the residue of f modulo
    X^2 - zeta^(2 BitRev7(i) + 1).  A result [Ok] also says that no intermediate value
    left the range of its C type and that every debug bound held. *)

From Coq Require Import ZArith List Bool.
From Verif Require Import CSem ModelArith Spec202 Spec203 SpecLink ProofNttSpec ProofRing ProofMul Samples.
Import ListNotations.
Open Scope Z_scope.

(** ** C24 *)

Theorem C24_forward_ntt : forall f,
  zlen f = 256 -> (forall i, 0 <= i < 256 -> Z.abs (at_ f i) < q) ->
  exists r, val (poly_ntt f) = Ok r /\ zlen r = 256 /\
    (forall i, 0 <= i < 256 -> Z.abs (at_ r i) < 8 * q) /\
    (forall i, 0 <= i < 256 -> at_ r i mod q = at_ (NTT f) i).
Proof. exact ntt_correct. Qed.
Print Assumptions C24_forward_ntt.
Example C24_ex : zlen (sample_poly 3) = 256 /\
  (forall i, 0 <= i < 256 -> Z.abs (at_ (sample_poly 3) i) < q).
Proof. apply sample_poly_small. Qed.

(** ** C25 *)

Theorem C25_inverse_ntt : forall f,
  zlen f = 256 -> (forall i, 0 <= i < 256 -> - 2 ^ 15 <= at_ f i < 2 ^ 15) ->
  exists r, val (poly_invntt_tomont f) = Ok r /\ zlen r = 256 /\
    (forall i, 0 <= i < 256 -> Z.abs (at_ r i) < 8 * q) /\
    (forall i, 0 <= i < 256 -> at_ r i mod q = (2 ^ 16 * at_ (NTT_inv f) i) mod q).
Proof. exact invntt_correct. Qed.
Print Assumptions C25_inverse_ntt.

Theorem C25_after_forward : forall f,
  zlen f = 256 -> (forall i, 0 <= i < 256 -> Z.abs (at_ f i) < q) ->
  exists r, val (g <- poly_ntt f ;; poly_invntt_tomont g) = Ok r /\ zlen r = 256 /\
    (forall i, 0 <= i < 256 -> at_ r i mod q = (2 ^ 16 * at_ f i) mod q).
Proof. exact invntt_ntt. Qed.
Print Assumptions C25_after_forward.

Theorem C25_before_forward : forall f,
  zlen f = 256 -> (forall i, 0 <= i < 256 -> - 2 ^ 15 <= at_ f i < 2 ^ 15) ->
  exists r, val (g <- poly_invntt_tomont f ;; poly_ntt g) = Ok r /\ zlen r = 256 /\
    (forall i, 0 <= i < 256 -> at_ r i mod q = (2 ^ 16 * at_ f i) mod q).
Proof. exact ntt_invntt. Qed.
Print Assumptions C25_before_forward.
Example C25_ex : exists f, zlen f = 256 /\ (forall i, 0 <= i < 256 -> - 2 ^ 15 <= at_ f i < 2 ^ 15)
  /\ at_ f 0 = - 2 ^ 15 /\ at_ f 255 = 2 ^ 15 - 1.
Proof. exists extreme_poly. exact extreme_poly_ok. Qed.

(** The two formulas of the standard are inverse to each other. *)
Theorem C25_spec_inverse : forall f, reduced f -> NTT_inv (NTT f) = f /\ NTT (NTT_inv f) = f.
Proof. intros f Hf. split; [exact (NTT_inv_NTT f Hf)|exact (NTT_NTT_inv f Hf)]. Qed.
Print Assumptions C25_spec_inverse.

(** ** C26 *)

Theorem C26_basemul : forall r0 c0 a b,
  zlen r0 = 256 -> zlen c0 = 128 -> zlen a = 256 -> zlen b = 256 ->
  (forall i, 0 <= i < 256 -> Z.abs (at_ a i) < q) ->
  (forall i, 0 <= i < 256 -> - 2 ^ 15 <= at_ b i < 2 ^ 15) ->
  exists r, val (c <- poly_mulcache_compute c0 b ;; poly_basemul_montgomery_cached r0 a b c) = Ok r /\
    zlen r = 256 /\ (forall i, 0 <= i < 256 -> Z.abs (at_ r i) < 2 * q) /\
    (forall i, 0 <= i < 256 -> (2 ^ 16 * at_ r i) mod q = at_ (MultiplyNTTs a b) i).
Proof. exact basemul_correct. Qed.
Print Assumptions C26_basemul.

Theorem C26_product : forall r0 c0 f g,
  zlen r0 = 256 -> zlen c0 = 128 -> zlen f = 256 -> zlen g = 256 ->
  (forall i, 0 <= i < 256 -> Z.abs (at_ f i) < q) ->
  (forall i, 0 <= i < 256 -> Z.abs (at_ g i) < q) ->
  exists r, val (f <- poly_ntt f ;; f <- poly_reduce f ;; g <- poly_ntt g ;;
                 c <- poly_mulcache_compute c0 g ;;
                 r <- poly_basemul_montgomery_cached r0 f g c ;;
                 poly_invntt_tomont r) = Ok r /\
    zlen r = 256 /\ (forall i, 0 <= i < 256 -> at_ r i mod q = at_ (poly_times f g) i).
Proof. exact ntt_mul_correct. Qed.
Print Assumptions C26_product.

Theorem C26_inner_product : forall J p r0 u v,
  zlen r0 = 256 -> zlen u = k (set_of p) -> zlen v = k (set_of p) ->
  Forall (fun f => zlen f = 256 /\ forall i, 0 <= i < 256 -> Z.abs (at_ f i) < q) u ->
  Forall (fun f => zlen f = 256 /\ forall i, 0 <= i < 256 -> Z.abs (at_ f i) < q) v ->
  exists r, val (u <- polyvec_ntt p u ;; u <- polyvec_reduce p u ;; v <- polyvec_ntt p v ;;
                 r <- polyvec_basemul_acc_montgomery J p r0 u v ;;
                 poly_invntt_tomont r) = Ok r /\
    zlen r = 256 /\ (forall i, 0 <= i < 256 -> at_ r i mod q = at_ (inner u v) i).
Proof. exact ntt_inner_correct. Qed.
Print Assumptions C26_inner_product.
Example C26_ex : zlen (sample_vec (k (set_of MLKEM1024))) = k (set_of MLKEM1024) /\
  Forall (fun f => zlen f = 256 /\ forall i, 0 <= i < 256 -> Z.abs (at_ f i) < q)
         (sample_vec (k (set_of MLKEM1024))).
Proof. apply (sample_vec_small MLKEM1024). Qed.
(** and the specified product is the negacyclic one: (2 X^255) * (3 X) = -6 *)
Example C26_spec_ex :
  let mono c e := map (fun i => if i =? e then c else 0) (range 256) in
  at_ (poly_times (mono 2 255) (mono 3 1)) 0 = q - 6.
Proof. vm_compute. reflexivity. Qed.
