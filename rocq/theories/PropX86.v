(** * The assembly of the x86_64 backend: C39 to C44

    The routines of mlkem/native/x86_64 are transcribed instruction by instruction in
    ModelX86Asm.v and run on the machine of ModelX86.v. [J] stands for the contents of
    uninitialised memory and of the vector registers before a call.

    Between the forward and the inverse transform the backend keeps coefficients in an
    order of its own: [fips_order r] lists the coefficients of [r] in the order of FIPS
    203 (SpecX86.v).  A result [Ok] also says that no access was out of bounds or
    misaligned and that the debug bound checks around the native calls held. *)

From Coq Require Import ZArith List Bool.
From Verif Require Import CSem ModelArith ModelX86 ModelX86Asm ModelX86Poly Spec202 Spec203 SpecLink SpecX86
  SpecX86Frame ProofX86Word ProofX86Poly ProofX86Frame Samples SamplesX86.
Import ListNotations.
Open Scope Z_scope.

(** The order is a permutation of the 256 positions. *)
Theorem C39_order : forall f, zlen f = 256 ->
  fips_order (custom_order f) = f /\ custom_order (fips_order f) = f.
Proof. intros f L. split; [exact (fips_custom_order f L)|exact (custom_fips_order f L)]. Qed.
Print Assumptions C39_order.

(** ** C39: the forward transform *)

Theorem C39_forward_ntt : forall J f,
  zlen f = 256 -> (forall i, 0 <= i < 256 -> Z.abs (at_ f i) < q) ->
  exists r, val (poly_ntt_x86_64 J f) = Ok r /\ zlen r = 256 /\
    (forall i, 0 <= i < 256 -> Z.abs (at_ r i) < 8 * q) /\
    (forall i, 0 <= i < 256 -> at_ (fips_order r) i mod q = at_ (NTT f) i).
Proof. exact ntt_x86_correct. Qed.
Print Assumptions C39_forward_ntt.
Example C39_ex : zlen (sample_poly 3) = 256 /\
  (forall i, 0 <= i < 256 -> Z.abs (at_ (sample_poly 3) i) < q).
Proof. apply sample_poly_small. Qed.
(** The order is not the identity: coefficient 1 is in element 16. *)
Example C39_order_ex : at_ (fips_order (range 256)) 1 = 16.
Proof. vm_compute. reflexivity. Qed.

(** ** C40: the inverse transform *)

Theorem C40_inverse_ntt : forall J f,
  zlen f = 256 -> (forall i, 0 <= i < 256 -> - 2 ^ 15 <= at_ f i < 2 ^ 15) ->
  exists r, val (poly_invntt_tomont_x86_64 J f) = Ok r /\ zlen r = 256 /\
    (forall i, 0 <= i < 256 -> Z.abs (at_ r i) < 8 * q) /\
    (forall i, 0 <= i < 256 -> at_ r i mod q = (2 ^ 16 * at_ (NTT_inv (fips_order f)) i) mod q).
Proof. exact invntt_x86_correct. Qed.
Print Assumptions C40_inverse_ntt.

Theorem C40_after_forward : forall J J' f,
  zlen f = 256 -> (forall i, 0 <= i < 256 -> Z.abs (at_ f i) < q) ->
  exists r, val (g <- poly_ntt_x86_64 J f ;; poly_invntt_tomont_x86_64 J' g) = Ok r /\
    zlen r = 256 /\
    (forall i, 0 <= i < 256 -> at_ r i mod q = (2 ^ 16 * at_ f i) mod q).
Proof. exact invntt_ntt_x86. Qed.
Print Assumptions C40_after_forward.
Example C40_ex : exists f, zlen f = 256 /\ (forall i, 0 <= i < 256 -> - 2 ^ 15 <= at_ f i < 2 ^ 15)
  /\ at_ f 0 = - 2 ^ 15 /\ at_ f 255 = 2 ^ 15 - 1.
Proof. exists extreme_poly. exact extreme_poly_ok. Qed.

(** ** C41: products *)

Theorem C41_basemul : forall J r0 a b,
  zlen r0 = 256 -> zlen a = 256 -> zlen b = 256 ->
  (forall i, 0 <= i < 256 -> Z.abs (at_ a i) < q) ->
  (forall i, 0 <= i < 256 -> - 2 ^ 15 <= at_ b i < 2 ^ 15) ->
  exists r, val (poly_basemul_montgomery_avx2 J r0 a b) = Ok r /\ zlen r = 256 /\
    (forall i, 0 <= i < 256 -> Z.abs (at_ r i) < 2 * q) /\
    (forall i, 0 <= i < 256 -> (2 ^ 16 * at_ (fips_order r) i) mod q
                               = at_ (MultiplyNTTs (fips_order a) (fips_order b)) i).
Proof. exact basemul_x86_correct. Qed.
Print Assumptions C41_basemul.
Example C41_ex : zlen (sample_poly 5) = 256 /\
  (forall i, 0 <= i < 256 -> Z.abs (at_ (sample_poly 5) i) < q) /\ zlen extreme_poly = 256 /\
  (forall i, 0 <= i < 256 -> - 2 ^ 15 <= at_ extreme_poly i < 2 ^ 15).
Proof. exact (conj (proj1 (sample_poly_small 5)) (conj (proj2 (sample_poly_small 5))
  (conj (proj1 extreme_poly_ok) (proj1 (proj2 extreme_poly_ok))))). Qed.

(** The whole pipeline, with the 16-bit accumulation of k products *)
Theorem C41_inner_product : forall J p r0 u v,
  zlen r0 = 256 -> zlen u = k (set_of p) -> zlen v = k (set_of p) ->
  Forall (fun f => zlen f = 256 /\ forall i, 0 <= i < 256 -> Z.abs (at_ f i) < q) u ->
  Forall (fun f => zlen f = 256 /\ forall i, 0 <= i < 256 -> Z.abs (at_ f i) < q) v ->
  exists r, val (u <- polyvec_ntt_x86_64 J p u ;; u <- polyvec_reduce_x86_64 J p u ;;
                 v <- polyvec_ntt_x86_64 J p v ;;
                 r <- polyvec_basemul_acc_montgomery_x86_64 J p r0 u v ;;
                 poly_invntt_tomont_x86_64 J r) = Ok r /\
    zlen r = 256 /\ (forall i, 0 <= i < 256 -> at_ r i mod q = at_ (inner u v) i).
Proof. exact inner_x86_correct. Qed.
Print Assumptions C41_inner_product.
Example C41_inner_ex : zlen (sample_vec (k (set_of MLKEM1024))) = k (set_of MLKEM1024) /\
  Forall (fun f => zlen f = 256 /\ forall i, 0 <= i < 256 -> Z.abs (at_ f i) < q)
         (sample_vec (k (set_of MLKEM1024))).
Proof. apply (sample_vec_small MLKEM1024). Qed.

(** ** C42: reduction and conversion to the Montgomery domain *)

Theorem C42_reduce : forall J f,
  zlen f = 256 -> (forall i, 0 <= i < 256 -> - 2 ^ 15 <= at_ f i < 2 ^ 15) ->
  val (poly_reduce_x86_64 J f) = Ok (map (fun x => x mod q) f).
Proof. exact reduce_x86_correct. Qed.
Print Assumptions C42_reduce.

Theorem C42_reduce_agrees : forall J f,
  zlen f = 256 -> (forall i, 0 <= i < 256 -> - 2 ^ 15 <= at_ f i < 2 ^ 15) ->
  val (poly_reduce_x86_64 J f) = val (poly_reduce f).
Proof. exact reduce_x86_agrees. Qed.
Print Assumptions C42_reduce_agrees.

Theorem C42_tomont : forall J f,
  zlen f = 256 -> (forall i, 0 <= i < 256 -> - 2 ^ 15 <= at_ f i < 2 ^ 15) ->
  exists r, val (poly_tomont_x86_64 J f) = Ok r /\ zlen r = 256 /\
    (forall i, 0 <= i < 256 -> Z.abs (at_ r i) < q) /\
    (forall i, 0 <= i < 256 -> at_ r i mod q = (2 ^ 16 * at_ f i) mod q).
Proof. exact tomont_x86_correct. Qed.
Print Assumptions C42_tomont.
Example C42_ex : exists f, zlen f = 256 /\ (forall i, 0 <= i < 256 -> - 2 ^ 15 <= at_ f i < 2 ^ 15)
  /\ at_ f 0 = - 2 ^ 15 /\ at_ f 255 = 2 ^ 15 - 1.
Proof. exists extreme_poly. exact extreme_poly_ok. Qed.

(** ** C43: bytes *)

Theorem C43_tobytes : forall J r a, zlen r = 384 -> reduced a ->
  val (poly_tobytes_x86_64 J r a) = Ok (ByteEncode 12 (fips_order a)).
Proof. exact tobytes_x86_correct. Qed.
Print Assumptions C43_tobytes.

Theorem C43_frombytes : forall J r b, zlen r = 256 -> zlen b = 384 -> bytes b ->
  exists r', val (poly_frombytes_x86_64 J r b) = Ok r' /\ zlen r' = 256 /\
    fips_order r' = fields 12 b.
Proof. exact frombytes_x86_correct. Qed.
Print Assumptions C43_frombytes.

Theorem C43_deserialise_serialise : forall J J' r r' a,
  zlen r = 384 -> zlen r' = 256 -> reduced a ->
  val (b <- poly_tobytes_x86_64 J r a ;; poly_frombytes_x86_64 J' r' b) = Ok a.
Proof. exact serialise_x86. Qed.
Print Assumptions C43_deserialise_serialise.

(** What gen_matrix applies to entries sampled in the order of FIPS 203 *)
Theorem C43_permute : forall J f, zlen f = 256 ->
  exists r, val (poly_permute_bitrev_to_custom J f) = Ok r /\ zlen r = 256 /\ fips_order r = f.
Proof. exact unpack_x86_correct. Qed.
Print Assumptions C43_permute.
Example C43_ex : forall J,
  val (b <- poly_tobytes_x86_64 J (sample_bytes 0 384) (sample_poly 77) ;;
       poly_frombytes_x86_64 J (sample_poly 0) b) = Ok (sample_poly 77).
Proof. intros J. apply C43_deserialise_serialise; try reflexivity. apply sample_poly_ok. Qed.

(** ** C44: frames and addresses *)

(** On any contents of registers and arrays, each routine runs to the end without a
    fault, changes only the array of the result (and the stack slot), leaves 16-bit
    words there, and accesses a sequence of addresses that does not depend on any
    contents. *)
Theorem C44_frame : forall p roles, In (p, roles) routines ->
  exists addresses, forall regs arrays, vector_registers regs -> Forall2 fills roles arrays ->
  exists st, run_words p regs args arrays = Some st /\ trace st = addresses /\
    all_kept roles arrays (mem st).
Proof. intros p roles H. exists (fixed_trace p roles). intros regs arrays. exact (routine_run p roles regs arrays H). Qed.
Print Assumptions C44_frame.
Example C44_ex : vector_registers sample_registers /\
  Forall2 fills [Out 256; In_ 256; In_ 256; Table; Scratch 16]
    [extreme_poly; sample_poly 1; extreme_poly; qdata; firstn 16 extreme_poly].
Proof. exact sample_call. Qed.
