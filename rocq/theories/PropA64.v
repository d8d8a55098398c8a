(** * The assembly of the AArch64 backend: C48 to C52

    The routines of mlkem/native/aarch64 are transcribed instruction by instruction in
    ModelA64Asm.v and run on the machine of ModelA64.v. [b] is the profile of the backend
    (clean.h or opt.h); every theorem is about both. [J] stands for the contents of
    uninitialised memory and of the vector registers before a call.

    A result [Ok] also says that no access was out of bounds and that the debug bound checks
    around the native calls held. *)

From Coq Require Import ZArith List Bool.
From Verif Require Import ModelA64 ModelA64Asm ProofA64Poly ProofA64Frame.
From Verif Require Import CSem ModelArith ModelA64Poly Spec202 Spec203 SpecLink SpecA64Frame
  Samples SamplesA64.
Import ListNotations.
Open Scope Z_scope.

(** ** C48: the forward transform *)

Theorem C48_forward_ntt : forall b J f,
  zlen f = 256 -> (forall i, 0 <= i < 256 -> Z.abs (at_ f i) < q) ->
  exists r, val (poly_ntt_aarch64 b J f) = Ok r /\ zlen r = 256 /\
    (forall i, 0 <= i < 256 -> Z.abs (at_ r i) < 6 * q) /\
    (forall i, 0 <= i < 256 -> at_ r i mod q = at_ (NTT f) i).
Proof. exact ntt_a64_correct. Qed.
Print Assumptions C48_forward_ntt.
Example C48_ex : zlen (sample_poly 3) = 256 /\
  (forall i, 0 <= i < 256 -> Z.abs (at_ (sample_poly 3) i) < q).
Proof. apply sample_poly_small. Qed.

(** ** C49: the inverse transform *)

Theorem C49_inverse_ntt : forall b J f,
  zlen f = 256 -> (forall i, 0 <= i < 256 -> - 2 ^ 15 <= at_ f i < 2 ^ 15) ->
  exists r, val (poly_invntt_tomont_aarch64 b J f) = Ok r /\ zlen r = 256 /\
    (forall i, 0 <= i < 256 -> Z.abs (at_ r i) < 8 * q) /\
    (forall i, 0 <= i < 256 -> at_ r i mod q = (2 ^ 16 * at_ (NTT_inv f) i) mod q).
Proof. exact invntt_a64_correct. Qed.
Print Assumptions C49_inverse_ntt.

Theorem C49_after_forward : forall b J J' f,
  zlen f = 256 -> (forall i, 0 <= i < 256 -> Z.abs (at_ f i) < q) ->
  exists r, val (g <- poly_ntt_aarch64 b J f ;; poly_invntt_tomont_aarch64 b J' g) = Ok r /\
    zlen r = 256 /\
    (forall i, 0 <= i < 256 -> at_ r i mod q = (2 ^ 16 * at_ f i) mod q).
Proof. exact invntt_ntt_a64. Qed.
Print Assumptions C49_after_forward.
Example C49_ex : exists f, zlen f = 256 /\ (forall i, 0 <= i < 256 -> - 2 ^ 15 <= at_ f i < 2 ^ 15)
  /\ at_ f 0 = - 2 ^ 15 /\ at_ f 255 = 2 ^ 15 - 1.
Proof. exists extreme_poly. exact extreme_poly_ok. Qed.

(** ** C50: products *)

(** The accumulated product with its cache, for each k *)
Theorem C50_basemul : forall b J p r0 u v,
  zlen r0 = 256 -> zlen u = k (set_of p) -> zlen v = k (set_of p) ->
  Forall (fun f => zlen f = 256 /\ forall i, 0 <= i < 256 -> Z.abs (at_ f i) < q) u ->
  Forall (fun f => zlen f = 256 /\ forall i, 0 <= i < 256 -> Z.abs (at_ f i) < 8 * q) v ->
  exists r, val (polyvec_basemul_acc_montgomery_aarch64 b J p r0 u v) = Ok r /\ zlen r = 256 /\
    (forall i, 0 <= i < 256 -> Z.abs (at_ r i) < 4 * q) /\
    (forall i, 0 <= i < 256 -> (2 ^ 16 * at_ r i) mod q = at_ (dot u v) i).
Proof. exact basemul_a64_correct. Qed.
Print Assumptions C50_basemul.

(** The whole pipeline *)
Theorem C50_inner_product : forall b J p r0 u v,
  zlen r0 = 256 -> zlen u = k (set_of p) -> zlen v = k (set_of p) ->
  Forall (fun f => zlen f = 256 /\ forall i, 0 <= i < 256 -> Z.abs (at_ f i) < q) u ->
  Forall (fun f => zlen f = 256 /\ forall i, 0 <= i < 256 -> Z.abs (at_ f i) < q) v ->
  exists r, val (u <- polyvec_ntt_aarch64 b J p u ;; u <- polyvec_reduce_aarch64 b J p u ;;
                 v <- polyvec_ntt_aarch64 b J p v ;;
                 r <- polyvec_basemul_acc_montgomery_aarch64 b J p r0 u v ;;
                 poly_invntt_tomont_aarch64 b J r) = Ok r /\
    zlen r = 256 /\ (forall i, 0 <= i < 256 -> at_ r i mod q = at_ (inner u v) i).
Proof. exact inner_a64_correct. Qed.
Print Assumptions C50_inner_product.
Example C50_ex : zlen (sample_vec (k (set_of MLKEM1024))) = k (set_of MLKEM1024) /\
  Forall (fun f => zlen f = 256 /\ forall i, 0 <= i < 256 -> Z.abs (at_ f i) < q)
         (sample_vec (k (set_of MLKEM1024))).
Proof. apply (sample_vec_small MLKEM1024). Qed.

(** ** C51: reduction, conversion to the Montgomery domain, cache, bytes *)

Theorem C51_reduce : forall b J f,
  zlen f = 256 -> (forall i, 0 <= i < 256 -> - 2 ^ 15 <= at_ f i < 2 ^ 15) ->
  val (poly_reduce_aarch64 b J f) = Ok (map (fun x => x mod q) f).
Proof. exact reduce_a64_correct. Qed.
Print Assumptions C51_reduce.

Theorem C51_reduce_agrees : forall b J f,
  zlen f = 256 -> (forall i, 0 <= i < 256 -> - 2 ^ 15 <= at_ f i < 2 ^ 15) ->
  val (poly_reduce_aarch64 b J f) = val (poly_reduce f).
Proof. exact reduce_a64_agrees. Qed.
Print Assumptions C51_reduce_agrees.

Theorem C51_tomont : forall b J f,
  zlen f = 256 -> (forall i, 0 <= i < 256 -> - 2 ^ 15 <= at_ f i < 2 ^ 15) ->
  exists r, val (poly_tomont_aarch64 b J f) = Ok r /\ zlen r = 256 /\
    (forall i, 0 <= i < 256 -> Z.abs (at_ r i) < q) /\
    (forall i, 0 <= i < 256 -> at_ r i mod q = (2 ^ 16 * at_ f i) mod q).
Proof. exact tomont_a64_correct. Qed.
Print Assumptions C51_tomont.

(** The product of each odd coefficient with the power of zeta that MultiplyNTTs needs *)
Theorem C51_mulcache : forall b J x a,
  zlen x = 128 -> zlen a = 256 -> (forall i, 0 <= i < 256 -> - 2 ^ 15 <= at_ a i < 2 ^ 15) ->
  exists c, val (poly_mulcache_compute_aarch64 b J x a) = Ok c /\ zlen c = 128 /\
    (forall i, 0 <= i < 128 -> Z.abs (at_ c i) < q) /\
    (forall i, 0 <= i < 128 ->
       at_ c i mod q = (at_ a (2 * i + 1) * zeta ^ (2 * BitRev7 i + 1)) mod q).
Proof. exact mulcache_a64_correct. Qed.
Print Assumptions C51_mulcache.
Example C51_ex : exists f, zlen f = 256 /\ (forall i, 0 <= i < 256 -> - 2 ^ 15 <= at_ f i < 2 ^ 15)
  /\ at_ f 0 = - 2 ^ 15 /\ at_ f 255 = 2 ^ 15 - 1.
Proof. exists extreme_poly. exact extreme_poly_ok. Qed.

Theorem C51_tobytes : forall J r a, zlen r = 384 -> reduced a ->
  val (poly_tobytes_aarch64 J r a) = Ok (ByteEncode 12 a).
Proof. exact tobytes_a64_correct. Qed.
Print Assumptions C51_tobytes.
Example C51_tobytes_ex : forall J,
  val (poly_tobytes_aarch64 J (sample_bytes 0 384) (sample_poly 77)) = Ok (ByteEncode 12 (sample_poly 77)).
Proof. intros J. apply C51_tobytes; [reflexivity|]. apply sample_poly_ok. Qed.

(** ** C52: frames, addresses and the procedure call standard *)

(** On any contents of registers and arrays, each routine runs to the end without a fault,
    changes only the array of the result and the stack below the caller's, accesses a
    sequence of addresses that does not depend on any contents, and preserves sp, x18 to x30
    and the low halves of v8 to v15. *)
Theorem C52_frame : forall b p n roles, In (p, n, roles) (routines b) ->
  exists addresses, forall regs saved stack arrays,
  vector_registers regs -> zlen stack = 32 -> Forall2 fills roles arrays ->
  exists st stack' arrays',
    run_words p regs (call_registers n saved) (stack :: arrays) = Some st /\
    trace st = addresses /\
    mem st = stack' :: arrays' /\ all_kept roles arrays arrays' /\
    (forall i, (8 <= i < 16)%nat -> low_half (vregs st) i = low_half regs i) /\
    (forall i, (18 <= i < 32)%nat -> nth i (xregs st) Any = nth i (call_registers n saved) Any).
Proof.
  intros b p n roles H. exists (fixed_trace p n roles). intros regs saved stack arrays.
  exact (routine_run b p n roles regs saved stack arrays H).
Qed.
Print Assumptions C52_frame.
Example C52_ex : In (basemul_routine opt MLKEM512) (routines opt) /\
  vector_registers sample_registers /\ zlen (firstn 32 extreme_poly) = 32 /\
  Forall2 fills (snd (basemul_routine opt MLKEM512))
    [extreme_poly; extreme_poly ++ sample_poly 1; sample_poly 2 ++ extreme_poly; sample_poly 3;
     polyvec_opt_const_addr].
Proof. exact sample_call. Qed.
