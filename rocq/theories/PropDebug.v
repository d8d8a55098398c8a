(** * Property C73: what the checks of debug builds do

    [out_of_bounds l n lo hi is]: is are the indices of the values of l out of bounds, ascending.
    [line_for file line msg s]: s is the line with file name, line number and the first 255
    characters of msg. [agrees r m]: the report r ends the program exactly if the check m of the
    models has the outcome DebugCheck (SpecDebug.v). *)

From Coq Require Import ZArith List Bool String Lia.
From Verif Require Import CSem Spec202 ModelDebug SpecDebug ProofDebug.
Import ListNotations.
Local Open Scope string_scope.
Open Scope Z_scope.

(** mlkem_debug_check_bounds prints a line for every value out of bounds, in order, and ends the
    program exactly if there is one. *)
Theorem C73_check_bounds : forall file line d l n lo hi, 0 <= n <= zlen l ->
  exists is lines exits, out_of_bounds l n lo hi is /\
    val (mlkem_debug_check_bounds file line d l n lo hi) = Ok (lines, exits) /\
    Forall2 (fun i s => line_for file line (message d l lo hi i) s) is lines /\
    (exits = true <-> exists i, 0 <= i < n /\ ~ within lo hi (at_ l i)).
Proof. exact check_out. Qed.
Print Assumptions C73_check_bounds.
(** The indices are determined. *)
Theorem C73_unique : forall l n lo hi is js, out_of_bounds l n lo hi is -> out_of_bounds l n lo hi js -> is = js.
Proof. exact out_unique. Qed.
Print Assumptions C73_unique.

(** mlkem_debug_assert *)
Theorem C73_assert : forall file line d v,
  (v <> 0 -> mlkem_debug_assert file line d v = ([], false)) /\
  (v = 0 -> exists s, mlkem_debug_assert file line d v = ([s], true) /\
    line_for file line (String.concat "" ["Assertion failed: "; d; " (value 0)"]) s).
Proof. exact assert_out. Qed.
Print Assumptions C73_assert.

(** The message always fits into the buffer. *)
Theorem C73_buffer : forall s, fits 256 s (snprintf s).
Proof. exact snprintf_fits. Qed.
Print Assumptions C73_buffer.

(** The outcome DebugCheck of the models stands for the end of the program in each macro. *)
Theorem C73_scalar : forall file line v b msg, agrees (SCALAR_BOUND_ file line v b msg) (SCALAR_BOUND v b).
Proof. exact scalar_agrees. Qed.
Print Assumptions C73_scalar.
Theorem C73_poly : forall file line p b msg,
  exists r, val (POLY_BOUND_MSG file line p b msg) = Ok r /\ agrees r (POLY_BOUND p b).
Proof. exact poly_agrees. Qed.
Print Assumptions C73_poly.
Theorem C73_poly_unsigned : forall file line p b msg,
  exists r, val (POLY_UBOUND_MSG file line p b msg) = Ok r /\ agrees r (POLY_UBOUND p b).
Proof. exact poly_u_agrees. Qed.
Print Assumptions C73_poly_unsigned.
Theorem C73_polyvec : forall file line v b msg,
  exists r, val (POLYVEC_BOUND_ file line v b msg) = Ok r /\ agrees r (POLYVEC_BOUND v b).
Proof. exact polyvec_agrees. Qed.
Print Assumptions C73_polyvec.
Theorem C73_polyvec_unsigned : forall file line v b msg,
  exists r, val (POLYVEC_UBOUND_ file line v b msg) = Ok r /\ agrees r (POLYVEC_UBOUND v b).
Proof. exact polyvec_u_agrees. Qed.
Print Assumptions C73_polyvec_unsigned.

(** For a vector only the first polynomial that fails is reported. *)
Theorem C73_polyvec_first : forall check pre p post ls,
  (forall x, In x pre -> val (check x) = Ok ([], false)) -> val (check p) = Ok (ls, true) ->
  val (POLYVEC_ check (pre ++ p :: post)%list) = Ok (ls, true).
Proof. exact polyvec_first. Qed.
Print Assumptions C73_polyvec_first.

Example C73_case :
  val (POLY_BOUND_MSG "ntt.c" 132 [3328; -3329; 0; 3329] 3329 "ref ntt input") =
    Ok (["[ERROR:ntt.c:0132] ref ntt input, index 1, value -3329 out of bounds (-3329,3329)";
         "[ERROR:ntt.c:0132] ref ntt input, index 3, value 3329 out of bounds (-3329,3329)"], true) /\
  val (POLYVEC_UBOUND_ "polyvec.c" 18 [[0; 3328]; [5; -1]; [-7; 9]] 3329 "a") =
    Ok (["[ERROR:polyvec.c:0018] a, index 1, value -1 out of bounds (-1,3329)"], true) /\
  SCALAR_BOUND_ "reduce.c" 111 1665 1665 "fqmul input" =
    (["[ERROR:reduce.c:0111] Assertion failed: fqmul input (value 0)"], true).
Proof. repeat split; vm_compute; reflexivity. Qed.
