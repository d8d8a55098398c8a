(** * Specification: the noise that K-PKE.Decrypt meets

    FIPS 203 section 3.2 (decapsulation failures). Decrypting the encryption of a message mu
    yields mu plus the polynomial e^T y + e2 + c_v - s^T (e1 + c_u) in R_q, where c_u and c_v
    are the errors of rounding the ciphertext. *)

From Coq Require Import ZArith List Bool.
From Verif Require Import Spec202 Spec203 SpecMem.
Import ListNotations.
Open Scope Z_scope.

(** What compressing a polynomial to d bits and decompressing it adds to it *)
Definition rounding (d : Z) (f : list Z) : list Z :=
  poly_minus (map (Decompress d) (map (Compress d) f)) f.

(** The noise for the matrix A (in NTT representation), the secrets s and e of the key, the
    secrets y, e1, e2 of the encryption and the encoded message mu *)
Definition noise_of (P : params) (A : list vec) (s e y e1 : vec) (e2 mu : list Z) : list Z :=
  let t_hat := vec_plus (mat_vec A (map NTT s)) (map NTT e) in
  let u := vec_plus (map NTT_inv (mat_vec (transpose A) (map NTT y))) e1 in
  let v := poly_plus (poly_plus (NTT_inv (dot t_hat (map NTT y))) e2) mu in
  let c_u := map (rounding (du P)) u in
  let c_v := rounding (dv P) v in
  poly_minus (poly_plus (poly_plus (inner e y) e2) c_v) (inner s (vec_plus e1 c_u)).

(** The noise when the message m is encrypted with the randomness r under the key generated
    from d *)
Definition pke_noise (P : params) (blocks : Z) (d m r : list Z) : option (list Z) :=
  let '(rho, sigma) := G (d ++ [k P]) in
  match ExpandA P blocks rho with
  | None => None
  | Some A =>
      Some (noise_of P A (noise_vec P (eta1 P) sigma 0) (noise_vec P (eta1 P) sigma (k P))
              (noise_vec P (eta1 P) r 0) (noise_vec P (eta2 P) r (k P))
              (SamplePolyCBD (eta2 P) (PRF (eta2 P) r (2 * k P)))
              (map (Decompress 1) (ByteDecode 1 m)))
  end.

(** The noise of the encapsulation with coins m under the key generated from d *)
Definition kem_noise (P : params) (blocks : Z) (d m : list Z) : option (list Z) :=
  match K_PKE_KeyGen P blocks d with
  | None => None
  | Some (ek, _) => pke_noise P blocks d m (snd (G (m ++ H ek)))
  end.

(** The representative of x modulo q between -(q-1)/2 and (q-1)/2 *)
Definition centred (x : Z) : Z := (x + 1664) mod q - 1664.

(** Every coefficient of the noise is, in absolute value, less than q/4: in [-832, 831] *)
Definition small_noise (w : list Z) : Prop :=
  forall i, 0 <= i < n -> -832 <= centred (at_ w i) <= 831.
(** The largest noise that does not change message bit i: 832 is harmless for a 0 bit *)
Definition harmless_noise (m w : list Z) : Prop :=
  forall i, 0 <= i < n -> -832 <= centred (at_ w i) /\
    (centred (at_ w i) <= 831 \/
     Z.testbit (at_ m (i / 8)) (i mod 8) = false /\ centred (at_ w i) = 832).

(** The memory of a key exchange: outputs [pk], [sk] of the key generation with coins d, z at
    [coins]; outputs [ct], [ss] of the encapsulation with coins msg at [coins2]; output [ss2]
    of the decapsulation. *)
Definition exchange_memory (P : params) (m : memory) (pk sk coins ct ss coins2 ss2 : Z) (d z msg : list Z) : Prop :=
  byte_memory m /\ accessible m pk (ek_size P) /\ accessible m sk (dk_size P) /\
  accessible m ct (ct_size P) /\ accessible m ss 32 /\ accessible m ss2 32 /\
  contains m coins (d ++ z) /\ zlen d = 32 /\ zlen z = 32 /\ contains m coins2 msg /\ zlen msg = 32 /\
  all_apart [(pk, ek_size P); (sk, dk_size P); (coins, 64); (ct, ct_size P); (ss, 32); (coins2, 32); (ss2, 32)].
