(** * Specification: FIPS 203 (ML-KEM), written from the standard

    Byte strings are lists of integers in [0, 255]. Elements of Z_q are integers in
    [0, q-1]; polynomials and NTT representations are lists of 256 such integers.
    Nothing here refers to the model of the C code. Algorithm numbers are those
    of FIPS 203. *)

From Coq Require Import ZArith List Bool.
From Verif Require Import Spec202.
Import ListNotations.
Open Scope Z_scope.

Definition n : Z := 256.
Definition q : Z := 3329.

(** Table 2 *)
Record params : Type := { k : Z; eta1 : Z; eta2 : Z; du : Z; dv : Z }.
Definition ML_KEM_512 : params := {| k := 2; eta1 := 3; eta2 := 2; du := 10; dv := 4 |}.
Definition ML_KEM_768 : params := {| k := 3; eta1 := 2; eta2 := 2; du := 10; dv := 4 |}.
Definition ML_KEM_1024 : params := {| k := 4; eta1 := 2; eta2 := 2; du := 11; dv := 5 |}.

(** ** 4.1 Cryptographic functions *)

Definition PRF (eta : Z) (s : list Z) (b : Z) : list Z := SHAKE256 (s ++ [b]) (64 * eta). (* (4.3) *)
Definition H (s : list Z) : list Z := SHA3_256 s.                          (* (4.4) *)
Definition J (s : list Z) : list Z := SHAKE256 s 32.                       (* (4.4) *)
Definition G (c : list Z) : list Z * list Z :=                             (* (4.5) *)
  (slice (SHA3_512 c) 0 32, slice (SHA3_512 c) 32 64).

(** ** 4.2.1 Conversion and compression *)

(** Algorithm 3: byte i is the sum of b[8 i + j] 2^j *)
Definition BitsToBytes (b : list bool) : list Z := bits_to_bytes b.
(** Algorithm 4 *)
Definition BytesToBits (B : list Z) : list bool := bytes_to_bits B.

(** (4.7): the integer nearest to (2^d / q) x, halves rounded up, modulo 2^d *)
Definition Compress (d x : Z) : Z := ((2 * 2 ^ d * x + q) / (2 * q)) mod 2 ^ d.
(** (4.8): the integer nearest to (q / 2^d) y, halves rounded up *)
Definition Decompress (d y : Z) : Z := (2 * q * y + 2 ^ d) / (2 * 2 ^ d).

(** The distance of x and y in Z_q *)
Definition dist (x y : Z) : Z := Z.min ((x - y) mod q) ((y - x) mod q).

(** Algorithm 5: b[i d + j] is bit j of F[i] *)
Definition ByteEncode (d : Z) (F : list Z) : list Z :=
  BitsToBytes (flat_map (fun a => map (fun j => Z.testbit a j) (range d)) F).
(** Algorithm 6: F[i] is the sum of b[i d + j] 2^j modulo m, with m = 2^d for d < 12
    and m = q for d = 12 *)
Definition ByteDecode (d : Z) (B : list Z) : list Z :=
  let b := BytesToBits B in
  let m := if d =? 12 then q else 2 ^ d in
  map (fun i => bits_value (slice b (i * d) (i * d + d)) mod m) (range n).

(** The 256 d-bit fields of a byte string (ByteDecode without the reduction) *)
Definition fields (d : Z) (B : list Z) : list Z :=
  map (fun i => bits_value (slice (BytesToBits B) (i * d) (i * d + d))) (range n).

(** Polynomials with coefficients in [0, q-1]; vectors of k such polynomials *)
Definition reduced (f : list Z) : Prop := zlen f = n /\ Forall (fun x => 0 <= x < q) f.
Definition reduced_vec (P : params) (v : list (list Z)) : Prop :=
  zlen v = k P /\ Forall reduced v.

(** ** 4.2.2 Sampling *)

(** Algorithm 7, the loop, on a finite prefix C of the XOF output: the coefficients
    found, at most 256 *)
Fixpoint SampleNTT_loop (C : list Z) (a : list Z) : list Z :=
  match C with
  | c0 :: c1 :: c2 :: C' =>
      if Z.of_nat (length a) <? n then
        let d1 := c0 + 256 * (c1 mod 16) in
        let d2 := c1 / 16 + 16 * c2 in
        let a := if d1 <? q then a ++ [d1] else a in
        let a := if (d2 <? q) && (Z.of_nat (length a) <? n) then a ++ [d2] else a in
        SampleNTT_loop C' a
      else a
  | _ => a
  end.
(** Algorithm 7. The loop of the standard has no bound on the number of XOF bytes it
    reads; here it is given [blocks] blocks of 168 bytes, and the result is [None] if
    they do not suffice. *)
Definition SampleNTT (blocks : Z) (B : list Z) : option (list Z) :=
  let a := SampleNTT_loop (SHAKE128 B (168 * blocks)) [] in
  if Z.of_nat (length a) =? n then Some a else None.

(** Algorithm 8 *)
Definition SamplePolyCBD (eta : Z) (B : list Z) : list Z :=
  let b := BytesToBits B in
  let bit i := Z.b2z (nth (Z.to_nat i) b false) in
  map (fun i =>
         let x := sum eta (fun j => bit (2 * i * eta + j)) in
         let y := sum eta (fun j => bit (2 * i * eta + eta + j)) in
         (x - y) mod q)
      (range n).

(** ** 4.3 The number-theoretic transform *)

Definition zeta : Z := 17.
(** 4.3: the integer represented by bit-reversing the 7-bit value of i *)
Definition BitRev7 (i : Z) : Z := sum 7 (fun j => Z.b2z (Z.testbit i j) * 2 ^ (6 - j)).

(** (4.12): f^[2i] + f^[2i+1] X = f mod (X^2 - zeta^(2 BitRev7(i) + 1)): the even
    (odd) coefficients evaluated at zeta^(2 BitRev7(i) + 1). *)
Definition NTT (f : list Z) : list Z :=
  map (fun i =>
         sum 128 (fun j => at_ f (2 * j + i mod 2) * zeta ^ ((2 * BitRev7 (i / 2) + 1) * j))
         mod q)
      (range n).

(** The inverse transform: 3303 = 128^(-1) mod q and zeta^(-e) = zeta^(256 m - e). *)
Definition NTT_inv (f : list Z) : list Z :=
  map (fun i =>
         (3303 * sum 128 (fun j =>
            at_ f (2 * j + i mod 2)
            * zeta ^ (256 * 128 - (2 * BitRev7 j + 1) * (i / 2)))) mod q)
      (range n).

(** Algorithms 11 and 12 *)
Definition MultiplyNTTs (f g : list Z) : list Z :=
  map (fun i =>
         let m := i / 2 in
         let gamma := zeta ^ (2 * BitRev7 m + 1) in
         (if i mod 2 =? 0
          then at_ f (2 * m) * at_ g (2 * m) + at_ f (2 * m + 1) * at_ g (2 * m + 1) * gamma
          else at_ f (2 * m) * at_ g (2 * m + 1) + at_ f (2 * m + 1) * at_ g (2 * m)) mod q)
      (range n).

(** 2.4: addition and subtraction of arrays, coordinate by coordinate *)
Definition poly_plus (f g : list Z) : list Z :=
  map (fun i => (at_ f i + at_ g i) mod q) (range n).
Definition poly_minus (f g : list Z) : list Z :=
  map (fun i => (at_ f i - at_ g i) mod q) (range n).
Definition poly_zero : list Z := map (fun _ => 0) (range n).

(** 2.3: the product in R_q = Z_q[X] / (X^256 + 1): X^256 = -1 *)
Definition poly_times (f g : list Z) : list Z :=
  map (fun k => sum n (fun i =>
         at_ f i * (if i <=? k then at_ g (k - i) else - at_ g (k - i + 256))) mod q)
      (range n).

Definition vec : Type := list (list Z).
Definition vec_plus (u v : vec) : vec := map (fun '(a, b) => poly_plus a b) (combine u v).
(** (2.14): the inner product of two vectors in NTT representation *)
Definition dot (u v : vec) : list Z :=
  fold_left poly_plus (map (fun '(a, b) => MultiplyNTTs a b) (combine u v)) poly_zero.
(** The inner product of two vectors of polynomials in R_q *)
Definition inner (u v : vec) : list Z :=
  fold_left poly_plus (map (fun '(a, b) => poly_times a b) (combine u v)) poly_zero.
(** (2.12), (2.13): matrix (list of rows) times vector, and transposition *)
Definition mat_vec (A : list vec) (u : vec) : vec := map (fun row => dot row u) A.
Definition transpose (A : list vec) : list vec :=
  map (fun j => map (fun row => nth (Z.to_nat j) row []) A) (range (Z.of_nat (length A))).

(** ** 5 The K-PKE component scheme

    [blocks] is the number of XOF blocks SampleNTT may use. *)

Fixpoint all_some {A} (l : list (option A)) : option (list A) :=
  match l with
  | [] => Some []
  | None :: _ => None
  | Some x :: t => match all_some t with Some t' => Some (x :: t') | None => None end
  end.

(** Algorithm 13, steps 3-7: A^[i, j] = SampleNTT(rho || j || i) *)
Definition ExpandA (P : params) (blocks : Z) (rho : list Z) : option (list vec) :=
  all_some (map (fun i =>
    all_some (map (fun j => SampleNTT blocks (rho ++ [j; i])) (range (k P)))) (range (k P))).

(** The vector of polynomials sampled with nonces first, ..., first + k - 1 *)
Definition noise_vec (P : params) (eta : Z) (sigma : list Z) (first : Z) : vec :=
  map (fun i => SamplePolyCBD eta (PRF eta sigma (first + i))) (range (k P)).

(** Algorithm 13 *)
Definition K_PKE_KeyGen (P : params) (blocks : Z) (d : list Z)
  : option (list Z * list Z) :=
  let '(rho, sigma) := G (d ++ [k P]) in
  match ExpandA P blocks rho with
  | None => None
  | Some A =>
      let s := noise_vec P (eta1 P) sigma 0 in
      let e := noise_vec P (eta1 P) sigma (k P) in
      let s_hat := map NTT s in
      let e_hat := map NTT e in
      let t_hat := vec_plus (mat_vec A s_hat) e_hat in
      Some (concat (map (ByteEncode 12) t_hat) ++ rho,
            concat (map (ByteEncode 12) s_hat))
  end.

(** The k polynomials encoded with d bits per coefficient in a byte string *)
Definition decode_vec (P : params) (d : Z) (B : list Z) : vec :=
  map (fun i => ByteDecode d (slice B (32 * d * i) (32 * d * i + 32 * d))) (range (k P)).

(** Algorithm 14 *)
Definition K_PKE_Encrypt (P : params) (blocks : Z) (ek m r : list Z) : option (list Z) :=
  let t_hat := decode_vec P 12 ek in
  let rho := slice ek (384 * k P) (384 * k P + 32) in
  match ExpandA P blocks rho with
  | None => None
  | Some A =>
      let y := noise_vec P (eta1 P) r 0 in
      let e1 := noise_vec P (eta2 P) r (k P) in
      let e2 := SamplePolyCBD (eta2 P) (PRF (eta2 P) r (2 * k P)) in
      let y_hat := map NTT y in
      let u := vec_plus (map NTT_inv (mat_vec (transpose A) y_hat)) e1 in
      let mu := map (Decompress 1) (ByteDecode 1 m) in
      let v := poly_plus (poly_plus (NTT_inv (dot t_hat y_hat)) e2) mu in
      let c1 := concat (map (fun f => ByteEncode (du P) (map (Compress (du P)) f)) u) in
      let c2 := ByteEncode (dv P) (map (Compress (dv P)) v) in
      Some (c1 ++ c2)
  end.

(** Algorithm 15 *)
Definition K_PKE_Decrypt (P : params) (dk c : list Z) : list Z :=
  let c1 := slice c 0 (32 * du P * k P) in
  let c2 := slice c (32 * du P * k P) (32 * (du P * k P + dv P)) in
  let u' := map (map (Decompress (du P))) (decode_vec P (du P) c1) in
  let v' := map (Decompress (dv P)) (ByteDecode (dv P) c2) in
  let s_hat := decode_vec P 12 dk in
  let w := poly_minus v' (NTT_inv (dot s_hat (map NTT u'))) in
  ByteEncode 1 (map (Compress 1) w).

(** ** 6 Main internal algorithms *)

(** Algorithm 16 *)
Definition ML_KEM_KeyGen_internal (P : params) (blocks : Z) (d z : list Z)
  : option (list Z * list Z) :=
  match K_PKE_KeyGen P blocks d with
  | None => None
  | Some (ek, dk) => Some (ek, dk ++ ek ++ H ek ++ z)
  end.

(** Algorithm 17; the result is (K, c) *)
Definition ML_KEM_Encaps_internal (P : params) (blocks : Z) (ek m : list Z)
  : option (list Z * list Z) :=
  let '(K, r) := G (m ++ H ek) in
  match K_PKE_Encrypt P blocks ek m r with
  | None => None
  | Some c => Some (K, c)
  end.

(** Algorithm 18 *)
Definition ML_KEM_Decaps_internal (P : params) (blocks : Z) (dk c : list Z)
  : option (list Z) :=
  let dk_pke := slice dk 0 (384 * k P) in
  let ek_pke := slice dk (384 * k P) (768 * k P + 32) in
  let h := slice dk (768 * k P + 32) (768 * k P + 64) in
  let z := slice dk (768 * k P + 64) (768 * k P + 96) in
  let m' := K_PKE_Decrypt P dk_pke c in
  let '(K', r') := G (m' ++ h) in
  let K_bar := J (z ++ c) in
  match K_PKE_Encrypt P blocks ek_pke m' r' with
  | None => None
  | Some c' => Some (if list_eq_dec Z.eq_dec c c' then K' else K_bar)
  end.

(** ** 7 Input checks *)

(** 7.2: the encapsulation key modulus check *)
Definition modulus_check (P : params) (ek : list Z) : Prop :=
  concat (map (ByteEncode 12) (decode_vec P 12 ek)) = slice ek 0 (384 * k P).

(** 7.3: the decapsulation key hash check *)
Definition hash_check (P : params) (dk : list Z) : Prop :=
  H (slice dk (384 * k P) (768 * k P + 32)) = slice dk (768 * k P + 32) (768 * k P + 64).

(** Sizes, Table 3 *)
Definition ek_size (P : params) : Z := 384 * k P + 32.
Definition dk_size (P : params) : Z := 768 * k P + 96.
Definition ct_size (P : params) : Z := 32 * (du P * k P + dv P).

(** ** The 12-bit candidates of a byte string, as Algorithm 7 cuts them *)
Fixpoint candidates (C : list Z) : list Z :=
  match C with
  | c0 :: c1 :: c2 :: C' => (c0 + 256 * (c1 mod 16)) :: (c1 / 16 + 16 * c2) :: candidates C'
  | _ => []
  end.
(** Those that are accepted *)
Definition accepted (C : list Z) : list Z := filter (fun d => d <? q) (candidates C).
