(** * C75: the hash functions when input and output overlap

    [overwrite m [(a, l)]] (SpecMem.v) is the memory [m] with the bytes [l] stored at [a] and
    nothing else changed. In none of the theorems need an input buffer be apart from an
    output buffer. *)

From Coq Require Import ZArith List Bool Lia.
From Verif Require Import CSem ModelArith ModelKeccak ModelIndcpa ModelInPlace Spec202 Spec203 SpecLink SpecMem
  CSemFacts ProofPke ProofInPlace Samples.
Import ListNotations.
Open Scope Z_scope.

(** hash_h *)
Theorem C75_sha3_256 : forall {bo : byte_order} J m output input l,
  byte_memory m -> contains m input l -> zlen l < 2 ^ 63 -> accessible m output 32 ->
  exists m', val (sha3_256_in J m output input (zlen l)) = Ok m' /\
    forall x, m' x = overwrite m [(output, SHA3_256 l)] x.
Proof. intros bo. exact sha3_256_in_place. Qed.
Print Assumptions C75_sha3_256.

(** hash_g *)
Theorem C75_sha3_512 : forall {bo : byte_order} J m output input l,
  byte_memory m -> contains m input l -> zlen l < 2 ^ 63 -> accessible m output 64 ->
  exists m', val (sha3_512_in J m output input (zlen l)) = Ok m' /\
    forall x, m' x = overwrite m [(output, SHA3_512 l)] x.
Proof. intros bo. exact sha3_512_in_place. Qed.
Print Assumptions C75_sha3_512.

Theorem C75_shake256 : forall {bo : byte_order} J m output input l,
  byte_memory m -> contains m input l -> zlen l < 2 ^ 63 ->
  forall outlen, 0 <= outlen < 2 ^ 63 -> accessible m output outlen ->
  exists m', val (shake256_in J m output outlen input (zlen l)) = Ok m' /\
    forall x, m' x = overwrite m [(output, SHAKE256 l outlen)] x.
Proof. intros bo. exact shake256_in_place. Qed.
Print Assumptions C75_shake256.

(** J of FIPS 203 of the secret z and the ciphertext c; the output may overlap both. *)
Theorem C75_rkprf : forall {bo : byte_order} J p m out key input z c,
  byte_memory m -> contains m key z -> zlen z = 32 ->
  contains m input c -> zlen c = ct_size (set_of p) -> accessible m out 32 ->
  exists m', val (rkprf_in J p m out key input) = Ok m' /\
    forall x, m' x = overwrite m [(out, Spec203.J (z ++ c))] x.
Proof. intros bo. exact rkprf_in_place. Qed.
Print Assumptions C75_rkprf.

(** Only the outputs have to be apart from each other; the inputs may overlap each other and
    the outputs. *)
Theorem C75_shake256x4 : forall {bo : byte_order} J m o0 o1 o2 o3 outlen i0 i1 i2 i3 l0 l1 l2 l3 n,
  byte_memory m -> 0 <= n < 2 ^ 63 -> 0 <= outlen < 2 ^ 63 ->
  contains m i0 l0 -> contains m i1 l1 -> contains m i2 l2 -> contains m i3 l3 ->
  zlen l0 = n -> zlen l1 = n -> zlen l2 = n -> zlen l3 = n ->
  accessible m o0 outlen -> accessible m o1 outlen -> accessible m o2 outlen -> accessible m o3 outlen ->
  all_apart [(o0, outlen); (o1, outlen); (o2, outlen); (o3, outlen)] ->
  exists m', val (shake256x4_in J m o0 o1 o2 o3 outlen i0 i1 i2 i3 n) = Ok m' /\
    forall x, m' x = overwrite m
      [(o0, SHAKE256 l0 outlen); (o1, SHAKE256 l1 outlen);
       (o2, SHAKE256 l2 outlen); (o3, SHAKE256 l3 outlen)] x.
Proof. intros bo. exact shake256x4_in_place. Qed.
Print Assumptions C75_shake256x4.

(** ** A memory of 4096 bytes *)

Definition sample_memory : memory :=
  fun x => if (0 <=? x) && (x <? 4096) then Some ((7 * x + 3) mod 256) else None.

Lemma sample_memory_bytes : byte_memory sample_memory.
Proof.
  intros x v. unfold sample_memory. destruct (_ && _); [|discriminate]. intros [= <-]. apply Z.mod_pos_bound. lia.
Qed.
Lemma sample_memory_in x : 0 <= x < 4096 -> sample_memory x = Some ((7 * x + 3) mod 256).
Proof.
  intros H. unfold sample_memory. destruct (Z.leb_spec 0 x); destruct (Z.ltb_spec x 4096); try lia. reflexivity.
Qed.
Lemma sample_memory_contains a n : 0 <= a -> 0 <= n -> a + n <= 4096 ->
  contains sample_memory a (sample_bytes (7 * a + 3) n).
Proof.
  intros Ha Hn Han i Hi. rewrite (proj1 (sample_bytes_ok _ _ Hn)) in Hi. rewrite sample_memory_in by lia.
  unfold sample_bytes. fold (zget 0 (map (fun j => (7 * j + (7 * a + 3)) mod 256) (range n)) i).
  rewrite zget_map_range by lia. f_equal. f_equal. lia.
Qed.
Lemma sample_memory_accessible a n : 0 <= a -> a + n <= 4096 -> accessible sample_memory a n.
Proof. intros Ha Han x Hx. rewrite sample_memory_in by lia. discriminate. Qed.

(** 1000 bytes from address 500, hashed to the middle of themselves *)
Example C75_in_place_case : forall {bo : byte_order} J, exists m',
  val (sha3_256_in J sample_memory 700 500 1000) = Ok m' /\
  contains m' 700 (SHA3_256 (sample_bytes 3503 1000)) /\ m' 699 = sample_memory 699 /\ m' 732 = sample_memory 732.
Proof.
  intros bo J. pose proof (proj1 (sample_bytes_ok 3503 1000 ltac:(lia))) as L.
  destruct (C75_sha3_256 J sample_memory 700 500 (sample_bytes 3503 1000)) as (m' & V & E).
  - exact sample_memory_bytes.
  - apply (sample_memory_contains 500 1000); lia.
  - rewrite L. lia.
  - apply sample_memory_accessible; lia.
  - rewrite L in V. exists m'. split; [exact V|].
    assert (B : bytes (sample_bytes 3503 1000)) by (apply sample_bytes_ok; lia).
    assert (L2 : zlen (SHA3_256 (sample_bytes 3503 1000)) = 32) by now apply zlen_SHA3_256.
    split; [|split]; try (rewrite E; cbn [overwrite]; rewrite L2; reflexivity).
    intros i Hi. rewrite E. cbn [overwrite]. rewrite L2 in *.
    destruct (Z.leb_spec 700 (700 + i)); destruct (Z.ltb_spec (700 + i) (700 + 32)); try lia.
    cbn [andb]. now replace (700 + i - 700) with i by lia.
Qed.

(** 136 bytes of output written over 200 bytes of input, from the start *)
Example C75_shake256_case : exists l, zlen l = 200 /\ byte_memory sample_memory /\
  contains sample_memory 100 l /\ accessible sample_memory 100 136.
Proof.
  exists (sample_bytes 703 200). split; [apply (proj1 (sample_bytes_ok 703 200 ltac:(lia)))|]. split; [exact sample_memory_bytes|].
  split; [apply (sample_memory_contains 100 200); lia|apply sample_memory_accessible; lia].
Qed.

(** The shared secret of ML-KEM-768 over the end of z and the start of the ciphertext *)
Example C75_rkprf_case : exists z c, byte_memory sample_memory /\ contains sample_memory 1000 z /\ zlen z = 32 /\
  contains sample_memory 1032 c /\ zlen c = ct_size (set_of MLKEM768) /\ accessible sample_memory 1016 32.
Proof.
  exists (sample_bytes 7003 32), (sample_bytes 7227 1088). split; [exact sample_memory_bytes|].
  split; [apply (sample_memory_contains 1000 32); lia|]. split; [apply sample_bytes_ok; lia|].
  split; [apply (sample_memory_contains 1032 1088); lia|].
  split; [change (ct_size (set_of MLKEM768)) with 1088; apply sample_bytes_ok; lia|].
  apply sample_memory_accessible; lia.
Qed.

(** Four inputs that overlap each other and the four outputs of 300 bytes each, which follow
    each other in memory *)
Example C75_shake256x4_case : forall {bo : byte_order} J, exists m',
  val (shake256x4_in J sample_memory 0 300 600 900 300 0 10 20 1100 500) = Ok m' /\
  forall x, m' x = overwrite sample_memory
    [(0, SHAKE256 (sample_bytes 3 500) 300); (300, SHAKE256 (sample_bytes 73 500) 300);
     (600, SHAKE256 (sample_bytes 143 500) 300); (900, SHAKE256 (sample_bytes 7703 500) 300)] x.
Proof.
  intros bo J. apply C75_shake256x4; try lia; try (apply sample_memory_accessible; lia);
    try exact (proj1 (sample_bytes_ok _ 500 ltac:(lia))).
  - exact sample_memory_bytes.
  - apply (sample_memory_contains 0 500); lia.
  - apply (sample_memory_contains 10 500); lia.
  - apply (sample_memory_contains 20 500); lia.
  - apply (sample_memory_contains 1100 500); lia.
  - unfold all_apart, apart. repeat constructor; cbn; lia.
Qed.
