(** * C66: the generator of the known-answer tests is CTR_DRBG *)

From Coq Require Import ZArith List Lia.
From Verif Require Import CSem ModelAes ModelDrbg Spec202 SpecApi SpecAes SpecDrbg CSemFacts ProofDrbg.
Import ListNotations.
Open Scope Z_scope.

(** Whatever the generator did before: after nist_kat_init, the buffers that a program fills one
    after the other with randombytes get the results of the requests of CTR_DRBG, instantiated
    with the entropy input and the personalization string. No call has undefined behaviour. *)
Theorem C66_drbg J J' ctx entropy personalization bufs :
  zlen (ctx_key ctx) = 32 -> zlen (ctx_ctr ctx) = 16 ->
  zlen entropy = 48 -> bytes entropy -> zlen personalization = 48 -> bytes personalization ->
  val (ctx <- nist_kat_init J entropy (Some personalization) ctx ;; kat_calls J' ctx bufs) =
  Ok (drbg_requests (drbg_instantiate entropy personalization) (map (fun b => zlen b) bufs)).
Proof. exact (init_calls J J' ctx entropy personalization bufs). Qed.
Print Assumptions C66_drbg.
(** A null pointer stands for a string of zeros, the empty string. *)
Theorem C66_drbg_no_personalization J J' ctx entropy bufs :
  zlen (ctx_key ctx) = 32 -> zlen (ctx_ctr ctx) = 16 -> zlen entropy = 48 -> bytes entropy ->
  val (ctx <- nist_kat_init J entropy None ctx ;; kat_calls J' ctx bufs) =
  Ok (drbg_requests (drbg_instantiate entropy (repeat 0 48)) (map (fun b => zlen b) bufs)).
Proof. exact (init_calls_none J J' ctx entropy bufs). Qed.
Print Assumptions C66_drbg_no_personalization.

(** The known-answer tests of all NIST submissions begin with this seed; then five more bytes *)
Example C66_case :
  zlen (ctx_key ctx_start) = 32 /\ zlen (ctx_ctr ctx_start) = 16 /\ zlen (range 48) = 48 /\ bytes (range 48) /\
  drbg_requests (drbg_instantiate (range 48) (repeat 0 48)) [48; 5] =
  [[0x06; 0x15; 0x50; 0x23; 0x4D; 0x15; 0x8C; 0x5E; 0xC9; 0x55; 0x95; 0xFE; 0x04; 0xEF; 0x7A; 0x25;
    0x76; 0x7F; 0x2E; 0x24; 0xCC; 0x2B; 0xC4; 0x79; 0xD0; 0x9D; 0x86; 0xDC; 0x9A; 0xBC; 0xFD; 0xE7;
    0x05; 0x6A; 0x8C; 0x26; 0x6F; 0x9E; 0xF9; 0x7E; 0xD0; 0x85; 0x41; 0xDB; 0xD2; 0xE1; 0xFF; 0xA1];
   [216; 28; 77; 141; 115]].
Proof.
  split; [reflexivity|]. split; [reflexivity|]. split; [reflexivity|].
  assert (B : bytes (range 48)) by (apply Forall_forall; intros x Hx; apply in_range in Hx; unfold is_byte; lia).
  split; [exact B|]. match goal with |- _ = ?l => set (lits := l) end.
  assert (T := C66_drbg_no_personalization (fun _ => 77) (fun _ => 78) ctx_start (range 48) [repeat 3 48; repeat 4 5]
    eq_refl eq_refl eq_refl B).
  cbn [map] in T. change (zlen (repeat 3 48)) with 48 in T. change (zlen (repeat 4 5)) with 5 in T.
  set (X := drbg_requests _ _) in *. change (match Ok X with Ok x => x | _ => [] end = lits).
  clearbody X. rewrite <- T. vm_compute. reflexivity.
Qed.
