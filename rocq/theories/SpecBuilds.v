(** * Sequences of API calls made by different builds of the library

    Machines that exchange keys and ciphertexts run different builds. A history is a list of
    calls as in SpecMachine.v, each with the build that executes it. *)

From Coq Require Import ZArith List Bool.
From Verif Require Import ModelA64Indcpa ModelA64Kem.
From Verif Require Import CSem ModelArith ModelKeccak ModelKem ModelX86Kem Spec203 SpecLink SpecMem SpecApi SpecMachine.
Import ListNotations.
Open Scope Z_scope.

(** The portable C code on a machine of either byte order, the x86_64 code with its two native backends, and the AArch64 code
    with its two native backends in one of their configurations *)
Inductive build := Portable (bo : byte_order) | X86_64 | AArch64 (bd : a64_build).

(** A step of a history and the build that makes it *)
Record build_step := { build_of : build; step_of : step }.

Definition build_call (b : build) (s : step) (rng : Z -> Z) (m : mem) (pos : Z) : M (Z * mem * Z) :=
  let J := junk_of s in let fuel := fuel_of s in let p := pset_of s in
  match b with
  | Portable bo => code_call (bo := bo) s rng m pos
  | X86_64 =>
      match call_of s with
      | KeypairDerand pk sk coins => '(r, m) <- crypto_kem_keypair_derand_x86_64 J fuel p m pk sk coins ;; ret (r, m, pos)
      | Keypair fp pk sk => crypto_kem_keypair_x86_64 J fuel p rng m pos fp pk sk
      | EncDerand ct ss pk coins => '(r, m) <- crypto_kem_enc_derand_x86_64 J fuel p m ct ss pk coins ;; ret (r, m, pos)
      | Enc fp ct ss pk => crypto_kem_enc_x86_64 J fuel p rng m pos fp ct ss pk
      | Dec ss ct sk => '(r, m) <- crypto_kem_dec_x86_64 J fuel p m ss ct sk ;; ret (r, m, pos)
      end
  | AArch64 bd =>
      match call_of s with
      | KeypairDerand pk sk coins => '(r, m) <- crypto_kem_keypair_derand_aarch64 bd J fuel p m pk sk coins ;; ret (r, m, pos)
      | Keypair fp pk sk => crypto_kem_keypair_aarch64 bd J fuel p rng m pos fp pk sk
      | EncDerand ct ss pk coins => '(r, m) <- crypto_kem_enc_derand_aarch64 bd J fuel p m ct ss pk coins ;; ret (r, m, pos)
      | Enc fp ct ss pk => crypto_kem_enc_aarch64 bd J fuel p rng m pos fp ct ss pk
      | Dec ss ct sk => '(r, m) <- crypto_kem_dec_aarch64 bd J fuel p m ss ct sk ;; ret (r, m, pos)
      end
  end.

(** The return codes, the memory and the random position after a history *)
Fixpoint builds (rng : Z -> Z) (h : list build_step) (m : mem) (pos : Z) : M (list Z * mem * Z) :=
  match h with
  | [] => ret ([], m, pos)
  | s :: h =>
      '(r, m, pos) <- build_call (build_of s) (step_of s) rng m pos ;;
      '(rs, m, pos) <- builds rng h m pos ;;
      ret (r :: rs, m, pos)
  end.

(** All calls of the history are on disjoint buffers inside the memory. *)
Definition build_fits (m : memory) (h : list build_step) : Prop :=
  Forall (fun s => fits (set_of (pset_of (step_of s))) m (call_of (step_of s))) h.

(** Two histories make the same calls, possibly by different builds and with different
    contents of uninitialised local memory. *)
Definition same_calls (h h' : list build_step) : Prop :=
  Forall2 (fun s s' =>
    fuel_of (step_of s) = fuel_of (step_of s') /\ pset_of (step_of s) = pset_of (step_of s') /\
    call_of (step_of s) = call_of (step_of s')) h h'.
