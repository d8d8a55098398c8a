(** * What the functional tests of the library should say (C62)

    Every definition here is about the algorithms of FIPS 203. [n] is the number of XOF blocks that
    are allowed for a matrix entry, [pos] the number of random bytes drawn so far. A verdict is the
    result of a test (0 if it passes) and the number of random bytes drawn when it ends; None if the
    XOF blocks do not suffice. *)

From Coq Require Import ZArith List Bool.
From Verif Require Import ModelKeccak ModelTests Spec202 Spec203 SpecMem SpecApi SpecMachine.
Import ListNotations.
Open Scope Z_scope.

(** The exchange with which the tests begin: a key pair, a shared secret and its ciphertext *)
Definition exchange (P : params) (n : Z) (rng : Z -> Z) (pos : Z) : option (list Z * list Z * list Z * list Z) :=
  match ML_KEM_KeyGen_internal P n (drawn rng pos 32) (drawn rng (pos + 32) 32) with
  | Some (ek, dk) =>
      match ML_KEM_Encaps_internal P n ek (drawn rng (pos + 64) 32) with
      | Some (K, c) => Some (ek, dk, K, c)
      | None => None
      end
  | None => None
  end.
(** [l] with the bytes from position [i] on replaced by [new] *)
Definition patch (l : list Z) (i : Z) (new : list Z) : list Z :=
  slice l 0 i ++ new ++ slice l (i + zlen new) (zlen l).

(** Decapsulation gives the shared secret. *)
Definition keys_verdict (P : params) (n : Z) (rng : Z -> Z) (pos : Z) : option (Z * Z) :=
  match exchange P n rng pos with
  | Some (ek, dk, K, c) =>
      match ML_KEM_Decaps_internal P n dk c with
      | Some K' => Some (if same K' K then 0 else 1, pos + 96)
      | None => None
      end
  | None => None
  end.

(** A public key with a coefficient that is not reduced is always refused. *)
Definition invalid_pk_verdict (P : params) (n : Z) (rng : Z -> Z) (pos : Z) : option (Z * Z) :=
  match exchange P n rng pos with
  | Some (ek, dk, K, c) => Some (0, pos + 128)
  | None => None
  end.

(** With ten bytes of the secret key replaced, decapsulation gives something else. *)
Definition invalid_sk_a_verdict (P : params) (n : Z) (rng : Z -> Z) (pos : Z) : option (Z * Z) :=
  match exchange P n rng pos with
  | Some (ek, dk, K, c) =>
      match ML_KEM_Decaps_internal P n (patch dk 0 (drawn rng (pos + 96) 10)) c with
      | Some K' => Some (if same K' K then 1 else 0, pos + 106)
      | None => None
      end
  | None => None
  end.

(** The 32 random bytes are not by chance the hash of the public key that they replace. *)
Definition invalid_sk_b_verdict (P : params) (n : Z) (rng : Z -> Z) (pos : Z) : option (Z * Z) :=
  match exchange P n rng pos with
  | Some (ek, dk, K, c) => Some (if same (drawn rng (pos + 96) 32) (H ek) then 1 else 0, pos + 128)
  | None => None
  end.

(** The position of the first byte that is not 0, if it is one of the next [limit] *)
Fixpoint first_nonzero (limit : nat) (rng : Z -> Z) (pos : Z) : option Z :=
  match limit with
  | O => None
  | Datatypes.S limit => if rng pos mod 256 =? 0 then first_nonzero limit rng (pos + 1) else Some pos
  end.
(** Eight bytes as a number, on a machine of either byte order *)
Definition number (bo : byte_order) (l : list Z) : Z :=
  match bo with
  | LittleEndian => sum 8 (fun i => 256 ^ i * at_ l i)
  | BigEndian => sum 8 (fun i => 256 ^ i * at_ l (7 - i))
  end.

(** With one byte of the ciphertext changed, decapsulation gives something else. *)
Definition invalid_ciphertext_verdict (bo : byte_order) (limit : nat) (P : params) (n : Z) (rng : Z -> Z) (pos : Z)
  : option (Z * Z) :=
  match first_nonzero limit rng pos with
  | Some e =>
      match exchange P n rng (e + 9) with
      | Some (ek, dk, K, c) =>
          let i := number bo (drawn rng (e + 1) 8) mod ct_size P in
          match ML_KEM_Decaps_internal P n dk (patch c i [Z.lxor (at_ c i) (rng e mod 256)]) with
          | Some K' => Some (if same K' K then 1 else 0, e + 105)
          | None => None
          end
      | None => None
      end
  | None => None
  end.

(** Tests one after the other *)
Fixpoint in_turn (tests : list (Z -> option (Z * Z))) (pos : Z) : option (list Z * Z) :=
  match tests with
  | [] => Some ([], pos)
  | t :: tests =>
      match t pos with
      | Some (r, pos) => match in_turn tests pos with Some (rs, pos) => Some (r :: rs, pos) | None => None end
      | None => None
      end
  end.
(** The whole program: rounds of the five tests until one has failed *)
Fixpoint main_verdict (ntests : nat) (bo : byte_order) (limit : nat) (P : params) (n : Z) (rng : Z -> Z) (pos : Z)
  : option (Z * Z) :=
  match ntests with
  | O => Some (0, pos)
  | Datatypes.S ntests =>
      match in_turn [keys_verdict P n rng; invalid_pk_verdict P n rng; invalid_sk_a_verdict P n rng;
                     invalid_sk_b_verdict P n rng; invalid_ciphertext_verdict bo limit P n rng] pos with
      | Some (rs, pos) => if forallb (Z.eqb 0) rs then main_verdict ntests bo limit P n rng pos else Some (1, pos)
      | None => None
      end
  end.

(** The local arrays are memory of the test, they do not overlap, and there is room for the local array of
    the API functions. *)
Definition frame_ok (P : params) (m : memory) (f : frame) : Prop :=
  byte_memory m /\
  accessible m (pk_at f) (ek_size P) /\ accessible m (sk_at f) (dk_size P) /\ accessible m (ct_at f) (ct_size P) /\
  accessible m (key_a_at f) 32 /\ accessible m (key_b_at f) 32 /\
  all_apart [(pk_at f, ek_size P); (sk_at f, dk_size P); (ct_at f, ct_size P); (key_a_at f, 32); (key_b_at f, 32)] /\
  vacant m (fp_at f) 64.
