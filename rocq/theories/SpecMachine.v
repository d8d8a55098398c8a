(** * Sequences of API calls and the machine that says what they do

    The state is the memory and the number of random bytes drawn so far. *)

From Coq Require Import ZArith List Bool.
From Verif Require Import ModelKeccak.
From Verif Require Import CSem ModelArith ModelKem Spec202 Spec203 SpecLink SpecMem SpecApi.
Import ListNotations.
Open Scope Z_scope.

(** The five API functions with the addresses they are given. [fp] is where a function that
    draws random bytes keeps its local array. *)
Inductive call :=
| KeypairDerand (pk sk coins : Z)
| Keypair (fp pk sk : Z)
| EncDerand (ct ss pk coins : Z)
| Enc (fp ct ss pk : Z)
| Dec (ss ct sk : Z).

(** One step of a history: a call with its parameter set, the contents of uninitialised local
    memory during it, and the number of refill rounds its sampling loops may run *)
Record step := { junk_of : junk; fuel_of : nat; pset_of : pset; call_of : call }.

(** ** The abstract machine *)

(** The [len] bytes at address [a] *)
Definition read (m : memory) (a len : Z) : list Z :=
  map (fun i => match m (a + i) with Some v => v | None => 0 end) (range len).
Definition same (a b : list Z) : bool := if list_eq_dec Z.eq_dec a b then true else false.

(** The memory and the return code after a call, as FIPS 203 says; None if [blocks] XOF
    blocks do not suffice for a matrix entry. *)
Definition machine_call (P : params) (blocks : Z) (rng : Z -> Z) (c : call) (m : memory) (pos : Z)
  : option (Z * memory * Z) :=
  let keygen pk sk d z pos' :=
    match ML_KEM_KeyGen_internal P blocks d z with
    | Some (ek, dk) => Some (0, overwrite m [(pk, ek); (sk, dk)], pos')
    | None => None
    end in
  let encaps ct ss ek msg pos' :=
    if same (concat (map (ByteEncode 12) (decode_vec P 12 ek))) (slice ek 0 (384 * k P)) then
      match ML_KEM_Encaps_internal P blocks ek msg with
      | Some (K, c) => Some (0, overwrite m [(ct, c); (ss, K)], pos')
      | None => None
      end
    else Some (-1, m, pos') in
  match c with
  | KeypairDerand pk sk coins => keygen pk sk (read m coins 32) (read m (coins + 32) 32) pos
  | Keypair _ pk sk => keygen pk sk (drawn rng pos 32) (drawn rng (pos + 32) 32) (pos + 64)
  | EncDerand ct ss pk coins => encaps ct ss (read m pk (ek_size P)) (read m coins 32) pos
  | Enc _ ct ss pk => encaps ct ss (read m pk (ek_size P)) (drawn rng pos 32) (pos + 32)
  | Dec ss ct sk =>
      let dk := read m sk (dk_size P) in
      if same (H (slice dk (384 * k P) (768 * k P + 32))) (slice dk (768 * k P + 32) (768 * k P + 64)) then
        match ML_KEM_Decaps_internal P blocks dk (read m ct (ct_size P)) with
        | Some K => Some (0, overwrite m [(ss, K)], pos)
        | None => None
        end
      else Some (-1, m, pos)
  end.

(** The return codes, the memory and the random position after a history *)
Fixpoint machine (rng : Z -> Z) (h : list step) (m : memory) (pos : Z) : option (list Z * memory * Z) :=
  match h with
  | [] => Some ([], m, pos)
  | s :: h =>
      match machine_call (set_of (pset_of s)) (3 + Z.of_nat (fuel_of s)) rng (call_of s) m pos with
      | None => None
      | Some (r, m, pos) =>
          match machine rng h m pos with
          | None => None
          | Some (rs, m, pos) => Some (r :: rs, m, pos)
          end
      end
  end.

(** ** The code *)

Definition code_call {bo : byte_order} (s : step) (rng : Z -> Z) (m : mem) (pos : Z) : M (Z * mem * Z) :=
  let J := junk_of s in let fuel := fuel_of s in let p := pset_of s in
  match call_of s with
  | KeypairDerand pk sk coins => '(r, m) <- crypto_kem_keypair_derand J fuel p m pk sk coins ;; ret (r, m, pos)
  | Keypair fp pk sk => crypto_kem_keypair J fuel p rng m pos fp pk sk
  | EncDerand ct ss pk coins => '(r, m) <- crypto_kem_enc_derand J fuel p m ct ss pk coins ;; ret (r, m, pos)
  | Enc fp ct ss pk => crypto_kem_enc J fuel p rng m pos fp ct ss pk
  | Dec ss ct sk => '(r, m) <- crypto_kem_dec J fuel p m ss ct sk ;; ret (r, m, pos)
  end.

Fixpoint code {bo : byte_order} (rng : Z -> Z) (h : list step) (m : mem) (pos : Z) : M (list Z * mem * Z) :=
  match h with
  | [] => ret ([], m, pos)
  | s :: h =>
      '(r, m, pos) <- code_call s rng m pos ;;
      '(rs, m, pos) <- code rng h m pos ;;
      ret (r :: rs, m, pos)
  end.

(** ** Calls on disjoint buffers inside the memory *)
Definition fits (P : params) (m : memory) (c : call) : Prop :=
  match c with
  | KeypairDerand pk sk coins =>
      accessible m pk (ek_size P) /\ accessible m sk (dk_size P) /\ accessible m coins 64 /\
      all_apart [(pk, ek_size P); (sk, dk_size P); (coins, 64)]
  | Keypair fp pk sk =>
      accessible m pk (ek_size P) /\ accessible m sk (dk_size P) /\
      all_apart [(pk, ek_size P); (sk, dk_size P)] /\ vacant m fp 64
  | EncDerand ct ss pk coins =>
      accessible m ct (ct_size P) /\ accessible m ss 32 /\ accessible m pk (ek_size P) /\ accessible m coins 32 /\
      all_apart [(ct, ct_size P); (ss, 32); (pk, ek_size P); (coins, 32)]
  | Enc fp ct ss pk =>
      accessible m ct (ct_size P) /\ accessible m ss 32 /\ accessible m pk (ek_size P) /\
      all_apart [(ct, ct_size P); (ss, 32); (pk, ek_size P)] /\ vacant m fp 32
  | Dec ss ct sk =>
      accessible m ss 32 /\ accessible m ct (ct_size P) /\ accessible m sk (dk_size P) /\
      all_apart [(ss, 32); (ct, ct_size P); (sk, dk_size P)]
  end.
