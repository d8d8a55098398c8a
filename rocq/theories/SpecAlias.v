(** * Calls of the KEM functions with buffers that may overlap

    As in SpecApi.v, but the buffers have to be apart only where it is said here. *)

From Coq Require Import ZArith List Bool.
From Verif Require Import Spec202 Spec203 SpecMem.
Import ListNotations.
Open Scope Z_scope.

(** Key generation: the two outputs are apart from each other and from z, the second half of
    the coins. The first half, d, may lie anywhere. *)
Definition keypair_any_call (P : params) (m : memory) (pk sk coins : Z) (d z : list Z) : Prop :=
  byte_memory m /\ accessible m pk (ek_size P) /\ accessible m sk (dk_size P) /\
  contains m coins (d ++ z) /\ zlen d = 32 /\ zlen z = 32 /\
  all_apart [(pk, ek_size P); (sk, dk_size P); (coins + 32, 32)].

(** Key generation with the coins stored at the beginning of the buffer of the public key *)
Definition keypair_in_place (P : params) (m : memory) (pk sk : Z) (d z : list Z) : Prop :=
  byte_memory m /\ accessible m pk (ek_size P) /\ accessible m sk (dk_size P) /\
  contains m pk (d ++ z) /\ zlen d = 32 /\ zlen z = 32 /\
  all_apart [(pk, ek_size P); (sk, dk_size P)].

(** Encapsulation: the two outputs are apart from each other; each of them may overlap the
    key and the coins, which may overlap each other. *)
Definition enc_any_call (P : params) (m : memory) (ct ss pk coins : Z) (ek msg : list Z) : Prop :=
  byte_memory m /\ accessible m ct (ct_size P) /\ accessible m ss 32 /\
  contains m pk ek /\ zlen ek = ek_size P /\ contains m coins msg /\ zlen msg = 32 /\
  all_apart [(ct, ct_size P); (ss, 32)].

(** Decapsulation: the three buffers may overlap in any way. *)
Definition dec_any_call (P : params) (m : memory) (ss ct sk : Z) (dk c : list Z) : Prop :=
  byte_memory m /\ accessible m ss 32 /\
  contains m sk dk /\ zlen dk = dk_size P /\ contains m ct c /\ zlen c = ct_size P.
