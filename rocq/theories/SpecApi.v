(** * What a caller of the KEM functions provides and what they observe

    The preconditions are those of the contracts in mlkem/kem.h 25-141: buffers of the
    documented sizes that do not overlap. Nothing is assumed about their contents except
    that memory holds bytes. *)

From Coq Require Import ZArith List Bool.
From Verif Require Import CSem Spec202 Spec203 SpecMem.
Import ListNotations.
Open Scope Z_scope.

(** No memory is in use at these [n] addresses. *)
Definition vacant (m : memory) (a n : Z) : Prop := forall x, a <= x < a + n -> m x = None.

(** Key generation: outputs [pk], [sk]; the 64 bytes at [coins] are d followed by z. *)
Definition keypair_call (P : params) (m : memory) (pk sk coins : Z) (d z : list Z) : Prop :=
  byte_memory m /\ accessible m pk (ek_size P) /\ accessible m sk (dk_size P) /\
  contains m coins (d ++ z) /\ zlen d = 32 /\ zlen z = 32 /\
  all_apart [(pk, ek_size P); (sk, dk_size P); (coins, 64)].

(** Encapsulation: outputs [ct], [ss]; the bytes ek are at [pk], the 32 bytes msg at [coins]. *)
Definition enc_call (P : params) (m : memory) (ct ss pk coins : Z) (ek msg : list Z) : Prop :=
  byte_memory m /\ accessible m ct (ct_size P) /\ accessible m ss 32 /\
  contains m pk ek /\ zlen ek = ek_size P /\ contains m coins msg /\ zlen msg = 32 /\
  all_apart [(ct, ct_size P); (ss, 32); (pk, ek_size P); (coins, 32)].

(** Decapsulation: output [ss]; the bytes c are at [ct], the bytes dk at [sk]. *)
Definition dec_call (P : params) (m : memory) (ss ct sk : Z) (dk c : list Z) : Prop :=
  byte_memory m /\ accessible m ss 32 /\
  contains m sk dk /\ zlen dk = dk_size P /\ contains m ct c /\ zlen c = ct_size P /\
  all_apart [(ss, 32); (ct, ct_size P); (sk, dk_size P)].

(** The randomised functions have a local array at [fp], where no memory was in use. *)
Definition keypair_rand_call (P : params) (m : memory) (fp pk sk : Z) : Prop :=
  byte_memory m /\ accessible m pk (ek_size P) /\ accessible m sk (dk_size P) /\
  all_apart [(pk, ek_size P); (sk, dk_size P)] /\ vacant m fp 64.
Definition enc_rand_call (P : params) (m : memory) (fp ct ss pk : Z) (ek : list Z) : Prop :=
  byte_memory m /\ accessible m ct (ct_size P) /\ accessible m ss 32 /\
  contains m pk ek /\ zlen ek = ek_size P /\
  all_apart [(ct, ct_size P); (ss, 32); (pk, ek_size P)] /\ vacant m fp 32.

(** A run begun in memory [m] returned [r], stored the bytes [outs] and changed nothing
    else. *)
Definition finished (o : outcome (Z * memory)) (m : memory) (r : Z) (outs : list (Z * list Z)) : Prop :=
  exists m', o = Ok (r, m') /\ forall x, m' x = overwrite m outs x.
(** The same, for a run that also has drawn random bytes up to position [pos] *)
Definition finished_at (o : outcome (Z * memory * Z)) (m : memory) (r pos : Z) (outs : list (Z * list Z)) : Prop :=
  exists m', o = Ok (r, m', pos) /\ forall x, m' x = overwrite m outs x.

(** The bytes number [pos], ..., [pos + len - 1] of the random source [rng] *)
Definition drawn (rng : Z -> Z) (pos len : Z) : list Z := map (fun i => rng (pos + i) mod 256) (range len).

(** The first [b] blocks of every matrix entry's SHAKE128 stream have 256 acceptable
    values. *)
Definition blocks_suffice (P : params) (rho : list Z) (b : Z) : Prop :=
  forall i j, 0 <= i < k P -> 0 <= j < k P ->
  256 <= zlen (accepted (SHAKE128 (rho ++ [j; i]) (168 * b))).
(** The public seed of a key generation, of an encapsulation key, of a decapsulation key *)
Definition keygen_rho (P : params) (d : list Z) : list Z := fst (G (d ++ [k P])).
Definition ek_rho (P : params) (ek : list Z) : list Z := slice ek (384 * k P) (384 * k P + 32).
Definition dk_rho (P : params) (dk : list Z) : list Z := slice dk (768 * k P) (768 * k P + 32).

(** The [n] bytes at [a1] in [m1] are the [n] bytes at [a2] in [m2]. *)
Definition same_bytes (m1 : memory) (a1 : Z) (m2 : memory) (a2 : Z) (n : Z) : Prop :=
  forall i, 0 <= i < n -> m1 (a1 + i) = m2 (a2 + i).
