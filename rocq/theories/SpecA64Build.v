(** * Sequences of calls of the hash functions of the AArch64 build

    As SpecHistory.v: these definitions only put calls one after the other. The contents of
    the registers may differ from call to call. *)

From Coq Require Import ZArith List.
From Verif Require Import ModelA64Fips202 ModelA64Sponge CSem ModelKeccak Spec202.
Import ListNotations.
Open Scope Z_scope.

(** shake256_inc_absorb for each of a list of chunks *)
Fixpoint absorb_all_aarch64 (c : fips202_config) (J : junk) (st : list Z) (chunks : list (list Z)) : M (list Z) :=
  match chunks with
  | [] => ret st
  | m :: ms => st <- shake256_inc_absorb_aarch64 c (sub J 0) st m (zlen m) ;; absorb_all_aarch64 c (sub J 1) st ms
  end.

(** shake256_inc_squeeze into each of a list of buffers *)
Fixpoint squeeze_all_aarch64 (c : fips202_config) (J : junk) (st : list Z) (bufs : list (list Z)) : M (list (list Z)) :=
  match bufs with
  | [] => ret []
  | b :: bs =>
    '(out, st) <- shake256_inc_squeeze_aarch64 c (sub J 0) b (zlen b) st ;;
    outs <- squeeze_all_aarch64 c (sub J 1) st bs ;;
    ret (out :: outs)
  end.

(** shake128_squeezeblocks into each of a list of buffers of whole blocks *)
Fixpoint squeeze_blocks_all_aarch64 (c : fips202_config) (J : junk) (s : list Z) (bufs : list (list Z)) : M (list (list Z)) :=
  match bufs with
  | [] => ret []
  | b :: bs =>
    '(out, s) <- shake128_squeezeblocks_aarch64 c (sub J 0) b (zlen b / 168) s ;;
    outs <- squeeze_blocks_all_aarch64 c (sub J 1) s bs ;;
    ret (out :: outs)
  end.

(** shake128x4_squeezeblocks into each of a list of four buffers *)
Fixpoint squeeze_blocks_all_x4_aarch64 (c : fips202_config) (J : junk) (s : list Z) (bufs : list (x4 (list Z)))
  : M (list (x4 (list Z))) :=
  match bufs with
  | [] => ret []
  | (b0, b1, b2, b3) :: bs =>
    '(out, s) <- shake128x4_squeezeblocks_aarch64 c (sub J 0) b0 b1 b2 b3 (zlen b0 / 168) s ;;
    outs <- squeeze_blocks_all_x4_aarch64 c (sub J 1) s bs ;;
    ret (out :: outs)
  end.
