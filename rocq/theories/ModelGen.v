(** * Model of scripts/autogenerate_files.py

    The functions that compute the zeta tables. A generator is the list of what it yields.
    Not modelled: the text around the numbers, clang-format, and the comparison of files. *)

From Coq Require Import ZArith List Bool.
From Verif Require Import CSem ModelPython.
Import ListNotations.
Open Scope Z_scope.

(** 9-11 *)
Definition modulus : Z := 3329.
Definition root_of_unity : Z := 17.
Definition montgomery_factor : Z := pow3 2 16 modulus.

(** 59-64: the loop, from [r] on *)
Fixpoint bitreverse_from (r i : Z) (n : nat) : Z :=
  match n with
  | O => r
  | S n => bitreverse_from (2 * r + Z.land i 1) (Z.shiftr i 1) n
  end.
Definition bitreverse (i : Z) (n : nat) : Z := bitreverse_from 0 i n.

(** 67-72 *)
Definition signed_reduce (div : division) (a : Z) : Z :=
  let c := a mod modulus in
  if int_ge c (div modulus 2) then c - modulus else c.

(** 75-87 *)
Definition gen_c_zetas (div : division) : list Z :=
  let zeta := map (fun i => signed_reduce div (pow3 root_of_unity i modulus * montgomery_factor))
                  (prange 128) in
  map (fun i => nth (Z.to_nat (bitreverse i 7)) zeta 0) (prange 128).

(** 115-123 *)
Definition round_to_even (t : float) : Z :=
  let rt := round t in
  if rt mod 2 =? 0 then rt else
  if int_le rt t then rt + 1 else rt - 1.

(** 107-126 *)
Definition prepare_root_for_barrett (div : division) (root : Z) : Z * Z :=
  let root := signed_reduce div root in
  let root_twisted := round_to_even (div (root * 2 ^ 16) modulus) / 2 in
  (root, root_twisted).

(** 129-136 *)
Definition gen_aarch64_root_of_unity_for_block (div : division) (layer block : Z) (inv : bool) : Z * Z :=
  let log := bitreverse (2 ^ layer + block) 7 in
  let log := if inv then - log else log in
  prepare_root_for_barrett div (pow3 root_of_unity log modulus).

(** yield from (x, y) *)
Definition both (t : Z * Z) : list Z := [fst t; snd t].

(** 139-156 *)
Definition gen_aarch64_fwd_ntt_zetas_layer01234 (div : division) : list Z :=
  let g layer block := both (gen_aarch64_root_of_unity_for_block div layer block false) in
  g 0 0 ++ g 1 0 ++ g 1 1 ++ g 2 0 ++ g 2 1 ++ g 2 2 ++ g 2 3 ++ [0; 0] ++
  flat_map (fun block =>
    g 3 block ++ g 4 (2 * block + 0) ++ g 4 (2 * block + 1) ++ [0; 0]) (prange 8).

(** 164-165, 235-236: [i] is 0 or 1 *)
Definition double_ith (t : Z * Z) (i : Z) : list Z :=
  let x := if i =? 0 then fst t else snd t in [x; x].

(** 159-207 ([inv] false) and 230-278 ([inv] true) *)
Definition gen_layer56 (div : division) (inv : bool) : list Z :=
  let g layer block := gen_aarch64_root_of_unity_for_block div layer block inv in
  flat_map (fun block =>
    flat_map (fun i =>
      double_ith (g 5 (4 * block + 0)) i ++ double_ith (g 5 (4 * block + 1)) i ++
      double_ith (g 5 (4 * block + 2)) i ++ double_ith (g 5 (4 * block + 3)) i) (prange 2) ++
    flat_map (fun i =>
      double_ith (g 6 (8 * block + 0)) i ++ double_ith (g 6 (8 * block + 2)) i ++
      double_ith (g 6 (8 * block + 4)) i ++ double_ith (g 6 (8 * block + 6)) i) (prange 2) ++
    flat_map (fun i =>
      double_ith (g 6 (8 * block + 1)) i ++ double_ith (g 6 (8 * block + 3)) i ++
      double_ith (g 6 (8 * block + 5)) i ++ double_ith (g 6 (8 * block + 7)) i) (prange 2))
  (prange 8).
Definition gen_aarch64_fwd_ntt_zetas_layer56 (div : division) : list Z := gen_layer56 div false.
Definition gen_aarch64_inv_ntt_zetas_layer56 (div : division) : list Z := gen_layer56 div true.

(** 210-227 *)
Definition gen_aarch64_inv_ntt_zetas_layer01234 (div : division) : list Z :=
  let g layer block := both (gen_aarch64_root_of_unity_for_block div layer block true) in
  flat_map (fun block =>
    g 3 block ++ g 4 (2 * block + 0) ++ g 4 (2 * block + 1) ++ [0; 0]) (prange 8) ++
  g 0 0 ++ g 1 0 ++ g 1 1 ++ g 2 0 ++ g 2 1 ++ g 2 2 ++ g 2 3 ++ [0; 0].

(** 281-285 *)
Definition gen_aarch64_mulcache_twiddles (div : division) : list Z :=
  flat_map (fun idx =>
    let root := pow3 root_of_unity (bitreverse (64 + idx) 7) modulus in
    [fst (prepare_root_for_barrett div root); fst (prepare_root_for_barrett div (- root))]) (prange 64).

(** 288-292 *)
Definition gen_aarch64_mulcache_twiddles_twisted (div : division) : list Z :=
  flat_map (fun idx =>
    let root := pow3 root_of_unity (bitreverse (64 + idx) 7) modulus in
    [snd (prepare_root_for_barrett div root); snd (prepare_root_for_barrett div (- root))]) (prange 64).

(** 341-345 *)
Definition signed_reduce_u16 (x : Z) : Z :=
  let x := x mod 2 ^ 16 in
  if x >=? 2 ^ 15 then x - 2 ^ 16 else x.

(** 348-357 *)
Definition prepare_root_for_montmul (div : division) (root : Z) : Z * Z :=
  let root := signed_reduce div (root * montgomery_factor) in
  let root_twisted := signed_reduce_u16 (root * pow3 modulus (-1) (2 ^ 16)) in
  (root, root_twisted).

(** 360-367 *)
Definition gen_avx2_root_of_unity_for_block (div : division) (layer block : Z) (inv : bool) : Z * Z :=
  let log := bitreverse (2 ^ layer + block) 7 in
  let log := if inv then - log else log in
  prepare_root_for_montmul div (pow3 root_of_unity log modulus).

(** 372-376 *)
Definition gen_twiddles (div : division) (layer block : Z) (repeat_ : nat) : list Z * list Z :=
  let t := gen_avx2_root_of_unity_for_block div layer block false in
  (repeat (fst t) repeat_, repeat (snd t) repeat_).

(** 378-385 *)
Definition gen_twiddles_many (div : division) (layer block_base : Z) (block_offsets : list Z)
  (repeat_ : nat) : list Z :=
  let root_pairs := map (fun x => gen_twiddles div layer (block_base + x) repeat_) block_offsets in
  flat_map snd root_pairs ++ flat_map fst root_pairs.

(** 370-400. range(0, 32, 2) and range(1, 32, 2) are the even and the odd numbers below 32. *)
Definition gen_avx2_fwd_ntt_zetas (div : division) : list Z :=
  gen_twiddles_many div 0 0 (prange 1) 4 ++ repeat 0 8 ++
  flat_map (fun i =>
    gen_twiddles_many div 1 (i * 2 ^ 0) (prange 1) 16 ++
    gen_twiddles_many div 2 (i * 2 ^ 1) (prange 2) 8 ++
    gen_twiddles_many div 3 (i * 2 ^ 2) (prange 4) 4 ++
    gen_twiddles_many div 4 (i * 2 ^ 3) (prange 8) 2 ++
    gen_twiddles_many div 5 (i * 2 ^ 4) (prange 16) 1 ++
    gen_twiddles_many div 6 (i * 2 ^ 5) (map (fun j => 2 * j) (prange 16)) 1 ++
    gen_twiddles_many div 6 (i * 2 ^ 5) (map (fun j => 2 * j + 1) (prange 16)) 1) (prange 2).
