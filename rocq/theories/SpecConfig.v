(* What the builds of the library should be: which configurations can be
   compiled, which implementation each of them selects, and what the linker
   needs.  Stated over the output of the preprocessor (ModelCpp.v) only. *)
From Coq Require Import List Bool.
Import ListNotations.
Require Import Verif.ModelCppNames Verif.ModelCpp Verif.ModelConfig.

(* a little-endian AArch64 processor, and an x86_64 processor with AVX2 *)
Definition on_arm (c : config) : bool := aarch64el c || m_arm64 c.
Definition on_avx2 (c : config) : bool := x86_64 c && avx2 c.

(* the configurations that make sense: a known byte order, no processor
   demanded that is not there, not two processors at once *)
Definition sensible (c : config) : Prop :=
  order c <> OtherOrder /\
  (force_aarch64 c = true -> on_arm c = true) /\
  (force_x86_64 c = true -> x86_64 c = true) /\
  ~ (use_native c = true /\ on_arm c = true /\ on_avx2 c = true).

(* the implementation of a build *)
Inductive backend : Set := Portable | Arm | Avx2.

Definition backend_of (c : config) : backend :=
  if use_native c then
    if on_arm c then Arm else if on_avx2 c then Avx2 else Portable
  else Portable.

(* the text of a source file after the preprocessor, and that of the program *)
Definition outputs (c : config) (f : file) : list output :=
  match compile c f with
  | Done s => out s
  | _ => []
  end.

Definition program (c : config) : list output := flat_map (outputs c) (sources c).

(* x occurs in l exactly once *)
Definition once (x : output) (l : list output) : Prop :=
  exists a b, l = a ++ x :: b /\ ~ In x a /\ ~ In x b.

(* the names of the linker: those of the parameter set and those of FIPS 202 *)
Definition mlkem (c : config) (x : ident) : symbol :=
  (Some match security c with
        | Level2 => p_PQCP_MLKEM_NATIVE_MLKEM512
        | NoLevel | Level3 => p_PQCP_MLKEM_NATIVE_MLKEM768
        | Level4 => p_PQCP_MLKEM_NATIVE_MLKEM1024
        end, x).

Definition fips202 (x : ident) : symbol := (Some p_PQCP_MLKEM_NATIVE_FIPS202, x).

(* a function that is defined within the file *)
Definition inline (x : ident) : symbol := (None, x).

(* the functions that have a portable and a native body, the native functions
   of the profiles, and the function that generates the matrix *)
Definition selected : list ident :=
  [ i_poly_ntt; i_poly_invntt_tomont; i_poly_reduce; i_poly_tomont;
    i_poly_mulcache_compute; i_polyvec_basemul_acc_montgomery_cached;
    i_poly_tobytes; i_poly_frombytes; i_rej_uniform; i_gen_matrix;
    i_KeccakF1600_StatePermute; i_KeccakF1600x4_StatePermute;
    i_ntt_native; i_intt_native; i_poly_reduce_native; i_poly_tomont_native;
    i_poly_mulcache_compute_native;
    i_polyvec_basemul_acc_montgomery_cached_native;
    i_poly_tobytes_native; i_poly_frombytes_native; i_rej_uniform_native;
    i_poly_permute_bitrev_to_custom;
    i_keccak_f1600_x1_native; i_keccak_f1600_x2_native;
    i_keccak_f1600_x4_native ].

(* what each of them should use *)
Definition wanted (c : config) (g : ident) : list symbol :=
  let m := mlkem c in
  let when (b : bool) (l : list symbol) := if b then l else [] in
  let native := match backend_of c with Portable => false | _ => true end in
  let arm := match backend_of c with Arm => true | _ => false end in
  let intel := match backend_of c with Avx2 => true | _ => false end in
  let either (x y : ident) : symbol := m (if clean c then x else y) in
  match g with
  (* the native implementation wherever there is one *)
  | i_poly_ntt => when native [inline i_ntt_native]
  | i_poly_invntt_tomont => when native [inline i_intt_native]
  | i_poly_reduce => when native [inline i_poly_reduce_native]
  | i_poly_tomont => when native [inline i_poly_tomont_native]
  | i_poly_mulcache_compute => when native [inline i_poly_mulcache_compute_native]
  | i_polyvec_basemul_acc_montgomery_cached =>
      when native [inline i_polyvec_basemul_acc_montgomery_cached_native]
  | i_poly_tobytes => when native [inline i_poly_tobytes_native]
  | i_rej_uniform => when native [inline i_rej_uniform_native]
  (* only the AVX2 code keeps its transforms in another order *)
  | i_poly_frombytes => when intel [inline i_poly_frombytes_native]
  | i_gen_matrix => when intel [inline i_poly_permute_bitrev_to_custom]
  | i_poly_permute_bitrev_to_custom => when intel [m i_nttunpack_avx2; m i_qdata]
  | i_poly_frombytes_native => when intel [m i_nttfrombytes_avx2; m i_qdata]
  (* one processor or the other *)
  | i_ntt_native =>
      when arm [either i_ntt_asm_clean i_ntt_asm_opt;
                m i_aarch64_ntt_zetas_layer01234; m i_aarch64_ntt_zetas_layer56] ++
      when intel [m i_ntt_avx2; m i_qdata]
  | i_intt_native =>
      when arm [either i_intt_asm_clean i_intt_asm_opt;
                m i_aarch64_invntt_zetas_layer01234;
                m i_aarch64_invntt_zetas_layer56] ++
      when intel [m i_invntt_avx2; m i_qdata]
  | i_poly_reduce_native =>
      when arm [either i_poly_reduce_asm_clean i_poly_reduce_asm_opt] ++
      when intel [m i_reduce_avx2; m i_qdata]
  | i_poly_tomont_native =>
      when arm [either i_poly_tomont_asm_clean i_poly_tomont_asm_opt] ++
      when intel [m i_tomont_avx2; m i_qdata]
  | i_poly_mulcache_compute_native =>
      when arm [either i_poly_mulcache_compute_asm_clean
                       i_poly_mulcache_compute_asm_opt;
                m i_aarch64_zetas_mulcache_native;
                m i_aarch64_zetas_mulcache_twisted_native]
  | i_polyvec_basemul_acc_montgomery_cached_native =>
      when arm [either i_polyvec_basemul_acc_montgomery_cached_asm_clean
                       i_polyvec_basemul_acc_montgomery_cached_asm_opt] ++
      when intel [m i_polyvec_basemul_acc_montgomery_cached_avx2]
  | i_poly_tobytes_native =>
      when arm [m i_poly_tobytes_asm_clean] ++
      when intel [m i_ntttobytes_avx2; m i_qdata]
  | i_rej_uniform_native =>
      when arm [m i_rej_uniform_asm_clean] ++ when intel [m i_rej_uniform_avx2]
  (* Keccak: one, two or four states at a time *)
  | i_KeccakF1600_StatePermute =>
      when (arm && (sha3 c && apple c || negb (slow_shifter c)))
        [inline i_keccak_f1600_x1_native]
  | i_keccak_f1600_x1_native =>
      when arm
        (if sha3 c && apple c then [fips202 i_keccak_f1600_x1_v84a_asm_clean]
         else when (negb (slow_shifter c)) [fips202 i_keccak_f1600_x1_scalar_asm_opt])
  | i_keccak_f1600_x2_native =>
      when (arm && (sha3 c && apple c)) [fips202 i_keccak_f1600_x2_v84a_asm_clean]
  | i_KeccakF1600x4_StatePermute =>
      if native then
        [inline (if arm && (sha3 c && apple c) then i_keccak_f1600_x2_native
                 else i_keccak_f1600_x4_native)]
      else [fips202 i_KeccakF1600_StatePermute]
  | i_keccak_f1600_x4_native =>
      when (arm && negb (sha3 c))
        [fips202 i_keccak_f1600_x4_scalar_v8a_asm_hybrid_opt] ++
      when (arm && (sha3 c && negb (apple c)))
        [fips202 i_keccak_f1600_x4_scalar_v8a_v84a_hybrid_asm_opt] ++
      when intel [fips202 i_KeccakP1600times4_PermuteAll_24rounds]
  | _ => []
  end.

(* the parameter set of a build; without MLKEM_K it is ML-KEM-768 *)
Definition level_of (c : config) : level :=
  match security c with NoLevel => Level3 | l => l end.

(* the names shared by the builds for all parameter sets: those of FIPS 202,
   and the placeholders of files that are empty otherwise *)
Definition shared (x : symbol) : Prop :=
  fst x = Some p_PQCP_MLKEM_NATIVE_FIPS202 \/
  fst x = Some u_PQCP_MLKEM_NATIVE_FIPS202 \/
  In x [ (None, i_empty_cu_aarch64_zetas); (None, i_empty_cu_avx2_basemul);
         (None, i_empty_cu_avx2_keccakx4); (None, i_empty_cu_consts);
         (None, i_empty_cu_rej_uniform_avx2) ].
