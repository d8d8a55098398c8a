(* C74: the builds of the library.  The preprocessor is modelled as a whole
   (ModelCpp.v) and run on the directives of all source files and headers
   (ModelSources.v), for every configuration of the predefined macros
   (ModelConfig.v). *)
From Coq Require Import List Bool.
Import ListNotations.
Require Import Verif.ModelCppNames Verif.ModelCpp Verif.ModelConfig.
Require Import Verif.SpecConfig Verif.SamplesConfig Verif.ProofConfig.

(* a build passes the preprocessor exactly when its configuration makes sense *)
Theorem C74_compiles : forall c,
  sensible c <-> (forall f, In f (sources c) -> exists s, compile c f = Done s).
Proof. exact compiles. Qed.
Print Assumptions C74_compiles.

(* otherwise it is stopped by a directive #error *)
Theorem C74_stops : forall c, ~ sensible c ->
  In f_mlkem_poly_c (sources c) /\ compile c f_mlkem_poly_c = Stopped.
Proof. intros c H. exact (conj (poly_source c) (stops c H)). Qed.
Print Assumptions C74_stops.

(* whatever a function uses is defined exactly once: in its own file, or
   under the same name for the linker in exactly one of the files compiled *)
Theorem C74_links : forall c f g x, sensible c -> In f (sources c) ->
  In (Uses g x) (outputs c f) ->
  once (Locals x) (outputs c f) \/ once (Provides x) (program c).
Proof. exact links. Qed.
Print Assumptions C74_links.

(* and nothing is defined twice *)
Theorem C74_unique : forall c x, sensible c ->
  In (Provides x) (program c) -> once (Provides x) (program c).
Proof. exact provided_once. Qed.
Print Assumptions C74_unique.

Theorem C74_unique_local : forall c f x, sensible c -> In f (sources c) ->
  In (Locals x) (outputs c f) -> once (Locals x) (outputs c f).
Proof. exact locals_once. Qed.
Print Assumptions C74_unique_local.

(* every function that has a portable and a native body has the body that the
   table in SpecConfig.v wants *)
Theorem C74_selects : forall c g x, sensible c -> In g selected ->
  (In (Uses g x) (program c) <-> In x (wanted c g)).
Proof. exact selects. Qed.
Print Assumptions C74_selects.

(* the matrix is brought into the custom order exactly when the transform in
   use is the one that works in that order *)
Theorem C74_custom_order : forall c, sensible c ->
  (In (Uses i_gen_matrix (inline i_poly_permute_bitrev_to_custom)) (program c) <->
   In (Uses i_ntt_native (mlkem c i_ntt_avx2)) (program c)).
Proof. exact custom_order. Qed.
Print Assumptions C74_custom_order.

(* the state of Keccak is read and written byte by byte in memory only where
   the processor is known to be little-endian *)
Theorem C74_bytes : forall c g, sensible c ->
  (In (ByBytes g) (program c) <->
   order c = Little /\
   (g = i_KeccakF1600_StateExtractBytes \/ g = i_KeccakF1600_StateXORBytes)).
Proof. exact by_bytes. Qed.
Print Assumptions C74_bytes.

(* builds for two parameter sets share no name but those of FIPS 202 and the
   placeholders *)
Theorem C74_levels : forall c d x, sensible c -> sensible d ->
  level_of c <> level_of d ->
  In (Provides x) (program c) -> In (Provides x) (program d) -> shared x.
Proof. exact separate. Qed.
Print Assumptions C74_levels.

(* the placeholders are shared: not every name that is given to the linker
   carries a prefix *)
Theorem C74_prefix_refuted : exists c d x, sensible c /\ sensible d /\
  level_of c <> level_of d /\ fst x = None /\
  In (Provides x) (program c) /\ In (Provides x) (program d).
Proof.
  exists sample_avx2, sample_avx2_1024, (None, i_empty_cu_aarch64_zetas).
  split; [apply sensibleb_iff; reflexivity|].
  split; [apply sensibleb_iff; reflexivity|].
  split; [discriminate|]. split; [reflexivity|].
  split; apply placeholder_shared; [left | right; left]; reflexivity.
Qed.
Print Assumptions C74_prefix_refuted.

(* configurations that meet the hypotheses, with what they use *)
Example C74_case :
  sensible sample_arm /\ sensible sample_avx2 /\ sensible sample_big /\
  ~ sensible sample_forced /\
  backend_of sample_arm = Arm /\ backend_of sample_avx2 = Avx2 /\
  backend_of sample_big = Portable /\
  In (Uses i_ntt_native (Some p_PQCP_MLKEM_NATIVE_MLKEM768, i_ntt_asm_opt))
     (program sample_arm) /\
  In (Uses i_gen_matrix (inline i_poly_permute_bitrev_to_custom))
     (program sample_avx2) /\
  In f_mlkem_native_x86_64_ntt_S (sources sample_big).
Proof.
  split; [apply sensibleb_iff; reflexivity|].
  split; [apply sensibleb_iff; reflexivity|].
  split; [apply sensibleb_iff; reflexivity|].
  split; [intros H; apply sensibleb_iff in H; discriminate H|].
  split; [reflexivity|]. split; [reflexivity|]. split; [reflexivity|].
  split.
  { apply (proj2 (C74_selects sample_arm i_ntt_native (Some p_PQCP_MLKEM_NATIVE_MLKEM768, i_ntt_asm_opt)
                    (proj1 (sensibleb_iff sample_arm) eq_refl) ltac:(simpl; tauto))).
    simpl. tauto. }
  split.
  { apply (proj2 (C74_selects sample_avx2 i_gen_matrix (inline i_poly_permute_bitrev_to_custom)
                    (proj1 (sensibleb_iff sample_avx2) eq_refl) ltac:(simpl; tauto))).
    simpl. tauto. }
  simpl. tauto.
Qed.
