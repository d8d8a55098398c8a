(** * C64: the random bytes of the functional tests are one fixed stream *)

From Coq Require Import ZArith List.
From Verif Require Import CSem ModelSurf Spec202 SpecApi SpecSurf ProofSurf.
Import ListNotations.
Open Scope Z_scope.

(** Whatever buffers a program fills one after the other with randombytes, no call has undefined
    behaviour or fails to end, and the buffers get consecutive pieces of one stream: that of SURF
    on the counter 1, 2, 3, ... This is the random source that the model of the KEM takes as a
    parameter. *)
Theorem C64_stream J bufs :
  val (surf_calls J surf_start bufs) = Ok (dealt surf_stream 0 (map (fun b => zlen b) bufs)).
Proof. exact (surf_calls_stream J bufs). Qed.
Print Assumptions C64_stream.

(** How the bytes are divided into calls makes no difference, nor does what was on the stack. *)
Theorem C64_chunking J J' bufs bufs' :
  zlen (concat bufs) = zlen (concat bufs') ->
  exists outs outs',
    val (surf_calls J surf_start bufs) = Ok outs /\ val (surf_calls J' surf_start bufs') = Ok outs' /\
    concat outs = concat outs'.
Proof. exact (surf_chunking J J' bufs bufs'). Qed.
Print Assumptions C64_chunking.

(** Three calls, over a boundary between two evaluations of SURF *)
Example C64_case :
  val (surf_calls (fun _ => 77) surf_start [repeat 1 5; []; repeat 2 6]) =
  Ok [[147; 77; 96; 179; 86]; []; [36; 215; 64; 179; 10; 127]].
Proof. vm_compute. reflexivity. Qed.
Example C64_chunking_case :
  zlen (concat [repeat 1 5; []; repeat 2 6]) = zlen (concat [repeat 3 11]) /\
  drawn surf_stream 0 11 = [147; 77; 96; 179; 86; 36; 215; 64; 179; 10; 127].
Proof. vm_compute. split; reflexivity. Qed.
