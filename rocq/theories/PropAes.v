(** * C65: the AES of the known-answer tests is FIPS 197 *)

From Coq Require Import ZArith List.
From Verif Require Import CSem ModelAes Spec202 SpecApi SpecAes ProofAesKey ProofAes.
Import ListNotations.
Open Scope Z_scope.

(** Key expansion and then ECB encryption of any number of blocks: no undefined behaviour, the
    blocks are those of FIPS 197, whatever was in memory, and the rest of the output array is as
    before. *)
Theorem C65_ecb128 J J' key out inp n :
  zlen key = 16 -> bytes key -> bytes inp -> 0 <= n -> 16 * n <= zlen inp -> 16 * n <= zlen out ->
  val (sk <- aes128_ecb_keyexp J key ;; aes128_ecb J' out inp n sk) =
  Ok (ECB (AES128 key) n inp ++ slice out (16 * n) (zlen out)).
Proof. intros. apply (ecb_correct 4 10); auto. now left. Qed.
Print Assumptions C65_ecb128.
Theorem C65_ecb192 J J' key out inp n :
  zlen key = 24 -> bytes key -> bytes inp -> 0 <= n -> 16 * n <= zlen inp -> 16 * n <= zlen out ->
  val (sk <- aes192_ecb_keyexp J key ;; aes192_ecb J' out inp n sk) =
  Ok (ECB (AES192 key) n inp ++ slice out (16 * n) (zlen out)).
Proof. intros. apply (ecb_correct 6 12); auto. now right; left. Qed.
Print Assumptions C65_ecb192.
Theorem C65_ecb256 J J' key out inp n :
  zlen key = 32 -> bytes key -> bytes inp -> 0 <= n -> 16 * n <= zlen inp -> 16 * n <= zlen out ->
  val (sk <- aes256_ecb_keyexp J key ;; aes256_ecb J' out inp n sk) =
  Ok (ECB (AES256 key) n inp ++ slice out (16 * n) (zlen out)).
Proof. intros. apply (ecb_correct 8 14); auto. now right; right. Qed.
Print Assumptions C65_ecb256.

(** Key expansion and then counter mode, for any number of bytes *)
Theorem C65_ctr128 J J' key out iv len :
  zlen key = 16 -> bytes key -> zlen iv = 12 -> bytes iv -> 0 <= len <= zlen out ->
  val (sk <- aes128_ecb_keyexp J key ;; aes128_ctr J' out len iv sk) =
  Ok (CTR (AES128 key) len iv ++ slice out len (zlen out)).
Proof. intros. apply (ctr_correct 4 10); auto. now left. Qed.
Print Assumptions C65_ctr128.
Theorem C65_ctr192 J J' key out iv len :
  zlen key = 24 -> bytes key -> zlen iv = 12 -> bytes iv -> 0 <= len <= zlen out ->
  val (sk <- aes192_ecb_keyexp J key ;; aes192_ctr J' out len iv sk) =
  Ok (CTR (AES192 key) len iv ++ slice out len (zlen out)).
Proof. intros. apply (ctr_correct 6 12); auto. now right; left. Qed.
Print Assumptions C65_ctr192.
Theorem C65_ctr256 J J' key out iv len :
  zlen key = 32 -> bytes key -> zlen iv = 12 -> bytes iv -> 0 <= len <= zlen out ->
  val (sk <- aes256_ecb_keyexp J key ;; aes256_ctr J' out len iv sk) =
  Ok (CTR (AES256 key) len iv ++ slice out len (zlen out)).
Proof. intros. apply (ctr_correct 8 14); auto. now right; right. Qed.
Print Assumptions C65_ctr256.

(** The example vectors of FIPS 197, appendix C *)
Example C65_spec_case :
  let plain := map (fun i => 17 * i) (range 16) in
  AES128 (range 16) plain = [0x69; 0xc4; 0xe0; 0xd8; 0x6a; 0x7b; 0x04; 0x30; 0xd8; 0xcd; 0xb7; 0x80; 0x70; 0xb4; 0xc5; 0x5a] /\
  AES192 (range 24) plain = [0xdd; 0xa9; 0x7c; 0xa4; 0x86; 0x4c; 0xdf; 0xe0; 0x6e; 0xaf; 0x70; 0xa0; 0xec; 0x0d; 0x71; 0x91] /\
  AES256 (range 32) plain = [0x8e; 0xa2; 0xb7; 0xca; 0x51; 0x67; 0x45; 0xbf; 0xea; 0xfc; 0x49; 0x90; 0x4b; 0x49; 0x60; 0x89].
Proof. split; [|split]; vm_compute; reflexivity. Qed.
(** One block out of a longer input, in a longer output *)
Example C65_ecb_case :
  zlen (range 32) = 32 /\ bytes (range 32) /\ bytes (range 40) /\ 0 <= 2 /\ 16 * 2 <= zlen (range 40) /\ 16 * 2 <= zlen (repeat 7 33) /\
  val (sk <- aes256_ecb_keyexp (fun _ => 77) (range 32) ;; aes256_ecb (fun _ => 2 ^ 40 + 3) (repeat 7 33) (range 40) 2 sk) =
  Ok (AES256 (range 32) (range 16) ++ AES256 (range 32) (slice (range 40) 16 32) ++ [7]).
Proof.
  split; [reflexivity|]. split; [|split; [|do 3 (split; [vm_compute; congruence|]); vm_compute; reflexivity]];
    apply Forall_forall; intros x Hx; apply CSemFacts.in_range in Hx; unfold is_byte; Lia.lia.
Qed.
(** 20 bytes of counter mode *)
Example C65_ctr_case :
  zlen (range 16) = 16 /\ zlen (repeat 9 12) = 12 /\ 0 <= 20 <= zlen (repeat 7 21) /\
  val (sk <- aes128_ecb_keyexp (fun _ => 77) (range 16) ;; aes128_ctr (fun _ => 2 ^ 40 + 3) (repeat 7 21) 20 (repeat 9 12) sk) =
  Ok (AES128 (range 16) (repeat 9 12 ++ [0; 0; 0; 0]) ++ slice (AES128 (range 16) (repeat 9 12 ++ [0; 0; 0; 1])) 0 4 ++ [7]).
Proof. split; [reflexivity|]. split; [reflexivity|]. split; [vm_compute; split; congruence|vm_compute; reflexivity]. Qed.
