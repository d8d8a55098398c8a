(** * Sample objects for C71 and C72 *)

From Coq Require Import ZArith List Bool Lia.
From Verif Require Import ModelPython SpecPython ModelBounds.
Import ListNotations.
Open Scope Z_scope.
Ltac Zify.zify_post_hook ::= idtac.

(** A division that rounds: n / d, rounded down to a multiple of 2^-110 *)
Definition sample_div : division := fun n d => (n * 2 ^ 110 / d, 2 ^ 110).

Lemma sample_div_double : double_precision sample_div.
Proof.
  intros n d Hn Hd. unfold sample_div.
  change (2 ^ 110) with 1298074214633706907132624082305024.
  change (2 ^ 53) with 9007199254740992 in *.
  split; [lia|].
  pose proof (Z.div_mod (n * 1298074214633706907132624082305024) d ltac:(lia)).
  pose proof (Z.mod_pos_bound (n * 1298074214633706907132624082305024) d ltac:(lia)).
  set (k := n * 1298074214633706907132624082305024 / d) in *.
  set (m := (n * 1298074214633706907132624082305024) mod d) in *.
  destruct (Z.eq_dec n 0) as [->|N].
  - assert (k = 0) as -> by nia. lia.
  - assert (Z.abs (k * d - n * 1298074214633706907132624082305024) <= 9007199254740992) by lia. lia.
Qed.

(** It is not exact. *)
Lemma sample_div_rounds : let (p, s) := sample_div 65536 3329 in p * 3329 <> 65536 * s.
Proof. vm_compute. discriminate. Qed.

(** Two layers on the coefficients 3329, -3329, 3329, ... *)
Definition sample_f (i : nat) : Z := if Nat.even i then 3329 else -3329.
Definition sample_g (i : nat) : Z := sample_f i + barmul sample_div (sample_f (i + 1)) 17.
Definition sample_h (i : nat) : Z := sample_g 0 - barmul sample_div (sample_g i) (-1600).
Lemma sample_layers : layers (barmul sample_div) (fun t => Z.abs t < 2 ^ 37) 2 sample_f sample_h.
Proof.
  apply (more_layers _ _ 1 _ sample_g).
  - apply (more_layers _ _ 0 _ sample_f); [constructor|]. intros i. exists i, (i + 1)%nat, 17.
    split; [reflexivity|left; reflexivity].
  - intros i. exists O, i, (-1600). split; [reflexivity|right; reflexivity].
Qed.
