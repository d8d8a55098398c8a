(** * A state in which the assembly of the x86_64 backend can be called *)

From Coq Require Import ZArith List Bool Lia.
From Verif Require Import CSem ModelX86 ModelX86Asm ModelX86Poly ModelX86Abi Spec202 SpecX86Frame SpecX86Abi Samples SamplesX86.
Import ListNotations.
Open Scope Z_scope.
Ltac Zify.zify_post_hook ::= idtac.

Definition index (l : label) : Z :=
  match l with
  | basemul_avx2_ => 0 | reduce128_avx2_ => 1 | reduce_avx2_ => 2 | tomont128_avx2_ => 3 | tomont_avx2_ => 4
  | invntt_avx2_ => 5 | ntt_avx2_ => 6 | nttpack_avx2_ => 7 | nttunpack128_avx2_ => 8 | nttunpack_avx2_ => 9
  | ntttobytes128_avx_ => 10 | ntttobytes_avx2_ => 11 | nttfrombytes128_avx_ => 12 | nttfrombytes_avx2_ => 13
  end.
Definition sample_loc : placement := fun l k => 2 ^ 22 + 2 ^ 16 * index l + 8 * Z.of_nat k.

Lemma code_short l : Z.of_nat (length (code l)) < 2 ^ 13.
Proof. destruct l; vm_compute; reflexivity. Qed.
Lemma index_inj l l' : index l = index l' -> l = l'.
Proof. destruct l, l'; intros H; reflexivity || discriminate H. Qed.
Lemma index_range l : 0 <= index l < 14.
Proof. destruct l; cbn; lia. Qed.
Lemma sample_placed : placed sample_loc.
Proof.
  intros l k Hk. pose proof (code_short l). pose proof (index_range l). unfold sample_loc. split; [lia|].
  intros l' k' Hk' E. pose proof (code_short l'). pose proof (index_range l').
  assert (index l = index l') by lia. split; [now apply index_inj|lia].
Qed.

(** Memory with the given arrays at the given addresses *)
Definition segment : Type := Z * list Z.
Fixpoint image (l : list segment) : memory :=
  match l with
  | [] => fun _ => None
  | (a, b) :: l => fun x => if (a <=? x) && (x <? a + zlen b) then nth_error b (Z.to_nat (x - a)) else image l x
  end.
Lemma image_bytes l : forallb (fun '(a, b) => (0 <=? a) && (a + zlen b <=? 2 ^ 64) && forallb (fun v => (0 <=? v) && (v <? 256)) b) l = true ->
  forall a v, image l a = Some v -> 0 <= a < 2 ^ 64 /\ 0 <= v < 256.
Proof.
  induction l as [|[b w] l IH]; cbn [forallb image]; [discriminate|].
  intros H a v. apply andb_true_iff in H. destruct H as (H & Hl). apply andb_true_iff in H. destruct H as (H & Hw).
  apply andb_true_iff in H. destruct H as (H0 & H1). apply Z.leb_le in H0, H1.
  destruct ((b <=? a) && (a <? b + zlen w)) eqn:E; [|now apply IH].
  apply andb_true_iff in E. destruct E as (E0 & E1). apply Z.leb_le in E0. apply Z.ltb_lt in E1.
  intros K. apply nth_error_In in K. rewrite forallb_forall in Hw. apply Hw in K.
  apply andb_true_iff in K. destruct K as (K0 & K1). apply Z.leb_le in K0. apply Z.ltb_lt in K1. lia.
Qed.

Definition word_bytes (w : list Z) : list Z := flat_map (fun x => [x mod 256; x / 256 mod 256]) w.
(** rdi, rsi, rdx and rcx point to 4096, 8192, 12288 and 16384; the stack pointer is 65528. *)
Definition sample_cpu (l : label) (d0 d1 d2 d3 : list Z) : cpu :=
  Cpu (sample_loc l 0%nat)
    (fun r => match r with RDI => 4096 | RSI => 8192 | RDX => 12288 | RCX => 16384 | RSP => 65528 | RBX => 77 | _ => 5 end)
    (repeat (repeat 3 16) 16)
    (image [(4096, d0); (8192, d1); (12288, d2); (16384, d3); (65464, repeat 1 64); (65528, le_bytes 8 1234)]).

Lemma sample_enters l d0 d1 d2 d3 bufs :
  forallb (fun b => forallb (fun v => (0 <=? v) && (v <? 256)) b && (zlen b <=? 4096)) [d0; d1; d2; d3] = true ->
  In bufs [[poly RDI; consts RSI]; [byte_array RDI; poly RSI; consts RDX]; [poly RDI; byte_array RSI; consts RDX];
           [poly RDI; poly RSI; poly RDX; consts RCX]] ->
  enters sample_loc l 1234 bufs (sample_cpu l d0 d1 d2 d3).
Proof.
  intros Hd Hb.
  assert (D : Forall (fun b => forallb (fun v => (0 <=? v) && (v <? 256)) b = true /\ zlen b <= 4096) [d0; d1; d2; d3]).
  { apply Forall_forall. intros b Ib. rewrite forallb_forall in Hd. apply Hd in Ib. apply andb_true_iff in Ib.
    destruct Ib as (? & Ib). apply Z.leb_le in Ib. auto. }
  clear Hd. pose proof (Forall_inv D) as (B0 & L0). apply Forall_inv_tail in D. pose proof (Forall_inv D) as (B1 & L1).
  apply Forall_inv_tail in D. pose proof (Forall_inv D) as (B2 & L2). apply Forall_inv_tail in D. pose proof (Forall_inv D) as (B3 & L3).
  assert (Up : forall x, 20480 <= x -> ram (sample_cpu l d0 d1 d2 d3) x = image [(65464, repeat 1 64); (65528, le_bytes 8 1234)] x).
  { intros x Hx. unfold sample_cpu, ram. cbn [image].
    destruct (x <? 4096 + zlen d0) eqn:E0; [apply Z.ltb_lt in E0; lia|].
    destruct (x <? 8192 + zlen d1) eqn:E1; [apply Z.ltb_lt in E1; lia|].
    destruct (x <? 12288 + zlen d2) eqn:E2; [apply Z.ltb_lt in E2; lia|].
    destruct (x <? 16384 + zlen d3) eqn:E3; [apply Z.ltb_lt in E3; lia|].
    now rewrite !andb_false_r. }
  constructor.
  - reflexivity.
  - intros []; cbn; lia.
  - change (vec (sample_cpu l d0 d1 d2 d3)) with (repeat (repeat 3 16) 16). split; [reflexivity|].
    apply Forall_forall. intros r Hr. apply repeat_spec in Hr. subst r. split; [reflexivity|].
    apply Forall_forall. intros x Hx. apply repeat_spec in Hx. subst x. unfold int16. lia.
  - unfold sample_cpu, ram. apply image_bytes. cbn [forallb]. rewrite B0, B1, B2, B3.
    assert (Q : forall a (d : list Z), 0 <= a <= 16384 -> zlen d <= 4096 -> ((0 <=? a) && (a + zlen d <=? 2 ^ 64)) = true).
    { intros a d Ha Hd. apply andb_true_iff. split; apply Z.leb_le; lia. }
    rewrite !Q by lia. vm_compute. reflexivity.
  - assert (K : forall n a m m', (forall x, a <= x -> m x = m' x) -> get_uint m a n = get_uint m' a n).
    { induction n as [|n IH]; intros a m m' Hm; [reflexivity|]. cbn [get_uint]. rewrite (Hm a) by lia.
      rewrite (IH (a + 1) m m') by (intros; apply Hm; lia). reflexivity. }
    unfold get64. rewrite (K 8%nat (gp (sample_cpu l d0 d1 d2 d3) RSP) (ram (sample_cpu l d0 d1 d2 d3)) (image [(65464, repeat 1 64); (65528, le_bytes 8 1234)])).
    + vm_compute. reflexivity.
    + intros x Hx. apply Up. cbn in Hx. lia.
  - intros l' k Hk. pose proof (index_range l'). unfold sample_loc. lia.
  - intros a Ha. cbn [gp sample_cpu] in Ha. rewrite Up by lia.
    assert (K : forallb (fun i => match image [(65464, repeat 1 64); (65528, le_bytes 8 1234)] (65464 + Z.of_nat i) with None => false | _ => true end) (seq 0 64) = true) by (vm_compute; reflexivity).
    rewrite forallb_forall in K. specialize (K (Z.to_nat (a - 65464))). rewrite Z2Nat.id in K by lia.
    replace (65464 + (a - 65464)) with a in K by lia. intros N. rewrite N in K. discriminate K. apply in_seq. lia.
  - cbn [In] in Hb. destruct Hb as [<-|[<-|[<-|[<-|[]]]]]; cbn [map from_to poly consts byte_array gp sample_cpu];
      repeat match goal with |- ForallOrdPairs _ (_ :: _) => apply FOP_cons | |- ForallOrdPairs _ [] => apply FOP_nil
        | |- Forall _ (_ :: _) => apply Forall_cons | |- Forall _ [] => apply Forall_nil end; unfold apart; cbn [fst snd]; lia.
  - cbn [In] in Hb. destruct Hb as [<-|[<-|[<-|[<-|[]]]]]; cbn [poly consts byte_array gp sample_cpu];
      repeat match goal with |- ForallOrdPairs _ (_ :: _) => apply FOP_cons | |- ForallOrdPairs _ [] => apply FOP_nil
        | |- Forall _ (_ :: _) => apply Forall_cons | |- Forall _ [] => apply Forall_nil end;
      unfold poly, consts, byte_array; (intros _; reflexivity) || (intros Z; discriminate Z).
Qed.

(** A call of each routine *)
Definition table : list Z := word_bytes qdata.
Definition at_ntt : cpu := sample_cpu ntt_avx2_ (word_bytes (sample_poly 3)) table [] [].
Definition at_invntt : cpu := sample_cpu invntt_avx2_ (word_bytes extreme_poly) table [] [].
Definition at_reduce : cpu := sample_cpu reduce_avx2_ (word_bytes extreme_poly) table [] [].
Definition at_tobytes : cpu := sample_cpu ntttobytes_avx2_ (repeat 9 384) (word_bytes (sample_poly 3)) table [].
Definition at_frombytes : cpu := sample_cpu nttfrombytes_avx2_ (word_bytes (sample_poly 3)) (repeat 201 384) table [].
Definition at_basemul : cpu :=
  sample_cpu basemul_avx2_ (word_bytes (sample_poly 3)) (word_bytes (sample_poly 5)) (word_bytes extreme_poly) table.

Lemma enters_ntt : enters sample_loc ntt_avx2_ 1234 [poly RDI; consts RSI] at_ntt /\
  holds (ram at_ntt) (gp at_ntt RDI) (sample_poly 3) /\ holds (ram at_ntt) (gp at_ntt RSI) qdata.
Proof. split; [apply sample_enters; [vm_compute; reflexivity|cbn [In]; tauto]|]. split; vm_compute; reflexivity. Qed.
Lemma enters_invntt : enters sample_loc invntt_avx2_ 1234 [poly RDI; consts RSI] at_invntt /\
  holds (ram at_invntt) (gp at_invntt RDI) extreme_poly /\ holds (ram at_invntt) (gp at_invntt RSI) qdata.
Proof. split; [apply sample_enters; [vm_compute; reflexivity|cbn [In]; tauto]|]. split; vm_compute; reflexivity. Qed.
Lemma enters_reduce : enters sample_loc reduce_avx2_ 1234 [poly RDI; consts RSI] at_reduce /\
  holds (ram at_reduce) (gp at_reduce RDI) extreme_poly /\ holds (ram at_reduce) (gp at_reduce RSI) qdata.
Proof. split; [apply sample_enters; [vm_compute; reflexivity|cbn [In]; tauto]|]. split; vm_compute; reflexivity. Qed.
Lemma holds_bytes_check m a b : forallb (fun i => match m (a + Z.of_nat i) with Some v => v =? nth i b 0 | None => false end) (seq 0 (length b)) = true ->
  holds_bytes m a b.
Proof.
  intros H i Hi. rewrite forallb_forall in H. specialize (H (Z.to_nat i)). rewrite Z2Nat.id in H by lia. unfold zlen in Hi.
  assert (K : In (Z.to_nat i) (seq 0 (length b))) by (apply in_seq; lia). apply H in K. unfold at_.
  destruct (m (a + i)) as [v|]; [|discriminate]. apply Z.eqb_eq in K. now rewrite K.
Qed.
Lemma enters_tobytes : enters sample_loc ntttobytes_avx2_ 1234 [byte_array RDI; poly RSI; consts RDX] at_tobytes /\
  holds_bytes (ram at_tobytes) (gp at_tobytes RDI) (repeat 9 384) /\
  holds (ram at_tobytes) (gp at_tobytes RSI) (sample_poly 3) /\ holds (ram at_tobytes) (gp at_tobytes RDX) qdata.
Proof.
  split; [apply sample_enters; [vm_compute; reflexivity|cbn [In]; tauto]|].
  split; [apply holds_bytes_check; vm_compute; reflexivity|]. split; vm_compute; reflexivity.
Qed.
Lemma enters_frombytes : enters sample_loc nttfrombytes_avx2_ 1234 [poly RDI; byte_array RSI; consts RDX] at_frombytes /\
  holds (ram at_frombytes) (gp at_frombytes RDI) (sample_poly 3) /\
  holds_bytes (ram at_frombytes) (gp at_frombytes RSI) (repeat 201 384) /\ holds (ram at_frombytes) (gp at_frombytes RDX) qdata.
Proof.
  split; [apply sample_enters; [vm_compute; reflexivity|cbn [In]; tauto]|]. split; [vm_compute; reflexivity|].
  split; [apply holds_bytes_check; vm_compute; reflexivity|vm_compute; reflexivity].
Qed.
Lemma enters_basemul : enters sample_loc basemul_avx2_ 1234 [poly RDI; poly RSI; poly RDX; consts RCX] at_basemul /\
  holds (ram at_basemul) (gp at_basemul RDI) (sample_poly 3) /\ holds (ram at_basemul) (gp at_basemul RSI) (sample_poly 5) /\
  holds (ram at_basemul) (gp at_basemul RDX) extreme_poly /\ holds (ram at_basemul) (gp at_basemul RCX) qdata.
Proof.
  split; [apply sample_enters; [vm_compute; reflexivity|cbn [In]; tauto]|].
  split; [vm_compute; reflexivity|]. split; [vm_compute; reflexivity|]. split; vm_compute; reflexivity.
Qed.
