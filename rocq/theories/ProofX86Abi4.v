(** * The routines of the x86_64 backend against FIPS 203, called from C *)

From Coq Require Import ZArith List Bool Lia.
From Verif Require Import CSem ModelArith ModelAvx2 ModelX86 ModelX86Asm ModelX86Poly ModelX86Abi Spec202 Spec203 SpecLink SpecX86
  SpecX86Frame SpecX86Abi CSemFacts ProofX86 ProofX86Frame ProofX86Word ProofX86Poly ProofX86Abi ProofX86Abi2 ProofX86Abi3.
Import ListNotations.
Open Scope Z_scope.
Ltac Zify.zify_post_hook ::= idtac.

(** ** One execution *)

Lemma step_fun loc s a b : placed loc -> step loc s a -> step loc s b -> a = b.
Proof.
  intros P [l k i s1 s2 N E X] Y. inversion Y as [l' k' i' s1' s2' N' E' X']; subst.
  assert (K : (k < length (code l))%nat) by (apply nth_error_Some; congruence).
  assert (K' : (k' < length (code l'))%nat) by (apply nth_error_Some; congruence).
  rewrite E in E'. destruct (P l k K) as (_ & Q). destruct (Q l' k' K' E') as (-> & ->). congruence.
Qed.
Lemma no_step loc s t : (forall l k, (k < length (code l))%nat -> loc l k <> rip s) -> ~ step loc s t.
Proof.
  intros H X. destruct X as [l k i s1 s2 N E X]. apply (H l k); [apply nth_error_Some; congruence|congruence].
Qed.
Lemma runs_unique loc s s' : placed loc -> (forall l k, (k < length (code l))%nat -> loc l k <> rip s') ->
  runs loc s s' -> forall t, runs loc s t -> runs loc t s'.
Proof.
  intros P H R. induction R as [s|s a u X R IH]; intros t Rt.
  - inversion Rt as [|x b y Y _]; subst; [constructor|]. exfalso. exact (no_step _ _ _ H Y).
  - inversion Rt as [|x b y Y R']; subst; [econstructor; eauto|]. rewrite (step_fun _ _ _ _ P X Y) in *. auto.
Qed.
Lemma only_execution loc l ra bufs s s' out n : placed loc -> enters loc l ra bufs s -> runs loc s s' -> returned ra out n s s' ->
  forall t, runs loc s t -> runs loc t s'.
Proof.
  intros P H R (E & _) t Rt. apply (runs_unique loc s s' P); auto. rewrite E. exact (caller_elsewhere _ _ _ _ _ H).
Qed.

(** ** Words and byte arrays *)

Lemma holds_words16 m a b : holds_bytes m a b -> forall n, zlen b = 2 * n -> holds m a (words16 b).
Proof.
  intros H n L. apply get_words_iff. intros j Hj.
  assert (Lw : zlen (words16 b) = n) by now apply zlen_words16.
  assert (E : nth j (words16 b) 0 = zget 0 (words16 b) (Z.of_nat j)) by (unfold zget; now rewrite Nat2Z.id).
  unfold zlen in Lw. rewrite E, (zget_words16 b n) by (auto; lia). unfold get16.
  replace (a + 2 * Z.of_nat j + 1) with (a + (2 * Z.of_nat j + 1)) by lia. rewrite !H by lia. reflexivity.
Qed.
Lemma holds_unwords m a w : byte_ok m -> holds m a w -> holds_bytes m a (unwords w).
Proof.
  intros B H. apply get_words_iff in H. intros i Hi.
  assert (L : length (unwords w) = (2 * length w)%nat) by apply length_word_bytes.
  unfold zlen in Hi. rewrite L in Hi.
  set (j := Z.to_nat (i / 2)).
  pose proof (Z.div_mod i 2 ltac:(lia)) as D. pose proof (Z.mod_pos_bound i 2 ltac:(lia)). pose proof (Z.div_pos i 2 ltac:(lia) ltac:(lia)).
  assert (Hj : (j < length w)%nat) by (unfold j; lia).
  specialize (H j Hj). pose proof (nth_word_bytes w j Hj) as (N1 & N2). unfold get16 in H.
  change (flat_map (fun x => [x mod 256; x / 256 mod 256]) w) with (unwords w) in N1, N2.
  destruct (m (a + 2 * Z.of_nat j)) as [lo|] eqn:E0; [|discriminate]. cbn [obind] in H.
  destruct (m (a + 2 * Z.of_nat j + 1)) as [hi|] eqn:E1; [|discriminate]. cbn [obind] in H. assert (H' : s16 (lo + 256 * hi) = nth j w 0) by congruence.
  destruct (B _ _ E0) as (_ & B0). destruct (B _ _ E1) as (_ & B1). rewrite <- H' in N1, N2.
  assert (U : s16 (lo + 256 * hi) mod 256 = lo /\ s16 (lo + 256 * hi) / 256 mod 256 = hi).
  { assert (C : s16 (lo + 256 * hi) = lo + 256 * hi \/ s16 (lo + 256 * hi) = lo + 256 * (hi - 256)).
    { unfold s16. destruct (Z_lt_ge_dec (lo + 256 * hi) 32768).
      - left. rewrite Z.mod_small by lia. lia.
      - right. replace (lo + 256 * hi + 32768) with (lo + 256 * hi - 32768 + 1 * 65536) by lia. rewrite Z.mod_add by lia. rewrite Z.mod_small by lia. lia. }
    destruct C as [-> | ->]; rewrite (Z.mul_comm 256), Z.mod_add, Z.div_add, (Z.div_small lo 256), Z.add_0_l by lia; rewrite (Z.mod_small lo) by lia.
    - now rewrite Z.mod_small by lia.
    - split; [reflexivity|]. replace (hi - 256) with (hi + (-1) * 256) by lia. rewrite Z.mod_add by lia. now apply Z.mod_small. }
  destruct U as (U1 & U2). rewrite U1 in N1. rewrite U2 in N2.
  assert (At : forall k v, nth_error (unwords w) k = Some v -> at_ (unwords w) (Z.of_nat k) = v).
  { intros k v Nk. unfold at_. rewrite Nat2Z.id. now apply nth_error_nth. }
  assert (C : i mod 2 = 0 \/ i mod 2 = 1) by lia. destruct C as [C|C].
  - replace i with (Z.of_nat (2 * j)) by (unfold j; lia). rewrite (At _ _ N1), <- E0. f_equal. lia.
  - replace i with (Z.of_nat (2 * j + 1)) by (unfold j; lia). rewrite (At _ _ N2), <- E1. f_equal. lia.
Qed.

Lemma bind_inv {A B} (m : M A) (f : A -> M B) b : val (bind m f) = Ok b -> exists a, val m = Ok a /\ val (f a) = Ok b.
Proof.
  unfold val, bind. destruct m as [[a|r|] t]; try discriminate. destruct (f a) as [o t'] eqn:E. cbn. intros ->. exists a. now rewrite E.
Qed.
Ltac inv_binds H :=
  repeat match type of H with
  | val (bind _ _) = Ok _ => let a := fresh "a" in let E := fresh "E" in apply bind_inv in H; destruct H as (a & E & H)
  end.

(** ** Routines *)

Lemma implements_ntt : implements ntt_avx2_ ntt_avx2. Proof. now apply leaf. Qed.
Lemma implements_invntt : implements invntt_avx2_ invntt_avx2. Proof. now apply leaf. Qed.
Lemma implements_nttpack : implements nttpack_avx2_ nttpack_avx2. Proof. now apply leaf. Qed.
Lemma implements_nttunpack : implements nttunpack_avx2_ nttunpack_avx2.
Proof. now apply (caller _ _ nttunpack128_avx2_ [] [add_imm 256 rdi] nttunpack128_avx2). Qed.
Lemma implements_reduce : implements reduce_avx2_ reduce_avx2.
Proof. now apply (caller _ _ reduce128_avx2_ [vmovdqa_ld rsi (XQ*2) 0; vmovdqa_ld rsi (XV*2) 1] [add_imm 256 rdi] reduce128_avx2). Qed.
Lemma implements_tomont : implements tomont_avx2_ tomont_avx2.
Proof.
  now apply (caller _ _ tomont128_avx2_ [vmovdqa_ld rsi (XQ*2) 0; vmovdqa_ld rsi (XMONTSQLO*2) 1; vmovdqa_ld rsi (XMONTSQHI*2) 2]
               [add_imm 256 rdi] tomont128_avx2).
Qed.
Lemma implements_tobytes : implements ntttobytes_avx2_ ntttobytes_avx2.
Proof. now apply (caller _ _ ntttobytes128_avx_ [vmovdqa_ld rdx (XQ*2) 0] [add_imm 256 rsi; add_imm 192 rdi] ntttobytes128_avx). Qed.
Lemma implements_frombytes : implements nttfrombytes_avx2_ nttfrombytes_avx2.
Proof. now apply (caller _ _ nttfrombytes128_avx_ [vmovdqa_ld rdx (XMASK*2) 0] [add_imm 256 rdi; add_imm 192 rsi] nttfrombytes128_avx). Qed.

Lemma routine_tobytes : In (ntttobytes_avx2, [Out 192; In_ 256; Table]) routines.
Proof. apply (nth_error_In routines 6). reflexivity. Qed.
Lemma sound_tobytes : sound_accesses (al_of [byte_array RDI; poly RSI; consts RDX]) args ntttobytes_avx2 = true.
Proof. vm_compute. reflexivity. Qed.
Lemma routine_frombytes : In (nttfrombytes_avx2, [Out 256; In_ 192; Table]) routines.
Proof. apply (nth_error_In routines 7). reflexivity. Qed.
Lemma sound_frombytes : sound_accesses (al_of [poly RDI; byte_array RSI; consts RDX]) args nttfrombytes_avx2 = true.
Proof. vm_compute. reflexivity. Qed.
Lemma routine_ntt : In (ntt_avx2, [Out 256; Table]) routines.
Proof. apply (nth_error_In routines 0). reflexivity. Qed.
Lemma sound_ntt : sound_accesses (al_of [poly RDI; consts RSI]) args ntt_avx2 = true.
Proof. vm_compute. reflexivity. Qed.
Lemma routine_invntt : In (invntt_avx2, [Out 256; Table]) routines.
Proof. apply (nth_error_In routines 1). reflexivity. Qed.
Lemma sound_invntt : sound_accesses (al_of [poly RDI; consts RSI]) args invntt_avx2 = true.
Proof. vm_compute. reflexivity. Qed.
Lemma routine_nttpack : In (nttpack_avx2, [Out 256; Table]) routines.
Proof. apply (nth_error_In routines 2). reflexivity. Qed.
Lemma sound_nttpack : sound_accesses (al_of [poly RDI; consts RSI]) args nttpack_avx2 = true.
Proof. vm_compute. reflexivity. Qed.
Lemma routine_nttunpack : In (nttunpack_avx2, [Out 256; Table]) routines.
Proof. apply (nth_error_In routines 3). reflexivity. Qed.
Lemma sound_nttunpack : sound_accesses (al_of [poly RDI; consts RSI]) args nttunpack_avx2 = true.
Proof. vm_compute. reflexivity. Qed.
Lemma routine_reduce : In (reduce_avx2, [Out 256; Table]) routines.
Proof. apply (nth_error_In routines 4). reflexivity. Qed.
Lemma sound_reduce : sound_accesses (al_of [poly RDI; consts RSI]) args reduce_avx2 = true.
Proof. vm_compute. reflexivity. Qed.
Lemma routine_tomont : In (tomont_avx2, [Out 256; Table]) routines.
Proof. apply (nth_error_In routines 5). reflexivity. Qed.
Lemma sound_tomont : sound_accesses (al_of [poly RDI; consts RSI]) args tomont_avx2 = true.
Proof. vm_compute. reflexivity. Qed.

Lemma int16_at f : zlen f = 256 -> Forall int16 f -> forall i, 0 <= i < 256 -> - 2 ^ 15 <= at_ f i < 2 ^ 15.
Proof. intros L F i Hi. rewrite Forall_forall in F. apply (F (at_ f i)). unfold at_. apply nth_In. unfold zlen in L. lia. Qed.
Lemma at_int16 f n : zlen f = n -> (forall i, 0 <= i < n -> - 2 ^ 15 <= at_ f i < 2 ^ 15) -> Forall int16 f.
Proof.
  intros L F. apply Forall_forall. intros x Hx. apply (In_nth _ _ 0) in Hx. destruct Hx as (j & Hj & <-).
  unfold zlen in L. specialize (F (Z.of_nat j) ltac:(lia)). unfold at_ in F. now rewrite Nat2Z.id in F.
Qed.

Definition call_ok (loc : placement) (ra out n : Z) (s s' : cpu) : Prop :=
  leads_to loc s s' /\ returned ra out n s s'.

(** In place: rdi points to a polynomial, rsi to the constants *)
Lemma in_place l p loc ra s f : implements l p -> In (p, [Out 256; Table]) routines ->
  sound_accesses (al_of [poly RDI; consts RSI]) args p = true ->
  placed loc -> enters loc l ra [poly RDI; consts RSI] s -> zlen f = 256 -> holds (ram s) (gp s RDI) f -> holds (ram s) (gp s RSI) qdata ->
  exists J s' r, call_ok loc ra (gp s RDI) 512 s s' /\ val (call_rdi J p [f; qdata]) = Ok r /\ holds (ram s') (gp s RDI) r.
Proof.
  intros I HI A P H L Hf Hq.
  destruct (call_routine loc l ra s p 256 [Table] [f; qdata] P I HI) as (J & s' & r & R & Re & V & Hr).
  - repeat constructor.
  - cbn [length]. lia.
  - exact A.
  - exact H.
  - constructor; [split; [exact L|exact (holds_int16 _ _ _ Hf)]|]. constructor; [reflexivity|constructor].
  - cbn [length firstn arg_regs]. auto.
  - exists J, s', r. split; [|auto]. split; [|exact Re]. split; [exact R|]. eapply only_execution; eauto.
Qed.

Lemma abi_ntt loc ra s f : placed loc -> enters loc ntt_avx2_ ra [poly RDI; consts RSI] s ->
  zlen f = 256 -> holds (ram s) (gp s RDI) f -> holds (ram s) (gp s RSI) qdata ->
  (forall i, 0 <= i < 256 -> Z.abs (at_ f i) < q) ->
  exists s' r, call_ok loc ra (gp s RDI) 512 s s' /\ holds (ram s') (gp s RDI) r /\ zlen r = 256 /\
    (forall i, 0 <= i < 256 -> Z.abs (at_ r i) < 8 * q) /\
    (forall i, 0 <= i < 256 -> at_ (fips_order r) i mod q = at_ (NTT f) i).
Proof.
  intros P H L Hf Hq B.
  destruct (in_place ntt_avx2_ ntt_avx2 loc ra s f implements_ntt routine_ntt sound_ntt P H L Hf Hq) as (J & s' & r & C & V & Hr).
  destruct (ntt_x86_correct J f L B) as (r' & V' & G). unfold poly_ntt_x86_64 in V'. inv_binds V'.
  cbn in V'. injection V' as <-. rewrite V in E0. injection E0 as <-. exists s', r. auto.
Qed.
Lemma abi_invntt loc ra s f : placed loc -> enters loc invntt_avx2_ ra [poly RDI; consts RSI] s ->
  zlen f = 256 -> holds (ram s) (gp s RDI) f -> holds (ram s) (gp s RSI) qdata ->
  exists s' r, call_ok loc ra (gp s RDI) 512 s s' /\ holds (ram s') (gp s RDI) r /\ zlen r = 256 /\
    (forall i, 0 <= i < 256 -> Z.abs (at_ r i) < 8 * q) /\
    (forall i, 0 <= i < 256 -> at_ r i mod q = (2 ^ 16 * at_ (NTT_inv (fips_order f)) i) mod q).
Proof.
  intros P H L Hf Hq.
  destruct (in_place invntt_avx2_ invntt_avx2 loc ra s f implements_invntt routine_invntt sound_invntt P H L Hf Hq) as (J & s' & r & C & V & Hr).
  destruct (invntt_x86_correct J f L (int16_at f L (holds_int16 _ _ _ Hf))) as (r' & V' & G). unfold poly_invntt_tomont_x86_64 in V'. inv_binds V'.
  cbn in V'. injection V' as <-. rewrite V in E. injection E as <-. exists s', r. auto.
Qed.
Lemma abi_reduce loc ra s f : placed loc -> enters loc reduce_avx2_ ra [poly RDI; consts RSI] s ->
  zlen f = 256 -> holds (ram s) (gp s RDI) f -> holds (ram s) (gp s RSI) qdata ->
  exists s', call_ok loc ra (gp s RDI) 512 s s' /\ holds (ram s') (gp s RDI) (map (fun x => x mod q) f).
Proof.
  intros P H L Hf Hq.
  destruct (in_place reduce_avx2_ reduce_avx2 loc ra s f implements_reduce routine_reduce sound_reduce P H L Hf Hq) as (J & s' & r & C & V & Hr).
  pose proof (reduce_x86_correct J f L (int16_at f L (holds_int16 _ _ _ Hf))) as V'. unfold poly_reduce_x86_64 in V'. inv_binds V'.
  rewrite V in E. injection E as <-. injection V' as <-. exists s'. auto.
Qed.
Lemma abi_tomont loc ra s f : placed loc -> enters loc tomont_avx2_ ra [poly RDI; consts RSI] s ->
  zlen f = 256 -> holds (ram s) (gp s RDI) f -> holds (ram s) (gp s RSI) qdata ->
  exists s' r, call_ok loc ra (gp s RDI) 512 s s' /\ holds (ram s') (gp s RDI) r /\ zlen r = 256 /\
    (forall i, 0 <= i < 256 -> Z.abs (at_ r i) < q) /\
    (forall i, 0 <= i < 256 -> at_ r i mod q = (2 ^ 16 * at_ f i) mod q).
Proof.
  intros P H L Hf Hq.
  destruct (in_place tomont_avx2_ tomont_avx2 loc ra s f implements_tomont routine_tomont sound_tomont P H L Hf Hq) as (J & s' & r & C & V & Hr).
  destruct (tomont_x86_correct J f L (int16_at f L (holds_int16 _ _ _ Hf))) as (r' & V' & G). unfold poly_tomont_x86_64 in V'. inv_binds V'.
  cbn in V'. injection V' as <-. rewrite V in E. injection E as <-. exists s', r. auto.
Qed.
Lemma abi_nttunpack loc ra s f : placed loc -> enters loc nttunpack_avx2_ ra [poly RDI; consts RSI] s ->
  zlen f = 256 -> holds (ram s) (gp s RDI) f -> holds (ram s) (gp s RSI) qdata ->
  exists s' r, call_ok loc ra (gp s RDI) 512 s s' /\ holds (ram s') (gp s RDI) r /\ zlen r = 256 /\ fips_order r = f.
Proof.
  intros P H L Hf Hq.
  destruct (in_place nttunpack_avx2_ nttunpack_avx2 loc ra s f implements_nttunpack routine_nttunpack sound_nttunpack P H L Hf Hq) as (J & s' & r & C & V & Hr).
  destruct (unpack_x86_correct J f L) as (r' & V' & G). unfold poly_permute_bitrev_to_custom in V'.
  rewrite V in V'. injection V' as <-. exists s', r. auto.
Qed.
Lemma abi_nttpack loc ra s f : placed loc -> enters loc nttpack_avx2_ ra [poly RDI; consts RSI] s ->
  zlen f = 256 -> holds (ram s) (gp s RDI) f -> holds (ram s) (gp s RSI) qdata ->
  exists s', call_ok loc ra (gp s RDI) 512 s s'.
Proof.
  intros P H L Hf Hq.
  destruct (in_place nttpack_avx2_ nttpack_avx2 loc ra s f implements_nttpack routine_nttpack sound_nttpack P H L Hf Hq) as (J & s' & r & C & V & Hr).
  exists s'. auto.
Qed.

Lemma abi_tobytes loc ra s r0 a : placed loc -> enters loc ntttobytes_avx2_ ra [byte_array RDI; poly RSI; consts RDX] s ->
  zlen r0 = 384 -> holds_bytes (ram s) (gp s RDI) r0 -> holds (ram s) (gp s RSI) a -> holds (ram s) (gp s RDX) qdata -> reduced a ->
  exists s', call_ok loc ra (gp s RDI) 384 s s' /\ holds_bytes (ram s') (gp s RDI) (ByteEncode 12 (fips_order a)).
Proof.
  intros P H L Hr0 Ha Hq Ra. pose proof (holds_words16 _ _ _ Hr0 192 L) as Hw. destruct Ra as [La Ra].
  destruct (call_routine loc ntttobytes_avx2_ ra s ntttobytes_avx2 192 [In_ 256; Table] [words16 r0; a; qdata] P implements_tobytes routine_tobytes) as (J & s' & r & R & Re & V & Hr).
  - repeat constructor.
  - cbn [length]. lia.
  - exact sound_tobytes.
  - exact H.
  - constructor; [split; [now apply zlen_words16|exact (holds_int16 _ _ _ Hw)]|].
    constructor; [split; [exact La|exact (holds_int16 _ _ _ Ha)]|]. constructor; [reflexivity|constructor].
  - cbn [length firstn arg_regs]. auto.
  - exists s'. split; [split; [split; [exact R|eapply only_execution; eauto]|exact Re]|].
    pose proof (tobytes_x86_correct J r0 a L (conj La Ra)) as V'. unfold poly_tobytes_x86_64 in V'. inv_binds V'.
    rewrite V in E0. injection E0 as <-. injection V' as <-. apply holds_unwords; [|exact Hr].
    eapply runs_byte; [exact R|]. exact (byte_memory _ _ _ _ _ H).
Qed.
Lemma abi_frombytes loc ra s r0 b : placed loc -> enters loc nttfrombytes_avx2_ ra [poly RDI; byte_array RSI; consts RDX] s ->
  zlen r0 = 256 -> zlen b = 384 -> holds (ram s) (gp s RDI) r0 -> holds_bytes (ram s) (gp s RSI) b -> holds (ram s) (gp s RDX) qdata ->
  exists s' r, call_ok loc ra (gp s RDI) 512 s s' /\ holds (ram s') (gp s RDI) r /\ zlen r = 256 /\ fips_order r = fields 12 b.
Proof.
  intros P H L Lb Hr0 Hb Hq. pose proof (holds_words16 _ _ _ Hb 192 Lb) as Hw.
  assert (Bb : bytes b).
  { apply Forall_forall. intros x Hx. apply (In_nth _ _ 0) in Hx. destruct Hx as (j & Hj & <-).
    unfold zlen in Lb. specialize (Hb (Z.of_nat j) ltac:(unfold zlen; lia)). unfold at_ in Hb. rewrite Nat2Z.id in Hb.
    now apply (byte_memory _ _ _ _ _ H) in Hb. }
  destruct (call_routine loc nttfrombytes_avx2_ ra s nttfrombytes_avx2 256 [In_ 192; Table] [r0; words16 b; qdata] P implements_frombytes routine_frombytes) as (J & s' & r & R & Re & V & Hr).
  - repeat constructor.
  - cbn [length]. lia.
  - exact sound_frombytes.
  - exact H.
  - constructor; [split; [exact L|exact (holds_int16 _ _ _ Hr0)]|].
    constructor; [split; [now apply zlen_words16|exact (holds_int16 _ _ _ Hw)]|]. constructor; [reflexivity|constructor].
  - cbn [length firstn arg_regs]. auto.
  - destruct (frombytes_x86_correct J r0 b L Lb Bb) as (r' & V' & G). unfold poly_frombytes_x86_64 in V'.
    rewrite V in V'. injection V' as <-.
    exists s', r. split; [split; [split; [exact R|eapply only_execution; eauto]|exact Re]|]. auto.
Qed.
Lemma abi_basemul loc ra s r0 a b : placed loc -> enters loc basemul_avx2_ ra [poly RDI; poly RSI; poly RDX; consts RCX] s ->
  zlen r0 = 256 -> zlen a = 256 -> zlen b = 256 ->
  holds (ram s) (gp s RDI) r0 -> holds (ram s) (gp s RSI) a -> holds (ram s) (gp s RDX) b -> holds (ram s) (gp s RCX) qdata ->
  (forall i, 0 <= i < 256 -> Z.abs (at_ a i) < q) ->
  exists s' r, call_ok loc ra (gp s RDI) 512 s s' /\ holds (ram s') (gp s RDI) r /\ zlen r = 256 /\
    (forall i, 0 <= i < 256 -> Z.abs (at_ r i) < 2 * q) /\
    (forall i, 0 <= i < 256 -> (2 ^ 16 * at_ (fips_order r) i) mod q = at_ (MultiplyNTTs (fips_order a) (fips_order b)) i).
Proof.
  intros P H L La Lb Hr Ha Hb Hq Ba.
  destruct (call_basemul_abi loc ra s [r0; a; b; qdata] P H) as (J & s' & r & R & Re & V & Hr').
  - repeat constructor; auto; eapply holds_int16; eauto.
  - unfold arg_regs. auto.
  - destruct (basemul_x86_correct J r0 a b L La Lb Ba (int16_at b Lb (holds_int16 _ _ _ Hb))) as (r' & V' & G).
    unfold poly_basemul_montgomery_avx2 in V'. cbn [app] in V. rewrite V in V'. injection V' as <-.
    exists s', r. split; [split; [split; [exact R|eapply only_execution; eauto]|exact Re]|]. auto.
Qed.
