(** * Checking the AArch64 Keccak routines block by block *)

From Coq Require Import ZArith NArith Nnat List Bool Lia.
From Verif Require Import CSem ModelArith ModelKeccak Spec202 CSemFacts ProofBits ProofKeccakF ProofX86Keccak.
From Verif Require Import ModelA64Keccak ProofA64KeccakSym.
Import ListNotations.
Open Scope Z_scope.
Ltac Zify.zify_post_hook ::= idtac.

(** ** The round of FIPS 202 on symbolic words *)

Definition sround (rc0 : sw) (l : list sw) : list sw :=
  match l with
  | [Aba; Abe; Abi; Abo; Abu; Aga; Age; Agi; Ago; Agu; Aka; Ake; Aki; Ako; Aku; Ama; Ame; Ami; Amo; Amu; Asa; Ase; Asi; Aso; Asu] =>
    let BCa := (Op Xor (Op Xor (Op Xor (Op Xor Aba Aga) Aka) Ama) Asa) in
    let BCe := (Op Xor (Op Xor (Op Xor (Op Xor Abe Age) Ake) Ame) Ase) in
    let BCi := (Op Xor (Op Xor (Op Xor (Op Xor Abi Agi) Aki) Ami) Asi) in
    let BCo := (Op Xor (Op Xor (Op Xor (Op Xor Abo Ago) Ako) Amo) Aso) in
    let BCu := (Op Xor (Op Xor (Op Xor (Op Xor Abu Agu) Aku) Amu) Asu) in
    let Da := (Op Xor BCu (Ror BCe 63)) in
    let De := (Op Xor BCa (Ror BCi 63)) in
    let Di := (Op Xor BCe (Ror BCo 63)) in
    let Do := (Op Xor BCi (Ror BCu 63)) in
    let Du := (Op Xor BCo (Ror BCa 63)) in
    let Aba := (Op Xor Aba Da) in
    let BCa := Aba in
    let Age := (Op Xor Age De) in
    let BCe := (Ror Age 20) in
    let Aki := (Op Xor Aki Di) in
    let BCi := (Ror Aki 21) in
    let Amo := (Op Xor Amo Do) in
    let BCo := (Ror Amo 43) in
    let Asu := (Op Xor Asu Du) in
    let BCu := (Ror Asu 50) in
    let Eba := (Op Xor BCa (Op Bic BCi BCe)) in
    let Eba := (Op Xor Eba rc0) in
    let Ebe := (Op Xor BCe (Op Bic BCo BCi)) in
    let Ebi := (Op Xor BCi (Op Bic BCu BCo)) in
    let Ebo := (Op Xor BCo (Op Bic BCa BCu)) in
    let Ebu := (Op Xor BCu (Op Bic BCe BCa)) in
    let Abo := (Op Xor Abo Do) in
    let BCa := (Ror Abo 36) in
    let Agu := (Op Xor Agu Du) in
    let BCe := (Ror Agu 44) in
    let Aka := (Op Xor Aka Da) in
    let BCi := (Ror Aka 61) in
    let Ame := (Op Xor Ame De) in
    let BCo := (Ror Ame 19) in
    let Asi := (Op Xor Asi Di) in
    let BCu := (Ror Asi 3) in
    let Ega := (Op Xor BCa (Op Bic BCi BCe)) in
    let Ege := (Op Xor BCe (Op Bic BCo BCi)) in
    let Egi := (Op Xor BCi (Op Bic BCu BCo)) in
    let Ego := (Op Xor BCo (Op Bic BCa BCu)) in
    let Egu := (Op Xor BCu (Op Bic BCe BCa)) in
    let Abe := (Op Xor Abe De) in
    let BCa := (Ror Abe 63) in
    let Agi := (Op Xor Agi Di) in
    let BCe := (Ror Agi 58) in
    let Ako := (Op Xor Ako Do) in
    let BCi := (Ror Ako 39) in
    let Amu := (Op Xor Amu Du) in
    let BCo := (Ror Amu 56) in
    let Asa := (Op Xor Asa Da) in
    let BCu := (Ror Asa 46) in
    let Eka := (Op Xor BCa (Op Bic BCi BCe)) in
    let Eke := (Op Xor BCe (Op Bic BCo BCi)) in
    let Eki := (Op Xor BCi (Op Bic BCu BCo)) in
    let Eko := (Op Xor BCo (Op Bic BCa BCu)) in
    let Eku := (Op Xor BCu (Op Bic BCe BCa)) in
    let Abu := (Op Xor Abu Du) in
    let BCa := (Ror Abu 37) in
    let Aga := (Op Xor Aga Da) in
    let BCe := (Ror Aga 28) in
    let Ake := (Op Xor Ake De) in
    let BCi := (Ror Ake 54) in
    let Ami := (Op Xor Ami Di) in
    let BCo := (Ror Ami 49) in
    let Aso := (Op Xor Aso Do) in
    let BCu := (Ror Aso 8) in
    let Ema := (Op Xor BCa (Op Bic BCi BCe)) in
    let Eme := (Op Xor BCe (Op Bic BCo BCi)) in
    let Emi := (Op Xor BCi (Op Bic BCu BCo)) in
    let Emo := (Op Xor BCo (Op Bic BCa BCu)) in
    let Emu := (Op Xor BCu (Op Bic BCe BCa)) in
    let Abi := (Op Xor Abi Di) in
    let BCa := (Ror Abi 2) in
    let Ago := (Op Xor Ago Do) in
    let BCe := (Ror Ago 9) in
    let Aku := (Op Xor Aku Du) in
    let BCi := (Ror Aku 25) in
    let Ama := (Op Xor Ama Da) in
    let BCo := (Ror Ama 23) in
    let Ase := (Op Xor Ase De) in
    let BCu := (Ror Ase 62) in
    let Esa := (Op Xor BCa (Op Bic BCi BCe)) in
    let Ese := (Op Xor BCe (Op Bic BCo BCi)) in
    let Esi := (Op Xor BCi (Op Bic BCu BCo)) in
    let Eso := (Op Xor BCo (Op Bic BCa BCu)) in
    let Esu := (Op Xor BCu (Op Bic BCe BCa)) in
    [Eba; Ebe; Ebi; Ebo; Ebu; Ega; Ege; Egi; Ego; Egu; Eka; Eke; Eki; Eko; Eku; Ema; Eme; Emi; Emo; Emu; Esa; Ese; Esi; Eso; Esu]
  | _ => []
  end.

(** Rounds with the constants [rcs] *)
Fixpoint srounds (rcs : list sw) (l : list sw) : list sw :=
  match rcs with [] => l | rc :: rcs => srounds rcs (sround rc l) end.

(** ** Normal forms: exclusive ors of rotated leaves and of conjunctions *)

Inductive atom : Type := ALeaf (i : N) (r : Z) | AAnd (x y : nf)
with nf : Type := Nil | Cons (a : atom) (l : nf).

Fixpoint acmp (a b : atom) : comparison :=
  match a, b with
  | ALeaf i r, ALeaf j q => match N.compare i j with Eq => Z.compare r q | c => c end
  | ALeaf _ _, AAnd _ _ => Lt
  | AAnd _ _, ALeaf _ _ => Gt
  | AAnd x y, AAnd x' y' => match ncmp x x' with Eq => ncmp y y' | c => c end
  end
with ncmp (x y : nf) : comparison :=
  match x, y with
  | Nil, Nil => Eq
  | Nil, Cons _ _ => Lt
  | Cons _ _, Nil => Gt
  | Cons a x, Cons b y => match acmp a b with Eq => ncmp x y | c => c end
  end.

Fixpoint insert (a : atom) (l : nf) : nf :=
  match l with
  | Nil => Cons a Nil
  | Cons b l' => match acmp a b with Eq => l' | Lt => Cons a l | Gt => Cons b (insert a l') end
  end.
Fixpoint nxor (x y : nf) : nf :=
  match x with Nil => y | Cons a x => nxor x (insert a y) end.

Definition op_eqb (a b : word_op) : bool :=
  match a, b with Xor, Xor | Bic, Bic | Add, Add => true | _, _ => false end.
Fixpoint sweqb (a b : sw) : bool :=
  match a, b with
  | Leaf i, Leaf j => N.eqb i j
  | Num z, Num y => z =? y
  | Op o a b, Op o' a' b' => op_eqb o o' && sweqb a a' && sweqb b b'
  | Ror a n, Ror a' n' => (n =? n') && sweqb a a'
  | Shl a n, Shl a' n' => (n =? n') && sweqb a a'
  | Sri a b n, Sri a' b' n' => (n =? n') && sweqb a a' && sweqb b b'
  | Addi a n, Addi a' n' => (n =? n') && sweqb a a'
  | _, _ => false
  end.

(** The normal form of [x] rotated right by [r]. The two instructions add and sri, or shl and
    sri, of the same word make a rotation. *)
Fixpoint nfy (x : sw) (r : Z) : option nf :=
  match x with
  | Leaf i => Some (Cons (ALeaf i r) Nil)
  | Op Xor a b => x <-? nfy a r ;; y <-? nfy b r ;; Some (nxor x y)
  | Op Bic a b => x <-? nfy a r ;; y <-? nfy b r ;; Some (Cons (AAnd x y) Nil)
  | Ror a n => if (0 <? n) && (n <? 64) then nfy a ((r + n) mod 64) else None
  | Sri d a n =>
      if (0 <? n) && (n <? 64) &&
         match d with
         | Shl b k => (k =? 64 - n) && sweqb b a
         | Op Add b c => (n =? 63) && sweqb b a && sweqb c a
         | _ => false
         end
      then nfy a ((r + n) mod 64) else None
  | _ => None
  end.

Definition nfeq (x y : sw) : bool :=
  match nfy x 0, nfy y 0 with
  | Some a, Some b => match ncmp a b with Eq => true | _ => false end
  | _, _ => false
  end.
Fixpoint all2 {A B} (f : A -> B -> bool) (l : list A) (k : list B) : bool :=
  match l, k with
  | [], [] => true
  | x :: l, y :: k => f x y && all2 f l k
  | _, _ => false
  end.

(** ** Substitution *)

Fixpoint ssub (s : N -> sw) (x : sw) : sw :=
  match x with
  | Leaf i => s i
  | Num z => Num z
  | Op o a b => Op o (ssub s a) (ssub s b)
  | Ror a n => Ror (ssub s a) n
  | Shl a n => Shl (ssub s a) n
  | Sri d a n => Sri (ssub s d) (ssub s a) n
  | Addi a n => Addi (ssub s a) n
  end.

(** [x] is [y] with the leaves replaced. *)
Fixpoint eqsub (s : N -> sw) (x y : sw) {struct y} : bool :=
  match y with
  | Leaf i => sweqb x (s i)
  | Num z => match x with Num z' => z =? z' | _ => false end
  | Op o a b => match x with Op o' a' b' => op_eqb o o' && eqsub s a' a && eqsub s b' b | _ => false end
  | Ror a n => match x with Ror a' n' => (n =? n') && eqsub s a' a | _ => false end
  | Shl a n => match x with Shl a' n' => (n =? n') && eqsub s a' a | _ => false end
  | Sri a b n => match x with Sri a' b' n' => (n =? n') && eqsub s a' a && eqsub s b' b | _ => false end
  | Addi a n => match x with Addi a' n' => (n =? n') && eqsub s a' a | _ => false end
  end.

Definition xsub (s : N -> sw) (v : xval sw) : xval sw :=
  match v with Ptr a o => Ptr a o | Word x => Word (ssub s x) | Tok n => Tok n end.
Definition stsub (s : N -> sw) (st : state sw) : state sw :=
  State (map (xsub s) (xregs st)) (map (fun v => (ssub s (fst v), ssub s (snd v))) (vregs st))
        (map (map (xsub s)) (mem st)) (option_map (fun '(x, n) => (ssub s x, n)) (flags st)).

(** ** Abstraction of a state

    A leaf below 300 stands for the contents of a place: of a general-purpose register (below
    32), of a half of a vector register (from 32), of a cell of the state array (from 100) or
    of the stack (from 200). Leaves from 300 on have fixed values; 300 + j is the round constant
    j. Leaves 96 to 99 are not used. *)

Definition LX (r : nat) : N := N.of_nat r.
Definition LV (r lane : nat) : N := (32 + 2 * N.of_nat r + N.of_nat lane)%N.
Definition LM (i : nat) : N := (100 + N.of_nat i)%N.
Definition LS (i : nat) : N := (200 + N.of_nat i)%N.
Definition LC (j : nat) : N := (300 + N.of_nat j)%N.

Definition keep (x : sw) : bool :=
  match x with Num _ => true | Leaf i => (300 <=? i)%N | _ => false end.
Definition wabs (i : N) (x : sw) : sw := if keep x then x else Leaf i.
Definition xabs (i : N) (v : xval sw) : xval sw :=
  match v with Word x => Word (wabs i x) | v => v end.
Fixpoint mapi {A B} (f : nat -> A -> B) (n : nat) (l : list A) : list B :=
  match l with [] => [] | x :: l => f n x :: mapi f (S n) l end.
Definition abs (st : state sw) : state sw :=
  State (mapi (fun r => xabs (LX r)) 0 (xregs st))
        (mapi (fun r v => (wabs (LV r 0) (fst v), wabs (LV r 1) (snd v))) 0 (vregs st))
        (mapi (fun a l => match a with
                          | 0%nat => mapi (fun i => xabs (LS i)) 0 l
                          | 1%nat => mapi (fun i => xabs (LM i)) 0 l
                          | _ => l
                          end) 0 (mem st))
        (flags st).

Definition word_or (i : N) (v : option (xval sw)) : sw :=
  match v with Some (Word x) => x | _ => Leaf i end.
(** What is in the place of a leaf *)
Definition place (st : state sw) (i : N) : sw :=
  if (i <? 32)%N then word_or i (nth_error (xregs st) (N.to_nat i))
  else if (i <? 96)%N then
    match nth_error (vregs st) (N.to_nat ((i - 32) / 2)) with
    | Some v => word_or i (Some (Word (if N.even i then fst v else snd v)))
    | None => Leaf i
    end
  else if (i <? 100)%N then Leaf i
  else if (i <? 200)%N then word_or i (nth_error (nth 1 (mem st) []) (N.to_nat (i - 100)))
  else if (i <? 300)%N then word_or i (nth_error (nth 0 (mem st) []) (N.to_nat (i - 200)))
  else Leaf i.

(** The words that the abstraction keeps, other than those with a place, are constants. *)
Definition kept (v : xval sw) : bool := match v with Word x => keep x | _ => true end.
Definition abs_ok (st : state sw) : bool :=
  (length (xregs st) <=? 32)%nat && (length (vregs st) <=? 32)%nat &&
  match mem st with
  | stack :: cells :: rest =>
      (length stack <=? 100)%nat && (length cells <=? 100)%nat && forallb (forallb kept) rest
  | _ => false
  end &&
  match flags st with Some (x, _) => keep x | None => true end.

(** ** Checking a routine

    A group is the number of rounds done to one Keccak state and its lanes. *)

Definition group : Type := (nat * list sw)%type.

(** Leaves 96 .. stand for the constants of the rounds from [n] on. *)
Definition rename (n k : nat) (i : N) : sw :=
  if ((96 <=? i) && (i <? 96 + N.of_nat k))%N then Leaf (i + 204 + N.of_nat n) else Leaf i.
Definition unname (n k : nat) (i : N) : sw :=
  if ((LC n <=? i) && (i <? LC n + N.of_nat k))%N then Leaf (i - 204 - N.of_nat n) else Leaf i.
Definition fresh (k : nat) : list sw := map (fun i => Leaf (96 + N.of_nat i)) (seq 0 k).

(** What is known: the words of the third component are the lanes of the second after as many
    rounds as the first, with constants [fresh]. *)
Definition fact : Type := (nat * list sw * list sw)%type.

Definition use (k n : nat) (l x : list sw) (f : fact) : bool :=
  let '(k', l', x') := f in
  (k =? k')%nat && all2 sweqb l l' && all2 (eqsub (rename n k)) x x'.
(** [x] is [l] after [k] rounds with the constants from [n] on. *)
Definition check1 (known : list fact) (k n : nat) (l x : list sw) : option (list fact) :=
  if all2 (eqsub (rename n k)) l l && (length l =? 25)%nat then
    if existsb (use k n l x) known then Some known
    else
      let x' := map (ssub (unname n k)) x in
      if all2 (eqsub (rename n k)) x x' && all2 nfeq x' (srounds (fresh k) l)
      then Some ((k, l, x') :: known) else None
  else None.
Fixpoint check_groups (s : N -> sw) (known : list fact) (gs gs' : list group) : option (list fact) :=
  match gs, gs' with
  | [], [] => Some known
  | (n, l) :: gs, (n', l') :: gs' =>
      if (n <=? n')%nat && (n' <=? 24)%nat then
        known <-? check1 known (n' - n) n l (map (ssub s) l') ;;
        check_groups s known gs gs'
      else None
  | _, _ => None
  end.

Fixpoint drive (p : list block) (plan : list (list group)) (known : list fact) (pc : nat)
  (st : state sw) (gs : list group) : option (state sw * list address) :=
  match plan with
  | [] => None
  | gs' :: plan =>
      b <-? nth_error p pc ;;
      'r <-? exec_list symbolic (fst b) st ;;
      t <-? target symbolic (snd b) pc (fst r) ;;
      let st' := abs (fst r) in
      if abs_ok (fst r) then
        known <-? check_groups (place (fst r)) known gs gs' ;;
        match t, plan with
        | None, [] => Some (st', snd r)
        | Some pc, _ :: _ =>
            'q <-? drive p plan known pc st' gs' ;;
            Some (fst q, snd r ++ (code, Z.of_nat pc) :: snd q)
        | _, _ => None
        end
      else None
  end.

(** ** Soundness *)

Definition wfe (e : N -> Z) : Prop := forall i, wf64 (e i).

Lemma wf64_ldiff a b : wf64 a -> wf64 (Z.ldiff a b).
Proof.
  rewrite !wf64_bits. intros [Ha Ba]. split; [apply Z.ldiff_nonneg; lia|].
  intros z Hz. rewrite Z.ldiff_spec, Ba by auto. reflexivity.
Qed.
Lemma eval_wf e x : wfe e -> wf64 (eval e x).
Proof.
  intros W. induction x; cbn [eval d_op machine64]; auto using wf64_u64.
  all: try apply wf64_u64.
  destruct o; auto using wf64_lxor, wf64_ldiff, wf64_u64.
Qed.

Lemma eval_ssub e s x : eval e (ssub s x) = eval (fun i => eval e (s i)) x.
Proof. induction x; cbn [ssub eval]; auto; try now rewrite ?IHx, ?IHx1, ?IHx2. Qed.

Lemma op_eqb_eq a b : op_eqb a b = true -> a = b.
Proof. destruct a, b; auto; discriminate. Qed.
Lemma sweqb_eq a : forall b, sweqb a b = true -> a = b.
Proof.
  induction a; destruct b; cbn [sweqb]; intros H; try discriminate;
    rewrite ?andb_true_iff in H.
  - now apply N.eqb_eq in H as ->.
  - now apply Z.eqb_eq in H as ->.
  - destruct H as [[->%op_eqb_eq A] B]. now rewrite (IHa1 _ A), (IHa2 _ B).
  - destruct H as [->%Z.eqb_eq A]. now rewrite (IHa _ A).
  - destruct H as [->%Z.eqb_eq A]. now rewrite (IHa _ A).
  - destruct H as [[->%Z.eqb_eq A] B]. now rewrite (IHa1 _ A), (IHa2 _ B).
  - destruct H as [->%Z.eqb_eq A]. now rewrite (IHa _ A).
Qed.
Lemma eqsub_eq s y : forall x, eqsub s x y = true -> x = ssub s y.
Proof.
  induction y; intros x; cbn [eqsub ssub]; intros H; [now apply sweqb_eq in H|..];
    destruct x; try discriminate; rewrite ?andb_true_iff in H.
  - now apply Z.eqb_eq in H as ->.
  - destruct H as [[<-%op_eqb_eq A] B]. now rewrite (IHy1 _ A), (IHy2 _ B).
  - destruct H as [<-%Z.eqb_eq A]. now rewrite (IHy _ A).
  - destruct H as [<-%Z.eqb_eq A]. now rewrite (IHy _ A).
  - destruct H as [[<-%Z.eqb_eq A] B]. now rewrite (IHy1 _ A), (IHy2 _ B).
  - destruct H as [<-%Z.eqb_eq A]. now rewrite (IHy _ A).
Qed.
Lemma all2_Forall2 {A B} (f : A -> B -> bool) l : forall k,
  all2 f l k = true -> Forall2 (fun x y => f x y = true) l k.
Proof.
  induction l as [|x l IH]; intros [|y k]; cbn; intros H; try discriminate; [constructor|].
  apply andb_true_iff in H as [H1 H2]. constructor; auto.
Qed.
Lemma all2_sweqb l k : all2 sweqb l k = true -> l = k.
Proof. intros H%all2_Forall2. induction H as [|x y l k E _ IH]; auto. now rewrite (sweqb_eq _ _ E), IH. Qed.
Lemma all2_eqsub s l k : all2 (eqsub s) l k = true -> l = map (ssub s) k.
Proof. intros H%all2_Forall2. induction H as [|x y l k E _ IH]; auto. cbn. now rewrite (eqsub_eq _ _ _ E), IH. Qed.

(** *** Normal forms *)

Scheme atom_nf_ind := Induction for atom Sort Prop with nf_atom_ind := Induction for nf Sort Prop.
Combined Scheme atom_nf_mutind from atom_nf_ind, nf_atom_ind.

Lemma cmp_eq : (forall a b, acmp a b = Eq -> a = b) /\ (forall x y, ncmp x y = Eq -> x = y).
Proof.
  apply atom_nf_mutind.
  - intros i r [j q|]; cbn [acmp]; [|discriminate].
    destruct (N.compare_spec i j) as [->| |]; try discriminate.
    now intros ->%Z.compare_eq.
  - intros x IHx y IHy [|x' y']; cbn [acmp]; [discriminate|].
    destruct (ncmp x x') eqn:E; try discriminate. intros F. now rewrite (IHx _ E), (IHy _ F).
  - intros [|]; [auto|discriminate].
  - intros a IHa x IHx [|b y]; cbn [ncmp]; [discriminate|].
    destruct (acmp a b) eqn:E; try discriminate. intros F. now rewrite (IHa _ E), (IHx _ F).
Qed.

(** Rotation right by [r], 0 <= r < 64 *)
Definition rot (x r : Z) : Z := if r =? 0 then x else ror64 x r.

Fixpoint aev (e : N -> Z) (a : atom) : Z :=
  match a with ALeaf i r => rot (e i) r | AAnd x y => Z.ldiff (nev e x) (nev e y) end
with nev (e : N -> Z) (l : nf) : Z :=
  match l with Nil => 0 | Cons a l => Z.lxor (aev e a) (nev e l) end.

Lemma nev_insert e a l : nev e (insert a l) = Z.lxor (aev e a) (nev e l).
Proof.
  induction l as [|b l IH]; cbn [insert]; [reflexivity|].
  destruct (acmp a b) eqn:E; cbn [nev].
  - apply (proj1 cmp_eq) in E as ->. now rewrite <- Z.lxor_assoc, Z.lxor_nilpotent, Z.lxor_0_l.
  - reflexivity.
  - rewrite IH, <- !Z.lxor_assoc. now rewrite (Z.lxor_comm (aev e b)).
Qed.
Lemma nev_nxor e x : forall y, nev e (nxor x y) = Z.lxor (nev e x) (nev e y).
Proof.
  induction x as [|a x IH]; intros y; cbn [nxor nev]; [now rewrite Z.lxor_0_l|].
  rewrite IH, nev_insert, <- !Z.lxor_assoc. now rewrite (Z.lxor_comm (nev e x)).
Qed.

Lemma ror64_bit x n z : wf64 x -> 0 < n < 64 -> 0 <= z < 64 ->
  Z.testbit (ror64 x n) z = Z.testbit x ((z + n) mod 64).
Proof.
  intros [_ B]%wf64_bits Hn Hz. unfold ror64. rewrite testbit_u64 by auto.
  rewrite Z.lor_spec, Z.shiftr_spec, Z.shiftl_spec by lia.
  destruct (Z.lt_ge_cases (z + n) 64).
  - rewrite (Z.testbit_neg_r x (z - (64 - n))) by lia. rewrite orb_false_r, Z.mod_small by lia. reflexivity.
  - rewrite (B (z + n)) by lia. cbn [orb]. f_equal.
    replace (z + n) with (z + n - 64 + 1 * 64) by lia. rewrite Z.mod_add by lia.
    rewrite Z.mod_small by lia. lia.
Qed.
Lemma rot_bit x r z : wf64 x -> 0 <= r < 64 -> 0 <= z < 64 ->
  Z.testbit (rot x r) z = Z.testbit x ((z + r) mod 64).
Proof.
  intros W Hr Hz. unfold rot. destruct (Z.eqb_spec r 0) as [->|]; [|apply ror64_bit; auto; lia].
  rewrite Z.add_0_r, Z.mod_small by lia. reflexivity.
Qed.
Lemma rot_wf x r : wf64 x -> wf64 (rot x r).
Proof. intros W. unfold rot. destruct (r =? 0); auto. apply wf64_u64. Qed.

Lemma rot_rot x r n : wf64 x -> 0 <= r < 64 -> 0 < n < 64 -> rot x ((r + n) mod 64) = rot (ror64 x n) r.
Proof.
  intros W Hr Hn. pose proof (Z.mod_pos_bound (r + n) 64 ltac:(lia)).
  apply wf64_ext; [now apply rot_wf|apply rot_wf, wf64_u64|].
  intros z Hz. rewrite rot_bit by auto. rewrite rot_bit by (auto; apply wf64_u64).
  rewrite ror64_bit by (auto; apply Z.mod_pos_bound; lia).
  f_equal. rewrite Z.add_mod_idemp_l, Z.add_mod_idemp_r by lia. f_equal. lia.
Qed.
Lemma rot_lxor x y r : wf64 x -> wf64 y -> 0 <= r < 64 -> rot (Z.lxor x y) r = Z.lxor (rot x r) (rot y r).
Proof.
  intros Wx Wy Hr.
  apply wf64_ext; [apply rot_wf; now apply wf64_lxor|apply wf64_lxor; now apply rot_wf|].
  intros z Hz. rewrite Z.lxor_spec, !rot_bit by (auto using wf64_lxor). now rewrite Z.lxor_spec.
Qed.
Lemma rot_ldiff x y r : wf64 x -> wf64 y -> 0 <= r < 64 -> rot (Z.ldiff x y) r = Z.ldiff (rot x r) (rot y r).
Proof.
  intros Wx Wy Hr.
  apply wf64_ext; [apply rot_wf; now apply wf64_ldiff|apply wf64_ldiff; now apply rot_wf|].
  intros z Hz. rewrite Z.ldiff_spec, !rot_bit by (auto using wf64_ldiff). now rewrite Z.ldiff_spec.
Qed.

Lemma sri_shl x n : wf64 x -> 0 < n < 64 -> sri64 (u64 (Z.shiftl x (64 - n))) x n = ror64 x n.
Proof.
  intros W Hn. apply wf64_ext; [apply wf64_u64..|].
  intros z Hz. unfold sri64, ror64. rewrite !testbit_u64 by auto. rewrite !Z.lor_spec, orb_comm. f_equal.
  rewrite Z.shiftl_spec by lia. destruct (Z.lt_ge_cases z (64 - n)).
  - rewrite Z.shiftl_spec by lia. rewrite !Z.testbit_neg_r by lia. reflexivity.
  - rewrite Z.shiftr_spec by lia. rewrite testbit_u64 by lia. f_equal. lia.
Qed.
Lemma add_shl x : u64 (x + x) = u64 (Z.shiftl x 1).
Proof. rewrite Z.shiftl_mul_pow2 by lia. f_equal. lia. Qed.

Lemma nfy_ok e x : wfe e -> forall r l, 0 <= r < 64 -> nfy x r = Some l -> nev e l = rot (eval e x) r.
Proof.
  intros W.
  assert (M : forall r n, 0 <= (r + n) mod 64 < 64) by (intros; apply Z.mod_pos_bound; lia).
  induction x; intros r l Hr H; cbn [nfy] in H; try discriminate.
  - inversion H; subst. cbn [nev aev]. now rewrite Z.lxor_0_r.
  - destruct o; try discriminate; cbn [eval d_op machine64].
    + destruct (nfy x1 r) eqn:E1; [|discriminate]. destruct (nfy x2 r) eqn:E2; [|discriminate].
      cbn [obind] in H. inversion H; subst.
      rewrite nev_nxor, (IHx1 _ _ Hr E1), (IHx2 _ _ Hr E2). symmetry.
      apply rot_lxor; auto; now apply eval_wf.
    + destruct (nfy x1 r) eqn:E1; [|discriminate]. destruct (nfy x2 r) eqn:E2; [|discriminate].
      cbn [obind] in H. inversion H; subst. cbn [nev aev].
      rewrite (IHx1 _ _ Hr E1), (IHx2 _ _ Hr E2), Z.lxor_0_r. symmetry.
      apply rot_ldiff; auto; now apply eval_wf.
  - destruct ((0 <? n) && (n <? 64)) eqn:B; [|discriminate]. cbn [eval].
    rewrite andb_true_iff, !Z.ltb_lt in B.
    rewrite <- rot_rot by (auto; try lia; now apply eval_wf). auto.
  - destruct ((0 <? n) && (n <? 64)) eqn:B; [|discriminate]. cbn [andb] in H.
    rewrite andb_true_iff, !Z.ltb_lt in B. cbn [eval].
    assert (E : sri64 (eval e x1) (eval e x2) n = ror64 (eval e x2) n).
    { destruct x1; try discriminate; try (destruct o; discriminate).
      - destruct o; try discriminate.
        destruct ((n =? 63) && sweqb x1_1 x2 && sweqb x1_2 x2) eqn:C; [|discriminate].
        rewrite !andb_true_iff in C. destruct C as [[->%Z.eqb_eq ->%sweqb_eq] ->%sweqb_eq].
        cbn [eval d_op machine64]. rewrite add_shl. apply sri_shl; [now apply eval_wf|lia].
      - destruct ((n0 =? 64 - n) && sweqb x1 x2) eqn:C; [|discriminate].
        rewrite !andb_true_iff in C. destruct C as [->%Z.eqb_eq ->%sweqb_eq].
        cbn [eval]. apply sri_shl; [now apply eval_wf|lia]. }
    rewrite E, <- rot_rot by (auto; try lia; now apply eval_wf).
    match type of H with (if ?b then _ else _) = _ => destruct b; [|discriminate] end. auto.
Qed.

Lemma nfeq_ok e x y : wfe e -> nfeq x y = true -> eval e x = eval e y.
Proof.
  intros W. unfold nfeq. destruct (nfy x 0) eqn:E1; [|discriminate]. destruct (nfy y 0) eqn:E2; [|discriminate].
  destruct (ncmp _ _) eqn:C; try discriminate. intros _. apply (proj2 cmp_eq) in C as ->.
  apply (nfy_ok e) in E1, E2; auto; try lia. cbn in E1, E2. congruence.
Qed.

(** *** Rounds *)

Section Round.
Variables (e : N -> Z) (W : wfe e).

Lemma E_xor a b x y : eval e a = x -> eval e b = y -> eval e (Op Xor a b) = x .^ y.
Proof. now intros <- <-. Qed.
Lemma E_bic a b x y : eval e a = x -> eval e b = y -> eval e (Op Bic a b) = not64 y .& x.
Proof.
  intros <- <-. cbn [eval d_op machine64].
  apply wf64_ext; [apply wf64_ldiff; now apply eval_wf|apply wf64_land; now apply eval_wf|].
  intros z Hz. unfold not64. rewrite Z.land_spec, testbit_u64, Z.lnot_spec, Z.ldiff_spec by lia.
  apply andb_comm.
Qed.
Lemma E_rol a x n m : eval e a = x -> 0 < n < 64 -> m = 64 - n -> eval e (Ror a m) = ROL x n.
Proof.
  intros <- Hn ->. cbn [eval].
  apply wf64_ext; [apply wf64_u64|apply wf64_ROL; [lia|now apply eval_wf]|].
  intros z Hz. rewrite ror64_bit by (auto; try lia; now apply eval_wf).
  rewrite testbit_ROL by (auto; now apply eval_wf). f_equal.
  replace (z + (64 - n)) with (z - n + 1 * 64) by lia. apply Z.mod_add. lia.
Qed.

Lemma sround_ok rc l A : map (eval e) l = lane_list A ->
  map (eval e) (sround rc l) = lane_list (one_round (eval e rc) A).
Proof.
  intros H. repeat (destruct A as [A ?]). cbn [lane_list] in H.
  do 25 (destruct l as [|? l]; [discriminate|]). destruct l; [|discriminate].
  cbn [map] in H. injection H; clear H; intros.
  unfold one_round, sround. cbn [lane_list map].
  repeat match goal with |- _ :: _ = _ :: _ => apply f_equal2 end; [..|reflexivity];
    repeat first [ eassumption | reflexivity | apply E_xor | apply E_bic | eapply E_rol; [|lia|reflexivity] ].
Qed.
End Round.

Definition consts_from (n k : nat) : list sw := map (fun j => Leaf (LC j)) (seq n k).

(** The leaves of the round constants *)
Definition rce (e : N -> Z) : Prop := forall j, (j < 24)%nat -> e (LC j) = rc_of j.

Lemma srounds_ok e : wfe e -> rce e -> forall k n l B, (n + k <= 24)%nat ->
  map (eval e) l = lane_list (rounds n B) ->
  map (eval e) (srounds (consts_from n k) l) = lane_list (rounds (n + k) B).
Proof.
  intros W R. induction k as [|k IH]; intros n l B Hn H; cbn [consts_from seq map srounds].
  - now rewrite Nat.add_0_r.
  - replace (n + S k)%nat with (S n + k)%nat by lia. apply IH; [lia|].
    rewrite (sround_ok e W _ _ _ H), rounds_S. cbn [eval]. rewrite R by lia. reflexivity.
Qed.

Lemma sround_sub s rc l : map (ssub s) (sround rc l) = sround (ssub s rc) (map (ssub s) l).
Proof.
  do 25 (destruct l as [|? l]; [reflexivity|]). destruct l; reflexivity.
Qed.
Lemma srounds_sub s rcs : forall l, map (ssub s) (srounds rcs l) = srounds (map (ssub s) rcs) (map (ssub s) l).
Proof. induction rcs as [|rc rcs IH]; intros l; cbn [srounds map]; auto. now rewrite IH, sround_sub. Qed.

Lemma rename_fresh n k : map (ssub (rename n k)) (fresh k) = consts_from n k.
Proof.
  unfold fresh, consts_from. rewrite map_map.
  assert (G : forall j m, (m + j <= k)%nat ->
    map (fun i => ssub (rename n k) (Leaf (96 + N.of_nat i))) (seq m j) =
    map (fun i => Leaf (LC i)) (seq (n + m) j)).
  { induction j as [|j IH]; intros m' Hm; cbn [seq map]; auto.
    rewrite IH by lia. rewrite <- Nat.add_succ_r. f_equal. cbn [ssub]. unfold rename.
    destruct (_ && _)%N eqn:B.
    - f_equal. unfold LC. lia.
    - apply andb_false_iff in B. rewrite N.leb_gt, N.ltb_ge in B. lia. }
  rewrite (G k 0%nat) by lia. now rewrite Nat.add_0_r.
Qed.

Definition fact_ok (f : fact) : Prop :=
  let '(k, l, x) := f in
  forall e, wfe e -> map (eval e) x = map (eval e) (srounds (fresh k) l).

Lemma map_eval_sub e s l : map (eval e) (map (ssub s) l) = map (eval (fun i => eval e (s i))) l.
Proof. rewrite map_map. apply map_ext. intros. apply eval_ssub. Qed.

Lemma renamed k n l x x' : (forall e, wfe e -> map (eval e) x' = map (eval e) (srounds (fresh k) l)) ->
  x = map (ssub (rename n k)) x' -> l = map (ssub (rename n k)) l ->
  forall e, wfe e -> map (eval e) x = map (eval e) (srounds (consts_from n k) l).
Proof.
  intros F -> El e We. rewrite map_eval_sub, F by (intros i; now apply eval_wf).
  rewrite <- map_eval_sub, srounds_sub, rename_fresh, <- El. reflexivity.
Qed.

Lemma all2_nfeq e l k : wfe e -> all2 nfeq l k = true -> map (eval e) l = map (eval e) k.
Proof.
  intros We H%all2_Forall2. induction H as [|a b la lb E _ IH]; auto. cbn [map].
  now rewrite (nfeq_ok e a b), IH.
Qed.

Lemma check1_ok known k n l x known' :
  check1 known k n l x = Some known' -> Forall fact_ok known ->
  Forall fact_ok known' /\
  forall e, wfe e -> map (eval e) x = map (eval e) (srounds (consts_from n k) l).
Proof.
  unfold check1. intros H F.
  destruct (all2 _ l l && _) eqn:C; [|discriminate]. apply andb_true_iff in C as [El%all2_eqsub _].
  destruct (existsb _ known) eqn:X.
  - inversion H; subst known'. split; auto.
    apply existsb_exists in X as ([[k' l'] x'] & In & U). cbn [use] in U.
    rewrite !andb_true_iff in U. destruct U as [[->%Nat.eqb_eq ->%all2_sweqb] Ex%all2_eqsub].
    rewrite Forall_forall in F. apply F in In. cbn [fact_ok] in In.
    apply (renamed _ _ _ _ x'); auto.
  - destruct (_ && _) eqn:C; [|discriminate]. apply andb_true_iff in C as [Ex%all2_eqsub Nf].
    inversion H; subst known'.
    assert (K : forall e, wfe e -> map (eval e) (map (ssub (unname n k)) x) = map (eval e) (srounds (fresh k) l)).
    { intros e We. now apply all2_nfeq. }
    split; [constructor; auto|]. now apply (renamed _ _ _ _ (map (ssub (unname n k)) x)).
Qed.

Definition group_ok (e : N -> Z) (g : group) (B : lanes) : Prop :=
  map (eval e) (snd g) = lane_list (rounds (fst g) B).

Lemma check_groups_ok s gs : forall known gs' known',
  check_groups s known gs gs' = Some known' -> Forall fact_ok known ->
  Forall fact_ok known' /\
  forall e Bs, wfe e -> rce e -> Forall2 (group_ok e) gs Bs ->
    Forall2 (group_ok (fun i => eval e (s i))) gs' Bs.
Proof.
  induction gs as [|[n l] gs IH]; intros known [|[n' l'] gs'] known' H F; cbn [check_groups] in H; try discriminate.
  - inversion H; subst. split; auto. intros e Bs _ _ G. inversion G. constructor.
  - destruct (_ && _)%nat eqn:B; [|discriminate]. apply andb_true_iff in B as [B1%Nat.leb_le B2%Nat.leb_le].
    destruct (check1 _ _ _ _ _) as [k1|] eqn:C; [|discriminate]. cbn [obind] in H.
    destruct (check1_ok _ _ _ _ _ _ C F) as [F1 E1].
    destruct (IH _ _ _ H F1) as [F2 E2]. split; auto.
    intros e Bs We Re G. inversion G as [|? B1' ? Bs' G1 G2]; subst.
    constructor; [|now apply E2]. unfold group_ok in *. cbn [fst snd] in *.
    rewrite <- map_eval_sub, E1 by auto.
    rewrite (srounds_ok e We Re _ _ _ B1'); auto; [|lia]. now replace (n + (n' - n))%nat with n' by lia.
Qed.

(** *** Abstraction *)

Lemma smap_stsub e t s st : smap e t (stsub s st) = smap (fun i => eval e (s i)) t st.
Proof.
  assert (X : forall v, xmap e t (xsub s v) = xmap (fun i => eval e (s i)) t v).
  { intros [a o|x|n]; cbn; auto. now rewrite eval_ssub. }
  unfold smap, stsub. cbn [xregs vregs mem flags]. f_equal.
  - rewrite map_map. apply map_ext. exact X.
  - rewrite map_map. apply map_ext. intros v. unfold vmap. cbn [fst snd]. now rewrite !eval_ssub.
  - rewrite map_map. apply map_ext. intros l. rewrite map_map. apply map_ext. exact X.
  - destruct (flags st) as [[x n]|]; cbn; auto. now rewrite eval_ssub.
Qed.

Lemma place_fixed st i : (300 <= i)%N -> place st i = Leaf i.
Proof.
  intros H. unfold place. 
  repeat match goal with |- context [(i <? ?n)%N] => destruct (N.ltb_spec i n); [lia|] end. reflexivity.
Qed.
Lemma keep_sub st x : keep x = true -> ssub (place st) x = x.
Proof.
  destruct x; cbn [keep ssub]; try discriminate; auto. intros H%N.leb_le. now apply place_fixed.
Qed.
Lemma wabs_sub st i x : place st i = x -> ssub (place st) (wabs i x) = x.
Proof.
  intros H. unfold wabs. destruct (keep x) eqn:K; [now apply keep_sub|exact H].
Qed.
Lemma xabs_sub st i v : (forall x, v = Word x -> place st i = x) -> xsub (place st) (xabs i v) = v.
Proof. destruct v as [a o|x|n]; cbn [xabs xsub]; auto. intros H. now rewrite (wabs_sub _ _ x) by auto. Qed.

Lemma map_mapi_id {A} (f : nat -> A -> A) (g : A -> A) l : forall n,
  (forall i x, nth_error l i = Some x -> g (f (n + i)%nat x) = x) -> map g (mapi f n l) = l.
Proof.
  induction l as [|y l IH]; intros n H; cbn [mapi map]; auto. f_equal.
  - specialize (H 0%nat y eq_refl). now rewrite Nat.add_0_r in H.
  - apply IH. intros i x Hi. specialize (H (S i) x Hi). now rewrite Nat.add_succ_r in H.
Qed.

Lemma nth_error_lt {A} (l : list A) i x n : nth_error l i = Some x -> (length l <= n)%nat -> (i < n)%nat.
Proof. intros H L. assert (nth_error l i <> None) by congruence. apply nth_error_Some in H0. lia. Qed.

Lemma abs_sub st : abs_ok st = true -> stsub (place st) (abs st) = st.
Proof.
  unfold abs_ok. rewrite !andb_true_iff, !Nat.leb_le. intros [[[Lx Lv] Hm] Hf].
  destruct st as [xs vs ms fl]. unfold abs, stsub. cbn [xregs vregs mem flags] in *.
  destruct ms as [|stack [|cells rest]]; try discriminate.
  rewrite !andb_true_iff, !Nat.leb_le in Hm. destruct Hm as [[Ls Lc] Hr].
  set (st := State xs vs (stack :: cells :: rest) fl).
  symmetry. unfold st at 1. symmetry. f_equal.
  - apply map_mapi_id. intros i v Hi. pose proof (nth_error_lt _ _ _ _ Hi Lx).
    apply xabs_sub. intros x ->. unfold place, LX. cbn [Nat.add].
    destruct (N.ltb_spec (N.of_nat i) 32); [|lia]. rewrite Nat2N.id. cbn [xregs st]. now rewrite Hi.
  - apply map_mapi_id. intros i [a b] Hi. pose proof (nth_error_lt _ _ _ _ Hi Lv). cbn [Nat.add fst snd].
    assert (P : forall j, (j < 2)%nat -> place st (LV i j) = if (j =? 0)%nat then a else b).
    { intros j Hj. unfold place, LV.
      destruct (N.ltb_spec (32 + 2 * N.of_nat i + N.of_nat j) 32); [lia|].
      destruct (N.ltb_spec (32 + 2 * N.of_nat i + N.of_nat j) 96); [|lia].
      replace ((32 + 2 * N.of_nat i + N.of_nat j - 32) / 2)%N with (N.of_nat i).
      2:{ replace (32 + 2 * N.of_nat i + N.of_nat j - 32)%N with (N.of_nat j + N.of_nat i * 2)%N by lia.
          rewrite N.div_add by lia. rewrite N.div_small by lia. lia. }
      rewrite Nat2N.id. cbn [vregs st]. rewrite Hi. cbn [fst snd word_or].
      replace (32 + 2 * N.of_nat i + N.of_nat j)%N with (N.of_nat j + 2 * (16 + N.of_nat i))%N by lia.
      rewrite N.even_add_mul_2. destruct j as [|[|j]]; [reflexivity|reflexivity|lia]. }
    rewrite (wabs_sub st _ a), (wabs_sub st _ b); auto; now rewrite P by lia.
  - cbn [mapi map]. f_equal; [|f_equal].
    + apply map_mapi_id. intros i v Hi. pose proof (nth_error_lt _ _ _ _ Hi Ls).
      apply xabs_sub. intros x ->. unfold place, LS. cbn [Nat.add].
      destruct (N.ltb_spec (200 + N.of_nat i) 32); [lia|].
      destruct (N.ltb_spec (200 + N.of_nat i) 96); [lia|].
      destruct (N.ltb_spec (200 + N.of_nat i) 100); [lia|].
      destruct (N.ltb_spec (200 + N.of_nat i) 200); [lia|].
      destruct (N.ltb_spec (200 + N.of_nat i) 300); [|lia].
      replace (200 + N.of_nat i - 200)%N with (N.of_nat i) by lia. rewrite Nat2N.id.
      cbn [mem st nth]. now rewrite Hi.
    + apply map_mapi_id. intros i v Hi. pose proof (nth_error_lt _ _ _ _ Hi Lc).
      apply xabs_sub. intros x ->. unfold place, LM. cbn [Nat.add].
      destruct (N.ltb_spec (100 + N.of_nat i) 32); [lia|].
      destruct (N.ltb_spec (100 + N.of_nat i) 96); [lia|].
      destruct (N.ltb_spec (100 + N.of_nat i) 100); [lia|].
      destruct (N.ltb_spec (100 + N.of_nat i) 200); [|lia].
      replace (100 + N.of_nat i - 100)%N with (N.of_nat i) by lia. rewrite Nat2N.id.
      cbn [mem st nth]. now rewrite Hi.
    + assert (M : forall n, (2 <= n)%nat ->
        mapi (fun a l => match a with
                          | 0%nat => mapi (fun i => xabs (LS i)) 0 l
                          | 1%nat => mapi (fun i => xabs (LM i)) 0 l
                          | _ => l
                          end) n rest = rest).
      { clear. induction rest as [|l rest IH]; intros [|[|n]] Hn; try lia; cbn [mapi]; auto.
        f_equal. apply IH. lia. }
      rewrite M by lia. rewrite forallb_forall in Hr.
      rewrite <- (map_id rest) at 2. apply map_ext_in. intros l Il. apply Hr in Il.
      rewrite forallb_forall in Il. rewrite <- (map_id l) at 2. apply map_ext_in. intros v Iv.
      apply Il in Iv. destruct v as [a o|x|n]; cbn [xsub kept] in *; auto. now rewrite keep_sub.
  - destruct fl as [[x n]|]; cbn [option_map]; auto. now rewrite keep_sub.
Qed.

(** *** Running a routine *)

Lemma last_default {A} (l : list A) : forall x d d', last (x :: l) d = last (x :: l) d'.
Proof. induction l as [|y l IH]; intros x d d'; [reflexivity|]. exact (IH y d d'). Qed.

(** Whatever the values of the leaves *)
Lemma drive_runs p : forall plan known pc st gs st' tr,
  drive p plan known pc st gs = Some (st', tr) ->
  forall e t fuel, (length plan <= fuel)%nat ->
  exists e', (forall i, (300 <= i)%N -> e' i = e i) /\
    run machine64 fuel p pc (smap e t st) = Some (smap e' t st', tr).
Proof.
  induction plan as [|gs' plan IH]; intros known pc st gs st' tr H e t fuel Hf;
    cbn [drive] in H; [discriminate|].
  destruct fuel as [|fuel]; [cbn in Hf; lia|]. cbn [length] in Hf. cbn [run].
  destruct (nth_error p pc) as [[l j]|]; [|discriminate]. cbn [obind fst snd] in *.
  destruct (exec_list symbolic l st) as [[s1 t1]|] eqn:Ex; [|discriminate]. cbn [obind fst snd] in *.
  destruct (target symbolic j pc s1) as [tg|] eqn:Tg; [|discriminate]. cbn [obind] in H.
  rewrite (exec_list_smap e t _ _ _ _ Ex). cbn [obind fst snd].
  rewrite (target_smap e t _ _ _ _ Tg). cbn [obind].
  destruct (abs_ok s1) eqn:Ab; [|discriminate].
  destruct (check_groups _ _ _ _) as [known1|] eqn:Cg; [|discriminate]. cbn [obind] in H.
  set (e1 := fun i => eval e (place s1 i)) in *.
  assert (Fix : forall i, (300 <= i)%N -> e1 i = e i).
  { intros i Hi. unfold e1. now rewrite place_fixed. }
  assert (S1 : smap e t s1 = smap e1 t (abs s1)).
  { rewrite <- (abs_sub _ Ab) at 1. apply smap_stsub. }
  destruct tg as [pc'|].
  - destruct plan as [|g2 plan]; [discriminate|].
    destruct (drive p (g2 :: plan) known1 pc' (abs s1) gs') as [[s2 t2]|] eqn:Dr; [|discriminate].
    cbn [obind fst snd] in H. inversion H; subst.
    destruct (IH _ _ _ _ _ _ Dr e1 t fuel ltac:(lia)) as (e2 & Fix2 & R2).
    exists e2. split; [intros i Hi; now rewrite Fix2, Fix by auto|].
    rewrite S1, R2. reflexivity.
  - destruct plan; [|discriminate]. inversion H; subst. exists e1. rewrite S1. auto.
Qed.

Lemma drive_ok p : forall plan known pc st gs st' tr,
  drive p plan known pc st gs = Some (st', tr) -> Forall fact_ok known ->
  forall e t Bs fuel, wfe e -> rce e -> Forall2 (group_ok e) gs Bs -> (length plan <= fuel)%nat ->
  exists e', wfe e' /\ (forall i, (300 <= i)%N -> e' i = e i) /\
    run machine64 fuel p pc (smap e t st) = Some (smap e' t st', tr) /\
    Forall2 (group_ok e') (last plan gs) Bs.
Proof.
  induction plan as [|gs' plan IH]; intros known pc st gs st' tr H F e t Bs fuel We Re G Hf;
    cbn [drive] in H; [discriminate|].
  destruct fuel as [|fuel]; [cbn in Hf; lia|]. cbn [length] in Hf. cbn [run].
  destruct (nth_error p pc) as [[l j]|]; [|discriminate]. cbn [obind fst snd] in *.
  destruct (exec_list symbolic l st) as [[s1 t1]|] eqn:Ex; [|discriminate]. cbn [obind fst snd] in *.
  destruct (target symbolic j pc s1) as [tg|] eqn:Tg; [|discriminate]. cbn [obind] in H.
  rewrite (exec_list_smap e t _ _ _ _ Ex). cbn [obind fst snd].
  rewrite (target_smap e t _ _ _ _ Tg). cbn [obind].
  destruct (abs_ok s1) eqn:Ab; [|discriminate].
  destruct (check_groups _ _ _ _) as [known1|] eqn:Cg; [|discriminate]. cbn [obind] in H.
  destruct (check_groups_ok _ _ _ _ _ Cg F) as [F1 G1].
  set (e1 := fun i => eval e (place s1 i)) in *.
  assert (We1 : wfe e1) by (intros i; now apply eval_wf).
  assert (Fix : forall i, (300 <= i)%N -> e1 i = e i).
  { intros i Hi. unfold e1. now rewrite place_fixed. }
  assert (Re1 : rce e1). { intros k Hk. rewrite Fix by (unfold LC; lia). now apply Re. }
  assert (G' : Forall2 (group_ok e1) gs' Bs) by (now apply G1).
  assert (S1 : smap e t s1 = smap e1 t (abs s1)).
  { rewrite <- (abs_sub _ Ab) at 1. apply smap_stsub. }
  destruct tg as [pc'|].
  - destruct plan as [|g2 plan]; [discriminate|].
    destruct (drive p (g2 :: plan) known1 pc' (abs s1) gs') as [[s2 t2]|] eqn:Dr; [|discriminate].
    cbn [obind fst snd] in H. inversion H; subst.
    destruct (IH _ _ _ _ _ _ Dr F1 e1 t Bs fuel We1 Re1 G' ltac:(lia)) as (e2 & We2 & Fix2 & R2 & Gl).
    exists e2. split; [auto|]. split; [intros i Hi; now rewrite Fix2, Fix by auto|].
    rewrite S1, R2. split; [reflexivity|].
    change (last (gs' :: g2 :: plan) gs) with (last (g2 :: plan) gs). now rewrite (last_default _ _ gs gs').
  - destruct plan; [|discriminate]. inversion H; subst. exists e1. rewrite S1. auto.
Qed.
