(* Proofs about the builds: a preprocessor that may not know some macros,
   which gives the true result whenever it gives one, and a check of its
   output. *)
From Coq Require Import ZArith List PArith Bool FMapPositive Lia.
Import ListNotations.
Require Import Verif.ModelCppNames Verif.ModelCpp Verif.ModelSources Verif.ModelConfig.
Require Import Verif.SpecConfig Verif.SamplesConfig.
Open Scope Z_scope.

(** * Induction over the lines of a file *)
Section Induction.
Variable P : list line -> Prop.
Hypothesis Pnil : P [].
Hypothesis Pdefine : forall m b ls, P ls -> P (Define m b :: ls).
Hypothesis Pinclude : forall f ls, P ls -> P (Include f :: ls).
Hypothesis Pnamed : forall ls, P ls -> P (IncludeNamed :: ls).
Hypothesis Perror : forall ls, P ls -> P (Error :: ls).
Hypothesis Pitem : forall i ls, P ls -> P (Item i :: ls).
Hypothesis Pif : forall c yes no ls, P yes -> P no -> P ls -> P (If c yes no :: ls).

Fixpoint line_step (l : line) : forall ls, P ls -> P (l :: ls) :=
  let many :=
    fix many (ls : list line) : P ls :=
      match ls with
      | [] => Pnil
      | l :: r => line_step l r (many r)
      end in
  match l with
  | Define m b => Pdefine m b
  | Include f => Pinclude f
  | IncludeNamed => Pnamed
  | Error => Perror
  | Item i => Pitem i
  | If c yes no => fun ls H => Pif c yes no ls (many yes) (many no) H
  end.

Lemma lines_induction : forall ls, P ls.
Proof. induction ls as [|l ls IH]; [exact Pnil | apply line_step; exact IH]. Qed.
End Induction.

(** * Equations of the preprocessor *)
Section Facts.
Variable text : file -> list line.
Variable given : ident -> option body.

Lemma lines_nil : forall n s, lines text given n [] s = Done s.
Proof. destruct n; reflexivity. Qed.

Lemma lines_if : forall n c yes no ls s,
  lines text given n (If c yes no :: ls) s =
  match (if value given nesting s c =? 0 then lines text given n no s
         else lines text given n yes s) with
  | Done s => lines text given n ls s
  | r => r
  end.
Proof. destruct n; reflexivity. Qed.

Lemma lines_include : forall n f ls s,
  lines text given (S n) (Include f :: ls) s =
  match lines text given n (text f) s with
  | Done s => lines text given (S n) ls s
  | r => r
  end.
Proof. reflexivity. Qed.

Lemma lines_define : forall n m b ls s,
  lines text given n (Define m b :: ls) s =
  lines text given n ls (mkstate (PositiveMap.add (code m) b (macros s)) (out s)).
Proof. destruct n; reflexivity. Qed.

Lemma lines_item : forall n i ls s,
  lines text given n (Item i :: ls) s =
  lines text given n ls (emit s (translate given s i)).
Proof. destruct n; reflexivity. Qed.

Lemma lines_error : forall n ls s, lines text given n (Error :: ls) s = Stopped.
Proof. destruct n; reflexivity. Qed.

(** * The preprocessor with unknown macros *)
(* None: unknown *)
Variable known : ident -> option (option body).

Definition klookup (s : state) (m : ident) : option (option body) :=
  match PositiveMap.find (code m) (macros s) with
  | Some b => Some (Some b)
  | None => known m
  end.

Definition ktruth (b : bool) : option Z := Some (truth b).

Fixpoint kvalue (n : nat) (s : state) : expr -> option Z :=
  fix val (e : expr) : option Z :=
    match e with
    | Num z => Some z
    | Name m =>
        match klookup s m with
        | Some (Some (Expr b)) => match n with O => Some 0 | S n' => kvalue n' s b end
        | Some _ => Some 0
        | None => None
        end
    | Defined m =>
        match klookup s m with
        | Some (Some _) => Some 1
        | Some None => Some 0
        | None => None
        end
    | Not a => match val a with Some x => ktruth (x =? 0) | None => None end
    | And a b =>
        match val a with
        | Some x => if x =? 0 then Some 0
                    else match val b with
                         | Some y => ktruth (negb (y =? 0))
                         | None => None
                         end
        | None => match val b with
                  | Some y => if y =? 0 then Some 0 else None
                  | None => None
                  end
        end
    | Or a b =>
        match val a with
        | Some x => if x =? 0 then
                      match val b with
                      | Some y => ktruth (negb (y =? 0))
                      | None => None
                      end
                    else Some 1
        | None => None
        end
    | Eq a b =>
        match val a, val b with
        | Some x, Some y => ktruth (x =? y)
        | _, _ => None
        end
    | Ne a b =>
        match val a, val b with
        | Some x, Some y => ktruth (negb (x =? y))
        | _, _ => None
        end
    | Div a b =>
        match val a, val b with
        | Some x, Some y => Some (Z.quot x y)
        | _, _ => None
        end
    end.

Definition kpaste (s : state) (space x : ident) : option symbol :=
  match klookup s space with
  | Some (Some (Paste p)) => Some (Some p, x)
  | Some _ => Some (None, x)
  | None => None
  end.

Definition kexpand (s : state) (x : name) : option symbol :=
  match x with
  | Plain i =>
      match klookup s i with
      | Some (Some (Apply space y)) => kpaste s space y
      | Some _ => Some (None, i)
      | None => None
      end
  | Spaced space i => kpaste s space i
  end.

Definition ktranslate (s : state) (i : item) : option output :=
  match i with
  | Provide x => match kexpand s x with Some y => Some (Provides y) | None => None end
  | Local x => match kexpand s x with Some y => Some (Locals y) | None => None end
  | Use f x => match kexpand s x with Some y => Some (Uses f y) | None => None end
  | Bytes f => Some (ByBytes f)
  end.

(* None: a macro was needed that is not known; also for what never happens *)
Fixpoint klines (n : nat) : list line -> state -> option result :=
  let one :=
    fix one (l : line) (s : state) {struct l} : option result :=
      let many :=
        fix many (ls : list line) (s : state) {struct ls} : option result :=
          match ls with
          | [] => Some (Done s)
          | l :: ls =>
              match one l s with
              | Some (Done s) => many ls s
              | r => r
              end
          end in
      match l with
      | Define m b => Some (Done (mkstate (PositiveMap.add (code m) b (macros s)) (out s)))
      | Include f => match n with O => None | S n' => klines n' (text f) s end
      | IncludeNamed => None
      | Error => Some Stopped
      | Item i =>
          match ktranslate s i with
          | Some o => Some (Done (emit s o))
          | None => None
          end
      | If c yes no =>
          match kvalue nesting s c with
          | Some z => if z =? 0 then many no s else many yes s
          | None => None
          end
      end in
  fix many (ls : list line) (s : state) {struct ls} : option result :=
    match ls with
    | [] => Some (Done s)
    | l :: ls =>
        match one l s with
        | Some (Done s) => many ls s
        | r => r
        end
    end.

Hypothesis right : forall m x, known m = Some x -> given m = x.

Lemma klookup_right : forall s m x, klookup s m = Some x -> lookup given s m = x.
Proof.
  unfold klookup, lookup. intros s m x.
  destruct (PositiveMap.find _ _).
  - intros E; injection E as <-. reflexivity.
  - apply right.
Qed.

Lemma value_eq : forall n s e,
  value given n s e =
  match e with
  | Num z => z
  | Name m =>
      match lookup given s m with
      | Some (Expr b) => match n with O => 0 | S n' => value given n' s b end
      | _ => 0
      end
  | Defined m =>
      truth (match lookup given s m with Some _ => true | None => false end)
  | Not a => truth (value given n s a =? 0)
  | And a b => truth (negb (value given n s a =? 0) && negb (value given n s b =? 0))
  | Or a b => truth (negb (value given n s a =? 0) || negb (value given n s b =? 0))
  | Eq a b => truth (value given n s a =? value given n s b)
  | Ne a b => truth (negb (value given n s a =? value given n s b))
  | Div a b => Z.quot (value given n s a) (value given n s b)
  end.
Proof. destruct n, e; reflexivity. Qed.

Lemma kvalue_eq : forall n s e,
  kvalue n s e =
  match e with
  | Num z => Some z
  | Name m =>
      match klookup s m with
      | Some (Some (Expr b)) => match n with O => Some 0 | S n' => kvalue n' s b end
      | Some _ => Some 0
      | None => None
      end
  | Defined m =>
      match klookup s m with
      | Some (Some _) => Some 1
      | Some None => Some 0
      | None => None
      end
  | Not a => match kvalue n s a with Some x => ktruth (x =? 0) | None => None end
  | And a b =>
      match kvalue n s a with
      | Some x => if x =? 0 then Some 0
                  else match kvalue n s b with
                       | Some y => ktruth (negb (y =? 0))
                       | None => None
                       end
      | None => match kvalue n s b with
                | Some y => if y =? 0 then Some 0 else None
                | None => None
                end
      end
  | Or a b =>
      match kvalue n s a with
      | Some x => if x =? 0 then
                    match kvalue n s b with
                    | Some y => ktruth (negb (y =? 0))
                    | None => None
                    end
                  else Some 1
      | None => None
      end
  | Eq a b =>
      match kvalue n s a, kvalue n s b with
      | Some x, Some y => ktruth (x =? y)
      | _, _ => None
      end
  | Ne a b =>
      match kvalue n s a, kvalue n s b with
      | Some x, Some y => ktruth (negb (x =? y))
      | _, _ => None
      end
  | Div a b =>
      match kvalue n s a, kvalue n s b with
      | Some x, Some y => Some (Z.quot x y)
      | _, _ => None
      end
  end.
Proof. destruct n, e; reflexivity. Qed.

Lemma kvalue_right : forall n s e z, kvalue n s e = Some z -> value given n s e = z.
Proof.
  induction n as [n IHn] using (well_founded_induction Wf_nat.lt_wf); intros s e.
  induction e as [z|m|m|a IHa|a IHa b IHb|a IHa b IHb|a IHa b IHb|a IHa b IHb|a IHa b IHb];
    intros r E; rewrite kvalue_eq in E; rewrite value_eq.
  - injection E as <-. reflexivity.
  - destruct (klookup s m) as [o|] eqn:L; [|discriminate E].
    rewrite (klookup_right s m o L).
    destruct o as [[b| | |]|]; try (injection E as <-; reflexivity).
    destruct n as [|n]; [injection E as <-; reflexivity|].
    apply (IHn n (Nat.lt_succ_diag_r n)). exact E.
  - destruct (klookup s m) as [o|] eqn:L; [|discriminate E].
    rewrite (klookup_right s m o L).
    destruct o; injection E as <-; reflexivity.
  - destruct (kvalue n s a) as [x|]; [|discriminate E].
    rewrite (IHa x eq_refl). injection E as <-. reflexivity.
  - destruct (kvalue n s a) as [x|].
    + rewrite (IHa x eq_refl). destruct (x =? 0); [injection E as <-; reflexivity|].
      destruct (kvalue n s b) as [y|]; [|discriminate E].
      rewrite (IHb y eq_refl). injection E as <-. reflexivity.
    + destruct (kvalue n s b) as [y|]; [|discriminate E].
      rewrite (IHb y eq_refl). destruct (y =? 0); [|discriminate E].
      injection E as <-. rewrite andb_false_r. reflexivity.
  - destruct (kvalue n s a) as [x|]; [|discriminate E].
    rewrite (IHa x eq_refl). destruct (x =? 0); [|injection E as <-; reflexivity].
    destruct (kvalue n s b) as [y|]; [|discriminate E].
    rewrite (IHb y eq_refl). injection E as <-. reflexivity.
  - destruct (kvalue n s a) as [x|]; [|discriminate E].
    destruct (kvalue n s b) as [y|]; [|discriminate E].
    rewrite (IHa x eq_refl), (IHb y eq_refl). injection E as <-. reflexivity.
  - destruct (kvalue n s a) as [x|]; [|discriminate E].
    destruct (kvalue n s b) as [y|]; [|discriminate E].
    rewrite (IHa x eq_refl), (IHb y eq_refl). injection E as <-. reflexivity.
  - destruct (kvalue n s a) as [x|]; [|discriminate E].
    destruct (kvalue n s b) as [y|]; [|discriminate E].
    rewrite (IHa x eq_refl), (IHb y eq_refl). injection E as <-. reflexivity.
Qed.

Lemma kpaste_right : forall s a x y, kpaste s a x = Some y -> paste given s a x = y.
Proof.
  unfold kpaste, paste. intros s a x y E.
  destruct (klookup s a) as [o|] eqn:L; [|discriminate E].
  rewrite (klookup_right s a o L).
  destruct o as [[]|]; injection E as <-; reflexivity.
Qed.

Lemma kexpand_right : forall s x y, kexpand s x = Some y -> expand given s x = y.
Proof.
  intros s [i|a i] y E; simpl in E |- *.
  - destruct (klookup s i) as [o|] eqn:L; [|discriminate E].
    rewrite (klookup_right s i o L).
    destruct o as [[]|]; try (injection E as <-; reflexivity).
    apply kpaste_right. exact E.
  - apply kpaste_right. exact E.
Qed.

Lemma ktranslate_right : forall s i o, ktranslate s i = Some o -> translate given s i = o.
Proof.
  intros s [x|x|f x|f] o E; simpl in E |- *.
  4: injection E as <-; reflexivity.
  all: destruct (kexpand s x) as [y|] eqn:X; [|discriminate E];
    rewrite (kexpand_right s x y X); injection E as <-; reflexivity.
Qed.

Lemma klines_nil : forall n s, klines n [] s = Some (Done s).
Proof. destruct n; reflexivity. Qed.

Lemma klines_if : forall n c yes no ls s,
  klines n (If c yes no :: ls) s =
  match (match kvalue nesting s c with
         | Some z => if z =? 0 then klines n no s else klines n yes s
         | None => None
         end) with
  | Some (Done s) => klines n ls s
  | r => r
  end.
Proof. destruct n; reflexivity. Qed.

Lemma klines_include : forall n f ls s,
  klines (S n) (Include f :: ls) s =
  match klines n (text f) s with
  | Some (Done s) => klines (S n) ls s
  | r => r
  end.
Proof. reflexivity. Qed.

Lemma klines_define : forall n m b ls s,
  klines n (Define m b :: ls) s =
  klines n ls (mkstate (PositiveMap.add (code m) b (macros s)) (out s)).
Proof. destruct n; reflexivity. Qed.

Lemma klines_item : forall n i ls s,
  klines n (Item i :: ls) s =
  match ktranslate s i with
  | Some o => klines n ls (emit s o)
  | None => None
  end.
Proof. destruct n; intros; simpl; destruct (ktranslate s i); reflexivity. Qed.

Lemma klines_right : forall n ls s r,
  klines n ls s = Some r -> lines text given n ls s = r.
Proof.
  induction n as [|n IHn].
  all: apply (lines_induction (fun ls => forall s r,
    klines _ ls s = Some r -> lines text given _ ls s = r)).
  all: try (intros s r E; injection E as <-; reflexivity).
  all: try (intros m b ls IH s r E; rewrite lines_define; rewrite klines_define in E;
            apply IH; exact E).
  all: try (intros i ls IH s r E; rewrite lines_item; rewrite klines_item in E;
            destruct (ktranslate s i) as [o|] eqn:T; [|discriminate E];
            rewrite (ktranslate_right s i o T); apply IH; exact E).
  all: try (intros ls IH s r E; first [discriminate E | injection E as <-; reflexivity]).
  all: try (intros c yes no ls Iy In_ IH s r E; rewrite lines_if; rewrite klines_if in E;
            destruct (kvalue nesting s c) as [z|] eqn:V; [|discriminate E];
            rewrite (kvalue_right nesting s c z V);
            destruct (z =? 0);
            [ destruct (klines _ no s) as [q|] eqn:K; [|discriminate E];
              rewrite (In_ s q K)
            | destruct (klines _ yes s) as [q|] eqn:K; [|discriminate E];
              rewrite (Iy s q K) ];
            destruct q; try (injection E as <-; reflexivity); apply IH; exact E).
  - intros f ls IH s r E. discriminate E.
  - intros f ls IH s r E. rewrite lines_include. rewrite klines_include in E.
    destruct (klines n (text f) s) as [q|] eqn:K; [|discriminate E].
    rewrite (IHn (text f) s q K).
    destruct q; try (injection E as <-; reflexivity). apply IH. exact E.
Qed.
End Facts.

(** * Equality of names *)
Definition decode_map : PositiveMap.t ident :=
  Eval vm_compute in
    fold_right (fun i m => PositiveMap.add (code i) i m) (PositiveMap.empty ident)
      all_idents.

Definition decode (p : positive) : option ident := PositiveMap.find p decode_map.

Lemma decode_code : forall i, decode (code i) = Some i.
Proof. destruct i; vm_compute; reflexivity. Qed.

Lemma code_inj : forall i j, code i = code j -> i = j.
Proof.
  intros i j E. pose proof (decode_code i) as A. rewrite E, decode_code in A.
  injection A as A. symmetry. exact A.
Qed.

Definition ident_eqb (i j : ident) : bool := Pos.eqb (code i) (code j).

Lemma ident_eqb_eq : forall i j, ident_eqb i j = true <-> i = j.
Proof.
  unfold ident_eqb. intros i j. rewrite Pos.eqb_eq. split; [apply code_inj|].
  intros ->. reflexivity.
Qed.

Definition prefix_eqb (p q : prefix) : bool :=
  match p, q with
  | p_PQCP_MLKEM_NATIVE_FIPS202, p_PQCP_MLKEM_NATIVE_FIPS202
  | u_PQCP_MLKEM_NATIVE_FIPS202, u_PQCP_MLKEM_NATIVE_FIPS202
  | p_PQCP_MLKEM_NATIVE_MLKEM1024, p_PQCP_MLKEM_NATIVE_MLKEM1024
  | u_PQCP_MLKEM_NATIVE_MLKEM1024, u_PQCP_MLKEM_NATIVE_MLKEM1024
  | p_PQCP_MLKEM_NATIVE_MLKEM768, p_PQCP_MLKEM_NATIVE_MLKEM768
  | u_PQCP_MLKEM_NATIVE_MLKEM768, u_PQCP_MLKEM_NATIVE_MLKEM768
  | p_PQCP_MLKEM_NATIVE_MLKEM512, p_PQCP_MLKEM_NATIVE_MLKEM512
  | u_PQCP_MLKEM_NATIVE_MLKEM512, u_PQCP_MLKEM_NATIVE_MLKEM512 => true
  | _, _ => false
  end.

Lemma prefix_eqb_eq : forall p q, prefix_eqb p q = true <-> p = q.
Proof. intros p q. split; [destruct p, q; intros E; try reflexivity; discriminate E|].
  intros <-. destruct p; reflexivity. Qed.

Definition symbol_eqb (x y : symbol) : bool :=
  ident_eqb (snd x) (snd y) &&
  match fst x, fst y with
  | Some p, Some q => prefix_eqb p q
  | None, None => true
  | _, _ => false
  end.

Lemma symbol_eqb_eq : forall x y, symbol_eqb x y = true <-> x = y.
Proof.
  intros [p i] [q j]. unfold symbol_eqb; simpl. rewrite andb_true_iff, ident_eqb_eq.
  split.
  - intros [-> E]. destruct p as [p|], q as [q|]; try discriminate E; try reflexivity.
    apply prefix_eqb_eq in E. subst q. reflexivity.
  - intros E. injection E as -> ->. split; [reflexivity|].
    destruct q as [q|]; [apply prefix_eqb_eq; reflexivity | reflexivity].
Qed.

(** * Occurrences *)
Fixpoint collect {A} (pick : output -> option A) (l : list output) : list A :=
  match l with
  | [] => []
  | o :: l => match pick o with Some x => x :: collect pick l | None => collect pick l end
  end.

Definition provided (o : output) : option symbol :=
  match o with Provides x => Some x | _ => None end.
Definition localed (o : output) : option symbol :=
  match o with Locals x => Some x | _ => None end.
Definition used (o : output) : option (ident * symbol) :=
  match o with Uses f x => Some (f, x) | _ => None end.
Definition bytewise (o : output) : option ident :=
  match o with ByBytes f => Some f | _ => None end.

Lemma in_collect : forall A (pick : output -> option A) x l,
  In x (collect pick l) <-> exists o, In o l /\ pick o = Some x.
Proof.
  intros A pick x l. induction l as [|o l IH]; simpl.
  - split; [contradiction | intros (o & [] & _)].
  - destruct (pick o) as [y|] eqn:E; simpl; rewrite IH.
    + split.
      * intros [-> | (q & I & P)]; [exists o; auto | exists q; auto].
      * intros (q & [<- | I] & P); [left; congruence | right; exists q; auto].
    + split.
      * intros (q & I & P). exists q. auto.
      * intros (q & [<- | I] & P); [congruence | exists q; auto].
Qed.

Lemma in_provided : forall x l, In x (collect provided l) <-> In (Provides x) l.
Proof.
  intros x l. rewrite in_collect. split.
  - intros ([] & I & E); try discriminate E. injection E as <-. exact I.
  - intros I. exists (Provides x). auto.
Qed.

Lemma in_localed : forall x l, In x (collect localed l) <-> In (Locals x) l.
Proof.
  intros x l. rewrite in_collect. split.
  - intros ([] & I & E); try discriminate E. injection E as <-. exact I.
  - intros I. exists (Locals x). auto.
Qed.

Lemma in_used : forall g x l, In (g, x) (collect used l) <-> In (Uses g x) l.
Proof.
  intros g x l. rewrite in_collect. split.
  - intros ([] & I & E); try discriminate E. injection E as <- <-. exact I.
  - intros I. exists (Uses g x). auto.
Qed.

Lemma in_bytewise : forall g l, In g (collect bytewise l) <-> In (ByBytes g) l.
Proof.
  intros g l. rewrite in_collect. split.
  - intros ([] & I & E); try discriminate E. injection E as <-. exact I.
  - intros I. exists (ByBytes g). auto.
Qed.

Lemma once_collect : forall (make : symbol -> output) (pick : output -> option symbol),
  (forall x o, pick o = Some x <-> o = make x) ->
  forall l, NoDup (collect pick l) -> forall x, In (make x) l -> once (make x) l.
Proof.
  intros make pick PK. induction l as [|o l IH]; intros ND x I; [contradiction I|].
  simpl in ND. destruct (pick o) as [y|] eqn:E.
  - inversion ND as [|y' l' NI ND' [A B]]; subst.
    apply PK in E. subst o.
    assert (MI : forall z, In (make z) l -> In z (collect pick l)).
    { intros z Z. apply in_collect. exists (make z). split; [exact Z | apply PK; reflexivity]. }
    destruct I as [I|I].
    + assert (y = x).
      { assert (Q : pick (make y) = Some x) by (apply PK; exact I).
        assert (R : pick (make y) = Some y) by (apply PK; reflexivity). congruence. }
      subst y. exists [], l. split; [reflexivity|]. split; [intros []|].
      intros J. apply NI. apply MI. exact J.
    + destruct (IH ND' x I) as (a & b & -> & Na & Nb).
      exists (make y :: a), b. split; [reflexivity|]. split; [|exact Nb].
      intros [J|J]; [|exact (Na J)].
      apply NI. apply MI.
      assert (y = x).
      { assert (Q : pick (make y) = Some x) by (apply PK; exact J).
        assert (R : pick (make y) = Some y) by (apply PK; reflexivity). congruence. }
      subst y. apply in_or_app. right. left. reflexivity.
  - destruct I as [I|I].
    + assert (Q : pick o = Some x) by (apply PK; exact I). congruence.
    + destruct (IH ND x I) as (a & b & -> & Na & Nb).
      exists (o :: a), b. split; [reflexivity|]. split; [|exact Nb].
      intros [J|J]; [|exact (Na J)].
      assert (Q : pick o = Some x) by (apply PK; exact J). congruence.
Qed.

Definition mem (x : symbol) (l : list symbol) : bool := existsb (symbol_eqb x) l.

Lemma mem_in : forall x l, mem x l = true <-> In x l.
Proof.
  intros x l. unfold mem. rewrite existsb_exists. split.
  - intros (y & I & E). apply symbol_eqb_eq in E. subst y. exact I.
  - intros I. exists x. split; [exact I | apply symbol_eqb_eq; reflexivity].
Qed.

Fixpoint distinct (l : list symbol) : bool :=
  match l with
  | [] => true
  | x :: l => negb (mem x l) && distinct l
  end.

Lemma distinct_nodup : forall l, distinct l = true -> NoDup l.
Proof.
  induction l as [|x l IH]; intros D; [constructor|].
  simpl in D. apply andb_true_iff in D. destruct D as [D1 D2].
  constructor; [|apply IH; exact D2].
  intros I. apply mem_in in I. rewrite I in D1. discriminate D1.
Qed.

(** * The macros that matter in a configuration *)
Definition matters (c : config) (m : ident) : bool :=
  match m with
  | i__M_ARM64 => negb (aarch64el c)
  | i___AVX2__ => x86_64 c
  | i_FORCE_AARCH64 => negb (on_arm c)
  | i_FORCE_X86_64 => negb (x86_64 c)
  | i_MLKEM_USE_NATIVE_AARCH64_CLEAN
  | i___ARM_FEATURE_SHA3 => use_native c && on_arm c
  | i___APPLE__ => use_native c && on_arm c && sha3 c
  | i_SYS_AARCH64_SLOW_BARREL_SHIFTER =>
      use_native c && on_arm c && negb (sha3 c && apple c)
  | _ => true
  end.

Definition kgiven (c : config) (asm : bool) (m : ident) : option (option body) :=
  if matters c m then Some (given c asm m) else None.

Lemma kgiven_right : forall c asm m x, kgiven c asm m = Some x -> given c asm m = x.
Proof.
  unfold kgiven. intros c asm m x. destruct (matters c m); [|discriminate].
  intros E. injection E as <-. reflexivity.
Qed.

Definition kcompile (c : config) (f : file) : option result :=
  klines contents (kgiven c (assembly f)) 200 (contents f) start.

Lemma kcompile_right : forall c f r, kcompile c f = Some r -> compile c f = r.
Proof.
  unfold kcompile, compile, preprocess. intros c f r.
  apply klines_right. apply kgiven_right.
Qed.

(* the output of a list of files *)
Fixpoint koutputs (c : config) (l : list file) : option (list (list output)) :=
  match l with
  | [] => Some []
  | f :: l =>
      match kcompile c f with
      | Some (Done s) =>
          match koutputs c l with
          | Some r => Some (out s :: r)
          | None => None
          end
      | _ => None
      end
  end.

Lemma koutputs_right : forall c l r, koutputs c l = Some r ->
  map (outputs c) l = r /\ forall f, In f l -> exists s, compile c f = Done s.
Proof.
  intros c l. induction l as [|f l IH]; intros r E; simpl in E.
  - injection E as <-. split; [reflexivity | intros f []].
  - destruct (kcompile c f) as [[s| | |]|] eqn:K; try discriminate E.
    destruct (koutputs c l) as [q|]; [|discriminate E]. injection E as <-.
    apply kcompile_right in K. destruct (IH q eq_refl) as [M A]. split.
    + simpl. rewrite M. unfold outputs. rewrite K. reflexivity.
    + intros g [<-|I]; [exists s; exact K | apply A; exact I].
Qed.

(** * The check of a build *)
Definition uses_of (g : ident) (l : list (ident * symbol)) : list symbol :=
  map snd (filter (fun p => ident_eqb (fst p) g) l).

Lemma in_uses_of : forall g x l, In x (uses_of g l) <-> In (g, x) l.
Proof.
  intros g x l. unfold uses_of. rewrite in_map_iff. split.
  - intros ([h y] & E & I). simpl in E. subst y. apply filter_In in I.
    destruct I as [I E]. apply ident_eqb_eq in E. simpl in E. subst h. exact I.
  - intros I. exists (g, x). split; [reflexivity|]. apply filter_In.
    split; [exact I | apply ident_eqb_eq; reflexivity].
Qed.

Definition included (a b : list symbol) : bool := forallb (fun x => mem x b) a.

Definition check_file (all : list symbol) (o : list output) : bool :=
  let here := collect localed o in
  distinct here &&
  forallb (fun p => mem (snd p) here || mem (snd p) all) (collect used o).

Definition check_table (c : config) (u : list (ident * symbol)) : bool :=
  forallb (fun g => let a := uses_of g u in let b := wanted c g in
                    included a b && included b a) selected.

Definition byte_functions : list ident :=
  [i_KeccakF1600_StateExtractBytes; i_KeccakF1600_StateXORBytes].

Definition check_bytes (c : config) (l : list ident) : bool :=
  match order c with
  | Little =>
      forallb (fun g => existsb (ident_eqb g) byte_functions) l &&
      forallb (fun g => existsb (ident_eqb g) l) byte_functions
  | _ => match l with [] => true | _ => false end
  end.

Definition check_prefix (c : config) (x : symbol) : bool :=
  match fst x with
  | Some p_PQCP_MLKEM_NATIVE_FIPS202 | Some u_PQCP_MLKEM_NATIVE_FIPS202 => true
  | Some p_PQCP_MLKEM_NATIVE_MLKEM512 | Some u_PQCP_MLKEM_NATIVE_MLKEM512 =>
      match level_of c with Level2 => true | _ => false end
  | Some p_PQCP_MLKEM_NATIVE_MLKEM768 | Some u_PQCP_MLKEM_NATIVE_MLKEM768 =>
      match level_of c with Level3 => true | _ => false end
  | Some p_PQCP_MLKEM_NATIVE_MLKEM1024 | Some u_PQCP_MLKEM_NATIVE_MLKEM1024 =>
      match level_of c with Level4 => true | _ => false end
  | None =>
      match snd x with
      | i_empty_cu_aarch64_zetas | i_empty_cu_avx2_basemul
      | i_empty_cu_avx2_keccakx4 | i_empty_cu_consts
      | i_empty_cu_rej_uniform_avx2 => true
      | _ => false
      end
  end.

Definition check (c : config) : bool :=
  match koutputs c (sources c) with
  | Some l =>
      let whole := concat l in
      let all := collect provided whole in
      forallb (check_prefix c) all &&
      distinct all &&
      forallb (check_file all) l &&
      check_table c (collect used whole) &&
      check_bytes c (collect bytewise whole)
  | None => false
  end.

(** * All configurations *)
Definition sensibleb (c : config) : bool :=
  (if on_arm c then true else negb (force_aarch64 c)) &&
  (if x86_64 c then true else negb (force_x86_64 c)) &&
  (if use_native c then if on_arm c then negb (on_avx2 c) else true else true) &&
  match order c with OtherOrder => false | _ => true end.

Lemma sensibleb_iff : forall c, sensibleb c = true <-> sensible c.
Proof.
  intros c. unfold sensibleb, sensible. rewrite !andb_true_iff. split.
  - intros [[[A B] C] D]. split; [|split; [|split]].
    + intros E. rewrite E in D. discriminate D.
    + intros E. rewrite E in A. destruct (on_arm c); [reflexivity | discriminate A].
    + intros E. rewrite E in B. destruct (x86_64 c); [reflexivity | discriminate B].
    + intros (E & F & G). rewrite E, F, G in C. discriminate C.
  - intros (A & B & C & D). repeat split.
    + destruct (on_arm c); [reflexivity|].
      destruct (force_aarch64 c); [|reflexivity]. apply B. reflexivity.
    + destruct (x86_64 c); [reflexivity|].
      destruct (force_x86_64 c); [|reflexivity]. apply C. reflexivity.
    + destruct (use_native c), (on_arm c); try reflexivity.
      destruct (on_avx2 c); [|reflexivity]. exfalso. apply D. auto.
    + destruct (order c); try reflexivity. exfalso. apply A. reflexivity.
Qed.

Definition verdict (c : config) : bool :=
  if sensibleb c then check c
  else match kcompile c f_mlkem_poly_c with Some Stopped => true | _ => false end.

Ltac decide_build := vm_compute; reflexivity.

(* without native code, or with native code for another processor *)
Ltac few x av fx ord lev :=
  destruct x; [destruct av | destruct fx]; destruct ord; destruct lev; decide_build.

Ltac few_force fa x av fx ord lev := destruct fa; few x av fx ord lev.

(* with native code for AArch64 *)
Ltac many x av fx ord lev cl sh ap sl :=
  destruct x; [destruct av | destruct fx]; destruct ord; destruct lev;
  destruct cl; (destruct sh; [destruct ap; [|destruct sl] | destruct sl]);
  decide_build.

Lemma verdict_true : forall c, verdict c = true.
Proof.
  intros [nat el m x av ord fa fx cl sh ap sl lev].
  destruct nat, el; [|destruct m| |destruct m].
  - many x av fx ord lev cl sh ap sl.
  - many x av fx ord lev cl sh ap sl.
  - few_force fa x av fx ord lev.
  - few x av fx ord lev.
  - few x av fx ord lev.
  - few_force fa x av fx ord lev.
Qed.

Lemma check_true : forall c, sensible c -> check c = true.
Proof.
  intros c H. apply sensibleb_iff in H. pose proof (verdict_true c) as V.
  unfold verdict in V. rewrite H in V. exact V.
Qed.

Lemma stops : forall c, ~ sensible c -> compile c f_mlkem_poly_c = Stopped.
Proof.
  intros c H. pose proof (verdict_true c) as V. unfold verdict in V.
  destruct (sensibleb c) eqn:E; [exfalso; apply H; apply sensibleb_iff; exact E|].
  destruct (kcompile c f_mlkem_poly_c) as [[s| | |]|] eqn:K; try discriminate V.
  apply kcompile_right. exact K.
Qed.

Lemma poly_source : forall c, In f_mlkem_poly_c (sources c).
Proof.
  intros c. unfold sources. destruct (use_native c); [apply in_or_app; left|];
    unfold portable_sources; simpl; tauto.
Qed.

Lemma checked : forall c, sensible c ->
  (forall f, In f (sources c) -> exists s, compile c f = Done s) /\
  NoDup (collect provided (program c)) /\
  (forall f, In f (sources c) -> check_file (collect provided (program c)) (outputs c f) = true) /\
  check_table c (collect used (program c)) = true /\
  check_bytes c (collect bytewise (program c)) = true /\
  forallb (check_prefix c) (collect provided (program c)) = true.
Proof.
  intros c H. pose proof (check_true c H) as C. unfold check in C.
  destruct (koutputs c (sources c)) as [l|] eqn:K; [|discriminate C].
  apply koutputs_right in K. destruct K as [M A].
  assert (P : concat l = program c).
  { unfold program. rewrite flat_map_concat_map, M. reflexivity. }
  rewrite P in C. apply andb_true_iff in C. destruct C as [C C4].
  apply andb_true_iff in C. destruct C as [C C3].
  apply andb_true_iff in C. destruct C as [C C2].
  apply andb_true_iff in C. destruct C as [C0 C1].
  split; [exact A|]. split; [apply distinct_nodup; exact C1|].
  split; [|split; [|split]; assumption].
  intros f I. rewrite forallb_forall in C2. apply C2. rewrite <- M.
  apply in_map. exact I.
Qed.

Lemma compiles : forall c,
  sensible c <-> (forall f, In f (sources c) -> exists s, compile c f = Done s).
Proof.
  intros c. split.
  - intros H. apply checked. exact H.
  - intros A. destruct (sensibleb c) eqn:E; [apply sensibleb_iff; exact E|].
    exfalso. assert (N : ~ sensible c).
    { intros S. apply sensibleb_iff in S. congruence. }
    apply stops in N. destruct (A _ (poly_source c)) as [s B]. congruence.
Qed.

Lemma provides_pick : forall x o, provided o = Some x <-> o = Provides x.
Proof.
  intros x o. split.
  - destruct o; intros E; try discriminate E. injection E as <-. reflexivity.
  - intros ->. reflexivity.
Qed.

Lemma locals_pick : forall x o, localed o = Some x <-> o = Locals x.
Proof.
  intros x o. split.
  - destruct o; intros E; try discriminate E. injection E as <-. reflexivity.
  - intros ->. reflexivity.
Qed.

Lemma provided_once : forall c x, sensible c ->
  In (Provides x) (program c) -> once (Provides x) (program c).
Proof.
  intros c x H I. apply (once_collect Provides provided provides_pick); [|exact I].
  apply checked. exact H.
Qed.

Lemma links : forall c f g x, sensible c -> In f (sources c) ->
  In (Uses g x) (outputs c f) ->
  once (Locals x) (outputs c f) \/ once (Provides x) (program c).
Proof.
  intros c f g x H I U. pose proof (checked c H) as (_ & _ & F & _).
  specialize (F f I). unfold check_file in F. apply andb_true_iff in F.
  destruct F as [D F]. rewrite forallb_forall in F.
  apply in_used in U. specialize (F _ U). simpl in F. apply orb_true_iff in F.
  destruct F as [F|F]; apply mem_in in F.
  - left. apply in_localed in F.
    apply (once_collect Locals localed locals_pick); [|exact F].
    apply distinct_nodup. exact D.
  - right. apply in_provided in F. apply provided_once; assumption.
Qed.

Lemma locals_once : forall c f x, sensible c -> In f (sources c) ->
  In (Locals x) (outputs c f) -> once (Locals x) (outputs c f).
Proof.
  intros c f x H I U. pose proof (checked c H) as (_ & _ & F & _).
  specialize (F f I). unfold check_file in F. apply andb_true_iff in F.
  destruct F as [D _].
  apply (once_collect Locals localed locals_pick); [|exact U].
  apply distinct_nodup. exact D.
Qed.

Lemma included_in : forall a b, included a b = true -> forall x, In x a -> In x b.
Proof.
  unfold included. intros a b E x I. rewrite forallb_forall in E.
  apply mem_in. apply E. exact I.
Qed.

Lemma selects : forall c g x, sensible c -> In g selected ->
  (In (Uses g x) (program c) <-> In x (wanted c g)).
Proof.
  intros c g x H I. pose proof (checked c H) as (_ & _ & _ & T & _).
  unfold check_table in T. rewrite forallb_forall in T. specialize (T g I).
  simpl in T. apply andb_true_iff in T. destruct T as [A B].
  rewrite <- in_used, <- in_uses_of. split; apply included_in; assumption.
Qed.

Lemma by_bytes : forall c g, sensible c ->
  (In (ByBytes g) (program c) <->
   order c = Little /\
   (g = i_KeccakF1600_StateExtractBytes \/ g = i_KeccakF1600_StateXORBytes)).
Proof.
  intros c g H. pose proof (checked c H) as (_ & _ & _ & _ & B & _).
  rewrite <- in_bytewise. unfold check_bytes in B.
  assert (X : forall h l, existsb (ident_eqb h) l = true -> In h l).
  { intros h l E. apply existsb_exists in E. destruct E as (k & I & E).
    apply ident_eqb_eq in E. subst k. exact I. }
  destruct (order c).
  2: { apply andb_true_iff in B. destruct B as [B1 B2].
       rewrite forallb_forall in B1, B2. split.
       - intros I. split; [reflexivity|]. specialize (B1 g I). apply X in B1.
         destruct B1 as [<- | [<- | []]]; auto.
       - intros [_ [-> | ->]]; apply X; apply B2; simpl; auto. }
  all: destruct (collect bytewise (program c)); [|discriminate B]; split;
    [intros [] | intros [E _]; discriminate E].
Qed.

Lemma custom_order : forall c, sensible c ->
  (In (Uses i_gen_matrix (inline i_poly_permute_bitrev_to_custom)) (program c) <->
   In (Uses i_ntt_native (mlkem c i_ntt_avx2)) (program c)).
Proof.
  intros c H.
  rewrite !(selects c) by (first [exact H | unfold selected; simpl; tauto]).
  unfold wanted. destruct (backend_of c); simpl; try tauto.
  split; [contradiction|]. destruct (clean c); intros [E | [E | [E | []]]]; discriminate E.
Qed.

Lemma prefix_case : forall c x, check_prefix c x = true ->
  shared x \/
  (exists p, fst x = Some p /\ match p with
     | p_PQCP_MLKEM_NATIVE_MLKEM512 | u_PQCP_MLKEM_NATIVE_MLKEM512 => level_of c = Level2
     | p_PQCP_MLKEM_NATIVE_MLKEM768 | u_PQCP_MLKEM_NATIVE_MLKEM768 => level_of c = Level3
     | p_PQCP_MLKEM_NATIVE_MLKEM1024 | u_PQCP_MLKEM_NATIVE_MLKEM1024 => level_of c = Level4
     | _ => False
     end).
Proof.
  intros c [[p|] i] E; unfold check_prefix in E; simpl in E.
  - destruct p; unfold shared; simpl; auto; right; eexists; (split; [reflexivity|]);
      simpl; destruct (level_of c); first [reflexivity | discriminate E].
  - left. unfold shared. right. right. destruct i; try discriminate E; simpl; tauto.
Qed.

Lemma separate : forall c d x, sensible c -> sensible d -> level_of c <> level_of d ->
  In (Provides x) (program c) -> In (Provides x) (program d) -> shared x.
Proof.
  intros c d x Hc Hd N Ic Id.
  pose proof (checked c Hc) as (_ & _ & _ & _ & _ & Pc).
  pose proof (checked d Hd) as (_ & _ & _ & _ & _ & Pd).
  rewrite forallb_forall in Pc, Pd.
  apply in_provided in Ic. apply in_provided in Id.
  specialize (Pc x Ic). specialize (Pd x Id).
  destruct (prefix_case c x Pc) as [S | (p & E & A)]; [exact S|].
  destruct (prefix_case d x Pd) as [S | (q & F & B)]; [exact S|].
  exfalso. apply N. assert (p = q) by congruence. subst q.
  destruct p; first [contradiction A | congruence].
Qed.

Lemma provides_when : forall c x,
  mem x (collect provided (program c)) = true -> In (Provides x) (program c).
Proof. intros c x M. apply in_provided. apply mem_in. exact M. Qed.

Lemma placeholder_shared : forall c, In c [sample_avx2; sample_avx2_1024] ->
  In (Provides (None, i_empty_cu_aarch64_zetas)) (program c).
Proof.
  intros c I. apply provides_when.
  destruct I as [<- | [<- | []]]; vm_compute; reflexivity.
Qed.
