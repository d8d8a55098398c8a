(** * Model of fips202/native/x86_64: the AVX2 implementation of four Keccak permutations

    Line numbers without a file name refer to xkcp/KeccakP-1600-times4-SIMD256.c. A value
    of type V256 (__m256i) is the list of its four 64-bit elements, lowest first. *)

From Coq Require Import ZArith List Bool.
From Verif Require Import CSem ModelArith ModelKeccak ModelAvx2.
Import ListNotations.
Open Scope Z_scope.

(** The machine is little-endian (cpucap.h). *)
#[local] Existing Instance LittleEndian.

Definition V256 : Type := list Z.

(** ** Intrinsics *)

Definition _mm256_xor_si256 (a b : V256) : V256 := map2 Z.lxor a b.
Definition _mm256_or_si256 (a b : V256) : V256 := map2 Z.lor a b.
(** The complement of the first operand, and the second *)
Definition _mm256_andnot_si256 (a b : V256) : V256 := map2 (fun x y => not64 x .& y) a b.
Definition _mm256_slli_epi64 (a : V256) (n : Z) : V256 := map (fun x => u64 (x << n)) a.
Definition _mm256_srli_epi64 (a : V256) (n : Z) : V256 := map (fun x => x >> n) a.
(** _mm256_shuffle_epi8 of ModelAvx2.v, on the bytes of the elements *)
Definition shuffle_bytes (a b : V256) : V256 :=
  let c := _mm256_shuffle_epi8 (state_bytes a) (state_bytes b) in
  map (fun j => bytes_lane (firstn 8 (skipn (8 * j) c))) (seq 0 4).

(** ** Macros *)

(** 50-63 *)
Definition ANDnu256 := _mm256_andnot_si256.
Definition CONST256_64 (a : Z) : V256 := [a; a; a; a].
Definition ROL64in256 (a : V256) (o : Z) : V256 :=
  _mm256_or_si256 (_mm256_slli_epi64 a o) (_mm256_srli_epi64 a (64 - o)).
Definition rho8 : V256 :=
  [433757350076153863; 1012478732780767247;
   1591200115485380631; 2169921498189994015].
Definition rho56 : V256 :=
  [1976943448883713; 580698326153497097;
   1159419708858110481; 1738141091562723865].
Definition ROL64in256_8 (a : V256) : V256 := shuffle_bytes a rho8.
Definition ROL64in256_56 (a : V256) : V256 := shuffle_bytes a rho56.
Definition XOR256 := _mm256_xor_si256.

(** The variables Aba .. Asu (or Eba .. Esu) and Ca .. Cu *)
Definition lanes4 : Type :=
  (V256 * V256 * V256 * V256 * V256 * V256 * V256 * V256 * V256 * V256 *
   V256 * V256 * V256 * V256 * V256 * V256 * V256 * V256 * V256 * V256 *
   V256 * V256 * V256 * V256 * V256)%type.
Definition parity4 : Type := (V256 * V256 * V256 * V256 * V256)%type.

(** 88-93 *)
Definition prepareTheta (A : lanes4) : parity4 :=
  let '(Aba, Abe, Abi, Abo, Abu,
   Aga, Age, Agi, Ago, Agu,
   Aka, Ake, Aki, Ako, Aku,
   Ama, Ame, Ami, Amo, Amu,
   Asa, Ase, Asi, Aso, Asu) := A in
  let Ca := XOR256 Aba (XOR256 Aga (XOR256 Aka (XOR256 Ama Asa))) in
  let Ce := XOR256 Abe (XOR256 Age (XOR256 Ake (XOR256 Ame Ase))) in
  let Ci := XOR256 Abi (XOR256 Agi (XOR256 Aki (XOR256 Ami Asi))) in
  let Co := XOR256 Abo (XOR256 Ago (XOR256 Ako (XOR256 Amo Aso))) in
  let Cu := XOR256 Abu (XOR256 Agu (XOR256 Aku (XOR256 Amu Asu))) in
  (Ca, Ce, Ci, Co, Cu).

(** 99-215; rc is KeccakF1600RoundConstants[i] *)
Definition thetaRhoPiChiIotaPrepareTheta (rc : Z) (A : lanes4) (C : parity4) : lanes4 * parity4 :=
  let '(Aba, Abe, Abi, Abo, Abu,
   Aga, Age, Agi, Ago, Agu,
   Aka, Ake, Aki, Ako, Aku,
   Ama, Ame, Ami, Amo, Amu,
   Asa, Ase, Asi, Aso, Asu) := A in
  let '(Ca, Ce, Ci, Co, Cu) := C in
  let Ce1 := ROL64in256 Ce 1 in
  let Da := XOR256 Cu Ce1 in
  let Ci1 := ROL64in256 Ci 1 in
  let De := XOR256 Ca Ci1 in
  let Co1 := ROL64in256 Co 1 in
  let Di := XOR256 Ce Co1 in
  let Cu1 := ROL64in256 Cu 1 in
  let Do := XOR256 Ci Cu1 in
  let Ca1 := ROL64in256 Ca 1 in
  let Du := XOR256 Co Ca1 in
  let Aba := XOR256 Aba Da in
  let Bba := Aba in
  let Age := XOR256 Age De in
  let Bbe := ROL64in256 Age 44 in
  let Aki := XOR256 Aki Di in
  let Bbi := ROL64in256 Aki 43 in
  let Eba := XOR256 Bba (ANDnu256 Bbe Bbi) in
  let Eba := XOR256 Eba (CONST256_64 rc) in
  let Ca := Eba in
  let Amo := XOR256 Amo Do in
  let Bbo := ROL64in256 Amo 21 in
  let Ebe := XOR256 Bbe (ANDnu256 Bbi Bbo) in
  let Ce := Ebe in
  let Asu := XOR256 Asu Du in
  let Bbu := ROL64in256 Asu 14 in
  let Ebi := XOR256 Bbi (ANDnu256 Bbo Bbu) in
  let Ci := Ebi in
  let Ebo := XOR256 Bbo (ANDnu256 Bbu Bba) in
  let Co := Ebo in
  let Ebu := XOR256 Bbu (ANDnu256 Bba Bbe) in
  let Cu := Ebu in
  let Abo := XOR256 Abo Do in
  let Bga := ROL64in256 Abo 28 in
  let Agu := XOR256 Agu Du in
  let Bge := ROL64in256 Agu 20 in
  let Aka := XOR256 Aka Da in
  let Bgi := ROL64in256 Aka 3 in
  let Ega := XOR256 Bga (ANDnu256 Bge Bgi) in
  let Ca := XOR256 Ca Ega in
  let Ame := XOR256 Ame De in
  let Bgo := ROL64in256 Ame 45 in
  let Ege := XOR256 Bge (ANDnu256 Bgi Bgo) in
  let Ce := XOR256 Ce Ege in
  let Asi := XOR256 Asi Di in
  let Bgu := ROL64in256 Asi 61 in
  let Egi := XOR256 Bgi (ANDnu256 Bgo Bgu) in
  let Ci := XOR256 Ci Egi in
  let Ego := XOR256 Bgo (ANDnu256 Bgu Bga) in
  let Co := XOR256 Co Ego in
  let Egu := XOR256 Bgu (ANDnu256 Bga Bge) in
  let Cu := XOR256 Cu Egu in
  let Abe := XOR256 Abe De in
  let Bka := ROL64in256 Abe 1 in
  let Agi := XOR256 Agi Di in
  let Bke := ROL64in256 Agi 6 in
  let Ako := XOR256 Ako Do in
  let Bki := ROL64in256 Ako 25 in
  let Eka := XOR256 Bka (ANDnu256 Bke Bki) in
  let Ca := XOR256 Ca Eka in
  let Amu := XOR256 Amu Du in
  let Bko := ROL64in256_8 Amu in
  let Eke := XOR256 Bke (ANDnu256 Bki Bko) in
  let Ce := XOR256 Ce Eke in
  let Asa := XOR256 Asa Da in
  let Bku := ROL64in256 Asa 18 in
  let Eki := XOR256 Bki (ANDnu256 Bko Bku) in
  let Ci := XOR256 Ci Eki in
  let Eko := XOR256 Bko (ANDnu256 Bku Bka) in
  let Co := XOR256 Co Eko in
  let Eku := XOR256 Bku (ANDnu256 Bka Bke) in
  let Cu := XOR256 Cu Eku in
  let Abu := XOR256 Abu Du in
  let Bma := ROL64in256 Abu 27 in
  let Aga := XOR256 Aga Da in
  let Bme := ROL64in256 Aga 36 in
  let Ake := XOR256 Ake De in
  let Bmi := ROL64in256 Ake 10 in
  let Ema := XOR256 Bma (ANDnu256 Bme Bmi) in
  let Ca := XOR256 Ca Ema in
  let Ami := XOR256 Ami Di in
  let Bmo := ROL64in256 Ami 15 in
  let Eme := XOR256 Bme (ANDnu256 Bmi Bmo) in
  let Ce := XOR256 Ce Eme in
  let Aso := XOR256 Aso Do in
  let Bmu := ROL64in256_56 Aso in
  let Emi := XOR256 Bmi (ANDnu256 Bmo Bmu) in
  let Ci := XOR256 Ci Emi in
  let Emo := XOR256 Bmo (ANDnu256 Bmu Bma) in
  let Co := XOR256 Co Emo in
  let Emu := XOR256 Bmu (ANDnu256 Bma Bme) in
  let Cu := XOR256 Cu Emu in
  let Abi := XOR256 Abi Di in
  let Bsa := ROL64in256 Abi 62 in
  let Ago := XOR256 Ago Do in
  let Bse := ROL64in256 Ago 55 in
  let Aku := XOR256 Aku Du in
  let Bsi := ROL64in256 Aku 39 in
  let Esa := XOR256 Bsa (ANDnu256 Bse Bsi) in
  let Ca := XOR256 Ca Esa in
  let Ama := XOR256 Ama Da in
  let Bso := ROL64in256 Ama 41 in
  let Ese := XOR256 Bse (ANDnu256 Bsi Bso) in
  let Ce := XOR256 Ce Ese in
  let Ase := XOR256 Ase De in
  let Bsu := ROL64in256 Ase 2 in
  let Esi := XOR256 Bsi (ANDnu256 Bso Bsu) in
  let Ci := XOR256 Ci Esi in
  let Eso := XOR256 Bso (ANDnu256 Bsu Bsa) in
  let Co := XOR256 Co Eso in
  let Esu := XOR256 Bsu (ANDnu256 Bsa Bse) in
  let Cu := XOR256 Cu Esu in
  ((Eba, Ebe, Ebi, Ebo, Ebu,
   Ega, Ege, Egi, Ego, Egu,
   Eka, Eke, Eki, Eko, Eku,
   Ema, Eme, Emi, Emo, Emu,
   Esa, Ese, Esi, Eso, Esu),
   (Ca, Ce, Ci, Co, Cu)).

(** 222-313; rc is KeccakF1600RoundConstants[i] *)
Definition thetaRhoPiChiIota (rc : Z) (A : lanes4) (C : parity4) : lanes4 :=
  let '(Aba, Abe, Abi, Abo, Abu,
   Aga, Age, Agi, Ago, Agu,
   Aka, Ake, Aki, Ako, Aku,
   Ama, Ame, Ami, Amo, Amu,
   Asa, Ase, Asi, Aso, Asu) := A in
  let '(Ca, Ce, Ci, Co, Cu) := C in
  let Ce1 := ROL64in256 Ce 1 in
  let Da := XOR256 Cu Ce1 in
  let Ci1 := ROL64in256 Ci 1 in
  let De := XOR256 Ca Ci1 in
  let Co1 := ROL64in256 Co 1 in
  let Di := XOR256 Ce Co1 in
  let Cu1 := ROL64in256 Cu 1 in
  let Do := XOR256 Ci Cu1 in
  let Ca1 := ROL64in256 Ca 1 in
  let Du := XOR256 Co Ca1 in
  let Aba := XOR256 Aba Da in
  let Bba := Aba in
  let Age := XOR256 Age De in
  let Bbe := ROL64in256 Age 44 in
  let Aki := XOR256 Aki Di in
  let Bbi := ROL64in256 Aki 43 in
  let Eba := XOR256 Bba (ANDnu256 Bbe Bbi) in
  let Eba := XOR256 Eba (CONST256_64 rc) in
  let Amo := XOR256 Amo Do in
  let Bbo := ROL64in256 Amo 21 in
  let Ebe := XOR256 Bbe (ANDnu256 Bbi Bbo) in
  let Asu := XOR256 Asu Du in
  let Bbu := ROL64in256 Asu 14 in
  let Ebi := XOR256 Bbi (ANDnu256 Bbo Bbu) in
  let Ebo := XOR256 Bbo (ANDnu256 Bbu Bba) in
  let Ebu := XOR256 Bbu (ANDnu256 Bba Bbe) in
  let Abo := XOR256 Abo Do in
  let Bga := ROL64in256 Abo 28 in
  let Agu := XOR256 Agu Du in
  let Bge := ROL64in256 Agu 20 in
  let Aka := XOR256 Aka Da in
  let Bgi := ROL64in256 Aka 3 in
  let Ega := XOR256 Bga (ANDnu256 Bge Bgi) in
  let Ame := XOR256 Ame De in
  let Bgo := ROL64in256 Ame 45 in
  let Ege := XOR256 Bge (ANDnu256 Bgi Bgo) in
  let Asi := XOR256 Asi Di in
  let Bgu := ROL64in256 Asi 61 in
  let Egi := XOR256 Bgi (ANDnu256 Bgo Bgu) in
  let Ego := XOR256 Bgo (ANDnu256 Bgu Bga) in
  let Egu := XOR256 Bgu (ANDnu256 Bga Bge) in
  let Abe := XOR256 Abe De in
  let Bka := ROL64in256 Abe 1 in
  let Agi := XOR256 Agi Di in
  let Bke := ROL64in256 Agi 6 in
  let Ako := XOR256 Ako Do in
  let Bki := ROL64in256 Ako 25 in
  let Eka := XOR256 Bka (ANDnu256 Bke Bki) in
  let Amu := XOR256 Amu Du in
  let Bko := ROL64in256_8 Amu in
  let Eke := XOR256 Bke (ANDnu256 Bki Bko) in
  let Asa := XOR256 Asa Da in
  let Bku := ROL64in256 Asa 18 in
  let Eki := XOR256 Bki (ANDnu256 Bko Bku) in
  let Eko := XOR256 Bko (ANDnu256 Bku Bka) in
  let Eku := XOR256 Bku (ANDnu256 Bka Bke) in
  let Abu := XOR256 Abu Du in
  let Bma := ROL64in256 Abu 27 in
  let Aga := XOR256 Aga Da in
  let Bme := ROL64in256 Aga 36 in
  let Ake := XOR256 Ake De in
  let Bmi := ROL64in256 Ake 10 in
  let Ema := XOR256 Bma (ANDnu256 Bme Bmi) in
  let Ami := XOR256 Ami Di in
  let Bmo := ROL64in256 Ami 15 in
  let Eme := XOR256 Bme (ANDnu256 Bmi Bmo) in
  let Aso := XOR256 Aso Do in
  let Bmu := ROL64in256_56 Aso in
  let Emi := XOR256 Bmi (ANDnu256 Bmo Bmu) in
  let Emo := XOR256 Bmo (ANDnu256 Bmu Bma) in
  let Emu := XOR256 Bmu (ANDnu256 Bma Bme) in
  let Abi := XOR256 Abi Di in
  let Bsa := ROL64in256 Abi 62 in
  let Ago := XOR256 Ago Do in
  let Bse := ROL64in256 Ago 55 in
  let Aku := XOR256 Aku Du in
  let Bsi := ROL64in256 Aku 39 in
  let Esa := XOR256 Bsa (ANDnu256 Bse Bsi) in
  let Ama := XOR256 Ama Da in
  let Bso := ROL64in256 Ama 41 in
  let Ese := XOR256 Bse (ANDnu256 Bsi Bso) in
  let Ase := XOR256 Ase De in
  let Bsu := ROL64in256 Ase 2 in
  let Esi := XOR256 Bsi (ANDnu256 Bso Bsu) in
  let Eso := XOR256 Bso (ANDnu256 Bsu Bsa) in
  let Esu := XOR256 Bsu (ANDnu256 Bsa Bse) in
  (Eba, Ebe, Ebi, Ebo, Ebu,
   Ega, Ege, Egi, Ego, Egu,
   Eka, Eke, Eki, Eko, Eku,
   Ema, Eme, Emi, Emo, Emu,
   Esa, Ese, Esi, Eso, Esu).

(** 316-325 *)
Definition KeccakF1600RoundConstants : list Z :=
  [1; 32898; 9223372036854808714;
   9223372039002292224; 32907; 2147483649;
   9223372039002292353; 9223372036854808585; 138;
   136; 2147516425; 2147483658;
   2147516555; 9223372036854775947; 9223372036854808713;
   9223372036854808579; 9223372036854808578; 9223372036854775936;
   32778; 9223372039002259466; 9223372039002292353;
   9223372036854808704; 2147483649; 9223372039002292232].

(** 329-361: one gather, of lane k of the four states *)
Definition gather (state : list Z) (k : Z) : M V256 :=
  x0 <- aget state (0 + k) ;; x1 <- aget state (25 + k) ;;
  x2 <- aget state (50 + k) ;; x3 <- aget state (75 + k) ;;
  ret [x0; x1; x2; x3].
Definition copyFromState (state : list Z) : M lanes4 :=
  Aba <- gather state 0 ;;
  Abe <- gather state 1 ;;
  Abi <- gather state 2 ;;
  Abo <- gather state 3 ;;
  Abu <- gather state 4 ;;
  Aga <- gather state 5 ;;
  Age <- gather state 6 ;;
  Agi <- gather state 7 ;;
  Ago <- gather state 8 ;;
  Agu <- gather state 9 ;;
  Aka <- gather state 10 ;;
  Ake <- gather state 11 ;;
  Aki <- gather state 12 ;;
  Ako <- gather state 13 ;;
  Aku <- gather state 14 ;;
  Ama <- gather state 15 ;;
  Ame <- gather state 16 ;;
  Ami <- gather state 17 ;;
  Amo <- gather state 18 ;;
  Amu <- gather state 19 ;;
  Asa <- gather state 20 ;;
  Ase <- gather state 21 ;;
  Asi <- gather state 22 ;;
  Aso <- gather state 23 ;;
  Asu <- gather state 24 ;;
  ret (Aba, Abe, Abi, Abo, Abu,
   Aga, Age, Agi, Ago, Agu,
   Aka, Ake, Aki, Ako, Aku,
   Ama, Ame, Ami, Amo, Amu,
   Asa, Ase, Asi, Aso, Asu).

(** 363-373 *)
Definition SCATTER_STORE256 (state : list Z) (idx : Z) (v : V256) : M (list Z) :=
  state <- aset state (0 + idx) (nth 0 v 0) ;;
  state <- aset state (25 + idx) (nth 1 v 0) ;;
  state <- aset state (50 + idx) (nth 2 v 0) ;;
  aset state (75 + idx) (nth 3 v 0).
(** 375-400 *)
Definition copyToState (state : list Z) (A : lanes4) : M (list Z) :=
  let '(Aba, Abe, Abi, Abo, Abu,
   Aga, Age, Agi, Ago, Agu,
   Aka, Ake, Aki, Ako, Aku,
   Ama, Ame, Ami, Amo, Amu,
   Asa, Ase, Asi, Aso, Asu) := A in
  state <- SCATTER_STORE256 state 0 Aba ;;
  state <- SCATTER_STORE256 state 1 Abe ;;
  state <- SCATTER_STORE256 state 2 Abi ;;
  state <- SCATTER_STORE256 state 3 Abo ;;
  state <- SCATTER_STORE256 state 4 Abu ;;
  state <- SCATTER_STORE256 state 5 Aga ;;
  state <- SCATTER_STORE256 state 6 Age ;;
  state <- SCATTER_STORE256 state 7 Agi ;;
  state <- SCATTER_STORE256 state 8 Ago ;;
  state <- SCATTER_STORE256 state 9 Agu ;;
  state <- SCATTER_STORE256 state 10 Aka ;;
  state <- SCATTER_STORE256 state 11 Ake ;;
  state <- SCATTER_STORE256 state 12 Aki ;;
  state <- SCATTER_STORE256 state 13 Ako ;;
  state <- SCATTER_STORE256 state 14 Aku ;;
  state <- SCATTER_STORE256 state 15 Ama ;;
  state <- SCATTER_STORE256 state 16 Ame ;;
  state <- SCATTER_STORE256 state 17 Ami ;;
  state <- SCATTER_STORE256 state 18 Amo ;;
  state <- SCATTER_STORE256 state 19 Amu ;;
  state <- SCATTER_STORE256 state 20 Asa ;;
  state <- SCATTER_STORE256 state 21 Ase ;;
  state <- SCATTER_STORE256 state 22 Asi ;;
  state <- SCATTER_STORE256 state 23 Aso ;;
  state <- SCATTER_STORE256 state 24 Asu ;;
  ret state.

(** KeccakP-1600-unrolling.macros 22-47. The variables A and E take turns as argument and
    result; the macros assign all of the result before it is read. *)
Definition rounds24 (A : lanes4) : lanes4 :=
  let rc := fun i => nth i KeccakF1600RoundConstants 0 in
  let C := prepareTheta A in
  let '(E, C) := thetaRhoPiChiIotaPrepareTheta (rc 0%nat) A C in
  let '(A, C) := thetaRhoPiChiIotaPrepareTheta (rc 1%nat) E C in
  let '(E, C) := thetaRhoPiChiIotaPrepareTheta (rc 2%nat) A C in
  let '(A, C) := thetaRhoPiChiIotaPrepareTheta (rc 3%nat) E C in
  let '(E, C) := thetaRhoPiChiIotaPrepareTheta (rc 4%nat) A C in
  let '(A, C) := thetaRhoPiChiIotaPrepareTheta (rc 5%nat) E C in
  let '(E, C) := thetaRhoPiChiIotaPrepareTheta (rc 6%nat) A C in
  let '(A, C) := thetaRhoPiChiIotaPrepareTheta (rc 7%nat) E C in
  let '(E, C) := thetaRhoPiChiIotaPrepareTheta (rc 8%nat) A C in
  let '(A, C) := thetaRhoPiChiIotaPrepareTheta (rc 9%nat) E C in
  let '(E, C) := thetaRhoPiChiIotaPrepareTheta (rc 10%nat) A C in
  let '(A, C) := thetaRhoPiChiIotaPrepareTheta (rc 11%nat) E C in
  let '(E, C) := thetaRhoPiChiIotaPrepareTheta (rc 12%nat) A C in
  let '(A, C) := thetaRhoPiChiIotaPrepareTheta (rc 13%nat) E C in
  let '(E, C) := thetaRhoPiChiIotaPrepareTheta (rc 14%nat) A C in
  let '(A, C) := thetaRhoPiChiIotaPrepareTheta (rc 15%nat) E C in
  let '(E, C) := thetaRhoPiChiIotaPrepareTheta (rc 16%nat) A C in
  let '(A, C) := thetaRhoPiChiIotaPrepareTheta (rc 17%nat) E C in
  let '(E, C) := thetaRhoPiChiIotaPrepareTheta (rc 18%nat) A C in
  let '(A, C) := thetaRhoPiChiIotaPrepareTheta (rc 19%nat) E C in
  let '(E, C) := thetaRhoPiChiIotaPrepareTheta (rc 20%nat) A C in
  let '(A, C) := thetaRhoPiChiIotaPrepareTheta (rc 21%nat) E C in
  let '(E, C) := thetaRhoPiChiIotaPrepareTheta (rc 22%nat) A C in
  thetaRhoPiChiIota (rc 23%nat) E C.

(** 436-445 *)
Definition KeccakP1600times4_PermuteAll_24rounds (states : list Z) : M (list Z) :=
  A <- copyFromState states ;;
  copyToState states (rounds24 A).

(** fips202/keccakf1600.c 90-93 with profiles/xkcp.h 18-21. The 100 words are the four
    states one after the other. *)
Definition KeccakF1600x4_StatePermute_x86_64 (state : list Z) : M (list Z) :=
  KeccakP1600times4_PermuteAll_24rounds state.

(** ** fips202/fips202x4.c with this permutation *)

(** fips202x4.c 10-45 *)
Definition keccak_absorb_x4_x86_64 (s : list Z) (r : Z) (in0 in1 in2 in3 : list Z)
  (inlen p : Z) : M (list Z) :=
  '(s, pos, inlen) <- while (S (Z.to_nat inlen))
    (fun '(s, pos, inlen) => r <=? inlen)
    (fun '(s, pos, inlen) =>
      d0 <- aslice in0 pos r ;; d1 <- aslice in1 pos r ;;
      d2 <- aslice in2 pos r ;; d3 <- aslice in3 pos r ;;
      s <- KeccakF1600x4_StateXORBytes s d0 d1 d2 d3 0 r ;;
      s <- KeccakF1600x4_StatePermute_x86_64 s ;;
      ret (s, pos + r, u64 (inlen - r))) (s, 0, inlen) ;;
  s <- branch (0 <? inlen)
    (d0 <- aslice in0 pos inlen ;; d1 <- aslice in1 pos inlen ;;
     d2 <- aslice in2 pos inlen ;; d3 <- aslice in3 pos inlen ;;
     KeccakF1600x4_StateXORBytes s d0 d1 d2 d3 0 (u32 inlen))
    (ret s) ;;
  branch (inlen =? r - 1)
    (let p := u8 (p .| 128) in
     KeccakF1600x4_StateXORBytes s [p] [p] [p] [p] (u32 inlen) 1)
    (s <- KeccakF1600x4_StateXORBytes s [p] [p] [p] [p] (u32 inlen) 1 ;;
     let p := 128 in
     KeccakF1600x4_StateXORBytes s [p] [p] [p] [p] (r - 1) 1).

(** fips202x4.c 47-64; returns the output buffers and the state *)
Definition keccak_squeezeblocks_x4_x86_64 (out0 out1 out2 out3 : list Z) (nblocks : Z)
  (s : list Z) (r : Z) : M (x4 (list Z) * list Z) :=
  '(out, pos, nblocks, s) <- while (S (Z.to_nat nblocks))
    (fun '(out, pos, nblocks, s) => 0 <? nblocks)
    (fun '(out, pos, nblocks, s) =>
      let '(out0, out1, out2, out3) := out in
      s <- KeccakF1600x4_StatePermute_x86_64 s ;;
      d0 <- aslice out0 pos r ;; d1 <- aslice out1 pos r ;;
      d2 <- aslice out2 pos r ;; d3 <- aslice out3 pos r ;;
      '(d0, d1, d2, d3) <- KeccakF1600x4_StateExtractBytes s d0 d1 d2 d3 0 r ;;
      out0 <- asplice out0 pos d0 ;; out1 <- asplice out1 pos d1 ;;
      out2 <- asplice out2 pos d2 ;; out3 <- asplice out3 pos d3 ;;
      ret ((out0, out1, out2, out3), pos + r, nblocks - 1, s))
    ((out0, out1, out2, out3), 0, nblocks, s) ;;
  ret (out, s).

(** fips202x4.c 66-72 *)
Definition shake128x4_absorb_x86_64 (in0 in1 in2 in3 : list Z) (inlen : Z)
  : M (list Z) :=
  s <- zero_x4 ;;
  keccak_absorb_x4_x86_64 s SHAKE128_RATE in0 in1 in2 in3 inlen 31.

(** fips202x4.c 74-80 *)
Definition shake256x4_absorb_x86_64 (in0 in1 in2 in3 : list Z) (inlen : Z)
  : M (list Z) :=
  s <- zero_x4 ;;
  keccak_absorb_x4_x86_64 s SHAKE256_RATE in0 in1 in2 in3 inlen 31.

(** fips202x4.c 83-97 *)
Definition shake128x4_squeezeblocks_x86_64 (out0 out1 out2 out3 : list Z) (nblocks : Z)
  (s : list Z) := keccak_squeezeblocks_x4_x86_64 out0 out1 out2 out3 nblocks s SHAKE128_RATE.
Definition shake256x4_squeezeblocks_x86_64 (out0 out1 out2 out3 : list Z) (nblocks : Z)
  (s : list Z) := keccak_squeezeblocks_x4_x86_64 out0 out1 out2 out3 nblocks s SHAKE256_RATE.

(** fips202x4.c 103-129 *)
Definition shake256x4_x86_64 (J : junk) (out0 out1 out2 out3 : list Z) (outlen : Z)
  (in0 in1 in2 in3 : list Z) (inlen : Z) : M (x4 (list Z)) :=
  nblocks <- div_c outlen SHAKE256_RATE ;;
  statex <- shake256x4_absorb_x86_64 in0 in1 in2 in3 inlen ;;
  '(out, statex) <- shake256x4_squeezeblocks_x86_64 out0 out1 out2 out3 nblocks statex ;;
  let '(out0, out1, out2, out3) := out in
  let pos := nblocks * SHAKE256_RATE in
  let outlen := u64 (outlen - nblocks * SHAKE256_RATE) in
  branch (negb (outlen =? 0))
    ('(tmp, statex) <- shake256x4_squeezeblocks_x86_64
        (uninit J 0 SHAKE256_RATE) (uninit J 1 SHAKE256_RATE)
        (uninit J 2 SHAKE256_RATE) (uninit J 3 SHAKE256_RATE) 1 statex ;;
     let '(tmp0, tmp1, tmp2, tmp3) := tmp in
     out0 <- memcpy out0 pos tmp0 0 outlen ;;
     out1 <- memcpy out1 pos tmp1 0 outlen ;;
     out2 <- memcpy out2 pos tmp2 0 outlen ;;
     out3 <- memcpy out3 pos tmp3 0 outlen ;;
     ret (out0, out1, out2, out3))
    (ret (out0, out1, out2, out3)).
