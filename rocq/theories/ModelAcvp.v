(** * The ACVP test program: test/acvp_mlkem.c

    The program returns its exit code and what it writes to standard output, character by character.
    Messages to standard error are left out. A string is the list of its characters without the
    terminating 0; the arguments of the program are outside the memory of the machine. A character is a
    number between 1 and 255: where char is signed, those above 127 are negative, but the program only
    compares characters with ranges of ASCII characters and tests them for equality.

    The buffers that the API functions get are in memory at the addresses of a [frame] (ModelTests.v):
    ek at pk_at, dk at sk_at, ct and c at ct_at, ss at key_b_at for encapsulation and at key_a_at for
    decapsulation. At [coins] there is zd; m is 64 bytes behind it. *)

From Coq Require Import ZArith List Bool Ascii String.
From Verif Require Import CSem ModelArith ModelKeccak ModelKem ModelTests ModelKat SpecMachine SpecBuilds.
Import ListNotations.
Open Scope Z_scope.
Open Scope list_scope.

Definition strlen (s : list Z) : Z := Z.of_nat (List.length s).
(** A string literal *)
Definition chars (s : string) : list Z := map (fun a => Z.of_nat (nat_of_ascii a)) (list_ascii_of_string s).

(** acvp_mlkem.c 36-54 *)
Definition decode_hex_char (hex : Z) : Z :=
  if (hex >=? 48) && (hex <=? 57) then u8 (hex - 48)
  else if (hex >=? 65) && (hex <=? 70) then u8 (10 + u8 (hex - 65))
  else if (hex >=? 97) && (hex <=? 102) then u8 (10 + u8 (hex - 97))
  else 255.

(** acvp_mlkem.c 56-101, which returns also the array [out]: written on a copy of the array, which the
    caller puts in its place. The pointers hex and out are [hex] + 2 i and [out] + i. *)
Definition decode_hex (prefix out : list Z) (out_len : Z) (hex : list Z) : M (Z * list Z) :=
  let hex_len := strlen hex in
  let prefix_len := strlen prefix in
  branch (hex_len <? prefix_len + 1) (ret (1, out))
    (b <- aslice hex 0 prefix_len ;;
     c <- memcmp prefix b ;;
     branch (negb (c =? 0)) (ret (1, out))
       (e <- aget hex prefix_len ;;
        branch (negb (e =? 61)) (ret (1, out))
          (hex <- aslice hex (prefix_len + 1) (hex_len - (prefix_len + 1)) ;;
           let hex_len := hex_len - (prefix_len + 1) in
           branch (negb (hex_len =? u64 (2 * out_len))) (ret (1, out))
             ('(_, out, usage) <- while (S (Z.to_nat out_len)) (fun '(i, out, usage) => (i <? out_len) && negb usage)
                (fun '(i, out, usage) =>
                   hex0 <- aget hex (2 * i) ;;
                   hex1 <- aget hex (2 * i + 1) ;;
                   let hex0 := decode_hex_char hex0 in
                   let hex1 := decode_hex_char hex1 in
                   branch ((hex0 =? 255) || (hex1 =? 255)) (ret (i, out, true))
                     (out <- aset out i (u8 (Z.lor (u32 (Z.shiftl hex0 4)) hex1)) ;;
                      ret (i + 1, out, false)))
                (0, out, false) ;;
              ret (if usage then 1 else 0, out))))).

(** What printf writes for %02X and an unsigned char *)
Definition hex_digit (x : Z) : Z := if x <? 10 then 48 + x else 65 + (x - 10).
Definition printf_02X (x : Z) : list Z := [hex_digit (x / 16); hex_digit (x mod 16)].
(** acvp_mlkem.c 103-114; the name is never NULL. *)
Definition print_hex (name raw : list Z) : list Z := name ++ chars "=" ++ flat_map printf_02X raw ++ [10].

(** acvp_mlkem.c 116-127. The result of crypto_kem_enc_derand is ignored. *)
Definition acvp_mlkem_encapDecp_AFT_encapsulation (T : kat_setting) (coins : Z) (J : junk) (m : mem) : M (list Z) :=
  let f := kat_frame T in let p := kat_set T in
  '(_, m, _) <- api_call (with_rng T (fun _ => 0)) J (EncDerand (ct_at f) (key_b_at f) (pk_at f) (coins + 2 * MLKEM_SYMBYTES)) m 0 ;;
  ct <- mload m (ct_at f) (MLKEM_CIPHERTEXTBYTES p) ;;
  ss <- mload m (key_b_at f) MLKEM_SSBYTES ;;
  ret (print_hex (chars "c") ct ++ print_hex (chars "k") ss).

(** acvp_mlkem.c 129-138. The result of crypto_kem_dec is ignored. *)
Definition acvp_mlkem_encapDecp_VAL_decapsulation (T : kat_setting) (J : junk) (m : mem) : M (list Z) :=
  let f := kat_frame T in
  '(_, m, _) <- api_call (with_rng T (fun _ => 0)) J (Dec (key_a_at f) (ct_at f) (sk_at f)) m 0 ;;
  ss <- mload m (key_a_at f) MLKEM_SSBYTES ;;
  ret (print_hex (chars "k") ss).

(** acvp_mlkem.c 140-154 *)
Definition acvp_mlkem_keyGen_AFT (T : kat_setting) (coins : Z) (J : junk) (z d : list Z) (m : mem) : M (list Z) :=
  let f := kat_frame T in let p := kat_set T in
  m <- mstore m coins d ;;
  m <- mstore m (coins + MLKEM_SYMBYTES) z ;;
  '(_, m, _) <- api_call (with_rng T (fun _ => 0)) J (KeypairDerand (pk_at f) (sk_at f) coins) m 0 ;;
  ek <- mload m (pk_at f) (MLKEM_INDCPA_PUBLICKEYBYTES p) ;;
  dk <- mload m (sk_at f) (MLKEM_SECRETKEYBYTES p) ;;
  ret (print_hex (chars "ek") ek ++ print_hex (chars "dk") dk).

(** The tests "argc == 0 || decode_hex(prefix, out, sizeof(out), *argv) != 0" with the array out, the
    way out, and the rest of the program (acvp_mlkem.c 245-257, 273-285, 304-316) *)
Definition take_argument (prefix out : list Z) (out_len : Z) (argv : list (list Z)) (next : list Z -> list (list Z) -> M (Z * list Z))
  : M (Z * list Z) :=
  match argv with
  | [] => ret (1, [])
  | arg :: argv =>
      '(r, out) <- decode_hex prefix out out_len arg ;;
      branch (negb (r =? 0)) (ret (1, [])) (next out argv)
  end.

Inductive acvp_mode := encapDecap | keyGen.
Inductive acvp_type := AFT | VAL.
Inductive acvp_encapDecap_function := encapsulation | decapsulation.
(** strcmp(a, b) == 0 *)
Definition strcmp_eq (a b : list Z) : bool := if list_eq_dec Z.eq_dec a b then true else false.

(** acvp_mlkem.c 235-262 *)
Definition case_encapsulation (T : kat_setting) (coins : Z) (J : junk) (type : acvp_type) (argv : list (list Z)) (m : mem)
  : M (Z * list Z) :=
  let f := kat_frame T in let p := kat_set T in
  match type with
  | VAL => ret (1, [])
  | AFT =>
      b <- mload m (pk_at f) (MLKEM_INDCPA_PUBLICKEYBYTES p) ;;
      take_argument (chars "ek") b (MLKEM_INDCPA_PUBLICKEYBYTES p) argv (fun ek argv =>
      m <- mstore m (pk_at f) ek ;;
      b <- mload m (coins + 2 * MLKEM_SYMBYTES) MLKEM_SYMBYTES ;;
      take_argument (chars "m") b MLKEM_SYMBYTES argv (fun msg argv =>
      m <- mstore m (coins + 2 * MLKEM_SYMBYTES) msg ;;
      out <- acvp_mlkem_encapDecp_AFT_encapsulation T coins J m ;;
      ret (0, out)))
  end.

(** acvp_mlkem.c 263-290 *)
Definition case_decapsulation (T : kat_setting) (J : junk) (type : acvp_type) (argv : list (list Z)) (m : mem)
  : M (Z * list Z) :=
  let f := kat_frame T in let p := kat_set T in
  match type with
  | AFT => ret (1, [])
  | VAL =>
      b <- mload m (sk_at f) (MLKEM_SECRETKEYBYTES p) ;;
      take_argument (chars "dk") b (MLKEM_SECRETKEYBYTES p) argv (fun dk argv =>
      m <- mstore m (sk_at f) dk ;;
      b <- mload m (ct_at f) (MLKEM_CIPHERTEXTBYTES p) ;;
      take_argument (chars "c") b (MLKEM_CIPHERTEXTBYTES p) argv (fun c argv =>
      m <- mstore m (ct_at f) c ;;
      out <- acvp_mlkem_encapDecp_VAL_decapsulation T J m ;;
      ret (0, out)))
  end.

(** acvp_mlkem.c 294-321 *)
Definition case_keyGen (T : kat_setting) (coins : Z) (J : junk) (type : acvp_type) (argv : list (list Z)) (m : mem)
  : M (Z * list Z) :=
  match type with
  | VAL => ret (1, [])
  | AFT =>
      take_argument (chars "z") (uninit J 0 MLKEM_SYMBYTES) MLKEM_SYMBYTES argv (fun z argv =>
      take_argument (chars "d") (uninit J 1 MLKEM_SYMBYTES) MLKEM_SYMBYTES argv (fun d argv =>
      out <- acvp_mlkem_keyGen_AFT T coins (sub J 2) z d m ;;
      ret (0, out)))
  end.

(** acvp_mlkem.c 156-343; argc is the length of [argv]. *)
Definition acvp_main (T : kat_setting) (coins : Z) (J : junk) (argv : list (list Z)) (m : mem) : M (Z * list Z) :=
  let usage := ret (1, []) in
  match argv with
  | [] => usage
  | _ :: argv =>
  match argv with
  | [] => usage
  | a :: argv =>
  let mode := if strcmp_eq a (chars "encapDecap") then Some encapDecap
              else if strcmp_eq a (chars "keyGen") then Some keyGen else None in
  match mode with
  | None => usage
  | Some mode =>
  match argv with
  | [] => usage
  | a :: argv =>
  let type := if strcmp_eq a (chars "AFT") then Some AFT else if strcmp_eq a (chars "VAL") then Some VAL else None in
  match type with
  | None => usage
  | Some type =>
  match mode with
  | encapDecap =>
      match argv with
      | [] => usage
      | a :: argv =>
      let function := if strcmp_eq a (chars "encapsulation") then Some encapsulation
                      else if strcmp_eq a (chars "decapsulation") then Some decapsulation else None in
      match function with
      | None => usage
      | Some encapsulation => case_encapsulation T coins J type argv m
      | Some decapsulation => case_decapsulation T J type argv m
      end
      end
  | keyGen => case_keyGen T coins J type argv m
  end
  end
  end
  end
  end
  end.
