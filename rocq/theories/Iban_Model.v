(** * IBANs: iban/iban.go *)
From Verif Require Import Base Lexer_Model.
Open Scope Z_scope.

(** [strings.ToUpper], used in New and Valid.  It works on the characters of a UTF-8
    string.  The images in the range 0..127 are those of the ASCII letters and of two
    others: U+0131 (bytes C4 B1) becomes "I" and U+017F (bytes C5 BF) becomes "S".  Bytes
    of other characters are left as they are here; Go maps such characters to characters
    outside of ASCII again, and no caller can tell the difference because the result is
    only used where it must be a decimal number after replacing "A".."Z". *)
Definition upper_byte (c : byte) : byte :=
  if (97 <=? zb c) && (zb c <=? 122)
  then match Byte.of_N (Byte.to_N c - 32) with Some d => d | None => c end
  else c.
Definition is_two (c d x y : byte) : bool := beq c x && beq d y.
Fixpoint upper (l : bytes) : bytes :=
  match l with
  | [] => []
  | c :: t =>
      match t with
      | [] => [upper_byte c]
      | d :: r =>
          if is_two c d "196" "177" then "I"%byte :: upper r
          else if is_two c d "197" "191" then "S"%byte :: upper r
          else upper_byte c :: upper t
      end
  end.

(** alphaToDigit, iban/iban.go:166-193 *)
Definition alpha_to_digit : list (byte * bytes) :=
  [("A"%byte, B "10"); ("B"%byte, B "11"); ("C"%byte, B "12"); ("D"%byte, B "13"); ("E"%byte, B "14");
   ("F"%byte, B "15"); ("G"%byte, B "16"); ("H"%byte, B "17"); ("I"%byte, B "18"); ("J"%byte, B "19");
   ("K"%byte, B "20"); ("L"%byte, B "21"); ("M"%byte, B "22"); ("N"%byte, B "23"); ("O"%byte, B "24");
   ("P"%byte, B "25"); ("Q"%byte, B "26"); ("R"%byte, B "27"); ("S"%byte, B "28"); ("T"%byte, B "29");
   ("U"%byte, B "30"); ("V"%byte, B "31"); ("W"%byte, B "32"); ("X"%byte, B "33"); ("Y"%byte, B "34");
   ("Z"%byte, B "35")].
(** transformLettersToDigits, iban/iban.go:157-164: a Replacer of single bytes *)
Definition transform_byte (c : byte) : bytes :=
  match find (fun e => beq (fst e) c) alpha_to_digit with
  | Some e => snd e
  | None => [c]
  end.
Definition transform (l : bytes) : bytes := flat_map transform_byte l.

(** ibanMaxLengthForCountry, iban/iban.go:195-271 *)
Definition max_lengths : list (bytes * Z) :=
  [(B "AL", 28); (B "AD", 24); (B "AZ", 28); (B "BH", 22); (B "BE", 16); (B "BA", 20); (B "BR", 29); (B
   "VG", 24); (B "BG", 22); (B "CR", 22); (B "DK", 18); (B "DE", 22); (B "DO", 28); (B "SV", 28); (B
   "EE", 20); (B "FO", 18); (B "FI", 18); (B "FR", 27); (B "GE", 22); (B "GI", 23); (B "GR", 27); (B
   "GL", 18); (B "GB", 22); (B "GT", 28); (B "IQ", 23); (B "IE", 22); (B "IS", 26); (B "IL", 23); (B
   "IT", 27); (B "JO", 30); (B "KZ", 20); (B "QA", 29); (B "XK", 20); (B "HR", 21); (B "KW", 30); (B
   "LV", 21); (B "LB", 28); (B "LI", 21); (B "LT", 20); (B "LU", 20); (B "MT", 31); (B "MR", 27); (B
   "MU", 30); (B "MK", 19); (B "MD", 24); (B "MC", 27); (B "ME", 22); (B "NL", 18); (B "NO", 15); (B
   "AT", 20); (B "PK", 24); (B "PS", 29); (B "PL", 28); (B "PT", 25); (B "RO", 24); (B "LC", 32); (B
   "SM", 27); (B "ST", 25); (B "SA", 24); (B "SE", 24); (B "CH", 21); (B "RS", 22); (B "SC", 31); (B
   "SK", 24); (B "SI", 19); (B "ES", 24); (B "TL", 23); (B "TR", 26); (B "CZ", 24); (B "TN", 24); (B
   "UA", 29); (B "HU", 28); (B "AE", 23); (B "BY", 28); (B "CY", 28)].
(** The lookup in iban/iban.go:44-47; maxAllowedIBANLength is 34 (line 12). *)
Definition max_length (cc : bytes) : Z :=
  match find (fun e => bytes_eqb (fst e) cc) max_lengths with
  | Some e => snd e
  | None => 34
  end.

(** [new(big.Int).SetString(s, 10)]: an optional sign and decimal digits only. *)
Definition set_string (l : bytes) : option Z :=
  match l with
  | c :: ds =>
      if beq c b_minus then option_map (fun n => - Z.of_N n) (atoi_digits ds)
      else if beq c b_plus then option_map Z.of_N (atoi_digits ds)
      else option_map Z.of_N (atoi_digits l)
  | [] => None
  end.

(** New, iban/iban.go:38-67.  [Mod] of big.Int is the Euclidean one, as [Z.modulo] by a
    positive number. *)
Definition new_iban (cc bban : bytes) : outcome bytes :=
  if negb (len cc =? 2) then Err
  else
    let cc := upper cc in
    if len bban =? 0 then Err
    else if max_length cc - 4 <? len bban then Err
    else
      let bban := upper bban in
      match set_string (transform bban ++ transform cc ++ B "00") with
      | None => Err
      | Some n => Ok (cc ++ itoa_pad 2 (98 - n mod 97) ++ bban)
      end.

(** NewGerman, iban/iban.go:27-35 *)
Definition new_german (bank_id account_id : bytes) : outcome bytes :=
  let account_id := if len account_id =? 9 then b_zero :: account_id else account_id in
  new_iban (B "DE") (bank_id ++ account_id).

(** The slices [i[:2]], [i[2:4]], [i[4:]], [i[4:12]], [i[12:]] of CountryCode,
    ProofNumber, BBAN, BankID and AccountID (iban/iban.go:89-114); they panic on IBANs
    that are too short. *)
Definition slice (a b : Z) (l : bytes) : outcome bytes :=
  if len l <? b then Panic else Ok (firstn (Z.to_nat (b - a)) (skipn (Z.to_nat a) l)).
Definition slice_from (a : Z) (l : bytes) : outcome bytes :=
  if len l <? a then Panic else Ok (skipn (Z.to_nat a) l).
Definition country_code (i : bytes) : outcome bytes := slice 0 2 i.
Definition proof_number (i : bytes) : outcome bytes := slice 2 4 i.
Definition bban_of (i : bytes) : outcome bytes := slice_from 4 i.
Definition bank_id_of (i : bytes) : outcome bytes := slice 4 12 i.
Definition account_id_of (i : bytes) : outcome bytes :=
  do a <- slice_from 12 i; Ok (trim_left b_zero a).

(** From, iban/iban.go:71-83 *)
Definition from (input : bytes) : outcome bytes :=
  do cc <- slice 0 2 input;
  do proof <- slice 2 4 input;
  do bban <- slice_from 4 input;
  do i <- new_iban cc bban;
  do p <- proof_number i;
  if bytes_eqb proof p then Ok i else Err.

(** Valid, iban/iban.go:117-135 *)
Definition valid (i : bytes) : outcome bool :=
  if 34 <? len i then Ok false
  else
    do cc <- country_code i;
    do bban <- bban_of i;
    do proof <- proof_number i;
    match set_string (transform (upper bban) ++ transform (upper cc) ++ proof) with
    | None => Ok false
    | Some n => Ok (n mod 97 =? 1)
    end.

(** IsValid, iban/iban.go:15-21 *)
Definition is_valid (input : bytes) : outcome bool :=
  match from input with
  | Panic => Panic
  | Err => Ok false
  | Ok i => valid i
  end.

(** Print, iban/iban.go:144-155.  The spaces of the first loop, the groups of the second,
    and [strings.TrimSpace] of which only the ASCII white space is modelled. *)
Definition b_space : byte := "032".
Definition fill4 (l : bytes) : bytes :=
  l ++ repeat b_space (Nat.modulo (4 - Nat.modulo (List.length l) 4) 4).
Fixpoint groups (l : bytes) : bytes :=
  match l with
  | a :: b :: c :: d :: r => a :: b :: c :: d :: b_space :: groups r
  | _ => []
  end.
Definition is_space (c : byte) : bool := ((9 <=? zb c) && (zb c <=? 13)) || (zb c =? 32).
Fixpoint trim_space_left (l : bytes) : bytes :=
  match l with
  | [] => []
  | c :: r => if is_space c then trim_space_left r else l
  end.
Definition trim_space (l : bytes) : bytes := rev (trim_space_left (rev (trim_space_left l))).
Definition print (i : bytes) : bytes := trim_space (groups (fill4 i)).
