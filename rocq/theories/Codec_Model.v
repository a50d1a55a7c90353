(** * Model of charset/convert.go and of the basic data elements of
      element/data_element.go

    A Go [string] is its UTF-8 (or arbitrary) bytes.  Not modelled here: float
    values (see Amount_Model), reflection details, YAML, the element type tag. *)
From Verif Require Import Base.
Open Scope Z_scope.

(** ** charset/convert.go *)

Definition byte_of_Z (z : Z) : byte :=
  match Byte.of_N (Z.to_N z) with Some b => b | None => b_nul end.

(** charset/convert.go:19-23 ToUTF8: golang.org/x/text charmap.ISO8859_1
    decoder; byte b is the character U+00b, encoded in one or two bytes. *)
Definition utf8_of_latin1 (b : byte) : bytes :=
  if zb b <? 128 then [b]
  else [byte_of_Z (192 + zb b / 64); byte_of_Z (128 + zb b mod 64)].
Definition to_utf8 (l : bytes) : bytes := flat_map utf8_of_latin1 l.

(** charset/convert.go:32-36 ToISO8859_1: charmap.ISO8859_1 encoder; an error
    (character above U+00FF or invalid UTF-8) becomes a panic by mustConvert
    (lines 5-10).  Lead bytes C2 and C3 are the only ones of characters
    U+0080..U+00FF; C0 and C1 are invalid UTF-8. *)
Fixpoint to_latin1 (s : bytes) : outcome bytes :=
  match s with
  | [] => Ok []
  | b :: r =>
      if zb b <? 128 then do l <- to_latin1 r; Ok (b :: l)
      else match r with
           | c :: r' =>
               if (128 <=? zb c) && (zb c <? 192) then
                 if zb b =? 194 then do l <- to_latin1 r'; Ok (c :: l)
                 else if zb b =? 195 then do l <- to_latin1 r'; Ok (byte_of_Z (zb c + 64) :: l)
                 else Panic
               else Panic
           | [] => Panic
           end
  end.

(** ** element/data_element.go *)

Definition is_syntax (c : byte) : bool :=
  beq c b_qmark || beq c b_at || beq c b_quote || beq c b_colon || beq c b_plus.

(** element/data_element.go:223-226 escape *)
Definition escape (s : bytes) : bytes :=
  flat_map (fun c => if is_syntax c then [b_qmark; c] else [c]) s.

(** element/data_element.go:228-231 unescape: strings.NewReplacer works left to
    right without overlaps; a '?' before another character stays. *)
Fixpoint unescape (s : bytes) : bytes :=
  match s with
  | [] => []
  | c :: r =>
      if beq c b_qmark then
        match r with
        | d :: r' => if is_syntax d then d :: unescape r' else c :: unescape r
        | [] => [c]
        end
      else c :: unescape r
  end.

(** element/data_element.go:258-262 (AlphaNumeric), 287-290 (Text); promoted by
    Identification (650-652), Currency (714-716) and Code (529-532). *)
Definition marshal_text (v : bytes) : outcome bytes := to_latin1 (escape v).
(** lines 265-270, 293-298, 659-668, 723-732, 550-553 *)
Definition unmarshal_text (w : bytes) : bytes := unescape (to_utf8 w).

(** element/data_element.go:59-60 basicDataElement.IsValid/Length: the length is
    the one of the unescaped Go string in bytes. *)
Definition valid_length (v : bytes) (max : Z) : bool := Z.of_nat (List.length v) <=? max.
(** lines 247-252 AlphaNumericDataElement.IsValid: ContainsAny(v, "\n & \r") *)
Definition alnum_invalid_char (c : byte) : bool :=
  beq c b_lf || beq c " "%byte || beq c "&"%byte || beq c b_cr.
Definition alnum_valid (v : bytes) (max : Z) : bool :=
  negb (existsb alnum_invalid_char v) && valid_length v max.

(** element/data_element.go:316-324 DigitDataElement, format "%0<w>d" (widths up
    to fmt's limit of 10^6), and 346-350 NumberDataElement, format "%v". *)
Definition marshal_digit (w : nat) (z : Z) : outcome bytes := to_latin1 (itoa_pad w z).
Definition marshal_number (z : Z) : outcome bytes := to_latin1 (itoa z).
(** lines 327-334 and 353-360: strconv.Atoi(charset.ToUTF8(value)) *)
Definition unmarshal_int (w : bytes) : outcome Z := atoi (to_utf8 w).

(** lines 700-708 CountryCodeDataElement.UnmarshalHBCI: an error is swallowed and
    the element stays without a value ([None]; its Val then dereferences nil). *)
Definition unmarshal_country (w : bytes) : outcome (option Z) :=
  match unmarshal_int w with
  | Ok z => Ok (Some z)
  | Err => Ok None
  | Panic => Panic
  end.

(** lines 444-450 BinaryDataElement.MarshalHBCI *)
Definition marshal_binary (data : bytes) : outcome bytes :=
  do h <- to_latin1 (b_at :: itoa (Z.of_nat (List.length data)) ++ [b_at]);
  Ok (h ++ data).

(** bytes.Buffer.ReadString('@'): the bytes before the first '@' and the rest. *)
Fixpoint read_until_at (s : bytes) : option (bytes * bytes) :=
  match s with
  | [] => None
  | c :: r => if beq c b_at then Some ([], r)
              else match read_until_at r with
                   | Some (a, t) => Some (c :: a, t)
                   | None => None
                   end
  end.

(** [make([]byte, n)]: panics for negative sizes and above the 2^48 byte address
    space limit of the Go runtime.  (Running out of memory below that is not
    modelled.) *)
Definition make_ok (n : Z) : bool := (0 <=? n) && (n <=? 2 ^ 48).

(** lines 453-478 BinaryDataElement.UnmarshalHBCI.  Buffer.Read copies what is
    there; the rest of the freshly made slice stays zero. *)
Definition unmarshal_binary (value : bytes) : outcome bytes :=
  match value with
  | [] => Err                                   (* ReadRune: EOF *)
  | c :: r =>
      if negb (beq c b_at) then Err
      else match read_until_at r with
           | None => Err                        (* ReadString: EOF *)
           | Some (size, rest) =>
               match atoi size with
               | Ok n =>
                   if negb (make_ok n) then Panic
                   else match rest with
                        | [] => if n =? 0 then Ok [] else Err   (* Read: EOF *)
                        | _ =>
                            let k := Z.to_nat n in
                            Ok (firstn k rest ++ repeat b_nul (k - List.length rest))
                        end
               | _ => Err
               end
           end
  end.

(** lines 490-512 BooleanDataElement *)
Definition marshal_bool (b : bool) : outcome bytes := to_latin1 (if b then B "J" else B "N").
Definition unmarshal_bool (w : bytes) : outcome bool :=
  if bytes_eqb (to_utf8 w) (B "J") then Ok true
  else if bytes_eqb (to_utf8 w) (B "N") then Ok false
  else Err.

(** ** time.Time.Format and time.Parse for the layouts "20060102" and "150405" *)

(** Go package time: isLeap, daysIn. *)
Definition is_leap (y : Z) : bool :=
  (y mod 4 =? 0) && (negb (y mod 100 =? 0) || (y mod 400 =? 0)).
Definition days_in (m y : Z) : Z :=
  if m =? 2 then (if is_leap y then 29 else 28)
  else if (m =? 4) || (m =? 6) || (m =? 9) || (m =? 11) then 30 else 31.

Record date := mkDate { d_year : Z; d_month : Z; d_day : Z }.
Record tod := mkTod { t_hour : Z; t_min : Z; t_sec : Z }.

(** time.appendInt(b, x, width) *)
Definition append_int (w : nat) (x : Z) : bytes :=
  if x <? 0 then b_minus :: pad_left w (itoa_N (Z.to_N (- x))) else pad_left w (itoa_N (Z.to_N x)).

(** element/data_element.go:572-579, layout "20060102" *)
Definition format_date (d : date) : bytes :=
  append_int 4 (d_year d) ++ append_int 2 (d_month d) ++ append_int 2 (d_day d).
(** element/data_element.go:632-639, layout "150405" *)
Definition format_time (t : tod) : bytes :=
  append_int 2 (t_hour t) ++ append_int 2 (t_min t) ++ append_int 2 (t_sec t).

(** time.getnum(s, true): exactly two digits. *)
Definition getnum2 (s : bytes) : option (Z * bytes) :=
  match s with
  | a :: b :: r => if is_digit a && is_digit b
                   then Some (Z.of_N (dec_val [a; b]), r) else None
  | _ => None
  end.
(** time.Parse, stdLongYear: four bytes, the first a digit, then time.atoi (which
    would accept a sign only in first position). *)
Definition getyear (s : bytes) : option (Z * bytes) :=
  match s with
  | a :: b :: c :: d :: r =>
      if forallb is_digit [a; b; c; d] then Some (Z.of_N (dec_val [a; b; c; d]), r) else None
  | _ => None
  end.

(** element/data_element.go:582-589 DateDataElement.UnmarshalHBCI *)
Definition parse_date (s : bytes) : outcome date :=
  match getyear s with
  | None => Err
  | Some (y, s1) =>
      match getnum2 s1 with
      | None => Err
      | Some (m, s2) =>
          if (m <=? 0) || (12 <? m) then Err
          else match getnum2 s2 with
               | None => Err
               | Some (d, s3) =>
                   match s3 with
                   | [] => if (d <? 1) || (days_in m y <? d) then Err else Ok (mkDate y m d)
                   | _ => Err
                   end
               end
      end
  end.
Definition marshal_date (d : date) : outcome bytes := to_latin1 (format_date d).
Definition unmarshal_date (w : bytes) : outcome date := parse_date (to_utf8 w).

(** The fraction time.Parse accepts after the seconds although the layout has
    none: '.' or ',' and at least one digit.  Only its extent matters, the
    nanoseconds are not modelled. *)
Fixpoint skip_digits (s : bytes) : bytes :=
  match s with c :: r => if is_digit c then skip_digits r else s | [] => [] end.
Definition skip_fraction (s : bytes) : bytes :=
  match s with
  | c :: d :: r => if (beq c b_comma || beq c "."%byte) && is_digit d then skip_digits r else s
  | _ => s
  end.

(** element/data_element.go:642-649 TimeDataElement.UnmarshalHBCI.  stdHour uses
    getnum(s, false), which may take a single digit, but then the two digit
    minute that must follow fails; so two digits are required here too. *)
Definition parse_time (s : bytes) : outcome tod :=
  match getnum2 s with
  | None => Err
  | Some (h, s1) =>
      if 24 <=? h then Err
      else match getnum2 s1 with
           | None => Err
           | Some (mi, s2) =>
               if 60 <=? mi then Err
               else match getnum2 s2 with
                    | None => Err
                    | Some (se, s3) =>
                        if 60 <=? se then Err
                        else match skip_fraction s3 with
                             | [] => Ok (mkTod h mi se)
                             | _ => Err
                             end
                    end
           end
  end.
Definition marshal_time (t : tod) : outcome bytes := to_latin1 (format_time t).
Definition unmarshal_time (w : bytes) : outcome tod := parse_time (to_utf8 w).
