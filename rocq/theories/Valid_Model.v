(** * Model of IsValid and Length of data elements

    element/data_element.go and the constructors of the groups.  IsValid is a method of
    the public interface DataElement; nothing in the repository calls it when a message is
    made or read.  The element types that Wire_Model.v puts together (because they marshal
    the same way) differ here, and elements carry their maximal length.

    Methods of an embedded struct see that struct only: [basicDataElement.IsValid] measures
    the text fmt's %v gives for the value (data_element.go:62-64), whatever String() or
    MarshalHBCI of the outer type are.

    Not modelled: the optional flag, Type(), MarshalYAML, and the groups with results of
    tan.go and pin.go that are filled by reading only. *)
From Verif Require Import Base Lexer_Model Codec_Model Wire_Model Time_Model Seg_Model Request_Model.
Open Scope Z_scope.

(** ** fmt.Sprintf("%v", value), element/data_element.go:64 *)

(** of a []byte: the numbers in decimal *)
Definition bytes_v (d : bytes) : bytes :=
  "["%byte :: join [" "%byte] (map (fun b => itoa_N (Byte.to_N b)) d) ++ ["]"%byte].
(** of a bool *)
Definition bool_v (b : bool) : bytes := if b then B "true" else B "false".
(** of a float64: %g with the shortest digits, which is the exponent form below 1e-4 and from
    1e6 on (strconv/ftoa.go, [eprec] 6).  [zeros]: without the leading zeros *)
Fixpoint zeros (s : bytes) : bytes :=
  match s with c :: r => if beq c b_zero then zeros r else s | [] => [] end.
Definition sign_v (neg : bool) : bytes := if neg then [b_minus] else [].
Definition exponent_v (e : Z) : bytes :=
  "e"%byte :: (if e <? 0 then b_minus else "+"%byte) :: pad_left 2 (itoa (Z.abs e)).
Definition float_v (f : gofloat) : bytes :=
  match f with
  | FNum neg i frac =>
      let all := itoa_N i ++ frac in
      let tail := zeros all in                                  (* first digit not 0 *)
      let exp := Z.of_nat (List.length (itoa_N i)) - (Z.of_nat (List.length all) - Z.of_nat (List.length tail)) - 1 in
      match rev (zeros (rev tail)) with                         (* and last digit not 0 *)
      | [] => sign_v neg ++ [b_zero]
      | d :: ds =>
          if (exp <? -4) || (6 <=? exp) then
            sign_v neg ++ d :: match ds with [] => [] | _ => "."%byte :: ds end ++ exponent_v exp
          else format_float f
      end
  | _ => format_float f
  end.

(** ** Sets of codes: sort.Strings and sort.SearchStrings *)
Fixpoint str_leb (a b : bytes) : bool :=
  match a, b with
  | [], _ => true
  | _, [] => false
  | x :: a', y :: b' => if (Byte.to_N x <? Byte.to_N y)%N then true else beq x y && str_leb a' b'
  end.
Fixpoint insert_str (s : bytes) (l : list bytes) : list bytes :=
  match l with [] => [s] | t :: r => if str_leb s t then s :: l else t :: insert_str s r end.
(** sort.Strings.  Simplification: the algorithm; there is one sorted arrangement only. *)
Definition sort_strings (l : list bytes) : list bytes := fold_right insert_str [] l.
(** sort.Search(n, f): binary search; the interval halves, so its length is enough fuel *)
Fixpoint search (fuel : nat) (f : nat -> bool) (i j : nat) : nat :=
  match fuel with
  | O => i
  | S k => if Nat.ltb i j then
             let h := Nat.div2 (i + j) in
             if f h then search k f i h else search k f (S h) j
           else i
  end.
Definition search_strings (l : list bytes) (v : bytes) : nat :=
  search (List.length l) (fun h => str_leb v (nth h l [])) 0 (List.length l).

(** ** Elements: [VAlnum] is AlphaNumeric and Identification, [VInt] is Digit, Number,
    CountryCode and VirtualDate, [VBinary] also DtausCharset, [VFloat] also Value,
    [VMoment] Date and Time (a time.Time as date and time of day in UTC; nanoseconds are
    not modelled).  A group has the count given to its constructor, the positions its own
    IsValid demands, and its elements, of which nil ones are [None]; an array has its
    bounds.  [VUnset] is an element whose embedded element is nil. *)
Inductive velem :=
| VAlnum (max : Z) (v : bytes)
| VText (max : Z) (v : bytes)
| VInt (padded : bool) (max : Z) (z : Z)
| VFloat (max : Z) (f : gofloat)
| VBinary (max : Z) (d : bytes)
| VBool (b : bool)
| VCode (set : list bytes) (max : Z) (v : bytes)
| VCurrency (v : bytes)
| VMoment (time : bool) (d : date) (t : tod)
| VGroup (count : Z) (needed : list nat) (es : list (option velem))
| VArray (min max : Z) (es : list velem)
| VUnset.

(** element/data_element.go:63 Length of the basic elements, 123-131 of groups *)
Fixpoint length_v (e : velem) : outcome Z :=
  let sum := fix sum (l : list (option velem)) : outcome Z :=
    match l with
    | [] => Ok 0
    | None :: r => sum r
    | Some x :: r => do n <- length_v x; do m <- sum r; Ok (n + m)
    end in
  let total := fix total (l : list velem) : outcome Z :=
    match l with [] => Ok 0 | x :: r => do n <- length_v x; do m <- total r; Ok (n + m) end in
  match e with
  | VAlnum _ v | VText _ v | VCode _ _ v | VCurrency v => Ok (len v)
  | VInt _ _ z => Ok (len (itoa z))
  | VFloat _ f => Ok (len (float_v f))
  | VBinary _ d => Ok (len (bytes_v d))
  | VBool b => Ok (len (bool_v b))
  | VMoment _ _ _ => Err       (* %v of a time.Time names the zone and is not modelled *)
  | VGroup _ _ es => sum es
  | VArray _ _ es => total es
  | VUnset => Panic
  end.

(** time.Time.IsZero *)
Definition is_zero_moment (d : date) (t : tod) : bool :=
  is_zero d && (t_hour t =? 0) && (t_min t =? 0) && (t_sec t =? 0).

Definition present (es : list (option velem)) (i : nat) : bool :=
  match nth i es None with Some _ => true | None => false end.
(** IsValid: element/data_element.go:62 (basic), 247-252 (alphanumeric), 542-547 (code),
    591-593 (date), 649-651 (time), 725-727 (currency), 109-121 (group), 207-212 (array),
    element/segment_header.go:58-63, element/message.go:40-45, element/acknowledgement.go:80-85
    (what they demand beyond the group). *)
Fixpoint valid (e : velem) : outcome bool :=
  let every := fix every (l : list (option velem)) : outcome bool :=
    match l with
    | [] => Ok true
    | None :: r => every r
    | Some x :: r => do b <- valid x; if b then every r else Ok false
    end in
  let each := fix each (l : list velem) : outcome bool :=
    match l with [] => Ok true | x :: r => do b <- valid x; if b then each r else Ok false end in
  match e with
  | VAlnum max v => Ok (alnum_valid v max)
  | VText max v => Ok (valid_length v max)
  | VInt _ max z => Ok (valid_length (itoa z) max)
  | VFloat max f => Ok (valid_length (float_v f) max)
  | VBinary max d => Ok (valid_length (bytes_v d) max)
  | VBool b => Ok (valid_length (bool_v b) 1)
  | VCode set max v =>
      if Nat.leb (List.length set) (search_strings (sort_strings set) v) then Ok false else Ok (alnum_valid v max)
  | VCurrency v => Ok (len v =? 3)
  | VMoment _ d t => Ok (negb (is_zero_moment d t))
  | VGroup count needed es =>
      if forallb (present es) needed then
        if count =? Z.of_nat (List.length es) then every es else Ok false
      else Ok false
  | VArray min max es =>
      let n := Z.of_nat (List.length es) in
      if (n <? min) || (max <? n) then Ok false else each es
  | VUnset => Panic
  end.

(** element/data_element.go:609-611: the other validity test of virtual dates *)
Definition virtual_date_valid (z : Z) : bool := len (itoa z) =? 8.

(** What the element is for MarshalHBCI: Wire_Model.v.  (MarshalHBCI of [VUnset] panics;
    no constructor below has one.) *)
Fixpoint wire (e : velem) : option delem :=
  match e with
  | VAlnum _ v | VText _ v | VCode _ _ v | VCurrency v => Some (DE (EText v))
  | VInt padded max z => Some (DE (if padded then EDigit (Z.to_nat max) z else ENumber z))
  | VFloat _ f => Some (DE (EFloat f))
  | VBinary _ d => Some (DE (EBinary d))
  | VBool b => Some (DE (EBool b))
  | VMoment time d t => Some (DE (if time then ETime t else EDate d))
  | VGroup _ _ es => Some (DEG (map (fun o => match o with Some x => wire x | None => None end) es))
  | VArray _ _ es => Some (DEG (map wire es))
  | VUnset => None
  end.

(** ** Constructors of basic elements *)
(** element/data_element.go:654-658 *)
Definition new_id (v : bytes) : velem := VAlnum 30 v.
(** lines 337-339; 682-686 *)
Definition new_number (z max : Z) : velem := VInt false max z.
Definition new_country (z : Z) : velem := VInt true 3 z.
(** lines 746-750 *)
Definition new_value (f : gofloat) : velem := VFloat 15 f.
(** lines 521-527: the set is sorted in place, so the caller's slice changes as well.
    Returns the element and the caller's slice afterwards.  ([VCode] has the set as it was
    given, and [valid] sorts it; a caller that changes the slice later is not modelled.) *)
Definition new_code (v : bytes) (max : Z) (set : list bytes) : velem * list bytes :=
  (VCode set max v, sort_strings set).

(** ** What UnmarshalHBCI leaves in a basic element: the maximal length is the length read *)
(** lines 265-270 *)
Definition read_alnum (w : bytes) : velem := VAlnum (len (unmarshal_text w)) (unmarshal_text w).
(** lines 293-298 *)
Definition read_text (w : bytes) : velem := VText (len (unmarshal_text w)) (unmarshal_text w).
(** lines 326-333, 352-359 *)
Definition read_int (padded : bool) (w : bytes) : outcome velem := omap (VInt padded (len w)) (unmarshal_int w).
(** lines 454-480 *)
Definition read_binary (w : bytes) : outcome velem := omap (fun d => VBinary (len d) d) (unmarshal_binary w).
(** lines 507-517 *)
Definition read_bool (w : bytes) : outcome velem := omap VBool (unmarshal_bool w).
(** lines 552-555: there is no set in a new element *)
Definition read_code (w : bytes) : velem := VCode [] (len (unmarshal_text w)) (unmarshal_text w).
(** lines 735-743 *)
Definition read_currency (w : bytes) : velem := VCurrency (unmarshal_text w).
(** lines 581-588; 639-646: time.Parse sets the parts that are not in the layout to
    midnight and to the 1st of January of the year 0 *)
Definition read_date (w : bytes) : outcome velem := omap (fun d => VMoment false d (mkTod 0 0 0)) (unmarshal_date w).
Definition read_time (w : bytes) : outcome velem := omap (VMoment true (mkDate 0 1 1)) (unmarshal_time w).
(** lines 702-710: an error is swallowed, and the embedded element stays nil *)
Definition read_country (w : bytes) : velem := match unmarshal_int w with Ok z => VInt true (len w) z | _ => VUnset end.

(** ** Constructors of groups *)
(** element/group_data_element_group.go:15-22 *)
Definition v_amount (f : gofloat) (currency : bytes) : velem := VGroup 2 [] [Some (new_value f); Some (VCurrency currency)].
(** lines 71-78 *)
Definition v_bank (b : bank_ref) : velem := VGroup 2 [] [Some (new_country (bank_country b)); Some (VAlnum 30 (bank_code b))].
(** lines 123-132 *)
Definition v_connection (a : account_connection) : velem :=
  VGroup 4 [] [Some (new_id (ac_account a)); Some (new_id (ac_sub a)); Some (new_country (ac_country a)); Some (VAlnum 30 (ac_bank a))].
(** lines 187-197 *)
Definition v_intl (a : intl_connection) : velem :=
  VGroup 5 [] [Some (VAlnum 34 (ic_iban a)); Some (VAlnum 11 (ic_bic a)); Some (new_id (ic_account a)); Some (new_id (ic_sub a));
               Some (v_bank (ic_bank a))].
(** lines 290-308; [magnitude] is math.Abs of the amount, [negative] whether it is below 0 *)
Definition v_balance (negative : bool) (magnitude : gofloat) (currency : bytes) (d : date) (t : tod) (with_time : bool) : velem :=
  VGroup 5 [] [Some (VAlnum 1 (if negative then B "D" else B "C")); Some (new_value magnitude); Some (VCurrency currency);
               Some (VMoment false d t); if with_time then Some (VMoment true d t) else None].
(** lines 400-415 *)
Definition v_address (name1 name2 street plz city : bytes) (country : Z) (phone fax email : bytes) : velem :=
  VGroup 9 [] [Some (VAlnum 35 name1); Some (VAlnum 35 name2); Some (VAlnum 35 street); Some (VAlnum 10 plz); Some (VAlnum 35 city);
               Some (new_country country); Some (VAlnum 35 phone); Some (VAlnum 35 fax); Some (VAlnum 35 email)].
(** element/segment_header.go:7-22, 58-73 *)
Definition v_header (id : bytes) (pos version : Z) (ref : option Z) : velem :=
  VGroup 4 [0; 1; 2]%nat [Some (VAlnum 6 id); Some (new_number pos 3); Some (new_number version 3); option_map (fun r => new_number r 3) ref].
(** element/message.go:13-20, 40-45 *)
Definition v_reference (dialog : bytes) (number : Z) : velem := VGroup 2 [0; 1]%nat [Some (new_id dialog); Some (new_number number 4)].
(** element/acknowledgement.go:126-132 with the bounds of line 23 *)
Definition v_params (ps : list bytes) : velem := VArray 10 10 (map (VAlnum 35) ps).
(** element/acknowledgement.go:18-27, 80-85 *)
Definition v_ack (code : Z) (reference text_ : bytes) (ps : list bytes) : velem :=
  VGroup 4 [0; 2]%nat [Some (VInt true 4 code); Some (VAlnum 7 reference); Some (VAlnum 80 text_); Some (v_params ps)].
(** element/signature.go:19-34, for the message's sender *)
Definition v_security_id (system : bytes) : velem := VGroup 3 [] [Some (VAlnum 3 (B "1")); None; Some (new_id system)].
(** element/signature.go:96-112, for a time stamp *)
Definition v_security_date (at_ : date * tod) : velem :=
  VGroup 3 [] [Some (VAlnum 3 (B "1")); Some (VMoment false (fst at_) (snd at_)); Some (VMoment true (fst at_) (snd at_))].
(** element/signature.go:167-175; 242-250 *)
Definition v_hash : velem := VGroup 4 [] [Some (VAlnum 3 (B "1")); Some (VAlnum 3 (B "999")); Some (VAlnum 3 (B "1")); None].
Definition v_sig_algorithm : velem := VGroup 3 [] [Some (VAlnum 3 (B "6")); Some (VAlnum 3 (B "10")); Some (VAlnum 3 (B "16"))].
(** element/signature.go:309-319 *)
Definition v_key_name (b : bank_ref) (user type_ : bytes) (number version : Z) : velem :=
  VGroup 5 [] [Some (v_bank b); Some (new_id user); Some (VAlnum 1 type_); Some (new_number number 3); Some (new_number version 3)].
(** element/signature_fints3.go:7-14 *)
Definition v_profile (method : Z) : velem := VGroup 2 [] [Some (VAlnum 3 (B "PIN")); Some (new_number method 3)].
(** element/encryption.go:7-18; 22-33 *)
Definition v_enc_algorithm (key param : bytes) : velem :=
  VGroup 7 [] [Some (VAlnum 3 (B "2")); Some (VAlnum 3 (B "2")); Some (VAlnum 3 (B "13")); Some (VBinary 512 key);
               Some (VAlnum 3 param); Some (VAlnum 3 (B "1")); None].
(** element/pin.go:14-26 ([pin_max] 99, [tan_max] 99) and 34-43 (6 and 35) *)
Definition v_pin_tan (pin_max tan_max : Z) (pin tan : bytes) : velem :=
  VGroup 2 [] [Some (VAlnum pin_max pin); match tan with [] => None | _ => Some (VAlnum tan_max tan) end].
(** element/key_management.go:11-26 for the exponent it does not panic on *)
Definition v_public_key (type_ modulus : bytes) : velem :=
  VGroup 7 [] [Some (VAlnum 3 type_); Some (VAlnum 3 (B "16")); Some (VAlnum 3 (B "10")); Some (VBinary 512 modulus);
               Some (VAlnum 3 (B "12")); Some (VBinary 512 (B "65537")); Some (VAlnum 3 (B "13"))].
(** element/signature.go:406-413 *)
Definition v_certificate (typ : Z) (content : bytes) : velem := VGroup 2 [] [Some (new_number typ 1); Some (VBinary 2048 content)].
(** element/communication_access.go:6-16 *)
Definition v_communication (protocol : Z) (address addition filter : bytes) (version : Z) : velem :=
  VGroup 5 [] [Some (new_number protocol 2); Some (VAlnum 512 address); Some (VAlnum 512 addition); Some (VAlnum 3 filter);
               Some (new_number version 3)].
(** element/user_parameter_data.go:11-19 *)
Definition v_limit (kind : bytes) (f : gofloat) (currency : bytes) (days : Z) : velem :=
  VGroup 3 [] [Some (VAlnum 1 kind); Some (v_amount f currency); Some (new_number days 3)].
(** element/user_parameter_data.go:104-116; 56-65 *)
Definition v_transaction (id : bytes) (signatures : Z) (limit : option (bytes * gofloat * bytes * Z)) : velem :=
  VGroup 5 [] (Some (VAlnum 6 id) :: Some (new_number signatures 2) ::
    match limit with
    | Some (kind, f, currency, days) => [Some (VAlnum 1 kind); Some (v_amount f currency); Some (new_number days 3)]
    | None => [None; None; None]
    end).
Definition v_transactions (l : list (bytes * Z * option (bytes * gofloat * bytes * Z))) : velem :=
  VArray 0 999 (map (fun x => v_transaction (fst (fst x)) (snd (fst x)) (snd x)) l).
(** element/bank_parameter_data.go:193-207 *)
Definition v_pin_jobs (l : list (bytes * bool)) : velem :=
  let n := Z.of_nat (List.length l) in
  VArray n n (map (fun x => VGroup 2 [] [Some (VAlnum 6 (fst x)); Some (VBool (snd x))]) l).
(** element/bank_parameter_data.go:14-21, 51-59; 83-91; 131-139 (the same bounds) *)
Definition v_versions (l : list Z) : velem := VArray 1 9 (map (fun z => new_number z 3) l).
Definition v_security_method (code : bytes) (versions : list Z) : velem :=
  VGroup 2 [] [Some (VAlnum 3 code); Some (v_versions versions)].

(** ** What UnmarshalHBCI leaves in some groups *)
(** element/group_data_element_group.go:104-120 does not set the embedded element. *)
Definition read_bank (r : option Z * bytes) : velem := VUnset.
(** lines 221-264 *)
Definition read_intl (w : bytes) : outcome velem :=
  omap (fun e : intl_element =>
    VGroup 5 [] [option_map (fun v => VAlnum (len v) v) (ie_iban e); option_map (fun v => VAlnum (len v) v) (ie_bic e);
                 option_map (fun v => VAlnum (len v) v) (ie_account e); option_map (fun v => VAlnum (len v) v) (ie_sub e);
                 option_map read_bank (ie_bank e)]) (unmarshal_intl w).
