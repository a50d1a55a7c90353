(** * Model of the segments a bank sends

    The generated unmarshalers segment/*_unmarshaler.go of every segment in
    segment.KnownSegments, the element groups they read (package element) and the
    accessors that turn them into the values of package domain. *)
From Verif Require Import Base Lexer_Model Codec_Model Wire_Model Message_Model Dialog_Model.
Open Scope Z_scope.

(** ** Instants *)

(** time.Time in UTC (time.Parse without a zone), as nanoseconds since
    0000-01-01T00:00:00Z, the date time.Parse gives a mere time of day. *)
Definition ns_per_second : Z := 1000000000.
Definition ns_per_day : Z := 86400 * ns_per_second.
(** Days of the years before [y], counted from year 0. *)
Definition days_before_year (y : Z) : Z := 365 * y + (y + 3) / 4 - (y + 99) / 100 + (y + 399) / 400.
Definition days_before_month (m y : Z) : Z :=
  fold_left (fun acc k => acc + days_in (Z.of_nat k) y) (seq 1 (Z.to_nat (m - 1))) 0.
(** time.Parse("20060102", ...) *)
Definition instant_of_date (d : date) : Z :=
  (days_before_year (d_year d) + days_before_month (d_month d) (d_year d) + d_day d - 1) * ns_per_day.
(** time.Parse("150405", ...): on 0000-01-01.  Simplification: fractions of a second,
    which time.Parse would accept, are dropped. *)
Definition instant_of_tod (t : tod) : Z :=
  (t_hour t * 3600 + t_min t * 60 + t_sec t) * ns_per_second.
(** The zero time.Time is 0001-01-01T00:00:00Z. *)
Definition zero_time : Z := 366 * ns_per_day.
(** time.Time.Sub: a Duration is an int64 of nanoseconds, out of range results
    saturate. *)
Definition time_sub (a b : Z) : Z :=
  if a - b <? int64_min then int64_min else if int64_max <? a - b then int64_max else a - b.

(** ** The scheme of the generated unmarshalers *)

(** [if len(elements) > k && len(elements[k]) > 0 { ...UnmarshalHBCI(elements[k]) }],
    cmd/unmarshaler/unmarshaler_generator.go and e.g.
    segment/account_balance_unmarshaler.go:86-92 *)
Definition field {A} (k : nat) (f : bytes -> outcome A) (es : list bytes) : outcome (option A) :=
  opt_parse f (nonempty_nth k es).
(** The last field of a segment: the remaining elements are joined again, e.g.
    segment/account_balance_unmarshaler.go:156-166 ([len(elements)+1 > k] holds
    whenever [len(elements) > k] does). *)
Definition last_field {A} (k : nat) (f : bytes -> outcome A) (es : list bytes) : outcome (option A) :=
  opt_parse (fun _ => f (join [b_plus] (skipn k es))) (nonempty_nth k es).
(** The beginning of every generated unmarshaler, e.g.
    segment/account_balance_unmarshaler.go:73-84 with segment/segment.go:43-50. *)
Definition segment_fields {A} (k : list bytes -> outcome A) (s : bytes) : outcome A :=
  do es <- segment_extract s;
  match es with
  | [] => Err
  | h :: _ => do _ <- unmarshal_header h; k es
  end.
(** AlphaNumeric, Text, Identification, Currency and Code elements
    (element/data_element.go:265-270, 296-301, 551-554, 672-680, 735-743). *)
Definition text (w : bytes) : outcome bytes := Ok (unmarshal_text w).
(** Accessing a field through a nil pointer. *)
Definition deref {A} (o : option A) : outcome A := match o with Some a => Ok a | None => Panic end.
Definition or_empty (o : option bytes) : bytes := match o with Some b => b | None => [] end.
Definition or_zero (o : option Z) : Z := match o with Some z => z | None => 0 end.
(** elements[i] *)
Definition at_index (i : nat) (es : list bytes) : outcome bytes := deref (nth_error es i).
(** internal/iterator.go:19-30 Next, NextString: nil after the end. *)
Definition next_at (i : nat) (es : list bytes) : bytes := nth i es [].

(** ** Bank and account identifications *)

(** domain/account_connection.go:4-9 *)
Record account_connection := mkAC { ac_account : bytes; ac_sub : bytes; ac_country : Z; ac_bank : bytes }.
(** domain/account_connection.go:13-19, domain.BankID *)
Record bank_ref := mkBank { bank_country : Z; bank_code : bytes }.
Record intl_connection := mkIC {
  ic_iban : bytes; ic_bic : bytes; ic_account : bytes; ic_sub : bytes; ic_bank : bank_ref }.
(** domain/account_connection.go:22-29 *)
Definition to_account_connection (i : intl_connection) : account_connection :=
  mkAC (ic_account i) (ic_sub i) (bank_country (ic_bank i)) (bank_code (ic_bank i)).

(** element/group_data_element_group.go:104-120; the country stays without a value if
    it is no number. *)
Definition unmarshal_bank (w : bytes) : outcome (option Z * bytes) :=
  do es <- group_extract w;
  match es with
  | c :: b :: _ => do country <- unmarshal_country c; Ok (country, to_utf8 b)
  | _ => Err
  end.
(** element/group_data_element_group.go:87-93 Val *)
Definition bank_val (b : option Z * bytes) : outcome bank_ref :=
  do c <- deref (fst b); Ok (mkBank c (snd b)).
(** element/group_data_element_group.go:154-184 *)
Definition unmarshal_connection (w : bytes) : outcome account_connection :=
  do es <- group_extract w;
  match es with
  | a :: s :: c :: b :: _ =>
      do country <- unmarshal_int c; Ok (mkAC (to_utf8 a) (to_utf8 s) country (to_utf8 b))
  | _ => Err
  end.
(** element/group_data_element_group.go:200-207, 221-266 *)
Record intl_element := mkIE {
  ie_iban : option bytes; ie_bic : option bytes; ie_account : option bytes; ie_sub : option bytes;
  ie_bank : option (option Z * bytes) }.
Definition unmarshal_intl (w : bytes) : outcome intl_element :=
  do es <- group_extract w;
  match es with
  | [] => Err
  | _ =>
      do iban <- field 0 text es;
      do bic <- field 1 text es;
      do acc <- field 2 text es;
      do sub <- field 3 text es;
      do bank <- opt_parse (fun _ => unmarshal_bank (join [b_colon] (skipn 4 es))) (nonempty_nth 4 es);
      Ok (mkIE iban bic acc sub bank)
  end.
(** element/group_data_element_group.go:269-287 Val *)
Definition intl_val (e : intl_element) : outcome intl_connection :=
  do b <- match ie_bank e with Some b => bank_val b | None => Ok (mkBank 0 []) end;
  Ok (mkIC (or_empty (ie_iban e)) (or_empty (ie_bic e)) (or_empty (ie_account e)) (or_empty (ie_sub e)) b).

(** ** Amounts and balances *)

Section Amounts.
  (** [F]: float64; [parse_float]: strconv.ParseFloat(_, 64), [neg]: unary minus. *)
  Context {F : Type} (parse_float : bytes -> option F) (neg : F -> F).

  (** element/data_element.go:392-400, 763-771 *)
  Definition unmarshal_value (w : bytes) : outcome F :=
    match parse_float (replace1 b_comma "."%byte (to_utf8 w)) with Some f => Ok f | None => Err end.

  (** domain.Amount *)
  Record amount := mkAmount { am_value : F; am_currency : bytes }.
  (** element/group_data_element_group.go:40-68 *)
  Definition unmarshal_amount (w : bytes) : outcome amount :=
    do es <- group_extract w;
    match es with
    | [v; c] => do f <- unmarshal_value v; do cur <- text c; Ok (mkAmount f cur)
    | _ => Err
    end.
  (** domain.Balance: the amount, the day, and the time of day if it was sent. *)
  Record balance := mkBalance { ba_amount : amount; ba_date : Z; ba_time : option Z }.
  (** element/group_data_element_group.go:332-392 *)
  Definition unmarshal_balance (w : bytes) : outcome balance :=
    do es <- group_extract w;
    match es with
    | ind :: v :: c :: d :: r =>
        do sign <- text ind;
        do f <- unmarshal_value v;
        do cur <- text c;
        do day <- unmarshal_date d;
        do time <- match r with
                   | [t] => do x <- unmarshal_time t; Ok (Some (instant_of_tod x))
                   | _ => Ok None
                   end;
        Ok (mkBalance (mkAmount (if bytes_eqb sign (B "D") then neg f else f) cur) (instant_of_date day) time)
    | _ => Err
    end.

  (** ** HISAL: segment/account_balance.go:205-583, segment/account_balance_unmarshaler.go *)

  (** The account is national in versions 5 and 6, international in 7 and 8; only
      version 8 has the last field. *)
  Inductive account_element := National (a : account_connection) | International (a : intl_element).
  Record hisal := mkHisal {
    hs_version : Z; hs_account : option account_element; hs_product : option bytes;
    hs_currency : option bytes; hs_booked : option balance; hs_earmarked : option balance;
    hs_credit : option amount; hs_available : option amount; hs_used : option amount;
    hs_date : option date; hs_time : option tod; hs_due : option date; hs_seizable : option amount }.
  (** segment/account_balance_unmarshaler.go:73-168 (V5), 170-265 (V6), 267-362 (V7),
      364-466 (V8) *)
  Definition unmarshal_hisal (v : Z) : bytes -> outcome hisal :=
    segment_fields (fun es =>
      do acc <- field 1 (fun w => if v <? 7 then omap National (unmarshal_connection w)
                                  else omap International (unmarshal_intl w)) es;
      do product <- field 2 text es;
      do currency <- field 3 text es;
      do booked <- field 4 unmarshal_balance es;
      do earmarked <- field 5 unmarshal_balance es;
      do credit <- field 6 unmarshal_amount es;
      do available <- field 7 unmarshal_amount es;
      do used <- field 8 unmarshal_amount es;
      do date <- field 9 unmarshal_date es;
      do time <- field 10 unmarshal_time es;
      do due <- (if v <? 8 then last_field 11 unmarshal_date es else field 11 unmarshal_date es);
      do seizable <- (if v <? 8 then Ok None else last_field 12 unmarshal_amount es);
      Ok (mkHisal v acc product currency booked earmarked credit available used date time due seizable)).

  (** domain/account_balance.go:55-66 and 133-145, with the kind of account as parameter;
      [bl_seizable] is always nil for the former. *)
  Record account_balance {A : Type} := mkAB {
    bl_account : A; bl_product : bytes; bl_currency : bytes; bl_booked : balance;
    bl_earmarked : option balance; bl_credit : option amount; bl_available : option amount;
    bl_used : option amount; bl_booking : option Z; bl_due : option Z; bl_seizable : option amount }.
  Arguments account_balance : clear implicits.
  Arguments mkAB {A}.
  (** segment/account_balance.go:248-255: [*balance.BookingDate = balance.BookingDate.Add(
      val.Sub(time.Time{}))] dereferences nil if there is no date. *)
  Definition booking_instant (d : option date) (t : option tod) : outcome (option Z) :=
    match t with
    | None => Ok (option_map instant_of_date d)
    | Some t => do d <- deref d;
                Ok (Some (instant_of_date d + time_sub (instant_of_tod t) zero_time))
    end.
  Definition balance_of {A} (acc : outcome A) (seizable : option amount) (h : hisal) : outcome (account_balance A) :=
    do a <- acc;
    do product <- deref (hs_product h);
    do currency <- deref (hs_currency h);
    do booked <- deref (hs_booked h);
    do booking <- booking_instant (hs_date h) (hs_time h);
    Ok (mkAB a product currency booked (hs_earmarked h) (hs_credit h) (hs_available h) (hs_used h)
             booking (option_map instant_of_date (hs_due h)) seizable).
  (** segment/account_balance.go:225-261, 301-337, 377-413, 489-525 AccountBalance *)
  Definition account_balance_of (h : hisal) : outcome (account_balance account_connection) :=
    balance_of (do a <- deref (hs_account h);
                match a with
                | National c => Ok c
                | International i => omap to_account_connection (intl_val i)
                end) None h.
  (** segment/account_balance.go:262-264, 338-340, 415-451, 527-567 SepaAccountBalance *)
  Definition sepa_account_balance_of (h : hisal) : outcome (account_balance intl_connection) :=
    if hs_version h <? 7 then Err
    else balance_of (do a <- deref (hs_account h);
                     match a with National _ => Err | International i => intl_val i end)
                    (hs_seizable h) h.

  (** ** HIUPD: segment/basic_account_information.go, its unmarshaler *)

  (** domain.BusinessTransaction with its limit: kind, amount, days (zero values if
      not sent). *)
  Record limit := mkLimit { li_kind : bytes; li_amount : option amount; li_days : Z }.
  Record business_transaction := mkBT { bt_id : bytes; bt_signatures : Z; bt_limit : option limit }.
  (** element/user_parameter_data.go:134-194: the amount would be one element of the
      group, so the group inside it is only this element. *)
  Definition unmarshal_allowed (w : bytes) : outcome business_transaction :=
    do es <- group_extract w;
    match es with
    | i :: n :: _ =>
        do id <- text i;
        do num <- unmarshal_int n;
        do kind <- field 2 text es;
        do am <- field 3 unmarshal_amount es;
        do days <- field 4 unmarshal_int es;
        Ok (mkBT id num (option_map (fun k => mkLimit k am (or_zero days)) kind))
    | _ => Err
    end.
  (** element/user_parameter_data.go:74-98: split at every '+' byte. *)
  Definition unmarshal_alloweds (w : bytes) : outcome (list business_transaction) :=
    all_ok unmarshal_allowed (split_on b_plus w).
  (** element/user_parameter_data.go:22-34: AccountLimitDataElement has no UnmarshalHBCI of its
      own, the promoted one is called on a nil interface. *)
  Definition unmarshal_limit (w : bytes) : outcome unit := Panic.

  (** domain/account_information.go:45-54; [ai_limit] is always nil, see
      [unmarshal_limit]. *)
  Record account_information := mkAI {
    ai_connection : account_connection; ai_user : bytes; ai_currency : bytes; ai_name1 : bytes;
    ai_name2 : bytes; ai_product : bytes; ai_transactions : list business_transaction }.
  Record hiupd := mkHiupd {
    hu_version : Z; hu_connection : option account_connection; hu_user : option bytes;
    hu_currency : option bytes; hu_name1 : option bytes; hu_name2 : option bytes;
    hu_product : option bytes; hu_transactions : option (list business_transaction) }.
  (** segment/basic_account_information_unmarshaler.go:73-147 (V4), 149-230 (V5), 232-327
      (V6), 329-424 (V7).  IBAN, account type and extensions are read (and may fail) but
      never used. *)
  Definition unmarshal_hiupd (v : Z) : bytes -> outcome hiupd :=
    segment_fields (fun es =>
      do conn <- field 1 unmarshal_connection es;
      if v =? 4 then
        do user <- field 2 text es;
        do currency <- field 3 text es;
        do name1 <- field 4 text es;
        do name2 <- field 5 text es;
        do product <- field 6 text es;
        do _ <- field 7 unmarshal_limit es;
        do allowed <- last_field 8 unmarshal_alloweds es;
        Ok (mkHiupd v conn user currency name1 name2 product allowed)
      else if v =? 5 then
        do user <- field 2 text es;
        do _ <- field 3 unmarshal_int es;
        do currency <- field 4 text es;
        do name1 <- field 5 text es;
        do name2 <- field 6 text es;
        do product <- field 7 text es;
        do _ <- field 8 unmarshal_limit es;
        do allowed <- last_field 9 unmarshal_alloweds es;
        Ok (mkHiupd v conn user currency name1 name2 product allowed)
      else
        do _ <- field 2 text es;
        do user <- field 3 text es;
        do _ <- field 4 unmarshal_int es;
        do currency <- field 5 text es;
        do name1 <- field 6 text es;
        do name2 <- field 7 text es;
        do product <- field 8 text es;
        do _ <- field 9 unmarshal_limit es;
        do allowed <- field 10 unmarshal_alloweds es;
        do _ <- last_field 11 text es;
        Ok (mkHiupd v conn user currency name1 name2 product allowed)).
  (** segment/basic_account_information.go:43-65, 98-123, 159-184, 222-247 Account *)
  Definition account_of (h : hiupd) : outcome account_information :=
    do conn <- (if hu_version h =? 4 then deref (hu_connection h)
                else Ok match hu_connection h with Some c => c | None => mkAC [] [] 0 [] end);
    do user <- deref (hu_user h);
    do currency <- (if hu_version h =? 4 then deref (hu_currency h) else Ok (or_empty (hu_currency h)));
    do name1 <- deref (hu_name1 h);
    Ok (mkAI conn user currency name1 (or_empty (hu_name2 h)) (or_empty (hu_product h))
             match hu_transactions h with Some l => l | None => [] end).

  (** ** HIKIF: segment/account_information.go, segment/account_information_unmarshaler.go:21-151;
      only whether it can be read matters. element/account.go:4-6: the last field calls a
      method of a nil interface. *)
  Definition unmarshal_hikif : bytes -> outcome unit :=
    segment_fields (fun es =>
      do _ <- field 1 unmarshal_connection es;
      do _ <- field 2 unmarshal_int es;
      do _ <- field 3 text es;
      do _ <- field 4 text es;
      do _ <- field 5 text es;
      do _ <- field 6 text es;
      do _ <- field 7 unmarshal_date es;
      do _ <- field 8 unmarshal_value es;
      do _ <- field 9 unmarshal_value es;
      do _ <- field 10 unmarshal_value es;
      do _ <- field 11 unmarshal_amount es;
      do _ <- field 12 unmarshal_connection es;
      do _ <- field 13 unmarshal_int es;
      do _ <- field 14 unmarshal_int es;
      do _ <- field 15 text es;
      do _ <- last_field 16 (fun _ => Panic (A := unit)) es;
      Ok tt).
End Amounts.
Arguments amount : clear implicits.
Arguments balance : clear implicits.
Arguments hisal : clear implicits.
Arguments account_balance : clear implicits.
Arguments mkAB {F A}.
Arguments limit : clear implicits.
Arguments business_transaction : clear implicits.
Arguments account_information : clear implicits.
Arguments hiupd : clear implicits.

(** ** HIKAZ: segment/account_transaction.go:232-296, element/swift.go:15-28 *)
Record hikaz := mkHikaz { hk_booked : option bytes; hk_unbooked : option bytes }.
(** segment/account_transaction_unmarshaler.go, the same for versions 5, 6 and 7 *)
Definition unmarshal_hikaz : bytes -> outcome hikaz :=
  segment_fields (fun es =>
    do booked <- field 1 unmarshal_binary es;
    do unbooked <- last_field 2 unmarshal_binary es;
    Ok (mkHikaz booked unbooked)).
(** BookedSwiftTransactions: the SWIFT data of the statement *)
Definition booked_of (h : hikaz) : outcome bytes := deref (hk_booked h).

(** ** HISYN: segment/sync.go:103-165, segment/sync_unmarshaler.go:55-94, 96-135 *)
Record hisyn := mkHisyn { hy_system : option bytes; hy_message : option Z; hy_signature : option Z }.
Definition unmarshal_hisyn : bytes -> outcome hisyn :=
  segment_fields (fun es =>
    do sys <- field 1 text es;
    do msg <- field 2 unmarshal_int es;
    do sg <- last_field 3 unmarshal_int es;
    Ok (mkHisyn sys msg sg)).

(** ** HIUPA: segment/user_parameter_data.go, segment/user_parameter_data_unmarshaler.go:64-103
    (V2), 105-158 (V3), 160-213 (V4) *)
Record hiupa := mkHiupa {
  ha_version : Z; ha_user : option bytes; ha_upd : option Z; ha_usage : option Z;
  ha_name : option bytes; ha_extensions : option bytes }.
Definition unmarshal_hiupa (v : Z) : bytes -> outcome hiupa :=
  segment_fields (fun es =>
    do user <- field 1 text es;
    do upd <- field 2 unmarshal_int es;
    if v =? 2 then
      do usage <- last_field 3 unmarshal_int es;
      Ok (mkHiupa v user upd usage None None)
    else
      do usage <- field 3 unmarshal_int es;
      do name <- field 4 text es;
      do ext <- last_field 5 text es;
      Ok (mkHiupa v user upd usage name ext)).
(** domain.UserParameterData; segment/user_parameter_data.go:54-60, 94-100, 134-150: only version 4 fills in name
    and additions. *)
Record user_data := mkUD {
  ud_user : bytes; ud_version : Z; ud_usage : Z; ud_name : bytes; ud_additions : bytes }.
Definition user_data_of (h : hiupa) : outcome user_data :=
  do user <- deref (ha_user h);
  do upd <- deref (ha_upd h);
  do usage <- deref (ha_usage h);
  if ha_version h =? 4
  then Ok (mkUD user upd usage (or_empty (ha_name h)) (or_empty (ha_extensions h)))
  else Ok (mkUD user upd usage [] []).

(** ** HIBPA: segment/common_bank_parameter_data.go and its unmarshaler, 55-122 (V2), 124-205 (V3) *)

(** element/bank_parameter_data.go:110-128 *)
Definition unmarshal_numbers (ok : Z -> bool) (w : bytes) : outcome (list Z) :=
  do es <- group_extract w;
  if (List.length es =? 0)%nat || (9 <? List.length es)%nat then Err
  else all_ok (fun e => do z <- unmarshal_int e; if ok z then Ok z else Err) es.
(** element/bank_parameter_data.go:141, 160-181: sort.SearchInts({1,2,3}, lang) is 3 exactly for
    codes above 3. *)
Definition unmarshal_languages : bytes -> outcome (list Z) := unmarshal_numbers (fun z => z <=? 3).
Definition unmarshal_versions : bytes -> outcome (list Z) := unmarshal_numbers (fun _ => true).
Record hibpa := mkHibpa {
  hb_version : option Z; hb_bank : option (option Z * bytes); hb_name : option bytes;
  hb_count : option Z; hb_languages : option (list Z); hb_versions : option (list Z);
  hb_size : option Z; hb_min : option Z; hb_max : option Z }.
Definition unmarshal_hibpa (v : Z) : bytes -> outcome hibpa :=
  segment_fields (fun es =>
    do version <- field 1 unmarshal_int es;
    do bank <- field 2 unmarshal_bank es;
    do name <- field 3 text es;
    do count <- field 4 unmarshal_int es;
    do langs <- field 5 unmarshal_languages es;
    do vers <- field 6 unmarshal_versions es;
    if v =? 2 then
      do size <- last_field 7 unmarshal_int es;
      Ok (mkHibpa version bank name count langs vers size None None)
    else
      do size <- field 7 unmarshal_int es;
      do mn <- field 8 unmarshal_int es;
      do mx <- last_field 9 unmarshal_int es;
      Ok (mkHibpa version bank name count langs vers size mn mx)).
(** domain.BankParameterData as far as it is filled in here;
    segment/common_bank_parameter_data.go:54-65, 99-116 *)
Record bank_data := mkBD {
  bd_version : Z; bd_bank : bank_ref; bd_name : bytes; bd_count : Z; bd_size : Z; bd_min : Z; bd_max : Z }.
Definition bank_data_of (h : hibpa) : outcome bank_data :=
  do version <- deref (hb_version h);
  do bank <- (do b <- deref (hb_bank h); bank_val b);
  do name <- deref (hb_name h);
  do count <- deref (hb_count h);
  Ok (mkBD version bank name count (or_zero (hb_size h)) (or_zero (hb_min h)) (or_zero (hb_max h))).

(** ** HIPINS and DIPINS *)

(** element/bank_parameter_data.go:281-295: elements[0] and [1] without a check. *)
Definition unmarshal_pin_pair (w : bytes) : outcome (bytes * bool) :=
  do es <- group_extract w;
  do i <- at_index 0 es;
  do j <- at_index 1 es;
  do b <- unmarshal_bool j;
  Ok (to_utf8 i, b).
(** element/bank_parameter_data.go:234-254 *)
Fixpoint pin_pairs (es : list bytes) : outcome (list (bytes * bool)) :=
  match es with
  | [] => Ok []
  | [_] => Err
  | a :: b :: r => do p <- unmarshal_pin_pair (join [b_colon] [a; b]); do ps <- pin_pairs r; Ok (p :: ps)
  end.
(** An odd number of elements is refused before any pair is read. *)
Definition unmarshal_pin_pairs (w : bytes) : outcome (list (bytes * bool)) :=
  do es <- group_extract w;
  if Nat.even (List.length es) then pin_pairs es else Err.
(** element/pin.go:111-149 *)
Record pin_params := mkPP {
  pp_min : Z; pp_max : Z; pp_tan : Z; pp_user_text : bytes; pp_customer_text : bytes;
  pp_jobs : list (bytes * bool) }.
Definition unmarshal_pin_params (w : bytes) : outcome pin_params :=
  do es <- group_extract w;
  do mn <- unmarshal_int (next_at 0 es);
  do mx <- unmarshal_int (next_at 1 es);
  do tan <- unmarshal_int (next_at 2 es);
  do ps <- unmarshal_pin_pairs (join [b_colon] (skipn 5 es));
  Ok (mkPP mn mx tan (unmarshal_text (next_at 3 es)) (unmarshal_text (next_at 4 es)) ps).
(** segment/pin_bpd.go:24-53, segment/pin_bpd_unmarshaler.go:46-92 *)
Record hipins := mkHipins { hp_jobs : option Z; hp_signatures : option Z; hp_params : option pin_params }.
Definition unmarshal_hipins : bytes -> outcome hipins :=
  segment_fields (fun es =>
    do jobs <- field 1 unmarshal_int es;
    do sigs <- field 2 unmarshal_int es;
    do _ <- field 3 unmarshal_int es;
    do params <- last_field 4 unmarshal_pin_params es;
    Ok (mkHipins jobs sigs params)).
(** segment/pin_bpd.go:47-53 PinTanBusinessTransactions *)
Definition pin_transactions_of (h : hipins) : outcome (list (bytes * bool)) :=
  do p <- deref (hp_params h); Ok (pp_jobs p).
(** segment/business_transaction.go:34-94 DIPINS: elements[0] without a check. *)
Definition unmarshal_dipins (s : bytes) : outcome (list (bytes * bool)) :=
  do es <- segment_extract s;
  do h <- at_index 0 es;
  do _ <- unmarshal_header h;
  match es with
  | _ :: jobs :: sigs :: params :: _ =>
      do _ <- unmarshal_int jobs;
      do _ <- unmarshal_int sigs;
      unmarshal_pin_pairs params
  | _ => Err
  end.

(** ** HITANS: segment/tan_bpd.go, segment/tan_bpd_unmarshaler.go:46-92, element/tan.go:79-278 *)

(** element/tan.go:217-278: the strings are the wire bytes themselves. *)
Record tan_process := mkTP {
  tp_function : bytes; tp_process : bytes; tp_technical : bytes; tp_zka : bytes; tp_zka_version : bytes;
  tp_name : bytes; tp_max_input : Z; tp_format : bytes; tp_return_text : bytes; tp_return_max : Z;
  tp_multi : bool; tp_time_ref : bytes; tp_cancel : bool; tp_sms : bytes; tp_issuer : bytes;
  tp_class : bool; tp_structured : bool; tp_init : bytes; tp_medium : bytes; tp_hhd : bool;
  tp_media : Z }.
Definition unmarshal_tan_process (w : bytes) : outcome tan_process :=
  do es <- group_extract w;
  let s i := next_at i es in
  do max_input <- unmarshal_int (s 6%nat);
  do return_max <- unmarshal_int (s 9%nat);
  do multi <- unmarshal_bool (s 10%nat);
  do cancel <- unmarshal_bool (s 12%nat);
  do cls <- unmarshal_bool (s 15%nat);
  do structured <- unmarshal_bool (s 16%nat);
  do hhd <- unmarshal_bool (s 19%nat);
  do media <- unmarshal_int (s 20%nat);
  Ok (mkTP (s 0%nat) (s 1%nat) (s 2%nat) (s 3%nat) (s 4%nat) (s 5%nat) max_input (s 7%nat) (s 8%nat) return_max
           multi (s 11%nat) cancel (s 13%nat) (s 14%nat) cls structured (s 17%nat) (s 18%nat) hhd media).
(** The pieces of 21 elements of element/tan.go:144-153. *)
Fixpoint pieces (fuel n : nat) (es : list bytes) : list (list bytes) :=
  match fuel, es with
  | S f, _ :: _ => firstn n es :: pieces f n (skipn n es)
  | _, _ => []
  end.
(** element/tan.go:136-156 *)
Definition unmarshal_tan_processes (w : bytes) : outcome (list tan_process) :=
  do es <- group_extract w;
  if (List.length es mod 21 =? 0)%nat
  then all_ok (fun p => unmarshal_tan_process (join [b_colon] p)) (pieces (List.length es) 21 es)
  else Err.
(** element/tan.go:79-105: elements[0], [1], [2] and [3:] without a check; the slice
    elements[3:] is empty for three elements. *)
Record tan_params := mkTanP {
  ta_one_step : bool; ta_more_jobs : bool; ta_hash : bytes; ta_processes : list tan_process }.
Definition unmarshal_tan_params (w : bytes) : outcome tan_params :=
  do es <- group_extract w;
  do a <- at_index 0 es;
  do one <- unmarshal_bool a;
  do b <- at_index 1 es;
  do more <- unmarshal_bool b;
  do h <- at_index 2 es;
  do ps <- unmarshal_tan_processes (join [b_colon] (skipn 3 es));
  Ok (mkTanP one more (to_utf8 h) ps).
Record hitans := mkHitans {
  ht_jobs : option Z; ht_signatures : option Z; ht_class : option bytes; ht_params : option tan_params }.
Definition unmarshal_hitans : bytes -> outcome hitans :=
  segment_fields (fun es =>
    do jobs <- field 1 unmarshal_int es;
    do sigs <- field 2 unmarshal_int es;
    do cls <- field 3 text es;
    do params <- last_field 4 unmarshal_tan_params es;
    Ok (mkHitans jobs sigs cls params)).
(** dialog/dialog.go: the security functions of the TAN processes; nil parameters panic. *)
Definition tan_functions_of (h : hitans) : outcome (list bytes) :=
  do p <- deref (ht_params h); Ok (map tp_function (ta_processes p)).

(** ** HIPRO: segment/status_protocol.go:112-190, segment/status_protocol_unmarshaler.go:55-108, 110-163 *)
Record hipro := mkHipro {
  pr_message : option (bytes * Z); pr_segment : option Z; pr_date : option date; pr_time : option tod;
  pr_ack : option ack }.
(** The acknowledgement is read with no type and no reference yet. *)
Definition unmarshal_hipro : bytes -> outcome hipro :=
  segment_fields (fun es =>
    do msg <- field 1 unmarshal_ref es;
    do sg <- field 2 unmarshal_int es;
    do date <- field 3 unmarshal_date es;
    do time <- field 4 unmarshal_time es;
    do a <- last_field 5 (unmarshal_ack true 0) es;
    Ok (mkHipro msg sg date time a)).
(** domain.StatusAcknowledgement *)
Record status_ack := mkSA { sa_ack : ack; sa_at : Z }.
(** segment/status_protocol.go:136-150, 176-190; [now]: the clock of time.Since *)
Definition status_of (now : Z) (h : hipro) : outcome status_ack :=
  do a <- deref (pr_ack h);
  do a <- match pr_message h with
          | Some r => do sg <- deref (pr_segment h);
                      Ok (mkAck (ack_code a) (ack_elem a) (ack_text a) (ack_params a) false r sg)
          | None => Ok (mkAck (ack_code a) (ack_elem a) (ack_text a) (ack_params a) true
                              (ack_ref_msg a) (ack_ref_seg a))
          end;
  do d <- deref (pr_date h);
  do t <- deref (pr_time h);
  Ok (mkSA a (instant_of_date d + time_sub now (instant_of_tod t))).

(** ** HITAN: segment/tan.go:135-157, segment/tan_unmarshaler.go:46-85 *)
Record hitan := mkHitan { hn_process : option bytes; hn_hash : option bytes; hn_reference : option bytes }.
Definition unmarshal_hitan : bytes -> outcome hitan :=
  segment_fields (fun es =>
    do process <- field 1 text es;
    do hash <- field 2 unmarshal_binary es;
    do ref <- last_field 3 text es;
    Ok (mkHitan process hash ref)).

(** ** HIKIM: segment/bank_announcement.go, segment/bank_announcement_unmarshaler.go:21-54 *)
Record hikim := mkHikim { km_subject : option bytes; km_body : option bytes }.
Definition unmarshal_hikim : bytes -> outcome hikim :=
  segment_fields (fun es =>
    do subject <- field 1 text es;
    do body <- last_field 2 text es;
    Ok (mkHikim subject body)).
(** dialog/dialog.go:294, 386: the values logged *)
Definition news_of (h : hikim) : outcome (bytes * bytes) :=
  do subject <- deref (km_subject h); do body <- deref (km_body h); Ok (subject, body).

(** ** HIKOM, HISHV, HIKPV: only whether they can be read matters *)

(** element/communication_access.go:20-46: CommunicationParameterDataElement has no UnmarshalHBCI of its own;
    segment/communication_access_unmarshaler.go:21-61 *)
Definition unmarshal_hikom : bytes -> outcome unit :=
  segment_fields (fun es =>
    do _ <- field 1 unmarshal_bank es;
    do _ <- field 2 unmarshal_int es;
    do _ <- last_field 3 (fun _ => Panic (A := unit)) es;
    Ok tt).
(** element/bank_parameter_data.go:46-49, 74-78 and element/data_element.go:159-179: the value is
    split at ':'; the method code can be read; for the versions reflect.TypeOf(nil).Elem() panics,
    further parts are beyond the two elements of the group. *)
Definition unmarshal_methods (w : bytes) : outcome unit :=
  match split_on b_colon w with
  | _ :: r => if existsb (fun p => match p with [] => false | _ => true end) r then Panic else Ok tt
  | [] => Ok tt
  end.
(** segment/supported_security_method_unmarshaler.go:21-54 *)
Definition unmarshal_hishv : bytes -> outcome unit :=
  segment_fields (fun es =>
    do _ <- field 1 unmarshal_bool es;
    do _ <- last_field 2 unmarshal_methods es;
    Ok tt).
(** element/bank_parameter_data.go:185-187: a nil *arrayElementGroup;
    segment/supported_compression_method_unmarshaler.go:21-47 *)
Definition unmarshal_hikpv : bytes -> outcome unit :=
  segment_fields (fun es =>
    do _ <- last_field 1 (fun _ => Panic (A := unit)) es;
    Ok tt).

(** ** The segments of the security envelope, HNSHK, HNSHA, HNVSK, HNVSD, HNHBK, HNHBS *)

(** element/signature.go:46-77 *)
Definition unmarshal_security_id (w : bytes) : outcome unit :=
  do es <- group_extract w;
  if (List.length es <? 3)%nat then Err
  else do _ <- field 0 text es; do _ <- field 1 unmarshal_binary es; do _ <- field 2 text es; Ok tt.
(** element/signature.go:132-163 *)
Definition unmarshal_security_date (w : bytes) : outcome unit :=
  do es <- group_extract w;
  if (List.length es <? 1)%nat then Err
  else do _ <- field 0 text es; do _ <- field 1 unmarshal_date es; do _ <- field 2 unmarshal_time es; Ok tt.
(** element/signature.go:201-239 *)
Definition unmarshal_hash_algorithm (w : bytes) : outcome unit :=
  do es <- group_extract w;
  if (List.length es <? 3)%nat then Err else do _ <- field 3 unmarshal_binary es; Ok tt.
(** element/signature.go:275-306 *)
Definition unmarshal_signature_algorithm (w : bytes) : outcome unit :=
  do es <- group_extract w;
  if (List.length es <? 3)%nat then Err else Ok tt.
(** element/signature.go:358-403 *)
Definition unmarshal_key_name (w : bytes) : outcome unit :=
  do es <- group_extract w;
  if (List.length es <? 6)%nat then Err
  else do _ <- opt_parse (fun _ => unmarshal_bank (join [b_colon] (firstn 2 es))) (nonempty_nth 0 es);
       do _ <- field 4 unmarshal_int es;
       do _ <- field 5 unmarshal_int es;
       Ok tt.
(** element/signature.go:416-423: CertificateDataElement has no UnmarshalHBCI of its own. *)
Definition unmarshal_certificate (w : bytes) : outcome unit := Panic.
(** element/signature_fints3.go:24-42 *)
Definition unmarshal_profile (w : bytes) : outcome unit :=
  do es <- group_extract w;
  match es with
  | _ :: v :: _ => do _ <- unmarshal_int v; Ok tt
  | _ => Err
  end.
(** element/encryption.go:66-122 *)
Definition unmarshal_encryption_algorithm (w : bytes) : outcome unit :=
  do es <- group_extract w;
  if (List.length es <? 7)%nat then Err
  else do _ <- field 3 unmarshal_binary es; do _ <- field 6 unmarshal_binary es; Ok tt.
(** element/pin.go:62-86 *)
Definition unmarshal_pin_tan (w : bytes) : outcome unit :=
  do es <- group_extract w;
  if (List.length es <? 2)%nat then Err else Ok tt.
(** element/pin.go:29-31: the same on a nil *PinTanDataElement, which is written to. *)
Definition unmarshal_custom_signature (w : bytes) : outcome unit :=
  do es <- group_extract w;
  if (List.length es <? 2)%nat then Err else Panic.

(** segment/signature_header_unmarshaler.go:55-150 (V3), 152-254 (V4): the elements of version 4
    follow a security profile. *)
Definition unmarshal_hnshk (v : Z) : bytes -> outcome unit :=
  segment_fields (fun es =>
    let o := if v =? 3 then 0%nat else 1%nat in
    do _ <- (if v =? 3 then Ok None else field 1 unmarshal_profile es);
    do _ <- field (5 + o) unmarshal_security_id es;
    do _ <- field (6 + o) unmarshal_int es;
    do _ <- field (7 + o) unmarshal_security_date es;
    do _ <- field (8 + o) unmarshal_hash_algorithm es;
    do _ <- field (9 + o) unmarshal_signature_algorithm es;
    do _ <- field (10 + o) unmarshal_key_name es;
    do _ <- last_field (11 + o) unmarshal_certificate es;
    Ok tt).
(** segment/signature_end_unmarshaler.go:55-94 (V1), 96-135 (V2) *)
Definition unmarshal_hnsha (v : Z) : bytes -> outcome unit :=
  segment_fields (fun es =>
    do _ <- field 2 unmarshal_binary es;
    do _ <- last_field 3 (if v =? 1 then unmarshal_pin_tan else unmarshal_custom_signature) es;
    Ok tt).
(** segment/encryption_header_unmarshaler.go:55-129 (V2), 131-212 (V3) *)
Definition unmarshal_hnvsk (v : Z) : bytes -> outcome unit :=
  segment_fields (fun es =>
    let o := if v =? 2 then 0%nat else 1%nat in
    do _ <- (if v =? 2 then Ok None else field 1 unmarshal_profile es);
    do _ <- field (3 + o) unmarshal_security_id es;
    do _ <- field (4 + o) unmarshal_security_date es;
    do _ <- field (5 + o) unmarshal_encryption_algorithm es;
    do _ <- field (6 + o) unmarshal_key_name es;
    do _ <- last_field (8 + o) unmarshal_certificate es;
    Ok tt).
(** segment/message_end_unmarshaler.go:21-48 *)
Definition unmarshal_hnhbs : bytes -> outcome unit :=
  segment_fields (fun es => do _ <- last_field 1 unmarshal_int es; Ok tt).

(** ** segment.KnownSegments: segment/segment_index.go:62-68 and the generated init functions *)
Section Index.
  Context {F : Type} (parse_float : bytes -> option F) (neg : F -> F).

  (** The segments other than HIRMG and HIRMS ([known] in Message_Model handles these), as
      the dialog uses them: the accessors it calls are stored as outcomes. *)
  Definition others (id : bytes) (v : Z) : option (bytes -> outcome (oseg (account_information F))) :=
    let is := bytes_eqb id in
    let raw {A : Type} (f : bytes -> outcome A) := Some (fun s => do _ <- f s; Ok (OSeg s)) in
    if is (B "HISYN") then
      if (v =? 3) || (v =? 4)
      then Some (fun s => do h <- unmarshal_hisyn s; Ok (OSync (deref (hy_system h)))) else None
    else if is (B "HITANS") then
      if v =? 6 then Some (fun s => do h <- unmarshal_hitans s; Ok (OTans (tan_functions_of h))) else None
    else if is (B "HIBPA") then
      if (v =? 2) || (v =? 3)
      then Some (fun s => do h <- unmarshal_hibpa v s; Ok (OBpd (omap bd_version (bank_data_of h)))) else None
    else if is (B "HIPINS") then
      if v =? 1
      then Some (fun s => do h <- unmarshal_hipins s; Ok (OPins (omap (fun _ => tt) (pin_transactions_of h))))
      else None
    else if is (B "HIUPA") then
      if (2 <=? v) && (v <=? 4)
      then Some (fun s => do h <- unmarshal_hiupa v s;
                          Ok (OUpd (omap (fun d => mkUpd (ud_user d) (ud_version d)) (user_data_of h))))
      else None
    else if is (B "HIUPD") then
      if (4 <=? v) && (v <=? 7)
      then Some (fun s => do h <- unmarshal_hiupd parse_float v s; Ok (OAccount (account_of h))) else None
    else if is (B "HISAL") then
      if (5 <=? v) && (v <=? 8) then raw (unmarshal_hisal parse_float neg v) else None
    else if is (B "HIKAZ") then if (5 <=? v) && (v <=? 7) then raw unmarshal_hikaz else None
    else if is (B "HIPRO") then if (v =? 3) || (v =? 4) then raw unmarshal_hipro else None
    else if is (B "HITAN") then if v =? 6 then raw unmarshal_hitan else None
    else if is (B "HIKIM") then
      if v =? 2 then Some (fun s => do h <- unmarshal_hikim s; Ok (ONews (news_of h))) else None
    else if is (B "HIKIF") then if v =? 1 then raw (unmarshal_hikif parse_float) else None
    else if is (B "HIKOM") then if v =? 3 then raw unmarshal_hikom else None
    else if is (B "HISHV") then if v =? 2 then raw unmarshal_hishv else None
    else if is (B "HIKPV") then if v =? 1 then raw unmarshal_hikpv else None
    else if is (B "DIPINS") then if v =? 1 then raw unmarshal_dipins else None
    else if is (B "HNSHK") then if (v =? 3) || (v =? 4) then raw (unmarshal_hnshk v) else None
    else if is (B "HNSHA") then if (v =? 1) || (v =? 2) then raw (unmarshal_hnsha v) else None
    else if is (B "HNVSK") then if (v =? 2) || (v =? 3) then raw (unmarshal_hnvsk v) else None
    else if is (B "HNVSD") then if v =? 1 then raw unmarshal_data_seg else None
    else if is (B "HNHBK") then if v =? 3 then raw unmarshal_msg_header else None
    else if is (B "HNHBS") then if v =? 1 then raw unmarshal_hnhbs else None
    else None.

  (** What the client reads out of the segments kept by the dialog: the version is the one
      in the segment's header. *)
  Definition with_version {A} (f : Z -> bytes -> outcome A) (s : bytes) : outcome A :=
    do h <- extract_header s; f (sh_version h) s.
  (** client/client.go AccountBalances, SepaAccountBalances, AccountTransactions, Status *)
  Definition balance_in : bytes -> outcome (account_balance F account_connection) :=
    with_version (fun v s => do h <- unmarshal_hisal parse_float neg v s; account_balance_of h).
  Definition sepa_balance_in : bytes -> outcome (account_balance F intl_connection) :=
    with_version (fun v s => do h <- unmarshal_hisal parse_float neg v s; sepa_account_balance_of h).
  Definition booked_in (s : bytes) : outcome bytes := do h <- unmarshal_hikaz s; booked_of h.
  Definition status_in (now : Z) (s : bytes) : outcome status_ack := do h <- unmarshal_hipro s; status_of now h.
End Index.
