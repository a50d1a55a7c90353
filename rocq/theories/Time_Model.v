(** * Model of domain/time.go: short dates, timeframes and their textual forms

    A [ShortDate] is a calendar date at midnight UTC: the constructors
    domain/time.go:18-25 and time.Parse without a zone only make such times, so
    it is modelled by [date] (year, month, day) of Codec_Model.  Times put
    directly into the exported embedded field are not modelled. *)
From Verif Require Import Base Codec_Model.
Open Scope Z_scope.

(** time.Time{} is the 1st of January of the year 1, UTC. *)
Definition zero_date : date := mkDate 1 1 1.
(** time.Time.IsZero on such times. *)
Definition is_zero (d : date) : bool :=
  (d_year d =? 1) && (d_month d =? 1) && (d_day d =? 1).

(** time.Time.Format with the layout "2006-01-02",
    domain/time.go:32,44,49,102 *)
Definition format_iso (d : date) : bytes :=
  append_int 4 (d_year d) ++ [b_minus] ++ append_int 2 (d_month d) ++ [b_minus] ++ append_int 2 (d_day d).

(** time.Parse: the literal text of the layout must come next. *)
Definition skip_byte (c : byte) (s : bytes) : option bytes :=
  match s with x :: r => if beq x c then Some r else None | [] => None end.
(** time.Parse("2006-01-02", s), domain/time.go:38,54,113,115 *)
Definition parse_iso (s : bytes) : outcome date :=
  match getyear s with
  | None => Err
  | Some (y, s1) =>
  match skip_byte b_minus s1 with
  | None => Err
  | Some s2 =>
  match getnum2 s2 with
  | None => Err
  | Some (m, s3) =>
  if (m <=? 0) || (12 <? m) then Err else
  match skip_byte b_minus s3 with
  | None => Err
  | Some s4 =>
  match getnum2 s4 with
  | None => Err
  | Some (d, s5) =>
  match s5 with
  | [] => if (d <? 1) || (days_in m y <? d) then Err else Ok (mkDate y m d)
  | _ => Err
  end end end end end end.

Definition b_dquote : byte := """"%byte.
Definition b_backslash : byte := "\"%byte.

(** json.Marshal of a string.  Simplification: only strings of the characters
    digits, '-' and ',' occur here, which are not escaped. *)
Definition json_string (s : bytes) : bytes := [b_dquote] ++ s ++ [b_dquote].

(** domain/time.go:28-33 ShortDate.MarshalJSON *)
Definition date_marshal_json (d : date) : outcome bytes :=
  if is_zero d then Ok (json_string []) else Ok (json_string (format_iso d)).

(** domain/time.go:48-50 ShortDate.MarshalText *)
Definition date_marshal_text (d : date) : outcome bytes := Ok (format_iso d).
(** domain/time.go:53-60 ShortDate.UnmarshalText *)
Definition date_unmarshal_text (text : bytes) : outcome date := parse_iso text.

(** domain/time.go:63-66 *)
Record timeframe := mkTf { tf_start : date; tf_end : date }.
Definition zero_tf : timeframe := mkTf zero_date zero_date.

(** url.Values: the keys with their lists of values. *)
Definition values := list (bytes * list bytes).
(** url.Values.Get: the first value of the key, or "". *)
Fixpoint values_get (key : bytes) (v : values) : bytes :=
  match v with
  | [] => []
  | (k, vs) :: r => if bytes_eqb k key then match vs with [] => [] | x :: _ => x end
                    else values_get key r
  end.
(** url.Values.Set: replaces the values of the key. *)
Fixpoint values_set (key val : bytes) (v : values) : values :=
  match v with
  | [] => [(key, [val])]
  | (k, vs) :: r => if bytes_eqb k key then (k, [val]) :: r else (k, vs) :: values_set key val r
  end.

(** domain/time.go:77-91 TimeframeFromQuery *)
Definition timeframe_from_query (params : values) : outcome timeframe :=
  let from := values_get (B "from") params in
  let to := values_get (B "to") params in
  match from, to with
  | [], _ | _, [] => Err
  | _, _ =>
      match parse_date from, parse_date to with
      | Ok a, Ok b => Ok (mkTf a b)
      | _, _ => Err
      end
  end.

(** domain/time.go:95-100 Timeframe.ToQuery *)
Definition to_query (tf : timeframe) : values :=
  let params := values_set (B "from") (format_date (tf_start tf)) [] in
  values_set (B "to") (format_date (tf_end tf)) params.

(** domain/time.go:103-108 Timeframe.MarshalJSON *)
Definition tf_marshal_json (tf : timeframe) : outcome bytes :=
  if is_zero (tf_start tf) || is_zero (tf_end tf) then Ok (json_string [])
  else Ok (json_string (format_iso (tf_start tf) ++ [b_comma] ++ format_iso (tf_end tf))).

(** domain/time.go:130-132 Timeframe.IsZero *)
Definition tf_is_zero (tf : timeframe) : bool := is_zero (tf_start tf) && is_zero (tf_end tf).

(** Characters strconv.Unquote takes as they are: ASCII, no backslash, no line
    feed. *)
Definition plain_char (b : byte) : bool :=
  (zb b <? 128) && negb (beq b b_backslash) && negb (beq b b_lf).
(** The text before the first double quote and the text after it. *)
Fixpoint until_dquote (s : bytes) : option (bytes * bytes) :=
  match s with
  | [] => None
  | c :: r => if beq c b_dquote then Some ([], r)
              else match until_dquote r with Some (a, b) => Some (c :: a, b) | None => None end
  end.

Section Time.
(** strconv.Unquote on anything but a double quote followed by plain characters
    (escapes, raw strings, rune literals, other text); None is an error. *)
Variable unquote_other : bytes -> option bytes.

(** strconv.Unquote *)
Definition unquote (data : bytes) : option bytes :=
  match data with
  | [] => None
  | q :: r =>
      if beq q b_dquote && forallb plain_char r then
        match until_dquote r with
        | Some (s, []) => Some s
        | _ => None
        end
      else unquote_other data
  end.
(** [s, _ := strconv.Unquote(x)]: the empty string in case of an error. *)
Definition unquoted (data : bytes) : bytes :=
  match unquote data with Some s => s | None => [] end.

(** domain/time.go:36-41 ShortDate.UnmarshalJSON: the date is assigned also in
    case of an error, the zero one then.  The flag says whether the error is nil. *)
Definition date_unmarshal_json (data : bytes) : date * bool :=
  match parse_iso (unquoted data) with
  | Ok d => (d, true)
  | _ => (zero_date, false)
  end.

(** domain/time.go:111-127 Timeframe.UnmarshalJSON *)
Definition tf_unmarshal_json (data : bytes) : outcome timeframe :=
  match split_on b_comma (unquoted data) with
  | [a; b] =>
      match parse_iso a, parse_iso b with
      | Ok x, Ok y => Ok (mkTf x y)
      | _, _ => Ok zero_tf
      end
  | _ => Ok zero_tf
  end.
End Time.
