(** * Model of data elements, groups, segments and the extractors

    element/data_element.go (groups, floats), element/element_extractor.go,
    segment/segment.go, segment/element_extractor.go,
    message/segment_extractor.go.  Length limits, types and the optional flag of
    elements do not take part in marshaling and are not modelled here. *)
From Verif Require Import Base Lexer_Model Codec_Model.
Open Scope Z_scope.

(** A float64 as far as its shortest decimal rendering goes: sign, integer part
    and the digits behind the decimal point (none for an integer). *)
Inductive gofloat :=
| FNum (neg : bool) (ipart : N) (frac : bytes)
| FInf (neg : bool)
| FNaN.

(** strconv.FormatFloat(x, 'f', -1, 64) *)
Definition format_float (f : gofloat) : bytes :=
  match f with
  | FNum neg i frac =>
      (if neg then [b_minus] else []) ++ itoa_N i ++
      match frac with [] => [] | _ => "."%byte :: frac end
  | FInf neg => if neg then B "-Inf" else B "+Inf"
  | FNaN => B "NaN"
  end.

(** strings.Replace(s, a, b, 1) for single bytes *)
Fixpoint replace1 (a b : byte) (s : bytes) : bytes :=
  match s with
  | [] => []
  | c :: r => if beq c a then b :: r else c :: replace1 a b r
  end.

(** element/data_element.go:377-384 FloatDataElement.String, 387-389 MarshalHBCI;
    promoted by ValueDataElement (754-756) *)
Definition float_string (f : gofloat) : bytes :=
  let str := replace1 "."%byte b_comma (format_float f) in
  if mem_byte b_comma str then str else str ++ [b_comma].
Definition marshal_float (f : gofloat) : outcome bytes := to_latin1 (float_string f).

(** ** Data elements: element/data_element.go:20-40 DataElement interface with its
    basic implementations.  [EText] stands for AlphaNumeric, Text, Identification,
    Code and Currency, [EBinary] also for DtausCharset, [EDigit] also for
    CountryCode (width 3), [ENumber] also for VirtualDate, [EFloat] also for Value. *)
Inductive elem :=
| EText (v : bytes)
| EDigit (w : nat) (z : Z)
| ENumber (z : Z)
| EFloat (f : gofloat)
| EBinary (data : bytes)
| EBool (b : bool)
| EDate (d : date)
| ETime (t : tod).

(** The MarshalHBCI methods: element/data_element.go:259, 288, 322, 348, 387, 445,
    496, 571, 632. *)
Definition marshal_elem (e : elem) : outcome bytes :=
  match e with
  | EText v => marshal_text v
  | EDigit w z => marshal_digit w z
  | ENumber z => marshal_number z
  | EFloat f => marshal_float f
  | EBinary d => marshal_binary d
  | EBool b => marshal_bool b
  | EDate d => marshal_date d
  | ETime t => marshal_time t
  end.

(** A data element is a basic one or a group; absent components are nil. *)
Inductive delem :=
| DE (e : elem)
| DEG (components : list (option delem)).

(** element/data_element.go:138-152 elementGroup.MarshalHBCI (also for
    arrayElementGroup, 190-198). *)
Fixpoint marshal_de (d : delem) : outcome bytes :=
  match d with
  | DE e => marshal_elem e
  | DEG cs =>
      do bs <- (fix go (l : list (option delem)) : outcome (list bytes) :=
                  match l with
                  | [] => Ok []
                  | o :: r =>
                      do b <- match o with Some x => marshal_de x | None => Ok [] end;
                      do bs <- go r; Ok (b :: bs)
                  end) cs;
      Ok (trim_right b_colon (join [b_colon] bs))
  end.
Definition marshal_opt (o : option delem) : outcome bytes :=
  match o with Some x => marshal_de x | None => Ok [] end.

(** segment/segment.go:96-117 segment.MarshalHBCI *)
Definition marshal_segment (header : delem) (elements : list (option delem)) : outcome bytes :=
  do h <- marshal_de header;
  do bs <- all_ok marshal_opt elements;
  Ok (trim_right b_plus (join [b_plus] (h :: bs)) ++ [b_quote]).

(** element/segment_header.go:15-26, 67-74 the segment header group *)
Definition segment_header (id : bytes) (pos version : Z) (ref : option Z) : delem :=
  DEG [Some (DE (EText id)); Some (DE (ENumber pos)); Some (DE (ENumber version));
       option_map (fun r => DE (ENumber r)) ref].

(** ** Extractors *)

(** The loop [for lexer.HasNext() { t := lexer.Next(); ... }] common to all three
    extractors, which returns an error at the first ERROR token: [f] is the fold
    over the other tokens. *)
Definition is_error (t : token) : bool := ttype_eqb (tok_type t) T_ERROR.
Definition with_tokens {A} (inp : bytes) (f : list token -> A) : outcome A :=
  match read_all inp with
  | (ts, EndDone) => if existsb is_error ts then Err else Ok (f ts)
  | (_, _) => Panic
  end.

(** element/element_extractor.go:36-55 groupExtractor.Extract: loop body *)
Fixpoint group_split (current : bytes) (ts : list token) : list bytes :=
  match ts with
  | [] => []
  | t :: r =>
      match tok_type t with
      | T_SEGEND | T_DES | T_GDES => current :: group_split [] r
      | _ => group_split (current ++ tok_val t) r
      end
  end.
(** element/element_extractor.go:11-27: a '+' is appended only if the bytes have
    neither '+' nor apostrophe anywhere. *)
Definition group_extract (g : bytes) : outcome (list bytes) :=
  let inp := if existsb (fun c => beq c b_plus || beq c b_quote) g then g else g ++ [b_plus] in
  with_tokens inp (group_split []).

(** segment/element_extractor.go:22-42 *)
Fixpoint elements_split (current : bytes) (ts : list token) : list bytes :=
  match ts with
  | [] => []
  | t :: r =>
      match tok_type t with
      | T_DES => current :: elements_split [] r
      | T_SEGEND => match current with
                    | [] => elements_split [] r
                    | _ => current :: elements_split [] r
                    end
      | _ => elements_split (current ++ tok_val t) r
      end
  end.
Definition segment_extract (s : bytes) : outcome (list bytes) :=
  with_tokens s (elements_split []).

(** message/segment_extractor.go:25-42 *)
Fixpoint segments_split (current : bytes) (ts : list token) : list bytes :=
  match ts with
  | [] => []
  | t :: r =>
      match tok_type t with
      | T_SEGEND => (current ++ tok_val t) :: segments_split [] r
      | _ => segments_split (current ++ tok_val t) r
      end
  end.

(** message/segment_extractor.go:18-21 SegmentExtractor *)
Record seg_extractor := mkSE { se_raw : bytes; se_segments : list bytes }.
Definition new_segment_extractor (raw : bytes) : seg_extractor := mkSE raw [].
(** lines 25-42: the found segments are appended to those of earlier calls; on an
    error the segments found so far stay in the extractor. *)
Definition se_extract (x : seg_extractor) : seg_extractor * outcome (list bytes) :=
  match read_all (se_raw x) with
  | (ts, EndDone) =>
      let segs := se_segments x ++ segments_split [] ts in
      (mkSE (se_raw x) segs, if existsb is_error ts then Err else Ok segs)
  | (ts, _) => (mkSE (se_raw x) (se_segments x ++ segments_split [] ts), Panic)
  end.
Definition message_extract (raw : bytes) : outcome (list bytes) :=
  snd (se_extract (new_segment_extractor raw)).

(** lines 46-54 FindSegment (nil if none) *)
Definition find_segment (x : seg_extractor) (id : bytes) : option bytes :=
  find (has_prefix id) (se_segments x).
(** bytes.SplitN(segment, ":", 2)[0] *)
Fixpoint before_colon (s : bytes) : bytes :=
  match s with
  | [] => []
  | c :: r => if beq c b_colon then [] else c :: before_colon r
  end.
(** lines 57-69 FindSegments: the map from IDs to segments as an association list *)
Fixpoint map_append (m : list (bytes * list bytes)) (k v : bytes) : list (bytes * list bytes) :=
  match m with
  | [] => [(k, [v])]
  | (k', vs) :: r => if bytes_eqb k' k then (k', vs ++ [v]) :: r else (k', vs) :: map_append r k v
  end.
Fixpoint map_get (m : list (bytes * list bytes)) (k : bytes) : list bytes :=
  match m with
  | [] => []
  | (k', vs) :: r => if bytes_eqb k' k then vs else map_get r k
  end.
Definition find_segments (x : seg_extractor) (id : bytes) : list bytes :=
  map_get (fold_left (fun m s => map_append m (before_colon s) s) (se_segments x) []) id.
