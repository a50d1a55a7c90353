(** * Specification of SWIFT tokens, without positions and states of the lexer *)
From Verif Require Import Base Lexer_Model Lexer_Spec Swift_Model.
Open Scope Z_scope.

(** A line break that ends a value: one followed by a tag or by the end of a message. *)
Definition boundary (s : bytes) : bool :=
  match s with
  | a :: b :: t =>
      beq a b_cr && beq b b_lf &&
      match t with
      | [] => false
      | [c] => beq c b_dash
      | c :: d :: u =>
          (beq c b_dash && (beq d b_colon || (beq d b_cr && match u with e :: _ => beq e b_lf | [] => false end))) ||
          (beq c b_colon && is_digit d && match u with [] => false | _ => true end)
      end
  | _ => false
  end.

(** What the next token can be: [GTok ty n k]: [n] bytes of the type [ty], and then it
    goes on with [k]. *)
Inductive goal := GEntry | GTag | GStart.
Inductive gres := GTok (ty : ttype) (n : nat) (k : goal) | GErr | GEof (n : nat).

(** Text up to the first boundary. *)
Fixpoint free_length (s : bytes) : option nat :=
  match s with
  | [] => None
  | c :: r =>
      if beq c b_nul then None
      else if beq c b_cr && boundary s then Some O
      else option_map S (free_length r)
  end.
Definition free_text (s : bytes) : gres :=
  match free_length s with Some n => GTok TS_ALPHANUMERIC n GStart | None => GErr end.

Fixpoint take_while (f : byte -> bool) (s : bytes) : bytes :=
  match s with c :: r => if f c then c :: take_while f r else [] | [] => [] end.
Fixpoint drop_while (f : byte -> bool) (s : bytes) : bytes :=
  match s with c :: r => if f c then drop_while f r else s | [] => [] end.
Definition cap_or_digit (c : byte) : bool := is_capital c || is_digit c.

(** The first line is made of capitals and digits only, or it is a decimal number: then
    it is one token, whatever follows the line break. *)
Definition value (s : bytes) : gres :=
  let ds := take_while is_digit s in
  let r := drop_while is_digit s in
  match ds, r with
  | _ :: _, c :: r' =>
      if beq c b_comma then
        match drop_while is_digit r' with
        | d :: _ => if beq d b_cr then GTok TS_DECIMAL (List.length ds + 1 + List.length (take_while is_digit r')) GStart else free_text s
        | [] => GErr
        end
      else if boundary r then GTok TS_NUMERIC (List.length ds) GStart
      else match drop_while cap_or_digit s with
           | d :: _ => if beq d b_cr then GTok TS_CHARACTER (List.length (take_while cap_or_digit s)) GStart else free_text s
           | [] => GErr
           end
  | _ :: _, [] => GErr
  | [], _ =>
      match s with
      | c :: _ =>
          if is_capital c then
            match drop_while is_capital s with
            | d :: _ =>
                if beq d b_cr then GTok TS_ALPHA (List.length (take_while is_capital s)) GStart
                else match drop_while cap_or_digit s with
                     | e :: _ => if is_digit d && beq e b_cr then GTok TS_CHARACTER (List.length (take_while cap_or_digit s)) GStart else free_text s
                     | [] => GErr
                     end
            | [] => GErr
            end
          else free_text s
      | [] => GErr
      end
  end.

(** A tag: an optional ':', digits, an optional capital, ':'. *)
Definition tag_length (s : bytes) : option nat :=
  let '(n0, s0) := match s with c :: r => if beq c b_colon then (1%nat, r) else (0%nat, s) | [] => (0%nat, s) end in
  match take_while is_digit s0 with
  | [] => None
  | ds =>
      match drop_while is_digit s0 with
      | c :: r =>
          if beq c b_colon then Some (n0 + List.length ds + 1)%nat
          else if is_capital c then
            match r with
            | d :: _ => if beq d b_colon then Some (n0 + List.length ds + 2)%nat else None
            | [] => None
            end
          else None
      | [] => None
      end
  end.

Definition next_token (k : goal) (s : bytes) : gres :=
  match k with
  | GEntry => match s with a :: b :: _ => if beq a b_cr && beq b b_lf then GTok TS_DATASET_START 2 GTag else GErr | _ => GErr end
  | GTag => match tag_length s with Some n => GTok TS_TAG n GStart | None => GErr end
  | GStart =>
      match s with
      | [] => GEof 0
      | c :: r =>
          if beq c b_nul then GEof 1
          else if beq c b_cr then
            match r with
            | d :: e :: _ =>
                if negb (beq d b_lf) || beq e b_nul then GErr
                else if beq e b_dash then GTok TS_MESSAGE_SEPARATOR 3 GStart
                else GTok TS_TAG_SEPARATOR 2 GTag
            | _ => GErr
            end
          else value s
      end
  end.

(** All tokens. *)
Fixpoint tokens (fuel : nat) (k : goal) (p : Z) (s : bytes) : list token :=
  match fuel with
  | O => []
  | S f =>
      match next_token k s with
      | GTok ty n k' => mkTok ty (firstn n s) p :: tokens f k' (p + Z.of_nat n) (skipn n s)
      | GErr => [mkTok T_ERROR [] p]
      | GEof n => [mkTok T_EOF (firstn n s) p]
      end
  end.

(** ** SWIFT messages *)
Definition crlf : bytes := [b_cr; b_lf].

(** A field [:id:value], as in [:60F:C150101EUR100,00]. *)
Record field := mkField { f_number : bytes; f_letter : option byte; f_value : bytes }.
Definition field_bytes (t : field) : bytes :=
  [b_colon] ++ f_number t ++ (match f_letter t with Some l => [l] | None => [] end) ++ [b_colon] ++ f_value t.
(** Line break, the fields separated by line breaks, and the closing "-" on its own line. *)
Definition swift_message (ts : list field) : bytes :=
  crlf ++ join crlf (map field_bytes ts) ++ crlf ++ [b_dash].

Definition id_ok (t : field) : Prop :=
  f_number t <> [] /\ forallb is_digit (f_number t) = true /\
  match f_letter t with Some l => is_capital l = true | None => True end.

(** The line [l] begins like a new field or is the end of a message. *)
Definition begins_field (l : bytes) : bool :=
  has_prefix [b_dash; b_colon] l || has_prefix (b_dash :: crlf) l ||
  match l with c :: d :: _ => beq c b_colon && is_digit d | _ => false end.

(** [digits,digits] as in an amount. *)
Definition is_decimal (l : bytes) : bool :=
  match take_while is_digit l, drop_while is_digit l with
  | _ :: _, c :: r => beq c b_comma && forallb is_digit r
  | _, _ => false
  end.
Definition first_line (v : bytes) : bytes := take_while (fun c => negb (beq c b_cr)) v.
Definition code_line (l : bytes) : bool := forallb cap_or_digit l || is_decimal l.

(** Values without NUL bytes; in which no further line begins like a field; and if there
    are further lines, the first one is neither empty, nor only made of capitals and
    digits, nor an amount. *)
Definition value_ok (v : bytes) : Prop :=
  ~ In b_nul v /\
  (forall u w, v = u ++ crlf ++ w -> begins_field (w ++ crlf) = false) /\
  (In b_cr v -> code_line (first_line v) = false).
