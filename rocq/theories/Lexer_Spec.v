(** * Specification of HBCI tokenisation

    A position-free description of one token: which type and how many bytes of
    the remaining input it takes.  It uses nothing of the model of the lexer but
    the token types and [is_delimiter]/[is_syntax_symbol]. *)
From Verif Require Import Base Lexer_Model.

Inductive sres :=
| SEmit (ty : ttype) (n : nat)   (* a token of n bytes, more may follow *)
| SErr                           (* ERROR token, end *)
| SEof (n : nat)                 (* EOF token of n (0 or 1) bytes, end *)
| SPanic.                        (* run time panic *)

(** The longest prefix of digits. *)
Fixpoint take_digits (s : bytes) : bytes :=
  match s with
  | b :: s' => if is_digit b then b :: take_digits s' else []
  | [] => []
  end.
Fixpoint drop_digits (s : bytes) : bytes :=
  match s with
  | b :: s' => if is_digit b then drop_digits s' else s
  | [] => []
  end.

(** Free text up to the first unescaped delimiter: its length and whether it
    has a line break.  [None]: a '?' not followed by a syntax symbol, a NUL
    byte, or no delimiter at all. *)
Fixpoint scan_text (text : bool) (s : bytes) : option (bool * nat) :=
  match s with
  | [] => None
  | c :: r =>
      if beq c b_qmark then
        match r with
        | e :: r' => if is_syntax_symbol e
                     then match scan_text text r' with
                          | Some (t, n) => Some (t, S (S n))
                          | None => None
                          end
                     else None
        | [] => None
        end
      else if is_delimiter c then Some (text, O)
      else if beq c b_nul then None
      else match scan_text (text || beq c b_lf || beq c b_cr) r with
           | Some (t, n) => Some (t, S n)
           | None => None
           end
  end.
Definition scan_free (s : bytes) : sres :=
  match scan_text false s with
  | Some (t, n) => SEmit (if t then T_TEXT else T_ALNUM) n
  | None => SErr
  end.

Definition starts_delim (s : bytes) : bool :=
  match s with c :: _ => is_delimiter c | [] => false end.

(** A token that starts with a digit. *)
Definition scan_num (s : bytes) : sres :=
  let ds := take_digits s in
  let r := drop_digits s in
  let zero := match s with c :: _ => beq c b_zero | [] => false end in
  let n := List.length ds in
  if starts_delim r
  then SEmit (if zero && negb (n =? 1)%nat then T_DIGIT else T_NUMERIC) n
  else match r with
       | c :: r' =>
           if beq c b_comma then
             if zero && negb (n =? 1)%nat then SErr
             else if starts_delim (drop_digits r')
                  then SEmit T_FLOAT (n + 1 + List.length (take_digits r'))
                  else scan_free s
           else scan_free s
       | [] => SErr
       end.

(** A token that starts with '@'; [r] is the input behind the '@' and [p] the
    offset of the '@' in the whole input (it matters for overflow only). *)
Definition scan_bin (p : Z) (r : bytes) : sres :=
  let ds := take_digits r in
  match drop_digits r with
  | [] => match ds with [] => SPanic | _ => SErr end
  | c :: data =>
      match ds with
      | [] => SErr
      | _ =>
          let n := Z.of_N (dec_val ds) in
          if negb (in_int64 n) then SErr
          else if negb (beq c b_at) then SErr
          else if (2 ^ 63 <=? p + 2 + len ds + n)%Z then SPanic
          else if (n <? len data)%Z && starts_delim (skipn (Z.to_nat n) data)
               then SEmit T_BINARY (2 + List.length ds + Z.to_nat n)
               else SErr
      end
  end.

Definition scan_tok (p : Z) (s : bytes) : sres :=
  match s with
  | [] => SEof 0
  | c :: r =>
      if beq c b_plus then SEmit T_DES 1
      else if beq c b_quote then SEmit T_SEGEND 1
      else if beq c b_colon then SEmit T_GDES 1
      else if beq c b_at then scan_bin p r
      else if beq c b_nul then SEof 1
      else if is_digit c then scan_num s
      else scan_free s
  end.

Fixpoint scan_all (fuel : nat) (p : Z) (s : bytes) : list token * lex_end :=
  match fuel with
  | O => ([], EndFuel)
  | S f =>
      match scan_tok p s with
      | SEmit ty n =>
          let '(ts, e) := scan_all f (p + Z.of_nat n)%Z (skipn n s) in
          (mkTok ty (firstn n s) p :: ts, e)
      | SErr => ([mkTok T_ERROR [] p], EndDone)
      | SEof n => ([mkTok T_EOF (firstn n s) p], EndDone)
      | SPanic => ([], EndPanic)
      end
  end.
Definition scan (inp : bytes) : list token * lex_end :=
  scan_all (S (List.length inp)) 0 inp.

(** ** Vocabulary of the property statements *)

(** The two token types that end a token sequence. *)
Definition closing (t : token) : Prop := tok_type t = T_EOF \/ tok_type t = T_ERROR.

(** Tokens follow each other without gaps, starting at offset [p]. *)
Fixpoint contiguous (p : Z) (ts : list token) : Prop :=
  match ts with
  | [] => True
  | t :: ts' => tok_pos t = p /\ contiguous (p + len (tok_val t))%Z ts'
  end.

(** The bytes all tokens cover. *)
Definition covered (ts : list token) : bytes := List.concat (map tok_val ts).

Definition delimiter_type (ty : ttype) : bool :=
  ttype_eqb ty T_DES || ttype_eqb ty T_GDES || ttype_eqb ty T_SEGEND.

(** No '+', ':' or apostrophe that is not preceded by the release character
    '?'; and '?' is always followed by the character it escapes. *)
Fixpoint all_escaped (v : bytes) : bool :=
  match v with
  | [] => true
  | c :: r =>
      if beq c b_qmark then match r with _ :: r' => all_escaped r' | [] => false end
      else negb (is_delimiter c) && all_escaped r
  end.

(** A length Go slices never reach; keeps [pos] arithmetic in range. *)
Definition small_input (inp : bytes) : Prop := (len inp < 2 ^ 62)%Z.

(** [s], at offset [p], starts with a binary header whose length moves the
    position out of the 64 bit range. *)
Definition bad_length (p : Z) (s : bytes) : Prop :=
  exists ds r, s = b_at :: ds ++ b_at :: r /\ ds <> [] /\ forallb is_digit ds = true /\
    (Z.of_N (dec_val ds) < 2 ^ 63)%Z /\ (2 ^ 63 <= p + 2 + len ds + Z.of_N (dec_val ds))%Z.

Definition is_data_type (ty : ttype) : bool :=
  match ty with
  | T_BINARY | T_ALNUM | T_TEXT | T_NUMERIC | T_DIGIT | T_FLOAT => true
  | _ => false
  end.

(** Between two data tokens there is always a delimiter. *)
Fixpoint separated (ts : list token) : Prop :=
  match ts with
  | t :: ts' =>
      (is_data_type (tok_type t) = true ->
       match ts' with u :: _ => delimiter_type (tok_type u) = true | [] => False end) /\
      separated ts'
  | [] => True
  end.
