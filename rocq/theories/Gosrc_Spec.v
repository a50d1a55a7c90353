(** * What Go source says

    The part of Go's lexical grammar ("The Go Programming Language Specification", sections
    Source code representation and Lexical elements) that tables of texts need: line
    comments, words, interpreted string literals, the signs of composite literals and the
    semicolons a line end stands for.  [None] is source with anything else in it.  Nothing
    here refers to how the source is written. *)
From Verif Require Import Base Codec_Model Mt940_Model Bank_Model.
Open Scope Z_scope.

Inductive go_token := Word (w : bytes) | Text (v : bytes) | Sign (c : byte).

(** Source is UTF-8 without NUL and byte order marks. *)
Fixpoint source_ok_ (fuel : nat) (s : bytes) : bool :=
  match fuel, decode_rune s with
  | S f, Some r =>
      negb ((r_code r =? 65533) && Nat.eqb (r_width r) 1) && negb (r_code r =? 0) && negb (r_code r =? 65279)
      && source_ok_ f (skipn (r_width r) s)
  | _, _ => true
  end.
Definition source_ok (s : bytes) : bool := source_ok_ (List.length s) s.

(** The UTF-8 form of a character. *)
Definition utf8_char (c : Z) : bytes :=
  if c <? 128 then [byte_of_Z c]
  else if c <? 2048 then [byte_of_Z (192 + c / 64); byte_of_Z (128 + c mod 64)]
  else if c <? 65536 then [byte_of_Z (224 + c / 4096); byte_of_Z (128 + c / 64 mod 64); byte_of_Z (128 + c mod 64)]
  else [byte_of_Z (240 + c / 262144); byte_of_Z (128 + c / 4096 mod 64); byte_of_Z (128 + c / 64 mod 64); byte_of_Z (128 + c mod 64)].

Definition hex_value (b : byte) : option Z :=
  if (48 <=? zb b) && (zb b <=? 57) then Some (zb b - 48)
  else if (97 <=? zb b) && (zb b <=? 102) then Some (zb b - 87)
  else if (65 <=? zb b) && (zb b <=? 70) then Some (zb b - 55)
  else None.
Fixpoint hex_number (acc : Z) (ds : bytes) : option Z :=
  match ds with
  | [] => Some acc
  | d :: ds' => match hex_value d with Some v => hex_number (acc * 16 + v) ds' | None => None end
  end.
Definition octal_value (b : byte) : option Z :=
  if (48 <=? zb b) && (zb b <=? 55) then Some (zb b - 48) else None.
(** A character written by its number: none of the surrogates and none above U+10FFFF. *)
Definition char_number (ds : bytes) : option bytes :=
  match hex_number 0 ds with
  | Some c => if ((c <? 55296) || (57343 <? c)) && (c <=? 1114111) then Some (utf8_char c) else None
  | None => None
  end.
(** The escapes of one letter. *)
Definition letter_escape (e : byte) : option byte :=
  if zb e =? 97 then Some x07 else if zb e =? 98 then Some x08 else if zb e =? 102 then Some x0c
  else if zb e =? 110 then Some x0a else if zb e =? 114 then Some x0d else if zb e =? 116 then Some x09
  else if zb e =? 118 then Some x0b else if zb e =? 92 then Some x5c else if zb e =? 34 then Some x22
  else None.

Definition before (v : bytes) (o : option (bytes * bytes)) : option (bytes * bytes) :=
  match o with Some (x, rest) => Some (v ++ x, rest) | None => None end.

(** The value of an interpreted string literal whose opening quote has been read, and what
    follows its closing quote. *)
Fixpoint literal (s : bytes) : option (bytes * bytes) :=
  match s with
  | [] => None
  | c :: r =>
      if beq c x22 then Some ([], r)
      else if beq c x0a then None
      else if beq c x5c then
        match r with
        | [] => None
        | e :: r1 =>
            match letter_escape e with
            | Some b => before [b] (literal r1)
            | None =>
                if zb e =? 120 (* \xHH *) then
                  match r1 with
                  | a :: b :: r2 =>
                      match hex_number 0 [a; b] with Some z => before [byte_of_Z z] (literal r2) | None => None end
                  | _ => None
                  end
                else if zb e =? 117 (* \uHHHH *) then
                  match r1 with
                  | a :: b :: c :: d :: r2 =>
                      match char_number [a; b; c; d] with Some u => before u (literal r2) | None => None end
                  | _ => None
                  end
                else if zb e =? 85 (* \UHHHHHHHH *) then
                  match r1 with
                  | a :: b :: c :: d :: a' :: b' :: c' :: d' :: r2 =>
                      match char_number [a; b; c; d; a'; b'; c'; d'] with Some u => before u (literal r2) | None => None end
                  | _ => None
                  end
                else (* \OOO *)
                  match r1 with
                  | a :: b :: r2 =>
                      match octal_value e, octal_value a, octal_value b with
                      | Some x, Some y, Some z =>
                          if x * 64 + y * 8 + z <=? 255 then before [byte_of_Z (x * 64 + y * 8 + z)] (literal r2) else None
                      | _, _, _ => None
                      end
                  | _ => None
                  end
            end
        end
      else before [c] (literal r)
  end.

Definition letter (b : byte) : bool :=
  ((65 <=? zb b) && (zb b <=? 90)) || ((97 <=? zb b) && (zb b <=? 122)) || (zb b =? 95).
Fixpoint word (s : bytes) : bytes * bytes :=
  match s with
  | c :: r => if letter c || is_digit c then let '(w, rest) := word r in (c :: w, rest) else ([], s)
  | [] => ([], [])
  end.
Fixpoint line_rest (s : bytes) : bytes :=
  match s with
  | c :: r => if beq c x0a then s else line_rest r
  | [] => []
  end.
(** The keywords after which a line end is no semicolon *)
Definition keyword (w : bytes) : bool :=
  existsb (bytes_eqb w) [B "case"; B "chan"; B "const"; B "default"; B "defer"; B "else"; B "for"; B "func"; B "go"; B "goto"; B "if";
    B "import"; B "interface"; B "map"; B "package"; B "range"; B "select"; B "struct"; B "switch"; B "type"; B "var"].
Definition opening (c : byte) : bool := existsb (beq c) [x7b; x5b; x28; x3d; x2c; x3a; x3b].
Definition closing (c : byte) : bool := existsb (beq c) [x7d; x5d; x29].
Definition semicolon : go_token := Sign x3b.

Definition more (t : go_token) (o : option (list go_token)) : option (list go_token) :=
  match o with Some ts => Some (t :: ts) | None => None end.
(** [ends]: a line end here is a semicolon. *)
Fixpoint tokens (fuel : nat) (ends : bool) (s : bytes) : option (list go_token) :=
  match fuel with
  | O => None
  | S f =>
      match s with
      | [] => Some (if ends then [semicolon] else [])
      | c :: r =>
          if beq c x0a then (if ends then more semicolon (tokens f false r) else tokens f false r)
          else if beq c x20 || beq c x09 || beq c x0d then tokens f ends r
          else if beq c x2f then
            match r with
            | d :: r' => if beq d x2f then tokens f ends (line_rest r') else None
            | [] => None
            end
          else if beq c x22 then
            match literal r with Some (v, rest) => more (Text v) (tokens f true rest) | None => None end
          else if letter c then
            let '(w, rest) := word s in more (Word w) (tokens f (negb (keyword w)) rest)
          else if opening c then more (Sign c) (tokens f false r)
          else if closing c then more (Sign c) (tokens f true r)
          else None
      end
  end.
(** The tokens of a source file. *)
Definition go_tokens (s : bytes) : option (list go_token) :=
  if source_ok s then tokens (S (List.length s)) false s else None.

(** ** The table *)
(** The declaration of a variable of the package bankinfo with the entries of a table in it. *)
Definition entry_tokens (e : bank_info) : list go_token :=
  let line name v := [Word name; Sign x3a; Text v; Sign x2c] in
  Sign x7b ::
  line (B "BankID") (bi_id e) ++ line (B "BIC") (bi_bic e) ++ line (B "VersionNumber") (bi_number e) ++
  line (B "URL") (bi_url e) ++ line (B "VersionName") (bi_name e) ++ line (B "Institute") (bi_institute e) ++
  line (B "City") (bi_city e) ++ line (B "LastChanged") (bi_changed e) ++ [Sign x7d; Sign x2c].
Definition table_tokens (table : list bank_info) : list go_token :=
  [Word (B "package"); Word (B "bankinfo"); semicolon;
   Word (B "var"); Word (B "data"); Sign x3d; Sign x5b; Sign x5d; Word (B "BankInfo"); Sign x7b]
  ++ flat_map entry_tokens table ++ [Sign x7d; semicolon].

(** A text that means itself between quotes. *)
Definition plain_text (v : bytes) : Prop :=
  ~ In x22 v /\ ~ In x5c v /\ ~ In x0a v /\ source_ok v = true.
Definition plain_entry (e : bank_info) : Prop :=
  plain_text (bi_id e) /\ plain_text (bi_bic e) /\ plain_text (bi_number e) /\ plain_text (bi_url e) /\
  plain_text (bi_name e) /\ plain_text (bi_city e) /\ plain_text (bi_changed e).

(** strconv.IsPrint accepts neither control characters nor byte order marks. *)
Definition print_table (printable : Z -> bool) : Prop :=
  forall c, 0 <= c < 32 \/ c = 127 \/ c = 65279 -> printable c = false.
(** go/format changes blanks only. *)
Definition same_tokens (gofmt : bytes -> outcome bytes) : Prop :=
  forall s t, gofmt s = Ok t -> go_tokens t = go_tokens s.
