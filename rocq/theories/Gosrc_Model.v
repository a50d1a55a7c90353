(** * The Go source cmd/bankdata_parser writes

    cmd/bankdata_parser/bankdata_parser.go:59-94, with text/template (which writes strings
    as they are) and [%q] of package fmt, which is strconv.Quote.  Which characters
    strconv.IsPrint accepts is a parameter; so is go/format. *)
From Verif Require Import Base Codec_Model Mt940_Model Bank_Model Csv_Model.
Open Scope Z_scope.

Definition b_backslash : byte := "\"%byte.
Definition b_dquote : byte := """"%byte.
Definition b_tab : byte := "009"%byte.

(** strconv/quote.go: the constant lowerhex *)
Definition hex_char (z : Z) : byte := if z <? 10 then byte_of_Z (48 + z) else byte_of_Z (87 + z).
(** The loops that write [n] digits, highest first *)
Fixpoint hex_digits (n : nat) (z : Z) : bytes :=
  match n with
  | O => []
  | S n' => hex_char (z / 16 ^ Z.of_nat n' mod 16) :: hex_digits n' z
  end.

Section Quote.
  Variable printable : Z -> bool.

  (** strconv/quote.go appendEscapedRune, for double quotes and without ASCIIonly;
      [utf8.ValidRune] holds of every character utf8.DecodeRuneInString returns *)
  Definition escaped_rune (r : rune) : bytes :=
    let c := r_code r in
    if (c =? 34) || (c =? 92) then [b_backslash; byte_of_Z c]
    else if printable c then r_string r
    else if c =? 7 then B "\a"
    else if c =? 8 then B "\b"
    else if c =? 12 then B "\f"
    else if c =? 10 then B "\n"
    else if c =? 13 then B "\r"
    else if c =? 9 then B "\t"
    else if c =? 11 then B "\v"
    else if (c <? 32) || (c =? 127) then B "\x" ++ hex_digits 2 c
    else if c <? 65536 then B "\u" ++ hex_digits 4 c
    else B "\U" ++ hex_digits 8 c.

  (** strconv/quote.go appendQuotedWith: a byte that is no character is written in hex *)
  Fixpoint quoted_body (fuel : nat) (s : bytes) : bytes :=
    match fuel, s with
    | S f, a :: _ =>
        match decode_rune s with
        | None => []
        | Some r =>
            (if (r_code r =? 65533) && Nat.eqb (r_width r) 1 then B "\x" ++ hex_digits 2 (zb a) else escaped_rune r)
              ++ quoted_body f (skipn (r_width r) s)
        end
    | _, _ => []
    end.
  Definition go_quote (s : bytes) : bytes := [b_dquote] ++ quoted_body (List.length s) s ++ [b_dquote].

  (** cmd/bankdata_parser/bankdata_parser.go:76-94 dataTemplate *)
  Definition source_line (name v : bytes) : bytes :=
    [b_tab; b_tab] ++ name ++ B ": " ++ v ++ [b_comma; b_lf].
  Definition between_quotes (v : bytes) : bytes := [b_dquote] ++ v ++ [b_dquote].
  Definition entry_source (e : bank_info) : bytes :=
    [x7b; b_lf]
    ++ source_line (B "BankID") (between_quotes (bi_id e))
    ++ source_line (B "BIC") (between_quotes (bi_bic e))
    ++ source_line (B "VersionNumber") (between_quotes (bi_number e))
    ++ source_line (B "URL") (between_quotes (bi_url e))
    ++ source_line (B "VersionName") (between_quotes (bi_name e))
    ++ source_line (B "Institute") (go_quote (bi_institute e))
    ++ source_line (B "City") (between_quotes (bi_city e))
    ++ source_line (B "LastChanged") (between_quotes (bi_changed e))
    ++ [b_tab; x7d; b_comma; b_lf; b_tab].
  Definition table_source (table : list bank_info) : bytes :=
    B "// Code generated by cmd/bankdata_parser DO NOT EDIT." ++ [b_lf; b_lf]
    ++ B "package bankinfo" ++ [b_lf; b_lf]
    ++ B "var data = []BankInfo{" ++ [b_lf; b_tab]
    ++ flat_map entry_source table
    ++ [b_lf; x7d].

  (** cmd/bankdata_parser/bankdata_parser.go:59-74 writeDataToGoFile.  The template is well
      formed and writing to a buffer does not fail; [gofmt]: format.Source. *)
  Variable gofmt : bytes -> outcome bytes.
  Definition write_go_file (table : list bank_info) : outcome bytes := gofmt (table_source table).

  (** cmd/bankdata_parser/bankdata_parser.go:19-57 main: the file written for bank tables
      that can be read; every error ends the program without it. *)
  Definition bankdata_parser (no_header : outcome (list csv_record)) (sort : list bank_info -> list bank_info)
      (files : list bytes) : outcome bytes :=
    match files with
    | [] => Err
    | _ => do table <- bank_table no_header sort files; write_go_file table
    end.
End Quote.
