(** * Model of the reader of bank tables

    bankinfo/parser.go ParseBankInfos with the reader of encoding/csv as it is set up there
    (Comma ';', TrimLeadingSpace, FieldsPerRecord -1, no comments, no lazy quotes), and
    cmd/bankdata_parser.  The text is given as a whole; a reader that fails is not modelled. *)
From Verif Require Import Base Codec_Model Bank_Model.
Open Scope Z_scope.

Definition b_semicolon : byte := ";".
Definition b_dquote : byte := x22.

(** ** encoding/csv (Go's src/encoding/csv/reader.go) *)

(** ReadSlice('\n'): the lines with their line feeds *)
Fixpoint raw_lines (s : bytes) : list bytes :=
  match s with
  | [] => []
  | c :: r => if beq c b_lf then [c] :: raw_lines r
              else match raw_lines r with [] => [[c]] | l :: ls => (c :: l) :: ls end
  end.
(** readLine: "\r\n" becomes "\n", "\r" at the end of the file is dropped *)
Fixpoint normal_line (l : bytes) : bytes :=
  match l with
  | [] => []
  | [c] => if beq c b_cr then [] else [c]
  | c :: (d :: r') as r => if beq c b_cr && beq d b_lf then match r' with [] => [b_lf] | _ => c :: normal_line r end
                           else c :: normal_line r
  end.
Definition read_lines (s : bytes) : list bytes := map normal_line (raw_lines s).

(** bytes.IndexByte, and the text before and after the byte *)
Fixpoint cut (sep : byte) (l : bytes) : option (bytes * bytes) :=
  match l with
  | [] => None
  | c :: r => if beq c sep then Some ([], r)
              else match cut sep r with Some (a, b) => Some (c :: a, b) | None => None end
  end.
(** len(line) == lengthNL(line) *)
Definition only_nl (l : bytes) : bool := match l with [] => true | [c] => beq c b_lf | _ => false end.
(** field[:len(field)-lengthNL(field)] *)
Fixpoint without_nl (l : bytes) : bytes :=
  match l with [] => [] | [c] => if beq c b_lf then [] else [c] | c :: r => c :: without_nl r end.

(** readRecord, the loop over a quoted field after its first quote: the field, what follows
    its comma in the line ([None] at the end of the record), the lines not yet read.  At the
    end of the file readLine gives the empty line.  [fuel]: more than the rounds. *)
Fixpoint quoted (fuel : nat) (field line : bytes) (rest : list bytes) : outcome (bytes * option bytes * list bytes) :=
  match fuel with
  | O => Err
  | S fuel =>
      match cut b_dquote line with
      | Some (before, after) =>
          match after with
          | c :: after' =>
              if beq c b_dquote then quoted fuel (field ++ before ++ [b_dquote]) after' rest
              else if beq c b_semicolon then Ok (field ++ before, Some after', rest)
              else if only_nl after then Ok (field ++ before, None, rest)
              else Err
          | [] => Ok (field ++ before, None, rest)
          end
      | None =>
          match line with
          | [] => Err
          | _ => match rest with
                 | [] => quoted fuel (field ++ line) [] []
                 | l :: rest => quoted fuel (field ++ line) l rest
                 end
          end
      end
  end.
(** readRecord, the loop over the fields of a record: the fields and the lines not yet read *)
Fixpoint fields (fuel : nat) (line : bytes) (rest : list bytes) : outcome (list bytes * list bytes) :=
  match fuel with
  | O => Err
  | S fuel =>
      let line := trim_blanks_left line in
      let plain :=
        let (field, after) := match cut b_semicolon line with Some (a, b) => (a, Some b) | None => (without_nl line, None) end in
        match cut b_dquote field with
        | Some _ => Err
        | None => match after with
                  | None => Ok ([field], rest)
                  | Some line => do (fs, rest) <- fields fuel line rest; Ok (field :: fs, rest)
                  end
        end in
      match line with
      | c :: line' =>
          if beq c b_dquote then
            do (field, after, rest) <- quoted (S (List.length line' + List.length (List.concat rest))) [] line' rest;
            match after with
            | None => Ok ([field], rest)
            | Some line => do (fs, rest) <- fields fuel line rest; Ok (field :: fs, rest)
            end
          else plain
      | [] => plain
      end
  end.
(** Read, again and again until the end of the file; empty lines are skipped *)
Fixpoint records (fuel : nat) (lines : list bytes) : outcome (list (list bytes)) :=
  match fuel with
  | O => Err
  | S fuel =>
      match lines with
      | [] => Ok []
      | l :: rest =>
          if only_nl l then records fuel rest
          else do (fs, rest') <- fields (S (List.length l + List.length (List.concat rest))) l rest;
               do rs <- records fuel rest';
               Ok (fs :: rs)
      end
  end.
Definition parse_csv (s : bytes) : outcome (list (list bytes)) :=
  let ls := read_lines s in records (S (List.length ls)) ls.

(** ** github.com/wildducktheories/go-csv

    Its source is not in /repo.  The first record has the names of the columns; a record
    has as many fields as these, missing ones empty and further ones dropped.  [no_header]: what
    a file without any record gives. *)
Section Parser.
  Variable no_header : outcome (list csv_record).
  Fixpoint named_fields (header fs : list bytes) : csv_record :=
    match header with
    | [] => []
    | h :: hs => (h, hd [] fs) :: named_fields hs (tl fs)
    end.
  Definition read_all (s : bytes) : outcome (list csv_record) :=
    do rs <- parse_csv s;
    match rs with
    | [] => no_header
    | header :: rows => Ok (map (named_fields header) rows)
    end.

  (** bankinfo/parser.go:31-60 ParseBankInfos; ParseBicData (64-86) reads two columns in the
      same way *)
  Definition parse_bank_infos (s : bytes) : outcome (list bank_info) := omap bank_infos (read_all s).
  Fixpoint bic_infos (rs : list csv_record) : list (bytes * bytes) :=
    match rs with
    | [] => []
    | r :: rs => if bytes_eqb (column r (B "Bank-leitzahl")) [] then bic_infos rs
                 else (trim_blanks (column r (B "Bank-leitzahl")), trim_blanks (column r (B "BIC"))) :: bic_infos rs
    end.
  Definition parse_bic_data (s : bytes) : outcome (list (bytes * bytes)) := omap bic_infos (read_all s).

  (** cmd/bankdata_parser/bankdata_parser.go:27-43: the table of several files, with
      the decoder charmap.ISO8859_1 (charset/convert.go has the same).  [sort]: sort.Sort.  The template and gofmt, which write the table as Go source: Gosrc_Model.v. *)
  Definition bank_table (sort : list bank_info -> list bank_info) (files : list bytes) : outcome (list bank_info) :=
    do tables <- all_ok (fun f => parse_bank_infos (to_utf8 f)) files;
    Ok (sort (List.concat tables)).
End Parser.
