(** * What a CSV file with semicolons says *)
From Coq Require Import Permutation.
From Verif Require Import Base Bank_Model Bank_Spec.
Open Scope Z_scope.

(** ** Blanks: the white space characters of Unicode, in UTF-8 *)
Definition blank_chars : list bytes :=
  [ [x09]; [x0a]; [x0b]; [x0c]; [x0d]; [x20]; [xc2; x85]; [xc2; xa0]; [xe1; x9a; x80];
    [xe2; x80; x80]; [xe2; x80; x81]; [xe2; x80; x82]; [xe2; x80; x83]; [xe2; x80; x84]; [xe2; x80; x85]; [xe2; x80; x86];
    [xe2; x80; x87]; [xe2; x80; x88]; [xe2; x80; x89]; [xe2; x80; x8a]; [xe2; x80; xa8]; [xe2; x80; xa9]; [xe2; x80; xaf];
    [xe2; x81; x9f]; [xe3; x80; x80] ].
(** Any number of them. *)
Definition blanks (s : bytes) : Prop := exists l, s = List.concat l /\ forall x, In x l -> In x blank_chars.
Definition starts_blank (s : bytes) : Prop := exists x r, In x blank_chars /\ s = x ++ r.
Definition ends_blank (s : bytes) : Prop := exists x r, In x blank_chars /\ s = r ++ x.
(** [t] is [s] without the blanks around it. *)
Definition trimmed (s t : bytes) : Prop :=
  exists a b, s = a ++ t ++ b /\ blanks a /\ blanks b /\ ~ starts_blank t /\ ~ ends_blank t.

(** ** Files *)
(** Line ends are LF or CR LF; a CR at the end of the file does not count. *)
Fixpoint unix (s : bytes) : bytes :=
  match s with
  | [] => []
  | c :: r =>
      if beq c x0d then match r with
                        | [] => []
                        | d :: _ => if beq d x0a then unix r else c :: unix r
                        end
      else c :: unix r
  end.
(** Quotes in a quoted field are doubled. *)
Definition doubled (s : bytes) : bytes := flat_map (fun c => if beq c x22 then [x22; x22] else [c]) s.
(** The text of a field, and its value.  Blanks before it do not count. *)
Inductive field_is : bytes -> bytes -> Prop :=
| plain_field a v : blanks a -> ~ In x0a a -> ~ In x3b v -> ~ In x22 v -> ~ In x0a v -> ~ starts_blank v ->
    field_is (a ++ v) v
| quoted_field a v : blanks a -> ~ In x0a a -> field_is (a ++ [x22] ++ doubled v ++ [x22]) v.
(** The text of a record: its fields with semicolons between them; it is not empty. *)
Definition record_is (t : bytes) (fs : list bytes) : Prop :=
  exists ts, Forall2 field_is ts fs /\ ts <> [] /\ t = join [x3b] ts /\ t <> [].
(** A file: records and empty lines.  The line end of the last one may be missing. *)
Inductive file_is : bytes -> list (list bytes) -> Prop :=
| file_end : file_is [] []
| file_empty t rows : file_is t rows -> file_is (x0a :: t) rows
| file_row r t fs rows : record_is r fs -> file_is t rows -> file_is (r ++ x0a :: t) (fs :: rows)
| file_last r fs : record_is r fs -> file_is r [fs].

(** ** Tables *)
(** The field of a row in the column with a name; empty if there is no such column or the
    row is too short. *)
Definition field_of (header row : list bytes) (name v : bytes) : Prop :=
  (exists i, nth_error header i = Some name /\ v = nth i row []) \/ (~ In name header /\ v = []).
(** The entry a row makes: its fields without blanks around them. *)
Definition row_entry (header row : list bytes) (e : bank_info) : Prop :=
  let get name t := exists v, field_of header row name v /\ trimmed v t in
  get (B "BLZ") (bi_id e) /\ get (B "BIC") (bi_bic e) /\ get (B "HBCI-Version") (bi_number e) /\
  get (B "PIN/TAN-Zugang URL") (bi_url e) /\ get (B "Version") (bi_name e) /\ get (B "Institut") (bi_institute e) /\
  get (B "Ort") (bi_city e) /\ get (B "Datum letzte " ++ [xc3; x84] ++ B "nderung") (bi_changed e).
(** One entry for every row with something in the column BLZ, in order. *)
Inductive rows_entries (header : list bytes) : list (list bytes) -> list bank_info -> Prop :=
| re_nil : rows_entries header [] []
| re_skip row rows es : field_of header row (B "BLZ") [] -> rows_entries header rows es -> rows_entries header (row :: rows) es
| re_take row rows e es v : field_of header row (B "BLZ") v -> v <> [] -> row_entry header row e -> rows_entries header rows es ->
    rows_entries header (row :: rows) (e :: es).

(** The pairs of bank ID and BIC a table of them makes. *)
Inductive rows_bics (header : list bytes) : list (list bytes) -> list (bytes * bytes) -> Prop :=
| rb_nil : rows_bics header [] []
| rb_skip row rows es : field_of header row (B "Bank-leitzahl") [] -> rows_bics header rows es -> rows_bics header (row :: rows) es
| rb_take row rows v id w bic es : field_of header row (B "Bank-leitzahl") v -> v <> [] -> trimmed v id ->
    field_of header row (B "BIC") w -> trimmed w bic -> rows_bics header rows es ->
    rows_bics header (row :: rows) ((id, bic) :: es).

(** sort.Sort: the same entries, in some order. *)
Definition rearranges (f : list bank_info -> list bank_info) : Prop := forall l, Permutation l (f l).

(** A way to write a table: every field in quotes. *)
Definition write_field (v : bytes) : bytes := [x22] ++ doubled v ++ [x22].
Definition write_table (rows : list (list bytes)) : bytes := flat_map (fun fs => join [x3b] (map write_field fs) ++ [x0a]) rows.
