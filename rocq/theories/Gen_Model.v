(** * The generator of segment readers

    generator/segment_unmarshaler.go, generator/segment_field_visitor.go and the flag of
    cmd/unmarshaler/unmarshaler_generator.go.  Source files are given as what go/parser
    makes of them, reduced to what the generator looks at. *)
From Verif Require Import Base Codec_Model Wire_Model Message_Model Gosrc_Model.
Open Scope Z_scope.

(** ** Source files *)

(** The type of a field: a pointer, with the text of what it points to, or anything else. *)
Inductive gtype := GPointer (to : bytes) | GPlain (text : bytes).
(** ast.Field of a struct: names (none for embedded fields) and type *)
Record gsfield := mkSField { sf_names : list bytes; sf_type : gtype }.
Inductive gexpr := XSel (x : gexpr) (sel : bytes) | XIdent (name : bytes) | XOther (text : bytes).
(** An element of a composite literal and the line it begins in *)
Record gelem := mkElem { el_expr : gexpr; el_line : Z }.
Inductive gresult := RComposite (type : bytes) (elems : list gelem) | ROther.
Inductive gstat := SReturn (results : list gresult) | SOther.
Inductive greceiver := RPointer (name : bytes) | RElse.
(** Declarations of a file.  Simplification: a type that is no struct has no struct in it
    either. *)
Inductive gdecl :=
| DStruct (name : bytes) (fields : list gsfield)
| DType (name : bytes)
| DValue (name : bytes)
| DMethod (receiver : list greceiver) (name : bytes) (body : option (list gstat)).

(** ast.Scope.Lookup: methods are not in the scope of the file *)
Definition decl_name (d : gdecl) : option bytes :=
  match d with DStruct n _ | DType n | DValue n => Some n | DMethod _ _ _ => None end.
Fixpoint scope_lookup (name : bytes) (file : list gdecl) : option gdecl :=
  match file with
  | [] => None
  | d :: r => match decl_name d with
              | Some n => if bytes_eqb n name then Some d else scope_lookup name r
              | None => scope_lookup name r
              end
  end.

(** generator/segment_unmarshaler.go:171-175 field *)
Record gfield := mkField { gf_name : bytes; gf_type : bytes; gf_line : Z }.

(** generator/segment_field_visitor.go:90-118 structFieldVisitor: the type of the last field
    of that name, [None] for a field that is no pointer; [decl] is fieldTypeDecl so far *)
Fixpoint field_type (fields : list gsfield) (name decl : bytes) : option bytes :=
  match fields with
  | [] => Some decl
  | f :: r =>
      match sf_names f with
      | [] => field_type r name decl
      | n :: _ =>
          if bytes_eqb n name then
            match sf_type f with
            | GPointer t => field_type r name t
            | GPlain _ => None
            end
          else field_type r name decl
      end
  end.
(** What the visitor finds in the declaration of the segment *)
Definition decl_field_type (d : gdecl) (name : bytes) : outcome bytes :=
  match d with
  | DStruct _ fields => match field_type fields name [] with Some t => Ok t | None => Err end
  | DType _ => Ok []
  | _ => Panic
  end.

(** generator/segment_field_visitor.go:29-57: the loop over the elements; [true] when an
    error was kept *)
Fixpoint visit_elements (d : gdecl) (elems : list gelem) (acc : list gfield) : outcome (list gfield * bool) :=
  match elems with
  | [] => Ok (acc, false)
  | e :: r =>
      match el_expr e with
      | XSel (XIdent _) sel =>
          match decl_field_type d sel with
          | Panic => Panic
          | Err => Ok (acc, true)
          | Ok [] => Ok (acc, true)
          | Ok t => visit_elements d r (acc ++ [mkField sel t (el_line e)])
          end
      | _ => Ok (acc, true)
      end
  end.
(** generator/segment_field_visitor.go:20-66 Visit and 68-85 isElementsMethod *)
Definition visit_decl (d : gdecl) (name : bytes) (f : gdecl) (acc : list gfield * bool) : outcome (list gfield * bool) :=
  match f with
  | DMethod [RPointer r] m body =>
      if bytes_eqb m (B "elements") && bytes_eqb r name then
        match body with
        | None => Panic
        | Some [SReturn [RComposite t elems]] =>
            if bytes_eqb t (B "[]element.DataElement") then
              do x <- visit_elements d elems (fst acc); Ok (fst x, snd acc || snd x)
            else Ok acc
        | Some _ => Ok acc
        end
      else Ok acc
  | _ => Ok acc
  end.
Fixpoint visit_file (d : gdecl) (name : bytes) (file : list gdecl) (acc : list gfield * bool) : outcome (list gfield * bool) :=
  match file with
  | [] => Ok acc
  | f :: r => do acc' <- visit_decl d name f acc; visit_file d name r acc'
  end.
(** sort.Sort by line, generator/segment_unmarshaler.go:177-181.  Simplification: insertion
    sort, which sort.Sort is for up to twelve elements; elements of a list are in the order
    of their lines, and such lists sort.Sort leaves as they are whatever their length. *)
Fixpoint insert_field (f : gfield) (l : list gfield) : list gfield :=
  match l with
  | [] => [f]
  | g :: r => if gf_line f <? gf_line g then f :: l else g :: insert_field f r
  end.
Definition sort_fields (l : list gfield) : list gfield := fold_left (fun acc f => insert_field f acc) l [].
(** generator/segment_unmarshaler.go:155-169 extractFields *)
Definition extract_fields (file : list gdecl) (name : bytes) : outcome (list gfield) :=
  match scope_lookup name file with
  | None => Err
  | Some d =>
      do x <- visit_file d name file ([], false);
      if snd x then Err else Ok (sort_fields (fst x))
  end.

(** ** The texts *)

(** generator/segment_identifier.go *)
Record gsegment := mkGSeg { gs_name : bytes; gs_interface : bytes; gs_version : Z }.
(** generator/segment_unmarshaler.go:144-153 segmentTemplateObject *)
Record gobject := mkObject {
  go_code : bytes; go_package : bytes; go_name : bytes; go_var : bytes; go_interface : bytes; go_version : Z; go_fields : list gfield }.
(** generator/segment_unmarshaler.go:46-47: the first letter in lower case.  Simplification:
    names begin with an ASCII letter. *)
Definition name_var (name : bytes) : bytes :=
  match name with
  | [] => []
  | c :: _ => [if (65 <=? zb c) && (zb c <=? 90) then byte_of_Z (zb c + 32) else c]
  end.
Definition t1 : bytes := [b_tab].
Definition t2 : bytes := [b_tab; b_tab].
Definition t3 : bytes := [b_tab; b_tab; b_tab].
Definition nl : bytes := [b_lf].
Definition num (n : nat) : bytes := itoa (Z.of_nat n).

(** generator/segment_unmarshaler.go:216-218 generationNoticeTemplate *)
Definition notice_text (o : gobject) : bytes := B "// Code generated by " ++ go_code o ++ B "; DO NOT EDIT." ++ nl.
(** generator/segment_unmarshaler.go:238-246 packageDeclTemplate *)
Definition package_text (o : gobject) : bytes :=
  B "package " ++ go_package o ++ nl ++ nl ++ B "import (" ++ nl ++ t1 ++ B """bytes""" ++ nl ++ t1 ++ B """fmt""" ++ nl ++ nl
    ++ t1 ++ B """github.com/mitch000001/go-hbci/element""" ++ nl ++ B ")".
(** generator/segment_unmarshaler.go:226-236 segmentUnmarshalerCheckTemplate *)
Definition check_text (o : gobject) : bytes :=
  nl ++ B "var (" ++ nl ++ t1 ++ B "_ BankSegment = &" ++ go_name o ++ B "{}" ++ nl ++ B ")" ++ nl ++ nl
    ++ B "func init() {" ++ nl ++ t1 ++ B "s := " ++ go_name o ++ B "{}" ++ nl
    ++ t1 ++ B "KnownSegments.mustAddToIndex(VersionedSegment{s.ID(), s.Version()}, func() Segment { return &" ++ go_name o ++ B "{} })" ++ nl ++ B "}".
(** generator/segment_unmarshaler.go:262-272, one turn of the range *)
Definition field_text (o : gobject) (idx : nat) (f : gfield) : bytes :=
  nl ++ t1 ++ B "if len(elements) > " ++ num (S idx) ++ B " && len(elements[" ++ num (S idx) ++ B "]) > 0 {" ++ nl
    ++ t2 ++ go_var o ++ B "." ++ gf_name f ++ B " = &" ++ gf_type f ++ B "{}" ++ nl
    ++ t2 ++ (if Nat.eqb (S idx) (List.length (go_fields o)) then
                B "if len(elements)+1 > " ++ num (S idx) ++ B " {" ++ nl
                  ++ t3 ++ B "err = " ++ go_var o ++ B "." ++ gf_name f ++ B ".UnmarshalHBCI(bytes.Join(elements[" ++ num (S idx) ++ B ":], []byte(""+"")))" ++ nl
                  ++ t2 ++ B "} else {" ++ nl
                  ++ t3 ++ B "err = " ++ go_var o ++ B "." ++ gf_name f ++ B ".UnmarshalHBCI(elements[" ++ num (S idx) ++ B "])" ++ nl
                  ++ t2 ++ B "}"
              else B "err = " ++ go_var o ++ B "." ++ gf_name f ++ B ".UnmarshalHBCI(elements[" ++ num (S idx) ++ B "])") ++ nl
    ++ t2 ++ B "if err != nil {" ++ nl
    ++ t3 ++ B "return fmt.Errorf(""error unmarshaling " ++ gf_name f ++ B ": %w"", err)" ++ nl
    ++ t2 ++ B "}" ++ nl
    ++ t1 ++ B "}".
Fixpoint fields_text (o : gobject) (idx : nat) (fs : list gfield) : bytes :=
  match fs with [] => [] | f :: r => field_text o idx f ++ fields_text o (S idx) r end.
(** generator/segment_unmarshaler.go:248-275 segmentUnmarshalingTemplate *)
Definition reader_text (o : gobject) : bytes :=
  nl ++ B "func (" ++ go_var o ++ B " *" ++ go_name o ++ B ") UnmarshalHBCI(value []byte) error {" ++ nl
    ++ t1 ++ B "elements, err := ExtractElements(value)" ++ nl
    ++ t1 ++ B "if err != nil {" ++ nl ++ t2 ++ B "return err" ++ nl ++ t1 ++ B "}" ++ nl
    ++ t1 ++ B "if len(elements) == 0 {" ++ nl ++ t2 ++ B "return fmt.Errorf(""malformed marshaled value: no elements extracted"")" ++ nl ++ t1 ++ B "}" ++ nl
    ++ t1 ++ B "seg, err := SegmentFromHeaderBytes(elements[0], " ++ go_var o ++ B ")" ++ nl
    ++ t1 ++ B "if err != nil {" ++ nl ++ t2 ++ B "return err" ++ nl ++ t1 ++ B "}" ++ nl
    ++ t1 ++ go_var o ++ B "." ++ go_interface o ++ B " = seg" ++ fields_text o 0 (go_fields o) ++ nl
    ++ t1 ++ B "return nil" ++ nl ++ B "}".
(** generator/segment_unmarshaler.go:220-224 segmentExecutorTemplate *)
Definition segment_text (o : gobject) : bytes :=
  notice_text o ++ nl ++ package_text o ++ nl ++ check_text o ++ nl ++ reader_text o ++ nl.

(** generator/segment_unmarshaler.go:35-58 SegmentUnmarshalerGenerator.Generate *)
Definition segment_object (package : bytes) (file : list gdecl) (code : bytes) (s : gsegment) : outcome gobject :=
  do fs <- extract_fields file (gs_name s);
  Ok (mkObject code package (gs_name s) (name_var (gs_name s)) (gs_interface s) (gs_version s) fs).
Definition generate_segment (package : bytes) (file : list gdecl) (s : gsegment) : outcome bytes :=
  do o <- segment_object package file (B "*generator.SegmentUnmarshalerGenerator") s; Ok (segment_text o).

(** generator/segment_unmarshaler.go:331-346 versionedSegmentUnmarshalerCheckTemplate *)
Definition versions_check_text (vs : list gobject) : bytes :=
  nl ++ B "var (" ++ flat_map (fun v => nl ++ t1 ++ B "_ BankSegment = &" ++ go_name v ++ B "{}") vs ++ nl ++ B ")" ++ nl ++ nl
    ++ B "func init() {"
    ++ flat_map (fun v => nl ++ t1 ++ B "v" ++ itoa (go_version v) ++ B " := " ++ go_name v ++ B "{}" ++ nl
         ++ t1 ++ B "KnownSegments.mustAddToIndex(VersionedSegment{v" ++ itoa (go_version v) ++ B ".ID(), v" ++ itoa (go_version v)
         ++ B ".Version()}, func() Segment { return &" ++ go_name v ++ B "{} })") vs ++ nl ++ B "}".
(** generator/segment_unmarshaler.go:361-368: one case of the switch ([with] leaves out the
    rest of a case without a name) *)
Definition case_text (v : gobject) : bytes :=
  B "case " ++ itoa (go_version v) ++ B ":"
    ++ (match go_name v with
        | [] => []
        | n => nl ++ t2 ++ B "segment = &" ++ n ++ B "{}" ++ nl ++ t2 ++ B "err = segment.UnmarshalHBCI(value)" ++ nl
               ++ t2 ++ B "if err != nil {" ++ nl ++ t3 ++ B "return err" ++ nl ++ t2 ++ B "}"
        end) ++ nl ++ t1.
(** generator/segment_unmarshaler.go:348-377 versionedSegmentUnmarshalingTemplate *)
Definition versioned_reader_text (o : gobject) (vs : list gobject) : bytes :=
  nl ++ B "func (" ++ go_var o ++ B " *" ++ go_name o ++ B ") UnmarshalHBCI(value []byte) error {" ++ nl
    ++ t1 ++ B "elements, err := ExtractElements(value)" ++ nl
    ++ t1 ++ B "if err != nil {" ++ nl ++ t2 ++ B "return err" ++ nl ++ t1 ++ B "}" ++ nl
    ++ t1 ++ B "header := &element.SegmentHeader{}" ++ nl
    ++ t1 ++ B "err = header.UnmarshalHBCI(elements[0])" ++ nl
    ++ t1 ++ B "if err != nil {" ++ nl ++ t2 ++ B "return err" ++ nl ++ t1 ++ B "}" ++ nl
    ++ t1 ++ B "var segment " ++ go_interface o ++ nl
    ++ t1 ++ B "switch header.Version.Val() {" ++ nl
    ++ t1 ++ flat_map case_text vs ++ B "default:" ++ nl
    ++ t2 ++ B "return fmt.Errorf(""unknown segment version: %d"", header.Version.Val())" ++ nl
    ++ t1 ++ B "}" ++ nl
    ++ t1 ++ go_var o ++ B "." ++ go_interface o ++ B " = segment" ++ nl
    ++ t1 ++ B "return nil" ++ nl ++ B "}"
    ++ flat_map (fun v => nl ++ reader_text v) vs.
Definition versioned_text (o : gobject) (vs : list gobject) : bytes :=
  notice_text o ++ nl ++ package_text o ++ nl ++ versions_check_text vs ++ nl ++ versioned_reader_text o vs ++ nl.
(** generator/segment_unmarshaler.go:80-120 VersionedSegmentUnmarshalerGenerator.Generate *)
Definition generate_versioned (package : bytes) (file : list gdecl) (s : gsegment) (versions : list gsegment) : outcome bytes :=
  let code := B "*generator.VersionedSegmentUnmarshalerGenerator" in
  do vs <- all_ok (segment_object package file code) versions;
  Ok (versioned_text (mkObject code package (gs_name s) (name_var (gs_name s)) (gs_interface s) 0 []) vs).

(** ** What the texts do

    The statements of the generated readers.  That the texts are these statements is
    [C75_text]. *)
Inductive gcond :=
| CLen (plus than : nat)      (* len(elements)+plus > than *)
| CLenAt (i than : nat)       (* len(elements[i]) > than *)
| CAnd (a b : gcond).
Inductive gsource := At (i : nat) | JoinFrom (i : nat).
Inductive gstmt :=
| GIf (c : gcond) (yes no : list gstmt)
| GNew (field type : bytes)             (* v.field = &type{} *)
| GRead (field : bytes) (from : gsource) (* err = v.field.UnmarshalHBCI(from) *)
| GCheck (field : bytes).               (* if err != nil { return ... field ... } *)

(** What is written for one field, and for all *)
Definition field_stmt (count idx : nat) (f : gfield) : gstmt :=
  GIf (CAnd (CLen 0 (S idx)) (CLenAt (S idx) 0))
    [GNew (gf_name f) (gf_type f);
     (if Nat.eqb (S idx) count
      then GIf (CLen 1 (S idx)) [GRead (gf_name f) (JoinFrom (S idx))] [GRead (gf_name f) (At (S idx))]
      else GRead (gf_name f) (At (S idx)));
     GCheck (gf_name f)] [].
Fixpoint reader_stmts (count idx : nat) (fs : list gfield) : list gstmt :=
  match fs with [] => [] | f :: r => field_stmt count idx f :: reader_stmts count (S idx) r end.

Section Run.
  (** Values of elements; what UnmarshalHBCI of a new element of a type makes of bytes *)
  Context {V : Type}.
  Variable decode : bytes -> bytes -> outcome V.

  (** The fields of a segment: nil, or an element of some type, new or with a value *)
  Definition store := bytes -> option (bytes * option V).
  Definition set_field (f : bytes) (x : option (bytes * option V)) (st : store) : store :=
    fun g => if bytes_eqb f g then x else st g.

  Fixpoint run_cond (es : list bytes) (c : gcond) : outcome bool :=
    match c with
    | CLen p k => Ok (Nat.ltb k (List.length es + p))
    | CLenAt i k => match nth_error es i with Some e => Ok (Nat.ltb k (List.length e)) | None => Panic end
    | CAnd a b => do x <- run_cond es a; if x then run_cond es b else Ok false
    end.
  Definition run_source (es : list bytes) (s : gsource) : outcome bytes :=
    match s with
    | At i => match nth_error es i with Some e => Ok e | None => Panic end
    | JoinFrom i => if Nat.leb i (List.length es) then Ok (join [b_plus] (skipn i es)) else Panic
    end.
  (** The end of some statements: going on, with the variable err and the fields, or an
      error about a field *)
  Inductive flow := Going (failed : bool) (st : store) | Failed (field : bytes).
  Fixpoint run_stmt (es : list bytes) (s : gstmt) (failed : bool) (st : store) : outcome flow :=
    match s with
    | GIf c yes no =>
        do b <- run_cond es c;
        (fix go (l : list gstmt) (failed : bool) (st : store) : outcome flow :=
           match l with
           | [] => Ok (Going failed st)
           | s :: r => do x <- run_stmt es s failed st;
                       match x with Going failed' st' => go r failed' st' | Failed f => Ok (Failed f) end
           end) (if b then yes else no) failed st
    | GNew f t => Ok (Going failed (set_field f (Some (t, None)) st))
    | GRead f s =>
        do w <- run_source es s;
        match st f with
        | None => Panic
        | Some (t, _) => match decode t w with
                         | Ok v => Ok (Going false (set_field f (Some (t, Some v)) st))
                         | Err => Ok (Going true st)
                         | Panic => Panic
                         end
        end
    | GCheck f => Ok (if failed then Failed f else Going false st)
    end.
  Fixpoint run_stmts (es : list bytes) (l : list gstmt) (failed : bool) (st : store) : outcome flow :=
    match l with
    | [] => Ok (Going failed st)
    | s :: r => do x <- run_stmt es s failed st;
                match x with Going failed' st' => run_stmts es r failed' st' | Failed f => Ok (Failed f) end
    end.
  (** The generated UnmarshalHBCI: [inl] the fields afterwards, [inr] the field in the
      error's text *)
  Definition run_reader (o : gobject) (value : bytes) (st : store) : outcome (store + bytes) :=
    do es <- segment_extract value;
    match es with
    | [] => Err
    | h :: _ =>
        do _ <- unmarshal_header h;
        do x <- run_stmts es (reader_stmts (List.length (go_fields o)) 0 (go_fields o)) false st;
        match x with Going _ st' => Ok (inl st') | Failed f => Ok (inr f) end
    end.
  (** The generated UnmarshalHBCI of a versioned segment: the first case of the version *)
  Fixpoint find_version (v : Z) (vs : list gobject) : option gobject :=
    match vs with [] => None | o :: r => if go_version o =? v then Some o else find_version v r end.
  Definition nothing : store := fun _ => None.
  Definition run_versioned (vs : list gobject) (value : bytes) : outcome (gobject * (store + bytes)) :=
    do es <- segment_extract value;
    match es with
    | [] => Panic
    | h :: _ =>
        do hd <- unmarshal_header h;
        match find_version (sh_version hd) vs with
        | None => Err
        | Some o => do x <- run_reader o value nothing; Ok (o, x)
        end
    end.
End Run.

(** ** The flag -segment_versions *)

(** cmd/unmarshaler/unmarshaler_generator.go:86-112 segmentVersionsFlag.Set; strconv.Unquote
    is a parameter *)
Definition version_of (s : bytes) : outcome gsegment :=
  match split_on b_colon s with
  | n :: v :: r =>
      do k <- atoi v;
      Ok (mkGSeg n (match r with [i] => i | _ => B "Segment" end) k)
  | _ => Err
  end.
Definition versions_flag (unquote : bytes -> option bytes) (arg : bytes) : outcome (list gsegment) :=
  match unquote arg with
  | None => Err
  | Some s => all_ok version_of (filter (fun p => negb (bytes_eqb p [])) (split_on b_comma s))
  end.
