(** * What a generator of segment readers should do *)
From Verif Require Import Base Codec_Model Wire_Model Message_Model Gosrc_Model Gen_Model.
Open Scope Z_scope.

(** ** The text of statements, as Go writes them *)
Definition indent (d : nat) : bytes := repeat b_tab d.
Fixpoint cond_source (c : gcond) : bytes :=
  match c with
  | CLen O k => B "len(elements) > " ++ num k
  | CLen p k => B "len(elements)+" ++ num p ++ B " > " ++ num k
  | CLenAt i k => B "len(elements[" ++ num i ++ B "]) > " ++ num k
  | CAnd a b => cond_source a ++ B " && " ++ cond_source b
  end.
Definition source_source (s : gsource) : bytes :=
  match s with
  | At i => B "elements[" ++ num i ++ B "]"
  | JoinFrom i => B "bytes.Join(elements[" ++ num i ++ B ":], []byte(""+""))"
  end.
Fixpoint stmt_source (v : bytes) (d : nat) (s : gstmt) : bytes :=
  match s with
  | GIf c yes no =>
      indent d ++ B "if " ++ cond_source c ++ B " {" ++ nl ++ flat_map (stmt_source v (S d)) yes
        ++ match no with
           | [] => indent d ++ B "}" ++ nl
           | _ => indent d ++ B "} else {" ++ nl ++ flat_map (stmt_source v (S d)) no ++ indent d ++ B "}" ++ nl
           end
  | GNew f t => indent d ++ v ++ B "." ++ f ++ B " = &" ++ t ++ B "{}" ++ nl
  | GRead f s => indent d ++ B "err = " ++ v ++ B "." ++ f ++ B ".UnmarshalHBCI(" ++ source_source s ++ B ")" ++ nl
  | GCheck f => indent d ++ B "if err != nil {" ++ nl ++ indent (S d) ++ B "return fmt.Errorf(""error unmarshaling " ++ f ++ B ": %w"", err)" ++ nl ++ indent d ++ B "}" ++ nl
  end.

(** ** Source files *)

(** A struct has a field of that name, first in its declaration, of type [*t]. *)
Definition declares (fields : list gsfield) (name t : bytes) : Prop :=
  t <> [] /\ exists others, In (mkSField (name :: others) (GPointer t)) fields.
(** A file as Go accepts it: the struct is declared once, with different fields, and has one
    method [elements] with a body; the elements of a list are on lines in order. *)
Definition go_file (file : list gdecl) (name : bytes) (fields : list gsfield) (body : list gstat) : Prop :=
  (exists before after, file = before ++ DStruct name fields :: after /\
     forall d, In d (before ++ after) -> decl_name d <> Some name) /\
  NoDup (flat_map sf_names fields) /\
  (exists before after, file = before ++ DMethod [RPointer name] (B "elements") (Some body) :: after /\
     forall b, ~ In (DMethod [RPointer name] (B "elements") b) (before ++ after)).
(** What the generator looks for in the body of [elements] *)
Definition lists (body : list gstat) (elems : list gelem) : Prop :=
  body = [SReturn [RComposite (B "[]element.DataElement") elems]].
Fixpoint in_order (elems : list gelem) : Prop :=
  match elems with
  | a :: (b :: _) as r => el_line a <= el_line b /\ in_order r
  | _ => True
  end.
(** An element is a field of the receiver, of a pointer type. *)
Definition element_of (fields : list gsfield) (e : gelem) (f : gfield) : Prop :=
  (exists x, el_expr e = XSel (XIdent x) (gf_name f)) /\ declares fields (gf_name f) (gf_type f) /\ gf_line f = el_line e.

(** ** Readers *)

(** The bytes for field [k] (counted from 0) of [n]: its element, for the last field with
    the elements after it; none if the element is missing or empty. *)
Definition given (n k : nat) (es : list bytes) : option bytes :=
  match nth_error es (S k) with
  | Some (c :: e) => Some (if Nat.eqb (S k) n then join [b_plus] (skipn n es) else c :: e)
  | _ => None
  end.
