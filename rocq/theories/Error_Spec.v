(** * What an error should say *)
From Verif Require Import Base Message_Model Dialog_Model Dialog_Spec Error_Model.
Open Scope Z_scope.

Definition ends_with (text t : bytes) : Prop := exists before, text = before ++ t.

(** The acknowledgements with an error code, in the order of the message. *)
Definition errors {P} (m : bank_message P) : list ack := filter (fun a => 9000 <=? ack_code a) (bm_acks m).
(** One line per entry. *)
Fixpoint on_lines (lines : list bytes) : bytes :=
  match lines with
  | [] => []
  | [l] => l
  | l :: r => l ++ x0a :: on_lines r
  end.

Section Say.
  (** Go's notation of a string literal. *)
  Variable quote : bytes -> bytes.
  (** The line about an acknowledgement: what it refers to, its code, the data element,
      the bank's text and parameters. *)
  Definition describes (line : bytes) (a : ack) : Prop :=
    exists what segment position params,
      line = what ++ B " for message " ++ itoa (snd (ack_ref_msg a)) ++ B " (" ++ fst (ack_ref_msg a) ++ B ")" ++ segment ++
             B ": Code: " ++ itoa (ack_code a) ++ B ", Position: " ++ position ++ B ", Text: '" ++ ack_text a ++ B "'" ++ params /\
      (ack_for_message a = true /\ what = B "MessageAcknowledgement" \/
       ack_for_message a = false /\ what = B "SegmentAcknowledgement") /\
      (ack_ref_seg a <= 0 /\ segment = [] \/ 0 < ack_ref_seg a /\ segment = B ", segment " ++ itoa (ack_ref_seg a)) /\
      (ack_elem a = [] /\ position = B "none" \/ ack_elem a <> [] /\ position = ack_elem a) /\
      (ack_params a = [] /\ params = [] \/
       ack_params a <> [] /\ params = B ", Parameters: " ++ quote (join (B ", ") (ack_params a))).
End Say.

Section Tell.
  Context {J Acc : Type}.
  Variable bank : list (entry J) -> outcome bytes.
  Variable others : bytes -> Z -> option (bytes -> outcome (oseg Acc)).
  Variable bank_why : list (entry J) -> bytes.
  Variable read_why : bytes -> bytes.
  Variable quote : bytes -> bytes.
  Notation answered := (answered bank others).

  (** Something is wrong with the message [e], sent after [h]: the transport failed, the
      answer cannot be read, or the bank reports errors. *)
  Definition troubled (h : list (entry J)) (e : entry J) : Prop :=
    bank (h ++ [e]) = Err \/
    (exists raw, bank (h ++ [e]) = Ok raw /\ read_response others raw = Err) \/
    (exists m, answered h e m /\ has_error m).
  (** [text] says what is wrong with it. *)
  Definition tells (h : list (entry J)) (e : entry J) (text : bytes) : Prop :=
    (bank (h ++ [e]) = Err -> ends_with text (B "error executing Transport request: " ++ bank_why (h ++ [e]))) /\
    (forall raw, bank (h ++ [e]) = Ok raw -> read_response others raw = Err -> ends_with text (read_why raw)) /\
    (forall m, answered h e m -> has_error m ->
       exists lines, Forall2 (describes quote) lines (errors m) /\
                     ends_with text (B " returned errors:" ++ x0a :: on_lines lines)).
  (** The call fails, and if it does so with an error, the error says why. *)
  Definition told {X} (h : list (entry J)) (e : entry J) (r : result X) : Prop :=
    match r with ROk _ => False | RErr text => tells h e text | RPanic => True end.

  (** Errors at the end of a dialog are logged only, except after a synchronisation. *)
  Definition matters (h : list (entry J)) (e : entry J) : Prop :=
    is_end (kind_of e) -> exists h' p c, h = h' ++ [p] /\ kind_of p = KSync c.
End Tell.

(** The accessors of the segments return values or crash; the reader of the bank
    parameters makes bank parameters. *)
Definition regular {Acc} (others : bytes -> Z -> option (bytes -> outcome (oseg Acc))) : Prop :=
  forall id v f raw s, others id v = Some f -> f raw = Ok s ->
    (id = B "HIBPA" -> exists x, s = OBpd x) /\
    match s with
    | OSync x => x <> Err | OTans x => x <> Err | OBpd x => x <> Err | OPins x => x <> Err
    | OUpd x => x <> Err | OAccount x => x <> Err | OSeg _ => True | ONews x => x <> Err
    end.
