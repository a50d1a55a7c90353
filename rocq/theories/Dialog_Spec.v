(** * Specification vocabulary for conversations with the bank

    Only about what is on the record: the messages sent, in order, and the bank's
    answers to them. *)
From Verif Require Import Base Lexer_Model Codec_Model Wire_Model Message_Model Dialog_Model.
Open Scope Z_scope.

Section Spec.
  Context {J Acc : Type}.
  Variable sign_ok : list (entry J) -> request J -> outcome unit.
  Variable compose : list (entry J) -> request J -> outcome bytes.
  Variable bank : list (entry J) -> outcome bytes.
  Variable others : bytes -> Z -> option (bytes -> outcome (oseg Acc)).

  Definition kind_of (e : entry J) : kind J := rq_kind (fst e).
  Definition number_of (e : entry J) : Z := rq_number (fst e).
  Definition dialog_of (e : entry J) : bytes := rq_dialog (fst e).

  (** [m] is what the bank answered to [e], which was sent after [h]. *)
  Definition answered (h : list (entry J)) (e : entry J) (m : bank_message (oseg Acc)) : Prop :=
    exists raw, bank (h ++ [e]) = Ok raw /\ read_response others raw = Ok m.

  (** The dialog ID in the header of a message of the bank. *)
  Definition assigns (m : bank_message (oseg Acc)) (dialog : bytes) : Prop :=
    mh_dialog (bm_header m) = Some dialog.

  (** An acknowledgement with an error code. *)
  Definition has_error (m : bank_message (oseg Acc)) : Prop :=
    exists a, In a (bm_acks m) /\ 9000 <= ack_code a.

  (** The segments of a message that were understood, by ID. *)
  Definition segs (m : bank_message (oseg Acc)) (id : bytes) : list (oseg Acc) :=
    map (fun x => match snd x with POther o => o | _ => OSeg [] end)
        (filter (fun x => bytes_eqb (fst x) id) (bm_segments m)).

  (** The bank offers [f]: it is allowed for the user (code 3920) and it is one of
      the two-step procedures of the bank parameters. *)
  Definition offers (m : bank_message (oseg Acc)) (f : bytes) : Prop :=
    exists a fs rest,
      In a (bm_acks m) /\ ack_code a = 3920 /\ In f (ack_params a) /\
      segs m (B "HITANS") = OTans (Ok fs) :: rest /\ In f fs.

  (** A message whose parameters can be taken over and which leaves a security
      function to use: [usable] answers are those an initialisation accepts. *)
  Definition params_readable (m : bank_message (oseg Acc)) : Prop :=
    (forall s r, segs m (B "HIBPA") = s :: r ->
       (exists v, s = OBpd (Ok v)) /\
       forall p q, segs m (B "HIPINS") = p :: q -> p = OPins (Ok tt)) /\
    (forall s r, segs m (B "HIUPA") = s :: r -> exists u, s = OUpd (Ok u)) /\
    Forall (fun s => exists a, s = OAccount (Ok a)) (segs m (B "HIUPD")).
  (** The bank's announcement, of which the first one is looked at, has a subject and a
      body, if there is one. *)
  Definition news_readable (m : bank_message (oseg Acc)) : Prop :=
    forall s r, segs m (B "HIKIM") = s :: r -> exists t, s = ONews (Ok t).
  Definition function_available (m : bank_message (oseg Acc)) : Prop :=
    segs m (B "HITANS") = [] \/ (forall a, In a (bm_acks m) -> ack_code a <> 3920) \/
    exists a fs rest f before after,
      bm_acks m = before ++ a :: after /\ ack_code a = 3920 /\
      (forall x, In x before -> ack_code x <> 3920) /\
      segs m (B "HITANS") = OTans (Ok fs) :: rest /\ In f (ack_params a) /\ In f fs.
  Definition usable (m : bank_message (oseg Acc)) : Prop :=
    (exists i, assigns m i) /\ params_readable m /\ news_readable m /\ ~ has_error m /\ function_available m.

  (** An answer a synchronisation accepts: it also has to carry the system ID. *)
  Definition usable_sync (m : bank_message (oseg Acc)) : Prop :=
    (exists i, assigns m i) /\ ~ has_error m /\ function_available m /\
    (exists s r, segs m (B "HISYN") = OSync (Ok s) :: r) /\ params_readable m.

  (** An answer an anonymous initialisation accepts. *)
  Definition usable_anonymous (m : bank_message (oseg Acc)) : Prop :=
    (exists i, assigns m i) /\ params_readable m /\ news_readable m /\ ~ has_error m.

  (** The accounts a message lists. *)
  Definition reported (m : bank_message (oseg Acc)) : list Acc :=
    flat_map (fun s => match s with OAccount (Ok a) => [a] | _ => [] end) (segs m (B "HIUPD")).

  (** A message that could be signed, if it is a signed one, and put on the wire. *)
  Definition unsealed (q : request J) : request J :=
    mkRq (rq_kind q) (rq_dialog q) (rq_number q) (rq_sig q) None.
  Definition composed (h : list (entry J)) (q : request J) (bs : bytes) : Prop :=
    (rq_sig q <> None -> sign_ok h (unsealed q) = Ok tt) /\ compose h q = Ok bs.
  Definition composable (h : list (entry J)) (q : request J) : Prop := exists bs, composed h q bs.

  Definition is_init (k : kind J) : Prop := exists c s b u, k = KInit c s b u.
  Definition is_job (k : kind J) : Prop := exists j, k = KJob j.
  Definition is_end (k : kind J) : Prop := exists i, k = KEnd i.

  (** [rest], sent after [h] in a dialog to which the bank gave the ID [D], is at most
      one job message and then one end of the dialog with this ID.  The end is
      missing only if it could not be composed. *)
  Definition closes (h rest : list (entry J)) (D : bytes) (job : kind J -> Prop) : Prop :=
    exists jobs,
      (jobs = [] \/ exists e, jobs = [e] /\ job (kind_of e) /\ dialog_of e = D) /\
      ((exists e, rest = jobs ++ [e] /\ kind_of e = KEnd D /\ dialog_of e = D) \/
       (rest = jobs /\ exists q, rq_kind q = KEnd D /\ rq_dialog q = D /\ ~ composable (h ++ jobs) q)).

  (** The numbers 1, 2, 3, ... without gap. *)
  Definition consecutive (l : list (entry J)) : Prop :=
    map number_of l = map Z.of_nat (seq 1 (List.length l)).

  (** [dlg], sent after [h], is one dialog: it begins with an initialisation that
      carries the dialog ID "0" and the number 1, what follows carries the ID the
      bank assigned in its answer to that, and the messages are numbered without
      gap, except that number 2 is missing if the job message could not be
      composed. *)
  Definition one_dialog (h dlg : list (entry J)) : Prop :=
    dlg = [] \/
    exists i rest, dlg = i :: rest /\
      is_init (kind_of i) /\ dialog_of i = B "0" /\ Forall (fun e => ~ is_init (kind_of e)) rest /\
      (rest <> [] -> exists m D, answered h i m /\ assigns m D /\ Forall (fun e => dialog_of e = D) rest) /\
      (consecutive dlg \/
       map number_of dlg = [1; 3] /\
       exists q, is_job (rq_kind q) /\ rq_number q = 2 /\ ~ composable (h ++ [i]) q).

  (** [s], sent after [h], is one synchronisation: a request and, with the next
      number and the dialog ID of the bank's answer, the end of the dialog. *)
  Definition one_sync (h s : list (entry J)) : Prop :=
    s = [] \/
    exists q rest c, s = q :: rest /\ kind_of q = KSync c /\
      (rest = [] \/
       exists e m D, rest = [e] /\ answered h q m /\ ~ has_error m /\ assigns m D /\
         kind_of e = KEnd D /\ dialog_of e = D /\ number_of e = number_of q + 1).

  (** A record that consists of such dialogs and synchronisations. *)
  Inductive record (h : list (entry J)) : list (entry J) -> Prop :=
  | record_nil : record h []
  | record_dialog l dlg : record h l -> one_dialog (h ++ l) dlg -> record h (l ++ dlg)
  | record_sync l s : record h l -> one_sync (h ++ l) s -> record h (l ++ s).
End Spec.

Definition is_ok {A} (o : outcome A) : Prop := exists a, o = Ok a.
