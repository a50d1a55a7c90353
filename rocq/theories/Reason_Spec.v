(** * At which step a call failed, and how its error says so *)
From Coq Require Import Permutation Sorted.
From Verif Require Import Base Message_Model Dialog_Model Dialog_Spec Client_Model Error_Spec.
Open Scope Z_scope.

Section Reasons.
  Context {J Acc : Type}.
  Variable sign_ok : list (entry J) -> request J -> outcome unit.
  Variable compose : list (entry J) -> request J -> outcome bytes.
  Variable bank : list (entry J) -> outcome bytes.
  Variable others : bytes -> Z -> option (bytes -> outcome (oseg Acc)).
  Variable sign_why : list (entry J) -> request J -> bytes.
  Variable compose_why : list (entry J) -> request J -> bytes.
  Variable bank_why : list (entry J) -> bytes.
  Variable read_why : bytes -> bytes.
  Variable quote : bytes -> bytes.
  Notation answered := (answered bank others).

  (** What the user's dialog was doing when it sent a message. *)
  Definition doing (k : kind J) : bytes :=
    match k with
    | KSync _ => B "error while extracting encrypted message: "
    | KInit _ _ _ _ => B "error while initializing dialog: "
    | KJob _ => []
    | KEnd _ => B "Error while ending dialog: "
    end.
  (** The words before the errors that the bank reports. *)
  Definition complaint (k : kind J) : bytes :=
    match k with
    | KSync _ | KJob _ => B "institute returned errors:" ++ [x0a]
    | KInit _ _ _ _ | KEnd _ => B "DialogEnd: Institute returned errors:" ++ [x0a]
    end.
  (** The same for anonymous dialogs. *)
  Definition anonymous_doing (k : kind J) : bytes :=
    match k with KInit _ _ _ _ => B "Error while initating anonymous dialog: " | _ => [] end.
  Definition anonymous_complaint (k : kind J) : bytes :=
    match k with
    | KInit _ _ _ _ => B "Error while initating anonymous dialog: DialogEnd: Institute returned errors:" ++ [x0a]
    | _ => B "Institute returned errors:" ++ [x0a]
    end.

  (** Something went wrong with the message [e], sent after [h], or with its answer:
      the transport failed, the answer cannot be read, or the bank reports errors. *)
  Definition exchange_failed (doing complaint : kind J -> bytes) (h : list (entry J)) (e : entry J) (text : bytes) : Prop :=
    (bank (h ++ [e]) = Err /\
     text = doing (kind_of e) ++ B "error executing Transport request: " ++ bank_why (h ++ [e])) \/
    (exists raw, bank (h ++ [e]) = Ok raw /\ read_response others raw = Err /\ text = doing (kind_of e) ++ read_why raw) \/
    (exists m lines, answered h e m /\ has_error m /\ Forall2 (describes quote) lines (errors m) /\
                     text = complaint (kind_of e) ++ on_lines lines).
  (** The answer is not what the step needs: there is no security function to use, or no
      customer system ID in the answer to a synchronisation. *)
  Definition answer_useless (h : list (entry J)) (e : entry J) (text : bytes) : Prop :=
    exists m, answered h e m /\ ~ has_error m /\
      ((~ function_available m /\ ((exists c, kind_of e = KSync c) \/ exists c s v u, kind_of e = KInit c s v u) /\
        text = B "error updating security function: no supported security function implemented") \/
       (segs m (B "HISYN") = [] /\ (exists c, kind_of e = KSync c) /\
        text = B "malformed message: missing unmarshaler for SynchronisationResponse")).
  (** The next message could not be made. *)
  Definition not_signed (h : list (entry J)) (text : bytes) : Prop :=
    exists q, sign_ok h q = Err /\ text = sign_why h q.
  Definition not_composed (h : list (entry J)) (text : bytes) : Prop :=
    exists q, compose h q = Err /\ text = compose_why h q.

  (** After the messages [h], the messages [l] were sent and then the step failed. *)
  Definition failed_here (h l : list (entry J)) (text : bytes) : Prop :=
    not_signed (h ++ l) text \/ not_composed (h ++ l) text \/
    exists before e, l = before ++ [e] /\
      (exchange_failed doing complaint (h ++ before) e text \/ answer_useless (h ++ before) e text).
  Definition anonymous_failed_here (h l : list (entry J)) (text : bytes) : Prop :=
    (exists t, not_composed (h ++ l) t /\
       text = match l with [] => B "Error while initating anonymous dialog: " ++ t | _ => t end) \/
    exists before e, l = before ++ [e] /\ exchange_failed anonymous_doing anonymous_complaint (h ++ before) e text.
  (** The dialog may have been ended after that. *)
  Definition then_ended (here : list (entry J) -> bytes -> Prop) (l : list (entry J)) (text : bytes) : Prop :=
    exists before after, l = before ++ after /\ here before text /\
      (after = [] \/ exists e, after = [e] /\ is_end (kind_of e)).
  Definition failed (h l : list (entry J)) (text : bytes) : Prop := then_ended (failed_here h) l text.
  Definition anonymous_failed (h l : list (entry J)) (text : bytes) : Prop := then_ended (anonymous_failed_here h) l text.

  (** The first two messages of [l] synchronise, without errors. *)
  Definition synchronised (h l : list (entry J)) : Prop :=
    exists s e rest ms me, l = s :: e :: rest /\ (exists c, kind_of s = KSync c) /\ is_end (kind_of e) /\
      answered h s ms /\ ~ has_error ms /\ answered (h ++ [s]) e me /\ ~ has_error me.
  (** The last message of [l], the closing one aside, is a job that the bank answered
      with [m], without errors. *)
  Definition job_answered (h l : list (entry J)) (m : bank_message (oseg Acc)) : Prop :=
    exists before e after, l = before ++ e :: after /\ (exists j, kind_of e = KJob j) /\
      (after = [] \/ exists c, after = [c] /\ is_end (kind_of c)) /\
      answered (h ++ before) e m /\ ~ has_error m.
End Reasons.

(** The bank parameters, which list [supported], do not allow the request: the error
    says that the segment is unknown, or, if none of the versions of the bank is one of
    those go-hbci has, lists them in descending order. *)
Definition not_offered (supported : list (bytes * Z)) (id request what : bytes) (has : list Z) (text : bytes) : Prop :=
  ((forall v, ~ In (id, v) supported) /\ text = B "Segment " ++ request ++ B " not supported") \/
  (exists vs, vs <> [] /\ Permutation vs (map snd (filter (fun s => bytes_eqb (fst s) id) supported)) /\ Sorted Z.ge vs /\
    (forall v, In v vs -> ~ In v has) /\
    text = B "error building " ++ what ++ B " request (" ++ request ++ B "): unsupported versions [" ++
           join (B " ") (map itoa vs) ++ B "]").

(** ** The calls of a client *)

(** What a call says if it fails: [supported] are the bank parameters at that time,
    [h] the messages sent before the call, [l] those sent by it. *)
Section Client.
  Context {A Acc : Type}.
  Notation J := (job A).
  Variable sign_ok : list (entry J) -> request J -> outcome unit.
  Variable compose : list (entry J) -> request J -> outcome bytes.
  Variable bank : list (entry J) -> outcome bytes.
  Variable others : bytes -> Z -> option (bytes -> outcome (oseg Acc)).
  Variable sign_why : list (entry J) -> request J -> bytes.
  Variable compose_why : list (entry J) -> request J -> bytes.
  Variable bank_why : list (entry J) -> bytes.
  Variable read_why : bytes -> bytes.
  Variable quote : bytes -> bytes.
  (** The bank statements do not follow MT940. *)
  Variable bad_statements : bytes -> Prop.
  (** The segment with a balance is of a version without SEPA accounts. *)
  Variable not_sepa : bytes -> Prop.
  Variable mt940_why : bytes -> bytes.
  Notation failed := (failed sign_ok compose bank others sign_why compose_why bank_why read_why quote).

  (** The answer does not have the segments that were asked for, or some of another
      kind. *)
  Definition balances_missing (h l : list (entry J)) (text : bytes) : Prop :=
    exists m, job_answered bank others h l m /\
      ((segs m (B "HISAL") = [] /\ text = B "malformed response: expected HISAL segment") \/
       (exists s, In s (segs m (B "HISAL")) /\ (forall raw, s <> OSeg raw) /\
                  text = B "malformed segment found with ID " ++ quote (B "HISAL"))).
  (** It has a balance that is not about a SEPA account. *)
  Definition balance_not_sepa (h l : list (entry J)) (text : bytes) : Prop :=
    exists m raw, job_answered bank others h l m /\ In (OSeg raw) (segs m (B "HISAL")) /\ not_sepa raw /\
      text = B "could not get sepa balances: not implemented".
  Definition transactions_fail (what : bytes) (has : list Z) (supported : list (bytes * Z)) (h l : list (entry J)) (text : bytes) : Prop :=
    (exists t, text = B "error executing HBCI request: error sending hbci request: " ++ t /\ failed h l t) \/
    (exists t, text = B "error executing HBCI request: error building request: " ++ t /\ not_offered supported (B "HIKAZS") (B "HKKAZ") what has t) \/
    (exists m s, job_answered bank others h l m /\ In s (segs m (B "HIKAZ")) /\ (forall raw, s <> OSeg raw) /\
       text = B "error executing HBCI request: malformed segment found with ID `HIKAZ`") \/
    (exists m data, job_answered bank others h l m /\ bad_statements data /\ text = B "error unmarshaling SWIFT transactions: " ++ mt940_why data).
  (** go-hbci has HKSAL in versions 5 and 6 for national accounts and 7 and 8 for
      international ones, HKKAZ in 5 and 6 (and none that it uses for international
      accounts) and HKPRO in 3 and 4. *)
  Definition call_fails (c : ccall A) (supported : list (bytes * Z)) (h l : list (entry J)) (text : bytes) : Prop :=
    match c with
    | CAccounts => text = B "error getting accounts" /\ exists t, failed h l t
    | CBalances _ => failed h l text \/ not_offered supported (B "HISALS") (B "HKSAL") (B "account balance") [5; 6] text \/
                     balances_missing h l text
    | CSepaBalances _ _ _ => failed h l text \/ not_offered supported (B "HISALS") (B "HKSAL") (B "account balance") [7; 8] text \/
                             balances_missing h l text \/ balance_not_sepa h l text
    | CTransactions _ _ _ _ => transactions_fail (B "account transaction") [6; 5] supported h l text
    | CSepaTransactions _ _ _ _ => transactions_fail (B "sepa account transaction") [] supported h l text
    | CInformation _ => failed h l text \/
        exists m, job_answered bank others h l m /\ (forall s, In s (bm_raw m) -> forall rest, s <> B "HIKIF" ++ rest) /\
          text = B "malformed response: expected HIKIF segment"
    | CStatus _ _ => failed h l text \/ not_offered supported (B "HIPRO") (B "HKPRO") (B "status protocol") [4; 3] text
    end.
  (** A client that has no bank parameters ([version] 0) synchronises first, and says so
      if that fails. *)
  Definition client_fails (c : ccall A) (version : Z) (supported : list (bytes * Z)) (h l : list (entry J)) (text : bytes) : Prop :=
    (version = 0 /\ ~ synchronised bank others h l /\
     exists t, text = B "error while fetching accounts: " ++ t /\ failed h l t) \/
    ((version = 0 -> synchronised bank others h l) /\ call_fails c supported h l text).
End Client.

(** The accessors of the client work for every segment that was read. *)
Definition accessible {Acc Bal St} (others : bytes -> Z -> option (bytes -> outcome (oseg Acc)))
    (balance_in : bytes -> outcome Bal) (booked_in : bytes -> outcome bytes) (status_in : bytes -> outcome St) : Prop :=
  forall raw head f r, extract_header raw = Ok head -> others (sh_id head) (sh_version head) = Some f -> f raw = Ok (OSeg r) ->
    (sh_id head = B "HISAL" -> balance_in r <> Err) /\ (sh_id head = B "HIKAZ" -> booked_in r <> Err) /\
    (sh_id head = B "HIPRO" -> status_in r <> Err).
