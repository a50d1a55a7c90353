(** * Model of the error texts of the calls

    dialog/dialog.go, client/client.go, domain/acknowledgement.go: the same methods as in
    Dialog_Model and Client_Model, with the text of the error they return.  That both
    models agree about everything else is proved (C68_same_calls, C68_same_client_calls). *)
From Verif Require Import Base Lexer_Model Codec_Model Wire_Model Message_Model Dialog_Model Merge_Model Client_Model.
Open Scope Z_scope.

(** What a method returns: a value, an error with its text (err.Error()), or a panic. *)
Inductive result (A : Type) : Type := ROk (a : A) | RErr (text : bytes) | RPanic.
Arguments ROk {A}. Arguments RErr {A}. Arguments RPanic {A}.
(** The result without the text. *)
Definition plain {A} (r : result A) : outcome A :=
  match r with ROk a => Ok a | RErr _ => Err | RPanic => Panic end.
(** A result all errors of which have the text [why]. *)
Definition named {A} (why : bytes) (o : outcome A) : result A :=
  match o with Ok a => ROk a | Err => RErr why | Panic => RPanic end.
(** fmt.Errorf("<prefix>%v", err), with %w as well *)
Definition prefixed {A} (prefix : bytes) (r : result A) : result A :=
  match r with RErr t => RErr (prefix ++ t) | r => r end.

Definition nl : byte := x0a.
(** fmt.Errorf("unsupported versions %v", versions) (segment/account_balance.go:31, 43,
    account_transaction.go:26, 40, status_protocol.go:24), after versions was sorted *)
Definition unsupported_versions (versions : list Z) : bytes :=
  B "unsupported versions [" ++ join (B " ") (map itoa (sort_desc versions)) ++ B "]".

Section Line.
  (** The verb %q of fmt: strconv.Quote. *)
  Variable quote : bytes -> bytes.
  (** domain/acknowledgement.go:48-67 String *)
  Definition ack_string (a : ack) : bytes :=
    (if ack_for_message a then B "MessageAcknowledgement" else B "SegmentAcknowledgement")
    ++ B " for message " ++ itoa (snd (ack_ref_msg a)) ++ B " (" ++ fst (ack_ref_msg a) ++ B ")"
    ++ (if 0 <? ack_ref_seg a then B ", segment " ++ itoa (ack_ref_seg a) ++ B ": " else B ": ")
    ++ B "Code: " ++ itoa (ack_code a) ++ B ", "
    ++ (match ack_elem a with [] => B "Position: none, " | e => B "Position: " ++ e ++ B ", " end)
    ++ B "Text: '" ++ ack_text a ++ B "'"
    ++ (match ack_params a with [] => [] | ps => B ", Parameters: " ++ quote (join (B ", ") ps) end).
End Line.

Section Errors.
  Context {J Acc : Type}.
  Variable sign_ok : list (entry J) -> request J -> outcome unit.
  Variable compose : list (entry J) -> request J -> outcome bytes.
  Variable bank : list (entry J) -> outcome bytes.
  Variable others : bytes -> Z -> option (bytes -> outcome (oseg Acc)).
  Variable pick : list (entry J) -> nat.
  (** The texts of the errors of parts that are modelled without them: signing, composing
      a message (with the prefix of its caller if it is the marshaling in request), the
      transport, reading the answer (dialog/dialog.go:603-628), and %q. *)
  Variable sign_why : list (entry J) -> request J -> bytes.
  Variable compose_why : list (entry J) -> request J -> bytes.
  Variable bank_why : list (entry J) -> bytes.
  Variable read_why : bytes -> bytes.
  Variable quote : bytes -> bytes.

  Notation world := (@world J Acc).
  Notation reply := (@reply Acc).
  (** A method that returns errors with a text. *)
  Definition tact (A : Type) : Type := world -> world * result A.
  Definition tret {A} (a : A) : tact A := fun w => (w, ROk a).
  Definition tlift {A} (r : result A) : tact A := fun w => (w, r).
  Definition tbind {A C} (m : tact A) (k : A -> tact C) : tact C :=
    fun w => match m w with
             | (w1, ROk a) => k a w1
             | (w1, RErr t) => (w1, RErr t)
             | (w1, RPanic) => (w1, RPanic)
             end.
  (** A method of Dialog_Model all errors of which have the text [why]. *)
  Definition tnamed {A} (why : bytes) (m : @act J Acc A) : tact A :=
    fun w => let '(w1, o) := m w in (w1, named why o).
  Definition tprefixed {A} (prefix : bytes) (m : tact A) : tact A :=
    fun w => let '(w1, r) := m w in (w1, prefixed prefix r).
  (** defer func() { logErr(cleanup()) }(): the error is only logged *)
  Definition tdeferred {A} (m : tact A) (cleanup : tact unit) : tact A :=
    fun w => let '(w1, r) := m w in
             let '(w2, c) := cleanup w1 in
             (w2, match c with RPanic => RPanic | _ => r end).
  Notation "x <-- m ; k" := (tbind m (fun x => k)) (at level 61, m at next level, right associativity).
  Notation "m ;; k" := (tbind m (fun _ => k)) (at level 61, right associativity).
  (** A method without errors. *)
  Notation pure := (tnamed []).

  (** message/message.go:233-256 Sign; its error is returned as it is (dialog/dialog.go:118,
      168, 358, 418) *)
  Definition t_sign (q : request J) : tact unit :=
    fun w => (w, named (sign_why (w_sent w) q) (sign_ok (w_sent w) q)).
  (** dialog/dialog.go:582-631 request, whose error the caller puts [prefix] before *)
  Definition t_request (prefix : bytes) (q : request J) : tact reply :=
    fun w => match compose (w_sent w) q with
             | Err => (w, RErr (compose_why (w_sent w) q))
             | Panic => (w, RPanic)
             | Ok bs => let h := w_sent w ++ [(q, bs)] in
                        (mkW (w_d w) h,
                         match bank h with
                         | Err => RErr (prefix ++ B "error executing Transport request: " ++ bank_why h)
                         | Panic => RPanic
                         | Ok raw => named (prefix ++ read_why raw) (read_response others raw)
                         end)
             end.
  Definition t_exchange (prefix : bytes) (k : dstate Acc -> kind J) : tact reply :=
    q <-- pure (new_basic_message true k);
    t_sign q ;;
    q <-- pure (with_envelope q);
    t_request prefix q.
  Definition t_exchange_plain (prefix : bytes) (k : dstate Acc -> kind J) : tact reply :=
    q <-- pure (new_basic_message false k);
    t_request prefix q.

  (** fmt.Errorf("<label>%s", strings.Join(errors, "\n")) for the acknowledgements with an
      error code, in order (e.g. dialog/dialog.go:127-140) *)
  Definition t_fail (label : bytes) (m : reply) : tact unit :=
    tlift (match filter is_err (bm_acks m) with
           | [] => ROk tt
           | es => RErr (label ++ join [nl] (map (ack_string quote) es))
           end).
  (** dialog/dialog.go:439, also used for errors of initialisations: 309, 404 *)
  Definition end_label : bytes := B "DialogEnd: Institute returned errors:" ++ [nl].

  (** dialog/dialog.go:413-442 end *)
  Definition t_end : tact unit :=
    m <-- t_exchange (B "Error while ending dialog: ") (fun d => KEnd (d_dialog d));
    t_fail end_label m.
  (** dialog/dialog.go:313-335 anonymousEnd *)
  Definition t_anonymous_end : tact unit :=
    m <-- t_exchange_plain (B "Error while ending dialog: ") (fun d => KEnd (d_dialog d));
    t_fail end_label m.

  (** dialog/dialog.go:456-481, with the prefix of its callers (203, 407) *)
  Definition t_update_function (m : reply) : tact unit :=
    tnamed (B "error updating security function: no supported security function implemented")
           (update_security_function pick m).
  (** dialog/dialog.go:530-564 *)
  Definition t_parse_bpd (m : reply) : tact unit :=
    tnamed (B "error converting common bank parameter data") (parse_bpd m).

  (** dialog/dialog.go:157-230 SyncClientSystemID *)
  Definition t_sync_system : tact bytes :=
    q <-- pure (new_basic_message true (fun d => KSync (d_client d)));
    t_sign q ;;
    pure (modify (fun d => upd_crypt (pv_set_system (B "0") (d_crypt d)) d)) ;;
    q <-- pure (with_envelope q);
    m <-- t_request (B "error while extracting encrypted message: ") q;
    pure (take_dialog_id m) ;;
    t_fail (B "institute returned errors:" ++ [nl]) m ;;
    t_update_function m ;;
    tnamed (B "malformed message: missing unmarshaler for SynchronisationResponse")
      (match find_seg m (B "HISYN") with
       | None => lift Err
       | Some (OSync s) => bind (lift s) set_client_system
       | Some _ => lift Panic
       end) ;;
    t_parse_bpd m ;;
    pure (parse_upd m) ;;
    t_end ;;
    d <-- pure get;
    tret (d_system d).

  (** dialog/dialog.go:337-411 init *)
  Definition t_start : tact unit :=
    pure (modify (fun d => upd_count 0 (upd_dialog (B "0") d))) ;;
    m <-- t_exchange (B "error while initializing dialog: ")
            (fun d => KInit (d_client d) (d_system d) (d_bpd_version d) (upd_version (d_upd d)));
    pure (take_dialog_id m) ;;
    t_parse_bpd m ;;
    pure (parse_upd m) ;;
    pure (log_news m) ;;
    t_fail end_label m ;;
    t_update_function m.
  Definition t_ensure_system : tact unit :=
    d <-- pure get;
    if bytes_eqb (d_system d) (B "0")
    then s <-- t_sync_system; pure (modify (upd_system s))
    else tret tt.
  Definition t_init : tact unit := t_ensure_system ;; t_start.

  (** dialog/dialog.go:261-311 anonymousInit *)
  Definition t_anonymous_init : tact unit :=
    pure (modify (fun d => upd_count 0 (upd_dialog (B "0") d))) ;;
    m <-- t_exchange_plain []
            (fun d => KInit (B "9999999999") (B "0") (d_bpd_version d) (upd_version (d_upd d)));
    pure (take_dialog_id m) ;;
    t_parse_bpd m ;;
    pure (parse_upd m) ;;
    pure (log_news m) ;;
    t_fail end_label m.

  (** dialog/dialog.go:109-142 SendMessage *)
  Definition t_send (j : J) : tact reply :=
    t_init ;;
    tdeferred (m <-- t_exchange [] (fun _ => KJob j);
               t_fail (B "institute returned errors:" ++ [nl]) m ;;
               tret m)
              t_end.
  (** dialog/dialog.go:144-155 SyncUserParameterData *)
  Definition t_sync_user : tact unit := t_init ;; tdeferred (tret tt) t_end.
  (** dialog/dialog.go:232-259 SendAnonymousMessage *)
  Definition t_send_anonymous (j : J) : tact reply :=
    tprefixed (B "Error while initating anonymous dialog: ") t_anonymous_init ;;
    tdeferred (m <-- t_exchange_plain [] (fun _ => KJob j);
               t_fail (B "Institute returned errors:" ++ [nl]) m ;;
               tret m)
              t_anonymous_end.
End Errors.

Section ClientErrors.
  Context {A Acc Bal SBal St Tx : Type}.
  Notation J := (job A).
  Variable sign_ok : list (entry J) -> request J -> outcome unit.
  Variable compose : list (entry J) -> request J -> outcome bytes.
  Variable bank : list (entry J) -> outcome bytes.
  Variable others : bytes -> Z -> option (bytes -> outcome (oseg Acc)).
  Variable pick : list (entry J) -> nat.
  Variable sign_why : list (entry J) -> request J -> bytes.
  Variable compose_why : list (entry J) -> request J -> bytes.
  Variable bank_why : list (entry J) -> bytes.
  Variable read_why : bytes -> bytes.
  Variable quote : bytes -> bytes.
  Variable balance_in : bytes -> outcome Bal.
  Variable sepa_balance_in : bytes -> outcome SBal.
  Variable booked_in : bytes -> outcome bytes.
  Variable status_in : bytes -> outcome St.
  Variable read_mt940 : bytes -> outcome (list Tx).
  (** The text of the error of UnmarshalMT940. *)
  Variable mt940_why : bytes -> bytes.
  Variable sort : list mt -> list mt.
  Variable clock : nat -> Z.

  Notation world := (@world J Acc).
  Notation tact := (@tact J Acc).
  Notation "x <-- m ; k" := (tbind m (fun x => k)) (at level 61, m at next level, right associativity).
  Notation "m ;; k" := (tbind m (fun _ => k)) (at level 61, right associativity).
  Notation pure := (tnamed []).
  Notation send := (t_send sign_ok compose bank others pick sign_why compose_why bank_why read_why quote).

  (** client.go:104-112 init *)
  Definition t_client_init : tact unit :=
    d <-- pure get;
    if d_bpd_version d =? 0
    then tprefixed (B "error while fetching accounts: ")
           (t_sync_system sign_ok compose bank others pick sign_why compose_why bank_why read_why quote) ;; tret tt
    else tret tt.

  (** client.go:115-124 Accounts: the error of SyncUserParameterData is replaced *)
  Definition t_accounts : tact (list Acc) :=
    t_client_init ;;
    (fun w => let '(w1, r) := t_sync_user sign_ok compose bank others pick sign_why compose_why bank_why read_why quote w in
              (w1, named (B "error getting accounts") (plain r))) ;;
    d <-- pure get;
    tret (d_accounts d).

  (** segment/hbci_version.go:62-116: what the five methods return for an ID and a builder *)
  Definition t_build (supported : list (bytes * Z)) (id request what : bytes) (b : list Z -> outcome Z) : result Z :=
    match versions_of supported id with
    | None => RErr (B "Segment " ++ request ++ B " not supported")
    | Some vs => named (B "error building " ++ what ++ B " request (" ++ request ++ B "): " ++ unsupported_versions vs) (b vs)
    end.

  (** client.go:259-269, 300-312, 190-197: [malformed] for a segment of another kind,
      [unreadable] for an error of the accessor *)
  Fixpoint t_read_segs {X} (malformed unreadable : bytes) (f : bytes -> outcome X) (l : list (oseg Acc)) : result (list X) :=
    match l with
    | [] => ROk []
    | OSeg raw :: r =>
        match f raw with
        | Ok x => match t_read_segs malformed unreadable f r with
                  | ROk xs => ROk (x :: xs)
                  | RErr t => RErr t
                  | RPanic => RPanic
                  end
        | Err => RErr unreadable
        | Panic => RPanic
        end
    | _ :: _ => RErr malformed
    end.

  Definition no_balance : bytes := B "malformed response: expected HISAL segment".
  Definition bad_balance : bytes := B "malformed segment found with ID " ++ quote (B "HISAL").
  (** segment/account_balance.go:263, 339, with client.go:307-309 *)
  Definition no_sepa : bytes := B "could not get sepa balances: not implemented".

  (** client.go:242-275 AccountBalances *)
  Definition t_account_balances (args : A) : tact (list Bal) :=
    t_client_init ;;
    d <-- pure get;
    v <-- tlift (t_build (d_supported d) (B "HISALS") (B "HKSAL") (B "account balance") balance_builder);
    m <-- send (mkJob TBalances v args []);
    bs <-- tlift (t_read_segs bad_balance [] balance_in (find_segs m (B "HISAL")));
    match bs with [] => tlift (RErr no_balance) | _ => tret bs end.

  (** client.go:281-325 *)
  Definition t_balance_page (args : A) (mark : bytes) : tact (list SBal * bytes) :=
    t_client_init ;;
    d <-- pure get;
    v <-- tlift (t_build (d_supported d) (B "HISALS") (B "HKSAL") (B "account balance") sepa_balance_builder);
    m <-- send (mkJob TSepaBalances v args mark);
    bs <-- tlift (t_read_segs bad_balance no_sepa sepa_balance_in (find_segs m (B "HISAL")));
    match bs with [] => tlift (RErr no_balance) | _ => tret tt end ;;
    c <-- pure (lift (continuation (bm_acks m)));
    tret (bs, c).
  (** client.go:280-335 SepaAccountBalances *)
  Fixpoint t_sepa_account_balances (fuel : nat) (args : A) (mark : bytes) (w : world) : world * option (result (list SBal)) :=
    match fuel with
    | O => (w, None)
    | S fuel =>
        match t_balance_page args mark w with
        | (w1, RErr t) => (w1, Some (RErr t))
        | (w1, RPanic) => (w1, Some RPanic)
        | (w1, ROk (bs, [])) => (w1, Some (ROk bs))
        | (w1, ROk (bs, c)) =>
            match t_sepa_account_balances fuel args c w1 with
            | (w2, Some (ROk next)) => (w2, Some (ROk (bs ++ next)))
            | r => r
            end
        end
    end.

  (** client.go:174-205 *)
  Definition t_transaction_page (what : bytes) (t : topic) (builder : list Z -> outcome Z) (args : A) (mark : bytes) (tick : nat) : tact (mt * nat * bytes) :=
    d <-- pure get;
    v <-- tprefixed (B "error building request: ") (tlift (t_build (d_supported d) (B "HIKAZS") (B "HKKAZ") what builder));
    m <-- tprefixed (B "error sending hbci request: ") (send (mkJob t v args mark));
    ds <-- tlift (t_read_segs (B "malformed segment found with ID `HIKAZ`") [] booked_in (find_segs m (B "HIKAZ")));
    c <-- pure (lift (continuation (bm_acks m)));
    let tick' := (tick + List.length ds)%nat in
    tret (merge sort (clock tick') (stamp clock tick ds), S tick', c).
  (** client.go:206-215: the error of a later page is returned as it is *)
  Fixpoint t_transaction_pages (fuel : nat) (what : bytes) (t : topic) (builder : list Z -> outcome Z) (args : A) (mark : bytes) (tick : nat) (w : world)
    : world * option (result (mt * nat)) :=
    match fuel with
    | O => (w, None)
    | S fuel =>
        match t_transaction_page what t builder args mark tick w with
        | (w1, RErr t) => (w1, Some (RErr t))
        | (w1, RPanic) => (w1, Some RPanic)
        | (w1, ROk (tx, tick1, [])) => (w1, Some (ROk (tx, tick1)))
        | (w1, ROk (tx, tick1, c)) =>
            match t_transaction_pages fuel what t builder args c tick1 w1 with
            | (w2, Some (ROk (msg, tick2))) => (w2, Some (ROk (merge sort (clock tick2) [msg; tx], S tick2)))
            | r => r
            end
        end
    end.
  (** client.go:130-148 AccountTransactions and 154-172 SepaAccountTransactions *)
  Definition t_transactions (fuel : nat) (what : bytes) (t : topic) (builder : list Z -> outcome Z) (args : A) (mark : bytes) (tick : nat) (w : world)
    : world * option (result (list Tx)) :=
    match t_client_init w with
    | (w1, RErr t) => (w1, Some (RErr t))
    | (w1, RPanic) => (w1, Some RPanic)
    | (w1, ROk _) =>
        match t_transaction_pages fuel what t builder args mark tick w1 with
        | (w2, None) => (w2, None)
        | (w2, Some (ROk p)) =>
            (w2, Some (named (B "error unmarshaling SWIFT transactions: " ++ mt940_why (mt_data (fst p))) (read_mt940 (mt_data (fst p)))))
        | (w2, Some (RErr t)) => (w2, Some (RErr (B "error executing HBCI request: " ++ t)))
        | (w2, Some RPanic) => (w2, Some RPanic)
        end
    end.
  Definition t_account_transactions (fuel : nat) := t_transactions fuel (B "account transaction") TTransactions transaction_builder.
  Definition t_sepa_account_transactions (fuel : nat) := t_transactions fuel (B "sepa account transaction") TSepaTransactions sepa_transaction_builder.

  (** client.go:220-237 AccountInformation *)
  Definition t_account_information (args : A) : tact bytes :=
    t_client_init ;;
    m <-- send (mkJob TInformation 1 args []);
    match find (has_prefix (B "HIKIF")) (bm_raw m) with
    | None => tlift (RErr (B "malformed response: expected HIKIF segment"))
    | Some s => tret s
    end.

  (** client.go:340-362 Status *)
  Definition t_status (args : A) (mark : bytes) : tact (list St) :=
    t_client_init ;;
    d <-- pure get;
    v <-- tlift (t_build (d_supported d) (B "HIPRO") (B "HKPRO") (B "status protocol") status_builder);
    m <-- send (mkJob TStatus v args mark);
    pure (lift (all_ok (fun s => match s with OSeg raw => status_in raw | _ => Panic end) (find_segs m (B "HIPRO")))).

  (** What a call returns: nothing for the value, the text for an error. *)
  Definition said {X} (r : result X) : result unit :=
    match r with ROk _ => ROk tt | RErr t => RErr t | RPanic => RPanic end.
  Definition t_run (c : ccall A) (w : world) : world * option (result unit) :=
    match c with
    | CAccounts => let '(w', r) := t_accounts w in (w', Some (said r))
    | CBalances a => let '(w', r) := t_account_balances a w in (w', Some (said r))
    | CSepaBalances n a mark => let '(w', r) := t_sepa_account_balances n a mark w in (w', option_map said r)
    | CTransactions n a mark tick => let '(w', r) := t_account_transactions n a mark tick w in (w', option_map said r)
    | CSepaTransactions n a mark tick => let '(w', r) := t_sepa_account_transactions n a mark tick w in (w', option_map said r)
    | CInformation a => let '(w', r) := t_account_information a w in (w', Some (said r))
    | CStatus a mark => let '(w', r) := t_status a mark w in (w', Some (said r))
    end.
End ClientErrors.

(** The calls of a dialog (Dialog_Model.call), with what they return. *)
Section Calls.
  Context {J Acc : Type}.
  Variable sign_ok : list (entry J) -> request J -> outcome unit.
  Variable compose : list (entry J) -> request J -> outcome bytes.
  Variable bank : list (entry J) -> outcome bytes.
  Variable others : bytes -> Z -> option (bytes -> outcome (oseg Acc)).
  Variable pick : list (entry J) -> nat.
  Variable sign_why : list (entry J) -> request J -> bytes.
  Variable compose_why : list (entry J) -> request J -> bytes.
  Variable bank_why : list (entry J) -> bytes.
  Variable read_why : bytes -> bytes.
  Variable quote : bytes -> bytes.
  Definition t_call (c : call) (w : @world J Acc) : @world J Acc * result unit :=
    match c with
    | CSend j => let '(w', r) := t_send sign_ok compose bank others pick sign_why compose_why bank_why read_why quote j w in (w', said r)
    | CSyncUser => t_sync_user sign_ok compose bank others pick sign_why compose_why bank_why read_why quote w
    | CSyncSystem => let '(w', r) := t_sync_system sign_ok compose bank others pick sign_why compose_why bank_why read_why quote w in (w', said r)
    | CAnonymous j => let '(w', r) := t_send_anonymous compose bank others compose_why bank_why read_why quote j w in (w', said r)
    | CSetPin p => tnamed [] (set_pin p) w
    | CSetSystem s => tnamed [] (set_client_system s) w
    | CSetFn f => tnamed [] (set_security_function f) w
    end.
End Calls.
