(** * Model of dialogs with the bank

    dialog/dialog.go, dialog/pin_tan_dialog.go; the providers of
    message/signature.go and message/crypto.go as far as their state goes. *)
From Verif Require Import Base Lexer_Model Codec_Model Wire_Model Message_Model.
Open Scope Z_scope.

(** ** State and results *)

(** message/signature.go:60-65 and message/crypto.go:35-39: the mutable part of a
    PIN/TAN provider; the key name is fixed by the dialog. *)
Record provider := mkPv { pv_pin : bytes; pv_system : bytes; pv_fn : bytes }.
(** message/signature.go:49-58, message/crypto.go:26-33 *)
Definition new_provider (pin system : bytes) : provider := mkPv pin system (B "999").

(** domain/user_parameter_data.go: what the dialog uses of it. *)
Record upd := mkUpd { upd_user : bytes; upd_version : Z }.

(** dialog/dialog.go:63-83.  Acc: domain.AccountInformation.  Left out: bank,
    user, language, product and URL, which no method changes, and the part of
    BankParameterData besides its version (nothing in the dialog reads it). *)
Record dstate {Acc : Type} := mkD {
  d_system : bytes; d_client : bytes; d_dialog : bytes; d_count : Z; d_fn : bytes;
  d_sig : provider; d_crypt : provider;
  d_bpd_version : Z; d_upd : upd; d_accounts : list Acc; d_supported : list (bytes * Z) }.
Arguments dstate : clear implicits.
Arguments mkD {Acc}.

(** dialog/dialog.go:36-61 and dialog/pin_tan_dialog.go:28-56 NewPinTanDialog *)
Definition new_dialog {Acc} (user : bytes) : dstate Acc :=
  mkD (B "0") user (B "0") 0 [] (new_provider [] (B "0")) (new_provider [] (B "0")) 0 (mkUpd [] 0) [] [].

(** The segments of a bank message the dialog looks into, as returned by
    FindSegment.  The methods ClientSystemID(), BankParameterData(),
    UserParameterData(), Account(), PinTanBusinessTransactions() dereference
    elements that may be missing: [Panic]; so do Subject.Val() and Body.Val() of a
    bank announcement. *)
Inductive oseg {Acc : Type} :=
| OSync (system : outcome bytes)
| OTans (functions : outcome (list bytes))
| OBpd (version : outcome Z)
| OPins (transactions : outcome unit)
| OUpd (data : outcome upd)
| OAccount (account : outcome Acc)
| OSeg (raw : bytes)
| ONews (news : outcome (bytes * bytes)).
Arguments oseg : clear implicits.

(** What a message to the bank is about.  [KSync client]: dialog/dialog.go:158-165;
    [KInit]: 261-272 and 346-354, with customer ID, system ID and the versions of
    bank and user parameters; [KJob]: 115; [KEnd dialog]: 314, 414. *)
Inductive kind {J : Type} :=
| KSync (client : bytes)
| KInit (client system : bytes) (bpd upd : Z)
| KJob (j : J)
| KEnd (dialog : bytes).
Arguments kind : clear implicits.
(** A composed message: dialog/dialog.go:448-454 puts dialog ID and number into
    header and end; signature and envelope are those of the providers at that
    time, [None] for anonymous messages. *)
Record request {J : Type} := mkRq {
  rq_kind : kind J; rq_dialog : bytes; rq_number : Z;
  rq_sig : option provider; rq_crypt : option provider }.
Arguments request : clear implicits.
Arguments mkRq {J}.

(** A message handed to the transport together with its bytes. *)
Definition entry (J : Type) : Type := request J * bytes.

Section Dialog.
  Context {J Acc : Type}.
  (** Composing a message: signing (message/message.go:233-256) and, unless it is
      sent as is, enveloping and marshaling (message/message.go:184-230, 259-296).
      Both may fail or panic, depending on the message and on what happened so
      far (random bytes, time). *)
  Variable sign_ok : list (entry J) -> request J -> outcome unit.
  Variable compose : list (entry J) -> request J -> outcome bytes.
  (** The transport and the bank: what comes back for the last message of a
      history; a transport error, or a panic in the transport. *)
  Variable bank : list (entry J) -> outcome bytes.
  (** The unmarshalers of the segments besides acknowledgements. *)
  Variable others : bytes -> Z -> option (bytes -> outcome (oseg Acc)).
  (** Go's map iteration order: which entry comes first, at a point of the history. *)
  Variable pick : list (entry J) -> nat.

  Definition reply := bank_message (oseg Acc).

  (** The dialog object and everything sent to the bank so far, oldest first. *)
  Record world := mkW { w_d : dstate Acc; w_sent : list (entry J) }.

  (** A method: changes the world and returns, with an error, or panics. *)
  Definition act (A : Type) : Type := world -> world * outcome A.
  Definition ret {A} (a : A) : act A := fun w => (w, Ok a).
  Definition lift {A} (o : outcome A) : act A := fun w => (w, o).
  Definition bind {A C} (m : act A) (k : A -> act C) : act C :=
    fun w => match m w with
             | (w1, Ok a) => k a w1
             | (w1, Err) => (w1, Err)
             | (w1, Panic) => (w1, Panic)
             end.
  Notation "x <-- m ; k" := (bind m (fun x => k)) (at level 61, m at next level, right associativity).
  Notation "m ;; k" := (bind m (fun _ => k)) (at level 61, right associativity).
  Definition get : act (dstate Acc) := fun w => (w, Ok (w_d w)).
  Definition modify (f : dstate Acc -> dstate Acc) : act unit := fun w => (mkW (f (w_d w)) (w_sent w), Ok tt).
  (** defer func() { logErr(cleanup()) }(): runs whatever happened before, a panic
      included; its error is only logged. *)
  Definition deferred {A} (m : act A) (cleanup : act unit) : act A :=
    fun w => let '(w1, r) := m w in
             let '(w2, c) := cleanup w1 in
             (w2, match c with Panic => Panic | _ => r end).

  (** Updates of single fields. *)
  Definition upd_system (s : bytes) (d : dstate Acc) := mkD s (d_client d) (d_dialog d) (d_count d) (d_fn d) (d_sig d) (d_crypt d) (d_bpd_version d) (d_upd d) (d_accounts d) (d_supported d).
  Definition upd_dialog (s : bytes) (d : dstate Acc) := mkD (d_system d) (d_client d) s (d_count d) (d_fn d) (d_sig d) (d_crypt d) (d_bpd_version d) (d_upd d) (d_accounts d) (d_supported d).
  Definition upd_count (n : Z) (d : dstate Acc) := mkD (d_system d) (d_client d) (d_dialog d) n (d_fn d) (d_sig d) (d_crypt d) (d_bpd_version d) (d_upd d) (d_accounts d) (d_supported d).
  Definition upd_fn (f : bytes) (d : dstate Acc) := mkD (d_system d) (d_client d) (d_dialog d) (d_count d) f (d_sig d) (d_crypt d) (d_bpd_version d) (d_upd d) (d_accounts d) (d_supported d).
  Definition upd_sig (p : provider) (d : dstate Acc) := mkD (d_system d) (d_client d) (d_dialog d) (d_count d) (d_fn d) p (d_crypt d) (d_bpd_version d) (d_upd d) (d_accounts d) (d_supported d).
  Definition upd_crypt (p : provider) (d : dstate Acc) := mkD (d_system d) (d_client d) (d_dialog d) (d_count d) (d_fn d) (d_sig d) p (d_bpd_version d) (d_upd d) (d_accounts d) (d_supported d).
  Definition upd_bpd (v : Z) (d : dstate Acc) := mkD (d_system d) (d_client d) (d_dialog d) (d_count d) (d_fn d) (d_sig d) (d_crypt d) v (d_upd d) (d_accounts d) (d_supported d).
  Definition upd_supported (l : list (bytes * Z)) (d : dstate Acc) := mkD (d_system d) (d_client d) (d_dialog d) (d_count d) (d_fn d) (d_sig d) (d_crypt d) (d_bpd_version d) (d_upd d) (d_accounts d) l.
  Definition upd_user_data (u : upd) (d : dstate Acc) := mkD (d_system d) (upd_user u) (d_dialog d) (d_count d) (d_fn d) (d_sig d) (d_crypt d) (d_bpd_version d) u (d_accounts d) (d_supported d).
  Definition add_account (a : Acc) (d : dstate Acc) := mkD (d_system d) (d_client d) (d_dialog d) (d_count d) (d_fn d) (d_sig d) (d_crypt d) (d_bpd_version d) (d_upd d) (d_accounts d ++ [a]) (d_supported d).
  (** message/signature.go:67-73, message/crypto.go:41-47 *)
  Definition pv_set_system (s : bytes) (p : provider) := mkPv (pv_pin p) s (pv_fn p).
  Definition pv_set_fn (f : bytes) (p : provider) := mkPv (pv_pin p) (pv_system p) f.

  (** dialog/dialog.go:97-101 SetClientSystemID *)
  Definition set_client_system (s : bytes) : act unit :=
    modify (fun d => upd_crypt (pv_set_system s (d_crypt d)) (upd_sig (pv_set_system s (d_sig d)) (upd_system s d))).
  (** dialog/dialog.go:103-107 SetSecurityFunction *)
  Definition set_security_function (f : bytes) : act unit :=
    modify (fun d => upd_crypt (pv_set_fn f (d_crypt d)) (upd_sig (pv_set_fn f (d_sig d)) (upd_fn f d))).
  (** dialog/pin_tan_dialog.go:63-68 SetPin *)
  Definition set_pin (pin : bytes) : act unit :=
    modify (fun d => upd_crypt (new_provider pin (d_system d)) (upd_sig (new_provider pin (d_system d)) d)).

  (** dialog/dialog.go:448-454 newBasicMessage with 680-683 nextMessageNumber:
      counts the message; the result is header data and content. *)
  Definition new_basic_message (signed : bool) (k : dstate Acc -> kind J) : act (request J) :=
    modify (fun d => upd_count (d_count d + 1) d) ;;
    d <-- get;
    ret (mkRq (k d) (d_dialog d) (d_count d) (if signed then Some (d_sig d) else None) None).
  (** Sign: message/message.go:233-256 *)
  Definition sign_message (q : request J) : act unit := fun w => (w, sign_ok (w_sent w) q).
  (** Encrypt with the provider as it is now: message/message.go:259-296 *)
  Definition with_envelope (q : request J) : act (request J) :=
    d <-- get; ret (mkRq (rq_kind q) (rq_dialog q) (rq_number q) (rq_sig q) (Some (d_crypt d))).
  (** dialog/dialog.go:582-631 request, together with the marshaling of the
      envelope's content in Encrypt: composes, sends and reads the answer. *)
  Definition request_bank (q : request J) : act reply :=
    fun w => match compose (w_sent w) q with
             | Err => (w, Err)
             | Panic => (w, Panic)
             | Ok bs => let h := w_sent w ++ [(q, bs)] in
                        (mkW (w_d w) h, do raw <- bank h; read_response others raw)
             end.
  (** The sequence newBasicMessage, Sign, Encrypt, request. *)
  Definition exchange (k : dstate Acc -> kind J) : act reply :=
    q <-- new_basic_message true k;
    sign_message q ;;
    q <-- with_envelope q;
    request_bank q.
  (** The same without signature and envelope (dialog/dialog.go:239-241, 270-272, 315-318). *)
  Definition exchange_plain (k : dstate Acc -> kind J) : act reply :=
    q <-- new_basic_message false k;
    request_bank q.

  (** message/unmarshaler.go:106-112 *)
  Definition seg_of (p : parsed (oseg Acc)) : oseg Acc := match p with POther o => o | _ => OSeg [] end.
  Definition find_seg (m : reply) (id : bytes) : option (oseg Acc) :=
    match segments_by_id id (bm_segments m) with [] => None | p :: _ => Some (seg_of p) end.
  Definition find_segs (m : reply) (id : bytes) : list (oseg Acc) := map seg_of (segments_by_id id (bm_segments m)).

  (** The error branch that every exchange has (e.g. dialog/dialog.go:127-140). *)
  Definition fail_on_error_acks (m : reply) : act unit :=
    lift (if existsb is_err (bm_acks m) then Err else Ok tt).

  (** dialog/dialog.go:188, 278, 370: d.dialogID = header.DialogID.Val() *)
  Definition take_dialog_id (m : reply) : act unit :=
    match mh_dialog (bm_header m) with
    | None => lift Panic
    | Some i => modify (upd_dialog i)
    end.

  (** dialog/dialog.go:494-528 supportedSecurityFunctionsFromBankMessage, for a
      message with HITANS; the map's keys in the order of the bank's list.
      The type assertion panics for any other segment. *)
  Definition is_3920 (a : ack) : bool := ack_code a =? 3920.
  Definition candidates (m : reply) (tans : oseg Acc) : outcome (list bytes) :=
    match find is_3920 (bm_acks m) with
    | None => Err
    | Some a =>
        match ack_params a with
        | [] => Err
        | ps => match tans with
                | OTans fs =>
                    do fs <- fs;
                    let both := filter (fun f => existsb (bytes_eqb f) fs) ps in
                    match both with [] => Err | _ => Ok both end
                | _ => Panic
                end
        end
    end.
  (** dialog/dialog.go:456-481 updateSecurityFunctionIfNeeded *)
  Definition update_security_function (m : reply) : act unit :=
    match find_seg m (B "HITANS") with
    | None => ret tt
    | Some tans =>
        if existsb is_3920 (bm_acks m) then
          cs <-- lift (candidates m tans);
          fun w => let f := nth (pick (w_sent w) mod List.length cs) cs [] in
                   if bytes_eqb (d_fn (w_d w)) f then (w, Ok tt) else set_security_function f w
        else ret tt
    end.

  (** dialog/dialog.go:530-564 parseBankParameterData *)
  Definition parse_bpd (m : reply) : act unit :=
    match find_seg m (B "HIBPA") with
    | None => ret tt
    | Some (OBpd v) =>
        modify (upd_supported (supported_segments m)) ;;
        v <-- lift v;
        modify (upd_bpd v) ;;
        match find_seg m (B "HIPINS") with
        | None => ret tt
        | Some (OPins t) => lift t
        | Some _ => lift Panic
        end
    | Some _ => lift Err
    end.
  (** dialog/dialog.go:566-580 parseUserParameterData *)
  Fixpoint add_accounts (l : list (oseg Acc)) : act unit :=
    match l with
    | [] => ret tt
    | OAccount a :: r => a <-- lift a; modify (add_account a) ;; add_accounts r
    | _ :: _ => lift Panic
    end.
  Definition parse_upd (m : reply) : act unit :=
    match find_seg m (B "HIUPA") with
    | None => ret tt
    | Some (OUpd u) => u <-- lift u; modify (upd_user_data u)
    | Some _ => lift Panic
    end ;;
    add_accounts (find_segs m (B "HIUPD")).

  (** dialog/dialog.go:291-295 and 383-387: subject and body of the bank's announcement
      are logged *)
  Definition log_news (m : reply) : act unit :=
    match find_seg m (B "HIKIM") with
    | None => ret tt
    | Some (ONews t) => lift (do _ <- t; Ok tt)
    | Some _ => lift Panic
    end.

  (** dialog/dialog.go:413-442 end; the dialog ID of HKEND is d.dialogID *)
  Definition end_dialog : act unit :=
    m <-- exchange (fun d => KEnd (d_dialog d));
    fail_on_error_acks m.
  (** dialog/dialog.go:313-335 anonymousEnd *)
  Definition anonymous_end : act unit :=
    m <-- exchange_plain (fun d => KEnd (d_dialog d));
    fail_on_error_acks m.

  (** dialog/dialog.go:157-230 SyncClientSystemID; the header of a message read
      from the transport is never nil (182-185). *)
  Definition sync_client_system : act bytes :=
    q <-- new_basic_message true (fun d => KSync (d_client d));
    sign_message q ;;
    modify (fun d => upd_crypt (pv_set_system (B "0") (d_crypt d)) d) ;;
    q <-- with_envelope q;
    m <-- request_bank q;
    take_dialog_id m ;;
    fail_on_error_acks m ;;
    update_security_function m ;;
    match find_seg m (B "HISYN") with
    | None => lift Err
    | Some (OSync s) => s <-- lift s; set_client_system s
    | Some _ => lift Panic
    end ;;
    parse_bpd m ;;
    parse_upd m ;;
    end_dialog ;;
    d <-- get;
    ret (d_system d).

  (** dialog/dialog.go:337-411 init *)
  Definition start_dialog : act unit :=
    modify (fun d => upd_count 0 (upd_dialog (B "0") d)) ;;
    m <-- exchange (fun d => KInit (d_client d) (d_system d) (d_bpd_version d) (upd_version (d_upd d)));
    take_dialog_id m ;;
    parse_bpd m ;;
    parse_upd m ;;
    log_news m ;;
    fail_on_error_acks m ;;
    update_security_function m.
  Definition ensure_system : act unit :=
    d <-- get;
    if bytes_eqb (d_system d) (B "0")
    then s <-- sync_client_system; modify (upd_system s)
    else ret tt.
  Definition init : act unit := ensure_system ;; start_dialog.

  (** dialog/dialog.go:261-311 anonymousInit *)
  Definition anonymous_init : act unit :=
    modify (fun d => upd_count 0 (upd_dialog (B "0") d)) ;;
    m <-- exchange_plain (fun d => KInit (B "9999999999") (B "0") (d_bpd_version d) (upd_version (d_upd d)));
    take_dialog_id m ;;
    parse_bpd m ;;
    parse_upd m ;;
    log_news m ;;
    fail_on_error_acks m.

  (** dialog/dialog.go:109-142 SendMessage *)
  Definition send_message (j : J) : act reply :=
    init ;;
    deferred (m <-- exchange (fun _ => KJob j);
              fail_on_error_acks m ;;
              ret m)
             end_dialog.
  (** dialog/dialog.go:144-155 SyncUserParameterData *)
  Definition sync_user_data : act unit := init ;; deferred (ret tt) end_dialog.
  (** dialog/dialog.go:232-259 SendAnonymousMessage *)
  Definition send_anonymous (j : J) : act reply :=
    anonymous_init ;;
    deferred (m <-- exchange_plain (fun _ => KJob j);
              fail_on_error_acks m ;;
              ret m)
             anonymous_end.

  (** The calls a user of a PinTanDialog can make. *)
  Inductive call :=
  | CSend (j : J) | CSyncUser | CSyncSystem | CAnonymous (j : J)
  | CSetPin (pin : bytes) | CSetSystem (s : bytes) | CSetFn (f : bytes).
  Definition run_call (c : call) (w : world) : world :=
    match c with
    | CSend j => fst (send_message j w)
    | CSyncUser => fst (sync_user_data w)
    | CSyncSystem => fst (sync_client_system w)
    | CAnonymous j => fst (send_anonymous j w)
    | CSetPin p => fst (set_pin p w)
    | CSetSystem s => fst (set_client_system s w)
    | CSetFn f => fst (set_security_function f w)
    end.
  (** Any sequence of calls; a call that returned an error or panicked (and was
      recovered from) leaves the object as it was then. *)
  Fixpoint run_calls (cs : list call) (w : world) : world :=
    match cs with [] => w | c :: r => run_calls r (run_call c w) end.
End Dialog.
