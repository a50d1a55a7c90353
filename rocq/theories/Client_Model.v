(** * Model of the client and of the request builders

    client/client.go; segment/hbci_version.go:48-116 and the version tables of
    segment/account_balance.go, account_transaction.go, status_protocol.go, tan.go. *)
From Verif Require Import Base Lexer_Model Codec_Model Wire_Model Message_Model Dialog_Model Merge_Model.
Open Scope Z_scope.

(** ** Choosing a segment version *)

(** sort.Sort(sort.Reverse(sort.IntSlice(versions))): numbers in descending order.
    Equal numbers are indistinguishable, so any sorting algorithm gives this list. *)
Fixpoint insert_desc (x : Z) (l : list Z) : list Z :=
  match l with
  | [] => [x]
  | y :: r => if y <=? x then x :: l else y :: insert_desc x r
  end.
Definition sort_desc (l : list Z) : list Z := fold_right insert_desc [] l.

(** A table of constructors: the key under which it stands and the version of the
    segment it makes. *)
Definition table := list (Z * Z).
Definition entry_for (t : table) (v : Z) : option Z :=
  match find (fun p => fst p =? v) t with Some p => Some (snd p) | None => None end.
Fixpoint first_entry (t : table) (versions : list Z) : outcome Z :=
  match versions with
  | [] => Err
  | v :: r => match entry_for t v with Some s => Ok s | None => first_entry t r end
  end.

(** segment/account_balance.go:12-15 with 51-58, 68, 86-93, 103 *)
Definition balance_table : table := [(5, 5); (6, 6)].
(** segment/account_balance.go:17-20 with 121-128, 138, 156-163, 173 *)
Definition sepa_balance_table : table := [(7, 7); (8, 8)].
(** segment/account_transaction.go:13-16 with 53-64, 93, 109-120, 149 *)
Definition transaction_table : table := [(6, 6); (5, 5)].
(** segment/tan.go:11-14 *)
Definition tan_table : table := [(6, 6); (1, 1)].
(** segment/status_protocol.go:15-19 with 31-42, 53, 66-77, 88: the case for 4 makes
    a segment of version 3 and vice versa *)
Definition status_table : table := [(4, 3); (3, 4)].

(** segment/account_balance.go:23-32 *)
Definition balance_builder (versions : list Z) : outcome Z := first_entry balance_table (sort_desc versions).
(** segment/account_balance.go:35-44 *)
Definition sepa_balance_builder (versions : list Z) : outcome Z := first_entry sepa_balance_table (sort_desc versions).
(** segment/account_transaction.go:18-27 *)
Definition transaction_builder (versions : list Z) : outcome Z := first_entry transaction_table (sort_desc versions).
(** segment/tan.go:16-25 *)
Definition tan_builder (versions : list Z) : outcome Z := first_entry tan_table (sort_desc versions).
(** segment/status_protocol.go:12-25 *)
Definition status_builder (versions : list Z) : outcome Z := first_entry status_table (sort_desc versions).
(** segment/account_transaction.go:29-41: skips versions above 6 and then looks for 7 *)
Fixpoint sepa_transaction_loop (versions : list Z) : outcome Z :=
  match versions with
  | [] => Err
  | v :: r => if 6 <? v then sepa_transaction_loop r
              else if v =? 7 then Ok 7
              else sepa_transaction_loop r
  end.
Definition sepa_transaction_builder (versions : list Z) : outcome Z := sepa_transaction_loop (sort_desc versions).

(** segment/hbci_version.go:50-56 NewBuilder: the versions recorded for an ID, in
    the order of the list; [None]: no entry in the map. *)
Definition versions_of (supported : list (bytes * Z)) (id : bytes) : option (list Z) :=
  match filter (fun s => bytes_eqb (fst s) id) supported with
  | [] => None
  | l => Some (map snd l)
  end.
(** segment/hbci_version.go:62-116: the five methods, which differ only in the ID
    looked up and the builder. *)
Definition build (supported : list (bytes * Z)) (id : bytes) (b : list Z -> outcome Z) : outcome Z :=
  match versions_of supported id with None => Err | Some vs => b vs end.

(** ** Jobs *)

(** What is asked for; the arguments (account, range of dates, ...) are left
    abstract.  Every job message also has the TAN request of
    c.hbciVersion.TanProcess4Request (client.go:184, 226, 254, 295, 350), the same
    for all. *)
Inductive topic := TBalances | TSepaBalances | TTransactions | TSepaTransactions | TInformation | TStatus.
(** [jb_mark]: the continuation reference; empty: the element is not set
    (client.go:180-182, 289-291, status_protocol.go:37). *)
Record job {A : Type} := mkJob { jb_topic : topic; jb_version : Z; jb_args : A; jb_mark : bytes }.
Arguments job : clear implicits.
Arguments mkJob {A}.

Section Client.
  Context {A Acc Bal SBal St Tx : Type}.
  Notation J := (job A).
  Variable sign_ok : list (entry J) -> request J -> outcome unit.
  Variable compose : list (entry J) -> request J -> outcome bytes.
  Variable bank : list (entry J) -> outcome bytes.
  Variable others : bytes -> Z -> option (bytes -> outcome (oseg Acc)).
  Variable pick : list (entry J) -> nat.
  (** What the response segments say; each may panic on missing elements.
      AccountBalance() and SepaAccountBalance() of HISAL (segment/account_balance.go),
      BookedSwiftTransactions() of HIKAZ (segment/account_transaction.go:238, 260, 282),
      Status() of HIPRO (segment/status_protocol.go). *)
  Variable balance_in : bytes -> outcome Bal.
  Variable sepa_balance_in : bytes -> outcome SBal.
  Variable booked_in : bytes -> outcome bytes.
  Variable status_in : bytes -> outcome St.
  (** swift.UnmarshalMT940 *)
  Variable read_mt940 : bytes -> outcome (list Tx).
  (** sort.Sort, and the readings of the clock. *)
  Variable sort : list mt -> list mt.
  Variable clock : nat -> Z.

  Notation world := (@world J Acc).
  Notation act := (@act J Acc).
  Notation "x <-- m ; k" := (bind m (fun x => k)) (at level 61, m at next level, right associativity).
  Notation "m ;; k" := (bind m (fun _ => k)) (at level 61, right associativity).
  Notation send := (send_message sign_ok compose bank others pick).

  (** client.go:104-112 init *)
  Definition client_init : act unit :=
    d <-- get;
    if d_bpd_version d =? 0
    then sync_client_system sign_ok compose bank others pick ;; ret tt
    else ret tt.

  (** client.go:115-124 Accounts *)
  Definition accounts : act (list Acc) :=
    client_init ;;
    sync_user_data sign_ok compose bank others pick ;;
    d <-- get;
    ret (d_accounts d).

  (** Segments found by ID; the type assertion fails for anything that is not the
      response segment looked for. *)
  Definition read_segs {X} (f : bytes -> outcome X) (l : list (oseg Acc)) : outcome (list X) :=
    all_ok (fun s => match s with OSeg raw => f raw | _ => Err end) l.

  (** client.go:200-205, 320-325 *)
  Definition is_3040 (a : ack) : bool := ack_code a =? 3040.
  Definition continuation (acks : list ack) : outcome bytes :=
    match find is_3040 acks with
    | None => Ok []
    | Some a => match ack_params a with [] => Panic | p :: _ => Ok p end
    end.

  (** client.go:242-275 AccountBalances *)
  Definition account_balances (args : A) : act (list Bal) :=
    client_init ;;
    d <-- get;
    v <-- lift (build (d_supported d) (B "HISALS") balance_builder);
    m <-- send (mkJob TBalances v args []);
    bs <-- lift (read_segs balance_in (find_segs m (B "HISAL")));
    match bs with [] => lift Err | _ => ret bs end.

  (** client.go:281-325: one page of SepaAccountBalances and the mark that came
      with it *)
  Definition balance_page (args : A) (mark : bytes) : act (list SBal * bytes) :=
    client_init ;;
    d <-- get;
    v <-- lift (build (d_supported d) (B "HISALS") sepa_balance_builder);
    m <-- send (mkJob TSepaBalances v args mark);
    bs <-- lift (read_segs sepa_balance_in (find_segs m (B "HISAL")));
    match bs with [] => lift Err | _ => ret tt end ;;
    c <-- lift (continuation (bm_acks m));
    ret (bs, c).
  (** client.go:280-335 SepaAccountBalances.  The recursion has no bound, so the
      model has a number of pages after which it is interrupted: [None]. *)
  Fixpoint sepa_account_balances (fuel : nat) (args : A) (mark : bytes) (w : world) : world * option (outcome (list SBal)) :=
    match fuel with
    | O => (w, None)
    | S fuel =>
        match balance_page args mark w with
        | (w1, Err) => (w1, Some Err)
        | (w1, Panic) => (w1, Some Panic)
        | (w1, Ok (bs, [])) => (w1, Some (Ok bs))
        | (w1, Ok (bs, c)) =>
            match sepa_account_balances fuel args c w1 with
            | (w2, Some (Ok next)) => (w2, Some (Ok (bs ++ next)))
            | r => r
            end
        end
    end.

  (** client.go:174-205: one page of accountTransactions.  Unmarshaling the answer
      stamps each HIKAZ segment (element/swift.go:21) with the time: the readings
      [tick], [tick + 1], ... of the clock, and the merge (206) takes one more. *)
  Fixpoint stamp (tick : nat) (l : list bytes) : list mt :=
    match l with [] => [] | d :: r => new_mt (clock tick) d :: stamp (S tick) r end.
  Definition transaction_page (t : topic) (builder : list Z -> outcome Z) (args : A) (mark : bytes) (tick : nat) : act (mt * nat * bytes) :=
    d <-- get;
    v <-- lift (build (d_supported d) (B "HIKAZS") builder);
    m <-- send (mkJob t v args mark);
    ds <-- lift (read_segs booked_in (find_segs m (B "HIKAZ")));
    c <-- lift (continuation (bm_acks m));
    let tick' := (tick + List.length ds)%nat in
    ret (merge sort (clock tick') (stamp tick ds), S tick', c).
  (** client.go:206-215 *)
  Fixpoint transaction_pages (fuel : nat) (t : topic) (builder : list Z -> outcome Z) (args : A) (mark : bytes) (tick : nat) (w : world)
    : world * option (outcome (mt * nat)) :=
    match fuel with
    | O => (w, None)
    | S fuel =>
        match transaction_page t builder args mark tick w with
        | (w1, Err) => (w1, Some Err)
        | (w1, Panic) => (w1, Some Panic)
        | (w1, Ok (tx, tick1, [])) => (w1, Some (Ok (tx, tick1)))
        | (w1, Ok (tx, tick1, c)) =>
            match transaction_pages fuel t builder args c tick1 w1 with
            | (w2, Some (Ok (msg, tick2))) => (w2, Some (Ok (merge sort (clock tick2) [msg; tx], S tick2)))
            | r => r
            end
        end
    end.
  (** client.go:130-148 AccountTransactions and 154-172 SepaAccountTransactions *)
  Definition transactions (fuel : nat) (t : topic) (builder : list Z -> outcome Z) (args : A) (mark : bytes) (tick : nat) (w : world)
    : world * option (outcome (list Tx)) :=
    match client_init w with
    | (w1, Err) => (w1, Some Err)
    | (w1, Panic) => (w1, Some Panic)
    | (w1, Ok _) =>
        match transaction_pages fuel t builder args mark tick w1 with
        | (w2, None) => (w2, None)
        | (w2, Some r) => (w2, Some (do p <- r; read_mt940 (mt_data (fst p))))
        end
    end.
  Definition account_transactions (fuel : nat) := transactions fuel TTransactions transaction_builder.
  Definition sepa_account_transactions (fuel : nat) := transactions fuel TSepaTransactions sepa_transaction_builder.

  (** client.go:220-237 AccountInformation; the result is what it prints: the first
      segment whose bytes begin with the ID (message/decryption.go:68-70,
      segment/extractor.go FindSegment). *)
  Definition account_information (args : A) : act bytes :=
    client_init ;;
    m <-- send (mkJob TInformation 1 args []);
    match find (has_prefix (B "HIKIF")) (bm_raw m) with None => lift Err | Some s => ret s end.

  (** client.go:340-362 Status; a segment of another kind panics *)
  Definition status (args : A) (mark : bytes) : act (list St) :=
    client_init ;;
    d <-- get;
    v <-- lift (build (d_supported d) (B "HIPRO") status_builder);
    m <-- send (mkJob TStatus v args mark);
    lift (all_ok (fun s => match s with OSeg raw => status_in raw | _ => Panic end) (find_segs m (B "HIPRO"))).
End Client.

(** The calls a user of a client can make; [fuel] bounds the pages of one call that
    are looked at, [tick] is the number of readings of the clock before it. *)
Inductive ccall {A : Type} :=
| CAccounts | CBalances (args : A) | CSepaBalances (fuel : nat) (args : A) (mark : bytes)
| CTransactions (fuel : nat) (args : A) (mark : bytes) (tick : nat)
| CSepaTransactions (fuel : nat) (args : A) (mark : bytes) (tick : nat)
| CInformation (args : A) | CStatus (args : A) (mark : bytes).
Arguments ccall : clear implicits.
Section Calls.
  Context {A Acc Bal SBal St Tx : Type}.
  Notation J := (job A).
  Variable sign_ok : list (entry J) -> request J -> outcome unit.
  Variable compose : list (entry J) -> request J -> outcome bytes.
  Variable bank : list (entry J) -> outcome bytes.
  Variable others : bytes -> Z -> option (bytes -> outcome (oseg Acc)).
  Variable pick : list (entry J) -> nat.
  Variable balance_in : bytes -> outcome Bal.
  Variable sepa_balance_in : bytes -> outcome SBal.
  Variable booked_in : bytes -> outcome bytes.
  Variable status_in : bytes -> outcome St.
  Variable read_mt940 : bytes -> outcome (list Tx).
  Variable sort : list mt -> list mt.
  Variable clock : nat -> Z.
  (** client.go:74-91: a dialog whose PIN is set *)
  Definition new_client (user pin : bytes) : @world J Acc := fst (set_pin pin (mkW (new_dialog user) [])).
  Definition run_ccall (c : ccall A) (w : @world J Acc) : @world J Acc :=
    match c with
    | CAccounts => fst (accounts sign_ok compose bank others pick w)
    | CBalances a => fst (account_balances sign_ok compose bank others pick balance_in a w)
    | CSepaBalances n a mark => fst (sepa_account_balances sign_ok compose bank others pick sepa_balance_in n a mark w)
    | CTransactions n a mark tick => fst (account_transactions sign_ok compose bank others pick booked_in read_mt940 sort clock n a mark tick w)
    | CSepaTransactions n a mark tick => fst (sepa_account_transactions sign_ok compose bank others pick booked_in read_mt940 sort clock n a mark tick w)
    | CInformation a => fst (account_information sign_ok compose bank others pick a w)
    | CStatus a mark => fst (status sign_ok compose bank others pick status_in a mark w)
    end.
  Fixpoint run_ccalls (cs : list (ccall A)) (w : @world J Acc) : @world J Acc :=
    match cs with [] => w | c :: r => run_ccalls r (run_ccall c w) end.
End Calls.
