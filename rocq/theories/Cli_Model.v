(** * Model of the command line program

    cmd/banking: root.go, accounts.go, balances.go, transactions.go.  What cobra and viper
    make of flags, environment and configuration file is given. *)
From Verif Require Import Base Codec_Model Wire_Model Message_Model Dialog_Model Merge_Model Client_Model Time_Model
  Iban_Model Bank_Model Seg_Model Mt940_Model Request_Model Error_Model Print_Model.
Open Scope Z_scope.

(** ** time.Time.AddDate(0, 0, n): Go's src/time/time.go, Date and absDate.  The number of a
    day, counted from 1 January of the year 1; the month may be out of range only as far as
    it is here: never. *)
Definition days_before_year (y : Z) : Z := let p := y - 1 in 365 * p + p / 4 - p / 100 + p / 400.
(** daysBefore, for years that are not leap years *)
Definition days_before_month (m : Z) : Z := nth (Z.to_nat (m - 1)) [0; 31; 59; 90; 120; 151; 181; 212; 243; 273; 304; 334; 365] 0.
Definition day_number (d : date) : Z :=
  days_before_year (d_year d) + days_before_month (d_month d) + (if is_leap (d_year d) && (3 <=? d_month d) then 1 else 0) + (d_day d - 1).
(** absDate: cycles of 400, 100, 4 years and years, the day of the year, the month *)
Definition civil (n : Z) : date :=
  let n400 := n / 146097 in let d := n mod 146097 in
  let n100 := d / 36524 in let n100 := n100 - n100 / 4 in let d := d - 36524 * n100 in
  let n4 := d / 1461 in let d := d - 1461 * n4 in
  let n1 := d / 365 in let n1 := n1 - n1 / 4 in let d := d - 365 * n1 in
  let y := 400 * n400 + 100 * n100 + 4 * n4 + n1 + 1 in
  if is_leap y && (d =? 59) then mkDate y 2 29
  else
    let d := if is_leap y && (59 <? d) then d - 1 else d in
    let m := d / 31 + 1 in
    let '(m, first) := if days_before_month (m + 1) <=? d then (m + 1, days_before_month (m + 1)) else (m, days_before_month m) in
    mkDate y m (d - first + 1).
(** The day [n] days after [d].  The time of day, which is cut off afterwards
    (domain/time.go:18-25), is not modelled. *)
Definition add_days (d : date) (n : Z) : date := civil (day_number d + n).

(** ** The program *)
(** What the flags and the configuration say (cmd/banking/root.go:70-75). *)
Record settings := mkSettings { st_url : bytes; st_user : bytes; st_blz : bytes; st_pin : bytes }.
(** The subcommands with their flags: --accountID, --disableSepa, --daysToFetch. *)
Inductive command :=
| CmdAccounts
| CmdBalances (account : bytes) (disable_sepa : bool)
| CmdTransactions (account : bytes) (disable_sepa : bool) (days : Z).
(** How it ends: os.Exit or the end of main, with what it printed; a panic; not at all
    (within the pages that are looked at). *)
Inductive ending := Exit (code : Z) (printed : bytes) | Crash | Endless.

Section Program.
  Context {F : Type}.
  Notation J := (job args).
  Notation Acc := (Seg_Model.account_information F).
  Notation world := (@world J Acc).
  Variable sign_ok : list (entry J) -> request J -> outcome unit.
  Variable compose : list (entry J) -> request J -> outcome bytes.
  Variable bank : list (entry J) -> outcome bytes.
  Variable others : bytes -> Z -> option (bytes -> outcome (oseg Acc)).
  Variable pick : list (entry J) -> nat.
  Variable sign_why : list (entry J) -> request J -> bytes.
  Variable compose_why : list (entry J) -> request J -> bytes.
  Variable bank_why : list (entry J) -> bytes.
  Variable read_why : bytes -> bytes.
  Variable quote : bytes -> bytes.
  Variable balance_in : bytes -> outcome (account_balance F account_connection).
  Variable sepa_balance_in : bytes -> outcome (account_balance F intl_connection).
  Variable booked_in : bytes -> outcome bytes.
  Variable read_mt940 : bytes -> outcome (list (@tx F)).
  Variable mt940_why : bytes -> bytes.
  Variable sort : list mt -> list mt.
  Variable clock : nat -> Z.
  Variable fixed2 : F -> bytes.
  Variable nonzero : F -> bool.
  Variable day : Z -> bytes.
  (** bankinfo's table *)
  Variable table : list bank_info.
  (** The errors of client.New and iban.NewGerman. *)
  Variable config_why iban_why : bytes.
  (** "Using config file: ..." or nothing (cmd/banking/root.go:131-133) *)
  Variable greeting : bytes.
  (** time.Now(), as a date *)
  Variable today : date.

  (** cmd/banking/root.go:85-90 *)
  Definition missing_flags (s : settings) : list bytes :=
    (match st_user s with [] => [B """userID"""] | _ => [] end) ++ (match st_blz s with [] => [B """blz"""] | _ => [] end).
  (** fmt.Println(err); os.Exit(1) *)
  Definition fail (text : bytes) : ending := Exit 1 (greeting ++ text ++ [Error_Model.nl]).
  Definition finish {A} (show : A -> bytes) (r : option (result A)) : ending :=
    match r with
    | None => Endless
    | Some (ROk a) => Exit 0 (greeting ++ show a)
    | Some (RErr t) => fail t
    | Some RPanic => Crash
    end.
  Definition or_user (s : settings) (account : bytes) : bytes := match account with [] => st_user s | a => a end.

  (** The Run functions on a new client: what was sent, and the ending. *)
  Definition run_command (fuel : nat) (s : settings) (c : command) : list (entry J) * ending :=
    let w : world := Client_Model.new_client (st_user s) (st_pin s) in
    match c with
    | CmdAccounts =>
        (* cmd/banking/accounts.go:35-42 *)
        let '(w, r) := t_accounts sign_ok compose bank others pick sign_why compose_why bank_why read_why quote w in
        (w_sent w, finish (fun l => infos_string fixed2 (map (fun a => (a, None)) l)) (Some r))
    | CmdBalances account disable_sepa =>
        (* cmd/banking/balances.go:39-70 *)
        let account := or_user s account in
        match new_german (st_blz s) account with
        | Err => ([], fail iban_why)
        | Panic => ([], Crash)
        | Ok iban =>
            let a := mkIC iban (bi_bic (find_by_bank_id table (st_blz s))) account [] (mkBank 280 (st_blz s)) in
            if disable_sepa then
              let '(w, r) := t_account_balances sign_ok compose bank others pick sign_why compose_why bank_why read_why quote balance_in
                               (AAccount (to_account_connection a) true) w in
              (w_sent w, finish (fun l => balances_string fixed2 nonzero day l ++ [Error_Model.nl]) (Some r))
            else
              let '(w, r) := t_sepa_account_balances sign_ok compose bank others pick sign_why compose_why bank_why read_why quote sepa_balance_in
                               fuel (ASepa a true) [] w in
              (w_sent w, finish (fun l => sepa_balances_string fixed2 nonzero day l ++ [Error_Model.nl]) r)
        end
    | CmdTransactions account disable_sepa days =>
        (* cmd/banking/transactions.go:42-86 *)
        let account := or_user s account in
        let tf := mkTf (add_days today (- days)) zero_date in
        match new_german (st_blz s) account with
        | Err => ([], fail iban_why)
        | Panic => ([], Crash)
        | Ok iban =>
            let a := mkIC iban [] account [] (mkBank 280 (st_blz s)) in
            if disable_sepa then
              let '(w, r) := t_account_transactions sign_ok compose bank others pick sign_why compose_why bank_why read_why quote booked_in
                               read_mt940 mt940_why sort clock fuel (ARange (to_account_connection a) tf false) [] 0%nat w in
              (w_sent w, finish (transactions_string fixed2) r)
            else
              let '(w, r) := t_sepa_account_transactions sign_ok compose bank others pick sign_why compose_why bank_why read_why quote booked_in
                               read_mt940 mt940_why sort clock fuel (ASepaRange a tf false) [] 0%nat w in
              (w_sent w, finish (transactions_string fixed2) r)
        end
    end.

  (** cmd/banking/root.go:81-108 initClient, then the command *)
  Definition banking (fuel : nat) (s : settings) (c : command) : list (entry J) * ending :=
    match missing_flags s with
    | [] =>
        match client_new table (mkCfg (st_blz s) (st_user s) (st_pin s) (st_url s) 0 [] []) with
        | Ok _ => run_command fuel s c
        | Err => ([], fail config_why)
        | Panic => ([], Crash)
        end
    | m => ([], Exit 1 (greeting ++ B "Error: required flag(s) " ++ join (B ", ") m ++ B " not set" ++ [Error_Model.nl]))
    end.
End Program.
