(** * What the command line program should do: the calendar, and whose account it asks for *)
From Verif Require Import Base Codec_Model Codec_Spec Time_Model Dialog_Model Dialog_Spec Client_Model Iban_Model Bank_Model Bank_Spec Seg_Model Request_Model Cli_Model.
Open Scope Z_scope.

(** A day of the calendar, of any year. *)
Definition calendar_day (d : date) : Prop := 1 <= d_month d <= 12 /\ 1 <= d_day d <= month_length (d_year d) (d_month d).
(** The day after. *)
Definition tomorrow (d : date) : date :=
  if d_day d <? month_length (d_year d) (d_month d) then mkDate (d_year d) (d_month d) (d_day d + 1)
  else if d_month d <? 12 then mkDate (d_year d) (d_month d + 1) 1
  else mkDate (d_year d + 1) 1 1.
Fixpoint days_later (n : nat) (d : date) : date := match n with O => d | S n => tomorrow (days_later n d) end.

(** ** What a command asks for *)
(** The account of a command: the given one, or the user ID. *)
Definition account_of (s : settings) (given account : bytes) : Prop :=
  given <> [] /\ account = given \/ given = [] /\ account = st_user s.
(** The day [n] days before [d]; a day to come for negative numbers. *)
Definition days_ago (n : Z) (d start : date) : Prop :=
  0 <= n /\ days_later (Z.to_nat n) start = d \/ n <= 0 /\ days_later (Z.to_nat (- n)) d = start.
Section Wanted.
  Variable table : list bank_info.
  Variable today : date.
  Definition national_account (s : settings) (account : bytes) : account_connection := mkAC account [] 280 (st_blz s).
  (** The requests of a command: the topic and its arguments. *)
  Definition wanted (s : settings) (c : command) (t : topic) (a : args) : Prop :=
    match c with
    | CmdAccounts => False
    | CmdBalances given true => exists account, account_of s given account /\
        t = TBalances /\ a = AAccount (national_account s account) true
    | CmdBalances given false => exists account iban bic, account_of s given account /\
        new_german (st_blz s) account = Ok iban /\
        ((exists e, last_entry table (st_blz s) e /\ bic = bi_bic e) \/ ~ listed table (st_blz s) /\ bic = []) /\
        t = TSepaBalances /\ a = ASepa (mkIC iban bic account [] (mkBank 280 (st_blz s))) true
    | CmdTransactions given true days => exists account start, account_of s given account /\ days_ago days today start /\
        t = TTransactions /\ a = ARange (national_account s account) (mkTf start zero_date) false
    | CmdTransactions given false days => False
    end.
End Wanted.

(** The messages whose answers tell the user's accounts, synchronisations and
    initialisations, each with everything that was sent before it. *)
Fixpoint introductions {J} (h l : list (entry J)) : list (list (entry J) * entry J) :=
  match l with
  | [] => []
  | e :: r => match kind_of e with
              | KSync _ | KInit _ _ _ _ => [(h, e)]
              | _ => []
              end ++ introductions (h ++ [e]) r
  end.
