(** * C70: the command line program *)
From Verif Require Import Base BaseFacts Lexer_Model Codec_Model Codec_Spec Wire_Model Message_Model Dialog_Model Dialog_Spec Dialog_Proofs Dialog_Facts Dialog_Facts2 Dialog_Facts3 Dialog_Props
  Merge_Model Merge_Props Client_Model Client_Spec Client_Proofs Client_Facts Client_Props Time_Model
  Iban_Model Iban_Facts Iban_Props Bank_Model Bank_Spec Bank_Props Seg_Model Mt940_Model Request_Model
  Error_Model Error_Spec Error_Facts Error_Facts2 Error_Facts3 Error_Props Print_Model Cli_Model Cli_Spec Cli_Dates.
From Coq Require Import Lia ZifyBool.
Open Scope Z_scope.

(** ** The days of transactions *)
(** Going [n] days back leads to the day from which the calendar takes [n] days to today. *)
Theorem C70_start : forall today n, calendar_day today ->
  calendar_day (add_days today (- n)) /\ days_ago n today (add_days today (- n)).
Proof.
  intros d n H. unfold add_days, days_ago. split; [apply civil_number|].
  destruct (Z_le_gt_dec 0 n).
  - left. split; [lia|]. rewrite days_later_civil. rewrite Z2Nat.id by lia. replace (day_number d + - n + n) with (day_number d) by lia. now apply civil_day_number.
  - right. split; [lia|]. rewrite <- (civil_day_number d H) at 1. rewrite days_later_civil. now rewrite Z2Nat.id by lia.
Qed.
Print Assumptions C70_start.
Example C70_start_example : add_days (mkDate 2024 3 5) (-10) = mkDate 2024 2 24 /\ add_days (mkDate 2023 1 5) (-10) = mkDate 2022 12 26 /\
  calendar_day (mkDate 2024 2 29) /\ days_later 5 (mkDate 2024 2 27) = mkDate 2024 3 3.
Proof. vm_compute. intuition discriminate. Qed.

Ltac two H s := let HS := fresh in let HO := fresh in pose proof (f_equal fst H) as HS; pose proof (f_equal snd H) as HO; cbn [fst snd] in HS, HO; clear H; subst s; rename HO into H.
Section C70.
  Context {F : Type}.
  Notation J := (job args).
  Notation Acc := (Seg_Model.account_information F).
  Notation world := (@world J Acc).
  Variable sign_ok : list (entry J) -> request J -> outcome unit.
  Variable compose : list (entry J) -> request J -> outcome bytes.
  Variable bank : list (entry J) -> outcome bytes.
  Variable others : bytes -> Z -> option (bytes -> outcome (oseg Acc)).
  Variable pick : list (entry J) -> nat.
  Variable sign_why : list (entry J) -> request J -> bytes.
  Variable compose_why : list (entry J) -> request J -> bytes.
  Variable bank_why : list (entry J) -> bytes.
  Variable read_why : bytes -> bytes.
  Variable quote : bytes -> bytes.
  Variable balance_in : bytes -> outcome (account_balance F account_connection).
  Variable sepa_balance_in : bytes -> outcome (account_balance F intl_connection).
  Variable booked_in : bytes -> outcome bytes.
  Variable read_mt940 : bytes -> outcome (list (@tx F)).
  Variable mt940_why : bytes -> bytes.
  Variable sort : list mt -> list mt.
  Variable clock : nat -> Z.
  Variable fixed2 : F -> bytes.
  Variable nonzero : F -> bool.
  Variable day : Z -> bytes.
  Variable table : list bank_info.
  Variable config_why iban_why : bytes.
  Variable greeting : bytes.
  Variable today : date.
  Notation banking := (banking sign_ok compose bank others pick sign_why compose_why bank_why read_why quote balance_in sepa_balance_in booked_in
                         read_mt940 mt940_why sort clock fixed2 nonzero day table config_why iban_why greeting today).
  Notation run_command := (run_command sign_ok compose bank others pick sign_why compose_why bank_why read_why quote balance_in sepa_balance_in booked_in
                         read_mt940 mt940_why sort clock fixed2 nonzero day table iban_why greeting today).
  Notation answered := (answered bank others).
  Hypothesis Hsort : go_sort sort.
  Hypothesis Hclock : forall i j, (i < j)%nat -> clock i < clock j.
  Hypothesis Htoday : calendar_day today.

  Definition newline : bytes := [x0a].
  Definition config_of (s : settings) : config := mkCfg (st_blz s) (st_user s) (st_pin s) (st_url s) 0 [] [].

  (** ** Before anything is sent *)
  (** Without a user ID or bank code it says so, and nothing is sent. *)
  Theorem C70_missing : forall n s c, st_user s = [] \/ st_blz s = [] ->
    exists names, banking n s c = ([], Exit 1 (greeting ++ B "Error: required flag(s) " ++ names ++ B " not set" ++ newline)) /\
      (st_user s = [] -> st_blz s <> [] -> names = B """userID""") /\
      (st_user s <> [] -> st_blz s = [] -> names = B """blz""") /\
      (st_user s = [] -> st_blz s = [] -> names = B """userID"", ""blz""").
  Proof.
    intros n s c H. unfold Cli_Model.banking, missing_flags.
    destruct (st_user s) eqn:E1, (st_blz s) eqn:E2; try (destruct H; discriminate); cbn [app];
      eexists; (split; [reflexivity|]); repeat split; intros; try reflexivity; congruence.
  Qed.
  Lemma configured n s c : st_user s <> [] -> st_blz s <> [] ->
    banking n s c = match client_new table (config_of s) with Ok _ => run_command n s c | Err => ([], Exit 1 (greeting ++ config_why ++ newline)) | Panic => ([], Crash) end.
  Proof. intros H1 H2. unfold Cli_Model.banking, missing_flags. destruct (st_user s) eqn:E1, (st_blz s) eqn:E2; try contradiction. cbn [app]. unfold config_of. rewrite E1, E2. reflexivity. Qed.

  (** A bank that is not in the table: an error, even if its URL is given. *)
  Theorem C70_unknown_bank : forall n s c, st_user s <> [] -> st_blz s <> [] -> ~ listed table (st_blz s) ->
    banking n s c = ([], Exit 1 (greeting ++ config_why ++ newline)).
  Proof.
    intros n s c H1 H2 H3. rewrite configured by assumption. destruct (client_new table (config_of s)) as [k| |] eqn:E; [|reflexivity|].
    - apply C48_new in E. destruct E as ((v&[[K _]|[_ (e&He&_)]]&_)&_); [cbn in K; lia|]. now destruct H3; apply (last_entry_listed _ _ e).
    - apply C48_new_panics_iff in E. destruct E as (_&e&He&_). now destruct H3; apply (last_entry_listed _ _ e).
  Qed.

  Lemma account_of_or s given : account_of s given (or_user s given).
  Proof. unfold account_of, or_user. destruct given; [right|left]; split; congruence. Qed.
  Lemma account_of_fun s given a : account_of s given a -> a = or_user s given.
  Proof. unfold account_of, or_user. intros [[H ->]|[-> ->]]; [now destruct given|reflexivity]. Qed.

  (** An account for which there is no IBAN: an error before anything is sent, even if the
      IBAN is not needed. *)
  Theorem C70_no_iban : forall n s given account sepa days k,
    st_user s <> [] -> st_blz s <> [] -> client_new table (config_of s) = Ok k ->
    account_of s given account -> new_german (st_blz s) account = Err ->
    banking n s (CmdBalances given sepa) = ([], Exit 1 (greeting ++ iban_why ++ newline)) /\
    banking n s (CmdTransactions given sepa days) = ([], Exit 1 (greeting ++ iban_why ++ newline)).
  Proof.
    intros n s given account sepa days k H1 H2 E HA HI. apply account_of_fun in HA. subst account.
    rewrite !configured by assumption. rewrite E. unfold Cli_Model.run_command. rewrite HI. split; reflexivity.
  Qed.
  (** So a user ID of more than ten characters cannot be the account. *)
  Theorem C70_long_user_refuted : forall n s sepa days k, client_new table (config_of s) = Ok k ->
    List.length (st_blz s) = 8%nat -> (10 < List.length (st_user s))%nat ->
    banking n s (CmdBalances [] sepa) = ([], Exit 1 (greeting ++ iban_why ++ newline)) /\
    banking n s (CmdTransactions [] sepa days) = ([], Exit 1 (greeting ++ iban_why ++ newline)).
  Proof.
    intros n s sepa days k E LB LU. apply (C70_no_iban n s [] (st_user s) sepa days k); auto.
    - intros K. rewrite K in LU. cbn in LU. lia.
    - intros K. rewrite K in LB. discriminate.
    - right. auto.
    - unfold new_german, new_iban. change (negb (len (B "DE") =? 2)) with false. cbn [negb].
      change (upper (B "DE")) with (B "DE"). change (max_length (B "DE") - 4) with 18.
      assert (L : 18 < len (st_blz s ++ (if len (st_user s) =? 9 then b_zero :: st_user s else st_user s))).
      { rewrite !len_list. rewrite app_length, LB. destruct (Z.of_nat (List.length (st_user s)) =? 9); cbn [List.length]; lia. }
      destruct (len _ =? 0) eqn:E0; [reflexivity|]. now rewrite (proj2 (Z.ltb_lt _ _) L).
  Qed.

  (** ** The conversation *)
  Notation start s := (@Client_Model.new_client args Acc (st_user s) (st_pin s)).
  Lemma start_sent s : w_sent (start s) = [].
  Proof. reflexivity. Qed.
  Definition the_account (s : settings) (given bic iban : bytes) : intl_connection := mkIC iban bic (or_user s given) [] (mkBank 280 (st_blz s)).
  Lemma bic_of id : let bic := bi_bic (find_by_bank_id table id) in
    (exists e, last_entry table id e /\ bic = bi_bic e) \/ ~ listed table id /\ bic = [].
  Proof. cbv zeta. destruct (find_cases table id) as [(e&He&->)|[Hn ->]]; [left; eauto|right; auto]. Qed.
  Notation t_run := (t_run sign_ok compose bank others pick sign_why compose_why bank_why read_why quote balance_in sepa_balance_in booked_in
                       (fun _ => @Err unit) read_mt940 mt940_why sort clock).
  (** The call of a command. *)
  Definition call_of (n : nat) (s : settings) (c : command) : ccall args :=
    match c with
    | CmdAccounts => CAccounts
    | CmdBalances g d =>
        let iban := match new_german (st_blz s) (or_user s g) with Ok i => i | _ => [] end in
        let a := the_account s g (bi_bic (find_by_bank_id table (st_blz s))) iban in
        if d then CBalances (AAccount (to_account_connection a) true) else CSepaBalances n (ASepa a true) []
    | CmdTransactions g d days =>
        let iban := match new_german (st_blz s) (or_user s g) with Ok i => i | _ => [] end in
        let a := the_account s g [] iban in
        let tf := mkTf (add_days today (- days)) zero_date in
        if d then CTransactions n (ARange (to_account_connection a) tf false) [] 0 else CSepaTransactions n (ASepaRange a tf false) [] 0
    end.
  (** What its result leads to. *)
  Definition ends (r : option (result unit)) (e : ending) : Prop :=
    match r with
    | None => e = Endless
    | Some (ROk _) => exists out, e = Exit 0 (greeting ++ out)
    | Some (RErr t) => e = Exit 1 (greeting ++ t ++ newline)
    | Some RPanic => e = Crash
    end.
  Lemma finish_ends {X} (show : X -> bytes) (r : option (result X)) : ends (option_map said r) (finish greeting show r).
  Proof. destruct r as [[x|t|]|]; cbn; try reflexivity. eexists. reflexivity. Qed.
  (** Either the command stopped before, or it made its call. *)
  Lemma command_call n s c :
    (fst (run_command n s c) = [] /\ (snd (run_command n s c) = Exit 1 (greeting ++ iban_why ++ newline) \/ snd (run_command n s c) = Crash)) \/
    fst (run_command n s c) = w_sent (fst (t_run (call_of n s c) (start s))) /\ ends (snd (t_run (call_of n s c) (start s))) (snd (run_command n s c)).
  Proof.
    destruct c as [|g d|g d days]; cbn [Cli_Model.run_command call_of].
    - right. cbn [Error_Model.t_run]. destruct (t_accounts _ _ _ _ _ _ _ _ _ _ _) as [w r]. cbn [fst snd]. split; [reflexivity|]. exact (finish_ends _ (Some r)).
    - destruct (new_german (st_blz s) (or_user s g)) as [i| |]; [right|left; cbn; auto|left; cbn; auto]. fold (the_account s g (bi_bic (find_by_bank_id table (st_blz s))) i). destruct d; cbn [Error_Model.t_run].
      + destruct (t_account_balances _ _ _ _ _ _ _ _ _ _ _ _ _) as [w r]. cbn [fst snd]. split; [reflexivity|]. exact (finish_ends _ (Some r)).
      + destruct (t_sepa_account_balances _ _ _ _ _ _ _ _ _ _ _ _ _ _ _) as [w r]. cbn [fst snd]. split; [reflexivity|]. apply finish_ends.
    - destruct (new_german (st_blz s) (or_user s g)) as [i| |]; [right|left; cbn; auto|left; cbn; auto]. fold (the_account s g [] i). destruct d; cbn [Error_Model.t_run].
      + destruct (t_account_transactions _ _ _ _ _ _ _ _ _ _ _ _ _ _ _ _ _ _ _ _) as [w r]. cbn [fst snd]. split; [reflexivity|]. apply finish_ends.
      + destruct (t_sepa_account_transactions _ _ _ _ _ _ _ _ _ _ _ _ _ _ _ _ _ _ _ _) as [w r]. cbn [fst snd]. split; [reflexivity|]. apply finish_ends.
  Qed.
  (** And the program runs the command or stopped before. *)
  Lemma banking_command n s c :
    (fst (banking n s c) = [] /\ (snd (banking n s c) = Crash \/ exists t, snd (banking n s c) = Exit 1 (greeting ++ t ++ newline))) \/
    banking n s c = run_command n s c.
  Proof.
    destruct (list_eq_dec byte_eq_dec (st_user s) []) as [E1|E1];
    [|destruct (list_eq_dec byte_eq_dec (st_blz s) []) as [E2|E2]].
    - left. destruct (C70_missing n s c (or_introl E1)) as (names&->&_). split; [reflexivity|]. right. exists (B "Error: required flag(s) " ++ names ++ B " not set"). cbn [snd]. now rewrite <- !app_assoc.
    - left. destruct (C70_missing n s c (or_intror E2)) as (names&->&_). split; [reflexivity|]. right. exists (B "Error: required flag(s) " ++ names ++ B " not set"). cbn [snd]. now rewrite <- !app_assoc.
    - rewrite configured by assumption. destruct (client_new table (config_of s)); [now right|left|left]; cbn; eauto.
  Qed.

  (** It prints an error and exits with 1 if the bank reports one: whenever something is
      wrong with a message that matters (C68), the bank's answer to it above all, the text
      says what; unless the program crashes.  "accounts" may say only that it failed. *)
  Theorem C70_failed : regular others -> forall n s c before e after,
    fst (banking n s c) = before ++ e :: after -> matters before e -> troubled bank others before e ->
    snd (banking n s c) = Crash \/
    exists text, snd (banking n s c) = Exit 1 (greeting ++ text ++ newline) /\
      (tells bank others bank_why read_why quote before e text \/ c = CmdAccounts /\ text = B "error getting accounts").
  Proof.
    intros Hreg n s c before e after E M T.
    destruct (banking_command n s c) as [[K _]|K]; [rewrite K in E; now destruct before|]. rewrite K in *. clear K.
    destruct (command_call n s c) as [[K _]|[K1 K2]]; [rewrite K in E; now destruct before|]. rewrite K1 in E.
    assert (R : exists r, snd (t_run (call_of n s c) (start s)) = Some r /\
                (told bank others bank_why read_why quote before e r \/ c = CmdAccounts /\ r = RErr (B "error getting accounts"))).
    { destruct c as [|g d|g d days].
      - destruct (C68_accounts sign_ok compose bank others pick sign_why compose_why bank_why read_why quote balance_in sepa_balance_in booked_in
                    (fun _ => @Err unit) read_mt940 mt940_why sort clock Hreg (start s) before e after E M T) as (r&R1&[R2|R2]); exists r; auto.
      - assert (N : call_of n s (CmdBalances g d) <> CAccounts) by (cbn; destruct d; discriminate).
        destruct (C68_client_calls sign_ok compose bank others pick sign_why compose_why bank_why read_why quote balance_in sepa_balance_in booked_in
                    (fun _ => @Err unit) read_mt940 mt940_why sort clock Hreg _ (start s) before e after N E M T) as (r&R1&R2). exists r; auto.
      - assert (N : call_of n s (CmdTransactions g d days) <> CAccounts) by (cbn; destruct d; discriminate).
        destruct (C68_client_calls sign_ok compose bank others pick sign_why compose_why bank_why read_why quote balance_in sepa_balance_in booked_in
                    (fun _ => @Err unit) read_mt940 mt940_why sort clock Hreg _ (start s) before e after N E M T) as (r&R1&R2). exists r; auto. }
    destruct R as (r&R1&R2). rewrite R1 in K2. destruct r as [x|t|]; cbn [ends] in K2.
    - destruct R2 as [[]|[_ R2]]; discriminate.
    - right. exists t. split; [exact K2|]. destruct R2 as [R2|[R2 R3]]; [left; exact R2|right]. split; [exact R2|congruence].
    - now left.
  Qed.

  Lemma list_nil_dec {X} (l : list X) : {l = []} + {l <> []}.
  Proof. destruct l; [now left|right; discriminate]. Qed.

  (** ** What is asked for *)
  Lemma jobs_of_balances (ag : args) (w : world) : exists new,
    w_sent (fst (account_balances sign_ok compose bank others pick balance_in ag w)) = w_sent w ++ new /\
    Forall (fun x => asks TBalances ag [] x) (jobs (w_sent w) new).
  Proof.
    unfold account_balances. destruct (client_init_jobs sign_ok compose bank others pick w) as [new0 [E0 N0]].
    destruct (client_init sign_ok compose bank others pick w) as [w0 r0] eqn:EI. cbn [fst] in E0.
    assert (X : exists new, w_sent w0 = w_sent w ++ new /\ Forall (fun x => asks TBalances ag [] x) (jobs (w_sent w) new)).
    { exists new0. split; [exact E0|]. rewrite N0. constructor. }
    destruct r0 as [[]| |]; [rewrite (Dialog_Facts3.bind_ok _ _ _ _ _ EI)|rewrite (bind_err _ _ _ _ EI); exact X|rewrite (bind_panic _ _ _ _ EI); exact X].
    rewrite bind_get, bind_lift. destruct (build (d_supported (w_d w0)) (B "HISALS") balance_builder) as [v| |]; [|exact X|exact X].
    destruct (send_jobs sign_ok compose bank others pick (mkJob TBalances v ag []) w0) as [new [E H]].
    match goal with |- context [bind _ ?f w0] => set (k := f) end.
    assert (Q : forall m w1, fst (k m w1) = w1).
    { intros m w1. unfold k, bind, lift. destruct (read_segs balance_in (find_segs m (B "HISAL"))) as [[|b bs]| |]; reflexivity. }
    exists (new0 ++ new). split.
    - rewrite app_assoc, <- E0, <- E. unfold bind. destruct (send_message sign_ok compose bank others pick (mkJob TBalances v ag []) w0) as [w1 [m| |]]; cbn [fst]; [rewrite Q|..]; reflexivity.
    - rewrite jobs_app, N0, <- E0. cbn [app]. destruct H as [[H _]|[h' [e' [H [He _]]]]]; rewrite H; [constructor|]. constructor; [|constructor]. exists v. exact He.
  Qed.
  Lemma jobs_of_transactions n (ag : args) mark tick (w : world) : exists new,
    w_sent (fst (account_transactions sign_ok compose bank others pick booked_in read_mt940 sort clock n ag mark tick w)) = w_sent w ++ new /\
    Forall (fun x => exists c, asks TTransactions ag c x) (jobs (w_sent w) new).
  Proof.
    unfold account_transactions, transactions. destruct (client_init_jobs sign_ok compose bank others pick w) as [new0 [E0 N0]].
    destruct (client_init sign_ok compose bank others pick w) as [w1 [[]| |]]; cbn [fst snd] in *;
      try (exists new0; split; [exact E0|rewrite N0; constructor]).
    destruct (transaction_steps sign_ok compose bank others pick sepa_balance_in booked_in sort clock Hsort Hclock n TTransactions transaction_builder ag mark tick w1)
      as [r [[new [E [[L1 L2] _]]] _]].
    exists (new0 ++ new). split.
    - rewrite app_assoc, <- E0, <- E. destruct (transaction_pages _ _ _ _ _ _ _ _ n _ _ ag mark tick w1) as [w2 [[[m k]| |]|]]; reflexivity.
    - rewrite jobs_app, N0, <- E0. cbn [app]. eapply Forall_impl; [|exact L1]. intros x Hx. eexists. exact Hx.
  Qed.

  Lemma jobs_of_accounts (w : world) : exists new,
    w_sent (fst (accounts sign_ok compose bank others pick w)) = w_sent w ++ new /\ forall h, jobs h new = [].
  Proof.
    unfold accounts. destruct (client_init_jobs sign_ok compose bank others pick w) as [new0 [E0 N0]].
    destruct (client_init sign_ok compose bank others pick w) as [w0 r0] eqn:EI. cbn [fst] in E0.
    destruct r0 as [[]| |]; [rewrite (Dialog_Facts3.bind_ok _ _ _ _ _ EI)|rewrite (bind_err _ _ _ _ EI); exists new0; auto|rewrite (bind_panic _ _ _ _ EI); exists new0; auto].
    assert (X : exists new, w_sent (fst (sync_user_data sign_ok compose bank others pick w0)) = w_sent w0 ++ new /\ forall h, jobs h new = []).
    { destruct (sync_user_summary sign_ok compose bank others pick w0) as [[H1 H2]|[h [D [ends [H1 [H2 [H3 H4]]]]]]].
      - destruct H2 as [[pre [E [P|[q [_ [_ P]]]]]]|[pre [i [P [E [I _]]]]]].
        + exists pre. split; [exact E|]. apply jobs_none. eapply prelude_no_jobs; exact P.
        + exists pre. split; [exact E|]. apply jobs_none. eapply prelude_no_jobs; exact P.
        + exists (pre ++ [i]). split; [exact E|]. apply jobs_none. apply Forall_app.
          split; [eapply prelude_no_jobs; exact P|]. repeat constructor. apply init_no_job. exact I.
      - destruct H1 as [pre [i [m [P1 [-> [P2 _]]]]]].
        assert (Ee : forall h, jobs h ends = []).
        { apply jobs_none. apply ended_any in H3. destruct H3 as [q [Q1 [_ [_ H3]]]].
          destruct H3 as [[-> _]|[be [-> _]]]; constructor; [|constructor]. cbn. unfold kind_of. cbn. rewrite Q1. intros [? K]. discriminate. }
        assert (Ep : forall h, jobs h (pre ++ [i]) = []).
        { apply jobs_none. apply Forall_app. split; [eapply prelude_no_jobs; exact P1|]. repeat constructor. apply init_no_job. exact P2. }
        exists ((pre ++ [i]) ++ ends). split; [rewrite H2, <- !app_assoc; reflexivity|]. intros h. now rewrite jobs_app, Ep, Ee. }
    destruct X as (new&E&N). exists (new0 ++ new). split; [|intros h; now rewrite jobs_app, N0, N].
    rewrite app_assoc, <- E0, <- E. unfold bind, get, ret. destruct (sync_user_data sign_ok compose bank others pick w0) as [w1 [[]| |]]; reflexivity.
  Qed.

  (** All that is asked for in the conversation, whatever the outcome: the balances or
      transactions of the account in the configured bank; balances with the wish for all
      accounts; transactions from the given number of days back, without an end. *)
  Theorem C70_asked : forall n s c,
    Forall (fun x => exists t a mark, wanted table today s c t a /\ asks t a mark x) (jobs [] (fst (banking n s c))).
  Proof.
    intros n s c. destruct (banking_command n s c) as [[K _]|K]; [rewrite K; constructor|]. rewrite K. clear K.
    assert (HI : forall g, c = CmdBalances g false -> is_ok (new_german (st_blz s) (or_user s g)) \/ fst (run_command n s c) = []).
    { intros g ->. cbn [Cli_Model.run_command]. destruct (new_german (st_blz s) (or_user s g)) as [i| |]; [left; eexists; reflexivity|right; reflexivity|right; reflexivity]. }
    destruct (command_call n s c) as [[K _]|[K1 _]]; [rewrite K; constructor|]. 
    destruct (list_nil_dec (fst (run_command n s c))) as [K|K]; [rewrite K; constructor|].
    assert (HI' : forall g, c = CmdBalances g false -> is_ok (new_german (st_blz s) (or_user s g))) by (intros g X; destruct (HI g X); [assumption|contradiction]).
    clear HI K. rename HI' into HI. rewrite K1. clear K1.
    assert (S : fst (t_run (call_of n s c) (start s)) =
                run_ccall sign_ok compose bank others pick balance_in sepa_balance_in booked_in (fun _ => @Err unit) read_mt940 sort clock (call_of n s c) (start s))
      by apply (C68_same_client_calls sign_ok compose bank others pick sign_why compose_why bank_why read_why quote balance_in sepa_balance_in booked_in (fun _ => @Err unit) read_mt940 mt940_why sort clock).
    rewrite S. clear S. pose proof (start_sent s) as S0.
    assert (G : forall new (w w' : world), w = start s -> w_sent w' = w_sent w ++ new -> w_sent w' = new) by (intros new w w' -> H; exact H).
    destruct c as [|g d|g d days]; cbn [call_of Client_Model.run_ccall].
    - destruct (jobs_of_accounts (start s)) as (new&E&N). rewrite E, S0. cbn [app]. rewrite N. constructor.
    - destruct d; cbn [Client_Model.run_ccall].
      + destruct (jobs_of_balances (AAccount (to_account_connection (the_account s g (bi_bic (find_by_bank_id table (st_blz s))) (match new_german (st_blz s) (or_user s g) with Ok i => i | _ => [] end))) true) (start s))
          as (new&E&N). rewrite E, S0. cbn [app]. rewrite S0 in N. eapply Forall_impl; [|exact N]. intros x Hx. eexists _, _, _. split; [|exact Hx].
        exists (or_user s g). split; [apply account_of_or|]. split; reflexivity.
      + destruct (new_german (st_blz s) (or_user s g)) as [i| |] eqn:EI; [|destruct (HI g eq_refl) as [? X]; rewrite EI in X; discriminate X..].
        destruct (C29_requests sign_ok compose bank others pick sepa_balance_in booked_in clock n (ASepa (the_account s g (bi_bic (find_by_bank_id table (st_blz s))) i) true) [] (start s))
          as (new&E&N&_). rewrite E, S0. cbn [app]. rewrite S0 in N. eapply Forall_impl; [|exact N]. intros x [m Hx]. eexists _, _, _. split; [|exact Hx].
        exists (or_user s g), i, (bi_bic (find_by_bank_id table (st_blz s))). split; [apply account_of_or|]. split; [exact EI|]. split; [apply bic_of|]. split; reflexivity.
    - destruct d; cbn [Client_Model.run_ccall].
      + destruct (jobs_of_transactions n (ARange (to_account_connection (the_account s g [] (match new_german (st_blz s) (or_user s g) with Ok i => i | _ => [] end)))
                    (mkTf (add_days today (- days)) zero_date) false) [] 0 (start s))
          as (new&E&N). rewrite E, S0. cbn [app]. rewrite S0 in N. eapply Forall_impl; [|exact N]. intros x [m Hx]. eexists _, _, _. split; [|exact Hx].
        exists (or_user s g), (add_days today (- days)). split; [apply account_of_or|]. split; [now apply C70_start|]. split; reflexivity.
      + match goal with |- context [sepa_account_transactions _ _ _ _ _ _ _ _ _ n ?a ?m ?k _] =>
          destruct (C30_sepa_transactions_client sign_ok compose bank others pick booked_in read_mt940 sort clock n a m k (start s) []) as (_&new&E&N) end.
        rewrite E, S0. cbn [app]. rewrite S0 in N. rewrite N. constructor.
  Qed.

  (** ** What is printed *)
  Lemma exit_run n s c sent out : banking n s c = (sent, Exit 0 out) -> run_command n s c = (sent, Exit 0 out).
  Proof.
    intros H. destruct (banking_command n s c) as [[_ [K|[t K]]]|K]; [rewrite H in K; discriminate..|]. now rewrite <- K.
  Qed.
  Lemma finish_ok {X} (show : X -> bytes) (r : option (result X)) out : finish greeting show r = Exit 0 out ->
    exists x, option_map plain r = Some (Ok x) /\ out = greeting ++ show x.
  Proof. destruct r as [[x|t|]|]; cbn; intros H; try discriminate. injection H as <-. eauto. Qed.

  (** balances without SEPA: exit code 0 only if the bank answered the one request without
      an error; then the table of the balances in its answer was printed. *)
  Theorem C70_balances : forall n s g sent out, banking n s (CmdBalances g true) = (sent, Exit 0 out) ->
    exists account j m bals, account_of s g account /\ jobs [] sent = [j] /\ asks TBalances (AAccount (national_account s account) true) [] j /\
      answered (fst j) (snd j) m /\ ~ has_error m /\ contents balance_in (B "HISAL") m bals /\ bals <> [] /\
      out = greeting ++ balances_string fixed2 nonzero day bals ++ newline.
  Proof.
    intros n s g sent out H. apply exit_run in H. cbn [Cli_Model.run_command] in H.
    destruct (new_german (st_blz s) (or_user s g)) as [i| |]; [|discriminate..]. fold (the_account s g (bi_bic (find_by_bank_id table (st_blz s))) i) in H.
    set (ag := AAccount (to_account_connection (the_account s g (bi_bic (find_by_bank_id table (st_blz s))) i)) true) in *.
    pose proof (same_balances sign_ok compose bank others pick sign_why compose_why bank_why read_why quote balance_in ag (start s)) as S. unfold erase in S.
    destruct (t_account_balances _ _ _ _ _ _ _ _ _ _ _ ag (start s)) as [w r]. cbn [fst snd] in *. two H sent.
    apply finish_ok in H. destruct H as (bals&H&->). cbn in H. injection H as H.
    destruct (C50_balances sign_ok compose bank others pick balance_in ag (start s) bals ltac:(rewrite <- S; exact H)) as (new&j&m&E&E1&E2&E3&E4&E5&E6).
    rewrite <- S in E. cbn [fst] in E. rewrite (start_sent s) in E. cbn [app] in E.
    exists (or_user s g), j, m, bals. split; [apply account_of_or|]. split; [rewrite E; exact E1|]. repeat (split; [assumption|]). reflexivity.
  Qed.
  (** balances: the same with SEPA, with all pages of the answer. *)
  Theorem C70_sepa_balances : forall n s g sent out, banking n s (CmdBalances g false) = (sent, Exit 0 out) ->
    exists ms pages,
      Forall2 (fun x m => answered (fst x) (snd x) m /\ ~ has_error m) (jobs [] sent) ms /\
      Forall2 (fun m bs => contents sepa_balance_in (B "HISAL") m bs /\ bs <> []) ms pages /\
      (exists before last, ms = before ++ [last] /\ continues last []) /\
      out = greeting ++ sepa_balances_string fixed2 nonzero day (List.concat pages) ++ newline.
  Proof.
    intros n s g sent out H. apply exit_run in H. cbn [Cli_Model.run_command] in H.
    destruct (new_german (st_blz s) (or_user s g)) as [i| |]; [|discriminate..]. fold (the_account s g (bi_bic (find_by_bank_id table (st_blz s))) i) in H.
    set (ag := ASepa (the_account s g (bi_bic (find_by_bank_id table (st_blz s))) i) true) in *.
    pose proof (same_sepa_balances sign_ok compose bank others pick sign_why compose_why bank_why read_why quote sepa_balance_in n ag [] (start s)) as S. unfold erase_pages in S.
    destruct (t_sepa_account_balances _ _ _ _ _ _ _ _ _ _ _ n ag [] (start s)) as [w r]. cbn [fst snd] in *. two H sent.
    apply finish_ok in H. destruct H as (bals&H&->).
    destruct (C29_result sign_ok compose bank others pick sepa_balance_in booked_in clock n ag [] (start s) bals ltac:(rewrite <- S; exact H)) as (new&ms&pages&E&E1&E2&->&E4).
    rewrite <- S in E. cbn [fst] in E. rewrite (start_sent s) in E. cbn [app] in E.
    exists ms, pages. split; [rewrite E; exact E1|]. repeat (split; [assumption|]). reflexivity.
  Qed.
  (** transactions without SEPA. *)
  Theorem C70_transactions : forall n s g days sent out, banking n s (CmdTransactions g true days) = (sent, Exit 0 out) ->
    exists ms pages txs,
      Forall2 (fun x m => answered (fst x) (snd x) m /\ ~ has_error m) (jobs [] sent) ms /\
      Forall2 (contents booked_in (B "HIKAZ")) ms pages /\
      (exists before last, ms = before ++ [last] /\ continues last []) /\
      read_mt940 (List.concat (List.concat pages)) = Ok txs /\ out = greeting ++ transactions_string fixed2 txs.
  Proof.
    intros n s g days sent out H. apply exit_run in H. cbn [Cli_Model.run_command] in H.
    destruct (new_german (st_blz s) (or_user s g)) as [i| |]; [|discriminate..]. fold (the_account s g [] i) in H.
    set (ag := ARange (to_account_connection (the_account s g [] i)) (mkTf (add_days today (- days)) zero_date) false) in *. unfold t_account_transactions in H.
    pose proof (same_transactions sign_ok compose bank others pick sign_why compose_why bank_why read_why quote booked_in read_mt940 mt940_why sort clock n (B "account transaction")
                  TTransactions transaction_builder ag [] 0 (start s)) as S. unfold erase_pages in S.
    destruct (t_transactions _ _ _ _ _ _ _ _ _ _ _ _ _ _ _ n _ _ _ ag [] 0 (start s)) as [w r]. cbn [fst snd] in *. two H sent.
    apply finish_ok in H. destruct H as (txs&H&->).
    assert (S1 : account_transactions sign_ok compose bank others pick booked_in read_mt940 sort clock n ag [] 0 (start s) = (w, option_map plain r)) by (symmetry; exact S).
    destruct (C29_transactions sign_ok compose bank others pick sepa_balance_in booked_in read_mt940 sort clock n ag [] 0 (start s) txs Hsort Hclock ltac:(rewrite S1; exact H))
      as (new&ms&pages&E&_&_&E1&E2&E3&E4). rewrite S1 in E. cbn [fst] in E. rewrite (start_sent s) in E. cbn [app] in E.
    exists ms, pages, txs. split; [rewrite E; exact E1|]. repeat (split; [assumption|]). reflexivity.
  Qed.
  (** Transactions with SEPA, the default, never succeed. *)
  Theorem C70_sepa_transactions_refuted : forall n s g days sent out, banking n s (CmdTransactions g false days) <> (sent, Exit 0 out).
  Proof.
    intros n s g days sent out H. apply exit_run in H. cbn [Cli_Model.run_command] in H.
    destruct (new_german (st_blz s) (or_user s g)) as [i| |]; [|discriminate..]. fold (the_account s g [] i) in H.
    set (ag := ASepaRange (the_account s g [] i) (mkTf (add_days today (- days)) zero_date) false) in *. unfold t_sepa_account_transactions in H.
    pose proof (same_transactions sign_ok compose bank others pick sign_why compose_why bank_why read_why quote booked_in read_mt940 mt940_why sort clock n (B "sepa account transaction")
                  TSepaTransactions sepa_transaction_builder ag [] 0 (start s)) as S. unfold erase_pages in S.
    destruct (t_transactions _ _ _ _ _ _ _ _ _ _ _ _ _ _ _ n _ _ _ ag [] 0 (start s)) as [w r]. cbn [fst snd] in *. two H sent.
    apply finish_ok in H. destruct H as (txs&H&->).
    apply (proj1 (C30_sepa_transactions_client sign_ok compose bank others pick booked_in read_mt940 sort clock n ag [] 0 (start s) txs)).
    unfold sepa_account_transactions. rewrite <- S. exact H.
  Qed.
  (** accounts: the accounts in the answers to all synchronisations and initialisations. *)
  Lemma introductions_app {X} (l1 : list (entry X)) : forall h l2, introductions h (l1 ++ l2) = introductions h l1 ++ introductions (h ++ l1) l2.
  Proof.
    induction l1 as [|e l1 IH]; intros h l2; [cbn; now rewrite app_nil_r|]. cbn [app introductions]. rewrite IH. rewrite <- (app_assoc h [e] l1). now rewrite app_assoc.
  Qed.
  Theorem C70_accounts : forall n s sent out, banking n s CmdAccounts = (sent, Exit 0 out) ->
    exists ms, Forall2 (fun x m => answered (fst x) (snd x) m) (introductions [] sent) ms /\
      out = greeting ++ infos_string fixed2 (map (fun a => (a, None)) (flat_map reported ms)).
  Proof.
    intros n s sent out H. apply exit_run in H. cbn [Cli_Model.run_command] in H.
    pose proof (same_accounts sign_ok compose bank others pick sign_why compose_why bank_why read_why quote (start s)) as S. unfold erase in S.
    destruct (t_accounts _ _ _ _ _ _ _ _ _ _ (start s)) as [w r]. cbn [fst snd] in *. two H sent.
    apply finish_ok in H. destruct H as (accs&H&->). cbn in H. injection H as H. rewrite H in S. symmetry in S. clear H r.
    unfold accounts in S. destruct (client_init sign_ok compose bank others pick (start s)) as [w1 r1] eqn:EI.
    destruct r1 as [[]| |]; [|rewrite (bind_err _ _ _ _ EI) in S; discriminate|rewrite (bind_panic _ _ _ _ EI) in S; discriminate].
    rewrite (Dialog_Facts3.bind_ok _ _ _ _ _ EI) in S.
    unfold client_init in EI. rewrite bind_get in EI. change (d_bpd_version (w_d (start s)) =? 0) with true in EI. cbn [negb] in EI.
    assert (O : is_ok (snd (sync_client_system sign_ok compose bank others pick (start s)))).
    { unfold bind in EI. destruct (sync_client_system sign_ok compose bank others pick (start s)) as [w0 [x| |]]; try discriminate. eexists; reflexivity. }
    destruct (accounts_sync sign_ok compose bank others pick (start s) O) as (s0&e0&m0&A1&(c0&A2)&A3&A4&A5).
    assert (W : fst (sync_client_system sign_ok compose bank others pick (start s)) = w1).
    { destruct O as [x O]. unfold bind, ret in EI. destruct (sync_client_system sign_ok compose bank others pick (start s)) as [w0 r0]. cbn [fst snd] in *. subst r0. now injection EI. }
    rewrite W in *. clear W O EI. 
    destruct (sync_user_data sign_ok compose bank others pick w1) as [w2 r2] eqn:EU.
    destruct r2 as [[]| |]; [|rewrite (bind_err _ _ _ _ EU) in S; discriminate|rewrite (bind_panic _ _ _ _ EU) in S; discriminate].
    rewrite (Dialog_Facts3.bind_ok _ _ _ _ _ EU), bind_get in S. injection S as -> <-.
    pose proof (C28_growth sign_ok compose bank others pick w1) as G. rewrite EU in G. cbn [fst snd] in G.
    destruct (G ltac:(eexists; reflexivity)) as (pre&ms&i&m&rest&G1&G2&G3&G4&G5&G6). clear G.
    assert (I0 : forall (h l : list (entry J)), Forall (fun e => is_end (kind_of e)) l -> introductions h l = []).
    { intros h l. revert h. induction l as [|e l IH]; intros h He; [reflexivity|]. inversion He as [|? ? Ed He']; subst. destruct Ed as [d Ed]. cbn [introductions]. rewrite Ed. cbn [app]. now apply IH. }
    assert (I1 : forall (h : list (entry J)) (e : entry J), is_init (kind_of e) -> introductions h [e] = [(h, e)]).
    { intros h e (x1&x2&x3&x4&Ex). cbn [introductions]. now rewrite Ex. }
    assert (I2 : forall (h : list (entry J)) (e : entry J) c, kind_of e = KSync c -> introductions h [e] = [(h, e)]).
    { intros h e x Ex. cbn [introductions]. now rewrite Ex. }
    rewrite A1 in G1, G4, G5. rewrite (start_sent s) in *. cbn [app] in A1, G1, G4, G5, A4.
    exists (m0 :: ms ++ [m]). split.
    - rewrite G1. change (s0 :: e0 :: pre ++ i :: rest) with ([s0] ++ [e0] ++ pre ++ [i] ++ rest). rewrite !introductions_app. rewrite (I2 _ _ _ A2), (I0 _ [e0]) by (constructor; [exact A3|constructor]).
      rewrite (I1 _ _ G2), (I0 _ rest G3), app_nil_r. cbn [app]. constructor; [exact A4|]. apply Forall2_app; [|constructor; [exact G4|constructor]].
      destruct G5 as [(_&->&->)|(_&s1&e1&c1&x1&->&K1&K2&K3&->)]; [constructor|]. change [s1; e1] with ([s1] ++ [e1]). rewrite introductions_app, (I2 _ _ _ K1), (I0 _ [e1]) by (constructor; [exact K2|constructor]).
      cbn [app]. constructor; [exact K3|constructor].
    - rewrite G6, A5. cbn [flat_map]. reflexivity.
  Qed.
End C70.
Print Assumptions C70_missing.
Print Assumptions C70_unknown_bank.
Print Assumptions C70_no_iban.
Print Assumptions C70_long_user_refuted.
Print Assumptions C70_failed.
Print Assumptions C70_asked.
Print Assumptions C70_balances.
Print Assumptions C70_sepa_balances.
Print Assumptions C70_transactions.
Print Assumptions C70_sepa_transactions_refuted.
Print Assumptions C70_accounts.
