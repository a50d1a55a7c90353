(** * C70: the command line program and its bank, end to end *)
From Verif Require Import Base BaseFacts Lexer_Model Lexer_Spec Lexer_Proofs Lexer_Facts
  Codec_Model Codec_Spec Codec_Proofs Codec_Props Wire_Model Wire_Spec Wire_Proofs
  Message_Model Message_Spec Message_Proofs Message_Facts
  Dialog_Model Dialog_Spec Dialog_Proofs Dialog_Facts Dialog_Facts2 Dialog_Facts3
  Seg_Model Seg_Spec Seg_Facts Seg_Facts2 Seg_Facts3 Seg_Facts4 Seg_Facts5 Seg_Props Seg_Props2
  Merge_Model Merge_Props Client_Model Client_Spec Client_Proofs Client_Facts Client_Props Time_Model
  Request_Model Request_Spec Request_Facts Request_Facts2 Request_Facts3 Request_Facts4 Request_Props
  Answer_Spec Answer_Facts Answer_Facts2 Answer_Props Stack_Spec Stack_Facts Stack_Props
  Iban_Model Iban_Facts Iban_Props Bank_Model Bank_Spec Bank_Props
  Error_Model Error_Spec Error_Facts Error_Facts2 Error_Facts3 Error_Props Print_Model Cli_Model Cli_Spec Cli_Dates Cli_Props.
From Verif Require Mt940_Model Mt940_Spec Mt940_Props.
From Coq Require Import Lia ZifyBool ZifyNat ZifyN.
Open Scope Z_scope.

Section End.
  Context {F : Type} (parse_float : bytes -> option F) (neg : F -> F) (value : N -> bytes -> F).
  Hypothesis Hfloat : reads_decimals parse_float value.
  Notation J := (Client_Model.job args).
  Variables (x : who) (pin : bytes).
  Variable render : seg -> bytes.
  Variable dated : list (entry J) -> date.
  Variable signed_at enveloped_at : list (entry J) -> date * tod.
  Variable letters : list (entry J) -> letter.
  Variable pick : list (entry J) -> nat.
  Variable other_digit : Z -> bool.
  Variables (now : Z) (zero : F).
  Variable sort : list mt -> list mt.
  Variable clock : nat -> Z.
  Variable sign_why : list (entry J) -> request J -> bytes.
  Variable compose_why : list (entry J) -> request J -> bytes.
  Variable bank_why : list (entry J) -> bytes.
  Variable read_why : bytes -> bytes.
  Variable quote : bytes -> bytes.
  Variable mt940_why : bytes -> bytes.
  Variable fixed2 : F -> bytes.
  Variable nonzero : F -> bool.
  Variable day : Z -> bytes.
  Variable table : list bank_info.
  Variable config_why iban_why : bytes.
  Variable greeting : bytes.
  Variable today : date.
  Hypothesis Hperson : person_ok x pin.
  Hypothesis Hclock : clock_ok dated signed_at enveloped_at.
  Hypothesis Hhelp : helpful letters.
  Notation sign_ok := (request_sign render (settings_for x) dated signed_at).
  Notation compose := (request_bytes render (settings_for x) dated signed_at enveloped_at).
  Notation bank := (post letters).
  Notation oth := (others parse_float neg).
  Notation bal := (Seg_Model.balance_in parse_float neg).
  Notation sbal := (sepa_balance_in parse_float neg).
  Notation read_mt940 := (Mt940_Model.unmarshal_mt940 parse_float neg other_digit now zero).
  Notation banking := (banking sign_ok compose bank oth pick sign_why compose_why bank_why read_why quote bal sbal booked_in
                         read_mt940 mt940_why sort clock fixed2 nonzero day table config_why iban_why greeting today).
  Notation start := (@Client_Model.new_client args (Seg_Model.account_information F) (utf8 (wh_user x)) (utf8 pin)).
  (** The program is called for this person, with a bank of the table. *)
  Variable url : bytes.
  Definition flags : Cli_Model.settings := Cli_Model.mkSettings url (utf8 (wh_user x)) (utf8 (wh_bank x)) (utf8 pin).
  Hypothesis Huser : wh_user x <> [].
  Hypothesis Hlisted : exists u, client_new table (config_of flags) =
    Ok (mkClient (wh_country x) (utf8 (wh_bank x)) u (utf8 (wh_user x)) (wh_version x) (utf8 (wh_product x)) (utf8 (wh_product_version x)) (utf8 pin)).

  Lemma run_it n c : banking n flags c =
    run_command sign_ok compose bank oth pick sign_why compose_why bank_why read_why quote bal sbal booked_in
                         read_mt940 mt940_why sort clock fixed2 nonzero day table iban_why greeting today n flags c.
  Proof.
    rewrite configured.
    - destruct Hlisted as (k&->). reflexivity.
    - cbn. intros K. apply (utf8_inj_B _ []) in K; [contradiction|reflexivity].
    - cbn. intros K. apply (utf8_inj_B _ []) in K; [|reflexivity]. now destruct Hperson.
  Qed.
  Lemma plain_ok {X} (r : result X) v : plain r = Ok v -> r = ROk v.
  Proof. destruct r; cbn; intros H; try discriminate. now injection H as ->. Qed.
  Lemma after_none : client_after parse_float neg x pin render dated signed_at enveloped_at letters pick (fun _ => @Err unit) other_digit now zero sort clock [] = start.
  Proof. reflexivity. Qed.

  (** accounts: exit code 0 and the table of the accounts in the bank's answers. *)
  Theorem C70_end_accounts : forall n, exists sent,
    banking n flags CmdAccounts = (sent, Exit 0 (greeting ++ infos_string fixed2 (map (fun a => (a, None)) (told_accounts letters [] sent)))).
  Proof.
    intros n. destruct (C58_accounts parse_float neg value Hfloat x pin render dated signed_at enveloped_at letters pick (fun _ => @Err unit) other_digit now zero sort clock Hperson Hclock Hhelp [] ltac:(constructor))
      as (w&E). rewrite after_none in E. exists (w_sent w). rewrite run_it. cbn [Cli_Model.run_command st_user st_pin flags].
    pose proof (same_accounts sign_ok compose bank oth pick sign_why compose_why bank_why read_why quote start) as S. unfold erase in S. rewrite E in S.
    destruct (t_accounts _ _ _ _ _ _ _ _ _ _ start) as [w1 r]. cbn [fst snd] in S. injection S as -> S. apply plain_ok in S. subst r. reflexivity.
  Qed.

  (** The account of the command, in the bank's characters. *)
  Variables (g account : bytes).
  Hypothesis Hgiven : g <> [] /\ account = g \/ g = [] /\ account = wh_user x.
  Hypothesis Hclean : clean_text account.
  Notation the := (mkNat account [] 280 (wh_bank x)).
  Lemma given_user : or_user flags (utf8 g) = utf8 account.
  Proof.
    unfold or_user. destruct Hgiven as [[H ->]|[-> ->]]; [|reflexivity].
    destruct (utf8 g) eqn:E; [|reflexivity]. exfalso. apply H. now apply (utf8_inj_B _ []).
  Qed.
  Lemma bank_clean : clean_text (wh_bank x).
  Proof. destruct Hperson as (_&_&H). inversion H as [|? ? _ H2]; subst. now inversion H2. Qed.
  Lemma nil_text : clean_text [].
  Proof. split; intros (l&E); destruct l; discriminate. Qed.

  (** balances --disableSepa: the balances of the bank's answer to one request for this account. *)
  Theorem C70_end_balances : forall n i, new_german (utf8 (wh_bank x)) (utf8 account) = Ok i ->
    serves letters (B "HISALS") [5; 6] -> answers_with letters TBalances (fun l => letter_balances l <> []) ->
    exists sent h e v, jobs [] sent = [(h, e)] /\ kind_of e = KJob (job_for (WBalances v the true) []) /\ In v [5; 6] /\
      banking n flags (CmdBalances (utf8 g) true) =
        (sent, Exit 0 (greeting ++ balances_string fixed2 nonzero day (map (balance_value value neg) (letter_balances (letters (h ++ [e])))) ++ [x0a])).
  Proof.
    intros n i HI Hs Ha.
    destruct (C58_balances parse_float neg value Hfloat x pin render dated signed_at enveloped_at letters pick (fun _ => @Err unit) other_digit now zero sort clock Hperson Hclock Hhelp []
                the true) as (w&new&h&e&v&E&E1&E2&E3&E4); [|exact Hs|exact Ha|].
    { constructor; [|constructor]. split; [exact I|]. split; [|constructor]. cbn [wish_texts na_account na_sub na_bank].
      constructor; [exact nil_text|]. constructor; [exact Hclean|]. constructor; [exact nil_text|]. constructor; [exact bank_clean|constructor]. }
    rewrite after_none in *. exists (w_sent w), h, e, v. change (w_sent start) with (@nil (entry J)) in *. cbn [app] in E1. rewrite E1. split; [exact E2|]. split; [exact E3|]. split; [exact E4|].
    rewrite run_it. cbn [Cli_Model.run_command]. rewrite given_user. cbn [st_user st_pin st_blz flags]. rewrite HI.
    change (to_account_connection (mkIC i (bi_bic (find_by_bank_id table (utf8 (wh_bank x)))) (utf8 account) [] (mkBank 280 (utf8 (wh_bank x))))) with (national_value the).
    pose proof (same_balances sign_ok compose bank oth pick sign_why compose_why bank_why read_why quote bal (AAccount (national_value the) true) start) as S. unfold erase in S. rewrite E in S.
    destruct (t_account_balances _ _ _ _ _ _ _ _ _ _ _ _ start) as [w1 r]. cbn [fst snd] in S. injection S as -> S. apply plain_ok in S. subst r. rewrite E1. reflexivity.
  Qed.

  (** balances: the same with the IBAN and BIC of the account, over all pages of the bank's
      answers; unless the bank goes on and on. *)
  Notation told_b := (t_sepa_account_balances sign_ok compose bank oth pick sign_why compose_why bank_why read_why quote sbal).
  Notation held_b := (sepa_account_balances sign_ok compose bank oth pick sbal).
  Lemma told_held_b n ag w : erase_pages (told_b n ag [] w) = held_b n ag [] w.
  Proof. exact (same_sepa_balances sign_ok compose bank oth pick sign_why compose_why bank_why read_why quote sbal n ag [] w). Qed.
  Notation shown_b := (fun l => sepa_balances_string fixed2 nonzero day l ++ [Error_Model.nl]).
  Lemma told_end_b n ag w : fst (told_b n ag [] w) = fst (held_b n ag [] w) /\
    (snd (held_b n ag [] w) = None -> finish greeting shown_b (snd (told_b n ag [] w)) = Endless) /\
    (forall l, snd (held_b n ag [] w) = Some (Ok l) -> finish greeting shown_b (snd (told_b n ag [] w)) = Exit 0 (greeting ++ shown_b l)).
  Proof.
    rewrite <- (told_held_b n ag w). unfold erase_pages. destruct (told_b n ag [] w) as [w1 [[a|t|]|]]; cbn [fst snd option_map plain];
      (split; [reflexivity|split; [|intros l]]); intros K; try discriminate; try reflexivity. now injection K as ->.
  Qed.
  Lemma german_text i : forallb is_digit (wh_bank x) = true -> forallb is_digit account = true ->
    new_german (utf8 (wh_bank x)) (utf8 account) = Ok i -> utf8 i = i /\ clean_text i.
  Proof.
    intros H1 H2. assert (A : forall l, forallb is_digit l = true -> ascii l = true).
    { exact digits_ascii. }
    rewrite !utf8_eq, !to_utf8_ascii by auto. intros E. destruct (C31_german _ _ i H1 H2) as [[C _] _]. destruct (C E) as [C1 C2]. clear C. cbv zeta in *.
    set (full := wh_bank x ++ _) in *. assert (D : forallb is_digit full = true).
    { unfold full. rewrite forallb_app, H1. destruct (len account =? 9); [cbn [forallb]|]; rewrite H2; reflexivity. }
    split.
    - apply to_utf8_ascii. rewrite C2, !ascii_app, itoa_pad_ascii, (A _ D). reflexivity.
    - destruct (exists_last (l := full)) as (f&b&Ef). { intros K. rewrite K in C1. cbn in C1. lia. }
      rewrite Ef in D, C2. rewrite forallb_app in D. apply andb_prop in D as [_ D]. cbn in D.
      assert (L : exists p, i = p ++ [b]). { rewrite C2. eexists. rewrite !app_assoc. reflexivity. }
      destruct L as (p&->). split; intros (q&K); apply app_inj_tail in K as [_ ->]; discriminate.
  Qed.
  Lemma held_58_b n i bic w : w = start -> utf8 i = i -> clean_text i -> clean_text bic ->
    serves letters (B "HISALS") [7; 8] -> answers_with letters TSepaBalances (fun l => letter_balances l <> [] /\ only_international l) ->
    forall ag, ag = ASepa (mkIC i (utf8 bic) (utf8 account) [] (mkBank 280 (utf8 (wh_bank x)))) true ->
    exists new, w_sent (fst (held_b n ag [] w)) = new /\ Forall (fun y => exists c, asks TSepaBalances ag c y) (jobs [] new) /\
      (snd (held_b n ag [] w) = None /\ goes_on letters n (jobs [] new) \/
       snd (held_b n ag [] w) = Some (Ok (flat_map (fun j => sepa_values value neg (letters (fst j ++ [snd j]))) (jobs [] new)))).
  Proof.
    intros -> Hi Ci Cb Hs Ha ag Eg.
    assert (O : Forall order_ok ([] ++ [OSepaBalances n (mkInt i bic account [] (Some (280, wh_bank x))) true []])).
    { constructor; [|constructor]. split; [exact I|]. split; [|constructor].
      constructor; [exact nil_text|]. cbn [wish_texts in_iban in_bic in_account in_sub in_bank app]. repeat (constructor; [assumption||exact nil_text||exact bank_clean|]). constructor. }
    pose proof (C58_sepa_balances parse_float neg value Hfloat x pin render dated signed_at enveloped_at letters pick (fun _ => @Err unit) other_digit now zero sort clock Hperson Hclock Hhelp []
                n _ true [] O Hs Ha) as C.
    rewrite after_none in C. cbv zeta in C.
    replace (ASepa (international_value (mkInt i bic account [] (Some (280, wh_bank x)))) true) with ag in C
      by (rewrite Eg; unfold international_value; cbn [in_iban in_bic in_account in_sub in_bank]; rewrite Hi; reflexivity).
    replace (utf8 []) with (@nil byte) in C by reflexivity.
    replace (w_sent start) with (@nil (entry J)) in C by reflexivity.
    destruct C as (new&E1&C). rewrite app_nil_l in E1. exists new. split; [exact E1|].
    split; [|exact C].
    destruct (C29_requests sign_ok compose bank oth pick sbal booked_in clock n ag [] start) as (new'&E1'&A&_).
    replace (w_sent start) with (@nil (entry J)) in E1', A by reflexivity. rewrite app_nil_l in E1'.
    rewrite E1 in E1'. subst new'. exact A.
  Qed.
  Lemma balances_run n i : new_german (utf8 (wh_bank x)) (utf8 account) = Ok i ->
    banking n flags (CmdBalances (utf8 g) false) =
      let T := told_b n (ASepa (mkIC i (bi_bic (find_by_bank_id table (utf8 (wh_bank x)))) (utf8 account) [] (mkBank 280 (utf8 (wh_bank x)))) true) [] start in
      (w_sent (fst T), finish greeting shown_b (snd T)).
  Proof.
    intros HI. rewrite run_it. cbn [Cli_Model.run_command]. rewrite given_user. cbn [st_user st_pin st_blz flags]. rewrite HI. cbv zeta.
    destruct (told_b _ _ _ _). reflexivity.
  Qed.
  Theorem C70_end_sepa_balances : forall n i bic, forallb is_digit (wh_bank x) = true -> forallb is_digit account = true ->
    new_german (wh_bank x) account = Ok i -> bi_bic (find_by_bank_id table (utf8 (wh_bank x))) = utf8 bic -> clean_text bic ->
    serves letters (B "HISALS") [7; 8] -> answers_with letters TSepaBalances (fun l => letter_balances l <> [] /\ only_international l) ->
    exists sent, Forall (fun j => exists v mark, kind_of (snd j) = KJob (mkJob TSepaBalances v (ASepa (mkIC i (utf8 bic) account [] (mkBank 280 (wh_bank x))) true) mark)) (jobs [] sent) /\
      (banking n flags (CmdBalances (utf8 g) false) = (sent, Endless) /\ goes_on letters n (jobs [] sent) \/
       banking n flags (CmdBalances (utf8 g) false) =
         (sent, Exit 0 (greeting ++ sepa_balances_string fixed2 nonzero day (flat_map (fun j => sepa_values value neg (letters (fst j ++ [snd j]))) (jobs [] sent)) ++ [x0a]))).
  Proof.
    intros n i bic D1 D2 HI0 Hbic Cb Hs Ha.
    assert (A : forall l, forallb is_digit l = true -> utf8 l = l).
    { intros l K. rewrite utf8_eq. now apply to_utf8_ascii, digits_ascii. }
    assert (HI : new_german (utf8 (wh_bank x)) (utf8 account) = Ok i) by (now rewrite !A).
    destruct (german_text i D1 D2 HI) as [Ui Ci].
    rewrite (balances_run n i HI). cbv zeta. rewrite Hbic.
    destruct (held_58_b n i bic _ eq_refl Ui Ci Cb Hs Ha _ eq_refl) as (new&E1&As&C).
    match type of E1 with w_sent (fst (held_b n ?a _ _)) = _ => destruct (told_end_b n a start) as (T1&T2&T3) end.
    rewrite T1, E1. exists new. split.
    { eapply Forall_impl; [|exact As]. intros j (mk&v&K). exists v, mk. rewrite (A _ D1), (A _ D2) in K. exact K. }
    destruct C as [[C1 C2]|C1].
    - left. split; [|exact C2]. now rewrite (T2 C1).
    - right. rewrite (T3 _ C1). reflexivity.
  Qed.

  Notation told := (t_account_transactions sign_ok compose bank oth pick sign_why compose_why bank_why read_why quote booked_in read_mt940 mt940_why sort clock).
  Notation held := (account_transactions sign_ok compose bank oth pick booked_in read_mt940 sort clock).
  Lemma told_held n ag w : erase_pages (told n ag [] 0%nat w) = held n ag [] 0%nat w.
  Proof. exact (same_transactions sign_ok compose bank oth pick sign_why compose_why bank_why read_why quote booked_in read_mt940 mt940_why sort clock n _ _ _ ag [] 0%nat w). Qed.
  Lemma told_end n ag w : fst (told n ag [] 0%nat w) = fst (held n ag [] 0%nat w) /\
    (snd (held n ag [] 0%nat w) = None -> finish greeting (transactions_string fixed2) (snd (told n ag [] 0%nat w)) = Endless) /\
    (forall txs, snd (held n ag [] 0%nat w) = Some (Ok txs) ->
       finish greeting (transactions_string fixed2) (snd (told n ag [] 0%nat w)) = Exit 0 (greeting ++ transactions_string fixed2 txs)).
  Proof.
    rewrite <- (told_held n ag w). unfold erase_pages. destruct (told n ag [] 0%nat w) as [w1 [[a|t|]|]]; cbn [fst snd option_map plain];
      (split; [reflexivity|split; [|intros txs]]); intros K; try discriminate; try reflexivity. now injection K as ->.
  Qed.
  Lemma transactions_run n i days : new_german (utf8 (wh_bank x)) (utf8 account) = Ok i ->
    banking n flags (CmdTransactions (utf8 g) true days) =
      let T := told n (ARange (national_value the) (mkTf (add_days today (- days)) (mkDate 1 1 1)) false) [] 0%nat start in
      (w_sent (fst T), finish greeting (transactions_string fixed2) (snd T)).
  Proof.
    intros HI. rewrite run_it. cbn [Cli_Model.run_command]. rewrite given_user. cbn [st_user st_pin st_blz flags]. rewrite HI. cbv zeta.
    change (to_account_connection (mkIC i [] (utf8 account) [] (mkBank 280 (utf8 (wh_bank x))))) with (national_value the).
    change zero_date with (mkDate 1 1 1).
    destruct (told _ _ _ _ _). reflexivity.
  Qed.

  Lemma held_58 (stmts : letter -> list Mt940_Spec.stmt) n from w : w = start -> real_date from -> from <> mkDate 1 1 1 ->
    1000 <= now <= 9999 -> go_sort sort -> (forall i j, (i < j)%nat -> clock i < clock j) ->
    serves letters (B "HIKAZS") [5; 6] ->
    answers_with letters TTransactions (fun l => carries parse_float now (stmts l) l) ->
    forall ag, ag = ARange (national_value the) (mkTf from (mkDate 1 1 1)) false ->
    exists new, w_sent (fst (held n ag [] 0%nat w)) = new /\ Forall (fun y => exists c, asks TTransactions ag c y) (jobs [] new) /\
      (snd (held n ag [] 0%nat w) = None /\ goes_on letters n (jobs [] new) \/
       exists txs, snd (held n ag [] 0%nat w) = Some (Ok txs) /\
         Forall2 (fun sp t => Mt940_Spec.delivers parse_float neg (fst sp) (snd sp) t)
           (Mt940_Props.all_entries (flat_map (fun j => stmts (letters (fst j ++ [snd j]))) (jobs [] new))) txs).
  Proof.
    intros -> Hf Hz Hnow HS HC Hs Ha ag Eg.
    assert (O : Forall order_ok ([] ++ [OTransactions n the (Some from) None false [] 0%nat])).
    { constructor; [|constructor]. split; [split; [cbn; congruence|discriminate]|]. split; [|cbn; constructor; [exact Hf|constructor]]. cbn [wish_texts na_account na_sub na_bank].
      constructor; [exact nil_text|]. constructor; [exact Hclean|]. constructor; [exact nil_text|]. constructor; [exact bank_clean|constructor]. }
    pose proof (C58_transactions parse_float neg value Hfloat x pin render dated signed_at enveloped_at letters pick (fun _ => @Err unit) other_digit now zero sort clock Hperson Hclock Hhelp stmts []
                n the (Some from) None false [] 0%nat O Hnow HS HC Hs Ha) as C.
    rewrite after_none in C. cbv zeta in C. 
    replace (ARange (national_value the) (mkTf (given (Some from)) (given None)) false) with ag in C by exact Eg.
    replace (utf8 []) with (@nil byte) in C by reflexivity.
    replace (w_sent start) with (@nil (entry J)) in C by reflexivity.
    destruct C as (new&E1&C). rewrite app_nil_l in E1. exists new. split; [exact E1|].
    split; [|exact C].
    destruct (jobs_of_transactions sign_ok compose bank oth pick sbal booked_in read_mt940 sort clock HS HC n ag [] 0%nat start) as (new'&E1'&A).
    replace (w_sent start) with (@nil (entry J)) in E1', A by reflexivity. rewrite app_nil_l in E1'.
    rewrite E1 in E1'. subst new'. exact A.
  Qed.

  (** transactions --disableSepa: the entries of all statements in the bank's answers; unless the
      bank goes on and on. *)
  Theorem C70_end_transactions : forall (stmts : letter -> list Mt940_Spec.stmt) n i days, new_german (utf8 (wh_bank x)) (utf8 account) = Ok i ->
    let from := add_days today (- days) in real_date from -> from <> mkDate 1 1 1 ->
    1000 <= now <= 9999 -> go_sort sort -> (forall i j, (i < j)%nat -> clock i < clock j) ->
    serves letters (B "HIKAZS") [5; 6] ->
    answers_with letters TTransactions (fun l => carries parse_float now (stmts l) l) ->
    exists sent, Forall (fun j => exists v mark, kind_of (snd j) = KJob (mkJob TTransactions v (ARange (national_value the) (mkTf from (mkDate 1 1 1)) false) mark)) (jobs [] sent) /\
      (banking n flags (CmdTransactions (utf8 g) true days) = (sent, Endless) /\ goes_on letters n (jobs [] sent) \/
       exists txs, banking n flags (CmdTransactions (utf8 g) true days) = (sent, Exit 0 (greeting ++ transactions_string fixed2 txs)) /\
         Forall2 (fun sp t => Mt940_Spec.delivers parse_float neg (fst sp) (snd sp) t)
           (Mt940_Props.all_entries (flat_map (fun j => stmts (letters (fst j ++ [snd j]))) (jobs [] sent))) txs).
  Proof.
    intros stmts n i days HI from Hf Hz Hnow HS HC Hs Ha.
    rewrite (transactions_run n i days HI). cbv zeta. fold from.
    destruct (held_58 stmts n from _ eq_refl Hf Hz Hnow HS HC Hs Ha _ eq_refl) as (new&E1&A&C).
    match type of E1 with w_sent (fst (held n ?a _ _ _)) = _ => destruct (told_end n a start) as (T1&T2&T3) end.
    rewrite T1, E1. exists new. split.
    { eapply Forall_impl; [|exact A]. intros j (mk&v&K). exists v, mk. exact K. }
    destruct C as [[C1 C2]|(txs&C1&C2)].
    - left. split; [|exact C2]. now rewrite (T2 C1).
    - right. exists txs. split; [|exact C2]. now rewrite (T3 _ C1).
  Qed.
End End.

(** A bank, and the program called for it. *)
Definition demo_table : list bank_info :=
  [mkBi (B "12345678") (B "DEMODEXXXXX") (B "3.0") (B "https://bank.example/fints") (B "FinTS V3.0") (B "Demobank") (B "Berlin") (B "1.1.2024")].
Definition demo_flags : Cli_Model.settings := flags demo_who (B "12") [].
Definition demo_program (letters : list (entry (Client_Model.job args)) -> letter) :=
  banking (request_sign (fun _ => []) (settings_for demo_who) (fun _ => demo_day) (fun _ => demo_moment))
    (request_bytes (fun _ => []) (settings_for demo_who) (fun _ => demo_day) (fun _ => demo_moment) (fun _ => demo_moment))
    (post letters) (others sample_float sample_neg) (fun _ => O) (fun _ _ => []) (fun _ _ => []) (fun _ => []) (fun _ => []) (fun b => b)
    (Seg_Model.balance_in sample_float sample_neg) (sepa_balance_in sample_float sample_neg) booked_in
    (Mt940_Model.unmarshal_mt940 sample_float sample_neg (fun _ => false) 2016 (B "0")) (fun _ => []) insertion_sort Z.of_nat
    (fun v => v) (fun _ => true) (fun _ => []) demo_table [] (B "bad account") [] demo_day 3 demo_flags.
Definition demo_banking := demo_program demo_letters.
Definition shown (e : ending) : Z * nat := match e with Exit c out => (c, List.length out) | Crash => (2, O) | Endless => (3, O) end.
(** Three conversations that succeed (the last two over two pages), and one that fails. *)
Example C70_run :
  map (fun c => let r := demo_banking c in (List.length (fst r), fst (shown (snd r)), (0 <? snd (shown (snd r)))%nat))
    [CmdAccounts; CmdBalances (B "532013000") false; CmdTransactions (B "532013000") true 30; CmdTransactions (B "532013000") false 30; CmdBalances (B "12345678901") false]
  = [(4%nat, 0, true); (8%nat, 0, true); (8%nat, 0, true); (2%nat, 1, true); (O, 1, true)].
Proof. vm_compute. reflexivity. Qed.
(** A bank that refuses everything: one message, and the program says why. *)
Definition refusal : letter := a_letter [mkPiece 2 None (IMessage [mkNotice 9931 [] (B "Zugang gesperrt") []])].
Example C70_refused_run :
  let text := B "error while fetching accounts: institute returned errors:" ++ [x0a] ++
              B "MessageAcknowledgement for message 1 (0): Code: 9931, Position: none, Text: 'Zugang gesperrt'" ++ [x0a] in
  map (fun c => let r := demo_program (fun _ => refusal) c in (List.length (fst r), snd r))
    [CmdAccounts; CmdBalances (B "532013000") false; CmdTransactions (B "532013000") true 30] = repeat (1%nat, Exit 1 text) 3.
Proof. vm_compute. reflexivity. Qed.
(** The premises of the theorems above hold for this bank. *)
Example C70_end_example :
  (exists sent out, demo_banking CmdAccounts = (sent, Exit 0 out)) /\
  (exists sent out, demo_banking (CmdBalances (B "532013000") true) = (sent, Exit 0 out)) /\
  (exists sent, fst (demo_banking (CmdBalances (B "532013000") false)) = sent /\ Forall (fun j => exists v mark, kind_of (snd j) =
     KJob (mkJob TSepaBalances v (ASepa (mkIC (B "DE65123456780532013000") (B "DEMODEXXXXX") (B "532013000") [] (mkBank 280 (B "12345678"))) true) mark)) (jobs [] sent)) /\
  (exists sent, fst (demo_banking (CmdTransactions [] true 30)) = sent /\ Forall (fun j => exists v mark, kind_of (snd j) =
     KJob (mkJob TTransactions v (ARange (national_value (mkNat (B "user") [] 280 (B "12345678"))) (mkTf (mkDate 2024 3 1) (mkDate 1 1 1)) false) mark)) (jobs [] sent)).
Proof.
  destruct C58_witness as (W1&W2&W3&W4&W5&W6&W7&W8&W9&W10).
  assert (C : forall t, match rev t with ":"%byte :: _ | "+"%byte :: _ => False | _ => True end -> clean_text t).
  { intros t Ht. apply clean_rev. destruct (rev t) as [|[] r]; try exact I; try contradiction; split; discriminate. }
  assert (L : exists u, client_new demo_table (config_of (flags demo_who (B "12") [])) =
    Ok (mkClient (wh_country demo_who) (utf8 (wh_bank demo_who)) u (utf8 (wh_user demo_who)) (wh_version demo_who) (utf8 (wh_product demo_who)) (utf8 (wh_product_version demo_who)) (utf8 (B "12")))).
  { eexists. vm_compute. reflexivity. }
  assert (G : exists i, new_german (utf8 (wh_bank demo_who)) (utf8 (B "532013000")) = Ok i) by (eexists; vm_compute; reflexivity). destruct G as (i&G).
  assert (G' : exists i, new_german (utf8 (wh_bank demo_who)) (utf8 (B "user")) = Ok i) by (eexists; vm_compute; reflexivity). destruct G' as (i'&G').
  split; [|split; [|split]].
  - destruct (C70_end_accounts sample_float sample_neg sample_value sample_float_ok demo_who (B "12") (fun _ => []) (fun _ => demo_day) (fun _ => demo_moment) (fun _ => demo_moment) demo_letters (fun _ => O)
      (fun _ => false) 2016 (B "0") insertion_sort Z.of_nat (fun _ _ => []) (fun _ _ => []) (fun _ => []) (fun _ => []) (fun b => b) (fun _ => []) (fun v => v) (fun _ => true) (fun _ => []) demo_table [] (B "bad account") [] demo_day
      W1 W2 W3 [] ltac:(discriminate) L 3) as (sent&E).
    exists sent. eexists. exact E.
  - destruct (C70_end_balances sample_float sample_neg sample_value sample_float_ok demo_who (B "12") (fun _ => []) (fun _ => demo_day) (fun _ => demo_moment) (fun _ => demo_moment) demo_letters (fun _ => O)
      (fun _ => false) 2016 (B "0") insertion_sort Z.of_nat (fun _ _ => []) (fun _ _ => []) (fun _ => []) (fun _ => []) (fun b => b) (fun _ => []) (fun v => v) (fun _ => true) (fun _ => []) demo_table [] (B "bad account") [] demo_day
      W1 W2 W3 [] ltac:(discriminate) L
      (B "532013000") (B "532013000") ltac:(left; split; [discriminate|reflexivity]) ltac:(apply C; exact I) 3 i G W4 W7) as (sent&h&e&v&_&_&_&E).
    exists sent. eexists. exact E.
  - destruct (C70_end_sepa_balances sample_float sample_neg sample_value sample_float_ok demo_who (B "12") (fun _ => []) (fun _ => demo_day) (fun _ => demo_moment) (fun _ => demo_moment) demo_letters (fun _ => O)
      (fun _ => false) 2016 (B "0") insertion_sort Z.of_nat (fun _ _ => []) (fun _ _ => []) (fun _ => []) (fun _ => []) (fun b => b) (fun _ => []) (fun v => v) (fun _ => true) (fun _ => []) demo_table [] (B "bad account") [] demo_day
      W1 W2 W3 [] ltac:(discriminate) L
      (B "532013000") (B "532013000") ltac:(left; split; [discriminate|reflexivity]) ltac:(apply C; exact I) 3 (B "DE65123456780532013000") (B "DEMODEXXXXX") eq_refl eq_refl
      ltac:(vm_compute; reflexivity) ltac:(vm_compute; reflexivity) ltac:(apply C; exact I) W5 W8) as (sent&E1&E).
    exists sent. split; [|exact E1]. destruct E as [[E _]|E]; exact (f_equal fst E).
  - destruct (C70_end_transactions sample_float sample_neg sample_value sample_float_ok demo_who (B "12") (fun _ => []) (fun _ => demo_day) (fun _ => demo_moment) (fun _ => demo_moment) demo_letters (fun _ => O)
      (fun _ => false) 2016 (B "0") insertion_sort Z.of_nat (fun _ _ => []) (fun _ _ => []) (fun _ => []) (fun _ => []) (fun b => b) (fun _ => []) (fun v => v) (fun _ => true) (fun _ => []) demo_table [] (B "bad account") [] demo_day
      W1 W2 W3 [] ltac:(discriminate) L
      [] (B "user") ltac:(right; split; reflexivity) ltac:(apply C; exact I) demo_stmts 3 i' 30 G' ltac:(vm_compute; repeat split; discriminate) ltac:(vm_compute; discriminate)
      ltac:(lia) C36_sort_exists ltac:(intros; lia) W6 W9) as (sent&E1&E).
    exists sent. split; [|exact E1]. destruct E as [[E _]|[t [E _]]]; exact (f_equal fst E).
Qed.
Print Assumptions C70_end_accounts.
Print Assumptions C70_end_balances.
Print Assumptions C70_end_sepa_balances.
Print Assumptions C70_end_transactions.
