(** * C58: a client and its bank, from the caller to the wire and back *)
From Verif Require Import Base BaseFacts Lexer_Model Lexer_Spec Lexer_Proofs Lexer_Facts
  Codec_Model Codec_Spec Codec_Proofs Codec_Props Wire_Model Wire_Spec Wire_Proofs
  Message_Model Message_Spec Message_Proofs Message_Facts
  Dialog_Model Dialog_Spec Dialog_Proofs Dialog_Facts Dialog_Facts2 Dialog_Facts3
  Seg_Model Seg_Spec Seg_Facts Seg_Facts2 Seg_Facts3 Seg_Facts4 Seg_Facts5 Seg_Props Seg_Props2
  Merge_Model Merge_Props Client_Model Client_Spec Client_Proofs Client_Facts Client_Props Time_Model
  Request_Model Request_Spec Request_Facts Request_Facts2 Request_Facts3 Request_Facts4 Request_Props
  Answer_Spec Answer_Facts Answer_Facts2 Answer_Props Stack_Spec Stack_Facts.
From Verif Require Mt940_Model Mt940_Spec Mt940_Props.
From Coq Require Import Lia ZifyBool ZifyNat ZifyN.
Open Scope Z_scope.

Section C58.
  Context {F : Type} (parse_float : bytes -> option F) (neg : F -> F) (value : N -> bytes -> F).
  Hypothesis Hfloat : reads_decimals parse_float value.
  Notation J := (Client_Model.job args).
  Variables (x : who) (pin : bytes).
  Variable render : seg -> bytes.
  Variable today : list (entry J) -> date.
  Variable signed_at enveloped_at : list (entry J) -> date * tod.
  Variable letters : list (entry J) -> letter.
  Variable pick : list (entry J) -> nat.
  Context {St : Type} (status_in : bytes -> outcome St).
  Variable other_digit : Z -> bool.
  Variables (now : Z) (zero : F).
  Variable sort : list mt -> list mt.
  Variable clock : nat -> Z.
  Hypothesis Hperson : person_ok x pin.
  Hypothesis Hclock : clock_ok today signed_at enveloped_at.
  Hypothesis Hhelp : helpful letters.

  (** The client as it is: requests composed as in C56, answers read as in C57. *)
  Notation sign_ok := (request_sign render (settings_for x) today signed_at).
  Notation compose := (request_bytes render (settings_for x) today signed_at enveloped_at).
  Notation bank := (post letters).
  Notation oth := (others parse_float neg).
  Notation bal := (balance_in parse_float neg).
  Notation sbal := (sepa_balance_in parse_float neg).
  Notation read_mt940 := (Mt940_Model.unmarshal_mt940 parse_float neg other_digit now zero).
  Notation accounts := (accounts sign_ok compose bank oth pick).
  Notation account_balances := (account_balances sign_ok compose bank oth pick bal).
  Notation sepa_account_balances := (sepa_account_balances sign_ok compose bank oth pick sbal).
  Notation account_transactions := (account_transactions sign_ok compose bank oth pick booked_in read_mt940 sort clock).
  Notation run_ccalls := (run_ccalls sign_ok compose bank oth pick bal sbal booked_in status_in read_mt940 sort clock).
  (** A client after some calls. *)
  Definition client_after (os : list order) : @world J (Seg_Model.account_information F) :=
    run_ccalls (map order_call os) (new_client (utf8 (wh_user x)) (utf8 pin)).

  Lemma after_sound os wanted : (forall id vs, In (id, vs) wanted -> serves letters id vs) -> forall more, Forall order_ok (os ++ more) ->
    sound x pin today signed_at enveloped_at letters (os ++ more) wanted false (client_after os).
  Proof.
    intros Hs more Ho. destruct Hperson as (P1&P2&P3). inversion P3 as [|? ? P4 P5]; subst. unfold client_after.
    apply (calls_safe parse_float neg value Hfloat x pin render today signed_at enveloped_at letters pick (os ++ more) wanted P1 P5 (conj P2 P4) Hclock Hhelp Hs Ho).
    - intros o Hin. apply in_or_app. now left.
    - now apply new_sound.
  Qed.
  Lemma none_wanted : forall id vs, In (id, vs) (@nil (bytes * list Z)) -> serves letters id vs.
  Proof. intros ? ? []. Qed.

  (** Whatever is called, every message that goes out is the one of the specification for it (C56):
      with the dialog ID and number it carries, the customer's bank, user and PIN, and, if
      it is a job, for what one of the calls asked for. *)
  Theorem C58_sent : exists reference, hex_word reference /\ forall os, Forall order_ok os ->
    forall h e r, w_sent (client_after os) = h ++ e :: r -> exists dialog number a s c,
      fst e = mkRq (kind_for dialog a) (utf8 dialog) number (Some (provider_for s)) (Some (provider_for c)) /\
      sc_pin s = pin /\ sc_pin c = pin /\
      (forall y mark, a = QJob y mark -> exists o v mark', In o os /\ order_wish o v = Some (y, mark')) /\
      (len (snd e) < 10 ^ 12 ->
       snd e = enveloped_message x dialog number (len (snd e)) c (enveloped_at h)
                 (signed_parts x (today h) dialog s reference (signed_at h) a)).
  Proof.
    exists (control_reference (settings_for x)). split; [apply hex_word_reference|]. intros os Ho h e r E.
    pose proof (after_sound os [] none_wanted [] ltac:(now rewrite app_nil_r)) as [H _]. rewrite app_nil_r in H.
    destruct H as (_&_&_&_&_&_&H). exact (H h e r E).
  Qed.

  (** Accounts succeeds and returns the accounts in all answers to synchronisations and
      initialisations so far, in the order of the messages. *)
  Theorem C58_accounts : forall os, Forall order_ok os -> exists w',
    accounts (client_after os) = (w', Ok (told_accounts letters [] (w_sent w'))).
  Proof.
    intros os Ho. destruct Hperson as (P1&P2&P3). inversion P3 as [|? ? P4 P5]; subst.
    pose proof (after_sound os [] none_wanted [] ltac:(now rewrite app_nil_r)) as H. rewrite app_nil_r in H.
    destruct (accounts_sure parse_float neg value Hfloat x pin render today signed_at enveloped_at letters pick os [] P1 P5 (conj P2 P4) Hclock Hhelp none_wanted Ho _ H)
      as (w'&E&_). now exists w'.
  Qed.

  Lemma contents_fun {X} (f : bytes -> outcome X) id (m : bank_message (oseg (Seg_Model.account_information F))) xs ys :
    contents f id m xs -> contents f id m ys -> xs = ys.
  Proof.
    unfold contents. generalize (segs m id). intros l H. revert ys. induction H as [|s y l xs (raw&->&E) H IH]; intros ys K; inversion K as [|? z ? zs (raw'&E1&E2) K']; subst; [reflexivity|].
    injection E1 as <-. f_equal; [congruence|now apply IH].
  Qed.
  Lemma answered_wire h e m : answered bank oth h e m -> read_response oth (letter_wire (letters (h ++ [e]))) = Ok m.
  Proof. intros (raw&E&Hm). unfold post in E. now injection E as <-. Qed.

  (** AccountBalances against a bank that offers version 5 or 6 and answers with balances:
      one job in one of these versions is sent, and the result is the balances of its answer. *)
  Theorem C58_balances : forall os a all, Forall order_ok (os ++ [OBalances a all]) ->
    serves letters (B "HISALS") [5; 6] -> answers_with letters TBalances (fun l => letter_balances l <> []) ->
    exists w' new h e v,
      account_balances (AAccount (national_value a) all) (client_after os) =
        (w', Ok (map (balance_value value neg) (letter_balances (letters (h ++ [e]))))) /\
      w_sent w' = w_sent (client_after os) ++ new /\ jobs (w_sent (client_after os)) new = [(h, e)] /\
      kind_of e = KJob (job_for (WBalances v a all) []) /\ In v [5; 6].
  Proof.
    intros os a all Ho Hs Ha. destruct Hperson as (P1&P2&P3). inversion P3 as [|? ? P4 P5]; subst.
    assert (Hw : forall id vs, In (id, vs) [(B "HISALS", [5; 6])] -> serves letters id vs).
    { intros id vs [K|[]]. injection K as <- <-. exact Hs. }
    pose proof (after_sound os _ Hw [OBalances a all] Ho) as H.
    destruct (balances_sure parse_float neg value Hfloat x pin render today signed_at enveloped_at letters pick (os ++ [OBalances a all]) _ P1 P5 (conj P2 P4) Hclock Hhelp Hw Ho
                a all _ ltac:(apply in_or_app; right; now left) ltac:(now left) Ha H) as (w'&bs&E).
    set (w := client_after os) in *.
    destruct (C50_balances sign_ok compose bank oth pick bal (AAccount (national_value a) all) w bs ltac:(now rewrite E))
      as (new&[h e]&m&E1&E2&(v&E3)&E4&_&E5&_). rewrite E in E1. cbn [fst snd] in *.
    exists w', new, h, e, v. split; [|split; [exact E1|split; [exact E2|split; [exact E3|]]]].
    - rewrite E. do 2 f_equal. apply (contents_fun _ _ m _ _ E5). apply (C57_balances_in_message parse_float neg value Hfloat); [apply Hhelp|now apply answered_wire].
    - destruct (C30_balances_version sign_ok compose bank oth pick bal (AAccount (national_value a) all) w) as (new'&V1&V2&_).
      destruct (client_init_jobs sign_ok compose bank oth pick w) as [new0 [N1 N2]].
      rewrite E in V1. cbn [fst] in V1. rewrite N1, E1, <- app_assoc in V1. apply app_inv_head in V1. subst new. rewrite jobs_app, N2, <- N1 in E2. cbn [app] in E2.
      specialize (V2 h e _ ltac:(rewrite E2; now left) E3). apply V2.
  Qed.

  (** The bank goes on after every one of the [n] pages that are looked at. *)
  Definition goes_on (n : nat) (js : list (list (entry J) * entry J)) : Prop :=
    List.length js = n /\ Forall (fun j => Exists (fun y => nt_code y = 3040) (letter_notices (letters (fst j ++ [snd j])))) js.
  Lemma mark_notice h e (m : bank_message (oseg (Seg_Model.account_information F))) c : answered bank oth h e m -> continues m c -> c <> [] ->
    Exists (fun y => nt_code y = 3040) (letter_notices (letters (h ++ [e]))).
  Proof.
    intros Hm [[-> _]|(before&y&after&more&E&_&Hy&_)] Hc; [now destruct Hc|].
    apply answered_wire in Hm. destruct (C57_message_delivered parse_float neg value Hfloat (letters (h ++ [e])) ltac:(apply Hhelp)) as (m'&Hm'&_&_&_&_&Ha&_).
    assert (m' = m) by congruence. subst m'.
    assert (Hin : In y (letter_acks (letters (h ++ [e])))) by (rewrite <- Ha, E; apply in_or_app; right; now left).
    destruct (notices_in _ y Hin) as (fm&msg&sg&n&Hn&->). apply Exists_exists. exists n. split; [exact Hn|exact Hy].
  Qed.
  (** SepaAccountBalances against a bank that offers version 7 or 8 and answers with balances of
      accounts with an IBAN: unless the bank goes on and on, the result is the balances of
      all pages, in their order. *)
  Theorem C58_sepa_balances : forall os n a all mark, Forall order_ok (os ++ [OSepaBalances n a all mark]) ->
    serves letters (B "HISALS") [7; 8] ->
    answers_with letters TSepaBalances (fun l => letter_balances l <> [] /\ only_international l) ->
    let r := sepa_account_balances n (ASepa (international_value a) all) (utf8 mark) (client_after os) in
    exists new, w_sent (fst r) = w_sent (client_after os) ++ new /\
      (snd r = None /\ goes_on n (jobs (w_sent (client_after os)) new) \/
       snd r = Some (Ok (flat_map (fun j => sepa_values value neg (letters (fst j ++ [snd j]))) (jobs (w_sent (client_after os)) new)))).
  Proof.
    intros os n a all mark Ho Hs Ha. cbv zeta. destruct Hperson as (P1&P2&P3). inversion P3 as [|? ? P4 P5]; subst.
    assert (Hw : forall id vs, In (id, vs) [(B "HISALS", [7; 8])] -> serves letters id vs).
    { intros id vs [K|[]]. injection K as <- <-. exact Hs. }
    pose proof (after_sound os _ Hw [OSepaBalances n a all mark] Ho) as H.
    pose proof (in_or_app os [OSepaBalances n a all mark] (OSepaBalances n a all mark) (or_intror (or_introl eq_refl))) as Hin.
    assert (Hm : clean_text mark).
    { exact (order_mark _ Ho _ 0 _ _ Hin eq_refl). }
    destruct (sepa_safe parse_float neg value Hfloat x pin render today signed_at enveloped_at letters pick (os ++ [OSepaBalances n a all mark]) _ P1 P5 (conj P2 P4) Hclock Hhelp Hw Ho
                status_in (fun _ => Ok (@nil unit)) n a all mark Hin n mark _ Hm H) as [_ R]. specialize (R (or_introl eq_refl) Ha).
    set (w := client_after os) in *. destruct R as [R|[bs R]].
    - destruct (C29_goes_on_only_after_marks sign_ok compose bank oth pick sbal booked_in clock _ _ _ _ R) as (new&E&L&K). exists new. split; [exact E|left]. split; [exact R|]. split; [exact L|].
      eapply Forall_impl; [|exact K]. intros [h e] (m&c&K1&K2&K3). exact (mark_notice h e m c K1 K2 K3).
    - destruct (C29_result sign_ok compose bank oth pick sbal booked_in clock _ _ _ _ _ R) as (new&ms&pages&E&A1&A2&->&_). exists new. split; [exact E|right]. rewrite R. do 2 f_equal.
      assert (Ht : Forall (fun j => exists y, kind_of (snd j) = KJob y /\ jb_topic y = TSepaBalances) (jobs (w_sent w) new)).
      { destruct (C29_requests sign_ok compose bank oth pick sbal booked_in clock n (ASepa (international_value a) all) (utf8 mark) w) as (new'&E'&Q&_).
        rewrite E in E'. apply app_inv_head in E'. subst new'. eapply Forall_impl; [|exact Q]. intros j (c&v&K). eexists. split; [exact K|reflexivity]. }
      clear -A1 A2 Ha Hhelp Hfloat Ht. revert pages A2. 
      induction A1 as [|[h e] m js ms [B1 _] A1 IH]; intros pages A2; inversion A2 as [|? pg ? pgs [C1 _] A2']; subst; [reflexivity|]. cbn [List.concat flat_map fst snd] in *.
      inversion Ht as [|? ? (y&Hy&Hy') Ht']; subst. f_equal; [|now apply IH].
      destruct (Ha h e y Hy Hy') as [_ Hi]. apply (contents_fun _ _ m _ _ C1).
      apply (C57_sepa_balances_in_message parse_float neg value Hfloat (letters (h ++ [e]))); [apply Hhelp|now apply answered_wire|].
      clear -Hi. unfold sepa_values, only_international in *. induction Hi as [|[vv bb] r [K1 [aa K2]] Hr IH]; [constructor|]. cbn [flat_map fst snd] in *. rewrite K2.
      cbn [app]. constructor; [|exact IH]. cbn [fst snd]. eauto.
  Qed.
  Lemma asks_all (t : topic) (ag : args) (mark : bytes) (js : list (list (entry J) * entry J)) : (forall y l, js = y :: l -> asks t ag mark y) ->
    (forall a y z b, js = a ++ y :: z :: b -> exists c, asks t ag c z) -> Forall (fun y => exists c, asks t ag c y) js.
  Proof.
    intros H1 H2. apply Forall_forall. intros y Hy. apply in_split in Hy. destruct Hy as (l1&l2&E).
    destruct (rev l1) as [|z l] eqn:El.
    - assert (l1 = []) by (rewrite <- (rev_involutive l1), El; reflexivity). subst l1. exists mark. now apply (H1 y l2).
    - assert (l1 = rev l ++ [z]) by (rewrite <- (rev_involutive l1), El; reflexivity). subst l1. apply (H2 (rev l) z y l2). rewrite E, <- app_assoc. reflexivity.
  Qed.
  Lemma transactions_none n ag mark tick w : go_sort sort -> (forall i j, (i < j)%nat -> clock i < clock j) ->
    snd (account_transactions n ag mark tick w) = None ->
    exists new, w_sent (fst (account_transactions n ag mark tick w)) = w_sent w ++ new /\ goes_on n (jobs (w_sent w) new).
  Proof.
    intros HS HC H. unfold Client_Model.account_transactions, transactions in *.
    destruct (client_init_jobs sign_ok compose bank oth pick w) as [new0 [E0 N0]].
    destruct (client_init sign_ok compose bank oth pick w) as [w1 [[]| |]]; cbn [fst snd] in E0, H |- *; try discriminate.
    destruct (transaction_steps sign_ok compose bank oth pick sbal booked_in sort clock HS HC n TTransactions transaction_builder ag mark tick w1)
      as [r [[new [E [_ [_ [HN _]]]]] R]].
    destruct (transaction_pages sign_ok compose bank oth pick booked_in sort clock n TTransactions transaction_builder ag mark tick w1) as [w2 [r2|]]; cbn [fst snd] in *; [discriminate|].
    destruct r as [[ps| |]|]; try contradiction. destruct (HN eq_refl) as [L K].
    exists (new0 ++ new). split; [rewrite E, E0, app_assoc; reflexivity|]. rewrite jobs_app, N0, <- E0. cbn [app]. split; [exact L|].
    eapply Forall_impl; [|exact K]. intros [h e] (m&c&M1&_&M2&M3). exact (mark_notice h e m c M1 M2 M3).
  Qed.
  (** The booked data of a message: statements in the MT940 format. *)
  Definition carries (ss : list Mt940_Spec.stmt) (l : letter) : Prop :=
    List.concat (letter_booked l) = Mt940_Props.written ss /\ ss <> [] /\
    Forall (Mt940_Spec.stmt_ok (fun m => exists y, parse_float (Mt940_Spec.dotted m) = Some y) now) ss.
  (** AccountTransactions against a bank that offers version 5 or 6 and answers with
      statements: unless the bank goes on and on, the result is the entries of the
      statements of all pages, each once, in their order. *)
  Theorem C58_transactions : forall (stmts : letter -> list Mt940_Spec.stmt) os n a from to all mark tick,
    Forall order_ok (os ++ [OTransactions n a from to all mark tick]) ->
    1000 <= now <= 9999 -> go_sort sort -> (forall i j, (i < j)%nat -> clock i < clock j) ->
    serves letters (B "HIKAZS") [5; 6] ->
    answers_with letters TTransactions (fun l => carries (stmts l) l) ->
    let r := account_transactions n (ARange (national_value a) (mkTf (given from) (given to)) all) (utf8 mark) tick (client_after os) in
    exists new, w_sent (fst r) = w_sent (client_after os) ++ new /\
      (snd r = None /\ goes_on n (jobs (w_sent (client_after os)) new) \/
       exists txs, snd r = Some (Ok txs) /\
         Forall2 (fun sp t => Mt940_Spec.delivers parse_float neg (fst sp) (snd sp) t)
           (Mt940_Props.all_entries (flat_map (fun j => stmts (letters (fst j ++ [snd j]))) (jobs (w_sent (client_after os)) new))) txs).
  Proof.
    intros stmts os n a from to all mark tick Ho Hnow HS HC Hs Ha. cbv zeta. destruct Hperson as (P1&P2&P3). inversion P3 as [|? ? P4 P5]; subst.
    set (o := OTransactions n a from to all mark tick) in *.
    assert (Hw : forall id vs, In (id, vs) [(B "HIKAZS", [5; 6])] -> serves letters id vs).
    { intros id vs [K|[]]. injection K as <- <-. exact Hs. }
    pose proof (after_sound os _ Hw [o] Ho) as H.
    pose proof (in_or_app os [o] o (or_intror (or_introl eq_refl))) as Hin.
    assert (Hm : clean_text mark) by exact (order_mark _ Ho _ 0 _ _ Hin eq_refl).
    set (w := client_after os) in *. set (ag := ARange (national_value a) (mkTf (given from) (given to)) all) in *.
    pose (plain := Client_Model.account_transactions sign_ok compose bank oth pick booked_in (fun d => Ok [d]) sort clock).
    assert (Hj : forall v t, clean_text t -> orderly (os ++ [o]) (mkJob TTransactions v ag (utf8 t))).
    { intros v t Ht. exact (order_orderly _ Ho o v _ mark t Hin eq_refl Ht). }
    assert (Hf : finds x pin today signed_at enveloped_at letters (os ++ [o]) [(B "HIKAZS", [5; 6])] (F:=F) transaction_builder).
    { intros w1 H1. destruct (build_some x pin today signed_at enveloped_at letters (os ++ [o]) [(B "HIKAZS", [5; 6])] w1 (B "HIKAZS") [5; 6] transaction_table H1 (or_introl eq_refl) ltac:(repeat constructor) ltac:(cbn; tauto)) as (v&K&_).
      exists v. exact K. }
    assert (Q : snd (plain n ag (utf8 mark) tick w) = None \/ exists d, snd (plain n ag (utf8 mark) tick w) = Some (Ok [d])).
    { exact (proj2 (transactions_safe parse_float neg value Hfloat x pin render today signed_at enveloped_at letters pick (os ++ [o]) _ P1 P5 (conj P2 P4) Hclock Hhelp Hw Ho
        status_in (fun d => Ok [d]) sort clock TTransactions transaction_builder ag Hj n mark tick w Hm H) Hf). }
    assert (Same : fst (account_transactions n ag (utf8 mark) tick w) = fst (plain n ag (utf8 mark) tick w) /\
      match snd (plain n ag (utf8 mark) tick w) with
      | None => snd (account_transactions n ag (utf8 mark) tick w) = None
      | Some (Ok [d]) => snd (account_transactions n ag (utf8 mark) tick w) = Some (read_mt940 d)
      | _ => True
      end).
    { unfold plain, Client_Model.account_transactions, transactions. destruct (client_init sign_ok compose bank oth pick w) as [w1 [[]| |]]; try (split; [reflexivity|exact I]).
      destruct (transaction_pages sign_ok compose bank oth pick booked_in sort clock n TTransactions transaction_builder ag (utf8 mark) tick w1) as [w2 [[[m k]| |]|]]; cbn; split; reflexivity || exact I. }
    destruct Same as [S1 S2]. destruct Q as [Q|[d Q]]; rewrite Q in S2.
    - destruct (transactions_none n ag (utf8 mark) tick w HS HC S2) as (new&E&K). exists new. split; [exact E|]. left. split; assumption.
    - destruct (C29_transactions sign_ok compose bank oth pick sbal booked_in (fun d => Ok [d]) sort clock n ag (utf8 mark) tick w [d] HS HC Q)
        as (new&ms&pages&E&A1&A2&A3&A4&A5&(before&last&A6&_)).
      exists new. split; [rewrite S1; exact E|]. right. injection A5 as A5. rewrite S2. clear S1 S2 Q Hf Hj.
      assert (Ht : Forall (fun y => exists c, asks TTransactions ag c y) (jobs (w_sent w) new)).
      { apply (asks_all _ _ (utf8 mark)); [exact A1|]. intros a0 y z b K. destruct (A2 a0 y z b K) as (m&c&_&_&_&_&K'). now exists c. }
      assert (G : List.concat (List.concat pages) = Mt940_Props.written (flat_map (fun j => stmts (letters (fst j ++ [snd j]))) (jobs (w_sent w) new)) /\
        Forall (Mt940_Spec.stmt_ok (fun m => exists y, parse_float (Mt940_Spec.dotted m) = Some y) now) (flat_map (fun j => stmts (letters (fst j ++ [snd j]))) (jobs (w_sent w) new)) /\
        (ms <> [] -> flat_map (fun j => stmts (letters (fst j ++ [snd j]))) (jobs (w_sent w) new) <> [])).
      { clear -A3 A4 Ht Ha Hhelp Hfloat. revert pages A4. induction A3 as [|[h e] m js ms [B1 _] A3 IH]; intros pages A4; inversion A4 as [|? pg ? pgs C1 A4']; subst.
        - split; [reflexivity|]. split; [constructor|]. intros K. now destruct K.
        - inversion Ht as [|? ? (c&v&Hk) Ht']; subst. destruct (IH Ht' _ A4') as (I1&I2&_). cbn [fst snd flat_map List.concat] in *.
          destruct (Ha h e _ Hk eq_refl) as (W1&W2&W3).
          assert (pg = letter_booked (letters (h ++ [e]))).
          { apply (contents_fun _ _ m _ _ C1). apply (C57_booked_in_message parse_float neg value Hfloat); [apply Hhelp|now apply answered_wire]. }
          subst pg. rewrite concat_app, W1, I1. unfold Mt940_Props.written. rewrite map_app, concat_app. split; [reflexivity|].
          split; [apply Forall_app; split; assumption|]. intros _ K. apply app_eq_nil in K. tauto. }
      destruct G as (G1&G2&G3). rewrite <- A5, G1.
      destruct (Mt940_Props.C46_every_entry_once parse_float neg other_digit now zero Hnow _ (G3 ltac:(rewrite A6; now destruct before)) G2) as (ts&T1&T2).
      exists ts. rewrite T1. split; [reflexivity|exact T2].
  Qed.
End C58.

(** ** A bank *)
Definition a_letter (ps : list piece) : letter :=
  mkLetter 1234 300 (B "abc=1+2") 1 (Some (B "0", 1)) (Some (3, [[TText (B "PIN"); TNumber 1]; [TNumber 998]])) ps 15.
(** to synchronisations and initialisations *)
Definition welcome : letter := a_letter
  [mkPiece 2 None (IMessage sample_notices); mkPiece 3 (Some 4) (ISegment [mkNotice 20 [] (B "Auftrag ok") []]);
   mkPiece 4 (Some 5) (ISync 4 (B "sys'tem") None None); mkPiece 5 (Some 3) (IBank 3 sample_bank);
   mkPiece 6 (Some 3) (offer (B "HISALS") 6); mkPiece 7 (Some 3) (offer (B "HISALS") 7); mkPiece 8 (Some 3) (offer (B "HIKAZS") 6);
   mkPiece 9 (Some 3) (IPins 1 1 0 sample_pins); mkPiece 10 (Some 3) (ITans 1 1 (B "1") true false [] sample_tans);
   mkPiece 11 (Some 3) (IUser 4 sample_user); mkPiece 12 (Some 3) (IAccount 5 sample_account);
   mkPiece 13 None (IKept (KNews (B "Hinweis") (B "Wartung am 1.1.")))].
Definition goodbye : letter := a_letter [mkPiece 2 None (IMessage [mkNotice 100 [] (B "Dialog beendet") []])].
(** to requests for balances and for transactions: there is a second page *)
Definition go_on : info := ISegment [mkNotice 3040 [] (B "Es liegen weitere Daten vor") [B "seite=2"]].
Definition balances_1 : letter := a_letter [mkPiece 2 (Some 4) go_on; mkPiece 3 (Some 4) (IBalances 8 sample_balances)].
Definition balances_2 : letter := a_letter [mkPiece 3 (Some 4) (IBalances 8 sample_balances)].
Definition booked_1 : letter := a_letter
  [mkPiece 2 (Some 4) go_on; mkPiece 3 (Some 4) (IBooked 6 (Mt940_Props.written (firstn 1 Mt940_Props.ex_stmts)) None)].
Definition booked_2 : letter := a_letter [mkPiece 3 (Some 4) (IBooked 6 (Mt940_Props.written (skipn 1 Mt940_Props.ex_stmts)) None)].
Definition demo_letter (k : kind (Client_Model.job args)) : letter :=
  match k with
  | KSync _ | KInit _ _ _ _ => welcome
  | KJob (mkJob TTransactions _ _ []) => booked_1
  | KJob (mkJob TTransactions _ _ _) => booked_2
  | KJob (mkJob TSepaBalances _ _ []) => balances_1
  | KJob (mkJob _ _ _ _) => balances_2
  | _ => goodbye
  end.
Definition demo_letters (h : list (entry (Client_Model.job args))) : letter :=
  match rev h with e :: _ => demo_letter (kind_of e) | [] => goodbye end.
Definition demo_stmts (l : letter) : list Mt940_Spec.stmt :=
  if (List.length (lt_pieces l) =? 2)%nat then firstn 1 Mt940_Props.ex_stmts else skipn 1 Mt940_Props.ex_stmts.

Lemma demo_last h e : demo_letters (h ++ [e]) = demo_letter (kind_of e).
Proof. unfold demo_letters. now rewrite rev_app_distr. Qed.
Lemma a_letter_ok ps : Forall (fun p => 1 <= pc_pos p <= 15 /\ (pc_ref p = None \/ exists n, pc_ref p = Some n /\ 1 <= n <= 5) /\ info_ok (pc_info p)) ps ->
  Z.of_nat (List.length (letter_wire (a_letter ps))) < 2 ^ 48 -> letter_ok (a_letter ps).
Proof.
  intros H Hl. unfold letter_ok, letter_form, a_letter. cbn [lt_version lt_size lt_number lt_dialog lt_reply lt_envelope lt_pieces lt_last opt_ok].
  split; [now right|]. split; [unfold number_ok; lia|]. split; [unfold number_ok; lia|]. split; [prove_item|]. split; [discriminate|].
  split; [split; [prove_items|prove_groupable]|]. split; [split; [cbn; lia|]|].
  { constructor; [prove_items|]. constructor; [prove_items|constructor]. }
  split; [|split; [unfold header_ok; lia|exact Hl]]. eapply Forall_impl; [|exact H]. intros [pos ref i] (Hp&Hr&Hi). cbn [pc_pos pc_ref pc_info] in *.
  split; [|exact Hi]. destruct Hr as [-> | (n & -> & Hn)]; unfold header_ok; cbn [pc_pos pc_ref]; lia.
Qed.
Ltac prove_pieces := repeat (apply Forall_cons; [cbn [pc_pos pc_ref pc_info]; split; [lia|split; [first [now left|right; eexists; split; [reflexivity|lia]]|]]|]); try apply Forall_nil.
Ltac prove_notices := repeat (apply Forall_cons; [split; [cbn; lia|]; split; [split; [prove_items|prove_groupable]|discriminate]|]); try apply Forall_nil.
Lemma go_on_ok : info_ok go_on.
Proof. unfold go_on, info_ok. prove_notices. Qed.
Lemma demo_letter_ok k : letter_ok (demo_letter k).
Proof.
  assert (W : letter_ok welcome).
  { apply a_letter_ok; [|vm_compute; reflexivity]. destruct C54_witness as (_&Wu&Wb&_). destruct C55_witness as (_&Wp&Wt&_). prove_pieces.
    - unfold info_ok, sample_notices. prove_notices.
    - unfold info_ok. prove_notices.
    - split; [lia|]. split; [prove_item|]. split; [discriminate|]. split; exact I.
    - split; [lia|exact Wb].
    - apply offer_ok; [now left|lia].
    - apply offer_ok; [now left|lia].
    - apply offer_ok; [now right|lia].
    - split; [unfold number_ok; lia|]. split; [unfold number_ok; lia|]. split; [unfold number_ok; lia|exact Wp].
    - split; [unfold number_ok; lia|]. split; [unfold number_ok; lia|]. split; [prove_item|exact Wt].
    - split; [lia|exact Wu].
    - split; [lia|]. split; [exact sample_account_ok|discriminate].
    - split; [|reflexivity]. split; [|exact I]. repeat (apply Forall_cons; [prove_items|]). apply Forall_nil. }
  assert (G : letter_ok goodbye) by (apply a_letter_ok; [prove_pieces; unfold info_ok; prove_notices|vm_compute; reflexivity]).
  assert (A1 : letter_ok balances_1).
  { apply a_letter_ok; [prove_pieces; [exact go_on_ok|split; [lia|exact sample_balances_ok]]|vm_compute; reflexivity]. }
  assert (A2 : letter_ok balances_2).
  { apply a_letter_ok; [prove_pieces; split; [lia|exact sample_balances_ok]|vm_compute; reflexivity]. }
  assert (B1 : letter_ok booked_1).
  { apply a_letter_ok; [prove_pieces; [exact go_on_ok|split; [lia|split; [vm_compute; discriminate|exact I]]]|vm_compute; reflexivity]. }
  assert (B2 : letter_ok booked_2).
  { apply a_letter_ok; [prove_pieces; split; [lia|split; [vm_compute; discriminate|exact I]]|vm_compute; reflexivity]. }
  destruct k as [c|c sy bp up|[[] v ag [|b m]]|d]; assumption.
Qed.
Lemma demo_friendly k : friendly (demo_letter k).
Proof.
  split; [apply demo_letter_ok|].
  assert (K : forall l, In l [welcome; goodbye; balances_1; balances_2; booked_1; booked_2] ->
    Forall (fun n => nt_code n < 9000) (letter_notices l) /\
    Forall clean_text (lt_dialog l :: flat_map (fun p => returned_texts (pc_info p)) (lt_pieces l)) /\
    Forall (fun n => nt_code n = 3040 -> nt_params n <> []) (letter_notices l) /\
    Forall (fun p => match pc_info p with IKept (KNews subject body) => subject <> [] /\ body <> [] | _ => True end) (lt_pieces l) /\
    (forall fs, functions_of (lt_pieces l) = Some fs ->
     Forall (fun n => nt_code n = 3920 -> exists f, In f (nt_params n) /\ In f fs /\ forallb is_digit f = true) (letter_notices l))).
  { intros l Hl. cbn [In] in Hl. repeat (destruct Hl as [<-|Hl]; [split; [|split; [|split; [|split]]]|]); try contradiction;
    try (repeat (apply Forall_cons; [vm_compute; reflexivity|]); apply Forall_nil);
    try (repeat (apply Forall_cons; [apply clean_rev; vm_compute; try exact I; split; discriminate|]); apply Forall_nil);
    try (repeat (apply Forall_cons; [vm_compute; discriminate|]); apply Forall_nil);
    try (repeat (apply Forall_cons; [first [exact I|split; discriminate]|]); apply Forall_nil);
    try (intros fs Hf; discriminate Hf).
    intros fs Hf. injection Hf as <-. repeat (apply Forall_cons; [try (vm_compute; discriminate)|]); try apply Forall_nil.
    intros _. exists (B "942"). split; [now left|]. split; [now left|reflexivity]. }
  apply K. destruct k as [c|c sy bp up|[[] v ag [|b m]]|d]; cbn; tauto.
Qed.
Lemma demo_tells k : tells_parameters (demo_letter k) -> demo_letter k = welcome.
Proof.
  intros (p&v&b&Hp&E).
  destruct k as [c|c sy bp up|[[] v1 ag [|b1 m]]|d]; try reflexivity; cbn in Hp;
  repeat (destruct Hp as [<-|Hp]; [discriminate E|]); contradiction.
Qed.
Example C58_witness :
  person_ok demo_who (B "12") /\ clock_ok (fun _ => demo_day) (fun _ => demo_moment) (fun _ => demo_moment) /\
  helpful demo_letters /\ serves demo_letters (B "HISALS") [5; 6] /\ serves demo_letters (B "HISALS") [7; 8] /\
  serves demo_letters (B "HIKAZS") [5; 6] /\
  answers_with demo_letters TBalances (fun l => letter_balances l <> []) /\
  answers_with demo_letters TSepaBalances (fun l => letter_balances l <> [] /\ only_international l) /\
  answers_with demo_letters TTransactions (fun l => carries sample_float 2016 (demo_stmts l) l) /\
  Forall order_ok [OAccounts; OBalances demo_account false; OSepaBalances 5 (mkInt (B "DE89370400440532013000") [] [] [] None) true [];
                   OTransactions 5 demo_account (Some (mkDate 2024 2 1)) None false [] 0].
Proof.
  split; [|split; [|split; [|split; [|split; [|split; [|split; [|split; [|split]]]]]]]].
  - split; [discriminate|]. split; [discriminate|]. repeat (apply Forall_cons; [apply clean_rev; vm_compute; try exact I; split; discriminate|]). apply Forall_nil.
  - intros h. vm_compute. repeat split; try discriminate; reflexivity.
  - intros h e. rewrite demo_last. split; [apply demo_friendly|]. intros c ->. split.
    + exists (mkPiece 4 (Some 5) (ISync 4 (B "sys'tem") None None)). eexists _, _, _, _. split; [|reflexivity]. cbn [demo_letter welcome a_letter lt_pieces In]. tauto.
    + exists (mkPiece 5 (Some 3) (IBank 3 sample_bank)). eexists _, _. split; [|reflexivity]. cbn [demo_letter welcome a_letter lt_pieces In]. tauto.
  - intros h e. rewrite demo_last. intros K. rewrite (demo_tells _ K). exists 6. split; [cbn; tauto|]. vm_compute. tauto.
  - intros h e. rewrite demo_last. intros K. rewrite (demo_tells _ K). exists 7. split; [cbn; tauto|]. vm_compute. tauto.
  - intros h e. rewrite demo_last. intros K. rewrite (demo_tells _ K). exists 6. split; [cbn; tauto|]. vm_compute. tauto.
  - intros h e [t v ag m]. rewrite demo_last. intros -> K. cbn in K. subst t. discriminate.
  - intros h e [t v ag m]. rewrite demo_last. intros -> K. cbn in K. subst t.
    assert (O : forall l, letter_balances l = [(8, sample_balances)] -> letter_balances l <> [] /\ only_international l).
    { intros l E. unfold only_international. rewrite E. split; [discriminate|]. apply Forall_cons; [|apply Forall_nil]. cbn [fst snd]. split; [lia|]. now eexists. }
    destruct m; apply O; reflexivity.
  - intros h e [t v ag m]. rewrite demo_last. intros -> K. cbn in K. subst t.
    pose proof Mt940_Props.ex_stmts_ok as S. change Mt940_Props.ex_parse with sample_float in S.
    destruct m; (split; [apply app_nil_r|]); (split; [discriminate|]);
    rewrite <- (firstn_skipn 1) in S; apply Forall_app in S; apply S.
  - assert (K : forall o, match order_wish o 0 with
                          | None => True
                          | Some (w, mark) => wish_ok w /\ forallb (fun t => match rev t with ":"%byte :: _ | "+"%byte :: _ => false | _ => true end) (mark :: wish_texts w) = true /\ Forall real_date (wish_dates w)
                          end -> order_ok o).
    { intros o. unfold order_ok. destruct (order_wish o 0) as [[w mark]|]; [|trivial]. intros (K1&K2&K3). split; [exact K1|]. split; [|exact K3].
      rewrite forallb_forall in K2. apply Forall_forall. intros t Ht. specialize (K2 t Ht). apply clean_rev. destruct (rev t) as [|[] r]; try exact I; try discriminate; split; discriminate. }
    repeat (apply Forall_cons; [apply K; cbn [order_wish wish_ok wish_dates app]; try exact I|]); try apply Forall_nil.
    + split; [exact I|]. split; [reflexivity|constructor].
    + split; [exact I|]. split; [reflexivity|constructor].
    + split; [split; discriminate|]. split; [reflexivity|]. apply Forall_cons; [vm_compute; repeat split; discriminate|constructor].
Qed.
(** Both pages are fetched; Accounts before it synchronised, initialised and ended twice. *)
Example C58_run :
  let sign := request_sign (fun _ => []) (settings_for demo_who) (fun _ => demo_day) (fun _ => demo_moment) in
  let comp := request_bytes (fun _ => []) (settings_for demo_who) (fun _ => demo_day) (fun _ => demo_moment) (fun _ => demo_moment) in
  let c := client_after sample_float sample_neg demo_who (B "12") (fun _ => []) (fun _ => demo_day) (fun _ => demo_moment) (fun _ => demo_moment)
    demo_letters (fun _ => O) (fun _ => @Ok unit tt) (fun _ => false) 2016 (B "0") (fun l => l) Z.of_nat [OAccounts] in
  let r := sepa_account_balances sign comp (post demo_letters) (others sample_float sample_neg) (fun _ => O) (sepa_balance_in sample_float sample_neg) 2
    (ASepa (international_value (mkInt (B "DE89370400440532013000") [] [] [] None)) true) [] c in
  (option_map (omap (@List.length _)) (snd r), List.length (w_sent (fst r))) = (Some (Ok 2%nat), 10%nat).
Proof. vm_compute. reflexivity. Qed.

Print Assumptions C58_sent.
Print Assumptions C58_accounts.
Print Assumptions C58_balances.
Print Assumptions C58_sepa_balances.
Print Assumptions C58_transactions.
