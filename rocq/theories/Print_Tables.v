(** * C69: the printed tables of balances, transactions and accounts *)
From Coq Require Import Lia ZifyBool ZifyNat.
From Verif Require Import Base BaseFacts Codec_Model Time_Model Seg_Model Mt940_Model Print_Model Print_Spec Print_Facts Print_Facts2 Print_Props.
Open Scope nat_scope.

Lemma narrow_gap lead n w : write_padding narrow n w lead = spaces lead n w.
Proof. unfold write_padding, spaces, ceil_div, narrow. cbn [padchar tabwidth Nat.eqb]. destruct lead; cbn [orb beq]; [|reflexivity]. rewrite !Nat.div_1_r, Nat.mul_1_r. unfold b_tab. replace (w + 1 - 1 - n + 1 - 1) with (w - n) by lia. reflexivity. Qed.
Lemma wide_gap lead n w : write_padding wide n w lead = spaces lead n w.
Proof. unfold write_padding, spaces, ceil_div, wide. cbn [padchar tabwidth Nat.eqb]. destruct lead; cbn [orb beq]; [|reflexivity]. rewrite !Nat.div_1_r, Nat.mul_1_r. unfold b_tab. replace (w + 1 - 1 - n + 1 - 1) with (w - n) by lia. reflexivity. Qed.
Lemma laid_gap bar gap gap' w r : (forall lead n cw, gap lead n cw = gap' lead n cw) -> forall j lead, laid bar gap w j lead r = laid bar gap' w j lead r.
Proof. intros H. induction r as [|t r IH]; intros j lead; [reflexivity|]. destruct r as [|t2 r]; [reflexivity|]. cbn [laid]. rewrite H. do 3 f_equal. apply IH. Qed.
Lemma lines_ext f g rows : (forall r, f r = g r) -> lines f rows = lines g rows.
Proof. intros H. unfold lines. induction rows as [|r rows IH]; [reflexivity|]. cbn. now rewrite H, IH. Qed.

(** Rows of one cell, a header, rows of [n] cells, rows of one cell. *)
Lemma table_connected pre (head : row) body post n :
  Forall (fun r : row => List.length r <= 1) pre -> List.length head <= n -> Forall (fun r : row => List.length r = n) body ->
  Forall (fun r : row => List.length r <= 1) post -> connected (pre ++ head :: body ++ post).
Proof.
  intros Hp Hh Hb Hq j i m k r1 r r2 L H1 H H2 A1 A2. unfold aligned in *.
  assert (P : forall i r, nth_error (pre ++ head :: body ++ post) i = Some r -> j + 1 < List.length r ->
            (i = List.length pre /\ r = head) \/ (List.length pre < i < S (List.length pre + List.length body) /\ List.length r = n)).
  { clear - Hp Hb Hq. intros i r E A. rewrite Forall_forall in Hp, Hb, Hq. destruct (Nat.lt_ge_cases i (List.length pre)) as [G|G].
    - rewrite nth_error_app1 in E by exact G. apply nth_error_In in E. specialize (Hp _ E). lia.
    - rewrite nth_error_app2 in E by exact G. destruct (i - List.length pre) as [|q] eqn:Eq; [left; injection E as <-; split; [lia|reflexivity]|]. cbn [nth_error] in E.
      destruct (Nat.lt_ge_cases q (List.length body)) as [G2|G2].
      + rewrite nth_error_app1 in E by exact G2. apply nth_error_In in E. specialize (Hb _ E). right. split; [lia|exact Hb].
      + rewrite nth_error_app2 in E by exact G2. apply nth_error_In in E. specialize (Hq _ E). lia. }
  destruct (P i r1 H1 A1) as [[E1 ->]|[E1 L1]]; destruct (P k r2 H2 A2) as [[E2 ->]|[E2 L2]].
  - assert (m = i) by lia. subst m. congruence.
  - destruct (Nat.eq_dec m i) as [->|D]; [congruence|].
    rewrite nth_error_app2 in H by lia. destruct (m - List.length pre) as [|q] eqn:Eq; [lia|]. cbn [nth_error] in H.
    rewrite nth_error_app1 in H by lia. apply nth_error_In in H. rewrite Forall_forall in Hb. rewrite (Hb _ H). lia.
  - lia.
  - rewrite nth_error_app2 in H by lia. destruct (m - List.length pre) as [|q] eqn:Eq; [lia|]. cbn [nth_error] in H.
    rewrite nth_error_app1 in H by lia. apply nth_error_In in H. rewrite Forall_forall in Hb. rewrite (Hb _ H). lia.
Qed.
Lemma filter_short j rows : Forall (fun r : row => List.length r <= 1) rows -> filter (alignedb j) rows = [].
Proof.
  induction 1 as [|r rows Hr _ IH]; [reflexivity|]. cbn [filter]. replace (alignedb j r) with false by (unfold alignedb; symmetry; apply Nat.ltb_ge; lia). exact IH.
Qed.
Lemma filter_long j n rows : Forall (fun r : row => List.length r = n) rows -> j + 1 < n -> filter (alignedb j) rows = rows.
Proof.
  intros H L. induction H as [|r rows Hr _ IH]; [reflexivity|]. cbn [filter]. replace (alignedb j r) with true by (unfold alignedb; symmetry; apply Nat.ltb_lt; lia). now rewrite IH.
Qed.
(** The columns of such a table *)
Lemma table cfg pre head body post open n : 2 <= List.length head <= n ->
  Forall (fun r : row => List.length r <= 1) pre -> Forall (fun r : row => List.length r = n) body -> Forall (fun r : row => List.length r <= 1) post ->
  List.length (open_row open) <= 1 -> Forall clean_row (pre ++ head :: body ++ post) -> clean_row open ->
  exists w : nat -> nat,
    (forall j, j + 1 < List.length head -> widest (minwidth cfg) j (head :: body) (w j)) /\
    (forall j, List.length head <= j + 1 < n -> body <> [] -> widest (minwidth cfg) j body (w j)) /\
    tabulate cfg (written (pre ++ head :: body ++ post) open) =
      let one := laid (if debug cfg then [x7c] else []) (fun lead n cw => write_padding cfg n cw lead) w 0 (tab_indent cfg) in
      lines one pre ++ lines one (head :: body) ++ lines one post ++ one (open_row open).
Proof.
  intros Hn Hp Hb Hq Hl Hc Ho.
  assert (E : (pre ++ head :: body ++ post) ++ [open_row open] = pre ++ head :: body ++ (post ++ [open_row open])) by (rewrite <- app_assoc; cbn [app]; now rewrite <- app_assoc).
  assert (Hq2 : Forall (fun r : row => List.length r <= 1) (post ++ [open_row open])) by (apply Forall_app; split; [exact Hq|constructor; [exact Hl|constructor]]).
  destruct (C69_table cfg (pre ++ head :: body ++ post) open Hc Ho) as (w&Hw&T).
  { rewrite E. now apply table_connected with n. }
  exists w. rewrite E in Hw.
  assert (F : forall j, j + 1 < n -> filter (alignedb j) (pre ++ head :: body ++ post ++ [open_row open]) = (if alignedb j head then [head] else []) ++ body).
  { intros j Lj. rewrite filter_app, filter_short by exact Hp. cbn [app filter]. rewrite filter_app, (filter_short j _ Hq2), app_nil_r, (filter_long j n) by assumption.
    now destruct (alignedb j head). }
  split; [|split].
  - intros j Hj. specialize (Hw j). rewrite F in Hw by lia. unfold alignedb in Hw. destruct (j + 1 <? List.length head) eqn:Ej; [|apply Nat.ltb_ge in Ej; lia].
    apply Hw. exists head. split; [apply in_or_app; right; now left|exact Hj].
  - intros j Hj Nb. specialize (Hw j). rewrite F in Hw by lia. unfold alignedb in Hw. destruct (j + 1 <? List.length head) eqn:Ej; [apply Nat.ltb_lt in Ej; lia|].
    apply Hw. destruct body as [|r body]; [contradiction|]. exists r. split; [apply in_or_app; right; right; now left|]. unfold aligned. inversion Hb; lia.
  - rewrite T. cbv zeta. unfold lines. rewrite flat_map_app. cbn [flat_map]. rewrite flat_map_app. now rewrite <- !app_assoc.
Qed.

(** What identifies an account in a table *)
Definition bank_and_account (a : account_connection) : bytes * bytes := (Seg_Model.ac_bank a, Seg_Model.ac_account a).
Definition bic_and_iban (a : intl_connection) : bytes * bytes := (ic_bic a, ic_iban a).
Section Tables.
  Context {F : Type}.
  Variable fixed2 : F -> bytes.
  Variable nonzero : F -> bool.
  Variable day : Z -> bytes.

  (** ** Balances *)
  Definition sum (a : amount F) : bytes := fixed2 (am_value a) ++ B " " ++ am_currency a.
  (** What a line says: product, the account, an empty cell, the day and the amount of the
      booked balance, the earmarked amount in parentheses unless it is zero, the credit line. *)
  Definition balance_row {A} (ids : A -> bytes * bytes) (a : account_balance F A) : row :=
    [bl_product a; fst (ids (bl_account a)); snd (ids (bl_account a)); []; day (Seg_Model.ba_date (bl_booked a));
     sum (Seg_Model.ba_amount (bl_booked a)) ++
       match bl_earmarked a with
       | Some e => if nonzero (am_value (Seg_Model.ba_amount e)) then B " (" ++ sum (Seg_Model.ba_amount e) ++ B ")*" else []
       | None => []
       end;
     match bl_credit a with Some c => sum c | None => B " - " end;
     []].
  Definition balance_head (names : bytes * bytes) : row := [B "Product Name"; fst names; snd names; []; B "BookingDate"; B "Amount"; B "Limit"].
  Definition note {A} (l : list (account_balance F A)) : bytes :=
    if existsb (fun a => match bl_earmarked a with Some e => nonzero (am_value (Seg_Model.ba_amount e)) | None => false end) l
    then B "* earmarked transactions" ++ [x0a] else [].

  Lemma balances_table {A} (ids : A -> bytes * bytes) names l : clean (fst names) -> clean (snd names) ->
    Forall (fun a => Forall clean (balance_row ids a)) l ->
    exists w,
      (forall j, j < 6 -> widest 20 j (balance_head names :: map (balance_row ids) l) (w j)) /\
      (l <> [] -> widest 20 6 (map (balance_row ids) l) (w 6)) /\
      balances_string_ fixed2 nonzero day ids names l =
        [x0a] ++ lines (spaced w) (balance_head names :: map (balance_row ids) l) ++ note l.
  Proof.
    intros N1 N2 Hl.
    destruct (table narrow [[[]]] (balance_head names) (map (balance_row ids) l) [] [[]] 8) as (w&W1&W2&T).
    - cbn. lia.
    - repeat constructor.
    - apply Forall_forall. intros r Hr. apply in_map_iff in Hr. destruct Hr as (a&<-&_). reflexivity.
    - constructor.
    - cbn. lia.
    - cbn [app]. rewrite app_nil_r. constructor; [split; [discriminate|repeat constructor]|]. constructor.
      + split; [discriminate|]. unfold balance_head. repeat (apply Forall_cons || apply Forall_nil); try assumption; repeat constructor; try discriminate.
      + apply Forall_forall. intros r Hr. apply in_map_iff in Hr. destruct Hr as (a&<-&Ha). split; [discriminate|]. rewrite Forall_forall in Hl. now apply Hl.
    - split; [discriminate|repeat constructor].
    - exists w. split; [|split].
      + intros j Hj. apply W1. cbn. lia.
      + intros Nl. apply W2; [cbn; lia|]. now destruct l.
      + unfold balances_string_. change (existsb (earmarked nonzero) l) with (existsb (fun a => match bl_earmarked a with Some e => nonzero (am_value (Seg_Model.ba_amount e)) | None => false end) l).
        fold (note l).
        assert (E : [b_nl] ++ tabs [B "Product Name"; fst names; snd names; []; B "BookingDate"; B "Amount"; B "Limit"] ++ [b_nl] ++ flat_map (balance_line fixed2 nonzero day ids) l =
          written ([[[]]] ++ balance_head names :: map (balance_row ids) l ++ []) [[]]).
        { unfold written. cbn [app flat_map]. rewrite !app_nil_r. rewrite <- !app_assoc. cbn [join app]. f_equal. unfold tabs, balance_head, b_tab.
          f_equal. cbn [app]. f_equal. clear. induction l as [|a l IH]; [reflexivity|]. cbn [map flat_map]. rewrite IH. f_equal.
          unfold balance_line, balance_row, b_tab, b_nl. cbn [join]. unfold amount_text, money, sum. rewrite <- !app_assoc. cbn [app]. reflexivity. }
        rewrite E. etransitivity; [exact (f_equal (fun x => x ++ note l) T)|]. cbv zeta. cbn [debug narrow tab_indent]. rewrite <- !app_assoc.
        apply (f_equal2 (@app byte)); [reflexivity|]. apply (f_equal2 (@app byte)); [|reflexivity].
        apply lines_ext. intros r. unfold spaced. apply laid_gap. intros. apply narrow_gap.
  Qed.

  (** What the balances of accounts print: an empty line, the header and one line per balance,
      every value complete and in its column; the columns are as wide as their longest value,
      at least 20; a footnote if an amount is earmarked. *)
  Theorem C69_balances : forall l, Forall (fun a => Forall clean (balance_row bank_and_account a)) l ->
    exists w,
      (forall j, j < 6 -> widest 20 j (balance_head (B "BankID", B "AccountID") :: map (balance_row bank_and_account) l) (w j)) /\
      (l <> [] -> widest 20 6 (map (balance_row bank_and_account) l) (w 6)) /\
      balances_string fixed2 nonzero day l =
        [x0a] ++ lines (spaced w) (balance_head (B "BankID", B "AccountID") :: map (balance_row bank_and_account) l) ++ note l.
  Proof. intros l H. apply balances_table; [repeat constructor; discriminate..|exact H]. Qed.
  Theorem C69_sepa_balances : forall l, Forall (fun a => Forall clean (balance_row bic_and_iban a)) l ->
    exists w,
      (forall j, j < 6 -> widest 20 j (balance_head (B "BIC", B "IBAN") :: map (balance_row bic_and_iban) l) (w j)) /\
      (l <> [] -> widest 20 6 (map (balance_row bic_and_iban) l) (w 6)) /\
      sepa_balances_string fixed2 nonzero day l =
        [x0a] ++ lines (spaced w) (balance_head (B "BIC", B "IBAN") :: map (balance_row bic_and_iban) l) ++ note l.
  Proof. intros l H. apply balances_table; [repeat constructor; discriminate..|exact H]. Qed.

  (** ** One balance *)
  Definition one_head (names : bytes * bytes) : row := [fst names; snd names; []; B "BookingDate"; B "Amount"].
  Definition one_row {A} (ids : A -> bytes * bytes) (a : account_balance F A) : row :=
    [fst (ids (bl_account a)); snd (ids (bl_account a)); []; day (Seg_Model.ba_date (bl_booked a)); sum (Seg_Model.ba_amount (bl_booked a))].
  Lemma sum_some a : sum a <> [].
  Proof. unfold sum. destruct (fixed2 (am_value a)); discriminate. Qed.
  Lemma open_last r t : t <> [] -> open_row (r ++ [t]) = r ++ [t].
  Proof. intros H. unfold open_row. rewrite rev_app_distr. cbn [rev app]. now destruct t. Qed.
  Lemma open_nil r : open_row (r ++ [[]]) = r.
  Proof. unfold open_row. rewrite rev_app_distr. cbn [rev app]. apply rev_involutive. Qed.

  Lemma balance_table {A} (ids : A -> bytes * bytes) names a : clean (fst names) -> clean (snd names) -> Forall clean (one_row ids a) ->
    exists w,
      (forall j, j < 4 -> widest 24 j [one_head names; one_row ids a] (w j)) /\
      balance_string_ fixed2 day ids names a = [x0a] ++ spaced w (one_head names) ++ [x0a] ++ spaced w (one_row ids a).
  Proof.
    intros N1 N2 Ha.
    assert (O : open_row (one_row ids a) = one_row ids a).
    { exact (open_last [fst (ids (bl_account a)); snd (ids (bl_account a)); []; day (Seg_Model.ba_date (bl_booked a))] _ (sum_some _)). }
    destruct (C69_table wide [[[]]; one_head names] (one_row ids a)) as (w&W&T).
    - constructor; [split; [discriminate|repeat constructor]|]. constructor; [|constructor]. split; [discriminate|]. unfold one_head.
      repeat (apply Forall_cons || apply Forall_nil); try assumption; repeat constructor; try discriminate.
    - split; [discriminate|exact Ha].
    - rewrite O. apply (table_connected [[[]]] (one_head names) [one_row ids a] [] 5); [repeat constructor|cbn; lia|repeat constructor|constructor].
    - exists w. rewrite O in W, T. split.
      + intros j Hj. assert (Fj : filter (alignedb j) ([[[]]; one_head names] ++ [one_row ids a]) = [one_head names; one_row ids a]).
        { destruct j as [|[|[|[|j]]]]; [reflexivity..|lia]. }
        rewrite <- Fj. apply W. exists (one_head names). split; [right; now left|]. unfold aligned. cbn. lia.
      + transitivity (tabulate wide (written [[[]]; one_head names] (one_row ids a))).
        * unfold balance_string_. apply (f_equal (tabulate wide)). unfold written. cbn [flat_map]. rewrite app_nil_r, <- !app_assoc. reflexivity.
        * etransitivity; [exact T|]. cbv zeta. unfold lines. cbn [flat_map debug wide tab_indent]. rewrite app_nil_r, <- !app_assoc.
          assert (G : forall r, laid [] (fun lead n cw => write_padding wide n cw lead) w 0 true r = spaced w r) by (intros; apply laid_gap; intros; apply wide_gap).
          apply (f_equal (cons x0a)). apply (f_equal2 (@app byte)); [apply G|]. apply (f_equal2 (@app byte)); [reflexivity|]. apply G.
  Qed.
  (** What one balance prints: an empty line, the header and the values. *)
  Theorem C69_balance : forall a, Forall clean (one_row bank_and_account a) -> exists w,
      (forall j, j < 4 -> widest 24 j [one_head (B "BankID", B "AccountID"); one_row bank_and_account a] (w j)) /\
      balance_string fixed2 day a = [x0a] ++ spaced w (one_head (B "BankID", B "AccountID")) ++ [x0a] ++ spaced w (one_row bank_and_account a).
  Proof. intros a H. apply balance_table; [repeat constructor; discriminate..|exact H]. Qed.
  Theorem C69_sepa_balance : forall a, Forall clean (one_row bic_and_iban a) -> exists w,
      (forall j, j < 4 -> widest 24 j [one_head (B "BIC", B "IBAN"); one_row bic_and_iban a] (w j)) /\
      sepa_balance_string fixed2 day a = [x0a] ++ spaced w (one_head (B "BIC", B "IBAN")) ++ [x0a] ++ spaced w (one_row bic_and_iban a).
  Proof. intros a H. apply balance_table; [repeat constructor; discriminate..|exact H]. Qed.

  (** ** Transactions *)
  Definition booked_on (d : option date) : bytes := match d with Some d => format_iso d | None => B "0001-01-01" end.
  Definition tx_row (a : @tx F) : row :=
    [booked_on (tx_booking a); tx_text a; fixed2 (tx_amount a) ++ B " " ++ tx_currency a; tx_bank a; tx_account_id a; tx_name a; tx_purpose a].
  Definition tx_head : row := [B "BookingDate"; B "Booking Text"; B "Amount"; B "BankID"; B "AccountID"; B "Name"; B "Purpose"].
  Definition state_line (s : F * bytes * date) : bytes :=
    B "Balance at " ++ format_iso (snd s) ++ B ": " ++ fixed2 (fst (fst s)) ++ B " " ++ snd (fst s).
  (** The account and its balance before the first transaction, and its balance after the last *)
  Definition lines_before (l : list (@tx F)) : list bytes :=
    match l with
    | [] => []
    | a :: _ => [B "Transactions for account " ++ fst (tx_account a) ++ B "/" ++ snd (tx_account a); state_line (tx_before a)]
    end.
  Definition lines_after (l : list (@tx F)) : list bytes :=
    match rev l with [] => [] | a :: _ => [state_line (tx_after a)] end.
  Definition plain (l : list bytes) : bytes := flat_map (fun t => t ++ [x0a]) l.

  Lemma plain_lines f l : (forall t, f [t] = t) -> lines f (map (fun t => [t]) l) = plain l.
  Proof. intros H. unfold lines, plain. induction l as [|t l IH]; [reflexivity|]. cbn. now rewrite H, IH. Qed.
  Lemma plain_written l : flat_map (fun r => join [x09] r ++ [x0a]) (map (fun t => [t]) l) = plain l.
  Proof. unfold plain. induction l as [|t l IH]; [reflexivity|]. cbn [map flat_map join]. now rewrite IH. Qed.
  Lemma booking_on d : booking_day d = booked_on d.
  Proof. destruct d; reflexivity. Qed.

  (** What a list of transactions prints: an empty line, the account and its balance before
      the first one, the header and a line for each, the balance after the last one. *)
  Theorem C69_transactions : forall l, Forall clean (lines_before l) -> Forall clean (lines_after l) -> Forall (fun a => Forall clean (tx_row a)) l ->
    exists w,
      (forall j, j < 6 -> widest 24 j (tx_head :: map tx_row l) (w j)) /\
      transactions_string fixed2 l = [x0a] ++ plain (lines_before l) ++ lines (spaced w) (tx_head :: map tx_row l) ++ plain (lines_after l).
  Proof.
    intros l Hb Ha Hl.
    destruct (table wide ([[]] :: map (fun t => [t]) (lines_before l)) tx_head (map tx_row l) (map (fun t => [t]) (lines_after l)) [[]] 7) as (w&W1&_&T).
    - cbn. lia.
    - constructor; [cbn; lia|]. apply Forall_forall. intros r Hr. apply in_map_iff in Hr. destruct Hr as (t&<-&_). cbn. lia.
    - apply Forall_forall. intros r Hr. apply in_map_iff in Hr. destruct Hr as (a&<-&_). reflexivity.
    - apply Forall_forall. intros r Hr. apply in_map_iff in Hr. destruct Hr as (t&<-&_). cbn. lia.
    - cbn. lia.
    - assert (P : forall ts, Forall clean ts -> Forall clean_row (map (fun t => [t]) ts)).
      { intros ts H. apply Forall_forall. intros r Hr. apply in_map_iff in Hr. destruct Hr as (t&<-&Ht). split; [discriminate|]. constructor; [|constructor]. rewrite Forall_forall in H. now apply H. }
      constructor; [split; [discriminate|repeat constructor]|]. apply Forall_app. split; [now apply P|]. constructor.
      + split; [discriminate|]. unfold tx_head. repeat constructor; discriminate.
      + apply Forall_app. split; [|now apply P]. apply Forall_forall. intros r Hr. apply in_map_iff in Hr. destruct Hr as (a&<-&Hin). split; [discriminate|]. rewrite Forall_forall in Hl. now apply Hl.
    - split; [discriminate|repeat constructor].
    - exists w. split; [intros j Hj; apply W1; cbn; lia|].
      etransitivity; [|etransitivity; [exact T|]].
      + unfold transactions_string. apply (f_equal (tabulate wide)). unfold written. rewrite flat_map_app. cbn [flat_map]. rewrite flat_map_app, !plain_written.
        cbn [join]. rewrite app_nil_r, <- !app_assoc. apply (f_equal (cons x0a)).
        assert (E1 : match l with
           | [] => []
           | first :: _ => B "Transactions for account " ++ fst (tx_account first) ++ B "/" ++ snd (tx_account first) ++ [b_nl] ++ state_text fixed2 (tx_before first)
           end = plain (lines_before l)).
        { destruct l as [|a l]; [reflexivity|]. unfold lines_before, plain, state_text, state_line, money. cbn [flat_map]. destruct (tx_before a) as [[v c] d]. cbn [fst snd].
          rewrite app_nil_r, <- !app_assoc. reflexivity. }
        assert (E2 : match rev l with [] => [] | last :: _ => state_text fixed2 (tx_after last) end = plain (lines_after l)).
        { unfold lines_after. destruct (rev l) as [|a r]; [reflexivity|]. unfold plain, state_text, state_line, money. cbn [flat_map]. destruct (tx_after a) as [[v c] d]. cbn [fst snd].
          rewrite app_nil_r, <- !app_assoc. reflexivity. }
        rewrite E1, E2. apply (f_equal2 (@app byte)); [reflexivity|]. apply (f_equal2 (@app byte)); [reflexivity|]. apply (f_equal2 (@app byte)); [reflexivity|].
        apply (f_equal2 (@app byte)); [|reflexivity]. clear. induction l as [|a l IH]; [reflexivity|]. cbn [map flat_map]. rewrite IH.
        apply (f_equal2 (@app byte)); [|reflexivity]. unfold tx_cells, tx_row, tabs, money. now rewrite booking_on.
      + cbv zeta. cbn [debug wide tab_indent]. unfold lines at 1. cbn [flat_map].
        assert (G : forall r, laid [] (fun lead n cw => write_padding wide n cw lead) w 0 true r = spaced w r) by (intros; apply laid_gap; intros; apply wide_gap).
        rewrite <- !app_assoc. apply (f_equal (cons x0a)).
        apply (f_equal2 (@app byte)); [apply plain_lines; reflexivity|]. apply (f_equal2 (@app byte)); [now apply lines_ext|].
        rewrite plain_lines by reflexivity. apply app_nil_r.
  Qed.

  (** ** One transaction: tabs, with tab stops every eight characters *)
  Definition tab_stops (lead : bool) (n w : nat) : bytes := repeat x09 ((w + 7) / 8 - n / 8).
  Definition tabbed (w : nat -> nat) (r : row) : bytes := laid [] tab_stops w 0 false r.
  Definition short_head : row := [B "BookingDate"; B "Amount"; B "BankID"; B "AccountID"; B "Purpose"].
  Definition short_row (a : @tx F) : row :=
    [booked_on (tx_booking a); fixed2 (tx_amount a) ++ B " " ++ tx_currency a; tx_bank a; tx_account_id a] ++
    match tx_purpose a with [] => [] | p => [p] end.
  Lemma tab_gap lead n w : n <= w -> write_padding (mkLayout 0 8 b_tab false false) n w lead = tab_stops lead n w.
  Proof.
    intros L. unfold write_padding, tab_stops, ceil_div. cbn [padchar tabwidth beq]. change (beq b_tab b_tab) with true. cbn [orb Nat.eqb].
    apply (f_equal (repeat b_tab)). replace (w + 8 - 1) with (w + 7) by lia. generalize ((w + 7) / 8). intros q.
    assert (E : n = 8 * (n / 8) + n mod 8) by (apply Nat.div_mod; lia). assert (R : n mod 8 < 8) by (apply Nat.mod_upper_bound; lia).
    revert E R. generalize (n / 8) (n mod 8). intros p m E R. subst n. destruct (Nat.le_gt_cases q p) as [G|G].
    - replace (q * 8 - (8 * p + m)) with 0 by lia. replace (q - p) with 0 by lia. reflexivity.
    - symmetry. apply (Nat.div_unique _ 8 _ (7 - m)); lia.
  Qed.
  Lemma laid_gap_le bar gap gap' w r : (forall lead n cw, n <= cw -> gap lead n cw = gap' lead n cw) ->
    forall j lead, (forall k, k + 1 < List.length r -> rune_count (nth k r []) <= w (j + k)) ->
    laid bar gap w j lead r = laid bar gap' w j lead r.
  Proof.
    intros H. induction r as [|t r IH]; intros j lead L; [reflexivity|]. destruct r as [|t2 r]; [reflexivity|]. cbn [laid].
    rewrite H by (specialize (L 0); rewrite Nat.add_0_r in L; apply L; cbn; lia). do 3 f_equal. apply IH. intros k Hk.
    replace (S j + k) with (j + S k) by lia. apply (L (S k)). cbn in *. lia.
  Qed.
  Lemma short_open a : open_row [booked_on (tx_booking a); fixed2 (tx_amount a) ++ B " " ++ tx_currency a; tx_bank a; tx_account_id a; tx_purpose a] = short_row a.
  Proof.
    unfold short_row. destruct (tx_purpose a) as [|b p].
    - rewrite app_nil_r. exact (open_nil [booked_on (tx_booking a); fixed2 (tx_amount a) ++ B " " ++ tx_currency a; tx_bank a; tx_account_id a]).
    - apply (open_last [booked_on (tx_booking a); fixed2 (tx_amount a) ++ B " " ++ tx_currency a; tx_bank a; tx_account_id a] (b :: p)). discriminate.
  Qed.

  (** What one transaction prints: an empty line, the header and the values. *)
  Theorem C69_transaction : forall a, Forall clean (short_row a) -> exists w,
      (forall j, j < 4 -> widest 0 j (short_head :: filter (alignedb j) [short_row a]) (w j)) /\
      transaction_string fixed2 a = [x0a] ++ tabbed w short_head ++ [x0a] ++ tabbed w (short_row a).
  Proof.
    intros a Ha.
    destruct (C69_table (mkLayout 0 8 b_tab false false) [[[]]; short_head]
                [booked_on (tx_booking a); fixed2 (tx_amount a) ++ B " " ++ tx_currency a; tx_bank a; tx_account_id a; tx_purpose a]) as (w&W&T).
    - constructor; [split; [discriminate|repeat constructor]|]. constructor; [|constructor]. split; [discriminate|]. unfold short_head. repeat constructor; discriminate.
    - split; [discriminate|]. unfold short_row in Ha. cbn [app] in Ha. destruct (tx_purpose a) as [|b p]; [|exact Ha].
      apply (proj2 (Forall_app clean [booked_on (tx_booking a); fixed2 (tx_amount a) ++ B " " ++ tx_currency a; tx_bank a; tx_account_id a] [[]])).
      split; [exact Ha|]. constructor; constructor.
    - rewrite short_open. intros j i n k r1 r r2 L H1 H H2 A1 A2. cbn [app] in *. unfold aligned in *.
      assert (Ls : List.length (short_row a) = 4 \/ List.length (short_row a) = 5) by (unfold short_row; destruct (tx_purpose a); cbn; lia).
      destruct i as [|[|[|i]]]; cbn [nth_error] in H1; [injection H1 as <-; cbn in A1; lia|injection H1 as <-|injection H1 as <-|destruct i; discriminate H1];
      (destruct k as [|[|[|k]]]; cbn [nth_error] in H2; [injection H2 as <-; cbn in A2; lia|injection H2 as <-|injection H2 as <-|destruct k; discriminate H2]);
      (destruct n as [|[|[|n]]]; [lia| | |lia]; cbn [nth_error] in H; injection H as <-; try lia; assumption).
    - rewrite short_open in W, T. exists w.
      assert (W' : forall j, j < 4 -> widest 0 j (short_head :: filter (alignedb j) [short_row a]) (w j)).
      { intros j Hj. assert (Fj : filter (alignedb j) ([[[]]; short_head] ++ [short_row a]) = short_head :: filter (alignedb j) [short_row a]).
        { destruct j as [|[|[|[|j]]]]; [reflexivity..|lia]. }
        rewrite <- Fj. apply W. exists short_head. split; [right; now left|]. unfold aligned. cbn. lia. }
      split; [exact W'|].
      transitivity (tabulate (mkLayout 0 8 b_tab false false) (written [[[]]; short_head]
          [booked_on (tx_booking a); fixed2 (tx_amount a) ++ B " " ++ tx_currency a; tx_bank a; tx_account_id a; tx_purpose a])).
      + unfold transaction_string. apply (f_equal (tabulate _)). unfold written. cbn [flat_map]. rewrite app_nil_r, <- !app_assoc, booking_on. reflexivity.
      + etransitivity; [exact T|]. cbv zeta. unfold lines. cbn [flat_map debug tab_indent]. rewrite app_nil_r, <- !app_assoc.
        apply (f_equal (cons x0a)). apply (f_equal2 (@app byte)); [|apply (f_equal2 (@app byte)); [reflexivity|]].
        * apply laid_gap_le; [intros; now apply tab_gap|]. intros k Hk. change (k + 1 < 5) in Hk. cbn [Nat.add]. assert (Lk : k < 4) by lia. apply (proj1 (proj2 (W' k Lk))). now left.
        * apply laid_gap_le; [intros; now apply tab_gap|]. intros k Hk. cbn [Nat.add].
          assert (Lk : k < 4) by (revert Hk; unfold short_row; destruct (tx_purpose a); cbn [app List.length]; lia).
          apply (proj1 (proj2 (W' k Lk))). right. apply filter_In. split; [now left|]. apply alignedb_iff. exact Hk.
  Qed.
  (** Refuted: the values are not separated.  A bank code of eight characters, as all German
      ones are, is directly followed by the account number. *)
  Theorem C69_transaction_refuted : forall a, Forall clean (short_row a) -> rune_count (tx_bank a) = 8 ->
    exists before after, transaction_string fixed2 a = before ++ tx_bank a ++ tx_account_id a ++ after.
  Proof.
    intros a Ha H8. destruct (C69_transaction a Ha) as (w&W&->). unfold tabbed at 2. 
    assert (W2 : w 2 = 8).
    { destruct (W 2 ltac:(lia)) as (_&L&M). replace (filter (alignedb 2) [short_row a]) with [short_row a] in L, M by (unfold short_row; destruct (tx_purpose a); reflexivity).
      assert (L8 : 8 <= w 2) by (rewrite <- H8; apply (L (short_row a)); right; now left).
      destruct M as [M|(r&[<-|[<-|[]]]&E)]; [lia|vm_compute in E; lia|]. rewrite <- E. exact H8. }
    unfold short_row. cbn [app]. set (d := booked_on (tx_booking a)). set (m := fixed2 (tx_amount a) ++ B " " ++ tx_currency a).
    set (rest := match tx_purpose a with [] => [] | p => [p] end). 
    exists ([x0a] ++ tabbed w short_head ++ [x0a] ++ d ++ tab_stops false (rune_count d) (w 0) ++ m ++ tab_stops false (rune_count m) (w 1)).
    cbn [laid Nat.eqb andb app]. rewrite W2, H8. change (tab_stops false 8 8) with (@nil byte).
    assert (R : exists after, laid [] tab_stops w 3 false (tx_account_id a :: rest) = tx_account_id a ++ after).
    { destruct rest as [|p rest]; [exists []; now rewrite app_nil_r|]. cbn [laid Nat.eqb andb app]. eexists. reflexivity. }
    destruct R as (after&R). exists after. cbn [app] in R |- *. apply (f_equal (cons x0a)).
    rewrite <- !app_assoc. do 1 f_equal. cbn [app]. apply (f_equal (cons x0a)). rewrite <- !app_assoc. do 5 f_equal. exact R.
  Qed.

  (** ** Accounts *)
  Definition info_row (i : info (F:=F)) : row :=
    let (a, l) := i in
    [Seg_Model.ac_bank (ai_connection a); Seg_Model.ac_account (ai_connection a); ai_user a; ai_currency a; ai_name1 a ++ B ", " ++ ai_name2 a; ai_product a;
     match l with Some (kind, v, currency) => kind ++ B ": " ++ fixed2 v ++ B " " ++ currency | None => B " - " end].
  Definition info_head : row := [B "BankID"; B "AccountID"; B "UserID"; B "Currency"; B "Name"; B "ProductID"; B "Limit"].
  Lemma info_row_cells i : info_cells fixed2 i = info_row i.
  Proof. destruct i as [a [[[k v] c]|]]; reflexivity. Qed.

  Lemma infos_written l : [b_nl] ++ tabs info_names ++ [b_nl] ++ flat_map (fun a => tabs (info_cells fixed2 a) ++ [b_nl]) l =
    written ([[[]]] ++ info_head :: map info_row l ++ []) [[]].
  Proof.
    unfold written. cbn [app flat_map]. rewrite !app_nil_r. apply (f_equal (cons x0a)). rewrite <- !app_assoc. apply (f_equal2 (@app byte)); [reflexivity|].
    apply (f_equal (cons x0a)). induction l as [|a l IH]; [reflexivity|]. cbn [map flat_map]. rewrite IH, info_row_cells. reflexivity.
  Qed.
  Lemma infos_table cfg l : minwidth cfg = 20 -> Forall (fun a => Forall clean (info_row a)) l -> exists w,
    (forall j, j < 6 -> widest 20 j (info_head :: map info_row l) (w j)) /\
    tabulate cfg ([b_nl] ++ tabs info_names ++ [b_nl] ++ flat_map (fun a => tabs (info_cells fixed2 a) ++ [b_nl]) l) =
      [x0a] ++ lines (laid (if debug cfg then [x7c] else []) (fun lead n cw => write_padding cfg n cw lead) w 0 (tab_indent cfg)) (info_head :: map info_row l).
  Proof.
    intros M Hl. destruct (table cfg [[[]]] info_head (map info_row l) [] [[]] 7) as (w&W1&_&T).
    - cbn. lia.
    - repeat constructor.
    - apply Forall_forall. intros r Hr. apply in_map_iff in Hr. destruct Hr as (a&<-&_). now destruct a as [? [[[? ?] ?]|]].
    - constructor.
    - cbn. lia.
    - cbn [app]. rewrite app_nil_r. constructor; [split; [discriminate|repeat constructor]|]. constructor.
      + split; [discriminate|]. unfold info_head. repeat constructor; discriminate.
      + apply Forall_forall. intros r Hr. apply in_map_iff in Hr. destruct Hr as (a&<-&Ha). split; [now destruct a as [? [[[? ?] ?]|]]|]. rewrite Forall_forall in Hl. now apply Hl.
    - split; [discriminate|repeat constructor].
    - exists w. rewrite M in W1. split; [intros j Hj; apply W1; cbn; lia|]. rewrite infos_written. etransitivity; [exact T|]. cbv zeta. cbn [lines flat_map open_row rev app].
      rewrite !app_nil_r. reflexivity.
  Qed.
  (** What a list of accounts prints. *)
  Theorem C69_infos : forall l, Forall (fun a => Forall clean (info_row a)) l -> exists w,
    (forall j, j < 6 -> widest 20 j (info_head :: map info_row l) (w j)) /\
    infos_string fixed2 l = [x0a] ++ lines (spaced w) (info_head :: map info_row l).
  Proof.
    intros l Hl. destruct (infos_table narrow l eq_refl Hl) as (w&W&T). exists w. split; [exact W|]. unfold infos_string. rewrite T.
    f_equal. apply lines_ext. intros r. apply laid_gap. intros. apply narrow_gap.
  Qed.
  (** What one account prints: the same with bars between the columns. *)
  Theorem C69_info : forall a, Forall clean (info_row a) -> exists w,
    (forall j, j < 6 -> widest 20 j [info_head; info_row a] (w j)) /\
    info_string fixed2 a = [x0a] ++ lines (laid [x7c] (fun _ n w => repeat x20 (w - n)) w 0 false) [info_head; info_row a].
  Proof.
    intros a Ha. destruct (infos_table (mkLayout 20 1 b_space false true) [a] eq_refl ltac:(constructor; [exact Ha|constructor])) as (w&W&T). exists w. split; [exact W|].
    unfold info_string. cbn [flat_map] in T. rewrite app_nil_r in T. rewrite T. f_equal. apply lines_ext. intros r. cbn [debug tab_indent].
    assert (G : forall r j, laid [x7c] (fun lead n cw => write_padding (mkLayout 20 1 b_space false true) n cw lead) w j false r = laid [x7c] (fun _ n w => repeat x20 (w - n)) w j false r).
    { clear. induction r as [|t r IH]; intros j; [reflexivity|]. destruct r as [|t2 r]; [reflexivity|]. cbn [laid andb]. do 3 f_equal. apply IH. }
    apply G.
  Qed.
End Tables.
Print Assumptions C69_balances.
Print Assumptions C69_sepa_balances.
Print Assumptions C69_balance.
Print Assumptions C69_sepa_balance.
Print Assumptions C69_transactions.
Print Assumptions C69_transaction.
Print Assumptions C69_transaction_refuted.
Print Assumptions C69_infos.
Print Assumptions C69_info.

(** ** How wide a text is *)
Lemma decode_rune_width s r : decode_rune s = Some r -> 1 <= r_width r.
Proof.
  unfold decode_rune. intros H.
  repeat match type of H with
  | match ?x with _ => _ end = Some _ => destruct x; try discriminate H
  end; injection H as <-; cbn; lia.
Qed.
Lemma rune_count_fuel s : forall n m, List.length s <= n -> List.length s <= m -> rune_count_ n s = rune_count_ m s.
Proof.
  remember (List.length s) as k eqn:Ek. revert s Ek. induction k as [k IH] using lt_wf_ind. intros s Ek n m Hn Hm.
  destruct s as [|b s]; [destruct n, m; reflexivity|]. destruct n as [|n]; [cbn in Ek; lia|]. destruct m as [|m]; [cbn in Ek; lia|].
  cbn [rune_count_]. destruct (decode_rune (b :: s)) as [r|] eqn:E; [|reflexivity]. f_equal.
  assert (W : 1 <= r_width r) by (pose proof (decode_rune_width (b :: s) r E); lia).
  apply (IH (List.length (skipn (r_width r) (b :: s)))); rewrite ?skipn_length; cbn [List.length] in *; lia.
Qed.
(** The texts of the bank, whose characters are single bytes before they are converted to
    UTF-8, are as wide as they have characters. *)
Theorem C69_characters : forall t, rune_count (to_utf8 t) = List.length t.
Proof.
  induction t as [|b t IH]; [reflexivity|]. cbn [to_utf8 flat_map]. unfold rune_count.
  assert (D : exists r, decode_rune (utf8_of_latin1 b ++ to_utf8 t) = Some r /\ r_width r = List.length (utf8_of_latin1 b)).
  { generalize (to_utf8 t). intros s. unfold utf8_of_latin1. destruct (zb b <? 128)%Z eqn:E.
    - cbn [app]. unfold decode_rune. rewrite E. eexists. split; reflexivity.
    - destruct b; vm_compute in E; try discriminate E; eexists; (split; [vm_compute; reflexivity|reflexivity]). }
  destruct D as (r&D&W). rewrite app_length. assert (P : 1 <= List.length (utf8_of_latin1 b)) by (unfold utf8_of_latin1; destruct (zb b <? 128)%Z; cbn; lia).
  destruct (List.length (utf8_of_latin1 b)) as [|p] eqn:Ep; [lia|]. cbn [Nat.add rune_count_]. fold (to_utf8 t). rewrite D. cbn [List.length]. f_equal.
  rewrite W, skipn_app, Ep, <- Ep, skipn_all, Nat.sub_diag. cbn [app skipn]. rewrite <- IH. apply rune_count_fuel; lia.
Qed.
Print Assumptions C69_characters.

(** ** Refutations *)
Definition ex_amount (v : bytes) : amount bytes := mkAmount v (B "EUR").
Definition ex_balance (product : bytes) : account_balance bytes account_connection :=
  mkAB (mkAC (B "1234567") [] 280 (B "10000000")) product (B "EUR") (Seg_Model.mkBalance (ex_amount (B "12.50")) 0 None)
    (Some (Seg_Model.mkBalance (ex_amount (B "1.00")) 0 None)) None None None None None None.
Definition ex_tx (text purpose : bytes) : @tx bytes :=
  mkTx (B "10000000", B "1234567") (B "12.50") (B "EUR") (mkDate 2017 1 2) (Some (mkDate 2017 1 2)) text (B "20000000") (B "7654321") (B "Muster")
    purpose [] 0 (B "100.00", B "EUR", mkDate 2017 1 1) (B "112.50", B "EUR", mkDate 2017 1 3).
Definition ex_day (_ : Z) : bytes := B "2017-01-02".
Definition ex_nonzero (v : bytes) : bool := negb (bytes_eqb v (B "0.00")).

Lemma balance_lines {F} fixed2 nonzero day w (l1 l2 : list (account_balance F account_connection)) a head foot :
  [x0a] ++ lines (spaced w) (head :: map (balance_row fixed2 nonzero day bank_and_account) (l1 ++ a :: l2)) ++ foot =
  (([x0a] ++ lines (spaced w) (head :: map (balance_row fixed2 nonzero day bank_and_account) l1)) ++
   spaced w (balance_row fixed2 nonzero day bank_and_account a)) ++
  (x0a :: lines (spaced w) (map (balance_row fixed2 nonzero day bank_and_account) l2) ++ foot).
Proof. unfold lines. rewrite map_app. cbn [map flat_map]. rewrite flat_map_app. cbn [flat_map]. rewrite <- !app_assoc. cbn [app]. reflexivity. Qed.

(** Refuted: a product name that fills its column is directly followed by the bank code. *)
Theorem C69_balances_refuted : forall F fixed2 nonzero day (l : list (account_balance F account_connection)) a,
  Forall (fun a => Forall clean (balance_row fixed2 nonzero day bank_and_account a)) l -> In a l ->
  20 <= rune_count (bl_product a) -> (forall b, In b l -> rune_count (bl_product b) <= rune_count (bl_product a)) ->
  exists before after, balances_string fixed2 nonzero day l = before ++ bl_product a ++ Seg_Model.ac_bank (bl_account a) ++ after.
Proof.
  intros F fixed2 nonzero day l a Hl Ha L20 Lm. destruct (C69_balances fixed2 nonzero day l Hl) as (w&W&_&->).
  assert (W0 : w 0 = rune_count (bl_product a)).
  { destruct (W 0 ltac:(lia)) as (L&U&M). specialize (U (balance_row fixed2 nonzero day bank_and_account a)). cbn [nth balance_row] in U.
    assert (rune_count (bl_product a) <= w 0) by (apply U; right; now apply in_map).
    destruct M as [M|(r&[<-|Hr]&E)]; [lia|vm_compute in E; lia|]. apply in_map_iff in Hr. destruct Hr as (b&<-&Hb). cbn [nth balance_row] in E. specialize (Lm b Hb). lia. }
  apply in_split in Ha. destruct Ha as (l1&l2&->). rewrite balance_lines.
  match goal with |- exists before after, (?X ++ ?r) ++ ?Y = _ => set (bef := X); set (aft := Y) end.
  assert (R : exists rest, spaced w (balance_row fixed2 nonzero day bank_and_account a) = bl_product a ++ Seg_Model.ac_bank (bl_account a) ++ rest).
  { unfold spaced, balance_row. cbn [laid Nat.eqb app]. rewrite W0. unfold spaces at 1. rewrite Nat.sub_diag. cbn [repeat app]. eexists. reflexivity. }
  destruct R as (rest&R). exists bef, (rest ++ aft). rewrite R, <- !app_assoc. reflexivity.
Qed.
Print Assumptions C69_balances_refuted.

(** Refuted: the columns of a balance without product name are not below the others: its line
    begins with at least twenty tabs. *)
Theorem C69_indent_refuted : forall F fixed2 nonzero day (l : list (account_balance F account_connection)) a,
  Forall (fun a => Forall clean (balance_row fixed2 nonzero day bank_and_account a)) l -> In a l -> bl_product a = [] ->
  exists before after n, 20 <= n /\ balances_string fixed2 nonzero day l = before ++ [x0a] ++ repeat x09 n ++ Seg_Model.ac_bank (bl_account a) ++ after.
Proof.
  intros F fixed2 nonzero day l a Hl Ha E0. destruct (C69_balances fixed2 nonzero day l Hl) as (w&W&_&->).
  apply in_split in Ha. destruct Ha as (l1&l2&->). rewrite balance_lines.
  assert (N : exists x, [x0a] ++ lines (spaced w) (balance_head (B "BankID", B "AccountID") :: map (balance_row fixed2 nonzero day bank_and_account) l1) = x ++ [x0a]).
  { clear. assert (G : forall rows pre, exists x, (pre ++ [x0a]) ++ lines (spaced w) rows = x ++ [x0a]).
    { induction rows as [|r rows IH]; intros pre; [exists pre; unfold lines; cbn [flat_map]; now rewrite app_nil_r|].
      destruct (IH ((pre ++ [x0a]) ++ spaced w r)) as (x&Ex). exists x. rewrite <- Ex. unfold lines. cbn [flat_map]. now rewrite <- !app_assoc. }
    exact (G _ []). }
  destruct N as (x&->).
  match goal with |- exists before after n, _ /\ (?X ++ ?r) ++ ?Y = _ => set (aft := Y) end.
  assert (R : exists rest, spaced w (balance_row fixed2 nonzero day bank_and_account a) = repeat x09 (w 0) ++ Seg_Model.ac_bank (bl_account a) ++ rest).
  { unfold spaced, balance_row. rewrite E0. cbn [laid Nat.eqb app andb]. change (rune_count []) with 0. unfold spaces at 1. rewrite Nat.sub_0_r. eexists. reflexivity. }
  destruct R as (rest&R). exists x, (rest ++ aft), (w 0). split; [exact (proj1 (W 0 ltac:(lia)))|]. rewrite R, <- !app_assoc. reflexivity.
Qed.
Print Assumptions C69_indent_refuted.

(** Refuted: one line per transaction.  A line end and tabs in the purpose, which whoever pays
    chooses, show a transaction that is none. *)
Theorem C69_lines_refuted : exists l l' : list (@tx bytes),
  List.length l = 1 /\ List.length l' = 2 /\ transactions_string (fun v => v) l = transactions_string (fun v => v) l'.
Proof.
  exists [ex_tx (B "GUTSCHRIFT") (B "Rent" ++ [x0a] ++ join [x09] (tx_row (fun v => v) (ex_tx (B "LOHN") (B "Salary"))))],
         [ex_tx (B "GUTSCHRIFT") (B "Rent"); ex_tx (B "LOHN") (B "Salary")].
  split; [reflexivity|]. split; [reflexivity|]. vm_compute. reflexivity.
Qed.
Print Assumptions C69_lines_refuted.

(** Non-vacuity: texts of balances and transactions that meet the hypotheses, and what they
    print. *)
Example C69_balances_meets : Forall (fun a => Forall clean (balance_row (fun v : bytes => v) ex_nonzero ex_day bank_and_account a)) [ex_balance (B "Giro"); ex_balance (B "Sparkonto mit langem Namen"); ex_balance []] /\
  balances_string (fun v : bytes => v) ex_nonzero ex_day [ex_balance (B "Giro")] =
    [x0a] ++ B "Product Name        BankID              AccountID                               BookingDate         Amount               Limit" ++ [x0a] ++
    B "Giro                10000000            1234567                                 2017-01-02          12.50 EUR (1.00 EUR)* -                  " ++ [x0a] ++
    B "* earmarked transactions" ++ [x0a].
Proof. split; [repeat (apply Forall_cons || apply Forall_nil); repeat constructor; discriminate|vm_compute; reflexivity]. Qed.
Example C69_transaction_meets : Forall clean (short_row (fun v => v) (ex_tx (B "GUTSCHRIFT") (B "Rent"))) /\ rune_count (tx_bank (ex_tx (B "GUTSCHRIFT") (B "Rent"))) = 8 /\
  Forall clean (lines_before (fun v => v) [ex_tx (B "GUTSCHRIFT") (B "Rent")]) /\ Forall clean (lines_after (fun v => v) [ex_tx (B "GUTSCHRIFT") (B "Rent")]).
Proof. split; [|split; [reflexivity|split]]; vm_compute; repeat (apply Forall_cons || apply Forall_nil); repeat constructor; discriminate. Qed.
