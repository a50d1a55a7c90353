(** * Properties C37, C43-C47: MT940 statements

    [unmarshal_mt940 data] is swift.UnmarshalMT940(data), [read_transaction], [read_balance]
    and [read_custom] are the Unmarshal methods of TransactionTag, BalanceTag and
    CustomFieldTag on a tag with its colons.

    Parameters of all theorems: [parse_float] is strconv.ParseFloat(s, 64) and [neg] the
    negation of float64; [other_digit] is unicode.IsDigit above U+00FF; [now] is the year of
    the clock; [zero] is the float 0. *)
From Verif Require Import Base BaseFacts Lexer_Model Codec_Model Codec_Spec Codec_Proofs Wire_Model Swift_Model Swift_Spec
  Swift_Facts3 Mt940_Model Mt940_Spec Mt940_Proofs Mt940_Facts Mt940_Facts2 Mt940_Facts3 Mt940_Facts4.
From Coq Require Import Lia ZifyBool ZifyNat ZifyN.
Open Scope Z_scope.

(** The bytes of a list of statements, and all their entries in order. *)
Definition written (ss : list stmt) : bytes := List.concat (map (fun s => swift_message (stmt_fields s)) ss).
Definition all_entries (ss : list stmt) : list (stmt * (entry * option (info * bytes))) :=
  flat_map (fun s => map (pair s) (s_entries s)) ss.

Lemma join_split c : forall s, join [c] (split_on c s) = s.
Proof.
  induction s as [|x s IH]; [reflexivity|]. cbn [split_on]. destruct (beq_spec x c) as [->|H].
  - destruct (split_on c s) as [|y r] eqn:E; [exfalso; destruct s; cbn in E; [discriminate|]; destruct (beq _ _); [discriminate|destruct (split_on c s); discriminate]|].
    change (c :: join [c] (y :: r) = c :: s). now rewrite IH.
  - destruct (split_on c s) as [|y r] eqn:E; [cbn in IH; subst s; reflexivity|].
    destruct r as [|z r]; [cbn [join] in *; now rewrite IH|]. change (join [c] ((x :: y) :: z :: r)) with (x :: join [c] (y :: z :: r)). now rewrite IH.
Qed.
Lemma split_pieces c : forall s, Forall (fun p => ~ In c p) (split_on c s).
Proof.
  induction s as [|x s IH]; [constructor; [intros []|constructor]|]. cbn [split_on]. destruct (beq_spec x c) as [->|H].
  - constructor; [intros []|exact IH].
  - destruct (split_on c s) as [|y r]; [constructor; [intros [K|[]]; congruence|constructor]|].
    inversion IH; subst. constructor; [intros [K|K]; [congruence|contradiction]|assumption].
Qed.
Section Mt940.
  Context {F : Type}.
  Variable parse_float : bytes -> option F.
  Variable neg : F -> F.
  Variable other_digit : Z -> bool.
  Variable now : Z.
  Variable zero : F.
  Notation reads := (fun m => exists x, parse_float (dotted m) = Some x).
  Notation unmarshal := (unmarshal_mt940 parse_float neg other_digit now zero).
  Hypothesis Hnow : 1000 <= now <= 9999.

  (** ** C46 *)
  (** Every entry of every statement is delivered exactly once, in the order of the
      statements, as [delivers] says: account, amount, currency, dates, description. *)
  Theorem C46_every_entry_once : forall ss, ss <> [] -> Forall (stmt_ok reads now) ss ->
    exists ts, unmarshal (written ss) = Ok ts /\
      Forall2 (fun sp t => delivers parse_float neg (fst sp) (snd sp) t) (all_entries ss) ts.
  Proof. exact (unmarshal_ok parse_float neg other_digit now zero Hnow). Qed.

  (** ** C37 *)
  (** The sign of the delivered amount: the one meant by the mark, except for the entries of
      [sign_lost], where it is the other one. *)
  Theorem C37_amount_signs : forall ss, ss <> [] -> Forall (stmt_ok reads now) ss ->
    exists ts, unmarshal (written ss) = Ok ts /\
      Forall2 (fun sp t => let e := fst (snd sp) in exists x, parse_float (dotted (e_money e)) = Some x /\
        (sign_lost e = false -> tx_amount t = if outgoing (e_mark e) then neg x else x) /\
        (sign_lost e = true -> tx_amount t = if outgoing (e_mark e) then x else neg x)) (all_entries ss) ts.
  Proof.
    intros ss Hne H. destruct (C46_every_entry_once ss Hne H) as (ts & E & Ht). exists ts. split; [exact E|].
    clear - Ht. induction Ht as [|p t l l' (_ & (x & Hx & A) & _) Ht IH]; constructor; [|exact IH].
    cbv zeta. exists x. split; [exact Hx|]. rewrite A.
    split; intros ->; destruct (outgoing _); reflexivity.
  Qed.
  (** Plain debits and credits with a booking date keep their sign. *)
  Theorem C37_plain_entries : forall e b, e_booking e = Some b -> e_mark e <> RC_ -> sign_lost e = false.
  Proof. intros e b H K. unfold sign_lost. rewrite H. now destruct (e_mark e). Qed.
  (** Balance() of a balance tag is negative exactly for debits... *)
  Theorem C37_balance_sign : forall id b x, ~ In b_colon id -> balance_ok now b -> parse_float (dotted (b_money b)) = Some x ->
    exists t, read_balance parse_float now (b_colon :: id ++ b_colon :: balance_value b) = Ok t /\
      balance_of neg t = (if b_debit b then neg x else x, b_currency b, b_date b).
  Proof.
    intros id b x Hid Hb Hx. eexists. split; [apply read_balance_eq; eassumption|]. unfold balance_of. cbn. now destruct (b_debit b).
  Qed.
  (** ... but the balances delivered with the transactions never are. *)
  Theorem C37_delivered_balances : forall ss, ss <> [] -> Forall (stmt_ok reads now) ss ->
    exists ts, unmarshal (written ss) = Ok ts /\
      Forall2 (fun sp t => exists x y,
        parse_float (dotted (b_money (s_opening (fst sp)))) = Some x /\ fst (fst (tx_before t)) = x /\
        parse_float (dotted (b_money (s_closing (fst sp)))) = Some y /\ fst (fst (tx_after t)) = y) (all_entries ss) ts.
  Proof.
    intros ss Hne H. destruct (C46_every_entry_once ss Hne H) as (ts & E & Ht). exists ts. split; [exact E|].
    clear - Ht. induction Ht as [|p t l l' (_ & _ & _ & _ & _ & (x & Hx & A) & (y & Hy & C) & _) Ht IH]; constructor; [|exact IH].
    exists x, y. rewrite A, C. auto.
  Qed.

  (** ** C43 *)
  (** The valuta date read from YYMMDD is the date that was written exactly if it lies in
      the century of the clock. *)
  Theorem C43_valuta_date : forall id d rest t, ~ In b_colon id -> real_date d ->
    read_transaction parse_float other_digit now (b_colon :: id ++ b_colon :: yymmdd d ++ rest) = Ok t ->
    (tt_valuta t = d <-> this_century now d).
  Proof.
    intros id d rest t Hid Hd H. unfold read_transaction in H. rewrite tag_elements_eq in H by exact Hid. cbn [obind snd] in H. cbv zeta in H.
    rewrite (firstn_app_len (yymmdd d)) in H by reflexivity. rewrite <- (valuta_iff now d Hnow Hd).
    destruct (mt_date (yymmdd d) now) as [v| |]; [|discriminate|discriminate]. cbn [obind] in H.
    assert (tt_valuta t = v) as ->; [|split; congruence].
    destruct (read_booking _ _ _) as [[b s]| |]; [|discriminate..]. cbn [obind] in H.
    destruct (read_marks _ _ _ _) as [[m s2]| |]; [|discriminate..]. cbn [obind snd fst] in H.
    destruct (read_bytes _ _) as [[a r]|]; [|discriminate]. destruct (amount_of _ _); [|discriminate..]. cbn [obind] in H.
    destruct (references _) as [[[r1 r2] r3]| |]; [|discriminate..]. cbn [obind] in H. injection H as <-. reflexivity.
  Qed.
  (** The booking date read from MMDD is the date that was written exactly in the cases of
      [booking_kept]. *)
  Theorem C43_booking_date : forall id d b rest t, ~ In b_colon id -> real_date d -> real_date b -> this_century now d ->
    read_transaction parse_float other_digit now (b_colon :: id ++ b_colon :: yymmdd d ++ mmdd b ++ rest) = Ok t ->
    (tt_booking t = Some b <-> booking_kept d b).
  Proof.
    intros id d b rest t Hid Hd Hb Hc H. unfold read_transaction in H. rewrite tag_elements_eq in H by exact Hid. cbn [obind snd] in H. cbv zeta in H.
    rewrite (firstn_app_len (yymmdd d)), (skipn_app_len (yymmdd d)) in H by reflexivity. rewrite (proj2 (valuta_iff now d Hnow Hd) Hc) in H. cbn [obind] in H.
    assert (Hyear : 1000 <= d_year d <= 9999).
    { unfold this_century in Hc. pose proof (real_bounds _ Hd) as (Y & _ & _). clear - Hc Hnow Y.
      Ltac Zify.zify_post_hook ::= Z.div_mod_to_equations. lia. }
    rewrite <- (booking_iff other_digit d b rest Hyear Hb).
    pose proof (booking_value other_digit d b rest Hyear Hb) as E. cbv zeta in E.
    destruct (read_booking other_digit d (mmdd b ++ rest)) as [[b' s]| |] eqn:R; [|discriminate..]. cbn [obind] in H.
    assert (s = rest) as ->.
    { clear - E. congruence. }
    assert (tt_booking t = b') as ->; [|split; congruence].
    destruct (read_marks _ _ _ _) as [[m s2]| |]; [|discriminate..]. cbn [obind snd fst] in H.
    destruct (read_bytes _ _) as [[a r]|]; [|discriminate]. destruct (amount_of _ _); [|discriminate..]. cbn [obind] in H.
    destruct (references _) as [[[r1 r2] r3]| |]; [|discriminate..]. cbn [obind] in H. injection H as <-. reflexivity.
  Qed.
  (** When booking and valuta are at most one calendar month apart, the booking date is
      read as it was meant exactly if its year is not the year before: an entry booked in
      December with valuta in January is delivered two years late. *)
  Theorem C43_adjacent_months : forall id d b rest t, ~ In b_colon id -> real_date d -> real_date b -> this_century now d ->
    Z.abs (month_no d - month_no b) <= 1 ->
    read_transaction parse_float other_digit now (b_colon :: id ++ b_colon :: yymmdd d ++ mmdd b ++ rest) = Ok t ->
    (tt_booking t = Some b <-> d_year d <= d_year b).
  Proof.
    intros id d b rest t Hid Hd Hb Hc Ha H. rewrite (C43_booking_date id d b rest t) by assumption.
    pose proof (real_bounds _ Hd) as (_ & Md & _). pose proof (real_bounds _ Hb) as (_ & Mb & _).
    unfold month_no, booking_kept, in_february_29 in *. lia.
  Qed.

  (** ** C44 *)
  (** A :86: field is read as [said] from its sub-fields... *)
  Theorem C44_fields_read : forall id i v, ~ In b_colon id -> info_ok i -> info_value i v ->
    exists c, read_custom (b_colon :: id ++ b_colon :: v) = Ok c /\
      cu_id c = Z.of_N (dec_val (i_code i)) /\ cu_text c = sub_or_nothing i 0 /\ cu_primanota c = sub_or_nothing i 10 /\
      cu_purpose c = subs_between i 20 29 /\ cu_bank c = sub_or_nothing i 30 /\ cu_account c = sub_or_nothing i 31 /\
      cu_name c = party_name i /\ cu_addition c = addition i /\ cu_purpose2 c = subs_between i 60 63.
  Proof.
    intros id i v Hid Hi Hv. eexists. split; [apply read_custom_eq; eassumption|]. unfold said. cbn. destruct i. cbn.
    repeat split; reflexivity.
  Qed.
  (** ... no field whose keys are in order makes the reader panic, whatever else is in it,
      none whose keys are out of order is read, and without ?34 exactly those panic. *)
  Theorem C44_in_order_no_panic : forall id code lines, ~ In b_colon id -> List.length code = 3%nat -> forallb is_digit code = true ->
    ~ In b_cr (List.concat lines) -> in_order (List.concat lines) ->
    read_custom (b_colon :: id ++ b_colon :: code ++ join crlf lines) <> Panic.
  Proof. exact read_custom_in_order. Qed.
  Theorem C44_out_of_order_not_read : forall id code lines c, ~ In b_colon id -> List.length code = 3%nat -> forallb is_digit code = true ->
    ~ In b_cr (List.concat lines) -> read_custom (b_colon :: id ++ b_colon :: code ++ join crlf lines) = Ok c ->
    in_order (List.concat lines).
  Proof. exact read_custom_needs_order. Qed.
  Theorem C44_panics_exactly : forall id code lines, ~ In b_colon id -> List.length code = 3%nat -> forallb is_digit code = true ->
    ~ In b_cr (List.concat lines) -> ~ occurs (B "?34") (List.concat lines) ->
    (read_custom (b_colon :: id ++ b_colon :: code ++ join crlf lines) = Panic <-> ~ in_order (List.concat lines)).
  Proof. exact read_custom_panics. Qed.

  (** ** C45 *)
  Definition good_fields (m : list field) : Prop := m <> [] /\ Forall (fun t => id_ok t /\ value_ok (f_value t)) m.
  Lemma no_25 t : id_ok t -> ~ (f_number t = B "25" /\ f_letter t = None) -> has_prefix (B ":25:") (field_bytes t) = false.
  Proof.
    intros (Hn & Hd & Hl) H. destruct (has_prefix (B ":25:") (field_bytes t)) eqn:P; [|reflexivity]. exfalso. apply H. clear H.
    apply has_prefix_spec in P. destruct P as [w P]. unfold field_bytes in P.
    change (B ":25:" ++ w) with ("058"%byte :: "2"%byte :: "5"%byte :: b_colon :: w) in P. cbn [app] in P.
    destruct t as [n l v]. cbn [f_number f_letter f_value] in *.
    destruct n as [|a [|b [|c n]]]; [congruence| | |].
    - exfalso. destruct l as [l|]; cbn [app] in P; [|discriminate]. assert (l = "5"%byte) by congruence. subst. discriminate.
    - destruct l as [l|]; cbn [app] in P.
      + exfalso. assert (l = b_colon) by congruence. subst. discriminate.
      + assert (a = "2"%byte) by congruence. assert (b = "5"%byte) by congruence. subst. split; reflexivity.
    - exfalso. cbn [app] in P. assert (c = b_colon) by congruence. subst. cbn in Hd. apply andb_true_iff in Hd. destruct Hd as [_ Hd].
      apply andb_true_iff in Hd. destruct Hd as [_ Hd]. discriminate.
  Qed.
  (** One message without an account field among the messages, and the whole call panics
      instead of returning an error. *)
  Theorem C45_no_account_panics : forall ms m, Forall good_fields ms -> In m ms ->
    (forall t, In t m -> ~ (f_number t = B "25" /\ f_letter t = None)) ->
    unmarshal (List.concat (map swift_message ms)) = Panic.
  Proof.
    intros ms m Hms Hm Hno. unfold unmarshal_mt940. rewrite extract_messages_ok; [|intros ->; destruct Hm|exact Hms]. cbn [obind].
    apply loop_panic_iff. exists (swift_message m). split; [now apply in_map|]. apply breaks_no_account.
    rewrite Forall_forall in Hms. destruct (Hms m Hm) as [Hne Hf]. rewrite extract_tags_ok by assumption. intros ts E. injection E as <-.
    apply Forall_forall. intros x Hx. apply in_map_iff in Hx. destruct Hx as (t & <- & Ht). rewrite Forall_forall in Hf.
    apply no_25; [now apply Hf|now apply Hno].
  Qed.
  (** One entry that TransactionTag refuses, after at least one that it reads, and the whole
      call panics: there is no closing balance yet. *)
  Theorem C45_bad_entry_panics : forall ms s ps bad rest, stmt_ok reads now s -> ps <> [] ->
    Forall (fun p => entry_ok now (fst p) /\ reads (e_money (fst p)) /\ opt_ok written_ok (snd p)) ps ->
    read_transaction parse_float other_digit now (B ":61:" ++ bad) = Err ->
    let m := [plain_field (B "20") (s_job s); plain_field (B "25") (s_bank s ++ B "/" ++ s_account s);
      mkField (B "28") (Some "C"%byte) (s_number s ++ match s_sheet s with Some t => B "/" ++ t | None => [] end);
      mkField (B "60") (Some (s_open_letter s)) (balance_value (s_opening s))] ++
      List.concat (map entry_fields ps) ++ plain_field (B "61") bad :: rest in
    Forall good_fields ms -> In m ms -> unmarshal (List.concat (map swift_message ms)) = Panic.
  Proof.
    intros ms s ps bad rest Hs Hne Hps Hbad m Hms Hm. unfold unmarshal_mt940.
    rewrite extract_messages_ok; [|intros ->; destruct Hm|exact Hms]. cbn [obind].
    apply loop_panic_iff. exists (swift_message m). split; [now apply in_map|].
    rewrite Forall_forall in Hms. destruct (Hms m Hm) as [Hmne Hf].
    apply (breaks_after_entry parse_float neg other_digit now zero Hnow s ps bad rest Hs Hne Hps Hbad). now apply extract_tags_ok.
  Qed.

  (** ** C47 *)
  (** Reference, bank reference after "//" and information on the next line after "/" come
      out separately. *)
  Theorem C47_references : forall e x r b i, entry_ok now e -> parse_float (dotted (e_money e)) = Some x ->
    e_text e = r ++ opt_app (B "//") b ++ opt_app (crlf ++ B "/") i ->
    ~ In b_cr r -> ~ occurs (B "//") r -> (b <> None -> last r b_nul <> "/"%byte) ->
    match b with Some t => ~ In b_cr t | None => match i with Some t => ~ occurs (B "//") ("/"%byte :: t) | None => True end end ->
    exists t, read_transaction parse_float other_digit now (B ":61:" ++ entry_value e) = Ok t /\
      tt_key t = e_key e /\ tt_reference t = r /\ tt_bank_reference t = or_nothing b /\ tt_information t = or_nothing i.
  Proof.
    intros e x r b i He Hx Et H1 H2 H3 H4.
    destruct (read_transaction_eq parse_float other_digit now (B "61") e x Hnow) as (t & E1 & _ & _ & _ & _ & E6 & E7 & _); [cbn; intuition discriminate|assumption..|].
    exists t. split; [exact E1|]. split; [exact E6|]. rewrite Et, references_eq in E7 by assumption. injection E7 as <- <- <-. auto.
  Qed.
  (** With a line "//..." after text in which no separator has been seen the reader panics
      instead of returning an error, and this is the only way. *)
  Theorem C47_panics_exactly : forall e x, entry_head_ok now e -> parse_float (dotted (e_money e)) = Some x ->
    (read_transaction parse_float other_digit now (B ":61:" ++ entry_value e) = Panic <->
     exists u w, e_text e = u ++ crlf ++ B "//" ++ w /\ ~ occurs (B "//") u /\ ~ occurs (crlf ++ B "/") u).
  Proof.
    intros e x He Hx. rewrite <- references_panic_iff.
    destruct (read_transaction_refs parse_float other_digit now (B "61") e x Hnow) as (mk & E & _); [cbn; intuition discriminate|assumption..|].
    change (B ":61:" ++ entry_value e) with (b_colon :: B "61" ++ b_colon :: entry_value e). rewrite E.
    destruct (references (e_text e)); cbn [obind]; split; congruence.
  Qed.
  (** Mark and currency letter of an entry.  With a booking date and, for a reversal, a
      currency letter, they are what the bank wrote; otherwise not. *)
  Theorem C47_mark : forall e x, entry_ok now e -> parse_float (dotted (e_money e)) = Some x ->
    exists t, read_transaction parse_float other_digit now (B ":61:" ++ entry_value e) = Ok t /\
      ((tt_mark t = mark_text (e_mark e) /\ tt_kind t = opt_bytes (e_kind e)) <->
       (e_booking e <> None /\ (e_mark e = RC_ \/ e_mark e = RD_ -> e_kind e <> None))).
  Proof.
    intros e x He Hx.
    destruct (read_transaction_eq parse_float other_digit now (B "61") e x Hnow) as (t & E1 & _ & _ & _ & _ & _ & _ & E8); [cbn; intuition discriminate|assumption..|].
    exists t. split; [exact E1|]. assert (M : tt_mark t = fst (marks (map ascii_rune (seen_marks e)))) by (rewrite <- E8; reflexivity).
    assert (K : tt_kind t = snd (marks (map ascii_rune (seen_marks e)))) by (rewrite <- E8; reflexivity).
    rewrite M, K. unfold seen_marks.
    destruct (e_booking e), (e_mark e), (e_kind e); cbn; split; intros H; try (split; [discriminate|intros [?|?]; discriminate]);
      try (split; reflexivity); try (destruct H; discriminate); try (destruct H as [_ H]; exfalso; apply H; auto; fail);
      try (exfalso; apply (proj1 H); reflexivity).
  Qed.

  (** An account is read exactly from two texts with one slash between them. *)
  Theorem C46_account_exactly : forall v a b,
    read_account (B ":25:" ++ v) = Ok (mkAccount a b) <-> v = a ++ B "/" ++ b /\ ~ In "/"%byte a /\ ~ In "/"%byte b.
  Proof.
    intros v a b. unfold read_account. change (B ":25:" ++ v) with (b_colon :: B "25" ++ b_colon :: v).
    rewrite tag_elements_eq by (cbn; intuition discriminate). cbn [obind snd]. split.
    - intros H. destruct (split_on slash v) as [|x [|y [|z r]]] eqn:E; try discriminate. assert (x = a /\ y = b) as [-> ->] by (split; congruence).
      pose proof (join_split slash v) as J. rewrite E in J. split; [now rewrite <- J|].
      pose proof (split_pieces slash v) as P. rewrite E in P. inversion P as [|? ? P1 P2]; subst. inversion P2; subst. split; assumption.
    - intros (-> & H1 & H2). change (a ++ B "/" ++ b) with (a ++ [slash] ++ b). now rewrite split_two.
  Qed.
  (** The number of the statement and that of the sheet. *)
  Theorem C46_statement_number : forall n sheet, number_ok n -> opt_ok number_ok sheet ->
    read_statement_number (B ":28C:" ++ n ++ opt_app (B "/") sheet) =
      Ok (Z.of_N (dec_val n), match sheet with Some t => Z.of_N (dec_val t) | None => 0 end).
  Proof.
    intros n sheet Hn Hs. unfold read_statement_number. change (B ":28C:" ++ ?v) with (b_colon :: B "28C" ++ b_colon :: v).
    rewrite tag_elements_eq by (cbn; intuition discriminate). cbn [obind snd]. destruct sheet as [t|]; cbn [opt_app].
    - change (n ++ B "/" ++ t) with (n ++ slash :: t). rewrite read_bytes_eq by now apply number_no_slash.
      rewrite !number_atoi by assumption. reflexivity.
    - rewrite app_nil_r, read_bytes_none by now apply number_no_slash. rewrite number_atoi by assumption. reflexivity.
  Qed.
  (** A statement with a field of another kind is never read without an error. *)
  Definition known_fields : list bytes :=
    [B ":20:"; B ":21:"; B ":25:"; B ":28C:"; B ":60"; B ":62"; B ":64:"; B ":65:"; B ":61:"; B ":86:"].
  Theorem C46_unknown_field_reported : forall data ms m tags tag,
    extract_messages data = Ok ms -> In m ms -> extract_tags m = Ok tags -> In tag tags ->
    (forall k, In k known_fields -> has_prefix k tag = false) -> forall ts, unmarshal data <> Ok ts.
  Proof.
    intros data ms m tags tag Ed Hm Et Ht Hk ts. unfold unmarshal_mt940. rewrite Ed. cbn [obind].
    assert (D : forall open s, dispatch parse_float other_digit now zero tag open s = Fail s).
    { intros open s. unfold dispatch.
      rewrite !Hk by (unfold known_fields; cbn [In]; tauto). reflexivity. }
    assert (R : forall open s o s', dispatch_all parse_float other_digit now zero tags open s <> Go o s').
    { clear Et. induction tags as [|t r IH]; [destruct Ht|]. intros open s o s'. cbn [dispatch_all]. destruct Ht as [->|Ht]; [rewrite D; discriminate|].
      destruct (dispatch parse_float other_digit now zero t open s); [apply IH, Ht|discriminate..]. }
    assert (Q : forall o s, read_statement parse_float other_digit now zero m <> Go o s).
    { intros o s. unfold read_statement. rewrite Et. destruct tags; [destruct Ht|apply R]. }
    assert (Z : forall ms0 acc, unmarshal_loop parse_float neg other_digit now zero ms0 true acc <> Ok ts).
    { induction ms0 as [|m0 r IH]; intros acc; cbn [unmarshal_loop]; [discriminate|].
      destruct (read_statement _ _ _ _ m0); [| |discriminate]; destruct (transactions_of neg s); cbn [obind]; try discriminate; apply IH. }
    clear Ed. assert (Y : forall ms acc failed, In m ms -> unmarshal_loop parse_float neg other_digit now zero ms failed acc <> Ok ts); [|now apply Y].
    clear ms Hm. induction ms as [|m0 r IH]; intros acc failed Hm; [destruct Hm|].
    cbn [unmarshal_loop]. destruct (read_statement parse_float other_digit now zero m0) as [o s|s|] eqn:E; [| |discriminate].
    - destruct Hm as [->|Hm]; [exfalso; exact (Q o s E)|]. destruct (transactions_of neg s); cbn [obind]; [|discriminate..]. now apply IH.
    - destruct (transactions_of neg s); cbn [obind]; [|discriminate..]. apply Z.
  Qed.
End Mt940.
Print Assumptions C47_mark.
Print Assumptions C46_account_exactly.
Print Assumptions C46_statement_number.
Print Assumptions C46_unknown_field_reported.
Print Assumptions C46_every_entry_once.
Print Assumptions C37_amount_signs.
Print Assumptions C37_plain_entries.
Print Assumptions C37_balance_sign.
Print Assumptions C37_delivered_balances.
Print Assumptions C43_valuta_date.
Print Assumptions C43_booking_date.
Print Assumptions C43_adjacent_months.
Print Assumptions C44_fields_read.
Print Assumptions C44_in_order_no_panic.
Print Assumptions C44_out_of_order_not_read.
Print Assumptions C44_panics_exactly.
Print Assumptions C45_no_account_panics.
Print Assumptions C45_bad_entry_panics.
Print Assumptions C47_references.
Print Assumptions C47_panics_exactly.

(** ** Non-trivial cases *)
Definition value_check (v : bytes) : bool :=
  negb (existsb (beq b_nul) v) &&
  forallb (fun n => negb (has_prefix crlf (skipn n v)) || negb (begins_field (skipn (n + 2) v ++ crlf))) (seq 0 (S (List.length v))) &&
  (negb (existsb (beq b_cr) v) || negb (code_line (first_line v))).
Lemma value_check_ok v : value_check v = true -> value_ok v.
Proof.
  unfold value_check. rewrite !andb_true_iff. intros [[A C] D]. apply negb_true_iff in A. split; [|split].
  - intros K. assert (existsb (beq b_nul) v = true) by (apply existsb_exists; exists b_nul; now split). congruence.
  - intros u w E. rewrite forallb_forall in C. specialize (C (List.length u)).
    assert (In (List.length u) (seq 0 (S (List.length v)))) as K by (apply in_seq; rewrite E, app_length; lia).
    specialize (C K). rewrite E in C. rewrite skipn_app_exact, skipn_app, skipn_all2 in C by lia.
    replace (List.length u + 2 - List.length u)%nat with 2%nat in C by lia. cbn [app skipn] in C.
    change (has_prefix crlf (crlf ++ w)) with true in C. now apply negb_true_iff in C.
  - intros K. assert (existsb (beq b_cr) v = true) as G by (apply existsb_exists; exists b_cr; now split).
    rewrite G in D. now apply negb_true_iff in D.
Qed.
Lemma fields_check l : forallb (fun f => value_check (f_value f)) l = true -> Forall (fun f => value_ok (f_value f)) l.
Proof. intros H. apply Forall_forall. intros f Hf. rewrite forallb_forall in H. apply value_check_ok. now apply H. Qed.
Definition sub_check (p : Z * bytes) : bool :=
  negb (existsb (beq b_cr) (snd p)) && forallb (fun k => match find_sub (key_text k) (snd p) with None => true | Some _ => false end) key_numbers.
Lemma sub_check_ok p : key_ok (fst p) -> fst p <> 34 -> sub_check p = true -> sub_ok p.
Proof.
  intros Hk H34. unfold sub_check. rewrite andb_true_iff. intros [A C]. apply negb_true_iff in A. split; [exact Hk|]. split; [|split].
  - intros K. assert (existsb (beq b_cr) (snd p) = true) by (apply existsb_exists; exists b_cr; now split). congruence.
  - intros k Hk'. rewrite forallb_forall in C. specialize (C k (proj2 (key_numbers_ok k) Hk')).
    destruct (find_sub (key_text k) (snd p)) eqn:E; [discriminate|]. now apply find_sub_none.
  - intros K. congruence.
Qed.

Definition ex_money : money := mkMoney (B "12") (B "50").
Definition ex_d (y m d : Z) : date := mkDate y m d.
Definition ex_info : info := mkInfo (B "177")
  [(0, B "Lastschrift"); (20, B "Miete: Januar"); (21, B "- und mehr"); (30, B "10000000"); (31, B "4711"); (32, B "Max"); (33, B "Muster")].
(** written in three lines *)
Definition ex_info_value : bytes :=
  B "177?00Lastschrift?20Miete: J" ++ crlf ++ B "anuar?21- und mehr?30100" ++ crlf ++ B "00000?314711?32Max?33Muster".
(** a debit with dates in two months, a reversed debit, a credit without booking date *)
Definition ex_e1 : entry := mkEntry (ex_d 2015 1 2) (Some (ex_d 2015 2 1)) D_ (Some "R"%byte) ex_money (B "MSC") (B "NONREF//BREF" ++ crlf ++ B "/OCMT").
Definition ex_e2 : entry := mkEntry (ex_d 2015 1 2) (Some (ex_d 2015 1 2)) RD_ None ex_money (B "MSC") (B "NONREF").
Definition ex_e3 : entry := mkEntry (ex_d 2015 1 2) None C_ None ex_money (B "MSC") [].
Definition ex_bal (debit : bool) : balance := mkBal debit (ex_d 2015 1 1) (B "EUR") (mkMoney (B "100") (B "00")).
Definition ex_stmt (es : list (entry * option (info * bytes))) : stmt :=
  mkStmt (B "STARTUMS") (Some []) (B "10000000") (B "4711") (B "5") (Some (B "1")) "F" (ex_bal true) es "F" (ex_bal false)
    (Some (ex_bal false)) [ex_bal false; ex_bal true] (Some (ex_info, ex_info_value)).
Definition ex_now : Z := 2016.
Definition ex_parse (s : bytes) : option bytes := Some s.
Definition ex_neg (s : bytes) : bytes := B "-" ++ s.
Definition ex_other (_ : Z) : bool := false.

Lemma ex_info_ok : info_ok ex_info.
Proof.
  split; [reflexivity|]. split; [reflexivity|]. split; [repeat constructor|].
  repeat apply Forall_cons; try apply Forall_nil; (apply sub_check_ok; [unfold key_ok; cbn; lia|cbn; lia|vm_compute; reflexivity]).
Qed.
Lemma ex_written_ok : written_ok (ex_info, ex_info_value).
Proof.
  split; [exact ex_info_ok|]. exists [B "?00Lastschrift?20Miete: J"; B "anuar?21- und mehr?30100"; B "00000?314711?32Max?33Muster"].
  split; vm_compute; reflexivity.
Qed.
Ltac real := split; [cbn; lia|split; [cbn; lia|vm_compute; split; discriminate]].
Lemma ex_money_ok : money_ok ex_money.
Proof. repeat split; discriminate. Qed.
Lemma ex_text_ok t : find_sub (crlf ++ B "//") t = None -> text_ok t.
Proof. intros H. unfold text_ok. now apply find_sub_none. Qed.
Lemma ex_entries_ok : Forall (fun e => entry_ok ex_now e) [ex_e1; ex_e2; ex_e3].
Proof.
  repeat apply Forall_cons; try apply Forall_nil; (split; [|apply ex_text_ok; vm_compute; reflexivity]);
  (split; [real|]); (split; [vm_compute; reflexivity|]); (split; [first [exact I|real]|]); (split; [first [exact I|reflexivity]|]);
  (split; [exact ex_money_ok|reflexivity]).
Qed.
Lemma ex_bal_ok d : balance_ok ex_now (ex_bal d).
Proof. split; [real|]. split; [vm_compute; reflexivity|]. split; [reflexivity|]. repeat split; discriminate. Qed.
Definition ex_stmts : list stmt :=
  [ex_stmt [(ex_e1, Some (ex_info, ex_info_value)); (ex_e2, None); (ex_e3, None)]; ex_stmt []; ex_stmt [(ex_e2, Some (ex_info, ex_info_value))]].
Lemma ex_stmt_ok es : Forall (fun p => In (fst p) [ex_e1; ex_e2; ex_e3] /\ match snd p with None => True | Some q => q = (ex_info, ex_info_value) end) es ->
  forallb (fun f => value_check (f_value f)) (stmt_fields (ex_stmt es)) = true ->
  stmt_ok (fun m => exists x, ex_parse (dotted m) = Some x) ex_now (ex_stmt es).
Proof.
  intros H V. assert (R : forall m, exists x, ex_parse (dotted m) = Some x) by (intros m; eexists; reflexivity).
  assert (Hb : forall d, balance_ok ex_now (ex_bal d) /\ exists x, ex_parse (dotted (b_money (ex_bal d))) = Some x)
    by (intros d; split; [apply ex_bal_ok|apply R]).
  split; [cbn; intuition discriminate|]. split; [cbn; intuition discriminate|].
  split; [split; [discriminate|split; [reflexivity|vm_compute; discriminate]]|].
  split; [split; [discriminate|split; [reflexivity|vm_compute; discriminate]]|].
  split; [reflexivity|]. split; [reflexivity|]. split; [|split; [|split]].
  - cbv zeta. split; [apply Hb|]. split; [apply Hb|]. split; [apply Hb|]. repeat constructor; apply Hb.
  - pose proof ex_entries_ok as He. rewrite Forall_forall in *. intros p Hp. destruct (H p Hp) as [A C].
    split; [now apply He|]. split; [apply R|]. destruct (snd p) as [q|]; [|exact I]. subst q. exact ex_written_ok.
  - exact ex_written_ok.
  - now apply fields_check.
Qed.
Lemma ex_stmts_ok : Forall (stmt_ok (fun m => exists x, ex_parse (dotted m) = Some x) ex_now) ex_stmts.
Proof.
  unfold ex_stmts. repeat apply Forall_cons; try apply Forall_nil; (apply ex_stmt_ok; [|vm_compute; reflexivity]);
  repeat apply Forall_cons; try apply Forall_nil; cbn [fst snd]; (split; [cbn; tauto|first [exact I|reflexivity]]).
Qed.
Lemma Forall2_len {A C} (R : A -> C -> Prop) l l' : Forall2 R l l' -> List.length l = List.length l'.
Proof. induction 1; cbn; congruence. Qed.
(** Three statements, one of them empty: four transactions. *)
Definition ex_got : outcome (list tx) := unmarshal_mt940 ex_parse ex_neg ex_other ex_now [] (written ex_stmts).
Example C46_witness : exists ts, ex_got = Ok ts /\ List.length ts = 4%nat.
Proof.
  destruct (C46_every_entry_once ex_parse ex_neg ex_other ex_now [] ltac:(unfold ex_now; lia) ex_stmts) as (ts & E & H); [discriminate|exact ex_stmts_ok|].
  exists ts. split; [exact E|]. rewrite <- (Forall2_len _ _ _ H). reflexivity.
Qed.
Example C46_witness_values : match ex_got with
  | Ok (t :: _) => tx_account t = (B "10000000", B "4711") /\ tx_amount t = B "-12.50" /\ tx_currency t = B "EUR" /\
      tx_valuta t = mkDate 2015 1 2 /\ tx_booking t = Some (mkDate 2015 2 1) /\ tx_text t = B "Lastschrift" /\
      tx_bank t = B "10000000" /\ tx_account_id t = B "4711" /\ tx_name t = B "Max Muster" /\
      tx_purpose t = B "Miete: Januar - und mehr" /\ tx_id t = 177
  | _ => False
  end.
Proof. vm_compute. repeat split; reflexivity. Qed.

(** *** C37 *)
Example C37_witness : map sign_lost [ex_e1; ex_e2; ex_e3] = [false; false; false] /\
  match ex_got with Ok ts => map tx_amount ts = [B "-12.50"; B "12.50"; B "12.50"; B "12.50"] | _ => False end.
Proof. vm_compute. split; reflexivity. Qed.
Definition ex_one (e : entry) : outcome (list tx) :=
  unmarshal_mt940 ex_parse ex_neg ex_other ex_now [] (written [ex_stmt [(e, None)]]).
Definition amount_sign (o : outcome (list tx)) : outcome (list bytes) := do ts <- o; Ok (map tx_amount ts).
(** A debit without booking date is delivered as a credit, *)
Theorem C37_debit_refuted :
  amount_sign (ex_one (mkEntry (ex_d 2015 1 2) None D_ None ex_money (B "MSC") (B "NONREF"))) = Ok [B "12.50"].
Proof. vm_compute. reflexivity. Qed.
Print Assumptions C37_debit_refuted.
(** the reversal of a credit too, with or without a booking date, *)
Theorem C37_reversal_refuted :
  amount_sign (ex_one (mkEntry (ex_d 2015 1 2) (Some (ex_d 2015 1 2)) RC_ None ex_money (B "MSC") (B "NONREF"))) = Ok [B "12.50"] /\
  amount_sign (ex_one (mkEntry (ex_d 2015 1 2) None RC_ None ex_money (B "MSC") (B "NONREF"))) = Ok [B "12.50"].
Proof. split; vm_compute; reflexivity. Qed.
Print Assumptions C37_reversal_refuted.
(** and the reversal of a debit, or a credit in kind D, without a booking date as a debit. *)
Theorem C37_credit_refuted :
  amount_sign (ex_one (mkEntry (ex_d 2015 1 2) None RD_ None ex_money (B "MSC") (B "NONREF"))) = Ok [B "-12.50"] /\
  amount_sign (ex_one (mkEntry (ex_d 2015 1 2) None C_ (Some "D"%byte) ex_money (B "MSC") (B "NONREF"))) = Ok [B "-12.50"].
Proof. split; vm_compute; reflexivity. Qed.
Print Assumptions C37_credit_refuted.
(** The opening balance of the example is a debit of 100, and it is delivered as +100. *)
Theorem C37_balance_refuted : b_debit (s_opening (ex_stmt [])) = true /\
  match ex_got with Ok ts => map tx_before ts = repeat (B "100.00", B "EUR", mkDate 2015 1 1) 4 | _ => False end.
Proof. vm_compute. split; reflexivity. Qed.
Print Assumptions C37_balance_refuted.

(** *** C43 *)
Definition ex_read (v : bytes) : outcome (date * option date) :=
  do t <- read_transaction ex_parse ex_other ex_now (B ":61:" ++ v); Ok (tt_valuta t, tt_booking t).
Example C43_witness : ex_read (B "1512310101D12,50NMSCNONREF") = Ok (mkDate 2015 12 31, Some (mkDate 2016 1 1)) /\
  booking_kept (mkDate 2015 12 31) (mkDate 2016 1 1) /\ real_date (mkDate 2015 12 31) /\ real_date (mkDate 2016 1 1).
Proof.
  split; [vm_compute; reflexivity|]. split; [|split; real]. right. cbn. split; [reflexivity|]. split; [lia|]. intros [K _]. discriminate K.
Qed.
(** Booked on 31 December 2015, valued on 1 January 2016: delivered as 31 December 2017. *)
Theorem C43_new_year_refuted : ex_read (B "1601011231D12,50NMSCNONREF") = Ok (mkDate 2016 1 1, Some (mkDate 2017 12 31)).
Proof. vm_compute. reflexivity. Qed.
Print Assumptions C43_new_year_refuted.
(** Booked on 5 March 2015, valued on 5 January 2015: delivered as 5 March 2016. *)
Theorem C43_two_months_refuted : ex_read (B "1501050305D12,50NMSCNONREF") = Ok (mkDate 2015 1 5, Some (mkDate 2016 3 5)).
Proof. vm_compute. reflexivity. Qed.
Print Assumptions C43_two_months_refuted.
(** A valuta date of the last century. *)
Theorem C43_last_century_refuted : ex_read (B "9912311231D12,50NMSCNONREF") = Ok (mkDate 2099 12 31, Some (mkDate 2099 12 31)).
Proof. vm_compute. reflexivity. Qed.
Print Assumptions C43_last_century_refuted.
(** 30 February, which banks use, is taken to be in the year of the clock, not in the
    year that is written. *)
Theorem C43_february_30_refuted : ex_read (B "1502300227D12,50NMSCNONREF") = Ok (mkDate 2016 3 1, Some (mkDate 2016 2 27)).
Proof. vm_compute. reflexivity. Qed.
Print Assumptions C43_february_30_refuted.

(** *** C44 *)
Example C44_witness : info_ok ex_info /\ info_value ex_info ex_info_value /\
  read_custom (B ":86:" ++ ex_info_value) =
  Ok (mkCustom 177 (B "Lastschrift") [] [B "Miete: Januar"; B "- und mehr"] (B "10000000") (B "4711") (B "Max Muster") 0 []).
Proof. split; [apply ex_written_ok|]. split; [apply ex_written_ok|]. vm_compute. reflexivity. Qed.
Example C44_witness_out_of_order : ~ in_order (B "?20Miete?00Lastschrift") /\ ~ occurs (B "?34") (B "?20Miete?00Lastschrift").
Proof.
  split; [|apply find_sub_none; vm_compute; reflexivity]. intros H.
  assert (K : (8 < 0)%nat); [|lia]. apply (H 0 20); [unfold key_ok; lia|unfold key_ok; lia|lia| |]; apply find_first; vm_compute; reflexivity.
Qed.
(** A purpose before the booking text: the process dies. *)
Theorem C44_out_of_order_refuted :
  read_custom (B ":86:177?20Miete?00Lastschrift") = Panic /\
  unmarshal_mt940 ex_parse ex_neg ex_other ex_now [] (swift_message
    [plain_field (B "20") (B "STARTUMS"); plain_field (B "25") (B "10000000/4711"); mkField (B "28") (Some "C"%byte) (B "5");
     mkField (B "60") (Some "F"%byte) (B "C150101EUR100,00"); plain_field (B "61") (B "1501020102D12,50NMSCNONREF");
     plain_field (B "86") (B "177?20Miete?00Lastschrift"); mkField (B "62") (Some "F"%byte) (B "C150101EUR87,50")]) = Panic.
Proof. split; vm_compute; reflexivity. Qed.
Print Assumptions C44_out_of_order_refuted.
(** A key written inside a text is taken for the field: here the name. *)
Theorem C44_key_in_text_refuted : exists c, read_custom (B ":86:177?00Kauf?20Wo ist ?30 Euro?21x") = Panic /\
  read_custom (B ":86:177?00Kauf?20Wo ist ?32 Euro") = Ok c /\ cu_name c = B " Euro" /\ cu_purpose c = [B "Wo ist "].
Proof. eexists. split; [vm_compute; reflexivity|]. split; [vm_compute; reflexivity|]. split; reflexivity. Qed.
Print Assumptions C44_key_in_text_refuted.

(** *** C45 *)
(** A statement preceded by a message of a bank without account. *)
Definition ex_no_account : list field := [plain_field (B "20") (B "STARTUMS"); plain_field (B "79") (B "Kein Umsatz")].
Example C45_witness : Forall good_fields [stmt_fields (ex_stmt []); ex_no_account] /\
  (forall t, In t ex_no_account -> ~ (f_number t = B "25" /\ f_letter t = None)) /\
  unmarshal_mt940 ex_parse ex_neg ex_other ex_now [] (List.concat (map swift_message [stmt_fields (ex_stmt []); ex_no_account])) = Panic.
Proof.
  assert (G : Forall good_fields [stmt_fields (ex_stmt []); ex_no_account]).
  { apply Forall_cons; [|apply Forall_cons; [|apply Forall_nil]].
    - split; [discriminate|]. pose proof ex_stmts_ok as H. rewrite Forall_forall in H. specialize (H (ex_stmt [])).
      assert (K : In (ex_stmt []) ex_stmts) by (right; now left). specialize (H K).
      pose proof (stmt_fields_ids ex_parse ex_now (ex_stmt []) H) as I1. destruct H as (_ & _ & _ & _ & _ & _ & _ & _ & _ & H).
      rewrite Forall_forall in *. intros t Ht. split; auto.
    - split; [discriminate|]. repeat apply Forall_cons; try apply Forall_nil; (split; [repeat split; discriminate|apply value_check_ok; vm_compute; reflexivity]). }
  assert (N : forall t, In t ex_no_account -> ~ (f_number t = B "25" /\ f_letter t = None)).
  { intros t [<-|[<-|[]]] [K _]; discriminate K. }
  split; [exact G|]. split; [exact N|].
  apply (C45_no_account_panics ex_parse ex_neg ex_other ex_now [] [stmt_fields (ex_stmt []); ex_no_account] ex_no_account G); [right; now left|exact N].
Qed.
Definition ex_bad : list field :=
  [plain_field (B "20") (B "STARTUMS"); plain_field (B "25") (B "10000000/4711"); mkField (B "28") (Some "C"%byte) (B "5/1");
   mkField (B "60") (Some "F"%byte) (balance_value (ex_bal true)); plain_field (B "61") (entry_value ex_e2);
   plain_field (B "61") (B "1501020102XX"); plain_field (B "86") (B "177?00Kauf")].
Example C45_witness_bad_entry :
  unmarshal_mt940 ex_parse ex_neg ex_other ex_now [] (List.concat (map swift_message [ex_bad])) = Panic.
Proof.
  pose proof ex_stmts_ok as H. rewrite Forall_forall in H. specialize (H (ex_stmt []) ltac:(right; now left)).
  apply (C45_bad_entry_panics ex_parse ex_neg ex_other ex_now [] ltac:(unfold ex_now; lia) [ex_bad] (ex_stmt []) [(ex_e2, None)]
    (B "1501020102XX") [plain_field (B "86") (B "177?00Kauf")] H); [discriminate| |vm_compute; reflexivity| |now left].
  - constructor; [|constructor]. pose proof ex_entries_ok as E. rewrite Forall_forall in E. split; [apply E; cbn; tauto|]. split; [now eexists|exact I].
  - constructor; [|constructor]. split; [discriminate|].
    repeat apply Forall_cons; try apply Forall_nil; (split; [repeat split; discriminate|apply value_check_ok; vm_compute; reflexivity]).
Qed.
(** The same bad entry as the first one gives an error instead. *)
Theorem C45_panic_refuted :
  let text first := swift_message ([plain_field (B "20") (B "STARTUMS"); plain_field (B "25") (B "10000000/4711"); mkField (B "28") (Some "C"%byte) (B "5");
    mkField (B "60") (Some "F"%byte) (B "C150101EUR100,00")] ++ first ++
    [plain_field (B "61") (B "1501020102XX"); mkField (B "62") (Some "F"%byte) (B "C150101EUR87,50")]) in
  unmarshal_mt940 ex_parse ex_neg ex_other ex_now [] (text []) = Err /\
  unmarshal_mt940 ex_parse ex_neg ex_other ex_now [] (text [plain_field (B "61") (B "1501020102D12,50NMSCNONREF")]) = Panic.
Proof. split; vm_compute; reflexivity. Qed.
Print Assumptions C45_panic_refuted.

(** *** Single fields *)
Example C46_fields_witness :
  read_account (B ":25:12345678/0000123") = Ok (mkAccount (B "12345678") (B "0000123")) /\
  read_account (B ":25:12345678/0000123/EUR") = Err /\
  read_statement_number (B ":28C:00012/003") = Ok (12, 3) /\
  unmarshal_mt940 ex_parse ex_neg ex_other ex_now [] (swift_message (stmt_fields (ex_stmt []) ++ [plain_field (B "13D") (B "x")])) = Err.
Proof. repeat split; vm_compute; reflexivity. Qed.
Example C47_mark_witness : exists t, e_booking ex_e1 <> None /\
  read_transaction ex_parse ex_other ex_now (B ":61:1501020102RDR12,50NMSCNONREF") = Ok t /\ tt_mark t = B "RD" /\ tt_kind t = B "R".
Proof. eexists. split; [discriminate|]. split; [vm_compute; reflexivity|]. split; reflexivity. Qed.
(** A reversal without a currency letter. *)
Theorem C47_mark_refuted : exists t,
  read_transaction ex_parse ex_other ex_now (B ":61:1501020102RD12,50NMSCNONREF") = Ok t /\ tt_mark t = B "R" /\ tt_kind t = B "D".
Proof. eexists. split; [vm_compute; reflexivity|]. split; reflexivity. Qed.
Print Assumptions C47_mark_refuted.

(** *** C47 *)
Example C47_witness : exists t, read_transaction ex_parse ex_other ex_now (B ":61:" ++ entry_value ex_e1) = Ok t /\
  tt_reference t = B "NONREF" /\ tt_bank_reference t = B "BREF" /\ tt_information t = B "OCMT".
Proof. eexists. split; [vm_compute; reflexivity|]. repeat split; reflexivity. Qed.
(** Information with "//" and no bank reference: the line break ends up in the reference and
    the information in the bank reference. *)
Theorem C47_slashes_refuted : exists t,
  read_transaction ex_parse ex_other ex_now (B ":61:1501020102D12,50NMSCNONREF" ++ crlf ++ B "/http://x") = Ok t /\
  tt_reference t = B "NONREF" ++ crlf ++ B "/http:" /\ tt_bank_reference t = B "http:" /\ tt_information t = B "x".
Proof. eexists. split; [vm_compute; reflexivity|]. repeat split; reflexivity. Qed.
Print Assumptions C47_slashes_refuted.
Theorem C47_panic_refuted :
  read_transaction ex_parse ex_other ex_now (B ":61:1501020102D12,50NMSCNONREF" ++ crlf ++ B "//BREF") = Panic.
Proof. vm_compute. reflexivity. Qed.
Print Assumptions C47_panic_refuted.
