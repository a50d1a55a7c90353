(** * C51-C57: what the segments of a bank are turned into *)
From Verif Require Import Base BaseFacts Lexer_Model Lexer_Spec Lexer_Proofs Lexer_Facts
  Codec_Model Codec_Spec Codec_Proofs Codec_Props Wire_Model Wire_Spec Wire_Proofs Wire_Facts Wire_Facts2 Wire_Facts3
  Message_Model Message_Spec Message_Proofs Message_Facts Message_Facts2 Message_Facts3 Dialog_Model
  Seg_Model Seg_Spec Seg_Facts Seg_Facts2 Seg_Facts3.
From Coq Require Import Lia ZifyBool ZifyNat ZifyN.
Open Scope Z_scope.
Ltac Zify.zify_post_hook ::= Z.div_mod_to_equations.

(** ** C51 Balances *)

(** Instants count days of the Gregorian calendar from 0000-01-01 on. *)
Theorem C51_calendar :
  date_instant (mkDate 0 1 1) = 0 /\
  forall d, real_date d -> date_instant (next_day d) = date_instant d + one_day.
Proof.
  split; [reflexivity|]. intros [y m d] (Hy&Hm&Hd). cbn [d_year d_month d_day] in *.
  assert (Dm : forall k, (k < 12)%nat -> days_before_month (Z.of_nat (S (S k))) y =
    days_before_month (Z.of_nat (S k)) y + month_length y (Z.of_nat (S k))).
  { intros k Hk. unfold days_before_month. replace (Z.to_nat (Z.of_nat (S (S k)) - 1)) with (S k) by lia.
    replace (Z.to_nat (Z.of_nat (S k) - 1)) with k by lia. rewrite seq_S, fold_left_app. cbn [fold_left].
    rewrite days_in_length by lia. replace (1 + k)%nat with (S k) by lia. reflexivity. }
  unfold date_instant, instant_of_date, next_day. cbn [d_year d_month d_day]. unfold one_day, one_second, ns_per_day, ns_per_second.
  destruct (d <? month_length y m) eqn:E1; cbn [d_year d_month d_day]; [lia|].
  destruct (m <? 12) eqn:E2; cbn [d_year d_month d_day].
  - specialize (Dm (Z.to_nat (m - 1)) ltac:(lia)).
    replace (Z.of_nat (S (Z.to_nat (m - 1)))) with m in Dm by lia.
    replace (Z.of_nat (S (S (Z.to_nat (m - 1))))) with (m + 1) in Dm by lia. rewrite Dm. lia.
  - assert (m = 12) by lia. subst m.
    assert (D12 : days_before_month 12 y = 334 + (if leap_year y then 1 else 0)).
    { unfold days_before_month. change (seq 1 (Z.to_nat (12 - 1))) with (seq 1 11). cbn [seq fold_left].
      rewrite !days_in_length by lia. unfold month_length.
      change (nth (Z.to_nat (Z.of_nat 1 - 1)) (month_lengths y) 0) with 31.
      change (nth (Z.to_nat (Z.of_nat 2 - 1)) (month_lengths y) 0) with (if leap_year y then 29 else 28).
      change (nth (Z.to_nat (Z.of_nat 3 - 1)) (month_lengths y) 0) with 31.
      change (nth (Z.to_nat (Z.of_nat 4 - 1)) (month_lengths y) 0) with 30.
      change (nth (Z.to_nat (Z.of_nat 5 - 1)) (month_lengths y) 0) with 31.
      change (nth (Z.to_nat (Z.of_nat 6 - 1)) (month_lengths y) 0) with 30.
      change (nth (Z.to_nat (Z.of_nat 7 - 1)) (month_lengths y) 0) with 31.
      change (nth (Z.to_nat (Z.of_nat 8 - 1)) (month_lengths y) 0) with 31.
      change (nth (Z.to_nat (Z.of_nat 9 - 1)) (month_lengths y) 0) with 30.
      change (nth (Z.to_nat (Z.of_nat 10 - 1)) (month_lengths y) 0) with 31.
      change (nth (Z.to_nat (Z.of_nat 11 - 1)) (month_lengths y) 0) with 30.
      destruct (leap_year y); lia. }
    rewrite D12. change (days_before_month 1 (y + 1)) with 0.
    assert (Dy : days_before_year (y + 1) = days_before_year y + 365 + (if leap_year y then 1 else 0)).
    { unfold days_before_year, leap_year. clear -Hy.
      destruct (y mod 400 =? 0) eqn:E4; [lia|]. destruct (y mod 100 =? 0) eqn:E5; [lia|]. destruct (y mod 4 =? 0) eqn:E6; lia. }
    rewrite Dy. change (month_length y 12) with 31 in *. destruct (leap_year y); lia.
Qed.
Print Assumptions C51_calendar.
Example C51_calendar_witness :
  real_date (mkDate 2024 2 28) /\ next_day (mkDate 2024 2 28) = mkDate 2024 2 29 /\
  next_day (mkDate 2023 12 31) = mkDate 2024 1 1 /\ date_instant (mkDate 1 1 1) = 366 * one_day.
Proof.
  split; [unfold real_date; cbn [d_year d_month d_day]; change (month_length 2024 2) with 29; lia|].
  split; [vm_compute; reflexivity|]. split; vm_compute; reflexivity.
Qed.

Section Balances.
  Context {F : Type} (parse_float : bytes -> option F) (neg : F -> F) (value : N -> bytes -> F).
  (** strconv.ParseFloat reads decimal numbers of up to 15 digits and any fraction. *)
  Definition reads_decimals : Prop := forall u f, (u < 10 ^ 15)%N -> forallb is_digit f = true ->
    parse_float (itoa_N u ++ "."%byte :: f) = Some (value u f).

  (** Every balance a bank reports arrives with its account, sign, amount, currency and date;
      the booking date is 366 days early if a booking time is reported. *)
  Theorem C51_balances_delivered : reads_decimals -> forall pos v ref b,
    5 <= v <= 8 -> header_ok pos ref -> balances_ok v b -> len (balances_segment pos v ref b) < 2 ^ 61 ->
    balance_in parse_float neg (balances_segment pos v ref b) =
      Ok (balances_value value neg
            match bs_account b with
            | BNational a => national_value a
            | BInternational a => national_form a
            end
            (match bs_time b with
             | None => booked_at b
             | Some _ => option_map (fun z => z - 366 * one_day) (booked_at b)
             end) None b).
  Proof.
    intros Hf pos v ref b Hv Hh Hb Hl. unfold balance_in. rewrite (balances_version _ pos v ref b ltac:(lia) Hh Hb Hl).
    rewrite (hisal_read parse_float neg value Hf pos v ref b Hv Hh Hb Hl). cbn [obind]. unfold account_balance_of.
    rewrite (balance_of_value neg value _ match bs_account b with
            | BNational a => national_value a
            | BInternational a => national_form a
            end None v b).
    - unfold booking_delivered. destruct (bs_time b); reflexivity.
    - unfold hisal_value. cbn [hs_account deref obind]. destruct Hb as [Ha _]. destruct (bs_account b) as [a|a]; [reflexivity|].
      rewrite intl_val_value by apply Ha. unfold national_form, international_value, to_account_connection.
      destruct (in_bank a) as [[c k]|]; reflexivity.
    - exact Hb.
  Qed.
  (** SepaAccountBalances: the same for versions 7 and 8, with the international account. *)
  Theorem C51_sepa_balances_delivered : reads_decimals -> forall pos v ref b a,
    7 <= v <= 8 -> header_ok pos ref -> balances_ok v b -> len (balances_segment pos v ref b) < 2 ^ 61 ->
    bs_account b = BInternational a ->
    sepa_balance_in parse_float neg (balances_segment pos v ref b) =
      Ok (balances_value value neg (international_value a)
            (match bs_time b with
             | None => booked_at b
             | Some _ => option_map (fun z => z - 366 * one_day) (booked_at b)
             end)
            (if v =? 8 then option_map (amount_value value) (bs_seizable b) else None) b).
  Proof.
    intros Hf pos v ref b a Hv Hh Hb Hl Ha. unfold sepa_balance_in. rewrite (balances_version _ pos v ref b ltac:(lia) Hh Hb Hl).
    rewrite (hisal_read parse_float neg value Hf pos v ref b ltac:(lia) Hh Hb Hl). cbn [obind]. unfold sepa_account_balance_of.
    change (hs_version (hisal_value neg value v b)) with v. destruct (v <? 7) eqn:E; [lia|].
    rewrite (balance_of_value neg value _ (international_value a) _ v b).
    - unfold booking_delivered, hisal_value. cbn [hs_seizable]. destruct (bs_time b); reflexivity.
    - unfold hisal_value. cbn [hs_account deref obind]. rewrite Ha. apply intl_val_value. destruct Hb as [K _]. rewrite Ha in K. apply K.
    - exact Hb.
  Qed.
  (** National balances have no SEPA form. *)
  Theorem C51_national_balances_are_not_sepa : reads_decimals -> forall pos v ref b,
    5 <= v <= 6 -> header_ok pos ref -> balances_ok v b -> len (balances_segment pos v ref b) < 2 ^ 61 ->
    sepa_balance_in parse_float neg (balances_segment pos v ref b) = Err.
  Proof.
    intros Hf pos v ref b Hv Hh Hb Hl. unfold sepa_balance_in. rewrite (balances_version _ pos v ref b ltac:(lia) Hh Hb Hl).
    rewrite (hisal_read parse_float neg value Hf pos v ref b ltac:(lia) Hh Hb Hl). cbn [obind]. unfold sepa_account_balance_of.
    change (hs_version (hisal_value neg value v b)) with v. destruct (v <? 7) eqn:E; [reflexivity|lia].
  Qed.
End Balances.
Print Assumptions C51_balances_delivered.
Print Assumptions C51_sepa_balances_delivered.
Print Assumptions C51_national_balances_are_not_sepa.

(** An instance of the float oracle: a decimal number as its digits. *)
Definition sample_float : bytes -> option bytes := Some.
Definition sample_value (u : N) (f : bytes) : bytes := itoa_N u ++ "."%byte :: f.
Definition sample_neg (x : bytes) : bytes := "-"%byte :: x.
Lemma sample_float_ok : reads_decimals sample_float sample_value.
Proof. intros u f _ _. reflexivity. Qed.

(** An overdrawn account, reported with everything version 8 has. *)
Definition sample_balances : balances :=
  mkBalances
    (BInternational (mkInt (B "DE89370400440532013000") (B "COBADEFFXXX") (B "532013000") [] (Some (280, B "37040044"))))
    (B "Giro + Karte") (B "EUR")
    (mkBankBalance true (mkBankAmount 1234 (B "56") (B "EUR")) (mkDate 2024 2 29) (Some (mkTod 23 59 58)))
    (Some (mkBankBalance false (mkBankAmount 7 [] (B "EUR")) (mkDate 2024 3 1) None))
    (Some (mkBankAmount 5000 (B "00") (B "EUR"))) None (Some (mkBankAmount 0 (B "01") (B "EUR")))
    (Some (mkDate 2024 2 29)) (Some (mkTod 12 30 0)) (Some (mkDate 2024 3 31))
    (Some (mkBankAmount 99 (B "9") (B "EUR"))).
Ltac prove_absent := let H := fresh in intros H; cbn in H; repeat (destruct H as [H|H]; [discriminate|]); exact H.
Ltac prove_item := first [exact I | split; [prove_absent|reflexivity] | split; [reflexivity|reflexivity] | lia
  | unfold item_ok, real_date, real_time; cbn [d_year d_month d_day t_hour t_min t_sec]; vm_compute; intuition discriminate].
Ltac prove_items := cbn; repeat (apply Forall_cons; [prove_item|]); try apply Forall_nil.
Ltac prove_groupable := cbn; repeat (apply Forall_cons; [first [exact I|split; prove_absent]|]); try apply Forall_nil.
Ltac prove_no_syntax := let c := fresh in let Hc := fresh in intros c Hc; cbn in Hc;
  repeat (destruct Hc as [<-|Hc]; [prove_absent|]); destruct Hc.
Lemma sample_balances_ok : balances_ok 8 sample_balances.
Proof.
  unfold balances_ok, sample_balances. cbn [bs_account bs_product bs_currency bs_booked bs_earmarked bs_credit bs_available bs_used bs_date bs_time bs_due bs_seizable opt_ok].
  split.
  { split; [right; reflexivity|]. split; [prove_items|]. split; [prove_groupable|]. split; [left; discriminate|]. split; [discriminate|prove_no_syntax]. }
  split; [prove_item|]. split; [discriminate|]. split; [prove_item|]. split; [discriminate|].
  split; [split; [prove_items|prove_groupable]|]. split; [split; [prove_items|prove_groupable]|].
  split; [split; [split; [prove_items|prove_groupable]|discriminate]|]. split; [exact I|].
  split; [split; [split; [prove_items|prove_groupable]|discriminate]|].
  split; [prove_item|]. split; [prove_item|]. split; [prove_item|].
  split; [split; [split; [prove_items|prove_groupable]|discriminate]|]. discriminate.
Qed.
Example C51_witness :
  header_ok 5 (Some 3) /\ balances_ok 8 sample_balances /\
  balances_segment 5 8 (Some 3) sample_balances =
    B "HISAL:5:8:3+DE89370400440532013000:COBADEFFXXX:532013000::280:37040044+Giro ?+ Karte+EUR+D:1234,56:EUR:20240229:235958+C:7,:EUR:20240301+5000,00:EUR++0,01:EUR+20240229+123000+20240331+99,9:EUR'" /\
  sepa_balance_in sample_float sample_neg (balances_segment 5 8 (Some 3) sample_balances) =
    Ok (mkAB (mkIC (B "DE89370400440532013000") (B "COBADEFFXXX") (B "532013000") [] (mkBank 280 (B "37040044")))
          (B "Giro + Karte") (B "EUR")
          (mkBalance (mkAmount (B "-1234.56") (B "EUR")) (date_instant (mkDate 2024 2 29)) (Some (time_of_day (mkTod 23 59 58))))
          (Some (mkBalance (mkAmount (B "7.") (B "EUR")) (date_instant (mkDate 2024 3 1)) None))
          (Some (mkAmount (B "5000.00") (B "EUR"))) None (Some (mkAmount (B "0.01") (B "EUR")))
          (Some (date_instant (mkDate 2023 2 28) + time_of_day (mkTod 12 30 0))) (Some (date_instant (mkDate 2024 3 31)))
          (Some (mkAmount (B "99.9") (B "EUR")))).
Proof.
  split; [unfold header_ok; lia|]. split; [exact sample_balances_ok|]. split; vm_compute; reflexivity.
Qed.
(** The booking date is wrong: 2024-02-29 12:30 becomes 2023-02-28 12:30. *)
Theorem C51_booking_time_refuted : exists b r, balances_ok 8 b /\
  balance_in sample_float sample_neg (balances_segment 5 8 (Some 3) b) = Ok r /\ bl_booking r <> booked_at b.
Proof.
  exists sample_balances. eexists. split; [exact sample_balances_ok|]. split; [vm_compute; reflexivity|]. vm_compute. discriminate.
Qed.
Print Assumptions C51_booking_time_refuted.
(** A booking time without a date, which the data type allows, crashes the caller. *)
Example C51_time_without_date_refuted :
  balance_in sample_float sample_neg (B "HISAL:5:5:3+532013000::280:37040044+Giro+EUR+C:1,:EUR:20240229++++++123000'") = Panic /\
  balance_in sample_float sample_neg (B "HISAL:5:5:3+532013000::280:37040044+Giro+EUR+C:1,:EUR:20240229+++++20240229'") =
    Ok (mkAB (mkAC (B "532013000") [] 280 (B "37040044")) (B "Giro") (B "EUR")
         (mkBalance (mkAmount (B "1.") (B "EUR")) (date_instant (mkDate 2024 2 29)) None) None None None None
         (Some (date_instant (mkDate 2024 2 29))) None None).
Proof. split; vm_compute; reflexivity. Qed.
(** Account numbers keep their release characters in national accounts, but not in
    international ones. *)
Example C51_escaped_account_refuted :
  omap (fun b => ac_account (bl_account b))
    (balance_in sample_float sample_neg (B "HISAL:5:5:3+5320?:13::280:37040044+Giro+EUR+C:1,:EUR:20240229'")) = Ok (B "5320?:13") /\
  omap (fun b => ac_account (bl_account b))
    (balance_in sample_float sample_neg (B "HISAL:5:7:3+::5320?:13::280:37040044+Giro+EUR+C:1,:EUR:20240229'")) = Ok (B "5320:13").
Proof. split; vm_compute; reflexivity. Qed.

(** ** C52 Transactions *)

(** The statement of booked transactions arrives byte for byte, whatever it contains. *)
Theorem C52_booked_delivered : forall pos v ref booked pending,
  header_ok pos ref -> 0 <= v <= 99 -> Z.of_nat (List.length booked) <= 2 ^ 48 ->
  opt_ok (fun d => Z.of_nat (List.length d) <= 2 ^ 48) pending ->
  len (transactions_segment pos v ref booked pending) < 2 ^ 61 ->
  booked_in (transactions_segment pos v ref booked pending) = Ok booked.
Proof.
  intros pos v ref booked pending Hh Hv Hb Hp Hl. unfold booked_in, transactions_segment, unmarshal_hikaz in *.
  rewrite segment_wire_read; [|reflexivity|exact Hh|exact Hv| |exact Hl].
  - assert (S : forall g, In g [[TBinary booked]; opt_group (fun d => [TBinary d]) pending] -> len (group_wire g) < 2 ^ 61)
      by (intros g Hg; now apply (element_small g _ _ _ _ _ Hg) in Hl).
    unfold wire_elements. rewrite field_strip, last_field_strip by reflexivity.
    rewrite (field_some _ _ _ _ 1 _ booked reads_binary); [|reflexivity|exact Hb|apply S; cbn; tauto]. cbn [obind].
    rewrite (field_opt _ _ _ _ 2 _ pending reads_binary); [|reflexivity|exact Hp|apply S; cbn; tauto]. reflexivity.
  - apply Forall_cons; [constructor; [exact Hb|constructor]|]. apply Forall_cons; [|constructor].
    revert Hp. apply opt_items. intros d K. constructor; [exact K|constructor].
Qed.
Print Assumptions C52_booked_delivered.
(** Without booked transactions the caller crashes, whether there are pending ones or not. *)
Theorem C52_nothing_booked_refuted : forall pos v ref pending,
  header_ok pos ref -> 0 <= v <= 99 -> opt_ok (fun d => Z.of_nat (List.length d) <= 2 ^ 48) pending ->
  len (segment_wire (B "HIKAZ") pos v ref [[]; opt_group (fun d => [TBinary d]) pending]) < 2 ^ 61 ->
  booked_in (segment_wire (B "HIKAZ") pos v ref [[]; opt_group (fun d => [TBinary d]) pending]) = Panic.
Proof.
  intros pos v ref pending Hh Hv Hp Hl. unfold booked_in, unmarshal_hikaz in *.
  rewrite segment_wire_read; [|reflexivity|exact Hh|exact Hv| |exact Hl].
  - assert (S : forall g, In g [[]; opt_group (fun d => [TBinary d]) pending] -> len (group_wire g) < 2 ^ 61)
      by (intros g Hg; now apply (element_small g _ _ _ _ _ Hg) in Hl).
    unfold wire_elements. rewrite field_strip, last_field_strip by reflexivity.
    change (field 1 unmarshal_binary _) with (Ok (@None bytes)). cbn [obind].
    rewrite (field_opt _ _ _ _ 2 _ pending reads_binary); [|reflexivity|exact Hp|apply S; cbn; tauto]. reflexivity.
  - apply Forall_cons; [constructor|]. apply Forall_cons; [|constructor].
    revert Hp. apply opt_items. intros d K. constructor; [exact K|constructor].
Qed.
Print Assumptions C52_nothing_booked_refuted.
(** A statement made of delimiters. *)
Example C52_witness :
  transactions_segment 4 6 (Some 3) (B "'+:@5@?") (Some (B "+'")) = B "HIKAZ:4:6:3+@7@'+:@5@?+@2@+''" /\
  booked_in (B "HIKAZ:4:6:3+@7@'+:@5@?+@2@+''") = Ok (B "'+:@5@?") /\
  booked_in (B "HIKAZ:4:6:3++@2@+''") = Panic.
Proof. split; [|split]; vm_compute; reflexivity. Qed.
