(** * Reading balances *)
From Verif Require Import Base BaseFacts Lexer_Model Lexer_Spec Lexer_Proofs Lexer_Facts
  Codec_Model Codec_Spec Codec_Proofs Codec_Props Wire_Model Wire_Spec Wire_Proofs Wire_Facts Wire_Facts2 Wire_Facts3
  Message_Model Message_Spec Message_Proofs Message_Facts Message_Facts2 Message_Facts3 Seg_Model Seg_Spec Seg_Facts Seg_Facts2.
From Coq Require Import Lia ZifyBool ZifyNat ZifyN.
Open Scope Z_scope.
Ltac Zify.zify_post_hook ::= Z.div_mod_to_equations.

Lemma opt_ok_impl {A} (P Q : A -> Prop) o : (forall a, P a -> Q a) -> opt_ok P o -> opt_ok Q o.
Proof. intros H. destruct o; cbn; auto. Qed.
Lemma opt_items {A} (g : A -> list item) (ok : A -> Prop) o : (forall a, ok a -> Forall item_ok (g a)) -> opt_ok ok o ->
  Forall item_ok (opt_group g o).
Proof. intros H. destruct o; cbn; [auto|constructor]. Qed.
(** The length of every data element is bounded by that of the segment. *)
Lemma element_small g id pos v ref gs : In g gs -> len (segment_wire id pos v ref gs) < 2 ^ 61 -> len (group_wire g) < 2 ^ 61.
Proof.
  intros H Hl. assert (len (group_wire g) <= len (segment_wire id pos v ref gs)) by (apply in_wire_len; right; now apply in_map). lia.
Qed.
Lemma wire_version {A} (f : Z -> bytes -> outcome A) id pos v ref gs :
  forallb alnum id = true -> header_ok pos ref -> 0 <= v <= 99 -> Forall (Forall item_ok) gs ->
  len (segment_wire id pos v ref gs) < 2 ^ 61 ->
  with_version f (segment_wire id pos v ref gs) = f v (segment_wire id pos v ref gs).
Proof.
  intros Hid Hh Hv Hg Hl. unfold with_version, extract_header. rewrite segment_wire_elements by assumption. cbn [obind].
  rewrite wire_elements_eq, header_read; [reflexivity|assumption..|].
  assert (len (header_bytes id pos v ref) <= len (segment_wire id pos v ref gs)) by (apply in_wire_len; now left). lia.
Qed.
Lemma time_of_day_eq t : time_of_day t = instant_of_tod t.
Proof. unfold time_of_day, instant_of_tod, one_second, ns_per_second. lia. Qed.

Section Amounts.
  Context {F : Type} (parse_float : bytes -> option F) (neg : F -> F) (value : N -> bytes -> F).
  Hypothesis float_ok : forall u f, (u < 10 ^ 15)%N -> forallb is_digit f = true ->
    parse_float (itoa_N u ++ "."%byte :: f) = Some (value u f).

  Lemma value_read u f : item_ok (TMoney u f) -> unmarshal_value parse_float (item_wire (TMoney u f)) = Ok (value u f).
  Proof.
    intros [H1 H2]. unfold unmarshal_value. cbn [item_wire]. rewrite to_utf8_ascii by now apply money_ascii.
    rewrite (replace1_at b_comma "."%byte) by apply (digits_no_dot _ (itoa_N_digits u)). now rewrite float_ok.
  Qed.
  Lemma reads_amount : reads (unmarshal_amount parse_float) amount_group amount_ok (amount_value value).
  Proof.
    intros a [[H1 H2] H3] Hl. split; [apply (group_wire_ne _ (TText (bm_currency a))); [cbn; tauto|exact H3]|].
    unfold unmarshal_amount, amount_group in *.
    change [TMoney (bm_units a) (bm_decimals a); TText (bm_currency a)]
      with ([TMoney (bm_units a) (bm_decimals a)] ++ [TText (bm_currency a)]) in *.
    rewrite group_read_present; [|now split|exact H3|exact Hl].
    cbn [app map obind]. cbn [app] in H1. rewrite Forall_cons_iff in H1. destruct H1 as [H1 _].
    rewrite value_read by exact H1. cbn [obind]. rewrite text_read. reflexivity.
  Qed.
  Lemma reads_balance : reads (unmarshal_balance parse_float neg) balance_group balance_ok (balance_value value neg).
  Proof.
    intros b [H1 H2] Hl. split; [apply (group_wire_ne _ (TDate (bb_day b))); [cbn; tauto|exact I]|].
    unfold unmarshal_balance. unfold balance_group in *.
    assert (E : group_extract (group_wire ([TText (if bb_debit b then B "D" else B "C"); TMoney (bm_units (bb_amount b)) (bm_decimals (bb_amount b));
        TText (bm_currency (bb_amount b)); TDate (bb_day b)] ++ match bb_time b with Some t => [TTime t] | None => [] end)) =
      Ok (map item_wire ([TText (if bb_debit b then B "D" else B "C"); TMoney (bm_units (bb_amount b)) (bm_decimals (bb_amount b));
        TText (bm_currency (bb_amount b)); TDate (bb_day b)] ++ match bb_time b with Some t => [TTime t] | None => [] end))).
    { destruct (bb_time b) as [t|].
      - apply group_read_present; [now split|exact I|exact Hl].
      - cbn [app] in *. change [TText (if bb_debit b then B "D" else B "C"); TMoney (bm_units (bb_amount b)) (bm_decimals (bb_amount b));
          TText (bm_currency (bb_amount b)); TDate (bb_day b)] with ([TText (if bb_debit b then B "D" else B "C");
          TMoney (bm_units (bb_amount b)) (bm_decimals (bb_amount b)); TText (bm_currency (bb_amount b))] ++ [TDate (bb_day b)]) in *.
        apply group_read_present; [now split|exact I|exact Hl]. }
    rewrite E. cbn [app map obind]. cbn [app] in H1. rewrite !Forall_cons_iff in H1. destruct H1 as (_&K2&_&K4&K5).
    rewrite text_read. cbn [obind]. rewrite value_read by exact K2. cbn [obind]. rewrite text_read. cbn [obind].
    rewrite date_read by exact K4. cbn [obind].
    assert (S : bytes_eqb (utf8 (if bb_debit b then B "D" else B "C")) (B "D") = bb_debit b) by (destruct (bb_debit b); reflexivity).
    rewrite S. unfold balance_value. destruct (bb_time b) as [t|]; cbn [map]; [|reflexivity].
    rewrite Forall_cons_iff in K5. rewrite time_read by apply K5. cbn [obind option_map]. rewrite time_of_day_eq. reflexivity.
  Qed.

  (** ** HISAL *)
  Definition hisal_value (v : Z) (b : balances) : hisal F :=
    mkHisal v (Some match bs_account b with
                    | BNational a => National (national_value a)
                    | BInternational a => International (intl_element_value a)
                    end)
      (Some (utf8 (bs_product b))) (Some (utf8 (bs_currency b))) (Some (balance_value value neg (bs_booked b)))
      (option_map (balance_value value neg) (bs_earmarked b)) (option_map (amount_value value) (bs_credit b))
      (option_map (amount_value value) (bs_available b)) (option_map (amount_value value) (bs_used b))
      (bs_date b) (bs_time b) (bs_due b) (if v =? 8 then option_map (amount_value value) (bs_seizable b) else None).
  Definition account_group (a : bank_account) : list item :=
    match a with BNational a => national_group a | BInternational a => international_group a end.
  Definition balances_groups (v : Z) (b : balances) : list (list item) :=
    [account_group (bs_account b);
      [TText (bs_product b)]; [TText (bs_currency b)]; balance_group (bs_booked b);
      opt_group balance_group (bs_earmarked b); opt_group amount_group (bs_credit b);
      opt_group amount_group (bs_available b); opt_group amount_group (bs_used b);
      opt_group (fun d => [TDate d]) (bs_date b); opt_group (fun t => [TTime t]) (bs_time b);
      opt_group (fun d => [TDate d]) (bs_due b)] ++
     (if v =? 8 then [opt_group amount_group (bs_seizable b)] else []).
  Lemma balances_items v b : balances_ok v b -> Forall (Forall item_ok) (balances_groups v b).
  Proof.
    intros (H0&H1&H2&H3&H4&H5&H6&H7&H8&H9&H10&H11&H12&H13&_). unfold balances_groups.
    assert (Ham : forall o, opt_ok amount_ok o -> Forall item_ok (opt_group amount_group o)).
    { intros o. apply opt_items. intros a [[K _] _]. exact K. }
    apply Forall_app. split; [|destruct (v =? 8); repeat constructor; now apply Ham].
    do 11 (apply Forall_cons; [shelve|]). apply Forall_nil. Unshelve. all: try (now apply Ham).
    - destruct (bs_account b) as [a|a]; apply H0.
    - constructor; [exact H1|constructor].
    - constructor; [exact H3|constructor].
    - apply H5.
    - revert H6. apply opt_items. intros a [K _]. exact K.
    - revert H10. apply opt_items. intros d K. repeat constructor; apply K.
    - revert H11. apply opt_items. intros d K. repeat constructor; apply K.
    - revert H12. apply opt_items. intros d K. repeat constructor; apply K.
  Qed.
  Lemma hisal_read pos v ref b : 5 <= v <= 8 -> header_ok pos ref -> balances_ok v b ->
    len (balances_segment pos v ref b) < 2 ^ 61 ->
    unmarshal_hisal parse_float neg v (balances_segment pos v ref b) = Ok (hisal_value v b).
  Proof.
    intros Hv Hh Hb Hl. pose proof (balances_items v b Hb) as Hi.
    change (balances_segment pos v ref b) with (segment_wire (B "HISAL") pos v ref (balances_groups v b)) in *.
    unfold unmarshal_hisal. rewrite segment_wire_read; [|reflexivity|exact Hh|lia|exact Hi|exact Hl].
    assert (S : forall g, In g (balances_groups v b) -> len (group_wire g) < 2 ^ 61) by (intros g Hg; now apply (element_small g _ _ _ _ _ Hg) in Hl).
    destruct Hb as (H0&H1&H2&H3&H4&H5&H6&H7&H8&H9&H10&H11&H12&H13&_).
    unfold wire_elements. set (es := header_bytes (B "HISAL") pos v ref :: map group_wire (balances_groups v b)).
    rewrite !field_strip.
    assert (Hacc : field 1 (fun w => if v <? 7 then omap National (unmarshal_connection w) else omap International (unmarshal_intl w)) es =
      Ok (Some match bs_account b with BNational a => National (national_value a) | BInternational a => International (intl_element_value a) end)).
    { assert (L : len (group_wire (account_group (bs_account b))) < 2 ^ 61) by (apply S; cbn; tauto).
      unfold field. rewrite (nth_present es 1 (group_wire (account_group (bs_account b))) eq_refl).
      - cbn [opt_parse]. destruct (bs_account b) as [a|a]; cbn [account_group] in *.
        + destruct H0 as [Hv' H0]. destruct (v <? 7) eqn:E; [|lia].
          destruct (reads_national a H0 L) as [_ ->]. reflexivity.
        + destruct H0 as [Hv' H0]. destruct (v <? 7) eqn:E; [lia|].
          destruct (reads_international a H0 L) as [_ ->]. reflexivity.
      - destruct (bs_account b) as [a|a]; cbn [account_group] in *.
        + apply (reads_national a (proj2 H0) L).
        + apply (reads_international a (proj2 H0) L). }
    rewrite Hacc. cbn [obind].
    rewrite (field_some text _ _ _ 2 es (bs_product b) reads_text eq_refl H2) by (apply S; cbn; tauto). cbn [obind].
    rewrite (field_some text _ _ _ 3 es (bs_currency b) reads_text eq_refl H4) by (apply S; cbn; tauto). cbn [obind].
    rewrite (field_some _ _ _ _ 4 es (bs_booked b) reads_balance eq_refl H5) by (apply S; cbn; tauto). cbn [obind].
    rewrite (field_opt _ _ _ _ 5 es (bs_earmarked b) reads_balance eq_refl H6) by (apply S; cbn; tauto). cbn [obind].
    rewrite (field_opt _ _ _ _ 6 es (bs_credit b) reads_amount eq_refl H7) by (apply S; cbn; tauto). cbn [obind].
    rewrite (field_opt _ _ _ _ 7 es (bs_available b) reads_amount eq_refl H8) by (apply S; cbn; tauto). cbn [obind].
    rewrite (field_opt _ _ _ _ 8 es (bs_used b) reads_amount eq_refl H9) by (apply S; cbn; tauto). cbn [obind].
    rewrite (field_opt _ _ _ _ 9 es (bs_date b) reads_date eq_refl H10) by (apply S; cbn; tauto). cbn [obind].
    rewrite (field_opt _ _ _ _ 10 es (bs_time b) reads_time eq_refl H11) by (apply S; cbn; tauto). cbn [obind].
    assert (I : forall (A : Type) (o : option A), option_map (fun x => x) o = o) by (intros A [|]; reflexivity).
    pose proof (field_opt _ _ _ _ 11 es (bs_due b) reads_date eq_refl H12 ltac:(apply S; cbn; tauto)) as Hd.
    unfold hisal_value. rewrite !I in *.
    destruct (v <? 8) eqn:E8.
    - destruct (v =? 8) eqn:E; [lia|]. rewrite last_field_strip.
      + rewrite Hd. reflexivity.
      + unfold es, balances_groups. rewrite E. reflexivity.
    - destruct (v =? 8) eqn:E; [|lia].
      rewrite Hd. cbn [obind]. rewrite last_field_strip.
      + rewrite (field_opt _ _ _ _ 12 es (bs_seizable b) reads_amount).
        * reflexivity.
        * unfold es, balances_groups. rewrite E. reflexivity.
        * exact H13.
        * apply S. unfold balances_groups. rewrite E. cbn. tauto.
      + unfold es, balances_groups. rewrite E. reflexivity.
  Qed.
  Lemma balances_version {A} (f : Z -> bytes -> outcome A) pos v ref b : 5 <= v <= 8 -> header_ok pos ref -> balances_ok v b ->
    len (balances_segment pos v ref b) < 2 ^ 61 ->
    with_version f (balances_segment pos v ref b) = f v (balances_segment pos v ref b).
  Proof.
    intros Hv Hh Hb Hl. exact (wire_version f (B "HISAL") pos v ref (balances_groups v b) eq_refl Hh ltac:(lia) (balances_items v b Hb) Hl).
  Qed.
  Lemma time_sub_exact t : real_time t -> time_sub (instant_of_tod t) zero_time = time_of_day t - 366 * one_day.
  Proof.
    intros (H1&H2&H3). rewrite time_of_day_eq. unfold time_sub, instant_of_tod, zero_time, one_day, one_second, ns_per_day, ns_per_second, int64_min, int64_max.
    destruct (_ <? _) eqn:E1; [lia|]. clear E1. destruct (_ <? _) eqn:E2; lia.
  Qed.
  (** The booking time that is delivered: 366 days early if a time was sent. *)
  Definition booking_delivered (b : balances) : option Z :=
    match bs_time b with Some _ => option_map (fun z => z - 366 * one_day) (booked_at b) | None => booked_at b end.
  Lemma booking_read b : opt_ok real_time (bs_time b) -> (bs_time b <> None -> bs_date b <> None) ->
    booking_instant (bs_date b) (bs_time b) = Ok (booking_delivered b).
  Proof.
    intros Ht Hd. unfold booking_instant, booking_delivered, booked_at. destruct (bs_time b) as [t|].
    - destruct (bs_date b) as [d|]; [|exfalso; apply Hd; [discriminate|reflexivity]]. cbn [deref obind option_map].
      rewrite time_sub_exact by exact Ht. unfold date_instant. f_equal. f_equal. lia.
    - destruct (bs_date b); reflexivity.
  Qed.
  Lemma balance_of_value {A} (acc : outcome A) (a : A) seiz v b : acc = Ok a -> balances_ok v b ->
    balance_of acc seiz (hisal_value v b) = Ok (balances_value value neg a (booking_delivered b) seiz b).
  Proof.
    intros -> (H0&H1&H2&H3&H4&H5&H6&H7&H8&H9&H10&H11&H12&H13&H14). unfold balance_of, hisal_value.
    cbn [obind hs_product hs_currency hs_booked hs_date hs_time deref hs_earmarked hs_credit hs_available hs_used hs_due].
    rewrite (booking_read b H11 H14). reflexivity.
  Qed.
End Amounts.
