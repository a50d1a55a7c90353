(** Lemmas about whole MT940 statements. *)
From Verif Require Import Base BaseFacts Lexer_Model Codec_Model Codec_Spec Codec_Proofs Wire_Model Swift_Model Swift_Spec
  Swift_Facts3 Mt940_Model Mt940_Spec Mt940_Proofs Mt940_Facts Mt940_Facts2.
From Coq Require Import Lia ZifyBool ZifyNat ZifyN.
Open Scope Z_scope.

Section Statement.
  Context {F : Type}.
  Variable parse_float : bytes -> option F.
  Variable neg : F -> F.
  Variable other_digit : Z -> bool.
  Variable now : Z.
  Variable zero : F.
  Notation dispatch := (dispatch parse_float other_digit now zero).
  Notation dispatch_all := (dispatch_all parse_float other_digit now zero).
  Notation read_statement := (read_statement parse_float other_digit now zero).
  Definition reads (m : money) : Prop := exists x, parse_float (dotted m) = Some x.

  Notation delivers := (delivers parse_float neg).

  Lemma dispatch_all_app a : forall b open s,
    dispatch_all (a ++ b) open s = match dispatch_all a open s with Go o s' => dispatch_all b o s' | p => p end.
  Proof. induction a as [|t a IH]; intros b open s; [reflexivity|]. cbn [app Mt940_Model.dispatch_all]. destruct (dispatch t open s); auto. Qed.
  Lemma capital_colon l : is_capital l = true -> l <> b_colon.
  Proof. intros H ->. discriminate. Qed.

  Lemma dispatch_job v open s : dispatch (field_bytes (plain_field (B "20") v)) open s = Go open s.
  Proof. reflexivity. Qed.
  Lemma dispatch_related v open s : dispatch (field_bytes (plain_field (B "21") v)) open s = Go open s.
  Proof. reflexivity. Qed.
  Lemma split_two c : forall a b, ~ In c a -> ~ In c b -> split_on c (a ++ [c] ++ b) = [a; b].
  Proof.
    assert (K : forall b, ~ In c b -> split_on c b = [b]).
    { induction b as [|x b IH]; intros H; [reflexivity|]. cbn [split_on].
      assert (beq x c = false) as -> by (apply beq_false; intros ->; apply H; now left).
      now rewrite IH by (intros Q; apply H; now right). }
    induction a as [|x a IH]; intros b Ha Hb.
    - cbn [app split_on]. now rewrite beq_refl, K.
    - cbn [app split_on]. assert (beq x c = false) as -> by (apply beq_false; intros ->; apply Ha; now left).
      cbn [app] in IH. rewrite (IH b (fun Q => Ha (or_intror Q)) Hb). reflexivity.
  Qed.
  Lemma dispatch_account a b open s : ~ In "/"%byte a -> ~ In "/"%byte b ->
    dispatch (field_bytes (plain_field (B "25") (a ++ B "/" ++ b))) open s = Go open (set_account (mkAccount a b) s).
  Proof.
    intros Ha Hb. assert (E : forall v, dispatch (field_bytes (plain_field (B "25") v)) open s =
      store (read_account (b_colon :: B "25" ++ b_colon :: v)) (mkAccount [] []) (fun a => set_account a s) open) by reflexivity.
    rewrite E. unfold read_account. rewrite tag_elements_eq by (cbn; intuition discriminate). cbn [obind snd].
    change (a ++ B "/" ++ b) with (a ++ [slash] ++ b). now rewrite split_two.
  Qed.
  Lemma number_atoi t : number_ok t -> atoi t = Ok (Z.of_N (dec_val t)).
  Proof. intros (A & B & C). now apply atoi_plain. Qed.
  Lemma number_no_slash t : number_ok t -> ~ In slash t.
  Proof. intros (_ & H & _). now apply no_comma. Qed.
  Lemma dispatch_number n sheet open s : number_ok n -> opt_ok number_ok sheet ->
    exists p, dispatch (field_bytes (mkField (B "28") (Some "C"%byte) (n ++ match sheet with Some t => B "/" ++ t | None => [] end))) open s =
      Go open (set_number p s).
  Proof.
    intros Hn Hs. assert (E : forall v, dispatch (field_bytes (mkField (B "28") (Some "C"%byte) v)) open s =
      store (read_statement_number (b_colon :: B "28C" ++ b_colon :: v)) (0, 0) (fun n => set_number n s) open) by reflexivity.
    rewrite E. unfold read_statement_number. rewrite tag_elements_eq by (cbn; intuition discriminate). cbn [obind snd].
    destruct sheet as [t|].
    - change (n ++ B "/" ++ t) with (n ++ slash :: t). rewrite read_bytes_eq by now apply number_no_slash.
      rewrite (number_atoi t) by exact Hs. cbn [obind]. rewrite number_atoi by exact Hn. cbn [obind store]. eauto.
    - rewrite app_nil_r. rewrite read_bytes_none by now apply number_no_slash. rewrite number_atoi by exact Hn. cbn [obind store]. eauto.
  Qed.
  Definition stored_balance (b : balance) (x : F) : balance_tag :=
    mkBalance (if b_debit b then B "D" else B "C") (b_date b) (b_currency b) x.
  Hypothesis Hnow : 1000 <= now <= 9999.
  Lemma dispatch_opening l b x open s : is_capital l = true -> balance_ok now b -> parse_float (dotted (b_money b)) = Some x ->
    dispatch (field_bytes (mkField (B "60") (Some l) (balance_value b))) open s = Go true (set_opening (stored_balance b x) s).
  Proof.
    intros Hl Hb Hx. assert (E : forall v, dispatch (field_bytes (mkField (B "60") (Some l) v)) open s =
      store (read_balance parse_float now (b_colon :: (B "60" ++ [l]) ++ b_colon :: v)) (blank_balance zero) (fun b => set_opening b s) true).
    { intros v. unfold Mt940_Model.dispatch. reflexivity. }
    rewrite E, (read_balance_eq parse_float now _ b x); [reflexivity|exact Hnow| |exact Hb|exact Hx].
    cbn. intros [K|[K|[K|[]]]]; try discriminate. now apply capital_colon in Hl.
  Qed.
  Lemma dispatch_closing l b x open s : is_capital l = true -> balance_ok now b -> parse_float (dotted (b_money b)) = Some x ->
    dispatch (field_bytes (mkField (B "62") (Some l) (balance_value b))) open s = Go false (set_closing (stored_balance b x) s).
  Proof.
    intros Hl Hb Hx. assert (E : forall v, dispatch (field_bytes (mkField (B "62") (Some l) v)) open s =
      store (read_balance parse_float now (b_colon :: (B "62" ++ [l]) ++ b_colon :: v)) (blank_balance zero) (fun b => set_closing b s) false).
    { intros v. unfold Mt940_Model.dispatch. reflexivity. }
    rewrite E, (read_balance_eq parse_float now _ b x); [reflexivity|exact Hnow| |exact Hb|exact Hx].
    cbn. intros [K|[K|[K|[]]]]; try discriminate. now apply capital_colon in Hl.
  Qed.
  Definition bal_ok (b : balance) : Prop := balance_ok now b /\ reads (b_money b).
  Lemma dispatch_available b open s : bal_ok b -> dispatch (field_bytes (plain_field (B "64") (balance_value b))) open s = Go open s.
  Proof.
    intros (Hb & x & Hx). assert (E : forall v, dispatch (field_bytes (plain_field (B "64") v)) open s =
      keep (read_balance parse_float now (b_colon :: B "64" ++ b_colon :: v)) s open) by reflexivity.
    rewrite E, (read_balance_eq parse_float now _ b x); [reflexivity|exact Hnow| |exact Hb|exact Hx]. cbn. intuition discriminate.
  Qed.
  Lemma dispatch_forward b open s : bal_ok b -> dispatch (field_bytes (plain_field (B "65") (balance_value b))) open s = Go open s.
  Proof.
    intros (Hb & x & Hx). assert (E : forall v, dispatch (field_bytes (plain_field (B "65") v)) open s =
      keep (read_balance parse_float now (b_colon :: B "65" ++ b_colon :: v)) s open) by reflexivity.
    rewrite E, (read_balance_eq parse_float now _ b x); [reflexivity|exact Hnow| |exact Hb|exact Hx]. cbn. intuition discriminate.
  Qed.

  (** The transaction read for an entry, and its description. *)
  Definition entry_read (e : entry) (t : transaction_tag) : Prop :=
    tt_valuta t = e_valuta e /\
    match e_booking e with None => tt_booking t = None | Some b => exists b', tt_booking t = Some b' /\ (booking_kept (e_valuta e) b <-> b' = b) end /\
    parse_float (dotted (e_money e)) = Some (tt_amount t) /\ bytes_eqb (tt_mark t) (B "D") = xorb (outgoing (e_mark e)) (sign_lost e).
  Definition info_read (o : option (info * bytes)) : option custom :=
    match o with Some (i, _) => Some (said (Z.of_N (dec_val (i_code i))) (i_subs i)) | None => None end.
  Definition pair_read (p : entry * option (info * bytes)) (q : transaction_tag * option custom) : Prop :=
    entry_read (fst p) (fst q) /\ snd q = info_read (snd p).
  Lemma dispatch_entry e s : entry_ok now e -> reads (e_money e) ->
    exists t, entry_read e t /\
    dispatch (field_bytes (plain_field (B "61") (entry_value e))) true s = Go true (set_transactions (st_transactions s ++ [(t, None)]) s).
  Proof.
    intros He (x & Hx). assert (E : forall v, dispatch (field_bytes (plain_field (B "61") v)) true s =
      match read_transaction parse_float other_digit now (b_colon :: B "61" ++ b_colon :: v) with
      | Ok t => Go true (set_transactions (st_transactions s ++ [(t, None)]) s) | Err => Fail s | Panic => Crash end) by reflexivity.
    destruct (read_transaction_eq parse_float other_digit now (B "61") e x Hnow) as (t & E1 & E2 & E3 & E4 & E5 & _); [cbn; intuition discriminate|assumption..|].
    exists t. rewrite E, E1. split; [|reflexivity]. split; [exact E2|]. split; [exact E3|]. split; [now rewrite E4|exact E5].
  Qed.
  Lemma info_86 v open s : dispatch (field_bytes (plain_field (B "86") v)) open s =
    match read_custom (b_colon :: B "86" ++ b_colon :: v) with
      | Ok c =>
          if open then
            match rev (st_transactions s) with
            | [] => Fail s
            | (t, Some _) :: _ => Fail s
            | (t, None) :: before => Go open (set_transactions (rev before ++ [(t, Some c)]) s)
            end
          else Go open (set_custom c s)
      | Err => Fail s
      | Panic => Crash
      end.
  Proof. reflexivity. Qed.
  Lemma dispatch_description p t before s : written_ok p -> st_transactions s = before ++ [(t, None)] ->
    dispatch (field_bytes (info_field p)) true s =
    Go true (set_transactions (before ++ [(t, info_read (Some p))]) s).
  Proof.
    intros (Hi & Hv) Hs. destruct p as [i v]. unfold info_field. rewrite info_86. cbn [fst snd] in *.
    rewrite (read_custom_eq (B "86") i v); [|cbn; intuition discriminate|exact Hi|exact Hv].
    rewrite Hs, rev_app_distr. cbn [rev app]. rewrite rev_involutive. reflexivity.
  Qed.
  Lemma dispatch_remark p s : written_ok p -> exists c, dispatch (field_bytes (info_field p)) false s = Go false (set_custom c s).
  Proof.
    intros (Hi & Hv). destruct p as [i v]. unfold info_field. rewrite info_86. cbn [fst snd] in *.
    rewrite (read_custom_eq (B "86") i v); [|cbn; intuition discriminate|exact Hi|exact Hv]. eauto.
  Qed.

  Lemma set_transactions_twice a b s : set_transactions a (set_transactions b s) = @set_transactions F a s.
  Proof. reflexivity. Qed.
  Lemma dispatch_entries : forall ps s,
    Forall (fun p => entry_ok now (fst p) /\ reads (e_money (fst p)) /\ opt_ok written_ok (snd p)) ps ->
    exists qs, Forall2 pair_read ps qs /\
      dispatch_all (map field_bytes (List.concat (map entry_fields ps))) true s = Go true (set_transactions (st_transactions s ++ qs) s).
  Proof.
    induction ps as [|[e o] ps IH]; intros s H.
    - exists []. split; [constructor|]. rewrite app_nil_r. now destruct s.
    - inversion H as [|? ? (He & Hr & Ho) Hps]; subst. cbn [fst snd] in *.
      destruct (dispatch_entry e s He Hr) as (t & Ht & E).
      cbn [map List.concat]. rewrite map_app, dispatch_all_app. unfold entry_fields at 1. cbn [fst snd map]. cbn [Mt940_Model.dispatch_all].
      rewrite E. clear E.
      assert (G : dispatch_all (map field_bytes (opt_list info_field o)) true (set_transactions (st_transactions s ++ [(t, None)]) s) =
                  Go true (set_transactions (st_transactions s ++ [(t, info_read o)]) s)).
      { destruct o as [p|]; cbn [opt_list map Mt940_Model.dispatch_all]; [|reflexivity].
        now rewrite (dispatch_description p t (st_transactions s)). }
      rewrite G. clear G.
      destruct (IH (set_transactions (st_transactions s ++ [(t, info_read o)]) s) Hps) as (qs & Hq & E).
      exists ((t, info_read o) :: qs). split; [constructor; [split; [exact Ht|reflexivity]|exact Hq]|].
      rewrite E, set_transactions_twice. cbn [st_transactions set_transactions]. now rewrite <- app_assoc.
  Qed.

  (** A whole statement. *)
  Lemma statement_read s : stmt_ok reads now s ->
    exists x y qs st, parse_float (dotted (b_money (s_opening s))) = Some x /\ parse_float (dotted (b_money (s_closing s))) = Some y /\
      Forall2 pair_read (s_entries s) qs /\ dispatch_all (map field_bytes (stmt_fields s)) false empty_statement = Go false st /\
      st_account st = Some (mkAccount (s_bank s) (s_account s)) /\ st_opening st = Some (stored_balance (s_opening s) x) /\
      st_closing st = Some (stored_balance (s_closing s) y) /\ st_transactions st = qs.
  Proof.
    intros (Hb & Ha & Hn & Hsh & Hol & Hcl & (Ho & Hc & Hav & Hfw) & He & Hr & _). cbv zeta in *.
    destruct Ho as (Ho & x & Hx), Hc as (Hc & y & Hy). exists x, y.
    unfold stmt_fields. rewrite !map_app, dispatch_all_app.
    cbn [map Mt940_Model.dispatch_all]. rewrite dispatch_job.
    assert (E21 : dispatch_all (map field_bytes (opt_list (plain_field (B "21")) (s_related s))) false empty_statement = Go false empty_statement)
      by (destruct (s_related s); reflexivity).
    rewrite dispatch_all_app, E21, dispatch_all_app. clear E21. cbn [map Mt940_Model.dispatch_all].
    rewrite dispatch_account by assumption.
    match goal with |- context [dispatch (field_bytes (mkField (B "28") ?l ?v)) ?o ?st] => destruct (dispatch_number (s_number s) (s_sheet s) o st Hn Hsh) as (n & En) end.
    rewrite En. clear En.
    rewrite (dispatch_opening _ _ x) by assumption.
    rewrite dispatch_all_app.
    match goal with |- context [dispatch_all _ true ?st] => destruct (dispatch_entries (s_entries s) st He) as (qs & Hq & E) end.
    rewrite E. clear E. rewrite dispatch_all_app. cbn [Mt940_Model.dispatch_all]. rewrite (dispatch_closing _ _ y) by assumption.
    match goal with |- context [set_closing ?b ?st] => set (st2 := set_closing b st) end.
    assert (E64 : dispatch_all (map field_bytes (opt_list (fun b => plain_field (B "64") (balance_value b)) (s_available s))) false st2 = Go false st2).
    { destruct (s_available s) as [b|]; [|reflexivity]. cbn [opt_list map Mt940_Model.dispatch_all]. now rewrite dispatch_available. }
    rewrite dispatch_all_app, E64. clear E64.
    assert (E65 : dispatch_all (map field_bytes (map (fun b => plain_field (B "65") (balance_value b)) (s_forward s))) false st2 = Go false st2).
    { clearbody st2. induction Hfw as [|b l Hb0 Hl IH]; [reflexivity|]. cbn [map Mt940_Model.dispatch_all]. now rewrite dispatch_forward. }
    rewrite dispatch_all_app, E65. clear E65. exists qs.
    assert (E86 : exists st3, dispatch_all (map field_bytes (opt_list info_field (s_remark s))) false st2 = Go false st3 /\
      st_account st3 = st_account st2 /\ st_opening st3 = st_opening st2 /\ st_closing st3 = st_closing st2 /\ st_transactions st3 = st_transactions st2).
    { destruct (s_remark s) as [p|]; [|exists st2; repeat split; reflexivity].
      destruct (dispatch_remark p st2 Hr) as (c & E). cbn [opt_list map Mt940_Model.dispatch_all]. rewrite E. eexists. repeat split; reflexivity. }
    destruct E86 as (st3 & E & A1 & A2 & A3 & A4). exists st3. rewrite A1, A2, A3, A4.
    split; [exact Hx|]. split; [exact Hy|]. split; [exact Hq|]. split; [exact E|]. repeat split; reflexivity.
  Qed.

  Lemma deliver_all s a o c : forall ps qs x y, Forall2 pair_read ps qs ->
    a = mkAccount (s_bank s) (s_account s) -> o = stored_balance (s_opening s) x -> c = stored_balance (s_closing s) y ->
    parse_float (dotted (b_money (s_opening s))) = Some x -> parse_float (dotted (b_money (s_closing s))) = Some y ->
    exists ts, all_ok (deliver neg a (Some o) (Some c)) qs = Ok ts /\ Forall2 (delivers s) ps ts.
  Proof.
    intros ps qs x y H -> -> -> Hx Hy. induction H as [|[e i] [t d] ps qs (Hp & Hd) Hps (ts & E1 & E2)].
    - exists []. split; [reflexivity|constructor].
    - cbn [fst snd] in *. cbn [all_ok deliver]. rewrite E1. cbn [obind]. eexists. split; [reflexivity|].
      constructor; [|exact E2]. destruct Hp as (P1 & P2 & P3 & P4). unfold delivers. cbn [fst snd].
      cbn [tx_account tx_amount tx_currency tx_valuta tx_booking tx_text tx_bank tx_account_id tx_name tx_purpose tx_purpose2 tx_id tx_before tx_after].
      split; [reflexivity|]. split; [exists (tt_amount t); rewrite P4; auto|]. split; [reflexivity|]. split; [exact P1|]. split; [exact P2|].
      split; [eauto|]. split; [eauto|]. subst d. destruct i as [[i w]|]; cbn [info_read]; unfold said; cbn; repeat split; reflexivity.
  Qed.

  Lemma stmt_fields_ids s : stmt_ok reads now s -> Forall id_ok (stmt_fields s).
  Proof.
    intros (_ & _ & _ & _ & Hol & Hcl & _).
    assert (P : forall n v, n <> [] -> forallb is_digit n = true -> id_ok (plain_field n v)) by (intros n v A B'; repeat split; assumption).
    assert (L : forall n l v, n <> [] -> forallb is_digit n = true -> is_capital l = true -> id_ok (mkField n (Some l) v)) by (intros n l v A B' C; repeat split; assumption).
    unfold stmt_fields. repeat (apply Forall_app; split).
    - constructor; [apply P; [discriminate|reflexivity]|constructor].
    - destruct (s_related s); constructor; [apply P; [discriminate|reflexivity]|constructor].
    - constructor; [apply P; [discriminate|reflexivity]|]. constructor; [apply L; [discriminate|reflexivity..]|].
      constructor; [apply L; [discriminate|reflexivity|exact Hol]|constructor].
    - apply Forall_concat. apply Forall_forall. intros l Hl. apply in_map_iff in Hl. destruct Hl as ([e o] & <- & _).
      unfold entry_fields. cbn [fst snd]. constructor; [apply P; [discriminate|reflexivity]|].
      destruct o; constructor; [apply P; [discriminate|reflexivity]|constructor].
    - constructor; [apply L; [discriminate|reflexivity|exact Hcl]|constructor].
    - destruct (s_available s); constructor; [apply P; [discriminate|reflexivity]|constructor].
    - apply Forall_forall. intros l Hl. apply in_map_iff in Hl. destruct Hl as (b & <- & _). apply P; [discriminate|reflexivity].
    - destruct (s_remark s); constructor; [apply P; [discriminate|reflexivity]|constructor].
  Qed.
  Lemma statement_ok s : stmt_ok reads now s ->
    exists st, read_statement (swift_message (stmt_fields s)) = Go false st /\
    exists ts, transactions_of neg st = Ok ts /\ Forall2 (delivers s) (s_entries s) ts.
  Proof.
    intros H. destruct (statement_read s H) as (x & y & qs & st & Hx & Hy & Hq & E & A1 & A2 & A3 & A4).
    exists st. split.
    - unfold Mt940_Model.read_statement. rewrite extract_tags_ok.
      + destruct (map field_bytes (stmt_fields s)) eqn:M; [discriminate|]. exact E.
      + discriminate.
      + pose proof (stmt_fields_ids s H) as Hid. destruct H as (_ & _ & _ & _ & _ & _ & _ & _ & _ & Hv).
        rewrite Forall_forall in *. intros t Ht. split; auto.
    - unfold transactions_of. rewrite A1, A2, A3, A4. eapply deliver_all; eauto.
  Qed.
  Lemma unmarshal_loop_ok : forall ss acc, Forall (stmt_ok reads now) ss ->
    exists ts, unmarshal_loop parse_float neg other_digit now zero (map (fun s => swift_message (stmt_fields s)) ss) false acc = Ok (acc ++ ts) /\
      Forall2 (fun sp t => delivers (fst sp) (snd sp) t) (flat_map (fun s => map (pair s) (s_entries s)) ss) ts.
  Proof.
    induction ss as [|s ss IH]; intros acc H.
    - exists []. rewrite app_nil_r. split; [reflexivity|constructor].
    - inversion H; subst. destruct (statement_ok s) as (st & E & ts & E2 & Ht); [assumption|].
      cbn [map unmarshal_loop flat_map]. rewrite E, E2. cbn [obind].
      destruct (IH (acc ++ ts)) as (us & E3 & Hu); [assumption|]. exists (ts ++ us). rewrite E3, app_assoc. split; [reflexivity|].
      apply Forall2_app; [|exact Hu]. clear - Ht. induction Ht; cbn [map]; constructor; auto.
  Qed.
  Lemma unmarshal_ok ss : ss <> [] -> Forall (stmt_ok reads now) ss ->
    exists ts, unmarshal_mt940 parse_float neg other_digit now zero (List.concat (map (fun s => swift_message (stmt_fields s)) ss)) = Ok ts /\
      Forall2 (fun sp t => delivers (fst sp) (snd sp) t) (flat_map (fun s => map (pair s) (s_entries s)) ss) ts.
  Proof.
    intros Hne H. unfold unmarshal_mt940.
    replace (map (fun s => swift_message (stmt_fields s)) ss) with (map swift_message (map stmt_fields ss)) by now rewrite map_map.
    rewrite extract_messages_ok.
    - cbn [obind]. rewrite map_map. destruct (unmarshal_loop_ok ss [] H) as (ts & E & Ht). exists ts. split; [exact E|exact Ht].
    - destruct ss; [congruence|discriminate].
    - apply Forall_forall. intros m Hm. apply in_map_iff in Hm. destruct Hm as (s & <- & Hs). rewrite Forall_forall in H. specialize (H s Hs).
      split; [discriminate|]. pose proof (stmt_fields_ids s H) as Hid. destruct H as (_ & _ & _ & _ & _ & _ & _ & _ & _ & Hv).
      rewrite Forall_forall in *. intros t Ht. split; auto.
  Qed.
End Statement.
