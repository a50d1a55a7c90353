(** * Reading element groups *)
From Verif Require Import Base BaseFacts Lexer_Model Lexer_Spec Lexer_Proofs Lexer_Facts
  Codec_Model Codec_Spec Codec_Proofs Codec_Props Wire_Model Wire_Spec Wire_Proofs Wire_Facts Wire_Facts2 Wire_Facts3
  Message_Model Message_Spec Message_Proofs Message_Facts Message_Facts2 Message_Facts3 Seg_Model Seg_Spec Seg_Facts.
From Coq Require Import Lia ZifyBool ZifyNat ZifyN.
Open Scope Z_scope.
Ltac Zify.zify_post_hook ::= Z.div_mod_to_equations.

(** ** Single values *)
Lemma text_read l : text (item_wire (TText l)) = Ok (utf8 l).
Proof. unfold text. cbn [item_wire]. now rewrite escaped_eq, unmarshal_text_escape, utf8_eq. Qed.
Lemma number_read n : 0 <= n < 2 ^ 63 -> unmarshal_int (item_wire (TNumber n)) = Ok n.
Proof. intros H. apply unmarshal_itoa. unfold in_int64, int64_min, int64_max. lia. Qed.
Lemma digits_read w n : 0 <= n < 2 ^ 63 -> unmarshal_int (item_wire (TDigits w n)) = Ok n.
Proof.
  intros H. unfold unmarshal_int. cbn [item_wire]. rewrite (to_utf8_ascii _ (itoa_pad_ascii w n)).
  apply atoi_itoa_pad. unfold in_int64, int64_min, int64_max. lia.
Qed.
Lemma country_read w n : 0 <= n < 2 ^ 63 -> unmarshal_country (item_wire (TDigits w n)) = Ok (Some n).
Proof. intros H. unfold unmarshal_country. now rewrite digits_read. Qed.
Lemma date_read d : real_date d -> unmarshal_date (item_wire (TDate d)) = Ok d.
Proof. intros H. destruct (C12_date_roundtrip d H) as [_ K]. exact K. Qed.
Lemma time_read t : real_time t -> unmarshal_time (item_wire (TTime t)) = Ok t.
Proof. intros H. destruct (C12_time_roundtrip t H) as [_ K]. exact K. Qed.
Lemma binary_read d : Z.of_nat (List.length d) <= 2 ^ 48 -> unmarshal_binary (item_wire (TBinary d)) = Ok d.
Proof.
  intros H. cbn [item_wire]. destruct (binary_roundtrip d [] H) as (w&H1&H2).
  rewrite marshal_binary_eq in H1. injection H1 as <-. rewrite app_nil_r in H2. exact H2.
Qed.
Lemma flag_read b : unmarshal_bool (item_wire (TFlag b)) = Ok b.
Proof. destruct b; reflexivity. Qed.
Lemma no_syntax_escaped l : no_syntax l -> escaped l = l.
Proof.
  intros H. rewrite escaped_eq. unfold escape. induction l as [|c l IH]; [reflexivity|]. cbn [flat_map].
  destruct (is_syntax c) eqn:E.
  - exfalso. apply in_syntax in E. apply (H c E). now left.
  - cbn [app]. rewrite IH; [reflexivity|]. intros x Hx K. apply (H x Hx). now right.
Qed.
Lemma raw_read l : no_syntax l -> to_utf8 (item_wire (TText l)) = utf8 l.
Proof. intros H. cbn [item_wire]. now rewrite no_syntax_escaped, utf8_eq. Qed.
Lemma no_syntax_groupable l : no_syntax l -> groupable (TText l).
Proof. intros H. split; apply H; cbn; tauto. Qed.
Lemma escaped_nil l : escaped l = [] <-> l = [].
Proof.
  split; [|now intros ->]. rewrite escaped_eq. destruct l as [|c l]; [reflexivity|]. unfold escape. cbn [flat_map].
  destruct (is_syntax c); discriminate.
Qed.
Lemma itoa_ne z : itoa z <> [].
Proof. destruct (itoa_last z) as (p&d&E&_). rewrite E. destruct p; discriminate. Qed.
Lemma itoa_pad_ne w z : itoa_pad w z <> [].
Proof. destruct (itoa_pad_last w z) as (p&d&E&_). rewrite E. destruct p; discriminate. Qed.
(** Only an empty text looks absent. *)
Definition present (i : item) : Prop := match i with TText l => l <> [] | _ => True end.
Lemma item_present i : present i -> item_wire i <> [].
Proof.
  destruct i as [l|n|w n|u f|d|b|d|t]; cbn [present item_wire]; intros H.
  - intros K. apply (proj1 (escaped_nil l)) in K. contradiction.
  - apply itoa_ne.
  - apply itoa_pad_ne.
  - destruct (itoa_N u); discriminate.
  - discriminate.
  - destruct b; discriminate.
  - discriminate.
  - discriminate.
Qed.

(** ** Groups *)
Lemma strip_present g i : present i -> strip (map item_wire (g ++ [i])) = map item_wire (g ++ [i]).
Proof.
  intros H. apply strip_id. rewrite map_app. cbn [map]. rewrite last_last. now apply item_present.
Qed.
Lemma group_read_present g i : group_ok (g ++ [i]) -> present i -> len (group_wire (g ++ [i])) < 2 ^ 61 ->
  group_extract (group_wire (g ++ [i])) = Ok (map item_wire (g ++ [i])).
Proof.
  intros H1 H2 H3. rewrite group_read; [now rewrite strip_present|exact H1| |exact H3].
  rewrite strip_present by exact H2. rewrite map_app. intros K. apply app_eq_nil in K. destruct K; discriminate.
Qed.
Lemma join_ne c (ls : list bytes) x : In x ls -> x <> [] -> join [c] ls <> [].
Proof.
  intros H1 H2. assert (K := len_join_in c ls x H1). intros E. rewrite E in K. destruct x; [congruence|].
  unfold len in K. cbn [List.length] in K. lia.
Qed.
Lemma group_wire_ne g i : In i g -> present i -> group_wire g <> [].
Proof.
  intros H1 H2. unfold group_wire. apply (join_ne _ _ (item_wire i)); [|now apply item_present].
  assert (K : In (item_wire i) (map item_wire g)) by now apply in_map.
  destruct (strip_spec (map item_wire g)) as [k E]. rewrite E in K. apply in_app_or in K. destruct K as [K|K]; [exact K|].
  apply repeat_spec in K. exfalso. now apply (item_present i).
Qed.

(** [f] reads the values [a] with [ok a], which are written as the group [g a]. *)
Definition reads {A V} (f : bytes -> outcome V) (g : A -> list item) (ok : A -> Prop) (val : A -> V) : Prop :=
  forall a, ok a -> len (group_wire (g a)) < 2 ^ 61 -> group_wire (g a) <> [] /\ f (group_wire (g a)) = Ok (val a).
Lemma field_opt {A V} f g ok (val : A -> V) k es o : reads f g ok val ->
  nth_error es k = Some (group_wire (opt_group g o)) -> opt_ok ok o -> len (group_wire (opt_group g o)) < 2 ^ 61 ->
  field k f es = Ok (option_map val o).
Proof.
  intros Hr He Ho Hl. unfold field, nonempty_nth. rewrite He. destruct o as [a|]; [|reflexivity].
  destruct (Hr a Ho Hl) as [H1 H2]. cbn [opt_group option_map] in *.
  destruct (group_wire (g a)) as [|x w]; [congruence|]. cbn [opt_parse]. rewrite H2. reflexivity.
Qed.
Lemma field_some {A V} f g ok (val : A -> V) k es a : reads f g ok val ->
  nth_error es k = Some (group_wire (g a)) -> ok a -> len (group_wire (g a)) < 2 ^ 61 ->
  field k f es = Ok (Some (val a)).
Proof. intros. exact (field_opt f g ok val k es (Some a) H H0 H1 H2). Qed.

Lemma single_wire i : group_wire [i] = item_wire i.
Proof. unfold group_wire. cbn [map strip]. destruct (item_wire i); reflexivity. Qed.
Lemma reads_text : reads text (fun l => [TText l]) (fun l => l <> []) utf8.
Proof. intros l H _. rewrite single_wire. split; [now apply item_present|apply text_read]. Qed.
Lemma reads_number : reads unmarshal_int (fun n => [TNumber n]) (fun n => 0 <= n < 2 ^ 63) (fun n => n).
Proof. intros n H _. rewrite single_wire. split; [now apply item_present|now apply number_read]. Qed.
Lemma reads_date : reads unmarshal_date (fun d => [TDate d]) real_date (fun d => d).
Proof. intros d H _. rewrite single_wire. split; [now apply item_present|now apply date_read]. Qed.
Lemma reads_time : reads unmarshal_time (fun d => [TTime d]) real_time (fun d => d).
Proof. intros d H _. rewrite single_wire. split; [now apply item_present|now apply time_read]. Qed.
Lemma reads_binary : reads unmarshal_binary (fun d => [TBinary d]) (fun d => Z.of_nat (List.length d) <= 2 ^ 48) (fun d => d).
Proof. intros d H _. rewrite single_wire. split; [now apply item_present|now apply binary_read]. Qed.
Lemma reads_flag : reads unmarshal_bool (fun b => [TFlag b]) (fun _ => True) (fun b => b).
Proof. intros d _ _. rewrite single_wire. split; [now apply item_present|apply flag_read]. Qed.
(** A text that may be empty. *)
Definition nonempty (l : bytes) : option bytes := match l with [] => None | _ => Some l end.
Lemma field_text k es l : nth_error es k = Some (group_wire [TText l]) -> field k text es = Ok (option_map utf8 (nonempty l)).
Proof.
  intros H. unfold field, nonempty_nth. rewrite H, single_wire. destruct l as [|c l]; [reflexivity|].
  pose proof (item_present (TText (c :: l)) ltac:(discriminate)) as K. pose proof (text_read (c :: l)) as R.
  destruct (item_wire (TText (c :: l))) as [|x w]; [congruence|]. cbn [opt_parse nonempty option_map]. rewrite R. reflexivity.
Qed.
Lemma or_empty_text l : or_empty (option_map utf8 (nonempty l)) = utf8 l.
Proof. destruct l; reflexivity. Qed.

(** ** Accounts *)
Lemma reads_national : reads unmarshal_connection national_group national_ok national_value.
Proof.
  intros a (H1&H2&H3&H4&H5) Hl. split; [apply (group_wire_ne _ (TText (na_bank a))); [cbn; tauto|exact H2]|].
  unfold unmarshal_connection, national_group in *.
  change [TText (na_account a); TText (na_sub a); TDigits 3 (na_country a); TText (na_bank a)]
    with ([TText (na_account a); TText (na_sub a); TDigits 3 (na_country a)] ++ [TText (na_bank a)]) in *.
  rewrite group_read_present; [|split; [exact H1|]|exact H2|exact Hl].
  - cbn [app map obind]. rewrite digits_read.
    + cbn [obind]. rewrite !raw_read by assumption. reflexivity.
    + inversion H1 as [|? ? _ K]. inversion K as [|? ? _ K']. inversion K' as [|? ? K'' _]. exact K''.
  - cbn [app]. repeat constructor; try (apply no_syntax_groupable; assumption); apply H3 || apply H4 || apply H5; cbn; tauto.
Qed.
Lemma reads_bank : reads unmarshal_bank (fun x : Z * bytes => [TDigits 3 (fst x); TText (snd x)])
  (fun x => 0 <= fst x < 2 ^ 63 /\ item_ok (TText (snd x)) /\ snd x <> [] /\ no_syntax (snd x))
  (fun x => (Some (fst x), utf8 (snd x))).
Proof.
  intros [c b] (H1&H2&H3&H4) Hl. cbn [fst snd] in *. split; [apply (group_wire_ne _ (TText b)); [cbn; tauto|exact H3]|].
  unfold unmarshal_bank. change [TDigits 3 c; TText b] with ([TDigits 3 c] ++ [TText b]) in *.
  rewrite group_read_present; [|split|exact H3|exact Hl].
  - cbn [app map obind]. rewrite country_read by exact H1. cbn [obind]. now rewrite raw_read.
  - repeat constructor; try apply H1; apply H2.
  - repeat constructor; try apply (H4 "+"%byte); try apply (H4 "'"%byte); cbn; tauto.
Qed.
Lemma nth_strip_field {V} (f : bytes -> outcome V) k es : field k f (strip es) = field k f es.
Proof. apply field_strip. Qed.
Lemma nth_present (es : list bytes) k (w : bytes) : nth_error es k = Some w -> w <> [] -> nonempty_nth k es = Some w.
Proof. intros H1 H2. unfold nonempty_nth. rewrite H1. destruct w; [congruence|reflexivity]. Qed.
Definition intl_element_value (a : international) : intl_element :=
  mkIE (option_map utf8 (nonempty (in_iban a))) (option_map utf8 (nonempty (in_bic a)))
       (option_map utf8 (nonempty (in_account a))) (option_map utf8 (nonempty (in_sub a)))
       (option_map (fun x => (Some (fst x), utf8 (snd x))) (in_bank a)).
Lemma skipn_strip_full es k : strip es = es -> skipn k (strip es) = skipn k es.
Proof. now intros ->. Qed.
Lemma reads_international : reads unmarshal_intl international_group international_ok intl_element_value.
Proof.
  intros a (H1&H2&H3&H4) Hl.
  assert (Hp : exists i, In i (international_group a) /\ present i).
  { unfold international_group. destruct H3 as [H|[H|[H|[H|H]]]].
    - exists (TText (in_iban a)). split; [cbn; tauto|exact H].
    - exists (TText (in_bic a)). split; [cbn; tauto|exact H].
    - exists (TText (in_account a)). split; [cbn; tauto|exact H].
    - exists (TText (in_sub a)). split; [cbn; tauto|exact H].
    - destruct (in_bank a) as [[c b]|]; [|congruence]. exists (TDigits 3 c). split; [cbn; tauto|exact I]. }
  destruct Hp as (i&Hi&Hp). assert (Hne := group_wire_ne _ _ Hi Hp). split; [exact Hne|].
  assert (Hs : strip (map item_wire (international_group a)) <> []).
  { unfold group_wire in Hne. intros K. rewrite K in Hne. now apply Hne. }
  unfold unmarshal_intl. rewrite group_read; [|now split|exact Hs|exact Hl]. cbn [obind].
  destruct (strip (map item_wire (international_group a))) as [|x r] eqn:E; [congruence|]. rewrite <- E. clear Hs.
  rewrite !field_strip, strip_nonempty_nth.
  unfold international_group in *. cbn [app map] in *.
  rewrite (field_text 0 _ (in_iban a)), (field_text 1 _ (in_bic a)), (field_text 2 _ (in_account a)), (field_text 3 _ (in_sub a))
    by (rewrite single_wire; reflexivity). cbn [obind].
  unfold intl_element_value. destruct (in_bank a) as [[c b]|] eqn:Eb; [|reflexivity].
  cbn [map]. destruct H4 as [H4 H5].
  assert (Hf : strip [item_wire (TText (in_iban a)); item_wire (TText (in_bic a)); item_wire (TText (in_account a));
    item_wire (TText (in_sub a)); item_wire (TDigits 3 c); item_wire (TText b)] =
    [item_wire (TText (in_iban a)); item_wire (TText (in_bic a)); item_wire (TText (in_account a));
    item_wire (TText (in_sub a)); item_wire (TDigits 3 c); item_wire (TText b)]).
  { apply strip_id. cbn [last]. now apply (item_present (TText b)). }
  rewrite Hf. rewrite (nth_present _ 4 (item_wire (TDigits 3 c)));
    [|reflexivity|exact (item_present (TDigits 3 c) I)].
  cbn [opt_parse skipn].
  assert (Hw : join [b_colon] [item_wire (TDigits 3 c); item_wire (TText b)] = group_wire [TDigits 3 c; TText b]).
  { change [TDigits 3 c; TText b] with ([TDigits 3 c] ++ [TText b]). unfold group_wire. rewrite strip_present by exact H4. reflexivity. }
  rewrite Hw. assert (Hall : Forall item_ok [TText (in_iban a); TText (in_bic a); TText (in_account a); TText (in_sub a); TDigits 3 c; TText b]) by exact H1.
  rewrite !Forall_cons_iff in Hall. destruct Hall as (_&_&_&_&K5&K6&_).
  destruct (reads_bank (c, b)) as [_ R].
  - cbn [fst snd]. repeat split; try apply K5; try apply K6; assumption.
  - cbn [fst snd]. rewrite <- Hw.
    assert (L : len (join [b_colon] [item_wire (TDigits 3 c); item_wire (TText b)]) <=
      len (group_wire ([TText (in_iban a); TText (in_bic a); TText (in_account a); TText (in_sub a)] ++ [TDigits 3 c; TText b]))).
    { unfold group_wire. cbn [app map]. rewrite Hf. rewrite !join_cons, !len_app.
      pose proof (len_nonneg (item_wire (TText (in_iban a)))). pose proof (len_nonneg (item_wire (TText (in_bic a)))).
      pose proof (len_nonneg (item_wire (TText (in_account a)))). pose proof (len_nonneg (item_wire (TText (in_sub a)))).
      pose proof (len_nonneg [b_colon]). pose proof (len_nonneg [":"%byte]). unfold b_colon in *. lia. }
    cbn [app] in L. lia.
  - cbn [fst snd] in R. unfold group_wire in R |- *. unfold b_colon in *. rewrite R. reflexivity.
Qed.
Lemma intl_val_value a : international_ok a -> intl_val (intl_element_value a) = Ok (international_value a).
Proof.
  intros _. unfold intl_val, intl_element_value, international_value. cbn [ie_bank ie_iban ie_bic ie_account ie_sub].
  rewrite !or_empty_text. destruct (in_bank a) as [[c b]|]; reflexivity.
Qed.
