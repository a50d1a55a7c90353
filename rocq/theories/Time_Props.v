(** * C40: timeframes survive their textual forms *)
From Coq Require Import Lia ZifyBool ZifyNat ZifyN.
From Verif Require Import Base BaseFacts Codec_Model Codec_Spec Codec_Proofs Time_Model Time_Spec.
Open Scope Z_scope.

(** ** Facts *)
Lemma format_iso_digits d : real_date d -> format_iso d = iso_date d.
Proof.
  intros [Hy [Hm Hd]]. rewrite <- days_in_length in Hd by assumption. pose proof (days_in_bound (d_month d) (d_year d)).
  unfold format_iso, iso_date. rewrite append_int4 by lia. rewrite !digit2 by lia. unfold digits2. now rewrite <- !app_assoc.
Qed.
Lemma format_iso_parse d : real_date d -> parse_iso (format_iso d) = Ok d.
Proof.
  intros [Hy [Hm Hd]]. rewrite <- days_in_length in Hd by assumption. destruct d as [y m dd]. simpl in *. pose proof (days_in_bound m y).
  unfold parse_iso, format_iso. cbn [d_year d_month d_day].
  rewrite getyear_append by assumption. cbn [app skip_byte]. rewrite beq_refl. rewrite getnum2_append by lia.
  replace ((m <=? 0) || (12 <? m)) with false by lia. cbn [skip_byte]. rewrite beq_refl.
  rewrite <- (app_nil_r (append_int 2 dd)). rewrite getnum2_append by lia.
  now replace ((dd <? 1) || (days_in m y <? dd)) with false by lia.
Qed.
Lemma skip_byte_inv c s r : skip_byte c s = Some r -> s = c :: r.
Proof. destruct s as [|x s]; [discriminate|]. cbn [skip_byte]. destruct (beq_spec x c); [|discriminate]. congruence. Qed.
Lemma parse_iso_inv s d : parse_iso s = Ok d -> s = format_iso d /\ real_date d.
Proof.
  unfold parse_iso. destruct (getyear s) as [[y s1]|] eqn:E1; [|discriminate].
  destruct (skip_byte b_minus s1) as [s2|] eqn:K1; [|discriminate].
  destruct (getnum2 s2) as [[m s3]|] eqn:E2; [|discriminate].
  destruct ((m <=? 0) || (12 <? m)) eqn:Em; [discriminate|].
  destruct (skip_byte b_minus s3) as [s4|] eqn:K2; [|discriminate].
  destruct (getnum2 s4) as [[dd s5]|] eqn:E3; [|discriminate].
  destruct s5; [|discriminate]. destruct ((dd <? 1) || (days_in m y <? dd)) eqn:Ed; [discriminate|].
  intros H. assert (Hd : d = mkDate y m dd) by congruence. subst d. clear H.
  apply getyear_inv in E1. apply getnum2_inv in E2. apply getnum2_inv in E3. apply skip_byte_inv in K1, K2.
  destruct E1 as [-> H1], E2 as [E2 H2], E3 as [E3 H3]. subst s1 s2 s3 s4.
  unfold format_iso, real_date. cbn [d_year d_month d_day]. rewrite app_nil_r. split; [reflexivity|].
  rewrite <- days_in_length by lia. lia.
Qed.
Lemma parse_iso_total s : parse_iso s = Err \/ exists d, parse_iso s = Ok d.
Proof.
  unfold parse_iso. repeat (match goal with |- context [match ?x with _ => _ end] => destruct x; eauto end).
Qed.
Lemma parse_iso_iff s d : parse_iso s = Ok d <-> real_date d /\ s = iso_date d.
Proof.
  split.
  - intros H. apply parse_iso_inv in H. destruct H as [-> H]. split; [assumption|now apply format_iso_digits].
  - intros [H ->]. rewrite <- format_iso_digits by assumption. now apply format_iso_parse.
Qed.
Lemma parse_date_iff s d : parse_date s = Ok d <-> real_date d /\ s = yyyymmdd d.
Proof.
  split.
  - intros H. apply parse_date_inv in H. destruct H as [-> H]. split; [assumption|now apply format_date_digits].
  - intros [H ->]. rewrite <- format_date_digits by assumption. now apply format_date_parse.
Qed.
Lemma is_zero_iff d : is_zero d = true <-> d = uninitialised.
Proof.
  unfold is_zero, uninitialised. destruct d as [y m dd]. cbn [d_year d_month d_day]. split.
  - intros H. f_equal; lia.
  - intros H. injection H as -> -> ->. reflexivity.
Qed.
Lemma digits2_digits z : 0 <= z < 100 -> forallb is_digit (digits2 z) = true.
Proof. intros H. unfold digits2. rewrite <- (digit2 z H). unfold append_int. replace (z <? 0) with false by lia. apply pad_left_digits. Qed.
Definition dashed (c : byte) : bool := is_digit c || beq c "-"%byte.
Lemma digits_dashed l : forallb is_digit l = true -> forallb dashed l = true.
Proof. induction l as [|c l IH]; [reflexivity|]. cbn [forallb]. unfold dashed at 1. destruct (is_digit c); [exact IH|discriminate]. Qed.
Lemma iso_dashed d : real_date d -> forallb dashed (iso_date d) = true.
Proof.
  intros [Hy [Hm Hd]]. rewrite <- days_in_length in Hd by assumption. pose proof (days_in_bound (d_month d) (d_year d)).
  unfold iso_date. rewrite !forallb_app.
  change (forallb dashed (B "-")) with true.
  repeat (rewrite digits_dashed by (apply digits2_digits; lia)). reflexivity.
Qed.
Lemma dashed_not c s : dashed c = false -> forallb dashed s = true -> ~ In c s.
Proof. intros Hc Hs K. rewrite forallb_forall in Hs. specialize (Hs c K). congruence. Qed.
Lemma dashed_plain c : dashed c = true -> plain_char c = true.
Proof. apply (fun H => H). revert c. refine (fun c => _).
  assert (H : forall c, implb (dashed c) (plain_char c) = true) by (apply byte_sweep; vm_compute; reflexivity).
  intros K. specialize (H c). now rewrite K in H. Qed.

Lemma split_none c : forall b, ~ In c b -> split_on c b = [b].
Proof.
  induction b as [|x b IH]; intros H; [reflexivity|]. cbn [split_on].
  destruct (beq_spec x c); [exfalso; apply H; now left|]. rewrite IH; [reflexivity|]. intros K; apply H; now right.
Qed.
Lemma split_two c : forall a b, ~ In c a -> ~ In c b -> split_on c (a ++ [c] ++ b) = [a; b].
Proof.
  induction a as [|x a IH]; intros b Ha Hb.
  - cbn [app split_on]. now rewrite beq_refl, split_none.
  - cbn [app split_on]. destruct (beq_spec x c); [exfalso; apply Ha; now left|].
    change (a ++ c :: b) with (a ++ [c] ++ b). rewrite IH; [reflexivity| |assumption]. intros K; apply Ha; now right.
Qed.
Lemma split_join c : forall s, join [c] (split_on c s) = s.
Proof.
  induction s as [|x s IH]; [reflexivity|]. cbn [split_on].
  destruct (beq_spec x c) as [->|].
  - destruct (split_on c s) as [|y ys] eqn:E; [destruct s as [|z s]; cbn [split_on] in E; [discriminate|]; destruct (beq z c); [discriminate|]; destruct (split_on c s); discriminate|].
    change (join [c] ([] :: y :: ys)) with (c :: join [c] (y :: ys)). now rewrite IH.
  - destruct (split_on c s) as [|y ys] eqn:E; [destruct s as [|z s]; cbn [split_on] in E; [discriminate|]; destruct (beq z c); [discriminate|]; destruct (split_on c s); discriminate|].
    rewrite <- IH. destruct ys; reflexivity.
Qed.

Lemma until_dquote_end s : ~ In b_dquote s -> until_dquote (s ++ [b_dquote]) = Some (s, []).
Proof.
  induction s as [|c s IH]; intros H; [reflexivity|]. cbn [app until_dquote].
  destruct (beq_spec c b_dquote); [exfalso; apply H; now left|]. rewrite IH; [reflexivity|]. intros K; apply H; now right.
Qed.
Lemma unquoted_quoted o s : forallb plain_char s = true -> ~ In b_dquote s -> unquoted o (quoted s) = s.
Proof.
  intros Hp Hq. unfold unquoted, unquote, quoted. change """"%byte with b_dquote. rewrite beq_refl, forallb_app, Hp.
  change (forallb plain_char [b_dquote]) with true. cbn [andb]. now rewrite until_dquote_end.
Qed.
Lemma plain_text_unquoted o s : plain_text s -> unquoted o (quoted s) = s.
Proof.
  intros H. apply unquoted_quoted.
  - apply forallb_forall. intros c Hc. destruct (H c Hc) as [H1 [_ H2]]. unfold plain_char.
    replace (zb c <? 128) with true by lia. destruct (beq_spec c b_backslash); [exfalso; now apply H2|].
    destruct (beq_spec c b_lf) as [->|]; [|reflexivity]. exfalso. change (zb b_lf) with 10 in H1. lia.
  - intros K. destruct (H _ K) as [_ [H1 _]]. now apply H1.
Qed.
Lemma dashed_unquoted o s : forallb dashed s = true -> unquoted o (quoted s) = s.
Proof.
  intros H. apply unquoted_quoted.
  - rewrite forallb_forall in *. intros c Hc. now apply dashed_plain, H.
  - apply dashed_not; [reflexivity|assumption].
Qed.

Lemma values_get_says key : forall params s, s <> [] ->
  values_get key params = s <-> says params key s.
Proof.
  intros params s Hs. split.
  - induction params as [|[k vs] r IH]; cbn [values_get]; [congruence|].
    destruct (bytes_eqb_spec k key) as [->|N].
    + destruct vs as [|v vs]; [congruence|]. intros ->. apply says_here.
    + intros H. now apply says_later, IH.
  - induction 1 as [k v vs r|k v k' vs r N _ IH]; cbn [values_get].
    + now rewrite bytes_eqb_refl.
    + destruct (bytes_eqb_spec k' k); [contradiction|]. now apply IH.
Qed.
Lemma yyyymmdd_nonempty d : yyyymmdd d <> [].
Proof. discriminate. Qed.

(** ** The query form *)

(** Every timeframe is given back by its query. *)
Theorem C40_query_roundtrip : forall tf, real_timeframe tf ->
  timeframe_from_query (to_query tf) = Ok tf.
Proof.
  intros [a b] [Ha Hb]. cbn [tf_start tf_end] in *. unfold timeframe_from_query, to_query. cbn [tf_start tf_end].
  rewrite !format_date_digits by assumption.
  change (values_get (B "from") _) with (yyyymmdd a). change (values_get (B "to") _) with (yyyymmdd b).
  assert (parse_date (yyyymmdd a) = Ok a) as -> by (apply parse_date_iff; auto).
  assert (parse_date (yyyymmdd b) = Ok b) as -> by (apply parse_date_iff; auto).
  reflexivity.
Qed.
Print Assumptions C40_query_roundtrip.

(** Whatever else a query contains, a timeframe is read exactly if both keys
    give the digits of a real date, and it is the one they give; everything else
    is an error. *)
Theorem C40_query_reads_exactly : forall params tf,
  timeframe_from_query params = Ok tf <->
  real_timeframe tf /\ says params (B "from") (yyyymmdd (tf_start tf)) /\
  says params (B "to") (yyyymmdd (tf_end tf)).
Proof.
  intros params [a b]. unfold real_timeframe, timeframe_from_query. cbn [tf_start tf_end].
  rewrite <- !values_get_says by apply yyyymmdd_nonempty.
  destruct (values_get (B "from") params) as [|f fs]; [split; [discriminate|intros [_ [H _]]; symmetry in H; now apply yyyymmdd_nonempty in H]|].
  destruct (values_get (B "to") params) as [|t ts]; [split; [discriminate|intros [_ [_ H]]; symmetry in H; now apply yyyymmdd_nonempty in H]|].
  generalize (f :: fs) (t :: ts). intros x y. split.
  - destruct (parse_date x) as [a'| |] eqn:Ex; try discriminate. destruct (parse_date y) as [b'| |] eqn:Ey; try discriminate.
    intros H. injection H as -> ->. apply parse_date_iff in Ex, Ey. tauto.
  - intros [[Ha Hb] [-> ->]].
    assert (parse_date (yyyymmdd a) = Ok a) as -> by (apply parse_date_iff; auto).
    assert (parse_date (yyyymmdd b) = Ok b) as -> by (apply parse_date_iff; auto). reflexivity.
Qed.
Print Assumptions C40_query_reads_exactly.

Theorem C40_query_never_panics : forall params, timeframe_from_query params <> Panic.
Proof.
  intros params. unfold timeframe_from_query.
  destruct (values_get (B "from") params); [discriminate|]. destruct (values_get (B "to") params); [discriminate|].
  destruct (parse_date _); try discriminate. destruct (parse_date _); discriminate.
Qed.
Print Assumptions C40_query_never_panics.

Definition leap_day : date := mkDate 2020 2 29.
Definition last_day : date := mkDate 9999 12 31.
Lemma leap_day_real : real_date leap_day.
Proof. unfold real_date, leap_day. cbn [d_year d_month d_day]. change (month_length 2020 2) with 29. lia. Qed.
Lemma last_day_real : real_date last_day.
Proof. unfold real_date, last_day. cbn [d_year d_month d_day]. change (month_length 9999 12) with 31. lia. Qed.
Lemma zero_day_real : real_date uninitialised.
Proof. unfold real_date, uninitialised. cbn [d_year d_month d_day]. change (month_length 1 1) with 31. lia. Qed.

Example C40_query_witness :
  real_timeframe (mkTf leap_day last_day) /\
  to_query (mkTf leap_day last_day) = [(B "from", [B "20200229"]); (B "to", [B "99991231"])] /\
  timeframe_from_query [(B "x", [B "1"]); (B "to", [B "99991231"; B "2"]); (B "from", [B "20200229"])] = Ok (mkTf leap_day last_day) /\
  timeframe_from_query [(B "to", [B "20210229"]); (B "from", [B "20200229"])] = Err.
Proof. split; [split; [exact leap_day_real|exact last_day_real]|]. split; [reflexivity|split; reflexivity]. Qed.

(** ** The JSON form *)
Section Json.
Variable unquote_other : bytes -> option bytes.

(** Writing never fails; the text is two dates, or empty when a date is missing. *)
Theorem C40_json_form : forall tf, real_timeframe tf ->
  (tf_start tf = uninitialised \/ tf_end tf = uninitialised) /\ tf_marshal_json tf = Ok (quoted []) \/
  tf_start tf <> uninitialised /\ tf_end tf <> uninitialised /\
  tf_marshal_json tf = Ok (quoted (iso_date (tf_start tf) ++ B "," ++ iso_date (tf_end tf))).
Proof.
  intros [a b] [Ha Hb]. unfold tf_marshal_json. cbn [tf_start tf_end] in *.
  pose proof (is_zero_iff a) as Za. pose proof (is_zero_iff b) as Zb.
  destruct (is_zero a), (is_zero b); cbn [orb]; try (left; split; [tauto|reflexivity]).
  right. rewrite !format_iso_digits by assumption. rewrite <- Za, <- Zb. split; [discriminate|split; [discriminate|reflexivity]].
Qed.

(** Reading what was written gives the timeframe back exactly if both dates are
    set or none is. *)
Theorem C40_json_roundtrip_iff : forall tf w, real_timeframe tf -> tf_marshal_json tf = Ok w ->
  (tf_unmarshal_json unquote_other w = Ok tf <->
   (tf_start tf = uninitialised <-> tf_end tf = uninitialised)).
Proof.
  intros [a b] w [Ha Hb] Hw. destruct (C40_json_form (mkTf a b) (conj Ha Hb)) as [[Z E]|[Na [Nb E]]].
  - assert (w = quoted []) as -> by congruence. cbn [tf_start tf_end] in *. unfold tf_unmarshal_json.
    rewrite (dashed_unquoted unquote_other [] eq_refl).
    change (split_on b_comma []) with ([[]] : list bytes). cbv iota beta. change zero_tf with (mkTf uninitialised uninitialised). split.
    + intros H. injection H as <- <-. tauto.
    + intros [H1 H2]. destruct Z as [Z|Z]; [rewrite (H1 Z), Z|rewrite (H2 Z), Z]; reflexivity.
  - cbn [tf_start tf_end] in E. assert (w = quoted (iso_date a ++ B "," ++ iso_date b)) as -> by congruence. cbn [tf_start tf_end] in *. split; [tauto|]. intros _.
    unfold tf_unmarshal_json.
    pose proof (iso_dashed a Ha) as Da. pose proof (iso_dashed b Hb) as Db.
    assert (Ca : ~ In b_comma (iso_date a)) by (apply dashed_not; [reflexivity|assumption]).
    assert (Cb : ~ In b_comma (iso_date b)) by (apply dashed_not; [reflexivity|assumption]).
    rewrite unquoted_quoted.
    + assert (split_on b_comma (iso_date a ++ B "," ++ iso_date b) = [iso_date a; iso_date b]) as -> by exact (split_two b_comma _ _ Ca Cb).
      assert (parse_iso (iso_date a) = Ok a) as -> by (apply parse_iso_iff; auto).
      assert (parse_iso (iso_date b) = Ok b) as -> by (apply parse_iso_iff; auto). reflexivity.
    + rewrite !forallb_app. change (forallb plain_char (B ",")) with true.
      assert (K : forall s, forallb dashed s = true -> forallb plain_char s = true).
      { intros s Hs. rewrite forallb_forall in *. intros c Hc. now apply dashed_plain, Hs. }
      now rewrite !K.
    + intros K. apply in_app_or in K. destruct K as [K|K]; [revert K; now apply dashed_not|].
      apply in_app_or in K. destruct K as [[K|[]]|K]; [discriminate|revert K; now apply dashed_not].
Qed.

(** Reading never fails and never panics: any bytes give the empty timeframe or
    one of real dates ... *)
Theorem C40_json_any_input : forall data, exists tf,
  tf_unmarshal_json unquote_other data = Ok tf /\ real_timeframe tf.
Proof.
  intros data. unfold tf_unmarshal_json.
  assert (Z : exists tf, Ok zero_tf = Ok tf /\ real_timeframe tf) by (exists zero_tf; split; [reflexivity|split; exact zero_day_real]).
  destruct (split_on b_comma (unquoted unquote_other data)) as [|a [|b [|c l]]]; try exact Z.
  destruct (parse_iso a) as [x| |] eqn:Ex; try exact Z. destruct (parse_iso b) as [y| |] eqn:Ey; try exact Z.
  exists (mkTf x y). split; [reflexivity|]. apply parse_iso_inv in Ex, Ey. split; cbn [tf_start tf_end]; tauto.
Qed.

(** ... and for quoted text it is not empty only if the text is two real dates
    with a comma in between. *)
Theorem C40_json_reads_exactly : forall text tf, plain_text text ->
  tf_unmarshal_json unquote_other (quoted text) = Ok tf ->
  tf = mkTf uninitialised uninitialised \/
  real_timeframe tf /\ text = iso_date (tf_start tf) ++ B "," ++ iso_date (tf_end tf).
Proof.
  intros text tf Ht. unfold tf_unmarshal_json. rewrite plain_text_unquoted by assumption.
  pose proof (split_join b_comma text) as J.
  change zero_tf with (mkTf uninitialised uninitialised).
  destruct (split_on b_comma text) as [|a [|b [|c l]]]; try (intros H; left; congruence).
  destruct (parse_iso a) as [x| |] eqn:Ex; try (intros H; left; congruence). destruct (parse_iso b) as [y| |] eqn:Ey; try (intros H; left; congruence).
  intros H. injection H as <-. right. apply parse_iso_iff in Ex, Ey. unfold real_timeframe. cbn [tf_start tf_end].
  destruct Ex as [Hx ->], Ey as [Hy ->]. split; [tauto|]. now rewrite <- J.
Qed.

(** ** Single dates *)
Theorem C40_date_text_roundtrip : forall d, real_date d ->
  date_marshal_text d = Ok (iso_date d) /\ date_unmarshal_text (iso_date d) = Ok d.
Proof.
  intros d H. unfold date_marshal_text, date_unmarshal_text. rewrite format_iso_digits by assumption.
  split; [reflexivity|]. apply parse_iso_iff; auto.
Qed.
Theorem C40_date_text_reads_exactly : forall s,
  date_unmarshal_text s = Err /\ (forall d, real_date d -> s <> iso_date d) \/
  exists d, real_date d /\ s = iso_date d /\ date_unmarshal_text s = Ok d.
Proof.
  intros s. unfold date_unmarshal_text. destruct (parse_iso_total s) as [E|[d E]]; rewrite E.
  - left. split; [reflexivity|]. intros d Hd K. assert (parse_iso s = Ok d) by (apply parse_iso_iff; auto). congruence.
  - right. exists d. apply parse_iso_iff in E. tauto.
Qed.
(** A date read from JSON is the one written, without an error, exactly if the
    date is set; otherwise the value read is the unset date, but with an error. *)
Theorem C40_date_json_roundtrip : forall d w, real_date d -> date_marshal_json d = Ok w ->
  date_unmarshal_json unquote_other w = (d, negb (is_zero d)).
Proof.
  intros d w Hd. unfold date_marshal_json, date_unmarshal_json.
  destruct (is_zero d) eqn:E; intros H; injection H as <-.
  - change (json_string []) with (quoted []). rewrite (dashed_unquoted unquote_other [] eq_refl).
    apply is_zero_iff in E. now subst d.
  - rewrite format_iso_digits by assumption. change (json_string (iso_date d)) with (quoted (iso_date d)).
    rewrite dashed_unquoted by now apply iso_dashed.
    assert (parse_iso (iso_date d) = Ok d) as -> by (apply parse_iso_iff; auto). reflexivity.
Qed.
End Json.
Print Assumptions C40_json_form.
Print Assumptions C40_json_roundtrip_iff.
Print Assumptions C40_json_any_input.
Print Assumptions C40_json_reads_exactly.
Print Assumptions C40_date_text_roundtrip.
Print Assumptions C40_date_text_reads_exactly.
Print Assumptions C40_date_json_roundtrip.

(** A timeframe with only one date set loses it. *)
Theorem C40_open_timeframe_refuted : exists tf w, real_timeframe tf /\ tf_marshal_json tf = Ok w /\
  forall o, tf_unmarshal_json o w <> Ok tf.
Proof.
  exists (mkTf leap_day uninitialised), (B """""").
  split; [split; [exact leap_day_real|exact zero_day_real]|]. split; [reflexivity|]. intros o H.
  vm_compute in H. discriminate.
Qed.
Print Assumptions C40_open_timeframe_refuted.
(** An unset date does not survive JSON. *)
Theorem C40_unset_date_refuted : exists w, date_marshal_json uninitialised = Ok w /\
  forall o, snd (date_unmarshal_json o w) = false.
Proof. exists (B """"""). split; [reflexivity|]. intros o. reflexivity. Qed.
Print Assumptions C40_unset_date_refuted.
(** Nor does a year of five digits survive any of the forms. *)
Theorem C40_late_years_refuted : forall o,
  let d := mkDate 10000 1 1 in let tf := mkTf d d in
  timeframe_from_query (to_query tf) = Err /\
  date_unmarshal_text (format_iso d) = Err /\
  (exists w, tf_marshal_json tf = Ok w /\ tf_unmarshal_json o w = Ok (mkTf uninitialised uninitialised)).
Proof. intros o. split; [vm_compute; reflexivity|]. split; [vm_compute; reflexivity|]. eexists. split; vm_compute; reflexivity. Qed.
Print Assumptions C40_late_years_refuted.

Example C40_json_witness : forall o,
  tf_marshal_json (mkTf leap_day last_day) = Ok (B """2020-02-29,9999-12-31""") /\
  tf_unmarshal_json o (B """2020-02-29,9999-12-31""") = Ok (mkTf leap_day last_day) /\
  tf_unmarshal_json o (B """2021-02-29,9999-12-31""") = Ok (mkTf uninitialised uninitialised) /\
  date_unmarshal_json o (B """2020-02-29""") = (leap_day, true) /\
  plain_text (B "2020-02-29,9999-12-31").
Proof.
  intros o. split; [vm_compute; reflexivity|]. split; [vm_compute; reflexivity|]. split; [vm_compute; reflexivity|].
  split; [vm_compute; reflexivity|].
  intros c H. cbn in H. repeat (destruct H as [<-|H]; [vm_compute; repeat split; discriminate|]). destruct H.
Qed.
