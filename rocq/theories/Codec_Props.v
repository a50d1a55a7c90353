(** * Properties C06-C12: character set, escaping and the basic data elements *)
From Verif Require Import Base BaseFacts Lexer_Model Lexer_Spec Codec_Model Codec_Spec Codec_Proofs.
From Coq Require Import Lia ZifyBool ZifyNat ZifyN.
Open Scope Z_scope.

(** ** C06 *)
Theorem C06_bytes_survive_utf8 : forall b, to_latin1 (to_utf8 b) = Ok b.
Proof. exact latin1_utf8. Qed.
Print Assumptions C06_bytes_survive_utf8.

(** Each byte becomes the UTF-8 form of the character with the same number. *)
Theorem C06_to_utf8_is_utf8 : forall b, to_utf8 b = string_of (map zb b).
Proof.
  intros b. rewrite string_of_latin1.
  - rewrite map_map. f_equal. symmetry. rewrite <- (map_id b) at 2. apply map_ext. intros; apply byte_of_Z_zb.
  - apply Forall_forall. intros z Hz. apply in_map_iff in Hz. destruct Hz as [x [<- _]].
    unfold latin1_char. pose proof (zb_range x). lia.
Qed.
Print Assumptions C06_to_utf8_is_utf8.

(** Converting a string succeeds exactly if all its characters are Latin-1; then
    the bytes are the character numbers, and converting back restores it. *)
Theorem C06_latin1_strings_survive : forall cps, Forall latin1_char cps ->
  exists b, to_latin1 (string_of cps) = Ok b /\ map zb b = cps /\ to_utf8 b = string_of cps.
Proof.
  intros cps H. exists (map byte_of_Z cps). rewrite string_of_latin1 by assumption. split; [|split; [|reflexivity]].
  - apply latin1_utf8.
  - rewrite map_map. rewrite <- (map_id cps) at 2. apply map_ext_in. intros z Hz.
    apply zb_byte_of_Z. rewrite Forall_forall in H. specialize (H z Hz). unfold latin1_char in H. lia.
Qed.
Print Assumptions C06_latin1_strings_survive.

Theorem C06_other_strings_panic : forall s, to_latin1 s = Panic <-> ~ latin1_string s.
Proof. exact to_latin1_panic_iff. Qed.
Print Assumptions C06_other_strings_panic.

(** In particular every Unicode text with a character above U+00FF panics. *)
Theorem C06_high_characters_panic : forall cps, Forall unicode cps -> Exists (fun cp => 255 < cp) cps ->
  to_latin1 (string_of cps) = Panic.
Proof. exact to_latin1_string_high. Qed.
Print Assumptions C06_high_characters_panic.

Theorem C06_never_an_error : forall s, to_latin1 s <> Err.
Proof. exact latin1_not_err. Qed.
Print Assumptions C06_never_an_error.

Example C06_witness : (* "Müller" and "5€" *)
  string_of [77; 252; 108; 108; 101; 114] = [x4d; xc3; xbc; x6c; x6c; x65; x72]%byte /\
  to_latin1 (string_of [77; 252; 108; 108; 101; 114]) = Ok [x4d; xfc; x6c; x6c; x65; x72]%byte /\
  string_of [53; 8364] = [x35; xe2; x82; xac]%byte /\
  to_latin1 (string_of [53; 8364]) = Panic /\
  Forall unicode [53; 8364] /\ Exists (fun cp => 255 < cp) [53; 8364].
Proof.
  repeat split; try (vm_compute; reflexivity).
  - repeat constructor; unfold unicode; lia.
  - apply Exists_cons_tl, Exists_cons_hd. lia.
Qed.

(** ** C07 *)
(** What is sent for a text value is its Latin-1 form with every syntax character
    escaped; nothing else is ever produced. *)
Theorem C07_marshal_escapes : forall v w, marshal_text v = Ok w <->
  exists l, to_latin1 v = Ok l /\ escaped_form l w.
Proof.
  intros v w. rewrite marshal_text_iff. split.
  - intros [l [-> ->]]. exists l. split; [apply latin1_utf8|now apply escaped_form_iff].
  - intros [l [Hl Hw]]. exists l. split; [now apply latin1_inv|now apply escaped_form_iff].
Qed.
Print Assumptions C07_marshal_escapes.

Theorem C07_unescape_restores : forall v w, escaped_form v w -> unescape w = v.
Proof. intros v w H. apply escaped_form_iff in H. subst. apply unescape_escape. Qed.
Print Assumptions C07_unescape_restores.

Theorem C07_marshal_injective : forall v1 v2 w,
  marshal_text v1 = Ok w -> marshal_text v2 = Ok w -> v1 = v2.
Proof.
  intros v1 v2 w H1 H2. apply marshal_text_iff in H1. apply marshal_text_iff in H2.
  destruct H1 as [l1 [-> ->]], H2 as [l2 [-> H2]]. apply escape_inj in H2. now subst.
Qed.
Print Assumptions C07_marshal_injective.

Theorem C07_no_unescaped_delimiter : forall v w, marshal_text v = Ok w -> all_escaped w = true.
Proof. intros v w H. apply marshal_text_iff in H. destruct H as [l [_ ->]]. apply escape_all_escaped. Qed.
Print Assumptions C07_no_unescaped_delimiter.

Example C07_witness :
  marshal_text (B "a+b:c'd?e@f") = Ok (B "a?+b?:c?'d??e?@f") /\
  unmarshal_text (B "a?+b?:c?'d??e?@f") = B "a+b:c'd?e@f".
Proof. split; vm_compute; reflexivity. Qed.

(** ** C08 *)
Theorem C08_text_roundtrip : forall v, latin1_string v ->
  exists w, marshal_text v = Ok w /\ unmarshal_text w = v.
Proof.
  intros v H. apply latin1_string_iff in H. destruct H as [l ->]. exists (escape l).
  split; [apply marshal_text_ok|apply unmarshal_text_escape].
Qed.
Print Assumptions C08_text_roundtrip.

Theorem C08_other_text_panics : forall v, ~ latin1_string v -> marshal_text v = Panic.
Proof. intros v H. now apply marshal_text_panic. Qed.
Print Assumptions C08_other_text_panics.

Example C08_witness : latin1_string (string_of [252; 43; 223]) /\
  marshal_text (string_of [252; 43; 223]) = Ok [xfc; x3f; x2b; xdf]%byte /\ ~ latin1_string [xff]%byte.
Proof.
  split; [|split].
  - exists [252; 43; 223]. split; [repeat constructor; lia|reflexivity].
  - vm_compute. reflexivity.
  - apply to_latin1_panic_iff. vm_compute. reflexivity.
Qed.

(** ** C09 *)
Theorem C09_number_roundtrip : forall z, in_int64 z = true ->
  exists w, marshal_number z = Ok w /\ unmarshal_int w = Ok z.
Proof. exact number_roundtrip. Qed.
Print Assumptions C09_number_roundtrip.

Theorem C09_digit_roundtrip : forall w z, in_int64 z = true ->
  exists v, marshal_digit w z = Ok v /\ unmarshal_int v = Ok z.
Proof. exact digit_roundtrip. Qed.
Print Assumptions C09_digit_roundtrip.

Theorem C09_digit_width : forall w z, 0 <= z < 10 ^ Z.of_nat w -> (0 < w)%nat ->
  exists v, marshal_digit w z = Ok v /\ List.length v = w /\ forallb is_digit v = true.
Proof. exact digit_width. Qed.
Print Assumptions C09_digit_width.

Theorem C09_numbers_injective : forall x y v, in_int64 x = true -> in_int64 y = true ->
  (marshal_number x = Ok v -> marshal_number y = Ok v -> x = y) /\
  (forall w1 w2, marshal_digit w1 x = Ok v -> marshal_digit w2 y = Ok v -> x = y).
Proof.
  intros x y v Hx Hy. split.
  - destruct (number_roundtrip x Hx) as [a [Ha1 Ha2]], (number_roundtrip y Hy) as [b [Hb1 Hb2]].
    intros E1 E2. congruence.
  - intros w1 w2. destruct (digit_roundtrip w1 x Hx) as [a [Ha1 Ha2]], (digit_roundtrip w2 y Hy) as [b [Hb1 Hb2]].
    intros E1 E2. congruence.
Qed.
Print Assumptions C09_numbers_injective.

(** A country code that is not a number is accepted without an error, and
    leaves an element whose value cannot be read. *)
Theorem C09_country_code_error_lost : forall w, unmarshal_int w = Err -> unmarshal_country w = Ok None.
Proof. intros w H. unfold unmarshal_country. now rewrite H. Qed.
Print Assumptions C09_country_code_error_lost.

Example C09_witness :
  marshal_number (-9223372036854775808) = Ok (B "-9223372036854775808") /\
  in_int64 (-9223372036854775808) = true /\
  marshal_digit 12 345 = Ok (B "000000000345") /\ unmarshal_int (B "000000000345") = Ok 345 /\
  unmarshal_int (B "9223372036854775808") = Err /\ unmarshal_country (B "DE") = Ok None.
Proof. repeat split; vm_compute; reflexivity. Qed.

(** ** C10 *)
Theorem C10_binary_roundtrip : forall data rest, Z.of_nat (List.length data) <= 2 ^ 48 ->
  exists w, marshal_binary data = Ok w /\ unmarshal_binary (w ++ rest) = Ok data.
Proof. exact binary_roundtrip. Qed.
Print Assumptions C10_binary_roundtrip.

Theorem C10_binary_form : forall data,
  marshal_binary data = Ok (B "@" ++ itoa_N (N.of_nat (List.length data)) ++ B "@" ++ data).
Proof. exact marshal_binary_eq. Qed.
Print Assumptions C10_binary_form.

Example C10_witness : marshal_binary (B "a'+@2@") = Ok (B "@6@a'+@2@") /\
  unmarshal_binary (B "@6@a'+@2@'HNHBS:5:1'") = Ok (B "a'+@2@").
Proof. split; vm_compute; reflexivity. Qed.

(** ** C11 *)
(** The announced length n is honoured exactly: the first n bytes that follow the
    header, filled up with zero bytes if there are fewer. *)
Theorem C11_binary_unmarshal_exact : forall value data,
  unmarshal_binary value = Ok data <->
  exists size rest n, value = B "@" ++ size ++ B "@" ++ rest /\ ~ In "@"%byte size /\
    atoi size = Ok n /\ 0 <= n <= 2 ^ 48 /\ (rest = [] -> n = 0) /\
    data = firstn (Z.to_nat n) rest ++ repeat "000"%byte (Z.to_nat n - List.length rest).
Proof. exact unmarshal_binary_iff. Qed.
Print Assumptions C11_binary_unmarshal_exact.

(** Hence, if enough bytes follow, the result is a piece of the input. *)
Theorem C11_complete_binary_is_in_input : forall size rest n data,
  ~ In "@"%byte size -> atoi size = Ok n -> 0 <= n <= Z.of_nat (List.length rest) ->
  unmarshal_binary (B "@" ++ size ++ B "@" ++ rest) = Ok data ->
  exists tail, rest = data ++ tail /\ Z.of_nat (List.length data) = n.
Proof.
  intros size rest n data Hs Ha Hn H. apply unmarshal_binary_iff in H.
  destruct H as (size'&rest'&n'&E&Hs'&Ha'&_&_&->).
  assert (G : read_until_at (size ++ b_at :: rest) = read_until_at (size' ++ b_at :: rest')).
  { f_equal. simpl in E. congruence. }
  rewrite (proj2 (read_until_at_spec _ size rest)), (proj2 (read_until_at_spec _ size' rest')) in G by auto.
  assert (size' = size) by congruence. assert (rest' = rest) by congruence. subst size' rest'.
  assert (n' = n) by congruence. subst n'.
  replace (Z.to_nat n - List.length rest)%nat with 0%nat by lia. simpl. rewrite app_nil_r.
  exists (skipn (Z.to_nat n) rest). split; [symmetry; apply firstn_skipn|]. rewrite firstn_length. lia.
Qed.
Print Assumptions C11_complete_binary_is_in_input.

(** The property as stated is false. *)
Theorem C11_binary_invents_data_refuted :
  exists value data c, unmarshal_binary value = Ok data /\ In c data /\ ~ In c value.
Proof.
  exists (B "@5@abc"), (B "abc" ++ ["000"; "000"]%byte), "000"%byte.
  split; [vm_compute; reflexivity|]. simpl. split; [auto 6|].
  intros H. repeat (destruct H as [H|H]; [discriminate|]). exact H.
Qed.
Print Assumptions C11_binary_invents_data_refuted.

(** A negative or gigantic length panics. *)
Theorem C11_binary_panics_iff : forall value, unmarshal_binary value = Panic <->
  exists size rest n, value = B "@" ++ size ++ B "@" ++ rest /\ ~ In "@"%byte size /\
    atoi size = Ok n /\ ~ (0 <= n <= 2 ^ 48).
Proof. exact unmarshal_binary_panic_iff. Qed.
Print Assumptions C11_binary_panics_iff.

Example C11_witness : unmarshal_binary (B "@-1@a") = Panic /\ unmarshal_binary (B "@2@") = Err /\
  unmarshal_binary (B "@3@abc") = Ok (B "abc") /\ atoi (B "3") = Ok 3.
Proof. repeat split; vm_compute; reflexivity. Qed.

(** ** C12 *)
Theorem C12_date_roundtrip : forall d, real_date d ->
  marshal_date d = Ok (yyyymmdd d) /\ unmarshal_date (yyyymmdd d) = Ok d.
Proof.
  intros d H. rewrite <- format_date_digits by assumption.
  destruct (date_roundtrip d H) as [w [H1 H2]]. unfold marshal_date in *.
  rewrite (to_latin1_ascii _ (format_date_ascii d H)) in *. injection H1 as <-. auto.
Qed.
Print Assumptions C12_date_roundtrip.

Theorem C12_date_accepts_only_renderings : forall w d,
  unmarshal_date w = Ok d -> real_date d /\ w = yyyymmdd d.
Proof.
  intros w d H. apply date_accepts in H. destruct H as [Hr H]. split; [assumption|].
  destruct (C12_date_roundtrip d Hr) as [E _]. congruence.
Qed.
Print Assumptions C12_date_accepts_only_renderings.

Theorem C12_time_roundtrip : forall t, real_time t ->
  marshal_time t = Ok (hhmmss t) /\ unmarshal_time (hhmmss t) = Ok t.
Proof.
  intros t H. rewrite <- format_time_digits by assumption.
  destruct (time_roundtrip t H) as [w [H1 H2]]. unfold marshal_time in *.
  rewrite (to_latin1_ascii _ (format_time_ascii t H)) in *. injection H1 as <-. auto.
Qed.
Print Assumptions C12_time_roundtrip.

Theorem C12_time_accepts_renderings_and_fractions : forall w t,
  unmarshal_time w = Ok t <-> real_time t /\ exists f, w = hhmmss t ++ f /\ fraction f.
Proof.
  intros w t. rewrite time_accepts. split; intros [Hr [f [Hw Hf]]]; (split; [assumption|]); exists f;
    (rewrite format_time_digits in * by assumption); auto.
Qed.
Print Assumptions C12_time_accepts_renderings_and_fractions.

Theorem C12_time_accepts_only_renderings_refuted : exists w t, unmarshal_time w = Ok t /\ w <> hhmmss t.
Proof.
  exists (B "120000,5"), (mkTod 12 0 0). split; [vm_compute; reflexivity|].
  intros H. vm_compute in H. discriminate.
Qed.
Print Assumptions C12_time_accepts_only_renderings_refuted.

Theorem C12_bool_roundtrip : forall b w, marshal_bool b = Ok w <-> unmarshal_bool w = Ok b.
Proof.
  intros b w. split; [|apply bool_accepts].
  destruct (bool_roundtrip b) as [w' [H1 H2]]. intros H. congruence.
Qed.
Print Assumptions C12_bool_roundtrip.

Example C12_witness :
  real_date (mkDate 2024 2 29) /\ yyyymmdd (mkDate 2024 2 29) = B "20240229" /\
  unmarshal_date (B "20230229") = Err /\
  real_time (mkTod 23 59 59) /\ hhmmss (mkTod 23 59 59) = B "235959" /\ unmarshal_time (B "240000") = Err /\
  marshal_bool true = Ok (B "J").
Proof. unfold real_date, real_time. repeat split; try (vm_compute; reflexivity); simpl; try lia; vm_compute; discriminate. Qed.
