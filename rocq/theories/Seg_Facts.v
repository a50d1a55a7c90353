(** * Reading the segments of the specification *)
From Verif Require Import Base BaseFacts Lexer_Model Lexer_Spec Lexer_Proofs Lexer_Facts
  Codec_Model Codec_Spec Codec_Proofs Wire_Model Wire_Spec Wire_Proofs Wire_Facts Wire_Facts2 Wire_Facts3
  Message_Model Message_Spec Message_Proofs Message_Facts Message_Facts2 Message_Facts3 Seg_Model Seg_Spec.
From Coq Require Import Lia ZifyBool ZifyNat ZifyN.
Open Scope Z_scope.
Ltac Zify.zify_post_hook ::= Z.div_mod_to_equations.

(** ** Items *)
Lemma utf8_eq l : utf8 l = to_utf8 l.
Proof.
  unfold utf8. induction l as [|b l IH]; [reflexivity|]. cbn [map].
  change (string_of (zb b :: map zb l)) with (utf8_enc (zb b) ++ string_of (map zb l)).
  rewrite IH. rewrite utf8_enc_latin1 by (pose proof (zb_range b); unfold latin1_char; lia).
  rewrite byte_of_Z_zb. reflexivity.
Qed.
Lemma escaped_eq l : escaped l = escape l.
Proof.
  induction l as [|c l IH]; [reflexivity|].
  change (escaped (c :: l)) with ((if mem_byte c (B "?@':+") then ["?"%byte; c] else [c]) ++ escaped l).
  rewrite IH. unfold escape at 2. cbn [flat_map].
  pose proof (in_syntax c) as K. rewrite <- mem_byte_In in K.
  destruct (mem_byte c (B "?@':+")), (is_syntax c); try reflexivity; destruct K as [K1 K2];
    first [specialize (K1 eq_refl); discriminate|specialize (K2 eq_refl); discriminate].
Qed.
Definition item_elem (i : item) : elem :=
  match i with
  | TText l => EText (to_utf8 l)
  | TNumber n => ENumber n
  | TDigits w n => EDigit w n
  | TMoney u f => EFloat (FNum false u f)
  | TBinary d => EBinary d
  | TFlag b => EBool b
  | TDate d => EDate d
  | TTime t => ETime t
  end.
Lemma digits_no_dot ds : forallb is_digit ds = true -> ~ In "."%byte ds /\ ~ In b_comma ds.
Proof.
  intros H. split; intros K; apply (proj1 (forallb_forall _ _) H) in K; discriminate.
Qed.
Lemma replace1_at a b : forall u s, ~ In a u -> replace1 a b (u ++ a :: s) = u ++ b :: s.
Proof.
  induction u as [|x u IH]; intros s H; cbn [app replace1]; [now rewrite beq_refl|].
  destruct (beq_spec x a) as [->|]; [exfalso; apply H; now left|]. rewrite IH; [reflexivity|]. intros K. apply H. now right.
Qed.
Lemma replace1_none a b : forall u, ~ In a u -> replace1 a b u = u.
Proof.
  induction u as [|x u IH]; intros H; cbn [replace1]; [reflexivity|].
  destruct (beq_spec x a) as [->|]; [exfalso; apply H; now left|]. rewrite IH; [reflexivity|]. intros K. apply H. now right.
Qed.
Lemma itoa_N_digits n : forallb is_digit (itoa_N n) = true.
Proof. destruct (itoa_N_spec n) as (_&H&_). exact H. Qed.
Lemma itoa_N_ne n : itoa_N n <> [].
Proof.
  destruct (itoa_last (Z.of_N n)) as (p&d&E&_). unfold itoa in E. destruct (Z.of_N n <? 0) eqn:H; [lia|].
  rewrite N2Z.id in E. rewrite E. destruct p; discriminate.
Qed.
Lemma money_string u f : forallb is_digit f = true -> float_string (FNum false u f) = itoa_N u ++ ","%byte :: f.
Proof.
  intros Hf. unfold float_string, format_float. cbn [app].
  destruct (digits_no_dot _ (itoa_N_digits u)) as [H1 H2]. destruct f as [|c f].
  - rewrite app_nil_r, replace1_none by assumption.
    destruct (mem_byte b_comma (itoa_N u)) eqn:E; [apply mem_byte_In in E; contradiction|]. reflexivity.
  - rewrite replace1_at by assumption.
    destruct (mem_byte b_comma (itoa_N u ++ b_comma :: c :: f)) eqn:E; [reflexivity|].
    exfalso. assert (K : mem_byte b_comma (itoa_N u ++ b_comma :: c :: f) = true) by (apply mem_byte_In, in_or_app; right; now left).
    congruence.
Qed.
Lemma money_ascii u f : forallb is_digit f = true -> ascii (itoa_N u ++ ","%byte :: f) = true.
Proof.
  intros H. change (","%byte :: f) with ([","%byte] ++ f). rewrite !ascii_app, (digits_ascii _ (itoa_N_digits u)), (digits_ascii _ H). reflexivity.
Qed.
Lemma item_marshal i : item_ok i -> marshal_elem (item_elem i) = Ok (item_wire i).
Proof.
  destruct i as [l|n|w n|u f|d|b|d|t]; cbn [item_ok item_elem marshal_elem item_wire]; intros H.
  - rewrite marshal_text_ok, escaped_eq. reflexivity.
  - unfold marshal_number. now rewrite (to_latin1_ascii _ (itoa_ascii n)).
  - unfold marshal_digit. now rewrite (to_latin1_ascii _ (itoa_pad_ascii w n)).
  - unfold marshal_float. destruct H as [_ H]. rewrite money_string by exact H. now rewrite to_latin1_ascii by now apply money_ascii.
  - rewrite marshal_binary_eq. reflexivity.
  - destruct b; reflexivity.
  - unfold marshal_date. rewrite (to_latin1_ascii _ (format_date_ascii d H)). now rewrite format_date_digits.
  - unfold marshal_time. rewrite (to_latin1_ascii _ (format_time_ascii t H)). now rewrite format_time_digits.
Qed.
Lemma item_safe i : item_ok i -> elem_safe (item_elem i).
Proof.
  destruct i as [l|n|w n|u f|d|b|d|t]; cbn [item_ok item_elem elem_safe]; intros H; try exact I; try tauto.
  now rewrite nul_to_utf8, malformed_to_utf8.
Qed.
Lemma item_echunk i : item_ok i -> echunk (item_wire i).
Proof. intros H. exists (item_elem i). split; [now apply item_marshal|now apply item_safe]. Qed.
Lemma items_echunk g : Forall item_ok g -> Forall echunk (map item_wire g).
Proof. induction 1; cbn [map]; constructor; auto using item_echunk. Qed.

(** ** Groups *)
Lemma in_escape x l : In x (escape l) -> In x l \/ x = b_qmark.
Proof.
  unfold escape. intros H. apply in_flat_map in H. destruct H as (c&Hc&H). destruct (is_syntax c); cbn [In] in H.
  - destruct H as [<-|[<-|[]]]; auto.
  - destruct H as [<-|[]]; auto.
Qed.
Lemma special_not l : ~ In b_plus l -> ~ In b_quote l -> existsb special l = false.
Proof.
  intros H1 H2. apply not_true_is_false. intros G. apply existsb_exists in G. destruct G as [y [Gy G]]. unfold special in G.
  destruct (beq_spec y b_plus) as [->|]; [contradiction|]. destruct (beq_spec y b_quote) as [->|]; [contradiction|discriminate].
Qed.
Lemma escape_special l : ~ In b_plus l -> ~ In b_quote l -> existsb special (escape l) = false.
Proof. intros H1 H2. apply special_not; intros K; apply in_escape in K; destruct K as [K|K]; try contradiction; discriminate. Qed.
Lemma digits2_digits z : 0 <= z < 100 -> forallb is_digit (digits2 z) = true.
Proof.
  intros H. unfold digits2. cbn [forallb].
  destruct (digit_char_spec (Z.to_N (z / 10)) ltac:(lia)) as [-> _]. destruct (digit_char_spec (Z.to_N (z mod 10)) ltac:(lia)) as [-> _]. reflexivity.
Qed.
Lemma month_length_bound y m : month_length y m <= 31.
Proof.
  unfold month_length, month_lengths. destruct (Z.to_nat (m - 1)) as [|[|[|[|[|[|[|[|[|[|[|[|n]]]]]]]]]]]]; cbn [nth]; try lia.
  - destruct (leap_year y); lia.
  - destruct n; lia.
Qed.
Lemma yyyymmdd_digits d : real_date d -> forallb is_digit (yyyymmdd d) = true.
Proof.
  intros (H1&H2&H3). unfold yyyymmdd. pose proof (month_length_bound (d_year d) (d_month d)).
  rewrite !forallb_app, !digits2_digits by lia. reflexivity.
Qed.
Lemma hhmmss_digits t : real_time t -> forallb is_digit (hhmmss t) = true.
Proof. intros (H1&H2&H3). unfold hhmmss. rewrite !forallb_app, !digits2_digits by lia. reflexivity. Qed.
Lemma itoa_pad_special w z : existsb special (itoa_pad w z) = false.
Proof.
  unfold itoa_pad. destruct (z <? 0).
  - cbn [existsb]. rewrite digits_special; [reflexivity|]. apply pad_left_digits.
  - apply digits_special, pad_left_digits.
Qed.
Lemma item_special i : item_ok i -> groupable i -> existsb special (item_wire i) = false.
Proof.
  destruct i as [l|n|w n|u f|d|b|d|t]; cbn [item_ok groupable item_wire]; intros H G.
  - rewrite escaped_eq. apply escape_special; apply G.
  - apply itoa_special.
  - apply itoa_pad_special.
  - rewrite existsb_app, (digits_special _ (itoa_N_digits u)). cbn [existsb]. rewrite (digits_special f); [reflexivity|apply H].
  - cbn [existsb]. rewrite existsb_app, (digits_special _ (itoa_N_digits _)). cbn [existsb].
    rewrite (special_not d) by apply G. reflexivity.
  - destruct b; reflexivity.
  - apply digits_special, yyyymmdd_digits, H.
  - apply digits_special, hhmmss_digits, H.
Qed.
Lemma strip_map_special g : Forall item_ok g -> Forall groupable g ->
  existsb special (join [b_colon] (strip (map item_wire g))) = false.
Proof.
  intros H1 H2. rewrite special_join by reflexivity. apply not_true_is_false. intros K.
  apply existsb_exists in K. destruct K as (w&K1&K2).
  destruct (strip_spec (map item_wire g)) as [k E]. assert (Hin : In w (map item_wire g)) by (rewrite E; apply in_or_app; now left).
  apply in_map_iff in Hin. destruct Hin as (i&<-&Hi). rewrite Forall_forall in H1, H2.
  rewrite (item_special i) in K2; auto. discriminate.
Qed.
Lemma group_read g : group_ok g -> strip (map item_wire g) <> [] -> len (group_wire g) < 2 ^ 61 ->
  group_extract (group_wire g) = Ok (strip (map item_wire g)).
Proof.
  intros [H1 H2] Hne Hl. unfold group_wire. apply group_extract_clean; [apply strip_Forall, items_echunk, H1|exact Hne| |exact Hl].
  now apply strip_map_special.
Qed.
Lemma group_chunked g : Forall item_ok g -> chunked (group_wire g).
Proof.
  intros H. unfold group_wire. destruct (strip (map item_wire g)) as [|x r] eqn:E; [apply chunked_nil|].
  exists (strip (map item_wire g)). rewrite E at 1. split; [discriminate|]. split; [apply strip_Forall, items_echunk, H|].
  now rewrite E.
Qed.

(** ** Segments *)
Lemma header_bytes_eq id pos v ref : header_bytes id pos v ref = header_wire id pos v ref.
Proof. symmetry. apply header_wire_join. Qed.
Lemma strip_cons_ne x es : x <> [] -> strip (x :: es) = x :: strip es.
Proof. intros H. cbn [strip]. destruct x; [congruence|]. reflexivity. Qed.
Lemma header_chunked id pos v ref : forallb alnum id = true -> chunked (header_bytes id pos v ref).
Proof.
  intros H. exists ([id; itoa pos; itoa v] ++ match ref with Some r => [itoa r] | None => [] end).
  split; [discriminate|]. split; [|reflexivity]. apply Forall_app. split.
  - constructor; [|repeat constructor; apply itoa_echunk]. exists (EText id). split; [now apply alnum_marshal|now apply alnum_safe].
  - destruct ref; repeat constructor; apply itoa_echunk.
Qed.
Lemma header_ne id pos v ref : header_bytes id pos v ref <> [].
Proof. rewrite header_bytes_eq. apply header_wire_ne. Qed.
Definition wire_elements id pos v ref gs := strip (header_bytes id pos v ref :: map group_wire gs).
Lemma wire_elements_eq id pos v ref gs :
  wire_elements id pos v ref gs = header_bytes id pos v ref :: strip (map group_wire gs).
Proof. apply strip_cons_ne, header_ne. Qed.
Lemma segment_wire_elements id pos v ref gs : forallb alnum id = true -> Forall (Forall item_ok) gs ->
  len (segment_wire id pos v ref gs) < 2 ^ 61 ->
  segment_extract (segment_wire id pos v ref gs) = Ok (wire_elements id pos v ref gs).
Proof.
  intros Hid Hg Hl. unfold segment_wire in *. fold (wire_elements id pos v ref gs) in *.
  apply segment_extract_fields; [| |unfold b_plus, b_quote in *; lia].
  - unfold wire_elements. apply strip_Forall. constructor; [now apply header_chunked|].
    clear Hl. induction Hg; cbn [map]; constructor; auto using group_chunked.
  - unfold wire_elements. apply strip_last. rewrite strip_cons_ne by apply header_ne. discriminate.
Qed.
Lemma in_wire_len w id pos v ref gs : In w (header_bytes id pos v ref :: map group_wire gs) ->
  len w <= len (segment_wire id pos v ref gs).
Proof.
  intros H. unfold segment_wire. rewrite len_app. change (len ["'"%byte]) with 1.
  destruct w as [|x w]; [change (len []) with 0; pose proof (len_nonneg (join ["+"%byte] (strip (header_bytes id pos v ref :: map group_wire gs)))); lia|].
  assert (K : In (x :: w) (strip (header_bytes id pos v ref :: map group_wire gs))).
  { destruct (strip_spec (header_bytes id pos v ref :: map group_wire gs)) as [k E].
    rewrite E in H. apply in_app_or in H. destruct H as [H|H]; [exact H|]. apply repeat_spec in H. discriminate. }
  pose proof (len_join_in "+"%byte _ _ K). lia.
Qed.
Lemma header_read id pos v ref : forallb alnum id = true -> header_ok pos ref -> 0 <= v <= 99 ->
  len (header_bytes id pos v ref) < 2 ^ 61 ->
  unmarshal_header (header_bytes id pos v ref) = Ok (mkSH id pos v ref).
Proof.
  intros Hid [Hp Hr] Hv Hl. rewrite header_bytes_eq in *.
  apply unmarshal_header_wire; [now apply alnum_marshal|now apply alnum_safe|now apply alnum_special|apply position_in64; exact Hp| | |exact Hl].
  - unfold in_int64, int64_min, int64_max. lia.
  - destruct ref as [r|]; [apply position_in64; exact Hr|exact I].
Qed.
Lemma segment_wire_read {A} (k : list bytes -> outcome A) id pos v ref gs :
  forallb alnum id = true -> header_ok pos ref -> 0 <= v <= 99 -> Forall (Forall item_ok) gs ->
  len (segment_wire id pos v ref gs) < 2 ^ 61 ->
  segment_fields k (segment_wire id pos v ref gs) = k (wire_elements id pos v ref gs).
Proof.
  intros Hid Hh Hv Hg Hl. unfold segment_fields. rewrite segment_wire_elements by assumption. cbn [obind].
  rewrite wire_elements_eq. rewrite header_read; [reflexivity|assumption..|].
  assert (len (header_bytes id pos v ref) <= len (segment_wire id pos v ref gs)) by (apply in_wire_len; now left). lia.
Qed.

Lemma strip_nonempty_nth es : forall k, nonempty_nth k (strip es) = nonempty_nth k es.
Proof.
  unfold nonempty_nth. intros k. destruct (strip_spec es) as [n E]. rewrite E at 2.
  destruct (Nat.lt_ge_cases k (List.length (strip es))) as [H|H].
  - now rewrite nth_error_app1.
  - rewrite nth_error_app2 by exact H. rewrite (proj2 (nth_error_None (strip es) k)) by exact H.
    generalize (k - List.length (strip es))%nat. intros m. clear.
    revert m. induction n as [|n IH]; intros [|m]; try reflexivity. cbn. apply IH.
Qed.
Lemma strip_length_full es k w : List.length es = S k -> nth_error es k = Some w -> w <> [] -> strip es = es.
Proof.
  intros H1 H2 H3. apply strip_id. assert (Hne : es <> []) by (destruct es; [discriminate|congruence]).
  destruct (exists_last Hne) as (q&y&->). rewrite app_length in H1. cbn in H1.
  rewrite nth_error_app2 in H2 by lia. replace (k - List.length q)%nat with 0%nat in H2 by lia. injection H2 as ->.
  now rewrite last_last.
Qed.
Lemma field_strip {A} k (f : bytes -> outcome A) es : field k f (strip es) = field k f es.
Proof. unfold field. now rewrite strip_nonempty_nth. Qed.
Lemma last_field_strip {A} k (f : bytes -> outcome A) es : List.length es = S k -> last_field k f (strip es) = field k f es.
Proof.
  intros H. unfold last_field, field. rewrite strip_nonempty_nth. unfold nonempty_nth.
  destruct (nth_error es k) as [[|x w]|] eqn:E; try reflexivity. cbn [opt_parse].
  rewrite (strip_length_full es k (x :: w) H E) by discriminate.
  assert (K : skipn k es = [x :: w]).
  { clear -H E. revert es H E. induction k as [|k IH]; intros [|a es] H E; try discriminate.
    - destruct es; [|discriminate]. injection E as ->. reflexivity.
    - cbn [skipn]. apply IH; [cbn in H; lia|exact E]. }
  rewrite K. reflexivity.
Qed.
