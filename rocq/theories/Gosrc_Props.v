(** * C73: what the Go source made from bank tables says *)
From Coq Require Import Lia.
From Verif Require Import Base BaseFacts Codec_Model Mt940_Model Bank_Model Csv_Model Csv_Spec Gosrc_Model Gosrc_Spec Gosrc_Facts Gosrc_Facts2 Gosrc_Facts3.
Open Scope Z_scope.

(** C73_quote: what strconv.Quote writes for a text is a string literal with that text as its
    value, whatever bytes it has, and wherever it stands. *)
Theorem C73_quote printable v : print_table printable ->
  exists inner, go_quote printable v = x22 :: inner /\ (forall t, literal (inner ++ t) = Some (v, t)) /\ source_ok (go_quote printable v) = true.
Proof.
  intro P. exists (body printable v ++ [x22]). split; [reflexivity|]. split.
  - intro t. rewrite <- app_assoc. now apply literal_body.
  - unfold go_quote. change (quoted_body printable (List.length v) v) with (body printable v). rewrite source_ok_plain by reflexivity.
    rewrite source_ok_body by assumption. reflexivity.
Qed.

(** C73_source: the file says exactly the table if and only if no text in it but the names of
    the institutes has a quote, a backslash, a line end or something that is not UTF-8. *)
Theorem C73_source printable gofmt table file : print_table printable -> same_tokens gofmt ->
  write_go_file printable gofmt table = Ok file ->
  (go_tokens file = Some (table_tokens table) <-> Forall plain_entry table).
Proof. intros P G H. rewrite (G _ _ H). now apply table_go_tokens. Qed.

(** C73_program: the same of the file the program writes for files of banks; it writes none
    without a file to read, and none if it cannot read one of them. *)
Theorem C73_program printable gofmt no_header sort files file : print_table printable -> same_tokens gofmt ->
  bankdata_parser printable gofmt no_header sort files = Ok file ->
  files <> [] /\
  exists table, bank_table no_header sort files = Ok table /\
    (go_tokens file = Some (table_tokens table) <-> Forall plain_entry table).
Proof.
  intros P G H. unfold bankdata_parser in H. destruct files as [|f fs]; [discriminate H|]. split; [discriminate|].
  destruct (bank_table no_header sort (f :: fs)) as [table| |]; try discriminate H. exists table. split; [reflexivity|].
  exact (C73_source printable gofmt table file P G H).
Qed.

(** C73_same: files that say the same are of the same table. *)
Theorem C73_same table table' file file' :
  go_tokens file = Some (table_tokens table) -> go_tokens file' = Some (table_tokens table') -> go_tokens file = go_tokens file' -> table = table'.
Proof. intros H H' E. apply table_tokens_inj. congruence. Qed.

(** C73_source_refuted: a city can put a bank of its own into the table: for any two entries
    there is one row whose source says both. *)
Definition smuggled (e x : bank_info) : bank_info :=
  let line name v := [x20] ++ name ++ B ": """ ++ v ++ B """," in
  mkBi (bi_id e) (bi_bic e) (bi_number e) (bi_url e) (bi_name e) (bi_institute e)
    (bi_city e ++ B """, LastChanged: """ ++ bi_changed e ++ B """,}, {"
     ++ line (B "BankID") (bi_id x) ++ line (B "BIC") (bi_bic x) ++ line (B "VersionNumber") (bi_number x) ++ line (B "URL") (bi_url x)
     ++ line (B "VersionName") (bi_name x) ++ line (B "Institute") (bi_institute x) ++ B " City: """ ++ bi_city x)
    (bi_changed x).
Lemma smuggled_line e name v t : name <> [] -> all_letters name = true -> unmarked v ->
  toks e (x20 :: name ++ x3a :: x20 :: x22 :: v ++ x22 :: x2c :: t) = more (Word name) (more (Sign x3a) (more (Text v) (more (Sign x2c) (toks false t)))).
Proof.
  intros N A (Q&S&L). rewrite toks_blank by tauto. rewrite toks_word by auto. rewrite toks_opening by reflexivity. rewrite toks_blank by tauto.
  rewrite toks_literal, literal_plain by assumption. rewrite toks_opening by reflexivity. reflexivity.
Qed.
Theorem C73_source_refuted printable e x : print_table printable ->
  plain_entry e -> plain_entry x -> plain_text (bi_institute x) ->
  go_tokens (table_source printable [smuggled e x]) = Some (table_tokens [e; x]) /\ [smuggled e x] <> [e; x].
Proof.
  intros P (E1&E2&E3&E4&E5&E7&E8) (X1&X2&X3&X4&X5&X7&X8) X6. split; [|discriminate].
  assert (U : forall v, plain_text v -> unmarked v) by (intros v (?&?&?&?); repeat split; assumption).
  assert (O : forall v, plain_text v -> source_ok v = true) by (intros v (?&?&?&?); assumption).
  assert (K : forall v p t, plain_text v -> plain_ascii p = true -> p <> [] -> source_ok (v ++ p ++ t) = source_ok t).
  { intros v p t H A N. destruct p as [|c p]; [congruence|]. cbn [app].
    rewrite source_ok_app by (cbn in A; apply andb_true_iff in A as (A&_); lia). rewrite (O v H). cbn [andb].
    change (c :: p ++ t) with ((c :: p) ++ t). now apply source_ok_plain. }
  assert (S : source_ok (table_source printable [smuggled e x]) = true).
  { apply table_ok; [assumption|]. constructor; [|constructor]. unfold ok_entry, smuggled. cbn [bi_id bi_bic bi_number bi_url bi_name bi_city bi_changed].
    repeat (split; [solve [apply O; assumption]|]). split; [|apply O; assumption].
    rewrite <- !app_assoc.
    repeat first [ rewrite source_ok_plain by reflexivity | rewrite K by (first [assumption | reflexivity | discriminate]) ].
    apply O. assumption. }
  rewrite go_tokens_toks, S. change (table_tokens [e; x]) with (head_tokens ++ (flat_map entry_tokens [e; x] ++ [Sign x7d; semicolon])).
  apply head_toks. cbn [flat_map]. rewrite !app_nil_r. unfold entry_source at 1. unfold entry_tokens at 1. unfold smuggled.
  cbn [bi_id bi_bic bi_number bi_url bi_name bi_institute bi_city bi_changed]. rewrite <- !app_assoc. cbn [app].
  rewrite toks_opening by reflexivity. rewrite more_some. change b_lf with x0a. rewrite toks_lf. cbv iota.
  do 5 (apply raw_line; [discriminate|reflexivity|split; [apply U; assumption|]]).
  apply quoted_line; [assumption|discriminate|reflexivity|].
  rewrite line_tokens by (first [discriminate|reflexivity]). rewrite !more_some. unfold between_quotes at 1. rewrite <- !app_assoc.
  change [b_dquote] with [x22]. change (B """, LastChanged: """) with (x22 :: x2c :: x20 :: B "LastChanged" ++ [x3a; x20; x22]).
  change (B """,}, {") with [x22; x2c; x7d; x2c; x20; x7b]. change (B ": """) with [x3a; x20; x22]. change (B """,") with [x22; x2c].
  change (B " City: """) with (x20 :: B "City" ++ [x3a; x20; x22]). repeat (cbn [app]; rewrite <- app_assoc). cbn [app].
  rewrite toks_literal, literal_plain by (apply U; assumption). rewrite more_some. rewrite toks_opening, more_some by reflexivity.
  rewrite smuggled_line by (first [discriminate|reflexivity|apply U; assumption]). rewrite !more_some.
  rewrite toks_closing, more_some by reflexivity. rewrite toks_opening, more_some by reflexivity. rewrite toks_blank by tauto.
  unfold entry_tokens. cbn [app]. rewrite toks_opening, more_some by reflexivity.
  do 7 (rewrite smuggled_line by (first [discriminate|reflexivity|apply U; assumption]); rewrite !more_some).
  rewrite toks_lf. cbv iota.
  apply raw_line; [discriminate|reflexivity|split; [apply U; assumption|]]. reflexivity.
Qed.
Print Assumptions C73_quote.
Print Assumptions C73_source.
Print Assumptions C73_program.
Print Assumptions C73_same.
Print Assumptions C73_source_refuted.

(** ** A case *)
(** ASCII characters but control characters are printed. *)
Definition prints_ascii (c : Z) : bool := (32 <=? c) && (c <? 127).
Lemma prints_ascii_table : print_table prints_ascii.
Proof. intros c H. unfold prints_ascii. lia. Qed.
(** A bank whose name has an umlaut, a quote, a backslash, a line end and a byte that is no
    character in it; its source says it. *)
Definition demo_entry : bank_info :=
  mkBi (B "12345678") (B "ABCDEFGH") (B "3.0") (B "https://a.example/b") (B "FinTS V3.0")
    (B "M" ++ [xc3; xbc] ++ B "ller ""\" ++ [x0a; xff]) (B "K" ++ [xc3; xb6] ++ B "ln") (B "01.01.2022").
Example C73_demo_plain : Forall plain_entry [demo_entry].
Proof. constructor; [|constructor]. unfold plain_entry, plain_text. repeat split; try reflexivity; vm_compute; intuition discriminate. Qed.
Example C73_demo_quote : go_quote prints_ascii (bi_institute demo_entry) = B """M\u00fcller \""\\\n\xff""".
Proof. reflexivity. Qed.
Example C73_demo : go_tokens (table_source prints_ascii [demo_entry]) = Some (table_tokens [demo_entry]).
Proof. apply (C73_source prints_ascii Ok [demo_entry] _ prints_ascii_table); [intros s t H; injection H as <-; reflexivity|reflexivity|exact C73_demo_plain]. Qed.
