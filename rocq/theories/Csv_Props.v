(** * C72: bank tables are read from CSV files as they are written *)
From Coq Require Import Lia Permutation.
From Verif Require Import Base BaseFacts Codec_Model Bank_Model Bank_Spec Csv_Model Csv_Spec Csv_Facts Csv_Facts2 Bank_Props.
Open Scope nat_scope.

Lemma quoted_no_panic fuel : forall field line rest, quoted fuel field line rest <> Panic.
Proof.
  induction fuel as [|fuel IH]; intros field line rest; cbn [quoted]; [discriminate|].
  destruct (cut b_dquote line) as [[before aft]|].
  - destruct aft as [|c aft]; [discriminate|]. destruct (beq c b_dquote); [apply IH|]. destruct (beq c b_semicolon); [discriminate|].
    destruct (only_nl (c :: aft)); discriminate.
  - destruct line; [discriminate|]. destruct rest; apply IH.
Qed.
Lemma fields_no_panic fuel : forall line rest, fields fuel line rest <> Panic.
Proof.
  induction fuel as [|fuel IH]; intros line rest; [discriminate|]. rewrite fields_step.
  assert (S : step line rest <> Panic).
  { unfold step. assert (P : (let (field, after) := match cut b_semicolon (trim_blanks_left line) with Some (a, b) => (a, Some b) | None => (without_nl (trim_blanks_left line), None) end in
               match cut b_dquote field with Some _ => Err | None => Ok (field, after, rest) end) <> Panic).
    { destruct (cut b_semicolon (trim_blanks_left line)) as [[a b]|]; [destruct (cut b_dquote a)|destruct (cut b_dquote _)]; discriminate. }
    destruct (trim_blanks_left line) as [|c l]; [exact P|]. destruct (beq c b_dquote); [apply quoted_no_panic|exact P]. }
  destruct (step line rest) as [[[v after] rest1]| |]; cbn [obind]; [|discriminate|contradiction].
  destruct after as [l|]; [|discriminate]. pose proof (IH l rest1). destruct (fields fuel l rest1) as [[fs r]| |]; cbn [obind]; [discriminate|discriminate|contradiction].
Qed.
Lemma records_no_panic fuel : forall lines, records fuel lines <> Panic.
Proof.
  induction fuel as [|fuel IH]; intros lines; [discriminate|]. cbn [records]. destruct lines as [|l rest]; [discriminate|].
  destruct (only_nl l); [apply IH|]. pose proof (fields_no_panic (S (List.length l + List.length (List.concat rest))) l rest) as N.
  destruct (fields _ l rest) as [[fs r]| |]; cbn [obind]; [|discriminate|contradiction].
  pose proof (IH r). destruct (records fuel r); cbn [obind]; [discriminate|discriminate|contradiction].
Qed.

(** The reader accepts exactly the files of the specification, and returns their records. *)
Theorem C72_csv : forall s,
  (forall rows, parse_csv s = Ok rows <-> file_is (unix s) rows) /\
  (parse_csv s = Err <-> forall rows, ~ file_is (unix s) rows).
Proof.
  intro s. split; [apply csv_exact|]. split.
  - intros E rows F. apply csv_exact in F. congruence.
  - intro N. destruct (parse_csv s) as [rows| |] eqn:E; [exfalso; apply (N rows); now apply csv_exact|reflexivity|].
    exfalso. exact (records_no_panic _ _ E).
Qed.
Print Assumptions C72_csv.

(** ** Tables *)
Lemma unix_plain s : ~ In x0d s -> unix s = s.
Proof.
  induction s as [|c r IH]; intro N; [reflexivity|]. cbn [unix]. rewrite (proj2 (beq_false c x0d)) by (intro K; apply N; now left).
  rewrite IH; [reflexivity|]. intro K. apply N. now right.
Qed.
Lemma doubled_in c v : In c (doubled v) -> In c v.
Proof.
  unfold doubled. rewrite in_flat_map. intros (d&I&K). destruct (beq d x22) eqn:D.
  - apply beq_true in D as ->. destruct K as [<-|[<-|[]]]; exact I.
  - destruct K as [<-|[]]. exact I.
Qed.
Lemma join_in c sep ls : In c (join sep ls) -> In c sep \/ exists l, In l ls /\ In c l.
Proof.
  induction ls as [|l [|m ls] IH]; intro K; [destruct K| |].
  - right. exists l. split; [now left|exact K].
  - change (join sep (l :: m :: ls)) with (l ++ sep ++ join sep (m :: ls)) in K. apply in_app_or in K as [K|K].
    + right. exists l. split; [now left|exact K].
    + apply in_app_or in K as [K|K]; [now left|]. destruct (IH K) as [J|(x&J&M)]; [now left|]. right. exists x. split; [now right|exact M].
Qed.

(** Every table can be written such that it is read back: with all fields in quotes, whatever
    they are (without carriage returns, which some line ends have). *)
Theorem C72_written : forall rows,
  (forall fs, In fs rows -> fs <> [] /\ forall v, In v fs -> ~ In x0d v) ->
  parse_csv (write_table rows) = Ok rows.
Proof.
  intros rows H. apply csv_exact. rewrite unix_plain.
  - induction rows as [|fs rows IH]; [constructor|]. cbn [write_table flat_map]. rewrite <- app_assoc.
    apply file_row; [|apply IH; intros x K; apply H; now right].
    destruct (H fs (or_introl eq_refl)) as [NE _]. exists (map write_field fs). repeat split.
    + clear. induction fs as [|v fs IH]; [constructor|]. constructor; [|exact IH]. exact (quoted_field [] v blanks_nil (fun K => K)).
    + destruct fs; [contradiction|discriminate].
    + destruct fs as [|v [|u fs]]; [contradiction| |]; discriminate.
  - unfold write_table. rewrite in_flat_map. intros (fs&I&K). apply in_app_or in K as [K|[K|[]]]; [|discriminate K].
    apply join_in in K as [[K|[]]|(l&L&K)]; [discriminate K|]. apply in_map_iff in L as (v&<-&L). destruct (H fs I) as [_ N].
    unfold write_field in K. apply in_app_or in K as [[K|[]]|K]; [discriminate K|]. apply in_app_or in K as [K|[K|[]]]; [|discriminate K].
    apply (N v L). now apply doubled_in.
Qed.
Print Assumptions C72_written.

(** The entries: one for every row with a bank ID, with the fields of the named columns. *)
Lemma column_named header : forall row name, NoDup header -> forall v, field_of header row name v <-> v = column (named_fields header row) name.
Proof.
  induction header as [|h hs IH]; intros row name D v.
  - unfold field_of. cbn. split.
    + intros [([|i]&E&_)|[_ ->]]; [discriminate E|discriminate E|reflexivity].
    + intros ->. right. split; [intros []|reflexivity].
  - inversion D as [|x l NI D']. subst. cbn [named_fields column]. destruct (bytes_eqb_spec h name) as [->|NE].
    + unfold field_of. split.
      * intros [([|i]&E&->)|[N _]]; [destruct row; reflexivity| |exfalso; apply N; now left].
        exfalso. cbn in E. apply NI. now apply nth_error_In in E.
      * intros ->. left. exists 0. split; [reflexivity|]. destruct row; reflexivity.
    + rewrite <- (IH (tl row) name D' v). unfold field_of. split.
      * intros [([|i]&E&->)|[N ->]].
        -- cbn in E. congruence.
        -- left. exists i. split; [exact E|]. destruct row; [destruct i; reflexivity|reflexivity].
        -- right. split; [|reflexivity]. intro K. apply N. now right.
      * intros [(i&E&->)|[N ->]].
        -- left. exists (S i). split; [exact E|]. destruct row; [destruct i; reflexivity|reflexivity].
        -- right. split; [|reflexivity]. intros [K|K]; contradiction.
Qed.
Lemma get_named header row name t : NoDup header ->
  (exists v, field_of header row name v /\ trimmed v t) <-> t = trim_blanks (column (named_fields header row) name).
Proof.
  intro D. split.
  - intros (v&F&T). apply (column_named _ _ _ D) in F as ->. now apply trimmed_iff.
  - intros ->. eexists. split; [now apply column_named|now apply trimmed_iff].
Qed.
Lemma row_entry_named header row e : NoDup header ->
  row_entry header row e <->
  let r := named_fields header row in
  e = mkBi (trim_blanks (column r (B "BLZ"))) (trim_blanks (column r (B "BIC")))
           (trim_blanks (column r (B "HBCI-Version"))) (trim_blanks (column r (B "PIN/TAN-Zugang URL")))
           (trim_blanks (column r (B "Version"))) (trim_blanks (column r (B "Institut")))
           (trim_blanks (column r (B "Ort"))) (trim_blanks (column r changed_header)).
Proof.
  intro D. unfold row_entry. cbv zeta. rewrite !(get_named header row _ _ D).
  change (B "Datum letzte " ++ [xc3; x84] ++ B "nderung") with changed_header.
  destruct e as [e1 e2 e3 e4 e5 e6 e7 e8]. cbn [bi_id bi_bic bi_number bi_url bi_name bi_institute bi_city bi_changed]. split.
  - intros (->&->&->&->&->&->&->&->). reflexivity.
  - intro E. injection E as -> -> -> -> -> -> -> ->. repeat split; reflexivity.
Qed.
Lemma rows_entries_named header rows : NoDup header -> forall es, rows_entries header rows es <-> es = bank_infos (map (named_fields header) rows).
Proof.
  intro D. induction rows as [|row rows IH]; intro es.
  - split; [intro H; inversion H; reflexivity|]. intros ->. constructor.
  - cbn [map bank_infos]. destruct (bytes_eqb_spec (column (named_fields header row) (B "BLZ")) []) as [E|N].
    + rewrite <- IH. split.
      * intro H. inversion H as [|row' rows' es' F R|row' rows' e es' v F V RE R]; subst; [exact R|].
        exfalso. apply V. apply (column_named _ _ _ D) in F. congruence.
      * intro H. apply re_skip; [|exact H]. apply (column_named _ _ _ D). now symmetry.
    + split.
      * intro H. inversion H as [|row' rows' es' F R|row' rows' e es' v F V RE R]; subst.
        -- exfalso. apply N. apply (column_named _ _ _ D) in F. now symmetry.
        -- apply IH in R as ->. f_equal. apply (row_entry_named _ _ _ D) in RE. exact RE.
      * intros ->. eapply re_take; [now apply (column_named _ _ _ D)|exact N| |now apply IH]. apply (row_entry_named _ _ _ D). reflexivity.
Qed.

Theorem C72_entries : forall no_header s,
  (forall header rows, file_is (unix s) (header :: rows) -> NoDup header ->
     forall es, parse_bank_infos no_header s = Ok es <-> rows_entries header rows es) /\
  ((forall rows, ~ file_is (unix s) rows) -> parse_bank_infos no_header s = Err).
Proof.
  intros no_header s. unfold parse_bank_infos, read_all. split.
  - intros header rows F D es. apply csv_exact in F. rewrite F. cbn [obind omap]. unfold omap. cbn [obind].
    rewrite (rows_entries_named header rows D es). split; [intro E; now injection E as <-|intros ->; reflexivity].
  - intro N. rewrite (proj2 (proj2 (C72_csv s)) N). reflexivity.
Qed.
Print Assumptions C72_entries.

(** BicInfos: the same for two columns. *)
Theorem C72_bic : forall no_header s,
  (forall header rows, file_is (unix s) (header :: rows) -> NoDup header ->
     forall es, parse_bic_data no_header s = Ok es <-> rows_bics header rows es) /\
  ((forall rows, ~ file_is (unix s) rows) -> parse_bic_data no_header s = Err).
Proof.
  intros no_header s. unfold parse_bic_data, read_all. split.
  - intros header rows F D. apply csv_exact in F. rewrite F. unfold omap. cbn [obind]. clear F.
    assert (R : forall es, rows_bics header rows es <-> es = bic_infos (map (named_fields header) rows)).
    { induction rows as [|row rows IH]; intro es.
      - split; [intro H; inversion H; reflexivity|]. intros ->. constructor.
      - cbn [map bic_infos]. destruct (bytes_eqb_spec (column (named_fields header row) (B "Bank-leitzahl")) []) as [E|N].
        + rewrite <- IH. split.
          * intro H. inversion H as [|row' rows' es' G R|row' rows' v id w bic es' G V TI GW TB R]; subst; [exact R|].
            exfalso. apply V. apply (column_named _ _ _ D) in G. congruence.
          * intro H. apply rb_skip; [|exact H]. apply (column_named _ _ _ D). now symmetry.
        + split.
          * intro H. inversion H as [|row' rows' es' G R|row' rows' v id w bic es' G V TI GW TB R]; subst.
            -- exfalso. apply N. apply (column_named _ _ _ D) in G. now symmetry.
            -- apply IH in R as ->. apply (column_named _ _ _ D) in G as ->. apply (column_named _ _ _ D) in GW as ->.
               apply trimmed_iff in TI as ->. apply trimmed_iff in TB as ->. reflexivity.
          * intros ->. eapply rb_take; [now apply (column_named _ _ _ D)|exact N|now apply trimmed_iff|
              now apply (column_named _ _ _ D)|now apply trimmed_iff|now apply IH]. }
    intro es. rewrite R. split; [intro E; now injection E as <-|intros ->; reflexivity].
  - intro N. rewrite (proj2 (proj2 (C72_csv s)) N). reflexivity.
Qed.
Print Assumptions C72_bic.

(** ** The table of several files *)
Theorem C72_lookup : forall no_header sort files tables,
  rearranges sort ->
  Forall2 (fun f es => parse_bank_infos no_header (to_utf8 f) = Ok es) files tables ->
  exists table, bank_table no_header sort files = Ok table /\
  forall id,
    let found e := bi_id e = id /\ exists es, In es tables /\ In e es in
    ((exists e, found e) -> found (find_by_bank_id table id)) /\
    (~ (exists e, found e) -> find_by_bank_id table id = no_info).
Proof.
  intros no_header sort files tables S F.
  assert (A : all_ok (fun f => parse_bank_infos no_header (to_utf8 f)) files = Ok tables).
  { induction F as [|f es fs ts H _ IH]; [reflexivity|]. cbn [all_ok]. rewrite H. cbn [obind]. rewrite IH. reflexivity. }
  exists (sort (List.concat tables)). split; [unfold bank_table; rewrite A; reflexivity|].
  intros id found. pose proof (S (List.concat tables)) as P. set (t := sort (List.concat tables)) in *. clearbody t.
  assert (Q : forall e, In e t <-> exists es, In es tables /\ In e es).
  { intro e. rewrite <- in_concat. split; intro K; [exact (Permutation_in _ (Permutation_sym P) K)|exact (Permutation_in _ P K)]. }
  destruct (C39_lookup t id) as (L1&L2&L3). split.
  - intros (e&E&K). destruct L2 as (x&LX).
    + exists e. split; [now apply Q|exact E].
    + rewrite (L1 x LX). destruct LX as (b&a&T&I&_). split; [exact I|]. apply Q. rewrite T. apply in_or_app. right. now left.
  - intro N. apply L3. intros (e&K&E). apply N. exists e. split; [exact E|now apply Q].
Qed.
Print Assumptions C72_lookup.

(** ** Non-vacuity *)
Definition demo_csv : bytes :=
  B "Nr.; BLZ ;""BIC"";BLZ" ++ [x0d; x0a] ++ [x0a] ++ B "1;10020030;""A""""B;C" ++ [x0a] ++ B "D"" ;x" ++ [x0a].
(** Blanks after a closing quote are an error. *)
Example C72_demo_error : parse_csv demo_csv = Err.
Proof. vm_compute. reflexivity. Qed.
Definition demo_csv2 : bytes :=
  B "Nr.; BLZ;""BIC"";Institut" ++ [x0d; x0a] ++ [x0a] ++ B "1;10020030 ;""A""""B;C" ++ [x0a] ++ B "D"";x;more" ++ [x0a] ++ B "2" ++ [x0d].
Example C72_demo :
  parse_csv demo_csv2 =
    Ok [[B "Nr."; B "BLZ"; B "BIC"; B "Institut"]; [B "1"; B "10020030 "; B "A""B;C" ++ [x0a] ++ B "D"; B "x"; B "more"]; [B "2"]] /\
  parse_bank_infos Err demo_csv2 = Ok [mkBi (B "10020030") (B "A""B;C" ++ [x0a] ++ B "D") [] [] [] (B "x") [] []].
Proof. split; vm_compute; reflexivity. Qed.
Example C72_witness : exists header rows, file_is (unix demo_csv2) (header :: rows) /\ NoDup header /\ List.length rows = 2.
Proof.
  eexists _, _. split; [apply csv_exact; exact (proj1 C72_demo)|]. split; [|reflexivity].
  repeat constructor; cbn [In]; intro K; repeat (destruct K as [K|K]; [discriminate K|]); exact K.
Qed.
