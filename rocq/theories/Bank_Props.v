(** * C39 and C48: bank lookup and client creation *)
From Coq Require Import Lia ZifyBool.
From Verif Require Import Base BaseFacts Iban_Model Bank_Model Bank_Spec Bank_Data.
Open Scope Z_scope.

(** ** Facts *)
Lemma find_loop_spec id : forall table info,
  (exists e, last_entry table id e /\ find_loop table id info = e) \/
  ~ listed table id /\ find_loop table id info = info.
Proof.
  induction table as [|x r IH]; intros info.
  - right. split; [intros [e [[] _]]|reflexivity].
  - cbn [find_loop]. destruct (IH (if bytes_eqb (bi_id x) id then x else info)) as [(e&(b&a&Hr&He&Ha)&Hf)|[Hn Hf]].
    + left. exists e. split; [|exact Hf]. exists (x :: b), a. rewrite Hr. auto.
    + destruct (bytes_eqb_spec (bi_id x) id) as [E|N].
      * left. exists x. split; [|exact Hf]. exists [], r. split; [reflexivity|]. split; [exact E|].
        intros y Hy K. apply Hn. exists y. auto.
      * right. split; [|exact Hf]. intros (e&[<-|He]&K); [contradiction|]. apply Hn. exists e. auto.
Qed.
Lemma last_entry_unique table id e1 e2 : last_entry table id e1 -> last_entry table id e2 -> e1 = e2.
Proof.
  intros (b1&a1&H1&I1&N1) (b2&a2&H2&I2&N2). rewrite H1 in H2. clear H1 table.
  revert b2 H2. induction b1 as [|x b1 IH]; intros [|y b2] H2; cbn [app] in H2.
  - congruence.
  - injection H2 as -> ->. exfalso. apply (N1 e2); [apply in_or_app; right; now left|assumption].
  - injection H2 as -> <-. exfalso. apply (N2 e1); [apply in_or_app; right; now left|assumption].
  - injection H2 as _ H2. now apply (IH b2).
Qed.
Lemma last_entry_listed table id e : last_entry table id e -> listed table id.
Proof. intros (b&a&->&I&_). exists e. split; [apply in_or_app; right; now left|assumption]. Qed.
Lemma find_entry table id e : last_entry table id e -> find_by_bank_id table id = e.
Proof.
  intros H. unfold find_by_bank_id. destruct (find_loop_spec id table no_info) as [(e'&H'&->)|[N _]].
  - now apply (last_entry_unique table id).
  - exfalso. apply N. now apply (last_entry_listed table id e).
Qed.
Lemma find_none table id : ~ listed table id -> find_by_bank_id table id = no_info.
Proof.
  intros H. unfold find_by_bank_id. destruct (find_loop_spec id table no_info) as [(e'&H'&_)|[_ E]]; [|exact E].
  exfalso. apply H. now apply (last_entry_listed table id e').
Qed.

(** The versions as options: [None] for an empty field. *)
Lemma name_cases s :
  (s = [] /\ parse_version_name s = Ok (-1) /\ forall v, ~ In (s, v) version_names) \/
  (exists v, s <> [] /\ parse_version_name s = Ok v /\ 0 < v /\ forall w, In (s, w) version_names <-> w = v) \/
  (s <> [] /\ parse_version_name s = Err /\ forall v, ~ In (s, v) version_names).
Proof.
  unfold parse_version_name.
  destruct (bytes_eqb_spec s (B "HBCI 2.2 Erweiterung PIN/TAN V1.01")) as [->|N1];
  [right; left; exists 220; split; [discriminate|split; [reflexivity|split; [lia|]]]; intros w; split;
    [intros K; cbn [In version_names] in K; repeat (destruct K as [K|K]; [vm_compute in K; congruence|]); destruct K|intros ->; cbn [In version_names]; tauto]|].
  destruct (bytes_eqb_spec s (B "FinTS V3.0")) as [->|N2];
  [right; left; exists 300; split; [discriminate|split; [reflexivity|split; [lia|]]]; intros w; split;
    [intros K; cbn [In version_names] in K; repeat (destruct K as [K|K]; [vm_compute in K; congruence|]); destruct K|intros ->; cbn [In version_names]; tauto]|].
  destruct (bytes_eqb_spec s (B "FinTS V4.0")) as [->|N3];
  [right; left; exists 400; split; [discriminate|split; [reflexivity|split; [lia|]]]; intros w; split;
    [intros K; cbn [In version_names] in K; repeat (destruct K as [K|K]; [vm_compute in K; congruence|]); destruct K|intros ->; cbn [In version_names]; tauto]|].
  destruct (bytes_eqb_spec s (B "FinTS V4.1")) as [->|N4];
  [right; left; exists 410; split; [discriminate|split; [reflexivity|split; [lia|]]]; intros w; split;
    [intros K; cbn [In version_names] in K; repeat (destruct K as [K|K]; [vm_compute in K; congruence|]); destruct K|intros ->; cbn [In version_names]; tauto]|].
  assert (Q : forall v, ~ In (s, v) version_names).
  { intros v K. cbn [In version_names] in K. repeat (destruct K as [K|K]; [congruence|]). destruct K. }
  destruct (bytes_eqb_spec s []) as [->|N5]; [left|right; right]; auto.
Qed.
Lemma number_cases s :
  (s = [] /\ parse_version_number s = Ok (-1) /\ forall v, ~ In (s, v) version_numbers) \/
  (exists v, s <> [] /\ parse_version_number s = Ok v /\ 0 < v /\ forall w, In (s, w) version_numbers <-> w = v) \/
  (s <> [] /\ parse_version_number s = Err /\ forall v, ~ In (s, v) version_numbers).
Proof.
  unfold parse_version_number.
  destruct (bytes_eqb_spec s (B "2.1")) as [->|N1];
  [right; left; exists 210; split; [discriminate|split; [reflexivity|split; [lia|]]]; intros w; split;
    [intros K; cbn [In version_numbers] in K; repeat (destruct K as [K|K]; [vm_compute in K; congruence|]); destruct K|intros ->; cbn [In version_numbers]; tauto]|].
  destruct (bytes_eqb_spec s (B "2.2")) as [->|N2];
  [right; left; exists 220; split; [discriminate|split; [reflexivity|split; [lia|]]]; intros w; split;
    [intros K; cbn [In version_numbers] in K; repeat (destruct K as [K|K]; [vm_compute in K; congruence|]); destruct K|intros ->; cbn [In version_numbers]; tauto]|].
  destruct (bytes_eqb_spec s (B "3.0")) as [->|N3];
  [right; left; exists 300; split; [discriminate|split; [reflexivity|split; [lia|]]]; intros w; split;
    [intros K; cbn [In version_numbers] in K; repeat (destruct K as [K|K]; [vm_compute in K; congruence|]); destruct K|intros ->; cbn [In version_numbers]; tauto]|].
  destruct (bytes_eqb_spec s (B "4.0")) as [->|N4];
  [right; left; exists 400; split; [discriminate|split; [reflexivity|split; [lia|]]]; intros w; split;
    [intros K; cbn [In version_numbers] in K; repeat (destruct K as [K|K]; [vm_compute in K; congruence|]); destruct K|intros ->; cbn [In version_numbers]; tauto]|].
  destruct (bytes_eqb_spec s (B "4.1")) as [->|N5];
  [right; left; exists 410; split; [discriminate|split; [reflexivity|split; [lia|]]]; intros w; split;
    [intros K; cbn [In version_numbers] in K; repeat (destruct K as [K|K]; [vm_compute in K; congruence|]); destruct K|intros ->; cbn [In version_numbers]; tauto]|].
  assert (Q : forall v, ~ In (s, v) version_numbers).
  { intros v K. cbn [In version_numbers] in K. repeat (destruct K as [K|K]; [congruence|]). destruct K. }
  destruct (bytes_eqb_spec s []) as [->|N6]; [left|right; right]; auto.
Qed.

(** ** C39 *)

(** The lookup gives the last entry of the bank, and the empty one if there is
    none. *)
Theorem C39_lookup : forall table id,
  (forall e, last_entry table id e -> find_by_bank_id table id = e) /\
  (listed table id -> exists e, last_entry table id e) /\
  (~ listed table id -> find_by_bank_id table id = no_info).
Proof.
  intros table id. split; [apply find_entry|]. split; [|apply find_none].
  intros L. destruct (find_loop_spec id table no_info) as [(e&H&_)|[N _]]; [eauto|contradiction].
Qed.
Print Assumptions C39_lookup.

(** The version of an entry: the highest one it names, -1 if it names none, and
    a panic exactly if a version field is neither empty nor known. *)
Theorem C39_version : forall e,
  (readable e -> (exists v, highest e v /\ hbci_version e = Ok v) \/
                 (bi_name e = [] /\ bi_number e = [] /\ hbci_version e = Ok (-1))) /\
  (~ readable e -> hbci_version e = Panic).
Proof.
  intros e. unfold readable, highest, names_version, hbci_version, hbci_version_of.
  destruct (name_cases (bi_name e)) as [(Ea&->&Na)|[(a&Ea&->&Pa&Na)|(Ea&->&Na)]];
  destruct (number_cases (bi_number e)) as [(Eb&->&Nb)|[(b&Eb&->&Pb&Nb)|(Eb&->&Nb)]]; cbn [obind].
  - split; [intros _; right; auto|]. intros K. exfalso. apply K. auto.
  - split; [intros _; left; exists b|].
    + split; [split; [right; now apply Nb|]|].
      * intros w [K|K]; [now apply Na in K|apply Nb in K; lia].
      * f_equal. lia.
    + intros K. exfalso. apply K. split; [auto|right; exists b; now apply Nb].
  - split; [|reflexivity]. intros [_ [K|[v K]]]; [contradiction|now apply Nb in K].
  - split; [intros _; left; exists a|].
    + split; [split; [left; now apply Na|]|].
      * intros w [K|K]; [apply Na in K; lia|now apply Nb in K].
      * f_equal. lia.
    + intros K. exfalso. apply K. split; [right; exists a; now apply Na|auto].
  - split; [intros _; left; exists (Z.max b a)|].
    + split; [split|reflexivity].
      * destruct (Z.max_spec b a) as [[_ ->]|[_ ->]]; [left; now apply Na|right; now apply Nb].
      * intros w [K|K]; [apply Na in K|apply Nb in K]; lia.
    + intros K. exfalso. apply K. split; right; [exists a; now apply Na|exists b; now apply Nb].
  - split; [|reflexivity]. intros [_ [K|[v K]]]; [contradiction|now apply Nb in K].
  - split; [|reflexivity]. intros [[K|[v K]] _]; [contradiction|now apply Na in K].
  - split; [|reflexivity]. intros [[K|[v K]] _]; [contradiction|now apply Na in K].
  - split; [|reflexivity]. intros [[K|[v K]] _]; [contradiction|now apply Na in K].
Qed.
Print Assumptions C39_version.

(** Reading the CSV file: one entry per record with a bank ID, in their order,
    with the fields of the named columns without surrounding blanks. *)
Inductive entries_of : list csv_record -> list bank_info -> Prop :=
| eo_nil : entries_of [] []
| eo_skip r rs es : column r (B "BLZ") = [] -> entries_of rs es -> entries_of (r :: rs) es
| eo_take r rs e es : column r (B "BLZ") <> [] ->
    bi_id e = trim_blanks (column r (B "BLZ")) -> bi_bic e = trim_blanks (column r (B "BIC")) ->
    bi_number e = trim_blanks (column r (B "HBCI-Version")) ->
    bi_url e = trim_blanks (column r (B "PIN/TAN-Zugang URL")) ->
    bi_name e = trim_blanks (column r (B "Version")) ->
    bi_institute e = trim_blanks (column r (B "Institut")) -> bi_city e = trim_blanks (column r (B "Ort")) ->
    bi_changed e = trim_blanks (column r changed_header) ->
    entries_of rs es -> entries_of (r :: rs) (e :: es).
Theorem C39_table_from_csv : forall records es, entries_of records es <-> es = bank_infos records.
Proof.
  intros records es. split.
  - induction 1 as [|r rs es H _ IH|r rs e es H H1 H2 H3 H4 H5 H6 H7 H8 _ IH]; [reflexivity| |]; cbn [bank_infos].
    + rewrite H. exact IH.
    + destruct (bytes_eqb_spec (column r (B "BLZ")) []); [contradiction|]. rewrite <- IH. f_equal.
      destruct e. cbn in *. congruence.
  - intros ->. induction records as [|r rs IH]; [constructor|]. cbn [bank_infos].
    destruct (bytes_eqb_spec (column r (B "BLZ")) []) as [E|N]; [now constructor|].
    apply eo_take; try reflexivity; assumption.
Qed.
Print Assumptions C39_table_from_csv.

Definition entry0 (id number url name : bytes) : bank_info := mkBi id [] number url name [] [] [].
Example C39_witness :
  let t := [entry0 (B "1") (B "3.0") (B "a") []; entry0 (B "2") [] (B "b") (B "FinTS V3.0"); entry0 (B "1") (B "2.2") (B "c") (B "FinTS V4.0")] in
  last_entry t (B "1") (entry0 (B "1") (B "2.2") (B "c") (B "FinTS V4.0")) /\ ~ listed t (B "3") /\
  hbci_version (find_by_bank_id t (B "1")) = Ok 400 /\
  hbci_version (entry0 (B "1") (B "3.1") [] []) = Panic.
Proof.
  cbv zeta. split; [|split; [|split]].
  - eexists [_; _], []. split; [reflexivity|]. split; [reflexivity|]. intros x [].
  - intros (e&K&E). cbn [In] in K. repeat (destruct K as [<-|K]; [discriminate|]). destruct K.
  - vm_compute. reflexivity.
  - vm_compute. reflexivity.
Qed.

(** ** C48 *)

(** The version the client is to use: the configured one, or else the highest
    one of the entry of the bank. *)
Definition wanted_version (table : list bank_info) (cfg : config) (v : Z) : Prop :=
  0 < cfg_version cfg /\ v = cfg_version cfg \/
  cfg_version cfg <= 0 /\ exists e, last_entry table (cfg_bank cfg) e /\ readable e /\ highest e v.
(** The address: the configured one, or else that of the entry, or else none. *)
Definition wanted_url (table : list bank_info) (cfg : config) (url : bytes) : Prop :=
  cfg_url cfg <> [] /\ url = cfg_url cfg \/
  cfg_url cfg = [] /\ (exists e, last_entry table (cfg_bank cfg) e /\ url = bi_url e \/
                       ~ listed table (cfg_bank cfg) /\ url = []).

Lemma supported_spec v w : supported_hbci_version v = Some w <-> spoken v /\ w = v.
Proof. unfold supported_hbci_version, spoken. destruct ((v =? 220) || (v =? 300)) eqn:E; split.
  - intros K; injection K as <-. lia.
  - intros [_ ->]. reflexivity.
  - discriminate.
  - lia. Qed.
Lemma find_cases table id : (exists e, last_entry table id e /\ find_by_bank_id table id = e) \/
  (~ listed table id /\ find_by_bank_id table id = no_info).
Proof. exact (find_loop_spec id table no_info). Qed.
Lemma highest_unique e v w : highest e v -> highest e w -> v = w.
Proof. intros [A1 A2] [B1 B2]. specialize (A2 _ B1). specialize (B2 _ A1). lia. Qed.

Definition url_for (table : list bank_info) (cfg : config) : bytes :=
  if bytes_eqb (cfg_url cfg) [] then bi_url (find_by_bank_id table (cfg_bank cfg)) else cfg_url cfg.
Lemma url_for_spec table cfg url : wanted_url table cfg url <-> url = url_for table cfg.
Proof.
  unfold wanted_url, url_for. destruct (bytes_eqb_spec (cfg_url cfg) []) as [E|N].
  - split.
    + intros [[K _]|[_ [e [[He ->]|[Hn ->]]]]]; [contradiction| |].
      * now rewrite (find_entry _ _ _ He).
      * now rewrite (find_none _ _ Hn).
    + intros ->. right. split; [assumption|].
      destruct (find_cases table (cfg_bank cfg)) as [(e&He&->)|[Hn ->]].
      * exists e. left. auto.
      * exists no_info. right. auto.
  - split; [intros [[_ K]|[K _]]; congruence|]. intros ->. left. auto.
Qed.

(** When a client is made, and what it is made of. *)
Theorem C48_new : forall table cfg c,
  client_new table cfg = Ok c <->
  (exists v, wanted_version table cfg v /\ spoken v /\ nc_version c = v) /\
  wanted_url table cfg (nc_url c) /\
  nc_country c = 280 /\ nc_bank c = cfg_bank cfg /\ nc_user c = cfg_account cfg /\ nc_pin c = cfg_pin cfg /\
  nc_product c = cfg_product cfg /\ nc_product_version c = cfg_product_version cfg.
Proof.
  intros table cfg c. rewrite url_for_spec. unfold client_new. fold (url_for table cfg).
  assert (F : forall v, Ok (mkClient 280 (cfg_bank cfg) (url_for table cfg) (cfg_account cfg) v (cfg_product cfg) (cfg_product_version cfg) (cfg_pin cfg)) = Ok c <->
    nc_version c = v /\ nc_url c = url_for table cfg /\ nc_country c = 280 /\ nc_bank c = cfg_bank cfg /\ nc_user c = cfg_account cfg /\ nc_pin c = cfg_pin cfg /\
    nc_product c = cfg_product cfg /\ nc_product_version c = cfg_product_version cfg).
  { intros v. destruct c; cbn. split; [intros K; injection K as <- <- <- <- <- <- <- <-; auto 8|].
    intros (-> & -> & -> & -> & -> & -> & -> & ->). reflexivity. }
  assert (G : (exists v, wanted_version table cfg v /\ spoken v /\
    (do v <- (if 0 <? cfg_version cfg then
       match supported_hbci_version (cfg_version cfg) with Some v => Ok v | None => Err end
     else
       do n <- hbci_version (find_by_bank_id table (cfg_bank cfg));
       match supported_hbci_version n with Some v => Ok v | None => Err end); Ok v) = Ok v) \/
   (~ (exists v, wanted_version table cfg v /\ spoken v)) /\
    forall v, (do v <- (if 0 <? cfg_version cfg then
       match supported_hbci_version (cfg_version cfg) with Some v => Ok v | None => Err end
     else
       do n <- hbci_version (find_by_bank_id table (cfg_bank cfg));
       match supported_hbci_version n with Some v => Ok v | None => Err end); Ok v) <> Ok v).
  { unfold wanted_version. destruct (Z.ltb_spec 0 (cfg_version cfg)) as [L|L].
    - destruct (supported_hbci_version (cfg_version cfg)) as [w|] eqn:E.
      + left. apply supported_spec in E. destruct E as [S ->]. exists (cfg_version cfg). cbn [obind]. auto.
      + right. split; [|discriminate]. intros (v&[[_ ->]|[K _]]&S); [|lia].
        assert (supported_hbci_version (cfg_version cfg) = Some (cfg_version cfg)) by (apply supported_spec; auto). congruence.
    - destruct (find_cases table (cfg_bank cfg)) as [(e&He&->)|[Hn ->]].
      + destruct (C39_version e) as [V1 V2].
        assert (D : readable e \/ ~ readable e).
        { unfold readable.
          destruct (name_cases (bi_name e)) as [(Ea&_&Na)|[(a&Ea&_&Pa&Na)|(Ea&_&Na)]];
          destruct (number_cases (bi_number e)) as [(Eb&_&Nb)|[(b&Eb&_&Pb&Nb)|(Eb&_&Nb)]].
          all: try (right; intros [_ [K|[v K]]]; [contradiction|now apply Nb in K]).
          all: try (right; intros [[K|[v K]] _]; [contradiction|now apply Na in K]).
          all: left; split; try (left; assumption); right.
          all: try (exists a; now apply Na).
          all: exists b; now apply Nb. }
        destruct D as [R|R].
        * destruct (V1 R) as [(v&Hv&->)|(Z1&Z2&->)]; cbn [obind].
          -- destruct (supported_hbci_version v) as [w|] eqn:E.
             ++ apply supported_spec in E. destruct E as [S ->]. left. exists v. cbn [obind]. split; [|auto].
                right. split; [assumption|]. exists e. auto.
             ++ right. split; [|discriminate]. intros (w&[[K _]|[_ (e'&He'&_&Hw)]]&S); [lia|].
                assert (e' = e) by now apply (last_entry_unique table (cfg_bank cfg)). subst e'.
                assert (w = v) by now apply (highest_unique e). subst w.
                assert (supported_hbci_version v = Some v) by (apply supported_spec; auto). congruence.
          -- right. split; [|discriminate]. intros (w&[[K _]|[_ (e'&He'&_&[Hw _])]]&S); [lia|].
             assert (e' = e) by now apply (last_entry_unique table (cfg_bank cfg)). subst e'.
             unfold names_version in Hw. rewrite Z1, Z2 in Hw.
             destruct Hw as [K|K]; cbn [In version_names version_numbers] in K; repeat (destruct K as [K|K]; [discriminate|]); destruct K.
        * rewrite (V2 R). right. split; [|discriminate]. intros (w&[[K _]|[_ (e'&He'&R'&_)]]&S); [lia|].
          assert (e' = e) by now apply (last_entry_unique table (cfg_bank cfg)). subst e'. contradiction.
      + right. split; [|discriminate]. intros (v&[[K _]|[_ (e&He&_)]]&S); [lia|]. apply Hn. now apply (last_entry_listed _ _ e). }
  destruct G as [(v&W&S&E)|[N E]].
  - assert (X : forall w, wanted_version table cfg w -> w = v).
    { intros w W'. unfold wanted_version in *. destruct W as [[W1 ->]|[W1 (e&He&_&Hv)]], W' as [[W2 ->]|[W2 (e'&He'&_&Hw)]]; try lia.
      assert (e' = e) by now apply (last_entry_unique table (cfg_bank cfg)). subst e'. now apply (highest_unique e). }
    match type of E with (do x <- ?o; _) = _ => destruct o; try discriminate end.
    cbn [obind] in *. injection E as ->. rewrite F. split.
    + intros (V&R). split; [exists v; auto|]. exact R.
    + intros ((w&W'&_&V)&R). split; [|exact R]. rewrite V. now apply X.
  - split.
    + intros K. exfalso. match type of E with forall v, (do x <- ?o; _) <> _ => destruct o as [w| |]; try discriminate end.
      now apply (E w).
    + intros ((v&W&S&_)&_). exfalso. apply N. eauto.
Qed.
Print Assumptions C48_new.

(** It panics exactly if no version is configured and the entry of the bank has
    an unknown version; in every other case without a client there is an error. *)
Theorem C48_new_panics_iff : forall table cfg,
  client_new table cfg = Panic <->
  cfg_version cfg <= 0 /\ exists e, last_entry table (cfg_bank cfg) e /\ ~ readable e.
Proof.
  intros table cfg. unfold client_new. destruct (Z.ltb_spec 0 (cfg_version cfg)) as [L|L].
  - split; [|lia]. destruct (supported_hbci_version _); discriminate.
  - destruct (find_cases table (cfg_bank cfg)) as [(e&He&->)|[Hn ->]].
    + destruct (C39_version e) as [V1 V2]. split.
      * intros K. split; [assumption|]. exists e. split; [assumption|]. intros R.
        destruct (V1 R) as [(v&_&E)|(_&_&E)]; rewrite E in K; cbn [obind] in K; destruct (supported_hbci_version _); discriminate.
      * intros (_&e'&He'&R). assert (e' = e) by now apply (last_entry_unique table (cfg_bank cfg)). subst e'.
        now rewrite (V2 R).
    + split; [discriminate|]. intros (_&e&He&_). exfalso. apply Hn. now apply (last_entry_listed _ _ e).
Qed.
Print Assumptions C48_new_panics_iff.

(** In the table of the library every entry can be read, so New never panics. *)
Definition readable_b (e : bank_info) : bool :=
  match parse_version_name (bi_name e), parse_version_number (bi_number e) with Ok _, Ok _ => true | _, _ => false end.
Lemma data_readable : forallb readable_b data = true.
Proof. vm_compute. reflexivity. Qed.
Theorem C48_library_table : forall cfg, client_new data cfg <> Panic.
Proof.
  intros cfg K. apply C48_new_panics_iff in K. destruct K as (_&e&(b&a&He&_&_)&R).
  apply R. assert (H : readable_b e = true).
  { pose proof data_readable as D. rewrite forallb_forall in D. apply D. rewrite He. apply in_or_app. right. now left. }
  unfold readable_b in H. unfold readable.
  destruct (name_cases (bi_name e)) as [(Ea&E1&Na)|[(v&Ea&E1&Pa&Na)|(Ea&E1&Na)]]; rewrite E1 in H; try discriminate;
  destruct (number_cases (bi_number e)) as [(Eb&E2&Nb)|[(w&Eb&E2&Pb&Nb)|(Eb&E2&Nb)]]; rewrite E2 in H; try discriminate; split; try (left; assumption); right.
  all: try (exists v; now apply Na).
  all: exists w; now apply Nb.
Qed.
Print Assumptions C48_library_table.

(** The documentation says that there is an error if the bank is not in the
    table; with a configured version there is none, and the client has no address. *)
Theorem C48_unknown_bank_refuted : exists cfg c, ~ listed data (cfg_bank cfg) /\
  client_new data cfg = Ok c /\ nc_url c = [].
Proof.
  exists (mkCfg (B "1") (B "user") (B "pin") [] 300 [] []). eexists. split; [|split].
  - cbn [cfg_bank]. intros (e&He&K).
    assert (D : forallb (fun e => negb (bytes_eqb (bi_id e) (B "1"))) data = true) by (vm_compute; reflexivity).
    rewrite forallb_forall in D. specialize (D e He). rewrite K, bytes_eqb_refl in D. discriminate.
  - vm_compute. reflexivity.
  - reflexivity.
Qed.
Print Assumptions C48_unknown_bank_refuted.
(** Bank 23051030 has an entry with a version the client speaks, but a later,
    empty one hides it. *)
Theorem C48_hidden_entry_refuted : exists cfg e, In e data /\ bi_id e = cfg_bank cfg /\
  names_version e 300 /\ cfg_version cfg = 0 /\ client_new data cfg = Err.
Proof.
  assert (D : existsb (fun e => bytes_eqb (bi_id e) (B "23051030") && bytes_eqb (bi_name e) (B "FinTS V3.0")) data = true) by (vm_compute; reflexivity).
  apply existsb_exists in D. destruct D as (e&He&K). apply andb_true_iff in K. destruct K as [K1 K2].
  destruct (bytes_eqb_spec (bi_id e) (B "23051030")) as [E1|]; [|discriminate].
  destruct (bytes_eqb_spec (bi_name e) (B "FinTS V3.0")) as [E2|]; [|discriminate].
  exists (mkCfg (B "23051030") (B "user") (B "pin") [] 0 [] []), e.
  split; [exact He|]. split; [exact E1|]. split; [left; rewrite E2; right; left; reflexivity|]. split; [reflexivity|].
  vm_compute. reflexivity.
Qed.
Print Assumptions C48_hidden_entry_refuted.
(** Bank 30020500 offers version 3.0 and 4.0: there is no client for it although
    the client speaks 3.0. *)
Theorem C48_lower_version_refuted : exists cfg e, find_by_bank_id data (cfg_bank cfg) = e /\
  names_version e 300 /\ cfg_version cfg = 0 /\ client_new data cfg = Err.
Proof.
  exists (mkCfg (B "30020500") (B "user") (B "pin") [] 0 [] []). eexists. split; [vm_compute; reflexivity|]. split; [|split].
  - right. right. right. left. reflexivity.
  - reflexivity.
  - vm_compute. reflexivity.
Qed.
Print Assumptions C48_lower_version_refuted.

Example C48_witness :
  client_new data (mkCfg (B "10010010") (B "user") (B "pin") [] 0 (B "p") (B "1")) =
    Ok (mkClient 280 (B "10010010") (B "https://hbci.postbank.de/banking/hbci.do") (B "user") 300 (B "p") (B "1") (B "pin")) /\
  client_new data (mkCfg (B "10010010") (B "user") (B "pin") (B "u") 220 (B "p") (B "1")) =
    Ok (mkClient 280 (B "10010010") (B "u") (B "user") 220 (B "p") (B "1") (B "pin")) /\
  client_new data (mkCfg (B "10010010") (B "user") (B "pin") (B "u") 210 (B "p") (B "1")) = Err /\
  client_new [entry0 (B "1") (B "3.1") [] []] (mkCfg (B "1") (B "user") (B "pin") [] 0 [] []) = Panic.
Proof. split; [vm_compute; reflexivity|]. split; [vm_compute; reflexivity|]. split; vm_compute; reflexivity. Qed.
