(** * The text of a versioned reader (C75)

    That the text has the cases of the versions asked for, in order, and their readers. *)
From Coq Require Import Lia.
From Verif Require Import Base BaseFacts Codec_Model Wire_Model Message_Model Seg_Model Seg_Facts4 Accept_Facts Gosrc_Model Gen_Model Gen_Spec.
Open Scope Z_scope.

(** A switch over the version of the header, as Go writes it: version and type of each case. *)
Definition case_source (c : Z * bytes) : bytes :=
  indent 1 ++ B "case " ++ itoa (fst c) ++ B ":" ++ nl
    ++ indent 2 ++ B "segment = &" ++ snd c ++ B "{}" ++ nl
    ++ indent 2 ++ B "err = segment.UnmarshalHBCI(value)" ++ nl
    ++ indent 2 ++ B "if err != nil {" ++ nl ++ indent 3 ++ B "return err" ++ nl ++ indent 2 ++ B "}" ++ nl.
Definition switch_source (cases : list (Z * bytes)) : bytes :=
  indent 1 ++ B "switch header.Version.Val() {" ++ nl
    ++ flat_map case_source cases
    ++ indent 1 ++ B "default:" ++ nl
    ++ indent 2 ++ B "return fmt.Errorf(""unknown segment version: %d"", header.Version.Val())" ++ nl
    ++ indent 1 ++ B "}" ++ nl.
(** The registration of a type under its ID and version, in a variable named after the version. *)
Definition register_source (c : Z * bytes) : bytes :=
  let v := B "v" ++ itoa (fst c) in
  indent 1 ++ v ++ B " := " ++ snd c ++ B "{}" ++ nl
    ++ indent 1 ++ B "KnownSegments.mustAddToIndex(VersionedSegment{" ++ v ++ B ".ID(), " ++ v ++ B ".Version()}, func() Segment { return &" ++ snd c ++ B "{} })" ++ nl.
Definition init_source (cases : list (Z * bytes)) : bytes := B "func init() {" ++ nl ++ flat_map register_source cases ++ B "}" ++ nl.

Lemma cases_text vs rest : Forall (fun v => go_name v <> []) vs ->
  t1 ++ flat_map case_text vs ++ rest = flat_map case_source (map (fun v => (go_version v, go_name v)) vs) ++ t1 ++ rest.
Proof.
  induction 1 as [|v vs Hv Hvs IH]; [reflexivity|]. cbn [flat_map map]. unfold case_text at 1, case_source at 1. cbn [fst snd].
  destruct (go_name v) as [|c n]; [now destruct Hv|]. repeat rewrite <- app_assoc; rewrite <- IH. reflexivity.
Qed.
Lemma registers_text vs rest :
  flat_map (fun v => nl ++ t1 ++ B "v" ++ itoa (go_version v) ++ B " := " ++ go_name v ++ B "{}" ++ nl
         ++ t1 ++ B "KnownSegments.mustAddToIndex(VersionedSegment{v" ++ itoa (go_version v) ++ B ".ID(), v" ++ itoa (go_version v)
         ++ B ".Version()}, func() Segment { return &" ++ go_name v ++ B "{} })") vs ++ nl ++ rest =
  nl ++ flat_map register_source (map (fun v => (go_version v, go_name v)) vs) ++ rest.
Proof.
  induction vs as [|v vs IH]; [reflexivity|]. cbn [flat_map map]. repeat rewrite <- app_assoc; rewrite IH. unfold register_source at 2. cbn [fst snd].
  cbv zeta. repeat rewrite <- app_assoc. reflexivity.
Qed.
Lemma objects package file code versions vs : all_ok (segment_object package file code) versions = Ok vs ->
  Forall2 (fun g v => go_name v = gs_name g /\ go_version v = gs_version g /\ extract_fields file (gs_name g) = Ok (go_fields v)) versions vs.
Proof.
  revert vs. induction versions as [|g r IH]; intros vs H; cbn [all_ok] in H; [injection H as <-; constructor|]. unfold segment_object at 1 in H.
  destruct (extract_fields file (gs_name g)) as [fs| |] eqn:E; cbn [obind] in H; try discriminate.
  destruct (all_ok (segment_object package file code) r) as [ys| |]; cbn [obind] in H; try discriminate. injection H as <-. constructor; [now repeat split|now apply IH].
Qed.

(** The text is made exactly if the fields of every version can be found; it registers and
    tells apart the versions asked for, in that order, and has the reader of each with the
    fields of its type. *)
Theorem C75_versioned_text : forall package file s versions, Forall (fun g => gs_name g <> []) versions ->
  match generate_versioned package file s versions with
  | Ok text => exists vs before between after,
      Forall2 (fun g v => go_name v = gs_name g /\ go_version v = gs_version g /\ extract_fields file (gs_name g) = Ok (go_fields v)) versions vs /\
      let cases := map (fun g => (gs_version g, gs_name g)) versions in
      text = before ++ init_source cases ++ between ++ switch_source cases ++ after ++ flat_map (fun v => nl ++ reader_text v) vs ++ nl
  | _ => exists g, In g versions /\ forall fs, extract_fields file (gs_name g) <> Ok fs
  end.
Proof.
  intros package file s versions Hn. unfold generate_versioned. cbv zeta. set (code := B "*generator.VersionedSegmentUnmarshalerGenerator"). clearbody code.
  destruct (all_ok (segment_object package file code) versions) as [vs| |] eqn:E; cbn [obind].
  - pose proof (objects _ _ _ _ _ E) as F. assert (M : map (fun g => (gs_version g, gs_name g)) versions = map (fun v => (go_version v, go_name v)) vs).
    { clear - F. induction F as [|g v gs vs (H1&H2&_) F IH]; [reflexivity|]. cbn [map]. now rewrite H1, H2, IH. }
    assert (N : Forall (fun v => go_name v <> []) vs).
    { clear - F Hn. induction F as [|g v gs vs (H1&_) F IH]; [constructor|]. inversion Hn; subst. constructor; [rewrite H1; assumption|auto]. }
    set (o := mkObject code package (gs_name s) (name_var (gs_name s)) (gs_interface s) 0 []). rewrite M. cbv zeta.
    assert (V : exists before, versions_check_text vs ++ nl = before ++ init_source (map (fun v => (go_version v, go_name v)) vs)).
    { unfold versions_check_text, init_source. repeat rewrite <- app_assoc.
      exists (nl ++ B "var (" ++ flat_map (fun v => nl ++ t1 ++ B "_ BankSegment = &" ++ go_name v ++ B "{}") vs ++ nl ++ B ")" ++ nl ++ nl).
      repeat rewrite <- app_assoc. rewrite registers_text. reflexivity. }
    assert (W : exists between after, versioned_reader_text o vs = between ++ switch_source (map (fun v => (go_version v, go_name v)) vs) ++ after ++ flat_map (fun v => nl ++ reader_text v) vs).
    { unfold versioned_reader_text, switch_source. repeat rewrite <- app_assoc. rewrite (cases_text vs _ N).
     
      exists (nl ++ B "func (" ++ go_var o ++ B " *" ++ go_name o ++ B ") UnmarshalHBCI(value []byte) error {" ++ nl
        ++ t1 ++ B "elements, err := ExtractElements(value)" ++ nl
        ++ t1 ++ B "if err != nil {" ++ nl ++ t2 ++ B "return err" ++ nl ++ t1 ++ B "}" ++ nl
        ++ t1 ++ B "header := &element.SegmentHeader{}" ++ nl
        ++ t1 ++ B "err = header.UnmarshalHBCI(elements[0])" ++ nl
        ++ t1 ++ B "if err != nil {" ++ nl ++ t2 ++ B "return err" ++ nl ++ t1 ++ B "}" ++ nl
        ++ t1 ++ B "var segment " ++ go_interface o ++ nl), (t1 ++ go_var o ++ B "." ++ go_interface o ++ B " = segment" ++ nl
        ++ t1 ++ B "return nil" ++ nl ++ B "}").
      repeat rewrite <- app_assoc. reflexivity. }
    destruct V as (bf&V). destruct W as (bt&af&W). exists vs, (notice_text o ++ nl ++ package_text o ++ nl ++ bf), bt, af. split; [exact F|].
    unfold versioned_text. rewrite W. repeat rewrite <- app_assoc. do 4 f_equal. rewrite (app_assoc (versions_check_text vs) nl), V; repeat rewrite <- app_assoc; reflexivity.
  - revert E. clear. induction versions as [|g r IH]; cbn [all_ok]; intros E; [discriminate|]. unfold segment_object at 1 in E.
    destruct (extract_fields file (gs_name g)) as [fs| |] eqn:Ef; cbn [obind] in E; try discriminate; [|exists g; split; [now left|congruence]].
    destruct (all_ok (segment_object package file code) r); cbn [obind] in E; try discriminate. destruct (IH eq_refl) as (g'&Hg&H). exists g'. split; [now right|exact H].
  - revert E. clear. induction versions as [|g r IH]; cbn [all_ok]; intros E; [discriminate|]. unfold segment_object at 1 in E.
    destruct (extract_fields file (gs_name g)) as [fs| |] eqn:Ef; cbn [obind] in E; try discriminate; [|exists g; split; [now left|congruence]].
    destruct (all_ok (segment_object package file code) r); cbn [obind] in E; try discriminate. destruct (IH eq_refl) as (g'&Hg&H). exists g'. split; [now right|exact H].
Qed.
Print Assumptions C75_versioned_text.

(** Two versions; the source of the switch. *)
Example C75_versioned_text_meets : Forall (fun g => gs_name g <> []) [mkGSeg (B "TanRequestV1") (B "Segment") 1; mkGSeg (B "TanRequestV6") (B "Segment") 6] /\
  switch_source [(6, B "TanRequestV6")] =
  t1 ++ B "switch header.Version.Val() {" ++ nl ++ t1 ++ B "case 6:" ++ nl ++ t2 ++ B "segment = &TanRequestV6{}" ++ nl ++ t2 ++ B "err = segment.UnmarshalHBCI(value)" ++ nl
  ++ t2 ++ B "if err != nil {" ++ nl ++ t3 ++ B "return err" ++ nl ++ t2 ++ B "}" ++ nl
  ++ t1 ++ B "default:" ++ nl ++ t2 ++ B "return fmt.Errorf(""unknown segment version: %d"", header.Version.Val())" ++ nl ++ t1 ++ B "}" ++ nl.
Proof. split; [repeat constructor; discriminate|]. vm_compute. reflexivity. Qed.

(** The flag -segment_versions, one part of the list: a name alone is refused, and so is a
    version that is no number; the interface is Segment unless there are exactly three parts. *)
Theorem C75_flag_part : forall n v r, ~ In b_colon n -> ~ In b_colon v -> Forall (fun x => ~ In b_colon x) r ->
  version_of n = Err /\
  (forall k, atoi v = Ok k ->
     version_of (join [b_colon] (n :: v :: r)) = Ok (mkGSeg n (if Nat.eqb (List.length r) 1 then List.concat r else B "Segment") k)) /\
  (atoi v = Err -> version_of (join [b_colon] (n :: v :: r)) = Err).
Proof.
  intros n v r Hn Hv Hr. unfold version_of. split; [now rewrite split_on_one|].
  rewrite split_on_join; [|discriminate|constructor; [exact Hn|constructor; assumption]]. split.
  - intros k ->. cbn [obind]. destruct r as [|i [|j r]]; cbn [List.length Nat.eqb List.concat]; [reflexivity|now rewrite app_nil_r|reflexivity].
  - intros ->. reflexivity.
Qed.
Print Assumptions C75_flag_part.
Example C75_flag_part_meets : version_of (B "A:1:B:C") = Ok (mkGSeg (B "A") (B "Segment") 1) /\ version_of (B "A:1:B") = Ok (mkGSeg (B "A") (B "B") 1) /\ version_of (B "A:x") = Err.
Proof. vm_compute. auto. Qed.

Lemma version_of_total s : version_of s <> Panic.
Proof.
  unfold version_of. destruct (split_on b_colon s) as [|n [|v r]]; [discriminate|discriminate|]. pose proof (atoi_no_panic v). destruct (atoi v); [discriminate|discriminate|congruence].
Qed.
(** The whole flag: what cannot be unquoted is refused, and so is a list with an entry that
    is refused; entries without text are left out. *)
Theorem C75_flag_list : forall (unquote : bytes -> option bytes) arg,
  (unquote arg = None -> versions_flag unquote arg = Err) /\
  (forall entries, entries <> [] -> Forall (fun x => ~ In b_comma x) entries -> unquote arg = Some (join [b_comma] entries) ->
     ((exists e, In e entries /\ e <> [] /\ version_of e = Err) <-> versions_flag unquote arg = Err) /\
     (forall vs, versions_flag unquote arg = Ok vs <-> Forall2 (fun e v => version_of e = Ok v) (filter (fun e => match e with [] => false | _ => true end) entries) vs)).
Proof.
  intros unquote arg. unfold versions_flag. split; [intros ->; reflexivity|]. intros es Hne Hc ->. rewrite split_on_join by assumption.
  replace (filter (fun p => negb (bytes_eqb p [])) es) with (filter (fun e : bytes => match e with [] => false | _ => true end) es).
  2:{ apply filter_ext. intros [|c e]; reflexivity. }
  match goal with |- context [all_ok version_of ?x] => set (l := x) end. assert (Hl : forall e, In e l <-> In e es /\ e <> []).
  { intros e. unfold l. rewrite filter_In. destruct e as [|c e]; (split; [intros (H1&H2)|intros (H1&H2)]); [congruence|now destruct H2|now split|now split]. }
  assert (Hq : forall e, In e l -> version_of e <> Panic) by (intros e _; apply version_of_total).
  split; [|intros vs; change (filter _ es) with l; apply all_ok_Forall2].
  transitivity (exists e, In e l /\ version_of e = Err).
  { split; intros (e&H); exists e; rewrite Hl in *; tauto. }
  clear Hl. clearbody l. clear - Hq. induction l as [|e l IH]; cbn [all_ok]; [split; [intros (e&[]&_)|intros H; inversion H]|].
  assert (Hq' : forall x, In x l -> version_of x <> Panic) by (intros x Hx; apply Hq; now right). specialize (IH Hq'). pose proof (Hq e (or_introl eq_refl)) as He.
  destruct (version_of e) as [v| |] eqn:E; cbn [obind]; [|split; [reflexivity|intros _; exists e; split; [now left|exact E]]|now destruct He].
  split.
  - intros (x&[<-|Hx]&Ex); [congruence|]. assert (all_ok version_of l = Err) as -> by (apply IH; exists x; auto). reflexivity.
  - intros H. assert (K : all_ok version_of l = Err) by (destruct (all_ok version_of l); cbn [obind] in H; try discriminate; reflexivity). apply IH in K. destruct K as (x&Hx&Ex). exists x. split; [now right|exact Ex].
Qed.
Print Assumptions C75_flag_list.
Example C75_flag_list_meets : versions_flag Some (B "A:1,,B:2:C,") = Ok [mkGSeg (B "A") (B "Segment") 1; mkGSeg (B "B") (B "C") 2] /\
  versions_flag Some (B "A:1,B") = Err /\ B "A:1,,B:2:C," = join [b_comma] [B "A:1"; []; B "B:2:C"; []].
Proof. split; [vm_compute; reflexivity|]. split; vm_compute; reflexivity. Qed.
