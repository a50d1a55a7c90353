(** * C75: generated segment readers *)
From Verif Require Import Base BaseFacts Lexer_Model Lexer_Spec Lexer_Proofs Lexer_Facts
  Codec_Model Codec_Spec Codec_Proofs Wire_Model Wire_Spec Wire_Proofs Wire_Facts Wire_Facts2 Wire_Facts3 Wire_Props
  Message_Model Message_Spec Message_Proofs Message_Facts Message_Facts2 Message_Facts3 Seg_Model Seg_Facts4 Gosrc_Model Gen_Model Gen_Spec Gen_Facts Gen_Facts2.
From Coq Require Import Lia.
Open Scope Z_scope.

(** ** From the source to the fields *)

(** The fields of the reader are the elements the method lists, in that order, with the types
    the struct declares; a list with anything else is refused. *)
Theorem C75_fields file name fields body elems :
  go_file file name fields body -> lists body elems -> in_order elems ->
  (exists l, extract_fields file name = Ok l /\ Forall2 (element_of fields) elems l) \/
  ((~ exists l, Forall2 (element_of fields) elems l) /\ extract_fields file name = Err).
Proof.
  intros G L O. rewrite (extract_form _ _ _ _ G). destruct G as (_&N&_). unfold lists in L. subst body. cbn [visit_decl]. rewrite !beq_same. cbn [andb fst snd].
  destruct (visit_all name fields elems N []) as [(l&F&V)|(F&l&V)].
  - left. exists l. split; [|exact F]. rewrite V. cbn [obind fst snd orb app]. now rewrite (sort_sorted l (elements_lines _ _ _ F O)).
  - right. split; [exact F|]. rewrite V. reflexivity.
Qed.
(** Refuted: that what the method [elements] returns is what the reader reads.  If the method
    is written in any other way, the generator goes on without a word and its reader reads no
    field at all. *)
Theorem C75_elements_refuted file name fields body :
  go_file file name fields body -> (forall elems, ~ lists body elems) -> extract_fields file name = Ok [].
Proof.
  intros G L. rewrite (extract_form _ _ _ _ G). cbn [visit_decl]. rewrite !beq_same. cbn [andb].
  assert (K : forall t e, bytes_eqb t (B "[]element.DataElement") = true -> body <> [SReturn [RComposite t e]]).
  { intros t e E ->. apply bytes_eqb_true in E. subst t. now apply (L e). }
  destruct body as [|[[|[t e|] [|]]|] [|]]; try reflexivity. destruct (bytes_eqb t (B "[]element.DataElement")) eqn:E; [|reflexivity]. exfalso. now apply (K t e).
Qed.
(** A segment that is not in the file is refused. *)
Theorem C75_unknown file name : (forall d, In d file -> decl_name d <> Some name) -> extract_fields file name = Err.
Proof.
  intro H. unfold extract_fields. replace (scope_lookup name file) with (@None gdecl); [reflexivity|]. symmetry.
  induction file as [|d file IH]; [reflexivity|]. cbn [scope_lookup]. pose proof (H d ltac:(now left)) as D.
  destruct (decl_name d) as [n|]; [rewrite beq_diff by congruence|]; apply IH; intros; apply H; now right.
Qed.

(** ** The text and what it does *)

(** The text written for a segment is that of a function with these statements. *)
Theorem C75_text o :
  reader_text o =
  nl ++ B "func (" ++ go_var o ++ B " *" ++ go_name o ++ B ") UnmarshalHBCI(value []byte) error {" ++ nl
    ++ t1 ++ B "elements, err := ExtractElements(value)" ++ nl
    ++ t1 ++ B "if err != nil {" ++ nl ++ t2 ++ B "return err" ++ nl ++ t1 ++ B "}" ++ nl
    ++ t1 ++ B "if len(elements) == 0 {" ++ nl ++ t2 ++ B "return fmt.Errorf(""malformed marshaled value: no elements extracted"")" ++ nl ++ t1 ++ B "}" ++ nl
    ++ t1 ++ B "seg, err := SegmentFromHeaderBytes(elements[0], " ++ go_var o ++ B ")" ++ nl
    ++ t1 ++ B "if err != nil {" ++ nl ++ t2 ++ B "return err" ++ nl ++ t1 ++ B "}" ++ nl
    ++ t1 ++ go_var o ++ B "." ++ go_interface o ++ B " = seg" ++ nl
    ++ flat_map (stmt_source (go_var o) 1) (reader_stmts (List.length (go_fields o)) 0 (go_fields o))
    ++ t1 ++ B "return nil" ++ nl ++ B "}".
Proof.
  unfold reader_text. rewrite (app_assoc (fields_text o 0 (go_fields o)) nl), (fields_text_stmts o _ eq_refl). rewrite <- !(app_assoc nl). reflexivity.
Qed.

(** Reading a segment.  [es] are its elements, the header first. *)
Theorem C75_reads {V} (decode : bytes -> bytes -> outcome V) o value h es hd st :
  segment_extract value = Ok (h :: es) -> unmarshal_header h = Ok hd -> NoDup (map gf_name (go_fields o)) ->
  (forall k f w, nth_error (go_fields o) k = Some f -> given (List.length (go_fields o)) k (h :: es) = Some w -> exists v, decode (gf_type f) w = Ok v) ->
  exists st', run_reader decode o value st = Ok (inl st') /\
    (forall k f, nth_error (go_fields o) k = Some f ->
       match given (List.length (go_fields o)) k (h :: es) with
       | None => st' (gf_name f) = st (gf_name f)
       | Some w => exists v, decode (gf_type f) w = Ok v /\ st' (gf_name f) = Some (gf_type f, Some v)
       end) /\
    (forall g, ~ In g (map gf_name (go_fields o)) -> st' g = st g).
Proof.
  intros X H N D. destruct (run_all decode (h :: es) (List.length (go_fields o)) (go_fields o) 0 st D N) as (st'&R&A&Bo).
  exists st'. split; [|split; assumption]. unfold run_reader. rewrite X. cbn [obind]. rewrite H. cbn [obind]. rewrite R. reflexivity.
Qed.
(** The first element that cannot be read is named in the error. *)
Theorem C75_error {V} (decode : bytes -> bytes -> outcome V) o value h es hd st k f w :
  segment_extract value = Ok (h :: es) -> unmarshal_header h = Ok hd ->
  nth_error (go_fields o) k = Some f -> given (List.length (go_fields o)) k (h :: es) = Some w -> decode (gf_type f) w = Err ->
  (forall j g w', (j < k)%nat -> nth_error (go_fields o) j = Some g -> given (List.length (go_fields o)) j (h :: es) = Some w' -> exists v, decode (gf_type g) w' = Ok v) ->
  run_reader decode o value st = Ok (inr (gf_name f)).
Proof.
  intros X H E G D P. destruct (run_first decode (h :: es) (List.length (go_fields o)) (go_fields o) 0 st k f w E G P) as (R&_).
  unfold run_reader. rewrite X. cbn [obind]. rewrite H. cbn [obind]. rewrite (R D). reflexivity.
Qed.

(** ** What is written is read into the same fields *)
Lemma nth_strip (bs : list bytes) k : nth_error (strip bs) k = nth_error bs k \/ (nth_error (strip bs) k = None /\ (nth_error bs k = None \/ nth_error bs k = Some [])).
Proof.
  destruct (strip_spec bs) as (n&E). destruct (Nat.lt_ge_cases k (List.length (strip bs))) as [L|L].
  - left. rewrite E at 2. now rewrite nth_error_app1.
  - right. split; [now apply nth_error_None|]. rewrite E. rewrite nth_error_app2 by exact L. generalize (k - List.length (strip bs))%nat. clear.
    induction n; intro m; destruct m; cbn; auto.
Qed.
Lemma given_strip h bs k : given (List.length bs) k (h :: strip bs) = match nth_error bs k with Some (c :: e) => Some (c :: e) | _ => None end.
Proof.
  unfold given. cbn [nth_error]. destruct (nth_strip bs k) as [->|(->&[->| ->])]; try reflexivity.
  destruct (nth_error bs k) as [[|c e]|] eqn:E; try reflexivity. destruct (Nat.eqb_spec (S k) (List.length bs)) as [L|L]; [|reflexivity].
  f_equal. rewrite <- L. cbn [skipn]. destruct (strip_spec bs) as (n&Es).
  assert (n = 0%nat) as ->.
  { destruct n; [reflexivity|exfalso]. rewrite Es in E, L. rewrite app_length, repeat_length in L. rewrite nth_error_app2 in E by lia.
    assert (K : forall n m, nth_error (repeat (@nil byte) n) m <> Some (c :: e)) by (clear; induction n; intros [|m]; cbn; congruence). now apply K in E. }
  cbn [repeat] in Es. rewrite app_nil_r in Es. rewrite <- Es.
  apply nth_error_split in E as (l1&l2&E1&E2). rewrite E1 in L. rewrite app_length in L. cbn [List.length] in L. destruct l2; [|cbn [List.length] in L; lia].
  rewrite E1, <- E2. rewrite skipn_app, skipn_all, Nat.sub_diag. reflexivity.
Qed.
Theorem C75_round {V} (decode : bytes -> bytes -> outcome V) o id pos ver ref (src : bytes -> option delem) w :
  let s := mkSeg id pos ver ref (map (fun f => src (gf_name f)) (go_fields o)) in
  safe_seg s -> marshal_seg s = Ok w -> len w < 2 ^ 61 ->
  forallb alnum id = true -> in_int64 pos = true -> in_int64 ver = true -> match ref with Some r => in_int64 r = true | None => True end ->
  NoDup (map gf_name (go_fields o)) ->
  (forall f b, In f (go_fields o) -> marshal_opt (src (gf_name f)) = Ok b -> b <> [] -> exists v, decode (gf_type f) b = Ok v) ->
  exists st', run_reader decode o w nothing = Ok (inl st') /\
    forall f, In f (go_fields o) -> exists b, marshal_opt (src (gf_name f)) = Ok b /\
      st' (gf_name f) = match b, decode (gf_type f) b with [], _ => None | _, Ok v => Some (gf_type f, Some v) | _, _ => None end.
Proof.
  intros s Hs Hw Hl Hid Hp Hv Hr N D. destruct (seg_form s w Hs Hw) as (i&bs&Hi&Hbs&Ew&Hx). cbn [s sg_id sg_pos sg_version sg_ref sg_elems] in *.
  rewrite (alnum_marshal _ Hid) in Hi. injection Hi as <-. specialize (Hx ltac:(lia)).
  assert (Hh : unmarshal_header (header_wire id pos ver ref) = Ok (mkSH id pos ver ref)).
  { apply unmarshal_header_wire; auto; [now apply alnum_marshal|now apply alnum_safe|now apply alnum_special|].
    rewrite Ew in Hl. rewrite len_app in Hl. pose proof (len_nonneg [b_quote]). pose proof (len_join_in b_plus (header_wire id pos ver ref :: strip bs) _ ltac:(now left)). lia. }
  assert (F2 : Forall2 (fun f b => marshal_opt (src (gf_name f)) = Ok b) (go_fields o) bs).
  { clear -Hbs. revert bs Hbs. induction (go_fields o) as [|f fs IH]; intros bs H; cbn [map all_ok] in H; [injection H as <-; constructor|].
    apply obind_ok in H as (b&Hb&H). apply obind_ok in H as (bs'&Hbs'&H). injection H as <-. constructor; auto. }
  assert (LE : List.length (go_fields o) = List.length bs) by (clear -F2; induction F2; cbn; congruence).
  assert (NB : forall k f, nth_error (go_fields o) k = Some f -> exists b, nth_error bs k = Some b /\ marshal_opt (src (gf_name f)) = Ok b).
  { clear -F2. induction F2 as [|f b fs bs H F IH]; intros [|k] g E; cbn [nth_error] in *; try discriminate; [injection E as <-; eauto|eauto]. }
  destruct (C75_reads decode o w _ (strip bs) _ nothing Hx Hh N) as (st'&R&A&_).
  { intros k f x E G. rewrite LE, given_strip in G. destruct (NB k f E) as (b&Eb&Mb). rewrite Eb in G. destruct b as [|c b]; [discriminate G|]. injection G as <-.
    apply (D f _ (nth_error_In _ _ E) Mb). discriminate. }
  exists st'. split; [exact R|]. intros f Hf. apply In_nth_error in Hf as (k&E). destruct (NB k f E) as (b&Eb&Mb). exists b. split; [exact Mb|].
  specialize (A k f E). rewrite LE, given_strip, Eb in A. destruct b as [|c b]; [exact A|]. destruct A as (v&Dv&->). now rewrite Dv.
Qed.

(** ** Versions *)
Theorem C75_versions {V} (decode : bytes -> bytes -> outcome V) vs value h es hd :
  segment_extract value = Ok (h :: es) -> unmarshal_header h = Ok hd ->
  ((forall o, In o vs -> go_version o <> sh_version hd) -> run_versioned decode vs value = Err) /\
  (forall o, NoDup (map go_version vs) -> In o vs -> go_version o = sh_version hd ->
     run_versioned decode vs value = do x <- run_reader decode o value nothing; Ok (o, x)).
Proof.
  intros X H. unfold run_versioned. rewrite X. cbn [obind]. rewrite H. cbn [obind]. split.
  - intros K. replace (find_version (sh_version hd) vs) with (@None gobject); [reflexivity|]. symmetry. clear -K.
    induction vs as [|o vs IH]; [reflexivity|]. cbn [find_version]. pose proof (K o ltac:(now left)). replace (go_version o =? sh_version hd) with false by lia.
    apply IH. intros; apply K; now right.
  - intros o N I E. replace (find_version (sh_version hd) vs) with (Some o); [reflexivity|]. symmetry. clear -N I E.
    induction vs as [|p vs IH]; [destruct I|]. cbn [find_version map] in *. inversion N as [|? ? Na Nb]; subst. destruct I as [->|I].
    + now replace (go_version o =? sh_version hd) with true by lia.
    + assert (go_version p <> go_version o) by (intros K; apply Na; rewrite K; now apply in_map). replace (go_version p =? sh_version hd) with false by lia. auto.
Qed.
(** Refuted: that reading never crashes.  Without any element the reader of a versioned
    segment does, where the one of a plain segment returns an error. *)
Theorem C75_empty_refuted {V} (decode : bytes -> bytes -> outcome V) vs o st :
  run_versioned decode vs [] = Panic /\ run_reader decode o [] st = Err.
Proof. split; reflexivity. Qed.

Lemma itoa_chars c z : In c (itoa z) -> c = b_minus \/ is_digit c = true.
Proof.
  unfold itoa. destruct (z <? 0).
  - intros [<-|H]; [now left|]. right. destruct (itoa_N_spec (Z.to_N (- z))) as (_&D&_). rewrite forallb_forall in D. now apply D.
  - intro H. right. destruct (itoa_N_spec (Z.to_N z)) as (_&D&_). rewrite forallb_forall in D. now apply D.
Qed.
(** The flag -segment_versions: every list of versions can be written. *)
Theorem C75_flag (unquote : bytes -> option bytes) arg (vs : list gsegment) :
  unquote arg = Some (join [b_comma] (map (fun s => gs_name s ++ [b_colon] ++ itoa (gs_version s) ++ [b_colon] ++ gs_interface s) vs)) ->
  Forall (fun s => in_int64 (gs_version s) = true /\ ~ In b_comma (gs_name s ++ gs_interface s) /\ ~ In b_colon (gs_name s ++ gs_interface s)) vs ->
  versions_flag unquote arg = Ok vs.
Proof.
  intros U F. unfold versions_flag. rewrite U. clear U. set (tx := fun s => gs_name s ++ [b_colon] ++ itoa (gs_version s) ++ [b_colon] ++ gs_interface s).
  assert (DI : forall c z, (c = b_comma \/ c = b_colon) -> ~ In c (itoa z)).
  { intros c z Hc Hi. apply itoa_chars in Hi. destruct Hc as [->| ->]; vm_compute in Hi; destruct Hi as [Hi|Hi]; discriminate Hi. }
  assert (P : all_ok version_of (map tx vs) = Ok vs).
  { induction F as [|s vs (Hv&_&Hc) F IH]; [reflexivity|]. cbn [map all_ok]. unfold version_of at 1, tx at 1.
    assert (~ In b_colon (gs_name s) /\ ~ In b_colon (gs_interface s)) as (Hc1&Hc2) by (split; intro K; apply Hc, in_or_app; auto).
    cbn [app]. rewrite split_on_app by exact Hc1. rewrite split_on_app by (apply DI; now right). rewrite split_on_one by exact Hc2.
    rewrite atoi_itoa by exact Hv. cbn [obind]. rewrite IH. cbn [obind]. now destruct s. }
  destruct vs as [|s vs]; [reflexivity|]. rewrite split_on_join.
  - replace (filter _ _) with (map tx (s :: vs)); [exact P|]. symmetry. change (map (fun s0 => gs_name s0 ++ [b_colon] ++ itoa (gs_version s0) ++ [b_colon] ++ gs_interface s0) (s :: vs)) with (map tx (s :: vs)).
    clear. induction (s :: vs) as [|x l IH]; [reflexivity|]. cbn [map filter]. rewrite IH. rewrite beq_diff; [reflexivity|]. unfold tx. destruct (gs_name x); discriminate.
  - discriminate.
  - apply Forall_forall. intros x Hx. apply in_map_iff in Hx as (y&<-&Hy). rewrite Forall_forall in F. destruct (F y Hy) as (_&Hc&_). intro K. unfold tx in K. rewrite !in_app_iff in K.
    destruct K as [K|[K|[K|[K|K]]]]; [apply Hc, in_or_app; auto|destruct K as [K|[]]; vm_compute in K; discriminate K|apply DI in K; auto|destruct K as [K|[]]; vm_compute in K; discriminate K|apply Hc, in_or_app; auto].
Qed.

(** ** The segments of the library *)

(** Elements of the types used below *)
Inductive value := VText (t : bytes) | VNumber (z : Z).
Definition decode_value (t w : bytes) : outcome value :=
  if bytes_eqb t (B "element.NumberDataElement") then omap VNumber (unmarshal_int w)
  else if bytes_eqb t (B "element.BinaryDataElement") then omap VText (unmarshal_binary w)
  else omap VText (text w).
Definition text_at (st : @store value) (f : bytes) : option bytes := match st f with Some (_, Some (VText t)) => Some t | _ => None end.
Definition number_at (st : @store value) (f : bytes) : option Z := match st f with Some (_, Some (VNumber z)) => Some z | _ => None end.
Definition read_as {A} (k : @store value -> A) (x : outcome (@store value + bytes)) : outcome A :=
  do r <- x; match r with inl st => Ok (k st) | inr _ => Err end.
Lemma field_given {A} n k (f : bytes -> outcome A) es : S k <> n -> Seg_Model.field (S k) f es = match given n k es with None => Ok None | Some w => do x <- f w; Ok (Some x) end.
Proof.
  intro H. unfold Seg_Model.field, nonempty_nth, given. destruct (nth_error es (S k)) as [[|c e]|]; cbn [opt_parse]; try reflexivity.
  destruct (Nat.eqb_spec (S k) n); [congruence|reflexivity].
Qed.
Lemma last_given {A} k (f : bytes -> outcome A) es : last_field (S k) f es = match given (S k) k es with None => Ok None | Some w => do x <- f w; Ok (Some x) end.
Proof.
  unfold last_field, nonempty_nth, given. destruct (nth_error es (S k)) as [[|c e]|]; cbn [opt_parse]; try reflexivity. rewrite Nat.eqb_refl. reflexivity.
Qed.
Definition el (recv name : bytes) (line : Z) : gelem := mkElem (XSel (XIdent recv) name) line.
Definition listed (name : bytes) (elems : list gelem) : gdecl := DMethod [RPointer name] (B "elements") (Some [SReturn [RComposite (B "[]element.DataElement") elems]]).
Definition other_method (name m : bytes) : gdecl := DMethod [RPointer name] m (Some [SReturn [ROther]]).
Definition ptr (name t : bytes) : gsfield := mkSField [name] (GPointer t).
Definition embedded (t : bytes) : gsfield := mkSField [] (GPlain t).

(** segment/sync.go:103-121 *)
Definition sync_go : list gdecl :=
  let n := B "SynchronisationResponseSegmentV3" in
  [DStruct n [embedded (B "Segment"); ptr (B "ClientSystemIDResponse") (B "element.IdentificationDataElement");
              ptr (B "MessageNumberResponse") (B "element.NumberDataElement"); ptr (B "SignatureIDResponse") (B "element.NumberDataElement")];
   other_method n (B "Version"); other_method n (B "ID"); other_method n (B "referencedId"); other_method n (B "sender");
   listed n [el (B "s") (B "ClientSystemIDResponse") 117; el (B "s") (B "MessageNumberResponse") 118; el (B "s") (B "SignatureIDResponse") 119]].
(** segment/bank_announcement.go *)
Definition announcement_go : list gdecl :=
  let n := B "BankAnnouncementSegment" in
  [DValue (B "BankAnnouncementID");
   DStruct n [embedded (B "Segment"); ptr (B "Subject") (B "element.AlphaNumericDataElement"); ptr (B "Body") (B "element.TextDataElement")];
   other_method n (B "Version"); other_method n (B "ID"); other_method n (B "referencedId"); other_method n (B "sender");
   listed n [el (B "b") (B "Subject") 22; el (B "b") (B "Body") 23]].
(** segment/tan.go:135-157 *)
Definition tan_go : list gdecl :=
  let n := B "TanResponseSegmentV6" in
  [DStruct n [embedded (B "Segment"); ptr (B "TANProcess") (B "element.AlphaNumericDataElement"); ptr (B "JobHash") (B "element.BinaryDataElement");
              ptr (B "JobReference") (B "element.AlphaNumericDataElement"); ptr (B "Challenge") (B "element.AlphaNumericDataElement");
              ptr (B "ChallengeHHD_UC") (B "element.BinaryDataElement"); ptr (B "TANMediumDescription") (B "element.AlphaNumericDataElement");
              ptr (B "ChallengeExpiryDate") (B "element.TanChallengeExpiryDate")];
   other_method n (B "Version"); other_method n (B "ID"); other_method n (B "referencedId"); other_method n (B "sender");
   listed n [el (B "t") (B "TANProcess") 153; el (B "t") (B "JobHash") 154; el (B "t") (B "JobReference") 155]].

Ltac run_known := unfold run_reader, segment_fields; match goal with |- context [segment_extract ?w] => destruct (segment_extract w) as [[|h es]| |] end; cbn [obind read_as]; try reflexivity;
  match goal with |- context [unmarshal_header ?x] => destruct (unmarshal_header x) as [hd| |] end; cbn [obind]; try reflexivity.

Lemma decode_id w : decode_value (B "element.IdentificationDataElement") w = Ok (VText (unmarshal_text w)). Proof. reflexivity. Qed.
Lemma decode_alpha w : decode_value (B "element.AlphaNumericDataElement") w = Ok (VText (unmarshal_text w)). Proof. reflexivity. Qed.
Lemma decode_text w : decode_value (B "element.TextDataElement") w = Ok (VText (unmarshal_text w)). Proof. reflexivity. Qed.
Lemma decode_number w : decode_value (B "element.NumberDataElement") w = omap VNumber (unmarshal_int w). Proof. reflexivity. Qed.
Lemma decode_binary w : decode_value (B "element.BinaryDataElement") w = omap VText (unmarshal_binary w). Proof. reflexivity. Qed.
Ltac step := cbn [obind run_stmts]; rewrite run_field; cbn [gf_type gf_name];
  rewrite ?decode_id, ?decode_alpha, ?decode_text, ?decode_number, ?decode_binary;
  match goal with |- context [match given ?n ?k ?es with None => Ok (Going _ _) | Some _ => _ end] => let w := fresh "w" in destruct (given n k es) as [w|] end;
  rewrite ?decode_id, ?decode_alpha, ?decode_text, ?decode_number, ?decode_binary;
  try match goal with |- context [omap _ (?f ?w)] => let z := fresh "z" in destruct (f w) as [z| |]; cbn [omap obind] end; unfold omap, text; cbn [obind]; try reflexivity.

(** The reader the generator makes from segment/sync.go is the reader of this model for
    HISYN; the same for HIKIM and HITAN. *)
Theorem C75_hisyn package : exists o,
  segment_object package sync_go (B "*generator.VersionedSegmentUnmarshalerGenerator") (mkGSeg (B "SynchronisationResponseSegmentV3") (B "Segment") 3) = Ok o /\
  forall s, read_as (fun st => mkHisyn (text_at st (B "ClientSystemIDResponse")) (number_at st (B "MessageNumberResponse")) (number_at st (B "SignatureIDResponse")))
    (run_reader decode_value o s nothing) = unmarshal_hisyn s.
Proof.
  exists (mkObject (B "*generator.VersionedSegmentUnmarshalerGenerator") package (B "SynchronisationResponseSegmentV3") (B "s") (B "Segment") 3 [mkField (B "ClientSystemIDResponse") (B "element.IdentificationDataElement") 117; mkField (B "MessageNumberResponse") (B "element.NumberDataElement") 118; mkField (B "SignatureIDResponse") (B "element.NumberDataElement") 119]). split; [vm_compute; reflexivity|]. intro s. unfold unmarshal_hisyn. run_known.
  cbn [go_fields List.length reader_stmts run_stmts]. rewrite (field_given 3 0) by discriminate. rewrite (field_given 3 1) by discriminate. rewrite (last_given 2).
  step; step; step.
Qed.
Theorem C75_hikim package : exists o,
  segment_object package announcement_go (B "*generator.SegmentUnmarshalerGenerator") (mkGSeg (B "BankAnnouncementSegment") (B "Segment") 0) = Ok o /\
  forall s, read_as (fun st => mkHikim (text_at st (B "Subject")) (text_at st (B "Body"))) (run_reader decode_value o s nothing) = unmarshal_hikim s.
Proof.
  exists (mkObject (B "*generator.SegmentUnmarshalerGenerator") package (B "BankAnnouncementSegment") (B "b") (B "Segment") 0 [mkField (B "Subject") (B "element.AlphaNumericDataElement") 22; mkField (B "Body") (B "element.TextDataElement") 23]). split; [vm_compute; reflexivity|]. intro s. unfold unmarshal_hikim. run_known.
  cbn [go_fields List.length reader_stmts run_stmts]. rewrite (field_given 2 0) by discriminate. rewrite (last_given 1).
  step; step.
Qed.
Theorem C75_hitan package : exists o,
  segment_object package tan_go (B "*generator.VersionedSegmentUnmarshalerGenerator") (mkGSeg (B "TanResponseSegmentV6") (B "Segment") 6) = Ok o /\
  forall s, read_as (fun st => mkHitan (text_at st (B "TANProcess")) (text_at st (B "JobHash")) (text_at st (B "JobReference")))
    (run_reader decode_value o s nothing) = unmarshal_hitan s.
Proof.
  exists (mkObject (B "*generator.VersionedSegmentUnmarshalerGenerator") package (B "TanResponseSegmentV6") (B "t") (B "Segment") 6 [mkField (B "TANProcess") (B "element.AlphaNumericDataElement") 153; mkField (B "JobHash") (B "element.BinaryDataElement") 154; mkField (B "JobReference") (B "element.AlphaNumericDataElement") 155]). split; [vm_compute; reflexivity|]. intro s. unfold unmarshal_hitan. run_known.
  cbn [go_fields List.length reader_stmts run_stmts]. rewrite (field_given 3 0) by discriminate. rewrite (field_given 3 1) by discriminate. rewrite (last_given 2).
  step; step; step.
Qed.

(** Refuted: that the fields of a segment are read.  The answer to a TAN job has a challenge,
    but [elements] does not list it: it is never read, and what the bank sends for it ends up
    behind the reference. *)
Theorem C75_challenge_refuted package : exists o,
  segment_object package tan_go (B "*generator.VersionedSegmentUnmarshalerGenerator") (mkGSeg (B "TanResponseSegmentV6") (B "Segment") 6) = Ok o /\
  (forall (V : Type) (decode : bytes -> bytes -> outcome V) s st', run_reader decode o s nothing = Ok (inl st') -> st' (B "Challenge") = None) /\
  read_as (fun st => text_at st (B "JobReference")) (run_reader decode_value o (B "HITAN:5:6:4+4++0815+Please enter'") nothing) = Ok (Some (B "0815+Please enter")).
Proof.
  exists (mkObject (B "*generator.VersionedSegmentUnmarshalerGenerator") package (B "TanResponseSegmentV6") (B "t") (B "Segment") 6 [mkField (B "TANProcess") (B "element.AlphaNumericDataElement") 153; mkField (B "JobHash") (B "element.BinaryDataElement") 154; mkField (B "JobReference") (B "element.AlphaNumericDataElement") 155]).
  split; [vm_compute; reflexivity|]. split; [|vm_compute; reflexivity]. intros V decode s st'. unfold run_reader.
  destruct (segment_extract s) as [[|h es]| |]; cbn [obind]; try discriminate. destruct (unmarshal_header h) as [hd| |]; cbn [obind]; try discriminate.
  cbn [go_fields List.length reader_stmts run_stmts]. rewrite run_field.
  destruct (given 3 0 (h :: es)) as [w0|]; [destruct (decode _ w0) as [v0| |]|]; cbn [obind]; try discriminate; rewrite run_field;
    (destruct (given 3 1 (h :: es)) as [w1|]; [destruct (decode _ w1) as [v1| |]|]); cbn [obind]; try discriminate; rewrite run_field;
    (destruct (given 3 2 (h :: es)) as [w2|]; [destruct (decode _ w2) as [v2| |]|]); cbn [obind]; try discriminate; intro K; injection K as <-; reflexivity.
Qed.

(** ** Cases *)

(** generator/test_files/test_segment.go and the text expected in
    generator/test_files/test_segment_unmarshaler.go *)
Definition test_go : list gdecl :=
  [DStruct (B "TestSegment") [embedded (B "Segment"); ptr (B "Abc") (B "element.AlphaNumericDataElement"); ptr (B "Def") (B "element.NumberDataElement"); ptr (B "Xyz") (B "element.NumberDataElement")];
   listed (B "TestSegment") [el (B "t") (B "Abc") 14; el (B "t") (B "Xyz") 15]].
Example C75_demo_text : generate_segment (B "test_files") test_go (mkGSeg (B "TestSegment") (B "Segment") 0) = Ok (
    B "// Code generated by *generator.SegmentUnmarshalerGenerator; DO NOT EDIT." ++ nl
    ++ nl
    ++ B "package test_files" ++ nl
    ++ nl
    ++ B "import (" ++ nl
    ++ t1 ++ B """bytes""" ++ nl
    ++ t1 ++ B """fmt""" ++ nl
    ++ nl
    ++ t1 ++ B """github.com/mitch000001/go-hbci/element""" ++ nl
    ++ B ")" ++ nl
    ++ nl
    ++ B "var (" ++ nl
    ++ t1 ++ B "_ BankSegment = &TestSegment{}" ++ nl
    ++ B ")" ++ nl
    ++ nl
    ++ B "func init() {" ++ nl
    ++ t1 ++ B "s := TestSegment{}" ++ nl
    ++ t1 ++ B "KnownSegments.mustAddToIndex(VersionedSegment{s.ID(), s.Version()}, func() Segment { return &TestSegment{} })" ++ nl
    ++ B "}" ++ nl
    ++ nl
    ++ B "func (t *TestSegment) UnmarshalHBCI(value []byte) error {" ++ nl
    ++ t1 ++ B "elements, err := ExtractElements(value)" ++ nl
    ++ t1 ++ B "if err != nil {" ++ nl
    ++ t2 ++ B "return err" ++ nl
    ++ t1 ++ B "}" ++ nl
    ++ t1 ++ B "if len(elements) == 0 {" ++ nl
    ++ t2 ++ B "return fmt.Errorf(""malformed marshaled value: no elements extracted"")" ++ nl
    ++ t1 ++ B "}" ++ nl
    ++ t1 ++ B "seg, err := SegmentFromHeaderBytes(elements[0], t)" ++ nl
    ++ t1 ++ B "if err != nil {" ++ nl
    ++ t2 ++ B "return err" ++ nl
    ++ t1 ++ B "}" ++ nl
    ++ t1 ++ B "t.Segment = seg" ++ nl
    ++ t1 ++ B "if len(elements) > 1 && len(elements[1]) > 0 {" ++ nl
    ++ t2 ++ B "t.Abc = &element.AlphaNumericDataElement{}" ++ nl
    ++ t2 ++ B "err = t.Abc.UnmarshalHBCI(elements[1])" ++ nl
    ++ t2 ++ B "if err != nil {" ++ nl
    ++ t3 ++ B "return fmt.Errorf(""error unmarshaling Abc: %w"", err)" ++ nl
    ++ t2 ++ B "}" ++ nl
    ++ t1 ++ B "}" ++ nl
    ++ t1 ++ B "if len(elements) > 2 && len(elements[2]) > 0 {" ++ nl
    ++ t2 ++ B "t.Xyz = &element.NumberDataElement{}" ++ nl
    ++ t2 ++ B "if len(elements)+1 > 2 {" ++ nl
    ++ t3 ++ B "err = t.Xyz.UnmarshalHBCI(bytes.Join(elements[2:], []byte(""+"")))" ++ nl
    ++ t2 ++ B "} else {" ++ nl
    ++ t3 ++ B "err = t.Xyz.UnmarshalHBCI(elements[2])" ++ nl
    ++ t2 ++ B "}" ++ nl
    ++ t2 ++ B "if err != nil {" ++ nl
    ++ t3 ++ B "return fmt.Errorf(""error unmarshaling Xyz: %w"", err)" ++ nl
    ++ t2 ++ B "}" ++ nl
    ++ t1 ++ B "}" ++ nl
    ++ t1 ++ B "return nil" ++ nl
    ++ B "}" ++ nl).
Proof. vm_compute. reflexivity. Qed.
(** generator/test_files/multiple_versioned_test_segment.go and
    multiple_versioned_test_segment_unmarshaler.go *)
Definition versions_go : list gdecl :=
  let fs := [embedded (B "Segment"); ptr (B "Abc") (B "element.AlphaNumericDataElement"); ptr (B "Def") (B "element.NumberDataElement")] in
  [DStruct (B "MultipleVersionedTestSegment") [embedded (B "BankSegment")];
   DStruct (B "MultipleVersionedTestSegmentV1") fs; listed (B "MultipleVersionedTestSegmentV1") [el (B "m") (B "Abc") 17; el (B "m") (B "Def") 18];
   DStruct (B "MultipleVersionedTestSegmentV2") fs; listed (B "MultipleVersionedTestSegmentV2") [el (B "m") (B "Abc") 30; el (B "m") (B "Def") 31]].
Example C75_demo_versions : generate_versioned (B "test_files") versions_go (mkGSeg (B "MultipleVersionedTestSegment") (B "BankSegment") 0)
  [mkGSeg (B "MultipleVersionedTestSegmentV1") (B "Segment") 1; mkGSeg (B "MultipleVersionedTestSegmentV2") (B "Segment") 2] = Ok (
    B "// Code generated by *generator.VersionedSegmentUnmarshalerGenerator; DO NOT EDIT." ++ nl
    ++ nl
    ++ B "package test_files" ++ nl
    ++ nl
    ++ B "import (" ++ nl
    ++ t1 ++ B """bytes""" ++ nl
    ++ t1 ++ B """fmt""" ++ nl
    ++ nl
    ++ t1 ++ B """github.com/mitch000001/go-hbci/element""" ++ nl
    ++ B ")" ++ nl
    ++ nl
    ++ B "var (" ++ nl
    ++ t1 ++ B "_ BankSegment = &MultipleVersionedTestSegmentV1{}" ++ nl
    ++ t1 ++ B "_ BankSegment = &MultipleVersionedTestSegmentV2{}" ++ nl
    ++ B ")" ++ nl
    ++ nl
    ++ B "func init() {" ++ nl
    ++ t1 ++ B "v1 := MultipleVersionedTestSegmentV1{}" ++ nl
    ++ t1 ++ B "KnownSegments.mustAddToIndex(VersionedSegment{v1.ID(), v1.Version()}, func() Segment { return &MultipleVersionedTestSegmentV1{} })" ++ nl
    ++ t1 ++ B "v2 := MultipleVersionedTestSegmentV2{}" ++ nl
    ++ t1 ++ B "KnownSegments.mustAddToIndex(VersionedSegment{v2.ID(), v2.Version()}, func() Segment { return &MultipleVersionedTestSegmentV2{} })" ++ nl
    ++ B "}" ++ nl
    ++ nl
    ++ B "func (m *MultipleVersionedTestSegment) UnmarshalHBCI(value []byte) error {" ++ nl
    ++ t1 ++ B "elements, err := ExtractElements(value)" ++ nl
    ++ t1 ++ B "if err != nil {" ++ nl
    ++ t2 ++ B "return err" ++ nl
    ++ t1 ++ B "}" ++ nl
    ++ t1 ++ B "header := &element.SegmentHeader{}" ++ nl
    ++ t1 ++ B "err = header.UnmarshalHBCI(elements[0])" ++ nl
    ++ t1 ++ B "if err != nil {" ++ nl
    ++ t2 ++ B "return err" ++ nl
    ++ t1 ++ B "}" ++ nl
    ++ t1 ++ B "var segment BankSegment" ++ nl
    ++ t1 ++ B "switch header.Version.Val() {" ++ nl
    ++ t1 ++ B "case 1:" ++ nl
    ++ t2 ++ B "segment = &MultipleVersionedTestSegmentV1{}" ++ nl
    ++ t2 ++ B "err = segment.UnmarshalHBCI(value)" ++ nl
    ++ t2 ++ B "if err != nil {" ++ nl
    ++ t3 ++ B "return err" ++ nl
    ++ t2 ++ B "}" ++ nl
    ++ t1 ++ B "case 2:" ++ nl
    ++ t2 ++ B "segment = &MultipleVersionedTestSegmentV2{}" ++ nl
    ++ t2 ++ B "err = segment.UnmarshalHBCI(value)" ++ nl
    ++ t2 ++ B "if err != nil {" ++ nl
    ++ t3 ++ B "return err" ++ nl
    ++ t2 ++ B "}" ++ nl
    ++ t1 ++ B "default:" ++ nl
    ++ t2 ++ B "return fmt.Errorf(""unknown segment version: %d"", header.Version.Val())" ++ nl
    ++ t1 ++ B "}" ++ nl
    ++ t1 ++ B "m.BankSegment = segment" ++ nl
    ++ t1 ++ B "return nil" ++ nl
    ++ B "}" ++ nl
    ++ nl
    ++ B "func (m *MultipleVersionedTestSegmentV1) UnmarshalHBCI(value []byte) error {" ++ nl
    ++ t1 ++ B "elements, err := ExtractElements(value)" ++ nl
    ++ t1 ++ B "if err != nil {" ++ nl
    ++ t2 ++ B "return err" ++ nl
    ++ t1 ++ B "}" ++ nl
    ++ t1 ++ B "if len(elements) == 0 {" ++ nl
    ++ t2 ++ B "return fmt.Errorf(""malformed marshaled value: no elements extracted"")" ++ nl
    ++ t1 ++ B "}" ++ nl
    ++ t1 ++ B "seg, err := SegmentFromHeaderBytes(elements[0], m)" ++ nl
    ++ t1 ++ B "if err != nil {" ++ nl
    ++ t2 ++ B "return err" ++ nl
    ++ t1 ++ B "}" ++ nl
    ++ t1 ++ B "m.Segment = seg" ++ nl
    ++ t1 ++ B "if len(elements) > 1 && len(elements[1]) > 0 {" ++ nl
    ++ t2 ++ B "m.Abc = &element.AlphaNumericDataElement{}" ++ nl
    ++ t2 ++ B "err = m.Abc.UnmarshalHBCI(elements[1])" ++ nl
    ++ t2 ++ B "if err != nil {" ++ nl
    ++ t3 ++ B "return fmt.Errorf(""error unmarshaling Abc: %w"", err)" ++ nl
    ++ t2 ++ B "}" ++ nl
    ++ t1 ++ B "}" ++ nl
    ++ t1 ++ B "if len(elements) > 2 && len(elements[2]) > 0 {" ++ nl
    ++ t2 ++ B "m.Def = &element.NumberDataElement{}" ++ nl
    ++ t2 ++ B "if len(elements)+1 > 2 {" ++ nl
    ++ t3 ++ B "err = m.Def.UnmarshalHBCI(bytes.Join(elements[2:], []byte(""+"")))" ++ nl
    ++ t2 ++ B "} else {" ++ nl
    ++ t3 ++ B "err = m.Def.UnmarshalHBCI(elements[2])" ++ nl
    ++ t2 ++ B "}" ++ nl
    ++ t2 ++ B "if err != nil {" ++ nl
    ++ t3 ++ B "return fmt.Errorf(""error unmarshaling Def: %w"", err)" ++ nl
    ++ t2 ++ B "}" ++ nl
    ++ t1 ++ B "}" ++ nl
    ++ t1 ++ B "return nil" ++ nl
    ++ B "}" ++ nl
    ++ nl
    ++ B "func (m *MultipleVersionedTestSegmentV2) UnmarshalHBCI(value []byte) error {" ++ nl
    ++ t1 ++ B "elements, err := ExtractElements(value)" ++ nl
    ++ t1 ++ B "if err != nil {" ++ nl
    ++ t2 ++ B "return err" ++ nl
    ++ t1 ++ B "}" ++ nl
    ++ t1 ++ B "if len(elements) == 0 {" ++ nl
    ++ t2 ++ B "return fmt.Errorf(""malformed marshaled value: no elements extracted"")" ++ nl
    ++ t1 ++ B "}" ++ nl
    ++ t1 ++ B "seg, err := SegmentFromHeaderBytes(elements[0], m)" ++ nl
    ++ t1 ++ B "if err != nil {" ++ nl
    ++ t2 ++ B "return err" ++ nl
    ++ t1 ++ B "}" ++ nl
    ++ t1 ++ B "m.Segment = seg" ++ nl
    ++ t1 ++ B "if len(elements) > 1 && len(elements[1]) > 0 {" ++ nl
    ++ t2 ++ B "m.Abc = &element.AlphaNumericDataElement{}" ++ nl
    ++ t2 ++ B "err = m.Abc.UnmarshalHBCI(elements[1])" ++ nl
    ++ t2 ++ B "if err != nil {" ++ nl
    ++ t3 ++ B "return fmt.Errorf(""error unmarshaling Abc: %w"", err)" ++ nl
    ++ t2 ++ B "}" ++ nl
    ++ t1 ++ B "}" ++ nl
    ++ t1 ++ B "if len(elements) > 2 && len(elements[2]) > 0 {" ++ nl
    ++ t2 ++ B "m.Def = &element.NumberDataElement{}" ++ nl
    ++ t2 ++ B "if len(elements)+1 > 2 {" ++ nl
    ++ t3 ++ B "err = m.Def.UnmarshalHBCI(bytes.Join(elements[2:], []byte(""+"")))" ++ nl
    ++ t2 ++ B "} else {" ++ nl
    ++ t3 ++ B "err = m.Def.UnmarshalHBCI(elements[2])" ++ nl
    ++ t2 ++ B "}" ++ nl
    ++ t2 ++ B "if err != nil {" ++ nl
    ++ t3 ++ B "return fmt.Errorf(""error unmarshaling Def: %w"", err)" ++ nl
    ++ t2 ++ B "}" ++ nl
    ++ t1 ++ B "}" ++ nl
    ++ t1 ++ B "return nil" ++ nl
    ++ B "}" ++ nl).
Proof. vm_compute. reflexivity. Qed.
(** Such a file is one of [C75_fields]. *)
Example C75_demo_file : go_file test_go (B "TestSegment") [embedded (B "Segment"); ptr (B "Abc") (B "element.AlphaNumericDataElement"); ptr (B "Def") (B "element.NumberDataElement"); ptr (B "Xyz") (B "element.NumberDataElement")]
    [SReturn [RComposite (B "[]element.DataElement") [el (B "t") (B "Abc") 14; el (B "t") (B "Xyz") 15]]] /\
  in_order [el (B "t") (B "Abc") 14; el (B "t") (B "Xyz") 15].
Proof.
  split; [|cbn; lia]. split; [|split].
  - exists [], [listed (B "TestSegment") [el (B "t") (B "Abc") 14; el (B "t") (B "Xyz") 15]]. split; [reflexivity|]. intros d [<-|[]]. discriminate.
  - cbn. repeat constructor; cbn; intuition discriminate.
  - eexists [_], []. split; [reflexivity|]. intros b [K|[]]. discriminate K.
Qed.
(** A value receiver, or a variable for the result, and nothing is read. *)
Example C75_demo_elements : extract_fields [DStruct (B "S") [ptr (B "A") (B "T")]; DMethod [RPointer (B "S")] (B "elements") (Some [SOther; SReturn [ROther]])] (B "S") = Ok [].
Proof.
  apply (C75_elements_refuted _ _ [ptr (B "A") (B "T")] [SOther; SReturn [ROther]]); [|intros e K; discriminate K]. split; [|split].
  - exists [], [DMethod [RPointer (B "S")] (B "elements") (Some [SOther; SReturn [ROther]])]. split; [reflexivity|]. intros d [<-|[]]. discriminate.
  - cbn. repeat constructor; cbn; intuition discriminate.
  - eexists [_], []. split; [reflexivity|]. intros b [K|[]]. discriminate K.
Qed.
(** The second name of a declaration and fields that are no pointers are refused. *)
Example C75_demo_refused : extract_fields [DStruct (B "S") [mkSField [B "A"; B "C"] (GPointer (B "T"))]; listed (B "S") [el (B "s") (B "C") 1]] (B "S") = Err.
Proof. vm_compute. reflexivity. Qed.
(** A segment with an empty element, an element and more elements than fields *)
Definition demo_object : gobject := mkObject [] [] (B "S") (B "s") (B "Segment") 1 [mkField (B "A") (B "element.NumberDataElement") 1; mkField (B "C") (B "element.TextDataElement") 2].
Example C75_demo_read : read_as (fun st => (number_at st (B "A"), text_at st (B "C"))) (run_reader decode_value demo_object (B "HISXX:3:1++x+y'") nothing) = Ok (None, Some (B "x+y")).
Proof. vm_compute. reflexivity. Qed.
Example C75_demo_error : run_reader decode_value demo_object (B "HISXX:3:1+z+x'") nothing = Ok (inr (B "A")).
Proof. vm_compute. reflexivity. Qed.
(** What [C75_round] asks for: a segment with a number and a text with a delimiter *)
Definition demo_src (f : bytes) : option delem := if bytes_eqb f (B "A") then Some (DE (ENumber 7)) else Some (DE (EText (B "x+y"))).
Example C75_demo_round : exists st', run_reader decode_value demo_object (B "HISXX:3:1+7+x?+y'") nothing = Ok (inl st') /\ number_at st' (B "A") = Some 7 /\ text_at st' (B "C") = Some (B "x+y").
Proof.
  destruct (C75_round decode_value demo_object (B "HISXX") 3 1 None demo_src (B "HISXX:3:1+7+x?+y'")) as (st'&R&A).
  - split; [|split].
    + apply header_safe. apply alnum_safe. reflexivity.
    + repeat constructor; cbn; intuition discriminate.
    + intros h bs Hh Hbs. vm_compute in Hbs. injection Hbs as <-. vm_compute in Hh. injection Hh as <-. intros (p&K). apply (f_equal (fun l => last l b_nul)) in K. rewrite last_last in K. vm_compute in K. discriminate K.
  - vm_compute. reflexivity.
  - vm_compute. reflexivity.
  - reflexivity.
  - reflexivity.
  - reflexivity.
  - exact I.
  - repeat constructor; cbn; intuition discriminate.
  - intros f b [<-|[<-|[]]] E _; vm_compute in E; injection E as <-; eexists; vm_compute; reflexivity.
  - exists st'. split; [exact R|]. destruct (A _ ltac:(now left)) as (b&Eb&Sb). destruct (A _ ltac:(right; now left)) as (c&Ec&Sc).
    vm_compute in Eb, Ec. injection Eb as <-. injection Ec as <-. cbn [gf_name] in Sb, Sc. unfold number_at, text_at. rewrite Sb, Sc. split; vm_compute; reflexivity.
Qed.
Example C75_demo_flag : versions_flag (fun _ => Some (B "A:1:Segment,B:2")) [] = Ok [mkGSeg (B "A") (B "Segment") 1; mkGSeg (B "B") (B "Segment") 2].
Proof. vm_compute. reflexivity. Qed.

Print Assumptions C75_fields.
Print Assumptions C75_elements_refuted.
Print Assumptions C75_unknown.
Print Assumptions C75_text.
Print Assumptions C75_reads.
Print Assumptions C75_error.
Print Assumptions C75_round.
Print Assumptions C75_versions.
Print Assumptions C75_empty_refuted.
Print Assumptions C75_flag.
Print Assumptions C75_hisyn.
Print Assumptions C75_hikim.
Print Assumptions C75_hitan.
Print Assumptions C75_challenge_refuted.
