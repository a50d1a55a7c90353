(** * Properties C34 and C35: SWIFT messages

    [swift_lex inp] is what a caller gets from [lx := token.NewSwiftLexer("", inp)] with
    [for lx.HasNext() { ... lx.Next() }].  [extract_tags] and [extract_messages] are the
    Extract methods of swift/tag_extractor.go and swift/message_extractor.go. *)
From Verif Require Import Base BaseFacts Lexer_Model Lexer_Spec Lexer_Proofs Swift_Model Swift_Spec Swift_Proofs
  Swift_Facts Swift_Facts2 Swift_Facts3 Swift_Facts4.
From Coq Require Import Lia ZifyBool ZifyNat ZifyN.
Open Scope Z_scope.

(** ** C34 *)
(** Every input: no panic, exactly one closing token at the end, the tokens are adjacent
    non-empty pieces from the start of the input, and when the last token is EOF nothing
    is left over - or the EOF stands for a NUL byte. *)
Theorem C34_swift_lexing : forall inp, exists body last,
  swift_lex inp = (body ++ [last], EndDone) /\
  closing last /\ Forall (fun t => ~ closing t /\ tok_val t <> []) body /\
  contiguous 0 (body ++ [last]) /\
  exists rest, inp = covered (body ++ [last]) ++ rest /\
    (tok_type last = T_EOF -> (rest = [] /\ tok_val last = []) \/ tok_val last = [b_nul]).
Proof.
  intros inp. rewrite swift_lex_tokens.
  destruct (tokens_shape (S (List.length inp)) GEntry 0 inp ltac:(lia)) as (body & last & H1 & H2 & H3 & H4 & H5).
  exists body, last. rewrite H1 in *. repeat split; assumption.
Qed.
Print Assumptions C34_swift_lexing.

Example C34_witness : map tok_type (fst (swift_lex (crlf ++ B ":20:ABC" ++ crlf ++ B ":61:12,50" ++ crlf ++ B "-"))) =
  [TS_DATASET_START; TS_TAG; TS_ALPHA; TS_TAG_SEPARATOR; TS_TAG; TS_DECIMAL; TS_MESSAGE_SEPARATOR; T_EOF].
Proof. vm_compute. reflexivity. Qed.
Example C34_witness_error : map tok_type (fst (swift_lex (crlf ++ B ":20:ABC"))) = [TS_DATASET_START; TS_TAG; T_ERROR].
Proof. vm_compute. reflexivity. Qed.

(** Without NUL bytes an EOF at the end means that the tokens are the whole input. *)
Theorem C34_all_bytes_in_tokens : forall inp ts, ~ In b_nul inp ->
  swift_lex inp = (ts, EndDone) -> (exists t, In t ts /\ tok_type t = T_EOF) -> covered ts = inp.
Proof.
  intros inp ts Hn H (t & Ht & HT). destruct (C34_swift_lexing inp) as (body & last & E & C & Hb & _ & rest & Hr & HE).
  rewrite H in E. injection E as ->.
  assert (last = t) as ->.
  { apply in_app_or in Ht. destruct Ht as [Ht|[Ht|[]]]; [|exact Ht].
    rewrite Forall_forall in Hb. destruct (Hb _ Ht) as [K _]. exfalso. apply K. now left. }
  destruct (HE HT) as [[-> _]|K]; [now rewrite app_nil_r in Hr|].
  exfalso. apply Hn. rewrite Hr. unfold covered. rewrite map_app, concat_app.
  apply in_or_app. left. apply in_or_app. right. cbn [map List.concat]. rewrite K. now left.
Qed.
Print Assumptions C34_all_bytes_in_tokens.

(** The lexer cuts exactly the tokens of the specification in Swift_Spec.v. *)
Theorem C34_tokens_as_specified : forall inp,
  swift_lex inp = (tokens (S (List.length inp)) GEntry 0 inp, EndDone).
Proof. exact swift_lex_tokens. Qed.
Print Assumptions C34_tokens_as_specified.

(** ** C35 *)
(** The tags of a message are extracted completely exactly if all values are permitted. *)
Theorem C35_tags_extracted : forall ts, ts <> [] -> Forall id_ok ts ->
  (extract_tags (swift_message ts) = Ok (map field_bytes ts) <-> Forall (fun t => value_ok (f_value t)) ts).
Proof.
  intros ts Hne Hid. split; [now apply extract_tags_exact|]. intros Hv. apply extract_tags_ok; [exact Hne|].
  rewrite Forall_forall in *. intros t Ht. split; auto.
Qed.
Print Assumptions C35_tags_extracted.

(** Messages one after the other are separated, and their tags are found. *)
Theorem C35_messages_extracted : forall ms, ms <> [] ->
  Forall (fun m => m <> [] /\ Forall (fun t => id_ok t /\ value_ok (f_value t)) m) ms ->
  extract_messages (List.concat (map swift_message ms)) = Ok (map swift_message ms) /\
  Forall (fun m => extract_tags (swift_message m) = Ok (map field_bytes m)) ms.
Proof.
  intros ms Hne H. split; [now apply extract_messages_ok|].
  rewrite Forall_forall in *. intros m Hm. destruct (H m Hm). now apply extract_tags_ok.
Qed.
Print Assumptions C35_messages_extracted.

Definition ex_fields : list field :=
  [mkField (B "20") None (B "STARTUMS"); mkField (B "60") (Some "F"%byte) (B "C150101EUR100,00");
   mkField (B "61") None (B "1501020102D12,50NMSCNONREF");
   mkField (B "86") None (B "177?00Lastschrift" ++ crlf ++ B "?20Miete: Januar" ++ crlf ++ B "- und mehr");
   mkField (B "21") None []].
Lemma ex_fields_ok : Forall (fun t => id_ok t /\ value_ok (f_value t)) ex_fields.
Proof.
  assert (Hid : forall n l v, n <> [] -> forallb is_digit n = true ->
    match l with Some l => is_capital l = true | None => True end -> id_ok (mkField n l v)).
  { intros n l v A B' C. repeat split; assumption. }
  assert (Hv : forall v, existsb (beq b_nul) v = false -> (forall u w, v = u ++ crlf ++ w -> begins_field (w ++ crlf) = false) ->
    (existsb (beq b_cr) v = true -> code_line (first_line v) = false) -> value_ok v).
  { intros v A B' C. split; [|split; [exact B'|]].
    - intros K. assert (existsb (beq b_nul) v = true) by (apply existsb_exists; exists b_nul; now split). congruence.
    - intros K. apply C. apply existsb_exists. exists b_cr. now split. }
  assert (Hs : forall v, existsb (beq b_cr) v = false -> existsb (beq b_nul) v = false -> value_ok v).
  { intros v A B'. apply Hv; [exact B'| |congruence]. intros u w ->. rewrite existsb_app in A.
    apply orb_false_iff in A. destruct A as [_ A]. discriminate. }
  unfold ex_fields. repeat apply Forall_cons; try apply Forall_nil; split;
    try (apply Hid; [discriminate|reflexivity|try reflexivity; exact I]);
    try (apply Hs; vm_compute; reflexivity).
  change (value_ok (B "177?00Lastschrift" ++ crlf ++ B "?20Miete: Januar" ++ crlf ++ B "- und mehr")).
  apply Hv; [vm_compute; reflexivity| |intros _; vm_compute; reflexivity].
  set (v := B "177?00Lastschrift" ++ crlf ++ B "?20Miete: Januar" ++ crlf ++ B "- und mehr").
  assert (G : forall n, (n <= List.length v)%nat -> has_prefix crlf (skipn n v) = true -> begins_field (skipn (n + 2) v ++ crlf) = false).
  { intros n Hn. assert (Hin : In n (seq 0 (S (List.length v)))) by (apply in_seq; lia). revert n Hin Hn.
    assert (A : forallb (fun n => negb (has_prefix crlf (skipn n v)) || negb (begins_field (skipn (n + 2) v ++ crlf))) (seq 0 (S (List.length v))) = true)
      by (vm_compute; reflexivity).
    rewrite forallb_forall in A. intros n Hin _ Hp. specialize (A n Hin). rewrite Hp in A. cbn in A.
    now apply negb_true_iff in A. }
  intros u w E. specialize (G (List.length u)). rewrite E in G at 1. rewrite app_length in G.
  specialize (G ltac:(lia)). rewrite E in G.
  rewrite skipn_app_exact in G. rewrite skipn_app, skipn_all2 in G by lia.
  replace (List.length u + 2 - List.length u)%nat with 2%nat in G by lia. apply G. reflexivity.
Qed.
Example C35_witness : extract_tags (swift_message ex_fields) = Ok (map field_bytes ex_fields) /\
  extract_messages (swift_message ex_fields ++ swift_message ex_fields) = Ok [swift_message ex_fields; swift_message ex_fields].
Proof.
  split; [apply C35_tags_extracted; [discriminate| |]|].
  - pose proof ex_fields_ok as H. rewrite Forall_forall in *. intros t Ht. now apply H.
  - pose proof ex_fields_ok as H. rewrite Forall_forall in *. intros t Ht. now apply H.
  - destruct (C35_messages_extracted [ex_fields; ex_fields]) as [H _]; [discriminate| |].
    + do 2 (constructor; [split; [discriminate|exact ex_fields_ok]|]). constructor.
    + cbn [map List.concat] in H. rewrite app_nil_r in H. exact H.
Qed.

(** A value of two lines whose first line is made of capitals only is refused... *)
Theorem C35_capital_line_refuted :
  extract_tags (swift_message [mkField (B "20") None (B "X"); mkField (B "86") None (B "MIETE" ++ crlf ++ B "Januar")]) = Err.
Proof. vm_compute. reflexivity. Qed.
Print Assumptions C35_capital_line_refuted.
(** ... and one whose second line happens to look like a tag without the colon is split. *)
Theorem C35_split_refuted :
  extract_tags (swift_message [mkField (B "86") None (B "MIETE" ++ crlf ++ B "2015:Januar")]) =
  Ok [B ":86:MIETE"; B "2015:Januar"].
Proof. vm_compute. reflexivity. Qed.
Print Assumptions C35_split_refuted.
(** Two messages joined by "-" and the next tag in one line, which the lexer takes as a
    message boundary, come out without the leading line break the tag extractor needs. *)
Theorem C35_joined_refuted :
  extract_messages (crlf ++ B ":20:A" ++ crlf ++ B "-:20:B" ++ crlf ++ B "-") =
    Ok [crlf ++ B ":20:A" ++ crlf ++ B "-"; B ":20:B" ++ crlf ++ B "-"] /\
  extract_tags (B ":20:B" ++ crlf ++ B "-") = Err.
Proof. split; vm_compute; reflexivity. Qed.
Print Assumptions C35_joined_refuted.

(** Any input: extraction fails exactly if the lexer reports an error... *)
Theorem C35_errors_reported : forall inp,
  let failed := exists t, In t (fst (swift_lex inp)) /\ tok_type t = T_ERROR in
  (extract_messages inp = Err <-> failed) /\ (extract_tags inp = Err <-> failed) /\
  extract_messages inp <> Panic /\ extract_tags inp <> Panic.
Proof.
  intros inp. cbv zeta. split; [apply extract_messages_err|]. split; [apply extract_tags_err|].
  unfold extract_messages, extract_tags. rewrite swift_lex_tokens. unfold drained. cbn [fst snd].
  generalize (tokens (S (List.length inp)) GEntry 0 inp) as ts. intros ts. split.
  - generalize (@nil byte) at 1 as cur. generalize (@nil bytes) as acc. induction ts as [|t ts IH]; intros acc cur; [discriminate|]. cbn.
    destruct (ttype_eqb _ _); [discriminate|]. destruct (ttype_eqb _ _); apply IH.
  - generalize (@nil byte) at 1 as cur. generalize (@nil bytes) as acc. induction ts as [|t ts IH]; intros acc cur; [discriminate|]. cbn.
    destruct (ttype_eqb _ _); [discriminate|]. destruct (_ || _); [apply IH|]. destruct (ttype_eqb _ _); apply IH.
Qed.
Print Assumptions C35_errors_reported.
(** ... and when it succeeds (and there is no NUL byte) the messages are the input, each up
    to its closing "-"; only a beginning that stops right after a tag is left out. *)
Theorem C35_messages_of_any_input : forall inp ms, ~ In b_nul inp -> extract_messages inp = Ok ms ->
  exists rest, inp = List.concat ms ++ rest /\ Forall (fun m => exists u, m = u ++ crlf ++ B "-") ms /\
    (rest = [] \/ exists u, rest = u ++ B ":").
Proof. exact extract_messages_any. Qed.
Print Assumptions C35_messages_of_any_input.
Theorem C35_tags_of_any_input : forall inp tags, ~ In b_nul inp -> extract_tags inp = Ok tags ->
  exists seps rest, List.length seps = List.length tags /\ Forall (fun s => s = crlf \/ s = crlf ++ B "-") seps /\
    inp = crlf ++ List.concat (map (fun p => fst p ++ snd p) (combine tags seps)) ++ rest /\
    (rest = [] \/ exists u, rest = u ++ B ":").
Proof. exact extract_tags_any. Qed.
Print Assumptions C35_tags_of_any_input.
Example C35_witness_any : extract_messages (crlf ++ B ":20:A" ++ crlf ++ B "-" ++ crlf ++ B ":20:") = Ok [crlf ++ B ":20:A" ++ crlf ++ B "-"] /\
  extract_messages (crlf ++ B ":20:A" ++ crlf ++ B "-" ++ crlf ++ B ":20:A") = Err /\
  extract_tags (crlf ++ B ":20:A" ++ crlf ++ B ":21:b" ++ crlf ++ B "-") = Ok [B ":20:A"; B ":21:b"].
Proof. repeat split; vm_compute; reflexivity. Qed.
(** Data that end in a line break after the closing "-" are refused altogether. *)
Theorem C35_final_line_break_refuted : extract_messages (crlf ++ B ":20:A" ++ crlf ++ B "-" ++ crlf) = Err /\
  extract_messages (crlf ++ B ":20:A" ++ crlf ++ B "-") = Ok [crlf ++ B ":20:A" ++ crlf ++ B "-"].
Proof. split; vm_compute; reflexivity. Qed.
Print Assumptions C35_final_line_break_refuted.
