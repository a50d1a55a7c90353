(** * C87: PIN and TAN survive marshal and unmarshal *)
From Verif Require Import Base BaseFacts Lexer_Model Lexer_Spec Lexer_Proofs Lexer_Facts
  Codec_Model Codec_Spec Codec_Proofs Codec_Props Wire_Model Wire_Spec Wire_Proofs Wire_Facts Wire_Facts2 Wire_Facts3
  Message_Model Message_Spec Message_Proofs Message_Facts Message_Facts2 Message_Facts3
  Dialog_Model Dialog_Spec Seg_Model Seg_Spec Seg_Facts Seg_Facts2 Seg_Facts3 Seg_Facts4 Seg_Facts5 Seg_Props Seg_Props2
  Answer_Spec Kept_Facts Request_Model Request_Spec Request_Facts Key_Model Keyname_Model Keyname_Spec Keyname_Props Pintan_Model.
From Coq Require Import Lia ZifyBool ZifyNat ZifyN.
Open Scope Z_scope.

(** A text which the lexer gives back in one piece: no NUL, no '+', no ''', not taken for a
    malformed float. *)
Definition one_piece (t : bytes) : Prop := item_ok (TText t) /\ groupable (TText t).
(** A text as a part of the element: nothing if it is empty. *)
Definition part_of (t : bytes) : option bytes := match t with [] => None | _ => Some (utf8 t) end.

Lemma last_of_two (a b : bytes) : b <> [] -> last_present (map item_wire [TText a; TText b]) = escaped b.
Proof.
  intros H. apply escaped_ne in H. unfold last_present. cbn [map item_wire].
  change [escaped a; escaped b] with ([escaped a] ++ [escaped b]). rewrite strip_id by (rewrite last_last; exact H). apply last_last.
Qed.
(** The element of a PIN and a TAN is the two texts, escaped, with a colon between them. *)
Theorem C87_written pin tan : tan <> [] -> ~ ends_with ":"%byte tan ->
  marshal_opt (signature_de (utf8 pin) (utf8 tan)) = Ok (escaped pin ++ ":"%byte :: escaped tan).
Proof.
  intros H1 H2. unfold signature_de. destruct (utf8 tan) as [|u us] eqn:E; [apply utf8_nil in E; contradiction|]. rewrite <- E. clear E u us.
  rewrite (field_flat _ [TText pin; TText tan] [TText pin; TText tan]).
  - rewrite ends_wire by (exists [TText pin], (TText tan); split; [reflexivity|exact H1]). reflexivity.
  - constructor; [apply text_marshal|]. constructor; [apply text_marshal|constructor].
  - reflexivity.
  - unfold tidy_field. rewrite last_of_two by exact H1. now rewrite escaped_ends.
Qed.
Print Assumptions C87_written.
(** It is read back as the same PIN and the same TAN. *)
Theorem C87_roundtrip pin tan : one_piece pin -> one_piece tan -> tan <> [] -> ~ ends_with ":"%byte tan ->
  len (escaped pin ++ ":"%byte :: escaped tan) < 2 ^ 61 ->
  exists w, marshal_opt (signature_de (utf8 pin) (utf8 tan)) = Ok w /\
    read_pin_tan w = Ok (mkPE (part_of pin) (Some (utf8 tan))).
Proof.
  intros [P1 P2] [T1 T2] H1 H2 Hl. exists (escaped pin ++ ":"%byte :: escaped tan). split; [now apply C87_written|].
  assert (E : ends [TText pin; TText tan]) by (exists [TText pin], (TText tan); split; [reflexivity|exact H1]).
  pose proof (ends_wire _ E) as W. change (join [b_colon] (map item_wire [TText pin; TText tan])) with (escaped pin ++ ":"%byte :: escaped tan) in W.
  rewrite <- W in *. unfold read_pin_tan. rewrite ends_read; [|split|exact E|exact Hl].
  - cbn [obind map List.length Nat.ltb Nat.leb].
    rewrite (text_field 0 _ pin) by reflexivity. cbn [obind]. rewrite (text_field 1 _ tan) by reflexivity. cbn [obind].
    destruct tan; [contradiction|]. destruct pin; reflexivity.
  - constructor; [exact P1|]. constructor; [exact T1|constructor].
  - constructor; [exact P2|]. constructor; [exact T2|constructor].
Qed.
Print Assumptions C87_roundtrip.
(** The PIN alone, as every message of a client has it, is the escaped PIN; that is refused
    when it is read. *)
Theorem C87_pin_alone_refuted pin : one_piece pin -> pin <> [] -> ~ ends_with ":"%byte pin -> len (escaped pin) < 2 ^ 61 ->
  exists w, marshal_opt (signature_de (utf8 pin) []) = Ok w /\ w = escaped pin /\ read_pin_tan w = Err.
Proof.
  intros [P1 P2] H1 H2 Hl. exists (escaped pin). assert (E : ends [TText pin]) by (exists [], (TText pin); split; [reflexivity|exact H1]).
  split; [|split; [reflexivity|]].
  - unfold signature_de. rewrite (field_flat _ [TText pin] [TText pin; TText []]).
    + now rewrite group_wire_one.
    + constructor; [apply text_marshal|]. constructor; [reflexivity|constructor].
    + cbn [map item_wire strip]. destruct (escaped pin) eqn:Z; [now apply escaped_ne in H1|reflexivity].
    + unfold tidy_field, last_present. cbn [map item_wire]. rewrite strip_id by (cbn [last]; now apply escaped_ne). cbn [last]. now rewrite escaped_ends.
  - pose proof (group_wire_one (TText pin)) as W. cbn [item_wire] in W. rewrite <- W in *. unfold read_pin_tan.
    rewrite ends_read; [reflexivity|split|exact E|exact Hl]; (constructor; [assumption|constructor]).
Qed.
Print Assumptions C87_pin_alone_refuted.
(** What a client writes is the case without a TAN. *)
Theorem C87_client pin : pin_tan_de pin = signature_de pin [].
Proof. reflexivity. Qed.
Print Assumptions C87_client.
(** Where the model of whole segments asks whether the element can be read, it agrees. *)
Theorem C87_same w : unmarshal_pin_tan w = omap (fun _ => tt) (read_pin_tan w).
Proof.
  unfold unmarshal_pin_tan, read_pin_tan. destruct (group_extract w) as [es| |]; cbn [obind omap]; [|reflexivity..].
  destruct (List.length es <? 2)%nat; [reflexivity|].
  assert (F : forall i, exists o, field i Seg_Model.text es = Ok o).
  { intros i. unfold field, opt_parse, Seg_Model.text. destruct (nonempty_nth i es); cbn [obind omap]; eauto. }
  destruct (F 0%nat) as [o0 ->]. destruct (F 1%nat) as [o1 ->]. reflexivity.
Qed.
Print Assumptions C87_same.

(** ** Cases *)
Example C87_meets : one_piece (B "se:cr?t") /\ one_piece (B "123456") /\ ~ ends_with ":"%byte (B "123456") /\ ~ ends_with ":"%byte (B "se:cr?t") /\
  marshal_opt (signature_de (utf8 (B "se:cr?t")) (utf8 (B "123456"))) = Ok (B "se?:cr??t:123456") /\
  marshal_opt (signature_de (utf8 (B "se:cr?t")) []) = Ok (B "se?:cr??t").
Proof.
  assert (N : forall l, last l "0"%byte <> ":"%byte -> ~ ends_with ":"%byte l) by (intros l H [p K]; apply H; rewrite K; apply last_last).
  assert (A : Forall item_ok [TText (B "se:cr?t"); TText (B "123456")]) by prove_items.
  assert (G : Forall groupable [TText (B "se:cr?t"); TText (B "123456")]) by prove_groupable.
  rewrite !Forall_cons_iff in A, G. destruct A as (A1&A2&_). destruct G as (G1&G2&_).
  split; [split; assumption|]. split; [split; assumption|]. split; [apply N; discriminate|]. split; [apply N; discriminate|].
  split; reflexivity.
Qed.
