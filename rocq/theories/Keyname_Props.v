(** * C86: the name of a key survives marshal and unmarshal *)
From Verif Require Import Base BaseFacts Lexer_Model Lexer_Spec Lexer_Proofs Lexer_Facts
  Codec_Model Codec_Spec Codec_Proofs Codec_Props Wire_Model Wire_Spec Wire_Proofs Wire_Facts Wire_Facts2 Wire_Facts3
  Message_Model Message_Spec Message_Proofs Message_Facts Message_Facts2 Message_Facts3
  Dialog_Model Dialog_Spec Seg_Model Seg_Spec Seg_Facts Seg_Facts2 Seg_Facts3 Seg_Facts4 Seg_Facts5 Seg_Props Seg_Props2
  Answer_Spec Kept_Facts Request_Model Request_Spec Request_Facts Key_Model Keyname_Model Keyname_Spec.
From Coq Require Import Lia ZifyBool ZifyNat ZifyN.
Open Scope Z_scope.

(** ** Reading *)
Lemma bank_raw c b : 0 <= c < 2 ^ 63 -> item_ok (TText b) -> groupable (TText b) -> b <> [] ->
  len (group_wire [TDigits 3 c; TText b]) < 2 ^ 61 ->
  unmarshal_bank (join [b_colon] [item_wire (TDigits 3 c); item_wire (TText b)]) = Ok (Some c, utf8 (escaped b)).
Proof.
  intros H1 H2 H3 H4 Hl. assert (E : ends [TDigits 3 c; TText b]) by (exists [TDigits 3 c], (TText b); split; [reflexivity|exact H4]).
  pose proof (ends_wire _ E) as W. cbn [map] in W. rewrite <- W. unfold unmarshal_bank. rewrite ends_read; [|split|exact E|exact Hl].
  - cbn [map obind]. rewrite country_read by exact H1. cbn [obind item_wire]. now rewrite utf8_eq.
  - constructor; [exact H1|]. constructor; [exact H2|constructor].
  - constructor; [exact I|]. constructor; [exact H3|constructor].
Qed.
Lemma text_field k es t : nth_error es k = Some (item_wire (TText t)) -> field k Seg_Model.text es = Ok (option_map utf8 (nonempty t)).
Proof.
  intros H. destruct t as [|c t].
  - unfold field, nonempty_nth. rewrite H. reflexivity.
  - rewrite (field_here k Seg_Model.text es _ (utf8 (c :: t)) H); [reflexivity|now apply item_present|apply text_read].
Qed.
Definition element_of (k : named) : name_element :=
  mkNE (Some (Some (nd_country k), utf8 (escaped (nd_bank k)))) (option_map utf8 (nonempty (nd_user k)))
       (option_map utf8 (nonempty (nd_type k))) (Some (nd_number k)) (Some (nd_version k)).
Lemma name_read k : named_ok k -> len (group_wire (named_items k)) < 2 ^ 61 ->
  read_key_name (group_wire (named_items k)) = Ok (element_of k).
Proof.
  intros [G Hb] Hl.
  assert (E : ends (named_items k)).
  { exists [TDigits 3 (nd_country k); TText (nd_bank k); TText (nd_user k); TText (nd_type k); TNumber (nd_number k)], (TNumber (nd_version k)).
    split; [reflexivity|exact I]. }
  unfold read_key_name. rewrite ends_read by assumption. cbn [obind].
  assert (Eb : ends [TDigits 3 (nd_country k); TText (nd_bank k)]) by (exists [TDigits 3 (nd_country k)], (TText (nd_bank k)); split; [reflexivity|exact Hb]).
  assert (Hlb : len (group_wire [TDigits 3 (nd_country k); TText (nd_bank k)]) < 2 ^ 61).
  { eapply Z.le_lt_trans; [|exact Hl]. rewrite (ends_wire _ Eb), (ends_wire _ E).
    exact (proj1 (join_len b_colon (map item_wire [TDigits 3 (nd_country k); TText (nd_bank k)])
      (map item_wire [TText (nd_user k); TText (nd_type k); TNumber (nd_number k); TNumber (nd_version k)]))). }
  destruct G as [G1 G2]. unfold named_items in G1, G2. rewrite !Forall_cons_iff in G1, G2.
  destruct G1 as (A1&A2&A3&A4&A5&A6&_). destruct G2 as (_&B2&_).
  pose proof (bank_raw _ _ A1 A2 B2 Hb Hlb) as R.
  unfold named_items. cbn [map List.length Nat.ltb Nat.leb firstn].
  unfold nonempty_nth at 1. cbn [nth_error]. pose proof (item_present (TDigits 3 (nd_country k)) I) as P1.
  destruct (item_wire (TDigits 3 (nd_country k))) as [|x w]; [congruence|]. cbn [opt_parse]. rewrite R. cbn [obind].
  rewrite (text_field 2 _ (nd_user k)) by reflexivity. cbn [obind].
  rewrite (text_field 3 _ (nd_type k)) by reflexivity. cbn [obind].
  rewrite (field_here 4 unmarshal_int _ (item_wire (TNumber (nd_number k))) (nd_number k)); [|reflexivity|now apply item_present|now apply number_read].
  cbn [obind].
  rewrite (field_here 5 unmarshal_int _ (item_wire (TNumber (nd_version k))) (nd_version k)); [|reflexivity|now apply item_present|now apply number_read].
  reflexivity.
Qed.

(** A name as a bank writes it is read; its value is the name, the bank code as it is on the
    wire.  If user or type is empty there is no value: Val panics. *)
Theorem C86_read k : named_ok k -> len (group_wire (named_items k)) < 2 ^ 61 ->
  exists e, read_key_name (group_wire (named_items k)) = Ok e /\
    (nd_user k <> [] -> nd_type k <> [] -> name_val e = Ok (named_as_read k)) /\
    (nd_user k = [] \/ nd_type k = [] -> name_val e = Panic).
Proof.
  intros H Hl. exists (element_of k). split; [now apply name_read|]. unfold element_of, name_val, bank_val, named_as_read. cbn [ne_bank ne_user ne_type ne_number ne_version deref obind fst snd].
  split.
  - intros Hu Ht. destruct (nd_user k) as [|u us]; [contradiction|]. destruct (nd_type k) as [|t ts]; [contradiction|]. reflexivity.
  - intros [->| ->]; [reflexivity|]. destruct (nd_user k); reflexivity.
Qed.
Print Assumptions C86_read.

(** ** Writing and reading *)
Lemma name_written k : nd_bank k <> [] -> ~ ends_with ":"%byte (nd_bank k) ->
  marshal_opt (name_de (named_value k)) = Ok (group_wire (named_items k)).
Proof.
  intros H1 H2.
  set (g := [TDigits 3 (nd_country k); TText (nd_bank k)]).
  assert (S : strip (map item_wire g) = [itoa_pad 3 (nd_country k); escaped (nd_bank k)]).
  { apply escaped_ne in H1. cbn [g map item_wire strip]. destruct (escaped (nd_bank k)); [contradiction|]. now destruct (itoa_pad 3 (nd_country k)). }
  assert (T : tidy_field g) by (unfold tidy_field, last_present; rewrite S; cbn [last]; now rewrite escaped_ends).
  assert (F : marshal_opt (bank_de (mkBank (nd_country k) (utf8 (nd_bank k)))) = Ok (join [b_colon] [itoa_pad 3 (nd_country k); escaped (nd_bank k)])).
  { unfold bank_de. rewrite (field_flat _ g g); [|unfold bank_country, bank_code; components|reflexivity|exact T]. unfold group_wire. now rewrite S. }
  unfold name_de, named_value. cbn [kn_bank kn_user kn_type kn_number kn_version].
  eapply (group_marshal _ [join [b_colon] [itoa_pad 3 (nd_country k); escaped (nd_bank k)]; escaped (nd_user k); escaped (nd_type k); itoa (nd_number k); itoa (nd_version k)]
    [itoa_pad 3 (nd_country k); escaped (nd_bank k); escaped (nd_user k); escaped (nd_type k); itoa (nd_number k); itoa (nd_version k)]).
  - cbn [all_ok]. rewrite F. cbn [obind]. rewrite !text_marshal. cbn [obind]. rewrite !number_marshal. reflexivity.
  - cbn [join]. rewrite <- !app_assoc. reflexivity.
  - reflexivity.
  - unfold tidy_field, last_present. cbn [named_items map item_wire].
    change [itoa_pad 3 (nd_country k); escaped (nd_bank k); escaped (nd_user k); escaped (nd_type k); itoa (nd_number k); itoa (nd_version k)]
      with ([itoa_pad 3 (nd_country k); escaped (nd_bank k); escaped (nd_user k); escaped (nd_type k); itoa (nd_number k)] ++ [itoa (nd_version k)]).
    pose proof (itoa_ne (nd_version k)) as N.
    rewrite strip_id by (rewrite last_last; exact N). rewrite last_last.
    destruct (itoa_last (nd_version k)) as (p&d&E&D). rewrite E. intros [q K]. apply app_inj_tail in K. destruct K as [_ ->]. discriminate.
Qed.
(** A key name is written and read again: the value that comes back is the one that was
    written, if the bank code has no syntax character. *)
Theorem C86_roundtrip k : named_ok k -> nd_user k <> [] -> nd_type k <> [] -> no_syntax (nd_bank k) ->
  len (group_wire (named_items k)) < 2 ^ 61 ->
  exists w e, marshal_opt (name_de (named_value k)) = Ok w /\ read_key_name w = Ok e /\ name_val e = Ok (named_value k).
Proof.
  intros H Hu Ht Hs Hl. destruct (C86_read k H Hl) as (e&R&V&_). exists (group_wire (named_items k)), e. split; [|split; [exact R|]].
  - apply name_written; [apply H|]. intros [p K]. apply (Hs ":"%byte); [cbn; tauto|]. rewrite K. apply in_or_app. right. now left.
  - rewrite (V Hu Ht). unfold named_as_read, named_value. now rewrite (no_syntax_escaped _ Hs).
Qed.
Print Assumptions C86_roundtrip.

(** With a syntax character in the bank code (not at its end) the bank code comes back
    with release characters in it. *)
Theorem C86_bank_code_refuted k : named_ok k -> nd_user k <> [] -> nd_type k <> [] ->
  ~ no_syntax (nd_bank k) -> ~ ends_with ":"%byte (nd_bank k) -> len (group_wire (named_items k)) < 2 ^ 61 ->
  exists w e v, marshal_opt (name_de (named_value k)) = Ok w /\ read_key_name w = Ok e /\ name_val e = Ok v /\
    bank_code (kn_bank v) = utf8 (escaped (nd_bank k)) /\ v <> named_value k.
Proof.
  intros H Hu Ht Hs He Hl. destruct (C86_read k H Hl) as (e&R&V&_). exists (group_wire (named_items k)), e, (named_as_read k).
  split; [apply name_written; [apply H|exact He]|]. split; [exact R|]. split; [now apply V|]. split; [reflexivity|].
  intros K. apply (f_equal (fun v => bank_code (kn_bank v))) in K. cbn [named_as_read named_value kn_bank bank_code] in K.
  rewrite !utf8_eq in K. apply to_utf8_inj in K. apply Hs. clear -K.
  assert (L : forall l, (List.length l <= List.length (escaped l))%nat).
  { induction l as [|c l IH]; [apply le_n|]. unfold escaped in *. cbn [flat_map]. rewrite app_length. destruct (mem_byte c (B "?@':+")); cbn [List.length]; lia. }
  set (l := nd_bank k) in *. clearbody l. induction l as [|c l IH]; [intros ? _ []|].
  unfold escaped in K. cbn [flat_map] in K. fold (escaped l) in K. destruct (mem_byte c (B "?@':+")) eqn:M.
  - apply (f_equal (@List.length _)) in K. rewrite app_length in K. cbn [List.length] in K. specialize (L l). lia.
  - injection K as K. specialize (IH K). intros d Hd [<-|Hi]; [|exact (IH d Hd Hi)].
    assert (M' : mem_byte c (B "?@':+") = true) by now apply mem_byte_In. congruence.
Qed.
Print Assumptions C86_bank_code_refuted.

(** Where the model of whole segments only asks whether a key name can be read, it agrees
    with this one. *)
Theorem C86_same w : unmarshal_key_name w = omap (fun _ => tt) (read_key_name w).
Proof.
  unfold unmarshal_key_name, read_key_name. destruct (group_extract w) as [es| |]; cbn [obind omap]; [|reflexivity..].
  destruct (List.length es <? 6)%nat; [reflexivity|].
  destruct (opt_parse _ _); cbn [obind omap]; [|reflexivity..].
  assert (F : forall i, exists o, field i Seg_Model.text es = Ok o).
  { intros i. unfold field, opt_parse, Seg_Model.text. destruct (nonempty_nth i es); cbn [obind omap]; eauto. }
  destruct (F 2%nat) as [o2 ->]. destruct (F 3%nat) as [o3 ->]. cbn [obind].
  destruct (field 4 unmarshal_int es); cbn [obind omap]; [|reflexivity..].
  destruct (field 5 unmarshal_int es); reflexivity.
Qed.
Print Assumptions C86_same.

(** ** Cases *)
Definition sample_name := mkNamed 280 (B "12345678") (B "max?:") (B "S") 3 1.
Example C86_meets : named_ok sample_name /\ nd_user sample_name <> [] /\ nd_type sample_name <> [] /\ no_syntax (nd_bank sample_name) /\
  group_wire (named_items sample_name) = B "280:12345678:max???::S:3:1".
Proof.
  split; [split; [split|discriminate]|].
  - unfold sample_name, named_items. cbn [nd_country nd_bank nd_user nd_type nd_number nd_version]. prove_items.
  - unfold sample_name, named_items. cbn [nd_country nd_bank nd_user nd_type nd_number nd_version]. prove_groupable.
  - split; [discriminate|]. split; [discriminate|]. split; [unfold sample_name; cbn [nd_bank]; prove_no_syntax|reflexivity].
Qed.
Definition odd_name := mkNamed 280 (B "12:34") (B "max") (B "V") 999 999.
Example C86_odd_meets : named_ok odd_name /\ ~ no_syntax (nd_bank odd_name) /\ ~ ends_with ":"%byte (nd_bank odd_name) /\
  group_wire (named_items odd_name) = B "280:12?:34:max:V:999:999" /\
  omap (fun v => bank_code (kn_bank v)) (do e <- read_key_name (group_wire (named_items odd_name)); name_val e) = Ok (B "12?:34").
Proof.
  assert (O : named_ok odd_name).
  { split; [split|discriminate].
    - unfold odd_name, named_items. cbn [nd_country nd_bank nd_user nd_type nd_number nd_version]. prove_items.
    - unfold odd_name, named_items. cbn [nd_country nd_bank nd_user nd_type nd_number nd_version]. prove_groupable. }
  split; [exact O|]. split; [intros K; apply (K ":"%byte); cbn; tauto|].
  split; [intros [p K]; apply (f_equal (fun l => last l "0"%byte)) in K; rewrite last_last in K; discriminate|]. split; [reflexivity|].
  rewrite name_read; [reflexivity|exact O|reflexivity].
Qed.
