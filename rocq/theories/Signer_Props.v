(** * C88: who signed and when survives marshal and unmarshal *)
From Verif Require Import Base BaseFacts Lexer_Model Lexer_Spec Lexer_Proofs Lexer_Facts
  Codec_Model Codec_Spec Codec_Proofs Codec_Props Wire_Model Wire_Spec Wire_Proofs Wire_Facts Wire_Facts2 Wire_Facts3
  Message_Model Message_Spec Message_Proofs Message_Facts Message_Facts2 Message_Facts3
  Dialog_Model Dialog_Spec Time_Model Seg_Model Seg_Spec Seg_Facts Seg_Facts2 Seg_Facts3 Seg_Facts4 Seg_Facts5 Seg_Props Seg_Props2
  Answer_Spec Kept_Facts Request_Model Request_Spec Request_Facts Key_Model Key_Facts2 Keyname_Model Keyname_Spec Keyname_Props
  Pintan_Model Pintan_Props Signer_Model.
From Coq Require Import Lia ZifyBool ZifyNat ZifyN.
Open Scope Z_scope.

(** The names of the signing parties and of the kinds of dates, and their codes. *)
Definition holder_code (name code : string) : Prop := (name = "MS" /\ code = "1")%string \/ (name = "MR" /\ code = "2")%string.
Definition stamp_code (name code : string) : Prop := (name = "STS" /\ code = "1")%string \/ (name = "CRT" /\ code = "6")%string.

(** The client system ID and the party are read as they were written. *)
Theorem C88_identification name code system : holder_code name code -> one_piece system -> system <> [] -> ~ ends_with ":"%byte system ->
  len (B code ++ B "::" ++ escaped system) < 2 ^ 61 ->
  exists e w, new_security_id (B name) (utf8 system) = Ok e /\ marshal_opt e = Ok w /\
    w = B code ++ B "::" ++ escaped system /\ read_security_id w = Ok (mkIdE (Some (B code)) None (Some (utf8 system))).
Proof.
  intros Hc [S1 S2] H1 H2 Hl. exists (Some (DEG [text_de (B code); None; text_de (utf8 system)])), (B code ++ B "::" ++ escaped system).
  set (g := [TText (B code); TText []; TText system]).
  assert (E : ends g) by (exists [TText (B code); TText []], (TText system); split; [reflexivity|exact H1]).
  assert (C : escaped (B code) = B code /\ utf8 (B code) = B code /\ B code <> [] /\ item_ok (TText (B code)) /\ groupable (TText (B code))).
  { destruct Hc as [[_ ->]|[_ ->]]; (split; [reflexivity|split; [reflexivity|split; [discriminate|split; split]]]);
      try reflexivity; intros [K|[]]; discriminate. }
  destruct C as (C1&C2&C3&C4&C5).
  assert (W : group_wire g = B code ++ B "::" ++ escaped system).
  { rewrite (ends_wire _ E). unfold g. cbn [map item_wire join]. rewrite C1. reflexivity. }
  split; [destruct Hc as [[-> ->]|[-> ->]]; reflexivity|]. split; [|split; [reflexivity|]].
  - rewrite <- W. apply (field_flat _ g g).
    + constructor; [cbn [item_wire]; rewrite <- text_marshal, C2; reflexivity|]. constructor; [reflexivity|]. constructor; [apply text_marshal|constructor].
    + reflexivity.
    + unfold tidy_field, last_present. rewrite (ends_strip _ E). unfold g. cbn [map item_wire last]. now rewrite escaped_ends.
  - rewrite <- W in *. unfold read_security_id. rewrite ends_read; [|split|exact E|exact Hl].
    + unfold g. cbn [obind map List.length Nat.ltb Nat.leb].
      rewrite (text_field 0 _ (B code)) by reflexivity. cbn [obind].
      unfold field at 1, nonempty_nth at 1. cbn [nth_error item_wire]. change (escaped []) with (@nil byte). cbn [opt_parse obind].
      rewrite (text_field 2 _ system) by reflexivity. cbn [obind]. unfold nonempty.
      destruct (B code) as [|c cs] eqn:Q; [contradiction|]. destruct system; [contradiction|]. cbn [option_map]. now rewrite C2.
    + constructor; [exact C4|]. constructor; [split; [intros []|reflexivity]|]. constructor; [exact S1|constructor].
    + constructor; [exact C5|]. constructor; [split; intros []|]. constructor; [exact S2|constructor].
Qed.
Print Assumptions C88_identification.
(** The date and the time are read as they were written. *)
Theorem C88_date name code d t : stamp_code name code -> real_date d -> real_time t ->
  exists e w, new_security_date (B name) (d, t) = Ok e /\ marshal_opt e = Ok w /\
    w = group_wire [TText (B code); TDate d; TTime t] /\
    (len w < 2 ^ 61 -> read_security_date w = Ok (mkSE (Some (B code)) (Some d) (Some t))).
Proof.
  intros Hc Hd Ht. exists (Some (DEG [text_de (B code); Some (DE (EDate d)); Some (DE (ETime t))])), (group_wire [TText (B code); TDate d; TTime t]).
  set (g := [TText (B code); TDate d; TTime t]).
  assert (E : ends g) by (exists [TText (B code); TDate d], (TTime t); split; [reflexivity|exact I]).
  assert (C : utf8 (B code) = B code /\ B code <> [] /\ item_ok (TText (B code)) /\ groupable (TText (B code))).
  { destruct Hc as [[_ ->]|[_ ->]]; (split; [reflexivity|split; [discriminate|split; split]]);
      try reflexivity; intros [K|[]]; discriminate. }
  destruct C as (C2&C3&C4&C5).
  split; [destruct Hc as [[-> ->]|[-> ->]]; reflexivity|]. split; [|split; [reflexivity|]].
  - apply (field_flat _ g g).
    + constructor; [cbn [item_wire]; rewrite <- text_marshal, C2; reflexivity|].
      constructor; [exact (sendable_marshal (TDate d) Hd)|]. constructor; [exact (sendable_marshal (TTime t) Ht)|constructor].
    + reflexivity.
    + assert (N : clean_text []) by (split; intros [p K]; destruct p; discriminate).
      destruct (rsa_fields_tidy [] (d, t) N (conj Hd Ht)) as [_ T]. unfold tidy_field, last_present in *.
      rewrite (ends_strip _ E). rewrite ends_strip in T; [exact T|]. exists [text "1"; TDate d], (TTime t). split; [reflexivity|exact I].
  - intros Hl. unfold read_security_date. rewrite ends_read; [|split|exact E|exact Hl].
    + unfold g. cbn [obind map List.length Nat.ltb Nat.leb].
      rewrite (text_field 0 _ (B code)) by reflexivity. cbn [obind].
      rewrite (field_here 1 unmarshal_date _ (item_wire (TDate d)) d); [|reflexivity|now apply item_present|now apply date_read]. cbn [obind].
      rewrite (field_here 2 unmarshal_time _ (item_wire (TTime t)) t); [|reflexivity|now apply item_present|now apply time_read]. cbn [obind].
      unfold nonempty. destruct (B code) as [|c cs] eqn:Q; [contradiction|]. cbn [option_map]. now rewrite C2.
    + constructor; [exact C4|]. constructor; [exact Hd|]. constructor; [exact Ht|constructor].
    + constructor; [exact C5|]. constructor; [exact I|]. constructor; [exact I|constructor].
Qed.
Print Assumptions C88_date.
(** Any other name of a party or of a kind of date panics. *)
Theorem C88_panics name system kind at_ :
  (name <> B "MS" -> name <> B "MR" -> new_security_id name system = Panic) /\
  (kind <> B "STS" -> kind <> B "CRT" -> new_security_date kind at_ = Panic).
Proof.
  unfold new_security_id, new_security_date. split; intros H1 H2.
  - destruct (bytes_eqb_spec name (B "MS")); [contradiction|]. destruct (bytes_eqb_spec name (B "MR")); [contradiction|]. reflexivity.
  - destruct (bytes_eqb_spec kind (B "STS")); [contradiction|]. destruct (bytes_eqb_spec kind (B "CRT")); [contradiction|]. reflexivity.
Qed.
Print Assumptions C88_panics.
(** Without a client system ID the code of the party is all that is written, and that is refused. *)
Theorem C88_no_system_refuted name code : holder_code name code ->
  exists e, new_security_id (B name) [] = Ok e /\ marshal_opt e = Ok (B code) /\ read_security_id (B code) = Err.
Proof. intros [[-> ->]|[-> ->]]; eexists; repeat split; reflexivity. Qed.
Print Assumptions C88_no_system_refuted.
(** What a client writes are the sender and a time stamp, and the model of whole segments
    reads these elements in the same way. *)
Theorem C88_same :
  (forall system, new_security_id (B "MS") system = Ok (security_id_de system)) /\
  (forall at_, new_security_date (B "STS") at_ = Ok (security_date_de at_)) /\
  (forall w, unmarshal_security_id w = omap (fun _ => tt) (read_security_id w)) /\
  (forall w, unmarshal_security_date w = omap (fun _ => tt) (read_security_date w)).
Proof.
  split; [reflexivity|]. split; [reflexivity|]. split; intros w.
  - unfold unmarshal_security_id, read_security_id. destruct (group_extract w) as [es| |]; cbn [obind omap]; [|reflexivity..].
    destruct (List.length es <? 3)%nat; [reflexivity|]. destruct (field 0 Seg_Model.text es); cbn [obind omap]; [|reflexivity..].
    destruct (field 1 unmarshal_binary es); cbn [obind omap]; [|reflexivity..]. destruct (field 2 Seg_Model.text es); reflexivity.
  - unfold unmarshal_security_date, read_security_date. destruct (group_extract w) as [es| |]; cbn [obind omap]; [|reflexivity..].
    destruct (List.length es <? 1)%nat; [reflexivity|]. destruct (field 0 Seg_Model.text es); cbn [obind omap]; [|reflexivity..].
    destruct (field 1 unmarshal_date es); cbn [obind omap]; [|reflexivity..]. destruct (field 2 unmarshal_time es); reflexivity.
Qed.
Print Assumptions C88_same.

(** ** Cases *)
Example C88_meets : holder_code "MR" "2" /\ stamp_code "CRT" "6" /\ one_piece (B "sys?1") /\ ~ ends_with ":"%byte (B "sys?1") /\
  real_date (mkDate 2024 2 29) /\ real_time (mkTod 23 59 59) /\
  (do e <- new_security_id (B "MR") (utf8 (B "sys?1")); marshal_opt e) = Ok (B "2::sys??1") /\
  (do e <- new_security_date (B "CRT") (mkDate 2024 2 29, mkTod 23 59 59); marshal_opt e) = Ok (B "6:20240229:235959").
Proof.
  assert (A : Forall item_ok [TText (B "sys?1")]) by prove_items. assert (G : Forall groupable [TText (B "sys?1")]) by prove_groupable.
  apply Forall_inv in A, G.
  split; [right; split; reflexivity|]. split; [right; split; reflexivity|]. split; [split; assumption|].
  split; [intros [p K]; apply (f_equal (fun l => last l "0"%byte)) in K; rewrite last_last in K; discriminate|].
  split; [unfold real_date; cbn; repeat split; discriminate|]. split; [unfold real_time; cbn; lia|]. split; reflexivity.
Qed.
