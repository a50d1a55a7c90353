From Verif Require Import Base BaseFacts Lexer_Model Lexer_Spec Lexer_Proofs Lexer_Facts
  Codec_Model Codec_Spec Codec_Proofs Codec_Props Wire_Model Wire_Spec Wire_Proofs Wire_Facts Wire_Facts2 Wire_Facts3
  Message_Model Message_Spec Message_Proofs Message_Facts Message_Facts2 Message_Facts3
  Dialog_Model Dialog_Spec Seg_Model Seg_Spec Seg_Facts Seg_Facts2 Seg_Facts3 Seg_Facts4 Seg_Facts5 Seg_Props Seg_Props2
  Client_Model Client_Spec Answer_Spec Kept_Facts Answer_Facts Answer_Facts2 Crash_Spec Crash_Facts
  Time_Model Request_Model Request_Spec Request_Facts Request_Facts2 Request_Facts3 Request_Facts4 Transport_Model Log_Model Log_Spec Log_Facts Log_Facts2.
From Coq Require Import Lia ZifyBool ZifyNat ZifyN.
Open Scope Z_scope.
Ltac Zify.zify_post_hook ::= Z.div_mod_to_equations.

Lemma no_comma_text l : ~ In b_comma l -> malformed_float l = false.
Proof.
  intros H. destruct (malformed_float l) eqn:E; [|reflexivity]. apply malformed_float_spec in E. destruct E as (c&r&_&_&_&r'&E).
  destruct H. rewrite <- (take_drop l), E. apply in_or_app. right. now left.
Qed.
Lemma proper_const s : forallb (fun c => negb (beq c b_nul) && negb (beq c b_comma)) (B s) = true -> item_ok (TText (B s)).
Proof.
  intros H. rewrite forallb_forall in H. split.
  - intros K. apply H in K. discriminate.
  - apply no_comma_text. intros K. apply H in K. discriminate.
Qed.
Lemma hex_proper r : hex_word r -> item_ok (TText r).
Proof.
  intros [_ H]. rewrite Forall_forall in H. split; [|apply no_comma_text]; intros K; apply H in K; cbn in K; repeat (destruct K as [K|K]; [discriminate|]); exact K.
Qed.
Ltac proper_one := first
  [ exact I | assumption | apply hex_proper; assumption | unfold text; apply proper_const; reflexivity | cbn [item_ok]; unfold number_ok in *; lia
  | cbn [item_ok]; assumption | cbn [item_ok]; apply a_month_ago_real; assumption ].
Ltac proper_fields := repeat (apply Forall_cons; [|]); try apply Forall_nil; try proper_one.
Ltac proper_part := split; [reflexivity|]; split; [|split; [|intros ?; discriminate]].
Lemma proper_key x u : proper_who x -> item_ok (TText (B u)) -> Forall item_ok (key_items x u).
Proof.
  intros (_&Hc&H) Hu. unfold who_texts in H. inv_all. unfold key_items, Request_Spec.bank_items. cbn [app].
  repeat (apply Forall_cons; [proper_one|]). apply Forall_nil.
Qed.
Section Proper.
  Variable x : who.
  Variable dialog : bytes.
  Variable s : secret.
  Hypothesis Hx : proper_who x.
  Hypothesis Hs : Forall proper_text (secret_texts s).
  Lemma proper_sig_header r at_ : hex_word r -> real_moment at_ -> part_ok (signature_header x s r at_).
  Proof.
    intros Hr [Hd Ht]. pose proof (proper_key x "S" Hx ltac:(proper_one)) as K. unfold secret_texts in Hs. inv_all. proper_part.
    - unfold signature_header. cbn [pt_version]. destruct (_ =? _); lia.
    - unfold signature_header, profile_field, sender_items, stamp_items. cbn [pt_fields].
      destruct (wh_version x =? 300); cbn [app]; repeat (apply Forall_cons; [first [exact K|proper_fields]|]); try apply Forall_nil.
      destruct (one_step s); proper_one.
  Qed.
  Lemma proper_sig_end r : hex_word r -> part_ok (signature_end x s r).
  Proof.
    intros Hr. unfold secret_texts in Hs. inv_all. proper_part; [cbn [signature_end pt_version]; destruct (_ =? _); lia|].
    unfold signature_end. cbn [pt_fields]. repeat (apply Forall_cons; [proper_fields|]); apply Forall_nil.
  Qed.
  Lemma proper_envelope at_ : real_moment at_ ->
    0 <= pt_version (envelope_header x s at_) <= 99 /\ Forall (Forall item_ok) (pt_fields (envelope_header x s at_)).
  Proof.
    intros [Hd Ht]. pose proof (proper_key x "V" Hx ltac:(proper_one)) as K. unfold secret_texts in Hs. inv_all. split.
    - unfold envelope_header. cbn [pt_version]. destruct (_ =? _); lia.
    - assert (item_ok (TBinary (repeat b_nul 8))) by (cbn [item_ok repeat List.length]; lia).
      unfold envelope_header, profile_field, sender_items, stamp_items. cbn [pt_fields].
      destruct (wh_version x =? 300); cbn [app]; repeat (apply Forall_cons; [first [exact K|proper_fields]|]); try apply Forall_nil.
      destruct (one_step s); proper_one.
  Qed.
  Lemma proper_default l c : proper_text l -> item_ok (TText (B c)) -> item_ok (or_default l c).
  Proof. intros H1 H2. unfold or_default. now destruct l. Qed.
  Lemma proper_body today signed a : proper_ask dialog a -> Forall real_date (ask_dates a) -> real_date today -> 1 <= d_year today ->
    Forall part_ok (body_parts x today dialog signed a).
  Proof.
    intros (Hne&Hd&Ht&Hn&Hv) Hda Hr Hy. pose proof (a_month_ago_real today Hr Hy) as Ha. destruct Hx as (Hxv&Hc&Htx). unfold who_texts in Htx.
    assert (Htan : part_ok tan_request) by (proper_part; [cbn; lia|]; unfold tan_request; cbn [pt_fields]; repeat (apply Forall_cons; [proper_fields|]); apply Forall_nil).
    assert (Hidn : forall client system b, proper_text client -> proper_text system -> part_ok (identification x client system b)).
    { intros client system b H1 H2. inv_all. proper_part; [cbn; lia|]. unfold identification, Request_Spec.bank_items. cbn [pt_fields].
      repeat (apply Forall_cons; [proper_fields|]); try apply Forall_nil. destruct b; proper_one. }
    assert (Hvvb : forall bpd upd, number_ok bpd -> number_ok upd -> part_ok (preparation x bpd upd)).
    { intros bpd upd H1 H2. inv_all. proper_part; [cbn; lia|]. unfold preparation. cbn [pt_fields]. do 3 (apply Forall_cons; [proper_fields|]).
      do 2 (apply Forall_cons; [apply Forall_cons; [apply proper_default; proper_one|apply Forall_nil]|]). apply Forall_nil. }
    destruct a as [client|client system bpd upd|w mark|]; cbn [ask_texts ask_dates body_parts ask_numbers] in *.
    - inv_all. apply Forall_cons; [apply Hidn; [assumption|apply proper_const; reflexivity]|]. apply Forall_cons; [apply Hvvb; unfold number_ok; lia|].
      apply Forall_cons; [exact Htan|]. apply Forall_cons; [|apply Forall_nil]. proper_part; [unfold synchronisation; cbn [pt_version]; destruct (_ =? _); lia|].
      unfold synchronisation. cbn [pt_fields]. repeat (apply Forall_cons; [proper_fields|]); apply Forall_nil.
    - inv_all. apply Forall_app. split; [|destruct signed; [apply Forall_cons; [exact Htan|]|]; apply Forall_nil].
      apply Forall_cons; [now apply Hidn|]. apply Forall_cons; [now apply Hvvb|apply Forall_nil].
    - apply Forall_cons; [exact Htan|]. apply Forall_cons; [|apply Forall_nil]. clear Hidn Hvvb Htan.
      destruct w as [v a all|v a all|v a from to all|v a from to all|v a all|v from to n];
        cbn [wish_part pt_fields pt_version pt_id app mark_field wish_texts wish_dates wish_version account_numbers] in *;
        (proper_part; [exact Hv|]); cbn [wish_part pt_fields app mark_field];
        unfold national_group, international_sent;
        try (match goal with |- context [in_bank ?a] => destruct (in_bank a) as [[c b]|] end; cbn [app] in * );
        try (destruct from as [from|], to as [to|]; cbn [app from_or to_or] in * ); inv_all;
        repeat (apply Forall_cons; [proper_fields|]); apply Forall_nil.
    - apply Forall_cons; [|apply Forall_nil]. proper_part; [cbn; lia|]. cbn [pt_fields]. repeat (apply Forall_cons; [proper_fields|]); apply Forall_nil.
  Qed.
End Proper.
Lemma body_unknown x today dialog signed a p : In p (body_parts x today dialog signed a) -> forall vs, ~ In (pt_id p, vs) readable.
Proof.
  assert (G : forall i, In i [B "HKIDN"; B "HKVVB"; B "HKTAN"; B "HKSYN"; B "HKSAL"; B "HKKAZ"; B "HKKIF"; B "HKPRO"; B "HKEND"] -> forall vs, ~ In (i, vs) readable).
  { intros i Hi vs Hr. unfold readable in Hr. cbn [In] in Hi, Hr.
    repeat (destruct Hi as [<-|Hi]; [repeat (destruct Hr as [Hr|Hr]; [discriminate|]); exact Hr|]). exact Hi. }
  intros H. apply G. destruct a as [client|client system bpd upd|w mark|]; cbn [body_parts app In] in H.
  - repeat (destruct H as [<-|H]; [cbn; tauto|]). destruct H.
  - repeat (destruct H as [<-|H]; [cbn; tauto|]). destruct signed; [|destruct H]. destruct H as [<-|[]]. cbn; tauto.
  - destruct H as [<-|[<-|[]]]; [cbn; tauto|]. destruct w; cbn; tauto.
  - destruct H as [<-|[]]. cbn; tauto.
Qed.
Lemma body_count x today dialog signed a : Z.of_nat (List.length (body_parts x today dialog signed a)) <= 4.
Proof. destruct a; cbn [body_parts List.length]; [lia| |lia|lia]. destruct signed; cbn; lia. Qed.

(** ** Writing a message to the log *)
Lemma extract_panic {P} (others : bytes -> Z -> option (bytes -> outcome P)) raw :
  message_extract raw = Panic -> read_response others raw = Panic.
Proof.
  unfold message_extract, read_response. destruct (se_extract (new_segment_extractor raw)) as [e r]. cbn [snd]. intros ->. reflexivity.
Qed.
Lemma write_message_panics {P} (others : bytes -> Z -> option (bytes -> outcome P)) ht raw :
  (write_message others ht raw = Panic <-> read_response others raw = Panic) /\ write_message others ht raw <> Err.
Proof.
  unfold write_message, write_raw_segments. destruct (read_response others raw) as [m| |] eqn:E; [split; [split|]; discriminate| |split; [split; reflexivity|discriminate]].
  destruct (message_extract raw) as [segs| |] eqn:Em; [split; [split|]; discriminate|split; [split|]; discriminate|].
  apply (extract_panic others) in Em. congruence.
Qed.
Lemma written_message {P} (others : bytes -> Z -> option (bytes -> outcome P)) ht raw :
  read_response others raw <> Panic -> exists l, write_message others ht raw = Ok l.
Proof.
  intros H. destruct (write_message_panics others ht raw) as [K1 K2]. destruct (write_message others ht raw) as [l| |]; [now exists l|congruence|].
  destruct H. now apply K1.
Qed.
Lemma log_starts_chunks {P} (others : bytes -> Z -> option (bytes -> outcome P)) ht t url chunks l :
  write_message others ht (List.concat chunks) = Ok l ->
  exists rest, log_of others ht true t url chunks = Note (B "Decrypted Request:") :: l ++ rest.
Proof.
  intros H. unfold log_of, written, logged_do. rewrite H.
  destruct (t url [List.concat chunks]) as [[b ok]| |]; cbv zeta; cbn [fst snd]; [destruct (write_message others ht b)| |]; cbn [snd app]; eexists; apply f_equal.
  all: try (rewrite <- app_assoc; reflexivity). all: try reflexivity. symmetry. apply app_nil_r.
Qed.
Lemma log_starts {P} (others : bytes -> Z -> option (bytes -> outcome P)) ht t url raw l :
  write_message others ht raw = Ok l ->
  exists rest, log_of others ht true t url [raw] = Note (B "Decrypted Request:") :: l ++ rest.
Proof. intros H. apply log_starts_chunks. cbn [List.concat]. now rewrite app_nil_r. Qed.
Lemma log_ends {P} (others : bytes -> Z -> option (bytes -> outcome P)) ht t url raw answer ok l :
  read_response others raw <> Panic -> t url [raw] = Ok (answer, ok) -> write_message others ht answer = Ok l ->
  exists before, log_of others ht true t url [raw] = before ++ Note (B "Decrypted Response:") :: l.
Proof.
  intros H Ht Hl. destruct (written_message others ht raw H) as [l1 H1]. unfold log_of, written, logged_do.
  assert (E : List.concat [raw] = raw) by (cbn; apply app_nil_r). rewrite E, H1. setoid_rewrite Ht. cbv zeta. cbn [fst snd]. rewrite Hl. cbn [snd].
  eexists. rewrite !app_assoc. rewrite <- (app_assoc _ [Note (B "Decrypted Response:")] l). reflexivity.
Qed.

(** ** What stands within what *)
Definition within (t w : bytes) : Prop := exists before after, w = before ++ t ++ after.
Lemma within_refl t : within t t.
Proof. exists [], []. now rewrite app_nil_r. Qed.
Lemma within_trans a b c : within a b -> within b c -> within a c.
Proof. intros (p&q&->) (r&s&->). exists (r ++ p), (q ++ s). now rewrite <- !app_assoc. Qed.
Lemma within_left a b w : within a w -> within a (b ++ w).
Proof. intros (p&q&->). exists (b ++ p), q. now rewrite <- app_assoc. Qed.
Lemma within_right a b w : within a w -> within a (w ++ b).
Proof. intros (p&q&->). exists p, (q ++ b). now rewrite <- !app_assoc. Qed.
Lemma within_join sep x l : In x l -> within x (join sep l).
Proof.
  induction l as [|y l IH]; intros H; [destruct H|]. destruct H as [->|H].
  - destruct l; [apply within_refl|]. apply within_right, within_refl.
  - destruct l; [destruct H|]. cbn [join]. apply within_left, within_left. now apply IH.
Qed.
Lemma strip_in x l : x <> [] -> In x l -> In x (strip l).
Proof.
  intros Hx. induction l as [|y l IH]; intros H; [destruct H|]. cbn [strip]. destruct H as [->|H].
  - destruct x; [congruence|]. now left.
  - specialize (IH H). destruct y as [|c y]; destruct (strip l) as [|z r]; try destruct IH; try (right; now left); right; now right.
Qed.
Lemma within_segment g id pos v ref gs : group_wire g <> [] -> In g gs -> within (group_wire g) (segment_wire id pos v ref gs).
Proof.
  intros H Hg. unfold segment_wire. apply within_right, within_join, strip_in; [exact H|]. right. now apply in_map.
Qed.
Lemma within_numbered p l : In p l -> forall n, exists k, within (part_wire k p) (numbered n l).
Proof.
  induction l as [|q l IH]; intros H n; [destruct H|]. cbn [numbered]. destruct H as [->|H].
  - exists n. apply within_right, within_refl.
  - destruct (IH H (n + 1)) as [k K]. exists k. now apply within_left.
Qed.
Lemma escaped_nonempty t : t <> [] -> escaped t <> [].
Proof. destruct t as [|c t]; [congruence|]. intros _. unfold escaped. cbn [flat_map]. destruct (mem_byte _ _); discriminate. Qed.
Lemma pin_within x dialog number size c at_ s r l :
  sc_pin s <> [] -> In (signature_end x s r) l ->
  exists seg, In seg (sent_segments x dialog number size c at_ l) /\ within (escaped (sc_pin s)) seg.
Proof.
  intros Hp Hi. exists (segment_wire (B "HNVSD") 999 1 None [[TBinary (numbered 2 l)]]). split; [do 2 right; now left|].
  apply within_trans with (group_wire [TBinary (numbered 2 l)]).
  - rewrite single_wire. cbn [item_wire]. apply (within_left _ ["@"%byte]), within_left, (within_left _ ["@"%byte]).
    destruct (within_numbered _ _ Hi 2) as [k K]. eapply within_trans; [|exact K]. unfold part_wire, signature_end. cbn [pt_id pt_version pt_fields].
    change (escaped (sc_pin s)) with (item_wire (TText (sc_pin s))). rewrite <- single_wire. apply within_segment; [|do 2 right; now left].
    rewrite single_wire. cbn [item_wire]. now apply escaped_nonempty.
  - apply within_segment; [|now left]. rewrite single_wire. cbn [item_wire]. discriminate.
Qed.

(** ** Requests *)
Section Requests.
  Context {F : Type} (parse_float : bytes -> option F) (neg : F -> F).
  Notation reader := (others parse_float neg).
  Lemma signed_refused x dialog number size today s c r at1 at2 a :
    good_caller x -> hex_word r -> good_ask today dialog number a -> good_secret s -> good_secret c -> real_moment at1 -> real_moment at2 ->
    number_ok size -> let l := signed_parts x today dialog s r at1 a in
    let w := enveloped_message x dialog number size c at2 l in
    len w < 2 ^ 48 ->
    read_response reader w = Err /\ message_extract w = Ok (sent_segments x dialog number size c at2 l).
  Proof.
    intros (Hb&Hx&_) Hr (_&Ha&_&Hda&Ht&Hy&Hn) (Hsp&Hs&_) (Hcp&Hc&_) Hm1 Hm2 Hsz l w Hl.
    pose proof (proper_sig_header x s Hx Hs r at1 Hr Hm1) as P1. pose proof (proper_sig_end x s Hs r Hr) as P2.
    pose proof (proper_envelope x c Hx Hc at2 Hm2) as P3. pose proof (proper_body x dialog Hx today true a Ha Hda Ht Hy) as P4.
    pose proof (body_count x today dialog true a) as Cn.
    assert (Pl : Forall part_ok l).
    { unfold l, signed_parts. apply Forall_cons; [exact P1|]. apply Forall_app. split; [exact P4|]. now apply Forall_cons. }
    assert (Ll : Z.of_nat (List.length l) <= 6) by (unfold l, signed_parts; cbn [List.length]; rewrite app_length; cbn [List.length]; lia).
    unfold w in *. rewrite enveloped_letter in *. set (L := request_letter x dialog number size (envelope_of (envelope_header x c at2)) l) in *.
    assert (Hf : letter_form wire_piece_ok L).
    { apply request_form; [|exact P3|exact Hl]. destruct Hx as (Hv&_&_). destruct Ha as (Hne&Hd&_). unfold frame_ok. split; [exact Hv|].
      repeat (split; [assumption|]). lia. }
    destruct (letter_refused parse_float neg L (pt_version (envelope_header x c at2)) (pt_fields (envelope_header x c at2)) Hf eq_refl) as [R M].
    - intros q Hq Lq. unfold L, request_letter in Hq. cbn [lt_pieces] in Hq. destruct (pieces_in _ _ _ Hq) as (k&p&Hp&Hk&->).
      unfold l, signed_parts in Hp. destruct Hp as [<-|Hp]; [apply (sig_header_np parse_float neg k x s r at1); [lia|exact Hb|exact P1|exact Lq]|]. apply in_app_or in Hp. destruct Hp as [Hp|[<-|[]]].
      + assert (U : unmarshal_one reader (part_wire k p) = Ok None).
        { apply unknown_part; [lia| | |exact Lq]; [now apply (proj1 (Forall_forall _ _) P4)|]. eapply body_unknown; eauto. }
        intros K. unfold part_wire in U. unfold piece_wire in K. cbn [pc_pos pc_ref pc_info] in K. rewrite U in K. discriminate.
      + intros K. pose proof (sig_end_refused parse_float neg k x s r ltac:(lia) Hsp P2 Lq) as U. unfold part_wire in U. unfold piece_wire in K. cbn [pc_pos pc_ref pc_info] in K. rewrite U in K. discriminate.
    - destruct (in_pieces l (signature_end x s r)) with (n := 2) as (k&Hk&Hi).
      { unfold l, signed_parts. right. apply in_or_app. right. now left. }
      eexists. split; [exact Hi|]. intros Lq. apply (sig_end_refused parse_float neg k x s r); [lia|exact Hsp|exact P2|exact Lq].
    - split; [exact R|]. rewrite M. unfold sent_segments, letter_header, letter_end, letter_content, L, request_letter.
      cbn [lt_size lt_version lt_dialog lt_number lt_reply lt_envelope lt_pieces lt_last opt_group]. rewrite pieces_numbered.
      rewrite <- (segment_wire_trailing (B "HNHBK") 1 3 None [[TDigits 12 size]; [TNumber (wh_version x)]; [TText dialog]; [TNumber number]]).
      reflexivity.
  Qed.
End Requests.
  Lemma anonymous_good x dialog number size today a :
    good_caller x -> good_ask today dialog number a -> number_ok size -> let l := body_parts x today dialog false a in
    let w := anonymous_message x dialog number size l in len w < 2 ^ 48 ->
    letter_ok (request_letter x dialog number size None l).
  Proof.
    intros (Hb&Hx&_) (_&Ha&_&Hda&Ht&Hy&Hn) Hsz l w Hl. unfold w in Hl. rewrite anonymous_letter in Hl.
    pose proof (proper_body x dialog Hx today false a Ha Hda Ht Hy) as P4. pose proof (body_count x today dialog false a) as Cn.
    destruct Hx as (Hv&_&_). destruct Ha as (Hne&Hd&_).
    unfold letter_ok, letter_form, request_letter in *. cbn [lt_size lt_version lt_dialog lt_number lt_reply lt_envelope lt_pieces lt_last].
    repeat (split; [assumption|]). split; [exact I|]. split; [exact I|]. split; [|split; [split; [unfold parts_end; fold l in Cn; clear - Cn; lia|exact I]|exact Hl]].
    apply Forall_forall. intros q Hq. destruct (pieces_in _ _ _ Hq) as (k&p&Hp&Hk&->). fold l in Cn.
    destruct (proj1 (Forall_forall _ _) P4 p Hp) as (Q1&Q2&Q3&Q4). split; [split; [cbn; lia|exact I]|]. cbn [pc_info info_ok].
    repeat (split; [assumption|]). split; [|intros [rest K]; now apply (Q4 rest)].
    intros vs K. exfalso. eapply body_unknown; eauto.
  Qed.
