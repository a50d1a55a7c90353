From Verif Require Import Base BaseFacts Lexer_Model Lexer_Spec Lexer_Proofs Lexer_Facts
  Codec_Model Codec_Spec Codec_Proofs Codec_Props Wire_Model Wire_Spec Wire_Proofs Wire_Facts Wire_Facts2 Wire_Facts3
  Message_Model Message_Spec Message_Proofs Message_Facts Message_Facts2 Message_Facts3
  Dialog_Model Dialog_Spec Seg_Model Seg_Spec Seg_Facts Seg_Facts2 Seg_Facts3 Seg_Facts4 Seg_Facts5 Seg_Props Seg_Props2
  Client_Model Client_Spec Answer_Spec Kept_Facts Answer_Facts Answer_Facts2 Crash_Spec Crash_Facts
  Time_Model Request_Model Request_Spec Transport_Model Log_Model Log_Facts.
From Coq Require Import Lia ZifyBool ZifyNat ZifyN.
Open Scope Z_scope.
Ltac Zify.zify_post_hook ::= Z.div_mod_to_equations.

Lemma all_ok_err {A C} (f : A -> outcome C) l :
  (forall x, In x l -> f x <> Panic) -> (exists x, In x l /\ f x = Err) -> all_ok f l = Err.
Proof.
  induction l as [|x l IH]; intros H [y [Hy E]]; [destruct Hy|]. cbn [all_ok].
  destruct (f x) as [z| |] eqn:Ex; [|reflexivity|now destruct (H x (or_introl eq_refl))]. cbn [obind].
  destruct Hy as [->|Hy]; [congruence|]. rewrite IH; [reflexivity|intros u Hu; apply H; now right|now exists y].
Qed.

(** ** Requests as letters *)
Fixpoint pieces_of (n : Z) (l : list part) : list piece :=
  match l with [] => [] | p :: r => mkPiece n None (IOther (pt_id p) (pt_version p) (pt_fields p)) :: pieces_of (n + 1) r end.
Lemma pieces_numbered l : forall n, List.concat (map piece_wire (pieces_of n l)) = numbered n l.
Proof. induction l as [|p l IH]; intros n; [reflexivity|]. cbn [pieces_of map List.concat numbered]. rewrite IH. reflexivity. Qed.
Lemma pieces_in l : forall n q, In q (pieces_of n l) -> exists k p, In p l /\ n <= k < n + Z.of_nat (List.length l) /\
  q = mkPiece k None (IOther (pt_id p) (pt_version p) (pt_fields p)).
Proof.
  induction l as [|p l IH]; intros n q H; [destruct H|]. cbn [pieces_of In List.length] in H |- *. destruct H as [<-|H].
  - exists n, p. split; [now left|]. split; [lia|reflexivity].
  - destruct (IH _ _ H) as (k&p'&Hp&Hk&->). exists k, p'. split; [now right|]. split; [lia|reflexivity].
Qed.
Lemma in_pieces l p : In p l -> forall n, exists k, n <= k < n + Z.of_nat (List.length l) /\
  In (mkPiece k None (IOther (pt_id p) (pt_version p) (pt_fields p))) (pieces_of n l).
Proof.
  induction l as [|q l IH]; intros H n; [destruct H|]. cbn [pieces_of In List.length] in H |- *. destruct H as [->|H].
  - exists n. split; [lia|now left].
  - destruct (IH H (n + 1)) as (k&Hk&Hi). exists k. split; [lia|now right].
Qed.
Definition request_letter (x : who) (dialog : bytes) (number size : Z) (env : option (Z * list (list item))) (l : list part) : letter :=
  mkLetter size (wh_version x) dialog number None env (pieces_of 2 l) (parts_end l).
Definition envelope_of (p : part) : option (Z * list (list item)) := Some (pt_version p, pt_fields p).
Lemma segment_wire_trailing id pos v ref gs : segment_wire id pos v ref (gs ++ [[]]) = segment_wire id pos v ref gs.
Proof.
  unfold segment_wire. do 2 f_equal. rewrite map_app. cbn [map]. change (group_wire []) with (@nil byte).
  change (header_bytes id pos v ref :: map group_wire gs ++ [[]]) with ((header_bytes id pos v ref :: map group_wire gs) ++ [[]]).
  induction (header_bytes id pos v ref :: map group_wire gs) as [|x l IH]; [reflexivity|]. cbn [app strip]. now rewrite IH.
Qed.
Lemma enveloped_letter x dialog number size s at_ l :
  enveloped_message x dialog number size s at_ l = letter_wire (request_letter x dialog number size (envelope_of (envelope_header x s at_)) l).
Proof.
  unfold enveloped_message, framed, letter_wire, letter_header, letter_end, letter_content, request_letter, envelope_of.
  cbn [lt_size lt_version lt_dialog lt_number lt_reply lt_envelope lt_pieces lt_last opt_group].
  rewrite pieces_numbered. rewrite <- (segment_wire_trailing (B "HNHBK") 1 3 None [[TDigits 12 size]; [TNumber (wh_version x)]; [TText dialog]; [TNumber number]]).
  reflexivity.
Qed.
Lemma anonymous_letter x dialog number size l :
  anonymous_message x dialog number size l = letter_wire (request_letter x dialog number size None l).
Proof.
  unfold anonymous_message, framed, letter_wire, letter_header, letter_end, letter_content, request_letter.
  cbn [lt_size lt_version lt_dialog lt_number lt_reply lt_envelope lt_pieces lt_last opt_group].
  rewrite pieces_numbered. rewrite <- (segment_wire_trailing (B "HNHBK") 1 3 None [[TDigits 12 size]; [TNumber (wh_version x)]; [TText dialog]; [TNumber number]]).
  reflexivity.
Qed.
Definition wire_piece_ok (q : piece) : Prop :=
  header_ok (pc_pos q) (pc_ref q) /\
  match pc_info q with IOther id v fields => part_ok (mkPart id v fields) | _ => False end.
Lemma pieces_ok l : Forall part_ok l -> Z.of_nat (List.length l) < 900 -> Forall wire_piece_ok (pieces_of 2 l).
Proof.
  intros H Hn. apply Forall_forall. intros q Hq. destruct (pieces_in _ _ _ Hq) as (k&p&Hp&Hk&->). rewrite Forall_forall in H. specialize (H p Hp).
  split; [split; [cbn; lia|exact I]|]. cbn [pc_info]. exact H.
Qed.
Lemma wire_piece_segform q : wire_piece_ok q -> segform (piece_wire q).
Proof.
  intros [_ H]. unfold piece_wire. destruct (pc_info q) as [| | | | | | | | | | |id v fields]; try contradiction. destruct H as (Ha&_&Hf&_). now apply wire_segform.
Qed.

(** What a request needs to be taken apart again. *)
Definition frame_ok (x : who) (dialog : bytes) (number size : Z) (l : list part) : Prop :=
  (wh_version x = 220 \/ wh_version x = 300) /\ number_ok size /\ number_ok number /\ item_ok (TText dialog) /\ dialog <> [] /\
  Forall part_ok l /\ Z.of_nat (List.length l) < 900.
Lemma request_form x dialog number size env l : frame_ok x dialog number size l ->
  opt_ok (fun e => 0 <= fst e <= 99 /\ Forall (Forall item_ok) (snd e)) env ->
  len (letter_wire (request_letter x dialog number size env l)) < 2 ^ 48 ->
  letter_form wire_piece_ok (request_letter x dialog number size env l).
Proof.
  intros (Hv&Hs&Hn&Hd&Hne&Hp&Hc) He Hl. unfold letter_form, request_letter. cbn [lt_size lt_version lt_dialog lt_number lt_reply lt_envelope lt_pieces lt_last].
  repeat (split; [assumption|]). split; [exact I|]. split; [exact He|]. split; [now apply pieces_ok|].
  split; [|exact Hl]. split; [unfold parts_end; lia|exact I].
Qed.

Section Reader.
  Context {F : Type} (parse_float : bytes -> option F) (neg : F -> F).
  Notation reader := (others parse_float neg).

  Lemma letter_refused l v fields : letter_form wire_piece_ok l -> lt_envelope l = Some (v, fields) ->
    (forall q, In q (lt_pieces l) -> len (piece_wire q) < 2 ^ 61 -> unmarshal_one reader (piece_wire q) <> Panic) ->
    (exists q, In q (lt_pieces l) /\ (len (piece_wire q) < 2 ^ 61 -> unmarshal_one reader (piece_wire q) = Err)) ->
    read_response reader (letter_wire l) = Err /\
    message_extract (letter_wire l) = Ok [letter_header l; segment_wire (B "HNVSK") 998 v None fields;
      segment_wire (B "HNVSD") 999 1 None [[TBinary (letter_content l)]]; letter_end l].
  Proof.
    intros Hok Env Hnp Herr. pose proof Hok as (Hv&H1&H2&H3&H4&H5&H6&H7&H8&Hl).
    change (Z.of_nat (List.length (letter_wire l))) with (len (letter_wire l)) in Hl.
    assert (Lh : len (letter_header l) <= len (letter_wire l)) by (unfold letter_wire; rewrite len_app; match goal with |- _ <= _ + len ?x => pose proof (len_nonneg x) end; lia).
    assert (Le : len (letter_end l) <= len (letter_wire l)).
    { unfold letter_wire. rewrite !len_app. pose proof (len_nonneg (letter_header l)).
      match goal with |- _ <= _ + (len ?x + _) => pose proof (len_nonneg x) end. lia. }
    destruct (letter_header_read _ l Hok ltac:(lia)) as [size Hr].
    destruct (header_frame parse_float neg _ l Hok ltac:(lia)) as [Fh Sh]. destruct (end_frame parse_float neg _ l Hok ltac:(lia)) as [Fe Se].
    set (h := mkMH 1 size (Some (lt_version l)) (Some (utf8 (lt_dialog l))) (Some (lt_number l))
      (option_map (fun r => (utf8 (escaped (fst r)), snd r)) (lt_reply l))) in *.
    assert (Bh : has_prefix (B "HNHBK") (letter_header l) = true) by (apply prefix_true, (starts_weaken _ [b_colon]), wire_starts).
    assert (Nh : has_prefix (B "HNVSK") (letter_header l) = false) by (apply (no_prefix _ (B "HNHBK")); [apply wire_starts|prove_absent|intros [r K]; discriminate]).
    rewrite Env in H6. cbn [opt_ok fst snd] in H6. destruct H6 as [H6 H6'].
    set (ks := segment_wire (B "HNVSK") 998 v None fields) in *.
    set (ds := segment_wire (B "HNVSD") 999 1 None [[TBinary (letter_content l)]]) in *.
    assert (Ew : letter_wire l = List.concat [letter_header l; ks; ds; letter_end l]).
    { unfold letter_wire. rewrite Env. cbn [List.concat]. fold ks ds. now rewrite app_nil_r, <- app_assoc. }
    assert (Ls : len ds <= len (letter_wire l)) by (rewrite Ew; apply concat_len; do 2 right; now left).
    assert (Lc : len (letter_content l) <= len ds).
    { pose proof (in_wire_len (group_wire [TBinary (letter_content l)]) (B "HNVSD") 999 1 None [[TBinary (letter_content l)]] ltac:(right; now left)) as K.
      fold ds in K. rewrite single_wire in K. cbn [item_wire] in K.
      change ("@"%byte :: itoa_N (N.of_nat (List.length (letter_content l))) ++ "@"%byte :: letter_content l)
        with (["@"%byte] ++ itoa_N (N.of_nat (List.length (letter_content l))) ++ ["@"%byte] ++ letter_content l) in K.
      rewrite !len_app in K. change (len ["@"%byte]) with 1 in K. pose proof (len_nonneg (itoa_N (N.of_nat (List.length (letter_content l))))). lia. }
    assert (Hx : message_extract (letter_wire l) = Ok [letter_header l; ks; ds; letter_end l]).
    { rewrite Ew in *. apply message_extract_concat; [|lia]. constructor; [exact Sh|].
      constructor; [apply wire_segform; [reflexivity|exact H6']|]. constructor; [|constructor; [exact Se|constructor]].
      apply wire_segform; [reflexivity|]. constructor; [|constructor]. constructor; [|constructor]. cbn [item_ok]. change (Z.of_nat (List.length (letter_content l))) with (len (letter_content l)). lia. }
    split; [|exact Hx]. unfold read_response.
    rewrite (extract_state _ _ Hx). cbn [obind]. unfold find_segment. cbn [se_segments find]. rewrite Bh, Nh, Hr. cbn [obind].
    rewrite (prefix_true (B "HNVSK") ks) by (apply (starts_weaken _ [b_colon]), wire_starts).
    rewrite (no_prefix (B "HNVSD") (B "HNHBK") (letter_header l)) by (try apply wire_starts; try prove_absent; intros [r K]; discriminate).
    rewrite (no_prefix (B "HNVSD") (B "HNVSK") ks) by (try apply wire_starts; try prove_absent; intros [r K]; discriminate).
    rewrite (prefix_true (B "HNVSD") ds) by (apply (starts_weaken _ [b_colon]), wire_starts).
    unfold ds at 1. rewrite data_read; [|fold ds; lia|change (Z.of_nat (List.length (letter_content l))) with (len (letter_content l)); lia]. cbn [obind].
    assert (L : forall q, In q (lt_pieces l) -> len (piece_wire q) < 2 ^ 61).
    { intros q Hq. pose proof (concat_len (map piece_wire (lt_pieces l)) (piece_wire q) (in_map _ _ _ Hq)) as K. fold (letter_content l) in K. lia. }
    unfold new_decrypted, unmarshal_all. unfold letter_content at 1. rewrite message_extract_concat.
    2:{ apply Forall_map. eapply Forall_impl; [|exact H7]. exact wire_piece_segform. }
    2:{ fold (letter_content l). lia. }
    cbn [obind]. rewrite all_ok_err; [reflexivity| |].
    - intros y Hy. apply in_map_iff in Hy. destruct Hy as (q&<-&Hq). apply Hnp; auto.
    - destruct Herr as (q&Hq&E). exists (piece_wire q). split; [now apply in_map|]. apply E. auto.
  Qed.

  (** A part nobody reads. *)
  Lemma unknown_part n p : 0 <= n <= 999 -> part_ok p -> (forall vs, ~ In (pt_id p, vs) readable) -> len (part_wire n p) < 2 ^ 61 ->
    unmarshal_one reader (part_wire n p) = Ok None.
  Proof.
    intros Hn (Hid&Hv&Hf&_) Hr Hl. unfold part_wire in *. unfold unmarshal_one. rewrite wire_header; try assumption; [|split; [exact Hn|exact I]].
    cbn [obind sh_id sh_version]. assert (K : known reader (pt_id p) (pt_version p) = None); [|now rewrite K].
    unfold known, others. repeat match goal with |- context [bytes_eqb (pt_id p) ?i] =>
      replace (bytes_eqb (pt_id p) i) with false by (symmetry; apply bytes_eqb_neq; intros E; eapply Hr; rewrite E; unfold readable; cbn [In]; eauto 40)
      end. reflexivity.
  Qed.
End Reader.
