From Verif Require Import Base BaseFacts Lexer_Model Lexer_Spec Lexer_Proofs Lexer_Facts
  Codec_Model Codec_Spec Codec_Proofs Codec_Props Wire_Model Wire_Spec Wire_Proofs Wire_Facts Wire_Facts2 Wire_Facts3
  Message_Model Message_Spec Message_Proofs Message_Facts Message_Facts2 Message_Facts3
  Dialog_Model Dialog_Spec Seg_Model Seg_Spec Seg_Facts Seg_Facts2 Seg_Facts3 Seg_Facts4 Seg_Facts5 Seg_Props Seg_Props2
  Answer_Spec Kept_Facts Answer_Facts.
From Coq Require Import Lia ZifyBool ZifyNat ZifyN.
Open Scope Z_scope.
Ltac Zify.zify_post_hook ::= Z.div_mod_to_equations.

(** ** Header and end *)
Lemma header_fields P l : letter_form P l -> Forall (Forall item_ok)
  [[TDigits 12 (lt_size l)]; [TNumber (lt_version l)]; [TText (lt_dialog l)]; [TNumber (lt_number l)]; opt_group reply_items (lt_reply l)].
Proof.
  intros (Hv&H1&H2&H3&_&H4&_).
  constructor; [constructor; [exact H1|constructor]|]. constructor; [apply number_item; unfold number_ok; lia|].
  constructor; [constructor; [exact H3|constructor]|]. constructor; [now apply number_item|]. constructor; [|constructor].
  destruct (lt_reply l) as [r|]; [apply H4|constructor].
Qed.
Lemma msg_header_fields s es h r hd : segment_extract s = Ok es -> es = h :: r -> unmarshal_header h = Ok hd ->
  unmarshal_msg_header s =
      (do size <- opt_parse unmarshal_int (nonempty_nth 1 es);
      do ver <- opt_parse unmarshal_int (nonempty_nth 2 es);
      do dlg <- opt_parse (fun w => Ok (unmarshal_text w)) (nonempty_nth 3 es);
      do num <- opt_parse unmarshal_int (nonempty_nth 4 es);
      do ref <- opt_parse (fun _ => unmarshal_ref (join [b_plus] (skipn 5 es))) (nonempty_nth 5 es);
      Ok (mkMH (sh_pos hd) (option_map (fun z => (List.length (nth 1 es []), z)) size) ver dlg num ref)).
Proof. intros H -> Hh. unfold unmarshal_msg_header. rewrite H. cbn [obind]. rewrite Hh. reflexivity. Qed.
Lemma letter_header_read P l : letter_form P l -> len (letter_header l) < 2 ^ 61 ->
  exists size, unmarshal_msg_header (letter_header l) =
    Ok (mkMH 1 size (Some (lt_version l)) (Some (utf8 (lt_dialog l))) (Some (lt_number l))
      (option_map (fun r => (utf8 (escaped (fst r)), snd r)) (lt_reply l))).
Proof.
  intros Hok Hl. pose proof (header_fields _ l Hok) as Hf. destruct Hok as (Hv&H1&H2&H3&Hne&H4&_). unfold letter_header in *.
  set (gs := [[TDigits 12 (lt_size l)]; [TNumber (lt_version l)]; [TText (lt_dialog l)]; [TNumber (lt_number l)]; opt_group reply_items (lt_reply l)]) in *.
  assert (S : forall g, In g gs -> len (group_wire g) < 2 ^ 61) by (intros g Hg; now apply (element_small g _ _ _ _ _ Hg) in Hl).
  rewrite (msg_header_fields _ (wire_elements (B "HNHBK") 1 3 None gs) (header_bytes (B "HNHBK") 1 3 None) (strip (map group_wire gs)) (mkSH (B "HNHBK") 1 3 None)).
  2:{ apply segment_wire_elements; [reflexivity|exact Hf|exact Hl]. }
  2:{ apply wire_elements_eq. }
  2:{ apply header_read; [reflexivity|unfold header_ok; lia|lia|].
      pose proof (in_wire_len (header_bytes (B "HNHBK") 1 3 None) (B "HNHBK") 1 3 None gs ltac:(now left)). lia. }
  cbn [sh_pos].
  unfold wire_elements. set (es := header_bytes (B "HNHBK") 1 3 None :: map group_wire gs).
  assert (F1 : opt_parse unmarshal_int (nonempty_nth 1 (strip es)) = Ok (Some (lt_size l))).
  { change (field 1 unmarshal_int (strip es) = Ok (Some (lt_size l))). rewrite field_strip.
    apply (field_some unmarshal_int (fun n => [TDigits 12 n]) number_ok (fun n => n)); [|reflexivity|exact H1|apply S; now left].
    intros n Hn _. rewrite single_wire. split; [now apply item_present|now apply digits_read]. }
  assert (F2 : opt_parse unmarshal_int (nonempty_nth 2 (strip es)) = Ok (Some (lt_version l))).
  { change (field 2 unmarshal_int (strip es) = Ok (Some (lt_version l))). rewrite field_strip.
    apply (field_some _ _ _ _ 2 es (lt_version l) reads_number); [reflexivity|lia|apply S; right; now left]. }
  assert (F3 : opt_parse (fun w => Ok (unmarshal_text w)) (nonempty_nth 3 (strip es)) = Ok (Some (utf8 (lt_dialog l)))).
  { change (field 3 text (strip es) = Ok (Some (utf8 (lt_dialog l)))). rewrite field_strip.
    apply (field_some _ _ _ _ 3 es (lt_dialog l) reads_text); [reflexivity|exact Hne|apply S; right; right; now left]. }
  assert (F4 : opt_parse unmarshal_int (nonempty_nth 4 (strip es)) = Ok (Some (lt_number l))).
  { change (field 4 unmarshal_int (strip es) = Ok (Some (lt_number l))). rewrite field_strip.
    apply (field_some _ _ _ _ 4 es (lt_number l) reads_number); [reflexivity|exact H2|apply S; do 3 right; now left]. }
  assert (F5 : opt_parse (fun _ => unmarshal_ref (join [b_plus] (skipn 5 (strip es)))) (nonempty_nth 5 (strip es)) =
    Ok (option_map (fun r => (utf8 (escaped (fst r)), snd r)) (lt_reply l))).
  { change (last_field 5 unmarshal_ref (strip es) = Ok (option_map (fun r => (utf8 (escaped (fst r)), snd r)) (lt_reply l))).
    rewrite last_field_strip by reflexivity.
    apply (field_opt _ _ _ _ 5 es (lt_reply l) reads_reply); [reflexivity|exact H4|apply S; do 4 right; now left]. }
  rewrite F1, F2, F3, F4. cbn [obind]. rewrite F5. cbn [obind]. eexists. reflexivity.
Qed.
Lemma data_read data : len (segment_wire (B "HNVSD") 999 1 None [[TBinary data]]) < 2 ^ 61 -> Z.of_nat (List.length data) <= 2 ^ 48 ->
  unmarshal_data_seg (segment_wire (B "HNVSD") 999 1 None [[TBinary data]]) = Ok (Some data).
Proof.
  intros Hl Hd. unfold unmarshal_data_seg. rewrite segment_wire_elements; [|reflexivity| |exact Hl].
  2:{ constructor; [constructor; [exact Hd|constructor]|constructor]. }
  cbn [obind]. rewrite wire_elements_eq. rewrite header_read; [|reflexivity|unfold header_ok; lia|lia|].
  2:{ pose proof (in_wire_len (header_bytes (B "HNVSD") 999 1 None) (B "HNVSD") 999 1 None [[TBinary data]] ltac:(now left)). lia. }
  cbn [obind map]. rewrite single_wire. pose proof (item_present (TBinary data) I) as Hne.
  rewrite strip_full by (constructor; [exact Hne|constructor]). pose proof (binary_read data Hd) as R.
  destruct (item_wire (TBinary data)) as [|x w] eqn:E; [congruence|]. cbn [join]. change (join [b_plus] [x :: w]) with (x :: w).
  rewrite R. reflexivity.
Qed.

(** ** The whole message *)
Lemma somes_app {A} (a b : list (option A)) : somes (a ++ b) = somes a ++ somes b.
Proof. unfold somes. apply flat_map_app. Qed.
Lemma by_id_app {P} id (a b : list (bytes * parsed P)) : segments_by_id id (a ++ b) = segments_by_id id a ++ segments_by_id id b.
Proof. unfold segments_by_id. now rewrite filter_app, map_app. Qed.
Lemma concat_len (ws : list bytes) w : In w ws -> len w <= len (List.concat ws).
Proof.
  induction ws as [|x ws IH]; [intros []|]. intros [->|H]; cbn [List.concat]; rewrite len_app.
  - pose proof (len_nonneg (List.concat ws)). lia.
  - specialize (IH H). pose proof (len_nonneg x). lia.
Qed.

Section Letter.
  Context {F : Type} (parse_float : bytes -> option F) (neg : F -> F) (value : N -> bytes -> F).
  Hypothesis Hfloat : reads_decimals parse_float value.
  Notation reader := (others parse_float neg).
  Notation parsed := (parsed (oseg (account_information F))).

  (** Segments of the frame around the content. *)
  Definition frame_id (id : bytes) : Prop := id = B "HNHBK" \/ id = B "HNHBS".
  Definition frame (s : bytes) : Prop :=
    exists i o h, frame_id i /\ unmarshal_one reader s = Ok (Some (i, POther o)) /\ extract_header s = Ok h /\ sh_id h = i.
  Lemma frames ws : Forall frame ws -> exists os, Forall2 (fun s o => unmarshal_one reader s = Ok o) ws os /\
    (forall id, ~ frame_id id -> segments_by_id id (somes os) = []) /\
    flat_map (fun s => match extract_header s with
                       | Ok h => if (Z.of_nat (List.length (sh_id h)) <=? 5) then [] else [(sh_id h, sh_version h)]
                       | _ => [] end) ws = [].
  Proof.
    induction 1 as [|s ws (i&o&h&Hi&Ho&Hh&Eh) _ (os&I1&I2&I3)]; [exists []; repeat split; constructor|].
    exists (Some (i, POther o) :: os). split; [constructor; assumption|]. split.
    - intros id Hid. unfold somes. cbn [flat_map app]. fold (somes os). unfold segments_by_id. cbn [filter fst].
      rewrite bytes_eqb_neq by (intros ->; contradiction). apply I2, Hid.
    - cbn [flat_map]. rewrite Hh, Eh, I3. destruct Hi as [-> | ->]; reflexivity.
  Qed.
  Lemma pieces_parsed ps : Forall piece_ok ps -> Forall (fun p => len (piece_wire p) < 2 ^ 61) ps ->
    Forall segform (map piece_wire ps) /\
    Forall2 (fun s o => unmarshal_one reader s = Ok o) (map piece_wire ps) (map (@piece_parsed F) ps) /\
    flat_map (fun s => match extract_header s with
                       | Ok h => if (Z.of_nat (List.length (sh_id h)) <=? 5) then [] else [(sh_id h, sh_version h)]
                       | _ => [] end) (map piece_wire ps) =
    flat_map (fun p => if (5 <? List.length (info_id (pc_info p)))%nat
                     then [(info_id (pc_info p), info_version (pc_info p))] else []) ps.
  Proof.
    induction 1 as [|p ps Hp _ IH]; intros Hl; [repeat split; constructor|]. inversion Hl as [|? ? L Ls]; subst.
    destruct (IH Ls) as (I1&I2&I3). destruct (piece_header p Hp L) as [P1 P2]. cbn [map flat_map]. rewrite P2, I3. cbn [sh_id sh_version].
    split; [constructor; assumption|]. split; [constructor; [now apply (piece_one parse_float neg value)|assumption]|].
    f_equal. destruct (5 <? List.length (info_id (pc_info p)))%nat eqn:E; destruct (_ <=? 5) eqn:E2; try reflexivity; lia.
  Qed.
  Lemma pieces_messages m ps :
    match segments_by_id (B "HIRMG") (somes (map (@piece_parsed F) ps)) with
    | PMsgAcks l :: _ => map (set_ref_msg m) l
    | _ => []
    end = message_notices m ps.
  Proof.
    induction ps as [|p ps IH]; [reflexivity|]. cbn [map message_notices].
    assert (S : forall x, piece_parsed p = x -> segments_by_id (B "HIRMG") (somes (piece_parsed p :: map (@piece_parsed F) ps)) =
      segments_by_id (B "HIRMG") (somes [x]) ++ segments_by_id (B "HIRMG") (somes (map (@piece_parsed F) ps))).
    { intros x <-. change (piece_parsed p :: map (@piece_parsed F) ps) with ([@piece_parsed F p] ++ map (@piece_parsed F) ps).
      now rewrite somes_app, by_id_app. }
    rewrite (S _ eq_refl). clear S. unfold piece_parsed at 1, piece_value. destruct p as [pos ref i]. cbn [pc_info pc_ref].
    destruct i; cbn [option_map info_id somes flat_map app];
      try exact IH; try (destruct k; exact IH).
    unfold segments_by_id at 1. cbn [filter fst]. rewrite bytes_eqb_refl. cbn [map snd app]. rewrite map_map. reflexivity.
  Qed.
  Lemma pieces_segments ps :
    all_ok (@seg_acks (oseg (account_information F))) (segments_by_id (B "HIRMS") (somes (map (@piece_parsed F) ps))) =
    Ok (flat_map (fun p => match pc_info p with
                     | ISegment l => [map (notice_value false ([], 0) (match pc_ref p with Some n => n | None => -1 end)) l]
                     | _ => []
                     end) ps).
  Proof.
    induction ps as [|p ps IH]; [reflexivity|]. cbn [map flat_map].
    change (piece_parsed p :: map (@piece_parsed F) ps) with ([@piece_parsed F p] ++ map (@piece_parsed F) ps).
    rewrite somes_app, by_id_app. unfold piece_parsed at 1, piece_value. destruct p as [pos ref i]. cbn [pc_info pc_ref].
    destruct i; cbn [option_map info_id somes flat_map app]; try exact IH; try (destruct k; exact IH).
    all: try (unfold segments_by_id at 1; cbn [filter fst]; rewrite bytes_eqb_refl; cbn [map snd app all_ok seg_acks obind]; now rewrite IH).
  Qed.
  Lemma pieces_others id ps : id <> B "HIRMG" -> id <> B "HIRMS" ->
    map (fun x : bytes * parsed => match snd x with POther o => o | _ => OSeg [] end)
        (filter (fun x => bytes_eqb (fst x) id) (somes (map (@piece_parsed F) ps))) =
    flat_map (fun p => if list_eq_dec byte_eq_dec (info_id (pc_info p)) id
                     then match piece_value p with Some o => [o] | None => [] end else []) ps.
  Proof.
    intros N1 N2. induction ps as [|p ps IH]; [reflexivity|]. cbn [map flat_map].
    change (piece_parsed p :: map (@piece_parsed F) ps) with ([@piece_parsed F p] ++ map (@piece_parsed F) ps).
    rewrite somes_app, filter_app, map_app, IH. f_equal. destruct p as [pos ref i]. unfold piece_parsed, piece_value. cbn [pc_info pc_ref].
    destruct i; cbn [option_map info_id somes flat_map app filter fst];
      match goal with |- context [list_eq_dec byte_eq_dec ?a ?b] => destruct (list_eq_dec byte_eq_dec a b) as [E|E] end;
      try (rewrite bytes_eqb_neq by (intros K; apply E; exact K)); try reflexivity.
    all: try (rewrite E, bytes_eqb_refl; reflexivity).
    all: congruence.
  Qed.
  Lemma flat_concat {A C} (f : A -> list (list C)) l : List.concat (flat_map f l) = flat_map (fun x => List.concat (f x)) l.
  Proof. induction l as [|x l IH]; [reflexivity|]. cbn [flat_map]. now rewrite concat_app, IH. Qed.
  Lemma content_read h pre ps post :
    Forall frame pre -> Forall segform pre -> Forall frame post -> Forall segform post -> Forall piece_ok ps ->
    len (List.concat (pre ++ map piece_wire ps ++ post)) < 2 ^ 61 -> (mh_hbci h = Some 220 \/ mh_hbci h = Some 300) ->
    exists m, new_decrypted reader h (List.concat (pre ++ map piece_wire ps ++ post)) = Ok m /\
      bm_header m = h /\ bm_acks m = message_notices (referencing_message h) ps ++ segment_notices ps /\
      (forall id, ~ In id [B "HIRMG"; B "HIRMS"; B "HNHBK"; B "HNHBS"] ->
         segs m id = flat_map (fun p => if list_eq_dec byte_eq_dec (info_id (pc_info p)) id
                     then match piece_value p with Some o => [o] | None => [] end else []) ps) /\
      supported_segments m = flat_map (fun p => if (5 <? List.length (info_id (pc_info p)))%nat
                     then [(info_id (pc_info p), info_version (pc_info p))] else []) ps /\
      bm_raw m = pre ++ map piece_wire ps ++ post.
  Proof.
    intros F1 S1 F2 S2 Hp Hl Hv. destruct (frames pre F1) as (o1&A1&A2&A3). destruct (frames post F2) as (o2&B1&B2&B3).
    assert (L : Forall (fun p => len (piece_wire p) < 2 ^ 61) ps).
    { apply Forall_forall. intros p Hin. pose proof (concat_len (pre ++ map piece_wire ps ++ post) (piece_wire p)) as K.
      assert (In (piece_wire p) (pre ++ map piece_wire ps ++ post)) by (apply in_or_app; right; apply in_or_app; left; now apply in_map).
      specialize (K H). lia. }
    destruct (pieces_parsed ps Hp L) as (P1&P2&P3).
    assert (Hx : message_extract (List.concat (pre ++ map piece_wire ps ++ post)) = Ok (pre ++ map piece_wire ps ++ post)).
    { apply message_extract_concat; [|lia]. apply Forall_app. split; [exact S1|]. apply Forall_app. split; assumption. }
    assert (Ha : all_ok (unmarshal_one reader) (pre ++ map piece_wire ps ++ post) = Ok (o1 ++ map (@piece_parsed F) ps ++ o2)).
    { apply all_ok_Forall2. apply Forall2_app; [exact A1|]. apply Forall2_app; assumption. }
    assert (Hid : forall id, ~ frame_id id -> segments_by_id id (somes (o1 ++ map (@piece_parsed F) ps ++ o2)) =
      segments_by_id id (somes (map (@piece_parsed F) ps))).
    { intros id Hid. rewrite !somes_app, !by_id_app, A2, B2 by exact Hid. apply app_nil_r. }
    unfold new_decrypted, unmarshal_all. rewrite Hx. cbn [obind]. rewrite Ha. cbn [obind].
    rewrite !Hid by (intros [K|K]; discriminate). rewrite pieces_messages, pieces_segments. cbn [obind]. rewrite flat_concat.
    exists (mkBM h (message_notices (referencing_message h) ps ++ segment_notices ps) (somes (o1 ++ map (@piece_parsed F) ps ++ o2))
      (pre ++ map piece_wire ps ++ post)).
    split.
    { destruct Hv as [-> | ->]; cbn [Z.eqb Pos.eqb orb]; do 2 f_equal; f_equal; apply flat_map_ext; intros [pos ref []]; cbn; try reflexivity;
        now rewrite app_nil_r. }
    cbn [bm_header bm_acks bm_raw]. split; [reflexivity|]. split; [reflexivity|]. split; [|split; [|reflexivity]].
    - intros id N. assert (K : ~ frame_id id) by (intros [-> | ->]; apply N; cbn; auto).
      unfold segs. cbn [bm_segments]. rewrite <- pieces_others by (intros ->; apply N; cbn; auto).
      specialize (Hid id K). unfold segments_by_id in Hid.
      rewrite <- (map_map snd (fun x : parsed => match x with POther o => o | _ => OSeg [] end)). rewrite Hid. now rewrite map_map.
    - unfold supported_segments. cbn [bm_raw]. rewrite !flat_map_app, A3, B3, P3. apply app_nil_r.
  Qed.

  Lemma header_frame P l : letter_form P l -> len (letter_header l) < 2 ^ 61 -> frame (letter_header l) /\ segform (letter_header l).
  Proof.
    intros Hok Hl. pose proof (header_fields _ l Hok) as Hf. destruct (letter_header_read _ l Hok Hl) as [size Hr].
    assert (E : extract_header (letter_header l) = Ok (mkSH (B "HNHBK") 1 3 None))
      by (apply wire_header; [reflexivity|unfold header_ok; lia|lia|exact Hf|exact Hl]).
    split; [|apply wire_segform; [reflexivity|exact Hf]].
    exists (B "HNHBK"), (OSeg (letter_header l)), (mkSH (B "HNHBK") 1 3 None). split; [now left|].
    split; [|split; [exact E|reflexivity]]. unfold unmarshal_one. rewrite E. cbn [obind sh_id sh_version].
    change (known reader (B "HNHBK") 3) with (Some (fun s => omap (@POther (oseg (account_information F))) (do _ <- unmarshal_msg_header s; Ok (OSeg s)))).
    cbv beta iota. rewrite Hr. reflexivity.
  Qed.
  Lemma end_frame P l : letter_form P l -> len (letter_end l) < 2 ^ 61 -> frame (letter_end l) /\ segform (letter_end l).
  Proof.
    intros (_&_&Hn&_&_&_&_&_&Hh&_) Hl. assert (Hf : Forall (Forall item_ok) [[TNumber (lt_number l)]]) by (constructor; [now apply number_item|constructor]).
    assert (E : extract_header (letter_end l) = Ok (mkSH (B "HNHBS") (lt_last l) 1 None))
      by (apply wire_header; [reflexivity|exact Hh|lia|exact Hf|exact Hl]).
    split; [|apply wire_segform; [reflexivity|exact Hf]].
    exists (B "HNHBS"), (OSeg (letter_end l)), (mkSH (B "HNHBS") (lt_last l) 1 None). split; [now right|].
    split; [|split; [exact E|reflexivity]]. unfold unmarshal_one. rewrite E. cbn [obind sh_id sh_version].
    change (known reader (B "HNHBS") 1) with (Some (fun s => omap (@POther (oseg (account_information F))) (do _ <- unmarshal_hnhbs s; Ok (OSeg s)))).
    cbv beta iota. unfold unmarshal_hnhbs, letter_end in *. rewrite segment_wire_read; [|reflexivity|exact Hh|lia|exact Hf|exact Hl].
    unfold wire_elements. rewrite last_field_strip by reflexivity.
    rewrite (field_some _ _ _ _ 1 _ (lt_number l) reads_number); [reflexivity|reflexivity|exact Hn|].
    eapply element_small; [|exact Hl]. now left.
  Qed.
  Lemma piece_no_envelope p : piece_ok p -> has_prefix (B "HNVSK") (piece_wire p) = false.
  Proof.
    intros [_ Hi]. rewrite piece_wire_eq. eapply no_prefix; [apply wire_starts|prove_absent|].
    destruct (pc_info p); cbn [info_id]; try (intros [r K]; discriminate); [|apply Hi].
    destruct k; intros [r K]; discriminate.
  Qed.
  Lemma letter_read l : letter_ok l -> exists m, read_response reader (letter_wire l) = Ok m /\
    mh_hbci (bm_header m) = Some (lt_version l) /\ mh_dialog (bm_header m) = Some (utf8 (lt_dialog l)) /\
    mh_number (bm_header m) = Some (lt_number l) /\ referencing_message (bm_header m) = reply_value l /\
    bm_acks m = letter_acks l /\
    (forall id, ~ In id [B "HIRMG"; B "HIRMS"; B "HNHBK"; B "HNHBS"] -> segs m id = letter_segs l id) /\
    supported_segments m = letter_offers l /\ bm_raw m = letter_raw l.
  Proof.
    intros Hok. pose proof Hok as (Hv&H1&H2&H3&H4&H5&H6&H7&H8&Hl).
    change (Z.of_nat (List.length (letter_wire l))) with (len (letter_wire l)) in Hl.
    assert (Lh : len (letter_header l) <= len (letter_wire l)) by (unfold letter_wire; rewrite len_app; match goal with |- _ <= _ + len ?x => pose proof (len_nonneg x) end; lia).
    assert (Le : len (letter_end l) <= len (letter_wire l)).
    { unfold letter_wire. rewrite !len_app. pose proof (len_nonneg (letter_header l)).
      match goal with |- _ <= _ + (len ?x + _) => pose proof (len_nonneg x) end. lia. }
    destruct (letter_header_read _ l Hok ltac:(lia)) as [size Hr].
    destruct (header_frame _ l Hok ltac:(lia)) as [Fh Sh]. destruct (end_frame _ l Hok ltac:(lia)) as [Fe Se].
    set (h := mkMH 1 size (Some (lt_version l)) (Some (utf8 (lt_dialog l))) (Some (lt_number l))
      (option_map (fun r => (utf8 (escaped (fst r)), snd r)) (lt_reply l))) in *.
    assert (Rh : referencing_message h = reply_value l) by (unfold referencing_message, reply_value, h; cbn [mh_ref]; destruct (lt_reply l); reflexivity).
    assert (Bh : has_prefix (B "HNHBK") (letter_header l) = true) by (apply prefix_true, (starts_weaken _ [b_colon]), wire_starts).
    assert (Vh : mh_hbci h = Some 220 \/ mh_hbci h = Some 300) by (unfold h; cbn [mh_hbci]; destruct Hv as [-> | ->]; auto).
    assert (Nh : has_prefix (B "HNVSK") (letter_header l) = false) by (apply (no_prefix _ (B "HNHBK")); [apply wire_starts|prove_absent|intros [r K]; discriminate]).
    assert (Ne : has_prefix (B "HNVSK") (letter_end l) = false) by (apply (no_prefix _ (B "HNHBS")); [apply wire_starts|prove_absent|intros [r K]; discriminate]).
    unfold letter_acks, letter_segs, letter_offers, letter_raw in *. unfold read_response.
    destruct (lt_envelope l) as [[v fields]|] eqn:Env.
    - cbn [opt_ok fst snd] in H6. destruct H6 as [H6 H6'].
      set (ks := segment_wire (B "HNVSK") 998 v None fields) in *.
      set (ds := segment_wire (B "HNVSD") 999 1 None [[TBinary (letter_content l)]]) in *.
      assert (Ew : letter_wire l = List.concat [letter_header l; ks; ds; letter_end l]).
      { unfold letter_wire. rewrite Env. cbn [List.concat]. fold ks ds. now rewrite app_nil_r, <- app_assoc. }
      assert (Ls : len ds <= len (letter_wire l)) by (rewrite Ew; apply concat_len; do 2 right; now left).
      assert (Lc : len (letter_content l) <= len ds).
      { pose proof (in_wire_len (group_wire [TBinary (letter_content l)]) (B "HNVSD") 999 1 None [[TBinary (letter_content l)]] ltac:(right; now left)) as K.
        fold ds in K. rewrite single_wire in K. cbn [item_wire] in K.
        change ("@"%byte :: itoa_N (N.of_nat (List.length (letter_content l))) ++ "@"%byte :: letter_content l)
          with (["@"%byte] ++ itoa_N (N.of_nat (List.length (letter_content l))) ++ ["@"%byte] ++ letter_content l) in K.
        rewrite !len_app in K. change (len ["@"%byte]) with 1 in K. pose proof (len_nonneg (itoa_N (N.of_nat (List.length (letter_content l))))). lia. }
      assert (Hx : message_extract (letter_wire l) = Ok [letter_header l; ks; ds; letter_end l]).
      { rewrite Ew in *. apply message_extract_concat; [|lia]. constructor; [exact Sh|].
        constructor; [apply wire_segform; [reflexivity|exact H6']|]. constructor; [|constructor; [exact Se|constructor]].
        apply wire_segform; [reflexivity|]. constructor; [|constructor]. constructor; [|constructor]. cbn [item_ok]. change (Z.of_nat (List.length (letter_content l))) with (len (letter_content l)). lia. }
      rewrite (extract_state _ _ Hx). cbn [obind]. unfold find_segment. cbn [se_segments find]. rewrite Bh, Nh, Hr. cbn [obind].
      rewrite (prefix_true (B "HNVSK") ks) by (apply (starts_weaken _ [b_colon]), wire_starts).
      rewrite (no_prefix (B "HNVSD") (B "HNHBK") (letter_header l)) by (try apply wire_starts; try prove_absent; intros [r K]; discriminate).
      rewrite (no_prefix (B "HNVSD") (B "HNVSK") ks) by (try apply wire_starts; try prove_absent; intros [r K]; discriminate).
      rewrite (prefix_true (B "HNVSD") ds) by (apply (starts_weaken _ [b_colon]), wire_starts).
      unfold ds at 1. rewrite data_read; [|fold ds; lia|change (Z.of_nat (List.length (letter_content l))) with (len (letter_content l)); lia]. cbn [obind].
      destruct (content_read h [] (lt_pieces l) []) as (m&M1&M2&M3&M4&M5&M6); try assumption; try apply Forall_nil.
      { cbn [app]. rewrite app_nil_r. fold (letter_content l). lia. }
      cbn [app] in M1, M6. rewrite app_nil_r in M1, M6. exists m. split; [exact M1|]. rewrite M2, M3, M5, M6, Rh. unfold h. cbn [mh_hbci mh_dialog mh_number].
      repeat (split; [reflexivity|]). split; [exact M4|]. split; reflexivity.
    - assert (Ew : letter_wire l = List.concat ([letter_header l] ++ map piece_wire (lt_pieces l) ++ [letter_end l])).
      { unfold letter_wire. rewrite Env. rewrite !concat_app. cbn [List.concat]. now rewrite !app_nil_r. }
      destruct (content_read h [letter_header l] (lt_pieces l) [letter_end l]) as (m&M1&M2&M3&M4&M5&M6); try assumption; try (constructor; [assumption|constructor]).
      { rewrite <- Ew. lia. }
      rewrite <- Ew in M1.
      assert (Hx : message_extract (letter_wire l) = Ok ([letter_header l] ++ map piece_wire (lt_pieces l) ++ [letter_end l])).
      { rewrite Ew in *. apply message_extract_concat; [|lia]. constructor; [exact Sh|]. apply Forall_app. split; [|constructor; [exact Se|constructor]].
        apply Forall_map. eapply Forall_impl; [|exact H7]. intros p [_ Hi]. rewrite piece_wire_eq. apply wire_segform; [now apply info_head|now apply info_items]. }
      rewrite (extract_state _ _ Hx). cbn [obind]. unfold find_segment. cbn [se_segments find app]. rewrite Bh, Nh, Hr. cbn [obind].
      assert (Nf : find (has_prefix (B "HNVSK")) (map piece_wire (lt_pieces l) ++ [letter_end l]) = None).
      { clear - H7 Ne. induction H7 as [|p ps Hp _ IH]; [cbn [map app find]; now rewrite Ne|]. cbn [map app find].
        rewrite piece_no_envelope by exact Hp. exact IH. }
      rewrite Nf. exists m. split; [exact M1|]. rewrite M2, M3, M5, M6, Rh. unfold h. cbn [mh_hbci mh_dialog mh_number].
      repeat (split; [reflexivity|]). split; [exact M4|]. split; reflexivity.
  Qed.
End Letter.
