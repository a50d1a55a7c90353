From Verif Require Import Base BaseFacts Lexer_Model Lexer_Spec Lexer_Proofs Lexer_Facts
  Codec_Model Codec_Spec Codec_Proofs Wire_Model Wire_Spec Wire_Proofs Wire_Facts Wire_Facts2 Wire_Facts3 Wire_Props
  Message_Model Message_Spec Message_Proofs Message_Facts.
From Coq Require Import Lia ZifyBool ZifyNat ZifyN.
Open Scope Z_scope.
Ltac Zify.zify_post_hook ::= Z.div_mod_to_equations.

(** ** The encrypted data segment *)
Definition dseg (pos : Z) (ref : option Z) (data : bytes) : seg := mkSeg (B "HNVSD") pos 1 ref [Some (DE (EBinary data))].
Definition bin_wire (data : bytes) : bytes := b_at :: itoa_N (N.of_nat (List.length data)) ++ b_at :: data.
Lemma bin_wire_end data : ~ ends_with b_plus data -> ~ ends_with b_plus (bin_wire data).
Proof.
  intros H [p Hp]. destruct data as [|x data] using rev_ind.
  - unfold bin_wire in Hp. cbn [List.length] in Hp.
    change (b_at :: itoa_N (N.of_nat 0) ++ [b_at]) with ((b_at :: itoa_N (N.of_nat 0)) ++ [b_at]) in Hp.
    apply app_inj_tail in Hp. destruct Hp. discriminate.
  - unfold bin_wire in Hp. rewrite !app_comm_cons, app_assoc in Hp.
    apply app_inj_tail in Hp. destruct Hp as [_ ->]. apply H. now exists data.
Qed.
Lemma dseg_safe pos ref data : ~ ends_with b_plus data -> safe_seg (dseg pos ref data).
Proof.
  intros H. split; [|split].
  - apply header_safe. apply alnum_safe. reflexivity.
  - repeat constructor.
  - cbn [sg_elems dseg]. intros h bs Hh Hbs. cbn [all_ok marshal_opt marshal_de marshal_elem] in Hbs. rewrite marshal_binary_eq in Hbs.
    cbn [obind] in Hbs. assert (E : bs = [bin_wire data]) by (unfold bin_wire; congruence). rewrite E.
    assert (L : last_present [h; bin_wire data] = bin_wire data).
    { unfold last_present. cbn [strip]. unfold bin_wire. destruct h; reflexivity. }
    rewrite L. now apply bin_wire_end.
Qed.
Lemma dseg_read pos ref data w : ~ ends_with b_plus data -> marshal_seg (dseg pos ref data) = Ok w -> len w < 2 ^ 61 ->
  len data <= 2 ^ 48 -> in_int64 pos = true -> match ref with Some r => in_int64 r = true | None => True end ->
  unmarshal_data_seg w = Ok (Some data).
Proof.
  intros He Hw Hl Hd Hp Hr. destruct (seg_form _ w (dseg_safe pos ref data He) Hw) as (i&bs&Hi&Hbs&Ew&Hx). cbn [sg_id sg_pos sg_version sg_ref sg_elems dseg] in *.
  rewrite (alnum_marshal (B "HNVSD") eq_refl) in Hi. injection Hi as <-.
  cbn [all_ok marshal_opt marshal_de marshal_elem] in Hbs. rewrite marshal_binary_eq in Hbs.
  cbn [obind] in Hbs. assert (E : bs = [bin_wire data]) by (unfold bin_wire; congruence). subst bs.
  unfold unmarshal_data_seg. rewrite Hx by lia. cbn [obind].
  change (strip [bin_wire data]) with [bin_wire data]. rewrite unmarshal_header_wire with (id := B "HNVSD").
  - cbn [obind join]. destruct (binary_roundtrip data [] Hd) as (x&Hx1&Hx2). rewrite marshal_binary_eq in Hx1.
    rewrite app_nil_r in Hx2. assert (x = bin_wire data) by (unfold bin_wire; congruence). subst x. rewrite Hx2. reflexivity.
  - apply alnum_marshal. reflexivity.
  - apply alnum_safe. reflexivity.
  - reflexivity.
  - assumption.
  - reflexivity.
  - assumption.
  - rewrite Ew in Hl. change (strip [bin_wire data]) with [bin_wire data] in Hl. rewrite join_cons in Hl. autorewrite with len in Hl.
    pose proof (len_nonneg (join [b_plus] [bin_wire data])). pose proof (len_nonneg [b_plus]). pose proof (len_nonneg [b_quote]). lia.
Qed.
Lemma prefix_clash a b w : starts_with a w -> List.length a = List.length b -> a <> b -> has_prefix b w = false.
Proof.
  intros [r ->] Hl Hne. apply not_true_is_false. intros H. apply has_prefix_spec in H. destruct H as [r' H].
  apply Hne. clear -H Hl. revert b Hl H. induction a as [|x a IH]; intros [|y b] Hl H; try discriminate; [reflexivity|].
  injection H as -> H. f_equal. apply IH; [now injection Hl|assumption].
Qed.
Lemma prefix_true a w : starts_with a w -> has_prefix a w = true.
Proof. intros H. now apply has_prefix_spec. Qed.
Lemma starts_weaken a b w : starts_with (a ++ b) w -> starts_with a w.
Proof. intros [r ->]. exists (b ++ r). now rewrite app_assoc. Qed.
Lemma extract_state raw segs : message_extract raw = Ok segs ->
  se_extract (new_segment_extractor raw) = (mkSE raw segs, Ok segs).
Proof.
  unfold message_extract, se_extract, new_segment_extractor. cbn [se_raw se_segments app].
  destruct (read_all raw) as [ts []]; cbn [snd]; try discriminate. destruct (existsb is_error ts); [discriminate|].
  intros H. injection H as <-. reflexivity.
Qed.
Lemma read_enveloped {P} (others : bytes -> Z -> option (bytes -> outcome P)) hs ks ds es pos ref data :
  sent hs -> sent ks -> Forall sent es -> starts_with (B "HNHBK") hs -> starts_with (B "HNVSK") ks ->
  marshal_seg (dseg pos ref data) = Ok ds -> ~ ends_with b_plus data -> len (List.concat (hs :: ks :: ds :: es)) < 2 ^ 61 ->
  len data <= 2 ^ 48 -> in_int64 pos = true -> match ref with Some r => in_int64 r = true | None => True end ->
  message_extract (List.concat (hs :: ks :: ds :: es)) = Ok (hs :: ks :: ds :: es) /\
  find_segment (fst (se_extract (new_segment_extractor (List.concat (hs :: ks :: ds :: es))))) (B "HNVSD") = Some ds /\
  unmarshal_data_seg ds = Ok (Some data) /\
  read_response others (List.concat (hs :: ks :: ds :: es)) = do h <- unmarshal_msg_header hs; new_decrypted others h data.
Proof.
  intros Hhs Hks Hes H1 H2 Hds He Hlen Hd Hp Hr.
  assert (Hx : message_extract (List.concat (hs :: ks :: ds :: es)) = Ok (hs :: ks :: ds :: es)).
  { apply C16_message_roundtrip; [|lia]. constructor; [assumption|]. constructor; [assumption|]. constructor; [|assumption].
    eapply safe_sent; [|exact Hds]. now apply dseg_safe. }
  assert (H3 : starts_with (B "HNVSD") ds).
  { apply (starts_weaken _ [b_colon]). apply (seg_starts _ _ (dseg_safe pos ref data He) Hds). reflexivity. }
  assert (Hu : unmarshal_data_seg ds = Ok (Some data)).
  { eapply dseg_read; eauto. cbn [List.concat] in Hlen. autorewrite with len in Hlen.
    pose proof (len_nonneg hs). pose proof (len_nonneg ks). pose proof (len_nonneg (List.concat es)). lia. }
  assert (Hf : find_segment (mkSE (List.concat (hs :: ks :: ds :: es)) (hs :: ks :: ds :: es)) (B "HNVSD") = Some ds).
  { unfold find_segment. cbn [se_segments find]. rewrite (prefix_clash (B "HNHBK") (B "HNVSD") hs H1) by (reflexivity || discriminate).
    rewrite (prefix_clash (B "HNVSK") (B "HNVSD") ks H2) by (reflexivity || discriminate). now rewrite (prefix_true _ _ H3). }
  split; [assumption|]. unfold read_response. rewrite (extract_state _ _ Hx). split; [exact Hf|]. split; [exact Hu|]. cbn [obind].
  assert (F1 : find_segment (mkSE (List.concat (hs :: ks :: ds :: es)) (hs :: ks :: ds :: es)) (B "HNHBK") = Some hs).
  { unfold find_segment. cbn [se_segments find]. now rewrite (prefix_true _ _ H1). }
  assert (F2 : find_segment (mkSE (List.concat (hs :: ks :: ds :: es)) (hs :: ks :: ds :: es)) (B "HNVSK") = Some ks).
  { unfold find_segment. cbn [se_segments find]. rewrite (prefix_clash (B "HNHBK") (B "HNVSK") hs H1) by (reflexivity || discriminate).
    now rewrite (prefix_true _ _ H2). }
  rewrite F1, F2, Hf, Hu. cbn [obind]. reflexivity.
Qed.

(** ** Acknowledgements on the wire *)
Lemma plain_latin1 v : plain v -> exists l, v = to_utf8 l /\ marshal_text v = Ok l /\ escape l = l /\ echunk l /\ forallb (fun c => negb (is_syntax c)) l = true.
Proof.
  intros (H1&H2&H3). apply latin1_string_iff in H1. destruct H1 as [l E]. exists l.
  assert (Hm : marshal_text v = Ok l). { unfold marshal_text. rewrite (no_syntax_escape _ H2), E. apply latin1_utf8. }
  split; [assumption|]. split; [assumption|]. assert (Hes : escape l = l).
  { pose proof Hm as G. rewrite E, marshal_text_ok in G. congruence. }
  split; [assumption|]. split.
  - exists (EText v). split; [exact Hm|]. split; [|assumption]. intros Hn. rewrite forallb_forall in H2. specialize (H2 _ Hn).
    rewrite beq_refl, andb_false_r in H2. discriminate.
  - apply forallb_forall. intros c Hc. apply negb_true_iff. apply not_true_is_false. intros Hs.
    assert (Hin : In c v). { rewrite E. unfold to_utf8. apply in_flat_map. exists c. split; [assumption|].
      unfold utf8_of_latin1. rewrite (syntax_ascii c Hs). now left. }
    rewrite forallb_forall in H2. specialize (H2 c Hin). rewrite Hs in H2. discriminate.
Qed.
Lemma no_syntax_special l : forallb (fun c => negb (is_syntax c)) l = true -> existsb special l = false /\ ~ ends_with b_colon l.
Proof.
  intros H. rewrite forallb_forall in H. split.
  - apply not_true_is_false. intros G. apply existsb_exists in G. destruct G as (c&Hc&G). specialize (H c Hc).
    apply negb_true_iff in H. apply not_syntax_special in H. congruence.
  - intros [p ->]. specialize (H b_colon). rewrite in_app_iff in H. discriminate H. right. now left.
Qed.
Lemma plain_params ps : Forall plain ps -> exists ls, map to_utf8 ls = ps /\
  all_ok marshal_opt (map (fun p => Some (DE (EText p))) ps) = Ok ls /\ Forall echunk ls /\
  Forall (fun l => forallb (fun c => negb (is_syntax c)) l = true) ls.
Proof.
  induction 1 as [|p ps Hp _ (ls&E&H1&H2&H3)]; [exists []; repeat split; constructor|].
  destruct (plain_latin1 p Hp) as (l&El&Hm&_&Hc&Hs). exists (l :: ls). cbn [map all_ok marshal_opt marshal_de].
  change (marshal_elem (EText p)) with (marshal_text p). rewrite Hm. cbn [obind]. rewrite H1. cbn [obind]. rewrite E, <- El.
  repeat split; constructor; assumption.
Qed.
Lemma to_utf8_nil l : to_utf8 l = [] -> l = [].
Proof. intros H. apply to_utf8_inj. now rewrite H. Qed.
Lemma to_utf8_ne l : l <> [] -> to_utf8 l <> [].
Proof. intros H G. apply H, to_utf8_nil, G. Qed.
Lemma strip_id (ls : list bytes) : last ls [b_nul] <> [] -> strip ls = ls.
Proof.
  induction ls as [|x ls IH]; [reflexivity|]. intros H. destruct ls as [|y ls].
  - cbn [strip]. destruct x; [cbn in H; congruence|reflexivity].
  - assert (E : strip (y :: ls) = y :: ls) by (apply IH; destruct ls; exact H).
    change (strip (x :: y :: ls)) with (match x, strip (y :: ls) with [], [] => [] | _, r' => x :: r' end). rewrite E. destruct x; reflexivity.
Qed.
Lemma ack_wire a : plain_ack a -> exists e t ps, to_utf8 e = ba_elem a /\ to_utf8 t = ba_text a /\ map to_utf8 ps = ba_params a /\
  marshal_de (ack_group a) = Ok (join [b_colon] (itoa_pad 4 (ba_code a) :: e :: t :: ps)) /\
  wire_safe (ack_group a) /\ Forall echunk (itoa_pad 4 (ba_code a) :: e :: t :: ps) /\
  existsb special (join [b_colon] (itoa_pad 4 (ba_code a) :: e :: t :: ps)) = false.
Proof.
  intros (Hcode&He&Ht&Htne&Hps&Hlast).
  destruct (plain_latin1 _ He) as (e&Ee&Hme&_&Hce&Hse). destruct (plain_latin1 _ Ht) as (t&Et&Hmt&_&Hct&Hst).
  destruct (plain_params _ Hps) as (ps&Eps&Hmps&Hcps&Hsps). exists e, t, ps.
  split; [now symmetry|]. split; [now symmetry|]. split; [assumption|].
  set (c := itoa_pad 4 (ba_code a)).
  assert (Hd : marshal_elem (EDigit 4 (ba_code a)) = Ok c).
  { cbn. unfold marshal_digit. now rewrite (to_latin1_ascii _ (itoa_pad_ascii 4 (ba_code a))). }
  assert (Hcd : forallb is_digit c = true) by (unfold c, itoa_pad; replace (ba_code a <? 0) with false by lia; apply pad_left_digits).
  assert (Htn : t <> []) by (intros ->; apply Htne; rewrite Et; reflexivity).
  assert (Hpl : ps = [] \/ exists q y, ps = q ++ [y] /\ y <> [] /\ forallb (fun c => negb (is_syntax c)) y = true).
  { destruct ps as [|y q] using rev_ind; [now left|right]. exists q, y. split; [reflexivity|]. rewrite <- Eps, map_app in Hlast. cbn [map] in Hlast.
    rewrite last_last in Hlast. split; [intros ->; apply Hlast; reflexivity|]. rewrite Forall_app in Hsps. destruct Hsps as [_ H]. now inversion H. }
  assert (Hpw : trim_right b_colon (join [b_colon] ps) = join [b_colon] ps /\ ~ ends_with b_colon (last_present ps)).
  { destruct Hpl as [->|(q&y&->&Hy&Hsy)]; [split; [reflexivity|intros [[|] G]; discriminate]|].
    assert (Hl : last_present (q ++ [y]) = y) by (unfold last_present; rewrite strip_id by (rewrite last_last; assumption); apply last_last).
    assert (Hn : ~ ends_with b_colon (last_present (q ++ [y]))) by (rewrite Hl; now apply no_syntax_special).
    split; [|assumption]. rewrite (trim_join_clean _ _ Hn). now rewrite strip_id by (rewrite last_last; assumption). }
  destruct Hpw as [Hpw1 Hpw2].
  assert (Hin : marshal_de (DEG (map (fun p => Some (DE (EText p))) (ba_params a))) = Ok (join [b_colon] ps)).
  { rewrite marshal_de_group, Hmps. cbn [obind]. now rewrite Hpw1. }
  assert (Hall : all_ok marshal_opt [Some (DE (EDigit 4 (ba_code a))); Some (DE (EText (ba_elem a))); Some (DE (EText (ba_text a)));
       Some (DEG (map (fun p => Some (DE (EText p))) (ba_params a)))] = Ok [c; e; t; join [b_colon] ps]).
  { cbn [all_ok]. change (marshal_opt (Some (DE (EDigit 4 (ba_code a))))) with (marshal_elem (EDigit 4 (ba_code a))). rewrite Hd. cbn [obind].
    change (marshal_opt (Some (DE (EText (ba_elem a))))) with (marshal_text (ba_elem a)). rewrite Hme. cbn [obind].
    change (marshal_opt (Some (DE (EText (ba_text a))))) with (marshal_text (ba_text a)). rewrite Hmt. cbn [obind].
    change (marshal_opt (Some (DEG (map (fun p => Some (DE (EText p))) (ba_params a))))) with (marshal_de (DEG (map (fun p => Some (DE (EText p))) (ba_params a)))).
    rewrite Hin. reflexivity. }
  assert (Hlast4 : ~ ends_with b_colon (last_present [c; e; t; join [b_colon] ps])).
  { destruct Hpl as [->|(q&y&->&Hy&Hsy)].
    - assert (G : last_present [c; e; t; join [b_colon] []] = t).
      { unfold last_present. cbn [join strip]. destruct t; [congruence|]. cbn [strip]. destruct e, c; reflexivity. }
      rewrite G. now apply no_syntax_special.
    - assert (N : join [b_colon] (q ++ [y]) <> []) by (rewrite join_last; destruct y; [congruence|]; destruct (before_last b_colon q); discriminate).
      assert (G : last_present [c; e; t; join [b_colon] (q ++ [y])] = join [b_colon] (q ++ [y])).
      { unfold last_present. rewrite strip_id by (cbn [last]; assumption). reflexivity. }
      rewrite G, join_last. intros [p Hp]. destruct (exists_last Hy) as [u [v Ev]]. rewrite Ev, app_assoc in Hp.
      apply app_inj_tail in Hp. destruct Hp as [_ ->]. apply no_syntax_special in Hsy. destruct Hsy as [_ Hsy]. apply Hsy. now exists u. }
  assert (Hj : trim_right b_colon (join [b_colon] [c; e; t; join [b_colon] ps]) = join [b_colon] (c :: e :: t :: ps)).
  { rewrite (trim_join_clean _ _ Hlast4). destruct Hpl as [->|(q&y&->&Hy&Hsy)].
    - cbn [join strip]. destruct t; [congruence|]. destruct e, c; reflexivity.
    - assert (N : join [b_colon] (q ++ [y]) <> []) by (rewrite join_last; destruct y; [congruence|]; destruct (before_last b_colon q); discriminate).
      rewrite strip_id by (cbn [last]; assumption). destruct q; reflexivity. }
  split; [|split; [|split]].
  - unfold ack_group. rewrite marshal_de_group, Hall. cbn [obind]. now rewrite Hj.
  - unfold ack_group. apply wire_safe_group. split.
    + constructor; [exact I|]. constructor.
      { destruct Hce as [x Hx]. cbn [opt_safe wire_safe]. destruct He as (_&H2&H3). split; [|assumption].
        intros Hn. rewrite forallb_forall in H2. specialize (H2 _ Hn). rewrite beq_refl, andb_false_r in H2. discriminate. }
      constructor.
      { destruct Ht as (_&H2&H3). split; [|assumption].
        intros Hn. rewrite forallb_forall in H2. specialize (H2 _ Hn). rewrite beq_refl, andb_false_r in H2. discriminate. }
      constructor; [|constructor]. cbn [opt_safe]. apply wire_safe_group. split.
      * apply Forall_forall. intros o Ho. apply in_map_iff in Ho. destruct Ho as (p&<-&Hp). rewrite Forall_forall in Hps.
        destruct (Hps p Hp) as (_&H2&H3). split; [|assumption].
        intros Hn. rewrite forallb_forall in H2. specialize (H2 _ Hn). rewrite beq_refl, andb_false_r in H2. discriminate.
      * intros bs Hbs. rewrite Hmps in Hbs. assert (Eb : bs = ps) by congruence. now rewrite Eb.
    + intros bs Hbs. rewrite Hall in Hbs. assert (Eb : bs = [c; e; t; join [b_colon] ps]) by congruence. now rewrite Eb.
  - constructor; [exists (EDigit 4 (ba_code a)); split; [exact Hd|exact I]|]. constructor; [assumption|]. constructor; assumption.
  - rewrite special_join by reflexivity. cbn [existsb]. rewrite (digits_special _ Hcd). destruct (no_syntax_special _ Hse) as [-> _].
    destruct (no_syntax_special _ Hst) as [-> _]. cbn [orb]. apply not_true_is_false. intros G. apply existsb_exists in G.
    destruct G as (x&Hx&G). rewrite Forall_forall in Hsps. destruct (no_syntax_special _ (Hsps x Hx)). congruence.
Qed.
