(** * Composing requests: the messages *)
From Verif Require Import Base BaseFacts Lexer_Model Lexer_Spec Codec_Model Codec_Spec Codec_Proofs Wire_Model Wire_Spec
  Wire_Proofs Wire_Facts Wire_Facts2 Message_Model Message_Spec Message_Proofs Message_Facts Message_Facts2 Message_Facts3
  Dialog_Model Merge_Model Client_Model Time_Model Seg_Model Seg_Spec Seg_Facts Request_Model Request_Spec Request_Facts Request_Facts2.
From Coq Require Import Lia ZifyBool ZifyNat ZifyN.
Open Scope Z_scope.
Ltac Zify.zify_post_hook ::= Z.div_mod_to_equations.

(** ** The body *)
Lemma pointees_pointers l : forall k heap, (forall i s, nth_error l i = Some (Some s) -> heap (k + i)%nat = s) ->
  pointees (pointers k l) heap = somes l.
Proof.
  induction l as [|[s|] l IH]; intros k heap H; cbn [pointers pointees somes]; [reflexivity| |].
  - rewrite <- (Nat.add_0_r k) at 1. rewrite (H 0%nat s eq_refl). f_equal. apply IH. intros i s' E. replace (S k + i)%nat with (k + S i)%nat by lia. now apply H.
  - apply IH. intros i s' E. replace (S k + i)%nat with (k + S i)%nat by lia. now apply H.
Qed.
Lemma pointees_body l : pointees (pointers 0 l) (objects l) = somes l.
Proof.
  apply pointees_pointers. intros i s E. cbn [Nat.add]. unfold objects. now rewrite (nth_error_nth l i None E).
Qed.
Lemma addresses_ge l : forall k a, In a (addresses (pointers k l)) -> (k <= a)%nat.
Proof.
  induction l as [|[s|] l IH]; intros k a; cbn [pointers addresses]; [intros []| |].
  - intros [<-|H]; [lia|]. apply IH in H. lia.
  - intros H. apply IH in H. lia.
Qed.
Lemma addresses_nodup l : forall k, NoDup (addresses (pointers k l)).
Proof.
  induction l as [|[s|] l IH]; intros k; cbn [pointers addresses]; [constructor| |apply IH].
  constructor; [|apply IH]. intros H. apply addresses_ge in H. lia.
Qed.
Lemma no_interface l : forall k, ~ In NilInterface (pointers k l).
Proof. induction l as [|[s|] l IH]; intros k; cbn [pointers]; [intros []| |]; intros [H|H]; try discriminate; now apply (IH (S k)). Qed.
Lemma numbered_shows segs : forall parts segs' n i, Forall2 shows segs parts -> Forall tidy parts -> Forall2 same_but_pos segs segs' ->
  map sg_pos segs' = map (fun j => n + Z.of_nat j) (seq i (List.length segs)) ->
  exists ws, all_ok marshal_seg segs' = Ok ws /\ List.concat ws = numbered (n + Z.of_nat i) parts.
Proof.
  induction segs as [|s segs IH]; intros parts segs' n i H T P E.
  - inversion H; inversion P; subst. exists []. split; reflexivity.
  - inversion H as [|? y ? parts' Hs Hr]; subst. inversion P as [|? s' ? segs'' Ps Pr]; subst.
    cbn [List.length seq map] in E. assert (E1 : sg_pos s' = n + Z.of_nat i) by congruence.
    assert (E2 : map sg_pos segs'' = map (fun j => n + Z.of_nat j) (seq (S i) (List.length segs))) by congruence.
    inversion_clear T as [|? ? Ty Tl]. destruct (IH _ _ n (S i) Hr Tl Pr E2) as (ws&Hw&Hc).
    assert (Es : s' = set_pos (n + Z.of_nat i) s).
    { destruct Ps as (A1&A2&A3&A4). rewrite <- E1. destruct s', s. cbn in *. subst. reflexivity. }
    exists (part_wire (n + Z.of_nat i) y :: ws). split.
    + cbn [all_ok]. rewrite Es, (shows_marshal s y _ Hs) by apply Ty. cbn [obind]. rewrite Hw. reflexivity.
    + cbn [List.concat numbered]. rewrite Hc. f_equal. f_equal. lia.
Qed.
Lemma body_positions body parts n : Forall2 shows (somes body) parts -> Forall tidy parts ->
  exists heap ws, position_body n (pointers 0 body) (objects body) = Ok (n + Z.of_nat (List.length parts), heap) /\
    all_ok marshal_seg (pointees (pointers 0 body) heap) = Ok ws /\ List.concat ws = numbered (n + 1) parts.
Proof.
  intros H T. destruct (proj2 (position_body_ok (pointers 0 body) n (objects body)) (no_interface body 0)) as ([n' heap]&Hp).
  destruct (position_body_spec _ _ _ _ _ Hp (addresses_nodup body 0)) as (E1&_&E3&E4).
  rewrite <- (pointees_len _ (objects body)), pointees_body in E1, E3. rewrite pointees_body in E4.
  destruct (numbered_shows _ _ _ n 1 H T E4 E3) as (ws&Hw&Hc).
  exists heap, ws. rewrite <- (Forall2_len _ _ _ H), <- E1. auto.
Qed.

(** ** Header and end *)
Definition sent_header (x : who) (dialog : bytes) (number size : Z) : msg_header := new_msg_header size (wh_version x) (utf8 dialog) number.
Lemma itoa_tidy c (l : list bytes) n : is_digit c = false -> ~ ends_with c (last_present (l ++ [itoa n])).
Proof.
  intros H. destruct (itoa_last n) as (p&d&E&Hd). unfold last_present. rewrite strip_id.
  - rewrite last_last, E. intros [q K]. apply app_inj_tail in K. destruct K as [_ ->]. congruence.
  - rewrite last_last, E. destruct p; discriminate.
Qed.
Lemma header_shown x dialog number size : marshal_seg (header_seg (sent_header x dialog number size)) =
  Ok (segment_wire (B "HNHBK") 1 3 None [[TDigits 12 size]; [TNumber (wh_version x)]; [TText dialog]; [TNumber number]]).
Proof.
  change (header_seg (sent_header x dialog number size)) with (set_pos 1 (header_seg (sent_header x dialog number size))).
  apply (shows_marshal _ (mkPart (B "HNHBK") 3 [[TDigits 12 size]; [TNumber (wh_version x)]; [TText dialog]; [TNumber number]])).
  - apply shows_intro; [reflexivity|]. cbn [sent_header new_msg_header mh_size mh_hbci mh_dialog mh_number mh_ref option_map fst snd].
    apply shown_cons; [apply (field_item _ (TDigits 12 size)); [reflexivity|exact I]|].
    apply shown_cons; [exact (field_number _)|]. apply shown_cons; [exact (field_text _)|].
    apply shown_cons; [exact (field_number _)|]. apply shown_absent, shown_nil.
  - cbn [pt_fields map]. rewrite !group_wire_one. cbn [item_wire].
    now apply (itoa_tidy _ [itoa_pad 12 size; itoa (wh_version x); escaped dialog]).
Qed.
Lemma end_shown k number : marshal_seg (end_seg (mkME k (Some number))) = Ok (segment_wire (B "HNHBS") k 1 None [[TNumber number]]).
Proof.
  change (end_seg (mkME k (Some number))) with (set_pos k (end_seg (mkME k (Some number)))).
  apply (shows_marshal _ (mkPart (B "HNHBS") 1 [[TNumber number]])).
  - apply shows_intro; [reflexivity|]. apply shown_cons; [exact (field_number _)|]. apply shown_nil.
  - cbn [pt_fields map]. rewrite !group_wire_one. now apply (itoa_tidy _ []).
Qed.
Lemma framed_parts x dialog number size k m i : m_header m = Some (sent_header x dialog number size) ->
  m_end m = Some (mkME k (Some number)) -> marshal_inner m = Ok i -> marshal_parts m = Ok (framed x dialog number size k i).
Proof.
  intros Hh He Hi. unfold marshal_inner in Hi. unfold marshal_parts. rewrite Hh, He. destruct (m_body m) as [ps|]; [|discriminate].
  rewrite header_shown. cbn [obind]. rewrite end_shown.
  destruct (marshal_optseg (m_sigbegin m)) as [a| |]; [|discriminate|discriminate]. cbn [obind] in *.
  destruct (marshal_body ps (m_heap m)) as [b| |]; [|discriminate|discriminate]. cbn [obind] in *.
  destruct (marshal_optseg (m_sigend m)) as [c| |]; [|discriminate|discriminate]. cbn [obind] in *.
  assert (i = a ++ b ++ c) as -> by congruence. unfold framed. now rewrite <- !app_assoc.
Qed.
(** What MarshalHBCI gives for a message made by the dialog. *)
Lemma message_bytes x dialog number k m i : m_header m = Some (sent_header x dialog number (-1)) ->
  m_end m = Some (mkME k (Some number)) -> m_cache m = [] -> marshal_inner m = Ok i ->
  exists w, snd (marshal_msg m) = Ok w /\ (len w < 10 ^ 12 -> w = framed x dialog number (len w) k i).
Proof.
  intros Hh He Hc Hi.
  assert (F : forall size, marshal_parts (set_header (sent_header x dialog number size) m) = Ok (framed x dialog number size k i)).
  { intros size. apply framed_parts; [reflexivity|exact He|exact Hi]. }
  assert (M : exists m' w, marshal_msg m = (m', Ok w)).
  { unfold marshal_msg, set_size. rewrite (framed_parts x dialog number (-1) k m i Hh He Hi). cbn [obind]. rewrite Hh.
    cbn [set_header_size sent_header new_msg_header mh_size obind m_cache set_header]. rewrite Hc.
    change (mkMH (mh_pos (sent_header x dialog number (-1)))
           (Some (12%nat, len (framed x dialog number (-1) k i))) (mh_hbci (sent_header x dialog number (-1))) (mh_dialog (sent_header x dialog number (-1)))
           (mh_number (sent_header x dialog number (-1))) (mh_ref (sent_header x dialog number (-1)))) with
           (sent_header x dialog number (len (framed x dialog number (-1) k i))).
    pose proof (F (len (framed x dialog number (-1) k i))) as F1. unfold set_header in F1.
    unfold sent_header at 1 in F1. unfold new_msg_header in F1. rewrite Hc in F1.
    match goal with |- context [marshal_parts ?m1] => replace (marshal_parts m1) with (Ok (framed x dialog number (len (framed x dialog number (-1) k i)) k i)) by (symmetry; exact F1) end.
    eauto. }
  destruct M as (m'&w&M). exists w. split; [now rewrite M|]. intros L.
  destruct (announced m m' w _ 12%nat (-1) Hc Hh eq_refl eq_refl M L) as (_&_&_&_&A).
  specialize (F (len w)). assert (E : Ok w = Ok (framed x dialog number (len w) k i)) by (rewrite <- A, <- F; reflexivity). now injection E.
Qed.

(** ** Signed and enveloped *)
Lemma numbered_app l : forall n r, numbered n (l ++ r) = numbered n l ++ numbered (n + Z.of_nat (List.length l)) r.
Proof.
  induction l as [|p l IH]; intros n r; cbn [app numbered List.length]; [f_equal; lia|]. rewrite IH, <- app_assoc. do 3 f_equal. lia.
Qed.
Lemma numbered_quote l n : l <> [] -> exists v, numbered n l = v ++ ["'"%byte].
Proof.
  intros H. destruct (exists_last H) as (q&p&->). rewrite numbered_app. cbn [numbered]. rewrite app_nil_r. unfold part_wire, segment_wire.
  eexists. rewrite app_assoc. reflexivity.
Qed.
Lemma data_shows v : shows (data_seg v) (mkPart (B "HNVSD") 1 [[TBinary v]]).
Proof. apply shows_intro; [reflexivity|]. apply shown_cons; [|apply shown_nil]. apply (field_item _ (TBinary v)); [reflexivity|exact I]. Qed.
Lemma data_tidy v : ~ ends_with "+"%byte (last_present (map group_wire [[TBinary (v ++ ["'"%byte])]])).
Proof.
  cbn [map]. rewrite group_wire_one. cbn [item_wire]. unfold last_present. rewrite strip_id by discriminate. cbn [last].
  intros [q K]. set (a := itoa_N _) in K.
  assert (E : "@"%byte :: a ++ "@"%byte :: v ++ ["'"%byte] = ("@"%byte :: a ++ "@"%byte :: v) ++ ["'"%byte]) by (cbn [app]; now rewrite <- app_assoc).
  rewrite E in K. apply app_inj_tail in K. destruct K; discriminate.
Qed.

Section Messages.
  Variable render : seg -> bytes.
  Variable x : who.
  Let st := settings_for x.
  Variable today : list (entry (Client_Model.job args)) -> date.
  Variable signed_at enveloped_at : list (entry (Client_Model.job args)) -> date * tod.
  Hypothesis Hx : who_ok x.
  Lemma signed_content h dialog number a s c : ask_ok a -> real_date (today h) ->
    Forall tidy (signed_parts x (today h) dialog s (control_reference st) (signed_at h) a) ->
    exists m, signed_message render st today signed_at h (mkRq (kind_for dialog a) (utf8 dialog) number (Some (provider_for s)) c) (provider_for s) = Ok m /\
      m_header m = Some (sent_header x dialog number (-1)) /\
      m_end m = Some (mkME (parts_end (signed_parts x (today h) dialog s (control_reference st) (signed_at h) a)) (Some number)) /\
      m_cache m = [] /\
      marshal_inner m = Ok (numbered 2 (signed_parts x (today h) dialog s (control_reference st) (signed_at h) a)).
  Proof.
    intros Ha Ht T. unfold signed_parts in T. inversion_clear T as [|? ? T1 T2]. apply Forall_app in T2. destruct T2 as [T2 T3].
    inversion_clear T3 as [|? ? T3' _]. rename T3' into T3.
    destruct (body_shows x (today h) dialog true a Hx Ht Ha (or_introl eq_refl) T2) as (body&Eb&Sb).
    unfold signed_message. cbn [rq_kind]. fold st in Eb. rewrite Eb.
    destruct (body_positions body _ 2 Sb T2) as (heap&ws&Hp&Hw&Hc).
    unfold sign. cbn [basic_message new_message m_body m_header m_end m_heap m_cache set_positions m_sigbegin]. change (1 + 1) with 2. rewrite Hp. cbn [obind m_sigend sp_sign pin_sig_provider].
    eexists. split; [reflexivity|]. cbn [m_header m_end m_cache]. split; [reflexivity|]. split.
    { do 2 f_equal. unfold parts_end, signed_parts. cbn [List.length]. rewrite app_length. cbn [List.length me_number]. lia. }
    split; [reflexivity|]. unfold marshal_inner. cbn [m_body m_sigbegin m_heap m_sigend option_map marshal_optseg].
    set (k := 2 + Z.of_nat (List.length (body_parts x (today h) dialog true a))).
    change (set_elems (sp_write_sig (pin_sig_provider st (provider_for s)) (pv_pin (provider_for s))) (set_pos (k + 1) (sig_end st)))
      with (set_pos (k + 1) (set_elems (write_sig_end st (provider_for s)) (sig_end st))).
    change (sp_write_header (pin_sig_provider st (provider_for s))) with (write_sig_header st (provider_for s)).
    rewrite (shows_marshal _ _ _ (sig_header_shows x Hx s (signed_at h) T1)) by apply T1. cbn [obind].
    assert (Hm : marshal_body (pointers 0 body) heap = Ok (List.concat ws)).
    { apply marshal_body_iff. split; [apply no_interface|]. now exists ws. }
    rewrite Hm. cbn [obind]. rewrite (shows_marshal _ _ _ (sig_end_shows x s T3)) by apply T3. cbn [obind].
    rewrite Hc. unfold signed_parts. cbn [numbered]. rewrite numbered_app. cbn [numbered]. rewrite app_nil_r.
    replace (k + 1) with (2 + 1 + Z.of_nat (List.length (body_parts x (today h) dialog true a))) by (unfold k; lia). reflexivity.
  Qed.
  Lemma enveloped_bytes h dialog number a s c : ask_ok a -> real_date (today h) -> sc_pin c <> [] ->
    Forall tidy (signed_parts x (today h) dialog s (control_reference st) (signed_at h) a) -> tidy (envelope_header x c (enveloped_at h)) ->
    exists w, request_bytes render st today signed_at enveloped_at h
        (mkRq (kind_for dialog a) (utf8 dialog) number (Some (provider_for s)) (Some (provider_for c))) = Ok w /\
      (len w < 10 ^ 12 ->
       w = enveloped_message x dialog number (len w) c (enveloped_at h)
             (signed_parts x (today h) dialog s (control_reference st) (signed_at h) a)).
  Proof.
    intros Ha Ht Hpin T Te. destruct (signed_content h dialog number a s (Some (provider_for c)) Ha Ht T) as (m&Em&Hh&He&Hc&Hi).
    unfold request_bytes. cbn [rq_sig rq_crypt]. rewrite Em. cbn [obind]. unfold encrypt. rewrite Hi. cbn [obind].
    set (l := signed_parts x (today h) dialog s (control_reference st) (signed_at h) a) in *.
    assert (P : pin_encrypt (pv_pin (provider_for c)) (numbered 2 l) = Ok (numbered 2 l)).
    { unfold pin_encrypt. cbn [provider_for pv_pin]. destruct (utf8 (sc_pin c)) eqn:E; [|reflexivity]. apply utf8_nil in E. contradiction. }
    rewrite P. cbn [obind].
    match goal with |- context [marshal_msg ?e] => pose proof (message_bytes x dialog number (parts_end l) e
      (part_wire 998 (envelope_header x c (enveloped_at h)) ++ part_wire 999 (mkPart (B "HNVSD") 1 [[TBinary (numbered 2 l)]]))) as M end.
    cbn [m_header m_end m_cache] in M. apply M; [exact Hh|exact He|reflexivity|].
    unfold marshal_inner. cbn [m_body m_sigbegin marshal_optseg obind marshal_body m_heap m_sigend].
    replace (enc_header st (provider_for c) (enveloped_at h)) with (set_pos 998 (enc_header st (provider_for c) (enveloped_at h)))
      by (unfold enc_header; destruct (st_version st =? 300); reflexivity).
    rewrite (shows_marshal _ _ _ (enc_header_shows x Hx c (enveloped_at h) Te)) by apply Te. cbn [obind].
    change (data_seg (numbered 2 l)) with (set_pos 999 (data_seg (numbered 2 l))).
    rewrite (shows_marshal _ _ _ (data_shows (numbered 2 l))).
    - cbn [obind app]. now rewrite !app_nil_r.
    - destruct (numbered_quote l 2) as (v&Ev); [discriminate|]. rewrite Ev. apply data_tidy.
  Qed.
  Lemma anonymous_bytes h dialog number a : (forall w mark, a <> QJob w mark) -> real_date (today h) ->
    Forall tidy (body_parts x (today h) dialog false a) ->
    exists w, request_bytes render st today signed_at enveloped_at h (mkRq (kind_for dialog a) (utf8 dialog) number None None) = Ok w /\
      (len w < 10 ^ 12 -> w = anonymous_message x dialog number (len w) (body_parts x (today h) dialog false a)).
  Proof.
    intros Ha Ht T. assert (Ho : ask_ok a) by (destruct a; try exact I; now destruct (Ha w mark)).
    destruct (body_shows x (today h) dialog false a Hx Ht Ho (or_intror Ha) T) as (body&Eb&Sb). fold st in Eb.
    unfold request_bytes. cbn [rq_sig rq_crypt rq_kind]. rewrite Eb.
    destruct (body_positions body _ 1 Sb T) as (heap&ws&Hp&Hw&Hc).
    unfold set_positions, basic_message, new_message. cbn [m_body m_header m_end m_heap m_cache m_sigbegin m_sigend]. rewrite Hp. cbn [obind].
    match goal with |- context [marshal_msg ?e] => pose proof (message_bytes x dialog number (parts_end (body_parts x (today h) dialog false a)) e
      (numbered 2 (body_parts x (today h) dialog false a))) as M end.
    cbn [m_header m_end m_cache] in M. apply M; [reflexivity| |reflexivity|].
    - do 2 f_equal. unfold parts_end. cbn [me_number]. lia.
    - unfold marshal_inner. cbn [m_body m_sigbegin marshal_optseg obind m_heap m_sigend].
      assert (Hm : marshal_body (pointers 0 body) heap = Ok (List.concat ws)).
      { apply marshal_body_iff. split; [apply no_interface|]. now exists ws. }
      rewrite Hm. cbn [obind app]. rewrite app_nil_r, Hc. reflexivity.
  Qed.
  (** Without a PIN nothing is sent. *)
  Lemma no_pin_bytes h q s c : pv_pin c = [] -> rq_sig q = Some s -> rq_crypt q = Some c ->
    forall w, request_bytes render st today signed_at enveloped_at h q <> Ok w.
  Proof.
    intros Hp Hs Hc w. unfold request_bytes. rewrite Hs, Hc, Hp. destruct (signed_message _ _ _ _ _ _ _) as [m| |]; cbn [obind]; try discriminate.
    unfold encrypt. destruct (marshal_inner m) as [i| |]; cbn [obind pin_encrypt]; discriminate.
  Qed.
End Messages.
