(** * C18 - C23: messages *)
From Verif Require Import Base BaseFacts Lexer_Model Lexer_Spec Lexer_Proofs Lexer_Facts
  Codec_Model Codec_Spec Codec_Proofs Wire_Model Wire_Spec Wire_Proofs Wire_Facts Wire_Facts2 Wire_Facts3 Wire_Props
  Message_Model Message_Spec Message_Proofs Message_Facts Message_Facts2 Message_Facts3.
From Coq Require Import Lia ZifyBool ZifyNat ZifyN.
Open Scope Z_scope.
Ltac Zify.zify_post_hook ::= Z.div_mod_to_equations.

(** A message used in the examples: two segments, signed. *)
Definition ex_heap (a : nat) : seg :=
  match a with
  | O => mkSeg (B "HKSAL") 7 5 None [Some (DE (EText (B "12+3"))); None; Some (DE (EText (B "J")))]
  | _ => mkSeg (B "HKKAZ") (-4) 5 (Some 2) [Some (DEG [Some (DE (ENumber 5)); None])]
  end.
Definition ex_msg : message :=
  new_message (new_msg_header (-1) 220 (B "abc") 2) (mkME (-1) (Some 2)) [Ptr 0; NilPointer; Ptr 1] ex_heap.
Definition ex_sb : seg := mkSeg (B "HNSHK") 2 3 None [Some (DE (EText (B "999")))].
Definition ex_se : seg := mkSeg (B "HNSHA") (-1) 1 None [].
Definition ex_provider : sig_provider :=
  mkSP (fun es => es ++ [Some (DE (ENumber 1))]) (fun _ => Ok (B "pin")) (fun s _ => [Some (DE (EText s))]).

(** ** C18 *)
(** A message that has not been marshaled before and whose size field takes 12
    bytes as the one made by NewMessageHeaderSegment(-1, ...) does. *)
Theorem C18_announced_size : forall m m' w h ow oz,
  m_cache m = [] -> m_header m = Some h -> mh_size h = Some (ow, oz) -> List.length (itoa_pad ow oz) = 12%nat ->
  marshal_msg m = (m', Ok w) -> len w < 10 ^ 12 ->
  exists size rest, w = B "HNHBK:" ++ itoa (mh_pos h) ++ B ":3+" ++ size ++ rest /\
    List.length size = 12%nat /\ forallb is_digit size = true /\
    Z.of_N (dec_val size) = Z.of_nat (List.length w) /\
    (starts_with [b_plus] rest \/ starts_with [b_quote] rest).
Proof.
  intros m m' w h ow oz Hc Hh Hs H12 Hm Hl. destruct (announced m m' w h ow oz Hc Hh Hs H12 Hm Hl) as (t&r&E&Ht&_).
  pose proof (len_nonneg w). destruct (itoa_pad_12 (len w) ltac:(lia)) as (L1&L2&L3).
  exists (itoa_pad 12 (len w)), (t :: r). split; [|split; [assumption|split; [assumption|split; [exact L3|]]]].
  - unfold header_prefix in E. rewrite <- !app_assoc in E. exact E.
  - destruct Ht as [-> | ->]; [left|right]; now exists r.
Qed.
Print Assumptions C18_announced_size.
(** Every header made by NewMessageHeaderSegment with a size of at most 12 characters qualifies. *)
Theorem C18_new_headers : forall size hbci dialog number, - 10 ^ 11 < size < 10 ^ 12 ->
  exists ow oz, mh_size (new_msg_header size hbci dialog number) = Some (ow, oz) /\ List.length (itoa_pad ow oz) = 12%nat.
Proof.
  intros size hbci dialog number H. exists 12%nat, size. split; [reflexivity|]. destruct (Z.ltb_spec size 0).
  - unfold itoa_pad. replace (size <? 0) with true by lia. cbn [List.length]. f_equal.
    destruct (digit_width 11 (- size) ltac:(change (Z.of_nat 11) with 11; lia) ltac:(lia)) as (v&Hv&Hvl&_).
    unfold marshal_digit in Hv. rewrite (to_latin1_ascii _ (itoa_pad_ascii _ _)) in Hv. unfold itoa_pad in Hv.
    replace (- size <? 0) with false in Hv by lia.
    assert (E : v = pad_left 11 (itoa_N (Z.to_N (- size)))) by congruence. rewrite E in Hvl. exact Hvl.
  - apply itoa_pad_12. lia.
Qed.
Print Assumptions C18_new_headers.
Example C18_witness : exists m',
  marshal_msg ex_msg = (m', Ok (B "HNHBK:1:3+000000000080+220+abc+2'HKSAL:7:5+12?+3++J'HKKAZ:-4:5:2+5'HNHBS:-1:1+2'")).
Proof. eexists. vm_compute. reflexivity. Qed.
(** With a size field of another width before, the announced size is wrong. *)
Theorem C18_other_width_refuted : exists m m' w, m_cache m = [] /\
  (exists h, m_header m = Some h /\ mh_size h = Some (5%nat, 0)) /\ marshal_msg m = (m', Ok w) /\
  w = B "HNHBK:1:3+000000000032+220'HNHBS:2:1+1'" /\ len w = 33 + 6.
Proof.
  exists (mkMsg (Some (mkMH 1 (Some (5%nat, 0)) (Some 220) None None None)) (Some (mkME 2 (Some 1))) None None (Some []) ex_heap []).
  eexists. eexists. split; [reflexivity|]. split; [eexists; split; reflexivity|]. split; [vm_compute; reflexivity|]. split; vm_compute; reflexivity.
Qed.

(** ** C19 *)
Theorem C19_positions : forall m m', set_positions m = Ok m' -> distinct_body m ->
  map sg_pos (transmitted m') = one_to (List.length (transmitted m)) /\
  Forall2 same_but_pos (transmitted m) (transmitted m').
Proof. intros m m' H D. destruct (set_positions_spec m m' H D) as (A&C&_). auto. Qed.
Print Assumptions C19_positions.
(** It succeeds whenever header, end and body are set and no interface is nil. *)
Theorem C19_positions_succeed : forall m, (exists m', set_positions m = Ok m') <->
  m_header m <> None /\ m_end m <> None /\ exists ps, m_body m = Some ps /\ ~ In NilInterface ps.
Proof. exact set_positions_ok. Qed.
Print Assumptions C19_positions_succeed.
(** Signing puts the signature segments around the body and numbers everything. *)
Theorem C19_signed_positions : forall render sb0 se0 p m m',
  sign render sb0 se0 p m = Ok m' -> distinct_body m ->
  map sg_pos (transmitted m') = one_to (List.length (transmitted m')) /\
  exists sb se bs, content m' = sb :: bs ++ [se] /\ sg_id sb = sg_id sb0 /\ sg_id se = sg_id se0 /\
    sg_elems sb = sp_write_header p (sg_elems sb0) /\
    (exists s text, sp_sign p text = Ok s /\ sg_elems se = sp_write_sig p s (sg_elems se0)) /\
    (exists ps, m_body m = Some ps /\ Forall2 same_but_pos (pointees ps (m_heap m)) bs).
Proof.
  intros render sb0 se0 p m m' H D. unfold sign in H. destruct (m_body m) as [ps|] eqn:Hb; [|discriminate].
  set (m1 := mkMsg (m_header m) (m_end m) (Some (set_elems (sp_write_header p) sb0)) (Some se0) (Some ps) (m_heap m) (m_cache m)) in *.
  apply obind_ok in H. destruct H as (m2&H2&H). apply obind_ok in H. destruct H as (s&Hs&H).
  assert (D1 : distinct_body m1) by (unfold distinct_body in *; now rewrite Hb in D).
  destruct (set_positions_spec _ _ H2 D1) as (A&C&_&Eb).
  assert (Shape : exists sb se, m_sigbegin m2 = Some sb /\ m_sigend m2 = Some se /\ same_but_pos (set_elems (sp_write_header p) sb0) sb /\
     same_but_pos se0 se /\ exists h e, m_header m2 = Some h /\ m_end m2 = Some e /\ m_header m1 <> None /\ m_end m1 <> None).
  { unfold set_positions in H2. cbn [m1 m_body m_header m_end m_sigbegin m_sigend] in H2.
    destruct (m_header m) as [h|] eqn:Eh; [|discriminate]. destruct (m_end m) as [e|] eqn:Ee; [|discriminate].
    apply obind_ok in H2. destruct H2 as ([n heap]&_&H2). injection H2 as <-. cbn [m_sigbegin m_sigend m_header m_end].
    eexists. eexists. split; [reflexivity|]. split; [reflexivity|]. split; [repeat split|]. split; [repeat split|].
    eexists. eexists. repeat split; cbn [m1 m_header m_end]; discriminate. }
  destruct Shape as (sb&se&Esb&Ese&(S1&S2&S3&S4)&(T1&T2&T3&T4)&h&e&Eh&Ee&Nh&Ne).
  assert (Em : m' = mkMsg (m_header m2) (m_end m2) (m_sigbegin m2) (option_map (set_elems (sp_write_sig p s)) (m_sigend m2)) (m_body m2) (m_heap m2) (m_cache m2)) by congruence.
  assert (Ep : map sg_pos (transmitted m') = map sg_pos (transmitted m2)).
  { rewrite Em. unfold transmitted, content. cbn [m_header m_end m_sigbegin m_sigend m_body m_heap]. rewrite Ese. cbn [option_map optlist].
    rewrite !map_app. reflexivity. }
  assert (El : List.length (transmitted m') = List.length (transmitted m1)).
  { rewrite <- (map_length sg_pos (transmitted m')), Ep, map_length. symmetry. eapply Forall2_len; eauto. }
  split; [now rewrite Ep, El|].
  exists sb, (set_elems (sp_write_sig p s) se), (pointees ps (m_heap m2)).
  split. { rewrite Em. unfold content. cbn [m_sigbegin m_sigend m_body m_heap]. rewrite Esb, Ese, Eb. reflexivity. }
  split; [now rewrite <- S1|]. split; [now cbn; rewrite <- T1|]. split; [now rewrite <- S4|].
  split. { exists s, (match m_sigbegin m2 with Some x => render x | None => [] end ++ render_body render ps (m_heap m2)).
           split; [exact Hs|]. cbn. now rewrite <- T4. }
  exists ps. split; [reflexivity|].
  unfold transmitted, content in C. rewrite Eh, Ee, Esb, Ese, Eb in C. cbn [m1 m_sigbegin m_sigend m_body m_heap option_map optlist] in C.
  destruct (m_header m1) as [h1|]; [|contradiction]. destruct (m_end m1) as [e1|]; [|contradiction]. cbn [option_map optlist app] in C.
  inversion C as [|? ? ? ? _ C1]; subst. inversion C1 as [|? ? ? ? _ C2]; subst.
  rewrite <- !app_assoc in C2. apply Forall2_app_inv_l in C2. destruct C2 as (l1&l2&C3&_&E).
  assert (L : List.length l1 = List.length (pointees ps (m_heap m2))).
  { rewrite <- (Forall2_len _ _ _ C3), !pointees_len. reflexivity. }
  apply app_eq_app in E. destruct E as [l [[E1 E2]|[E1 E2]]].
  - rewrite E1, app_length in L. destruct l; [|cbn in L; lia]. rewrite app_nil_r in E1. now rewrite E1.
  - rewrite E1, app_length in L. destruct l; [|cbn in L; lia]. rewrite app_nil_r in E1. now rewrite E1 in C3.
Qed.
Print Assumptions C19_signed_positions.
(** What is transmitted is the segments in this order. *)
Theorem C19_wire_order : forall m m' w, m_cache m = [] -> marshal_msg m = (m', Ok w) ->
  exists ws, all_ok marshal_seg (transmitted m') = Ok ws /\ w = List.concat ws.
Proof.
  intros m m' w Hc. unfold marshal_msg. destruct (set_size m) as [m1| |] eqn:E; try discriminate.
  pose proof (set_size_cache _ _ E) as Hc1. rewrite Hc in Hc1. rewrite Hc1.
  destruct (marshal_parts m1) as [x| |] eqn:F; try discriminate. intros H. injection H as <- <-.
  apply marshal_parts_iff in F. destruct F as (ps&h&e&ws&_&_&_&_&A&->). exists ws. split; [exact A|reflexivity].
Qed.
Print Assumptions C19_wire_order.
Example C19_witness : exists m', sign (fun _ => []) ex_sb ex_se ex_provider ex_msg = Ok m' /\ distinct_body ex_msg /\
  map (fun s => (sg_id s, sg_pos s)) (transmitted m') =
    [(B "HNHBK", 1); (B "HNSHK", 2); (B "HKSAL", 3); (B "HKKAZ", 4); (B "HNSHA", 5); (B "HNHBS", 6)].
Proof.
  eexists. split; [vm_compute; reflexivity|]. split; [|vm_compute; reflexivity].
  cbn. constructor; [intros [H|[]]; discriminate|]. constructor; [intros []|constructor].
Qed.
(** A segment object that is in the body twice gets one position for both places. *)
Theorem C19_same_object_twice_refuted : exists m m', set_positions m = Ok m' /\ map sg_pos (transmitted m') = [1; 3; 3; 4].
Proof.
  exists (new_message (new_msg_header (-1) 220 (B "abc") 2) (mkME (-1) (Some 2)) [Ptr 0; Ptr 0] ex_heap).
  eexists. split; vm_compute; reflexivity.
Qed.

(** ** C20 *)
Theorem C20_marshal_stable : forall m m1 w, marshal_msg m = (m1, Ok w) ->
  forall m2 m3 r, after m1 m2 -> marshal_msg m2 = (m3, r) -> r = Ok w \/ r = Err \/ r = Panic.
Proof.
  intros m m1 w H m2 m3 r Ha Hm. pose proof (marshal_msg_cache _ _ _ H) as Hc. pose proof (marshal_msg_nonempty _ _ _ H) as Hne.
  pose proof (after_cache _ _ Ha w Hne Hc) as Hc2. now destruct (marshal_msg_cached m2 w Hc2 Hne m3 r Hm).
Qed.
Print Assumptions C20_marshal_stable.
Theorem C20_marshal_again : forall m m1 w, m_cache m = [] -> marshal_msg m = (m1, Ok w) -> exists m2, marshal_msg m1 = (m2, Ok w).
Proof. exact marshal_msg_again. Qed.
Print Assumptions C20_marshal_again.
(** The operations of the API are histories in the sense of [after]. *)
Theorem C20_operations_covered : forall m m',
  (set_positions m = Ok m' \/ set_size m = Ok m' \/ (exists n, set_message_number n m = Ok m') \/
   (exists render sb se p, sign render sb se p m = Ok m') \/ (exists r, marshal_msg m = (m', r))) -> after m m'.
Proof.
  intros m m' [H|[H|[[n H]|[(render&sb&se&p&H)|[r H]]]]].
  - eapply after_change; [apply after_refl|]. unfold set_positions in H.
    destruct (m_body m), (m_header m), (m_end m); try discriminate.
    destruct (m_sigbegin m), (m_sigend m); apply obind_ok in H; destruct H as ([? ?]&_&H); injection H as <-; reflexivity.
  - eapply after_change; [apply after_refl|]. now apply set_size_cache.
  - eapply after_change; [apply after_refl|]. unfold set_message_number in H. destruct (m_header m); [|discriminate]. injection H as <-. reflexivity.
  - eapply after_change; [apply after_refl|]. unfold sign in H. destruct (m_body m) as [ps|]; [|discriminate].
    apply obind_ok in H. destruct H as (m2&H2&H). apply obind_ok in H. destruct H as (s&_&H). injection H as <-. cbn [m_cache].
    unfold set_positions in H2. cbn [m_body m_header m_end m_sigbegin m_sigend m_cache] in H2.
    destruct (m_header m), (m_end m); try discriminate. apply obind_ok in H2. destruct H2 as ([? ?]&_&H2). injection H2 as <-. reflexivity.
  - eapply after_marshal; [apply after_refl|exact H].
Qed.
Print Assumptions C20_operations_covered.
(** A message number that is set before the first call is the one that is sent: the message header
    gets it, and nothing else changes; without a header it panics. *)
Theorem C20_number_set : forall n m,
  (forall h, m_header m = Some h -> exists m', set_message_number n m = Ok m' /\
     transmitted m' = mkSeg (B "HNHBK") (mh_pos h) 3 None
       [option_map (fun s => DE (EDigit (fst s) (snd s))) (mh_size h); option_map (fun z => DE (ENumber z)) (mh_hbci h);
        option_map (fun d => DE (EText d)) (mh_dialog h); Some (DE (ENumber n));
        option_map (fun r => DEG [Some (DE (EText (fst r))); Some (DE (ENumber (snd r)))]) (mh_ref h)] :: tl (transmitted m) /\
     m_cache m' = m_cache m) /\
  (m_header m = None -> set_message_number n m = Panic).
Proof.
  intros n m. unfold set_message_number. split.
  - intros h E. rewrite E. eexists. split; [reflexivity|]. split; [|reflexivity]. unfold transmitted, content. rewrite E. reflexivity.
  - intros E. now rewrite E.
Qed.
Print Assumptions C20_number_set.
(** The consequence: a new message number after marshaling is not transmitted. *)
Example C20_witness : exists m1 m2 m3 w, marshal_msg ex_msg = (m1, Ok w) /\ set_message_number 77 m1 = Ok m2 /\ marshal_msg m2 = (m3, Ok w) /\
  (exists h, m_header m3 = Some h /\ mh_number h = Some 77) /\
  w = B "HNHBK:1:3+000000000080+220+abc+2'HKSAL:7:5+12?+3++J'HKKAZ:-4:5:2+5'HNHBS:-1:1+2'".
Proof.
  eexists. eexists. eexists. eexists. split; [vm_compute; reflexivity|]. split; [vm_compute; reflexivity|]. split; [vm_compute; reflexivity|].
  split; [eexists; split; reflexivity|reflexivity].
Qed.

(** ** C21 *)
Theorem C21_no_pin_no_message : forall enc m m', encrypt [] enc m <> Ok m'.
Proof. intros enc m m' H. unfold encrypt in H. apply obind_ok in H. destruct H as (x&_&H). discriminate. Qed.
Print Assumptions C21_no_pin_no_message.
Theorem C21_envelope : forall pin enc m m', encrypt pin enc m = Ok m' ->
  pin <> [] /\ exists ws, all_ok marshal_seg (content m) = Ok ws /\
    transmitted m' = optlist (option_map header_seg (m_header m)) ++ [enc; dseg 999 None (List.concat ws)] ++
                     optlist (option_map end_seg (m_end m)).
Proof.
  intros pin enc m m' H. unfold encrypt in H. apply obind_ok in H. destruct H as (x&Hx&H). destruct pin as [|c pin]; [discriminate|].
  split; [discriminate|]. apply marshal_inner_iff in Hx. destruct Hx as (ps&ws&_&_&A&->). exists ws. split; [assumption|].
  cbn [obind pin_encrypt] in H. injection H as <-. reflexivity.
Qed.
Print Assumptions C21_envelope.
(** What a receiver finds in a response or request of this shape; pos and ref are arbitrary. *)
Theorem C21_envelope_transparent : forall (P : Type) (others : bytes -> Z -> option (bytes -> outcome P)) hs ks ds es pos ref data,
  sent hs -> sent ks -> Forall sent es -> starts_with (B "HNHBK") hs -> starts_with (B "HNVSK") ks ->
  marshal_seg (mkSeg (B "HNVSD") pos 1 ref [Some (DE (EBinary data))]) = Ok ds -> ~ ends_with b_plus data ->
  len (List.concat (hs :: ks :: ds :: es)) < 2 ^ 61 -> len data <= 2 ^ 48 ->
  in_int64 pos = true -> match ref with Some r => in_int64 r = true | None => True end ->
  let raw := List.concat (hs :: ks :: ds :: es) in
  message_extract raw = Ok (hs :: ks :: ds :: es) /\
  find_segment (fst (se_extract (new_segment_extractor raw))) (B "HNVSD") = Some ds /\
  unmarshal_data_seg ds = Ok (Some data) /\
  read_response others raw = do h <- unmarshal_msg_header hs; new_decrypted others h data.
Proof. intros. cbv zeta. now apply (read_enveloped others hs ks ds es pos ref data). Qed.
Print Assumptions C21_envelope_transparent.

Lemma number_text z : marshal_opt (Some (DE (ENumber z))) = Ok (itoa z).
Proof. cbn. unfold marshal_number. now rewrite (to_latin1_ascii _ (itoa_ascii z)). Qed.
Lemma itoa_ne z : itoa z <> [].
Proof. destruct (itoa_last z) as (p&d&->&_). destruct p; discriminate. Qed.
Lemma itoa_no_plus z : ~ ends_with b_plus (itoa z).
Proof. destruct (itoa_last z) as (p&d&->&H). intros [q Hq]. apply app_inj_tail in Hq. destruct Hq as [_ ->]. discriminate. Qed.
Lemma header_seg_safe p s v d n : elem_safe (EText d) -> safe_seg (header_seg (mkMH p (Some s) (Some v) (Some d) (Some n) None)).
Proof.
  intros Hd. split; [|split].
  - apply header_safe. apply alnum_safe. reflexivity.
  - repeat (constructor; try exact I); try apply Hd.
  - intros h bs _ Hb. cbn [header_seg sg_elems mh_size mh_hbci mh_dialog mh_number mh_ref option_map] in Hb. cbn [all_ok] in Hb.
    apply obind_ok in Hb. destruct Hb as (x1&_&Hb). apply obind_ok in Hb. destruct Hb as (y1&Hb&E1).
    apply obind_ok in Hb. destruct Hb as (x2&_&Hb). apply obind_ok in Hb. destruct Hb as (y2&Hb&E2).
    apply obind_ok in Hb. destruct Hb as (x3&_&Hb). apply obind_ok in Hb. destruct Hb as (y3&Hb&E3).
    rewrite number_text in Hb. cbn [obind all_ok marshal_opt] in Hb.
    injection Hb as <-. injection E3 as <-. injection E2 as <-. injection E1 as <-.
    assert (L : last_present [h; x1; x2; x3; itoa n; []] = itoa n).
    { pose proof (itoa_ne n) as N. destruct (itoa n) as [|a b]; [congruence|]. unfold last_present. cbn [strip]. destruct x3, x2, x1, h; reflexivity. }
    intros G. apply (itoa_no_plus n). rewrite <- L. exact G.
Qed.
Lemma end_seg_safe p n : safe_seg (end_seg (mkME p (Some n))).
Proof.
  split; [|split].
  - apply header_safe. apply alnum_safe. reflexivity.
  - repeat constructor.
  - intros h bs _ Hb. cbn [end_seg sg_elems me_number option_map all_ok] in Hb. rewrite number_text in Hb. cbn [obind] in Hb.
    assert (E : bs = [itoa n]) by congruence. rewrite E.
    assert (L : last_present [h; itoa n] = itoa n).
    { pose proof (itoa_ne n) as N. destruct (itoa n) as [|a b]; [congruence|]. unfold last_present. cbn [strip]. destruct h; reflexivity. }
    rewrite L. apply itoa_no_plus.
Qed.
Lemma concat_segs_end ss : forall ws, all_ok marshal_seg ss = Ok ws -> ~ ends_with b_plus (List.concat ws).
Proof.
  assert (G : forall ws, all_ok marshal_seg ss = Ok ws -> List.concat ws = [] \/ exists p, List.concat ws = p ++ [b_quote]).
  { induction ss as [|s ss IH]; cbn [all_ok]; intros ws H.
    - injection H as <-. now left.
    - apply obind_ok in H. destruct H as (w&Hw&H). apply obind_ok in H. destruct H as (ws'&Hws&E). injection E as <-.
      cbn [List.concat]. right. destruct (IH ws' Hws) as [->|[p ->]].
      + destruct (marshal_seg_inv s w Hw) as (h&bs&_&_&->). rewrite app_nil_r. eauto.
      + exists (w ++ p). now rewrite app_assoc. }
  intros ws H [q Hq]. destruct (G ws H) as [E|[p E]]; rewrite E in Hq; [destruct q; discriminate|].
  apply app_inj_tail in Hq. destruct Hq. discriminate.
Qed.
(** The message as the dialogs send it: composed with NewMessageHeaderSegment,
    enveloped, marshaled; the receiver gets exactly the content. *)
Theorem C21_client_message : forall pin enc m m1 m2 w size hbci dialog number pos k,
  m_header m = Some (new_msg_header size hbci dialog number) -> m_end m = Some (mkME pos (Some k)) ->
  ~ In b_nul dialog -> malformed_float dialog = false -> safe_seg enc -> sg_id enc = B "HNVSK" ->
  encrypt pin enc m = Ok m1 -> marshal_msg m1 = (m2, Ok w) -> len w < 2 ^ 48 ->
  exists ws hs ks ds es, all_ok marshal_seg (content m) = Ok ws /\
    w = hs ++ ks ++ ds ++ es /\ message_extract w = Ok [hs; ks; ds; es] /\
    find_segment (fst (se_extract (new_segment_extractor w))) (B "HNVSD") = Some ds /\
    unmarshal_data_seg ds = Ok (Some (List.concat ws)).
Proof.
  intros pin enc m m1 m2 w size hbci dialog number pos k Hh He Hd Hd2 Hs Hid Henc Hm Hl.
  assert (Hc : m_cache m1 = []).
  { unfold encrypt in Henc. apply obind_ok in Henc. destruct Henc as (x&_&H). apply obind_ok in H. destruct H as (y&_&H). injection H as <-. reflexivity. }
  destruct (C21_envelope _ _ _ _ Henc) as (_&ws&Hws&_).
  assert (E1 : m1 = mkMsg (m_header m) (m_end m) None None (Some [Ptr 0; Ptr 1])
        (fun a => match a with O => enc | _ => data_seg (List.concat ws) end) []).
  { unfold encrypt in Henc. apply obind_ok in Henc. destruct Henc as (x&Hx&H). apply marshal_inner_iff in Hx.
    destruct Hx as (ps&ws'&_&_&A&Ex). rewrite Hws in A. assert (ws' = ws) by congruence. subst ws' x.
    apply obind_ok in H. destruct H as (y&Hy&H). destruct pin; [discriminate|]. cbn [pin_encrypt] in Hy. assert (Ey : y = List.concat ws) by congruence. rewrite Ey in H. injection H as <-. reflexivity. }
  pose proof Hm as Hm'. unfold marshal_msg in Hm'. destruct (set_size m1) as [m0| |] eqn:Es; try discriminate.
  pose proof (set_size_cache _ _ Es) as Hc0. rewrite Hc in Hc0. rewrite Hc0 in Hm'.
  destruct (marshal_parts m0) as [x| |] eqn:Ep; try discriminate. assert (Ex : x = w) by congruence. subst x.
  destruct (set_size_inv _ _ Es) as (w0&h0&s0&_&Hh0&_&Em0).
  rewrite E1 in Hh0. cbn [m_header] in Hh0. rewrite Hh in Hh0. assert (Eh : h0 = new_msg_header size hbci dialog number) by congruence.
  rewrite Em0, E1, Eh in Ep. unfold marshal_parts, set_header, sized, new_msg_header in Ep.
  cbn [m_body m_header m_end m_sigbegin m_sigend m_heap mh_pos mh_hbci mh_dialog mh_number mh_ref marshal_optseg marshal_body] in Ep.
  apply obind_ok in Ep. destruct Ep as (hs&Hhs&Ep). cbn [obind] in Ep. apply obind_ok in Ep. destruct Ep as (c&Hbody&Ep).
  apply obind_ok in Hbody. destruct Hbody as (ks&Hks&Hbody). apply obind_ok in Hbody. destruct Hbody as (c'&Hbody&Ec).
  apply obind_ok in Hbody. destruct Hbody as (ds&Hds&Hbody). cbn [obind] in Hbody.
  rewrite He in Ep. apply obind_ok in Ep. destruct Ep as (es&Hes&Ep).
  assert (Ew : w = List.concat [hs; ks; ds; es]).
  { injection Ec as <-. injection Hbody as <-. injection Ep as <-. cbn [List.concat app]. now rewrite !app_nil_r, <- !app_assoc. }
  exists ws, hs, ks, ds, es. split; [assumption|]. split; [rewrite Ew; cbn [List.concat]; now rewrite app_nil_r|].
  pose proof (header_seg_safe 1 (12%nat, len w0) hbci dialog number (conj Hd Hd2)) as Sh. pose proof (end_seg_safe pos k) as Se.
  assert (Hlw : len (List.concat ws) <= len w).
  { rewrite Ew. cbn [List.concat]. autorewrite with len.
    destruct (marshal_seg_inv _ _ Hds) as (hh&bs&_&Hbs&Eds). cbn [data_seg sg_elems all_ok marshal_opt marshal_de marshal_elem] in Hbs.
    rewrite marshal_binary_eq in Hbs. cbn [obind] in Hbs. assert (Ebs : bs = [bin_wire (List.concat ws)]) by (unfold bin_wire; congruence).
    destruct (dseg_safe 999 None (List.concat ws) (concat_segs_end _ _ Hws)) as (D1&D2&D3).
    destruct (seg_form (dseg 999 None (List.concat ws)) ds (conj D1 (conj D2 D3)) Hds) as (i&bs2&_&Hbs2&Eds2&_).
    cbn [dseg sg_elems all_ok marshal_opt marshal_de marshal_elem] in Hbs2. rewrite marshal_binary_eq in Hbs2. cbn [obind] in Hbs2.
    assert (Ebs2 : bs2 = [bin_wire (List.concat ws)]) by (unfold bin_wire; congruence). rewrite Ebs2 in Eds2.
    change (strip [bin_wire (List.concat ws)]) with [bin_wire (List.concat ws)] in Eds2. rewrite Eds2. rewrite join_cons. cbn [join].
    unfold bin_wire. rewrite !len_app, !len_cons, !len_app, len_cons.
    pose proof (len_nonneg hs). pose proof (len_nonneg ks). pose proof (len_nonneg es).
    pose proof (len_nonneg (itoa_N (N.of_nat (List.length (List.concat ws))))).
    pose proof (len_nonneg (header_wire i (sg_pos (dseg 999 None (List.concat ws))) (sg_version (dseg 999 None (List.concat ws))) (sg_ref (dseg 999 None (List.concat ws))))).
    pose proof (len_nonneg [b_plus]). pose proof (len_nonneg [b_quote]). pose proof (len_nonneg (@nil byte)). lia. }
  destruct (read_enveloped (P := unit) (fun _ _ => None) hs ks ds [es] 999 None (List.concat ws)) as (R1&R2&R3&_); try exact I.
  - exact (safe_sent _ _ Sh Hhs).
  - exact (safe_sent _ _ Hs Hks).
  - constructor; [exact (safe_sent _ _ Se Hes)|constructor].
  - apply (starts_weaken _ [b_colon]). apply (seg_starts _ _ Sh Hhs). reflexivity.
  - apply (starts_weaken _ [b_colon]). rewrite <- Hid. apply (seg_starts _ _ Hs Hks). rewrite Hid. reflexivity.
  - exact Hds.
  - eapply concat_segs_end; eauto.
  - rewrite <- Ew. lia.
  - lia.
  - reflexivity.
  - rewrite Ew. auto.
Qed.
Print Assumptions C21_client_message.
Definition ex_enc : seg := mkSeg (B "HNVSK") 998 2 None [Some (DE (EText (B "998"))); Some (DE (ENumber 1))].
Example C21_witness : exists m1 m2,
  encrypt (B "12345") ex_enc ex_msg = Ok m1 /\
  marshal_msg m1 = (m2, Ok (B "HNHBK:1:3+000000000115+220+abc+2'HNVSK:998:2+998+1'HNVSD:999:1+@34@HKSAL:7:5+12?+3++J'HKKAZ:-4:5:2+5''HNHBS:-1:1+2'")) /\
  safe_seg ex_enc.
Proof.
  eexists. eexists. split; [vm_compute; reflexivity|]. split; [vm_compute; reflexivity|].
  split; [apply header_safe; apply alnum_safe; reflexivity|]. split; [repeat constructor; cbn; intuition discriminate|].
  intros h bs Hh Hb. vm_compute in Hh, Hb. injection Hh as <-. injection Hb as <-. intros [p Hp]. vm_compute in Hp.
  apply (f_equal (@rev byte)) in Hp. rewrite rev_app_distr in Hp. discriminate.
Qed.

(** ** C22 *)
Theorem C22_segment_header_roundtrip : forall id pos version ref,
  forallb alnum id = true -> len id < 2 ^ 60 -> in_int64 pos = true -> in_int64 version = true ->
  match ref with Some r => in_int64 r = true | None => True end ->
  exists w, marshal_de (segment_header id pos version ref) = Ok w /\ unmarshal_header w = Ok (mkSH id pos version ref).
Proof.
  intros id pos version ref Hid Hl Hp Hv Hr. exists (header_wire id pos version ref). split.
  - apply marshal_header_eq. now apply alnum_marshal.
  - apply unmarshal_header_wire; try assumption; [now apply alnum_marshal|now apply alnum_safe|now apply alnum_special|].
    assert (L : forall z, in_int64 z = true -> len (itoa z) <= 40).
    { intros z Hz. unfold itoa. unfold in_int64, int64_min, int64_max in Hz.
      assert (G : forall n, (n < 10 ^ 20)%N -> len (itoa_N n) <= 20).
      { intros n Hn. destruct (digit_width 20 (Z.of_N n) ltac:(change (Z.of_nat 20) with 20; lia) ltac:(lia)) as (v&Hv'&Hvl&_).
        unfold marshal_digit in Hv'. rewrite (to_latin1_ascii _ (itoa_pad_ascii _ _)) in Hv'.
        assert (E : v = itoa_pad 20 (Z.of_N n)) by congruence. rewrite E in Hvl. unfold itoa_pad, pad_left in Hvl.
        replace (Z.of_N n <? 0) with false in Hvl by lia. rewrite N2Z.id in Hvl. rewrite app_length, repeat_length in Hvl. unfold len. lia. }
      destruct (z <? 0) eqn:E; [rewrite len_cons|]; match goal with |- context [itoa_N ?n] => specialize (G n ltac:(lia)) end; lia. }
    unfold header_wire. destruct ref as [r|]; repeat (rewrite len_app || rewrite len_cons);
      pose proof (L pos Hp); pose proof (L version Hv); [pose proof (L r Hr)|change (len (@nil byte)) with 0]; lia.
Qed.
Print Assumptions C22_segment_header_roundtrip.
Example C22_witness :
  marshal_de (segment_header (B "HIRMS") 4 2 (Some 3)) = Ok (B "HIRMS:4:2:3") /\
  unmarshal_header (B "HIRMS:4:2:3") = Ok (mkSH (B "HIRMS") 4 2 (Some 3)) /\
  unmarshal_header (B "HIRMS:4:2") = Ok (mkSH (B "HIRMS") 4 2 None).
Proof. repeat split; vm_compute; reflexivity. Qed.

(** ** C23 *)
(** Exactly which messages are accepted and what Acknowledgements() returns then:
    the acknowledgements of the first HIRMG (version 2) segment, with the message
    they refer to, then those of all HIRMS (version 2) segments in order. *)
Theorem C23_acknowledgements_of_any_message : forall (P : Type) (others : bytes -> Z -> option (bytes -> outcome P)) h raw m,
  new_decrypted others h raw = Ok m ->
  exists segs, message_extract raw = Ok segs /\
    (forall s, In s segs -> exists hd, extract_header s = Ok hd) /\
    (forall s, In s segs -> is_seg (B "HIRMG") 2 s = true -> exists l, unmarshal_acks true s = Ok l) /\
    (forall s, In s segs -> is_seg (B "HIRMS") 2 s = true -> exists l, unmarshal_acks false s = Ok l) /\
    bm_acks m = match filter (is_seg (B "HIRMG") 2) segs with
                | [] => []
                | s :: _ => map (set_ref_msg (referencing_message h)) (acks_in true s)
                end ++ flat_map (acks_in false) (filter (is_seg (B "HIRMS") 2) segs).
Proof.
  intros P others h raw m H. apply new_decrypted_iff in H. destruct H as (segs&os&Hx&Hos&_&->). exists segs. split; [assumption|].
  destruct (by_id others segs os Hos) as (_&_&F1&F2). rewrite Forall_forall in F1, F2. split; [|split; [|split; [|reflexivity]]].
  - intros s Hs. clear -Hos Hs. induction Hos as [|x o segs os Ho _ IH]; [destruct Hs|]. destruct Hs as [<-|Hs]; [|auto]. eapply one_header; eauto.
  - intros s Hs E. apply F1. apply filter_In. auto.
  - intros s Hs E. apply F2. apply filter_In. auto.
Qed.
Print Assumptions C23_acknowledgements_of_any_message.
(** read_response goes through new_decrypted, enveloped or not. *)
Theorem C23_every_response : forall (P : Type) (others : bytes -> Z -> option (bytes -> outcome P)) raw m,
  read_response others raw = Ok m -> exists h data, new_decrypted others h data = Ok m /\
    (data = raw \/ exists s, In s (se_segments (fst (se_extract (new_segment_extractor raw)))) /\ unmarshal_data_seg s = Ok (Some data)).
Proof.
  intros P others raw m. unfold read_response. destruct (se_extract (new_segment_extractor raw)) as [x r] eqn:E. cbn [fst].
  destruct r; try discriminate. cbn [obind]. destruct (find_segment x (B "HNHBK")) as [hs|]; [|discriminate].
  destruct (unmarshal_msg_header hs) as [h| |]; try discriminate. cbn [obind].
  destruct (find_segment x (B "HNVSK")); [|intros H; exists h, raw; auto].
  destruct (find_segment x (B "HNVSD")) as [ds|] eqn:F; [|discriminate]. destruct (unmarshal_data_seg ds) as [[data|]| |] eqn:G; try discriminate.
  cbn [obind]. intros H. exists h, data. split; [assumption|]. right. exists ds. split; [|assumption].
  unfold find_segment in F. apply find_some in F. apply F.
Qed.
Print Assumptions C23_every_response.
(** A bank that composes its message of acknowledgements with plain texts and other
    segments the client can read: everything is delivered as composed. *)
Theorem C23_acknowledgements_delivered : forall (P : Type) (others : bytes -> Z -> option (bytes -> outcome P)) h ss ws,
  (mh_hbci h = Some 220 \/ mh_hbci h = Some 300) -> Forall2 bank_wire ss ws -> Forall (good_seg others) ss -> len (List.concat ws) < 2 ^ 61 ->
  exists m, new_decrypted others h (List.concat ws) = Ok m /\
    bm_acks m = message_acks (referencing_message h) ss ++ segment_acks ss.
Proof.
  intros P others h ss ws Hv Hw Hg Hl.
  assert (Hls : Forall (fun w => len w < 2 ^ 61) ws).
  { apply Forall_forall. intros w Hin. apply in_split in Hin. destruct Hin as (l1&l2&->). rewrite concat_app in Hl. cbn [List.concat] in Hl.
    autorewrite with len in Hl. pose proof (len_nonneg (List.concat l1)). pose proof (len_nonneg (List.concat l2)). lia. }
  assert (Hall : Forall (fun w => sent w /\ exists o, unmarshal_one others w = Ok o) ws).
  { clear Hl. induction Hw as [|s w ss ws H _ IH]; [constructor|]. inversion Hg; subst. inversion Hls; subst. constructor; [|auto].
    eapply bank_seg_read; eauto. }
  assert (Hx : message_extract (List.concat ws) = Ok ws).
  { apply C16_message_roundtrip; [|lia]. eapply Forall_impl; [|exact Hall]. now intros w [? _]. }
  assert (Hos : exists os, Forall2 (fun s o => unmarshal_one others s = Ok o) ws os).
  { clear -Hall. induction Hall as [|w ws [_ [o Ho]] _ [os Hos]]; [exists []; constructor|]. exists (o :: os). now constructor. }
  destruct Hos as [os Hos]. eexists. split; [apply new_decrypted_iff; exists ws, os; repeat split; eauto|].
  cbn [bm_acks]. destruct (bank_acks others (referencing_message h) ss ws Hw Hg Hls) as [-> ->]. reflexivity.
Qed.
Print Assumptions C23_acknowledgements_delivered.
Theorem C23_classification : forall a,
  (is_err a = true <-> 9000 <= ack_code a) /\ (is_warning a = true <-> 3000 <= ack_code a <= 3999) /\
  (is_success a = true <-> 1 <= ack_code a <= 999) /\
  (is_err a = true -> is_warning a = false /\ is_success a = false) /\
  (is_warning a = true -> is_err a = false /\ is_success a = false) /\
  (is_success a = true -> is_err a = false /\ is_warning a = false).
Proof. intros a. unfold is_err, is_warning, is_success. lia. Qed.
Print Assumptions C23_classification.

Definition no_others : bytes -> Z -> option (bytes -> outcome unit) := fun _ _ => None.
Definition ex_acks : list bank_seg :=
  [BMsgAcks 2 None [mkBA 10 [] (B "Nachricht entgegengenommen.") []];
   BSegAcks 3 (Some 4) [mkBA 20 (B "5,1") (B "Auftrag gebucht") [B "a"; []; B "b"]; mkBA 3040 [] (B "Weitere") [B "x"]];
   BSegAcks 4 None [mkBA 9010 [] (B "Fehler") []]].
Example C23_witness :
  exists ws, Forall2 bank_wire ex_acks ws /\ Forall (good_seg no_others) ex_acks /\
    List.concat ws = B "HIRMG:2:2+0010::Nachricht entgegengenommen.'HIRMS:3:2:4+0020:5,1:Auftrag gebucht:a::b+3040::Weitere:x'HIRMS:4:2+9010::Fehler'" /\
    exists m, new_decrypted no_others (mkMH 1 None (Some 300) None None (Some (B "d", 2))) (List.concat ws) = Ok m /\
      map ack_code (bm_acks m) = [10; 20; 3040; 9010] /\ map ack_ref_seg (bm_acks m) = [0; 4; 4; -1].
Proof.
  assert (Pl : forall l, forallb (fun c => alnum c || beq c x20 || beq c b_comma || beq c x2e) l = true -> malformed_float l = false -> plain l).
  { intros l Hl Hf. split; [|split; [|assumption]].
    - apply latin1_string_iff. exists l. symmetry. apply to_utf8_ascii. unfold ascii. rewrite forallb_forall in *. intros c Hc. specialize (Hl c Hc).
      pose (Q := fun c => implb (alnum c || beq c x20 || beq c b_comma || beq c x2e) (zb c <? 128)).
      assert (H : Q c = true) by (apply byte_sweep; vm_compute; reflexivity). unfold Q in H. rewrite Hl in H. exact H.
    - rewrite forallb_forall in *. intros c Hc. specialize (Hl c Hc).
      pose (Q := fun c => implb (alnum c || beq c x20 || beq c b_comma || beq c x2e) (negb (is_syntax c) && negb (beq c b_nul))).
      assert (H : Q c = true) by (apply byte_sweep; vm_compute; reflexivity). unfold Q in H. rewrite Hl in H. exact H. }
  exists [B "HIRMG:2:2+0010::Nachricht entgegengenommen.'"; B "HIRMS:3:2:4+0020:5,1:Auftrag gebucht:a::b+3040::Weitere:x'"; B "HIRMS:4:2+9010::Fehler'"].
  split; [repeat constructor; vm_compute; reflexivity|]. split.
  - repeat constructor; cbn; try discriminate; try lia; try (apply Pl; vm_compute; reflexivity).
  - split; [vm_compute; reflexivity|]. eexists. split; [vm_compute; reflexivity|]. split; vm_compute; reflexivity.
Qed.
(** Limits of the claim. Only the first HIRMG and only version 2 segments count: *)
Theorem C23_second_message_acks_lost_refuted : exists raw m,
  new_decrypted no_others (mkMH 1 None (Some 300) None None None) raw = Ok m /\
  raw = B "HIRMG:2:2+0010::a'HIRMG:3:2+9010::b'HIRMS:4:3+9010::c'" /\ map ack_code (bm_acks m) = [10].
Proof. eexists. eexists. split; [|split; [reflexivity|]]; vm_compute; reflexivity. Qed.
(** Texts with escaped characters: '+' or an apostrophe make the whole response
    unreadable, others are delivered with the escape character. *)
Theorem C23_escaped_text_refuted :
  new_decrypted no_others (mkMH 1 None (Some 300) None None None) (B "HIRMG:2:2+0010::1?+1'") = Err /\
  new_decrypted no_others (mkMH 1 None (Some 300) None None None) (B "HIRMG:2:2+0010::geht?'s'") = Err /\
  exists m, new_decrypted no_others (mkMH 1 None (Some 300) None None None) (B "HIRMG:2:2+0010::um 10?:30'") = Ok m /\
    map ack_text (bm_acks m) = [B "um 10?:30"].
Proof. split; [vm_compute; reflexivity|]. split; [vm_compute; reflexivity|]. eexists. split; vm_compute; reflexivity. Qed.
(** An empty segment crashes the client. *)
Theorem C23_empty_segment_panics : new_decrypted no_others (mkMH 1 None (Some 300) None None None) (B "HIRMG:2:2+0010::a''") = Panic.
Proof. vm_compute. reflexivity. Qed.
