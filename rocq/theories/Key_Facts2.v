(** * Lemmas about key management segments and signed messages *)
From Coq Require Import Lia ZifyBool ZifyNat ZifyN Znumtheory Zpow_facts.
From Verif Require Import Base BaseFacts Lexer_Model Lexer_Spec Codec_Model Codec_Spec Codec_Proofs Wire_Model Wire_Spec
  Wire_Proofs Wire_Facts Wire_Facts2 Message_Model Message_Spec Message_Proofs Message_Facts Message_Facts2 Message_Facts3
  Dialog_Model Merge_Model Client_Model Time_Model Seg_Model Seg_Spec Seg_Facts Request_Model Request_Spec Request_Facts Request_Facts2 Request_Facts4
  Read_Spec Read_Facts Crypto_Model Crypto_Spec Rsa_Facts Key_Model Key_Spec Key_Facts.
Open Scope Z_scope.
Ltac Zify.zify_post_hook ::= Z.div_mod_to_equations.

(** ** Key names in requests *)
Lemma name_field k : bank_code_ok k -> marshal_opt (name_de (key_for k)) = Ok (group_wire (name_items k)).
Proof.
  intros H. set (x := mkWho 300 (bk_country k) (bk_bank k) [] [] []). assert (Hx : who_ok x) by exact H.
  destruct (bank_tidy x Hx) as [T E]. pose proof (bank_field x T) as F.
  unfold name_de. eapply (group_marshal _ [group_wire (bank_items x); escaped (bk_user k); escaped (bk_type k); itoa (bk_number k); itoa (bk_version k)]
    [itoa_pad 3 (bk_country k); escaped (bk_bank k); escaped (bk_user k); escaped (bk_type k); itoa (bk_number k); itoa (bk_version k)]).
  - cbn [all_ok]. change (kn_bank (key_for k)) with (st_bank (settings_for x)). rewrite F. cbn [obind].
    cbn [key_for kn_user kn_type kn_number kn_version]. rewrite !text_marshal. cbn [obind]. rewrite !number_marshal. reflexivity.
  - rewrite E. cbn [join x wh_country wh_bank]. rewrite <- !app_assoc. reflexivity.
  - reflexivity.
  - unfold tidy_field, last_present. intros [p K].
    change (map item_wire (name_items k)) with
      ([itoa_pad 3 (bk_country k); escaped (bk_bank k); escaped (bk_user k); escaped (bk_type k); itoa (bk_number k)] ++ [itoa (bk_version k)]) in K.
    rewrite strip_id in K by (rewrite last_last; destruct (itoa_last (bk_version k)) as (q&d&->&_); now destruct q).
    rewrite last_last in K. destruct (itoa_last (bk_version k)) as (q&d&E'&Hd). rewrite E' in K. apply app_inj_tail in K as (_&->). discriminate.
Qed.
Lemma name_last k : exists p d, group_wire (name_items k) = p ++ [d] /\ is_digit d = true.
Proof.
  unfold group_wire.
  change (map item_wire (name_items k)) with
      ([itoa_pad 3 (bk_country k); escaped (bk_bank k); escaped (bk_user k); escaped (bk_type k); itoa (bk_number k)] ++ [itoa (bk_version k)]).
  destruct (itoa_last (bk_version k)) as (q&d&E&Hd). rewrite E.
  rewrite strip_id by (rewrite last_last; now destruct q). cbn [app join].
  exists (itoa_pad 3 (bk_country k) ++ b_colon :: escaped (bk_bank k) ++ b_colon :: escaped (bk_user k) ++ b_colon :: escaped (bk_type k) ++ b_colon :: itoa (bk_number k) ++ b_colon :: q), d.
  split; [|exact Hd]. rewrite <- !app_assoc. cbn [app]. rewrite <- !app_assoc. cbn [app]. rewrite <- !app_assoc. cbn [app].
  rewrite <- !app_assoc. cbn [app]. rewrite <- !app_assoc. reflexivity.
Qed.
Lemma last_group (l : list bytes) p d : is_digit d = true -> ~ ends_with "+"%byte (last_present (l ++ [p ++ [d]])).
Proof.
  intros Hd. unfold last_present. rewrite strip_id by (rewrite last_last; now destruct p). rewrite last_last.
  intros [q K]. apply app_inj_tail in K as (_&->). discriminate.
Qed.
Lemma key_request_marshal n k : bank_code_ok k ->
  marshal_seg (key_request_seg n (key_for k)) = Ok (part_wire n (key_request k)).
Proof.
  intros H. change (key_request_seg n (key_for k)) with (set_pos n (key_request_seg n (key_for k))). apply shows_marshal.
  - split; [reflexivity|]. split; [reflexivity|]. split; [reflexivity|]. split; [reflexivity|].
    change (shown (sg_elems (key_request_seg n (key_for k))) (pt_fields (key_request k))). cbn [key_request_seg sg_elems key_request pt_fields].
    apply shown_cons; [apply field_number|]. apply shown_cons; [apply field_number|]. apply shown_cons; [now apply name_field|].
    apply shown_absent, shown_nil.
  - cbn [key_request pt_fields map]. destruct (name_last k) as (p&d&->&Hd).
    change [group_wire [TNumber 2]; group_wire [TNumber 124]; p ++ [d]] with ([group_wire [TNumber 2]; group_wire [TNumber 124]] ++ [p ++ [d]]).
    now apply last_group.
Qed.
Lemma key_request_found n k : finds (part_wire n (key_request k)) [(n, key_request k)].
Proof.
  pose proof (finds_parts [(n, key_request k)]) as F. cbn [parts_wire map List.concat fst snd] in F. rewrite ?app_nil_r in F. apply F.
  constructor; [|constructor]. split; [reflexivity|]. cbn. repeat constructor.
Qed.

(** ** String() *)
Lemma elem_text v : elem_string (EText v) = escaped v.
Proof. cbn [elem_string]. symmetry. apply escaped_eq. Qed.
Lemma string_header id n v r : forallb alnum id = true ->
  de_string (segment_header id n v r) = with_colons [id; itoa n; itoa v; match r with Some z => itoa z | None => [] end].
Proof.
  intros H. unfold segment_header, with_colons. cbn [de_string map elem_string]. rewrite (alnum_escape _ H). now destruct r.
Qed.
Lemma string_name k : opt_string (name_de k) = name_string k.
Proof.
  unfold name_de, name_string, with_colons, bank_de, text_de, number_de. cbn [opt_string de_string map].
  rewrite !elem_text. cbn [elem_string join]. rewrite <- !app_assoc. reflexivity.
Qed.
Lemma string_binary d : elem_string (EBinary d) = binary_string d.
Proof. unfold binary_string, size. cbn [elem_string]. unfold itoa. replace (Z.of_nat (List.length d) <? 0) with false by lia. now rewrite <- nat_N_Z, N2Z.id. Qed.
Lemma string_stamp t : real_moment t -> opt_string (security_date_de t) = stamp_string t.
Proof.
  intros (Hd&Ht). unfold security_date_de, stamp_string, with_colons, text_de. cbn [opt_string de_string map elem_string].
  now rewrite format_date_digits, format_time_digits by assumption.
Qed.

(** ** Signature headers *)
Lemma rsa_fields_tidy system at_ : clean_text system -> real_moment at_ ->
  tidy_field (sender_items system) /\ tidy_field (stamp_items at_).
Proof.
  intros Hs [Hd Ht]. assert (C : clean_part (mkPart (B "X") 1 [sender_items system; stamp_items at_])).
  { unfold clean_part, sender_items, stamp_items. cbn [pt_fields].
    repeat (apply Forall_cons; [repeat (apply Forall_cons; [cbn [clean_item text sendable]; first [assumption|apply clean_B; cbn; split; discriminate|apply clean_B; exact I]|]); apply Forall_nil|]); apply Forall_nil. }
  apply clean_tidy in C as (_&T&_). inversion_clear T as [|? ? T1 T2]. inversion_clear T2 as [|? ? T3 T4]. auto.
Qed.
Lemma sender_shown system : tidy_field (sender_items system) -> marshal_opt (security_id_de (utf8 system)) = Ok (group_wire (sender_items system)).
Proof. intros T. exact (sender_field (mkSecret [] system []) T). Qed.
Lemma profile_shown fn : marshal_opt (profile_de (utf8 fn)) =
  Ok (group_wire [text "PIN"; TNumber (if list_eq_dec byte_eq_dec fn (B "999") then 1 else 2)]).
Proof.
  etransitivity; [exact (profile_shows (mkSecret [] [] fn))|]. unfold one_step. cbn [sc_function].
  destruct (list_eq_dec byte_eq_dec fn (B "999")); reflexivity.
Qed.
Lemma key_reference_alnum k : forallb alnum (key_reference k) = true.
Proof. apply hex_alnum. Qed.
Lemma key_reference_word k : hex_word (key_reference k).
Proof.
  unfold key_reference. split; [apply hex_length|]. set (n := crc32 _). clearbody n. generalize 8%nat as i. intros i. revert n.
  induction i as [|i IH]; intros n; [constructor|]. cbn [hex]. apply Forall_app. split; [apply IH|]. constructor; [|constructor].
  unfold hex_digit. apply nth_In. change (List.length (B "0123456789abcdef")) with 16%nat. pose proof (N.mod_upper_bound n 16 ltac:(discriminate)). lia.
Qed.
Lemma hex_word_alnum r : hex_word r -> forallb alnum r = true.
Proof.
  intros (_&F). rewrite Forall_forall in F. apply forallb_forall. intros c Hc. apply F in Hc. cbn in Hc.
  repeat (destruct Hc as [<-|Hc]; [reflexivity|]). destruct Hc.
Qed.

Lemma rsa_header_marshal st at_ key k system fn reference id n : bank_code_ok k -> clean_text system -> real_moment at_ -> hex_word reference ->
  marshal_seg (set_pos n (set_elems (rdh_write_header (st_version st) (key_for k) (mkRdh key (utf8 system) (utf8 fn) reference id)) (sig_header st at_))) =
  Ok (part_wire n (rsa_signature_header (st_version st) k system fn reference id at_)).
Proof.
  intros Hk Hs Ht Hr. destruct (rsa_fields_tidy system at_ Hs Ht) as (Ts&Tt). destruct Ht as (Hd&Hh).
  assert (R : marshal_opt (text_de reference) = Ok (group_wire [TText reference])).
  { apply field_plain. apply hex_word_alnum. exact Hr. }
  assert (F : forall es, shown es [] -> shown (text_de (utf8 fn) :: text_de reference :: text_de (B "1") :: text_de (B "1") :: security_id_de (utf8 system) :: number_de id ::
            security_date_de at_ :: hash_de :: sig_algorithm_de :: name_de (key_for k) :: es)
     [[TText fn]; [TText reference]; [text "1"]; [text "1"]; sender_items system; [TNumber id]; stamp_items at_;
      [text "1"; text "999"; text "1"]; [text "6"; text "10"; text "16"]; name_items k]).
  { intros es E. apply shown_cons; [apply field_text|]. apply shown_cons; [exact R|]. apply shown_cons; [reflexivity|]. apply shown_cons; [reflexivity|].
    apply shown_cons; [now apply sender_shown|]. apply shown_cons; [apply field_number|]. apply shown_cons; [now apply stamp_field|].
    apply shown_cons; [exact hash_field|]. apply shown_cons; [exact sig_algorithm_field|].
    destruct E as (bs&Eb&S). exists (group_wire (name_items k) :: bs). cbn [all_ok]. rewrite name_field by exact Hk. cbn [obind]. rewrite Eb.
    split; [reflexivity|]. cbn [map]. now apply strip_cons_eq. }
  apply shows_marshal.
  - unfold sig_header, rdh_write_header, rsa_signature_header, rsa_profile. destruct (st_version st =? 300);
      unfold set_elems; cbn [sg_id sg_pos sg_version sg_ref sg_elems app rp_fn rp_reference rp_system rp_id]; apply shows_intro; try reflexivity.
    + apply shown_cons; [apply profile_shown|]. apply F. apply shown_absent, shown_nil.
    + apply F. apply shown_absent, shown_nil.
  - cbn [rsa_signature_header pt_fields]. destruct (name_last k) as (p&d&E&Hdd). rewrite map_app. cbn [map]. rewrite E.
    match goal with |- context [?a ++ [?b1; ?b2; ?b3; ?b4; ?b5; ?b6; ?b7; ?b8; ?b9; ?z]] =>
      change (a ++ [b1; b2; b3; b4; b5; b6; b7; b8; b9; z]) with (a ++ [b1; b2; b3; b4; b5; b6; b7; b8; b9] ++ [z]) end.
    rewrite app_assoc. now apply last_group.
Qed.

(** ** Signing *)
Lemma positions_ok n ps : ~ In NilInterface ps -> forall heap, exists n' heap', position_body n ps heap = Ok (n', heap').
Proof.
  revert n. induction ps as [|p ps IH]; intros n N heap; cbn [position_body]; [eauto|].
  assert (~ In NilInterface ps) by (intros I; apply N; now right).
  destruct p; [destruct N; now left| |]; auto.
Qed.
Lemma positions_bad ps : In NilInterface ps -> forall n heap, position_body n ps heap = Panic.
Proof.
  induction ps as [|p ps IH]; intros I n heap; [destruct I|]. cbn [position_body].
  destruct p; [reflexivity| |]; destruct I as [I|I]; try discriminate; auto.
Qed.
Lemma render_concat ps heap : render_body seg_string ps heap =
  List.concat (map (fun p => match p with Ptr a => seg_string (heap a) | _ => [] end) ps).
Proof. induction ps as [|p ps IH]; [reflexivity|]. destruct p; cbn [render_body map List.concat app]; now rewrite IH. Qed.

(** The bytes of a segment begin with its header and a separator. *)
Lemma marshal_starts s w : forallb alnum (sg_id s) = true -> marshal_seg s = Ok w ->
  exists c r, (c = "+"%byte \/ c = "'"%byte) /\ w = header_wire (sg_id s) (sg_pos s) (sg_version s) (sg_ref s) ++ c :: r.
Proof.
  intros Ha H. unfold marshal_seg, marshal_segment in H.
  rewrite (marshal_header_eq (sg_id s) (sg_id s)) in H by now apply alnum_marshal. cbn [obind] in H.
  apply obind_ok in H as (bs&_&H). injection H as <-.
  set (h := header_wire (sg_id s) (sg_pos s) (sg_version s) (sg_ref s)).
  destruct (header_wire_last (sg_id s) (sg_pos s) (sg_version s) (sg_ref s)) as (p&d&E&Hd). fold h in E.
  destruct bs as [|b bs].
  - cbn [join]. exists "'"%byte, []. split; [now right|]. f_equal. rewrite E. apply trim_right_id.
    intros q x K. apply app_inj_tail in K as (_&<-). now apply digit_not.
  - rewrite E.
    rewrite trim_right_stop by now apply digit_not.
    destruct (trim_right_last b_plus (b_plus :: join [b_plus] (b :: bs))) as (j&Ej&_).
    destruct (trim_right b_plus (b_plus :: join [b_plus] (b :: bs))) as [|c r].
    + rewrite app_nil_r. exists "'"%byte, []. split; [now right|reflexivity].
    + exists "+"%byte, (r ++ [b_quote]). split; [now left|]. cbn [app] in Ej. injection Ej as <- _. now rewrite <- app_assoc.
Qed.
Lemma string_starts s : forallb alnum (sg_id s) = true -> sg_ref s = None ->
  exists r, seg_string s = header_wire (sg_id s) (sg_pos s) (sg_version s) (sg_ref s) ++ ":"%byte :: r.
Proof.
  intros Ha Hr. unfold seg_string. rewrite string_header by exact Ha. rewrite Hr. unfold with_colons, header_wire. cbn [join].
  destruct (map opt_string (sg_elems s)) as [|x l]; cbn [join].
  - exists [b_quote]. rewrite <- !app_assoc. cbn [app]. rewrite <- !app_assoc. cbn [app]. rewrite <- !app_assoc. reflexivity.
  - eexists. rewrite <- !app_assoc. cbn [app]. rewrite <- !app_assoc. cbn [app]. rewrite <- !app_assoc. cbn [app]. rewrite <- ?app_assoc. reflexivity.
Qed.
Lemma string_differs s w a b : forallb alnum (sg_id s) = true -> sg_ref s = None -> marshal_seg s = Ok w -> w ++ a <> seg_string s ++ b.
Proof.
  intros Ha Hr H E. destruct (marshal_starts s w Ha H) as (c&r&Hc&->). destruct (string_starts s Ha Hr) as (r'&E'). rewrite E' in E.
  rewrite <- !app_assoc in E. apply app_inv_head in E. cbn [app] in E. injection E as E _. destruct Hc as [-> | ->]; discriminate.
Qed.

Section Signed.
  Variable hash : bytes -> bytes.
  (** What Sign makes of a message *)
  Lemma sign_shape s st at_ p m m' : rdh_sign_message hash s st at_ p m = Ok m' ->
    exists name sb sig, key_name_of s (rp_key p) = Ok name /\ m_sigbegin m' = Some sb /\
      sb = set_pos 2 (set_elems (rdh_write_header (st_version st) name p) (sig_header st at_)) /\
      rdh_sign hash p (strings_of m') = Ok sig /\ signature_in m' sig /\ m_body m' = m_body m.
  Proof.
    unfold rdh_sign_message. intros H. apply obind_ok in H as (name&Hn&H). exists name. unfold sign in H.
    destruct (m_body m) as [ps|] eqn:Hb; [|discriminate]. apply obind_ok in H as (m2&H2&H). apply obind_ok in H as (sig&Hs&H). injection H as <-.
    unfold set_positions in H2. cbn [m_body m_header m_end m_sigbegin m_sigend m_heap m_cache] in H2.
    destruct (m_header m) as [h|]; [|discriminate]. destruct (m_end m) as [e|]; [|discriminate].
    apply obind_ok in H2 as ([n heap]&Hp&H2). injection H2 as <-. cbn [m_body m_header m_end m_sigbegin m_sigend m_heap m_cache option_map] in *.
    eexists. exists sig. split; [exact Hn|]. split; [reflexivity|]. split; [reflexivity|]. split.
    { unfold strings_of. cbn [m_sigbegin m_body m_heap]. rewrite <- render_concat. exact Hs. }
    split; [|reflexivity]. unfold signature_in. cbn [m_sigend]. eexists. exists (text_de (rp_reference p)), None. split; [reflexivity|].
    unfold sig_end. split; reflexivity.
  Qed.
  Lemma sign_ok s st at_ p m name : (forall x, exists sig, rdh_sign hash p x = Ok sig) -> key_name_of s (rp_key p) = Ok name ->
    complete m -> exists m', rdh_sign_message hash s st at_ p m = Ok m'.
  Proof.
    intros Hs Hn (H1&H2&ps&H3&H4). unfold rdh_sign_message. rewrite Hn. cbn [obind]. unfold sign. rewrite H3.
    unfold set_positions. cbn [m_body m_header m_end m_sigbegin m_sigend m_heap m_cache].
    destruct (m_header m); [|congruence]. destruct (m_end m); [|congruence].
    destruct (positions_ok (1 + 1) ps H4 (m_heap m)) as (n'&heap'&->). cbn [obind m_sigbegin m_body m_heap].
    match goal with |- context [sp_sign _ ?t] => destruct (Hs t) as (sig&E) end. cbn [sp_sign]. rewrite E. cbn [obind]. eauto.
  Qed.
  Lemma sign_incomplete s st at_ p m name : key_name_of s (rp_key p) = Ok name ->
    ~ complete m -> rdh_sign_message hash s st at_ p m = Panic.
  Proof.
    intros Hn N. unfold rdh_sign_message. rewrite Hn. cbn [obind]. unfold sign. destruct (m_body m) as [ps|] eqn:Hb; [|reflexivity].
    unfold set_positions. cbn [m_body m_header m_end m_sigbegin m_sigend m_heap m_cache].
    destruct (m_header m) as [h|] eqn:Hh; [|reflexivity]. destruct (m_end m) as [e|] eqn:He; [|reflexivity].
    assert (In NilInterface ps) as I.
    { destruct (in_dec (fun a b : sptr => ltac:(decide equality; apply Nat.eq_dec) : {a = b} + {a <> b}) NilInterface ps) as [I|I]; [exact I|].
      destruct N. split; [congruence|]. split; [congruence|]. now exists ps. }
    rewrite (positions_bad ps I). reflexivity.
  Qed.
  Lemma covered_differs m' sb w : m_sigbegin m' = Some sb -> forallb alnum (sg_id sb) = true -> sg_ref sb = None ->
    covered m' w -> w <> strings_of m'.
  Proof.
    intros Hs Ha Hr (content&e&Hc&He&E). unfold marshal_inner in Hc. destruct (m_body m') as [ps|] eqn:Hb; [|discriminate].
    apply obind_ok in Hc as (a&H1&Hc). apply obind_ok in Hc as (b&H2&Hc). rewrite He in Hc. cbn [obind] in Hc. injection Hc as <-.
    rewrite app_assoc in E. apply app_inv_tail in E. subst w. rewrite Hs in H1. cbn [marshal_optseg] in H1.
    unfold strings_of. rewrite Hs, Hb. now apply string_differs.
  Qed.
End Signed.
Lemma sig_end_marshals n v r sg : forallb alnum r = true ->
  exists e, marshal_seg (mkSeg (B "HNSHA") n v None [text_de r; Some (DE (EBinary sg)); None]) = Ok e.
Proof.
  intros H. unfold marshal_seg, marshal_segment. cbn [sg_id sg_pos sg_version sg_ref sg_elems].
  rewrite (marshal_header_eq (B "HNSHA") (B "HNSHA")) by reflexivity. cbn [obind all_ok].
  rewrite (field_plain r H). cbn [obind]. rewrite (field_item (EBinary sg) (TBinary sg)) by (reflexivity || exact I). cbn [obind marshal_opt].
  eexists. reflexivity.
Qed.
