(** * Composing requests: elements, segments, messages *)
From Verif Require Import Base BaseFacts Lexer_Model Lexer_Spec Codec_Model Codec_Spec Codec_Proofs Wire_Model Wire_Spec
  Wire_Proofs Wire_Facts Wire_Facts2 Message_Model Message_Spec Message_Proofs Message_Facts Message_Facts2 Message_Facts3
  Dialog_Model Merge_Model Client_Model Time_Model Seg_Model Seg_Spec Seg_Facts Request_Model Request_Spec.
From Coq Require Import Lia ZifyBool ZifyNat ZifyN.
Open Scope Z_scope.
Ltac Zify.zify_post_hook ::= Z.div_mod_to_equations.

(** ** Elements *)
Lemma sendable_marshal i : sendable i -> marshal_elem (item_elem i) = Ok (item_wire i).
Proof.
  destruct i as [l|n|w n|u f|d|b|d|t]; cbn [sendable item_elem marshal_elem item_wire]; intros H.
  - rewrite marshal_text_ok, escaped_eq. reflexivity.
  - unfold marshal_number. now rewrite (to_latin1_ascii _ (itoa_ascii n)).
  - unfold marshal_digit. now rewrite (to_latin1_ascii _ (itoa_pad_ascii w n)).
  - contradiction.
  - rewrite marshal_binary_eq. reflexivity.
  - destruct b; reflexivity.
  - unfold marshal_date. rewrite (to_latin1_ascii _ (format_date_ascii d H)). now rewrite format_date_digits.
  - unfold marshal_time. rewrite (to_latin1_ascii _ (format_time_ascii t H)). now rewrite format_time_digits.
Qed.
Lemma text_marshal l : marshal_opt (text_de (utf8 l)) = Ok (escaped l).
Proof. rewrite utf8_eq. apply (sendable_marshal (TText l)). exact I. Qed.
Lemma number_marshal n : marshal_opt (number_de n) = Ok (itoa n).
Proof. apply (sendable_marshal (TNumber n)). exact I. Qed.
Lemma utf8_nil l : utf8 l = [] -> l = [].
Proof. rewrite utf8_eq. apply to_utf8_nil. Qed.
Lemma opt_text_marshal l : marshal_opt (opt_text (utf8 l)) = Ok (escaped l).
Proof.
  destruct (utf8 l) as [|c v] eqn:E; [apply utf8_nil in E; now subst l|].
  unfold opt_text. rewrite <- E. apply text_marshal.
Qed.

(** ** Stripping *)
Lemma strip_snoc_nil (l : list bytes) : strip (l ++ [[]]) = strip l.
Proof. induction l as [|x l IH]; cbn [app strip]; [reflexivity|]. now rewrite IH. Qed.
Lemma strip_cons_eq x (a b : list bytes) : strip a = strip b -> strip (x :: a) = strip (x :: b).
Proof. intros H. cbn [strip]. now rewrite H. Qed.
Lemma group_wire_one i : group_wire [i] = item_wire i.
Proof. unfold group_wire. cbn [map strip]. now destruct (item_wire i). Qed.
Lemma group_wire_nil : group_wire [] = [].
Proof. reflexivity. Qed.
(** The wire form of a group whose components, written out, are the items. *)
Lemma group_marshal cs bs bs' g : all_ok marshal_opt cs = Ok bs -> join [b_colon] bs = join [b_colon] bs' ->
  strip bs' = strip (map item_wire g) -> tidy_field g -> marshal_opt (Some (DEG cs)) = Ok (group_wire g).
Proof.
  intros H J S T. cbn [marshal_opt]. rewrite marshal_de_group, H. cbn [obind]. rewrite J.
  rewrite trim_join_clean.
  - unfold group_wire. now rewrite S.
  - unfold last_present. rewrite S. exact T.
Qed.

(** ** Segments *)
Definition shows (s : seg) (p : part) : Prop :=
  sg_id s = pt_id p /\ forallb alnum (pt_id p) = true /\ sg_version s = pt_version p /\ sg_ref s = None /\
  exists bs, all_ok marshal_opt (sg_elems s) = Ok bs /\ strip bs = strip (map group_wire (pt_fields p)).
Lemma header_part id pos version : forallb alnum id = true ->
  marshal_de (segment_header id pos version None) = Ok (header_bytes id pos version None) /\
  header_bytes id pos version None <> [] /\ ~ ends_with b_plus (header_bytes id pos version None).
Proof.
  intros H. assert (E : header_bytes id pos version None = header_wire id pos version None)
    by (rewrite header_wire_join; reflexivity).
  rewrite E. split; [|split].
  - apply marshal_header_eq. now apply alnum_marshal.
  - apply header_wire_ne.
  - intros [p K]. pose proof (header_special id pos version None H) as S. rewrite K, existsb_app in S.
    cbn in S. now rewrite orb_true_r in S.
Qed.
Lemma shows_marshal s p n : shows s p -> ~ ends_with "+"%byte (last_present (map group_wire (pt_fields p))) ->
  marshal_seg (set_pos n s) = Ok (part_wire n p).
Proof.
  intros (E1&Ha&E2&E3&bs&Hb&S) T. destruct (header_part (pt_id p) n (pt_version p) Ha) as (H1&H2&H3).
  unfold marshal_seg, marshal_segment. cbn [set_pos sg_id sg_pos sg_version sg_ref sg_elems]. rewrite E1, E2, E3, H1. cbn [obind].
  rewrite Hb. cbn [obind]. unfold part_wire, segment_wire. rewrite trim_join_clean.
  - rewrite (strip_cons_eq _ bs _ S). reflexivity.
  - unfold last_present. rewrite (strip_cons_eq _ bs _ S). rewrite strip_cons by exact H2.
    destruct (strip (map group_wire (pt_fields p))) as [|y l] eqn:Es; [exact H3|].
    change (last (header_bytes (pt_id p) n (pt_version p) None :: y :: l) []) with (last (y :: l) []).
    rewrite <- Es. exact T.
Qed.

(** ** The fields of the segments *)
Definition shown (es : list (option delem)) (gs : list (list item)) : Prop :=
  exists bs, all_ok marshal_opt es = Ok bs /\ strip bs = strip (map group_wire gs).
Lemma shown_nil : shown [] [].
Proof. exists []. split; reflexivity. Qed.
Lemma shown_cons o es g gs : marshal_opt o = Ok (group_wire g) -> shown es gs -> shown (o :: es) (g :: gs).
Proof.
  intros H (bs&Hb&S). exists (group_wire g :: bs). split.
  - cbn [all_ok]. rewrite H. cbn [obind]. rewrite Hb. reflexivity.
  - cbn [map]. now apply strip_cons_eq.
Qed.
Lemma shown_absent es : shown es [] -> shown (None :: es) [].
Proof.
  intros (bs&Hb&S). exists ([] :: bs). split.
  - cbn [all_ok marshal_opt obind]. rewrite Hb. reflexivity.
  - cbn [map strip] in *. now rewrite S.
Qed.
Lemma field_none : marshal_opt None = Ok (group_wire []).
Proof. reflexivity. Qed.
Lemma field_item e i : e = item_elem i -> sendable i -> marshal_opt (Some (DE e)) = Ok (group_wire [i]).
Proof. intros -> H. rewrite group_wire_one. now apply sendable_marshal. Qed.
Lemma field_text l : marshal_opt (text_de (utf8 l)) = Ok (group_wire [TText l]).
Proof. rewrite group_wire_one. apply text_marshal. Qed.
Lemma field_mark l : marshal_opt (opt_text (utf8 l)) = Ok (group_wire [TText l]).
Proof. rewrite group_wire_one. apply opt_text_marshal. Qed.
Lemma field_number n : marshal_opt (number_de n) = Ok (group_wire [TNumber n]).
Proof. rewrite group_wire_one. apply number_marshal. Qed.
(** Groups of basic elements only. *)
Lemma field_flat cs g g' : Forall2 (fun o i => marshal_opt o = Ok (item_wire i)) cs g' ->
  strip (map item_wire g') = strip (map item_wire g) -> tidy_field g -> marshal_opt (Some (DEG cs)) = Ok (group_wire g).
Proof.
  intros H S T. assert (A : all_ok marshal_opt cs = Ok (map item_wire g')).
  { clear S T. induction H as [|o i cs g' H _ IH]; [reflexivity|]. cbn [all_ok map]. rewrite H. cbn [obind]. rewrite IH. reflexivity. }
  exact (group_marshal cs _ _ g A eq_refl S T).
Qed.
Lemma plain_component v : forallb alnum v = true -> marshal_opt (text_de v) = Ok (item_wire (TText v)).
Proof.
  intros H. cbn [text_de marshal_opt marshal_de marshal_elem item_wire]. rewrite escaped_eq, (alnum_escape v H). now apply alnum_marshal.
Qed.
Lemma digits_component w n : marshal_opt (Some (DE (EDigit w n))) = Ok (item_wire (TDigits w n)).
Proof. now apply (sendable_marshal (TDigits w n)). Qed.
Lemma item_component e i : e = item_elem i -> sendable i -> marshal_opt (Some (DE e)) = Ok (item_wire i).
Proof. intros -> H. now apply sendable_marshal. Qed.
Ltac component :=
  first [exact (text_marshal _) | exact (number_marshal _) | exact (digits_component _ _)
        | apply plain_component; reflexivity | reflexivity
        | apply item_component; [reflexivity|first [exact I|assumption]]].
Ltac components := repeat (apply Forall2_cons; [component|]); apply Forall2_nil.
Ltac flat_field g := apply (field_flat _ _ g); [components|try reflexivity|try assumption].

Lemma bank_field x : tidy_field (bank_items x) -> marshal_opt (bank_de (st_bank (settings_for x))) = Ok (group_wire (bank_items x)).
Proof. intros H. unfold bank_de. flat_field (bank_items x). Qed.
Lemma sender_field s : tidy_field (sender_items (sc_system s)) ->
  marshal_opt (security_id_de (pv_system (provider_for s))) = Ok (group_wire (sender_items (sc_system s))).
Proof. intros H. unfold security_id_de. flat_field (sender_items (sc_system s)). Qed.
Lemma stamp_field t : real_date (fst t) -> real_time (snd t) -> tidy_field (stamp_items t) -> marshal_opt (security_date_de t) = Ok (group_wire (stamp_items t)).
Proof. intros H1 H2 T. unfold security_date_de. flat_field (stamp_items t). Qed.
Lemma hash_field : marshal_opt hash_de = Ok (group_wire [text "1"; text "999"; text "1"]).
Proof. reflexivity. Qed.
Lemma sig_algorithm_field : marshal_opt sig_algorithm_de = Ok (group_wire [text "6"; text "10"; text "16"]).
Proof. reflexivity. Qed.
Lemma enc_algorithm_field : marshal_opt enc_algorithm_de =
  Ok (group_wire [text "2"; text "2"; text "13"; TBinary (repeat b_nul 8); text "5"; text "1"]).
Proof. vm_compute. reflexivity. Qed.
Lemma utf8_inj_B l v : ascii v = true -> utf8 l = v -> l = v.
Proof.
  intros H. rewrite utf8_eq. intros E. rewrite <- (to_utf8_ascii v H) in E. now apply to_utf8_inj in E.
Qed.
Lemma one_step_eq s : bytes_eqb (pv_fn (provider_for s)) (B "999") = one_step s.
Proof.
  cbn [provider_for pv_fn]. unfold one_step.
  destruct (list_eq_dec byte_eq_dec (sc_function s) (B "999")) as [E|E]; [rewrite E; reflexivity|].
  apply bytes_eqb_neq. intros K. apply E. now apply (utf8_inj_B _ (B "999")).
Qed.
Lemma profile_shows s : marshal_opt (profile_de (pv_fn (provider_for s))) =
  Ok (group_wire [text "PIN"; TNumber (if one_step s then 1 else 2)]).
Proof. unfold profile_de. rewrite one_step_eq. destruct (one_step s); reflexivity. Qed.
Lemma pin_field s : tidy_field [TText (sc_pin s)] -> marshal_opt (pin_tan_de (pv_pin (provider_for s))) = Ok (group_wire [TText (sc_pin s)]).
Proof.
  intros H. unfold pin_tan_de. apply (field_flat _ _ [TText (sc_pin s); text ""]); [components| |exact H].
  cbn [map item_wire text escaped]. now destruct (escaped (sc_pin s)).
Qed.
Lemma escaped_app a b : escaped (a ++ b) = escaped a ++ escaped b.
Proof. unfold escaped. apply flat_map_app. Qed.
Lemma escaped_ends c l : ends_with c (escaped l) <-> ends_with c l.
Proof.
  split.
  - intros [p E]. destruct (exists_last (l := l)) as (q&d&->). { intros ->. destruct p; discriminate. }
    exists q. f_equal. rewrite escaped_app in E. unfold escaped at 2 in E. cbn [flat_map] in E. rewrite app_nil_r in E.
    destruct (mem_byte d (B "?@':+")).
    + change ["?"%byte; d] with (["?"%byte] ++ [d]) in E. rewrite app_assoc in E. apply app_inj_tail in E. destruct E as [_ ->]. reflexivity.
    + apply app_inj_tail in E. destruct E as [_ ->]. reflexivity.
  - intros [q ->]. rewrite escaped_app. unfold escaped at 2. cbn [flat_map]. rewrite app_nil_r.
    destruct (mem_byte c (B "?@':+")); [|now exists (escaped q)].
    exists (escaped q ++ ["?"%byte]). now rewrite <- app_assoc.
Qed.
Lemma escaped_ne l : l <> [] -> escaped l <> [].
Proof. intros H E. apply H. destruct l as [|c l]; [reflexivity|]. unfold escaped in E. cbn [flat_map] in E. now destruct (mem_byte c (B "?@':+")). Qed.
Lemma itoa_pad_ne w n : itoa_pad w n <> [].
Proof. destruct (itoa_pad_last w n) as (p&d&->&_). destruct p; discriminate. Qed.
Lemma bank_tidy x : who_ok x -> tidy_field (bank_items x) /\ group_wire (bank_items x) = itoa_pad 3 (wh_country x) ++ b_colon :: escaped (wh_bank x).
Proof.
  intros [H1 H2]. apply escaped_ne in H1. rewrite <- escaped_ends in H2.
  assert (S : strip (map item_wire (bank_items x)) = [itoa_pad 3 (wh_country x); escaped (wh_bank x)]).
  { cbn [bank_items map item_wire strip]. destruct (escaped (wh_bank x)); [contradiction|]. now destruct (itoa_pad 3 (wh_country x)). }
  unfold tidy_field, last_present, group_wire. rewrite S. split; [exact H2|reflexivity].
Qed.
Lemma key_field x ty : forallb alnum (B ty) = true -> who_ok x -> marshal_opt (key_name_de (settings_for x) (B ty)) = Ok (group_wire (key_items x ty)).
Proof.
  intros Ha H. destruct (bank_tidy x H) as [T E]. pose proof (bank_field x T) as F.
  unfold key_name_de. eapply (group_marshal _ [group_wire (bank_items x); escaped (wh_user x); B ty; itoa 0; itoa 0]
    [itoa_pad 3 (wh_country x); escaped (wh_bank x); escaped (wh_user x); B ty; itoa 0; itoa 0]).
  - cbn [all_ok]. rewrite F. cbn [obind]. rewrite (text_marshal (wh_user x) : marshal_opt (text_de (st_user (settings_for x))) = _). cbn [obind].
    rewrite (plain_component (B ty) Ha). cbn [obind]. rewrite !number_marshal. cbn [obind item_wire]. rewrite (escaped_eq (B ty)), (alnum_escape _ Ha). reflexivity.
  - rewrite E. cbn [join]. rewrite <- !app_assoc. reflexivity.
  - unfold key_items. cbn [bank_items app map item_wire text]. rewrite (escaped_eq (B ty)), (alnum_escape _ Ha). reflexivity.
  - unfold tidy_field, last_present. intros [p K].
    assert (L : forall l : list bytes, last (strip (l ++ [B "0"])) [] = B "0").
    { intros l. rewrite strip_id by (rewrite last_last; discriminate). apply last_last. }
    change (map item_wire (key_items x ty)) with
      ([itoa_pad 3 (wh_country x); escaped (wh_bank x); escaped (wh_user x); escaped (B ty); B "0"] ++ [B "0"]) in K.
    rewrite L in K. destruct p as [|a [|b p]]; discriminate.
Qed.
Lemma national_field a : tidy_field (national_group a) -> marshal_opt (connection_de (national_value a)) = Ok (group_wire (national_group a)).
Proof. intros H. unfold connection_de. flat_field (national_group a). Qed.
Lemma strip_app_cons (l r : list bytes) x : x <> [] -> strip (l ++ x :: r) = l ++ x :: strip r.
Proof.
  intros H. induction l as [|y l IH]; cbn [app]; [now apply strip_cons|]. cbn [strip]. rewrite IH. destruct y; [|reflexivity]. now destruct l.
Qed.
Lemma intl_field a : tidy_field (international_sent a) -> marshal_opt (intl_de (international_value a)) = Ok (group_wire (international_sent a)).
Proof.
  intros T.
  set (c := match in_bank a with Some (c, _) => c | None => 0 end). set (b := match in_bank a with Some (_, b) => b | None => [] end).
  assert (Eb : ic_bank (international_value a) = mkBank c (utf8 b)).
  { unfold c, b. cbn [international_value ic_bank]. destruct (in_bank a) as [[? ?]|]; reflexivity. }
  set (pre := [escaped (in_iban a); escaped (in_bic a); escaped (in_account a); escaped (in_sub a)]).
  assert (Ew : strip (map item_wire (international_sent a)) = pre ++ itoa_pad 3 c :: strip [escaped b]).
  { unfold international_sent. rewrite map_app. change (map item_wire [TText (in_iban a); TText (in_bic a); TText (in_account a); TText (in_sub a)]) with pre.
    unfold c, b. destruct (in_bank a) as [[c' b']|]; cbn [map item_wire]; rewrite (strip_app_cons pre _ _ (itoa_pad_ne _ _)); reflexivity. }
  set (g := [TDigits 3 c; TText b]).
  assert (Tg : tidy_field g).
  { unfold tidy_field, last_present in *. rewrite Ew in T. cbn [g map item_wire]. rewrite strip_cons by apply itoa_pad_ne.
    intros K. apply T. clear T Ew. destruct (strip [escaped b]) as [|y l]; cbn [app last] in *; exact K. }
  assert (F : marshal_opt (bank_de (ic_bank (international_value a))) = Ok (join [b_colon] (itoa_pad 3 c :: strip [escaped b]))).
  { rewrite Eb. unfold bank_de. rewrite (field_flat _ g g); [|unfold bank_country, bank_code; components|reflexivity|exact Tg].
    unfold group_wire. cbn [g map item_wire]. rewrite strip_cons by apply itoa_pad_ne. reflexivity. }
  unfold intl_de. eapply (group_marshal _ (pre ++ [join [b_colon] (itoa_pad 3 c :: strip [escaped b])]) (pre ++ itoa_pad 3 c :: strip [escaped b])).
  - cbn [all_ok international_value ic_iban ic_bic ic_account ic_sub]. rewrite !text_marshal. cbn [obind].
    change (mkIC (utf8 (in_iban a)) (utf8 (in_bic a)) (utf8 (in_account a)) (utf8 (in_sub a))
       match in_bank a with Some (c, b) => mkBank c (utf8 b) | None => mkBank 0 [] end) with (international_value a).
    change (match in_bank a with Some (c, b) => mkBank c (utf8 b) | None => mkBank 0 [] end) with (ic_bank (international_value a)).
    rewrite F. reflexivity.
  - cbn [pre app]. destruct (strip [escaped b]); reflexivity.
  - rewrite Ew. rewrite (strip_app_cons pre _ _ (itoa_pad_ne _ _)). f_equal. f_equal. cbn [strip]. now destruct (escaped b).
  - exact T.
Qed.
