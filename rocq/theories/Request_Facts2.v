(** * Composing requests: the segments *)
From Verif Require Import Base BaseFacts Lexer_Model Lexer_Spec Codec_Model Codec_Spec Codec_Proofs Wire_Model Wire_Spec
  Wire_Proofs Wire_Facts Wire_Facts2 Message_Model Message_Spec Message_Proofs Message_Facts Message_Facts2 Message_Facts3
  Dialog_Model Merge_Model Client_Model Time_Model Seg_Model Seg_Spec Seg_Facts Request_Model Request_Spec Request_Facts.
From Coq Require Import Lia ZifyBool ZifyNat ZifyN.
Open Scope Z_scope.
Ltac Zify.zify_post_hook ::= Z.div_mod_to_equations.

(** ** Dates *)
Lemma leap_eq y : is_leap y = leap_year y.
Proof. unfold is_leap, leap_year. destruct (y mod 400 =? 0) eqn:A, (y mod 100 =? 0) eqn:B, (y mod 4 =? 0) eqn:C; try reflexivity; lia. Qed.
Lemma month_length_eq y m : 1 <= m <= 12 -> month_length y m = days_in m y.
Proof.
  intros H. unfold month_length, month_lengths, days_in. rewrite leap_eq.
  assert (m = 1 \/ m = 2 \/ m = 3 \/ m = 4 \/ m = 5 \/ m = 6 \/ m = 7 \/ m = 8 \/ m = 9 \/ m = 10 \/ m = 11 \/ m = 12) as K by lia.
  repeat (destruct K as [->|K]); try subst m; reflexivity.
Qed.
Lemma iter_next_day k : forall y m d, d + Z.of_nat k <= month_length y m ->
  Nat.iter k next_day (mkDate y m d) = mkDate y m (d + Z.of_nat k).
Proof.
  induction k as [|k IH]; intros y m d H; [cbn; f_equal; lia|].
  change (Nat.iter (S k) next_day (mkDate y m d)) with (next_day (Nat.iter k next_day (mkDate y m d))).
  rewrite IH by lia. unfold next_day. cbn [d_year d_month d_day].
  destruct (Z.ltb_spec (d + Z.of_nat k) (month_length y m)); [|lia]. f_equal. lia.
Qed.
Lemma iter_add {A} (f : A -> A) a b z : Nat.iter (a + b) f z = Nat.iter a f (Nat.iter b f z).
Proof. induction a as [|a IH]; [reflexivity|]. cbn [Nat.add Nat.iter nat_rect]. unfold Nat.iter in *. cbn. now rewrite IH. Qed.
Lemma days_in_range m y : 28 <= days_in m y <= 31.
Proof. unfold days_in. destruct (m =? 2); [destruct (is_leap y); lia|]. destruct (_ || _); lia. Qed.
Lemma month_before_eq d : real_date d -> month_before d = a_month_ago d.
Proof.
  intros (_&Hm&Hd). unfold month_before, a_month_ago. rewrite month_length_eq in Hd by exact Hm. pose proof (days_in_range (d_month d) (d_year d)) as Hr.
  set (ym := if d_month d =? 1 then (d_year d - 1, 12) else (d_year d, d_month d - 1)).
  assert (E : (if d_month d =? 1 then mkDate (d_year d - 1) 12 1 else mkDate (d_year d) (d_month d - 1) 1) = mkDate (fst ym) (snd ym) 1)
    by (unfold ym; destruct (d_month d =? 1); reflexivity).
  rewrite E. assert (Hs : 1 <= snd ym <= 12) by (unfold ym; destruct (Z.eqb_spec (d_month d) 1); cbn [snd]; lia).
  pose proof (month_length_eq (fst ym) (snd ym) Hs) as Hl. pose proof (days_in_range (snd ym) (fst ym)) as Hr2.
  assert (N : next_day (mkDate (fst ym) (snd ym) (days_in (snd ym) (fst ym))) = mkDate (d_year d) (d_month d) 1).
  { unfold next_day. cbn [d_year d_month d_day]. rewrite Hl, Z.ltb_irrefl. unfold ym. destruct (Z.eqb_spec (d_month d) 1) as [Q|Q]; cbn [fst snd].
    - rewrite Z.ltb_irrefl. f_equal; lia.
    - destruct (Z.ltb_spec (d_month d - 1) 12); [f_equal; lia|lia]. }
  rewrite (surjective_pairing ym) at 1. cbv iota beta.
  destruct (Z.ltb_spec (days_in (snd ym) (fst ym)) (d_day d)) as [L|L].
  - replace (Z.to_nat (d_day d - 1)) with (Z.to_nat (d_day d - 1 - days_in (snd ym) (fst ym)) + (1 + Z.to_nat (days_in (snd ym) (fst ym) - 1)))%nat by lia.
    rewrite !iter_add. rewrite (iter_next_day (Z.to_nat (days_in (snd ym) (fst ym) - 1))) by lia.
    replace (1 + Z.of_nat (Z.to_nat (days_in (snd ym) (fst ym) - 1))) with (days_in (snd ym) (fst ym)) by lia.
    change (Nat.iter 1 next_day ?z) with (next_day z). rewrite N.
    rewrite iter_next_day by (rewrite month_length_eq by exact Hm; lia). f_equal. lia.
  - rewrite iter_next_day by lia. f_equal. lia.
Qed.
Lemma is_zero_eq d : is_zero d = true -> d = mkDate 1 1 1.
Proof. destruct d as [y m d]. unfold is_zero. cbn [d_year d_month d_day]. intros H. f_equal; lia. Qed.
Lemma start_eq today from to : real_date today -> from <> Some (mkDate 1 1 1) -> range_start today (mkTf (given from) to) = from_or today from.
Proof.
  intros T H. unfold range_start. cbn [tf_start]. destruct from as [d|]; cbn [given from_or].
  - destruct (is_zero d) eqn:E; [apply is_zero_eq in E; congruence|reflexivity].
  - now apply month_before_eq.
Qed.
Lemma end_eq today from to : to <> Some (mkDate 1 1 1) -> range_end today (mkTf from (given to)) = to_or today to.
Proof.
  intros H. unfold range_end. cbn [tf_end]. destruct to as [d|]; cbn [given to_or]; [|reflexivity].
  destruct (is_zero d) eqn:E; [apply is_zero_eq in E; congruence|reflexivity].
Qed.

(** ** The control reference *)
Lemma hex_digit_alnum n : alnum (hex_digit (n mod 16)) = true.
Proof.
  pose proof (N.mod_upper_bound n 16 ltac:(discriminate)) as H. set (k := (n mod 16)%N) in *. clearbody k.
  assert (k = 0 \/ k = 1 \/ k = 2 \/ k = 3 \/ k = 4 \/ k = 5 \/ k = 6 \/ k = 7 \/ k = 8 \/ k = 9 \/ k = 10 \/ k = 11 \/ k = 12 \/ k = 13 \/ k = 14 \/ k = 15)%N as K by lia.
  repeat (destruct K as [->|K]; [reflexivity|]). subst k. reflexivity.
Qed.
Lemma hex_alnum k : forall n, forallb alnum (hex k n) = true.
Proof.
  induction k as [|k IH]; intros n; [reflexivity|]. cbn [hex]. rewrite forallb_app, IH. cbn [forallb]. now rewrite hex_digit_alnum.
Qed.
Lemma hex_length k : forall n, List.length (hex k n) = k.
Proof. induction k as [|k IH]; intros n; [reflexivity|]. cbn [hex]. rewrite app_length, IH. cbn. lia. Qed.

(** ** Segments *)
Lemma shows_intro id n v es gs : forallb alnum id = true -> shown es gs -> shows (mkSeg id n v None es) (mkPart id v gs).
Proof. intros H (bs&Hb&S). repeat split; auto. now exists bs. Qed.
Ltac inv_all := repeat match goal with H : Forall _ (_ :: _) |- _ => inversion_clear H | H : Forall _ [] |- _ => clear H end.
Lemma field_plain v : forallb alnum v = true -> marshal_opt (text_de v) = Ok (group_wire [TText v]).
Proof. intros H. rewrite group_wire_one. now apply plain_component. Qed.
Lemma reference_field st : marshal_opt (text_de (control_reference st)) = Ok (group_wire [TText (control_reference st)]).
Proof. apply field_plain. apply hex_alnum. Qed.

Section Segments.
  Variable x : who.
  Let st := settings_for x.
  Hypothesis Hx : who_ok x.
  Lemma bank_shows : marshal_opt (bank_de (st_bank st)) = Ok (group_wire (bank_items x)).
  Proof. apply bank_field. now apply bank_tidy. Qed.
  Ltac one := first
    [ reflexivity | exact hash_field | exact sig_algorithm_field | exact enc_algorithm_field
    | exact (profile_shows _) | exact bank_shows | exact (reference_field _) | exact (field_number _)
    | apply (key_field x "S"); [reflexivity|exact Hx] | apply (key_field x "V"); [reflexivity|exact Hx]
    | apply sender_field; assumption | apply stamp_field; assumption | exact (field_text _) | exact (field_mark _)
    | apply pin_field; assumption | apply national_field; assumption | apply intl_field; assumption
    | apply field_item; [reflexivity|first [exact I|assumption]] ].
  Ltac all_shown := repeat first [apply shown_nil | apply shown_absent; [] | apply shown_cons; [one|]].
  Lemma sig_header_shows s at_ : tidy (signature_header x s (control_reference st) at_) ->
    shows (set_elems (write_sig_header st (provider_for s)) (sig_header st at_)) (signature_header x s (control_reference st) at_).
  Proof.
    intros (S&T&_). unfold sig_header, write_sig_header, signature_header, profile_field in *. cbn [st settings_for st_version pt_fields] in *.
    destruct (wh_version x =? 300); unfold set_elems; cbn [sg_id sg_pos sg_version sg_ref sg_elems app] in *;
      (apply shows_intro; [reflexivity|]); unfold stamp_items, sender_items in S; inv_all;
      fold (sender_items (sc_system s)) (stamp_items at_) (control_reference st) in *; all_shown.
  Qed.
  Lemma sig_end_shows s : tidy (signature_end x s (control_reference st)) ->
    shows (set_elems (write_sig_end st (provider_for s)) (sig_end st)) (signature_end x s (control_reference st)).
  Proof.
    intros (S&T&_). unfold sig_end, write_sig_end, signature_end, set_elems in *. cbn [sg_id sg_pos sg_version sg_ref sg_elems pt_fields] in *.
    apply shows_intro; [reflexivity|]. inv_all. all_shown.
  Qed.
  Lemma enc_header_shows s at_ : tidy (envelope_header x s at_) -> shows (enc_header st (provider_for s) at_) (envelope_header x s at_).
  Proof.
    intros (S&T&_). unfold enc_header, envelope_header, profile_field in *. cbn [st settings_for st_version pt_fields] in *.
    destruct (wh_version x =? 300); cbn [app] in *; (apply shows_intro; [reflexivity|]); unfold stamp_items, sender_items in S; inv_all;
      fold (sender_items (sc_system s)) (stamp_items at_) in *; all_shown.
  Qed.
  Lemma idn_shows client system r : shows (idn_seg st (utf8 client) (utf8 system) r) (identification x client system r).
  Proof. apply shows_intro; [reflexivity|]. all_shown. Qed.
  Lemma default_field l d : marshal_opt (text_de d) = Ok (escaped d) ->
    marshal_opt (text_de (match utf8 l with [] => d | p => p end)) = Ok (group_wire [TText (match l with [] => d | _ => l end)]).
  Proof.
    intros H. rewrite group_wire_one. cbn [item_wire]. destruct (utf8 l) as [|c v] eqn:E.
    - apply utf8_nil in E. now subst l.
    - destruct l as [|b l]; [discriminate|]. rewrite <- E. apply text_marshal.
  Qed.
  Lemma vvb_shows bpd upd : shows (vvb_seg st bpd upd) (preparation x bpd upd).
  Proof.
    apply shows_intro; [reflexivity|]. do 3 (apply shown_cons; [one|]).
    apply shown_cons; [apply default_field; reflexivity|]. apply shown_cons; [apply default_field; reflexivity|]. apply shown_nil.
  Qed.
  Lemma tan_shows : shows tan_seg tan_request.
  Proof. apply shows_intro; [reflexivity|]. all_shown. Qed.
  Lemma syn_shows : shows (syn_seg st) (synchronisation x).
  Proof. unfold syn_seg, synchronisation. cbn [st settings_for st_version]. destruct (wh_version x =? 300); (apply shows_intro; [reflexivity|]); all_shown. Qed.
  Lemma end_shows dialog : shows (end_dialog_seg (utf8 dialog)) (mkPart (B "HKEND") 1 [[TText dialog]]).
  Proof. apply shows_intro; [reflexivity|]. all_shown. Qed.
  Lemma wish_shows today w mark : real_date today -> wish_ok w -> tidy (wish_part today w mark) ->
    exists s, job_seg today (job_for w mark) = Some s /\ shows s (wish_part today w mark).
  Proof.
    intros Ht Hw (S&T&_). destruct w as [v a all|v a all|v a from to all|v a from to all|v a all|v from to n];
      unfold job_for, job_seg; cbn [jb_topic jb_args jb_version jb_mark]; eexists; (split; [reflexivity|]);
      unfold kaz_elems, sal_elems, wish_part, mark_field in *; cbn [pt_fields app] in *; (apply shows_intro; [reflexivity|]);
      try (destruct Hw as [Hf Hto]; rewrite (start_eq today from _ Ht Hf), (end_eq today _ to Hto)); inv_all; all_shown.
  Qed.
End Segments.

Fixpoint somes {A} (l : list (option A)) : list A :=
  match l with [] => [] | Some a :: r => a :: somes r | None :: r => somes r end.
Lemma body_shows x today dialog signed a : who_ok x -> real_date today -> ask_ok a ->
  (signed = true \/ (forall w mark, a <> QJob w mark)) -> Forall tidy (body_parts x today dialog signed a) ->
  exists body, body_segs (settings_for x) today signed (kind_for dialog a) = Some body /\
    Forall2 shows (somes body) (body_parts x today dialog signed a).
Proof.
  intros Hx Ht Ha Hs T. destruct a as [client|client system bpd upd|w mark|]; cbn [kind_for body_segs].
  - eexists. split; [reflexivity|]. cbn [somes body_parts]. repeat apply Forall2_cons; [| | | |apply Forall2_nil].
    + exact (idn_shows x Hx client (B "0") true).
    + apply vvb_shows.
    + apply tan_shows.
    + apply syn_shows.
  - eexists. split; [reflexivity|]. destruct signed; cbn [somes body_parts app]; repeat apply Forall2_cons; try apply Forall2_nil;
      first [apply idn_shows; exact Hx|apply vvb_shows|apply tan_shows].
  - destruct Hs as [->|Hs]; [|now destruct (Hs w mark)]. cbn [body_parts] in *. inversion_clear T as [|? ? _ T']. inversion_clear T' as [|? ? Tw _].
    destruct (wish_shows today w mark Ht Ha Tw) as (s&E&S). rewrite E. eexists. split; [reflexivity|]. cbn [somes].
    apply Forall2_cons; [apply tan_shows|]. apply Forall2_cons; [exact S|apply Forall2_nil].
  - eexists. split; [reflexivity|]. cbn [somes body_parts]. apply Forall2_cons; [|apply Forall2_nil]. apply end_shows.
Qed.
