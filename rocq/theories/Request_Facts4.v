(** * Composing requests: clean texts *)
From Verif Require Import Base BaseFacts Lexer_Model Lexer_Spec Codec_Model Codec_Spec Codec_Proofs Wire_Model Wire_Spec
  Wire_Proofs Wire_Facts Wire_Facts2 Message_Model Message_Spec Message_Proofs Message_Facts Message_Facts2 Message_Facts3
  Dialog_Model Merge_Model Client_Model Time_Model Seg_Model Seg_Spec Seg_Facts Request_Model Request_Spec
  Request_Facts Request_Facts2 Request_Facts3.
From Coq Require Import Lia ZifyBool ZifyNat ZifyN.
Open Scope Z_scope.
Ltac Zify.zify_post_hook ::= Z.div_mod_to_equations.

Definition clean_item (i : item) : Prop :=
  match i with
  | TText l => clean_text l
  | TBinary d => clean_text d
  | _ => sendable i
  end.
Lemma clean_sendable i : clean_item i -> sendable i.
Proof. destruct i; cbn; auto. Qed.
Lemma digit_end c p d : is_digit d = true -> ends_with c (p ++ [d]) -> is_digit c = true.
Proof. intros H [q K]. apply app_inj_tail in K. destruct K as [_ ->]. exact H. Qed.
Lemma forall_end (P : byte -> bool) c w : forallb P w = true -> ends_with c w -> P c = true.
Proof. intros H [q ->]. rewrite forallb_app in H. cbn in H. apply andb_prop in H. destruct H as [_ H]. now rewrite andb_true_r in H. Qed.
Lemma pad_end c w n : ends_with c (itoa_pad w n) -> is_digit c = true.
Proof. destruct (itoa_pad_last w n) as (p&d&->&H). now apply digit_end. Qed.
Lemma ends_app c p d : ends_with c (p ++ d) -> d = [] \/ ends_with c d.
Proof.
  intros [q K]. destruct d as [|b d]; [now left|right]. destruct (exists_last (l := b :: d)) as (r&e&E); [discriminate|].
  rewrite E, app_assoc in K. apply app_inj_tail in K. destruct K as [_ ->]. rewrite E. now exists r.
Qed.
Lemma digits2_end c z : ends_with c (digits2 z) -> is_digit c = true.
Proof.
  unfold digits2. change [digit_char (Z.to_N (z / 10)); digit_char (Z.to_N (z mod 10))] with ([digit_char (Z.to_N (z / 10))] ++ [digit_char (Z.to_N (z mod 10))]).
  apply digit_end. apply digit_char_spec. lia.
Qed.
Lemma clean_wire i c : clean_item i -> c = ":"%byte \/ c = "+"%byte -> ~ ends_with c (item_wire i).
Proof.
  intros H Hc. assert (Hd : is_digit c = false) by (destruct Hc as [->| ->]; reflexivity).
  assert (G : forall w, clean_text w -> ~ ends_with c w) by (intros w [A B]; destruct Hc as [->| ->]; assumption).
  destruct i as [l|n|w n|u f|d|b|d|t]; cbn [clean_item item_wire] in *.
  - rewrite escaped_ends. now apply G.
  - destruct (itoa_last n) as (p&d&->&Hn). intros K. apply (digit_end _ _ _ Hn) in K. congruence.
  - intros K. apply pad_end in K. congruence.
  - destruct H.
  - intros K. rewrite app_comm_cons in K. apply ends_app in K. destruct K as [K|K]; [discriminate|].
    destruct d as [|b d]; [destruct K as [q K]; destruct q as [|? [|? ?]]; try discriminate; injection K as <-; destruct Hc; discriminate|].
    change ("@"%byte :: b :: d) with (["@"%byte] ++ b :: d) in K. apply ends_app in K. destruct K as [K|K]; [discriminate|]. now apply (G (b :: d)).
  - intros [q K]. destruct b; destruct q as [|? [|? ?]]; try discriminate; injection K as <-; destruct Hc; discriminate.
  - unfold yyyymmdd. intros K. rewrite ?app_assoc in K. apply ends_app in K. destruct K as [K|K]; [discriminate|]. apply digits2_end in K. congruence.
  - unfold hhmmss. intros K. rewrite ?app_assoc in K. apply ends_app in K. destruct K as [K|K]; [discriminate|]. apply digits2_end in K. congruence.
Qed.
Lemma strip_in (l : list bytes) : strip l = [] \/ In (last (strip l) []) l /\ last (strip l) [] <> [].
Proof.
  induction l as [|x l IH]; cbn [strip]; [now left|]. destruct IH as [E|[H1 H2]].
  - rewrite E. destruct x as [|b x]; [now left|]. right. split; [now left|discriminate].
  - right. assert (R : last (x :: strip l) [] = last (strip l) []) by (destruct (strip l); [contradiction|reflexivity]).
    assert (S : (match strip l with [] => match x with [] => [] | _ => [x] end | _ => x :: strip l end) = x :: strip l \/ strip l = [])
      by (destruct (strip l); [now right|now left]).
    destruct (strip l) as [|y t] eqn:E; [contradiction|]. destruct x as [|b x]; (split; [right; cbn [last] in *; exact H1|cbn [last] in *; exact H2]).
Qed.
Lemma last_present_clean c (l : list bytes) : Forall (fun w => ~ ends_with c w) l -> ~ ends_with c (last_present l).
Proof.
  intros H. unfold last_present. destruct (strip_in l) as [E|[E _]].
  - rewrite E. intros [q K]. destruct q; discriminate.
  - rewrite Forall_forall in H. now apply H.
Qed.
Lemma join_end sep c (l : list bytes) : last l [] <> [] -> ends_with c (join sep l) -> ends_with c (last l []).
Proof.
  induction l as [|x [|y l] IH]; intros H K.
  - contradiction.
  - exact K.
  - change (join sep (x :: y :: l)) with (x ++ sep ++ join sep (y :: l)) in K. change (last (x :: y :: l) []) with (last (y :: l) []) in *.
    apply IH; [exact H|]. rewrite app_assoc in K. apply ends_app in K. destruct K as [K|K]; [|exact K]. exfalso. apply H. clear -K.
    revert y K. induction l as [|z l IH]; intros y K; [exact K|].
    change (join sep (y :: z :: l)) with (y ++ sep ++ join sep (z :: l)) in K. apply app_eq_nil in K. destruct K as [_ K]. apply app_eq_nil in K.
    destruct K as [_ K]. change (last (y :: z :: l) []) with (last (z :: l) []). now apply IH.
Qed.
Lemma group_end c g : ends_with c (group_wire g) -> ends_with c (last_present (map item_wire g)).
Proof.
  unfold group_wire, last_present. destruct (strip_in (map item_wire g)) as [E|[_ E]].
  - rewrite E. intros [q K]. destruct q; discriminate.
  - now apply join_end.
Qed.
Definition clean_part (p : part) : Prop := Forall (Forall clean_item) (pt_fields p).
Lemma clean_tidy p : clean_part p -> tidy p.
Proof.
  intros H. split; [|split].
  - eapply Forall_impl; [|exact H]. intros g Hg. eapply Forall_impl; [|exact Hg]. apply clean_sendable.
  - eapply Forall_impl; [|exact H]. intros g Hg. apply last_present_clean. apply Forall_map. eapply Forall_impl; [|exact Hg].
    intros i Hi. apply clean_wire; auto.
  - apply last_present_clean. apply Forall_map. eapply Forall_impl; [|exact H]. intros g Hg K. apply group_end in K. revert K.
    apply last_present_clean. apply Forall_map. eapply Forall_impl; [|exact Hg]. intros i Hi. apply clean_wire; auto.
Qed.
Lemma hex_word_reference st : hex_word (control_reference st).
Proof.
  unfold control_reference. split; [apply hex_length|]. set (n := crc32 _). clearbody n. generalize 8%nat as k. intros k. revert n.
  induction k as [|k IH]; intros n; [constructor|]. cbn [hex]. apply Forall_app. split; [apply IH|]. constructor; [|constructor].
  unfold hex_digit. apply nth_In. change (List.length (B "0123456789abcdef")) with 16%nat. pose proof (N.mod_upper_bound n 16 ltac:(discriminate)). lia.
Qed.
Lemma hex_clean r : hex_word r -> clean_text r.
Proof.
  intros [_ H]. assert (G : forall c, ~ In c (B "0123456789abcdef") -> ~ ends_with c r).
  { intros c Hc [q ->]. apply Forall_app in H. destruct H as [_ H]. inversion_clear H. contradiction. }
  split; apply G; intros K; cbn in K; repeat (destruct K as [K|K]; [discriminate|]); exact K.
Qed.
Lemma clean_rev t : match rev t with [] => True | c :: _ => c <> ":"%byte /\ c <> "+"%byte end -> clean_text t.
Proof.
  intros H. split; intros [q K]; rewrite K, rev_app_distr in H; cbn in H; destruct H; congruence.
Qed.
Lemma clean_B s : match rev (B s) with [] => True | c :: _ => c <> ":"%byte /\ c <> "+"%byte end -> clean_text (B s).
Proof.
  intros H. split; intros [q K]; rewrite K, rev_app_distr in H; cbn in H; destruct H; congruence.
Qed.
Lemma a_month_ago_real d : real_date d -> 1 <= d_year d -> real_date (a_month_ago d).
Proof.
  intros H Hy. rewrite <- month_before_eq by exact H. destruct H as ((_&Hy2)&Hm&Hd). rewrite month_length_eq in Hd by exact Hm.
  pose proof (days_in_range (d_month d) (d_year d)). unfold month_before. destruct (Z.eqb_spec (d_month d) 1) as [E|E].
  - pose proof (days_in_range 12 (d_year d - 1)). destruct (Z.ltb_spec (days_in 12 (d_year d - 1)) (d_day d)); unfold real_date; cbn [d_year d_month d_day]; rewrite month_length_eq by lia; lia.
  - pose proof (days_in_range (d_month d - 1) (d_year d)). destruct (Z.ltb_spec (days_in (d_month d - 1) (d_year d)) (d_day d)); unfold real_date; cbn [d_year d_month d_day]; rewrite month_length_eq by lia; lia.
Qed.
Ltac inv_all := repeat match goal with H : Forall _ (_ :: _) |- _ => inversion_clear H | H : Forall _ [] |- _ => clear H end.
Ltac clean_one := first
  [ exact I | assumption | apply clean_B; cbn; split; discriminate | apply clean_B; exact I
  | apply hex_clean; assumption | apply a_month_ago_real; assumption ].
Ltac clean_fields := repeat first
  [ apply Forall_nil | apply Forall_cons; [first [apply Forall_nil | apply Forall_cons | cbn [clean_item]; clean_one]|] ].
Lemma default_clean l s : clean_text l -> clean_text (B s) -> clean_text (match l with [] => B s | _ => l end).
Proof. intros H1 H2. now destruct l. Qed.
Lemma clean_key x u : Forall clean_text (who_texts x) -> clean_text (B u) -> Forall clean_item (key_items x u).
Proof. intros H Hu. unfold who_texts in H. inv_all. unfold key_items, bank_items. cbn [app]. repeat (apply Forall_cons; [cbn [clean_item text sendable]; clean_one|]). apply Forall_nil. Qed.
Ltac fields := repeat (apply Forall_cons; [|]); try apply Forall_nil; cbn [clean_item text sendable or_default]; try clean_one.
Section Clean.
  Variable x : who.
  Variable dialog : bytes.
  Variable s : secret.
  Hypothesis Hx : Forall clean_text (who_texts x).
  Hypothesis Hs : Forall clean_text (secret_texts s).
  Lemma clean_sig_header r at_ : hex_word r -> real_moment at_ -> clean_part (signature_header x s r at_).
  Proof.
    intros Hr [Hd Ht]. pose proof (clean_key x "S" Hx ltac:(clean_one)) as K. unfold secret_texts in Hs. inv_all.
    unfold clean_part, signature_header, profile_field, sender_items, stamp_items. cbn [pt_fields]. destruct (wh_version x =? 300); cbn [app];
      repeat (apply Forall_cons; [try exact K; fields|]); apply Forall_nil.
  Qed.
  Lemma clean_sig_end r : hex_word r -> clean_part (signature_end x s r).
  Proof. intros Hr. unfold secret_texts in Hs. inv_all. unfold clean_part, signature_end. cbn [pt_fields]. repeat (apply Forall_cons; [fields|]); apply Forall_nil. Qed.
  Lemma clean_envelope at_ : real_moment at_ -> clean_part (envelope_header x s at_).
  Proof.
    intros [Hd Ht]. pose proof (clean_key x "V" Hx ltac:(clean_one)) as K. unfold secret_texts in Hs. inv_all.
    assert (clean_text (repeat b_nul 8)) by (split; intros [q E]; apply (f_equal (@rev byte)) in E; rewrite rev_app_distr in E; discriminate).
    unfold clean_part, envelope_header, profile_field, sender_items, stamp_items. cbn [pt_fields]. destruct (wh_version x =? 300); cbn [app];
      repeat (apply Forall_cons; [try exact K; fields|]); apply Forall_nil.
  Qed.
  Lemma clean_idn client system b : clean_text client -> clean_text system -> clean_part (identification x client system b).
  Proof. intros H1 H2. unfold who_texts in Hx. inv_all. unfold clean_part, identification, bank_items. cbn [pt_fields]. repeat (apply Forall_cons; [fields|]); apply Forall_nil. Qed.
  Lemma clean_vvb bpd upd : clean_part (preparation x bpd upd).
  Proof.
    unfold who_texts in Hx. inv_all. unfold clean_part, preparation. cbn [pt_fields]. do 3 (apply Forall_cons; [fields|]).
    do 2 (apply Forall_cons; [apply Forall_cons; [apply default_clean; clean_one|apply Forall_nil]|]). apply Forall_nil.
  Qed.
  Lemma clean_wish today w mark : clean_text mark -> Forall clean_text (wish_texts w) -> Forall real_date (wish_dates w) ->
    real_date today -> 1 <= d_year today -> clean_part (wish_part today w mark).
  Proof.
    intros Hm Hw Hd Ht Hy. pose proof (a_month_ago_real today Ht Hy) as Ha.
    unfold clean_part. destruct w as [v a all|v a all|v a from to all|v a from to all|v a all|v from to n]; cbn [wish_part pt_fields app mark_field wish_texts wish_dates] in *;
      unfold national_group, international_sent;
      try (match goal with |- context [in_bank ?a] => destruct (in_bank a) as [[c b]|] end; cbn [app] in *);
      try (destruct from as [from|], to as [to|]; cbn [app from_or to_or] in *); inv_all;
      repeat (apply Forall_cons; [fields|]); apply Forall_nil.
  Qed.
  Lemma clean_body today signed a : Forall clean_text (ask_texts dialog a) -> Forall real_date (ask_dates a) -> real_date today -> 1 <= d_year today ->
    Forall clean_part (body_parts x today dialog signed a).
  Proof.
    intros Ha Hd Ht Hy. assert (Htan : clean_part tan_request) by (unfold clean_part, tan_request; cbn [pt_fields]; repeat (apply Forall_cons; [fields|]); apply Forall_nil).
    destruct a as [client|client system bpd upd|w mark|]; cbn [ask_texts ask_dates body_parts] in *; inv_all.
    - apply Forall_cons; [apply clean_idn; clean_one|]. apply Forall_cons; [apply clean_vvb|]. apply Forall_cons; [exact Htan|].
      apply Forall_cons; [|apply Forall_nil]. unfold clean_part, synchronisation. cbn [pt_fields]. repeat (apply Forall_cons; [fields|]); apply Forall_nil.
    - apply Forall_app. split; [|destruct signed; [apply Forall_cons; [exact Htan|]|]; apply Forall_nil].
      apply Forall_cons; [apply clean_idn; clean_one|]. apply Forall_cons; [apply clean_vvb|]. apply Forall_nil.
    - apply Forall_cons; [exact Htan|]. apply Forall_cons; [now apply clean_wish|apply Forall_nil].
    - apply Forall_cons; [|apply Forall_nil]. unfold clean_part. cbn [pt_fields]. repeat (apply Forall_cons; [fields|]); apply Forall_nil.
  Qed.
End Clean.
