From Verif Require Import Base BaseFacts Lexer_Model Lexer_Spec Lexer_Proofs Lexer_Facts
  Codec_Model Codec_Spec Codec_Proofs Codec_Props Wire_Model Wire_Spec Wire_Proofs Wire_Facts Wire_Facts2 Wire_Facts3
  Message_Model Message_Spec Message_Proofs Message_Facts Message_Facts2 Message_Facts3
  Dialog_Model Dialog_Spec Seg_Model Seg_Spec Seg_Facts Seg_Facts2 Seg_Facts3 Seg_Facts4 Seg_Facts5 Seg_Props Seg_Props2
  Client_Model Client_Spec Answer_Spec Kept_Facts Answer_Facts Answer_Facts2 Crash_Spec Crash_Facts
  Time_Model Request_Model Request_Spec Transport_Model Log_Model.
From Coq Require Import Lia ZifyBool ZifyNat ZifyN.
Open Scope Z_scope.
Ltac Zify.zify_post_hook ::= Z.div_mod_to_equations.

(** ** Groups of proper values can be read or are refused *)
Lemma group_result g : Forall item_ok g -> len (group_wire g) < 2 ^ 61 -> strip (map item_wire g) <> [] ->
  group_extract (group_wire g) = Ok (strip (map item_wire g)) \/ group_extract (group_wire g) = Err.
Proof.
  intros H Hl Hne. unfold group_wire in *. assert (E : Forall echunk (strip (map item_wire g))) by (apply strip_Forall, items_echunk, H).
  destruct (existsb special (join [b_colon] (strip (map item_wire g)))) eqn:S.
  - right. destruct (exists_last Hne) as (es&e&Es). rewrite Es in *. apply group_extract_special; try assumption.
    assert (K : last (strip (map item_wire g)) [] <> []) by (apply strip_last; rewrite Es; intros K; apply app_eq_nil in K; destruct K; discriminate).
    rewrite Es, last_last in K. exact K.
  - left. now apply group_extract_clean.
Qed.
Lemma group_no_panic g : Forall item_ok g -> len (group_wire g) < 2 ^ 61 -> group_extract (group_wire g) <> Panic.
Proof.
  intros H Hl. destruct (strip (map item_wire g)) as [|x r] eqn:E.
  - unfold group_wire. rewrite E. discriminate.
  - destruct (group_result g H Hl ltac:(rewrite E; discriminate)) as [-> | ->]; discriminate.
Qed.

(** ** The readers of the signature segments *)
Lemma bind_np {A C} (o : outcome A) (k : A -> outcome C) : o <> Panic -> (forall x, o = Ok x -> k x <> Panic) -> obind o k <> Panic.
Proof. destruct o; cbn [obind]; intros H K; [now apply K|discriminate|congruence]. Qed.
Lemma field_np {A} k (f : bytes -> outcome A) es : (forall w, nonempty_nth k es = Some w -> f w <> Panic) -> field k f es <> Panic.
Proof.
  intros H. unfold field. destruct (nonempty_nth k es) as [w|]; [|discriminate]. cbn [opt_parse]. apply bind_np; [now apply H|discriminate].
Qed.
Lemma atoi_np s : atoi s <> Panic.
Proof.
  unfold atoi. destruct s as [|c ds]; [discriminate|].
  destruct (beq c b_minus); [|destruct (beq c b_plus)]; destruct (atoi_digits _); try discriminate; destruct (in_int64 _); discriminate.
Qed.
Lemma int_np w : unmarshal_int w <> Panic.
Proof. apply atoi_np. Qed.
Lemma date_np w : unmarshal_date w <> Panic.
Proof.
  unfold unmarshal_date, parse_date. destruct (getyear _) as [[y s1]|]; [|discriminate]. destruct (getnum2 s1) as [[m s2]|]; [|discriminate].
  destruct ((m <=? 0) || (12 <? m)); [discriminate|]. destruct (getnum2 s2) as [[d s3]|]; [|discriminate]. destruct s3; [|discriminate].
  destruct ((d <? 1) || (days_in m y <? d)); discriminate.
Qed.
Lemma time_np w : unmarshal_time w <> Panic.
Proof.
  unfold unmarshal_time, parse_time. destruct (getnum2 _) as [[h s1]|]; [|discriminate]. destruct (24 <=? h); [discriminate|].
  destruct (getnum2 s1) as [[m s2]|]; [|discriminate]. destruct (60 <=? m); [discriminate|].
  destruct (getnum2 s2) as [[d s3]|]; [|discriminate]. destruct (60 <=? d); [discriminate|]. destruct (skip_fraction s3); discriminate.
Qed.
Lemma text_np w : Seg_Model.text w <> Panic.
Proof. discriminate. Qed.
Lemma country_np w : unmarshal_country w <> Panic.
Proof. unfold unmarshal_country. pose proof (int_np w). destruct (unmarshal_int w); congruence. Qed.
Lemma bank_np g : Forall item_ok g -> len (group_wire g) < 2 ^ 61 -> unmarshal_bank (group_wire g) <> Panic.
Proof.
  intros H Hl. unfold unmarshal_bank. apply bind_np; [now apply group_no_panic|]. intros es _. destruct es as [|c [|b r]]; try discriminate.
  apply bind_np; [apply country_np|discriminate].
Qed.
Lemma profile_np g : Forall item_ok g -> len (group_wire g) < 2 ^ 61 -> unmarshal_profile (group_wire g) <> Panic.
Proof.
  intros H Hl. unfold unmarshal_profile. apply bind_np; [now apply group_no_panic|]. intros es _. destruct es as [|c [|b r]]; try discriminate.
  apply bind_np; [apply int_np|discriminate].
Qed.
Lemma security_date_np g : Forall item_ok g -> len (group_wire g) < 2 ^ 61 -> unmarshal_security_date (group_wire g) <> Panic.
Proof.
  intros H Hl. unfold unmarshal_security_date. apply bind_np; [now apply group_no_panic|]. intros es _. destruct (_ <? _)%nat; [discriminate|].
  apply bind_np; [apply field_np; intros; apply text_np|]. intros ? _. apply bind_np; [apply field_np; intros; apply date_np|]. intros ? _.
  apply bind_np; [apply field_np; intros; apply time_np|discriminate].
Qed.
Lemma sig_algorithm_np g : Forall item_ok g -> len (group_wire g) < 2 ^ 61 -> unmarshal_signature_algorithm (group_wire g) <> Panic.
Proof. intros H Hl. unfold unmarshal_signature_algorithm. apply bind_np; [now apply group_no_panic|]. intros es _. destruct (_ <? _)%nat; discriminate. Qed.
(** Where a group is read, its values are those written. *)
Lemma group_read_values g es : Forall item_ok g -> len (group_wire g) < 2 ^ 61 -> group_extract (group_wire g) = Ok es ->
  forall k, nonempty_nth k es = nonempty_nth k (map item_wire g).
Proof.
  intros H Hl E k. destruct (strip (map item_wire g)) as [|x r] eqn:Es.
  - unfold group_wire in E. rewrite Es in E. injection E as <-. rewrite <- (strip_nonempty_nth (map item_wire g)), Es. destruct k as [|[|k]]; reflexivity.
  - destruct (group_result g H Hl ltac:(rewrite Es; discriminate)) as [K|K]; rewrite K in E; [|discriminate]. injection E as <-.
    apply strip_nonempty_nth.
Qed.
Lemma hash_np g : Forall item_ok g -> len (group_wire g) < 2 ^ 61 -> (List.length g <= 3)%nat -> unmarshal_hash_algorithm (group_wire g) <> Panic.
Proof.
  intros H Hl Hg. unfold unmarshal_hash_algorithm. apply bind_np; [now apply group_no_panic|]. intros es E. destruct (_ <? _)%nat; [discriminate|].
  apply bind_np; [|discriminate]. apply field_np. intros w Hw. rewrite (group_read_values g es H Hl E) in Hw. unfold nonempty_nth in Hw.
  rewrite (proj2 (nth_error_None _ _)) in Hw by (rewrite map_length; lia). discriminate.
Qed.
Lemma security_id_np a c : Forall item_ok [TText a; TText []; TText c] -> len (group_wire [TText a; TText []; TText c]) < 2 ^ 61 ->
  unmarshal_security_id (group_wire [TText a; TText []; TText c]) <> Panic.
Proof.
  intros H Hl. unfold unmarshal_security_id. apply bind_np; [now apply group_no_panic|]. intros es E. destruct (_ <? _)%nat; [discriminate|].
  apply bind_np; [apply field_np; intros; apply text_np|]. intros ? _. apply bind_np; [|intros ? _; apply bind_np; [apply field_np; intros; apply text_np|discriminate]].
  apply field_np. intros w Hw. rewrite (group_read_values _ es H Hl E) in Hw. discriminate.
Qed.
Lemma key_name_np x u : Forall item_ok (key_items x u) -> wh_bank x <> [] -> len (group_wire (key_items x u)) < 2 ^ 61 ->
  unmarshal_key_name (group_wire (key_items x u)) <> Panic.
Proof.
  intros H Hb Hl. unfold unmarshal_key_name. apply bind_np; [now apply group_no_panic|]. intros es E. destruct (_ <? _)%nat; [discriminate|].
  assert (S : strip (map item_wire (key_items x u)) = map item_wire (key_items x u)).
  { apply strip_id. unfold key_items, bank_items. cbn [app map last item_wire]. discriminate. }
  destruct (group_result _ H Hl ltac:(rewrite S; discriminate)) as [K|K]; rewrite K in E; [|discriminate]. rewrite S in E.
  assert (es = map item_wire (key_items x u)) as -> by congruence.
  apply bind_np.
  - assert (J : join [b_colon] (firstn 2 (map item_wire (key_items x u))) = group_wire (Request_Spec.bank_items x)).
    { unfold group_wire. unfold key_items, Request_Spec.bank_items. cbn [app map firstn]. rewrite strip_id; [reflexivity|]. cbn [map last item_wire].
      intros Q. exact (Hb (proj1 (escaped_nil _) Q)). }
    rewrite J. destruct (nonempty_nth 0 _); [|discriminate]. cbn [opt_parse]. apply bind_np; [|discriminate]. apply bank_np.
    + unfold key_items in H. apply Forall_app in H. apply H.
    + rewrite <- J. eapply Z.le_lt_trans; [apply len_join_firstn|]. unfold group_wire in Hl. rewrite S in Hl. exact Hl.
  - intros ? _. apply bind_np; [apply field_np; intros; apply int_np|]. intros ? _. apply bind_np; [apply field_np; intros; apply int_np|discriminate].
Qed.

(** ** Parts of a request *)
Definition part_ok (p : part) : Prop :=
  forallb alnum (pt_id p) = true /\ 0 <= pt_version p <= 99 /\ Forall (Forall item_ok) (pt_fields p) /\
  (forall r, pt_id p <> B "HNVSK" ++ r).
Section Reader.
  Context {F : Type} (parse_float : bytes -> option F) (neg : F -> F).
  Notation reader := (others parse_float neg).

  Lemma sig_header_np n x s r at_ : 0 <= n <= 999 -> wh_bank x <> [] -> part_ok (signature_header x s r at_) ->
    len (part_wire n (signature_header x s r at_)) < 2 ^ 61 ->
    unmarshal_one reader (part_wire n (signature_header x s r at_)) <> Panic.
  Proof.
    intros Hn Hb (_&Hv&Hf&_) Hl. unfold part_wire in *. set (p := signature_header x s r at_) in *.
    assert (Hh : header_ok n None) by (split; [exact Hn|exact I]).
    assert (Hid : forallb alnum (pt_id p) = true) by reflexivity.
    assert (Sm : forall g, In g (pt_fields p) -> len (group_wire g) < 2 ^ 61) by (intros g Hg; now apply (element_small g _ _ _ _ _ Hg) in Hl).
    assert (Hi : forall g, In g (pt_fields p) -> Forall item_ok g) by now apply Forall_forall.
    unfold unmarshal_one. rewrite wire_header by assumption. cbn [obind sh_id sh_version].
    assert (R : unmarshal_hnshk (pt_version p) (segment_wire (pt_id p) n (pt_version p) None (pt_fields p)) <> Panic).
    { unfold unmarshal_hnshk. rewrite segment_wire_read by assumption.
      assert (G : forall k g {A} (f : bytes -> outcome A), nth_error (pt_fields p) k = Some g -> (Forall item_ok g -> len (group_wire g) < 2 ^ 61 -> f (group_wire g) <> Panic) ->
        field (S k) f (wire_elements (pt_id p) n (pt_version p) None (pt_fields p)) <> Panic).
      { intros k g A f Hk Hp. apply field_np. intros w. unfold wire_elements. rewrite strip_nonempty_nth. unfold nonempty_nth. cbn [nth_error].
        rewrite nth_error_map, Hk. cbn [option_map]. intros Hw.
        assert (w = group_wire g) as -> by (destruct (group_wire g); congruence). apply nth_error_In in Hk. auto. }
      assert (C : forall k {A} (f : bytes -> outcome A), List.length (pt_fields p) = k ->
        last_field (S k) f (wire_elements (pt_id p) n (pt_version p) None (pt_fields p)) = Ok None).
      { intros k A f Hk. unfold last_field, wire_elements. rewrite strip_nonempty_nth. unfold nonempty_nth.
        rewrite (proj2 (nth_error_None _ _)) by (cbn [List.length]; rewrite map_length; lia). reflexivity. }
      subst p. unfold signature_header, profile_field in *. cbn [pt_version pt_fields pt_id] in *. destruct (wh_version x =? 300).
      - change (4 =? 3) with false. cbv iota. cbn [Nat.add]. cbn [app] in *. apply bind_np; [|intros ? _].
        { eapply (G 0%nat); [reflexivity|]. apply profile_np. }
        apply bind_np; [eapply (G 5%nat); [reflexivity|]; apply security_id_np|intros ? _].
        apply bind_np; [eapply (G 6%nat); [reflexivity|]; intros; apply int_np|intros ? _].
        apply bind_np; [eapply (G 7%nat); [reflexivity|]; apply security_date_np|intros ? _].
        apply bind_np; [eapply (G 8%nat); [reflexivity|]; intros; apply hash_np; [assumption..|cbn; lia]|intros ? _].
        apply bind_np; [eapply (G 9%nat); [reflexivity|]; apply sig_algorithm_np|intros ? _].
        apply bind_np; [eapply (G 10%nat); [reflexivity|]; intros; now apply key_name_np|intros ? _].
        rewrite (C 11%nat) by reflexivity. discriminate.
      - change (3 =? 3) with true. cbv iota. cbn [Nat.add obind]. cbn [app] in *.
        apply bind_np; [eapply (G 4%nat); [reflexivity|]; apply security_id_np|intros ? _].
        apply bind_np; [eapply (G 5%nat); [reflexivity|]; intros; apply int_np|intros ? _].
        apply bind_np; [eapply (G 6%nat); [reflexivity|]; apply security_date_np|intros ? _].
        apply bind_np; [eapply (G 7%nat); [reflexivity|]; intros; apply hash_np; [assumption..|cbn; lia]|intros ? _].
        apply bind_np; [eapply (G 8%nat); [reflexivity|]; apply sig_algorithm_np|intros ? _].
        apply bind_np; [eapply (G 9%nat); [reflexivity|]; intros; now apply key_name_np|intros ? _].
        rewrite (C 10%nat) by reflexivity. discriminate. }
    destruct (wh_version x =? 300) eqn:E.
    - replace (pt_version p) with 4 in * by (subst p; unfold signature_header; rewrite E; reflexivity).
      change (known reader (pt_id p) 4) with (Some (fun s => omap (@POther (oseg (Seg_Model.account_information F))) (do _ <- unmarshal_hnshk 4 s; Ok (OSeg s)))).
      cbv beta iota. destruct (unmarshal_hnshk 4 _); [discriminate|discriminate|congruence].
    - replace (pt_version p) with 3 in * by (subst p; unfold signature_header; rewrite E; reflexivity).
      change (known reader (pt_id p) 3) with (Some (fun s => omap (@POther (oseg (Seg_Model.account_information F))) (do _ <- unmarshal_hnshk 3 s; Ok (OSeg s)))).
      cbv beta iota. destruct (unmarshal_hnshk 3 _); [discriminate|discriminate|congruence].
  Qed.
  Lemma sig_end_refused n x s r : 0 <= n <= 999 -> sc_pin s <> [] -> part_ok (signature_end x s r) ->
    len (part_wire n (signature_end x s r)) < 2 ^ 61 ->
    unmarshal_one reader (part_wire n (signature_end x s r)) = Err.
  Proof.
    intros Hn Hp (_&Hv&Hf&_) Hl. unfold part_wire in *. set (p := signature_end x s r) in *.
    assert (Hh : header_ok n None) by (split; [exact Hn|exact I]).
    assert (Hid : forallb alnum (pt_id p) = true) by reflexivity.
    assert (Sm : forall g, In g (pt_fields p) -> len (group_wire g) < 2 ^ 61) by (intros g Hg; now apply (element_small g _ _ _ _ _ Hg) in Hl).
    assert (Hi : forall g, In g (pt_fields p) -> Forall item_ok g) by now apply Forall_forall.
    unfold unmarshal_one. rewrite wire_header by assumption. cbn [obind sh_id sh_version].
    assert (R : unmarshal_hnsha (pt_version p) (segment_wire (pt_id p) n (pt_version p) None (pt_fields p)) = Err).
    { unfold unmarshal_hnsha. rewrite segment_wire_read by assumption. unfold wire_elements.
      rewrite field_strip, last_field_strip by reflexivity. subst p. unfold signature_end in *. cbn [pt_fields] in *.
      specialize (Sm [TText (sc_pin s)] ltac:(cbn; tauto)). specialize (Hi [TText (sc_pin s)] ltac:(cbn; tauto)).
      assert (N : group_wire [TText (sc_pin s)] <> []) by (rewrite single_wire; now apply item_present).
      assert (St : strip (map item_wire [TText (sc_pin s)]) = [item_wire (TText (sc_pin s))]) by (cbn [map]; apply strip_full; constructor; [now apply item_present|constructor]).
      pose proof (group_result _ Hi Sm ltac:(rewrite St; discriminate)) as G. rewrite St in G.
      cbn [map]. unfold field, nonempty_nth. cbn [nth_error]. change (group_wire []) with (@nil byte). cbn [opt_parse obind pt_version].
      destruct (group_wire [TText (sc_pin s)]) as [|b w]; [congruence|]. cbn [opt_parse].
      destruct (wh_version x =? 300); cbn [Z.eqb Pos.eqb]; unfold unmarshal_pin_tan, unmarshal_custom_signature;
        (destruct G as [-> | ->]; reflexivity). }
    destruct (wh_version x =? 300) eqn:E.
    - replace (pt_version p) with 2 in * by (subst p; unfold signature_end; rewrite E; reflexivity).
      change (known reader (pt_id p) 2) with (Some (fun s => omap (@POther (oseg (Seg_Model.account_information F))) (do _ <- unmarshal_hnsha 2 s; Ok (OSeg s)))).
      cbv beta iota. rewrite R. reflexivity.
    - replace (pt_version p) with 1 in * by (subst p; unfold signature_end; rewrite E; reflexivity).
      change (known reader (pt_id p) 1) with (Some (fun s => omap (@POther (oseg (Seg_Model.account_information F))) (do _ <- unmarshal_hnsha 1 s; Ok (OSeg s)))).
      cbv beta iota. rewrite R. reflexivity.
  Qed.
End Reader.
