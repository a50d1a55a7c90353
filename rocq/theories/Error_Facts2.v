(** * Auxiliary proofs: the calls of a dialog explain their errors *)
From Coq Require Import Lia ZifyBool.
From Verif Require Import Base BaseFacts Lexer_Model Codec_Model Wire_Model Message_Model Message_Proofs Dialog_Model Dialog_Spec Dialog_Proofs
  Merge_Model Client_Model Error_Model Error_Spec Error_Facts.
Open Scope Z_scope.

Definition value_seg {Acc} (s : oseg Acc) : Prop :=
  match s with
  | OSync x => x <> Err | OTans x => x <> Err | OBpd x => x <> Err | OPins x => x <> Err
  | OUpd x => x <> Err | OAccount x => x <> Err | OSeg _ => True | ONews x => x <> Err
  end.
Lemma eqb_true a b : bytes_eqb a b = true -> a = b.
Proof. now destruct (bytes_eqb_spec a b). Qed.
Lemma all_ok_in {A C} (f : A -> outcome C) l cs : all_ok f l = Ok cs -> forall c, In c cs -> exists a, In a l /\ f a = Ok c.
Proof.
  revert cs. induction l as [|a l IH]; intros cs H c Hc; cbn in H.
  - injection H as <-. destruct Hc.
  - destruct (f a) as [x| |] eqn:E; try discriminate. cbn in H. destruct (all_ok f l) as [y| |]; try discriminate. cbn in H.
    injection H as <-. destruct Hc as [<-|Hc]; [exists a; split; [now left|exact E]|].
    destruct (IH y eq_refl c Hc) as (a'&?&?). exists a'. split; [now right|auto].
Qed.

Section Dialog.
  Context {J Acc : Type}.
  Variable sign_ok : list (entry J) -> request J -> outcome unit.
  Variable compose : list (entry J) -> request J -> outcome bytes.
  Variable bank : list (entry J) -> outcome bytes.
  Variable others : bytes -> Z -> option (bytes -> outcome (oseg Acc)).
  Variable pick : list (entry J) -> nat.
  Variable sign_why : list (entry J) -> request J -> bytes.
  Variable compose_why : list (entry J) -> request J -> bytes.
  Variable bank_why : list (entry J) -> bytes.
  Variable read_why : bytes -> bytes.
  Variable quote : bytes -> bytes.
  Hypothesis Hreg : regular others.
  Notation reply := (bank_message (oseg Acc)).
  Notation world := (@world J Acc).
  Notation act := (@act J Acc).
  Notation tact := (@tact J Acc).
  Notation t_exchange := (t_exchange sign_ok compose bank others sign_why compose_why bank_why read_why).
  Notation t_exchange_plain := (t_exchange_plain compose bank others compose_why bank_why read_why).
  Notation t_end := (t_end sign_ok compose bank others sign_why compose_why bank_why read_why quote).
  Notation t_anonymous_end := (t_anonymous_end compose bank others compose_why bank_why read_why quote).
  Notation t_sync_system := (t_sync_system sign_ok compose bank others pick sign_why compose_why bank_why read_why quote).
  Notation t_start := (t_start sign_ok compose bank others pick sign_why compose_why bank_why read_why quote).
  Notation t_ensure_system := (t_ensure_system sign_ok compose bank others pick sign_why compose_why bank_why read_why quote).
  Notation t_init := (t_init sign_ok compose bank others pick sign_why compose_why bank_why read_why quote).
  Notation t_anonymous_init := (t_anonymous_init compose bank others compose_why bank_why read_why quote).
  Notation t_send := (t_send sign_ok compose bank others pick sign_why compose_why bank_why read_why quote).
  Notation t_sync_user := (t_sync_user sign_ok compose bank others pick sign_why compose_why bank_why read_why quote).
  Notation t_send_anonymous := (t_send_anonymous compose bank others compose_why bank_why read_why quote).
  Notation explains := (explains bank others bank_why read_why quote).
  Notation explains_at := (explains_at bank others bank_why read_why quote).
  Notation pend := (pend bank others bank_why read_why quote).
  Notation reads := (reads others).

  (** ** What the answers hold *)
  Lemma in_decrypted (h : msg_header) raw (m : reply) x : new_decrypted others h raw = Ok m -> In x (bm_segments m) ->
    exists v f s, known others (fst x) v = Some f /\ f s = Ok (snd x).
  Proof.
    unfold new_decrypted, unmarshal_all. intros H Hx.
    destruct (message_extract raw) as [ss| |]; cbn [obind] in H; try discriminate.
    destruct (all_ok (unmarshal_one others) ss) as [os| |] eqn:Eo; cbn [obind] in H; try discriminate.
    destruct (all_ok seg_acks _) as [acks| |]; cbn [obind] in H; try discriminate.
    destruct (mh_hbci h) as [v|]; try discriminate. destruct (_ || _); try discriminate. injection H as <-. cbn [bm_segments] in Hx.
    unfold somes in Hx. apply in_flat_map in Hx. destruct Hx as ([y|]&Hy&Hx); [|destruct Hx]. destruct Hx as [<-|[]].
    destruct (all_ok_in _ _ _ Eo _ Hy) as (s&_&Es). unfold unmarshal_one in Es.
    destruct (extract_header s) as [hd| |]; cbn in Es; try discriminate.
    destruct (known others (sh_id hd) (sh_version hd)) as [f|] eqn:Ek; try discriminate.
    destruct (f s) as [p| |] eqn:Ef; cbn in Es; try discriminate. injection Es as <-. exists (sh_version hd), f, s. auto.
  Qed.
  Lemma in_reply (m : reply) x : reads m -> In x (bm_segments m) -> exists v f s, known others (fst x) v = Some f /\ f s = Ok (snd x).
  Proof.
    intros (raw&H) Hx. unfold read_response in H. destruct (se_extract (new_segment_extractor raw)) as [ex r].
    destruct r; cbn [obind] in H; try discriminate. destruct (find_segment ex (B "HNHBK")) as [hs|]; try discriminate.
    destruct (unmarshal_msg_header hs) as [h| |]; cbn [obind] in H; try discriminate.
    destruct (find_segment ex (B "HNVSK")).
    - destruct (find_segment ex (B "HNVSD")) as [ds|]; try discriminate.
      destruct (unmarshal_data_seg ds) as [[d|]| |]; cbn [obind] in H; try discriminate. apply (in_decrypted h d m x H Hx).
    - apply (in_decrypted h raw m x H Hx).
  Qed.
  Lemma reply_regular (m : reply) id s : reads m -> In s (find_segs m id) ->
    (id = B "HIBPA" -> exists x, s = OBpd x) /\ value_seg s.
  Proof.
    intros R H. unfold find_segs, segments_by_id in H. rewrite map_map in H. apply in_map_iff in H. destruct H as ([i p]&<-&H).
    apply filter_In in H. destruct H as (H&E). cbn [fst] in E. apply eqb_true in E. subst i.
    destruct (in_reply m _ R H) as (v&f&raw&Hk&Hf). cbn [fst snd] in *. unfold known in Hk.
    destruct (bytes_eqb id (B "HIRMG")) eqn:E1.
    { apply eqb_true in E1. subst id. destruct (v =? 2); [|discriminate]. injection Hk as <-.
      destruct (unmarshal_acks true raw); cbn in Hf; try discriminate. injection Hf as <-. split; [discriminate|exact I]. }
    destruct (bytes_eqb id (B "HIRMS")) eqn:E2.
    { apply eqb_true in E2. subst id. destruct (v =? 2); [|discriminate]. injection Hk as <-.
      destruct (unmarshal_acks false raw); cbn in Hf; try discriminate. injection Hf as <-. split; [discriminate|exact I]. }
    destruct (others id v) as [g|] eqn:E3; [|discriminate]. injection Hk as <-.
    destruct (g raw) as [o| |] eqn:E4; cbn in Hf; try discriminate. injection Hf as <-. cbn [snd seg_of].
    exact (Hreg id v g raw o E3 E4).
  Qed.
  Lemma first_regular (m : reply) id s : reads m -> find_seg m id = Some s -> (id = B "HIBPA" -> exists x, s = OBpd x) /\ value_seg s.
  Proof.
    intros R H. apply (reply_regular m id s R). unfold find_seg in H. unfold find_segs.
    destruct (segments_by_id id (bm_segments m)); [discriminate|]. injection H as <-. now left.
  Qed.

  (** ** Steps without errors *)
  Definition noerr {A} (m : act A) : Prop := forall w, snd (m w) <> Err.
  Lemma noerr_bind {A C} (m : act A) (k : A -> act C) : noerr m -> (forall a, noerr (k a)) -> noerr (bind m k).
  Proof. intros H K w. unfold bind. specialize (H w). destruct (m w) as [w1 [a| |]]; cbn in *; [apply K|contradiction|discriminate]. Qed.
  Lemma noerr_lift {A} (o : outcome A) : o <> Err -> noerr (lift o).
  Proof. intros H w. exact H. Qed.
  Lemma noerr_modify f : noerr (modify (J:=J) (Acc:=Acc) f).
  Proof. intros w. discriminate. Qed.
  Lemma noerr_ret {A} (a : A) : noerr (ret (J:=J) (Acc:=Acc) a).
  Proof. intros w. discriminate. Qed.
  Lemma noerr_named {A} why (m : act A) : noerr m -> forall w t, snd (tnamed why m w) <> RErr t.
  Proof. intros H w t. unfold tnamed. specialize (H w). destruct (m w) as [w1 [a| |]]; cbn in *; congruence. Qed.
  Lemma noerr_take (m : reply) : noerr (take_dialog_id (J:=J) m).
  Proof. unfold take_dialog_id. destruct (mh_dialog _); [apply noerr_modify|]. intros w. discriminate. Qed.
  Lemma noerr_bpd (m : reply) : reads m -> noerr (parse_bpd (J:=J) m).
  Proof.
    intros R. unfold parse_bpd. destruct (find_seg m (B "HIBPA")) as [s|] eqn:E; [|apply noerr_ret].
    destruct (first_regular m _ _ R E) as (H1&H2). destruct (H1 eq_refl) as (x&->).
    apply noerr_bind; [apply noerr_modify|]. intros _. apply noerr_bind; [now apply noerr_lift|]. intros v.
    apply noerr_bind; [apply noerr_modify|]. intros _.
    destruct (find_seg m (B "HIPINS")) as [s|] eqn:E2; [|apply noerr_ret].
    destruct (first_regular m _ _ R E2) as (_&H3). destruct s; try (now apply noerr_lift); intros w; discriminate.
  Qed.
  Lemma noerr_accounts (l : list (oseg Acc)) : (forall s, In s l -> value_seg s) -> noerr (add_accounts (J:=J) l).
  Proof.
    induction l as [|s l IH]; intros H; [apply noerr_ret|]. cbn [add_accounts].
    assert (Hs : value_seg s) by (apply H; now left). destruct s; try (intros w; discriminate).
    apply noerr_bind; [now apply noerr_lift|]. intros a. apply noerr_bind; [apply noerr_modify|]. intros _. apply IH. intros s Hin. apply H. now right.
  Qed.
  Lemma noerr_upd (m : reply) : reads m -> noerr (parse_upd (J:=J) m).
  Proof.
    intros R. unfold parse_upd. apply noerr_bind.
    - destruct (find_seg m (B "HIUPA")) as [s|] eqn:E; [|apply noerr_ret]. destruct (first_regular m _ _ R E) as (_&H).
      destruct s; try (intros w; discriminate). apply noerr_bind; [now apply noerr_lift|]. intros u. apply noerr_modify.
    - intros _. apply noerr_accounts. intros s H. eapply reply_regular; eauto.
  Qed.
  Lemma noerr_news (m : reply) : reads m -> noerr (log_news (J:=J) m).
  Proof.
    intros R. unfold log_news. destruct (find_seg m (B "HIKIM")) as [s|] eqn:E; [|apply noerr_ret]. destruct (first_regular m _ _ R E) as (_&H).
    destruct s; try (intros w; discriminate). apply noerr_lift. cbn in H. destruct news; cbn; congruence.
  Qed.

  (** ** The methods *)
  Lemma end_label_ok : exists b, end_label = b ++ B " returned errors:" ++ [nl].
  Proof. exists (B "DialogEnd: Institute"). reflexivity. Qed.
  Lemma label_ok : exists b, B "institute returned errors:" ++ [nl] = b ++ B " returned errors:" ++ [nl].
  Proof. exists (B "institute"). reflexivity. Qed.
  Lemma label2_ok : exists b, B "Institute returned errors:" ++ [nl] = b ++ B " returned errors:" ++ [nl].
  Proof. exists (B "Institute"). reflexivity. Qed.
  Lemma explains_end : explains t_end.
  Proof. apply explains_exchange. intros m _. apply pend_fail0, end_label_ok. Qed.
  Lemma still_take (m : reply) : still (tnamed [] (take_dialog_id (J:=J) m)).
  Proof. apply still_named'. intros w. unfold take_dialog_id. now destruct (mh_dialog _). Qed.
  Lemma explains_sync : explains t_sync_system.
  Proof.
    unfold Error_Model.t_sync_system. apply explains_bind; [apply explains_still, still_new|]. intros q.
    apply explains_bind; [apply explains_still, still_sign|]. intros _.
    apply explains_bind; [apply explains_still, still_named'; reflexivity|]. intros _.
    apply explains_bind; [apply explains_still, still_envelope|]. intros q'.
    apply explains_request. intros m R. apply pend_silent; [apply still_take|apply noerr_named, noerr_take|]. intros _.
    apply pend_fail; [apply label_ok|]. intros _.
    apply explains_bind; [apply explains_still, still_named, quiet_update|]. intros _.
    apply explains_bind.
    { apply explains_still, still_named'. intros w. destruct (find_seg m (B "HISYN")) as [[s|?|?|?|?|?|?|?]|]; try reflexivity. now destruct s. }
    intros _. apply explains_bind; [apply explains_still, still_named, quiet_bpd|]. intros _.
    apply explains_bind; [apply explains_still, still_named, quiet_upd|]. intros _.
    apply explains_bind; [apply explains_end|]. intros _.
    apply explains_bind; [apply explains_still, still_named'; reflexivity|]. intros d. apply explains_still, still_ret.
  Qed.
  Lemma explains_start : explains t_start.
  Proof.
    unfold Error_Model.t_start. apply explains_bind; [apply explains_still, still_named'; reflexivity|]. intros _.
    apply explains_exchange. intros m R.
    apply pend_silent; [apply still_take|apply noerr_named, noerr_take|]. intros _.
    apply pend_silent; [apply still_named, quiet_bpd|now apply noerr_named, noerr_bpd|]. intros _.
    apply pend_silent; [apply still_named, quiet_upd|now apply noerr_named, noerr_upd|]. intros _.
    apply pend_silent; [apply still_named, quiet_news|now apply noerr_named, noerr_news|]. intros _.
    apply pend_fail; [apply end_label_ok|]. intros _. apply explains_still, still_named, quiet_update.
  Qed.
  Lemma explains_ensure : explains t_ensure_system.
  Proof.
    apply explains_bind; [apply explains_still, still_named'; reflexivity|]. intros d. destruct (bytes_eqb _ _); [|apply explains_still, still_ret].
    apply explains_bind; [apply explains_sync|]. intros s. apply explains_still, still_named'. reflexivity.
  Qed.
  Lemma explains_init : explains t_init.
  Proof. apply explains_bind; [apply explains_ensure|]. intros _. apply explains_start. Qed.
  Lemma explains_anonymous_init : explains t_anonymous_init.
  Proof.
    unfold Error_Model.t_anonymous_init. apply explains_bind; [apply explains_still, still_named'; reflexivity|]. intros _.
    apply explains_exchange_plain. intros m R.
    apply pend_silent; [apply still_take|apply noerr_named, noerr_take|]. intros _.
    apply pend_silent; [apply still_named, quiet_bpd|now apply noerr_named, noerr_bpd|]. intros _.
    apply pend_silent; [apply still_named, quiet_upd|now apply noerr_named, noerr_upd|]. intros _.
    apply pend_silent; [apply still_named, quiet_news|now apply noerr_named, noerr_news|]. intros _.
    apply pend_fail0, end_label_ok.
  Qed.

  (** ** Ends that are deferred *)
  Definition last_not_sync (h : list (entry J)) : Prop := ~ exists h' p c, h = h' ++ [p] /\ kind_of p = KSync c.
  (** [m] sends at most one message, and it is of the kind [kd]. *)
  Definition sends_one {A} (kd : kind J -> Prop) (m : tact A) : Prop :=
    forall w, (w_sent (fst (m w)) = w_sent w /\ forall a, snd (m w) <> ROk a) \/
              exists e, w_sent (fst (m w)) = w_sent w ++ [e] /\ kd (kind_of e).
  Lemma sends_request (kd : kind J -> Prop) p q : kd (rq_kind q) -> sends_one kd (t_request compose bank others compose_why bank_why read_why p q).
  Proof.
    intros Hk w. unfold t_request. destruct (compose (w_sent w) q) as [bs| |]; [right|left|left]; cbn [fst snd].
    - exists (q, bs). auto.
    - split; [reflexivity|discriminate].
    - split; [reflexivity|discriminate].
  Qed.
  Lemma sends_bind_still {A C} kd (m : tact A) (k : A -> tact C) : still m -> (forall a, sends_one kd (k a)) -> sends_one kd (tbind m k).
  Proof.
    intros H K w. unfold tbind. specialize (H w). destruct (m w) as [w1 [a|t|]]; cbn [fst snd] in *.
    - rewrite <- H. apply K.
    - left. split; [exact H|discriminate].
    - left. split; [exact H|discriminate].
  Qed.
  Lemma sends_then_still {A C} kd (m : tact A) (k : A -> tact C) : sends_one kd m -> (forall a, still (k a)) -> sends_one kd (tbind m k).
  Proof.
    intros H K w. unfold tbind. specialize (H w). destruct (m w) as [w1 [a|t|]]; cbn [fst snd] in *.
    - destruct H as [(_&H)|(e&H1&H2)]; [now destruct (H a)|]. right. exists e. rewrite K. auto.
    - destruct H as [(H&_)|(e&H1&H2)]; [left; split; [exact H|discriminate]|right; eauto].
    - destruct H as [(H&_)|(e&H1&H2)]; [left; split; [exact H|discriminate]|right; eauto].
  Qed.
  Lemma sends_exchange (kd : kind J -> Prop) p k : (forall d, kd (k d)) -> sends_one kd (t_exchange p k).
  Proof.
    intros H w. unfold Error_Model.t_exchange, tbind, tnamed. cbn.
    destruct (sign_ok _ _); cbn [named]; [|left; split; [reflexivity|discriminate]|left; split; [reflexivity|discriminate]].
    match goal with |- context [Error_Model.t_request _ _ _ _ _ _ p ?q ?w1] => exact (sends_request kd p q (H _) w1) end.
  Qed.
  Lemma sends_exchange_plain (kd : kind J -> Prop) p k : (forall d, kd (k d)) -> sends_one kd (t_exchange_plain p k).
  Proof.
    intros H w. unfold Error_Model.t_exchange_plain, tbind, tnamed. cbn.
    match goal with |- context [Error_Model.t_request _ _ _ _ _ _ p ?q ?w1] => exact (sends_request kd p q (H _) w1) end.
  Qed.
  Lemma sends_end : sends_one is_end t_end.
  Proof. apply sends_then_still; [apply sends_exchange; intros d; eexists; reflexivity|]. intros m. apply still_fail. Qed.
  Lemma sends_anonymous_end : sends_one is_end t_anonymous_end.
  Proof. apply sends_then_still; [apply sends_exchange_plain; intros d; eexists; reflexivity|]. intros m. apply still_fail. Qed.
  Lemma explains_deferred {A} (m : tact A) c w : explains_at m w -> sends_one is_end c -> last_not_sync (w_sent (fst (m w))) ->
    explains_at (tdeferred m c) w.
  Proof.
    intros (l&E&P) Hc N. unfold Error_Facts.explains_at, tdeferred. destruct (m w) as [w1 r]. cbn [fst snd] in *.
    specialize (Hc w1). destruct (c w1) as [w2 x]. cbn [fst snd] in *.
    assert (P' : ok_part bank others bank_why read_why quote (w_sent w) l (match x with RPanic => RPanic | _ => r end)).
    { intros b e a E1 M T. destruct x; [eapply P; eauto|eapply P; eauto|exact I]. }
    destruct Hc as [(Hc&_)|(e&He&Hk)].
    - exists l. split; [congruence|exact P'].
    - exists (l ++ [e]). rewrite He, E, app_assoc. split; [reflexivity|]. apply ok_app; [exact P'|].
      intros b e' a E1 M T. destruct b as [|y [|]]; try discriminate. injection E1 as <- <-. rewrite app_nil_r in *.
      exfalso. apply N. rewrite E. apply M. exact Hk.
  Qed.
  Lemma not_sync_last h e : (forall c, kind_of e <> KSync c) -> last_not_sync (h ++ [e]).
  Proof. intros H (h'&p&c&E&K). apply app_inj_tail in E. destruct E as (_&->). eapply H; eauto. Qed.
  Lemma start_last w w1 a : t_start w = (w1, ROk a) -> last_not_sync (w_sent w1).
  Proof.
    assert (S : sends_one is_init t_start).
    { unfold Error_Model.t_start. apply sends_bind_still; [apply still_named'; reflexivity|]. intros _.
      apply sends_then_still; [apply sends_exchange; intros d; repeat eexists|]. intros m.
      apply still_bind; [apply still_take|]. intros _. apply still_bind; [apply still_named, quiet_bpd|]. intros _.
      apply still_bind; [apply still_named, quiet_upd|]. intros _. apply still_bind; [apply still_named, quiet_news|]. intros _.
      apply still_bind; [apply still_fail|]. intros _. apply still_named, quiet_update. }
    intros E. specialize (S w). rewrite E in S. cbn [fst snd] in S. destruct S as [(_&S)|(e&S1&S2)]; [now destruct (S a)|].
    rewrite S1. apply not_sync_last. intros c K. rewrite K in S2. destruct S2 as (?&?&?&?&S2). discriminate.
  Qed.
  Lemma init_last w w1 a : t_init w = (w1, ROk a) -> last_not_sync (w_sent w1).
  Proof.
    unfold Error_Model.t_init, tbind. destruct (t_ensure_system w) as [w0 [u|t|]]; try discriminate. apply start_last.
  Qed.
  Lemma anonymous_init_last w w1 a : t_anonymous_init w = (w1, ROk a) -> last_not_sync (w_sent w1).
  Proof.
    assert (S : sends_one is_init t_anonymous_init).
    { unfold Error_Model.t_anonymous_init. apply sends_bind_still; [apply still_named'; reflexivity|]. intros _.
      apply sends_then_still; [apply sends_exchange_plain; intros d; repeat eexists|]. intros m.
      apply still_bind; [apply still_take|]. intros _. apply still_bind; [apply still_named, quiet_bpd|]. intros _.
      apply still_bind; [apply still_named, quiet_upd|]. intros _. apply still_bind; [apply still_named, quiet_news|]. intros _.
      apply still_fail. }
    intros E. specialize (S w). rewrite E in S. cbn [fst snd] in S. destruct S as [(_&S)|(e&S1&S2)]; [now destruct (S a)|].
    rewrite S1. apply not_sync_last. intros c K. rewrite K in S2. destruct S2 as (?&?&?&?&S2). discriminate.
  Qed.
  Lemma job_last {A} (m : tact A) w : sends_one is_job m -> last_not_sync (w_sent w) -> last_not_sync (w_sent (fst (m w))).
  Proof.
    intros S N. destruct (S w) as [(E&_)|(e&E&K)]; rewrite E; [exact N|]. apply not_sync_last. intros c X. rewrite X in K. destruct K. discriminate.
  Qed.
  Lemma explains_send j : explains (t_send j).
  Proof.
    intros w. apply explains_bind_at; [apply explains_init|]. intros a w1 E. apply explains_deferred; [|apply sends_end|].
    - apply explains_exchange. intros m _. apply pend_fail; [apply label_ok|]. intros _. apply explains_still, still_ret.
    - apply job_last; [|eapply init_last; eauto]. apply sends_then_still; [apply sends_exchange; intros d; eexists; reflexivity|].
      intros m. apply still_bind; [apply still_fail|]. intros _. apply still_ret.
  Qed.
  Lemma explains_sync_user : explains t_sync_user.
  Proof.
    intros w. apply explains_bind_at; [apply explains_init|]. intros a w1 E. apply explains_deferred; [|apply sends_end|].
    - apply explains_still, still_ret.
    - eapply init_last; eauto.
  Qed.
  Lemma explains_send_anonymous j : explains (t_send_anonymous j).
  Proof.
    intros w. apply explains_bind_at; [apply explains_prefixed, explains_anonymous_init|]. intros a w1 E. apply explains_deferred; [|apply sends_anonymous_end|].
    - apply explains_exchange_plain. intros m _. apply pend_fail; [apply label2_ok|]. intros _. apply explains_still, still_ret.
    - apply job_last.
      + apply sends_then_still; [apply sends_exchange_plain; intros d; eexists; reflexivity|].
        intros m. apply still_bind; [apply still_fail|]. intros _. apply still_ret.
      + unfold tprefixed in E. destruct (t_anonymous_init w) as [w0 [u|t|]] eqn:E2; cbn in E; try discriminate. injection E as <- _.
        eapply anonymous_init_last; eauto.
  Qed.
End Dialog.
