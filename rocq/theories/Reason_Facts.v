(** * Auxiliary proofs: every error of a dialog has a reason *)
From Coq Require Import Lia ZifyBool.
From Verif Require Import Base BaseFacts Lexer_Model Codec_Model Wire_Model Message_Model Message_Proofs Dialog_Model Dialog_Spec Dialog_Proofs
  Merge_Model Client_Model Error_Model Error_Spec Error_Facts Error_Facts2 Reason_Spec.
Open Scope Z_scope.

Section Blame.
  Context {J Acc : Type}.
  Notation world := (@world J Acc).
  Notation tact := (@tact J Acc).
  (** What may be said before a message is sent, and about one that was sent. *)
  Variable before_sending : list (entry J) -> bytes -> Prop.
  Variable about : list (entry J) -> entry J -> bytes -> Prop.
  Definition here (h l : list (entry J)) (t : bytes) : Prop :=
    before_sending (h ++ l) t \/ exists b e, l = b ++ [e] /\ about (h ++ b) e t.
  Lemma here_more h l1 l2 t : here (h ++ l1) l2 t -> here h (l1 ++ l2) t.
  Proof.
    intros [H|(b&e&->&H)]; [left; now rewrite app_assoc|right]. exists (l1 ++ b), e. split; [apply app_assoc|].
    now rewrite app_assoc.
  Qed.
  Definition blames_at {A} (m : tact A) (w : world) : Prop :=
    exists l, w_sent (fst (m w)) = w_sent w ++ l /\ forall t, snd (m w) = RErr t -> here (w_sent w) l t.
  Definition blames {A} (m : tact A) : Prop := forall w, blames_at m w.
  (** The same after the message [e] was sent and answered. *)
  Definition pends {A} (h : list (entry J)) (e : entry J) (m : tact A) : Prop :=
    forall w, w_sent w = h ++ [e] -> exists l, w_sent (fst (m w)) = h ++ e :: l /\ forall t, snd (m w) = RErr t -> here h (e :: l) t.

  Lemma blames_bind {A C} (m : tact A) (k : A -> tact C) : blames m -> (forall a, blames (k a)) -> blames (tbind m k).
  Proof.
    intros H K w. destruct (H w) as (l&E&P). unfold blames_at, tbind. destruct (m w) as [w1 [a|t|]]; cbn [fst snd] in *.
    - destruct (K a w1) as (l2&E2&P2). exists (l ++ l2). split; [now rewrite E2, E, app_assoc|].
      intros t Ht. apply here_more. rewrite <- E. auto.
    - exists l. split; [exact E|]. intros t' Ht. apply P. congruence.
    - exists l. split; [exact E|discriminate].
  Qed.
  Definition mute {A} (m : tact A) : Prop := forall w t, snd (m w) <> RErr t.
  Lemma blames_mute {A} (m : tact A) : still m -> mute m -> blames m.
  Proof. intros S M w. exists []. rewrite app_nil_r. split; [apply S|]. intros t H. destruct (M w t H). Qed.
  Lemma blames_before {A} (m : tact A) : still m -> (forall w t, snd (m w) = RErr t -> before_sending (w_sent w) t) -> blames m.
  Proof. intros S M w. exists []. rewrite app_nil_r. split; [apply S|]. intros t H. left. rewrite app_nil_r. auto. Qed.
  Lemma pends_blames {A} h e (m : tact A) : blames m -> pends h e m.
  Proof.
    intros H w E. destruct (H w) as (l&E2&P). exists l. split; [rewrite E2, E; now rewrite <- app_assoc|].
    intros t Ht. apply (here_more h [e]). rewrite <- E. auto.
  Qed.
  Lemma pends_step {A C} h e (m : tact A) (k : A -> tact C) :
    still m -> (forall w t, snd (m w) = RErr t -> about h e t) ->
    (forall a, (exists w w1, m w = (w1, ROk a)) -> pends h e (k a)) -> pends h e (tbind m k).
  Proof.
    intros S M K w E. unfold tbind. specialize (S w). specialize (M w). destruct (m w) as [w1 [a|t|]] eqn:Em; cbn [fst snd] in *.
    - apply K; [eauto|congruence].
    - exists []. split; [congruence|]. intros t' Ht. right. exists [], e. rewrite app_nil_r. split; [reflexivity|]. apply M. congruence.
    - exists []. split; [congruence|discriminate].
  Qed.
  Lemma pends_last {A} h e (m : tact A) : still m -> (forall w t, snd (m w) = RErr t -> about h e t) -> pends h e m.
  Proof.
    intros S M w E. exists []. split; [rewrite S; exact E|]. intros t Ht. right. exists [], e. rewrite app_nil_r. split; [reflexivity|eauto].
  Qed.
  Lemma blames_ext {A} (m m' : tact A) : (forall w, m w = m' w) -> blames m' -> blames m.
  Proof. intros E H w. unfold blames_at. rewrite E. apply H. Qed.
End Blame.

Section Dialog.
  Context {J Acc : Type}.
  Variable sign_ok : list (entry J) -> request J -> outcome unit.
  Variable compose : list (entry J) -> request J -> outcome bytes.
  Variable bank : list (entry J) -> outcome bytes.
  Variable others : bytes -> Z -> option (bytes -> outcome (oseg Acc)).
  Variable pick : list (entry J) -> nat.
  Variable sign_why : list (entry J) -> request J -> bytes.
  Variable compose_why : list (entry J) -> request J -> bytes.
  Variable bank_why : list (entry J) -> bytes.
  Variable read_why : bytes -> bytes.
  Variable quote : bytes -> bytes.
  Hypothesis Hreg : regular others.
  Notation reply := (bank_message (oseg Acc)).
  Notation world := (@world J Acc).
  Notation tact := (@tact J Acc).
  Notation t_request := (t_request compose bank others compose_why bank_why read_why).
  Notation t_exchange := (t_exchange sign_ok compose bank others sign_why compose_why bank_why read_why).
  Notation t_exchange_plain := (t_exchange_plain compose bank others compose_why bank_why read_why).
  Notation t_end := (t_end sign_ok compose bank others sign_why compose_why bank_why read_why quote).
  Notation t_anonymous_end := (t_anonymous_end compose bank others compose_why bank_why read_why quote).
  Notation t_sync_system := (t_sync_system sign_ok compose bank others pick sign_why compose_why bank_why read_why quote).
  Notation t_start := (t_start sign_ok compose bank others pick sign_why compose_why bank_why read_why quote).
  Notation t_ensure_system := (t_ensure_system sign_ok compose bank others pick sign_why compose_why bank_why read_why quote).
  Notation t_init := (t_init sign_ok compose bank others pick sign_why compose_why bank_why read_why quote).
  Notation t_anonymous_init := (t_anonymous_init compose bank others compose_why bank_why read_why quote).
  Notation t_send := (t_send sign_ok compose bank others pick sign_why compose_why bank_why read_why quote).
  Notation t_sync_user := (t_sync_user sign_ok compose bank others pick sign_why compose_why bank_why read_why quote).
  Notation t_send_anonymous := (t_send_anonymous compose bank others compose_why bank_why read_why quote).
  Notation answered := (answered bank others).
  Notation exchange_failed := (exchange_failed bank others bank_why read_why quote).
  Notation not_signed := (not_signed sign_ok sign_why).
  Notation not_composed := (not_composed compose compose_why).

  (** ** One exchange *)
  Section Any.
    Variable before_sending : list (entry J) -> bytes -> Prop.
    Variable about : list (entry J) -> entry J -> bytes -> Prop.
    Notation blames := (blames (Acc:=Acc) before_sending about).
    Notation pends := (pends (Acc:=Acc) before_sending about).
    Variable doing complaint : kind J -> bytes.
    Hypothesis Habout : forall h e t, exchange_failed doing complaint h e t -> about h e t.
    Lemma blames_request_at {C} p q (k : reply -> tact C) w : (forall t, not_composed (w_sent w) t -> before_sending (w_sent w) t) -> p = doing (rq_kind q) ->
      (forall h e m, kind_of e = rq_kind q -> answered h e m -> pends h e (k m)) -> blames_at before_sending about (tbind (t_request p q) k) w.
    Proof.
      intros Hc Hp K. unfold blames_at, tbind, Error_Model.t_request.
      destruct (compose (w_sent w) q) as [bs| |] eqn:Ec.
      - destruct (bank (w_sent w ++ [(q, bs)])) as [raw| |] eqn:Eb; cbn [fst snd].
        + destruct (read_response others raw) as [m| |] eqn:Er; cbn [named fst snd].
          * destruct (K (w_sent w) (q, bs) m eq_refl (ex_intro _ raw (conj Eb Er)) (mkW (w_d w) (w_sent w ++ [(q, bs)])) eq_refl) as (l&E&P).
            exists ((q, bs) :: l). auto.
          * exists [(q, bs)]. split; [reflexivity|]. intros t Ht. injection Ht as <-. right. exists [], (q, bs). rewrite app_nil_r. split; [reflexivity|].
            apply Habout. right. left. exists raw. subst p. auto.
          * exists [(q, bs)]. split; [reflexivity|discriminate].
        + exists [(q, bs)]. split; [reflexivity|]. intros t Ht. injection Ht as <-. right. exists [], (q, bs). rewrite app_nil_r. split; [reflexivity|].
          apply Habout. left. subst p. auto.
        + exists [(q, bs)]. split; [reflexivity|discriminate].
      - exists []. rewrite app_nil_r. split; [reflexivity|]. cbn. intros t Ht. injection Ht as <-. left. rewrite app_nil_r. apply Hc. exists q. auto.
      - exists []. rewrite app_nil_r. split; [reflexivity|discriminate].
    Qed.
    Lemma blames_request {C} p q (k : reply -> tact C) : (forall h t, not_composed h t -> before_sending h t) -> p = doing (rq_kind q) ->
      (forall h e m, kind_of e = rq_kind q -> answered h e m -> pends h e (k m)) -> blames (tbind (t_request p q) k).
    Proof. intros Hc Hp K w. apply blames_request_at; auto. Qed.
    Lemma new_kind signed k w w1 q : tnamed [] (new_basic_message (J:=J) (Acc:=Acc) signed k) w = (w1, ROk q) -> exists d, rq_kind q = k d.
    Proof. unfold tnamed, new_basic_message. cbn. intros H. injection H as <- <-. cbn [rq_kind]. eexists. reflexivity. Qed.
    Lemma envelope_kind q w w1 q' : tnamed [] (with_envelope (J:=J) (Acc:=Acc) q) w = (w1, ROk q') -> rq_kind q' = rq_kind q.
    Proof. unfold tnamed, with_envelope. cbn. intros H. injection H as <- <-. reflexivity. Qed.
    Lemma blames_bind_ok {A C} (m : tact A) (k : A -> tact C) : blames m -> (forall a, (exists w w1, m w = (w1, ROk a)) -> blames (k a)) -> blames (tbind m k).
    Proof.
      intros H K w. destruct (H w) as (l&E&P). unfold blames_at, tbind. destruct (m w) as [w1 [a|t|]] eqn:Em; cbn [fst snd] in *.
      - destruct (K a (ex_intro _ w (ex_intro _ w1 Em)) w1) as (l2&E2&P2). exists (l ++ l2). split; [now rewrite E2, E, app_assoc|].
        intros t Ht. apply here_more. rewrite <- E. auto.
      - exists l. split; [exact E|]. intros t' Ht. apply P. congruence.
      - exists l. split; [exact E|discriminate].
    Qed.
    Lemma mute_named {A} (m : @act J Acc A) : noerr m -> mute (tnamed [] m).
    Proof. intros H w t. now apply noerr_named. Qed.
    Lemma noerr_new s k : noerr (new_basic_message (J:=J) (Acc:=Acc) s k).
    Proof. intros w. discriminate. Qed.
    Lemma noerr_envelope q : noerr (with_envelope (J:=J) (Acc:=Acc) q).
    Proof. intros w. discriminate. Qed.
    Lemma blames_exchange {C} p kd (k : reply -> tact C) : (forall h t, not_signed h t -> before_sending h t) -> (forall d, p = doing (kd d)) -> (forall h t, not_composed h t -> before_sending h t) ->
      (forall h e m, (exists d, kind_of e = kd d) -> answered h e m -> pends h e (k m)) -> blames (tbind (t_exchange p kd) k).
    Proof.
      intros Hs Hp Hc K. unfold Error_Model.t_exchange.
      eapply blames_ext; [intros w; apply bind_assoc|]. apply blames_bind_ok; [apply blames_mute; [apply still_new|apply mute_named, noerr_new]|].
      intros q (w&w1&E). apply new_kind in E. destruct E as (d&E).
      eapply blames_ext; [intros w'; apply bind_assoc|]. apply blames_bind.
      { apply blames_before; [apply still_sign|]. intros w' t H. apply Hs. exists q. unfold t_sign in H. cbn in H.
        destruct (sign_ok (w_sent w') q); try discriminate. cbn in H. injection H as <-. auto. }
      intros _. eapply blames_ext; [intros w'; apply bind_assoc|].
      apply blames_bind_ok; [apply blames_mute; [apply still_envelope|apply mute_named, noerr_envelope]|].
      intros q' (w2&w3&E2). apply envelope_kind in E2. apply blames_request; [exact Hc|rewrite E2, E; apply Hp|].
      intros h e m He Ha. apply K; [|exact Ha]. exists d. congruence.
    Qed.
    Lemma blames_exchange_plain {C} p kd (k : reply -> tact C) : (forall d, p = doing (kd d)) -> (forall h t, not_composed h t -> before_sending h t) ->
      (forall h e m, (exists d, kind_of e = kd d) -> answered h e m -> pends h e (k m)) -> blames (tbind (t_exchange_plain p kd) k).
    Proof.
      intros Hp Hc K. unfold Error_Model.t_exchange_plain.
      eapply blames_ext; [intros w; apply bind_assoc|]. apply blames_bind_ok; [apply blames_mute; [apply still_new|apply mute_named, noerr_new]|].
      intros q (w&w1&E). apply new_kind in E. destruct E as (d&E). apply blames_request; [exact Hc|rewrite E; apply Hp|].
      intros h e m He Ha. apply K; [|exact Ha]. exists d. congruence.
    Qed.
    Lemma fail_text label (m : reply) w t : snd (t_fail (J:=J) quote label m w) = RErr t ->
      has_error m /\ exists lines, Forall2 (describes quote) lines (errors m) /\ t = label ++ on_lines lines.
    Proof.
      unfold t_fail, tlift. cbn [snd]. destruct (filter is_err (bm_acks m)) as [|a l] eqn:E; [discriminate|]. intros H. injection H as <-. split.
      - apply has_error_spec. apply existsb_exists. exists a. apply filter_In. rewrite E. now left.
      - exists (map (ack_string quote) (a :: l)). split; [|now rewrite on_lines_join].
        unfold errors. change (fun a0 : ack => 9000 <=? ack_code a0) with is_err. rewrite E.
        clear. induction (a :: l); constructor; auto. apply describes_string.
    Qed.
    Lemma fail_about label h e m w t : label = complaint (kind_of e) -> answered h e m -> snd (t_fail (J:=J) quote label m w) = RErr t -> about h e t.
    Proof.
      intros -> Ha H. apply fail_text in H. destruct H as (H&lines&H1&H2). apply Habout. right. right. exists m, lines. auto.
    Qed.
    Lemma fail_passed label (m : reply) w w1 a : t_fail (J:=J) quote label m w = (w1, ROk a) -> ~ has_error m.
    Proof.
      unfold t_fail, tlift. intros H K. apply has_error_spec in K. apply existsb_exists in K. destruct K as (x&K1&K2).
      destruct (filter is_err (bm_acks m)) eqn:E; [|discriminate]. assert (K3 : In x []); [|exact K3]. rewrite <- E. apply filter_In. auto.
    Qed.
    Lemma pends_fail {C} label h e m (k : unit -> tact C) : label = complaint (kind_of e) -> answered h e m ->
      (~ has_error m -> forall a, pends h e (k a)) -> pends h e (tbind (t_fail quote label m) k).
    Proof.
      intros L Ha K. apply pends_step; [apply still_fail|intros w t; now apply fail_about|].
      intros a (w&w1&E). apply K. eapply fail_passed; eauto.
    Qed.
    Lemma pends_quiet {A C} why h e (s : @act J Acc A) (k : A -> tact C) : (forall w, w_sent (fst (s w)) = w_sent w) -> noerr s ->
      (forall a, pends h e (k a)) -> pends h e (tbind (tnamed why s) k).
    Proof.
      intros S N K. apply pends_step; [now apply still_named'|intros w t H; destruct (noerr_named why s N w t H)|]. intros a _. apply K.
    Qed.
  End Any.

  Lemma quiet_sent {A} (m : @act J Acc A) : quiet m -> forall w, w_sent (fst (m w)) = w_sent w.
  Proof. intros H w. destruct (H w) as (E&_). now destruct (m w). Qed.
  Lemma take_sent (m : reply) w : w_sent (fst (take_dialog_id (J:=J) m w)) = w_sent w.
  Proof. unfold take_dialog_id. now destruct (mh_dialog _). Qed.

  (** ** The user's dialog *)
  Notation failed_here := (failed_here sign_ok compose bank others sign_why compose_why bank_why read_why quote).
  Definition user_before h t := not_signed h t \/ not_composed h t.
  Definition user_about h e t := exchange_failed doing complaint h e t \/ answer_useless bank others h e t.
  Notation blames := (blames (Acc:=Acc) user_before user_about).
  Notation pends := (pends (Acc:=Acc) user_before user_about).
  Lemma here_user h l t : here user_before user_about h l t -> failed_here h l t.
  Proof. intros [[H|H]|H]; [left; auto|right; left; auto|right; right; exact H]. Qed.
  Lemma user_signed h t : not_signed h t -> user_before h t. Proof. now left. Qed.
  Lemma user_composed h t : not_composed h t -> user_before h t. Proof. now right. Qed.
  Lemma user_failed h e t : exchange_failed doing complaint h e t -> user_about h e t. Proof. now left. Qed.
  Hint Resolve user_signed user_composed user_failed : core.
  Ltac xchg := eapply (blames_exchange user_before user_about doing complaint); [auto|auto|reflexivity|auto|].
  Lemma blames_end : blames t_end.
  Proof.
    unfold Error_Model.t_end. xchg. intros h e m (d&Hk) Ha. apply pends_last; [apply still_fail|].
    intros w t. eapply (fail_about user_about doing complaint); [auto|now rewrite Hk|exact Ha].
  Qed.
  Lemma update_about h e m w t : answered h e m -> ~ has_error m -> (exists c, kind_of e = KSync c) \/ (exists c s v u, kind_of e = KInit c s v u) ->
    snd (t_update_function pick m w) = RErr t -> user_about h e t.
  Proof.
    intros Ha Hn Hk H. right. exists m. split; [exact Ha|]. split; [exact Hn|]. left. unfold t_update_function, tnamed in H.
    pose proof (update_ok others pick m w) as U.
    destruct (update_security_function pick m w) as [w1 o]. cbn [snd] in *. destruct o; cbn [named] in H; try discriminate.
    split; [|split; [exact Hk|now injection H as <-]]. intros F. apply U in F. destruct F as (x&F). discriminate.
  Qed.
  Lemma answered_reads h e m : answered h e m -> reads others m.
  Proof. intros (raw&_&H). exists raw. exact H. Qed.
  Lemma pends_sync_rest h e m c : kind_of e = KSync c -> answered h e m ->
    pends h e (tbind (tnamed [] (take_dialog_id m)) (fun _ => tbind (t_fail quote (B "institute returned errors:" ++ [nl]) m) (fun _ =>
      tbind (t_update_function pick m) (fun _ => tbind (tnamed (B "malformed message: missing unmarshaler for SynchronisationResponse")
      (match find_seg m (B "HISYN") with
       | None => lift Err
       | Some (OSync s) => bind (lift s) set_client_system
       | Some _ => lift Panic
       end)) (fun _ => tbind (t_parse_bpd m) (fun _ => tbind (tnamed [] (parse_upd m)) (fun _ => tbind t_end (fun _ =>
       tbind (tnamed [] get) (fun d => tret (d_system d)))))))))).
  Proof.
    intros Hk Ha. pose proof (answered_reads h e m Ha) as R.
    apply pends_quiet; [apply take_sent|apply noerr_take|]. intros _.
    eapply (pends_fail user_before user_about doing complaint); [auto|now rewrite Hk|exact Ha|]. intros Hn _.
    apply pends_step; [apply still_named, quiet_update| |].
    { intros w t. apply update_about; auto. left. eauto. }
    intros _ _. apply pends_step.
    { apply still_named'. intros w. destruct (find_seg m (B "HISYN")) as [[s|?|?|?|?|?|?|?]|]; try reflexivity. now destruct s. }
    { intros w t H. right. exists m. split; [exact Ha|]. split; [exact Hn|]. right.
      destruct (find_seg m (B "HISYN")) as [s|] eqn:Es.
      - exfalso. destruct (first_regular others Hreg m _ _ R Es) as (_&V). destruct s; unfold tnamed in H; cbn in H; try discriminate.
        cbn in V. destruct system; cbn in *; congruence.
      - cbn in H. injection H as <-. rewrite find_seg_eq in Es. destruct (segs m (B "HISYN")); [|discriminate]. split; [reflexivity|split; [eauto|reflexivity]]. }
    intros _ _. apply pends_quiet; [apply quiet_sent, quiet_bpd|now apply (noerr_bpd others Hreg)|]. intros _.
    apply pends_quiet; [apply quiet_sent, quiet_upd|now apply (noerr_upd others Hreg)|]. intros _.
    apply pends_blames. apply blames_bind; [apply blames_end|]. intros _.
    apply blames_bind; [apply blames_mute; [now apply still_named'|intros w t; discriminate]|]. intros d.
    apply blames_mute; [apply still_ret|intros w t; discriminate].
  Qed.
  Lemma blames_sync : blames t_sync_system.
  Proof.
    unfold Error_Model.t_sync_system.
    apply blames_bind_ok; [apply blames_mute; [apply still_new|apply mute_named, noerr_new]|].
    intros q (w&w1&E). apply new_kind in E. destruct E as (d&E). apply blames_bind.
    { apply blames_before; [apply still_sign|]. intros w' t H. left. exists q. unfold t_sign in H. cbn in H.
      destruct (sign_ok (w_sent w') q); try discriminate. cbn in H. injection H as <-. auto. }
    intros _. apply blames_bind; [apply blames_mute; [now apply still_named'|intros w' t; discriminate]|]. intros _.
    apply blames_bind_ok; [apply blames_mute; [apply still_envelope|apply mute_named, noerr_envelope]|].
    intros q' (w2&w3&E2). apply envelope_kind in E2.
    apply (blames_request user_before user_about doing complaint); [auto|auto|rewrite E2, E; reflexivity|].
    intros h e m He Ha. apply pends_sync_rest with (d_client d); [congruence|exact Ha].
  Qed.
  Lemma blames_start : blames t_start.
  Proof.
    unfold Error_Model.t_start. apply blames_bind; [apply blames_mute; [now apply still_named'|intros w' t; discriminate]|]. intros _.
    xchg. intros h e m (d&Hk) Ha. pose proof (answered_reads h e m Ha) as R.
    apply pends_quiet; [apply take_sent|apply noerr_take|]. intros _.
    apply pends_quiet; [apply quiet_sent, quiet_bpd|now apply (noerr_bpd others Hreg)|]. intros _.
    apply pends_quiet; [apply quiet_sent, quiet_upd|now apply (noerr_upd others Hreg)|]. intros _.
    apply pends_quiet; [apply quiet_sent, quiet_news|now apply (noerr_news others Hreg)|]. intros _.
    eapply (pends_fail user_before user_about doing complaint); [auto|now rewrite Hk|exact Ha|]. intros Hn _.
    apply pends_last; [apply still_named, quiet_update|]. intros w t. apply update_about; auto. right. rewrite Hk. eauto.
  Qed.
  Lemma blames_ensure : blames t_ensure_system.
  Proof.
    apply blames_bind; [apply blames_mute; [now apply still_named'|intros w' t; discriminate]|]. intros d.
    destruct (bytes_eqb _ _); [|apply blames_mute; [apply still_ret|intros w t; discriminate]].
    apply blames_bind; [apply blames_sync|]. intros s. apply blames_mute; [now apply still_named'|intros w t; discriminate].
  Qed.
  Lemma blames_init : blames t_init.
  Proof. apply blames_bind; [apply blames_ensure|]. intros _. apply blames_start. Qed.

  (** ** With a deferred end *)
  Definition ends_at (P : list (entry J) -> list (entry J) -> bytes -> Prop) {A} (m : tact A) (w : world) : Prop :=
    exists l, w_sent (fst (m w)) = w_sent w ++ l /\ forall t, snd (m w) = RErr t -> then_ended (P (w_sent w)) l t.
  Lemma ended_deferred bs ab {A} (m : tact A) c : Reason_Facts.blames bs ab m -> sends_one is_end c ->
    forall w, ends_at (here bs ab) (tdeferred m c) w.
  Proof.
    intros H Hc w. destruct (H w) as (l&E&P). unfold ends_at, tdeferred. destruct (m w) as [w1 r]. cbn [fst snd] in *.
    specialize (Hc w1). destruct (c w1) as [w2 x]. cbn [fst snd] in *. destruct Hc as [(E2&_)|(e&E2&Ke)].
    - exists l. split; [now rewrite E2|]. intros t Ht. exists l, []. rewrite app_nil_r. split; [reflexivity|]. split; [|now left].
      apply P. destruct x; congruence.
    - exists (l ++ [e]). split; [now rewrite E2, E, app_assoc|]. intros t Ht. exists l, [e]. split; [reflexivity|].
      split; [|right; eauto]. apply P. destruct x; congruence.
  Qed.
  Lemma ended_bind bs ab {A C} (m : tact A) (k : A -> tact C) : Reason_Facts.blames bs ab m ->
    (forall a w, ends_at (here bs ab) (k a) w) -> forall w, ends_at (here bs ab) (tbind m k) w.
  Proof.
    intros H K w. destruct (H w) as (l&E&P). unfold ends_at, tbind. destruct (m w) as [w1 [a|t|]]; cbn [fst snd] in *.
    - destruct (K a w1) as (l2&E2&P2). exists (l ++ l2). split; [now rewrite E2, E, app_assoc|].
      intros t Ht. destruct (P2 t Ht) as (b&af&->&Hh&Haf). exists (l ++ b), af. split; [now rewrite app_assoc|]. split; [|exact Haf].
      apply here_more. now rewrite <- E.
    - exists l. split; [exact E|]. intros t' Ht. exists l, []. rewrite app_nil_r. split; [reflexivity|]. split; [|now left]. apply P. congruence.
    - exists l. split; [exact E|discriminate].
  Qed.
  Lemma ended_here bs ab {A} (m : tact A) : Reason_Facts.blames bs ab m -> forall w, ends_at (here bs ab) m w.
  Proof.
    intros H w. destruct (H w) as (l&E&P). exists l. split; [exact E|]. intros t Ht. exists l, []. rewrite app_nil_r. auto.
  Qed.
  Lemma ended_send j w : ends_at (here user_before user_about) (t_send j) w.
  Proof.
    apply ended_bind; [apply blames_init|]. intros _. apply ended_deferred; [|apply sends_end].
    xchg. intros h e m (d&Hk) Ha. eapply (pends_fail user_before user_about doing complaint); [auto|now rewrite Hk|exact Ha|]. intros Hn _.
    apply pends_blames, blames_mute; [apply still_ret|intros w' t; discriminate].
  Qed.
  Lemma ended_sync_user w : ends_at (here user_before user_about) t_sync_user w.
  Proof.
    apply ended_bind; [apply blames_init|]. intros _. apply ended_deferred; [|apply sends_end].
    apply blames_mute; [apply still_ret|intros w' t; discriminate].
  Qed.

  (** ** The anonymous dialog *)
  Definition bare_doing : kind J -> bytes := fun _ => [].
  Definition bare_complaint (k : kind J) : bytes :=
    match k with KInit _ _ _ _ => end_label | _ => B "Institute returned errors:" ++ [nl] end.
  Definition is_start (k : kind J) : Prop := exists c s v u, k = KInit c s v u.
  Lemma blames_anonymous_init w : blames_at (fun h t => h = w_sent w /\ not_composed h t) (exchange_failed bare_doing bare_complaint) t_anonymous_init w.
  Proof.
    unfold Error_Model.t_anonymous_init.
    match goal with |- blames_at ?P ?Q (tbind ?s ?k) w => assert (X : forall w1, w_sent w1 = w_sent w -> blames_at P Q (k tt) w1) end.
    2:{ apply (X (mkW (upd_count 0 (upd_dialog (B "0") (w_d w))) (w_sent w)) eq_refl). }
    intros w1 Ew. cbv beta. unfold blames_at. unfold Error_Model.t_exchange_plain. rewrite bind_assoc.
    match goal with |- context [tbind (tnamed [] (new_basic_message false ?kd)) ?k w1] =>
      assert (X : forall w2 q, w_sent w2 = w_sent w -> (exists d, rq_kind q = kd d) -> blames_at (fun h t => h = w_sent w /\ not_composed h t) (exchange_failed bare_doing bare_complaint) (k q) w2) end.
    2:{ rewrite <- Ew. rewrite <- Ew in X. set (d := upd_count (d_count (w_d w1) + 1) (w_d w1)).
        exact (X (mkW d (w_sent w1)) (mkRq (KInit (B "9999999999") (B "0") (d_bpd_version d) (upd_version (d_upd d))) (d_dialog d) (d_count d) None None)
                 eq_refl (ex_intro _ d eq_refl)). }
    intros w2 q E2 (d&Hk). cbv beta. apply (blames_request_at _ _ bare_doing bare_complaint); [auto|rewrite E2; auto|reflexivity|].
    intros h e m He Ha. pose proof (answered_reads h e m Ha) as R.
    apply pends_quiet; [apply take_sent|apply noerr_take|]. intros _.
    apply pends_quiet; [apply quiet_sent, quiet_bpd|now apply (noerr_bpd others Hreg)|]. intros _.
    apply pends_quiet; [apply quiet_sent, quiet_upd|now apply (noerr_upd others Hreg)|]. intros _.
    apply pends_quiet; [apply quiet_sent, quiet_news|now apply (noerr_news others Hreg)|]. intros _.
    apply pends_last; [apply still_fail|]. intros w3 t.
    apply (fail_about _ bare_doing bare_complaint); [auto|now rewrite He, Hk|exact Ha].
  Qed.
  Lemma sends_anonymous_init : sends_one is_start t_anonymous_init.
  Proof.
    unfold Error_Model.t_anonymous_init. apply sends_bind_still; [apply still_named'; reflexivity|]. intros _.
    apply sends_then_still; [apply sends_exchange_plain; intros d; repeat eexists|]. intros m.
    apply still_bind; [apply still_take|]. intros _. apply still_bind; [apply still_named, quiet_bpd|]. intros _.
    apply still_bind; [apply still_named, quiet_upd|]. intros _. apply still_bind; [apply still_named, quiet_news|]. intros _.
    apply still_fail.
  Qed.
  Notation anonymous_failed_here := (anonymous_failed_here compose bank others compose_why bank_why read_why quote).
  Lemma ended_anonymous j w : ends_at anonymous_failed_here (t_send_anonymous j) w.
  Proof.
    unfold ends_at, Error_Model.t_send_anonymous, tbind, tprefixed.
    destruct (blames_anonymous_init w) as (l&E&P). pose proof (sends_anonymous_init w) as S.
    destruct (t_anonymous_init w) as [w1 [a|t|]]; cbn [fst snd prefixed] in *.
    - destruct S as [(_&S)|(e&S&Ke)]; [now destruct (S a)|].
      assert (l = [e]) by (apply (app_inv_head (w_sent w)); congruence). subst l.
      assert (D : forall w, ends_at (here not_composed (exchange_failed anonymous_doing anonymous_complaint))
        (tdeferred (tbind (t_exchange_plain [] (fun _ => KJob j)) (fun m => tbind (t_fail quote (B "Institute returned errors:" ++ [nl]) m) (fun _ => tret m)))
                   t_anonymous_end) w).
      { apply ended_deferred; [|apply sends_anonymous_end].
        eapply (blames_exchange_plain not_composed _ anonymous_doing anonymous_complaint); [auto|reflexivity|auto|].
        intros h e' m (d&Hk) Ha. eapply (pends_fail not_composed _ anonymous_doing anonymous_complaint); [auto|now rewrite Hk|exact Ha|].
        intros Hn _. apply pends_blames, blames_mute; [apply still_ret|intros w' t; discriminate]. }
      destruct (D w1) as (l2&E2&P2). exists ([e] ++ l2). split.
      { etransitivity; [exact E2|]. rewrite S. now rewrite <- app_assoc. }
      intros t Ht. destruct (P2 t Ht) as (b&af&->&Hh&Haf). exists ([e] ++ b), af. split; [now rewrite app_assoc|]. split; [|exact Haf].
      rewrite S in Hh. apply here_more in Hh. destruct Hh as [Hh|Hh]; [left; exists t; split; [exact Hh|reflexivity]|right; exact Hh].
    - exists l. split; [exact E|]. intros t' Ht. injection Ht as <-. exists l, []. rewrite app_nil_r. split; [reflexivity|]. split; [|now left].
      destruct (P t eq_refl) as [H|(b&e'&H&P3)].
      + destruct H as (H&K). left. exists t. split; [exact K|].
        assert (l = []) by (apply (app_inv_head (w_sent w)); now rewrite app_nil_r). now subst l.
      + right. exists b, e'. split; [exact H|]. destruct S as [(S&_)|(e&S&(c&s&v&u&Ke))].
        { exfalso. assert (El : l = []) by (apply (app_inv_head (w_sent w)); rewrite app_nil_r; congruence). rewrite El in H. destruct b; discriminate. }
        assert (El : l = [e]) by (apply (app_inv_head (w_sent w)); congruence). rewrite El in H. clear El.
        destruct b as [|? [|]]; try discriminate. injection H as <-.
        destruct P3 as [(X1&X2)|[(raw&X1&X2&X3)|(m&lines&X1&X2&X3&X4)]].
        * left. split; [exact X1|]. rewrite X2, Ke. reflexivity.
        * right. left. exists raw. split; [exact X1|]. split; [exact X2|]. rewrite X3, Ke. reflexivity.
        * right. right. exists m, lines. split; [exact X1|]. split; [exact X2|]. split; [exact X3|]. rewrite X4, Ke. reflexivity.
    - exists l. split; [exact E|discriminate].
  Qed.
End Dialog.
