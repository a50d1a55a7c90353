(** * Auxiliary proofs: calls whose answers crash, and calls whose answers do not *)
From Coq Require Import Lia.
From Verif Require Import Base BaseFacts Message_Model Dialog_Model Dialog_Spec Dialog_Proofs Dialog_Facts2 Client_Model Client_Spec Crash_Spec.
Open Scope Z_scope.

Section Facts.
  Context {J Acc : Type}.
  Variable sign_ok : list (entry J) -> request J -> outcome unit.
  Variable compose : list (entry J) -> request J -> outcome bytes.
  Variable bank : list (entry J) -> outcome bytes.
  Variable others : bytes -> Z -> option (bytes -> outcome (oseg Acc)).
  Variable pick : list (entry J) -> nat.
  Notation reply := (bank_message (oseg Acc)).
  Notation world := (@world J Acc).
  Notation act := (@act J Acc).
  Notation exchange := (exchange sign_ok compose bank others).
  Notation exchange_plain := (exchange_plain compose bank others).
  Notation end_dialog := (end_dialog sign_ok compose bank others).
  Notation anonymous_end := (anonymous_end compose bank others).
  Notation sync_client_system := (sync_client_system sign_ok compose bank others pick).
  Notation start_dialog := (start_dialog sign_ok compose bank others pick).
  Notation anonymous_init := (anonymous_init compose bank others).
  Notation init := (init sign_ok compose bank others pick).
  Notation ensure_system := (ensure_system sign_ok compose bank others pick).
  Notation send_message := (send_message sign_ok compose bank others pick).
  Notation send_anonymous := (send_anonymous compose bank others).
  Notation sync_user_data := (sync_user_data sign_ok compose bank others pick).
  Notation one_bad := (one_bad bank others).
  Notation all_good := (all_good bank others).
  Notation bad_answer := (bad_answer bank others).
  Notation good_answer := (good_answer bank others).
  Notation answered := (answered bank others).

  (** ** Crashes reach the caller *)
  Lemma one_bad_nil h : ~ one_bad h [].
  Proof. intros (b&e&a&E&_). destruct b; discriminate. Qed.
  Lemma one_bad_one h e : one_bad h [e] -> bad_answer h e.
  Proof.
    intros (b&e'&a&E&H). destruct b as [|x [|]]; try discriminate. cbn in E. assert (e' = e) by congruence. subst.
    now rewrite app_nil_r in H.
  Qed.
  Lemma split_mid {X} (t1 t2 b a : list X) e : t1 ++ t2 = b ++ e :: a ->
    (exists a', t1 = b ++ e :: a' /\ a = a' ++ t2) \/ (exists b', b = t1 ++ b' /\ t2 = b' ++ e :: a).
  Proof.
    revert b. induction t1 as [|x t1 IH]; intros b E; cbn in E.
    - right. exists b. auto.
    - destruct b as [|y b]; cbn in E.
      + left. exists t1. injection E as -> ->. auto.
      + injection E as -> E. destruct (IH _ E) as [(a'&->&->)|(b'&->&->)]; [left; exists a'|right; exists b']; auto.
  Qed.
  Lemma one_bad_app h t1 t2 : one_bad h (t1 ++ t2) -> one_bad h t1 \/ one_bad (h ++ t1) t2.
  Proof.
    intros (b&e&a&E&H). destruct (split_mid _ _ _ _ _ E) as [(a'&->&_)|(b'&->&->)].
    - left. exists b, e, a'. auto.
    - right. exists b', e, a. rewrite <- app_assoc. auto.
  Qed.

  Definition sound {A} (m : act A) : Prop :=
    forall w, exists t, w_sent (fst (m w)) = w_sent w ++ t /\ (one_bad (w_sent w) t -> snd (m w) = Panic).
  Lemma sound_quiet {A} (m : act A) : quiet m -> sound m.
  Proof.
    intros Q w. exists []. rewrite app_nil_r. split; [apply Q|]. intros H. now destruct (one_bad_nil _ H).
  Qed.
  Lemma sound_bind {A C} (m : act A) (k : A -> act C) : sound m -> (forall a, sound (k a)) -> sound (bind m k).
  Proof.
    intros Hm Hk w. unfold bind. destruct (Hm w) as (t&E&P). destruct (m w) as [w1 [a| |]]; cbn [fst snd] in *.
    - destruct (Hk a w1) as (t2&E2&P2). exists (t ++ t2). rewrite E2, E, app_assoc. split; [reflexivity|].
      intros H. destruct (one_bad_app _ _ _ H) as [B|B]; [discriminate (P B)|]. apply P2. now rewrite E.
    - exists t. split; [exact E|]. intros H. discriminate (P H).
    - exists t. auto.
  Qed.
  Lemma sound_deferred {A} (m : act A) (c : act unit) : sound m -> sound c -> sound (deferred m c).
  Proof.
    intros Hm Hc w. unfold deferred. destruct (Hm w) as (t&E&P). destruct (m w) as [w1 r]; cbn [fst snd] in *.
    destruct (Hc w1) as (t2&E2&P2). destruct (c w1) as [w2 x]; cbn [fst snd] in *.
    exists (t ++ t2). rewrite E2, E, app_assoc. split; [reflexivity|].
    intros H. destruct (one_bad_app _ _ _ H) as [B|B].
    - rewrite (P B). now destruct x.
    - rewrite <- E in B. now rewrite (P2 B).
  Qed.
  Lemma bad_read h (e : entry J) : ~ is_init (kind_of e) -> bad_answer h e ->
    (do raw <- bank (h ++ [e]); read_response others raw) = Panic.
  Proof. intros N [(raw&E&R)|[I _]]; [|now destruct N]. rewrite E. exact R. Qed.
  Lemma sound_exchange k : (forall d, ~ is_init (k d)) -> sound (exchange k).
  Proof.
    intros N w. destruct (exchange_cases sign_ok compose bank others k w) as [[_ [_ H]]|(bs&_&H)].
    - exists []. rewrite H, app_nil_r. split; [reflexivity|]. intros B. now destruct (one_bad_nil _ B).
    - exists [(req k (w_d w), bs)]. rewrite H. split; [reflexivity|]. intros B. apply one_bad_one in B.
      cbn [snd]. apply bad_read; [apply N|exact B].
  Qed.
  Lemma sound_exchange_plain k : (forall d, ~ is_init (k d)) -> sound (exchange_plain k).
  Proof.
    intros N w. destruct (exchange_plain_cases sign_ok compose bank others k w) as [[_ [_ H]]|(bs&_&H)].
    - exists []. rewrite H, app_nil_r. split; [reflexivity|]. intros B. now destruct (one_bad_nil _ B).
    - exists [(req_plain k (w_d w), bs)]. rewrite H. split; [reflexivity|]. intros B. apply one_bad_one in B.
      cbn [snd]. apply bad_read; [apply N|exact B].
  Qed.
  Lemma job_not_init (j : J) : ~ is_init (KJob j).
  Proof. intros (?&?&?&?&H). discriminate. Qed.
  Lemma end_not_init D : ~ is_init (J:=J) (KEnd D).
  Proof. intros (?&?&?&?&H). discriminate. Qed.
  Lemma sound_end : sound end_dialog.
  Proof.
    unfold Dialog_Model.end_dialog. apply sound_bind; [apply sound_exchange; intros; apply end_not_init|].
    intros m. apply sound_quiet, quiet_fail.
  Qed.
  Lemma sound_anonymous_end : sound anonymous_end.
  Proof.
    unfold Dialog_Model.anonymous_end. apply sound_bind; [apply sound_exchange_plain; intros; apply end_not_init|].
    intros m. apply sound_quiet, quiet_fail.
  Qed.
  Lemma bind_panic {A C} (m : act A) (k : A -> act C) w : snd (m w) = Panic -> snd (bind m k w) = Panic.
  Proof. unfold bind. destruct (m w) as [w1 [a| |]]; cbn; congruence. Qed.
  Lemma bind_after {C} (m : act unit) (k : act C) w : is_ok (snd (m w)) -> (forall w1, snd (k w1) = Panic) ->
    snd (bind m (fun _ => k) w) = Panic.
  Proof. intros [x E] H. unfold bind. destruct (m w) as [w1 [a| |]]; cbn in *; try discriminate. apply H. Qed.
  Lemma news_crash (m : reply) (w : world) r {C} (k : act C) : (exists i, assigns m i) -> params_readable m ->
    segs m (B "HIKIM") = ONews Panic :: r ->
    snd (bind (take_dialog_id m) (fun _ => bind (parse_bpd m) (fun _ => bind (parse_upd m) (fun _ => bind (log_news m) (fun _ => k)))) w) = Panic.
  Proof.
    intros [i Hi] [P1 P2] Hn. apply bind_after.
    { unfold take_dialog_id. unfold assigns in Hi. rewrite Hi. exists tt. reflexivity. }
    intros w1. apply bind_after; [now apply bpd_ok|]. intros w2. apply bind_after; [now apply upd_ok|].
    intros w3. apply bind_panic. unfold log_news. rewrite find_seg_eq, Hn. reflexivity.
  Qed.
  Lemma sound_start : sound start_dialog.
  Proof.
    intros w. rewrite Dialog_Proofs.start_eq. set (w0 := mkW (reset (w_d w)) (w_sent w)).
    destruct (exchange_cases sign_ok compose bank others init_kind w0) as [[_ [N H]]|(bs&_&H)].
    - exists []. rewrite app_nil_r. unfold bind. destruct (exchange init_kind w0) as [w1 [m| |]]; cbn [fst snd] in *.
      + destruct N. now exists m.
      + subst w1. split; [reflexivity|]. intros B. now destruct (one_bad_nil _ B).
      + subst w1. split; [reflexivity|]. intros B. now destruct (one_bad_nil _ B).
    - set (q := req init_kind (w_d w0)) in *. cbn [w_sent w0] in H. unfold bind. rewrite H.
      exists [(q, bs)]. destruct (bank (w_sent w ++ [(q, bs)])) as [raw| |] eqn:Eb; cbn.
      2:{ split; [reflexivity|]. intros B. apply one_bad_one in B. destruct B as [(raw&E&R)|[_ (m&i&r&A&_)]].
          - discriminate (eq_trans (eq_sym E) Eb).
          - destruct A as (raw&E&_). discriminate (eq_trans (eq_sym E) Eb). }
      2:{ split; [reflexivity|]. reflexivity. }
      destruct (read_response others raw) as [m| |] eqn:Er.
      + split; [apply process_frame|]. intros B. apply one_bad_one in B. destruct B as [(raw'&E&R)|[_ (m'&i&r&A&Hi&P&Hn)]].
        * exfalso. apply (fun H => eq_trans (eq_sym H) Eb) in E; injection E as ->. congruence.
        * destruct A as (raw'&E&R). apply (fun H => eq_trans (eq_sym H) Eb) in E; injection E as ->. assert (m' = m) by congruence. subst m'.
          unfold process. eapply news_crash; eauto.
      + split; [reflexivity|]. intros B. apply one_bad_one in B. destruct B as [(raw'&E&R)|[_ (m'&i&r&A&_)]].
        * exfalso. apply (fun H => eq_trans (eq_sym H) Eb) in E; injection E as ->. congruence.
        * exfalso. destruct A as (raw'&E&R). apply (fun H => eq_trans (eq_sym H) Eb) in E; injection E as ->. congruence.
      + split; reflexivity.
  Qed.
  Lemma sound_anonymous_init : sound anonymous_init.
  Proof.
    intros w.
    assert (S : anonymous_init w = bind (exchange_plain anonymous_kind) process_anonymous (mkW (reset (w_d w)) (w_sent w))) by reflexivity.
    rewrite S. clear S. set (w0 := mkW (reset (w_d w)) (w_sent w)).
    destruct (exchange_plain_cases sign_ok compose bank others anonymous_kind w0) as [[_ [N H]]|(bs&_&H)].
    - exists []. rewrite app_nil_r. unfold bind. destruct (exchange_plain anonymous_kind w0) as [w1 [m| |]]; cbn [fst snd] in *.
      + destruct N. now exists m.
      + subst w1. split; [reflexivity|]. intros B. now destruct (one_bad_nil _ B).
      + subst w1. split; [reflexivity|]. intros B. now destruct (one_bad_nil _ B).
    - set (q := req_plain anonymous_kind (w_d w0)) in *. cbn [w_sent w0] in H. unfold bind. rewrite H.
      exists [(q, bs)]. destruct (bank (w_sent w ++ [(q, bs)])) as [raw| |] eqn:Eb; cbn.
      2:{ split; [reflexivity|]. intros B. apply one_bad_one in B. destruct B as [(raw&E&R)|[_ (m&i&r&A&_)]].
          - discriminate (eq_trans (eq_sym E) Eb).
          - destruct A as (raw&E&_). discriminate (eq_trans (eq_sym E) Eb). }
      2:{ split; [reflexivity|]. reflexivity. }
      destruct (read_response others raw) as [m| |] eqn:Er.
      + split; [apply process_anonymous_frame|]. intros B. apply one_bad_one in B. destruct B as [(raw'&E&R)|[_ (m'&i&r&A&Hi&P&Hn)]].
        * exfalso. apply (fun H => eq_trans (eq_sym H) Eb) in E; injection E as ->. congruence.
        * destruct A as (raw'&E&R). apply (fun H => eq_trans (eq_sym H) Eb) in E; injection E as ->. assert (m' = m) by congruence. subst m'.
          unfold process_anonymous. eapply news_crash; eauto.
      + split; [reflexivity|]. intros B. apply one_bad_one in B. destruct B as [(raw'&E&R)|[_ (m'&i&r&A&_)]].
        * exfalso. apply (fun H => eq_trans (eq_sym H) Eb) in E; injection E as ->. congruence.
        * exfalso. destruct A as (raw'&E&R). apply (fun H => eq_trans (eq_sym H) Eb) in E; injection E as ->. congruence.
      + split; reflexivity.
  Qed.
  Lemma sound_ext {A} (m m' : act A) : (forall w, m w = m' w) -> sound m' -> sound m.
  Proof. intros E H w. rewrite E. apply H. Qed.
  Lemma sound_frame {A} (m : act A) : (forall w, w_sent (fst (m w)) = w_sent w) -> sound m.
  Proof. intros E w. exists []. rewrite app_nil_r. split; [apply E|]. intros B. now destruct (one_bad_nil _ B). Qed.
  Lemma sound_sync_exchange : sound (sync_exchange sign_ok compose bank others).
  Proof.
    intros w. destruct (sync_exchange_cases sign_ok compose bank others w) as [[_ [_ (d&H&_)]]|(bs&_&H)].
    - exists []. rewrite H, app_nil_r. split; [reflexivity|]. intros B. now destruct (one_bad_nil _ B).
    - exists [(sync_request (w_d w), bs)]. rewrite H. split; [reflexivity|]. intros B. apply one_bad_one in B.
      cbn [snd]. apply bad_read; [|exact B]. intros (?&?&?&?&X). discriminate.
  Qed.
  Lemma sound_sync : sound sync_client_system.
  Proof.
    eapply sound_ext; [apply sync_eq|]. apply sound_bind; [apply sound_sync_exchange|]. intros m.
    apply sound_bind; [apply sound_frame; intros w; apply process_sync_frame|]. intros _.
    apply sound_bind; [apply sound_end|]. intros _. apply sound_frame. reflexivity.
  Qed.
  Lemma sound_init : sound init.
  Proof.
    unfold Dialog_Model.init. apply sound_bind; [|intros _; apply sound_start].
    unfold Dialog_Model.ensure_system. apply sound_bind; [apply sound_frame; reflexivity|]. intros d.
    destruct (bytes_eqb _ _); [|apply sound_frame; reflexivity].
    apply sound_bind; [apply sound_sync|]. intros s. apply sound_frame. reflexivity.
  Qed.
  Lemma sound_send j : sound (send_message j).
  Proof.
    unfold Dialog_Model.send_message. apply sound_bind; [apply sound_init|]. intros _.
    apply sound_deferred; [|apply sound_end].
    apply sound_bind; [apply sound_exchange; intros; apply job_not_init|]. intros m.
    apply sound_bind; [apply sound_quiet, quiet_fail|]. intros _. apply sound_frame. reflexivity.
  Qed.
  Lemma sound_user : sound sync_user_data.
  Proof.
    unfold Dialog_Model.sync_user_data. apply sound_bind; [apply sound_init|]. intros _.
    apply sound_deferred; [apply sound_frame; reflexivity|apply sound_end].
  Qed.
  Lemma sound_send_anonymous j : sound (send_anonymous j).
  Proof.
    unfold Dialog_Model.send_anonymous. apply sound_bind; [apply sound_anonymous_init|]. intros _.
    apply sound_deferred; [|apply sound_anonymous_end].
    apply sound_bind; [apply sound_exchange_plain; intros; apply job_not_init|]. intros m.
    apply sound_bind; [apply sound_quiet, quiet_fail|]. intros _. apply sound_frame. reflexivity.
  Qed.

  (** ** Good answers do not crash *)
  Section Safe.
  Variable G : list (entry J) -> list (entry J) -> Prop.
  Hypothesis Ggood : forall h t, G h t -> all_good h t.
  Hypothesis Gsplit : forall h t1 t2, G h (t1 ++ t2) -> G h t1 /\ G (h ++ t1) t2.
  Hypothesis Hsign : forall h q, sign_ok h q <> Panic.
  Hypothesis Hcomp : forall h q, compose h q <> Panic.

  Definition safe {A} (m : act A) (Q : A -> Prop) : Prop :=
    forall w, exists t, w_sent (fst (m w)) = w_sent w ++ t /\
      (G (w_sent w) t -> snd (m w) <> Panic /\ forall a, snd (m w) = Ok a -> Q a).
  Lemma safe_bind {A C} (m : act A) (k : A -> act C) (Q : A -> Prop) (R : C -> Prop) :
    safe m Q -> (forall a, sound (k a)) -> (forall a, Q a -> safe (k a) R) -> safe (bind m k) R.
  Proof.
    intros Hm Hs Hk w. unfold bind. destruct (Hm w) as (t&E&P). destruct (m w) as [w1 [a| |]]; cbn [fst snd] in *.
    - destruct (Hs a w1) as (t2&E2&_). exists (t ++ t2). rewrite E2, E, app_assoc. split; [reflexivity|].
      intros H. destruct (Gsplit _ _ _ H) as [B1 B2]. destruct (P B1) as [_ Ha].
      destruct (Hk a (Ha a eq_refl) w1) as (t2'&E2'&P2). rewrite E2 in E2'. apply app_inv_head in E2'. subst t2'.
      apply P2. now rewrite E.
    - exists t. split; [exact E|]. intros H. split; [discriminate|]. intros a Ha. discriminate.
    - exists t. split; [exact E|]. intros H. now destruct (proj1 (P H)).
  Qed.
  Lemma safe_deferred {A} (m : act A) (c : act unit) Q : safe m Q -> safe c (fun _ => True) -> safe (deferred m c) Q.
  Proof.
    intros Hm Hc w. unfold deferred. destruct (Hm w) as (t&E&P). destruct (m w) as [w1 r]; cbn [fst snd] in *.
    destruct (Hc w1) as (t2&E2&P2). destruct (c w1) as [w2 x]; cbn [fst snd] in *.
    exists (t ++ t2). rewrite E2, E, app_assoc. split; [reflexivity|].
    intros H. destruct (Gsplit _ _ _ H) as [B1 B2]. rewrite <- E in B2. destruct (P2 B2) as [N _]. destruct (P B1) as [N' K].
    destruct x; [auto|auto|now destruct N].
  Qed.
  Lemma safe_frame {A} (m : act A) (Q : A -> Prop) : (forall w, w_sent (fst (m w)) = w_sent w) ->
    (forall w, snd (m w) <> Panic /\ forall a, snd (m w) = Ok a -> Q a) -> safe m Q.
  Proof. intros E H w. exists []. rewrite app_nil_r. auto. Qed.
  Lemma safe_post {A} (m : act A) (Q R : A -> Prop) : (forall a, Q a -> R a) -> safe m Q -> safe m R.
  Proof. intros K H w. destruct (H w) as (t&E&P). exists t. split; [exact E|]. intros g. destruct (P g). auto. Qed.
  Lemma safe_lift {A} (o : outcome A) : o <> Panic -> safe (lift o) (fun a => o = Ok a).
  Proof. intros N. apply safe_frame; [reflexivity|]. intros w. cbn. auto. Qed.
  Lemma safe_ret {A} (a : A) : safe (ret a) (fun x => x = a).
  Proof. apply safe_frame; [reflexivity|]. intros w. cbn. split; [discriminate|]. intros b H. congruence. Qed.
  Lemma safe_modify f : safe (modify f) (fun _ => True).
  Proof. apply safe_frame; [reflexivity|]. intros w. cbn. split; [discriminate|]. trivial. Qed.
  Lemma safe_get : safe get (fun _ => True).
  Proof. apply safe_frame; [reflexivity|]. intros w. cbn. split; [discriminate|]. trivial. Qed.

  Lemma good_one h e : G h [e] -> good_answer h e.
  Proof. intros H. apply Ggood in H. specialize (H [] e [] eq_refl). now rewrite app_nil_r in H. Qed.
  Lemma good_read h (e : entry J) : good_answer h e ->
    (do raw <- bank (h ++ [e]); read_response others raw) <> Panic /\
    forall m, (do raw <- bank (h ++ [e]); read_response others raw) = Ok m -> complete m /\ (is_init (kind_of e) -> news_complete m).
  Proof.
    intros [H1 H2]. destruct (bank (h ++ [e])) as [raw| |]; cbn.
    - destruct (H2 raw eq_refl) as [H3 H4]. auto.
    - split; [discriminate|]. discriminate.
    - now destruct H1.
  Qed.
  Lemma safe_exchange k : safe (exchange k) (fun m => complete m /\ ((forall d, is_init (k d)) -> news_complete m)).
  Proof.
    intros w. destruct (exchange_cases sign_ok compose bank others k w) as [[_ [N H]]|(bs&_&H)].
    - exists []. rewrite H, app_nil_r. split; [reflexivity|]. intros _.
      split; [|intros a Ha; destruct N; now exists a].
      unfold Dialog_Model.exchange, bind, new_basic_message, sign_message, with_envelope, request_bank, get, ret, modify, bind. cbn.
      destruct (sign_ok (w_sent w) _) as [[]| |] eqn:Es; cbn; [|discriminate|now destruct (Hsign _ _ Es)].
      destruct (compose (w_sent w) _) as [bs| |] eqn:Ec; cbn; [|discriminate|now destruct (Hcomp _ _ Ec)].
      exfalso. apply (f_equal w_sent) in H.
      unfold Dialog_Model.exchange, bind, new_basic_message, sign_message, with_envelope, request_bank, get, ret, modify, bind in H. cbn in H.
      rewrite Es in H. cbn in H. rewrite Ec in H. cbn in H. symmetry in H. rewrite <- app_nil_r in H at 1. apply app_inv_head in H. discriminate H.
    - exists [(req k (w_d w), bs)]. rewrite H. split; [reflexivity|]. intros g. apply good_one in g. cbn [snd]. destruct (good_read _ _ g) as [g1 g2]. split; [exact g1|]. intros m Hm. destruct (g2 m Hm) as [g3 g4]. first [exact g3|split; [exact g3|intros Hk; apply g4, Hk]].
  Qed.
  Lemma safe_exchange_plain k : safe (exchange_plain k) (fun m => complete m /\ ((forall d, is_init (k d)) -> news_complete m)).
  Proof.
    intros w. destruct (exchange_plain_cases sign_ok compose bank others k w) as [[_ [N H]]|(bs&_&H)].
    - exists []. rewrite H, app_nil_r. split; [reflexivity|]. intros _.
      split; [|intros a Ha; destruct N; now exists a].
      unfold Dialog_Model.exchange_plain, bind, new_basic_message, request_bank, get, ret, modify, bind. cbn.
      destruct (compose (w_sent w) _) as [bs| |] eqn:Ec; cbn; [|discriminate|now destruct (Hcomp _ _ Ec)].
      exfalso. apply (f_equal w_sent) in H.
      unfold Dialog_Model.exchange_plain, bind, new_basic_message, request_bank, get, ret, modify, bind in H. cbn in H.
      rewrite Ec in H. cbn in H. symmetry in H. rewrite <- app_nil_r in H at 1. apply app_inv_head in H. discriminate H.
    - exists [(req_plain k (w_d w), bs)]. rewrite H. split; [reflexivity|]. intros g. apply good_one in g. cbn [snd]. destruct (good_read _ _ g) as [g1 g2]. split; [exact g1|]. intros m Hm. destruct (g2 m Hm) as [g3 g4]. first [exact g3|split; [exact g3|intros Hk; apply g4, Hk]].
  Qed.
  Lemma safe_sync_exchange : safe (sync_exchange sign_ok compose bank others) complete.
  Proof.
    intros w. destruct (sync_exchange_cases sign_ok compose bank others w) as [[_ [N (d&H&_)]]|(bs&_&H)].
    - exists []. rewrite H, app_nil_r. split; [reflexivity|]. intros _.
      split; [|intros a Ha; destruct N; now exists a].
      unfold sync_exchange, bind, new_basic_message, sign_message, with_envelope, request_bank, get, ret, modify, bind. cbn.
      destruct (sign_ok (w_sent w) _) as [[]| |] eqn:Es; cbn; [|discriminate|now destruct (Hsign _ _ Es)].
      destruct (compose (w_sent w) _) as [bs| |] eqn:Ec; cbn; [|discriminate|now destruct (Hcomp _ _ Ec)].
      exfalso. apply (f_equal w_sent) in H.
      unfold sync_exchange, bind, new_basic_message, sign_message, with_envelope, request_bank, get, ret, modify, bind in H. cbn in H.
      rewrite Es in H. cbn in H. rewrite Ec in H. cbn in H. symmetry in H. rewrite <- app_nil_r in H at 1. apply app_inv_head in H. discriminate H.
    - exists [(sync_request (w_d w), bs)]. rewrite H. split; [reflexivity|]. intros g. apply good_one in g. cbn [snd]. destruct (good_read _ _ g) as [g1 g2]. split; [exact g1|]. intros m Hm. destruct (g2 m Hm) as [g3 g4]. first [exact g3|split; [exact g3|intros Hk; apply g4, Hk]].
  Qed.
  Lemma safe_fail (m : reply) : safe (fail_on_error_acks m) (fun _ => True).
  Proof. unfold fail_on_error_acks. eapply safe_post; [|apply safe_lift]; [auto|]. now destruct (existsb _ _). Qed.
  Lemma first_filled (m : reply) id s : complete m -> find_seg m id = Some s -> filled id s.
  Proof.
    intros [_ H] E. rewrite find_seg_eq in E. destruct (segs m id) as [|x r] eqn:Es; [discriminate|].
    assert (x = s) by congruence. subst. apply H. rewrite Es. now left.
  Qed.
  Lemma safe_take m : complete m -> safe (take_dialog_id m) (fun _ => True).
  Proof. intros [[i Hi] _]. unfold take_dialog_id. unfold assigns in Hi. rewrite Hi. apply safe_modify. Qed.
  Lemma safe_update m : complete m -> safe (update_security_function pick m) (fun _ => True).
  Proof.
    intros H. unfold update_security_function. destruct (find_seg m (B "HITANS")) as [s|] eqn:E.
    2:{ eapply safe_post; [|apply safe_ret]; auto. }
    destruct (first_filled _ _ _ H E) as (_&K&_). destruct (K eq_refl) as (x&->&N).
    destruct (existsb _ _); [|eapply safe_post; [|apply safe_ret]; auto].
    eapply safe_bind with (Q := fun _ => True).
    - eapply safe_post; [|apply safe_lift]; [auto|]. unfold candidates. destruct (find _ _); [|discriminate].
      destruct (ack_params a) as [|p ps]; [discriminate|]. destruct x as [fs| |]; [|discriminate|congruence].
      cbv beta iota delta [obind]. destruct (filter (fun f : bytes => existsb (bytes_eqb f) fs) (p :: ps)); discriminate.
    - intros cs. apply sound_frame. intros w. destruct (bytes_eqb _ _); reflexivity.
    - intros cs _. apply safe_frame; intros w; destruct (bytes_eqb _ _); try reflexivity; (split; [intros X; discriminate X|trivial]).
  Qed.
  Lemma safe_bpd (m : reply) : complete m -> safe (parse_bpd (J:=J) m) (fun _ => True).
  Proof.
    intros H. unfold parse_bpd. destruct (find_seg m (B "HIBPA")) as [s|] eqn:E.
    2:{ eapply safe_post; [|apply safe_ret]; auto. }
    destruct (first_filled _ _ _ H E) as (_&_&K&_). destruct (K eq_refl) as (x&->&N).
    assert (Hp : match find_seg m (B "HIPINS") with None => True | Some (OPins t) => t <> Panic | Some _ => False end).
    { destruct (find_seg m (B "HIPINS")) as [s|] eqn:E2; [|trivial].
      destruct (first_filled _ _ _ H E2) as (_&_&_&K2&_). destruct (K2 eq_refl) as (y&->&N2). exact N2. }
    eapply safe_bind; [apply safe_modify| |].
    { intros _. apply sound_quiet. apply quiet_bind; [apply quiet_lift|]. intros v.
      apply quiet_bind; [intros w; cbn; auto|]. intros _.
      destruct (find_seg m (B "HIPINS")) as [[]|]; try apply quiet_lift; apply quiet_ret. }
    intros _ _. eapply safe_bind; [apply safe_lift, N| |].
    { intros v. apply sound_quiet. apply quiet_bind; [intros w; cbn; auto|]. intros _.
      destruct (find_seg m (B "HIPINS")) as [[]|]; try apply quiet_lift; apply quiet_ret. }
    intros v _. eapply safe_bind; [apply safe_modify| |].
    { intros _. apply sound_quiet. destruct (find_seg m (B "HIPINS")) as [[]|]; try apply quiet_lift; apply quiet_ret. }
    intros _ _. destruct (find_seg m (B "HIPINS")) as [[]|]; try now destruct Hp.
    - eapply safe_post; [|apply safe_lift, Hp]. auto.
    - eapply safe_post; [|apply safe_ret]; auto.
  Qed.
  Lemma safe_accounts (l : list (oseg Acc)) : (forall s, In s l -> exists x, s = OAccount x /\ x <> Panic) ->
    safe (add_accounts (J:=J) l) (fun _ => True).
  Proof.
    induction l as [|s l IH]; intros H.
    - eapply safe_post; [|apply (safe_ret tt)]; auto.
    - destruct (H s (or_introl eq_refl)) as (x&->&N). cbn [add_accounts]. eapply safe_bind; [apply safe_lift, N| |].
      { intros a. apply sound_quiet. apply quiet_bind; [intros w; cbn; auto|]. intros _. apply quiet_accounts. }
      intros a _. eapply safe_bind; [apply safe_modify| |]; [intros _; apply sound_quiet, quiet_accounts|].
      intros _ _. apply IH. intros t Ht. apply H. now right.
  Qed.
  Lemma safe_upd (m : reply) : complete m -> safe (parse_upd (J:=J) m) (fun _ => True).
  Proof.
    intros H. unfold parse_upd. eapply safe_bind with (Q := fun _ => True).
    - destruct (find_seg m (B "HIUPA")) as [s|] eqn:E; [|eapply safe_post; [|apply safe_ret]; auto].
      destruct (first_filled _ _ _ H E) as (_&_&_&_&K&_). destruct (K eq_refl) as (x&->&N).
      eapply safe_bind; [apply safe_lift, N| |]; [intros u; apply sound_frame; reflexivity|]. intros u _. apply safe_modify.
    - intros _. apply sound_quiet, quiet_accounts.
    - intros _ _. apply safe_accounts. intros s Hs. rewrite seg_eq in Hs. apply (proj2 H) in Hs.
      destruct Hs as (_&_&_&_&_&K). now apply K.
  Qed.
  Lemma safe_news (m : reply) : news_complete m -> safe (log_news (J:=J) m) (fun _ => True).
  Proof.
    intros H. unfold log_news. destruct (find_seg m (B "HIKIM")) as [s|] eqn:E; [|eapply safe_post; [|apply safe_ret]; auto].
    rewrite find_seg_eq in E. destruct (segs m (B "HIKIM")) as [|y r] eqn:Es; [discriminate|].
    assert (y = s) by congruence. subst y. destruct (H s r Es) as (x&->&N).
    eapply safe_post; [|apply safe_lift]; [auto|]. now destruct x.
  Qed.
  Lemma sound_process_1 (m : reply) : sound (bind (fail_on_error_acks m) (fun _ => update_security_function pick m)).
  Proof. apply sound_quiet, quiet_bind; [apply quiet_fail|]. intros _. apply quiet_update. Qed.
  Lemma sound_take (m : reply) : sound (take_dialog_id m).
  Proof. apply sound_frame. intros w. unfold take_dialog_id. destruct (mh_dialog _); reflexivity. Qed.
  Lemma quiet_hisyn (m : reply) : quiet ((match find_seg m (B "HISYN") with
            | None => lift Err
            | Some (OSync s) => bind (lift s) (fun s => set_client_system s)
            | Some _ => lift Panic
            end) : act unit).
  Proof.
    destruct (find_seg m _) as [[]|]; try apply quiet_lift. apply quiet_bind; [apply quiet_lift|]. intros s. apply quiet_setsys.
  Qed.
  Ltac still := intros _; repeat first [apply sound_quiet; first [apply quiet_fail|apply quiet_update|apply quiet_bpd|apply quiet_upd|apply quiet_news|apply quiet_hisyn]|apply sound_bind; [|intros _]].
  Lemma safe_process m : complete m -> news_complete m -> safe (process pick m) (fun _ => True).
  Proof.
    intros H Hn. unfold process.
    eapply safe_bind; [now apply safe_take|still|intros _ _].
    eapply safe_bind; [now apply safe_bpd|still|intros _ _].
    eapply safe_bind; [now apply safe_upd|still|intros _ _].
    eapply safe_bind; [now apply safe_news|still|intros _ _].
    eapply safe_bind; [now apply safe_fail|still|intros _ _].
    now apply safe_update.
  Qed.
  Lemma safe_process_anonymous (m : reply) : complete m -> news_complete m -> safe (process_anonymous (J:=J) m) (fun _ => True).
  Proof.
    intros H Hn. unfold process_anonymous.
    eapply safe_bind; [now apply safe_take|still|intros _ _].
    eapply safe_bind; [now apply safe_bpd|still|intros _ _].
    eapply safe_bind; [now apply safe_upd|still|intros _ _].
    eapply safe_bind; [now apply safe_news|still|intros _ _].
    now apply safe_fail.
  Qed.
  Lemma safe_process_sync m : complete m -> safe (process_sync pick m) (fun _ => True).
  Proof.
    intros H. unfold process_sync.
    eapply safe_bind; [now apply safe_take|still|intros _ _].
    eapply safe_bind; [now apply safe_fail|still|intros _ _].
    eapply safe_bind; [now apply safe_update|still|intros _ _].
    eapply safe_bind with (Q := fun _ => True); [|still|intros _ _].
    { destruct (find_seg m (B "HISYN")) as [s|] eqn:E.
      - destruct (first_filled _ _ _ H E) as (K&_). destruct (K eq_refl) as (x&->&N).
        eapply safe_bind; [apply safe_lift, N| |]; [intros u; apply sound_frame; reflexivity|]. intros u _. apply safe_modify.
      - eapply safe_post; [|apply safe_lift]; [auto|discriminate]. }
    eapply safe_bind; [now apply safe_bpd|still|intros _ _].
    now apply safe_upd.
  Qed.
  Lemma sound_process m : sound (process pick m).
  Proof. apply sound_frame. intros w. apply process_frame. Qed.
  Lemma sound_process_anonymous (m : reply) : sound (process_anonymous (J:=J) m).
  Proof. apply sound_frame. intros w. apply process_anonymous_frame. Qed.
  Lemma safe_ext {A} (m m' : act A) Q : (forall w, m w = m' w) -> safe m' Q -> safe m Q.
  Proof. intros E H w. rewrite E. apply H. Qed.
  Lemma safe_end : safe end_dialog (fun _ => True).
  Proof.
    unfold Dialog_Model.end_dialog. eapply safe_bind; [apply safe_exchange| |].
    - intros m. apply sound_quiet, quiet_fail.
    - intros m _. apply safe_fail.
  Qed.
  Lemma safe_anonymous_end : safe anonymous_end (fun _ => True).
  Proof.
    unfold Dialog_Model.anonymous_end. eapply safe_bind; [apply safe_exchange_plain| |].
    - intros m. apply sound_quiet, quiet_fail.
    - intros m _. apply safe_fail.
  Qed.
  Lemma safe_start : safe start_dialog (fun _ => True).
  Proof.
    intros w. rewrite Dialog_Proofs.start_eq.
    assert (K : safe (bind (exchange init_kind) (process pick)) (fun _ => True)).
    { eapply safe_bind; [apply safe_exchange|apply sound_process|]. intros m [Hm Hn]. apply safe_process; [exact Hm|]. apply Hn. intros d. unfold init_kind. now repeat eexists. }
    exact (K (mkW (reset (w_d w)) (w_sent w))).
  Qed.
  Lemma safe_anonymous_init : safe anonymous_init (fun _ => True).
  Proof.
    intros w.
    assert (K : safe (bind (exchange_plain anonymous_kind) process_anonymous) (fun _ => True)).
    { eapply safe_bind; [apply safe_exchange_plain|apply sound_process_anonymous|]. intros m [Hm Hn]. apply safe_process_anonymous; [exact Hm|]. apply Hn. intros d. unfold anonymous_kind. now repeat eexists. }
    exact (K (mkW (reset (w_d w)) (w_sent w))).
  Qed.
  Lemma safe_sync : safe sync_client_system (fun _ => True).
  Proof.
    eapply safe_ext; [apply sync_eq|]. eapply safe_bind; [apply safe_sync_exchange| |].
    - intros m. apply sound_bind; [apply sound_frame; intros w; apply process_sync_frame|]. intros _.
      apply sound_bind; [apply sound_end|]. intros _. apply sound_frame. reflexivity.
    - intros m Hm. eapply safe_bind; [apply safe_process_sync, Hm| |].
      + intros _. apply sound_bind; [apply sound_end|]. intros _. apply sound_frame. reflexivity.
      + intros _ _. eapply safe_bind; [apply safe_end| |].
        * intros _. apply sound_frame. reflexivity.
        * intros _ _. apply safe_frame; [reflexivity|]. intros w. cbn. split; [discriminate|trivial].
  Qed.
  Lemma sound_ensure : sound ensure_system.
  Proof.
    unfold Dialog_Model.ensure_system. apply sound_bind; [apply sound_frame; reflexivity|]. intros d.
    destruct (bytes_eqb _ _); [|apply sound_frame; reflexivity].
    apply sound_bind; [apply sound_sync|]. intros s. apply sound_frame. reflexivity.
  Qed.
  Lemma safe_init : safe init (fun _ => True).
  Proof.
    unfold Dialog_Model.init. eapply safe_bind with (Q := fun _ => True); [|intros _; apply sound_start|intros _ _; apply safe_start].
    unfold Dialog_Model.ensure_system. eapply safe_bind; [apply safe_get| |].
    - intros d. destruct (bytes_eqb _ _); [|apply sound_frame; reflexivity].
      apply sound_bind; [apply sound_sync|]. intros s. apply sound_frame. reflexivity.
    - intros d _. destruct (bytes_eqb _ _).
      + eapply safe_bind; [apply safe_sync| |]; [intros s; apply sound_frame; reflexivity|]. intros s _. apply safe_modify.
      + eapply safe_post; [|apply safe_ret]; auto.
  Qed.
  Lemma safe_job (x : act reply) : safe x complete -> safe (bind x (fun m => bind (fail_on_error_acks m) (fun _ => ret m))) complete.
  Proof.
    intros Hx. eapply safe_bind; [exact Hx| |].
    - intros m. apply sound_bind; [apply sound_quiet, quiet_fail|]. intros _. apply sound_frame. reflexivity.
    - intros m Hm. eapply safe_bind; [apply safe_fail| |]; [intros _; apply sound_frame; reflexivity|].
      intros _ _. eapply safe_post; [|apply safe_ret]. cbn. intros a ->. exact Hm.
  Qed.
  Lemma safe_send j : safe (send_message j) complete.
  Proof.
    unfold Dialog_Model.send_message. eapply safe_bind; [apply safe_init| |].
    - intros _. apply sound_deferred; [|apply sound_end].
      apply sound_bind; [apply sound_exchange; intros; apply job_not_init|]. intros m.
      apply sound_bind; [apply sound_quiet, quiet_fail|]. intros _. apply sound_frame. reflexivity.
    - intros _ _. apply safe_deferred; [|apply safe_end]. apply safe_job. eapply safe_post; [|apply safe_exchange]. cbv beta. tauto.
  Qed.
  Lemma safe_user : safe sync_user_data (fun _ => True).
  Proof.
    unfold Dialog_Model.sync_user_data. eapply safe_bind; [apply safe_init| |].
    - intros _. apply sound_deferred; [apply sound_frame; reflexivity|apply sound_end].
    - intros _ _. apply safe_deferred; [|apply safe_end]. eapply safe_post; [|apply safe_ret]; auto.
  Qed.
  Lemma safe_send_anonymous j : safe (send_anonymous j) complete.
  Proof.
    unfold Dialog_Model.send_anonymous. eapply safe_bind; [apply safe_anonymous_init| |].
    - intros _. apply sound_deferred; [|apply sound_anonymous_end].
      apply sound_bind; [apply sound_exchange_plain; intros; apply job_not_init|]. intros m.
      apply sound_bind; [apply sound_quiet, quiet_fail|]. intros _. apply sound_frame. reflexivity.
    - intros _ _. apply safe_deferred; [|apply safe_anonymous_end]. apply safe_job. eapply safe_post; [|apply safe_exchange_plain]. cbv beta. tauto.
  Qed.
  End Safe.
End Facts.
