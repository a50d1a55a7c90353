(** * Anonymous dialogs, and the record of arbitrary calls *)
From Coq Require Import Lia ZifyBool.
From Verif Require Import Base BaseFacts Lexer_Model Codec_Model Wire_Model Message_Model Dialog_Model Dialog_Spec Dialog_Proofs Dialog_Facts.
Open Scope Z_scope.

Section Facts2.
  Context {J Acc : Type}.
  Variable sign_ok : list (entry J) -> request J -> outcome unit.
  Variable compose : list (entry J) -> request J -> outcome bytes.
  Variable bank : list (entry J) -> outcome bytes.
  Variable others : bytes -> Z -> option (bytes -> outcome (oseg Acc)).
  Variable pick : list (entry J) -> nat.
  Notation reply := (bank_message (oseg Acc)).
  Notation world := (@world J Acc).
  Notation act := (@act J Acc).
  Notation exchange_plain := (exchange_plain compose bank others).
  Notation anonymous_end := (anonymous_end compose bank others).
  Notation anonymous_init := (anonymous_init compose bank others).
  Notation send_anonymous := (send_anonymous compose bank others).
  Notation answered := (answered bank others).
  Notation composable := (composable sign_ok compose).
  Notation composed := (composed sign_ok compose).

  Definition process_anonymous (m : reply) : act unit :=
    bind (take_dialog_id m) (fun _ => bind (parse_bpd m) (fun _ => bind (parse_upd m) (fun _ => bind (log_news m) (fun _ => fail_on_error_acks m)))).
  Lemma process_anonymous_ok (m : reply) (w : world) : is_ok (snd (process_anonymous m w)) <-> usable_anonymous m.
  Proof.
    unfold process_anonymous. rewrite !is_ok_seq. rewrite bpd_ok, upd_ok, news_ok, fail_ok. unfold usable_anonymous, params_readable, assigns, take_dialog_id.
    destruct (mh_dialog (bm_header m)) as [i|].
    - cbn. split.
      + intros [_ [H1 [[H2 H3] [Hn H4]]]]. split; [exists i; reflexivity|tauto].
      + intros [_ [[H1 [H2 H3]] [Hn H4]]]. split; [exists tt; reflexivity|tauto].
    - cbn. split; [intros [[? H] _]; discriminate|intros [[? H] _]; discriminate].
  Qed.
  Lemma process_anonymous_frame (m : reply) (w : world) :
    w_sent (fst (process_anonymous m w)) = w_sent w /\ d_count (w_d (fst (process_anonymous m w))) = d_count (w_d w) /\
    (forall i, assigns m i -> d_dialog (w_d (fst (process_anonymous m w))) = i).
  Proof.
    assert (Q : quiet (J:=J) (bind (parse_bpd m) (fun _ => bind (parse_upd m) (fun _ => bind (log_news m) (fun _ => fail_on_error_acks m))))).
    { apply quiet_bind; [apply quiet_bpd|intros _]. apply quiet_bind; [apply quiet_upd|intros _]. apply quiet_bind; [apply quiet_news|intros _]. apply quiet_fail. }
    unfold process_anonymous, take_dialog_id, assigns. destruct (mh_dialog (bm_header m)) as [i|].
    - unfold bind at 1. cbn [modify]. specialize (Q (mkW (upd_dialog i (w_d w)) (w_sent w))).
      destruct Q as [Q1 [Q2 Q3]]. cbn [w_sent w_d d_dialog d_count upd_dialog] in *.
      split; [exact Q1|]. split; [exact Q3|]. intros i' Hi. injection Hi as <-. exact Q2.
    - cbn. split; [reflexivity|]. split; [reflexivity|]. discriminate.
  Qed.
  Definition anonymous_kind (d : dstate Acc) : kind J := KInit (B "9999999999") (B "0") (d_bpd_version d) (upd_version (d_upd d)).
  Lemma anonymous_cases (w : world) :
    let q := req_plain anonymous_kind (reset (w_d w)) in
    (~ composable (w_sent w) q /\ ~ is_ok (snd (anonymous_init w)) /\ w_sent (fst (anonymous_init w)) = w_sent w) \/
    (exists bs, composed (w_sent w) q bs /\ w_sent (fst (anonymous_init w)) = w_sent w ++ [(q, bs)] /\
       (is_ok (snd (anonymous_init w)) <-> exists m, answered (w_sent w) (q, bs) m /\ usable_anonymous m) /\
       (forall m, answered (w_sent w) (q, bs) m -> usable_anonymous m ->
          assigns m (d_dialog (w_d (fst (anonymous_init w)))) /\ d_count (w_d (fst (anonymous_init w))) = 1)).
  Proof.
    cbv zeta.
    assert (S : anonymous_init w = bind (exchange_plain anonymous_kind) process_anonymous (mkW (reset (w_d w)) (w_sent w))) by reflexivity.
    rewrite S. clear S. set (w0 := mkW (reset (w_d w)) (w_sent w)).
    destruct (exchange_plain_cases sign_ok compose bank others anonymous_kind w0) as [[H1 [H2 H3]]|[bs [H1 H2]]].
    - left. split; [exact H1|]. unfold bind. destruct (exchange_plain anonymous_kind w0) as [w1 [r| |]]; cbn in *.
      + exfalso. apply H2. eexists; reflexivity.
      + split; [intros [? H]; discriminate|]. rewrite H3. reflexivity.
      + split; [intros [? H]; discriminate|]. rewrite H3. reflexivity.
    - right. exists bs. split; [exact H1|]. unfold bind. rewrite H2. cbn [w_sent w0].
      destruct (do raw <- bank _; read_response others raw) as [m| |] eqn:E.
      + apply answer_ok in E. cbn [w_sent w0] in E.
        set (w1 := mkW (counted (w_d w0)) _). destruct (process_anonymous_frame m w1) as [F1 [F2 F3]].
        split; [exact F1|]. split.
        * rewrite process_anonymous_ok. split; [intros K; exists m; auto|]. intros [m' [K1 K2]].
          rewrite (answered_fun _ _ _ _ _ _ E K1). exact K2.
        * intros m' K1 K2. rewrite (answered_fun _ _ _ _ _ _ E K1) in *. destruct K2 as [[i Ki] _].
          rewrite (F3 i Ki). split; [exact Ki|]. rewrite F2. reflexivity.
      + split; [reflexivity|]. split.
        * split; [intros [? K]; discriminate|]. intros [m' [K _]]. apply answer_ok in K. discriminate (eq_trans (eq_sym E) K).
        * intros m' K. apply answer_ok in K. discriminate (eq_trans (eq_sym E) K).
      + split; [reflexivity|]. split.
        * split; [intros [? K]; discriminate|]. intros [m' [K _]]. apply answer_ok in K. discriminate (eq_trans (eq_sym E) K).
        * intros m' K. apply answer_ok in K. discriminate (eq_trans (eq_sym E) K).
  Qed.

  Definition ended_plain (h : list (entry J)) (i : bytes) (n : Z) (ends : list (entry J)) : Prop :=
    let q := mkRq (KEnd i) i n None None in
    (ends = [] /\ ~ composable h q) \/ (exists be, ends = [(q, be)] /\ composed h q be).
  Lemma anonymous_ended (w : world) :
    exists ends, w_sent (fst (anonymous_end w)) = w_sent w ++ ends /\
      ended_plain (w_sent w) (d_dialog (w_d w)) (d_count (w_d w) + 1) ends.
  Proof.
    unfold Dialog_Model.anonymous_end, bind.
    destruct (exchange_plain_cases sign_ok compose bank others (fun d => KEnd (d_dialog d)) w) as [[G1 [G2 G3]]|[be [G1 G2]]].
    - exists []. destruct (exchange_plain _ w) as [w1 [x| |]]; cbn [fst snd] in *.
      + exfalso. apply G2. eexists; reflexivity.
      + rewrite G3, app_nil_r. split; [reflexivity|]. left. split; [reflexivity|exact G1].
      + rewrite G3, app_nil_r. split; [reflexivity|]. left. split; [reflexivity|exact G1].
    - rewrite G2. exists [(req_plain (fun d => KEnd (d_dialog d)) (w_d w), be)].
      split; [|right; exists be; split; [reflexivity|exact G1]].
      destruct (do raw <- bank _; read_response others raw) as [m| |]; reflexivity.
  Qed.

  Lemma anonymous_summary (j : J) (w : world) :
    let w' := fst (send_anonymous j w) in let r := snd (send_anonymous j w) in
    (~ is_ok r /\ w_sent w' = w_sent w) \/
    (exists i, is_init (kind_of i) /\ dialog_of i = B "0" /\ number_of i = 1 /\
      ((~ is_ok r /\ w_sent w' = w_sent w ++ [i] /\ ~ exists m, answered (w_sent w) i m /\ usable_anonymous m) \/
       (exists m D jobs ends,
         answered (w_sent w) i m /\ usable_anonymous m /\ assigns m D /\
         w_sent w' = w_sent w ++ [i] ++ jobs ++ ends /\
         ended_plain (w_sent w ++ [i] ++ jobs) D 3 ends /\
         let q := mkRq (KJob j) D 2 None None in
         ((jobs = [] /\ ~ composable (w_sent w ++ [i]) q /\ ~ is_ok r) \/
          (exists bs, jobs = [(q, bs)] /\ composed (w_sent w ++ [i]) q bs /\
             (forall x, r = Ok x -> answered (w_sent w ++ [i]) (q, bs) x /\ ~ has_error x) /\
             (forall x, answered (w_sent w ++ [i]) (q, bs) x -> ~ has_error x -> r = Ok x \/ r = Panic)))))).
  Proof.
    cbv zeta.
    assert (S : send_anonymous j w =
      match anonymous_init w with
      | (w1, Ok _) => deferred (bind (exchange_plain (fun _ => KJob j)) (fun m => bind (fail_on_error_acks m) (fun _ => ret m))) anonymous_end w1
      | (w1, Err) => (w1, Err)
      | (w1, Panic) => (w1, Panic)
      end) by reflexivity.
    rewrite S. clear S.
    destruct (anonymous_cases w) as [[H1 [H2 H3]]|[bi [H1 [H2 [H3 H4]]]]].
    - left. destruct (anonymous_init w) as [w1 [x| |]]; cbn [fst snd] in *.
      + exfalso. apply H2. eexists; reflexivity.
      + split; [intros [? K]; discriminate|exact H3].
      + split; [intros [? K]; discriminate|exact H3].
    - right. set (q0 := req_plain anonymous_kind (reset (w_d w))) in *. exists (q0, bi).
      split; [repeat eexists|]. split; [reflexivity|]. split; [reflexivity|].
      destruct (anonymous_init w) as [w1 r1]. cbn [fst snd] in *. destruct r1 as [[]| |].
      2:{ left. split; [intros [? K]; discriminate|]. split; [exact H2|]. intros K. apply H3 in K. destruct K; discriminate. }
      2:{ left. split; [intros [? K]; discriminate|]. split; [exact H2|]. intros K. apply H3 in K. destruct K; discriminate. }
      right. destruct (proj1 H3 (ex_intro _ tt eq_refl)) as [m [K1 K2]]. destruct (H4 m K1 K2) as [K3 K4].
      set (D := d_dialog (w_d w1)) in *. exists m, D.
      unfold deferred. unfold bind.
      destruct (exchange_plain_cases sign_ok compose bank others (fun _ => KJob j) w1) as [[G1 [G2 G3]]|[bs [G1 G2]]].
      + unfold req_plain in G1. rewrite K4, H2 in G1. change (1 + 1) with 2 in G1. fold D in G1.
        destruct (exchange_plain (fun _ => KJob j) w1) as [w2 r2]. cbn [fst snd] in *.
        destruct (anonymous_ended w2) as [ends [E1 E2]]. exists [], ends.
        assert (W : w_sent w2 = w_sent w ++ [(q0, bi)]) by (rewrite G3; exact H2).
        assert (C : d_count (w_d w2) = 2) by (rewrite G3; cbn; rewrite K4; reflexivity).
        assert (DD : d_dialog (w_d w2) = D) by (rewrite G3; reflexivity).
        rewrite W, C, DD in *.
        destruct r2 as [x| |]; [exfalso; apply G2; eexists; reflexivity| |];
          destruct (anonymous_end w2) as [w3 r3]; cbn [fst snd] in *;
          (split; [exact K1|]); (split; [exact K2|]); (split; [exact K3|]);
          (split; [rewrite E1, <- app_assoc; reflexivity|]);
          (split; [exact E2|]); left; (split; [reflexivity|]); (split; [exact G1|]);
          destruct r3; intros [? K]; discriminate.
      + rewrite G2. unfold req_plain in G1 |- *. rewrite K4 in G1 |- *. change (1 + 1) with 2 in G1 |- *. fold D in G1 |- *. clear G2.
        set (q := mkRq (KJob j) D 2 None None) in *.
        set (w2 := mkW (counted (w_d w1)) (w_sent w1 ++ [(q, bs)])).
        destruct (anonymous_ended w2) as [ends [E1 E2]]. exists [(q, bs)], ends.
        assert (C : d_count (w_d w2) + 1 = 3) by (cbn; rewrite K4; reflexivity).
        rewrite C in E2. change (d_dialog (w_d w2)) with D in E2. change (w_sent w2) with (w_sent w1 ++ [(q, bs)]) in E1, E2.
        rewrite H2 in *.
        assert (E2' : ended_plain (w_sent w ++ [(q0, bi)] ++ [(q, bs)]) D 3 ends) by (rewrite app_assoc; exact E2).
        assert (E1' : w_sent (fst (anonymous_end w2)) = w_sent w ++ [(q0, bi)] ++ [(q, bs)] ++ ends) by (rewrite E1, !app_assoc; reflexivity).
        destruct (do raw <- bank _; read_response others raw) as [mj| |] eqn:E.
        * apply answer_ok in E. unfold fail_on_error_acks, lift. destruct (existsb is_err (bm_acks mj)) eqn:Er.
          -- destruct (anonymous_end w2) as [w3 r3]. cbn [fst snd] in *.
             split; [exact K1|]. split; [exact K2|]. split; [exact K3|]. split; [exact E1'|]. split; [exact E2'|].
             right. exists bs. split; [reflexivity|]. split; [exact G1|]. split.
             ++ intros x Hx. destruct r3; discriminate.
             ++ intros x Hx Hn. exfalso. apply Hn. rewrite <- (answered_fun _ _ _ _ _ _ E Hx). apply has_error_spec. exact Er.
          -- unfold ret. destruct (anonymous_end w2) as [w3 r3]. cbn [fst snd] in *.
             split; [exact K1|]. split; [exact K2|]. split; [exact K3|]. split; [exact E1'|]. split; [exact E2'|].
             right. exists bs. split; [reflexivity|]. split; [exact G1|]. split.
             ++ intros x Hx. assert (x = mj) by (destruct r3; congruence). subst x. split; [exact E|].
                intros K. apply has_error_spec in K. congruence.
             ++ intros x Hx Hn. rewrite <- (answered_fun _ _ _ _ _ _ E Hx). destruct r3; auto.
        * destruct (anonymous_end w2) as [w3 r3]. cbn [fst snd] in *.
          split; [exact K1|]. split; [exact K2|]. split; [exact K3|]. split; [exact E1'|]. split; [exact E2'|].
          right. exists bs. split; [reflexivity|]. split; [exact G1|]. split.
          ++ intros x Hx. destruct r3; discriminate.
          ++ intros x Hx. apply answer_ok in Hx. discriminate (eq_trans (eq_sym E) Hx).
        * destruct (anonymous_end w2) as [w3 r3]. cbn [fst snd] in *.
          split; [exact K1|]. split; [exact K2|]. split; [exact K3|]. split; [exact E1'|]. split; [exact E2'|].
          right. exists bs. split; [reflexivity|]. split; [exact G1|]. split.
          ++ intros x Hx. destruct r3; discriminate.
          ++ intros x Hx. apply answer_ok in Hx. discriminate (eq_trans (eq_sym E) Hx).
  Qed.

  (** ** From the summaries to the record *)
  Notation one_dialog := (one_dialog sign_ok compose bank others).
  Notation one_sync := (one_sync bank others).
  Notation record := (record sign_ok compose bank others).
  Notation prelude := (prelude sign_ok compose bank others).

  Lemma sync_part_one (w : world) pre ok : sync_part sign_ok compose bank others w pre ok -> one_sync (w_sent w) pre.
  Proof.
    intros [[H _]|[[bs [H _]]|[bs [m [i [p [c [be H]]]]]]]].
    - left. exact H.
    - right. exists (sync_request (w_d w), bs), [], (d_client (w_d w)). split; [exact H|]. split; [reflexivity|]. left. reflexivity.
    - cbv zeta in H. destruct H as [H1 [H2 [H3 [H4 [H5 [H6 H7]]]]]]. right.
      eexists _, _, (d_client (w_d w)). split; [exact H1|]. split; [reflexivity|]. right.
      eexists _, m, i. split; [reflexivity|]. split; [exact H3|]. split; [apply H4|]. split; [exact H5|].
      split; [reflexivity|]. split; [reflexivity|]. unfold number_of. cbn. lia.
  Qed.
  Lemma prelude_one (w : world) pre ok : prelude w pre ok -> one_sync (w_sent w) pre /\ (d_system (w_d w) <> B "0" -> pre = []).
  Proof.
    intros [[H1 [H2 H3]]|[H1 H2]].
    - split; [left; exact H2|auto].
    - split; [exact (sync_part_one _ _ _ H2)|]. congruence.
  Qed.
  Lemma ended_plain_ended h i n ends : ended_plain h i n ends ->
    exists q, rq_kind q = KEnd i /\ rq_dialog q = i /\ rq_number q = n /\
     ((ends = [] /\ ~ composable h q) \/ (exists be, ends = [(q, be)] /\ composed h q be)).
  Proof. intros H. eexists. repeat (split; [|exact H] || split); reflexivity. Qed.
  Lemma ended_any h i n ends : ended sign_ok compose h i n ends ->
    exists q, rq_kind q = KEnd i /\ rq_dialog q = i /\ rq_number q = n /\
     ((ends = [] /\ ~ composable h q) \/ (exists be, ends = [(q, be)] /\ composed h q be)).
  Proof. intros [p [c H]]. eexists. repeat (split; [|exact H] || split); reflexivity. Qed.

  (** A dialog of initialisation, job and end. *)
  Lemma dialog_one h i m D jobs ends qj :
    is_init (kind_of i) -> dialog_of i = B "0" -> number_of i = 1 ->
    answered h i m -> assigns m D ->
    (exists q, rq_kind q = KEnd D /\ rq_dialog q = D /\ rq_number q = 3 /\
       ((ends = [] /\ ~ composable (h ++ [i] ++ jobs) q) \/ (exists be, ends = [(q, be)] /\ composed (h ++ [i] ++ jobs) q be))) ->
    is_job (rq_kind qj) -> rq_dialog qj = D -> rq_number qj = 2 ->
    ((jobs = [] /\ ~ composable (h ++ [i]) qj) \/ exists bs, jobs = [(qj, bs)]) ->
    one_dialog h (i :: jobs ++ ends).
  Proof.
    intros I1 I2 I3 A1 A2 [q [Q1 [Q2 [Q3 Q4]]]] [j J1] J2 J3 Hj. right. exists i, (jobs ++ ends).
    split; [reflexivity|]. split; [exact I1|]. split; [exact I2|].
    assert (NJ : ~ is_init (rq_kind qj)) by (intros [? [? [? [? K]]]]; congruence).
    assert (NE : ~ is_init (rq_kind q)) by (intros [? [? [? [? K]]]]; congruence).
    destruct Hj as [[-> Hj]|[bs ->]]; destruct Q4 as [[-> Q4]|[be [-> Q4]]]; cbn [app].
    - split; [constructor|]. split; [intros K; exfalso; apply K; reflexivity|]. left. unfold consecutive. cbn. rewrite I3. reflexivity.
    - split; [constructor; [exact NE|constructor]|]. split.
      + intros _. exists m, D. split; [exact A1|]. split; [exact A2|]. constructor; [exact Q2|constructor].
      + right. split; [cbn; rewrite I3; unfold number_of; cbn; rewrite Q3; reflexivity|].
        exists qj. split; [exists j; exact J1|]. split; [exact J3|exact Hj].
    - split; [constructor; [exact NJ|constructor]|]. split.
      + intros _. exists m, D. split; [exact A1|]. split; [exact A2|]. constructor; [exact J2|constructor].
      + left. unfold consecutive. cbn. rewrite I3. unfold number_of. cbn. rewrite J3. reflexivity.
    - split; [constructor; [exact NJ|constructor; [exact NE|constructor]]|]. split.
      + intros _. exists m, D. split; [exact A1|]. split; [exact A2|]. constructor; [exact J2|constructor; [exact Q2|constructor]].
      + left. unfold consecutive. cbn. rewrite I3. unfold number_of. cbn. rewrite J3, Q3. reflexivity.
  Qed.
  Lemma init_one h i : is_init (kind_of i) -> dialog_of i = B "0" -> number_of i = 1 -> one_dialog h [i].
  Proof.
    intros H1 H2 H3. right. exists i, []. split; [reflexivity|]. split; [exact H1|]. split; [exact H2|].
    split; [constructor|]. split; [intros K; exfalso; apply K; reflexivity|]. left. unfold consecutive. cbn. rewrite H3. reflexivity.
  Qed.

  Definition two_parts (w w' : world) : Prop :=
    exists pre dlg, w_sent w' = w_sent w ++ pre ++ dlg /\ one_sync (w_sent w) pre /\
      (d_system (w_d w) <> B "0" -> pre = []) /\ one_dialog (w_sent w ++ pre) dlg.
  Lemma send_two_parts j (w : world) : two_parts w (fst (send_message sign_ok compose bank others pick j w)).
  Proof.
    unfold two_parts. destruct (send_summary sign_ok compose bank others pick j w) as [[H1 [H2|H2]]|H2].
    - destruct H2 as [pre [H2 H3]]. exists pre, []. rewrite app_nil_r. split; [exact H2|].
      assert (P : exists ok, prelude w pre ok) by (destruct H3 as [H3|[q [_ [_ H3]]]]; eauto). destruct P as [ok P].
      destruct (prelude_one _ _ _ P) as [P1 P2]. split; [exact P1|]. split; [exact P2|]. left. reflexivity.
    - destruct H2 as [pre [i [H2 [H3 [H4 [H5 [H6 _]]]]]]]. exists pre, [i]. split; [exact H3|].
      destruct (prelude_one _ _ _ H2) as [P1 P2]. split; [exact P1|]. split; [exact P2|]. apply init_one; assumption.
    - destruct H2 as [h [D [p [c [jobs [ends [H2 [H3 [H4 H5]]]]]]]]].
      destruct H2 as [pre [i [m [I0 [I1 [I2 [I3 [I4 [I5 [I6 I7]]]]]]]]]]. subst h.
      exists pre, (i :: jobs ++ ends). split; [rewrite H3, <- !app_assoc; reflexivity|].
      destruct (prelude_one _ _ _ I0) as [P1 P2]. split; [exact P1|]. split; [exact P2|].
      apply ended_any in H4. rewrite !app_assoc in H4. rewrite <- (app_assoc _ _ jobs) in H4.
      apply dialog_one with (m := m) (D := D) (qj := mkRq (KJob j) D 2 (Some p) (Some c)); try assumption; try reflexivity; [eexists; reflexivity|].
      rewrite app_assoc in H5. destruct H5 as [[H5 [H6 _]]|[bs [H5 _]]]; [left; auto|right; eauto].
  Qed.
  Lemma sync_user_two_parts (w : world) : two_parts w (fst (sync_user_data sign_ok compose bank others pick w)).
  Proof.
    unfold two_parts. destruct (sync_user_summary sign_ok compose bank others pick w) as [[H1 [H2|H2]]|H2].
    - destruct H2 as [pre [H2 H3]]. exists pre, []. rewrite app_nil_r. split; [exact H2|].
      assert (P : exists ok, prelude w pre ok) by (destruct H3 as [H3|[q [_ [_ H3]]]]; eauto). destruct P as [ok P].
      destruct (prelude_one _ _ _ P) as [P1 P2]. split; [exact P1|]. split; [exact P2|]. left. reflexivity.
    - destruct H2 as [pre [i [H2 [H3 [H4 [H5 [H6 _]]]]]]]. exists pre, [i]. split; [exact H3|].
      destruct (prelude_one _ _ _ H2) as [P1 P2]. split; [exact P1|]. split; [exact P2|]. apply init_one; assumption.
    - destruct H2 as [h [D [ends [H2 [H3 [H4 H5]]]]]].
      destruct H2 as [pre [i [m [I0 [I1 [I2 [I3 [I4 [I5 [I6 I7]]]]]]]]]]. subst h.
      exists pre, (i :: ends). split; [rewrite H3, <- !app_assoc; reflexivity|].
      destruct (prelude_one _ _ _ I0) as [P1 P2]. split; [exact P1|]. split; [exact P2|].
      apply ended_any in H4. destruct H4 as [q [Q1 [Q2 [Q3 Q4]]]].
      right. exists i, ends. split; [reflexivity|]. split; [assumption|]. split; [assumption|].
      destruct Q4 as [[-> Q4]|[be [-> Q4]]].
      + split; [constructor|]. split; [intros K; exfalso; apply K; reflexivity|]. left. unfold consecutive. cbn. rewrite I4. reflexivity.
      + split; [constructor; [|constructor]; intros [? [? [? [? K]]]]; unfold kind_of in K; cbn in K; congruence|].
        split; [|left; unfold consecutive; cbn; rewrite I4; unfold number_of; cbn; rewrite Q3; reflexivity].
        intros _. exists m, D. split; [assumption|]. split; [assumption|]. constructor; [exact Q2|constructor].
  Qed.
  Lemma anonymous_dialog j (w : world) :
    exists dlg, w_sent (fst (send_anonymous j w)) = w_sent w ++ dlg /\ one_dialog (w_sent w) dlg.
  Proof.
    destruct (anonymous_summary j w) as [[H1 H2]|[i [I1 [I2 [I3 [[H1 [H2 H3]]|H]]]]]].
    - exists []. rewrite app_nil_r. split; [exact H2|]. left. reflexivity.
    - exists [i]. split; [exact H2|]. apply init_one; assumption.
    - destruct H as [m [D [jobs [ends [A1 [A2 [A3 [A4 [A5 A6]]]]]]]]]. exists (i :: jobs ++ ends). split; [exact A4|].
      apply ended_plain_ended in A5.
      apply dialog_one with (m := m) (D := D) (qj := mkRq (KJob j) D 2 None None); try assumption; try reflexivity; [eexists; reflexivity|].
      destruct A6 as [[H5 [H6 _]]|[bs [H5 _]]]; [left; auto|right; eauto].
  Qed.
  Lemma record_app h l1 l2 : record h l1 -> record (h ++ l1) l2 -> record h (l1 ++ l2).
  Proof.
    intros H1 H2. induction H2 as [|l dlg H2 IH H3|l s H2 IH H3].
    - rewrite app_nil_r. exact H1.
    - rewrite app_assoc. apply record_dialog; [exact IH|]. rewrite app_assoc. exact H3.
    - rewrite app_assoc. apply record_sync; [exact IH|]. rewrite app_assoc. exact H3.
  Qed.
  Lemma two_parts_record (w w' : world) : two_parts w w' -> exists l, w_sent w' = w_sent w ++ l /\ record (w_sent w) l.
  Proof.
    intros [pre [dlg [H1 [H2 [_ H3]]]]]. exists (pre ++ dlg). split; [exact H1|].
    apply record_dialog; [|exact H3]. change pre with ([] ++ pre). apply record_sync; [constructor|]. rewrite app_nil_r. exact H2.
  Qed.
  Lemma call_record c (w : world) :
    exists l, w_sent (run_call sign_ok compose bank others pick c w) = w_sent w ++ l /\ record (w_sent w) l.
  Proof.
    destruct c as [j| | |j|p|s|f]; cbn [run_call].
    - apply two_parts_record, send_two_parts.
    - apply two_parts_record, sync_user_two_parts.
    - destruct (sync_cases sign_ok compose bank others pick w) as [pre [H1 [H2 _]]]. exists pre. split; [exact H1|].
      change pre with ([] ++ pre). apply record_sync; [constructor|]. rewrite app_nil_r. exact (sync_part_one _ _ _ H2).
    - destruct (anonymous_dialog j w) as [dlg [H1 H2]]. exists dlg. split; [exact H1|].
      change dlg with ([] ++ dlg). apply record_dialog; [constructor|]. rewrite app_nil_r. exact H2.
    - exists []. cbn. rewrite app_nil_r. split; [reflexivity|constructor].
    - exists []. cbn. rewrite app_nil_r. split; [reflexivity|constructor].
    - exists []. cbn. rewrite app_nil_r. split; [reflexivity|constructor].
  Qed.
  Lemma calls_record cs : forall w : world,
    exists l, w_sent (run_calls sign_ok compose bank others pick cs w) = w_sent w ++ l /\ record (w_sent w) l.
  Proof.
    induction cs as [|c r IH]; intros w; cbn [run_calls].
    - exists []. rewrite app_nil_r. split; [reflexivity|constructor].
    - destruct (call_record c w) as [l1 [H1 H2]]. destruct (IH (run_call sign_ok compose bank others pick c w)) as [l2 [H3 H4]].
      exists (l1 ++ l2). rewrite H3, H1, <- app_assoc. split; [reflexivity|]. rewrite H1 in H4. apply record_app; assumption.
  Qed.
End Facts2.
