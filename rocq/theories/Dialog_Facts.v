(** * The course of SendMessage *)
From Coq Require Import Lia ZifyBool.
From Verif Require Import Base BaseFacts Lexer_Model Codec_Model Wire_Model Message_Model Dialog_Model Dialog_Spec Dialog_Proofs.
Open Scope Z_scope.

Section Facts.
  Context {J Acc : Type}.
  Variable sign_ok : list (entry J) -> request J -> outcome unit.
  Variable compose : list (entry J) -> request J -> outcome bytes.
  Variable bank : list (entry J) -> outcome bytes.
  Variable others : bytes -> Z -> option (bytes -> outcome (oseg Acc)).
  Variable pick : list (entry J) -> nat.
  Notation reply := (bank_message (oseg Acc)).
  Notation world := (@world J Acc).
  Notation act := (@act J Acc).
  Notation exchange := (exchange sign_ok compose bank others).
  Notation end_dialog := (end_dialog sign_ok compose bank others).
  Notation ensure_system := (ensure_system sign_ok compose bank others pick).
  Notation start_dialog := (start_dialog sign_ok compose bank others pick).
  Notation init := (init sign_ok compose bank others pick).
  Notation send_message := (send_message sign_ok compose bank others pick).
  Notation sync_user_data := (sync_user_data sign_ok compose bank others pick).
  Notation answered := (answered bank others).
  Notation composable := (composable sign_ok compose).
  Notation composed := (composed sign_ok compose).
  Notation sync_part := (sync_part sign_ok compose bank others).

  (** The part before the dialog proper: nothing, or a synchronisation. *)
  Definition prelude (w : world) (pre : list (entry J)) (ok : Prop) : Prop :=
    (d_system (w_d w) <> B "0" /\ pre = [] /\ ok) \/ (d_system (w_d w) = B "0" /\ sync_part w pre ok).

  Lemma ensure_cases (w : world) :
    exists pre, w_sent (fst (ensure_system w)) = w_sent w ++ pre /\ prelude w pre (is_ok (snd (ensure_system w))).
  Proof.
    unfold Dialog_Model.ensure_system, bind, get. unfold prelude.
    destruct (bytes_eqb_spec (d_system (w_d w)) (B "0")) as [E|E].
    - destruct (sync_cases sign_ok compose bank others pick w) as [pre [H1 [H2 H3]]]. exists pre.
      unfold bind. destruct (sync_client_system sign_ok compose bank others pick w) as [w1 [s| |]]; cbn [fst snd] in *.
      + split; [exact H1|]. right. split; [exact E|].
        assert (X : is_ok (Ok s) <-> is_ok (snd (modify (upd_system s) w1))).
        { cbn. split; intros _; eexists; reflexivity. }
        revert H2. unfold Dialog_Proofs.sync_part. cbv zeta. intros [H|[H|H]].
        * left. tauto.
        * right; left. destruct H as [bs H]. exists bs. tauto.
        * right; right. destruct H as [bs [m [i [p [c [be H]]]]]]. exists bs, m, i, p, c, be. rewrite <- X. exact H.
      + split; [exact H1|]. right. split; [exact E|].
        revert H2. unfold Dialog_Proofs.sync_part. cbv zeta. intros [H|[H|H]].
        * left. split; [tauto|]. split; [tauto|]. intros [? K]; discriminate.
        * right; left. destruct H as [bs [A [C [_ D]]]]. exists bs. split; [exact A|]. split; [exact C|]. split; [intros [? K]; discriminate|exact D].
        * right; right. destruct H as [bs [m [i [p [c [be H]]]]]]. exists bs, m, i, p, c, be.
          destruct H as [A1 [A2 [A3 [A4 [A5 [A6 A7]]]]]]. repeat (split; [assumption|]). rewrite <- A7.
          split; intros [? K]; discriminate.
      + split; [exact H1|]. right. split; [exact E|].
        revert H2. unfold Dialog_Proofs.sync_part. cbv zeta. intros [H|[H|H]].
        * left. split; [tauto|]. split; [tauto|]. intros [? K]; discriminate.
        * right; left. destruct H as [bs [A [C [_ D]]]]. exists bs. split; [exact A|]. split; [exact C|]. split; [intros [? K]; discriminate|exact D].
        * right; right. destruct H as [bs [m [i [p [c [be H]]]]]]. exists bs, m, i, p, c, be.
          destruct H as [A1 [A2 [A3 [A4 [A5 [A6 A7]]]]]]. repeat (split; [assumption|]). rewrite <- A7.
          split; intros [? K]; discriminate.
    - exists []. cbn. rewrite app_nil_r. split; [reflexivity|]. left. split; [exact E|]. split; [reflexivity|]. exists tt. reflexivity.
  Qed.

  (** The end of the dialog, which runs after [h] whatever happened. *)
  Definition ended (h : list (entry J)) (i : bytes) (n : Z) (ends : list (entry J)) : Prop :=
    exists p c, let q := mkRq (KEnd i) i n (Some p) (Some c) in
      (ends = [] /\ ~ composable h q) \/ (exists be, ends = [(q, be)] /\ composed h q be).

  Lemma end_ended (w : world) :
    exists ends, w_sent (fst (end_dialog w)) = w_sent w ++ ends /\
      ended (w_sent w) (d_dialog (w_d w)) (d_count (w_d w) + 1) ends.
  Proof.
    destruct (end_cases sign_ok compose bank others w) as [[G1 [G2 G3]]|[be [G1 [G2 G3]]]].
    - exists []. rewrite G3, app_nil_r. split; [reflexivity|].
      exists (d_sig (w_d w)), (d_crypt (w_d w)). left. split; [reflexivity|exact G1].
    - eexists. rewrite G2. split; [reflexivity|].
      exists (d_sig (w_d w)), (d_crypt (w_d w)). right. exists be. split; [reflexivity|exact G1].
  Qed.

  (** init: the prelude, then at most the initialisation message. *)
  Lemma init_cases (w : world) :
    exists pre, 
      (w_sent (fst (init w)) = w_sent w ++ pre /\ ~ is_ok (snd (init w)) /\
        (prelude w pre False \/ exists q, is_init (rq_kind q) /\ ~ composable (w_sent w ++ pre) q /\ prelude w pre True)) \/
      (prelude w pre True /\ exists c s b u p y bs,
        let q := mkRq (KInit c s b u) (B "0") 1 (Some p) (Some y) in
        composed (w_sent w ++ pre) q bs /\
        w_sent (fst (init w)) = w_sent w ++ pre ++ [(q, bs)] /\
        (is_ok (snd (init w)) <-> exists m, answered (w_sent w ++ pre) (q, bs) m /\ usable m) /\
        (forall m, answered (w_sent w ++ pre) (q, bs) m -> usable m ->
          assigns m (d_dialog (w_d (fst (init w)))) /\ d_count (w_d (fst (init w))) = 1)).
  Proof.
    destruct (ensure_cases w) as [pre [H1 H2]]. exists pre.
    unfold Dialog_Model.init. unfold bind. destruct (ensure_system w) as [w1 r1]. cbn [fst snd] in *.
    assert (X : forall P Q : Prop, (P <-> Q) -> prelude w pre P -> prelude w pre Q).
    { intros P Q PQ. unfold prelude, Dialog_Proofs.sync_part. cbv zeta. intros [K|[K0 K]]; [left; tauto|right; split; [exact K0|]].
      destruct K as [K|[K|K]]; [left; tauto| |].
      - right; left. destruct K as [bs K]. exists bs. tauto.
      - right; right. destruct K as [bs [m [i [p [c [be K]]]]]]. exists bs, m, i, p, c, be. tauto. }
    destruct r1 as [[]| |].
    2:{ left. split; [exact H1|]. split; [intros [? K]; discriminate|]. left. revert H2. apply X. split; [intros [? K]; discriminate|tauto]. }
    2:{ left. split; [exact H1|]. split; [intros [? K]; discriminate|]. left. revert H2. apply X. split; [intros [? K]; discriminate|tauto]. }
    assert (H2' : prelude w pre True). { revert H2. apply X. split; [tauto|intros _; eexists; reflexivity]. }
    destruct (start_cases sign_ok compose bank others pick w1) as [[G1 [G2 G3]]|[bs [G1 [G2 [G3 G4]]]]].
    - left. rewrite G3. split; [exact H1|]. split; [exact G2|]. right.
      exists (init_request (w_d w1)). split; [repeat eexists|]. rewrite <- H1. split; [exact G1|exact H2'].
    - right. split; [exact H2'|].
      exists (d_client (w_d w1)), (d_system (w_d w1)), (d_bpd_version (w_d w1)), (upd_version (d_upd (w_d w1))), (d_sig (w_d w1)), (d_crypt (w_d w1)), bs.
      cbv zeta. rewrite <- H1. split; [exact G1|]. split.
      { rewrite G2, H1, <- app_assoc. reflexivity. }
      split; [exact G3|exact G4].
  Qed.

  Definition not_initialised (w : world) (sent : list (entry J)) : Prop :=
    exists pre, sent = w_sent w ++ pre /\
      (prelude w pre False \/ exists q, is_init (rq_kind q) /\ ~ composable (w_sent w ++ pre) q /\ prelude w pre True).
  Definition refused (w : world) (sent : list (entry J)) : Prop :=
    exists pre i, prelude w pre True /\ sent = w_sent w ++ pre ++ [i] /\ is_init (kind_of i) /\
      dialog_of i = B "0" /\ number_of i = 1 /\
      ~ exists m, answered (w_sent w ++ pre) i m /\ usable m.
  Definition initialised (w : world) (h : list (entry J)) (D : bytes) : Prop :=
    exists pre i m, prelude w pre True /\ h = w_sent w ++ pre ++ [i] /\ is_init (kind_of i) /\
      dialog_of i = B "0" /\ number_of i = 1 /\
      answered (w_sent w ++ pre) i m /\ usable m /\ assigns m D.

  Lemma init_summary (w : world) :
    (~ is_ok (snd (init w)) /\ (not_initialised w (w_sent (fst (init w))) \/ refused w (w_sent (fst (init w))))) \/
    (snd (init w) = Ok tt /\ initialised w (w_sent (fst (init w))) (d_dialog (w_d (fst (init w)))) /\
     d_count (w_d (fst (init w))) = 1).
  Proof.
    destruct (init_cases w) as [pre [[H1 [H2 H3]]|[H1 [c [s [b [u [p [y [bs [H2 [H3 [H4 H5]]]]]]]]]]]]].
    - left. split; [exact H2|]. left. exists pre. auto.
    - set (q := mkRq (KInit c s b u) (B "0") 1 (Some p) (Some y)) in *.
      destruct (init w) as [w1 r]. cbn [fst snd] in *. destruct r as [[]| |].
      + right. split; [reflexivity|]. destruct (proj1 H4 (ex_intro _ tt eq_refl)) as [m [K1 K2]].
        destruct (H5 m K1 K2) as [K3 K4]. split; [|exact K4].
        exists pre, (q, bs), m. repeat (split; [solve [assumption|reflexivity|repeat eexists]|]). assumption.
      + left. split; [intros [? K]; discriminate|]. right. exists pre, (q, bs).
        repeat (split; [solve [assumption|reflexivity|repeat eexists]|]).
        intros K. apply H4 in K. destruct K; discriminate.
      + left. split; [intros [? K]; discriminate|]. right. exists pre, (q, bs).
        repeat (split; [solve [assumption|reflexivity|repeat eexists]|]).
        intros K. apply H4 in K. destruct K; discriminate.
  Qed.

  Lemma send_summary (j : J) (w : world) :
    let w' := fst (send_message j w) in let r := snd (send_message j w) in
    (~ is_ok r /\ (not_initialised w (w_sent w') \/ refused w (w_sent w'))) \/
    (exists h D p c jobs ends,
       initialised w h D /\ w_sent w' = h ++ jobs ++ ends /\
       let q := mkRq (KJob j) D 2 (Some p) (Some c) in
       ended (h ++ jobs) D 3 ends /\
       ((jobs = [] /\ ~ composable h q /\ ~ is_ok r) \/
        (exists bs, jobs = [(q, bs)] /\ composed h q bs /\
           (forall x, r = Ok x -> answered h (q, bs) x /\ ~ has_error x) /\
           (forall x, answered h (q, bs) x -> ~ has_error x -> r = Ok x \/ r = Panic)))).
  Proof.
    cbv zeta.
    assert (S : send_message j w =
      match init w with
      | (w1, Ok _) => deferred (bind (exchange (fun _ => KJob j)) (fun m => bind (fail_on_error_acks m) (fun _ => ret m))) end_dialog w1
      | (w1, Err) => (w1, Err)
      | (w1, Panic) => (w1, Panic)
      end) by reflexivity.
    rewrite S. clear S. destruct (init_summary w) as [[H1 H2]|[H1 [H2 H3]]].
    - left. destruct (init w) as [w1 [x| |]]; cbn [fst snd] in *.
      + exfalso. apply H1. eexists; reflexivity.
      + split; [intros [? K]; discriminate|exact H2].
      + split; [intros [? K]; discriminate|exact H2].
    - right. destruct (init w) as [w1 r1]. cbn [fst snd] in *. subst r1.
      set (D := d_dialog (w_d w1)) in *.
      exists (w_sent w1), D, (d_sig (w_d w1)), (d_crypt (w_d w1)).
      unfold deferred. unfold bind.
      destruct (exchange_cases sign_ok compose bank others (fun _ => KJob j) w1) as [[G1 [G2 G3]]|[bs [G1 G2]]].
      + unfold req in G1. rewrite H3 in G1. change (1 + 1) with 2 in G1. fold D in G1.
        destruct (exchange (fun _ => KJob j) w1) as [w2 r2]. cbn [fst snd] in *.
        destruct (end_ended w2) as [ends [E1 E2]]. exists [], ends.
        assert (W : w_sent w2 = w_sent w1) by (rewrite G3; reflexivity).
        assert (C : d_count (w_d w2) = 2) by (rewrite G3; cbn; rewrite H3; reflexivity).
        assert (DD : d_dialog (w_d w2) = D) by (rewrite G3; reflexivity).
        rewrite W, C, DD in *.
        destruct r2 as [x| |]; [exfalso; apply G2; eexists; reflexivity| |];
          destruct (end_dialog w2) as [w3 r3]; cbn [fst snd] in *;
          (split; [exact H2|]); (split; [rewrite E1; reflexivity|]);
          rewrite app_nil_r; (split; [exact E2|]); left; (split; [reflexivity|]); (split; [exact G1|]);
          destruct r3; intros [? K]; discriminate.
      + rewrite G2. unfold req in G1 |- *. rewrite H3 in G1 |- *. change (1 + 1) with 2 in G1 |- *. fold D in G1 |- *. clear G2.
        set (q := mkRq (KJob j) D 2 (Some (d_sig (w_d w1))) (Some (d_crypt (w_d w1)))) in *.
        set (w2 := mkW (counted (w_d w1)) (w_sent w1 ++ [(q, bs)])).
        destruct (end_ended w2) as [ends [E1 E2]]. exists [(q, bs)], ends.
        assert (C : d_count (w_d w2) + 1 = 3) by (cbn; rewrite H3; reflexivity).
        rewrite C in E2. change (d_dialog (w_d w2)) with D in E2. change (w_sent w2) with (w_sent w1 ++ [(q, bs)]) in E1, E2.
        destruct (do raw <- bank _; read_response others raw) as [m| |] eqn:E.
        * apply answer_ok in E. unfold fail_on_error_acks, lift. destruct (existsb is_err (bm_acks m)) eqn:Er.
          -- destruct (end_dialog w2) as [w3 r3]. cbn [fst snd] in *.
             split; [exact H2|]. split; [rewrite E1, <- app_assoc; reflexivity|]. split; [exact E2|].
             right. exists bs. split; [reflexivity|]. split; [exact G1|]. split.
             ++ intros x Hx. destruct r3; discriminate.
             ++ intros x Hx Hn. exfalso. apply Hn. rewrite <- (answered_fun _ _ _ _ _ _ E Hx). apply has_error_spec. exact Er.
          -- unfold ret. destruct (end_dialog w2) as [w3 r3]. cbn [fst snd] in *.
             split; [exact H2|]. split; [rewrite E1, <- app_assoc; reflexivity|]. split; [exact E2|].
             right. exists bs. split; [reflexivity|]. split; [exact G1|]. split.
             ++ intros x Hx. assert (x = m) by (destruct r3; congruence). subst x. split; [exact E|].
                intros K. apply has_error_spec in K. congruence.
             ++ intros x Hx Hn. rewrite <- (answered_fun _ _ _ _ _ _ E Hx). destruct r3; auto.
        * destruct (end_dialog w2) as [w3 r3]. cbn [fst snd] in *.
          split; [exact H2|]. split; [rewrite E1, <- app_assoc; reflexivity|]. split; [exact E2|].
          right. exists bs. split; [reflexivity|]. split; [exact G1|]. split.
          ++ intros x Hx. destruct r3; discriminate.
          ++ intros x Hx. apply answer_ok in Hx. discriminate (eq_trans (eq_sym E) Hx).
        * destruct (end_dialog w2) as [w3 r3]. cbn [fst snd] in *.
          split; [exact H2|]. split; [rewrite E1, <- app_assoc; reflexivity|]. split; [exact E2|].
          right. exists bs. split; [reflexivity|]. split; [exact G1|]. split.
          ++ intros x Hx. destruct r3; discriminate.
          ++ intros x Hx. apply answer_ok in Hx. discriminate (eq_trans (eq_sym E) Hx).
  Qed.

  Lemma sync_user_summary (w : world) :
    let w' := fst (sync_user_data w) in let r := snd (sync_user_data w) in
    (~ is_ok r /\ (not_initialised w (w_sent w') \/ refused w (w_sent w'))) \/
    (exists h D ends, initialised w h D /\ w_sent w' = h ++ ends /\ ended h D 2 ends /\ (r = Ok tt \/ r = Panic)).
  Proof.
    cbv zeta. unfold Dialog_Model.sync_user_data. unfold bind. destruct (init_summary w) as [[H1 H2]|[H1 [H2 H3]]].
    - left. destruct (init w) as [w1 [x| |]]; cbn [fst snd] in *.
      + exfalso. apply H1. eexists; reflexivity.
      + split; [intros [? K]; discriminate|exact H2].
      + split; [intros [? K]; discriminate|exact H2].
    - right. destruct (init w) as [w1 r1]. cbn [fst snd] in *. subst r1.
      unfold deferred, ret. destruct (end_ended w1) as [ends [E1 E2]]. rewrite H3 in E2.
      exists (w_sent w1), (d_dialog (w_d w1)), ends. destruct (end_dialog w1) as [w2 r2]. cbn [fst snd] in *.
      repeat (split; [assumption|]). destruct r2; auto.
  Qed.
End Facts.
