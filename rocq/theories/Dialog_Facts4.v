(** * Dialog ends and errors, read off the record *)
From Coq Require Import Lia ZifyBool.
From Verif Require Import Base BaseFacts Lexer_Model Codec_Model Wire_Model Message_Model Dialog_Model Dialog_Spec Dialog_Proofs Dialog_Facts Dialog_Facts2 Dialog_Facts3.
Open Scope Z_scope.

Section Facts4.
  Context {J Acc : Type}.
  Variable sign_ok : list (entry J) -> request J -> outcome unit.
  Variable compose : list (entry J) -> request J -> outcome bytes.
  Variable bank : list (entry J) -> outcome bytes.
  Variable others : bytes -> Z -> option (bytes -> outcome (oseg Acc)).
  Variable pick : list (entry J) -> nat.
  Notation reply := (bank_message (oseg Acc)).
  Notation world := (@world J Acc).
  Notation answered := (answered bank others).
  Notation prelude := (prelude sign_ok compose bank others).
  Notation ended := (ended sign_ok compose).
  Notation closes := (closes sign_ok compose).

  Definition not_init (e : entry J) : Prop := ~ is_init (kind_of e).
  Lemma first_init (p p' : list (entry J)) i i' r r' :
    Forall not_init p -> Forall not_init p' -> is_init (kind_of i) -> is_init (kind_of i') ->
    p ++ i :: r = p' ++ i' :: r' -> p = p' /\ i = i' /\ r = r'.
  Proof.
    revert p'. induction p as [|x p IH]; intros [|y p'] H1 H2 H3 H4 E; cbn in E.
    - injection E as -> ->. auto.
    - injection E as -> ->. inversion H2; subst. contradiction.
    - injection E as -> <-. inversion H1; subst. contradiction.
    - injection E as -> E. inversion H1; inversion H2; subst. destruct (IH p' H6 H10 H3 H4 E) as [-> [-> ->]]. auto.
  Qed.
  Lemma no_init (p l : list (entry J)) i r :
    Forall not_init l -> is_init (kind_of i) -> p ++ i :: r = l -> False.
  Proof.
    intros H1 H2 <-. apply Forall_app in H1. destruct H1 as [_ H1]. inversion H1; subst. contradiction.
  Qed.
  Lemma sync_not_init (w : world) pre ok : sync_part sign_ok compose bank others w pre ok -> Forall not_init pre.
  Proof.
    intros [[-> _]|[[bs [-> _]]|[bs [m [i [p [c [be [-> _]]]]]]]]]; repeat constructor; intros [? [? [? [? K]]]]; discriminate.
  Qed.
  Lemma prelude_not_init (w : world) pre ok : prelude w pre ok -> Forall not_init pre.
  Proof. intros [[_ [-> _]]|[_ H]]; [constructor|exact (sync_not_init _ _ _ H)]. Qed.
  Lemma ended_closes h jobs ends D n (job : kind J -> Prop) :
    ended (h ++ jobs) D n ends -> (jobs = [] \/ exists e, jobs = [e] /\ job (kind_of e) /\ dialog_of e = D) ->
    closes h (jobs ++ ends) D job.
  Proof.
    intros H1 H2. exists jobs. split; [exact H2|]. apply ended_any in H1. destruct H1 as [q [Q1 [Q2 [Q3 [[-> Q4]|[be [-> Q4]]]]]]].
    - right. rewrite app_nil_r. split; [reflexivity|]. exists q. auto.
    - left. exists (q, be). auto.
  Qed.

  Lemma rev_case {A} (t : list A) : t = [] \/ exists t' z, t = t' ++ [z].
  Proof. destruct t as [|x t] using rev_ind; [left; reflexivity|right; exists t, x; reflexivity]. Qed.
  Lemma app_inv {A} (a b c : list A) : a ++ b = a ++ c -> b = c.
  Proof. apply app_inv_head. Qed.

  Definition ends_well (w : world) (sent : list (entry J)) (ok : Prop) (job : kind J -> Prop) : Prop :=
    (forall pre i rest, sent = w_sent w ++ pre ++ i :: rest -> Forall not_init pre -> is_init (kind_of i) ->
      (forall m D, answered (w_sent w ++ pre) i m -> usable m -> assigns m D -> closes (w_sent w ++ pre ++ [i]) rest D job) /\
      ((~ exists m, answered (w_sent w ++ pre) i m /\ usable m) -> rest = [] /\ ~ ok)) /\
    (forall l, sent = w_sent w ++ l -> Forall not_init l -> ~ ok).

  Lemma not_initialised_ends (w : world) sent ok job :
    not_initialised sign_ok compose bank others w sent -> ~ ok -> ends_well w sent ok job.
  Proof.
    intros [pre [-> H]] Hok. assert (N : Forall not_init pre).
    { destruct H as [H|[q [_ [_ H]]]]; exact (prelude_not_init _ _ _ H). }
    split.
    - intros pre' i rest E _ Hi. apply app_inv in E. exfalso. exact (no_init _ _ _ _ N Hi (eq_sym E)).
    - intros l _ _. exact Hok.
  Qed.
  Lemma refused_ends (w : world) sent ok job :
    refused sign_ok compose bank others w sent -> ~ ok -> ends_well w sent ok job.
  Proof.
    intros [pre [i [H1 [-> [H2 [H3 [H4 H5]]]]]]] Hok. pose proof (prelude_not_init _ _ _ H1) as N. split.
    - intros pre' i' rest E N' Hi. apply app_inv in E. destruct (first_init _ _ _ _ _ _ N N' H2 Hi E) as [<- [<- <-]]. split.
      + intros m D A U _. exfalso. apply H5. exists m. auto.
      + auto.
    - auto.
  Qed.
  Lemma initialised_ends (w : world) h D jobs ends n ok (job : kind J -> Prop) :
    initialised sign_ok compose bank others w h D -> ended (h ++ jobs) D n ends ->
    (jobs = [] \/ exists e, jobs = [e] /\ job (kind_of e) /\ dialog_of e = D) ->
    ends_well w (h ++ jobs ++ ends) ok job.
  Proof.
    intros [pre [i [m [H1 [-> [H2 [H3 [H4 [H5 [H6 H7]]]]]]]]]] He Hj. pose proof (prelude_not_init _ _ _ H1) as N. split.
    - intros pre' i' rest E N' Hi. rewrite <- !app_assoc in E. apply app_inv in E. cbn in E.
      destruct (first_init _ _ _ _ _ _ N N' H2 Hi E) as [<- [<- <-]]. split.
      + intros m' D' A U As. pose proof (answered_fun _ _ _ _ _ _ H5 A) as <-.
        assert (D' = D) as -> by (unfold assigns in *; congruence).
        apply ended_closes with (n := n); assumption.
      + intros K. exfalso. apply K. exists m. auto.
    - intros l E Hl. exfalso. rewrite <- !app_assoc in E. apply app_inv in E. cbn in E. exact (no_init _ _ _ _ Hl H2 E).
  Qed.
  Lemma send_ends j (w : world) :
    ends_well w (w_sent (fst (send_message sign_ok compose bank others pick j w)))
                (is_ok (snd (send_message sign_ok compose bank others pick j w))) (fun k => k = KJob j).
  Proof.
    destruct (send_summary sign_ok compose bank others pick j w) as [[H1 [H2|H2]]|[h [D [p [c [jobs [ends [H1 [H2 [H3 H4]]]]]]]]]].
    - apply not_initialised_ends; assumption.
    - apply refused_ends; assumption.
    - rewrite H2. apply initialised_ends with (D := D) (n := 3); [assumption..|].
      destruct H4 as [[-> _]|[bs [-> _]]]; [left; reflexivity|right]. eexists. split; [reflexivity|]. split; reflexivity.
  Qed.
  Lemma sync_user_ends (w : world) :
    ends_well w (w_sent (fst (sync_user_data sign_ok compose bank others pick w)))
                (is_ok (snd (sync_user_data sign_ok compose bank others pick w))) (fun _ => False).
  Proof.
    destruct (sync_user_summary sign_ok compose bank others pick w) as [[H1 [H2|H2]]|[h [D [ends [H1 [H2 [H3 H4]]]]]]].
    - apply not_initialised_ends; assumption.
    - apply refused_ends; assumption.
    - rewrite H2. change ends with ([] ++ ends). apply initialised_ends with (D := D) (n := 2); [assumption|rewrite app_nil_r; assumption|left; reflexivity].
  Qed.
  Lemma anonymous_ends j (w : world) :
    let w' := fst (send_anonymous compose bank others j w) in let r := snd (send_anonymous compose bank others j w) in
    (forall i rest, w_sent w' = w_sent w ++ i :: rest ->
      is_init (kind_of i) /\
      (forall m D, answered (w_sent w) i m -> usable_anonymous m -> assigns m D -> closes (w_sent w ++ [i]) rest D (fun k => k = KJob j)) /\
      ((~ exists m, answered (w_sent w) i m /\ usable_anonymous m) -> rest = [] /\ ~ is_ok r)) /\
    (w_sent w' = w_sent w -> ~ is_ok r).
  Proof.
    cbv zeta. destruct (anonymous_summary sign_ok compose bank others j w) as [[H1 H2]|[i [H1 [H2 [H3 [[H4 [H5 H6]]|[m [D [jobs [ends [A1 [A2 [A3 [A4 [A5 A6]]]]]]]]]]]]]]].
    - split; [|auto]. intros i rest E. exfalso. rewrite H2 in E. rewrite <- (app_nil_r (w_sent w)) in E at 1. apply app_inv in E. discriminate.
    - split; [|auto]. intros i' rest E. rewrite H5 in E. apply app_inv in E. injection E as <- <-.
      split; [exact H1|]. split; [|auto]. intros m D A U _. exfalso. apply H6. exists m. auto.
    - split.
      + intros i' rest E. rewrite A4 in E. apply app_inv in E. injection E as <- <-. split; [exact H1|]. split.
        * intros m' D' A U As. pose proof (answered_fun _ _ _ _ _ _ A1 A) as <-.
          assert (D' = D) as -> by (unfold assigns in *; congruence).
          exists jobs. split.
          { destruct A6 as [[-> _]|[bs [-> _]]]; [left; reflexivity|right]. eexists. split; [reflexivity|]. split; reflexivity. }
          destruct A5 as [[-> A5]|[be [-> A5]]].
          { right. rewrite app_nil_r. split; [reflexivity|]. eexists. split; [|split]; [| |rewrite <- app_assoc; exact A5]; reflexivity. }
          { left. eexists. split; [reflexivity|]. split; reflexivity. }
        * intros K. exfalso. apply K. exists m. auto.
      + intros E. exfalso. rewrite A4 in E. rewrite <- (app_nil_r (w_sent w)) in E at 2. apply app_inv in E. discriminate.
  Qed.

  (** ** Successful calls *)
  Lemma sync_part_quiet (w : world) pre : prelude w pre True ->
    forall h e t m, pre = h ++ e :: t -> answered (w_sent w ++ h) e m -> ~ has_error m.
  Proof.
    intros [[_ [-> _]]|[_ H]] h e t m E A; [destruct h; discriminate|].
    destruct H as [[_ [_ K]]|[[bs [_ [_ [K _]]]]|[bs [m1 [i [p [c [be [E1 [C1 [A1 [U1 [As1 [C2 K]]]]]]]]]]]]]]; [tauto|tauto|].
    rewrite E1 in E. destruct h as [|x [|y h]].
    - injection E as <- <-. rewrite app_nil_r in A. pose proof (answered_fun _ _ _ _ _ _ A1 A) as <-. apply U1.
    - injection E as <- <- <-. destruct (proj1 K I) as [m2 [A2 N2]]. pose proof (answered_fun _ _ _ _ _ _ A2 A) as <-. exact N2.
    - destruct h; discriminate.
  Qed.
  Lemma send_success j (w : world) x :
    snd (send_message sign_ok compose bank others pick j w) = Ok x ->
    exists pre i m e rest,
      w_sent (fst (send_message sign_ok compose bank others pick j w)) = w_sent w ++ pre ++ i :: e :: rest /\
      is_init (kind_of i) /\ answered (w_sent w ++ pre) i m /\ ~ has_error m /\
      kind_of e = KJob j /\ answered (w_sent w ++ pre ++ [i]) e x /\ ~ has_error x /\
      Forall (fun e => is_end (kind_of e)) rest /\ (List.length rest <= 1)%nat /\
      (forall h e t m, pre = h ++ e :: t -> answered (w_sent w ++ h) e m -> ~ has_error m).
  Proof.
    intros Hr. destruct (send_summary sign_ok compose bank others pick j w) as [[H1 _]|[h [D [p [c [jobs [ends [H1 [H2 [H3 H4]]]]]]]]]].
    { exfalso. apply H1. eexists. exact Hr. }
    destruct H4 as [[_ [_ K]]|[bs [-> [K1 [K2 K3]]]]]; [exfalso; apply K; eexists; exact Hr|].
    destruct (K2 x Hr) as [K4 K5]. destruct H1 as [pre [i [m [P1 [-> [P2 [P3 [P4 [P5 [P6 P7]]]]]]]]]].
    exists pre, i, m, (mkRq (KJob j) D 2 (Some p) (Some c), bs), ends. split.
    { rewrite H2, <- !app_assoc. reflexivity. }
    split; [exact P2|]. split; [exact P5|]. split; [apply P6|]. split; [reflexivity|]. split; [exact K4|]. split; [exact K5|].
    apply ended_any in H3. destruct H3 as [q [Q1 [_ [_ H3]]]]. split.
    { destruct H3 as [[-> _]|[be [-> _]]]; constructor; [eexists; exact Q1|constructor]. }
    split. { destruct H3 as [[-> _]|[be [-> _]]]; cbn; lia. }
    exact (sync_part_quiet _ _ P1).
  Qed.
  Lemma send_no_hidden_error j (w : world) h e t m :
    w_sent (fst (send_message sign_ok compose bank others pick j w)) = w_sent w ++ h ++ e :: t ->
    ~ is_end (kind_of e) -> answered (w_sent w ++ h) e m -> has_error m ->
    ~ is_ok (snd (send_message sign_ok compose bank others pick j w)).
  Proof.
    intros E Ne A He [x Hx]. destruct (send_success j w x Hx) as [pre [i [mi [ej [rest [S1 [S2 [S3 [S4 [S5 [S6 [S7 [S8 [_ S9]]]]]]]]]]]]]].
    rewrite S1 in E. apply app_inv in E.
    assert (L : forall (a : list (entry J)) b c d, a ++ b = c ++ e :: d ->
              (exists r, a = c ++ e :: r) \/ (exists r, c = a ++ r /\ b = r ++ e :: d)).
    { intros a. induction a as [|y a IH]; intros b c d Ec.
      - right. exists c. auto.
      - destruct c as [|z c]; injection Ec as -> Ec.
        + left. exists a. reflexivity.
        + destruct (IH _ _ _ Ec) as [[r ->]|[r [-> ->]]]; [left|right]; exists r; auto. }
    destruct (L _ _ _ _ E) as [[r Er]|[r [-> Er]]].
    - exact (S9 _ _ _ _ Er A He).
    - destruct r as [|y [|z r]].
      + injection Er as <- <-. rewrite app_nil_r in A. pose proof (answered_fun _ _ _ _ _ _ S3 A) as <-. exact (S4 He).
      + injection Er as <- <- <-. pose proof (answered_fun _ _ _ _ _ _ S6 A) as <-. exact (S7 He).
      + injection Er as <- <- ->. apply Forall_app in S8. destruct S8 as [_ S8]. inversion S8; subst. contradiction.
  Qed.
End Facts4.
