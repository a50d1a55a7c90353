(** * Security functions and accounts over histories *)
From Coq Require Import Lia ZifyBool.
From Verif Require Import Base BaseFacts Lexer_Model Codec_Model Wire_Model Message_Model Dialog_Model Dialog_Spec Dialog_Proofs Dialog_Facts Dialog_Facts2.
Open Scope Z_scope.

Section Facts3.
  Context {J Acc : Type}.
  Variable sign_ok : list (entry J) -> request J -> outcome unit.
  Variable compose : list (entry J) -> request J -> outcome bytes.
  Variable bank : list (entry J) -> outcome bytes.
  Variable others : bytes -> Z -> option (bytes -> outcome (oseg Acc)).
  Variable pick : list (entry J) -> nat.
  Notation reply := (bank_message (oseg Acc)).
  Notation world := (@world J Acc).
  Notation act := (@act J Acc).
  Notation answered := (answered bank others).
  Notation run_call := (run_call sign_ok compose bank others pick).
  Notation run_calls := (run_calls sign_ok compose bank others pick).

  Lemma choice_in (cs : list bytes) n : cs <> [] -> In (nth (n mod List.length cs) cs []) cs.
  Proof. intros H. apply nth_In. apply Nat.mod_upper_bound. destruct cs; [congruence|discriminate]. Qed.
  (** The function chosen after an answer is one the bank offers. *)
  Lemma update_choice (m : reply) (w : world) :
    (fst (update_security_function pick m w) = w) \/
    exists f, offers m f /\ update_security_function pick m w = set_security_function f w.
  Proof.
    unfold update_security_function. rewrite find_seg_eq. destruct (segs m (B "HITANS")) as [|t r] eqn:Et; [left; reflexivity|].
    destruct (existsb is_3920 (bm_acks m)); [|left; reflexivity].
    unfold bind, lift. destruct (candidates m t) as [cs| |] eqn:Ec; [|left; reflexivity|left; reflexivity].
    cbv zeta. destruct (bytes_eqb _ _); [left; reflexivity|]. right.
    destruct (candidates_spec others _ _ _ Ec) as [a [fs [p [q [H1 [H2 [H3 [H4 [H5 H6]]]]]]]]].
    eexists. split; [|reflexivity]. destruct (proj1 (H6 _) (choice_in cs (pick (w_sent w)) H5)) as [H7 H8].
    exists a, fs, r. rewrite H1, Et, H4. split; [apply in_or_app; right; left; reflexivity|]. auto.
  Qed.

  (** ** Invariants of the three functions and the record *)
  Section Invariant.
    Variable R : bytes -> bytes -> bytes -> list (entry J) -> Prop.
    Definition inv (w : world) : Prop :=
      R (d_fn (w_d w)) (pv_fn (d_sig (w_d w))) (pv_fn (d_crypt (w_d w))) (w_sent w).
    Definition last_answer (w : world) (m : reply) : Prop :=
      exists h e, w_sent w = h ++ [e] /\ answered h e m.
    Definition inv_after (m : reply) (w : world) : Prop := inv w /\ last_answer w m.
    Hypothesis R_send : forall f a b h q bs,
      R f a b h -> (forall p, rq_sig q = Some p -> pv_fn p = a) -> (forall p, rq_crypt q = Some p -> pv_fn p = b) ->
      R f a b (h ++ [(q, bs)]).
    Hypothesis R_choose : forall f a b h e m g,
      R f a b (h ++ [e]) -> answered h e m -> offers m g -> R g g g (h ++ [e]).

    Definition keeps {A} (I : world -> Prop) (m : act A) : Prop := forall w, I w -> I (fst (m w)).
    Lemma keeps_ret {A} I (a : A) : keeps I (ret a).
    Proof. intros w H. exact H. Qed.
    Lemma keeps_lift {A} I (o : outcome A) : keeps I (lift o).
    Proof. intros w H. exact H. Qed.
    Lemma keeps_get I : keeps I get.
    Proof. intros w H. exact H. Qed.
    Lemma keeps_bind {A C} I (m : act A) (k : A -> act C) : keeps I m -> (forall a, keeps I (k a)) -> keeps I (bind m k).
    Proof.
      intros H1 H2 w Hw. unfold bind. specialize (H1 w Hw). destruct (m w) as [w1 [a| |]]; cbn in *; auto. apply H2. exact H1.
    Qed.
    (** Modifications that touch neither the functions nor the record. *)
    Definition harmless (f : dstate Acc -> dstate Acc) : Prop :=
      forall d, d_fn (f d) = d_fn d /\ pv_fn (d_sig (f d)) = pv_fn (d_sig d) /\ pv_fn (d_crypt (f d)) = pv_fn (d_crypt d).
    Lemma keeps_modify f : harmless f -> keeps inv (modify f).
    Proof. intros H w Hw. unfold inv in *. cbn. destruct (H (w_d w)) as [-> [-> ->]]. exact Hw. Qed.
    Lemma keeps_modify_after f m : harmless f -> keeps (inv_after m) (modify f).
    Proof. intros H w [Hw Hl]. split; [exact (keeps_modify f H w Hw)|]. exact Hl. Qed.
    Ltac hm := let x := fresh in intros x; repeat split; reflexivity.

    Lemma keeps_after_update m : keeps (inv_after m) (update_security_function pick m).
    Proof.
      intros w [Hw Hl]. destruct (update_choice m w) as [E|[f [Hf E]]]; rewrite E; [split; assumption|].
      split; [|exact Hl]. destruct Hl as [h [e [Hs Ha]]]. unfold inv in *. cbn. rewrite Hs in *.
      exact (R_choose _ _ _ _ _ _ _ Hw Ha Hf).
    Qed.
    Lemma keeps_after_bpd m m' : keeps (inv_after m) (parse_bpd m').
    Proof.
      unfold parse_bpd. destruct (find_seg m' _) as [[]|]; try apply keeps_lift; try apply keeps_ret.
      apply keeps_bind; [apply keeps_modify_after; hm|intros _].
      apply keeps_bind; [apply keeps_lift|intros v].
      apply keeps_bind; [apply keeps_modify_after; hm|intros _].
      destruct (find_seg m' _) as [[]|]; try apply keeps_lift; try apply keeps_ret.
    Qed.
    Lemma keeps_after_accounts m l : keeps (inv_after m) (add_accounts l).
    Proof.
      induction l as [|s r IH]; [apply keeps_ret|]. destruct s; try apply keeps_lift. cbn [add_accounts].
      apply keeps_bind; [apply keeps_lift|intros a]. apply keeps_bind; [apply keeps_modify_after; hm|intros _]. exact IH.
    Qed.
    Lemma keeps_after_upd m m' : keeps (inv_after m) (parse_upd m').
    Proof.
      unfold parse_upd. apply keeps_bind; [|intros _; apply keeps_after_accounts].
      destruct (find_seg m' _) as [[]|]; try apply keeps_lift; try apply keeps_ret.
      apply keeps_bind; [apply keeps_lift|intros u]. apply keeps_modify_after; hm.
    Qed.
    Lemma keeps_after_take m m' : keeps (inv_after m) (take_dialog_id m').
    Proof. unfold take_dialog_id. destruct (mh_dialog _); [apply keeps_modify_after; hm|apply keeps_lift]. Qed.
    Lemma keeps_after_setsys m s : keeps (inv_after m) (set_client_system s).
    Proof. apply keeps_modify_after; hm. Qed.

    (** Exchanges keep the invariant and, when they return, leave the answer last. *)
    Definition sends (m : act reply) : Prop :=
      forall w, inv w -> inv (fst (m w)) /\ forall x, snd (m w) = Ok x -> last_answer (fst (m w)) x.
    Lemma sends_bind {A} (m : act reply) (k : reply -> act A) :
      sends m -> (forall x, keeps (inv_after x) (k x)) -> keeps inv (bind m k).
    Proof.
      intros H1 H2 w Hw. unfold bind. destruct (H1 w Hw) as [H3 H4]. destruct (m w) as [w1 [x| |]]; cbn in *; auto.
      apply (H2 x w1). split; auto.
    Qed.
    Lemma last_of w h e (m : reply) : w_sent w = h ++ [e] -> (do raw <- bank (h ++ [e]); read_response others raw) = Ok m -> last_answer w m.
    Proof. intros H1 H2. exists h, e. split; [exact H1|]. apply answer_ok. exact H2. Qed.
    Lemma sends_exchange k : sends (exchange sign_ok compose bank others k).
    Proof.
      intros w Hw. destruct (exchange_cases sign_ok compose bank others k w) as [[H1 [H2 H3]]|[bs [H1 H2]]].
      - destruct (exchange sign_ok compose bank others k w) as [w1 r]. cbn [fst snd] in *. subst w1. split; [exact Hw|].
        intros x ->. exfalso. apply H2. eexists; reflexivity.
      - rewrite H2. cbn [fst snd]. split.
        + unfold inv. cbn. apply R_send; [exact Hw| |]; cbn; intros p K; injection K as <-; reflexivity.
        + intros x Hx. eapply last_of; [reflexivity|exact Hx].
    Qed.
    Lemma sends_plain k : sends (exchange_plain compose bank others k).
    Proof.
      intros w Hw. destruct (exchange_plain_cases sign_ok compose bank others k w) as [[H1 [H2 H3]]|[bs [H1 H2]]].
      - destruct (exchange_plain compose bank others k w) as [w1 r]. cbn [fst snd] in *. subst w1. split; [exact Hw|].
        intros x ->. exfalso. apply H2. eexists; reflexivity.
      - rewrite H2. cbn [fst snd]. split.
        + unfold inv. cbn. apply R_send; [exact Hw| |]; cbn; intros p K; discriminate.
        + intros x Hx. eapply last_of; [reflexivity|exact Hx].
    Qed.
    Lemma sends_sync : sends (sync_exchange sign_ok compose bank others).
    Proof.
      intros w Hw. destruct (sync_exchange_cases sign_ok compose bank others w) as [[H1 [H2 [d [H3 H4]]]]|[bs [H1 H2]]].
      - destruct (sync_exchange sign_ok compose bank others w) as [w1 r]. cbn [fst snd] in *. subst w1. split.
        + destruct H4 as [-> | ->]; exact Hw.
        + intros x ->. exfalso. apply H2. eexists; reflexivity.
      - rewrite H2. cbn [fst snd]. split.
        + unfold inv. cbn. apply R_send; [exact Hw| |]; cbn; intros p K; injection K as <-; reflexivity.
        + intros x Hx. eapply last_of; [reflexivity|exact Hx].
    Qed.
    Lemma keeps_weaken {A} m (a : act A) : (forall x : reply, x = m -> keeps (inv_after x) a) -> keeps (inv_after m) a.
    Proof. intros H. apply H. reflexivity. Qed.
    Lemma after_inv {A} m (a : act A) w : keeps inv a -> inv_after m w -> inv (fst (a w)).
    Proof. intros H [Hw _]. apply H. exact Hw. Qed.

    Lemma keeps_end : keeps inv (end_dialog sign_ok compose bank others).
    Proof. apply sends_bind; [apply sends_exchange|]. intros m. apply keeps_lift. Qed.
    Lemma keeps_anonymous_end : keeps inv (anonymous_end compose bank others).
    Proof. apply sends_bind; [apply sends_plain|]. intros m. apply keeps_lift. Qed.
    Lemma keeps_news P m : keeps P (log_news m).
    Proof. unfold log_news. destruct (find_seg m _) as [[]|]; try apply keeps_lift; apply keeps_ret. Qed.
    Lemma keeps_start : keeps inv (start_dialog sign_ok compose bank others pick).
    Proof.
      apply keeps_bind; [apply keeps_modify; hm|intros _]. apply sends_bind; [apply sends_exchange|]. intros m.
      apply keeps_bind; [apply keeps_after_take|intros _]. apply keeps_bind; [apply keeps_after_bpd|intros _].
      apply keeps_bind; [apply keeps_after_upd|intros _]. apply keeps_bind; [apply keeps_news|intros _]. apply keeps_bind; [apply keeps_lift|intros _]. apply keeps_after_update.
    Qed.
    Lemma sends_bind' {A} (m : act reply) (k : reply -> act A) :
      sends m -> (forall x w, inv_after x w -> inv (fst (k x w))) -> keeps inv (bind m k).
    Proof.
      intros H1 H2 w Hw. unfold bind. destruct (H1 w Hw) as [H3 H4]. destruct (m w) as [w1 [x| |]]; cbn in *; auto.
      apply (H2 x w1). split; auto.
    Qed.
    Lemma keeps_process_sync m : keeps (inv_after m) (process_sync pick m).
    Proof.
      unfold process_sync.
      apply keeps_bind; [apply keeps_after_take|intros _]. apply keeps_bind; [apply keeps_lift|intros _].
      apply keeps_bind; [apply keeps_after_update|intros _]. apply keeps_bind.
      - destruct (find_seg m _) as [[]|]; try apply keeps_lift. apply keeps_bind; [apply keeps_lift|intros s; apply keeps_after_setsys].
      - intros _. apply keeps_bind; [apply keeps_after_bpd|intros _]. apply keeps_after_upd.
    Qed.
    Lemma keeps_sync : keeps inv (sync_client_system sign_ok compose bank others pick).
    Proof.
      intros w Hw. rewrite sync_eq. revert w Hw. apply sends_bind'; [apply sends_sync|]. intros m w Hw.
      unfold bind at 1. pose proof (keeps_process_sync m w Hw) as K. destruct (process_sync pick m w) as [w1 [[]| |]]; cbn [fst] in *; try apply K.
      assert (K2 : keeps inv (bind (end_dialog sign_ok compose bank others) (fun _ => bind get (fun d : dstate Acc => ret (d_system d))))).
      { apply keeps_bind; [apply keeps_end|intros _]. apply keeps_bind; [apply keeps_get|]. intros d. apply keeps_ret. }
      apply K2. apply K.
    Qed.
    Lemma keeps_init : keeps inv (init sign_ok compose bank others pick).
    Proof.
      apply keeps_bind; [|intros _; apply keeps_start]. unfold ensure_system. apply keeps_bind; [apply keeps_get|]. intros d.
      destruct (bytes_eqb _ _); [|apply keeps_ret]. apply keeps_bind; [apply keeps_sync|]. intros s. apply keeps_modify; hm.
    Qed.
    Lemma keeps_deferred {A} I (m : act A) c : keeps I m -> keeps I c -> keeps I (deferred m c).
    Proof.
      intros H1 H2 w Hw. unfold deferred. specialize (H1 w Hw). destruct (m w) as [w1 r]. cbn in H1. specialize (H2 w1 H1).
      destruct (c w1) as [w2 r2]. exact H2.
    Qed.
    Lemma keeps_call c : (match c with CSetPin _ | CSetFn _ => False | _ => True end) -> forall w, inv w -> inv (run_call c w).
    Proof.
      destruct c as [j| | |j|p|s|f]; cbn [Dialog_Model.run_call]; intros H; try contradiction.
      - apply keeps_bind; [apply keeps_init|intros _]. apply keeps_deferred; [|apply keeps_end].
        apply sends_bind; [apply sends_exchange|]. intros m. apply keeps_bind; [apply keeps_lift|intros _; apply keeps_ret].
      - apply keeps_bind; [apply keeps_init|intros _]. apply keeps_deferred; [apply keeps_ret|apply keeps_end].
      - apply keeps_sync.
      - apply keeps_bind.
        + apply keeps_bind; [apply keeps_modify; hm|intros _]. apply sends_bind; [apply sends_plain|]. intros m.
          apply keeps_bind; [apply keeps_after_take|intros _]. apply keeps_bind; [apply keeps_after_bpd|intros _].
          apply keeps_bind; [apply keeps_after_upd|intros _]. apply keeps_bind; [apply keeps_news|intros _]. apply keeps_lift.
        + intros _. apply keeps_deferred; [|apply keeps_anonymous_end].
          apply sends_bind; [apply sends_plain|]. intros m. apply keeps_bind; [apply keeps_lift|intros _; apply keeps_ret].
      - apply keeps_modify; hm.
    Qed.
    Lemma keeps_calls cs : 
      Forall (fun c => match c with
                       | CSetPin _ => forall f a b h, R f a b h -> R f (B "999") (B "999") h
                       | CSetFn g => forall f a b h, R f a b h -> R g g g h
                       | _ => True
                       end) cs ->
      forall w, inv w -> inv (run_calls cs w).
    Proof.
      induction cs as [|c r IH]; intros H w Hw; [exact Hw|]. cbn [Dialog_Model.run_calls]. inversion H as [|? ? H1 H2]; subst.
      apply IH; [exact H2|]. destruct c as [j| | |j|p|s|f]; try (apply keeps_call; [exact I|exact Hw]).
      - exact (H1 _ _ _ _ Hw).
      - exact (H1 _ _ _ _ Hw).
    Qed.
  End Invariant.

  (** ** Accounts *)
  Definition adds {A} (l : list Acc) (m : act A) : Prop :=
    forall w, is_ok (snd (m w)) -> d_accounts (w_d (fst (m w))) = d_accounts (w_d w) ++ l.
  Lemma adds_bind {A C} l1 l2 (m : act A) (k : A -> act C) : adds l1 m -> (forall a, adds l2 (k a)) -> adds (l1 ++ l2) (bind m k).
  Proof.
    intros H1 H2 w Hw. apply is_ok_bind in Hw. destruct Hw as [a [w1 [E Hk]]]. unfold bind. rewrite E.
    rewrite (H2 a w1 Hk), app_assoc. f_equal. specialize (H1 w). rewrite E in H1. apply H1. exists a. reflexivity.
  Qed.
  Lemma adds_none {A C} l (m : act A) (k : A -> act C) : adds [] m -> (forall a, adds l (k a)) -> adds l (bind m k).
  Proof. intros H1 H2. change l with ([] ++ l). apply adds_bind; assumption. Qed.
  Lemma adds_last {A C} l (m : act A) (k : A -> act C) : adds l m -> (forall a, adds [] (k a)) -> adds l (bind m k).
  Proof. intros H1 H2. rewrite <- (app_nil_r l). apply adds_bind; assumption. Qed.
  Lemma adds_ret {A} (a : A) : adds [] (ret a).
  Proof. intros w _. cbn. rewrite app_nil_r. reflexivity. Qed.
  Lemma adds_lift {A} (o : outcome A) : adds [] (lift o).
  Proof. intros w _. cbn. rewrite app_nil_r. reflexivity. Qed.
  Lemma adds_modify f : (forall d, d_accounts (f d) = d_accounts d) -> adds [] (modify f).
  Proof. intros H w _. cbn. rewrite H, app_nil_r. reflexivity. Qed.
  Lemma adds_update m : adds [] (update_security_function pick m).
  Proof.
    intros w _. destruct (update_choice m w) as [E|[f [_ E]]]; rewrite E; cbn; rewrite app_nil_r; reflexivity.
  Qed.
  Lemma adds_bpd m : adds [] (parse_bpd m).
  Proof.
    unfold parse_bpd. destruct (find_seg m _) as [[]|]; try apply adds_lift; try apply adds_ret.
    apply adds_none; [apply adds_modify; reflexivity|intros _]. apply adds_none; [apply adds_lift|intros v].
    apply adds_none; [apply adds_modify; reflexivity|intros _].
    destruct (find_seg m _) as [[]|]; try apply adds_lift; try apply adds_ret.
  Qed.
  Lemma adds_accounts l : adds (flat_map (fun s => match s with OAccount (Ok a) => [a] | _ => [] end) l) (add_accounts l).
  Proof.
    induction l as [|s r IH]; [apply adds_ret|].
    destruct s as [ | | | | | a | | ]; try (intros w [? K]; discriminate). cbn [add_accounts flat_map].
    destruct a as [a| |]; try (intros w [? K]; discriminate).
    intros w Hw. change (is_ok (snd (add_accounts r (mkW (add_account a (w_d w)) (w_sent w))))) in Hw.
    change (d_accounts (w_d (fst (add_accounts r (mkW (add_account a (w_d w)) (w_sent w))))) =
            d_accounts (w_d w) ++ a :: flat_map (fun s => match s with OAccount (Ok a) => [a] | _ => [] end) r).
    rewrite (IH _ Hw). cbn. rewrite <- app_assoc. reflexivity.
  Qed.
  Lemma adds_upd m : adds (reported m) (parse_upd m).
  Proof.
    unfold parse_upd. apply adds_none.
    - destruct (find_seg m _) as [[]|]; try apply adds_lift; try apply adds_ret.
      apply adds_none; [apply adds_lift|intros u]. apply adds_modify; reflexivity.
    - intros _. rewrite seg_eq. apply adds_accounts.
  Qed.
  Lemma adds_news m : adds [] (log_news m).
  Proof. unfold log_news. destruct (find_seg m _) as [[]|]; try apply adds_lift; apply adds_ret. Qed.
  Lemma adds_take m : adds [] (take_dialog_id m).
  Proof. unfold take_dialog_id. destruct (mh_dialog _); [apply adds_modify; reflexivity|apply adds_lift]. Qed.
  Lemma adds_process m : adds (reported m) (process pick m).
  Proof.
    unfold process. apply adds_none; [apply adds_take|intros _]. apply adds_none; [apply adds_bpd|intros _].
    apply adds_last; [apply adds_upd|intros _]. apply adds_none; [apply adds_news|intros _]. apply adds_none; [apply adds_lift|intros _]. apply adds_update.
  Qed.
  Lemma adds_process_sync m : adds (reported m) (process_sync pick m).
  Proof.
    unfold process_sync. apply adds_none; [apply adds_take|intros _]. apply adds_none; [apply adds_lift|intros _].
    apply adds_none; [apply adds_update|intros _]. apply adds_none.
    - destruct (find_seg m _) as [[]|]; try apply adds_lift. apply adds_none; [apply adds_lift|intros s]. apply adds_modify; reflexivity.
    - intros _. apply adds_none; [apply adds_bpd|intros _]. apply adds_upd.
  Qed.
  Lemma accounts_exchange k (w : world) : d_accounts (w_d (fst (exchange sign_ok compose bank others k w))) = d_accounts (w_d w).
  Proof.
    destruct (exchange_cases sign_ok compose bank others k w) as [[H1 [H2 H3]]|[bs [H1 H2]]]; [rewrite H3|rewrite H2]; reflexivity.
  Qed.
  Lemma accounts_end (w : world) : d_accounts (w_d (fst (end_dialog sign_ok compose bank others w))) = d_accounts (w_d w).
  Proof.
    unfold end_dialog, bind. pose proof (accounts_exchange (fun d => KEnd (d_dialog d)) w) as K.
    destruct (exchange sign_ok compose bank others _ w) as [w1 [m| |]]; exact K.
  Qed.
  Lemma accounts_start (w : world) :
    is_ok (snd (start_dialog sign_ok compose bank others pick w)) ->
    exists i m, w_sent (fst (start_dialog sign_ok compose bank others pick w)) = w_sent w ++ [i] /\ is_init (kind_of i) /\
      answered (w_sent w) i m /\
      d_accounts (w_d (fst (start_dialog sign_ok compose bank others pick w))) = d_accounts (w_d w) ++ reported m.
  Proof.
    rewrite start_eq. intros H. apply is_ok_bind in H. destruct H as [m [w1 [E H]]]. unfold bind. rewrite E.
    destruct (exchange_cases sign_ok compose bank others init_kind (mkW (reset (w_d w)) (w_sent w))) as [[H1 [H2 H3]]|[bs [H1 H2]]].
    { rewrite E in H2. exfalso. apply H2. eexists; reflexivity. }
    rewrite E in H2. injection H2 as W A. symmetry in A. cbn [w_sent] in *.
    exists (req init_kind (reset (w_d w)), bs), m.
    split; [rewrite (proj1 (process_frame pick m w1)), W; reflexivity|]. split; [repeat eexists|]. split; [apply answer_ok; exact A|].
    rewrite (adds_process m w1 H), W. reflexivity.
  Qed.
  Lemma bind_ok {A C} (m : act A) (k : A -> act C) w w1 a : m w = (w1, Ok a) -> bind m k w = k a w1.
  Proof. intros H. unfold bind. rewrite H. reflexivity. Qed.
  Lemma accounts_sync (w : world) :
    is_ok (snd (sync_client_system sign_ok compose bank others pick w)) ->
    exists s e m, w_sent (fst (sync_client_system sign_ok compose bank others pick w)) = w_sent w ++ [s; e] /\
      (exists c, kind_of s = KSync c) /\ is_end (kind_of e) /\ answered (w_sent w) s m /\
      d_accounts (w_d (fst (sync_client_system sign_ok compose bank others pick w))) = d_accounts (w_d w) ++ reported m.
  Proof.
    rewrite sync_eq. intros H. apply is_ok_bind in H. destruct H as [m [w1 [E H]]]. rewrite (bind_ok _ _ _ _ _ E).
    destruct (sync_exchange_cases sign_ok compose bank others w) as [[H1 [H2 H3]]|[bs [H1 H2]]].
    { rewrite E in H2. exfalso. apply H2. eexists; reflexivity. }
    rewrite E in H2. injection H2 as W A. symmetry in A.
    apply is_ok_bind in H. destruct H as [[] [w2 [E2 H]]]. rewrite (bind_ok _ _ _ _ _ E2).
    apply is_ok_bind in H. destruct H as [[] [w3 [E3 _]]]. rewrite (bind_ok _ _ _ _ _ E3).
    destruct (end_cases sign_ok compose bank others w2) as [[G1 [G2 G3]]|[be [G1 [G2 G3]]]].
    { exfalso. apply G2. rewrite E3. eexists; reflexivity. }
    pose proof (accounts_end w2) as AE. rewrite E3 in AE, G2. cbn [fst] in AE, G2.
    pose proof (process_sync_frame pick m w1) as [F1 _]. rewrite E2 in F1. cbn [fst] in F1.
    pose proof (adds_process_sync m w1) as AP. rewrite E2 in AP. specialize (AP (ex_intro _ tt eq_refl)). cbn [fst] in AP.
    exists (sync_request (w_d w), bs), (req (fun d => KEnd (d_dialog d)) (w_d w2), be), m.
    unfold bind, get, ret. cbn [fst snd].
    split; [rewrite G2; cbn [w_sent]; rewrite F1, W; cbn [w_sent]; rewrite <- app_assoc; reflexivity|].
    split; [eexists; reflexivity|]. split; [eexists; reflexivity|]. split; [apply answer_ok; exact A|].
    rewrite AE, AP, W. reflexivity.
  Qed.
  Lemma accounts_sync_user (w : world) :
    is_ok (snd (sync_user_data sign_ok compose bank others pick w)) ->
    let w' := fst (sync_user_data sign_ok compose bank others pick w) in
    exists pre ms i m rest, w_sent w' = w_sent w ++ pre ++ i :: rest /\
      is_init (kind_of i) /\ Forall (fun e => is_end (kind_of e)) rest /\ answered (w_sent w ++ pre) i m /\
      ((d_system (w_d w) <> B "0" /\ pre = [] /\ ms = []) \/
       (d_system (w_d w) = B "0" /\ exists s e c x, pre = [s; e] /\ kind_of s = KSync c /\ is_end (kind_of e) /\
          answered (w_sent w) s x /\ ms = [x])) /\
      d_accounts (w_d w') = d_accounts (w_d w) ++ flat_map reported (ms ++ [m]).
  Proof.
    cbv zeta. unfold sync_user_data, init. rewrite !is_ok_bind. intros [[] [w2 [E2 H2]]].
    rewrite (bind_ok _ _ _ _ _ E2). unfold bind in E2.
    assert (X : exists pre ms w1, ensure_system sign_ok compose bank others pick w = (w1, Ok tt) /\ w_sent w1 = w_sent w ++ pre /\
              d_accounts (w_d w1) = d_accounts (w_d w) ++ flat_map reported ms /\
              ((d_system (w_d w) <> B "0" /\ pre = [] /\ ms = []) \/
               (d_system (w_d w) = B "0" /\ exists s e c x, pre = [s; e] /\ kind_of s = KSync c /\ is_end (kind_of e) /\
          answered (w_sent w) s x /\ ms = [x]))).
    { unfold ensure_system, get, bind. unfold ensure_system, get, bind in E2. destruct (bytes_eqb_spec (d_system (w_d w)) (B "0")) as [D|D].
      - destruct (sync_client_system sign_ok compose bank others pick w) as [w1 [s| |]] eqn:Es; try discriminate.
        pose proof (accounts_sync w) as K. rewrite Es in K. destruct (K (ex_intro _ s eq_refl)) as [a [e [m [K1 [[c K2] [K3 [K4 K5]]]]]]].
        exists [a; e], [m], (mkW (upd_system s (w_d w1)) (w_sent w1)). split; [reflexivity|]. split; [exact K1|].
        split; [cbn; rewrite app_nil_r; exact K5|]. right. split; [exact D|]. exists a, e, c, m. auto.
      - exists [], [], w. split; [reflexivity|]. rewrite app_nil_r. split; [reflexivity|]. cbn. rewrite app_nil_r. split; [reflexivity|]. left. auto. }
    destruct X as [pre [ms [w1 [X1 [X2 [X3 X4]]]]]]. rewrite X1 in E2.
    pose proof (accounts_start w1) as K. rewrite E2 in K. destruct (K (ex_intro _ tt eq_refl)) as [i [m [K1 [K2 [K3 K4]]]]].
    cbn [fst] in *. unfold deferred, ret. destruct (end_ended sign_ok compose bank others w2) as [ends [N1 N2]].
    pose proof (accounts_end w2) as AE. exists pre, ms, i, m, ends.
    destruct (end_dialog sign_ok compose bank others w2) as [w3 r3]. cbn [fst] in *.
    split; [rewrite N1, K1, X2, <- !app_assoc; reflexivity|]. split; [exact K2|]. split.
    { apply ended_any in N2. destruct N2 as [q [Q1 [_ [_ [[-> _]|[be [-> _]]]]]]]; [constructor|]. constructor; [eexists; exact Q1|constructor]. }
    rewrite X2 in K3. split; [exact K3|]. split; [exact X4|].
    rewrite AE, K4, X3, flat_map_app. cbn. rewrite app_nil_r, app_assoc. reflexivity.
  Qed.
End Facts3.
