(** * Auxiliary proofs: every error of a client's call has a reason *)
From Coq Require Import Lia ZifyBool Permutation Sorted.
From Verif Require Import Base BaseFacts Lexer_Model Codec_Model Wire_Model Message_Model Message_Proofs Dialog_Model Dialog_Spec Dialog_Proofs
  Merge_Model Client_Model Client_Proofs Error_Model Error_Spec Error_Facts Error_Facts2 Error_Facts3 Reason_Spec Reason_Facts.
Open Scope Z_scope.

(** ** What a synchronisation sends *)
Section Dialog.
  Context {J Acc : Type}.
  Variable sign_ok : list (entry J) -> request J -> outcome unit.
  Variable compose : list (entry J) -> request J -> outcome bytes.
  Variable bank : list (entry J) -> outcome bytes.
  Variable others : bytes -> Z -> option (bytes -> outcome (oseg Acc)).
  Variable pick : list (entry J) -> nat.
  Variable sign_why : list (entry J) -> request J -> bytes.
  Variable compose_why : list (entry J) -> request J -> bytes.
  Variable bank_why : list (entry J) -> bytes.
  Variable read_why : bytes -> bytes.
  Variable quote : bytes -> bytes.
  Notation reply := (bank_message (oseg Acc)).
  Notation world := (@world J Acc).
  Notation tact := (@tact J Acc).
  Notation t_request := (t_request compose bank others compose_why bank_why read_why).
  Notation t_exchange := (t_exchange sign_ok compose bank others sign_why compose_why bank_why read_why).
  Notation t_end := (t_end sign_ok compose bank others sign_why compose_why bank_why read_why quote).
  Notation t_sync_system := (t_sync_system sign_ok compose bank others pick sign_why compose_why bank_why read_why quote).
  Notation t_send := (t_send sign_ok compose bank others pick sign_why compose_why bank_why read_why quote).
  Notation answered := (answered bank others).

  Definition not_ok {A} (r : result A) : Prop := forall a, r <> ROk a.
  Lemma request_shape p q w : (w_sent (fst (t_request p q w)) = w_sent w /\ not_ok (snd (t_request p q w))) \/
    exists e, kind_of e = rq_kind q /\ w_sent (fst (t_request p q w)) = w_sent w ++ [e] /\
      (forall m, snd (t_request p q w) = ROk m -> answered (w_sent w) e m) /\
      (forall m, answered (w_sent w) e m -> snd (t_request p q w) = ROk m).
  Proof.
    unfold Error_Model.t_request. destruct (compose (w_sent w) q) as [bs| |]; cbn [fst snd].
    2,3: left; split; [reflexivity|discriminate].
    right. exists (q, bs). split; [reflexivity|]. split; [reflexivity|]. split.
    - intros m H. destruct (bank _) as [raw| |] eqn:Eb; try discriminate. destruct (read_response others raw) as [m'| |] eqn:Er; try discriminate.
      cbn in H. injection H as <-. exists raw. auto.
    - intros m (raw&H1&H2). unfold entry in *. rewrite H1, H2. reflexivity.
  Qed.
  Lemma exchange_shape p kd w : (w_sent (fst (t_exchange p kd w)) = w_sent w /\ not_ok (snd (t_exchange p kd w))) \/
    exists e, (exists d, kind_of e = kd d) /\ w_sent (fst (t_exchange p kd w)) = w_sent w ++ [e] /\
      (forall m, snd (t_exchange p kd w) = ROk m -> answered (w_sent w) e m) /\
      (forall m, answered (w_sent w) e m -> snd (t_exchange p kd w) = ROk m).
  Proof.
    unfold Error_Model.t_exchange, tbind, tnamed. cbn.
    destruct (sign_ok _ _); cbn [named]; [|left; split; [reflexivity|discriminate]|left; split; [reflexivity|discriminate]].
    match goal with |- context [Error_Model.t_request _ _ _ _ _ _ p ?q ?w1] => destruct (request_shape p q w1) as [H|(e&H1&H2&H3&H4)] end.
    - left. exact H.
    - right. exists e. split; [eexists; exact H1|]. auto.
  Qed.
  (** The end of a dialog, as the last message. *)
  Definition ends_only {A} (Q : Prop) (m : tact A) : Prop := forall w,
    (w_sent (fst (m w)) = w_sent w /\ not_ok (snd (m w))) \/
    exists e, Q /\ is_end (kind_of e) /\ w_sent (fst (m w)) = w_sent w ++ [e] /\
      (forall a, snd (m w) = ROk a -> exists x, answered (w_sent w) e x /\ ~ has_error x) /\
      (forall t x, snd (m w) = RErr t -> answered (w_sent w) e x -> has_error x).
  Lemma ends_only_bind {A C} (Q : Prop) (m : tact A) (k : A -> tact C) : still m -> (forall a, (exists w w1, m w = (w1, ROk a)) -> ends_only Q (k a)) ->
    ends_only Q (tbind m k).
  Proof.
    intros S K w. unfold tbind. specialize (S w). destruct (m w) as [w1 [a|t|]] eqn:E; cbn [fst snd] in *.
    - rewrite <- S. apply K. eauto.
    - left. split; [exact S|discriminate].
    - left. split; [exact S|discriminate].
  Qed.
  Lemma ends_only_end {C} (Q : Prop) (k : unit -> tact C) : Q -> still (k tt) -> (forall w, exists c, snd (k tt w) = ROk c) -> ends_only Q (tbind t_end k).
  Proof.
    intros HQ S N w. unfold Error_Model.t_end. rewrite bind_assoc. unfold tbind.
    match goal with |- context [Error_Model.t_exchange _ _ _ _ _ _ _ _ ?p ?kd w] => destruct (exchange_shape p kd w) as [(H1&H2)|(e&(d&H1)&H2&H3&H4)];
      destruct (Error_Model.t_exchange _ _ _ _ _ _ _ _ p kd w) as [w1 [m|t|]] end; cbn [fst snd] in *.
    - now destruct (H2 m).
    - left. split; [exact H1|discriminate].
    - left. split; [exact H1|discriminate].
    - right. exists e. split; [exact HQ|]. split; [eexists; exact H1|].
      pose proof (H3 m eq_refl) as Ha.
      destruct (t_fail quote end_label m w1) as [w2 [u|t|]] eqn:Ef; cbn [fst snd].
      + unfold t_fail, tlift in Ef. injection Ef as <- Ef. destruct u. split; [now rewrite S|].
        assert (Hn : ~ has_error m).
        { intros K. apply has_error_spec in K. apply existsb_exists in K. destruct K as (x&K1&K2).
          destruct (filter is_err (bm_acks m)) eqn:E; [|discriminate]. assert (K3 : In x []); [|exact K3]. rewrite <- E. apply filter_In. auto. }
        split; [intros _ _; eauto|]. intros t x Ht. destruct (N w1) as (c&Hc). congruence.
      + pose proof Ef as Ef2. unfold t_fail, tlift in Ef. injection Ef as <- Ef. split; [exact H2|]. split; [discriminate|].
        intros t' x _ Hx. assert (x = m) by (apply H4 in Hx; congruence). subst x.
        apply (fail_text quote end_label m w1 t). now rewrite Ef2.
      + unfold t_fail, tlift in Ef. destruct (filter _ _); discriminate.
    - right. exists e. split; [exact HQ|]. split; [eexists; exact H1|]. split; [exact H2|]. split; [discriminate|].
      intros t' x _ Hx. apply H4 in Hx. discriminate.
    - right. exists e. split; [exact HQ|]. split; [eexists; exact H1|]. split; [exact H2|]. split; discriminate.
  Qed.
  Definition syncs {A} (m : tact A) : Prop := forall w, exists l, w_sent (fst (m w)) = w_sent w ++ l /\
    (forall a, snd (m w) = ROk a -> synchronised bank others (w_sent w) l) /\
    (forall t, snd (m w) = RErr t -> ~ synchronised bank others (w_sent w) l).
  Lemma short_not_synchronised h l : (List.length l < 2)%nat -> ~ synchronised bank others h l.
  Proof. intros L (s&e&r&ms&me&->&_). cbn in L. lia. Qed.
  Lemma syncs_bind {A C} (m : tact A) (k : A -> tact C) : still m -> (forall a, (exists w w1, m w = (w1, ROk a)) -> syncs (k a)) -> syncs (tbind m k).
  Proof.
    intros S K w. unfold tbind. specialize (S w). destruct (m w) as [w1 [a|t|]] eqn:E; cbn [fst snd] in *.
    - rewrite <- S. apply K. eauto.
    - exists []. rewrite app_nil_r. split; [exact S|]. split; [discriminate|]. intros t' _. apply short_not_synchronised. cbn. lia.
    - exists []. rewrite app_nil_r. split; [exact S|]. split; discriminate.
  Qed.
  Lemma syncs_request {C} p q (k : reply -> tact C) c : rq_kind q = KSync c -> (forall m, ends_only (~ has_error m) (k m)) -> syncs (tbind (t_request p q) k).
  Proof.
    intros Hq K w. unfold tbind. destruct (request_shape p q w) as [(H1&H2)|(s&H1&H2&H3&H4)];
      destruct (t_request p q w) as [w1 [m|t|]]; cbn [fst snd] in *.
    - now destruct (H2 m).
    - exists []. rewrite app_nil_r. split; [exact H1|]. split; [discriminate|]. intros t' _. apply short_not_synchronised. cbn. lia.
    - exists []. rewrite app_nil_r. split; [exact H1|]. split; discriminate.
    - pose proof (H3 m eq_refl) as Ha. destruct (K m w1) as [(E1&E2)|(e&Hn&Ke&E1&E2&E3)].
      + exists [s]. split; [now rewrite E1|]. split; [intros a X; destruct (E2 a X)|]. intros t _. apply short_not_synchronised. cbn. lia.
      + exists [s; e]. split; [rewrite E1, H2; now rewrite <- app_assoc|]. rewrite H2 in E2, E3. split.
        * intros a X. destruct (E2 a X) as (x&X1&X2). exists s, e, [], m, x. split; [reflexivity|]. split; [exists c; congruence|]. auto.
        * intros t X (s'&e'&r&ms&me&Y1&Y2&Y3&Y4&Y5&Y6&Y7). injection Y1 as <- <- <-. apply Y7. eapply E3; eauto.
    - exists [s]. split; [exact H2|]. split; [discriminate|]. intros t' _. apply short_not_synchronised. cbn. lia.
    - exists [s]. split; [exact H2|]. split; discriminate.
  Qed.
  Lemma syncs_sync : syncs t_sync_system.
  Proof.
    unfold Error_Model.t_sync_system. apply syncs_bind; [apply still_new|]. intros q (w&w1&E). apply new_kind in E. destruct E as (d&E).
    apply syncs_bind; [apply still_sign|]. intros _ _. apply syncs_bind; [now apply still_named'|]. intros _ _.
    apply syncs_bind; [apply still_envelope|]. intros q' (w2&w3&E2). apply envelope_kind in E2.
    apply syncs_request with (d_client d); [congruence|]. intros m.
    apply ends_only_bind; [apply still_take|]. intros _ _.
    apply ends_only_bind; [apply still_fail|]. intros x (w4&w5&E3). pose proof (fail_passed quote _ m w4 w5 x E3) as Hn.
    apply ends_only_bind; [apply still_named, quiet_update|]. intros _ _.
    apply ends_only_bind.
    { apply still_named'. intros w'. destruct (find_seg m (B "HISYN")) as [[s|?|?|?|?|?|?|?]|]; try reflexivity. now destruct s. }
    intros _ _. apply ends_only_bind; [apply still_named, quiet_bpd|]. intros _ _.
    apply ends_only_bind; [apply still_named, quiet_upd|]. intros _ _.
    apply ends_only_end; [exact Hn| |].
    - apply still_bind; [now apply still_named'|]. intros d'. apply still_ret.
    - intros w'. eexists. reflexivity.
  Qed.
  (** SendMessage returns what the bank answered. *)
  Lemma send_reads j w m : snd (t_send j w) = ROk m -> reads others m.
  Proof.
    unfold Error_Model.t_send, tbind at 1. destruct (t_init _ _ _ _ _ _ _ _ _ _ w) as [w1 [u|t|]]; cbn [snd]; try discriminate.
    unfold tdeferred. intros H.
    match goal with H : context [tbind (t_exchange ?p ?kd) ?k w1] |- _ =>
      assert (X : snd (tbind (t_exchange p kd) k w1) = ROk m) end.
    { destruct (tbind _ _ w1) as [w2 r]. destruct (t_end w2) as [w3 c]. cbn [snd] in *. destruct c; try discriminate; exact H. }
    clear H. unfold tbind in X. 
    match type of X with context [Error_Model.t_exchange _ _ _ _ _ _ _ _ ?p ?kd w1] => destruct (exchange_shape p kd w1) as [(H1&H2)|(e&(d&H1)&H2&H3&H4)];
      destruct (Error_Model.t_exchange _ _ _ _ _ _ _ _ p kd w1) as [w2 [m'|t|]] end; cbn [fst snd] in *; try discriminate.
    - now destruct (H2 m').
    - destruct (t_fail quote _ m' w2) as [w3 [u'|t|]]; try discriminate. injection X as <-. destruct (H3 m' eq_refl) as (raw&_&R). now exists raw.
  Qed.
  Hypothesis Hreg : regular others.
  Lemma send_answered j w w9 m : t_send j w = (w9, ROk m) -> exists l, w_sent w9 = w_sent w ++ l /\ job_answered bank others (w_sent w) l m.
  Proof.
    unfold Error_Model.t_send, tbind at 1.
    destruct (blames_init sign_ok compose bank others pick sign_why compose_why bank_why read_why quote Hreg w) as (l&E&_).
    destruct (t_init _ _ _ _ _ _ _ _ _ _ w) as [w1 [u|t|]]; cbn [fst] in E; try discriminate.
    unfold tdeferred, tbind.
    match goal with |- context [Error_Model.t_exchange _ _ _ _ _ _ _ _ ?p ?kd w1] => destruct (exchange_shape p kd w1) as [(H1&H2)|(e&(d&H1)&H2&H3&H4)];
      destruct (Error_Model.t_exchange _ _ _ _ _ _ _ _ p kd w1) as [w2 [m'|t|]] end; cbn [fst snd] in *;
      try (now destruct (H2 m')); try (destruct (t_end _) as [w4 [?|?|]]; discriminate).
    pose proof (still_fail quote (B "institute returned errors:" ++ [x0a]) m' w2) as S.
    destruct (t_fail quote _ m' w2) as [w3 [u'|t|]] eqn:Ef; try (destruct (t_end _) as [w4 [?|?|]]; discriminate).
    apply fail_passed in Ef.
    unfold tret, tlift. intros X.
    destruct (sends_end sign_ok compose bank others sign_why compose_why bank_why read_why quote w3) as [(K&_)|(c&K&K2)];
      destruct (t_end w3) as [w4 r]; cbn [fst snd] in *.
    - assert (w4 = w9 /\ m' = m) as (->&->) by (destruct r; try discriminate; split; congruence).
      exists (l ++ [e]). split; [now rewrite K, S, H2, E, app_assoc|]. exists l, e, []. split; [reflexivity|]. split; [now exists j|].
      split; [now left|]. split; [rewrite <- E; now apply H3|exact Ef].
    - assert (w4 = w9 /\ m' = m) as (->&->) by (destruct r; try discriminate; split; congruence).
      exists (l ++ [e; c]). split; [rewrite K, S, H2, E, <- !app_assoc; reflexivity|]. exists l, e, [c]. split; [reflexivity|]. split; [now exists j|].
      split; [right; now exists c|]. split; [rewrite <- E; now apply H3|exact Ef].
  Qed.
End Dialog.

Section Client.
  Context {A Acc Bal SBal St Tx : Type}.
  Notation J := (Client_Model.job A).
  Variable sign_ok : list (entry J) -> request J -> outcome unit.
  Variable compose : list (entry J) -> request J -> outcome bytes.
  Variable bank : list (entry J) -> outcome bytes.
  Variable others : bytes -> Z -> option (bytes -> outcome (oseg Acc)).
  Variable pick : list (entry J) -> nat.
  Variable sign_why : list (entry J) -> request J -> bytes.
  Variable compose_why : list (entry J) -> request J -> bytes.
  Variable bank_why : list (entry J) -> bytes.
  Variable read_why : bytes -> bytes.
  Variable quote : bytes -> bytes.
  Variable balance_in : bytes -> outcome Bal.
  Variable sepa_balance_in : bytes -> outcome SBal.
  Variable booked_in : bytes -> outcome bytes.
  Variable status_in : bytes -> outcome St.
  Variable read_mt940 : bytes -> outcome (list Tx).
  Variable mt940_why : bytes -> bytes.
  Variable sort : list mt -> list mt.
  Variable clock : nat -> Z.
  Hypothesis Hreg : regular others.
  Notation world := (@world J Acc).
  Notation tact := (@tact J Acc).
  Notation t_client_init := (t_client_init sign_ok compose bank others pick sign_why compose_why bank_why read_why quote).
  Notation t_accounts := (t_accounts sign_ok compose bank others pick sign_why compose_why bank_why read_why quote).
  Notation t_account_balances := (t_account_balances sign_ok compose bank others pick sign_why compose_why bank_why read_why quote balance_in).
  Notation t_balance_page := (t_balance_page sign_ok compose bank others pick sign_why compose_why bank_why read_why quote sepa_balance_in).
  Notation t_sepa_account_balances := (t_sepa_account_balances sign_ok compose bank others pick sign_why compose_why bank_why read_why quote sepa_balance_in).
  Notation t_transaction_page := (t_transaction_page sign_ok compose bank others pick sign_why compose_why bank_why read_why quote booked_in sort clock).
  Notation t_transaction_pages := (t_transaction_pages sign_ok compose bank others pick sign_why compose_why bank_why read_why quote booked_in sort clock).
  Notation t_transactions := (t_transactions sign_ok compose bank others pick sign_why compose_why bank_why read_why quote booked_in read_mt940 mt940_why sort clock).
  Notation t_account_information := (t_account_information sign_ok compose bank others pick sign_why compose_why bank_why read_why quote).
  Notation t_status := (t_status sign_ok compose bank others pick sign_why compose_why bank_why read_why quote status_in).
  Notation t_send := (t_send sign_ok compose bank others pick sign_why compose_why bank_why read_why quote).
  Notation failed := (failed sign_ok compose bank others sign_why compose_why bank_why read_why quote).
  Notation synchronised := (synchronised bank others).

  Lemma failed_more h l1 l2 t : failed (h ++ l1) l2 t -> failed h (l1 ++ l2) t.
  Proof.
    intros (b&a&->&H&K). exists (l1 ++ b), a. split; [now rewrite app_assoc|]. split; [|exact K].
    destruct H as [H|[H|(b'&e&->&H)]]; [left; now rewrite app_assoc|right; left; now rewrite app_assoc|right; right].
    exists (l1 ++ b'), e. split; [apply app_assoc|]. now rewrite app_assoc.
  Qed.
  Lemma failed_ends {X} (m : tact X) w : ends_at (here (user_before sign_ok compose sign_why compose_why) (user_about bank others bank_why read_why quote)) m w ->
    exists l, w_sent (fst (m w)) = w_sent w ++ l /\ forall t, snd (m w) = RErr t -> failed (w_sent w) l t.
  Proof.
    intros (l&E&P). exists l. split; [exact E|]. intros t Ht. destruct (P t Ht) as (b&a&H1&H2&H3). exists b, a. split; [exact H1|]. split; [|exact H3].
    now apply here_user.
  Qed.
  Lemma send_fails j w : exists l, w_sent (fst (t_send j w)) = w_sent w ++ l /\ forall t, snd (t_send j w) = RErr t -> failed (w_sent w) l t.
  Proof. apply failed_ends. now apply ended_send. Qed.
  Lemma init_cases w : exists l, w_sent (fst (t_client_init w)) = w_sent w ++ l /\
    (forall a, snd (t_client_init w) = ROk a -> d_bpd_version (w_d w) = 0 -> synchronised (w_sent w) l) /\
    (forall t, snd (t_client_init w) = RErr t -> d_bpd_version (w_d w) = 0 /\ ~ synchronised (w_sent w) l /\
       exists t', t = B "error while fetching accounts: " ++ t' /\ failed (w_sent w) l t').
  Proof.
    unfold Error_Model.t_client_init, tbind at 1 3 5, tnamed. cbn [get named].
    change (get w) with (w, Ok (w_d w)). cbn [named]. destruct (Z.eqb_spec (d_bpd_version (w_d w)) 0) as [E|E].
    - unfold tbind, tprefixed. destruct (syncs_sync sign_ok compose bank others pick sign_why compose_why bank_why read_why quote w) as (l&E1&S1&S2).
      destruct (failed_ends (t_sync_system sign_ok compose bank others pick sign_why compose_why bank_why read_why quote) w) as (l'&E2&S3).
      { apply ended_here. now apply blames_sync. }
      assert (l' = l) by (apply (app_inv_head (w_sent w)); congruence). subst l'.
      destruct (t_sync_system _ _ _ _ _ _ _ _ _ _ w) as [w1 [x|t|]]; cbn [prefixed fst snd] in *; exists l; (split; [exact E1|]).
      + split; [intros a _ _; now apply S1 with x|discriminate].
      + split; [discriminate|]. intros t' Ht. injection Ht as <-. split; [exact E|]. split; [now apply S2 with t|]. exists t. auto.
      + split; discriminate.
    - exists []. rewrite app_nil_r. split; [reflexivity|]. split; [intros a _ K; contradiction|discriminate].
  Qed.
  Lemma synchronised_more h l1 l2 : synchronised h l1 -> synchronised h (l1 ++ l2).
  Proof. intros (s&e&r&ms&me&->&H). exists s, e, (r ++ l2), ms, me. split; [reflexivity|exact H]. Qed.

  (** A call, from its beginning. *)
  Definition first_step (rest : list (bytes * Z) -> list (entry J) -> list (entry J) -> bytes -> Prop) (v : Z) sup h l text : Prop :=
    (v = 0 /\ ~ synchronised h l /\ exists t, text = B "error while fetching accounts: " ++ t /\ failed h l t) \/
    ((v = 0 -> synchronised h l) /\ rest sup h l text).
  Definition reasons {X} (rest : list (bytes * Z) -> list (entry J) -> list (entry J) -> bytes -> Prop) (m : tact X) (w : world) : Prop :=
    exists l, w_sent (fst (m w)) = w_sent w ++ l /\ forall t, snd (m w) = RErr t -> rest (d_supported (w_d (fst (m w)))) (w_sent w) l t.
  Definition grows (rest : list (bytes * Z) -> list (entry J) -> list (entry J) -> bytes -> Prop) : Prop :=
    forall sup h l1 l2 t, rest sup (h ++ l1) l2 t -> rest sup h (l1 ++ l2) t.
  Lemma reasons_init {X} rest (k : unit -> tact X) w : grows rest -> (forall w, reasons rest (k tt) w) ->
    reasons (fun sup h l t => first_step rest (d_bpd_version (w_d w)) sup h l t) (tbind t_client_init k) w.
  Proof.
    intros G K. unfold reasons, tbind. destruct (init_cases w) as (l&E&S1&S2).
    destruct (t_client_init w) as [w1 [[]|t|]]; cbn [fst snd] in *.
    - destruct (K w1) as (l2&E2&P). exists (l ++ l2). split; [now rewrite E2, E, app_assoc|]. intros t Ht. right. split.
      + intros V. apply synchronised_more. now apply (S1 tt).
      + apply G. rewrite <- E. now apply P.
    - exists l. split; [exact E|]. intros t' Ht. left. apply S2. congruence.
    - exists l. split; [exact E|discriminate].
  Qed.
  Lemma reasons_bind {X Y} rest (m : tact X) (k : X -> tact Y) w : grows rest -> reasons rest m w ->
    (forall a w1, m w = (w1, ROk a) -> reasons rest (k a) w1) -> reasons rest (tbind m k) w.
  Proof.
    intros G (l&E&P) K. unfold reasons, tbind. destruct (m w) as [w1 [a|t|]] eqn:Em; cbn [fst snd] in *.
    - destruct (K a w1 eq_refl) as (l2&E2&P2). exists (l ++ l2). split; [now rewrite E2, E, app_assoc|]. intros t Ht. apply G. rewrite <- E. auto.
    - exists l. split; [exact E|]. intros t' Ht. apply P. congruence.
    - exists l. split; [exact E|discriminate].
  Qed.
  Lemma reasons_still {X} (rest : _ -> _ -> _ -> _ -> Prop) (m : tact X) w : still m -> (forall t, snd (m w) = RErr t -> rest (d_supported (w_d (fst (m w)))) (w_sent w) [] t) -> reasons rest m w.
  Proof. intros S P. exists []. rewrite app_nil_r. split; [apply S|exact P]. Qed.
  Lemma reasons_weak {X} (r1 r2 : _ -> _ -> _ -> _ -> Prop) (m : tact X) w : (forall s h l t, r1 s h l t -> r2 s h l t) -> reasons r1 m w -> reasons r2 m w.
  Proof. intros I (l&E&P). exists l. split; [exact E|]. intros t Ht. auto. Qed.
  Lemma sort_desc_sorted l : Sorted Z.ge (sort_desc l).
  Proof.
    induction l as [|x l IH]; [constructor|]. cbn [sort_desc fold_right]. change (fold_right insert_desc [] l) with (sort_desc l).
    induction IH as [|y r Hr IH Hd]; cbn [insert_desc]; [repeat constructor|]. destruct (Z.leb_spec y x).
    - constructor; [constructor; assumption|]. constructor. lia.
    - constructor; [exact IH|]. destruct r as [|z r]; cbn [insert_desc]; [constructor; lia|].
      destruct (Z.leb_spec z x); constructor; [lia|]. now inversion Hd.
  Qed.
  Lemma build_text sup id request what has b t : (forall vs v, b vs = Err -> In v vs -> ~ In v has) ->
    t_build sup id request what b = RErr t -> not_offered sup id request what has t.
  Proof.
    intros Hb. unfold t_build, versions_of. destruct (filter (fun s => bytes_eqb (fst s) id) sup) as [|x r] eqn:E.
    - intros H. injection H as <-. left. split; [|reflexivity]. intros v K. assert (F : In (id, v) []); [|exact F].
      rewrite <- E. apply filter_In. split; [exact K|]. cbn. apply bytes_eqb_refl.
    - intros H. right. exists (sort_desc (map snd (x :: r))). split.
      { intros K. pose proof (sort_desc_perm (map snd (x :: r))) as P. rewrite K in P. apply Permutation_sym, Permutation_nil in P. discriminate. }
      split; [rewrite E; symmetry; apply sort_desc_perm|]. split; [apply sort_desc_sorted|].
      destruct (b (map snd (x :: r))) eqn:Eb; try discriminate. cbn [named] in H. injection H as <-. split; [|reflexivity].
      intros v Hv. apply (Hb _ _ Eb). eapply Permutation_in; [apply Permutation_sym, sort_desc_perm|exact Hv].
  Qed.
  Lemma table_has t vs v : first_entry t (sort_desc vs) = Err -> In v vs -> ~ In v (map fst t).
  Proof. intros H. apply builder_err in H. now apply H. Qed.
  Lemma answered_more h l1 l2 m : job_answered bank others (h ++ l1) l2 m -> job_answered bank others h (l1 ++ l2) m.
  Proof.
    intros (b&e&a&->&H1&H2&H3&H4). exists (l1 ++ b), e, a. split; [now rewrite app_assoc|]. split; [exact H1|]. split; [exact H2|].
    split; [now rewrite app_assoc|exact H4].
  Qed.
  Lemma reasons_then {X Y} (rest : _ -> _ -> _ -> _ -> Prop) (m : tact X) (k : X -> tact Y) w : reasons rest m w -> (forall a, still (k a)) ->
    (forall a w1 l t, m w = (w1, ROk a) -> w_sent w1 = w_sent w ++ l -> snd (k a w1) = RErr t -> rest (d_supported (w_d (fst (k a w1)))) (w_sent w) l t) ->
    reasons rest (tbind m k) w.
  Proof.
    intros (l&E&P) S K. unfold reasons, tbind. destruct (m w) as [w1 [a|t|]] eqn:Em; cbn [fst snd] in *.
    - exists l. split; [now rewrite S|]. intros t Ht. now apply K.
    - exists l. split; [exact E|]. intros t' Ht. apply P. congruence.
    - exists l. split; [exact E|discriminate].
  Qed.

  (** ** The segments of an answer *)
  Hypothesis Hacc : accessible others balance_in booked_in status_in.
  Lemma in_decrypted_head (h : msg_header) raw (m : bank_message (oseg Acc)) x : new_decrypted others h raw = Ok m -> In x (bm_segments m) ->
    exists hd f s, extract_header s = Ok hd /\ sh_id hd = fst x /\ known others (sh_id hd) (sh_version hd) = Some f /\ f s = Ok (snd x).
  Proof.
    unfold new_decrypted, unmarshal_all. intros H Hx.
    destruct (message_extract raw) as [ss| |]; cbn [obind] in H; try discriminate.
    destruct (all_ok (unmarshal_one others) ss) as [os| |] eqn:Eo; cbn [obind] in H; try discriminate.
    destruct (all_ok seg_acks _) as [acks| |]; cbn [obind] in H; try discriminate.
    destruct (mh_hbci h) as [v|]; try discriminate. destruct (_ || _); try discriminate. injection H as <-. cbn [bm_segments] in Hx.
    unfold somes in Hx. apply in_flat_map in Hx. destruct Hx as ([y|]&Hy&Hx); [|destruct Hx]. destruct Hx as [<-|[]].
    destruct (all_ok_in _ _ _ Eo _ Hy) as (s&_&Es). unfold unmarshal_one in Es.
    destruct (extract_header s) as [hd| |] eqn:Eh; cbn in Es; try discriminate.
    destruct (known others (sh_id hd) (sh_version hd)) as [f|] eqn:Ek; try discriminate.
    destruct (f s) as [p| |] eqn:Ef; cbn in Es; try discriminate. injection Es as <-. exists hd, f, s. auto.
  Qed.
  Lemma in_reply_head (m : bank_message (oseg Acc)) x : reads others m -> In x (bm_segments m) ->
    exists hd f s, extract_header s = Ok hd /\ sh_id hd = fst x /\ known others (sh_id hd) (sh_version hd) = Some f /\ f s = Ok (snd x).
  Proof.
    intros (raw&H) Hx. unfold read_response in H. destruct (se_extract (new_segment_extractor raw)) as [ex r].
    destruct r; cbn [obind] in H; try discriminate. destruct (find_segment ex (B "HNHBK")) as [hs|]; try discriminate.
    destruct (unmarshal_msg_header hs) as [h| |]; cbn [obind] in H; try discriminate.
    destruct (find_segment ex (B "HNVSK")).
    - destruct (find_segment ex (B "HNVSD")) as [ds|]; try discriminate.
      destruct (unmarshal_data_seg ds) as [[d|]| |]; cbn [obind] in H; try discriminate. apply (in_decrypted_head h d m x H Hx).
    - apply (in_decrypted_head h raw m x H Hx).
  Qed.
  Lemma from_reader (m : bank_message (oseg Acc)) id r : reads others m -> id <> B "HIRMG" -> id <> B "HIRMS" -> In (OSeg r) (find_segs m id) ->
    exists hd f raw, extract_header raw = Ok hd /\ sh_id hd = id /\ others (sh_id hd) (sh_version hd) = Some f /\ f raw = Ok (OSeg r).
  Proof.
    intros R N1 N2 H. unfold find_segs, segments_by_id in H. rewrite map_map in H. apply in_map_iff in H. destruct H as ([i p]&E0&H).
    apply filter_In in H. destruct H as (H&E). cbn [fst] in E. apply eqb_true in E. subst i.
    destruct (in_reply_head m _ R H) as (hd&f&raw&Hh&Hi&Hk&Hf). cbn [fst snd] in *. unfold known in Hk.
    destruct (bytes_eqb (sh_id hd) (B "HIRMG")) eqn:E1; [apply eqb_true in E1; congruence|].
    destruct (bytes_eqb (sh_id hd) (B "HIRMS")) eqn:E2; [apply eqb_true in E2; congruence|].
    destruct (others (sh_id hd) (sh_version hd)) as [g|] eqn:E3; [|discriminate]. injection Hk as <-.
    destruct (g raw) as [o| |] eqn:E4; cbn in Hf; try discriminate. injection Hf as <-. cbn [snd seg_of] in E0. subst o. exists hd, g, raw. auto.
  Qed.
  Lemma read_segs_text {X} bad unreadable (f : bytes -> outcome X) (l : list (oseg Acc)) t : t_read_segs bad unreadable f l = RErr t ->
    (t = bad /\ exists s, In s l /\ forall raw, s <> OSeg raw) \/ t = unreadable /\ exists r, In (OSeg r) l /\ f r = Err.
  Proof.
    induction l as [|s l IH]; cbn [t_read_segs]; [discriminate|]. intros H.
    destruct s; try (left; split; [congruence|]; eexists; split; [left; reflexivity|discriminate]). destruct (f raw) as [x| |] eqn:E; try discriminate.
    - destruct (t_read_segs bad unreadable f l) as [xs|t'|]; try discriminate. destruct (IH H) as [(K&r&K1&K2)|(K&r&K1&K2)]; [left|right].
      + split; [exact K|]. exists r. split; [now right|exact K2].
      + split; [exact K|]. exists r. split; [now right|exact K2].
    - right. split; [congruence|]. exists raw. split; [now left|exact E].
  Qed.
  Lemma read_segs_none {X} bad unreadable (f : bytes -> outcome X) (l : list (oseg Acc)) : t_read_segs bad unreadable f l = ROk [] -> l = [].
  Proof.
    destruct l as [|s l]; [reflexivity|]. cbn [t_read_segs]. destruct s; try discriminate. destruct (f raw); try discriminate.
    destruct (t_read_segs bad unreadable f l); discriminate.
  Qed.

  Definition send_or (P : list (entry J) -> list (entry J) -> bytes -> Prop) : list (bytes * Z) -> list (entry J) -> list (entry J) -> bytes -> Prop :=
    fun _ h l t => failed h l t \/ P h l t.
  Definition build_or (id request what : bytes) has (P : list (entry J) -> list (entry J) -> bytes -> Prop) : list (bytes * Z) -> list (entry J) -> list (entry J) -> bytes -> Prop :=
    fun sup h l t => failed h l t \/ not_offered sup id request what has t \/ P h l t.
  Definition lengthens (P : list (entry J) -> list (entry J) -> bytes -> Prop) : Prop := forall h l1 l2 t, P (h ++ l1) l2 t -> P h (l1 ++ l2) t.
  Lemma grows_send P : lengthens P -> grows (send_or P).
  Proof. intros G sup h l1 l2 t [H|H]; [left; now apply failed_more|right; now apply G]. Qed.
  Lemma grows_build id request what has P : lengthens P -> grows (build_or id request what has P).
  Proof. intros G sup h l1 l2 t [H|[H|H]]; [left; now apply failed_more|right; now left|right; right; now apply G]. Qed.
  Lemma reasons_get {X} rest (k : dstate Acc -> tact X) w : reasons rest (k (w_d w)) w -> reasons rest (tbind (tnamed [] get) k) w.
  Proof. exact (fun H => H). Qed.
  Lemma reasons_build {X} id request what has P b (k : Z -> tact X) w : lengthens P -> (forall vs v, b vs = Err -> In v vs -> ~ In v has) ->
    (forall v, reasons (build_or id request what has P) (k v) w) ->
    reasons (build_or id request what has P) (tbind (tlift (t_build (d_supported (w_d w)) id request what b)) k) w.
  Proof.
    intros G Hb K. apply reasons_bind; [now apply grows_build| |].
    - apply reasons_still; [apply still_lift|]. cbn [tlift fst snd]. intros t Ht. right. left. eapply build_text; [exact Hb|exact Ht].
    - intros v w1 E. unfold tlift in E. injection E as <- _. apply K.
  Qed.
  Lemma reasons_send {X} (rest : _ -> _ -> _ -> _ -> Prop) j (k : _ -> tact X) w : (forall s h l t, failed h l t -> rest s h l t) ->
    (forall m, still (k m)) ->
    (forall m w1 h l t s, reads others m -> job_answered bank others h l m -> snd (k m w1) = RErr t -> rest s h l t) -> reasons rest (tbind (t_send j) k) w.
  Proof.
    intros I S K. apply reasons_then; [|exact S|].
    - destruct (send_fails j w) as (l&E&P). exists l. split; [exact E|]. intros t Ht. apply I. auto.
    - intros m w1 l t E El Ht. destruct (send_answered sign_ok compose bank others pick sign_why compose_why bank_why read_why quote Hreg j w w1 m E) as (l'&E'&Ha).
      assert (l' = l) by (apply (app_inv_head (w_sent w)); congruence). subst l'. apply K with m w1; [|exact Ha|exact Ht].
      apply (send_reads sign_ok compose bank others pick sign_why compose_why bank_why read_why quote j w). now rewrite E.
  Qed.
  Lemma reasons_lift {X Y} (rest : _ -> _ -> _ -> _ -> Prop) (r : result X) (k : X -> tact Y) w : grows rest ->
    (forall t s h l, r = RErr t -> rest s h l t) -> (forall a w1, r = ROk a -> reasons rest (k a) w1) -> reasons rest (tbind (tlift r) k) w.
  Proof.
    intros G P K. apply reasons_bind; [exact G| |].
    - apply reasons_still; [apply still_lift|]. intros t Ht. now apply P.
    - intros a w1 E. apply K. unfold tlift in E. congruence.
  Qed.
  Lemma reasons_ret {X} (rest : _ -> _ -> _ -> _ -> Prop) (a : X) w : reasons rest (tret a) w.
  Proof. apply reasons_still; [apply still_ret|discriminate]. Qed.

  Notation balances_missing := (balances_missing bank others quote).
  Notation balance_not_sepa := (balance_not_sepa bank others (fun raw => sepa_balance_in raw = Err)).
  Lemma missing_more : lengthens balances_missing.
  Proof. intros h l1 l2 t (m&H&K). exists m. split; [now apply answered_more|exact K]. Qed.
  Lemma balances_reason args w : reasons (fun sup h l t => first_step (build_or (B "HISALS") (B "HKSAL") (B "account balance") [5; 6] balances_missing)
     (d_bpd_version (w_d w)) sup h l t) (t_account_balances args) w.
  Proof.
    apply reasons_init; [apply grows_build, missing_more|]. intros w1. apply reasons_get.
    apply reasons_build; [apply missing_more|intros vs v; apply (table_has balance_table)|]. intros v.
    apply reasons_send; [now left| |].
    { intros m. apply still_bind; [apply still_lift|]. intros bs. destruct bs; [apply still_lift|apply still_ret]. }
    intros m w2 h l t s R Ha Ht. right. right. exists m. split; [exact Ha|]. rewrite <- seg_eq.
    unfold tbind, tlift in Ht. destruct (t_read_segs _ _ balance_in (find_segs m (B "HISAL"))) as [bs|t'|] eqn:Er; cbn [snd] in Ht; try discriminate.
    - destruct bs; [|discriminate]. left. split; [now apply read_segs_none in Er|]. cbn [snd] in Ht. unfold no_balance in Ht. congruence.
    - right. injection Ht as ->. destruct (read_segs_text _ _ _ _ _ Er) as [(->&x&K1&K2)|(_&r&K1&K2)]; [exists x; auto|].
      exfalso. destruct (from_reader m (B "HISAL") r R ltac:(discriminate) ltac:(discriminate) K1) as (hd&f&raw&F1&F2&F3&F4).
      now apply (proj1 (Hacc _ _ _ _ F1 F3 F4) F2).
  Qed.
  Lemma continuation_no_err acks : continuation acks <> Err.
  Proof. unfold continuation. destruct (find _ _) as [a|]; [|discriminate]. destruct (ack_params a); discriminate. Qed.
  Definition no_sepa_or h l t : Prop := balances_missing h l t \/ balance_not_sepa h l t.
  Lemma no_sepa_more : lengthens no_sepa_or.
  Proof.
    intros h l1 l2 t [H|(m&raw&H&K)]; [left; now apply missing_more|right]. exists m, raw. split; [now apply answered_more|exact K].
  Qed.
  Lemma page_reason args mark w : reasons (fun sup h l t => first_step (build_or (B "HISALS") (B "HKSAL") (B "account balance") [7; 8] no_sepa_or)
     (d_bpd_version (w_d w)) sup h l t) (t_balance_page args mark) w.
  Proof.
    apply reasons_init; [apply grows_build, no_sepa_more|]. intros w1. apply reasons_get.
    apply reasons_build; [apply no_sepa_more|intros vs v; apply (table_has sepa_balance_table)|]. intros v.
    apply reasons_send; [now left| |].
    { intros m. apply still_bind; [apply still_lift|]. intros bs.
      apply still_bind; [destruct bs; [apply still_lift|apply still_ret]|]. intros _.
      apply still_bind; [now apply still_named'|]. intros c. apply still_ret. }
    intros m w2 h l t s R Ha Ht. right. right.
    unfold tbind, tlift in Ht. destruct (t_read_segs _ _ sepa_balance_in (find_segs m (B "HISAL"))) as [bs|t'|] eqn:Er; cbn [snd] in Ht; try discriminate.
    - destruct bs as [|b0 bs].
      + left. exists m. split; [exact Ha|]. left. rewrite <- seg_eq. split; [now apply read_segs_none in Er|]. cbn [snd] in Ht. unfold no_balance in Ht. congruence.
      + exfalso. unfold tret, tlift, tnamed, lift in Ht. pose proof (continuation_no_err (bm_acks m)).
        destruct (continuation (bm_acks m)); cbn in Ht; congruence.
    - injection Ht as ->. destruct (read_segs_text _ _ _ _ _ Er) as [(->&x&K1&K2)|(->&r&K1&K2)].
      + left. exists m. split; [exact Ha|]. right. rewrite <- seg_eq. exists x. auto.
      + right. exists m, r. rewrite <- seg_eq. auto.
  Qed.
  Definition longer (strict : nat) {X} (m : tact X) : Prop := forall w w1 a, m w = (w1, ROk a) -> (List.length (w_sent w) + strict <= List.length (w_sent w1))%nat.
  Lemma longer_bind {X Y} n n1 n2 (m : tact X) (k : X -> tact Y) : n = (n1 + n2)%nat -> longer n1 m -> (forall a, longer n2 (k a)) -> longer n (tbind m k).
  Proof.
    intros -> H K w w2 b. unfold tbind. destruct (m w) as [w1 [a|t|]] eqn:E; try discriminate. intros E2.
    apply H in E. apply K in E2. lia.
  Qed.
  Lemma longer_still {X} (m : tact X) : still m -> longer 0 m.
  Proof. intros S w w1 a E. specialize (S w). rewrite E in S. cbn in S. rewrite S. lia. Qed.
  Lemma longer_ends {X} (m : tact X) : (forall w, exists l, w_sent (fst (m w)) = w_sent w ++ l) -> longer 0 m.
  Proof. intros S w w1 a E. destruct (S w) as (l&H). rewrite E in H. cbn in H. rewrite H, app_length. lia. Qed.
  Lemma longer_send j : longer 1 (t_send j).
  Proof.
    unfold Error_Model.t_send. apply (longer_bind 1 0 1); [reflexivity| |].
    - apply longer_ends. intros w. destruct (blames_init sign_ok compose bank others pick sign_why compose_why bank_why read_why quote Hreg w) as (l&E&_). eauto.
    - intros _ w w1 m E. unfold tdeferred in E.
      match type of E with context [tbind (t_exchange ?p1 ?p2 ?p3 ?p4 ?p5 ?p6 ?p7 ?p8 ?p ?kd) ?k w] =>
        assert (L : longer 1 (tbind (t_exchange p1 p2 p3 p4 p5 p6 p7 p8 p kd) k)) end.
      { apply (longer_bind 1 1 0); [reflexivity| |].
        - intros w0 w2 x Ex. match type of Ex with t_exchange _ _ _ _ _ _ _ _ ?p ?kd _ = _ =>
            destruct (exchange_shape sign_ok compose bank others sign_why compose_why bank_why read_why p kd w0) as [(_&H)|(e&_&H&_)]; rewrite Ex in H; cbn [fst snd] in H end.
          + now destruct (H x).
          + rewrite H, app_length. cbn. lia.
        - intros x. apply longer_still, still_bind; [apply still_fail|]. intros _. apply still_ret. }
      match type of E with context [tbind ?a ?b w] => destruct (tbind a b w) as [w2 r] eqn:Eb end.
      destruct (sends_end sign_ok compose bank others sign_why compose_why bank_why read_why quote w2) as [(H&_)|(e&H&_)];
        destruct (t_end _ _ _ _ _ _ _ _ _ w2) as [w3 c]; cbn [fst snd] in *; destruct c; try discriminate; injection E as <- ->;
        apply L in Eb; rewrite H, ?app_length; cbn; lia.
  Qed.
  Lemma longer_init : longer 0 t_client_init.
  Proof. apply longer_ends. intros w. destruct (init_cases w) as (l&E&_). eauto. Qed.
  Lemma longer_page args mark : longer 1 (t_balance_page args mark).
  Proof.
    apply (longer_bind 1 0 1); [reflexivity|apply longer_init|]. intros _.
    apply (longer_bind 1 0 1); [reflexivity|apply longer_still; now apply still_named'|]. intros d.
    apply (longer_bind 1 0 1); [reflexivity|apply longer_still, still_lift|]. intros v.
    apply (longer_bind 1 1 0); [reflexivity|apply longer_send|]. intros m.
    apply longer_still, still_bind; [apply still_lift|]. intros bs.
    apply still_bind; [destruct bs; [apply still_lift|apply still_ret]|]. intros _.
    apply still_bind; [now apply still_named'|]. intros c. apply still_ret.
  Qed.
  (** Later pages start again with the bank parameters of that time. *)
  Lemma sepa_reason fuel args mark w : exists l, w_sent (fst (t_sepa_account_balances fuel args mark w)) = w_sent w ++ l /\
    forall t, snd (t_sepa_account_balances fuel args mark w) = Some (RErr t) ->
      exists v l1 l2, l = l1 ++ l2 /\ (l1 = [] -> v = d_bpd_version (w_d w)) /\
        first_step (build_or (B "HISALS") (B "HKSAL") (B "account balance") [7; 8] no_sepa_or) v
          (d_supported (w_d (fst (t_sepa_account_balances fuel args mark w)))) (w_sent w ++ l1) l2 t.
  Proof.
    revert mark w. induction fuel as [|fuel IH]; intros mark w.
    { exists []. rewrite app_nil_r. split; [reflexivity|discriminate]. }
    cbn [Error_Model.t_sepa_account_balances]. destruct (page_reason args mark w) as (l&E&P). pose proof (longer_page args mark w) as L.
    destruct (t_balance_page args mark w) as [w1 [[bs c]|t|]]; cbn [fst snd] in *.
    - destruct c as [|c0 c]; [exists l; split; [exact E|discriminate]|].
      destruct (IH (c0 :: c) w1) as (l2&E2&P2).
      destruct (t_sepa_account_balances fuel args (c0 :: c) w1) as [w2 r2]. cbn [fst snd] in *. exists (l ++ l2).
      assert (E3 : w_sent w2 = w_sent w ++ l ++ l2) by now rewrite E2, E, app_assoc.
      destruct r2 as [[x|t|]|]; cbn [fst snd]; (split; [exact E3|]); try discriminate.
      intros t' Ht. injection Ht as <-. destruct (P2 t eq_refl) as (v&l1&l3&->&_&F). exists v, (l ++ l1), l3. split; [now rewrite app_assoc|].
      split.
      + intros K. apply app_eq_nil in K. destruct K as (->&_). specialize (L w1 _ eq_refl). rewrite E, app_nil_r in L. lia.
      + rewrite app_assoc, <- E. exact F.
    - exists l. split; [exact E|]. intros t' Ht. injection Ht as <-. exists (d_bpd_version (w_d w)), [], l. rewrite app_nil_r. auto.
    - exists l. split; [exact E|discriminate].
  Qed.
  Definition no_information h l t : Prop := exists m, job_answered bank others h l m /\ (forall s, In s (bm_raw m) -> forall rest, s <> B "HIKIF" ++ rest) /\
     t = B "malformed response: expected HIKIF segment".
  Lemma no_information_more : lengthens no_information.
  Proof. intros h l1 l2 t (m&H&K). exists m. split; [now apply answered_more|exact K]. Qed.
  Lemma information_reason args w : reasons (fun sup h l t => first_step (send_or no_information)
     (d_bpd_version (w_d w)) sup h l t) (t_account_information args) w.
  Proof.
    apply reasons_init; [apply grows_send, no_information_more|]. intros w1. apply reasons_send; [now left| |].
    { intros m. destruct (find _ (bm_raw m)); [apply still_ret|apply still_lift]. }
    intros m w2 h l t s R Ha Ht. right. exists m. split; [exact Ha|]. destruct (find _ (bm_raw m)) eqn:Ef; [discriminate|].
    cbn [tlift snd] in Ht. split; [|congruence]. intros x Hx rest ->. pose proof (find_none _ _ Ef _ Hx) as K. cbv beta in K.
    assert (K2 : has_prefix (B "HIKIF") (B "HIKIF" ++ rest) = true) by (apply has_prefix_spec; now exists rest). congruence.
  Qed.
  Lemma status_reason args mark w : reasons (fun sup h l t => first_step (build_or (B "HIPRO") (B "HKPRO") (B "status protocol") [4; 3] (fun _ _ _ => False))
     (d_bpd_version (w_d w)) sup h l t) (t_status args mark) w.
  Proof.
    assert (G : lengthens (fun _ _ _ => False)) by (intros h l1 l2 t []).
    apply reasons_init; [now apply grows_build|]. intros w1. apply reasons_get.
    apply reasons_build; [exact G|intros vs v; apply (table_has status_table)|]. intros v.
    apply reasons_send; [now left|intros m; now apply still_named'|]. intros m w2 h l t sup R Ha. unfold tnamed, lift. cbn [snd]. intros Ht. exfalso.
    assert (N : forall l, (forall r, In (OSeg r) l -> status_in r <> Err) -> all_ok (fun s : oseg Acc => match s with OSeg raw => status_in raw | _ => Panic end) l <> Err).
    { clear. intros l. induction l as [|s l IHl]; intros H; [discriminate|]. cbn [all_ok]. destruct s; try discriminate.
      pose proof (H raw (or_introl eq_refl)). destruct (status_in raw); cbn; try congruence.
      assert (K : forall r, In (OSeg r) l -> status_in r <> Err) by (intros r Hr; apply H; now right). specialize (IHl K).
      destruct (all_ok _ l); cbn; congruence. }
    specialize (N (find_segs m (B "HIPRO"))). destruct (all_ok _ (find_segs m (B "HIPRO"))); cbn in Ht; try discriminate. apply N; [|reflexivity].
    intros r Hr. destruct (from_reader m (B "HIPRO") r R ltac:(discriminate) ltac:(discriminate) Hr) as (hd&f&raw&F1&F2&F3&F4).
    now apply (proj2 (proj2 (Hacc _ _ _ _ F1 F3 F4))).
  Qed.
  Lemma accounts_reason w : reasons (fun sup h l t => first_step (fun _ h l t => t = B "error getting accounts" /\ exists t, failed h l t)
     (d_bpd_version (w_d w)) sup h l t) t_accounts w.
  Proof.
    assert (G : grows (fun _ h l t => t = B "error getting accounts" /\ exists t, failed h l t)).
    { intros sup h l1 l2 t (->&t'&H). split; [reflexivity|]. exists t'. now apply failed_more. }
    apply reasons_init; [exact G|]. intros w1. apply reasons_bind; [exact G| |].
    - destruct (failed_ends (t_sync_user sign_ok compose bank others pick sign_why compose_why bank_why read_why quote) w1) as (l&E&P); [now apply ended_sync_user|].
      unfold reasons. destruct (t_sync_user _ _ _ _ _ _ _ _ _ _ w1) as [w2 r]. cbn [fst snd] in *. exists l. split; [exact E|].
      intros t Ht. destruct r as [x|t'|]; cbn in Ht; try discriminate. injection Ht as <-. split; [reflexivity|]. exists t'. auto.
    - intros _ w2 _. apply reasons_get. apply reasons_ret.
  Qed.

  (** ** Transactions *)
  Definition page_or (what : bytes) has : list (bytes * Z) -> list (entry J) -> list (entry J) -> bytes -> Prop := fun sup h l t =>
    (exists t', t = B "error sending hbci request: " ++ t' /\ failed h l t') \/
    (exists t', t = B "error building request: " ++ t' /\ not_offered sup (B "HIKAZS") (B "HKKAZ") what has t') \/
    (exists m s, job_answered bank others h l m /\ In s (segs m (B "HIKAZ")) /\ (forall raw, s <> OSeg raw) /\
       t = B "malformed segment found with ID `HIKAZ`").
  Lemma grows_page what has : grows (page_or what has).
  Proof.
    intros sup h l1 l2 t [(t'&->&H)|[H|(m&s&H&K)]]; [left; exists t'; split; [reflexivity|now apply failed_more]|right; now left|right; right].
    exists m, s. split; [now apply answered_more|exact K].
  Qed.
  Lemma page_rest_still {X} (ds : list bytes) (m : bank_message (oseg Acc)) (g : bytes -> X) : still (J := J) (Acc := Acc) (tbind (tnamed [] (lift (continuation (bm_acks m)))) (fun c => tret (g c))).
  Proof. apply still_bind; [now apply still_named'|]. intros c. apply still_ret. Qed.
  Lemma transaction_page_reason what has tp b args mark tick w : (forall vs v, b vs = Err -> In v vs -> ~ In v has) ->
    reasons (page_or what has) (t_transaction_page what tp b args mark tick) w.
  Proof.
    intros Hb. apply reasons_get. apply reasons_bind; [apply grows_page| |].
    - apply reasons_still; [intros w0; reflexivity|]. unfold tprefixed, tlift. cbn [fst snd]. intros t Ht.
      destruct (t_build (d_supported (w_d w)) (B "HIKAZS") (B "HKKAZ") what b) as [v|t'|] eqn:Eb; cbn [prefixed] in Ht; try discriminate.
      injection Ht as <-. right. left. exists t'. split; [reflexivity|]. eapply build_text; [exact Hb|exact Eb].
    - intros v w1 _. apply reasons_then.
      + unfold reasons, tprefixed. destruct (send_fails (mkJob tp v args mark) w1) as (l&E&P).
        destruct (t_send (mkJob tp v args mark) w1) as [w2 r]. cbn [fst snd] in *. exists l. split; [exact E|]. intros t Ht.
        destruct r as [x|t'|]; cbn [prefixed] in Ht; try discriminate. injection Ht as <-. left. exists t'. auto.
      + intros m. apply still_bind; [apply still_lift|]. intros ds. apply still_bind; [now apply still_named'|]. intros c. apply still_ret.
      + intros m w2 l t Em El Ht. assert (R : reads others m /\ job_answered bank others (w_sent w1) l m).
        { unfold tprefixed in Em. pose proof (send_reads sign_ok compose bank others pick sign_why compose_why bank_why read_why quote (mkJob tp v args mark) w1) as S.
          pose proof (send_answered sign_ok compose bank others pick sign_why compose_why bank_why read_why quote Hreg (mkJob tp v args mark) w1) as S2.
          destruct (t_send (mkJob tp v args mark) w1) as [w3 [x|t'|]]; cbn in Em; try discriminate. injection Em as <- <-. split; [now apply S|].
          destruct (S2 _ _ eq_refl) as (l'&E'&Ha). assert (l' = l) by (apply (app_inv_head (w_sent w1)); congruence). now subst l'. }
        destruct R as (R&Ha). unfold tbind, tlift in Ht.
        destruct (t_read_segs _ _ booked_in (find_segs m (B "HIKAZ"))) as [ds|t'|] eqn:Er; cbn [snd] in Ht; try discriminate.
        * exfalso. unfold tret, tlift, tnamed, lift in Ht. pose proof (continuation_no_err (bm_acks m)).
          destruct (continuation (bm_acks m)); cbn in Ht; congruence.
        * injection Ht as ->. destruct (read_segs_text _ _ _ _ _ Er) as [(->&x&K1&K2)|(_&r&K1&K2)].
          { right. right. exists m, x. rewrite <- seg_eq. auto. }
          exfalso. destruct (from_reader m (B "HIKAZ") r R ltac:(discriminate) ltac:(discriminate) K1) as (hd&f&raw&F1&F2&F3&F4).
          now apply (proj1 (proj2 (Hacc _ _ _ _ F1 F3 F4)) F2).
  Qed.
  Lemma transaction_page_answered what tp b args mark tick w w9 x : t_transaction_page what tp b args mark tick w = (w9, ROk x) ->
    exists l m, w_sent w9 = w_sent w ++ l /\ job_answered bank others (w_sent w) l m.
  Proof.
    unfold Error_Model.t_transaction_page, tbind at 1. change (tnamed [] get w) with (w, ROk (w_d w)). cbv iota beta.
    unfold tbind at 1, tprefixed at 1, tlift at 1.
    destruct (t_build (d_supported (w_d w)) (B "HIKAZS") (B "HKKAZ") what b) as [v|t'|]; cbn [prefixed]; try discriminate.
    unfold tbind at 1, tprefixed.
    pose proof (send_answered sign_ok compose bank others pick sign_why compose_why bank_why read_why quote Hreg (mkJob tp v args mark) w) as S2.
    destruct (t_send (mkJob tp v args mark) w) as [w3 [m|t'|]]; cbn [prefixed]; try discriminate.
    destruct (S2 _ _ eq_refl) as (l&E&Ha). intros H. exists l, m. split; [|exact Ha]. rewrite <- E.
    match type of H with ?a w3 = _ => assert (S : still a) end.
    { apply still_bind; [apply still_lift|]. intros ds. apply still_bind; [now apply still_named'|]. intros c. apply still_ret. }
    specialize (S w3). rewrite H in S. exact S.
  Qed.
  Lemma pages_reason fuel what has tp b args mark tick w : (forall vs v, b vs = Err -> In v vs -> ~ In v has) ->
    exists l, w_sent (fst (t_transaction_pages fuel what tp b args mark tick w)) = w_sent w ++ l /\
    (forall x, snd (t_transaction_pages fuel what tp b args mark tick w) = Some (ROk x) -> exists m, job_answered bank others (w_sent w) l m) /\
    forall t, snd (t_transaction_pages fuel what tp b args mark tick w) = Some (RErr t) ->
      page_or what has (d_supported (w_d (fst (t_transaction_pages fuel what tp b args mark tick w)))) (w_sent w) l t.
  Proof.
    intros Hb. revert mark tick w. induction fuel as [|fuel IH]; intros mark tick w.
    { exists []. rewrite app_nil_r. split; [reflexivity|split; discriminate]. }
    cbn [Error_Model.t_transaction_pages]. destruct (transaction_page_reason what has tp b args mark tick w Hb) as (l&E&P).
    pose proof (transaction_page_answered what tp b args mark tick w) as An.
    destruct (t_transaction_page what tp b args mark tick w) as [w1 [[[x n] c]|t|]]; cbn [fst snd] in *.
    - destruct (An _ _ eq_refl) as (l'&m&E'&Ha). assert (l' = l) by (apply (app_inv_head (w_sent w)); congruence). subst l'.
      destruct c as [|c0 c]; [exists l; split; [exact E|]; split; [intros _ _; now exists m|discriminate]|].
      destruct (IH (c0 :: c) n w1) as (l2&E2&P1&P2).
      destruct (t_transaction_pages fuel what tp b args (c0 :: c) n w1) as [w2 r2]. cbn [fst snd] in *. exists (l ++ l2).
      assert (E3 : w_sent w2 = w_sent w ++ l ++ l2) by now rewrite E2, E, app_assoc.
      destruct r2 as [[[y k]|t|]|]; cbn [fst snd]; (split; [exact E3|]); (split; [|]); try discriminate.
      + intros x0 _. destruct (P1 _ eq_refl) as (m2&H2). exists m2. apply answered_more. now rewrite <- E.
      + intros t' Ht. injection Ht as <-. apply grows_page. rewrite <- E. now apply P2.
    - exists l. split; [exact E|]. split; [discriminate|]. intros t' Ht. injection Ht as <-. now apply P.
    - exists l. split; [exact E|split; discriminate].
  Qed.
  Notation transactions_fail := (transactions_fail sign_ok compose bank others sign_why compose_why bank_why read_why quote (fun data => read_mt940 data = Err) mt940_why).
  Lemma transactions_reason fuel what has tp b args mark tick w : (forall vs v, b vs = Err -> In v vs -> ~ In v has) ->
    exists l, w_sent (fst (t_transactions fuel what tp b args mark tick w)) = w_sent w ++ l /\
    forall t, snd (t_transactions fuel what tp b args mark tick w) = Some (RErr t) ->
      first_step (transactions_fail what has) (d_bpd_version (w_d w)) (d_supported (w_d (fst (t_transactions fuel what tp b args mark tick w)))) (w_sent w) l t.
  Proof.
    intros Hb. unfold Error_Model.t_transactions. destruct (init_cases w) as (l&E&S1&S2).
    destruct (t_client_init w) as [w1 [[]|t|]]; cbn [fst snd] in *.
    - destruct (pages_reason fuel what has tp b args mark tick w1 Hb) as (l2&E2&P1&P2).
      destruct (t_transaction_pages fuel what tp b args mark tick w1) as [w2 r2]. cbn [fst snd] in *. exists (l ++ l2).
      assert (E3 : w_sent w2 = w_sent w ++ l ++ l2) by now rewrite E2, E, app_assoc.
      assert (S3 : d_bpd_version (w_d w) = 0 -> synchronised (w_sent w) (l ++ l2)) by (intros V; apply synchronised_more; now apply (S1 tt)).
      destruct r2 as [[p|t|]|]; cbn [fst snd]; (split; [exact E3|]); try discriminate.
      + intros t Ht. right. split; [exact S3|]. right. right. right. destruct (P1 _ eq_refl) as (m&Hm). exists m, (mt_data (fst p)).
        split; [apply answered_more; now rewrite <- E|].
        destruct (read_mt940 (mt_data (fst p))); cbn [named] in Ht; try discriminate.
        split; [reflexivity|]. congruence.
      + intros t' Ht. injection Ht as <-. right. split; [exact S3|].
        pose proof (grows_page what has _ _ l l2 t (eq_rect _ (fun h => page_or what has _ h l2 t) (P2 t eq_refl) _ E)) as [(t'&->&H)|[(t'&->&H)|(m&s&H1&H2&H3&->)]].
        * left. exists t'. split; [reflexivity|exact H].
        * right. left. exists t'. split; [reflexivity|exact H].
        * right. right. left. exists m, s. auto.
    - exists l. split; [exact E|]. intros t' Ht. injection Ht as <-. left. now apply S2.
    - exists l. split; [exact E|discriminate].
  Qed.
End Client.
