(** * What the client knows of the bank's segments *)
From Coq Require Import Lia ZifyBool.
From Verif Require Import Base BaseFacts Lexer_Model Codec_Model Wire_Model Message_Model Dialog_Model Dialog_Spec Dialog_Proofs Dialog_Facts3 Merge_Model Client_Model Client_Spec Client_Proofs Client_Facts.
Open Scope Z_scope.

Section Kept.
  Context {J Acc : Type}.
  Variable sign_ok : list (entry J) -> request J -> outcome unit.
  Variable compose : list (entry J) -> request J -> outcome bytes.
  Variable bank : list (entry J) -> outcome bytes.
  Variable others : bytes -> Z -> option (bytes -> outcome (oseg Acc)).
  Variable pick : list (entry J) -> nat.
  Notation reply := (bank_message (oseg Acc)).
  Notation world := (@world J Acc).
  Notation act := (@act J Acc).
  (** A property of the list of supported segments that holds of every list taken
      from a bank message. *)
  Variable P : list (bytes * Z) -> Prop.
  Hypothesis from_message : forall m : reply, P (supported_segments m).
  Definition kept {X} (m : act X) : Prop := forall w, P (d_supported (w_d w)) -> P (d_supported (w_d (fst (m w)))).

  Lemma kept_ret {X} (x : X) : kept (ret x). Proof. intros w H. exact H. Qed.
  Lemma kept_lift {X} (o : outcome X) : kept (lift o). Proof. intros w H. exact H. Qed.
  Lemma kept_get : kept get. Proof. intros w H. exact H. Qed.
  Lemma kept_bind {X Y} (m : act X) (k : X -> act Y) : kept m -> (forall x, kept (k x)) -> kept (bind m k).
  Proof.
    intros Hm Hk w H. specialize (Hm w H). unfold bind. destruct (m w) as [w1 [x| |]]; cbn [fst] in *; try exact Hm.
    apply Hk. exact Hm.
  Qed.
  Lemma kept_deferred {X} (m : act X) c : kept m -> kept c -> kept (deferred m c).
  Proof.
    intros Hm Hc w H. specialize (Hm w H). unfold deferred. destruct (m w) as [w1 r]. cbn [fst] in *. specialize (Hc w1 Hm).
    destruct (c w1) as [w2 r2]. exact Hc.
  Qed.
  Lemma kept_modify f : (forall d, P (d_supported d) -> P (d_supported (f d))) -> kept (modify f).
  Proof. intros Hf w H. cbn. apply Hf. exact H. Qed.
  Lemma kept_fail m : kept (fail_on_error_acks m). Proof. apply kept_lift. Qed.
  Lemma kept_basic b k : kept (new_basic_message b k).
  Proof. apply kept_bind; [apply kept_modify; intros d H; exact H|]. intros _. apply kept_bind; [apply kept_get|]. intros d. apply kept_ret. Qed.
  Lemma kept_sign q : kept (sign_message sign_ok q). Proof. intros w H. exact H. Qed.
  Lemma kept_envelope q : kept (with_envelope q).
  Proof. apply kept_bind; [apply kept_get|]. intros d. apply kept_ret. Qed.
  Lemma kept_request q : kept (request_bank compose bank others q).
  Proof. intros w H. unfold request_bank. destruct (compose (w_sent w) q); exact H. Qed.
  Lemma kept_exchange k : kept (exchange sign_ok compose bank others k).
  Proof.
    apply kept_bind; [apply kept_basic|]. intros q. apply kept_bind; [apply kept_sign|]. intros _.
    apply kept_bind; [apply kept_envelope|]. intros q'. apply kept_request.
  Qed.
  Lemma kept_update m : kept (update_security_function pick m).
  Proof.
    unfold update_security_function. destruct (find_seg m (B "HITANS")) as [t|]; [|apply kept_ret].
    destruct (existsb is_3920 (bm_acks m)); [|apply kept_ret]. apply kept_bind; [apply kept_lift|].
    intros cs w H. cbv zeta. destruct (bytes_eqb _ _); exact H.
  Qed.
  Lemma kept_take m : kept (take_dialog_id m).
  Proof. unfold take_dialog_id. destruct (mh_dialog (bm_header m)); [apply kept_modify; intros d H; exact H|apply kept_lift]. Qed.
  Lemma kept_bpd m : kept (parse_bpd m).
  Proof.
    unfold parse_bpd. destruct (find_seg m (B "HIBPA")) as [[ | |v| | | | | ]|]; try apply kept_lift; try apply kept_ret.
    apply kept_bind; [apply kept_modify; intros; cbn; apply from_message|]. intros _.
    apply kept_bind; [apply kept_lift|]. intros x. apply kept_bind; [apply kept_modify; intros d H; exact H|]. intros _.
    destruct (find_seg m (B "HIPINS")) as [[]|]; try apply kept_lift; apply kept_ret.
  Qed.
  Lemma kept_accounts l : kept (add_accounts l).
  Proof.
    induction l as [|s l IH]; cbn [add_accounts]; [apply kept_ret|]. destruct s; try apply kept_lift.
    apply kept_bind; [apply kept_lift|]. intros a. apply kept_bind; [apply kept_modify; intros d H; exact H|]. intros _. exact IH.
  Qed.
  Lemma kept_news m : kept (log_news m).
  Proof. unfold log_news. destruct (find_seg m _) as [[]|]; try apply kept_lift; apply kept_ret. Qed.
  Lemma kept_upd m : kept (parse_upd m).
  Proof.
    unfold parse_upd. apply kept_bind; [|intros _; apply kept_accounts].
    destruct (find_seg m (B "HIUPA")) as [[ | | | |u| | | ]|]; try apply kept_lift; try apply kept_ret.
    apply kept_bind; [apply kept_lift|]. intros x. apply kept_modify. intros d H. exact H.
  Qed.
  Lemma kept_end : kept (end_dialog sign_ok compose bank others).
  Proof. apply kept_bind; [apply kept_exchange|]. intros m. apply kept_fail. Qed.
  Lemma kept_sync : kept (sync_client_system sign_ok compose bank others pick).
  Proof.
    unfold sync_client_system. apply kept_bind; [apply kept_basic|]. intros q. apply kept_bind; [apply kept_sign|]. intros _.
    apply kept_bind; [apply kept_modify; intros d H; exact H|]. intros _. apply kept_bind; [apply kept_envelope|]. intros q'.
    apply kept_bind; [apply kept_request|]. intros m. apply kept_bind; [apply kept_take|]. intros _.
    apply kept_bind; [apply kept_fail|]. intros _. apply kept_bind; [apply kept_update|]. intros _.
    apply kept_bind. { destruct (find_seg m (B "HISYN")) as [[s| | | | | | | ]|]; try apply kept_lift.
      apply kept_bind; [apply kept_lift|]. intros x. apply kept_modify. intros d H. exact H. }
    intros _. apply kept_bind; [apply kept_bpd|]. intros _. apply kept_bind; [apply kept_upd|]. intros _.
    apply kept_bind; [apply kept_end|]. intros _. apply kept_bind; [apply kept_get|]. intros d. apply kept_ret.
  Qed.
  Lemma kept_init : kept (init sign_ok compose bank others pick).
  Proof.
    unfold init, ensure_system, start_dialog. apply kept_bind.
    - apply kept_bind; [apply kept_get|]. intros d. destruct (bytes_eqb (d_system d) (B "0")); [|apply kept_ret].
      apply kept_bind; [apply kept_sync|]. intros s. apply kept_modify. intros d' H. exact H.
    - intros _. apply kept_bind; [apply kept_modify; intros d H; exact H|]. intros _.
      apply kept_bind; [apply kept_exchange|]. intros m. apply kept_bind; [apply kept_take|]. intros _.
      apply kept_bind; [apply kept_bpd|]. intros _. apply kept_bind; [apply kept_upd|]. intros _. apply kept_bind; [apply kept_news|]. intros _.
      apply kept_bind; [apply kept_fail|]. intros _. apply kept_update.
  Qed.
  Lemma kept_send j : kept (send_message sign_ok compose bank others pick j).
  Proof.
    apply kept_bind; [apply kept_init|]. intros _. apply kept_deferred; [|apply kept_end].
    apply kept_bind; [apply kept_exchange|]. intros m. apply kept_bind; [apply kept_fail|]. intros _. apply kept_ret.
  Qed.
  Lemma kept_sync_user : kept (sync_user_data sign_ok compose bank others pick).
  Proof. apply kept_bind; [apply kept_init|]. intros _. apply kept_deferred; [apply kept_ret|apply kept_end]. Qed.
End Kept.

Section Client.
  Context {A Acc Bal SBal St Tx : Type}.
  Notation J := (job A).
  Variable sign_ok : list (entry J) -> request J -> outcome unit.
  Variable compose : list (entry J) -> request J -> outcome bytes.
  Variable bank : list (entry J) -> outcome bytes.
  Variable others : bytes -> Z -> option (bytes -> outcome (oseg Acc)).
  Variable pick : list (entry J) -> nat.
  Variable balance_in : bytes -> outcome Bal.
  Variable sepa_balance_in : bytes -> outcome SBal.
  Variable booked_in : bytes -> outcome bytes.
  Variable status_in : bytes -> outcome St.
  Variable read_mt940 : bytes -> outcome (list Tx).
  Variable sort : list mt -> list mt.
  Variable clock : nat -> Z.
  Variable P : list (bytes * Z) -> Prop.
  Hypothesis from_message : forall m : bank_message (oseg Acc), P (supported_segments m).
  Notation kept := (@kept J Acc P).
  Notation run_ccall := (run_ccall sign_ok compose bank others pick balance_in sepa_balance_in booked_in status_in read_mt940 sort clock).
  Notation run_ccalls := (run_ccalls sign_ok compose bank others pick balance_in sepa_balance_in booked_in status_in read_mt940 sort clock).

  Lemma kept_client_init : kept (client_init sign_ok compose bank others pick).
  Proof.
    apply kept_bind; [apply kept_get|]. intros d. destruct (d_bpd_version d =? 0); [|apply kept_ret].
    apply kept_bind; [apply kept_sync; exact from_message|]. intros s. apply kept_ret.
  Qed.
  Lemma kept_balance_page a mark : kept (balance_page sign_ok compose bank others pick sepa_balance_in a mark).
  Proof.
    apply kept_bind; [apply kept_client_init|]. intros _. apply kept_bind; [apply kept_get|]. intros d.
    apply kept_bind; [apply kept_lift|]. intros v. apply kept_bind; [apply kept_send; exact from_message|]. intros m.
    apply kept_bind; [apply kept_lift|]. intros bs. apply kept_bind; [destruct bs; [apply kept_lift|apply kept_ret]|]. intros _.
    apply kept_bind; [apply kept_lift|]. intros c. apply kept_ret.
  Qed.
  Lemma kept_balance_pages n : forall a mark w, P (d_supported (w_d w)) ->
    P (d_supported (w_d (fst (sepa_account_balances sign_ok compose bank others pick sepa_balance_in n a mark w)))).
  Proof.
    induction n as [|n IH]; intros a mark w H; cbn [sepa_account_balances]; [exact H|].
    pose proof (kept_balance_page a mark w H) as K. destruct (balance_page _ _ _ _ _ _ _ _ _) as [w1 [[bs [|c0 c]]| |]]; cbn [fst] in *; try exact K.
    specialize (IH a (c0 :: c) w1 K). destruct (sepa_account_balances _ _ _ _ _ _ n a (c0 :: c) w1) as [w2 [[x| |]|]]; exact IH.
  Qed.
  Lemma kept_transaction_page t b a mark tick : kept (transaction_page sign_ok compose bank others pick booked_in sort clock t b a mark tick).
  Proof.
    apply kept_bind; [apply kept_get|]. intros d.
    apply kept_bind; [apply kept_lift|]. intros v. apply kept_bind; [apply kept_send; exact from_message|]. intros m.
    apply kept_bind; [apply kept_lift|]. intros bs. apply kept_bind; [apply kept_lift|]. intros c. apply kept_ret.
  Qed.
  Lemma kept_transaction_pages n : forall t b a mark tick w, P (d_supported (w_d w)) ->
    P (d_supported (w_d (fst (transaction_pages sign_ok compose bank others pick booked_in sort clock n t b a mark tick w)))).
  Proof.
    induction n as [|n IH]; intros t b a mark tick w H; cbn [transaction_pages]; [exact H|].
    pose proof (kept_transaction_page t b a mark tick w H) as K.
    destruct (transaction_page _ _ _ _ _ _ _ _ _ _ _ _ _ _) as [w1 [[[tx tick1] [|c0 c]]| |]]; cbn [fst] in *; try exact K.
    specialize (IH t b a (c0 :: c) tick1 w1 K). destruct (transaction_pages _ _ _ _ _ _ _ _ n t b a (c0 :: c) tick1 w1) as [w2 [[[x y]| |]|]]; exact IH.
  Qed.
  Lemma kept_transactions n t b a mark tick w : P (d_supported (w_d w)) ->
    P (d_supported (w_d (fst (transactions sign_ok compose bank others pick booked_in read_mt940 sort clock n t b a mark tick w)))).
  Proof.
    intros H. unfold transactions. pose proof (kept_client_init w H) as K.
    destruct (client_init _ _ _ _ _ w) as [w1 [[]| |]]; cbn [fst] in *; try exact K.
    pose proof (kept_transaction_pages n t b a mark tick w1 K) as K2.
    destruct (transaction_pages _ _ _ _ _ _ _ _ n t b a mark tick w1) as [w2 [r|]]; exact K2.
  Qed.
  Lemma kept_ccall c w : P (d_supported (w_d w)) -> P (d_supported (w_d (run_ccall c w))).
  Proof.
    intros H. destruct c as [|a|n a mark|n a mark tick|n a mark tick|a|a mark]; cbn [Client_Model.run_ccall].
    - apply (kept_bind P _ _ kept_client_init); [|exact H]. intros _.
      apply kept_bind; [apply kept_sync_user; exact from_message|]. intros _. apply kept_bind; [apply kept_get|]. intros d. apply kept_ret.
    - apply (kept_bind P _ _ kept_client_init); [|exact H]. intros _. apply kept_bind; [apply kept_get|]. intros d.
      apply kept_bind; [apply kept_lift|]. intros v. apply kept_bind; [apply kept_send; exact from_message|]. intros m.
      apply kept_bind; [apply kept_lift|]. intros bs. destruct bs; [apply kept_lift|apply kept_ret].
    - apply kept_balance_pages. exact H.
    - apply kept_transactions. exact H.
    - apply kept_transactions. exact H.
    - apply (kept_bind P _ _ kept_client_init); [|exact H]. intros _. apply kept_bind; [apply kept_send; exact from_message|]. intros m.
      destruct (find _ _); [apply kept_ret|apply kept_lift].
    - apply (kept_bind P _ _ kept_client_init); [|exact H]. intros _. apply kept_bind; [apply kept_get|]. intros d.
      apply kept_bind; [apply kept_lift|]. intros v. apply kept_bind; [apply kept_send; exact from_message|]. intros m. apply kept_lift.
  Qed.
  Lemma kept_ccalls cs : forall w, P (d_supported (w_d w)) -> P (d_supported (w_d (run_ccalls cs w))).
  Proof. induction cs as [|c cs IH]; intros w H; cbn [Client_Model.run_ccalls]; [exact H|]. apply IH. apply kept_ccall. exact H. Qed.
End Client.

(** Segment IDs of at most five characters are left out. *)
Lemma supported_long {Acc} (m : bank_message (oseg Acc)) : Forall (fun s => 5 < Z.of_nat (List.length (fst s))) (supported_segments m).
Proof.
  unfold supported_segments. apply Forall_forall. intros s I. apply in_flat_map in I. destruct I as [raw [_ I]].
  destruct (extract_header raw) as [h| |]; try destruct I.
  destruct (Z.of_nat (List.length (sh_id h)) <=? 5) eqn:E; [destruct I|]. destruct I as [<-|[]]. cbn. lia.
Qed.
