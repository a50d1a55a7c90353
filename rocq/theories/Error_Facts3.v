(** * Auxiliary proofs: the calls of a client explain their errors *)
From Coq Require Import Lia ZifyBool.
From Verif Require Import Base BaseFacts Lexer_Model Codec_Model Wire_Model Message_Model Message_Proofs Dialog_Model Dialog_Spec Dialog_Proofs
  Merge_Model Client_Model Error_Model Error_Spec Error_Facts Error_Facts2.
Open Scope Z_scope.

Definition erase_pages {J Acc A} (x : @world J Acc * option (result A)) : @world J Acc * option (outcome A) :=
  (fst x, option_map plain (snd x)).

Section Client.
  Context {A Acc Bal SBal St Tx : Type}.
  Notation J := (Client_Model.job A).
  Variable sign_ok : list (entry J) -> request J -> outcome unit.
  Variable compose : list (entry J) -> request J -> outcome bytes.
  Variable bank : list (entry J) -> outcome bytes.
  Variable others : bytes -> Z -> option (bytes -> outcome (oseg Acc)).
  Variable pick : list (entry J) -> nat.
  Variable sign_why : list (entry J) -> request J -> bytes.
  Variable compose_why : list (entry J) -> request J -> bytes.
  Variable bank_why : list (entry J) -> bytes.
  Variable read_why : bytes -> bytes.
  Variable quote : bytes -> bytes.
  Variable balance_in : bytes -> outcome Bal.
  Variable sepa_balance_in : bytes -> outcome SBal.
  Variable booked_in : bytes -> outcome bytes.
  Variable status_in : bytes -> outcome St.
  Variable read_mt940 : bytes -> outcome (list Tx).
  Variable mt940_why : bytes -> bytes.
  Variable sort : list mt -> list mt.
  Variable clock : nat -> Z.
  Notation world := (@world J Acc).
  Notation tact := (@tact J Acc).
  Notation t_client_init := (t_client_init sign_ok compose bank others pick sign_why compose_why bank_why read_why quote).
  Notation t_accounts := (t_accounts sign_ok compose bank others pick sign_why compose_why bank_why read_why quote).
  Notation t_account_balances := (t_account_balances sign_ok compose bank others pick sign_why compose_why bank_why read_why quote balance_in).
  Notation t_balance_page := (t_balance_page sign_ok compose bank others pick sign_why compose_why bank_why read_why quote sepa_balance_in).
  Notation t_sepa_account_balances := (t_sepa_account_balances sign_ok compose bank others pick sign_why compose_why bank_why read_why quote sepa_balance_in).
  Notation t_transaction_page := (t_transaction_page sign_ok compose bank others pick sign_why compose_why bank_why read_why quote booked_in sort clock).
  Notation t_transaction_pages := (t_transaction_pages sign_ok compose bank others pick sign_why compose_why bank_why read_why quote booked_in sort clock).
  Notation t_transactions := (t_transactions sign_ok compose bank others pick sign_why compose_why bank_why read_why quote booked_in read_mt940 mt940_why sort clock).
  Notation t_account_information := (t_account_information sign_ok compose bank others pick sign_why compose_why bank_why read_why quote).
  Notation t_status := (t_status sign_ok compose bank others pick sign_why compose_why bank_why read_why quote status_in).
  Notation t_send := (t_send sign_ok compose bank others pick sign_why compose_why bank_why read_why quote).

  (** ** The model without the texts *)
  Lemma same_client_init : same t_client_init (client_init sign_ok compose bank others pick).
  Proof.
    apply same_bind; [apply same_named|]. intros d. destruct (_ =? 0); [|apply same_ret].
    apply same_bind; [apply same_prefixed, same_sync|]. intros _. apply same_ret.
  Qed.
  Lemma same_accounts : same t_accounts (accounts sign_ok compose bank others pick).
  Proof.
    apply same_bind; [apply same_client_init|]. intros _. apply same_bind.
    - intros w. rewrite <- (same_sync_user sign_ok compose bank others pick sign_why compose_why bank_why read_why quote w).
      unfold erase. destruct (t_sync_user _ _ _ _ _ _ _ _ _ _ w) as [w1 r]. cbn. now destruct r.
    - intros _. apply same_bind; [apply same_named|]. intros d. apply same_ret.
  Qed.
  Lemma plain_build s id rq what b : plain (t_build s id rq what b) = build s id b.
  Proof. unfold t_build, build. destruct (versions_of s id); [apply plain_named|reflexivity]. Qed.
  Lemma plain_read {X} x1 x2 (f : bytes -> outcome X) (l : list (oseg Acc)) : plain (t_read_segs x1 x2 f l) = read_segs f l.
  Proof.
    unfold read_segs. induction l as [|s l IH]; [reflexivity|]. cbn [t_read_segs all_ok]. rewrite <- IH.
    destruct s; try reflexivity. destruct (f raw); try reflexivity. now destruct (t_read_segs x1 x2 f l).
  Qed.
  Lemma same_balances args : same (t_account_balances args) (account_balances sign_ok compose bank others pick balance_in args).
  Proof.
    apply same_bind; [apply same_client_init|]. intros _. apply same_bind; [apply same_named|]. intros d.
    apply same_bind; [apply same_lift, plain_build|]. intros v. apply same_bind; [apply same_send|]. intros m.
    apply same_bind; [apply same_lift, plain_read|]. intros [|b bs]; [now apply same_lift|apply same_ret].
  Qed.
  Lemma same_balance_page args mark : same (t_balance_page args mark) (balance_page sign_ok compose bank others pick sepa_balance_in args mark).
  Proof.
    apply same_bind; [apply same_client_init|]. intros _. apply same_bind; [apply same_named|]. intros d.
    apply same_bind; [apply same_lift, plain_build|]. intros v. apply same_bind; [apply same_send|]. intros m.
    apply same_bind; [apply same_lift, plain_read|]. intros bs. apply same_bind; [destruct bs; [now apply same_lift|apply same_ret]|].
    intros _. apply same_bind; [apply same_named|]. intros c. apply same_ret.
  Qed.
  Lemma same_sepa_balances fuel args mark w :
    erase_pages (t_sepa_account_balances fuel args mark w) = sepa_account_balances sign_ok compose bank others pick sepa_balance_in fuel args mark w.
  Proof.
    revert mark w. induction fuel as [|fuel IH]; intros mark w; [reflexivity|].
    cbn [Error_Model.t_sepa_account_balances sepa_account_balances]. rewrite <- (same_balance_page args mark w). unfold erase.
    destruct (t_balance_page args mark w) as [w1 [[bs c]|t|]]; cbn [fst snd plain]; [|reflexivity|reflexivity].
    destruct c as [|c0 c]; [reflexivity|]. rewrite <- IH. unfold erase_pages.
    destruct (t_sepa_account_balances fuel args (c0 :: c) w1) as [w2 [[x|t|]|]]; reflexivity.
  Qed.
  Lemma same_transaction_page what t b args mark tick :
    same (t_transaction_page what t b args mark tick) (transaction_page sign_ok compose bank others pick booked_in sort clock t b args mark tick).
  Proof.
    apply same_bind; [apply same_named|]. intros d. apply same_bind; [apply same_prefixed, same_lift, plain_build|]. intros v.
    apply same_bind; [apply same_prefixed, same_send|]. intros m. apply same_bind; [apply same_lift, plain_read|]. intros ds.
    apply same_bind; [apply same_named|]. intros c. apply same_ret.
  Qed.
  Lemma same_transaction_pages fuel what t b args mark tick w :
    erase_pages (t_transaction_pages fuel what t b args mark tick w) =
    transaction_pages sign_ok compose bank others pick booked_in sort clock fuel t b args mark tick w.
  Proof.
    revert mark tick w. induction fuel as [|fuel IH]; intros mark tick w; [reflexivity|].
    cbn [Error_Model.t_transaction_pages transaction_pages]. rewrite <- (same_transaction_page what t b args mark tick w). unfold erase.
    destruct (t_transaction_page what t b args mark tick w) as [w1 [[[x n] c]|e|]]; cbn [fst snd plain]; [|reflexivity|reflexivity].
    destruct c as [|c0 c]; [reflexivity|]. rewrite <- IH. unfold erase_pages.
    destruct (t_transaction_pages fuel what t b args (c0 :: c) n w1) as [w2 [[[y k]|e|]|]]; reflexivity.
  Qed.
  Lemma same_transactions fuel what t b args mark tick w :
    erase_pages (t_transactions fuel what t b args mark tick w) =
    transactions sign_ok compose bank others pick booked_in read_mt940 sort clock fuel t b args mark tick w.
  Proof.
    unfold Error_Model.t_transactions, transactions. rewrite <- (same_client_init w). unfold erase.
    destruct (t_client_init w) as [w1 [u|e|]]; cbn [fst snd plain]; [|reflexivity|reflexivity].
    rewrite <- (same_transaction_pages fuel what). unfold erase_pages.
    destruct (t_transaction_pages fuel what t b args mark tick w1) as [w2 [[p|e|]|]]; cbn; try reflexivity. now rewrite plain_named.
  Qed.
  Lemma same_information args : same (t_account_information args) (account_information sign_ok compose bank others pick args).
  Proof.
    apply same_bind; [apply same_client_init|]. intros _. apply same_bind; [apply same_send|]. intros m.
    destruct (find _ (bm_raw m)); [apply same_ret|now apply same_lift].
  Qed.
  Lemma same_status args mark : same (t_status args mark) (status sign_ok compose bank others pick status_in args mark).
  Proof.
    apply same_bind; [apply same_client_init|]. intros _. apply same_bind; [apply same_named|]. intros d.
    apply same_bind; [apply same_lift, plain_build|]. intros v. apply same_bind; [apply same_send|]. intros m. apply same_named.
  Qed.

  (** ** Explaining *)
  Hypothesis Hreg : regular others.
  Notation explains := (explains bank others bank_why read_why quote).
  Notation told := (told bank others bank_why read_why quote).
  Notation troubled := (troubled bank others).
  Definition page_part {X} (h l : list (entry J)) (r : option (result X)) : Prop :=
    forall b e a, l = b ++ e :: a -> matters (h ++ b) e -> troubled (h ++ b) e -> exists x, r = Some x /\ told (h ++ b) e x.
  Definition page_explains {X} (x : world * option (result X)) (w : world) : Prop :=
    exists l, w_sent (fst x) = w_sent w ++ l /\ page_part (w_sent w) l (snd x).
  Lemma page_app {X} h l1 l2 (r : option (result X)) : page_part h l1 r -> page_part (h ++ l1) l2 r -> page_part h (l1 ++ l2) r.
  Proof.
    intros H1 H2 b e a E M T. destruct (split_mid _ _ _ _ _ E) as [(a'&->&_)|(b'&->&->)].
    - eapply H1; eauto.
    - rewrite app_assoc in *. eapply H2; eauto.
  Qed.
  Lemma still_get : still (tnamed (J:=J) (Acc:=Acc) [] get).
  Proof. intros w. reflexivity. Qed.
  Lemma explains_client_init : explains t_client_init.
  Proof.
    apply explains_bind; [apply explains_still, still_get|]. intros d. destruct (_ =? 0); [|apply explains_still, still_ret].
    apply explains_bind; [now apply explains_prefixed, explains_sync|]. intros _. apply explains_still, still_ret.
  Qed.
  Lemma explains_balances args : explains (t_account_balances args).
  Proof.
    apply explains_bind; [apply explains_client_init|]. intros _. apply explains_bind; [apply explains_still, still_get|]. intros d.
    apply explains_bind; [apply explains_still, still_lift|]. intros v. apply explains_bind; [now apply explains_send|]. intros m.
    apply explains_bind; [apply explains_still, still_lift|]. intros [|b bs]; [apply explains_still, still_lift|apply explains_still, still_ret].
  Qed.
  Lemma still_lifted {X} why (o : outcome X) : still (tnamed (J:=J) (Acc:=Acc) why (lift o)).
  Proof. intros w. reflexivity. Qed.
  Lemma explains_balance_page args mark : explains (t_balance_page args mark).
  Proof.
    apply explains_bind; [apply explains_client_init|]. intros _. apply explains_bind; [apply explains_still, still_get|]. intros d.
    apply explains_bind; [apply explains_still, still_lift|]. intros v. apply explains_bind; [now apply explains_send|]. intros m.
    apply explains_bind; [apply explains_still, still_lift|]. intros bs.
    apply explains_bind; [destruct bs; [apply explains_still, still_lift|apply explains_still, still_ret]|]. intros _.
    apply explains_bind; [apply explains_still, still_lifted|]. intros c. apply explains_still, still_ret.
  Qed.
  Lemma explains_transaction_page what t b args mark tick : explains (t_transaction_page what t b args mark tick).
  Proof.
    apply explains_bind; [apply explains_still, still_get|]. intros d.
    apply explains_bind; [apply explains_prefixed, explains_still, still_lift|]. intros v.
    apply explains_bind; [now apply explains_prefixed, explains_send|]. intros m.
    apply explains_bind; [apply explains_still, still_lift|]. intros ds.
    apply explains_bind; [apply explains_still, still_lifted|]. intros c. apply explains_still, still_ret.
  Qed.
  Lemma explains_information args : explains (t_account_information args).
  Proof.
    apply explains_bind; [apply explains_client_init|]. intros _. apply explains_bind; [now apply explains_send|]. intros m.
    destruct (find _ (bm_raw m)); [apply explains_still, still_ret|apply explains_still, still_lift].
  Qed.
  Lemma explains_status args mark : explains (t_status args mark).
  Proof.
    apply explains_bind; [apply explains_client_init|]. intros _. apply explains_bind; [apply explains_still, still_get|]. intros d.
    apply explains_bind; [apply explains_still, still_lift|]. intros v. apply explains_bind; [now apply explains_send|]. intros m.
    apply explains_still, still_lifted.
  Qed.
  Lemma ok_page {X Y} h l (r : result X) (r' : option (result Y)) :
    ok_part bank others bank_why read_why quote h l r ->
    (forall b e, told (h ++ b) e r -> exists x, r' = Some x /\ told (h ++ b) e x) -> page_part h l r'.
  Proof. intros H K b e a E M T. apply K. eapply H; eauto. Qed.
  Lemma explains_sepa_balances fuel args mark w : page_explains (t_sepa_account_balances fuel args mark w) w.
  Proof.
    revert mark w. induction fuel as [|fuel IH]; intros mark w.
    { exists []. split; [now rewrite app_nil_r|]. intros b e a E. destruct b; discriminate. }
    cbn [Error_Model.t_sepa_account_balances]. destruct (explains_balance_page args mark w) as (l&E&P).
    destruct (t_balance_page args mark w) as [w1 [[bs c]|t|]]; cbn [fst snd] in *.
    - destruct c as [|c0 c].
      + exists l. split; [exact E|]. eapply ok_page; [exact P|]. intros b e [].
      + destruct (IH (c0 :: c) w1) as (l2&E2&P2).
        destruct (t_sepa_account_balances fuel args (c0 :: c) w1) as [w2 r2]. cbn [fst snd] in *.
        exists (l ++ l2). split; [|apply page_app].
        * destruct r2 as [[x|t|]|]; cbn [fst]; rewrite E2, E, app_assoc; reflexivity.
        * eapply ok_page; [exact P|]. intros b e [].
        * rewrite <- E. intros b e a X1 X2 X3. destruct (P2 b e a X1 X2 X3) as (x&->&T).
          destruct x; cbn [snd]; eexists; (split; [reflexivity|exact T]).
    - exists l. split; [exact E|]. eapply ok_page; [exact P|]. intros b e T. eexists. split; [reflexivity|exact T].
    - exists l. split; [exact E|]. eapply ok_page; [exact P|]. intros b e T. eexists. split; [reflexivity|exact T].
  Qed.
  Lemma explains_transaction_pages fuel what t bd args mark tick w : page_explains (t_transaction_pages fuel what t bd args mark tick w) w.
  Proof.
    revert mark tick w. induction fuel as [|fuel IH]; intros mark tick w.
    { exists []. split; [now rewrite app_nil_r|]. intros b e a E. destruct b; discriminate. }
    cbn [Error_Model.t_transaction_pages]. destruct (explains_transaction_page what t bd args mark tick w) as (l&E&P).
    destruct (t_transaction_page what t bd args mark tick w) as [w1 [[[x n] c]|e0|]]; cbn [fst snd] in *.
    - destruct c as [|c0 c].
      + exists l. split; [exact E|]. eapply ok_page; [exact P|]. intros b e [].
      + destruct (IH (c0 :: c) n w1) as (l2&E2&P2).
        destruct (t_transaction_pages fuel what t bd args (c0 :: c) n w1) as [w2 r2]. cbn [fst snd] in *.
        exists (l ++ l2). split; [|apply page_app].
        * destruct r2 as [[[y k]|e|]|]; cbn [fst]; rewrite E2, E, app_assoc; reflexivity.
        * eapply ok_page; [exact P|]. intros b e [].
        * rewrite <- E. intros b e a X1 X2 X3. destruct (P2 b e a X1 X2 X3) as (y&->&T).
          destruct y as [[y k]|e1|]; cbn [snd]; [destruct T|eexists; (split; [reflexivity|exact T])|eexists; (split; [reflexivity|exact T])].
    - exists l. split; [exact E|]. eapply ok_page; [exact P|]. intros b e T. eexists. split; [reflexivity|exact T].
    - exists l. split; [exact E|]. eapply ok_page; [exact P|]. intros b e T. eexists. split; [reflexivity|exact T].
  Qed.
  Lemma explains_transactions fuel what t bd args mark tick w : page_explains (t_transactions fuel what t bd args mark tick w) w.
  Proof.
    unfold Error_Model.t_transactions. destruct (explains_client_init w) as (l&E&P).
    destruct (t_client_init w) as [w1 [u|e0|]]; cbn [fst snd] in *.
    - destruct (explains_transaction_pages fuel what t bd args mark tick w1) as (l2&E2&P2).
      destruct (t_transaction_pages fuel what t bd args mark tick w1) as [w2 r2]. cbn [fst snd] in *.
      exists (l ++ l2). split; [|apply page_app].
      + destruct r2 as [[y|e|]|]; cbn [fst]; rewrite E2, E, app_assoc; reflexivity.
      + eapply ok_page; [exact P|]. intros b e [].
      + rewrite <- E. intros b e a X1 X2 X3. destruct (P2 b e a X1 X2 X3) as (y&->&T).
        destruct y as [y|e1|]; cbn [snd].
        * destruct T.
        * eexists. split; [reflexivity|]. exact (told_prefixed bank others bank_why read_why quote (B "error executing HBCI request: ") _ _ (A:=list Tx) (RErr e1) T).
        * eexists. split; [reflexivity|exact I].
    - exists l. split; [exact E|]. eapply ok_page; [exact P|]. intros b e T. eexists. split; [reflexivity|exact T].
    - exists l. split; [exact E|]. eapply ok_page; [exact P|]. intros b e T. eexists. split; [reflexivity|exact T].
  Qed.
  (** Accounts: the error may have been replaced. *)
  Lemma accounts_fail w : exists l, w_sent (fst (t_accounts w)) = w_sent w ++ l /\
    forall b e a, l = b ++ e :: a -> matters (w_sent w ++ b) e -> troubled (w_sent w ++ b) e ->
      told (w_sent w ++ b) e (snd (t_accounts w)) \/ snd (t_accounts w) = RErr (B "error getting accounts").
  Proof.
    unfold Error_Model.t_accounts, tbind. destruct (explains_client_init w) as (l&E&P).
    destruct (t_client_init w) as [w1 [u|e0|]]; cbn [fst snd] in *.
    - destruct (explains_sync_user sign_ok compose bank others pick sign_why compose_why bank_why read_why quote Hreg w1) as (l2&E2&P2).
      destruct (t_sync_user sign_ok compose bank others pick sign_why compose_why bank_why read_why quote w1) as [w2 r2]. cbn [fst snd] in *.
      exists (l ++ l2).
      assert (E3 : w_sent w2 = w_sent w ++ l ++ l2) by now rewrite E2, E, app_assoc.
      assert (Q : forall b e a, l ++ l2 = b ++ e :: a -> matters (w_sent w ++ b) e -> troubled (w_sent w ++ b) e -> told (w_sent w ++ b) e r2).
      { intros b e a X M T. destruct (split_mid _ _ _ _ _ X) as [(a'&->&_)|(b'&->&->)].
        - destruct (P b e a' eq_refl M T).
        - rewrite app_assoc in *. rewrite <- E in *. eapply P2; eauto. }
      destruct r2 as [x|t|]; cbn [plain named fst snd].
      + split; [exact E3|]. intros b e a X M T. destruct (Q b e a X M T).
      + split; [exact E3|]. intros b e a X M T. now right.
      + split; [exact E3|]. intros b e a X M T. left. exact I.
    - exists l. split; [exact E|]. intros b e a X M T. left. eapply P; eauto.
    - exists l. split; [exact E|]. intros b e a X M T. left. exact I.
  Qed.
End Client.
