(** * Auxiliary proofs: calls of a client whose answers crash, and those whose answers do not *)
From Coq Require Import Lia.
From Verif Require Import Base BaseFacts Message_Model Dialog_Model Dialog_Spec Dialog_Proofs Dialog_Facts2 Dialog_Facts4 Merge_Model Client_Model Client_Spec Crash_Spec Crash_Facts2.
Open Scope Z_scope.

Section Facts.
  Context {A Acc : Type}.
  Notation J := (Client_Model.job A).
  Variable sign_ok : list (entry J) -> request J -> outcome unit.
  Variable compose : list (entry J) -> request J -> outcome bytes.
  Variable bank : list (entry J) -> outcome bytes.
  Variable others : bytes -> Z -> option (bytes -> outcome (oseg Acc)).
  Variable pick : list (entry J) -> nat.
  Variable sort : list mt -> list mt.
  Variable clock : nat -> Z.
  Notation reply := (bank_message (oseg Acc)).
  Notation world := (@world J Acc).
  Notation act := (@act J Acc).
  Notation send := (send_message sign_ok compose bank others pick).
  Notation client_init := (client_init sign_ok compose bank others pick).
  Notation one_bad := (one_bad bank others).
  Notation all_good := (all_good bank others).
  Notation sound := (sound bank others).

  Lemma sound_get : sound get.
  Proof. apply sound_frame. reflexivity. Qed.
  Lemma sound_lift {X} (o : outcome X) : sound (lift o).
  Proof. apply sound_frame. reflexivity. Qed.
  Lemma sound_ret {X} (x : X) : sound (ret x).
  Proof. apply sound_frame. reflexivity. Qed.
  Lemma sound_client_init : sound client_init.
  Proof.
    apply sound_bind; [apply sound_get|]. intros d. destruct (_ =? 0); [|apply sound_ret].
    apply sound_bind; [apply sound_sync|]. intros _. apply sound_ret.
  Qed.
  Lemma sound_accounts : sound (accounts sign_ok compose bank others pick).
  Proof.
    apply sound_bind; [apply sound_client_init|intros _]. apply sound_bind; [apply sound_user|intros _].
    apply sound_bind; [apply sound_get|intros d]. apply sound_ret.
  Qed.
  Lemma sound_balances {Bal} (balance_in : bytes -> outcome Bal) args :
    sound (account_balances sign_ok compose bank others pick balance_in args).
  Proof.
    apply sound_bind; [apply sound_client_init|intros _]. apply sound_bind; [apply sound_get|intros d].
    apply sound_bind; [apply sound_lift|intros v]. apply sound_bind; [apply sound_send|intros m].
    apply sound_bind; [apply sound_lift|intros bs]. destruct bs; [apply sound_lift|apply sound_ret].
  Qed.
  Lemma sound_balance_page {SBal} (sepa_balance_in : bytes -> outcome SBal) args mark :
    sound (balance_page sign_ok compose bank others pick sepa_balance_in args mark).
  Proof.
    apply sound_bind; [apply sound_client_init|intros _]. apply sound_bind; [apply sound_get|intros d].
    apply sound_bind; [apply sound_lift|intros v]. apply sound_bind; [apply sound_send|intros m].
    apply sound_bind; [apply sound_lift|intros bs]. apply sound_bind; [destruct bs; [apply sound_lift|apply sound_ret]|intros _].
    apply sound_bind; [apply sound_lift|intros c]. apply sound_ret.
  Qed.
  Lemma sound_transaction_page booked_in t b args mark tick :
    sound (transaction_page sign_ok compose bank others pick booked_in sort clock t b args mark tick).
  Proof.
    apply sound_bind; [apply sound_get|intros d].
    apply sound_bind; [apply sound_lift|intros v]. apply sound_bind; [apply sound_send|intros m].
    apply sound_bind; [apply sound_lift|intros bs].
    apply sound_bind; [apply sound_lift|intros c]. apply sound_ret.
  Qed.
  Lemma sound_information args : sound (Client_Model.account_information sign_ok compose bank others pick args).
  Proof.
    apply sound_bind; [apply sound_client_init|intros _]. apply sound_bind; [apply sound_send|intros m].
    destruct (find _ _); [apply sound_ret|apply sound_lift].
  Qed.
  Lemma sound_status {St} (status_in : bytes -> outcome St) args mark :
    sound (status sign_ok compose bank others pick status_in args mark).
  Proof.
    apply sound_bind; [apply sound_client_init|intros _]. apply sound_bind; [apply sound_get|intros d].
    apply sound_bind; [apply sound_lift|intros v]. apply sound_bind; [apply sound_send|intros m]. apply sound_lift.
  Qed.

  (** ** Calls that fetch pages *)
  Definition psound {X} (p : world -> world * option (outcome X)) : Prop :=
    forall w, exists t, w_sent (fst (p w)) = w_sent w ++ t /\ (one_bad (w_sent w) t -> snd (p w) = Some Panic).
  Lemma psound_pages {SBal} (sepa_balance_in : bytes -> outcome SBal) args : forall fuel mark,
    psound (sepa_account_balances sign_ok compose bank others pick sepa_balance_in fuel args mark).
  Proof.
    induction fuel as [|fuel IH]; intros mark w; cbn [sepa_account_balances].
    - exists []. rewrite app_nil_r. split; [reflexivity|]. intros B. now destruct (one_bad_nil _ _ _ B).
    - destruct (sound_balance_page sepa_balance_in args mark w) as (t&E&P).
      destruct (balance_page _ _ _ _ _ _ args mark w) as [w1 [[bs c]| |]]; cbn [fst snd] in *.
      + destruct c as [|c0 c].
        * exists t. split; [exact E|]. intros B. discriminate (P B).
        * destruct (IH (c0 :: c) w1) as (t2&E2&P2). exists (t ++ t2).
          destruct (sepa_account_balances _ _ _ _ _ _ fuel args (c0 :: c) w1) as [w2 r]; cbn [fst snd] in *.
          rewrite E in E2. rewrite app_assoc. split; [destruct r as [[]|]; exact E2|].
          intros B. destruct (one_bad_app _ _ _ _ _ B) as [B1|B1]; [discriminate (P B1)|].
          rewrite <- E in B1. now rewrite (P2 B1).
      + exists t. split; [exact E|]. intros B. discriminate (P B).
      + exists t. auto.
  Qed.
  Lemma psound_tpages booked_in t b args : forall fuel mark tick,
    psound (transaction_pages sign_ok compose bank others pick booked_in sort clock fuel t b args mark tick).
  Proof.
    induction fuel as [|fuel IH]; intros mark tick w; cbn [transaction_pages].
    - exists []. rewrite app_nil_r. split; [reflexivity|]. intros B. now destruct (one_bad_nil _ _ _ B).
    - destruct (sound_transaction_page booked_in t b args mark tick w) as (t1&E&P).
      destruct (transaction_page _ _ _ _ _ _ _ _ t b args mark tick w) as [w1 [[[tx tick1] c]| |]]; cbn [fst snd] in *.
      + destruct c as [|c0 c].
        * exists t1. split; [exact E|]. intros B. discriminate (P B).
        * destruct (IH (c0 :: c) tick1 w1) as (t2&E2&P2). exists (t1 ++ t2).
          destruct (transaction_pages _ _ _ _ _ _ _ _ fuel t b args (c0 :: c) tick1 w1) as [w2 r]; cbn [fst snd] in *.
          rewrite E in E2. rewrite app_assoc. split; [destruct r as [[[]| |]|]; exact E2|].
          intros B. destruct (one_bad_app _ _ _ _ _ B) as [B1|B1]; [discriminate (P B1)|].
          rewrite <- E in B1. now rewrite (P2 B1).
      + exists t1. split; [exact E|]. intros B. discriminate (P B).
      + exists t1. auto.
  Qed.
  Lemma psound_transactions {Tx} booked_in (read_mt940 : bytes -> outcome (list Tx)) t b args fuel mark tick :
    psound (transactions sign_ok compose bank others pick booked_in read_mt940 sort clock fuel t b args mark tick).
  Proof.
    intros w. unfold transactions. destruct (sound_client_init w) as (t1&E&P).
    destruct (client_init w) as [w1 [[]| |]]; cbn [fst snd] in *.
    - destruct (psound_tpages booked_in t b args fuel mark tick w1) as (t2&E2&P2). exists (t1 ++ t2).
      destruct (transaction_pages _ _ _ _ _ _ _ _ fuel t b args mark tick w1) as [w2 r]; cbn [fst snd] in *.
      rewrite E in E2. rewrite app_assoc. split; [destruct r; exact E2|].
      intros B. destruct (one_bad_app _ _ _ _ _ B) as [B1|B1]; [discriminate (P B1)|].
      rewrite <- E in B1. now rewrite (P2 B1).
    - exists t1. split; [exact E|]. intros B. discriminate (P B).
    - exists t1. split; [exact E|]. reflexivity.
  Qed.

  (** ** Good answers *)
  Section General.
  Variable G : list (entry J) -> list (entry J) -> Prop.
  Hypothesis Ggood : forall h t, G h t -> all_good h t.
  Hypothesis Gsplit : forall h t1 t2, G h (t1 ++ t2) -> G h t1 /\ G (h ++ t1) t2.
  Hypothesis Hsign : forall h q, sign_ok h q <> Panic.
  Hypothesis Hcomp : forall h q, compose h q <> Panic.
  Notation safe := (safe (Acc:=Acc) G).
  Lemma safe_lift' {Y} (o : outcome Y) : o <> Panic -> safe (lift o) (fun _ => True).
  Proof. intros N. eapply safe_post; [|apply safe_lift, N]. trivial. Qed.
  Lemma safe_ret' {Y} (y : Y) : safe (ret y) (fun _ => True).
  Proof. eapply safe_post; [|apply safe_ret]. trivial. Qed.
  Lemma safe_client_init : safe client_init (fun _ => True).
  Proof.
    eapply (safe_bind bank others); [apply Gsplit|apply safe_get| |].
    - intros d. destruct (_ =? 0); [|apply sound_ret]. apply sound_bind; [apply sound_sync|]. intros _. apply sound_ret.
    - intros d _. destruct (_ =? 0); [|apply safe_ret'].
      eapply (safe_bind bank others); [apply Gsplit| | |].
      + apply safe_sync; auto using Ggood, Gsplit.
      + intros _. apply sound_ret.
      + intros _ _. apply safe_ret'.
  Qed.
  Ltac step := eapply (safe_bind bank others); [apply Gsplit| | |].
  Ltac go := first [apply sound_get|apply sound_lift|apply sound_ret|apply sound_send|apply sound_user|apply sound_client_init].
  Ltac snd := intros; repeat (first [go|match goal with |- sound (match ?x with _ => _ end) => destruct x end|apply sound_bind; [|intros]]).
  Lemma safe_accounts : safe (accounts sign_ok compose bank others pick) (fun _ => True).
  Proof.
    step; [apply safe_client_init|snd|intros _ _].
    step; [apply safe_user; auto using Ggood, Gsplit|snd|intros _ _].
    step; [apply safe_get|snd|intros d _]. apply safe_ret'.
  Qed.
  Lemma safe_information args : safe (Client_Model.account_information sign_ok compose bank others pick args) (fun _ => True).
  Proof.
    step; [apply safe_client_init|snd|intros _ _].
    step; [apply (safe_send sign_ok compose bank others pick G Ggood Gsplit Hsign Hcomp)|snd|intros m _]. destruct (find _ _); [apply safe_ret'|now apply safe_lift'].
  Qed.
  End General.
  Section Safe.
  Context {X : Type}.
  Variable f : bytes -> outcome X.
  Variable id : bytes.
  Hypothesis Hsign : forall h q, sign_ok h q <> Panic.
  Hypothesis Hcomp : forall h q, compose h q <> Panic.
  Definition GG (h t : list (entry J)) : Prop := all_good h t /\ contents_good bank others f id h t.
  Lemma gg_good h t : GG h t -> all_good h t.
  Proof. intros H. apply H. Qed.
  Lemma gg_split h t1 t2 : GG h (t1 ++ t2) -> GG h t1 /\ GG (h ++ t1) t2.
  Proof.
    intros [H1 H2]. split; split.
    - intros b e a ->. apply (H1 b e (a ++ t2)). now rewrite <- app_assoc.
    - intros b e a m -> . apply (H2 b e (a ++ t2)). now rewrite <- app_assoc.
    - intros b e a ->. specialize (H1 (t1 ++ b) e a ltac:(now rewrite <- app_assoc)). now rewrite <- app_assoc.
    - intros b e a m ->. rewrite <- app_assoc. apply (H2 (t1 ++ b) e a m). now rewrite <- app_assoc.
  Qed.
  Notation safe := (safe (Acc:=Acc) GG).
  Definition readable_contents (m : reply) : Prop :=
    (forall s, In s (segs m id) -> exists raw, s = OSeg raw /\ f raw <> Panic) /\
    (forall a, In a (bm_acks m) -> ack_code a = 3040 -> ack_params a <> []).
  Lemma safe_send2 j : safe (send j) readable_contents.
  Proof.
    intros w. destruct (safe_send sign_ok compose bank others pick GG gg_good gg_split Hsign Hcomp j w) as (t&E&P).
    exists t. split; [exact E|]. intros g. split; [apply P, g|]. intros m Hm.
    destruct (send_success sign_ok compose bank others pick j w m Hm) as (pre&i&mi&e&rest&E2&_&_&_&Hk&Ha&_).
    rewrite E in E2. apply app_inv_head in E2.
    apply (proj2 g (pre ++ [i]) e rest).
    - rewrite E2, <- app_assoc. reflexivity.
    - exact Ha.
    - now exists j.
  Qed.
  Lemma read_no_panic m : readable_contents m -> read_segs f (find_segs m id) <> Panic.
  Proof.
    intros [H _]. rewrite seg_eq. unfold read_segs. induction (segs m id) as [|s l IH]; cbn; [discriminate|].
    destruct (H s (or_introl eq_refl)) as (raw&->&N).
    destruct (f raw) as [x| |]; cbn; [|discriminate|congruence].
    destruct (all_ok _ l) as [xs| |]; cbn; try discriminate.
    exfalso. apply IH; [|reflexivity]. intros s Hs. apply H. now right.
  Qed.
  Lemma read_no_panic2 m : readable_contents m ->
    all_ok (fun s => match s with OSeg raw => f raw | _ => Panic end) (find_segs m id) <> Panic.
  Proof.
    intros [H _]. rewrite seg_eq. induction (segs m id) as [|s l IH]; cbn; [discriminate|].
    destruct (H s (or_introl eq_refl)) as (raw&->&N).
    destruct (f raw) as [x| |]; cbn; [|discriminate|congruence].
    destruct (all_ok _ l) as [xs| |]; cbn; try discriminate.
    exfalso. apply IH; [|reflexivity]. intros s Hs. apply H. now right.
  Qed.
  Lemma continuation_no_panic m : readable_contents m -> continuation (bm_acks m) <> Panic.
  Proof.
    intros [_ H]. unfold continuation. destruct (find is_3040 (bm_acks m)) as [a|] eqn:E; [|discriminate].
    apply find_some in E. destruct E as [E1 E2]. unfold is_3040 in E2. apply Z.eqb_eq in E2. specialize (H a E1 E2).
    destruct (ack_params a); [now destruct H|discriminate].
  Qed.
  Lemma first_entry_no_panic t l : first_entry t l <> Panic.
  Proof. induction l; cbn; [discriminate|]. destruct (entry_for _ _); [discriminate|exact IHl]. Qed.
  Lemma sepa_loop_no_panic l : sepa_transaction_loop l <> Panic.
  Proof. induction l; cbn; [discriminate|]. destruct (6 <? a); [exact IHl|]. destruct (a =? 7); [discriminate|exact IHl]. Qed.
  Lemma build_no_panic s i b : (forall vs, b vs <> Panic) -> build s i b <> Panic.
  Proof. intros H. unfold build. destruct (versions_of s i); [apply H|discriminate]. Qed.
  Ltac step := eapply (safe_bind bank others); [apply gg_split| | |].
  Ltac go := first [apply sound_get|apply sound_lift|apply sound_ret|apply sound_send|apply sound_user|apply sound_client_init].
  Ltac snd := intros; repeat (first [go|match goal with |- sound (match ?x with _ => _ end) => destruct x end|apply sound_bind; [|intros]]).
  Lemma safe_status args mark : id = B "HIPRO" -> safe (status sign_ok compose bank others pick f args mark) (fun _ => True).
  Proof.
    intros Hid. step; [apply safe_client_init; auto using gg_good, gg_split|snd|intros _ _]. step; [apply safe_get|snd|intros d _].
    step; [apply safe_lift', build_no_panic; intros; apply first_entry_no_panic|snd|intros v _].
    step; [apply safe_send2|snd|intros m Hm]. apply safe_lift'. rewrite <- Hid. now apply read_no_panic2.
  Qed.
  Lemma safe_balances args : id = B "HISAL" -> safe (account_balances sign_ok compose bank others pick f args) (fun _ => True).
  Proof.
    intros Hid. step; [apply safe_client_init; auto using gg_good, gg_split|snd|intros _ _]. step; [apply safe_get|snd|intros d _].
    step; [apply safe_lift', build_no_panic; intros; apply first_entry_no_panic|snd|intros v _].
    step; [apply safe_send2|snd|intros m Hm].
    step; [apply safe_lift'; rewrite <- Hid; now apply read_no_panic|snd|intros bs _].
    destruct bs; [now apply safe_lift'|apply safe_ret'].
  Qed.
  Lemma safe_balance_page args mark : id = B "HISAL" -> safe (balance_page sign_ok compose bank others pick f args mark) (fun _ => True).
  Proof.
    intros Hid. step; [apply safe_client_init; auto using gg_good, gg_split|snd|intros _ _]. step; [apply safe_get|snd|intros d _].
    step; [apply safe_lift', build_no_panic; intros; apply first_entry_no_panic|snd|intros v _].
    step; [apply safe_send2|snd|intros m Hm].
    step; [apply safe_lift'; rewrite <- Hid; now apply read_no_panic|snd|intros bs _].
    step; [instantiate (1 := fun _ => True); destruct bs; [now apply safe_lift'|apply safe_ret']|snd|intros _ _].
    step; [apply safe_lift'; now apply continuation_no_panic|snd|intros c _]. apply safe_ret'.
  Qed.
  Definition psafe {Y} (p : world -> world * option (outcome Y)) : Prop :=
    forall w, exists t, w_sent (fst (p w)) = w_sent w ++ t /\ (GG (w_sent w) t -> snd (p w) <> Some Panic).
  Lemma psafe_pages args : id = B "HISAL" -> forall fuel mark,
    psafe (sepa_account_balances sign_ok compose bank others pick f fuel args mark).
  Proof.
    intros Hid. induction fuel as [|fuel IH]; intros mark w; cbn [sepa_account_balances].
    - exists []. rewrite app_nil_r. split; [reflexivity|]. discriminate.
    - destruct (safe_balance_page args mark Hid w) as (t&E&P).
      destruct (balance_page _ _ _ _ _ _ args mark w) as [w1 [[bs c]| |]]; cbn [fst Datatypes.snd] in *.
      + destruct c as [|c0 c].
        * exists t. split; [exact E|]. discriminate.
        * destruct (IH (c0 :: c) w1) as (t2&E2&P2). exists (t ++ t2).
          destruct (sepa_account_balances _ _ _ _ _ _ fuel args (c0 :: c) w1) as [w2 r]; cbn [fst Datatypes.snd] in *.
          rewrite E in E2. rewrite app_assoc. split; [destruct r as [[]|]; exact E2|].
          intros g. destruct (gg_split _ _ _ g) as [_ g2]. rewrite <- E in g2. specialize (P2 g2). destruct r as [[]|]; cbn [fst Datatypes.snd]; congruence.
      + exists t. split; [exact E|]. discriminate.
      + exists t. split; [exact E|]. intros g. now destruct (proj1 (P g)).
  Qed.
  End Safe.
  Section SafeT.
  Hypothesis Hsign : forall h q, sign_ok h q <> Panic.
  Hypothesis Hcomp : forall h q, compose h q <> Panic.
  Variable booked_in : bytes -> outcome bytes.
  Notation G := (GG booked_in (B "HIKAZ")).
  Ltac step := eapply (safe_bind bank others); [apply gg_split| | |].
  Ltac go := first [apply sound_get|apply sound_lift|apply sound_ret|apply sound_send|apply sound_user|apply sound_client_init].
  Ltac snd := intros; repeat (first [go|match goal with |- sound (match ?x with _ => _ end) => destruct x end|apply sound_bind; [|intros]]).
  Lemma safe_transaction_page t b args mark tick : (forall vs, b vs <> Panic) ->
    safe G (transaction_page sign_ok compose bank others pick booked_in sort clock t b args mark tick) (fun _ => True).
  Proof.
    intros Hb. step; [apply safe_get|snd|intros d _].
    step; [apply safe_lift', build_no_panic; exact Hb|snd|intros v _].
    step; [apply safe_send2; assumption|snd|intros m Hm].
    step; [apply safe_lift'; eapply read_no_panic; exact Hm|snd|intros bs _].
    step; [apply safe_lift'; eapply continuation_no_panic; exact Hm|snd|intros c _]. apply safe_ret'.
  Qed.
  Lemma psafe_tpages t b args : (forall vs, b vs <> Panic) -> forall fuel mark tick,
    psafe booked_in (B "HIKAZ") (transaction_pages sign_ok compose bank others pick booked_in sort clock fuel t b args mark tick).
  Proof.
    intros Hb. induction fuel as [|fuel IH]; intros mark tick w; cbn [transaction_pages].
    - exists []. rewrite app_nil_r. split; [reflexivity|]. discriminate.
    - destruct (safe_transaction_page t b args mark tick Hb w) as (t1&E&P).
      destruct (transaction_page _ _ _ _ _ _ _ _ t b args mark tick w) as [w1 [[[tx tick1] c]| |]]; cbn [fst Datatypes.snd] in *.
      + destruct c as [|c0 c].
        * exists t1. split; [exact E|]. discriminate.
        * destruct (IH (c0 :: c) tick1 w1) as (t2&E2&P2). exists (t1 ++ t2).
          destruct (transaction_pages _ _ _ _ _ _ _ _ fuel t b args (c0 :: c) tick1 w1) as [w2 r]; cbn [fst Datatypes.snd] in *.
          rewrite E in E2. rewrite app_assoc. split; [destruct r as [[[]| |]|]; exact E2|].
          intros g. destruct (gg_split _ _ _ _ _ g) as [_ g2]. rewrite <- E in g2. specialize (P2 g2). destruct r as [[[]| |]|]; cbn [fst Datatypes.snd]; congruence.
      + exists t1. split; [exact E|]. discriminate.
      + exists t1. split; [exact E|]. intros g. now destruct (proj1 (P g)).
  Qed.
  Lemma psafe_transactions {Tx} (read_mt940 : bytes -> outcome (list Tx)) t b args : (forall vs, b vs <> Panic) -> forall fuel mark tick w,
    exists l, w_sent (fst (transactions sign_ok compose bank others pick booked_in read_mt940 sort clock fuel t b args mark tick w)) = w_sent w ++ l /\
    (G (w_sent w) l ->
     Datatypes.snd (transactions sign_ok compose bank others pick booked_in read_mt940 sort clock fuel t b args mark tick w) = Some Panic ->
     exists d, read_mt940 d = Panic /\
       Datatypes.snd (transactions sign_ok compose bank others pick booked_in (fun d => Ok [d]) sort clock fuel t b args mark tick w) = Some (Ok [d])).
  Proof.
    intros Hb fuel mark tick w. unfold transactions.
    destruct (safe_client_init (GG booked_in (B "HIKAZ")) (gg_good _ _) (gg_split _ _) Hsign Hcomp w) as (t1&E&P).
    destruct (client_init w) as [w1 [[]| |]]; cbn [fst Datatypes.snd] in *.
    - destruct (psafe_tpages t b args Hb fuel mark tick w1) as (t2&E2&P2). exists (t1 ++ t2).
      destruct (transaction_pages _ _ _ _ _ _ _ _ fuel t b args mark tick w1) as [w2 r]; cbn [fst Datatypes.snd] in *.
      rewrite E in E2. rewrite app_assoc. split; [destruct r; exact E2|].
      intros g. destruct (gg_split _ _ _ _ _ g) as [_ g2]. rewrite <- E in g2. specialize (P2 g2).
      destruct r as [[[x k]| |]|]; cbn; try congruence.
      intros H. exists (mt_data x). split; [congruence|reflexivity].
    - exists t1. split; [exact E|]. discriminate.
    - exists t1. split; [exact E|]. intros g. now destruct (proj1 (P g)).
  Qed.
  End SafeT.
End Facts.
