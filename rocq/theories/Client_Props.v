(** * C29, C30: paging and segment versions *)
From Coq Require Import Lia ZifyBool Sorting.Permutation Sorting.Sorted.
From Verif Require Import Base BaseFacts Lexer_Model Codec_Model Codec_Spec Codec_Proofs Wire_Model Message_Model Dialog_Model Dialog_Spec Dialog_Proofs Merge_Model Merge_Proofs Client_Model Client_Spec Client_Proofs Client_Facts Client_Facts2.
Open Scope Z_scope.

(** ** C30 *)
(** Each builder returns the highest version that is among the offered and among the
    implemented ones, in whatever order and how often they are offered, and fails
    exactly if there is none.  What it returns is the version of the segment built. *)
Theorem C30_account_balance : forall versions,
  (forall v, balance_builder versions = Ok v <-> highest_common versions [5; 6] v) /\
  (balance_builder versions = Err <-> nothing_common versions [5; 6]).
Proof. intros vs. split; [intros v; apply (builder_ok balance_table); repeat constructor|apply (builder_err balance_table)]. Qed.
Theorem C30_sepa_account_balance : forall versions,
  (forall v, sepa_balance_builder versions = Ok v <-> highest_common versions [7; 8] v) /\
  (sepa_balance_builder versions = Err <-> nothing_common versions [7; 8]).
Proof. intros vs. split; [intros v; apply (builder_ok sepa_balance_table); repeat constructor|apply (builder_err sepa_balance_table)]. Qed.
Theorem C30_account_transaction : forall versions,
  (forall v, transaction_builder versions = Ok v <-> highest_common versions [6; 5] v) /\
  (transaction_builder versions = Err <-> nothing_common versions [6; 5]).
Proof. intros vs. split; [intros v; apply (builder_ok transaction_table); repeat constructor|apply (builder_err transaction_table)]. Qed.
Theorem C30_tan : forall versions,
  (forall v, tan_builder versions = Ok v <-> highest_common versions [6; 1] v) /\
  (tan_builder versions = Err <-> nothing_common versions [6; 1]).
Proof. intros vs. split; [intros v; apply (builder_ok tan_table); repeat constructor|apply (builder_err tan_table)]. Qed.
Print Assumptions C30_account_balance.
Print Assumptions C30_sepa_account_balance.
Print Assumptions C30_account_transaction.
Print Assumptions C30_tan.
Example C30_examples :
  balance_builder [4; 6; 5; 6; 7] = Ok 6 /\ balance_builder [7; 8; 4] = Err /\ balance_builder [] = Err /\
  sepa_balance_builder [7; 5] = Ok 7 /\ transaction_builder [5; 6] = Ok 6 /\ tan_builder [2; 1] = Ok 1.
Proof. repeat match goal with |- _ /\ _ => split end; vm_compute; reflexivity. Qed.

(** The status protocol: the highest of the offered versions 3 and 4 decides, but the
    other one is built. *)
Theorem C30_status : forall versions,
  (status_builder versions = Ok 3 <-> In 4 versions) /\
  (status_builder versions = Ok 4 <-> In 3 versions /\ ~ In 4 versions) /\
  (status_builder versions = Err <-> nothing_common versions [3; 4]).
Proof.
  intros vs. pose proof (first_entry_spec status_table _ (sort_desc_sorted vs)) as H. unfold status_builder.
  assert (P : forall x, In x (sort_desc vs) <-> In x vs).
  { intros x. split; intros I; (eapply Permutation_in; [|exact I]); [apply Permutation_sym|]; apply sort_desc_perm. }
  assert (T : forall v, entry_for status_table v = if v =? 4 then Some 3 else if v =? 3 then Some 4 else None).
  { intros v. unfold entry_for, status_table. cbn [find fst]. rewrite (Z.eqb_sym 4 v), (Z.eqb_sym 3 v).
    destruct (v =? 4); [reflexivity|]. destruct (v =? 3); reflexivity. }
  destruct (first_entry status_table (sort_desc vs)) as [s| |].
  - destruct H as [v [H1 [H2 H3]]]. rewrite T in H1. apply P in H2.
    assert (H3' : forall v', In v' vs -> v' = 3 \/ v' = 4 -> v' <= v).
    { intros v' I D. apply H3; [apply P; exact I|]. rewrite T. destruct (v' =? 4) eqn:?; [discriminate|]. destruct (v' =? 3) eqn:?; [discriminate|lia]. }
    split; [|split].
    + split; [intros E; injection E as ->|]; destruct (v =? 4) eqn:E4; [replace 4 with v by lia; assumption|destruct (v =? 3); discriminate|congruence|].
      intros I. specialize (H3' 4 I). destruct (v =? 3) eqn:E3; [lia|discriminate].
    + split.
      * intros E. injection E as ->. destruct (v =? 4) eqn:E4; [discriminate|]. destruct (v =? 3) eqn:E3; [|discriminate].
        replace 3 with v by lia. split; [assumption|]. intros I. specialize (H3' 4 I). lia.
      * intros [I N]. destruct (v =? 4) eqn:E4; [exfalso; apply N; replace 4 with v by lia; assumption|].
        destruct (v =? 3); [congruence|discriminate].
    + split; [discriminate|]. intros N. exfalso. apply (N v H2). destruct (v =? 4) eqn:E4; [right; left; lia|].
      destruct (v =? 3) eqn:E3; [left; lia|discriminate].
  - split; [|split].
    + split; [discriminate|]. intros I. specialize (H 4 (proj2 (P 4) I)). discriminate.
    + split; [discriminate|]. intros [I _]. specialize (H 3 (proj2 (P 3) I)). discriminate.
    + split; [|reflexivity]. intros _ v I K. specialize (H v (proj2 (P v) I)). rewrite T in H.
      destruct K as [<-|[<-|[]]]; discriminate.
  - destruct H.
Qed.
Print Assumptions C30_status.
(** So the claim is false for it: for a bank that offers 3 and 4 the segment has version
    3, for one that offers only 3 it has the version 4. *)
Theorem C30_status_refuted :
  (status_builder [3; 4] = Ok 3 /\ ~ highest_common [3; 4] [3; 4] 3) /\
  (status_builder [3] = Ok 4 /\ ~ In 4 [3]).
Proof.
  split; (split; [vm_compute; reflexivity|]).
  - intros [_ [_ H]]. specialize (H 4). cbn in H. lia.
  - intros [H|[]]. discriminate.
Qed.
Print Assumptions C30_status_refuted.
(** SEPA transactions: version 7 is implemented, but no list of versions leads to it. *)
Theorem C30_sepa_transactions_never : forall versions, sepa_transaction_builder versions = Err.
Proof.
  intros vs. unfold sepa_transaction_builder. induction (sort_desc vs) as [|v l IH]; cbn [sepa_transaction_loop]; [reflexivity|].
  destruct (6 <? v) eqn:E; [exact IH|]. destruct (v =? 7) eqn:E7; [lia|exact IH].
Qed.
Print Assumptions C30_sepa_transactions_never.
Theorem C30_sepa_transactions_refuted : highest_common [5; 7] [7] 7 /\ sepa_transaction_builder [5; 7] = Err.
Proof. split; [|vm_compute; reflexivity]. split; [cbn; auto|]. split; [cbn; auto|]. intros v _ [<-|[]]. lia. Qed.
Print Assumptions C30_sepa_transactions_refuted.

(** The builder of the client: what counts is what the bank's list says of the one
    segment ID. *)
Theorem C30_bank_list : forall supported id implemented (builder : list Z -> outcome Z),
  (forall vs v, builder vs = Ok v <-> highest_common vs implemented v) ->
  (forall vs, builder vs = Err <-> nothing_common vs implemented) ->
  (forall v, build supported id builder = Ok v <->
     offered supported id v /\ In v implemented /\
     forall v', offered supported id v' -> In v' implemented -> v' <= v) /\
  (build supported id builder = Err <-> forall v, offered supported id v -> ~ In v implemented).
Proof.
  intros sup id impl b H1 H2. unfold build, offered. pose proof (versions_of_spec sup id) as V.
  destruct (versions_of sup id) as [vs|].
  - split.
    + intros v. rewrite H1. unfold highest_common. setoid_rewrite V. reflexivity.
    + rewrite H2. unfold nothing_common. setoid_rewrite V. reflexivity.
  - split.
    + intros v. split; [discriminate|]. intros [I _]. destruct (V v I).
    + split; [|reflexivity]. intros _ v I. destruct (V v I).
Qed.
Print Assumptions C30_bank_list.

Section Props.
  Context {A Acc Bal SBal St Tx : Type}.
  Notation J := (job A).
  (** The world outside, as for dialogs, and what the response segments say. *)
  Variable sign_ok : list (entry J) -> request J -> outcome unit.
  Variable compose : list (entry J) -> request J -> outcome bytes.
  Variable bank : list (entry J) -> outcome bytes.
  Variable others : bytes -> Z -> option (bytes -> outcome (oseg Acc)).
  Variable pick : list (entry J) -> nat.
  Variable balance_in : bytes -> outcome Bal.
  Variable sepa_balance_in : bytes -> outcome SBal.
  Variable booked_in : bytes -> outcome bytes.
  Variable status_in : bytes -> outcome St.
  Variable read_mt940 : bytes -> outcome (list Tx).
  Variable sort : list mt -> list mt.
  Variable clock : nat -> Z.
  Notation reply := (bank_message (oseg Acc)).
  Notation world := (@world J Acc).
  Notation answered := (answered bank others).
  Notation sepa_account_balances := (sepa_account_balances sign_ok compose bank others pick sepa_balance_in).
  Notation account_transactions := (account_transactions sign_ok compose bank others pick booked_in read_mt940 sort clock).
  Notation sepa_account_transactions := (sepa_account_transactions sign_ok compose bank others pick booked_in read_mt940 sort clock).
  Notation account_balances := (account_balances sign_ok compose bank others pick balance_in).
  Notation status := (status sign_ok compose bank others pick status_in).
  Notation run_ccalls := (run_ccalls sign_ok compose bank others pick balance_in sepa_balance_in booked_in status_in read_mt940 sort clock).

  (** ** C29 *)
  (** Whatever happens: the jobs a call sends are requests for the same balances; the
      first carries the mark given to the call, and each further one carries the
      non-empty mark of the bank's answer to the one before, which has no error. *)
  Theorem C29_requests : forall n args mark (w : world),
    exists new, w_sent (fst (sepa_account_balances n args mark w)) = w_sent w ++ new /\
      Forall (fun x => exists c, asks TSepaBalances args c x) (jobs (w_sent w) new) /\
      (forall x l, jobs (w_sent w) new = x :: l -> asks TSepaBalances args mark x) /\
      (forall a x y b, jobs (w_sent w) new = a ++ x :: y :: b ->
         exists m c, answered (fst x) (snd x) m /\ ~ has_error m /\ continues m c /\ c <> [] /\ asks TSepaBalances args c y).
  Proof.
    intros n args mark w. destruct (balances_steps sign_ok compose bank others pick sepa_balance_in booked_in clock n args mark w) as [r [[new [E [[L1 L2] [F _]]]] _]].
    exists new. split; [exact E|]. split; [eapply Forall_impl; [|exact L1]; intros x H; eexists; exact H|]. split.
    - intros x l Ex. rewrite <- (F _ _ Ex). rewrite Ex in L1. inversion L1; assumption.
    - intros a x y b Ex. destruct (L2 _ _ _ _ Ex) as [N [m [M1 [M2 M3]]]]. exists m, (mark_of y).
      repeat (split; [assumption|]). rewrite Ex in L1. apply Forall_app in L1. destruct L1 as [_ L1]. inversion L1 as [|? ? _ L1']. inversion L1'; assumption.
  Qed.

  (** Success: every job was answered without error, every answer has balances, the last
      answer has no mark, and the result is the balances of all of them in this order. *)
  Theorem C29_result : forall n args mark (w : world) bals,
    snd (sepa_account_balances n args mark w) = Some (Ok bals) ->
    exists new ms pages, w_sent (fst (sepa_account_balances n args mark w)) = w_sent w ++ new /\
      Forall2 (fun x m => answered (fst x) (snd x) m /\ ~ has_error m) (jobs (w_sent w) new) ms /\
      Forall2 (fun m bs => contents sepa_balance_in (B "HISAL") m bs /\ bs <> []) ms pages /\
      bals = List.concat pages /\
      exists before last, ms = before ++ [last] /\ continues last [].
  Proof.
    intros n args mark w bals H. destruct (balances_steps sign_ok compose bank others pick sepa_balance_in booked_in clock n args mark w) as [r [[new [E [_ [_ [_ HO]]]]] R]].
    rewrite H in R. destruct r as [[ps| |]|]; try discriminate. injection R as ->.
    destruct (HO _ eq_refl) as [ms [O1 [O2 O3]]]. exists new, ms, ps. auto.
  Qed.

  (** If the pages looked at are not all, each of them was answered with a mark: only a
      bank that never stops sending marks keeps the call from returning. *)
  Theorem C29_goes_on_only_after_marks : forall n args mark (w : world),
    snd (sepa_account_balances n args mark w) = None ->
    exists new, w_sent (fst (sepa_account_balances n args mark w)) = w_sent w ++ new /\
      List.length (jobs (w_sent w) new) = n /\
      Forall (fun x => exists m c, answered (fst x) (snd x) m /\ continues m c /\ c <> []) (jobs (w_sent w) new).
  Proof.
    intros n args mark w H. destruct (balances_steps sign_ok compose bank others pick sepa_balance_in booked_in clock n args mark w) as [r [[new [E [_ [_ [HN _]]]]] R]].
    rewrite H in R. destruct r as [[ps| |]|]; try discriminate. destruct (HN eq_refl) as [N1 N2].
    exists new. split; [exact E|]. split; [exact N1|]. eapply Forall_impl; [|exact N2]. intros x [m [c [M1 [_ [M2 M3]]]]]. exists m, c. auto.
  Qed.
  (** The number of pages looked at does not change the result. *)
  Theorem C29_result_independent : forall n n' args mark (w : world),
    (n <= n')%nat -> snd (sepa_account_balances n args mark w) <> None ->
    sepa_account_balances n' args mark w = sepa_account_balances n args mark w.
  Proof.
    induction n as [|n IH]; intros n' args mark w L H; [exfalso; apply H; reflexivity|].
    destruct n' as [|n']; [lia|]. cbn [Client_Model.sepa_account_balances] in H |- *.
    destruct (balance_page sign_ok compose bank others pick sepa_balance_in args mark w) as [w1 [[bs [|c0 c]]| |]]; try reflexivity.
    rewrite (IH n' args (c0 :: c) w1); [reflexivity|lia|].
    intros K. destruct (sepa_account_balances n args (c0 :: c) w1) as [w2 [[x| |]|]]; try discriminate. apply H. reflexivity.
  Qed.

  (** An answer that is missing, has an error, or has no balances the client can read:
      no balances are returned, whatever the other pages say. *)
  Theorem C29_bad_page : forall n args mark (w : world) new x,
    w_sent (fst (sepa_account_balances n args mark w)) = w_sent w ++ new -> In x (jobs (w_sent w) new) ->
    (forall m, answered (fst x) (snd x) m ->
       has_error m \/ segs m (B "HISAL") = [] \/ ~ exists bs, contents sepa_balance_in (B "HISAL") m bs) ->
    forall bals, snd (sepa_account_balances n args mark w) <> Some (Ok bals).
  Proof.
    intros n args mark w new x E I Hbad bals H. destruct (C29_result _ _ _ _ _ H) as [new' [ms [pages [E' [H1 [H2 _]]]]]].
    assert (new' = new) by (rewrite E' in E; eapply app_inv_head; exact E). subst new'.
    assert (G : exists m bs, (answered (fst x) (snd x) m /\ ~ has_error m) /\ contents sepa_balance_in (B "HISAL") m bs /\ bs <> []).
    { clear -H1 H2 I. revert pages H2. induction H1 as [|y m js ms Hy H1 IH]; intros pages H2; [destruct I|].
      inversion H2 as [|? bs ? ? Hb H2']; subst. destruct I as [<-|I]; [exists m, bs; auto|]. eapply IH; eassumption. }
    destruct G as [m [bs [[G1 G2] [G3 G4]]]]. destruct (Hbad m G1) as [K|[K|K]]; [exact (G2 K)| |apply K; exists bs; exact G3].
    unfold contents in G3. rewrite K in G3. inversion G3; subst. apply G4. reflexivity.
  Qed.

  (** AccountTransactions, if the clock advances between any two of its readings: the
      data given to the MT940 reader is that of all HIKAZ segments of all pages, in order. *)
  Theorem C29_transactions : forall n args mark tick (w : world) txs,
    go_sort sort -> (forall i j, (i < j)%nat -> clock i < clock j) ->
    snd (account_transactions n args mark tick w) = Some (Ok txs) ->
    exists new ms pages, w_sent (fst (account_transactions n args mark tick w)) = w_sent w ++ new /\
      (forall x l, jobs (w_sent w) new = x :: l -> asks TTransactions args mark x) /\
      (forall a x y b, jobs (w_sent w) new = a ++ x :: y :: b ->
         exists m c, answered (fst x) (snd x) m /\ ~ has_error m /\ continues m c /\ c <> [] /\ asks TTransactions args c y) /\
      Forall2 (fun x m => answered (fst x) (snd x) m /\ ~ has_error m) (jobs (w_sent w) new) ms /\
      Forall2 (contents booked_in (B "HIKAZ")) ms pages /\
      read_mt940 (List.concat (List.concat pages)) = Ok txs /\
      exists before last, ms = before ++ [last] /\ continues last [].
  Proof.
    intros n args mark tick w txs HS HC H. unfold Client_Model.account_transactions, transactions in *.
    destruct (client_init_jobs sign_ok compose bank others pick w) as [new0 [E0 N0]].
    destruct (client_init sign_ok compose bank others pick w) as [w1 [[]| |]]; cbn [fst snd] in E0, H |- *; try discriminate.
    destruct (transaction_steps sign_ok compose bank others pick sepa_balance_in booked_in sort clock HS HC n TTransactions transaction_builder args mark tick w1)
      as [r [[new [E [[L1 L2] [F [_ HO]]]]] R]].
    destruct (transaction_pages sign_ok compose bank others pick booked_in sort clock n TTransactions transaction_builder args mark tick w1) as [w2 r2].
    cbn [fst snd] in E, R |- *. destruct r as [[ps| |]|], r2 as [[[msg tick2]| |]|]; try contradiction; try discriminate.
    cbn [fst snd] in H |- *. assert (H' : read_mt940 (mt_data msg) = Ok txs) by (injection H as H; exact H). clear H.
    destruct R as [R _]. destruct (HO _ eq_refl) as [ms [O1 [O2 O3]]].
    assert (G : exists pages, Forall2 (contents booked_in (B "HIKAZ")) ms pages /\ List.concat ps = List.concat (List.concat pages)).
    { clear -O2. induction O2 as [|m d ms ds [xs [Hx ->]] O2 [pages [IH1 IH2]]]; [exists []; split; [constructor|reflexivity]|].
      exists (xs :: pages). split; [constructor; assumption|]. cbn. rewrite IH2. rewrite concat_app. reflexivity. }
    destruct G as [pages [G1 G2]]. exists (new0 ++ new), ms, pages.
    split; [rewrite E, E0, app_assoc; reflexivity|]. rewrite jobs_app, N0, <- E0. cbn [app].
    split. { intros x l Ex. rewrite <- (F _ _ Ex). rewrite Ex in L1. inversion L1; assumption. }
    split. { intros a x y b Ex. destruct (L2 _ _ _ _ Ex) as [N [m [M1 [M2 M3]]]]. exists m, (mark_of y).
      repeat (split; [assumption|]). rewrite Ex in L1. apply Forall_app in L1. destruct L1 as [_ L1]. inversion L1 as [|? ? _ L1']. inversion L1'; assumption. }
    split; [exact O1|]. split; [exact G1|]. split; [rewrite <- G2, <- R; exact H'|exact O3].
  Qed.

  (** ** C30 in the client *)
  (** A job for balances has the highest version of those in the list the client got from
      the bank (as it is when the request is built); without one nothing is sent. *)
  Theorem C30_balances_version : forall args (w : world),
    let w0 := fst (client_init sign_ok compose bank others pick w) in
    exists new, w_sent (fst (account_balances args w)) = w_sent w0 ++ new /\
      (forall h e j, In (h, e) (jobs (w_sent w0) new) -> kind_of e = KJob j ->
         jb_topic j = TBalances /\ offered (d_supported (w_d w0)) (B "HISALS") (jb_version j) /\ In (jb_version j) [5; 6] /\
         forall v, offered (d_supported (w_d w0)) (B "HISALS") v -> In v [5; 6] -> v <= jb_version j) /\
      ((forall v, offered (d_supported (w_d w0)) (B "HISALS") v -> ~ In v [5; 6]) -> new = [] /\ ~ is_ok (snd (account_balances args w))).
  Proof.
    intros args w. cbv zeta. unfold Client_Model.account_balances.
    destruct (client_init sign_ok compose bank others pick w) as [w0 r0] eqn:EI. cbn [fst].
    assert (X : forall r : outcome unit, r0 = r -> ~ is_ok r -> exists new,
      w_sent w0 = w_sent w0 ++ new /\ (forall h e j, In (h, e) (jobs (w_sent w0) new) -> kind_of e = KJob j ->
         jb_topic j = TBalances /\ offered (d_supported (w_d w0)) (B "HISALS") (jb_version j) /\ In (jb_version j) [5; 6] /\
         forall v, offered (d_supported (w_d w0)) (B "HISALS") v -> In v [5; 6] -> v <= jb_version j) /\ new = []).
    { intros. exists []. rewrite app_nil_r. split; [reflexivity|]. split; [intros ? ? ? []|reflexivity]. }
    destruct r0 as [[]| |].
    2:{ rewrite (bind_err _ _ _ _ EI). cbn [fst snd]. destruct (X Err eq_refl (fun '(ex_intro _ _ K) => ltac:(discriminate K))) as [new [X1 [X2 ->]]].
        exists []. split; [exact X1|]. split; [exact X2|]. intros _. split; [reflexivity|]. intros [? K]; discriminate. }
    2:{ rewrite (bind_panic _ _ _ _ EI). cbn [fst snd]. destruct (X Panic eq_refl (fun '(ex_intro _ _ K) => ltac:(discriminate K))) as [new [X1 [X2 ->]]].
        exists []. split; [exact X1|]. split; [exact X2|]. intros _. split; [reflexivity|]. intros [? K]; discriminate. }
    clear X. rewrite (Dialog_Facts3.bind_ok _ _ _ _ _ EI). rewrite bind_get, bind_lift.
    pose proof (C30_bank_list (d_supported (w_d w0)) (B "HISALS") [5; 6] balance_builder (fun vs => proj1 (C30_account_balance vs)) (fun vs => proj2 (C30_account_balance vs))) as [V1 V2].
    destruct (build (d_supported (w_d w0)) (B "HISALS") balance_builder) as [v| |] eqn:EB.
    - destruct (send_jobs sign_ok compose bank others pick (mkJob TBalances v args []) w0) as [new [E H]].
      match goal with |- context [bind _ ?f w0] => set (k := f) end.
      assert (Q : forall m w1, fst (k m w1) = w1).
      { intros m w1. unfold k, bind, lift. destruct (read_segs balance_in (find_segs m (B "HISAL"))) as [[|b bs]| |]; reflexivity. }
      exists new. split.
      { rewrite <- E. unfold bind. destruct (send_message sign_ok compose bank others pick (mkJob TBalances v args []) w0) as [w1 [m| |]]; cbn [fst]; [rewrite Q|..]; reflexivity. }
      split.
      + intros h e j I Hk. destruct H as [[H _]|[h' [e' [H [He _]]]]]; rewrite H in I; [destruct I|].
        destruct I as [I|[]]. injection I as -> ->. rewrite Hk in He. injection He as ->. cbn [jb_topic jb_version].
        split; [reflexivity|]. apply V1. reflexivity.
      + intros N. exfalso. destruct (proj1 (V1 v) eq_refl) as [I1 [I2 _]]. exact (N v I1 I2).
    - exists []. rewrite app_nil_r. split; [reflexivity|]. split; [intros ? ? ? []|]. intros _. split; [reflexivity|]. intros [? K]; discriminate.
    - exists []. rewrite app_nil_r. split; [reflexivity|]. split; [intros ? ? ? []|]. intros _. split; [reflexivity|]. intros [? K]; discriminate.
  Qed.

  (** Status never succeeds, whatever was called before and whatever the bank offers:
      IDs of five characters such as HIPRO never get into the client's list. *)
  Theorem C30_status_never : forall cs user pin args mark,
    ~ is_ok (snd (status args mark (run_ccalls cs (new_client user pin)))).
  Proof.
    intros cs user pin args mark.
    set (P := fun l : list (bytes * Z) => Forall (fun s => 5 < Z.of_nat (List.length (fst s))) l).
    assert (HP : forall m : reply, P (supported_segments m)) by (intros m; apply supported_long).
    pose proof (kept_ccalls sign_ok compose bank others pick balance_in sepa_balance_in booked_in status_in read_mt940 sort clock P HP cs (new_client user pin)) as K.
    assert (K0 : P (d_supported (w_d (@new_client A Acc user pin)))) by constructor. specialize (K K0). clear K0.
    set (w := run_ccalls cs (new_client user pin)) in *.
    pose proof (kept_client_init sign_ok compose bank others pick P HP w K) as K1.
    unfold Client_Model.status. destruct (client_init sign_ok compose bank others pick w) as [w0 [[]| |]] eqn:EI.
    - rewrite (Dialog_Facts3.bind_ok _ _ _ _ _ EI), bind_get, bind_lift. cbn [fst] in K1.
      assert (EB : build (d_supported (w_d w0)) (B "HIPRO") status_builder = Err).
      { unfold build. pose proof (versions_of_spec (d_supported (w_d w0)) (B "HIPRO")) as V. unfold versions_of in *.
        destruct (filter (fun s => bytes_eqb (fst s) (B "HIPRO")) (d_supported (w_d w0))) as [|[i v] l] eqn:Ef; [reflexivity|].
        exfalso. specialize (proj1 (V v) (or_introl eq_refl)) as I. unfold P in K1. rewrite Forall_forall in K1. specialize (K1 _ I). cbn in K1. lia. }
      rewrite EB. intros [? X]; discriminate.
    - rewrite (bind_err _ _ _ _ EI). intros [? X]; discriminate.
    - rewrite (bind_panic _ _ _ _ EI). intros [? X]; discriminate.
  Qed.
  (** Nor does SepaAccountTransactions, which never sends a job. *)
  Theorem C30_sepa_transactions_client : forall n args mark tick (w : world) txs,
    snd (sepa_account_transactions n args mark tick w) <> Some (Ok txs) /\
    exists new, w_sent (fst (sepa_account_transactions n args mark tick w)) = w_sent w ++ new /\ jobs (w_sent w) new = [].
  Proof.
    intros n args mark tick w txs. unfold Client_Model.sepa_account_transactions, transactions.
    destruct (client_init_jobs sign_ok compose bank others pick w) as [new0 [E0 N0]].
    destruct (client_init sign_ok compose bank others pick w) as [w1 [[]| |]]; cbn [fst snd] in E0 |- *;
      [|split; [discriminate|]; exists new0; auto..].
    destruct n as [|n]; cbn [transaction_pages fst snd]; [split; [discriminate|]; exists new0; auto|].
    unfold transaction_page. rewrite bind_get, bind_lift.
    assert (EB : build (d_supported (w_d w1)) (B "HIKAZS") sepa_transaction_builder = Err).
    { unfold build. destruct (versions_of _ _); [apply C30_sepa_transactions_never|reflexivity]. }
    rewrite EB. cbn [fst snd obind]. split; [discriminate|]. exists new0. auto.
  Qed.
  (** ** C50: calls of one request *)
  (** A request of one job and what is made of its answer by [k], which sends nothing. *)
  Lemma one_request {X} t v args (w0 : world) (k : reply -> @act J Acc X) (P : reply -> X -> Prop) :
    (forall m w1, fst (k m w1) = w1) -> (forall m w1 x, snd (k m w1) = Ok x -> P m x) ->
    forall x, snd (bind (send_message sign_ok compose bank others pick (mkJob t v args [])) k w0) = Ok x ->
    exists new j m, w_sent (fst (bind (send_message sign_ok compose bank others pick (mkJob t v args [])) k w0)) = w_sent w0 ++ new /\
      jobs (w_sent w0) new = [j] /\ asks t args [] j /\ answered (fst j) (snd j) m /\ ~ has_error m /\ P m x.
  Proof.
    intros Q HP x. destruct (send_jobs sign_ok compose bank others pick (mkJob t v args []) w0) as [new [E H]].
    unfold bind. destruct (send_message sign_ok compose bank others pick (mkJob t v args []) w0) as [w1 r]. cbn [fst snd] in E, H.
    destruct r as [m| |]; cbn [fst snd]; try discriminate. intros Hx. rewrite Q.
    destruct H as [[_ H]|[h [e [H1 [H2 H3]]]]]; [exfalso; apply H; eexists; reflexivity|].
    destruct (H3 m eq_refl) as [A1 A2]. exists new, (h, e), m. split; [exact E|]. split; [exact H1|]. split; [exists v; exact H2|].
    split; [exact A1|]. split; [exact A2|]. eapply HP. exact Hx.
  Qed.

  (** AccountBalances: one request, and the result is what the HISAL segments of its
      answer say, in their order; there is at least one. *)
  Theorem C50_balances : forall args (w : world) bals,
    snd (account_balances args w) = Ok bals ->
    exists new j m, w_sent (fst (account_balances args w)) = w_sent w ++ new /\
      jobs (w_sent w) new = [j] /\ asks TBalances args [] j /\ answered (fst j) (snd j) m /\ ~ has_error m /\
      contents balance_in (B "HISAL") m bals /\ bals <> [].
  Proof.
    intros args w bals. unfold Client_Model.account_balances. destruct (client_init_jobs sign_ok compose bank others pick w) as [new0 [E0 N0]].
    destruct (client_init sign_ok compose bank others pick w) as [w0 [[]| |]] eqn:EI; cbn [fst snd] in E0;
      [rewrite (Dialog_Facts3.bind_ok _ _ _ _ _ EI)|rewrite (bind_err _ _ _ _ EI); discriminate|rewrite (bind_panic _ _ _ _ EI); discriminate].
    rewrite bind_get, bind_lift. destruct (build (d_supported (w_d w0)) (B "HISALS") balance_builder) as [v| |]; try discriminate.
    intros H. eapply (one_request _ _ _ _ _ (fun m bs => contents balance_in (B "HISAL") m bs /\ bs <> [])) in H.
    - destruct H as [new [j [m [E [H1 [H2 [H3 [H4 [H5 H6]]]]]]]]]. exists (new0 ++ new), j, m.
      split; [rewrite E, E0, app_assoc; reflexivity|]. split; [rewrite jobs_app, N0, <- E0; exact H1|]. auto 10.
    - intros m w1. unfold bind, lift. destruct (read_segs balance_in (find_segs m (B "HISAL"))) as [[|b bs]| |]; reflexivity.
    - intros m w1 x. unfold bind, lift. destruct (read_segs balance_in (find_segs m (B "HISAL"))) as [[|b bs]| |] eqn:Er; try discriminate.
      cbn. intros K. injection K as <-. split; [apply read_segs_spec; exact Er|discriminate].
  Qed.

  (** AccountInformation: one request, and what is printed is the first segment of its
      answer that begins with HIKIF. *)
  Theorem C50_information : forall args (w : world) s,
    snd (account_information sign_ok compose bank others pick args w) = Ok s ->
    exists new j m, w_sent (fst (account_information sign_ok compose bank others pick args w)) = w_sent w ++ new /\
      jobs (w_sent w) new = [j] /\ asks TInformation args [] j /\ answered (fst j) (snd j) m /\ ~ has_error m /\
      exists before after, bm_raw m = before ++ s :: after /\
        (exists rest, s = B "HIKIF" ++ rest) /\ forall x rest, In x before -> x <> B "HIKIF" ++ rest.
  Proof.
    intros args w s. unfold account_information. destruct (client_init_jobs sign_ok compose bank others pick w) as [new0 [E0 N0]].
    destruct (client_init sign_ok compose bank others pick w) as [w0 [[]| |]] eqn:EI; cbn [fst snd] in E0;
      [rewrite (Dialog_Facts3.bind_ok _ _ _ _ _ EI)|rewrite (bind_err _ _ _ _ EI); discriminate|rewrite (bind_panic _ _ _ _ EI); discriminate].
    intros H. eapply (one_request _ _ _ _ _ (fun m s => find (has_prefix (B "HIKIF")) (bm_raw m) = Some s)) in H.
    - destruct H as [new [j [m [E [H1 [H2 [H3 [H4 H5]]]]]]]]. exists (new0 ++ new), j, m.
      split; [rewrite E, E0, app_assoc; reflexivity|]. split; [rewrite jobs_app, N0, <- E0; exact H1|].
      split; [exact H2|]. split; [exact H3|]. split; [exact H4|]. clear -H5.
      induction (bm_raw m) as [|x l IH]; cbn [find] in H5; [discriminate|].
      destruct (has_prefix (B "HIKIF") x) eqn:Ex.
      + injection H5 as <-. exists [], l. split; [reflexivity|]. split; [apply has_prefix_spec; exact Ex|intros ? ? []].
      + destruct (IH H5) as [bf [af [-> [I1 I2]]]]. exists (x :: bf), af. split; [reflexivity|]. split; [exact I1|].
        intros y rest [<-|I]; [|apply I2; exact I]. intros K. assert (X : has_prefix (B "HIKIF") x = true) by (apply has_prefix_spec; eauto). congruence.
    - intros m w1. destruct (find (has_prefix (B "HIKIF")) (bm_raw m)); reflexivity.
    - intros m w1 x. destruct (find (has_prefix (B "HIKIF")) (bm_raw m)); [|discriminate]. cbn. congruence.
  Qed.
  (** Without such a segment there is an error. *)
  Theorem C50_information_missing : forall args (w : world) new j m,
    w_sent (fst (account_information sign_ok compose bank others pick args w)) = w_sent w ++ new ->
    jobs (w_sent w) new = [j] -> answered (fst j) (snd j) m ->
    (forall x rest, In x (bm_raw m) -> x <> B "HIKIF" ++ rest) ->
    ~ is_ok (snd (account_information sign_ok compose bank others pick args w)).
  Proof.
    intros args w new j m E J1 A1 N [s H]. destruct (C50_information _ _ _ H) as [new' [j' [m' [E' [J' [_ [A' [_ [bf [af [R [[rest S] _]]]]]]]]]]]].
    assert (new' = new) by (rewrite E' in E; eapply app_inv_head; exact E). subst new'.
    assert (j' = j) by congruence. subst j'. assert (m' = m) by (eapply answered_fun; eassumption). subst m'.
    apply (N s rest); [|exact S]. rewrite R. apply in_or_app. right. left. reflexivity.
  Qed.
End Props.
Print Assumptions C50_balances.
Print Assumptions C50_information.
Print Assumptions C50_information_missing.
Print Assumptions C29_requests.
Print Assumptions C29_result.
Print Assumptions C29_goes_on_only_after_marks.
Print Assumptions C29_result_independent.
Print Assumptions C29_bad_page.
Print Assumptions C29_transactions.
Print Assumptions C30_balances_version.
Print Assumptions C30_status_never.
Print Assumptions C30_sepa_transactions_client.

(** ** Continuation marks on the wire *)
(** The bank puts the mark on the wire as an alphanumeric element (that is [w]).  The
    client takes the parameter of the acknowledgement as it stands and puts it into an
    alphanumeric element of its own: the bank gets its mark back exactly if it has no
    syntax character, because these are escaped once more. *)
Theorem C29_mark_bytes : forall mark w, marshal_text mark = Ok w ->
  (exists again, escaped_form w again /\ marshal_text (to_utf8 w) = Ok again) /\
  (marshal_text (to_utf8 w) = Ok w <-> Forall (fun c => ~ In c (B "?@':+")) mark).
Proof.
  intros mark w H. rewrite marshal_text_ok. split; [exists (escape w); split; [now apply escaped_form_iff|reflexivity]|].
  enough (R : Ok (escape w) = Ok w <-> Forall (fun c => is_syntax c = false) mark).
  { rewrite R. clear. split; intro H; eapply Forall_impl; try exact H; clear H; cbn beta; intros c H.
    - intro I. change (In c ["?"; "@"; "'"; ":"; "+"]%byte) in I. cbn [In] in I.
      repeat (destruct I as [<-|I]; [discriminate H|]). exact I.
    - destruct (is_syntax c) eqn:E; [exfalso|reflexivity]. apply H. change (In c ["?"; "@"; "'"; ":"; "+"]%byte). cbn [In].
      unfold is_syntax in E. rewrite !orb_true_iff in E. rewrite !beq_true in E. unfold b_qmark, b_at, b_quote, b_colon, b_plus in E. intuition congruence. }
  apply marshal_text_iff in H. destruct H as [l [-> ->]].
  assert (G : forall s, escape s = s <-> Forall (fun c => is_syntax c = false) s).
  { intros s. split.
    - intros E. assert (L : List.length (escape s) = List.length s) by (rewrite E; reflexivity). clear E.
      assert (Lge : forall t, (List.length t <= List.length (escape t))%nat).
      { induction t as [|c t IH]; [cbn; lia|]. cbn [escape flat_map]. fold (escape t). rewrite app_length. destruct (is_syntax c); cbn; lia. }
      induction s as [|c s IH]; [constructor|]. cbn [escape flat_map] in L. fold (escape s) in L. rewrite app_length in L.
      specialize (Lge s). destruct (is_syntax c) eqn:Ec; cbn in L; [lia|]. constructor; [exact Ec|]. apply IH. lia.
    - induction 1 as [|c s Hc _ IH]; [reflexivity|]. cbn [escape flat_map]. fold (escape s). rewrite Hc, IH. reflexivity. }
  assert (U : Forall (fun c => is_syntax c = false) (to_utf8 l) <-> Forall (fun c => is_syntax c = false) l).
  { rewrite <- !G. rewrite escape_to_utf8. split; [|congruence]. intros E.
    assert (X : to_latin1 (to_utf8 (escape l)) = to_latin1 (to_utf8 l)) by (rewrite E; reflexivity).
    rewrite !latin1_utf8 in X. congruence. }
  rewrite U, <- G. split.
  - intros E. injection E as E. apply escape_inj in E. exact E.
  - intros E. rewrite !E. reflexivity.
Qed.
Print Assumptions C29_mark_bytes.
Example C29_mark_bytes_example : exists w, marshal_text (B "4711") = Ok w /\ marshal_text (to_utf8 w) = Ok w.
Proof. exists (B "4711"). split; vm_compute; reflexivity. Qed.
(** For the mark "a:b" the bank's answer contains "a?:b", and the next request "a???:b". *)
Theorem C29_mark_bytes_refuted :
  exists w a, marshal_text (B "a:b") = Ok w /\
    unmarshal_ack false 3 (B "3040::more:" ++ w) = Ok a /\ ack_params a = [B "a?:b"] /\
    marshal_text (B "a?:b") = Ok (B "a???:b") /\ unmarshal_text (B "a???:b") = B "a?:b".
Proof.
  exists (B "a?:b"). eexists. split; [vm_compute; reflexivity|]. split; [vm_compute; reflexivity|].
  split; [vm_compute; reflexivity|]. split; vm_compute; reflexivity.
Qed.
Print Assumptions C29_mark_bytes_refuted.

(** ** An example bank
    It offers balances in version 7 and transactions in versions 5 and 6, and it answers
    in three pages with the marks "m1" and "m2". *)
Definition cx_others (id : bytes) (v : Z) : option (bytes -> outcome (oseg bytes)) :=
  if bytes_eqb id (B "HIBPA") then Some (fun _ => Ok (OBpd (Ok 3)))
  else if bytes_eqb id (B "HISYN") then Some (fun _ => Ok (OSync (Ok (B "SYS1"))))
  else if bytes_eqb id (B "HISAL") then Some (fun raw => Ok (OSeg raw))
  else if bytes_eqb id (B "HIKAZ") then Some (fun raw => Ok (OSeg raw))
  else if bytes_eqb id (B "HIPRO") then Some (fun raw => Ok (OSeg raw))
  else None.
Definition cx_page (mark id : bytes) : bytes :=
  B "HNHBK:1:3+000000000100+300+D1+2'HIRMG:2:2+0010::ok'" ++
  (if bytes_eqb mark [] then B "HIRMS:3:2:3+3040::more:m1'" ++ id ++ B ":4:7:3+p1'"
   else if bytes_eqb mark (B "m1") then B "HIRMS:3:2:3+3040::more:m2'" ++ id ++ B ":4:7:3+p2'" ++ id ++ B ":5:7:3+p3'"
   else B "HIRMS:3:2:3+0020::done'" ++ id ++ B ":4:7:3+p4'").
Definition cx_answer (k : kind (job unit)) : bytes :=
  match k with
  | KSync _ => B "HNHBK:1:3+000000000100+300+S1+1'HIRMG:2:2+0010::ok'HISYN:3:4:1+x'HIBPA:4:3:2+x'HISALS:5:7:2+1'HIKAZS:6:5:2+1'HIKAZS:7:6:2+1'HIPRO:8:4:2+1'"
  | KInit _ _ _ _ => B "HNHBK:1:3+000000000100+300+D1+1'HIRMG:2:2+0010::ok'"
  | KJob j => cx_page (jb_mark j) (match jb_topic j with TTransactions => B "HIKAZ" | _ => B "HISAL" end)
  | KEnd _ => B "HNHBK:1:3+000000000100+300+D1+3'HIRMG:2:2+0010::ok'"
  end.
Definition cx_bank (h : list (entry (job unit))) : outcome bytes :=
  match rev h with [] => Err | e :: _ => Ok (cx_answer (kind_of e)) end.
Definition cx_sign (h : list (entry (job unit))) (q : request (job unit)) : outcome unit := Ok tt.
Definition cx_compose (h : list (entry (job unit))) (q : request (job unit)) : outcome bytes := Ok (rq_dialog q).
Definition cx_pick (h : list (entry (job unit))) : nat := 0%nat.
Definition cx_world : @world (job unit) bytes := new_client (B "user") (B "1234").
Definition cx_read (raw : bytes) : outcome bytes := Ok (firstn 2 (rev (firstn 3 (rev raw)))).
Definition cx_tx (data : bytes) : outcome (list bytes) := Ok [data].
Definition cx_clock (n : nat) : Z := Z.of_nat n.

Definition cx_balances := sepa_account_balances cx_sign cx_compose cx_bank cx_others cx_pick cx_read 10 tt [] cx_world.
Example C29_example :
  snd cx_balances = Some (Ok [B "p1"; B "p2"; B "p3"; B "p4"]) /\
  map (fun x => kind_of (snd x)) (jobs [] (w_sent (fst cx_balances))) =
    [KJob (mkJob TSepaBalances 7 tt []); KJob (mkJob TSepaBalances 7 tt (B "m1")); KJob (mkJob TSepaBalances 7 tt (B "m2"))] /\
  List.length (w_sent (fst cx_balances)) = 11%nat.
Proof. repeat match goal with |- _ /\ _ => split end; vm_compute; reflexivity. Qed.
(** With two pages only it is interrupted. *)
Example C29_interrupted_example :
  snd (sepa_account_balances cx_sign cx_compose cx_bank cx_others cx_pick cx_read 2 tt [] cx_world) = None.
Proof. vm_compute. reflexivity. Qed.
Example C29_transactions_example :
  snd (account_transactions cx_sign cx_compose cx_bank cx_others cx_pick cx_read cx_tx insertion_sort cx_clock 10 tt [] 0 cx_world) =
  Some (Ok [B "p1p2p3p4"]).
Proof. vm_compute. reflexivity. Qed.
Example C29_clock_example : forall i j, (i < j)%nat -> cx_clock i < cx_clock j.
Proof. unfold cx_clock. intros i j H. lia. Qed.

(** If the clock does not advance, the pages come out in reverse order. *)
Theorem C29_coarse_clock_refuted :
  snd (account_transactions cx_sign cx_compose cx_bank cx_others cx_pick cx_read cx_tx insertion_sort (fun _ => 0) 10 tt [] 0 cx_world) =
  Some (Ok [B "p4p2p3p1"]).
Proof. vm_compute. reflexivity. Qed.
Print Assumptions C29_coarse_clock_refuted.

(** An acknowledgement 3040 without parameter panics. *)
Theorem C29_no_parameter_refuted :
  continuation [mkAck 3040 [] (B "more") [] false ([], 0) 3] = Panic.
Proof. reflexivity. Qed.
Print Assumptions C29_no_parameter_refuted.

(** The bank does offer HIPRO in version 4, and answers. *)
Theorem C30_status_never_example :
  snd (status cx_sign cx_compose cx_bank cx_others cx_pick cx_read tt [] cx_world) = Err.
Proof. vm_compute. reflexivity. Qed.
Print Assumptions C30_status_never_example.
Example C30_balances_version_example :
  offered (d_supported (w_d (fst (client_init cx_sign cx_compose cx_bank cx_others cx_pick cx_world)))) (B "HISALS") 7 /\
  d_supported (w_d (fst (client_init cx_sign cx_compose cx_bank cx_others cx_pick cx_world))) = [(B "HISALS", 7); (B "HIKAZS", 5); (B "HIKAZS", 6)].
Proof. split; [unfold offered|]; vm_compute; auto. Qed.

(** ** Calls of one request *)
(** A bank that offers balances in versions 5 and 6 and answers with two of them, and with
    two segments of account information. *)
Definition c50_answer (k : kind (job unit)) : bytes :=
  match k with
  | KSync _ => B "HNHBK:1:3+000000000100+300+S1+1'HIRMG:2:2+0010::ok'HISYN:3:4:1+x'HIBPA:4:3:2+x'HISALS:5:5:2+1'HISALS:6:6:2+1'"
  | KInit _ _ _ _ => B "HNHBK:1:3+000000000100+300+D1+1'HIRMG:2:2+0010::ok'"
  | KJob j => match jb_topic j with
              | TBalances => B "HNHBK:1:3+000000000100+300+D1+2'HIRMG:2:2+0010::ok'HISAL:3:6:3+p1'HISAL:4:6:3+p2'"
              | _ => B "HNHBK:1:3+000000000100+300+D1+2'HIRMG:2:2+0010::ok'HIKIF:3:1:3+a'HIKIF:4:1:3+b'"
              end
  | KEnd _ => B "HNHBK:1:3+000000000100+300+D1+3'HIRMG:2:2+0010::ok'"
  end.
Definition c50_bank (h : list (entry (job unit))) : outcome bytes :=
  match rev h with [] => Err | e :: _ => Ok (c50_answer (kind_of e)) end.
Example C50_example :
  snd (account_balances cx_sign cx_compose c50_bank cx_others cx_pick cx_read tt cx_world) = Ok [B "p1"; B "p2"] /\
  snd (account_information cx_sign cx_compose c50_bank cx_others cx_pick tt cx_world) = Ok (B "HIKIF:3:1:3+a'") /\
  ~ is_ok (snd (account_information cx_sign cx_compose cx_bank cx_others cx_pick tt cx_world)).
Proof.
  split; [vm_compute; reflexivity|]. split; [vm_compute; reflexivity|]. intros [? K]. vm_compute in K. discriminate.
Qed.
