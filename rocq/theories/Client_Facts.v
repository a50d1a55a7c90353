(** * Paging *)
From Coq Require Import Lia ZifyBool Sorting.Permutation Sorting.Sorted.
From Verif Require Import Base BaseFacts Lexer_Model Codec_Model Wire_Model Message_Model Dialog_Model Dialog_Spec Dialog_Proofs Dialog_Facts Dialog_Facts2 Dialog_Facts3 Dialog_Facts4 Merge_Model Merge_Proofs Client_Model Client_Spec Client_Proofs.
Open Scope Z_scope.

Section Facts.
  Context {A Acc SBal : Type}.
  Notation J := (job A).
  Variable sign_ok : list (entry J) -> request J -> outcome unit.
  Variable compose : list (entry J) -> request J -> outcome bytes.
  Variable bank : list (entry J) -> outcome bytes.
  Variable others : bytes -> Z -> option (bytes -> outcome (oseg Acc)).
  Variable pick : list (entry J) -> nat.
  Variable sepa_balance_in : bytes -> outcome SBal.
  Variable booked_in : bytes -> outcome bytes.
  Variable sort : list mt -> list mt.
  Variable clock : nat -> Z.
  Notation reply := (bank_message (oseg Acc)).
  Notation world := (@world J Acc).
  Notation act := (@act J Acc).
  Notation answered := (answered bank others).
  Notation send := (send_message sign_ok compose bank others pick).
  Notation client_init := (client_init sign_ok compose bank others pick).
  Notation balance_page := (balance_page sign_ok compose bank others pick sepa_balance_in).
  Notation sepa_account_balances := (sepa_account_balances sign_ok compose bank others pick sepa_balance_in).
  Notation transaction_page := (transaction_page sign_ok compose bank others pick booked_in sort clock).
  Notation transaction_pages := (transaction_pages sign_ok compose bank others pick booked_in sort clock).

  (** What one page does to the record, if it is to be answered with [content]. *)
  Definition page_step {X} (content : reply -> X -> Prop) (t : topic) (args : A) (mark : bytes) (w w1 : world) (r : outcome (X * bytes)) : Prop :=
    exists new, w_sent w1 = w_sent w ++ new /\
      ((jobs (w_sent w) new = [] /\ ~ is_ok r) \/
       exists x, jobs (w_sent w) new = [x] /\ asks t args mark x /\
         forall b c, r = Ok (b, c) -> exists m, answered (fst x) (snd x) m /\ ~ has_error m /\ content m b /\ continues m c).
  (** The same for a page of which a job was sent after [new0], which has none. *)
  Lemma page_shift {X} content t args mark (w w0 w1 : world) (r : outcome (X * bytes)) new0 :
    w_sent w0 = w_sent w ++ new0 -> (forall h, jobs h new0 = []) ->
    page_step content t args mark w0 w1 r -> page_step content t args mark w w1 r.
  Proof.
    intros E N [new [E1 H]]. exists (new0 ++ new). rewrite E1, E, app_assoc. split; [reflexivity|].
    rewrite jobs_app, N, <- E. exact H.
  Qed.
  Lemma page_nothing {X} content t args mark (w w1 : world) (r : outcome (X * bytes)) new :
    w_sent w1 = w_sent w ++ new -> (forall h, jobs h new = []) -> ~ is_ok r -> page_step content t args mark w w1 r.
  Proof. intros E N H. exists new. split; [exact E|]. left. rewrite N. auto. Qed.

  Lemma not_ok_err {X} : ~ is_ok (@Err X).
  Proof. intros [? K]. discriminate. Qed.
  Lemma not_ok_panic {X} : ~ is_ok (@Panic X).
  Proof. intros [? K]. discriminate. Qed.
  Ltac nok := first [apply not_ok_err|apply not_ok_panic].

  (** Sending the job of a page and reading the answer by [k], which sends nothing. *)
  Lemma send_step {X} content t v args mark (w : world) (k : reply -> act (X * bytes)) :
    (forall m w0, fst (k m w0) = w0) ->
    (forall m w0 b c, snd (k m w0) = Ok (b, c) -> content m b /\ continues m c) ->
    page_step content t args mark w (fst (bind (send (mkJob t v args mark)) k w)) (snd (bind (send (mkJob t v args mark)) k w)).
  Proof.
    intros Q Hk. destruct (send_jobs sign_ok compose bank others pick (mkJob t v args mark) w) as [new [E H]].
    unfold bind. destruct (send (mkJob t v args mark) w) as [w1 r]. cbn [fst snd] in E, H.
    exists new. destruct H as [[H1 H2]|[h [e [H1 [H2 H3]]]]].
    - destruct r as [x| |]; cbn [fst snd].
      + exfalso. apply H2. eexists; reflexivity.
      + split; [exact E|]. left. split; [exact H1|nok].
      + split; [exact E|]. left. split; [exact H1|nok].
    - destruct r as [x| |]; cbn [fst snd].
      + rewrite Q. split; [exact E|]. right. exists (h, e). split; [exact H1|]. split; [exists v; exact H2|].
        intros b c Hb. exists x. destruct (H3 x eq_refl). destruct (Hk x w1 b c Hb). auto.
      + split; [exact E|]. right. exists (h, e). split; [exact H1|]. split; [exists v; exact H2|]. intros; discriminate.
      + split; [exact E|]. right. exists (h, e). split; [exact H1|]. split; [exists v; exact H2|]. intros; discriminate.
  Qed.

  Lemma bind_err {X Y} (m : act X) (k : X -> act Y) (w w1 : world) : m w = (w1, Err) -> bind m k w = (w1, Err).
  Proof. intros E. unfold bind. rewrite E. reflexivity. Qed.
  Lemma bind_panic {X Y} (m : act X) (k : X -> act Y) (w w1 : world) : m w = (w1, Panic) -> bind m k w = (w1, Panic).
  Proof. intros E. unfold bind. rewrite E. reflexivity. Qed.
  Lemma bind_get {Y} (k : dstate Acc -> act Y) (w : world) : bind get k w = k (w_d w) w.
  Proof. reflexivity. Qed.
  Lemma bind_lift {X Y} (o : outcome X) (k : X -> act Y) (w : world) :
    bind (lift o) k w = match o with Ok a => k a w | Err => (w, Err) | Panic => (w, Panic) end.
  Proof. destruct o; reflexivity. Qed.

  Definition balances_of (m : reply) (bs : list SBal) : Prop := contents sepa_balance_in (B "HISAL") m bs /\ bs <> [].
  Lemma balance_page_step args mark (w : world) :
    page_step balances_of TSepaBalances args mark w (fst (balance_page args mark w)) (snd (balance_page args mark w)).
  Proof.
    unfold Client_Model.balance_page. destruct (client_init_jobs sign_ok compose bank others pick w) as [new0 [E0 N0]].
    destruct (client_init w) as [w0 [[]| |]] eqn:EI; cbn [fst snd] in E0;
      [rewrite (bind_ok _ _ _ _ _ EI)
      |rewrite (bind_err _ _ _ _ EI); eapply page_nothing; [exact E0|exact N0|nok]
      |rewrite (bind_panic _ _ _ _ EI); eapply page_nothing; [exact E0|exact N0|nok]].
    apply (page_shift _ _ _ _ _ _ _ _ _ E0 N0). rewrite bind_get, bind_lift.
    destruct (build (d_supported (w_d w0)) (B "HISALS") sepa_balance_builder) as [v| |]; cbn [fst snd];
      [|apply (page_nothing _ _ _ _ _ _ _ []); [rewrite app_nil_r; reflexivity|reflexivity|nok]..].
    apply send_step.
    - intros m w1. unfold bind, lift, ret. destruct (read_segs sepa_balance_in (find_segs m (B "HISAL"))) as [[|b bs]| |]; try reflexivity.
      cbn. destruct (continuation (bm_acks m)); reflexivity.
    - intros m w1 b c. unfold bind, lift, ret.
      destruct (read_segs sepa_balance_in (find_segs m (B "HISAL"))) as [[|b0 bs]| |] eqn:Er; try discriminate. cbn.
      destruct (continuation (bm_acks m)) as [c0| |] eqn:Ec; try discriminate. cbn. intros H. injection H as <- <-.
      split; [split; [apply read_segs_spec; exact Er|discriminate]|]. apply (continuation_spec others). exact Ec.
  Qed.

  Definition mark_of (x : list (entry J) * entry J) : bytes :=
    match kind_of (snd x) with KJob j => jb_mark j | _ => [] end.
  Lemma asks_mark t args mark x : asks t args mark x -> mark_of x = mark.
  Proof. intros [v E]. unfold mark_of. rewrite E. reflexivity. Qed.
  (** Jobs [js] that are pages of one request. *)
  Definition linked (t : topic) (args : A) (js : list (list (entry J) * entry J)) : Prop :=
    Forall (fun x => asks t args (mark_of x) x) js /\
    forall a x y b, js = a ++ x :: y :: b ->
      mark_of y <> [] /\ exists m, answered (fst x) (snd x) m /\ ~ has_error m /\ continues m (mark_of y).
  Lemma linked_one t args mark x : asks t args mark x -> linked t args [x].
  Proof.
    intros H. split; [repeat constructor; rewrite (asks_mark _ _ _ _ H); exact H|].
    intros [|? [|? ?]] ? ? ? K; discriminate.
  Qed.
  Lemma linked_nil t args : linked t args [].
  Proof. split; [constructor|]. intros [|? ?] ? ? ? K; discriminate. Qed.
  Lemma linked_cons t args mark x js m c :
    asks t args mark x -> answered (fst x) (snd x) m -> ~ has_error m -> continues m c -> c <> [] ->
    linked t args js -> (forall y r, js = y :: r -> mark_of y = c) -> linked t args (x :: js).
  Proof.
    intros H1 H2 H3 H4 H5 [L1 L2] F. split.
    - constructor; [rewrite (asks_mark _ _ _ _ H1); exact H1|exact L1].
    - intros [|a0 a] u y b E.
      + injection E as <- E. rewrite (F _ _ E). split; [exact H5|]. exists m. auto.
      + injection E as <- E. exact (L2 _ _ _ _ E).
  Qed.

  (** What all pages do to the record. *)
  Definition pages_step {X} (content : reply -> X -> Prop) (t : topic) (args : A) (mark : bytes) (w w' : world) (n : nat)
             (r : option (outcome (list X))) : Prop :=
    exists new, w_sent w' = w_sent w ++ new /\
      linked t args (jobs (w_sent w) new) /\
      (forall y l, jobs (w_sent w) new = y :: l -> mark_of y = mark) /\
      (r = None -> List.length (jobs (w_sent w) new) = n /\
         Forall (fun x => exists m c, answered (fst x) (snd x) m /\ ~ has_error m /\ continues m c /\ c <> []) (jobs (w_sent w) new)) /\
      (forall pages, r = Some (Ok pages) ->
         exists ms, Forall2 (fun x m => answered (fst x) (snd x) m /\ ~ has_error m) (jobs (w_sent w) new) ms /\
           Forall2 content ms pages /\
           exists ms' m, ms = ms' ++ [m] /\ continues m []).

  Lemma pages_fail {X} content t args mark (w w1 : world) n (r : outcome (X * bytes)) (r' : outcome (list X)) :
    page_step content t args mark w w1 r -> ~ is_ok r' -> pages_step content t args mark w w1 n (Some r').
  Proof.
    intros [new [E H]] N. exists new. split; [exact E|].
    destruct H as [[H _]|[x [H [Ha _]]]]; rewrite H.
    - split; [apply linked_nil|]. split; [intros; discriminate|]. split; [discriminate|].
      intros pages K. injection K as ->. exfalso. apply N. eexists; reflexivity.
    - split; [eapply linked_one; exact Ha|]. split; [intros y l K; injection K as <- <-; eapply asks_mark; exact Ha|].
      split; [discriminate|]. intros pages K. injection K as ->. exfalso. apply N. eexists; reflexivity.
  Qed.
  Lemma pages_last {X} (content : reply -> X -> Prop) t args mark (w w1 : world) n b :
    page_step content t args mark w w1 (Ok (b, [])) -> pages_step content t args mark w w1 n (Some (Ok [b])).
  Proof.
    intros [new [E H]]. exists new. split; [exact E|].
    destruct H as [[_ H]|[x [H [Ha Hc]]]]; [exfalso; apply H; eexists; reflexivity|]. rewrite H.
    split; [eapply linked_one; exact Ha|]. split; [intros y l K; injection K as <- <-; eapply asks_mark; exact Ha|].
    split; [discriminate|]. intros pages K. injection K as <-. destruct (Hc _ _ eq_refl) as [m [M1 [M2 [M3 M4]]]].
    exists [m]. split; [repeat constructor; assumption|]. split; [repeat constructor; assumption|].
    exists [], m. auto.
  Qed.
  Lemma pages_more {X} (content : reply -> X -> Prop) t args mark (w w1 w2 : world) n b c r :
    page_step content t args mark w w1 (Ok (b, c)) -> c <> [] -> pages_step content t args c w1 w2 n r ->
    pages_step content t args mark w w2 (S n)
      (match r with Some (Ok next) => Some (Ok (b :: next)) | Some Err => Some Err | Some Panic => Some Panic | None => None end).
  Proof.
    intros [new [E H]] Nc [new2 [E2 [L [F [HN HO]]]]].
    destruct H as [[_ H]|[x [H [Ha Hc]]]]; [exfalso; apply H; eexists; reflexivity|].
    destruct (Hc _ _ eq_refl) as [m [M1 [M2 [M3 M4]]]].
    exists (new ++ new2). split; [rewrite E2, E, app_assoc; reflexivity|].
    rewrite jobs_app, H, <- E. cbn [app].
    split; [eapply linked_cons; eassumption|].
    split; [intros y l K; injection K as <- <-; eapply asks_mark; exact Ha|].
    split.
    - intros K. destruct r as [[p| |]|]; try discriminate. destruct (HN eq_refl) as [N1 N2].
      split; [cbn; lia|]. constructor; [exists m, c; auto|exact N2].
    - intros pages K. destruct r as [[p| |]|]; try discriminate. injection K as <-.
      destruct (HO _ eq_refl) as [ms [O1 [O2 [ms' [m' [-> O3]]]]]].
      exists (m :: ms' ++ [m']). split; [constructor; auto|]. split; [constructor; auto|].
      exists (m :: ms'), m'. auto.
  Qed.

  (** A list of pages next to the flat result. *)
  Lemma balances_steps n : forall args mark (w : world),
    exists r, pages_step balances_of TSepaBalances args mark w (fst (sepa_account_balances n args mark w)) n r /\
      snd (sepa_account_balances n args mark w) =
        match r with Some (Ok ps) => Some (Ok (List.concat ps)) | Some Err => Some Err | Some Panic => Some Panic | None => None end.
  Proof.
    induction n as [|n IH]; intros args mark w; cbn [Client_Model.sepa_account_balances].
    - exists None. split; [|reflexivity]. exists []. cbn. rewrite app_nil_r.
      split; [reflexivity|]. split; [apply linked_nil|]. split; [intros; discriminate|]. split; [intros _; split; [reflexivity|constructor]|].
      intros; discriminate.
    - pose proof (balance_page_step args mark w) as P. destruct (balance_page args mark w) as [w1 [[bs [|c0 c]]| |]]; cbn [fst snd] in P |- *.
      + exists (Some (Ok [bs])). split; [apply pages_last; exact P|]. cbn. rewrite app_nil_r. reflexivity.
      + destruct (IH args (c0 :: c) w1) as [r [H1 H2]].
        destruct (sepa_account_balances n args (c0 :: c) w1) as [w2 r2]. cbn [fst snd] in H1, H2. subst r2.
        pose proof (pages_more _ _ _ _ _ _ _ _ _ _ _ P ltac:(discriminate) H1) as Q.
        destruct r as [[ps| |]|]; cbn [fst snd]; eexists; (split; [exact Q|reflexivity]).
      + exists (Some Err). split; [eapply pages_fail; [exact P|nok]|reflexivity].
      + exists (Some Panic). split; [eapply pages_fail; [exact P|nok]|reflexivity].
  Qed.

  (** ** Transactions *)
  (** A page of transactions: the data of the HIKAZ segments one after the other. *)
  Definition booked_of (m : reply) (d : bytes) : Prop :=
    exists ds, contents booked_in (B "HIKAZ") m ds /\ d = List.concat ds.
  Hypothesis sorts : go_sort sort.
  Hypothesis advances : forall i j, (i < j)%nat -> clock i < clock j.

  Lemma stamp_sorted ds : forall tick, StronglySorted (fun a b => mt_time a < mt_time b) (stamp clock tick ds) /\
    Forall (fun m => clock tick <= mt_time m) (stamp clock tick ds).
  Proof.
    induction ds as [|d ds IH]; intros tick; cbn [stamp]; [repeat constructor|].
    destruct (IH (S tick)) as [H1 H2]. split.
    - constructor; [exact H1|]. eapply Forall_impl; [|exact H2]. cbn. intros m H. pose proof (advances tick (S tick)). lia.
    - constructor; [cbn; lia|]. eapply Forall_impl; [|exact H2]. cbn. intros m H. pose proof (advances tick (S tick)). lia.
  Qed.
  Lemma stamp_data ds : forall tick, map mt_data (stamp clock tick ds) = ds.
  Proof. induction ds as [|d ds IH]; intros tick; cbn; [reflexivity|]. rewrite IH. reflexivity. Qed.
  Lemma merge_stamp tick now ds : mt_data (merge sort now (stamp clock tick ds)) = List.concat ds.
  Proof.
    cbn. rewrite (sort_ordered sort (stamp clock tick ds) sorts (proj1 (stamp_sorted ds tick)) _ (Permutation_refl _)).
    rewrite stamp_data. reflexivity.
  Qed.

  Definition pr (r : outcome (mt * nat * bytes)) : outcome (bytes * bytes) := do p <- r; Ok (mt_data (fst (fst p)), snd p).
  Lemma transaction_page_step t builder args mark tick (w : world) :
    page_step booked_of t args mark w (fst (transaction_page t builder args mark tick w)) (pr (snd (transaction_page t builder args mark tick w))) /\
    forall tx tick1 c, snd (transaction_page t builder args mark tick w) = Ok (tx, tick1, c) ->
      (tick < tick1)%nat /\ mt_time tx = clock (pred tick1).
  Proof.
    unfold Client_Model.transaction_page. rewrite bind_get, bind_lift.
    destruct (build (d_supported (w_d w)) (B "HIKAZS") builder) as [v| |]; cbn [fst snd];
      [|split; [apply (page_nothing _ _ _ _ _ _ _ []); [rewrite app_nil_r; reflexivity|reflexivity|nok]|intros; discriminate]..].
    match goal with |- context [bind (send _) ?f] => set (k := f) end.
    assert (Q : forall m w0, fst (k m w0) = w0).
    { intros m w1. unfold k, bind, lift, ret. destruct (read_segs booked_in (find_segs m (B "HIKAZ"))) as [ds| |]; try reflexivity.
      destruct (continuation (bm_acks m)); reflexivity. }
    assert (R : forall m w0 tx tick1 c, snd (k m w0) = Ok (tx, tick1, c) ->
      (booked_of m (mt_data tx) /\ continues m c) /\ (tick < tick1)%nat /\ mt_time tx = clock (pred tick1)).
    { intros m w0 tx tick1 c. unfold k, bind, lift, ret.
      destruct (read_segs booked_in (find_segs m (B "HIKAZ"))) as [ds| |] eqn:Er; try discriminate.
      destruct (continuation (bm_acks m)) as [c0| |] eqn:Ec; try discriminate. cbn [snd]. intros H.
      assert (E1 : tx = merge sort (clock (tick + List.length ds)) (stamp clock tick ds)) by congruence.
      assert (E2 : tick1 = S (tick + List.length ds)) by congruence. assert (E3 : c0 = c) by congruence. subst tx tick1 c0.
      split; [|split; [lia|reflexivity]]. split; [|apply (continuation_spec others); exact Ec].
      exists ds. split; [apply read_segs_spec; exact Er|]. apply merge_stamp. }
    split.
    - pose proof (send_step booked_of t v args mark w (fun m w0 => (fst (k m w0), pr (snd (k m w0)))) Q) as G.
      assert (G0 : forall m w0 b c, snd ((fun m w0 => (fst (k m w0), pr (snd (k m w0)))) m w0) = Ok (b, c) -> booked_of m b /\ continues m c).
      { intros m w0 b c. cbn [snd]. unfold pr. destruct (snd (k m w0)) as [[[tx tick1] c0]| |] eqn:Ek; try discriminate.
        cbn. intros H. injection H as <- <-. exact (proj1 (R _ _ _ _ _ Ek)). }
      specialize (G G0). clear G0. unfold bind in G |- *. destruct (send (mkJob t v args mark) w) as [w1 [x| |]]; exact G.
    - unfold bind. destruct (send (mkJob t v args mark) w) as [w1 [x| |]]; intros tx tick1 c H; [|discriminate..].
      exact (proj2 (R _ _ _ _ _ H)).
  Qed.

  Lemma merge_two now msg tx : mt_time tx < mt_time msg -> mt_data (merge sort now [msg; tx]) = mt_data tx ++ mt_data msg.
  Proof.
    intros H. cbn. rewrite (sort_ordered sort [tx; msg] sorts); [cbn; rewrite app_nil_r; reflexivity| |apply perm_swap].
    repeat constructor. exact H.
  Qed.
  Lemma transaction_steps n : forall t builder args mark tick (w : world),
    exists r, pages_step booked_of t args mark w (fst (transaction_pages n t builder args mark tick w)) n r /\
      match r, snd (transaction_pages n t builder args mark tick w) with
      | Some (Ok ps), Some (Ok (msg, tick')) => mt_data msg = List.concat ps /\ (tick < tick')%nat /\ mt_time msg = clock (pred tick')
      | Some Err, Some Err => True
      | Some Panic, Some Panic => True
      | None, None => True
      | _, _ => False
      end.
  Proof.
    induction n as [|n IH]; intros t builder args mark tick w; cbn [Client_Model.transaction_pages].
    - exists None. split; [|exact I]. exists []. cbn. rewrite app_nil_r.
      split; [reflexivity|]. split; [apply linked_nil|]. split; [intros; discriminate|]. split; [intros _; split; [reflexivity|constructor]|].
      intros; discriminate.
    - destruct (transaction_page_step t builder args mark tick w) as [P T].
      destruct (transaction_page t builder args mark tick w) as [w1 [[[tx tick1] [|c0 c]]| |]]; cbn [fst snd] in P, T |- *.
      + exists (Some (Ok [mt_data tx])). split; [apply pages_last; exact P|]. cbn. rewrite app_nil_r.
        destruct (T _ _ _ eq_refl). auto.
      + destruct (T _ _ _ eq_refl) as [T1 T2]. destruct (IH t builder args (c0 :: c) tick1 w1) as [r [H1 H2]].
        destruct (transaction_pages n t builder args (c0 :: c) tick1 w1) as [w2 r2]. cbn [fst snd] in H1, H2.
        pose proof (pages_more _ _ _ _ _ _ _ _ _ _ _ P ltac:(discriminate) H1) as Q.
        destruct r as [[ps| |]|], r2 as [[[msg tick2]| |]|]; try contradiction; cbn [fst snd]; eexists; (split; [exact Q|]); try exact I.
        destruct H2 as [H2 [H3 H4]]. split; [|split; [lia|reflexivity]].
        rewrite merge_two; [rewrite H2; reflexivity|]. rewrite T2, H4. apply advances. lia.
      + exists (Some Err). split; [eapply pages_fail; [exact P|nok]|exact I].
      + exists (Some Panic). split; [eapply pages_fail; [exact P|nok]|exact I].
  Qed.
End Facts.
