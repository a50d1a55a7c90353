(** * Facts on the client *)
From Coq Require Import Lia ZifyBool Sorting.Permutation Sorting.Sorted.
From Verif Require Import Base BaseFacts Lexer_Model Codec_Model Wire_Model Message_Model Dialog_Model Dialog_Spec Dialog_Proofs Dialog_Facts Dialog_Facts2 Dialog_Facts3 Dialog_Facts4 Merge_Model Merge_Proofs Client_Model Client_Spec.
Open Scope Z_scope.

(** ** Builders *)
Lemma insert_desc_perm x l : Permutation (x :: l) (insert_desc x l).
Proof.
  induction l as [|y l IH]; cbn [insert_desc]; [reflexivity|]. destruct (y <=? x); [reflexivity|].
  rewrite perm_swap. constructor. exact IH.
Qed.
Lemma sort_desc_perm l : Permutation l (sort_desc l).
Proof. induction l as [|x l IH]; cbn; [reflexivity|]. rewrite <- insert_desc_perm. constructor. exact IH. Qed.
Lemma sort_desc_sorted l : StronglySorted (fun a b => b <= a) (sort_desc l).
Proof.
  induction l as [|x l IH]; cbn; [constructor|]. revert IH. change (fold_right insert_desc [] l) with (sort_desc l). generalize (sort_desc l). clear l. intros l IH. revert IH.
  induction 1 as [|y l S IH F]; cbn [insert_desc]; [repeat constructor|].
  destruct (y <=? x) eqn:E.
  - constructor; [constructor; assumption|]. constructor; [lia|]. eapply Forall_impl; [|exact F]. cbn; intros; lia.
  - constructor; [exact IH|]. eapply Permutation_Forall; [apply insert_desc_perm|]. constructor; [lia|exact F].
Qed.

Lemma first_entry_spec t l : StronglySorted (fun a b => b <= a) l ->
  match first_entry t l with
  | Ok s => exists v, entry_for t v = Some s /\ In v l /\ forall v', In v' l -> entry_for t v' <> None -> v' <= v
  | Err => forall v, In v l -> entry_for t v = None
  | Panic => False
  end.
Proof.
  induction 1 as [|x l S IH F]; cbn [first_entry]; [intros v []|].
  destruct (entry_for t x) as [s|] eqn:E.
  - exists x. split; [exact E|]. split; [left; reflexivity|]. intros v' [<-|I] _; [lia|].
    rewrite Forall_forall in F. apply F. exact I.
  - destruct (first_entry t l) as [s| |].
    + destruct IH as [v [H1 [H2 H3]]]. exists v. split; [exact H1|]. split; [right; exact H2|].
      intros v' [<-|I] H; [congruence|]. apply H3; assumption.
    + intros v [<-|I]; [exact E|]. apply IH. exact I.
    + exact IH.
Qed.
Lemma entry_for_in t v : entry_for t v <> None <-> In v (map fst t).
Proof.
  unfold entry_for. induction t as [|[k s] t IH]; cbn [find map fst]; [split; [intros H; congruence|intros []]|].
  destruct (k =? v) eqn:E.
  - split; [intros _; left; lia|intros _; discriminate].
  - rewrite IH. split; [intros; right; assumption|intros [H|H]; [lia|assumption]].
Qed.
Definition straight (t : table) : Prop := Forall (fun p => fst p = snd p) t.
Lemma entry_for_straight t v s : straight t -> entry_for t v = Some s -> s = v.
Proof.
  unfold entry_for. intros St. induction St as [|[k x] t E St IH]; cbn [find fst]; [discriminate|].
  destruct (k =? v) eqn:Ek; [intros H; injection H as <-; cbn in E |- *; lia|exact IH].
Qed.
Lemma builder_ok t vs v : straight t ->
  first_entry t (sort_desc vs) = Ok v <-> highest_common vs (map fst t) v.
Proof.
  intros St. pose proof (first_entry_spec t _ (sort_desc_sorted vs)) as H.
  assert (P : forall x, In x (sort_desc vs) <-> In x vs).
  { intros x. split; intros I; (eapply Permutation_in; [|exact I]); [apply Permutation_sym|]; apply sort_desc_perm. }
  split.
  - intros E. rewrite E in H. destruct H as [w [H1 [H2 H3]]]. rewrite (entry_for_straight t w v St H1) in *.
    split; [apply P; exact H2|]. split; [apply entry_for_in; congruence|].
    intros v' I1 I2. apply H3; [apply P; exact I1|apply entry_for_in; exact I2].
  - intros [I1 [I2 I3]]. destruct (first_entry t (sort_desc vs)) as [s| |].
    + destruct H as [w [H1 [H2 H3]]]. rewrite (entry_for_straight t w s St H1). f_equal.
      assert (v <= w). { apply H3; [apply P; exact I1|apply entry_for_in; exact I2]. }
      assert (w <= v). { apply I3; [apply P; exact H2|apply entry_for_in; congruence]. } lia.
    + exfalso. apply entry_for_in in I2. apply I2. apply H. apply P. exact I1.
    + destruct H.
Qed.
Lemma builder_err t vs : first_entry t (sort_desc vs) = Err <-> nothing_common vs (map fst t).
Proof.
  pose proof (first_entry_spec t _ (sort_desc_sorted vs)) as H.
  assert (P : forall x, In x (sort_desc vs) <-> In x vs).
  { intros x. split; intros I; (eapply Permutation_in; [|exact I]); [apply Permutation_sym|]; apply sort_desc_perm. }
  split.
  - intros E. rewrite E in H. intros v I K. apply entry_for_in in K. apply K. apply H. apply P. exact I.
  - intros N. destruct (first_entry t (sort_desc vs)) as [s| |]; [|reflexivity|destruct H].
    destruct H as [w [H1 [H2 _]]]. exfalso. apply (N w); [apply P; exact H2|]. apply entry_for_in. congruence.
Qed.

Lemma versions_of_spec sup id :
  match versions_of sup id with
  | Some vs => forall v, In v vs <-> In (id, v) sup
  | None => forall v, ~ In (id, v) sup
  end.
Proof.
  unfold versions_of.
  assert (P : forall v, In v (map snd (filter (fun s => bytes_eqb (fst s) id) sup)) <-> In (id, v) sup).
  { intros v. rewrite in_map_iff. split.
    - intros [[i x] [E I]]. apply filter_In in I. destruct I as [I E']. cbn in E, E'. subst x.
      destruct (bytes_eqb_spec i id); [subst; exact I|discriminate].
    - intros I. exists (id, v). split; [reflexivity|]. apply filter_In. split; [exact I|]. cbn. apply bytes_eqb_refl. }
  destruct (filter (fun s => bytes_eqb (fst s) id) sup) eqn:E.
  - intros v I. apply P in I. destruct I.
  - exact P.
Qed.

(** ** The record of jobs *)
Section Facts.
  Context {A Acc : Type}.
  Notation J := (job A).
  Lemma jobs_app (l1 : list (entry J)) : forall h l2, jobs h (l1 ++ l2) = jobs h l1 ++ jobs (h ++ l1) l2.
  Proof.
    induction l1 as [|e l1 IH]; intros h l2; cbn [app jobs]; [rewrite app_nil_r; reflexivity|].
    rewrite IH, <- app_assoc. destruct (kind_of e); reflexivity.
  Qed.
  Lemma jobs_none (l : list (entry J)) : Forall (fun e => ~ is_job (kind_of e)) l -> forall h, jobs h l = [].
  Proof.
    induction 1 as [|e l N F IH]; intros h; cbn [jobs]; [reflexivity|]. rewrite IH.
    destruct (kind_of e) eqn:E; try reflexivity. exfalso. apply N. eexists; reflexivity.
  Qed.

  Variable sign_ok : list (entry J) -> request J -> outcome unit.
  Variable compose : list (entry J) -> request J -> outcome bytes.
  Variable bank : list (entry J) -> outcome bytes.
  Variable others : bytes -> Z -> option (bytes -> outcome (oseg Acc)).
  Variable pick : list (entry J) -> nat.
  Notation reply := (bank_message (oseg Acc)).
  Notation world := (@world J Acc).
  Notation act := (@act J Acc).
  Notation answered := (answered bank others).
  Notation send := (send_message sign_ok compose bank others pick).
  Notation sync := (sync_client_system sign_ok compose bank others pick).
  Notation client_init := (client_init sign_ok compose bank others pick).

  Lemma sync_part_no_jobs (w : world) pre ok : sync_part sign_ok compose bank others w pre ok ->
    Forall (fun e => ~ is_job (kind_of e)) pre.
  Proof.
    intros [[-> _]|[[bs [-> _]]|[bs [m [i [p [c [be [-> _]]]]]]]]]; repeat constructor; intros [j K]; discriminate.
  Qed.
  Lemma prelude_no_jobs (w : world) pre ok : prelude sign_ok compose bank others w pre ok ->
    Forall (fun e => ~ is_job (kind_of e)) pre.
  Proof. intros [[_ [-> _]]|[_ H]]; [constructor|]. eapply sync_part_no_jobs. exact H. Qed.
  Lemma init_no_job (k : kind J) : is_init k -> ~ is_job k.
  Proof. intros [c [s [b [u ->]]]] [j K]. discriminate. Qed.

  (** What one SendMessage puts on the record: at most the one job. *)
  Lemma send_jobs j (w : world) :
    exists new, w_sent (fst (send j w)) = w_sent w ++ new /\
      ((jobs (w_sent w) new = [] /\ ~ is_ok (snd (send j w))) \/
       exists h e, jobs (w_sent w) new = [(h, e)] /\ kind_of e = KJob j /\
         forall x, snd (send j w) = Ok x -> answered h e x /\ ~ has_error x).
  Proof.
    destruct (send_summary sign_ok compose bank others pick j w) as [[H1 H2]|[h [D [p [c [js [ends [H1 [H2 [H3 H4]]]]]]]]]].
    - destruct H2 as [[pre [E [P|[q [_ [_ P]]]]]]|[pre [i [P [E [I _]]]]]].
      + exists pre. split; [exact E|]. left. split; [|exact H1]. apply jobs_none. eapply prelude_no_jobs; exact P.
      + exists pre. split; [exact E|]. left. split; [|exact H1]. apply jobs_none. eapply prelude_no_jobs; exact P.
      + exists (pre ++ [i]). split; [exact E|]. left. split; [|exact H1]. apply jobs_none. apply Forall_app.
        split; [eapply prelude_no_jobs; exact P|]. repeat constructor. apply init_no_job. exact I.
    - destruct H1 as [pre [i [m [P1 [-> [P2 _]]]]]].
      assert (Ee : forall h, jobs h ends = []).
      { apply jobs_none. apply ended_any in H3. destruct H3 as [q [Q1 [_ [_ H3]]]].
        destruct H3 as [[-> _]|[be [-> _]]]; constructor; [|constructor]. cbn. unfold kind_of. cbn. rewrite Q1. intros [? K]. discriminate. }
      assert (Ep : forall h, jobs h (pre ++ [i]) = []).
      { apply jobs_none. apply Forall_app. split; [eapply prelude_no_jobs; exact P1|]. repeat constructor. apply init_no_job. exact P2. }
      exists ((pre ++ [i]) ++ js ++ ends). split. { rewrite H2, <- !app_assoc. reflexivity. }
      rewrite jobs_app, Ep. cbn [app]. rewrite jobs_app, Ee, app_nil_r.
      destruct H4 as [[-> [_ K]]|[bs [-> [_ [K _]]]]].
      + left. split; [reflexivity|exact K].
      + right. eexists _, _. split; [reflexivity|]. split; [reflexivity|]. exact K.
  Qed.
  Lemma client_init_jobs (w : world) :
    exists new, w_sent (fst (client_init w)) = w_sent w ++ new /\ forall h, jobs h new = [].
  Proof.
    unfold Client_Model.client_init, bind, get. destruct (d_bpd_version (w_d w) =? 0).
    - destruct (sync_cases sign_ok compose bank others pick w) as [pre [E [P _]]].
      exists pre. split.
      + rewrite <- E. destruct (sync w) as [w1 [x| |]]; reflexivity.
      + apply jobs_none. eapply sync_part_no_jobs. exact P.
    - exists []. cbn. rewrite app_nil_r. auto.
  Qed.

  Lemma read_segs_spec {X} (f : bytes -> outcome X) (m : reply) id xs :
    read_segs f (find_segs m id) = Ok xs <-> contents f id m xs.
  Proof.
    unfold read_segs, contents. rewrite (seg_eq m id). rewrite all_ok_Forall2.
    split; intros H; (induction H as [|s x l xs' E H IH]; constructor; [|exact IH]).
    - destruct s; try discriminate. eexists. split; [reflexivity|exact E].
    - destruct E as [raw [-> E]]. exact E.
  Qed.
  Lemma continuation_spec (m : reply) c : continuation (bm_acks m) = Ok c <-> continues m c.
  Proof.
    unfold continuation, continues. destruct (find is_3040 (bm_acks m)) as [a|] eqn:E.
    - destruct (find_split _ _ _ E) as [p [q [E1 [E2 E3]]]].
      assert (N : forall x, In x p -> ack_code x <> 3040).
      { intros x I K. specialize (E3 _ I). unfold is_3040 in E3. rewrite K in E3. discriminate. }
      assert (Ea : ack_code a = 3040) by (unfold is_3040 in E2; lia).
      split.
      + intros H. right. destruct (ack_params a) as [|y l] eqn:Ep; [discriminate|]. injection H as <-.
        exists p, a, q, l. auto.
      + intros [[_ H]|[p' [a' [q' [l [F1 [F2 [F3 F4]]]]]]]].
        * exfalso. apply (H a); [rewrite E1; apply in_elt|exact Ea].
        * assert (X : find is_3040 (bm_acks m) = Some a').
          { rewrite F1. apply find_split_inv; [unfold is_3040; lia|]. intros x I. specialize (F2 _ I). unfold is_3040. lia. }
          rewrite E in X. injection X as <-. rewrite F4. reflexivity.
    - pose proof (find_none _ _ E) as N. split.
      + intros H. injection H as <-. left. split; [reflexivity|]. intros a I K. specialize (N a I). unfold is_3040 in N. lia.
      + intros [[-> _]|[p [a [q [l [F1 [F2 [F3 F4]]]]]]]]; [reflexivity|]. exfalso.
        specialize (N a). unfold is_3040 in N. rewrite F1 in N. specialize (N (in_elt _ _ _)). lia.
  Qed.
End Facts.
