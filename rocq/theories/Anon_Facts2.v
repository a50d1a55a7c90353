(** * The anonymous client keeps its user's data to itself *)
From Verif Require Import Base BaseFacts Lexer_Model Codec_Model Wire_Model Message_Model Dialog_Model Merge_Model Client_Model
  Time_Model Seg_Model Request_Model Anon_Model Request_Spec Anon_Spec Dialog_Spec Dialog_Proofs.
Open Scope Z_scope.

Section Secrecy.
  Context {Acc : Type}.
  Variable render : seg -> bytes.
  Variables sa sb : settings.
  Hypothesis Hset : same_setup sa sb.
  Variables today today' : list (entry ajob) -> date.
  Variables signed_at signed_at' enveloped_at enveloped_at' : list (entry ajob) -> date * tod.
  Variables reply reply' : list bytes -> outcome bytes.
  Variables past past' : list bytes.
  Hypothesis Hbank : forall l, reply (past ++ l) = reply' (past' ++ l).
  Variable others : bytes -> Z -> option (bytes -> outcome (oseg Acc)).
  Notation ca := (anon_bytes render sa today signed_at enveloped_at).
  Notation cb := (anon_bytes render sb today' signed_at' enveloped_at').
  Notation ba := (fun h : list (entry ajob) => reply (map snd h)).
  Notation bb := (fun h : list (entry ajob) => reply' (map snd h)).

  Definition alike (a b : @world ajob Acc) : Prop :=
    same_versions (w_d a) (w_d b) /\ d_dialog (w_d a) = d_dialog (w_d b) /\ d_count (w_d a) = d_count (w_d b) /\
    exists l, map snd (w_sent a) = past ++ l /\ map snd (w_sent b) = past' ++ l.
  Definition rel {A} (m n : @act ajob Acc A) : Prop :=
    forall a b, alike a b -> alike (fst (m a)) (fst (n b)) /\ snd (m a) = snd (n b).

  Lemma rel_bind {A C} (m n : act A) (k l : A -> act C) : rel m n -> (forall x, rel (k x) (l x)) -> rel (bind m k) (bind n l).
  Proof.
    intros H K a b E. unfold bind. destruct (H a b E) as [H1 H2]. destruct (m a) as [a1 r], (n b) as [b1 s]. cbn [fst snd] in *. subst s.
    destruct r as [y| |]; [apply K; exact H1|split; [exact H1|reflexivity]|split; [exact H1|reflexivity]].
  Qed.
  Lemma bind_from {A C} (m n : act A) (k l : A -> act C) a b : alike (fst (m a)) (fst (n b)) /\ snd (m a) = snd (n b) ->
    (forall x, rel (k x) (l x)) -> alike (fst (bind m k a)) (fst (bind n l b)) /\ snd (bind m k a) = snd (bind n l b).
  Proof.
    intros [H1 H2] K. unfold bind. destruct (m a) as [a1 r], (n b) as [b1 s]. cbn [fst snd] in *. subst s.
    destruct r as [y| |]; [apply K; exact H1|split; [exact H1|reflexivity]|split; [exact H1|reflexivity]].
  Qed.
  Lemma rel_lift {A} (o : outcome A) : rel (lift o) (lift o).
  Proof. intros a b E. split; [exact E|reflexivity]. Qed.
  Lemma rel_ret {A} (x : A) : rel (ret x) (ret x).
  Proof. intros a b E. split; [exact E|reflexivity]. Qed.
  Lemma rel_modify f : (forall d d', same_versions d d' -> d_dialog d = d_dialog d' -> d_count d = d_count d' ->
      same_versions (f d) (f d') /\ d_dialog (f d) = d_dialog (f d') /\ d_count (f d) = d_count (f d')) -> rel (modify f) (modify f).
  Proof.
    intros H a b (E1&E2&E3&E4). destruct (H _ _ E1 E2 E3) as (F1&F2&F3). split; [|reflexivity]. repeat split; auto; apply F1.
  Qed.
  Lemma rel_deferred {A} (m n : act A) (c d : act unit) : rel m n -> rel c d -> rel (deferred m c) (deferred n d).
  Proof.
    intros H K a b E. unfold deferred. destruct (H a b E) as [H1 H2]. destruct (m a) as [a1 r], (n b) as [b1 s]. cbn [fst snd] in *. subst s.
    destruct (K a1 b1 H1) as [K1 K2]. destruct (c a1) as [a2 r2], (d b1) as [b2 s2]. cbn [fst snd] in *. subst s2. split; [exact K1|reflexivity].
  Qed.

  (** No message of an anonymous dialog depends on who sends it, or when. *)
  Lemma same_bytes h h' k dialog number :
    (exists a, k = KJob (inl a)) \/ (exists c s v u, k = KInit c s v u) \/ (exists i, k = KEnd i) ->
    ca h (mkRq k dialog number None None) = cb h' (mkRq k dialog number None None).
  Proof.
    destruct Hset as (E1&E2&E3&E4). destruct sa, sb. cbn in E1, E2, E3, E4. subst.
    intros [(a&->)|[(c&s&v&u&->)|(i&->)]]; reflexivity.
  Qed.
  Lemma rel_exchange f : (forall d d', same_versions d d' -> d_dialog d = d_dialog d' -> f d = f d') ->
    (forall d, (exists a, f d = KJob (inl a)) \/ (exists c s v u, f d = KInit c s v u) \/ (exists i, f d = KEnd i)) ->
    rel (exchange_plain ca ba others f) (exchange_plain cb bb others f).
  Proof.
    intros Hf Hk a b (E1&E2&E3&l&L1&L2).
    set (ka := upd_count (d_count (w_d a) + 1) (w_d a)). set (kb := upd_count (d_count (w_d b) + 1) (w_d b)).
    assert (F : f ka = f kb) by (apply Hf; [exact E1|exact E2]).
    assert (Xa : exchange_plain ca ba others f a =
      request_bank ca ba others (mkRq (f ka) (d_dialog (w_d a)) (d_count (w_d a) + 1) None None) (mkW ka (w_sent a))) by reflexivity.
    assert (Xb : exchange_plain cb bb others f b =
      request_bank cb bb others (mkRq (f kb) (d_dialog (w_d b)) (d_count (w_d b) + 1) None None) (mkW kb (w_sent b))) by reflexivity.
    rewrite Xa, Xb, F, E2, E3. unfold request_bank. cbn [w_sent w_d].
    rewrite (same_bytes (w_sent a) (w_sent b) (f kb) (d_dialog (w_d b)) (d_count (w_d b) + 1) (Hk kb)).
    assert (D : alike (mkW ka (w_sent a)) (mkW kb (w_sent b))).
    { split; [exact E1|]. split; [exact E2|]. split; [cbn; now rewrite E3|]. now exists l. }
    destruct (cb (w_sent b) _) as [bs| |]; [|split; [exact D|reflexivity]|split; [exact D|reflexivity]].
    assert (G : forall (h : list (entry ajob)) p q, map snd h = p ++ l -> map snd (h ++ [(q, bs)]) = p ++ (l ++ [bs])).
    { intros h p q L. rewrite app_assoc. refine (eq_trans (map_app _ _ _) _). exact (f_equal (fun t => t ++ [bs]) L). }
    cbn [fst snd]. split.
    - destruct D as (D1&D2&D3&_). split; [exact D1|]. split; [exact D2|]. split; [exact D3|]. exists (l ++ [bs]). cbn [w_sent].
      split; apply G; assumption.
    - rewrite (G _ _ _ L1), (G _ _ _ L2). now rewrite Hbank.
  Qed.
  Lemma rel_fail m : rel (fail_on_error_acks m) (fail_on_error_acks m).
  Proof. apply rel_lift. Qed.
  Lemma rel_accounts l : rel (add_accounts l) (add_accounts l).
  Proof.
    induction l as [|o r IH]; [apply rel_ret|]. destruct o; cbn [add_accounts]; try apply rel_lift.
    apply rel_bind; [apply rel_lift|]. intros y. apply rel_bind; [|intros _; exact IH]. apply rel_modify. intros d d' (V1&V2) D C. repeat split; assumption.
  Qed.
  Lemma rel_bpd m : rel (parse_bpd m) (parse_bpd m).
  Proof.
    unfold parse_bpd. destruct (find_seg m (B "HIBPA")) as [[]|]; try apply rel_ret; try apply rel_lift.
    apply rel_bind; [apply rel_modify; intros d d' (V1&V2) D C; repeat split; assumption|]. intros _.
    apply rel_bind; [apply rel_lift|]. intros v.
    apply rel_bind; [apply rel_modify; intros d d' (V1&V2) D C; repeat split; assumption|]. intros _.
    destruct (find_seg m (B "HIPINS")) as [[]|]; try apply rel_ret; try apply rel_lift.
  Qed.
  Lemma rel_upd m : rel (parse_upd m) (parse_upd m).
  Proof.
    unfold parse_upd. apply rel_bind; [|intros _; apply rel_accounts].
    destruct (find_seg m (B "HIUPA")) as [[]|]; try apply rel_ret; try apply rel_lift.
    apply rel_bind; [apply rel_lift|]. intros u. apply rel_modify. intros d d' (V1&V2) D C. repeat split; assumption.
  Qed.
  Lemma rel_news m : rel (log_news m) (log_news m).
  Proof. unfold log_news. destruct (find_seg m (B "HIKIM")) as [[]|]; try apply rel_ret; try apply rel_lift. Qed.
  Lemma rel_take m : rel (take_dialog_id m) (take_dialog_id m).
  Proof.
    unfold take_dialog_id. destruct (mh_dialog (bm_header m)); [|apply rel_lift]. apply rel_modify. intros d d' (V1&V2) D C. repeat split; assumption.
  Qed.
  Lemma rel_end : rel (anonymous_end ca ba others) (anonymous_end cb bb others).
  Proof.
    apply rel_bind; [|intros m; apply rel_fail]. apply rel_exchange.
    - intros d d' _ D. now rewrite D.
    - intros d. right. right. now eexists.
  Qed.

  Lemma secrecy from to max (a b : @world ajob Acc) : same_versions (w_d a) (w_d b) -> map snd (w_sent a) = past -> map snd (w_sent b) = past' ->
    let x := communication_access render sa today signed_at enveloped_at ba others from to max a in
    let y := communication_access render sb today' signed_at' enveloped_at' bb others from to max b in
    alike (fst x) (fst y) /\ snd x = snd y.
  Proof.
    intros V Pa Pb. cbv zeta. unfold communication_access, send_anonymous.
    assert (I : alike (fst (anonymous_init ca ba others a)) (fst (anonymous_init cb bb others b)) /\
                snd (anonymous_init ca ba others a) = snd (anonymous_init cb bb others b)).
    { set (a0 := mkW (upd_count 0 (upd_dialog (B "0") (w_d a))) (w_sent a)). set (b0 := mkW (upd_count 0 (upd_dialog (B "0") (w_d b))) (w_sent b)).
      assert (E : alike a0 b0).
      { split; [exact V|]. split; [reflexivity|]. split; [reflexivity|]. exists []. rewrite !app_nil_r. split; [exact Pa|exact Pb]. }
      set (f := fun d : dstate Acc => KInit (J := ajob) (B "9999999999") (B "0") (d_bpd_version d) (upd_version (d_upd d))).
      assert (R : forall ma mb : @act ajob Acc unit, rel ma mb -> alike (fst (ma a0)) (fst (mb b0)) /\ snd (ma a0) = snd (mb b0)) by (intros ma mb R; exact (R a0 b0 E)).
      refine (R (bind (exchange_plain ca ba others f) _) (bind (exchange_plain cb bb others f) _) _).
      apply rel_bind.
      - apply rel_exchange; [intros d d' (V1&V2) _; unfold f; now rewrite V1, V2|]. intros d. right. left. unfold f. now repeat eexists.
      - intros m. apply rel_bind; [apply rel_take|]. intros _. apply rel_bind; [apply rel_bpd|]. intros _.
        apply rel_bind; [apply rel_upd|]. intros _. apply rel_bind; [apply rel_news|]. intros _. apply rel_fail. }
    apply bind_from; [exact I|]. intros u. apply rel_deferred; [|exact rel_end]. apply rel_bind.
    - apply rel_exchange; [reflexivity|]. intros d. left. now eexists.
    - intros m. apply rel_bind; [apply rel_fail|]. intros _. apply rel_ret.
  Qed.
End Secrecy.

(** ** What stays as it was *)
Section Frame.
  Context {Acc : Type}.
  Variable compose : list (entry ajob) -> request ajob -> outcome bytes.
  Variable bank : list (entry ajob) -> outcome bytes.
  Variable others : bytes -> Z -> option (bytes -> outcome (oseg Acc)).
  Definition kept (a b : dstate Acc) : Prop :=
    d_system b = d_system a /\ d_fn b = d_fn a /\ d_sig b = d_sig a /\ d_crypt b = d_crypt a.
  Definition keeps {A} (m : @act ajob Acc A) : Prop := forall w, kept (w_d w) (w_d (fst (m w))).
  Lemma kept_trans a b c : kept a b -> kept b c -> kept a c.
  Proof. intros (A1&A2&A3&A4) (B1&B2&B3&B4). repeat split; congruence. Qed.
  Lemma kept_refl a : kept a a.
  Proof. repeat split. Qed.
  Lemma keeps_bind {A C} (m : act A) (k : A -> act C) : keeps m -> (forall x, keeps (k x)) -> keeps (bind m k).
  Proof.
    intros H K w. unfold bind. specialize (H w). destruct (m w) as [w1 [x| |]]; cbn [fst] in *; try exact H. exact (kept_trans _ _ _ H (K x w1)).
  Qed.
  Lemma keeps_lift {A} (o : outcome A) : keeps (lift o).
  Proof. intros w. apply kept_refl. Qed.
  Lemma keeps_ret {A} (x : A) : keeps (ret x).
  Proof. intros w. apply kept_refl. Qed.
  Lemma keeps_modify f : (forall d, kept d (f d)) -> keeps (modify f).
  Proof. intros H w. apply H. Qed.
  Lemma keeps_deferred {A} (m : act A) (c : act unit) : keeps m -> keeps c -> keeps (deferred m c).
  Proof.
    intros H K w. unfold deferred. specialize (H w). destruct (m w) as [w1 r]. cbn [fst] in H. specialize (K w1). destruct (c w1) as [w2 s]. exact (kept_trans _ _ _ H K).
  Qed.
  Lemma keeps_exchange f : keeps (exchange_plain compose bank others f).
  Proof.
    intros w. assert (X : exchange_plain compose bank others f w =
      request_bank compose bank others (mkRq (f (upd_count (d_count (w_d w) + 1) (w_d w))) (d_dialog (w_d w)) (d_count (w_d w) + 1) None None)
        (mkW (upd_count (d_count (w_d w) + 1) (w_d w)) (w_sent w))) by reflexivity.
    rewrite X. unfold request_bank. destruct (compose _ _); repeat split.
  Qed.
  Lemma keeps_accounts l : keeps (add_accounts l).
  Proof.
    induction l as [|o r IH]; [apply keeps_ret|]. destruct o; cbn [add_accounts]; try apply keeps_lift.
    apply keeps_bind; [apply keeps_lift|]. intros y. apply keeps_bind; [apply keeps_modify; repeat split|intros _; exact IH].
  Qed.
  Lemma anonymous_keeps j : keeps (send_anonymous compose bank others j).
  Proof.
    unfold send_anonymous. apply keeps_bind.
    - unfold anonymous_init. apply keeps_bind; [apply keeps_modify; repeat split|]. intros _.
      apply keeps_bind; [apply keeps_exchange|]. intros m.
      apply keeps_bind; [unfold take_dialog_id; destruct (mh_dialog _); [apply keeps_modify; repeat split|apply keeps_lift]|]. intros _.
      apply keeps_bind.
      { unfold parse_bpd. destruct (find_seg m (B "HIBPA")) as [[]|]; try apply keeps_ret; try apply keeps_lift.
        apply keeps_bind; [apply keeps_modify; repeat split|]. intros _. apply keeps_bind; [apply keeps_lift|]. intros v.
        apply keeps_bind; [apply keeps_modify; repeat split|]. intros _.
        destruct (find_seg m (B "HIPINS")) as [[]|]; try apply keeps_ret; try apply keeps_lift. }
      intros _. apply keeps_bind.
      { unfold parse_upd. apply keeps_bind; [|intros _; apply keeps_accounts].
        destruct (find_seg m (B "HIUPA")) as [[]|]; try apply keeps_ret; try apply keeps_lift.
        apply keeps_bind; [apply keeps_lift|]. intros u. apply keeps_modify. repeat split. }
      intros _. apply keeps_bind; [|intros _; apply keeps_lift].
      unfold log_news. destruct (find_seg m (B "HIKIM")) as [[]|]; try apply keeps_ret; try apply keeps_lift.
    - intros _. apply keeps_deferred.
      + apply keeps_bind; [apply keeps_exchange|]. intros m. apply keeps_bind; [apply keeps_lift|]. intros _. apply keeps_ret.
      + apply keeps_bind; [apply keeps_exchange|]. intros m. apply keeps_lift.
  Qed.

  (** The customer ID, too, unless the bank gives another one. *)
  Definition cid {A} (m : @act ajob Acc A) : Prop := forall w, d_client (w_d (fst (m w))) = d_client (w_d w).
  Lemma cid_bind {A C} (m : act A) (k : A -> act C) : cid m -> (forall x, cid (k x)) -> cid (bind m k).
  Proof.
    intros H K w. unfold bind. specialize (H w). destruct (m w) as [w1 [x| |]]; cbn [fst] in *; try exact H. now rewrite (K x w1).
  Qed.
  Lemma cid_lift {A} (o : outcome A) : cid (lift o).
  Proof. intros w. reflexivity. Qed.
  Lemma cid_ret {A} (x : A) : cid (ret x).
  Proof. intros w. reflexivity. Qed.
  Lemma cid_modify f : (forall d, d_client (f d) = d_client d) -> cid (modify f).
  Proof. intros H w. apply H. Qed.
  Lemma cid_deferred {A} (m : act A) (c : act unit) : cid m -> cid c -> cid (deferred m c).
  Proof.
    intros H K w. unfold deferred. specialize (H w). destruct (m w) as [w1 r]. cbn [fst] in H. specialize (K w1). destruct (c w1) as [w2 s]. cbn [fst] in *. congruence.
  Qed.
  Lemma cid_exchange f : cid (exchange_plain compose bank others f).
  Proof.
    intros w. assert (X : exchange_plain compose bank others f w =
      request_bank compose bank others (mkRq (f (upd_count (d_count (w_d w) + 1) (w_d w))) (d_dialog (w_d w)) (d_count (w_d w) + 1) None None)
        (mkW (upd_count (d_count (w_d w) + 1) (w_d w)) (w_sent w))) by reflexivity.
    rewrite X. unfold request_bank. destruct (compose _ _); reflexivity.
  Qed.
  Lemma cid_accounts l : cid (add_accounts l).
  Proof.
    induction l as [|o r IH]; [apply cid_ret|]. destruct o; cbn [add_accounts]; try apply cid_lift.
    apply cid_bind; [apply cid_lift|]. intros y. apply cid_bind; [now apply cid_modify|intros _; exact IH].
  Qed.
  Lemma customer_kept j (w : @world ajob Acc) : (forall i m, answered bank others (w_sent w) i m -> segs m (B "HIUPA") = []) ->
    d_client (w_d (fst (send_anonymous compose bank others j w))) = d_client (w_d w).
  Proof.
    intros H.
    assert (I : d_client (w_d (fst (anonymous_init compose bank others w))) = d_client (w_d w)).
    { set (f := fun d : dstate Acc => KInit (J := ajob) (B "9999999999") (B "0") (d_bpd_version d) (upd_version (d_upd d))).
      set (w0 := mkW (reset (w_d w)) (w_sent w)).
      set (k := fun m : reply (Acc := Acc) => bind (J := ajob) (take_dialog_id m) (fun _ => bind (parse_bpd m) (fun _ => bind (parse_upd m) (fun _ => bind (log_news m) (fun _ => fail_on_error_acks m))))).
      change (anonymous_init compose bank others w) with (bind (exchange_plain compose bank others f) k w0).
      pose proof (cid_exchange f w0) as X.
      destruct (exchange_plain_cases (fun _ _ => Ok tt) compose bank others f w0) as [(_&G2&_)|(bs&_&G2)].
      - unfold bind at 1. destruct (exchange_plain compose bank others f w0) as [w1 [y| |]]; cbn [fst snd] in *; try exact X.
        exfalso. apply G2. now exists y.
      - unfold bind at 1. rewrite G2 in X |- *. cbn [fst] in X.
        match goal with |- context [match ?o with Ok _ => _ | Err => _ | Panic => _ end] => destruct o as [m| |] eqn:E end; try exact X.
        apply answer_ok in E. pose proof (H _ _ E) as N.
        assert (K : cid (k m)); [|rewrite (K _); exact X].
        apply cid_bind; [unfold take_dialog_id; destruct (mh_dialog _); [now apply cid_modify|apply cid_lift]|]. intros _.
        apply cid_bind.
        { unfold parse_bpd. destruct (find_seg m (B "HIBPA")) as [[]|]; try apply cid_ret; try apply cid_lift.
          apply cid_bind; [now apply cid_modify|]. intros _. apply cid_bind; [apply cid_lift|]. intros v.
          apply cid_bind; [now apply cid_modify|]. intros _.
          destruct (find_seg m (B "HIPINS")) as [[]|]; try apply cid_ret; try apply cid_lift. }
        intros _. apply cid_bind.
        { unfold parse_upd. rewrite (find_seg_eq m), N. apply cid_bind; [apply cid_ret|]. intros _. apply cid_accounts. }
        intros _. apply cid_bind; [|intros _; apply cid_lift].
        unfold log_news. destruct (find_seg m (B "HIKIM")) as [[]|]; try apply cid_ret; try apply cid_lift. }
    unfold send_anonymous. unfold bind at 1. destruct (anonymous_init compose bank others w) as [w1 [u| |]]; cbn [fst] in *; try exact I.
    assert (K : forall m c, cid m -> cid c -> d_client (w_d (fst (deferred (A := reply (Acc := Acc)) m c w1))) = d_client (w_d w))
      by (intros m c Hm Hc; rewrite (cid_deferred m c Hm Hc w1); exact I).
    apply K.
    - apply cid_bind; [apply cid_exchange|]. intros m. apply cid_bind; [apply cid_lift|]. intros _. apply cid_ret.
    - apply cid_bind; [apply cid_exchange|]. intros m. apply cid_lift.
  Qed.
End Frame.
