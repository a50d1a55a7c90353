(** * Auxiliary proofs about the dialog model *)
From Coq Require Import Lia ZifyBool.
From Verif Require Import Base BaseFacts Lexer_Model Codec_Model Wire_Model Message_Model Dialog_Model Dialog_Spec.
Open Scope Z_scope.

Section Proofs.
  Context {J Acc : Type}.
  Variable sign_ok : list (entry J) -> request J -> outcome unit.
  Variable compose : list (entry J) -> request J -> outcome bytes.
  Variable bank : list (entry J) -> outcome bytes.
  Variable others : bytes -> Z -> option (bytes -> outcome (oseg Acc)).
  Variable pick : list (entry J) -> nat.
  Notation reply := (bank_message (oseg Acc)).
  Notation world := (@world J Acc).
  Notation act := (@act J Acc).
  Notation exchange := (exchange sign_ok compose bank others).
  Notation exchange_plain := (exchange_plain compose bank others).
  Notation end_dialog := (end_dialog sign_ok compose bank others).
  Notation sync_client_system := (sync_client_system sign_ok compose bank others pick).
  Notation start_dialog := (start_dialog sign_ok compose bank others pick).
  Notation answered := (answered bank others).
  Notation composable := (composable sign_ok compose).
  Notation composed := (composed sign_ok compose).

  Lemma seg_eq (m : reply) id : find_segs m id = segs m id.
  Proof.
    unfold find_segs, segments_by_id, segs. rewrite map_map. apply map_ext. intros [a b]. reflexivity.
  Qed.
  Lemma find_seg_eq (m : reply) id :
    find_seg m id = match segs m id with [] => None | s :: _ => Some s end.
  Proof.
    rewrite <- seg_eq. unfold find_seg, find_segs. destruct (segments_by_id id (bm_segments m)); reflexivity.
  Qed.
  Lemma has_error_spec (m : reply) : has_error m <-> existsb is_err (bm_acks m) = true.
  Proof.
    unfold has_error. rewrite existsb_exists. unfold is_err.
    split; intros [a [H1 H2]]; exists a; split; auto; lia.
  Qed.

  (** ** Acts that leave the conversation alone *)
  Definition quiet {A} (m : act A) : Prop :=
    forall w, w_sent (fst (m w)) = w_sent w /\ d_dialog (w_d (fst (m w))) = d_dialog (w_d w) /\
              d_count (w_d (fst (m w))) = d_count (w_d w).
  Lemma quiet_lift {A} (o : outcome A) : quiet (lift o).
  Proof. intros w. cbn. auto. Qed.
  Lemma quiet_ret {A} (a : A) : quiet (ret a).
  Proof. intros w. cbn. auto. Qed.
  Lemma quiet_bind {A C} (m : act A) (k : A -> act C) : quiet m -> (forall a, quiet (k a)) -> quiet (bind m k).
  Proof.
    intros Hm Hk w. unfold bind. specialize (Hm w). destruct (m w) as [w1 [a| |]]; cbn in *; auto.
    specialize (Hk a w1). destruct Hm as [A1 [A2 A3]]. destruct Hk as [B1 [B2 B3]]. repeat split; congruence.
  Qed.
  Lemma quiet_modify (f : dstate Acc -> dstate Acc) :
    (forall d, d_dialog (f d) = d_dialog d /\ d_count (f d) = d_count d) -> quiet (@modify J Acc f).
  Proof. intros H w. cbn. destruct (H (w_d w)). auto. Qed.
  Lemma quiet_fail (m : reply) : quiet (fail_on_error_acks (J:=J) m).
  Proof. apply quiet_lift. Qed.
  Lemma quiet_setfn f : quiet (set_security_function (J:=J) (Acc:=Acc) f).
  Proof. apply quiet_modify. intros d. auto. Qed.
  Lemma quiet_setsys f : quiet (set_client_system (J:=J) (Acc:=Acc) f).
  Proof. apply quiet_modify. intros d. auto. Qed.
  Lemma quiet_update (m : reply) : quiet (update_security_function pick m).
  Proof.
    unfold update_security_function. destruct (find_seg m _) as [t|]; [|apply quiet_ret].
    destruct (existsb is_3920 (bm_acks m)); [|apply quiet_ret].
    apply quiet_bind; [apply quiet_lift|]. intros cs w. cbv beta zeta.
    destruct (bytes_eqb _ _); [cbn; auto|apply quiet_setfn].
  Qed.
  Lemma quiet_bpd (m : reply) : quiet (parse_bpd (J:=J) m).
  Proof.
    unfold parse_bpd. destruct (find_seg m _) as [[]|]; try apply quiet_lift; try apply quiet_ret.
    apply quiet_bind; [apply quiet_modify; auto|]. intros _.
    apply quiet_bind; [apply quiet_lift|]. intros v.
    apply quiet_bind; [apply quiet_modify; auto|]. intros _.
    destruct (find_seg m _) as [[]|]; try apply quiet_lift; try apply quiet_ret.
  Qed.
  Lemma quiet_accounts l : quiet (add_accounts (J:=J) (Acc:=Acc) l).
  Proof.
    induction l as [|s r IH]; [apply quiet_ret|]. destruct s; try apply quiet_lift. cbn [add_accounts].
    apply quiet_bind; [apply quiet_lift|]. intros a. apply quiet_bind; [apply quiet_modify; auto|]. intros _. exact IH.
  Qed.
  Lemma quiet_upd (m : reply) : quiet (parse_upd (J:=J) m).
  Proof.
    unfold parse_upd. apply quiet_bind; [|intros _; apply quiet_accounts].
    destruct (find_seg m _) as [[]|]; try apply quiet_lift; try apply quiet_ret.
    apply quiet_bind; [apply quiet_lift|]. intros u. apply quiet_modify; auto.
  Qed.

  Lemma quiet_news (m : reply) : quiet (log_news (J:=J) m).
  Proof. unfold log_news. destruct (find_seg m _) as [[]|]; try apply quiet_lift; apply quiet_ret. Qed.

  (** ** When the steps succeed *)
  Lemma news_ok (m : reply) (w : world) : is_ok (snd (log_news (J:=J) m w)) <-> news_readable m.
  Proof.
    unfold log_news, news_readable. rewrite find_seg_eq. destruct (segs m (B "HIKIM")) as [|s r].
    { split; [intros ? ? ?; discriminate|intros _; exists tt; reflexivity]. }
    split.
    - intros [u H] s0 r0 E. assert (s0 = s) by congruence. subst s0. destruct s; try discriminate H.
      destruct news as [t| |]; try discriminate H. now exists t.
    - intros H. destruct (H s r eq_refl) as [t ->]. exists tt. reflexivity.
  Qed.
  Lemma bpd_ok (m : reply) (w : world) : is_ok (snd (parse_bpd (J:=J) m w)) <->
    (forall s r, segs m (B "HIBPA") = s :: r ->
       (exists v, s = OBpd (Ok v)) /\
       forall p q, segs m (B "HIPINS") = p :: q -> p = OPins (Ok tt)).
  Proof.
    unfold parse_bpd. rewrite !find_seg_eq. destruct (segs m (B "HIBPA")) as [|s r].
    { split; [intros ? ? ?; discriminate|intros _; exists tt; reflexivity]. }
    assert (E : forall (P : oseg Acc -> Prop), (forall s0 r0, s :: r = s0 :: r0 -> P s0) <-> P s).
    { intros P. split; [intros H; exact (H s r eq_refl)|intros H s0 r0 H0]. assert (s0 = s) by congruence. subst. exact H. }
    rewrite (E (fun s0 => (exists v, s0 = OBpd (Ok v)) /\ (forall p q, segs m (B "HIPINS") = p :: q -> p = OPins (Ok tt)))).
    destruct s as [ | | v | | | | | ]; try (split; [intros [? H]; discriminate|intros [[? H] _]; discriminate]).
    unfold bind, modify, lift. destruct v as [v| |]; cbn [fst snd];
      try (split; [intros [? H]; discriminate|intros [[? H] _]; discriminate]).
    destruct (segs m (B "HIPINS")) as [|p q].
    { split; [intros _; split; [exists v; reflexivity|intros ? ? ?; discriminate]|intros _; exists tt; reflexivity]. }
    destruct p as [ | | | t | | | | ]; try (split; [intros [? H]; discriminate|intros [_ H]; specialize (H _ _ eq_refl); discriminate]).
    destruct t as [[]| |].
    - split; [intros _; split; [exists v; reflexivity|intros ? ? H; injection H as <- _; reflexivity]|intros _; exists tt; reflexivity].
    - split; [intros [? H]; discriminate|intros [_ H]; specialize (H _ _ eq_refl); discriminate].
    - split; [intros [? H]; discriminate|intros [_ H]; specialize (H _ _ eq_refl); discriminate].
  Qed.
  Lemma accounts_ok l : forall w, is_ok (snd (add_accounts (J:=J) (Acc:=Acc) l w)) <->
    Forall (fun s => exists a, s = OAccount (Ok a)) l.
  Proof.
    induction l as [|s r IH]; intros w.
    { split; [constructor|intros _; exists tt; reflexivity]. }
    destruct s as [ | | | | | a | | ]; cbn [add_accounts];
      try (split; [intros [? H]; discriminate|intros H; inversion H as [|? ? [? ?] ?]; discriminate]).
    unfold bind, lift, modify. destruct a as [a| |]; cbn;
      try (split; [intros [? H]; discriminate|intros H; inversion H as [|? ? [? ?] ?]; discriminate]).
    rewrite IH. split; [intros H; constructor; [exists a; reflexivity|exact H]|intros H; inversion H; assumption].
  Qed.
  Lemma upd_ok (m : reply) (w : world) : is_ok (snd (parse_upd (J:=J) m w)) <->
    (forall s r, segs m (B "HIUPA") = s :: r -> exists u, s = OUpd (Ok u)) /\
    Forall (fun s => exists a, s = OAccount (Ok a)) (segs m (B "HIUPD")).
  Proof.
    unfold parse_upd. rewrite seg_eq, find_seg_eq. unfold bind, lift, modify, ret.
    destruct (segs m (B "HIUPA")) as [|s r].
    { rewrite accounts_ok. split; [intros H; split; [intros ? ? ?; discriminate|exact H]|tauto]. }
    destruct s as [ | | | | u | | | ];
      try (split; [intros [? H]; discriminate|intros [H _]; destruct (H _ _ eq_refl); discriminate]).
    destruct u as [u| |]; try (split; [intros [? H]; discriminate|intros [H _]; destruct (H _ _ eq_refl); discriminate]).
    rewrite accounts_ok. split; [|tauto]. intros H. split; [|exact H]. intros s0 r0 H0. injection H0 as <- _. exists u. reflexivity.
  Qed.
  Lemma fail_ok (m : reply) (w : world) : is_ok (snd (fail_on_error_acks m w)) <-> ~ has_error m.
  Proof.
    rewrite has_error_spec. unfold fail_on_error_acks, lift. cbn. destruct (existsb is_err _); split.
    - intros [? H]; discriminate.
    - intros H; exfalso; auto.
    - intros _ H; discriminate.
    - intros _; exists tt; reflexivity.
  Qed.

  Lemma find_split {A} (f : A -> bool) l a :
    find f l = Some a -> exists p q, l = p ++ a :: q /\ f a = true /\ (forall x, In x p -> f x = false).
  Proof.
    induction l as [|x r IH]; [discriminate|]. cbn. destruct (f x) eqn:E.
    - intros H. injection H as <-. exists [], r. repeat split; auto. intros ? [].
    - intros H. destruct (IH H) as [p [q [H1 [H2 H3]]]]. exists (x :: p), q. rewrite H1. repeat split; auto.
      intros y [<-|Hy]; auto.
  Qed.
  Lemma find_split_inv {A} (f : A -> bool) p a q :
    f a = true -> (forall x, In x p -> f x = false) -> find f (p ++ a :: q) = Some a.
  Proof.
    intros Ha Hp. induction p as [|x r IH]; cbn; [rewrite Ha; reflexivity|].
    rewrite (Hp x (or_introl eq_refl)). apply IH. intros y Hy. apply Hp. right. exact Hy.
  Qed.
  Lemma candidates_spec (m : reply) tans cs :
    candidates m tans = Ok cs ->
    exists a fs p q, bm_acks m = p ++ a :: q /\ ack_code a = 3920 /\ (forall x, In x p -> ack_code x <> 3920) /\
                 tans = OTans (Ok fs) /\ cs <> [] /\ forall f, In f cs <-> In f (ack_params a) /\ In f fs.
  Proof.
    unfold candidates. destruct (find is_3920 (bm_acks m)) as [a|] eqn:E; [|discriminate].
    apply find_split in E. destruct E as [p [q [E1 [E2 E3]]]].
    destruct (ack_params a) as [|pa ps] eqn:Eps; [discriminate|]. rewrite <- Eps.
    destruct tans; try discriminate. destruct functions as [fs| |]; try discriminate. cbn [obind].
    destruct (filter _ (ack_params a)) as [|c r] eqn:F; [discriminate|]. intros H. injection H as <-.
    exists a, fs, p, q. repeat split; auto; try discriminate; unfold is_3920 in *.
    - lia.
    - intros x Hx. specialize (E3 x Hx). lia.
    - assert (K : In f (filter (fun f => existsb (bytes_eqb f) fs) (ack_params a))) by (rewrite F; exact H).
      apply filter_In in K. tauto.
    - assert (K : In f (filter (fun f => existsb (bytes_eqb f) fs) (ack_params a))) by (rewrite F; exact H).
      apply filter_In in K. destruct K as [_ K]. apply existsb_exists in K. destruct K as [y [K1 K2]].
      destruct (bytes_eqb_spec f y); [subst; assumption|discriminate].
    - intros [H1 H2]. rewrite <- F. apply filter_In. split; [assumption|]. apply existsb_exists. exists f. split; [assumption|apply bytes_eqb_refl].
  Qed.
  Lemma candidates_ok (m : reply) fs rest a f p q :
    bm_acks m = p ++ a :: q -> ack_code a = 3920 -> (forall x, In x p -> ack_code x <> 3920) ->
    segs m (B "HITANS") = OTans (Ok fs) :: rest -> In f (ack_params a) -> In f fs ->
    exists cs, candidates m (OTans (Ok fs)) = Ok cs.
  Proof.
    intros H1 H2 H3 H4 H5 H6. unfold candidates. rewrite H1.
    rewrite (find_split_inv is_3920 p a q).
    2:{ unfold is_3920. lia. } 2:{ intros x Hx. specialize (H3 x Hx). unfold is_3920. lia. }
    destruct (ack_params a) as [|pa ps] eqn:Eps; [contradiction|]. rewrite <- Eps in *. cbn [obind].
    destruct (filter _ (ack_params a)) as [|c r] eqn:F; [|eexists; reflexivity].
    assert (K : In f (filter (fun f => existsb (bytes_eqb f) fs) (ack_params a))).
    { apply filter_In. split; [assumption|]. apply existsb_exists. exists f. split; [assumption|apply bytes_eqb_refl]. }
    rewrite F in K. contradiction.
  Qed.
  Lemma existsb_3920 (m : reply) : existsb is_3920 (bm_acks (P:=oseg Acc) m) = true <-> exists a, In a (bm_acks m) /\ ack_code a = 3920.
  Proof.
    rewrite existsb_exists. unfold is_3920. split; intros [a [H1 H2]]; exists a; split; auto; lia.
  Qed.
  Lemma update_ok (m : reply) (w : world) : is_ok (snd (update_security_function pick m w)) <-> function_available m.
  Proof.
    unfold update_security_function. rewrite find_seg_eq. unfold function_available.
    destruct (segs m (B "HITANS")) as [|t r] eqn:Et.
    { split; [auto|intros _; exists tt; reflexivity]. }
    destruct (existsb is_3920 (bm_acks m)) eqn:E.
    2:{ split; [|intros _; exists tt; reflexivity]. intros _. right. left. intros a Ha Hc.
        assert (K : existsb is_3920 (bm_acks m) = true) by (apply existsb_3920; eauto). congruence. }
    unfold bind, lift. destruct (candidates m t) as [cs| |] eqn:Ec.
    - cbv beta iota zeta. split.
      + intros _. right. right. destruct (candidates_spec _ _ _ Ec) as [a [fs [p [q [H1 [H2 [H3 [H4 [H5 H6]]]]]]]]].
        destruct cs as [|f cs]; [congruence|]. destruct (proj1 (H6 f) (or_introl eq_refl)) as [H7 H8].
        exists a, fs, r, f, p, q. rewrite H4. auto 10.
      + intros _. destruct (bytes_eqb _ _); eexists; reflexivity.
    - split; [intros [? H]; discriminate|]. intros [H|[H|H]]; [discriminate| |].
      + exfalso. apply existsb_3920 in E. destruct E as [a [Ha Hc]]. exact (H a Ha Hc).
      + destruct H as [a [fs [rest [f [p [q [H1 [H2 [H3 [H4 [H5 H6]]]]]]]]]]].
        injection H4 as -> ->. destruct (candidates_ok m fs rest a f p q) as [cs Hcs]; auto. congruence.
    - split; [intros [? H]; discriminate|]. intros [H|[H|H]]; [discriminate| |].
      + exfalso. apply existsb_3920 in E. destruct E as [a [Ha Hc]]. exact (H a Ha Hc).
      + destruct H as [a [fs [rest [f [p [q [H1 [H2 [H3 [H4 [H5 H6]]]]]]]]]]].
        injection H4 as -> ->. destruct (candidates_ok m fs rest a f p q) as [cs Hcs]; auto. congruence.
  Qed.

  (** ** One exchange *)
  Definition counted (d : dstate Acc) : dstate Acc := upd_count (d_count d + 1) d.
  Definition req (k : dstate Acc -> kind J) (d : dstate Acc) : request J :=
    mkRq (k (counted d)) (d_dialog d) (d_count d + 1) (Some (d_sig d)) (Some (d_crypt d)).
  Definition req_plain (k : dstate Acc -> kind J) (d : dstate Acc) : request J :=
    mkRq (k (counted d)) (d_dialog d) (d_count d + 1) None None.

  Lemma exchange_cases k (w : world) :
    let q := req k (w_d w) in
    (~ composable (w_sent w) q /\ ~ is_ok (snd (exchange k w)) /\
       fst (exchange k w) = mkW (counted (w_d w)) (w_sent w)) \/
    (exists bs, composed (w_sent w) q bs /\
       exchange k w = (mkW (counted (w_d w)) (w_sent w ++ [(q, bs)]),
                       do raw <- bank (w_sent w ++ [(q, bs)]); read_response others raw)).
  Proof.
    cbv zeta. unfold Dialog_Model.exchange, Dialog_Spec.composable, Dialog_Spec.composed.
    unfold bind, new_basic_message, sign_message, with_envelope, request_bank, get, ret, modify, bind. cbn.
    change (unsealed (req k (w_d w))) with (mkRq (k (counted (w_d w))) (d_dialog (w_d w)) (d_count (w_d w) + 1) (Some (d_sig (w_d w))) None).
    destruct (sign_ok (w_sent w) _) as [[]| |] eqn:Es.
    - unfold req. cbn. destruct (compose (w_sent w) _) as [bs| |] eqn:Ec.
      + right. exists bs. split; [split; [intros _; first [exact Es|reflexivity]|first [exact Ec|reflexivity]]|reflexivity].
      + left. cbn. repeat split; [|intros [? H]; discriminate]. intros [bs [_ H]]. unfold counted in Ec, H. cbn in *. congruence.
      + left. cbn. repeat split; [|intros [? H]; discriminate]. intros [bs [_ H]]. unfold counted in Ec, H. cbn in *. congruence.
    - left. cbn. repeat split; [|intros [? H]; discriminate]. intros [bs [H _]]. specialize (H ltac:(discriminate)). first [discriminate H|discriminate (eq_trans (eq_sym Es) H)].
    - left. cbn. repeat split; [|intros [? H]; discriminate]. intros [bs [H _]]. specialize (H ltac:(discriminate)). first [discriminate H|discriminate (eq_trans (eq_sym Es) H)].
  Qed.
  Lemma exchange_plain_cases k (w : world) :
    let q := req_plain k (w_d w) in
    (~ composable (w_sent w) q /\ ~ is_ok (snd (exchange_plain k w)) /\
       fst (exchange_plain k w) = mkW (counted (w_d w)) (w_sent w)) \/
    (exists bs, composed (w_sent w) q bs /\
       exchange_plain k w = (mkW (counted (w_d w)) (w_sent w ++ [(q, bs)]),
                       do raw <- bank (w_sent w ++ [(q, bs)]); read_response others raw)).
  Proof.
    cbv zeta. unfold Dialog_Model.exchange_plain.
    unfold bind, new_basic_message, request_bank, get, ret, modify, bind, req_plain, counted. cbn.
    destruct (compose (w_sent w) _) as [bs| |] eqn:Ec.
    - right. exists bs. split; [split; [intros K; exfalso; apply K; reflexivity|first [exact Ec|reflexivity]]|reflexivity].
    - left. cbn. repeat split; [intros [bs [_ H]]; first [discriminate H|discriminate (eq_trans (eq_sym Ec) H)]|intros [? H]; discriminate].
    - left. cbn. repeat split; [intros [bs [_ H]]; first [discriminate H|discriminate (eq_trans (eq_sym Ec) H)]|intros [? H]; discriminate].
  Qed.
  Lemma answer_ok h (e : entry J) (m : reply) :
    (do raw <- bank (h ++ [e]); read_response others raw) = Ok m <-> answered h e m.
  Proof.
    unfold Dialog_Spec.answered. destruct (bank (h ++ [e])) as [raw| |]; cbn.
    - split; [intros H; exists raw; auto|]. intros [raw' [H1 H2]]. congruence.
    - split; [discriminate|]. intros [? [H _]]. discriminate.
    - split; [discriminate|]. intros [? [H _]]. discriminate.
  Qed.
  Lemma answered_fun h e m m' : answered h e m -> answered h e m' -> m = m'.
  Proof. intros H1 H2. apply answer_ok in H1. apply answer_ok in H2. congruence. Qed.

  (** ** end *)
  Lemma end_cases (w : world) :
    let q := req (fun d => KEnd (d_dialog d)) (w_d w) in
    (~ composable (w_sent w) q /\ ~ is_ok (snd (end_dialog w)) /\ fst (end_dialog w) = mkW (counted (w_d w)) (w_sent w)) \/
    (exists bs, composed (w_sent w) q bs /\ fst (end_dialog w) = mkW (counted (w_d w)) (w_sent w ++ [(q, bs)]) /\
       (is_ok (snd (end_dialog w)) <-> exists m, answered (w_sent w) (q, bs) m /\ ~ has_error m)).
  Proof.
    cbv zeta. unfold Dialog_Model.end_dialog. destruct (exchange_cases (fun d => KEnd (d_dialog d)) w) as [[H1 [H2 H3]]|[bs [H1 H2]]].
    - left. split; [exact H1|]. unfold bind. destruct (exchange _ w) as [w1 r] eqn:E. cbn in H2, H3.
      destruct r; [exfalso; apply H2; eexists; reflexivity| |]; cbn; (split; [intros [? K]; discriminate|exact H3]).
    - right. exists bs. split; [exact H1|]. unfold bind. rewrite H2.
      destruct (do raw <- bank _; read_response others raw) as [m| |] eqn:E.
      + cbn [fst snd]. rewrite fail_ok. split; [reflexivity|]. apply answer_ok in E. split.
        * intros K. exists m. auto.
        * intros [m' [K1 K2]]. rewrite (answered_fun _ _ _ _ E K1). exact K2.
      + split; [reflexivity|]. split; [intros [? K]; discriminate|]. intros [m' [K _]]. apply answer_ok in K. discriminate (eq_trans (eq_sym E) K).
      + split; [reflexivity|]. split; [intros [? K]; discriminate|]. intros [m' [K _]]. apply answer_ok in K. discriminate (eq_trans (eq_sym E) K).
  Qed.

  (** ** start_dialog *)
  Definition reset (d : dstate Acc) : dstate Acc := upd_count 0 (upd_dialog (B "0") d).
  Definition init_kind (d : dstate Acc) : kind J :=
    KInit (d_client d) (d_system d) (d_bpd_version d) (upd_version (d_upd d)).
  Lemma is_ok_bind {A C} (m : act A) (k : A -> act C) w :
    is_ok (snd (bind m k w)) <-> exists a w1, m w = (w1, Ok a) /\ is_ok (snd (k a w1)).
  Proof.
    unfold bind. destruct (m w) as [w1 [a| |]]; cbn; split.
    - intros H. exists a, w1. auto.
    - intros [a' [w1' [H1 H2]]]. injection H1 as <- <-. exact H2.
    - intros [? H]; discriminate.
    - intros [? [? [H _]]]; discriminate.
    - intros [? H]; discriminate.
    - intros [? [? [H _]]]; discriminate.
  Qed.
  Lemma is_ok_unit (m : act unit) w : is_ok (snd (m w)) <-> m w = (fst (m w), Ok tt).
  Proof.
    destruct (m w) as [w1 [[]| |]]; cbn; (split; [intros [? H]|intros H; exists tt]); congruence.
  Qed.
  Lemma is_ok_seq {C} (m : act unit) (k : act C) w :
    is_ok (snd (bind m (fun _ => k) w)) <-> is_ok (snd (m w)) /\ is_ok (snd (k (fst (m w)))).
  Proof.
    rewrite is_ok_bind. split.
    - intros [[] [w1 [H1 H2]]]. rewrite H1. cbn. split; [exists tt; reflexivity|exact H2].
    - intros [H1 H2]. apply is_ok_unit in H1. exists tt, (fst (m w)). auto.
  Qed.
  (** The part of the initialisation after the answer was read. *)
  Definition process (m : reply) : act unit :=
    bind (take_dialog_id m) (fun _ => bind (parse_bpd m) (fun _ => bind (parse_upd m) (fun _ =>
      bind (log_news m) (fun _ => bind (fail_on_error_acks m) (fun _ => update_security_function pick m))))).
  Lemma process_ok (m : reply) (w : world) : is_ok (snd (process m w)) <-> usable m.
  Proof.
    unfold process. rewrite !is_ok_seq. rewrite bpd_ok, upd_ok, news_ok, fail_ok, update_ok. unfold usable, params_readable, assigns, take_dialog_id.
    destruct (mh_dialog (bm_header m)) as [i|].
    - cbn. split.
      + intros [_ [H1 [[H2 H3] [Hn [H4 H5]]]]]. split; [exists i; reflexivity|tauto].
      + intros [_ [[H1 [H2 H3]] [Hn [H4 H5]]]]. split; [exists tt; reflexivity|tauto].
    - cbn. split; [intros [[? H] _]; discriminate|intros [[? H] _]; discriminate].
  Qed.
  Lemma process_frame (m : reply) (w : world) :
    w_sent (fst (process m w)) = w_sent w /\ d_count (w_d (fst (process m w))) = d_count (w_d w) /\
    (forall i, assigns m i -> d_dialog (w_d (fst (process m w))) = i).
  Proof.
    assert (Q : quiet (bind (parse_bpd m) (fun _ => bind (parse_upd m) (fun _ =>
      bind (log_news m) (fun _ => bind (fail_on_error_acks m) (fun _ => update_security_function pick m)))))).
    { apply quiet_bind; [apply quiet_bpd|intros _]. apply quiet_bind; [apply quiet_upd|intros _]. apply quiet_bind; [apply quiet_news|intros _].
      apply quiet_bind; [apply quiet_fail|intros _]. apply quiet_update. }
    unfold process, take_dialog_id, assigns. destruct (mh_dialog (bm_header m)) as [i|].
    - unfold bind at 1. cbn [modify]. specialize (Q (mkW (upd_dialog i (w_d w)) (w_sent w))).
      destruct Q as [Q1 [Q2 Q3]]. cbn [w_sent w_d d_dialog d_count upd_dialog] in *.
      split; [exact Q1|]. split; [exact Q3|]. intros i' Hi. injection Hi as <-. exact Q2.
    - cbn. split; [reflexivity|]. split; [reflexivity|]. discriminate.
  Qed.
  Lemma start_eq (w : world) :
    start_dialog w = bind (exchange init_kind) process (mkW (reset (w_d w)) (w_sent w)).
  Proof. reflexivity. Qed.

  Definition init_request (d : dstate Acc) : request J := req init_kind (reset d).
  Lemma start_cases (w : world) :
    let q := init_request (w_d w) in
    (~ composable (w_sent w) q /\ ~ is_ok (snd (start_dialog w)) /\ w_sent (fst (start_dialog w)) = w_sent w) \/
    (exists bs, composed (w_sent w) q bs /\ w_sent (fst (start_dialog w)) = w_sent w ++ [(q, bs)] /\
       (is_ok (snd (start_dialog w)) <-> exists m, answered (w_sent w) (q, bs) m /\ usable m) /\
       (forall m, answered (w_sent w) (q, bs) m -> usable m ->
          assigns m (d_dialog (w_d (fst (start_dialog w)))) /\ d_count (w_d (fst (start_dialog w))) = 1)).
  Proof.
    cbv zeta. rewrite start_eq. set (w0 := mkW (reset (w_d w)) (w_sent w)).
    destruct (exchange_cases init_kind w0) as [[H1 [H2 H3]]|[bs [H1 H2]]].
    - left. split; [exact H1|]. unfold bind. destruct (exchange init_kind w0) as [w1 [r| |]]; cbn in *.
      + exfalso. apply H2. eexists; reflexivity.
      + split; [intros [? H]; discriminate|]. rewrite H3. reflexivity.
      + split; [intros [? H]; discriminate|]. rewrite H3. reflexivity.
    - right. exists bs. split; [exact H1|]. unfold bind. rewrite H2. cbn [w_sent w0].
      destruct (do raw <- bank _; read_response others raw) as [m| |] eqn:E.
      + apply answer_ok in E. cbn [w_sent w0] in E.
        set (w1 := mkW (counted (w_d w0)) _). destruct (process_frame m w1) as [F1 [F2 F3]].
        split; [exact F1|]. split.
        * rewrite process_ok. split; [intros K; exists m; auto|]. intros [m' [K1 K2]].
          rewrite (answered_fun _ _ _ _ E K1). exact K2.
        * intros m' K1 K2. rewrite (answered_fun _ _ _ _ E K1) in *. destruct K2 as [[i Ki] _].
          rewrite (F3 i Ki). split; [exact Ki|]. rewrite F2. reflexivity.
      + split; [reflexivity|]. split.
        * split; [intros [? K]; discriminate|]. intros [m' [K _]]. apply answer_ok in K. discriminate (eq_trans (eq_sym E) K).
        * intros m' K. apply answer_ok in K. discriminate (eq_trans (eq_sym E) K).
      + split; [reflexivity|]. split.
        * split; [intros [? K]; discriminate|]. intros [m' [K _]]. apply answer_ok in K. discriminate (eq_trans (eq_sym E) K).
        * intros m' K. apply answer_ok in K. discriminate (eq_trans (eq_sym E) K).
  Qed.

  (** ** Synchronisation *)
  Definition sync_request (d : dstate Acc) : request J :=
    mkRq (KSync (d_client d)) (d_dialog d) (d_count d + 1) (Some (d_sig d)) (Some (pv_set_system (B "0") (d_crypt d))).
  Definition process_sync (m : reply) : act unit :=
    bind (take_dialog_id m) (fun _ => bind (fail_on_error_acks m) (fun _ => bind (update_security_function pick m) (fun _ =>
      bind (match find_seg m (B "HISYN") with
            | None => lift Err
            | Some (OSync s) => bind (lift s) (fun s => set_client_system s)
            | Some _ => lift Panic
            end) (fun _ => bind (parse_bpd m) (fun _ => parse_upd m))))).
  Definition sync_exchange : act reply :=
    bind (new_basic_message true (fun d => KSync (d_client d))) (fun q =>
    bind (sign_message sign_ok q) (fun _ =>
    bind (modify (fun d => upd_crypt (pv_set_system (B "0") (d_crypt d)) d)) (fun _ =>
    bind (with_envelope q) (fun q => request_bank compose bank others q)))).
  Lemma bind_assoc {A C D} (m : act A) (f : A -> act C) (g : C -> act D) w :
    bind (bind m f) g w = bind m (fun a => bind (f a) g) w.
  Proof. unfold bind. destruct (m w) as [w1 [a| |]]; reflexivity. Qed.
  Lemma bind_ext {A C} (m : act A) (f g : A -> act C) w :
    (forall a w, f a w = g a w) -> bind m f w = bind m g w.
  Proof. intros H. unfold bind. destruct (m w) as [w1 [a| |]]; auto. Qed.
  Lemma sync_eq w :
    sync_client_system w =
    bind sync_exchange (fun m => bind (process_sync m) (fun _ =>
      bind end_dialog (fun _ => bind get (fun d => ret (d_system d))))) w.
  Proof.
    unfold Dialog_Model.sync_client_system, sync_exchange, process_sync.
    repeat (rewrite ?bind_assoc; apply bind_ext; intros). reflexivity.
  Qed.
  Definition counted_sync (d : dstate Acc) : dstate Acc := upd_crypt (pv_set_system (B "0") (d_crypt d)) (counted d).
  Lemma sync_exchange_cases (w : world) :
    let q := sync_request (w_d w) in
    (~ composable (w_sent w) q /\ ~ is_ok (snd (sync_exchange w)) /\
       exists d, fst (sync_exchange w) = mkW d (w_sent w) /\ (d = counted (w_d w) \/ d = counted_sync (w_d w))) \/
    (exists bs, composed (w_sent w) q bs /\
       sync_exchange w = (mkW (counted_sync (w_d w)) (w_sent w ++ [(q, bs)]),
                       do raw <- bank (w_sent w ++ [(q, bs)]); read_response others raw)).
  Proof.
    cbv zeta. unfold sync_exchange, Dialog_Spec.composable, Dialog_Spec.composed.
    unfold bind, new_basic_message, sign_message, with_envelope, request_bank, get, ret, modify, bind. cbn.
    destruct (sign_ok (w_sent w) _) as [[]| |] eqn:Es.
    - unfold sync_request. cbn. destruct (compose (w_sent w) _) as [bs| |] eqn:Ec.
      + right. exists bs. split; [split; [intros _; first [exact Es|reflexivity]|first [exact Ec|reflexivity]]|reflexivity].
      + left. cbn. repeat split; [|intros [? H]; discriminate|eexists; split; [reflexivity|right; reflexivity]].
        intros [bs [_ H]]. congruence.
      + left. cbn. repeat split; [|intros [? H]; discriminate|eexists; split; [reflexivity|right; reflexivity]].
        intros [bs [_ H]]. congruence.
    - left. cbn. repeat split; [|intros [? H]; discriminate|eexists; split; [reflexivity|left; reflexivity]].
      intros [bs [H _]]. specialize (H ltac:(discriminate)). first [discriminate H|discriminate (eq_trans (eq_sym Es) H)].
    - left. cbn. repeat split; [|intros [? H]; discriminate|eexists; split; [reflexivity|left; reflexivity]].
      intros [bs [H _]]. specialize (H ltac:(discriminate)). first [discriminate H|discriminate (eq_trans (eq_sym Es) H)].
  Qed.
  Lemma process_sync_ok (m : reply) (w : world) : is_ok (snd (process_sync m w)) <-> usable_sync m.
  Proof.
    unfold process_sync. rewrite !is_ok_seq. rewrite bpd_ok, upd_ok, fail_ok, update_ok, find_seg_eq.
    unfold usable_sync, params_readable, assigns, take_dialog_id.
    match goal with |- context [is_ok (snd (?x ?y))] =>
      match x with context [set_client_system] => assert (K : is_ok (snd (x y)) <-> (exists s r, segs m (B "HISYN") = OSync (Ok s) :: r)) end end.
    { destruct (segs m (B "HISYN")) as [|s r].
      - split; [intros [? H]; discriminate|intros [? [? H]]; discriminate].
      - destruct s as [s| | | | | | | ]; try (split; [intros [? H]; discriminate|intros [? [? H]]; discriminate]).
        destruct s as [s| |]; try (split; [intros [? H]; discriminate|intros [? [? H]]; discriminate]).
        split; [intros _; exists s, r; reflexivity|intros _; exists tt; reflexivity]. }
    rewrite K. clear K. destruct (mh_dialog (bm_header m)) as [i|].
    - cbn. split.
      + intros [_ H]. split; [exists i; reflexivity|tauto].
      + intros [_ H]. split; [exists tt; reflexivity|tauto].
    - cbn. split; [intros [[? H] _]; discriminate|intros [[? H] _]; discriminate].
  Qed.
  Lemma process_sync_frame (m : reply) (w : world) :
    w_sent (fst (process_sync m w)) = w_sent w /\ d_count (w_d (fst (process_sync m w))) = d_count (w_d w) /\
    (forall i, assigns m i -> d_dialog (w_d (fst (process_sync m w))) = i).
  Proof.
    assert (Q : quiet (bind (fail_on_error_acks m) (fun _ => bind (update_security_function pick m) (fun _ =>
      bind (match find_seg m (B "HISYN") with
            | None => lift Err
            | Some (OSync s) => bind (lift s) (fun s => set_client_system s)
            | Some _ => lift Panic
            end) (fun _ => bind (parse_bpd m) (fun _ => parse_upd m)))))).
    { apply quiet_bind; [apply quiet_fail|intros _]. apply quiet_bind; [apply quiet_update|intros _].
      apply quiet_bind.
      - destruct (find_seg m _) as [[]|]; try apply quiet_lift. apply quiet_bind; [apply quiet_lift|]. intros s. apply quiet_setsys.
      - intros _. apply quiet_bind; [apply quiet_bpd|intros _]. apply quiet_upd. }
    unfold process_sync, take_dialog_id, assigns. destruct (mh_dialog (bm_header m)) as [i|].
    - unfold bind at 1. cbn [modify]. specialize (Q (mkW (upd_dialog i (w_d w)) (w_sent w))).
      destruct Q as [Q1 [Q2 Q3]]. cbn [w_sent w_d d_dialog d_count upd_dialog] in *.
      split; [exact Q1|]. split; [exact Q3|]. intros i' Hi. injection Hi as <-. exact Q2.
    - cbn. split; [reflexivity|]. split; [reflexivity|]. discriminate.
  Qed.

  (** What a synchronisation adds to the record. *)
  Definition sync_part (w : world) (pre : list (entry J)) (ok : Prop) : Prop :=
    let q := sync_request (w_d w) in
    (pre = [] /\ ~ composable (w_sent w) q /\ ~ ok) \/
    (exists bs, pre = [(q, bs)] /\ composed (w_sent w) q bs /\ ~ ok /\
       ((~ exists m, answered (w_sent w) (q, bs) m /\ usable_sync m) \/
        exists m i p c, answered (w_sent w) (q, bs) m /\ usable_sync m /\ assigns m i /\
          ~ composable (w_sent w ++ [(q, bs)]) (mkRq (KEnd i) i (d_count (w_d w) + 2) (Some p) (Some c)))) \/
    (exists bs m i p c be, 
       let e := mkRq (KEnd i) i (d_count (w_d w) + 2) (Some p) (Some c) in
       pre = [(q, bs); (e, be)] /\ composed (w_sent w) q bs /\ answered (w_sent w) (q, bs) m /\ usable_sync m /\ assigns m i /\
       composed (w_sent w ++ [(q, bs)]) e be /\
       (ok <-> exists m2, answered (w_sent w ++ [(q, bs)]) (e, be) m2 /\ ~ has_error m2)).
  Lemma sync_cases (w : world) :
    exists pre, w_sent (fst (sync_client_system w)) = w_sent w ++ pre /\
      sync_part w pre (is_ok (snd (sync_client_system w))) /\
      (is_ok (snd (sync_client_system w)) -> snd (sync_client_system w) = Ok (d_system (w_d (fst (sync_client_system w))))).
  Proof.
    rewrite sync_eq. destruct (sync_exchange_cases w) as [[H1 [H2 [d [H3 H4]]]]|[bs [H1 H2]]].
    - exists []. unfold bind. destruct (sync_exchange w) as [w1 [m| |]]; cbn in H2, H3.
      + exfalso. apply H2. eexists; reflexivity.
      + cbn [fst snd]. rewrite H3, app_nil_r. split; [reflexivity|]. split; [|intros [? K]; discriminate].
        left. split; [reflexivity|]. split; [exact H1|]. intros [? K]; discriminate.
      + cbn [fst snd]. rewrite H3, app_nil_r. split; [reflexivity|]. split; [|intros [? K]; discriminate].
        left. split; [reflexivity|]. split; [exact H1|]. intros [? K]; discriminate.
    - unfold bind. rewrite H2. destruct (do raw <- bank _; read_response others raw) as [m| |] eqn:E.
      + apply answer_ok in E. set (w1 := mkW (counted_sync (w_d w)) (w_sent w ++ [(sync_request (w_d w), bs)])).
        pose proof (process_sync_ok m w1) as PO. pose proof (process_sync_frame m w1) as [F1 [F2 F3]].
        destruct (process_sync m w1) as [w2 r2]. cbn [fst snd] in *. destruct r2 as [[]| |].
        * assert (U : usable_sync m) by (apply PO; exists tt; reflexivity). destruct U as [[i Hi] U'].
          assert (U : usable_sync m) by (split; [exists i; exact Hi|exact U']). specialize (F3 i Hi).
          destruct (end_cases w2) as [[G1 [G2 G3]]|[be [G1 [G2 G3]]]].
          -- exists [(sync_request (w_d w), bs)]. destruct (end_dialog w2) as [w3 [[]| |]]; cbn [fst snd] in *.
             ++ exfalso. apply G2. exists tt. reflexivity.
             ++ rewrite G3. split; [exact F1|]. split; [|intros [? K]; discriminate].
                right. left. exists bs. split; [reflexivity|]. split; [exact H1|]. split; [intros [? K]; discriminate|].
                right. exists m, i, (d_sig (w_d w2)), (d_crypt (w_d w2)). split; [exact E|]. split; [exact U|]. split; [exact Hi|].
                rewrite F1 in G1. unfold req in G1. cbn in G1. rewrite F2, F3 in G1. cbn in G1.
                replace (d_count (w_d w) + 2) with (d_count (w_d w) + 1 + 1) by lia. exact G1.
             ++ rewrite G3. split; [exact F1|]. split; [|intros [? K]; discriminate].
                right. left. exists bs. split; [reflexivity|]. split; [exact H1|]. split; [intros [? K]; discriminate|].
                right. exists m, i, (d_sig (w_d w2)), (d_crypt (w_d w2)). split; [exact E|]. split; [exact U|]. split; [exact Hi|].
                rewrite F1 in G1. unfold req in G1. cbn in G1. rewrite F2, F3 in G1. cbn in G1.
                replace (d_count (w_d w) + 2) with (d_count (w_d w) + 1 + 1) by lia. exact G1.
          -- assert (Eq : req (fun d => KEnd (d_dialog d)) (w_d w2) =
                     mkRq (KEnd i) i (d_count (w_d w) + 2) (Some (d_sig (w_d w2))) (Some (d_crypt (w_d w2)))).
             { unfold req. cbn. rewrite F2, F3. cbn. replace (d_count (w_d w) + 2) with (d_count (w_d w) + 1 + 1) by lia. reflexivity. }
             rewrite Eq in *. clear Eq. rewrite F1 in *. cbn [w_sent w1] in *.
             exists [(sync_request (w_d w), bs); (mkRq (KEnd i) i (d_count (w_d w) + 2) (Some (d_sig (w_d w2))) (Some (d_crypt (w_d w2))), be)].
             assert (S : w_sent (fst (end_dialog w2)) = w_sent w ++ [(sync_request (w_d w), bs); (mkRq (KEnd i) i (d_count (w_d w) + 2) (Some (d_sig (w_d w2))) (Some (d_crypt (w_d w2))), be)]).
             { rewrite G2. cbn [w_sent]. rewrite <- app_assoc. reflexivity. }
             destruct (end_dialog w2) as [w3 r3]. cbn [fst snd] in *.
             split; [destruct r3 as [[]| |]; cbn; exact S|]. split.
             ++ right. right. exists bs, m, i, (d_sig (w_d w2)), (d_crypt (w_d w2)), be. cbv zeta.
                split; [reflexivity|]. split; [exact H1|]. split; [exact E|]. split; [exact U|]. split; [exact Hi|]. split; [exact G1|].
                rewrite <- G3. destruct r3 as [[]| |]; cbn; split; intros [? K]; try discriminate; eexists; reflexivity.
             ++ destruct r3 as [[]| |]; cbn; intros [? K]; try discriminate. reflexivity.
        * exists [(sync_request (w_d w), bs)]. cbn. split; [exact F1|]. split; [|intros [? K]; discriminate].
          right. left. exists bs. split; [reflexivity|]. split; [exact H1|]. split; [intros [? K]; discriminate|]. left.
          intros [m' [K1 K2]]. rewrite <- (answered_fun _ _ _ _ E K1) in K2. apply PO in K2. destruct K2; discriminate.
        * exists [(sync_request (w_d w), bs)]. cbn. split; [exact F1|]. split; [|intros [? K]; discriminate].
          right. left. exists bs. split; [reflexivity|]. split; [exact H1|]. split; [intros [? K]; discriminate|]. left.
          intros [m' [K1 K2]]. rewrite <- (answered_fun _ _ _ _ E K1) in K2. apply PO in K2. destruct K2; discriminate.
      + exists [(sync_request (w_d w), bs)]. cbn. split; [reflexivity|]. split; [|intros [? K]; discriminate].
        right. left. exists bs. split; [reflexivity|]. split; [exact H1|]. split; [intros [? K]; discriminate|]. left.
        intros [m' [K _]]. apply answer_ok in K. discriminate (eq_trans (eq_sym E) K).
      + exists [(sync_request (w_d w), bs)]. cbn. split; [reflexivity|]. split; [|intros [? K]; discriminate].
        right. left. exists bs. split; [reflexivity|]. split; [exact H1|]. split; [intros [? K]; discriminate|]. left.
        intros [m' [K _]]. apply answer_ok in K. discriminate (eq_trans (eq_sym E) K).
  Qed.
End Proofs.
