(** * Auxiliary proofs: errors say why *)
From Coq Require Import Lia ZifyBool.
From Verif Require Import Base BaseFacts Lexer_Model Codec_Model Wire_Model Message_Model Message_Proofs Dialog_Model Dialog_Spec Dialog_Proofs
  Merge_Model Client_Model Error_Model Error_Spec.
Open Scope Z_scope.

(** ** The model without the texts *)
Definition erase {J Acc A} (x : @world J Acc * result A) : @world J Acc * outcome A := (fst x, plain (snd x)).
Definition same {J Acc A} (m : @tact J Acc A) (m' : @act J Acc A) : Prop := forall w, erase (m w) = m' w.
Section Same.
  Context {J Acc : Type}.
  Notation tact := (@tact J Acc).
  Notation act := (@act J Acc).
  Lemma plain_named {A} why (o : outcome A) : plain (named why o) = o.
  Proof. now destruct o. Qed.
  Lemma same_ret {A} (a : A) : same (J:=J) (Acc:=Acc) (tret a) (ret a).
  Proof. intros w. reflexivity. Qed.
  Lemma same_lift {A} (r : result A) o : plain r = o -> same (J:=J) (Acc:=Acc) (tlift r) (lift o).
  Proof. intros <- w. reflexivity. Qed.
  Lemma same_named {A} why (m : act A) : same (tnamed why m) m.
  Proof. intros w. unfold erase, tnamed. destruct (m w) as [w1 o]. cbn. now rewrite plain_named. Qed.
  Lemma same_prefixed {A} p (m : tact A) m' : same m m' -> same (tprefixed p m) m'.
  Proof. intros H w. rewrite <- H. unfold erase, tprefixed. destruct (m w) as [w1 []]; reflexivity. Qed.
  Lemma same_bind {A C} (m : tact A) m' (k : A -> tact C) k' :
    same m m' -> (forall a, same (k a) (k' a)) -> same (tbind m k) (bind m' k').
  Proof.
    intros H K w. unfold bind, tbind. rewrite <- H. unfold erase. destruct (m w) as [w1 [a|t|]]; cbn [fst snd plain]; auto. apply K.
  Qed.
  Lemma same_deferred {A} (m : tact A) m' c c' : same m m' -> same c c' -> same (tdeferred m c) (deferred m' c').
  Proof.
    intros H K w. unfold deferred, tdeferred. rewrite <- H. unfold erase. destruct (m w) as [w1 r]. cbn [fst snd].
    rewrite <- (K w1). unfold erase. destruct (c w1) as [w2 [a|t|]]; reflexivity.
  Qed.
End Same.

Section Dialog.
  Context {J Acc : Type}.
  Variable sign_ok : list (entry J) -> request J -> outcome unit.
  Variable compose : list (entry J) -> request J -> outcome bytes.
  Variable bank : list (entry J) -> outcome bytes.
  Variable others : bytes -> Z -> option (bytes -> outcome (oseg Acc)).
  Variable pick : list (entry J) -> nat.
  Variable sign_why : list (entry J) -> request J -> bytes.
  Variable compose_why : list (entry J) -> request J -> bytes.
  Variable bank_why : list (entry J) -> bytes.
  Variable read_why : bytes -> bytes.
  Variable quote : bytes -> bytes.
  Notation reply := (bank_message (oseg Acc)).
  Notation world := (@world J Acc).
  Notation act := (@act J Acc).
  Notation tact := (@tact J Acc).
  Notation answered := (answered bank others).
  Notation t_request := (t_request compose bank others compose_why bank_why read_why).
  Notation t_exchange := (t_exchange sign_ok compose bank others sign_why compose_why bank_why read_why).
  Notation t_exchange_plain := (t_exchange_plain compose bank others compose_why bank_why read_why).
  Notation t_end := (t_end sign_ok compose bank others sign_why compose_why bank_why read_why quote).
  Notation t_anonymous_end := (t_anonymous_end compose bank others compose_why bank_why read_why quote).
  Notation t_sync_system := (t_sync_system sign_ok compose bank others pick sign_why compose_why bank_why read_why quote).
  Notation t_start := (t_start sign_ok compose bank others pick sign_why compose_why bank_why read_why quote).
  Notation t_ensure_system := (t_ensure_system sign_ok compose bank others pick sign_why compose_why bank_why read_why quote).
  Notation t_init := (t_init sign_ok compose bank others pick sign_why compose_why bank_why read_why quote).
  Notation t_anonymous_init := (t_anonymous_init compose bank others compose_why bank_why read_why quote).
  Notation t_send := (t_send sign_ok compose bank others pick sign_why compose_why bank_why read_why quote).
  Notation t_sync_user := (t_sync_user sign_ok compose bank others pick sign_why compose_why bank_why read_why quote).
  Notation t_send_anonymous := (t_send_anonymous compose bank others compose_why bank_why read_why quote).

  Lemma same_sign q : same (t_sign (Acc:=Acc) sign_ok sign_why q) (sign_message sign_ok q).
  Proof. intros w. unfold erase, t_sign, sign_message. cbn. now rewrite plain_named. Qed.
  Lemma same_request p q : same (t_request p q) (request_bank compose bank others q).
  Proof.
    intros w. unfold erase, Error_Model.t_request, request_bank. destruct (compose (w_sent w) q) as [bs| |]; cbn [fst snd plain]; auto.
    destruct (bank (w_sent w ++ [(q, bs)])); cbn [fst snd plain obind]; auto. now rewrite plain_named.
  Qed.
  Lemma same_fail label (m : reply) : same (J:=J) (t_fail quote label m) (fail_on_error_acks m).
  Proof.
    apply same_lift.
    assert (E : existsb is_err (bm_acks m) = match filter is_err (bm_acks m) with [] => false | _ => true end).
    { induction (bm_acks m) as [|a l IH]; [reflexivity|]. cbn. now destruct (is_err a). }
    rewrite E. now destruct (filter is_err (bm_acks m)).
  Qed.
  Ltac same_tac := repeat first
    [ apply same_bind; [|intros ?] | apply same_named | apply same_sign | apply same_request | apply same_fail | apply same_ret
    | apply same_deferred | apply same_prefixed ].
  Lemma same_exchange p k : same (t_exchange p k) (exchange sign_ok compose bank others k).
  Proof. unfold Error_Model.t_exchange, exchange. same_tac. Qed.
  Lemma same_exchange_plain p k : same (t_exchange_plain p k) (exchange_plain compose bank others k).
  Proof. unfold Error_Model.t_exchange_plain, exchange_plain. same_tac. Qed.
  Lemma same_end : same t_end (end_dialog sign_ok compose bank others).
  Proof. unfold Error_Model.t_end, end_dialog. apply same_bind; [apply same_exchange|]. intros m. apply same_fail. Qed.
  Lemma same_anonymous_end : same t_anonymous_end (anonymous_end compose bank others).
  Proof. unfold Error_Model.t_anonymous_end, anonymous_end. apply same_bind; [apply same_exchange_plain|]. intros m. apply same_fail. Qed.
  Lemma same_sync : same t_sync_system (sync_client_system sign_ok compose bank others pick).
  Proof.
    unfold Error_Model.t_sync_system, sync_client_system, t_update_function, t_parse_bpd.
    same_tac; try apply same_end; same_tac.
  Qed.
  Lemma same_start : same t_start (start_dialog sign_ok compose bank others pick).
  Proof.
    unfold Error_Model.t_start, start_dialog, t_update_function, t_parse_bpd.
    apply same_bind; [apply same_named|]. intros _. apply same_bind; [apply same_exchange|]. intros m. same_tac.
  Qed.
  Lemma same_ensure : same t_ensure_system (ensure_system sign_ok compose bank others pick).
  Proof.
    apply same_bind; [apply same_named|]. intros d. destruct (bytes_eqb _ _); [|apply same_ret].
    apply same_bind; [apply same_sync|]. intros s. apply same_named.
  Qed.
  Lemma same_init : same t_init (init sign_ok compose bank others pick).
  Proof. apply same_bind; [apply same_ensure|]. intros _. apply same_start. Qed.
  Lemma same_anonymous_init : same t_anonymous_init (anonymous_init compose bank others).
  Proof.
    unfold Error_Model.t_anonymous_init, anonymous_init, t_parse_bpd.
    apply same_bind; [apply same_named|]. intros _. apply same_bind; [apply same_exchange_plain|]. intros m. same_tac.
  Qed.
  Lemma same_send j : same (t_send j) (send_message sign_ok compose bank others pick j).
  Proof.
    apply same_bind; [apply same_init|]. intros _. apply same_deferred; [|apply same_end].
    apply same_bind; [apply same_exchange|]. intros m. same_tac.
  Qed.
  Lemma same_sync_user : same t_sync_user (sync_user_data sign_ok compose bank others pick).
  Proof. apply same_bind; [apply same_init|]. intros _. apply same_deferred; [apply same_ret|apply same_end]. Qed.
  Lemma same_send_anonymous j : same (t_send_anonymous j) (send_anonymous compose bank others j).
  Proof.
    apply same_bind; [apply same_prefixed, same_anonymous_init|]. intros _. apply same_deferred; [|apply same_anonymous_end].
    apply same_bind; [apply same_exchange_plain|]. intros m. same_tac.
  Qed.

  (** ** Lines *)
  Lemma on_lines_join lines : on_lines lines = join [nl] lines.
  Proof.
    induction lines as [|l [|l2 r] IH]; [reflexivity|reflexivity|].
    change (on_lines (l :: l2 :: r)) with (l ++ x0a :: on_lines (l2 :: r)). rewrite IH. reflexivity.
  Qed.
  Lemma describes_string a : describes quote (ack_string quote a) a.
  Proof.
    exists (if ack_for_message a then B "MessageAcknowledgement" else B "SegmentAcknowledgement"),
      (if 0 <? ack_ref_seg a then B ", segment " ++ itoa (ack_ref_seg a) else []),
      (match ack_elem a with [] => B "none" | e => e end),
      (match ack_params a with [] => [] | ps => B ", Parameters: " ++ quote (join (B ", ") ps) end).
    split; [|split; [|split; [|split]]].
    - unfold ack_string. f_equal. f_equal. f_equal. f_equal. f_equal. f_equal.
      destruct (0 <? ack_ref_seg a); destruct (ack_elem a); rewrite <- ?app_assoc; reflexivity.
    - destruct (ack_for_message a); auto.
    - destruct (Z.ltb_spec 0 (ack_ref_seg a)); auto.
    - destruct (ack_elem a); [left; auto|right; split; [discriminate|reflexivity]].
    - destruct (ack_params a); [left; auto|right; split; [discriminate|reflexivity]].
  Qed.

  (** ** Explaining *)
  Notation troubled := (troubled bank others).
  Notation told := (told bank others bank_why read_why quote).
  Notation tells := (tells bank others bank_why read_why quote).

  Definition ok_part {A} (h l : list (entry J)) (r : result A) : Prop :=
    forall b e a, l = b ++ e :: a -> matters (h ++ b) e -> troubled (h ++ b) e -> told (h ++ b) e r.
  Definition explains_at {A} (m : tact A) (w : world) : Prop :=
    exists l, w_sent (fst (m w)) = w_sent w ++ l /\ ok_part (w_sent w) l (snd (m w)).
  Definition explains {A} (m : tact A) : Prop := forall w, explains_at m w.

  Lemma ok_nil {A} h (r : result A) : ok_part h [] r.
  Proof. intros b e a E. destruct b; discriminate. Qed.
  Lemma split_mid {X} (t1 t2 b a : list X) e : t1 ++ t2 = b ++ e :: a ->
    (exists a', t1 = b ++ e :: a' /\ a = a' ++ t2) \/ (exists b', b = t1 ++ b' /\ t2 = b' ++ e :: a).
  Proof.
    revert b. induction t1 as [|x t1 IH]; intros b E; cbn in E.
    - right. exists b. auto.
    - destruct b as [|y b]; cbn in E.
      + left. exists t1. injection E as -> ->. auto.
      + injection E as -> E. destruct (IH _ E) as [(a'&->&->)|(b'&->&->)]; [left; exists a'|right; exists b']; auto.
  Qed.
  Lemma ok_app {A} h l1 l2 (r : result A) : ok_part h l1 r -> ok_part (h ++ l1) l2 r -> ok_part h (l1 ++ l2) r.
  Proof.
    intros H1 H2 b e a E M T. destruct (split_mid _ _ _ _ _ E) as [(a'&->&_)|(b'&->&->)].
    - eapply H1; eauto.
    - rewrite app_assoc in *. eapply H2; eauto.
  Qed.
  Lemma ends_prefix p text t : ends_with text t -> ends_with (p ++ text) t.
  Proof. intros [b ->]. exists (p ++ b). now rewrite app_assoc. Qed.
  Lemma tells_prefix p h e text : tells h e text -> tells h e (p ++ text).
  Proof.
    intros (T1&T2&T3). split; [|split].
    - intros H. now apply ends_prefix, T1.
    - intros raw H1 H2. apply ends_prefix. eauto.
    - intros m H1 H2. destruct (T3 m H1 H2) as (lines&L1&L2). exists lines. split; [exact L1|]. now apply ends_prefix.
  Qed.
  Lemma told_prefixed {A} p h e (r : result A) : told h e r -> told h e (prefixed p r).
  Proof. destruct r; cbn; auto. apply tells_prefix. Qed.
  Lemma told_said {A} h e (r : result A) : told h e r -> told h e (said r).
  Proof. now destruct r. Qed.

  Definition still {A} (m : tact A) : Prop := forall w, w_sent (fst (m w)) = w_sent w.
  Lemma explains_still {A} (m : tact A) : still m -> explains m.
  Proof. intros H w. exists []. split; [now rewrite app_nil_r|apply ok_nil]. Qed.
  Lemma still_named {A} why (m : act A) : quiet m -> still (tnamed why m).
  Proof. intros H w. unfold tnamed. destruct (H w) as (E&_). now destruct (m w). Qed.
  Lemma still_named' {A} why (m : act A) : (forall w, w_sent (fst (m w)) = w_sent w) -> still (tnamed why m).
  Proof. intros H w. unfold tnamed. specialize (H w). now destruct (m w). Qed.
  Lemma still_lift {A} (r : result A) : still (tlift (J:=J) (Acc:=Acc) r).
  Proof. intros w. reflexivity. Qed.
  Lemma still_ret {A} (a : A) : still (tret (J:=J) (Acc:=Acc) a).
  Proof. intros w. reflexivity. Qed.
  Lemma still_bind {A C} (m : tact A) (k : A -> tact C) : still m -> (forall a, still (k a)) -> still (tbind m k).
  Proof.
    intros H K w. unfold tbind. specialize (H w). destruct (m w) as [w1 [a|t|]]; cbn [fst snd] in *; auto. now rewrite K.
  Qed.
  Lemma still_sign q : still (t_sign (Acc:=Acc) sign_ok sign_why q).
  Proof. intros w. reflexivity. Qed.
  Lemma explains_bind_at {A C} (m : tact A) (k : A -> tact C) w :
    explains_at m w -> (forall a w1, m w = (w1, ROk a) -> explains_at (k a) w1) -> explains_at (tbind m k) w.
  Proof.
    intros (l&E&P) K. unfold explains_at, tbind. destruct (m w) as [w1 [a|t|]] eqn:Em; cbn [fst snd] in *.
    - destruct (K a w1 eq_refl) as (l2&E2&P2). exists (l ++ l2). rewrite E2, E, app_assoc. split; [reflexivity|].
      apply ok_app; [|now rewrite <- E]. intros b e a' H1 H2 H3. now destruct (P b e a' H1 H2 H3).
    - exists l. auto.
    - exists l. auto.
  Qed.
  Lemma explains_bind {A C} (m : tact A) (k : A -> tact C) : explains m -> (forall a, explains (k a)) -> explains (tbind m k).
  Proof. intros H K w. apply explains_bind_at; [apply H|]. intros a w1 _. apply K. Qed.
  Lemma explains_prefixed {A} p (m : tact A) : explains m -> explains (tprefixed p m).
  Proof.
    intros H w. destruct (H w) as (l&E&P). unfold explains_at, tprefixed. destruct (m w) as [w1 r]. cbn [fst snd] in *.
    exists l. split; [exact E|]. intros b e a H1 H2 H3. apply told_prefixed. eauto.
  Qed.

  (** ** With an answer that still has to be looked at *)
  Definition shows {A} (m : reply) (r : result A) : Prop :=
    match r with
    | ROk _ => False
    | RErr text => exists lines, Forall2 (describes quote) lines (errors m) /\
                                 ends_with text (B " returned errors:" ++ x0a :: on_lines lines)
    | RPanic => True
    end.
  Definition pend {A} (m : reply) (k : tact A) : Prop :=
    forall w, explains_at k w /\ (has_error m -> shows m (snd (k w))).
  Lemma pend_silent {A C} (m : reply) (s : tact A) (k : A -> tact C) :
    still s -> (forall w t, snd (s w) <> RErr t) -> (forall a, pend m (k a)) -> pend m (tbind s k).
  Proof.
    intros H N K w. split.
    - apply explains_bind_at; [now apply explains_still|]. intros a w1 _. apply K.
    - intros He. unfold tbind. specialize (N w). destruct (s w) as [w1 [a|t|]]; cbn [fst snd] in *.
      + now apply K.
      + now destruct (N t).
      + exact I.
  Qed.
  Lemma fail_shows label (m : reply) w : (exists b, label = b ++ B " returned errors:" ++ [nl]) -> has_error m ->
    exists t, snd (t_fail (J:=J) quote label m w) = RErr t /\ shows (A:=unit) m (RErr t).
  Proof.
    intros (b&->) He. apply has_error_spec in He. unfold t_fail, tlift. cbn [snd].
    destruct (filter is_err (bm_acks m)) as [|a l] eqn:E.
    - exfalso. apply existsb_exists in He. destruct He as (a&H1&H2). assert (In a []); [|auto]. rewrite <- E. apply filter_In. auto.
    - eexists. split; [reflexivity|]. exists (map (ack_string quote) (a :: l)). split.
      + unfold errors. change (fun a0 : ack => 9000 <=? ack_code a0) with is_err. rewrite E.
        clear. induction (a :: l); constructor; auto. apply describes_string.
      + exists b. rewrite on_lines_join, <- !app_assoc. reflexivity.
  Qed.
  Lemma still_fail label (m : reply) : still (t_fail (J:=J) quote label m).
  Proof. intros w. reflexivity. Qed.
  Lemma pend_fail {C} label (m : reply) (k : unit -> tact C) : (exists b, label = b ++ B " returned errors:" ++ [nl]) ->
    (forall a, explains (k a)) -> pend m (tbind (t_fail quote label m) k).
  Proof.
    intros L K w. split.
    - apply explains_bind; [apply explains_still, still_fail|exact K].
    - intros He. destruct (fail_shows label m w L He) as (t&E1&E2). unfold tbind. destruct (t_fail quote label m w) as [w1 r].
      cbn [snd] in *. subst r. exact E2.
  Qed.
  Lemma pend_fail0 label (m : reply) : (exists b, label = b ++ B " returned errors:" ++ [nl]) -> pend m (t_fail quote label m).
  Proof.
    intros L w. split; [apply explains_still, still_fail|]. intros He. destruct (fail_shows label m w L He) as (t&E1&E2). now rewrite E1.
  Qed.

  Definition reads (m : reply) : Prop := exists raw, read_response others raw = Ok m.
  Ltac cong := unfold entry in *; congruence.
  Lemma explains_request {C} p q (k : reply -> tact C) : (forall m, reads m -> pend m (k m)) -> explains (tbind (t_request p q) k).
  Proof.
    intros K w. unfold explains_at, tbind, Error_Model.t_request.
    destruct (compose (w_sent w) q) as [bs| |].
    2,3: exists []; split; [now rewrite app_nil_r|apply ok_nil].
    remember (q, bs) as e eqn:He0. clear He0. destruct (bank (w_sent w ++ [e])) as [raw| |] eqn:Eb; cbn [fst snd].
    - destruct (read_response others raw) as [m| |] eqn:Er; cbn [named fst snd].
      + destruct (K m (ex_intro _ raw Er) (mkW (w_d w) (w_sent w ++ [e]))) as ((l&E&P)&S). cbn [w_sent] in *.
        exists ([e] ++ l). rewrite E, app_assoc. split; [reflexivity|]. apply ok_app; [|exact P].
        intros b e' a E1 M T. destruct b as [|x [|]]; try discriminate. cbn in E1. injection E1 as <- <-.
        rewrite app_nil_r in *.
        assert (He : has_error m).
        { destruct T as [T|[(raw'&T1&T2)|(m'&(raw'&T1&T2)&T3)]].
          - cong.
          - assert (raw' = raw) by cong. cong.
          - assert (raw' = raw) by cong. subst. assert (m' = m) by cong. now subst. }
        specialize (S He). destruct (snd (k m _)) as [x|t|]; [exact S| |exact S].
        cbn [Error_Spec.told]. split; [|split].
        * intros X. cong.
        * intros raw' X1 X2. assert (raw' = raw) by cong. cong.
        * intros m' (raw'&X1&X2) _. assert (raw' = raw) by cong. subst. assert (m' = m) by cong. subst. exact S.
      + exists [e]. split; [reflexivity|]. intros b e' a E1 M T. destruct b as [|x [|]]; try discriminate.
        cbn in E1. injection E1 as <- <-. rewrite app_nil_r in *. split; [|split].
        * intros X. cong.
        * intros raw' X1 _. assert (raw' = raw) by cong. subst. exists p. reflexivity.
        * intros m' (raw'&X1&X2) _. assert (raw' = raw) by cong. cong.
      + exists [e]. split; [reflexivity|]. intros b e' a E1 M T. exact I.
    - exists [e]. split; [reflexivity|]. intros b e' a E1 M T. destruct b as [|x [|]]; try discriminate.
      cbn in E1. injection E1 as <- <-. rewrite app_nil_r in *. split; [|split].
      + intros _. exists p. reflexivity.
      + intros raw' X1 _. cong.
      + intros m' (raw'&X1&X2) _. cong.
    - exists [e]. split; [reflexivity|]. intros b e' a E1 M T. exact I.
  Qed.
  Lemma bind_assoc {A C D} (m : tact A) (k : A -> tact C) (k2 : C -> tact D) w :
    tbind (tbind m k) k2 w = tbind m (fun a => tbind (k a) k2) w.
  Proof. unfold tbind. now destruct (m w) as [w1 [a|t|]]. Qed.
  Lemma explains_ext {A} (m m' : tact A) : (forall w, m w = m' w) -> explains m' -> explains m.
  Proof. intros E H w. unfold explains_at. rewrite E. apply H. Qed.
  Lemma still_new s k : still (tnamed [] (new_basic_message (J:=J) (Acc:=Acc) s k)).
  Proof. apply still_named'. intros w. reflexivity. Qed.
  Lemma still_envelope q : still (tnamed [] (with_envelope (J:=J) (Acc:=Acc) q)).
  Proof. apply still_named'. intros w. reflexivity. Qed.
  Lemma explains_exchange {C} p kd (k : reply -> tact C) : (forall m, reads m -> pend m (k m)) -> explains (tbind (t_exchange p kd) k).
  Proof.
    intros K. unfold Error_Model.t_exchange.
    eapply explains_ext; [intros w; apply bind_assoc|]. apply explains_bind; [apply explains_still, still_new|]. intros q.
    eapply explains_ext; [intros w; apply bind_assoc|]. apply explains_bind; [apply explains_still, still_sign|]. intros _.
    eapply explains_ext; [intros w; apply bind_assoc|]. apply explains_bind; [apply explains_still, still_envelope|]. intros q'.
    now apply explains_request.
  Qed.
  Lemma explains_exchange_plain {C} p kd (k : reply -> tact C) : (forall m, reads m -> pend m (k m)) -> explains (tbind (t_exchange_plain p kd) k).
  Proof.
    intros K. unfold Error_Model.t_exchange_plain.
    eapply explains_ext; [intros w; apply bind_assoc|]. apply explains_bind; [apply explains_still, still_new|]. intros q.
    now apply explains_request.
  Qed.
End Dialog.
