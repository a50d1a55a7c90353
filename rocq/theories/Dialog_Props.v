(** * C24 - C28: conversations with the bank *)
From Coq Require Import Lia ZifyBool.
From Verif Require Import Base BaseFacts Lexer_Model Codec_Model Wire_Model Message_Model Dialog_Model Dialog_Spec Dialog_Proofs Dialog_Facts Dialog_Facts2 Dialog_Facts3 Dialog_Facts4.
Open Scope Z_scope.

(** ** An example bank
    Jobs and accounts are byte strings.  The bank gives the dialog IDs "S1" to
    synchronisations and "D1" to dialogs, reports one account at each of them, and
    allows the security functions 900 and 902, of which it implements 900 and 901. *)
Definition ex_others (id : bytes) (v : Z) : option (bytes -> outcome (oseg bytes)) :=
  if bytes_eqb id (B "HIUPD") then Some (fun raw => Ok (OAccount (Ok raw)))
  else if bytes_eqb id (B "HISYN") then Some (fun _ => Ok (OSync (Ok (B "SYS1"))))
  else if bytes_eqb id (B "HITANS") then Some (fun _ => Ok (OTans (Ok [B "900"; B "901"])))
  else if bytes_eqb id (B "HIXYZ") then Some (fun raw => Ok (OSeg raw))
  else None.
Definition ex_answer (k : kind bytes) : bytes :=
  match k with
  | KSync _ => B "HNHBK:1:3+000000000100+300+S1+1'HIRMG:2:2+0010::ok'HIRMS:3:2:4+3920::fn:902:900'HISYN:4:4:1+x'HITANS:5:6:4+x'HIUPD:6:6:2+acc1'"
  | KInit _ _ _ _ => B "HNHBK:1:3+000000000100+300+D1+1'HIRMG:2:2+0010::ok'HIUPD:3:6:2+acc1'"
  | KJob j => B "HNHBK:1:3+000000000100+300+D1+2'HIRMG:2:2+0010::ok'HIXYZ:3:1:2+" ++ j ++ [b_quote]
  | KEnd _ => B "HNHBK:1:3+000000000100+300+D1+3'HIRMG:2:2+0010::ok'"
  end.
Definition ex_bank (h : list (entry bytes)) : outcome bytes :=
  match rev h with [] => Err | e :: _ => Ok (ex_answer (kind_of e)) end.
Definition ex_sign (h : list (entry bytes)) (q : request bytes) : outcome unit := Ok tt.
Definition ex_compose (h : list (entry bytes)) (q : request bytes) : outcome bytes := Ok (rq_dialog q).
Definition ex_pick (h : list (entry bytes)) : nat := List.length h.
Definition ex_world : @world bytes bytes := mkW (new_dialog (Acc := bytes) (B "user")) [].
Definition ex_run := run_calls ex_sign ex_compose ex_bank ex_others ex_pick.
Definition kinds_of {J} (l : list (entry J)) : list (Z * bytes * kind J) :=
  map (fun e => (number_of e, dialog_of e, kind_of e)) l.

(** Setting the PIN and sending one job: a synchronisation dialog of two
    messages, then a dialog of three. *)
Example ex_first_send :
  kinds_of (w_sent (ex_run [CSetPin (B "1234"); CSend (B "hello")] ex_world)) =
  [(1, B "0", KSync (B "user")); (2, B "S1", KEnd (B "S1"));
   (1, B "0", KInit (B "user") (B "SYS1") 0 0); (2, B "D1", KJob (B "hello")); (3, B "D1", KEnd (B "D1"))].
Proof. vm_compute. reflexivity. Qed.
(** Afterwards the function 900, allowed and implemented, is used. *)
Example ex_first_fn :
  let d := w_d (ex_run [CSetPin (B "1234"); CSend (B "hello")] ex_world) in
  d_fn d = B "900" /\ pv_fn (d_sig d) = B "900" /\ pv_fn (d_crypt d) = B "900" /\ d_system d = B "SYS1".
Proof. vm_compute. repeat split. Qed.
Example ex_first_result :
  exists x, snd (send_message ex_sign ex_compose ex_bank ex_others ex_pick (B "hello") ex_world) = Ok x /\
    segs x (B "HIXYZ") = [OSeg (B "HIXYZ:3:1:2+hello'")].
Proof. vm_compute. eexists. split; reflexivity. Qed.

Section Props.
  Context {J Acc : Type}.
  (** Everything outside the dialog: whether signing succeeds and what bytes a
      message is put on the wire as (both may depend on the whole conversation so
      far), the bank and the network between (any function of the conversation,
      including errors), the unmarshalers, and the iteration order of maps. *)
  Variable sign_ok : list (entry J) -> request J -> outcome unit.
  Variable compose : list (entry J) -> request J -> outcome bytes.
  Variable bank : list (entry J) -> outcome bytes.
  Variable others : bytes -> Z -> option (bytes -> outcome (oseg Acc)).
  Variable pick : list (entry J) -> nat.
  Notation reply := (bank_message (oseg Acc)).
  Notation world := (@world J Acc).
  Notation answered := (answered bank others).
  Notation composable := (composable sign_ok compose).
  Notation send_message := (send_message sign_ok compose bank others pick).
  Notation sync_user_data := (sync_user_data sign_ok compose bank others pick).
  Notation send_anonymous := (send_anonymous compose bank others).
  Notation run_calls := (run_calls sign_ok compose bank others pick).
  Notation closes := (closes sign_ok compose).

  (** ** C24 *)
  (** Whatever calls are made, in whatever state of the object: what they send is a
      sequence of synchronisations and dialogs as described in [Dialog_Spec.v]. *)
  Theorem C24_record : forall (cs : list call) (w : world),
    exists l, w_sent (run_calls cs w) = w_sent w ++ l /\ record sign_ok compose bank others (w_sent w) l.
  Proof. intros cs w. apply calls_record. Qed.

  (** One SendMessage or SyncUserParameterData: a synchronisation only if the system
      ID is still "0", then one dialog with the numbers 1, 2, ... and the dialog ID of
      the bank, provided that every job message can be composed. *)
  Theorem C24_numbers : forall (c : call) (w : world),
    (forall h q, is_job (rq_kind q) -> composable h q) ->
    (exists j, c = CSend j) \/ c = CSyncUser ->
    exists pre dlg, w_sent (run_call sign_ok compose bank others pick c w) = w_sent w ++ pre ++ dlg /\
      (d_system (w_d w) <> B "0" -> pre = []) /\ consecutive dlg /\
      (forall i rest, dlg = i :: rest -> is_init (kind_of i) /\ dialog_of i = B "0" /\
        (rest <> [] -> exists m D, answered (w_sent w ++ pre) i m /\ assigns m D /\ Forall (fun e => dialog_of e = D) rest)).
  Proof.
    intros c w HC Hc.
    assert (T : two_parts sign_ok compose bank others w (run_call sign_ok compose bank others pick c w)).
    { destruct Hc as [[j ->]| ->]; [apply send_two_parts|apply sync_user_two_parts]. }
    destruct T as [pre [dlg [T1 [T2 [T3 T4]]]]]. exists pre, dlg. split; [exact T1|]. split; [exact T3|].
    destruct T4 as [->|[i [rest [-> [A1 [A2 [A3 [A4 A5]]]]]]]].
    - split; [reflexivity|]. intros ? ? ?; discriminate.
    - split.
      + destruct A5 as [A5|[_ [q [Q1 [_ Q2]]]]]; [exact A5|]. exfalso. apply Q2. apply HC. exact Q1.
      + intros i' rest' E. injection E as <- <-. auto.
  Qed.
  (** The same for SendAnonymousMessage, which never synchronises. *)
  Theorem C24_numbers_anonymous : forall (j : J) (w : world),
    (forall h q, is_job (rq_kind q) -> composable h q) ->
    exists dlg, w_sent (fst (send_anonymous j w)) = w_sent w ++ dlg /\ consecutive dlg /\
      (forall i rest, dlg = i :: rest -> is_init (kind_of i) /\ dialog_of i = B "0" /\
        (rest <> [] -> exists m D, answered (w_sent w) i m /\ assigns m D /\ Forall (fun e => dialog_of e = D) rest)).
  Proof.
    intros j w HC. destruct (anonymous_dialog sign_ok compose bank others j w) as [dlg [T1 T4]]. exists dlg. split; [exact T1|].
    destruct T4 as [->|[i [rest [-> [A1 [A2 [A3 [A4 A5]]]]]]]].
    - split; [reflexivity|]. intros ? ? ?; discriminate.
    - split.
      + destruct A5 as [A5|[_ [q [Q1 [_ Q2]]]]]; [exact A5|]. exfalso. apply Q2. apply HC. exact Q1.
      + intros i' rest' E. injection E as <- <-. auto.
  Qed.

  (** ** C25 *)
  (** [i] is the first initialisation SendMessage sends.  If the bank's answer is
      accepted, what follows is at most the job and then one dialog end with the
      assigned ID; otherwise nothing follows and there is no success.  Without an
      initialisation there is no success either. *)
  Theorem C25_send_message : forall (j : J) (w : world),
    let w' := fst (send_message j w) in let r := snd (send_message j w) in
    (forall pre i rest, w_sent w' = w_sent w ++ pre ++ i :: rest ->
      Forall (fun e => ~ is_init (kind_of e)) pre -> is_init (kind_of i) ->
      (forall m D, answered (w_sent w ++ pre) i m -> usable m -> assigns m D ->
         closes (w_sent w ++ pre ++ [i]) rest D (fun k => k = KJob j)) /\
      ((~ exists m, answered (w_sent w ++ pre) i m /\ usable m) -> rest = [] /\ ~ is_ok r)) /\
    (forall l, w_sent w' = w_sent w ++ l -> Forall (fun e => ~ is_init (kind_of e)) l -> ~ is_ok r).
  Proof. intros j w. exact (send_ends sign_ok compose bank others pick j w). Qed.
  Theorem C25_sync_user_data : forall (w : world),
    let w' := fst (sync_user_data w) in let r := snd (sync_user_data w) in
    (forall pre i rest, w_sent w' = w_sent w ++ pre ++ i :: rest ->
      Forall (fun e => ~ is_init (kind_of e)) pre -> is_init (kind_of i) ->
      (forall m D, answered (w_sent w ++ pre) i m -> usable m -> assigns m D ->
         closes (w_sent w ++ pre ++ [i]) rest D (fun _ => False)) /\
      ((~ exists m, answered (w_sent w ++ pre) i m /\ usable m) -> rest = [] /\ ~ is_ok r)) /\
    (forall l, w_sent w' = w_sent w ++ l -> Forall (fun e => ~ is_init (kind_of e)) l -> ~ is_ok r).
  Proof. intros w. exact (sync_user_ends sign_ok compose bank others pick w). Qed.
  Theorem C25_send_anonymous : forall (j : J) (w : world),
    let w' := fst (send_anonymous j w) in let r := snd (send_anonymous j w) in
    (forall i rest, w_sent w' = w_sent w ++ i :: rest ->
      is_init (kind_of i) /\
      (forall m D, answered (w_sent w) i m -> usable_anonymous m -> assigns m D ->
         closes (w_sent w ++ [i]) rest D (fun k => k = KJob j)) /\
      ((~ exists m, answered (w_sent w) i m /\ usable_anonymous m) -> rest = [] /\ ~ is_ok r)) /\
    (w_sent w' = w_sent w -> ~ is_ok r).
  Proof. intros j w. exact (anonymous_ends sign_ok compose bank others j w). Qed.

  (** ** C26 *)
  (** A returned message is the answer to the job passed in, and neither it nor any
      other answer but that to the final dialog end has an error acknowledgement. *)
  Theorem C26_success : forall (j : J) (w : world) (x : reply),
    snd (send_message j w) = Ok x ->
    exists pre i m e rest,
      w_sent (fst (send_message j w)) = w_sent w ++ pre ++ i :: e :: rest /\
      is_init (kind_of i) /\ answered (w_sent w ++ pre) i m /\ ~ has_error m /\
      kind_of e = KJob j /\ answered (w_sent w ++ pre ++ [i]) e x /\ ~ has_error x /\
      Forall (fun e => is_end (kind_of e)) rest /\ (List.length rest <= 1)%nat /\
      (forall h e t m, pre = h ++ e :: t -> answered (w_sent w ++ h) e m -> ~ has_error m).
  Proof. intros j w x. apply send_success. Qed.
  Theorem C26_error_reported : forall (j : J) (w : world) h e t (m : reply),
    w_sent (fst (send_message j w)) = w_sent w ++ h ++ e :: t -> ~ is_end (kind_of e) ->
    answered (w_sent w ++ h) e m -> has_error m -> ~ is_ok (snd (send_message j w)).
  Proof. intros j w h e t m. apply send_no_hidden_error. Qed.
  (** Conversely an answer without error to the job is returned, unless the end of
      the dialog panics. *)
  Theorem C26_answer_returned : forall (j : J) (w : world) h e t (x : reply),
    w_sent (fst (send_message j w)) = w_sent w ++ h ++ e :: t -> kind_of e = KJob j ->
    answered (w_sent w ++ h) e x -> ~ has_error x ->
    snd (send_message j w) = Ok x \/ snd (send_message j w) = Panic.
  Proof.
    intros j w h e t x E Hk A Hx.
    destruct (send_summary sign_ok compose bank others pick j w) as [[H1 H2]|[h' [D [p [c [jobs [ends [H1 [H2 [H3 H4]]]]]]]]]].
    - exfalso. assert (N : forall pre, prelude sign_ok compose bank others w pre True \/ prelude sign_ok compose bank others w pre False ->
                       forall a b, pre = a ++ e :: b -> False).
      { assert (L : forall pre ok, sync_part sign_ok compose bank others w pre ok -> forall a b, pre = a ++ e :: b -> False).
        { intros pre ok [[-> _]|[[bs [-> _]]|[bs [m [i [p [c [be [-> _]]]]]]]]] a b K.
          - destruct a; discriminate.
          - destruct a as [|? [|]]; try discriminate. injection K as <- _. discriminate.
          - destruct a as [|? [|? [|]]]; try discriminate; injection K; intros; subst; discriminate. }
        intros pre [[[_ [-> _]]|[_ P]]|[[_ [-> _]]|[_ P]]] a b K; try (destruct a; discriminate); exact (L _ _ P _ _ K). }
      destruct H2 as [[pre [P1 P2]]|[pre [i [P1 [P2 [P3 _]]]]]].
      + rewrite P1 in E. apply app_inv_head in E. apply (N pre) with (a := h) (b := t); [|exact E].
        destruct P2 as [P2|[q [_ [_ P2]]]]; auto.
      + rewrite P2 in E. apply app_inv_head in E.
        destruct (rev_case t) as [->|[t' [z ->]]].
        * apply app_inj_tail in E. destruct E as [_ <-]. rewrite Hk in P3. destruct P3 as [? [? [? [? K]]]]. discriminate.
        * change (e :: t' ++ [z]) with ((e :: t') ++ [z]) in E. rewrite app_assoc in E. apply app_inj_tail in E. destruct E as [E _].
          exact (N pre (or_introl P1) _ _ E).
    - destruct H1 as [pre [i [m [P1 [-> [P2 [P3 [P4 [P5 [P6 P7]]]]]]]]]].
      rewrite H2, <- !app_assoc in E. apply app_inv_head in E. cbn [app] in E.
      assert (NJ : Forall (fun y => kind_of y <> KJob j) pre).
      { destruct P1 as [[_ [-> _]]|[_ [[-> _]|[[bs [-> _]]|[bs [m1 [i1 [p1 [c1 [be1 [-> _]]]]]]]]]]]; repeat constructor; discriminate. }
      assert (NI : kind_of i <> KJob j). { destruct P2 as [? [? [? [? ->]]]]. discriminate. }
      assert (NE : Forall (fun y => kind_of y <> KJob j) ends).
      { apply ended_any in H3. destruct H3 as [q [Q1 [_ [_ [[-> _]|[be [-> _]]]]]]]; repeat constructor. unfold kind_of. cbn. rewrite Q1. discriminate. }
      assert (L : forall (a : list (entry J)) b c d, Forall (fun y => kind_of y <> KJob j) a -> a ++ b = c ++ e :: d ->
                exists r, c = a ++ r /\ b = r ++ e :: d).
      { intros a. induction a as [|y a IH]; intros b c' d Fa Ec.
        - exists c'. auto.
        - inversion Fa as [|? ? F1 F2]; subst. destruct c' as [|z c']; injection Ec as -> Ec; [contradiction|].
          destruct (IH _ _ _ F2 Ec) as [r [-> ->]]. exists r. auto. }
      destruct (L _ _ _ _ NJ E) as [r [-> Er]]. change (i :: jobs ++ ends) with ([i] ++ jobs ++ ends) in Er.
      assert (NI' : Forall (fun y => kind_of y <> KJob j) [i]) by (constructor; [exact NI|constructor]).
      destruct (L _ _ _ _ NI' Er) as [r' [-> Er']].
      destruct H4 as [[-> [K _]]|[bs [-> [K1 [K2 K3]]]]].
      + exfalso. destruct (L _ _ _ _ NE (eq_trans (app_nil_r ends) Er')) as [r2 [_ K2]]. destruct r2; discriminate.
      + destruct r' as [|y r'].
        * injection Er' as <- <-. apply K3; [|exact Hx]. rewrite app_nil_r in A. exact A.
        * injection Er' as <- Er'. exfalso. destruct (L _ _ _ _ NE (eq_trans (app_nil_r ends) Er')) as [r2 [_ K4]]. destruct r2; discriminate.
  Qed.

  (** ** C27 *)
  (** What an answer does to the choice: it changes nothing, or the new function is
      offered and both providers use it. *)
  Theorem C27_choice : forall (m : reply) (w : world),
    let w' := fst (update_security_function pick m w) in
    w' = w \/
    (offers m (d_fn (w_d w')) /\ pv_fn (d_sig (w_d w')) = d_fn (w_d w') /\ pv_fn (d_crypt (w_d w')) = d_fn (w_d w') /\
     w_sent w' = w_sent w).
  Proof.
    intros m w. cbv zeta. destruct (update_choice others pick m w) as [E|[f [Hf E]]]; [left; exact E|right]. rewrite E. cbn. auto.
  Qed.
  (** [from_bank sent f]: some answer on the record offers [f]. *)
  Definition from_bank (sent : list (entry J)) (f : bytes) : Prop :=
    exists h e t m, sent = h ++ e :: t /\ answered h e m /\ offers m f.
  Lemma from_bank_app sent l f : from_bank sent f -> from_bank (sent ++ l) f.
  Proof. intros [h [e [t [m [-> H]]]]]. exists h, e, (t ++ l), m. rewrite <- app_assoc. auto. Qed.

  (** Over any history in which the user does not force a function: the current
      function is none yet or was offered by an answer of the bank. *)
  Theorem C27_function_offered : forall (cs : list call) (w : world),
    d_fn (w_d w) = [] \/ from_bank (w_sent w) (d_fn (w_d w)) ->
    Forall (fun c => forall f, c <> CSetFn f) cs ->
    d_fn (w_d (run_calls cs w)) = [] \/ from_bank (w_sent (run_calls cs w)) (d_fn (w_d (run_calls cs w))).
  Proof.
    intros cs w Hw Hc.
    apply (keeps_calls sign_ok compose bank others pick (fun f _ _ h => f = [] \/ from_bank h f)) with (cs := cs) (w := w).
    - intros f a b h q bs [->|H] _ _; [left; reflexivity|right; apply from_bank_app; exact H].
    - intros f a b h e m g _ A O. right. exists h, e, [], m. auto.
    - eapply Forall_impl; [|exact Hc]. intros [] H; auto. exfalso. exact (H _ eq_refl).
    - exact Hw.
  Qed.
  (** Signature and encryption use the same function, always, in the object and in
      every message, and in messages it is "999" or one offered before. *)
  Theorem C27_same_function : forall (cs : list call) (w : world),
    pv_fn (d_sig (w_d w)) = pv_fn (d_crypt (w_d w)) ->
    (forall e p c, In e (w_sent w) -> rq_sig (fst e) = Some p -> rq_crypt (fst e) = Some c -> pv_fn p = pv_fn c) ->
    let w' := run_calls cs w in
    pv_fn (d_sig (w_d w')) = pv_fn (d_crypt (w_d w')) /\
    (forall e p c, In e (w_sent w') -> rq_sig (fst e) = Some p -> rq_crypt (fst e) = Some c -> pv_fn p = pv_fn c).
  Proof.
    intros cs w H1 H2. cbv zeta.
    apply (keeps_calls sign_ok compose bank others pick (fun _ a b h => a = b /\
       forall e p c, In e h -> rq_sig (fst e) = Some p -> rq_crypt (fst e) = Some c -> pv_fn p = pv_fn c)) with (cs := cs) (w := w).
    - intros f a b h q bs [-> H] S1 S2. split; [reflexivity|]. intros e p c He Hp Hc. apply in_app_iff in He.
      destruct He as [He|[<-|[]]]; [exact (H e p c He Hp Hc)|]. rewrite (S1 p Hp), (S2 c Hc). reflexivity.
    - intros f a b h e m g [_ H] _ _. split; [reflexivity|exact H].
    - apply Forall_forall. intros [] _; auto; intros f0 a b h [_ H]; split; auto.
    - split; assumption.
  Qed.
  Theorem C27_messages : forall (cs : list call) user,
    Forall (fun c => forall f, c <> CSetFn f) cs ->
    forall h e t p, w_sent (run_calls cs (mkW (new_dialog user) [])) = h ++ e :: t -> rq_sig (fst e) = Some p ->
    pv_fn p = B "999" \/ from_bank h (pv_fn p).
  Proof.
    intros cs user Hc.
    assert (I : inv (fun _ a b s => a = b /\ (a = B "999" \/ from_bank s a) /\
      forall h e t p, s = h ++ e :: t -> rq_sig (fst e) = Some p -> pv_fn p = B "999" \/ from_bank h (pv_fn p))
      (run_calls cs (mkW (@new_dialog Acc user) []))).
    { apply keeps_calls with (w := mkW (new_dialog user) []).
      - intros f a b s q bs [-> [H1 H2]] S1 S2. split; [reflexivity|]. split.
        { destruct H1 as [H1|H1]; [left; exact H1|right; apply from_bank_app; exact H1]. }
        intros h e t p E Hp. destruct (rev_case t) as [->|[t' [z ->]]].
        + apply app_inj_tail in E. destruct E as [<- <-]. rewrite (S1 p Hp). exact H1.
        + rewrite app_comm_cons, app_assoc in E. apply app_inj_tail in E. destruct E as [E _]. exact (H2 _ _ _ _ E Hp).
      - intros f a b s e m g [_ [_ H2]] A O. split; [reflexivity|]. split; [|exact H2]. right. exists s, e, [], m. auto.
      - eapply Forall_impl; [|exact Hc]. intros [] H; auto.
        + intros f a b s [_ [_ H2]]. split; [reflexivity|]. split; [left; reflexivity|exact H2].
        + exfalso. exact (H _ eq_refl).
      - split; [reflexivity|]. split; [left; reflexivity|]. intros h e t p E. destruct h; discriminate. }
    destruct I as [_ [_ H]]. exact H.
  Qed.
  (** If the PIN is set before the first call and never again, the providers use
      exactly the chosen function, and "999" until one is chosen. *)
  Theorem C27_chosen_function_is_used : forall (cs : list call) user pin,
    Forall (fun c => forall p, c <> CSetPin p) cs ->
    let d := w_d (run_calls (CSetPin pin :: cs) (mkW (@new_dialog Acc user) [])) in
    (pv_fn (d_sig d) = d_fn d \/ d_fn d = [] /\ pv_fn (d_sig d) = B "999") /\ pv_fn (d_crypt d) = pv_fn (d_sig d).
  Proof.
    intros cs user pin Hc. cbv zeta.
    change (run_calls (CSetPin pin :: cs) (mkW (@new_dialog Acc user) [])) with (run_calls cs (fst (set_pin pin (mkW (@new_dialog Acc user) [])))).
    apply (keeps_calls sign_ok compose bank others pick (fun f a b s => (a = f \/ f = [] /\ a = B "999") /\ b = a)).
    - intros. assumption.
    - intros. split; [left|]; reflexivity.
    - eapply Forall_impl; [|exact Hc]. intros [] H; auto.
      + exfalso. exact (H _ eq_refl).
    - unfold inv. cbn [fst set_pin modify w_d]. split; [right; split; reflexivity|reflexivity].
  Qed.

  (** ** C28 *)
  (** A successful SyncUserParameterData appends the accounts of all answers to
      synchronisation and initialisation to those there were before. *)
  Theorem C28_growth : forall w : world,
    is_ok (snd (sync_user_data w)) ->
    let w' := fst (sync_user_data w) in
    exists pre ms i m rest, w_sent w' = w_sent w ++ pre ++ i :: rest /\
      is_init (kind_of i) /\ Forall (fun e => is_end (kind_of e)) rest /\ answered (w_sent w ++ pre) i m /\
      ((d_system (w_d w) <> B "0" /\ pre = [] /\ ms = []) \/
       (d_system (w_d w) = B "0" /\ exists s e c x, pre = [s; e] /\ kind_of s = KSync c /\ is_end (kind_of e) /\
          answered (w_sent w) s x /\ ms = [x])) /\
      d_accounts (w_d w') = d_accounts (w_d w) ++ flat_map reported (ms ++ [m]).
  Proof. intros w. apply accounts_sync_user. Qed.
End Props.
Print Assumptions C24_record.
Print Assumptions C24_numbers.
Print Assumptions C24_numbers_anonymous.
Print Assumptions C25_send_message.
Print Assumptions C25_sync_user_data.
Print Assumptions C25_send_anonymous.
Print Assumptions C26_success.
Print Assumptions C26_error_reported.
Print Assumptions C26_answer_returned.
Print Assumptions C27_choice.
Print Assumptions C27_function_offered.
Print Assumptions C27_same_function.
Print Assumptions C27_messages.
Print Assumptions C27_chosen_function_is_used.
Print Assumptions C28_growth.

(** ** Where the plain statements fail *)
(** C24: if the job cannot be composed (or signed), its number is lost: the dialog
    end carries the number 3 although the bank has seen only message 1. *)
Definition no_job_compose (h : list (entry bytes)) (q : request bytes) : outcome bytes :=
  match rq_kind q with KJob _ => Err | _ => Ok [] end.
Theorem C24_gap_refuted :
  map number_of (w_sent (run_call ex_sign no_job_compose ex_bank ex_others ex_pick (CSend (B "x"))
    (mkW (upd_system (B "SYS1") (new_dialog (Acc := bytes) (B "user"))) []))) = [1; 3].
Proof. vm_compute. reflexivity. Qed.
Print Assumptions C24_gap_refuted.
(** C24: a second synchronisation continues the numbers of the one before and
    carries its dialog ID, although that dialog has been ended. *)
Theorem C24_second_sync_refuted :
  kinds_of (w_sent (ex_run [CSyncSystem; CSyncSystem] ex_world)) =
  [(1, B "0", KSync (B "user")); (2, B "S1", KEnd (B "S1"));
   (3, B "S1", KSync (B "user")); (4, B "S1", KEnd (B "S1"))].
Proof. vm_compute. reflexivity. Qed.
Print Assumptions C24_second_sync_refuted.
(** C24: the hypothesis of [C24_numbers] holds of the example bank. *)
Example C24_numbers_meets : forall h q, is_job (rq_kind q) -> composable ex_sign ex_compose h q.
Proof. intros h q _. exists (rq_dialog q). split; reflexivity. Qed.

(** C25: hypotheses met: in the first example the first initialisation is the third
    message, and its answer is usable. *)
Example C25_meets :
  exists m, answered ex_bank ex_others [] (mkRq (KInit (B "user") (B "SYS1") 0 0) (B "0") 1 None None, []) m /\ usable m /\ assigns m (B "D1").
Proof.
  eexists. split; [eexists; split; [reflexivity|vm_compute; reflexivity]|]. split; [|reflexivity].
  split; [eexists; reflexivity|]. split.
  - split; [intros s r H; discriminate|]. split; [intros s r H; discriminate|]. repeat constructor. eexists. reflexivity.
  - split; [intros s r H; discriminate|]. split; [|left; reflexivity]. intros [a [[<-|[]] K]]. cbn in K. lia.
Qed.
(** C25: a bank that refuses jobs with an error: the dialog is ended all the same
    and the call fails (C26). *)
Definition refusing_bank (h : list (entry bytes)) : outcome bytes :=
  match rev h with
  | [] => Err
  | e :: _ => match kind_of e with
              | KJob _ => Ok (B "HNHBK:1:3+000000000100+300+D1+2'HIRMG:2:2+9010::no'")
              | k => Ok (ex_answer k)
              end
  end.
Example C25_C26_refused :
  let o := send_message ex_sign ex_compose refusing_bank ex_others ex_pick (B "x")
             (mkW (upd_system (B "SYS1") (new_dialog (Acc := bytes) (B "user"))) []) in
  kinds_of (w_sent (fst o)) =
    [(1, B "0", KInit (B "user") (B "SYS1") 0 0); (2, B "D1", KJob (B "x")); (3, B "D1", KEnd (B "D1"))] /\
  snd o = Err.
Proof. vm_compute. split; reflexivity. Qed.

(** C27: setting the PIN again after a function was chosen puts "999" back into the
    providers, and the next answers do not repair it because the chosen function is
    the one remembered. *)
Theorem C27_setpin_refuted :
  let d := w_d (ex_run [CSetPin (B "1"); CSyncSystem; CSetPin (B "2"); CSyncSystem] ex_world) in
  d_fn d = B "900" /\ pv_fn (d_sig d) = B "999" /\ pv_fn (d_crypt d) = B "999".
Proof. vm_compute. repeat split. Qed.
Print Assumptions C27_setpin_refuted.
Example C27_meets : exists cs, Forall (fun c : call (J := bytes) => forall f, c <> CSetFn f) cs /\
  from_bank ex_bank ex_others (w_sent (ex_run cs ex_world)) (B "900") /\ d_fn (w_d (ex_run cs ex_world)) = B "900".
Proof.
  exists [CSetPin (B "1234"); CSyncSystem]. split; [repeat constructor; discriminate|]. split; [|vm_compute; reflexivity].
  eexists [], _, _, _. split; [vm_compute; reflexivity|]. split; [eexists; split; [reflexivity|vm_compute; reflexivity]|].
  eexists _, _, _. split; [right; left; reflexivity|]. split; [reflexivity|]. split; [right; left; reflexivity|]. split; [reflexivity|left; reflexivity].
Qed.

(** C28: the bank reports the same single account each time, and the list grows. *)
Theorem C28_each_account_once_refuted :
  let w1 := ex_run [CSyncUser] ex_world in let w2 := ex_run [CSyncUser] w1 in
  d_accounts (w_d w1) = [B "HIUPD:6:6:2+acc1'"; B "HIUPD:3:6:2+acc1'"] /\
  d_accounts (w_d w2) = [B "HIUPD:6:6:2+acc1'"; B "HIUPD:3:6:2+acc1'"; B "HIUPD:3:6:2+acc1'"].
Proof. vm_compute. split; reflexivity. Qed.
Print Assumptions C28_each_account_once_refuted.
