(** * Property C71: the anonymous client *)
From Verif Require Import Base BaseFacts Lexer_Model Lexer_Spec Codec_Model Codec_Spec Wire_Model Wire_Spec
  Message_Model Dialog_Model Dialog_Spec Merge_Model Client_Model Time_Model Seg_Model Seg_Spec
  Request_Model Request_Spec Request_Facts4 Request_Props Answer_Spec Answer_Facts2 Seg_Props Crash_Spec Crash_Facts Crash_Props Anon_Model Anon_Spec Anon_Facts Anon_Facts2.
Open Scope Z_scope.

Section C71.
  Context {Acc : Type}.
  Variable render : seg -> bytes.
  Variable x : who.
  Variable today : list (entry ajob) -> date.
  Variable signed_at enveloped_at : list (entry ajob) -> date * tod.
  Variable bank : list (entry ajob) -> outcome bytes.
  Variable others : bytes -> Z -> option (bytes -> outcome (oseg Acc)).
  Notation call := (fun from to max => communication_access render (settings_for x) today signed_at enveloped_at bank others
                      (institute_value from) (institute_value to) max).

  (** CommunicationAccess, after whatever happened before: the initialisation of an anonymous
      customer goes out.  If the bank's answer is of use, the question and the end of the dialog
      follow, with the dialog ID the bank gave; if not, nothing follows and the call fails.
      What is returned is the bank's answer to the question, which has no error; an answer
      without error is returned (unless reading the answer to the dialog end panics). *)
  Theorem C71_conversation : forall from to max (w : world), caller_ok x -> clean_text (is_code from) -> clean_text (is_code to) ->
    exists i rest, w_sent (fst (call from to max w)) = w_sent w ++ i :: rest /\
    is_message (snd i) (hello x (d_bpd_version (w_d w)) (upd_version (d_upd (w_d w)))) /\
    ((~ exists m, answered bank others (w_sent w) i m /\ usable_anonymous m) -> rest = [] /\ ~ is_ok (snd (call from to max w))) /\
    (forall m D, answered bank others (w_sent w) i m -> usable_anonymous m -> assigns m (utf8 D) -> clean_text D ->
       exists j e, rest = [j; e] /\ is_message (snd j) (question x D from to max) /\ is_message (snd e) (goodbye x D) /\
         (forall y, snd (call from to max w) = Ok y -> answered bank others (w_sent w ++ [i]) j y /\ ~ has_error y) /\
         (forall y, answered bank others (w_sent w ++ [i]) j y -> ~ has_error y ->
            snd (call from to max w) = Ok y \/ snd (call from to max w) = Panic)).
  Proof.
    intros from to max w Hx Hf Ht. exact (conversation render x today signed_at enveloped_at bank others Hx from to max Hf Ht w).
  Qed.

  (** PIN, client system ID and security function are as before, so is the customer ID, unless the
      bank sends user parameters in this dialog. *)
  Theorem C71_unchanged : forall from to max (w : world), let d := w_d w in let d' := w_d (fst (call from to max w)) in
    d_system d' = d_system d /\ d_fn d' = d_fn d /\ d_sig d' = d_sig d /\ d_crypt d' = d_crypt d /\
    ((forall i m, answered bank others (w_sent w) i m -> segs m (B "HIUPA") = []) -> d_client d' = d_client d).
  Proof.
    intros from to max w. cbv zeta. unfold communication_access.
    match goal with |- context [send_anonymous ?c bank others ?j w] => destruct (anonymous_keeps c bank others j w) as (K1&K2&K3&K4); pose proof (customer_kept c bank others j w) as K5 end.
    auto.
  Qed.
End C71.

(** What the bank sees does not depend on who asks: two callers at the same bank with the same product
    and the same versions of the parameters, but any user ID, PIN, client system ID, security function, any
    history, accounts and clock, send the same bytes, whatever the bank answers, and get the same. *)
Theorem C71_anonymous : forall (Acc : Type) (render : seg -> bytes) (mine yours : settings)
  (today today' : list (entry ajob) -> date) (signed_at signed_at' enveloped_at enveloped_at' : list (entry ajob) -> date * tod)
  (reply reply' : list bytes -> outcome bytes) (others : bytes -> Z -> option (bytes -> outcome (oseg Acc)))
  (from to : bank_ref) (max : Z) (w w' : world),
  same_setup mine yours -> same_versions (w_d w) (w_d w') ->
  (forall l, reply (map snd (w_sent w) ++ l) = reply' (map snd (w_sent w') ++ l)) ->
  let r := communication_access render mine today signed_at enveloped_at (fun h => reply (map snd h)) others from to max w in
  let r' := communication_access render yours today' signed_at' enveloped_at' (fun h => reply' (map snd h)) others from to max w' in
  snd r = snd r' /\
  exists l, map snd (w_sent (fst r)) = map snd (w_sent w) ++ l /\ map snd (w_sent (fst r')) = map snd (w_sent w') ++ l.
Proof.
  intros Acc render mine yours today today' s s' e e' reply reply' others from to max w w' Hs Hv Hb. cbv zeta.
  destruct (secrecy render mine yours Hs today today' s s' e e' reply reply' (map snd (w_sent w)) (map snd (w_sent w')) Hb others from to max w w' Hv eq_refl eq_refl)
    as ((_&_&_&L)&R).
  split; [exact R|exact L].
Qed.

(** The answer one asks for cannot be read: if the bank's answer to the question tells how to reach an
    institute, the call panics.  The segments before and after do not matter. *)
Theorem C71_answer_refuted : forall (F : Type) (parse_float : bytes -> option F) neg value, reads_decimals parse_float value ->
  forall render st today signed_at enveloped_at bank from to max (w : world) i j rest l institute language ways pos ref,
  let c := communication_access render st today signed_at enveloped_at bank (others parse_float neg) from to max w in
  w_sent (fst c) = w_sent w ++ i :: j :: rest ->
  bank (w_sent w ++ [i] ++ [j]) = Ok (letter_wire l) -> valid_letter l ->
  In (mkPiece pos ref (IKept (KWays institute language ways))) (lt_pieces l) -> ways <> [] ->
  snd c = Panic.
Proof.
  intros F pf neg value Hf render st today sa ea bank from to max w i j rest l inst lang ways pos ref c Es Hb Hv Hin Hw.
  destruct (C60_any_bank (fun _ _ => Ok tt) (anon_bytes render st today sa ea) bank (others pf neg) (fun _ => O) w) as (_&_&_&K).
  apply (K _ (i :: j :: rest)); [exact Es|]. exists [i], j, rest. split; [reflexivity|]. left. exists (letter_wire l).
  split; [rewrite <- app_assoc; exact Hb|]. apply (letter_crash pf neg value Hf l Hv).
  eexists. eexists. split; [exact Hin|]. split; [reflexivity|]. cbn [crashes]. now destruct ways.
Qed.

(** ** A conversation *)
Definition demo_from : institute := mkInst 280 (B "10000000").
Definition demo_to : institute := mkInst 280 (B "99999999").
(** A bank that sends the parameters of the anonymous user along. *)
Definition demo_anon_bank (h : list bytes) : outcome bytes :=
  match h with
  | [_] => Ok (B "HNHBK:1:3+000000000100+300+d7+1'HIRMG:2:2+0010::ok'HIUPA:3:4:3+9999999999+1+0'HNHBS:4:1+1'")
  | [_; _] => Ok (B "HNHBK:1:3+000000000100+300+d7+2'HIRMG:2:2+0020::ok'HIKOM:3:3:2+280:10000000+1'HNHBS:4:1+2'")
  | _ => Ok (B "HNHBK:1:3+000000000100+300+d7+3'HIRMG:2:2+0010::ok'HNHBS:3:1+3'")
  end.
Definition no_float (_ : bytes) : option unit := None.
Definition demo_anon_call (user pin : bytes) : world * outcome (bank_message (oseg (Seg_Model.account_information unit))) :=
  communication_access (fun _ => []) (settings_for (mkWho 300 280 (B "12345678") user [] [])) (fun _ => demo_day)
    (fun _ => demo_moment) (fun _ => demo_moment) (fun h => demo_anon_bank (map snd h)) (others no_float (fun u => u))
    (institute_value demo_from) (institute_value demo_to) 20
    (fst (set_pin (Acc := Seg_Model.account_information unit) pin (mkW (new_dialog (utf8 user)) []))).
Example C71_run :
  map snd (w_sent (fst (demo_anon_call (B "user") (B "12345")))) =
  [B "HNHBK:1:3+000000000129+300+0+1'HKIDN:2:2+280:12345678+9999999999+0+0'HKVVB:3:3+0+0+1+5A624F86A785F4024DD914404+0.3.2'HNHBS:4:1+1'";
   B "HNHBK:1:3+000000000083+300+d7+2'HKKOM:2:3+280:10000000+280:99999999+20'HNHBS:3:1+2'";
   B "HNHBK:1:3+000000000057+300+d7+3'HKEND:2:1+d7'HNHBS:3:1+3'"] /\
  omap (@bm_acks _) (snd (demo_anon_call (B "user") (B "12345"))) = omap (@bm_acks _) (snd (demo_anon_call (B "other") (B "54321"))).
Proof. vm_compute. split; reflexivity. Qed.
(** The user parameters of the anonymous dialog stay with the client: the same client's next dialog
    names the customer 9999999999 instead of its user. *)
Theorem C71_customer_refuted :
  d_client (w_d (fst (set_pin (Acc := Seg_Model.account_information unit) (J := ajob) (B "12345") (mkW (new_dialog (utf8 (B "user"))) [])))) = B "user" /\
  d_client (w_d (fst (demo_anon_call (B "user") (B "12345")))) = B "9999999999" /\
  is_ok (snd (demo_anon_call (B "user") (B "12345"))).
Proof. vm_compute. split; [reflexivity|]. split; [reflexivity|]. eexists. reflexivity. Qed.
(** The same question, answered by a message with the ways to reach an institute. *)
Example C71_answer_run :
  let bank := fun h : list bytes => match h with [_; _] => Ok (letter_wire ways_letter) | _ => demo_anon_bank h end in
  let c := communication_access (fun _ => []) (settings_for demo_who) (fun _ => demo_day) (fun _ => demo_moment) (fun _ => demo_moment)
    (fun h => bank (map snd h)) (others sample_float sample_neg) (institute_value demo_from) (institute_value demo_to) 20
    (mkW (new_dialog (utf8 (B "user"))) []) in
  snd c = Panic /\ List.length (w_sent (fst c)) = 3%nat.
Proof. vm_compute. split; reflexivity. Qed.
Example C71_witness : caller_ok demo_who /\ clean_text (is_code demo_from) /\ clean_text (is_code demo_to) /\ clean_text (B "d7") /\
  same_setup (settings_for demo_who) (settings_for (mkWho 300 280 (B "12345678") (B "other") [] [])).
Proof.
  split; [split; [discriminate|]|].
  - repeat split; intros [q K]; apply (f_equal (@rev _)) in K; rewrite rev_app_distr in K; vm_compute in K; discriminate.
  - repeat split; intros [q K]; apply (f_equal (@rev _)) in K; rewrite rev_app_distr in K; vm_compute in K; discriminate.
Qed.

Print Assumptions C71_conversation.
Print Assumptions C71_unchanged.
Print Assumptions C71_anonymous.
Print Assumptions C71_answer_refuted.
Print Assumptions C71_customer_refuted.
