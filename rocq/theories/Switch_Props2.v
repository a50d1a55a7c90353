(** * C83: another client's setting and the PIN *)
From Verif Require Import Base BaseFacts Codec_Model Codec_Spec Wire_Model Message_Model Dialog_Model Merge_Model Seg_Model Seg_Spec Client_Model
  Time_Model Request_Model Request_Spec Transport_Model Bank_Model Log_Model Log_Spec Log_Props Switch_Model Switch_Spec Switch_Props.
Open Scope Z_scope.

(** What an exchange hands to the debug logger, with the transport of Log_Model.v. *)
Section Pin.
  Context {F : Type} (parse_float : bytes -> option F) (neg : F -> F) (header_text : msg_header -> bytes).
  Variable render : seg -> bytes.
  Variable today : list (entry (Client_Model.job args)) -> date.
  Variable signed_at enveloped_at : list (entry (Client_Model.job args)) -> date * tod.
  Notation bytes_of x := (request_bytes render (settings_for x) today signed_at enveloped_at).
  Notation signed dialog a number s c := (mkRq (kind_for dialog a) (utf8 dialog) number (Some (provider_for s)) (Some (provider_for c))).
  Notation exchange t url w := (Write Debug (snd (logged_do (others parse_float neg) header_text t url [w]))).

  (** A client made with debug logging off has its PIN written to the log by each of its
      signed requests once another client was made with debug logging on, even one that could
      not be made; and in the other direction a client that asked for a log gets none. *)
  Theorem C83_pin_refuted : forall table before cfg1 cfg2 x h dialog number a s c,
    forallb calm before = true -> client_new table cfg1 <> Panic -> client_new table cfg2 <> Panic ->
    good_caller x -> good_ask (today h) dialog number a -> good_secret s -> good_secret c ->
    real_moment (signed_at h) -> real_moment (enveloped_at h) ->
    exists w, bytes_of x h (signed dialog a number s c) = Ok w /\
      forall t url,
      (Lexer_Model.len w < 10 ^ 12 ->
       exists l, log_of_run (before ++ [NewClient table cfg1 false; NewClient table cfg2 true; exchange t url w]) = log_of_run before ++ map (pair Debug) l /\
         shows l (escaped (sc_pin s))) /\
      log_of_run (before ++ [NewClient table cfg1 true; NewClient table cfg2 false; exchange t url w]) = log_of_run before.
  Proof.
    intros table before cfg1 cfg2 x h dialog number a s c Hb N1 N2 Hx Ha Hs Hc Hm1 Hm2.
    destruct (C63_pin_secret_refuted parse_float neg header_text render today signed_at enveloped_at x h dialog number a s c Hx Ha Hs Hc Hm1 Hm2) as (w&E&K).
    exists w. split; [exact E|]. intros t url. split.
    - intros L. eexists. split; [now rewrite C83_client_refuted|]. exact (K L t url).
    - rewrite C83_client_refuted by assumption. apply app_nil_r.
  Qed.
  (** As long as no call turned debug logging on, an exchange writes nothing. *)
  Theorem C83_quiet : forall h t url w, forallb calm h = true -> Forall (fun c => decision c <> Some true) h ->
    log_of_run (h ++ [exchange t url w]) = log_of_run h.
  Proof.
    intros h t url w Hh Hd. rewrite (proj2 (C83_debug h _ Hh)). replace (last_decision false h) with false; [apply app_nil_r|].
    clear Hh. induction Hd as [|c h Hc Hd IH]; [reflexivity|]. cbn [last_decision]. destruct (decision c) as [[]|]; [congruence|exact IH|exact IH].
  Qed.
End Pin.

(** The hypotheses about requests are met by the caller of C63's cases; those about clients by
    a client for an address and one for a version that does not exist. *)
Example C83_pin_meets :
  let cfg1 := mkCfg (B "1") (B "u") (B "p") (B "https://a") 300 (B "x") (B "1") in
  let cfg2 := mkCfg (B "2") (B "v") (B "q") (B "https://b") 999 (B "x") (B "1") in
  client_new [] cfg1 <> Panic /\ client_new [] cfg2 <> Panic /\
  forallb calm [SetInfoLog false; NewClient [] cfg1 false; WithDebugLogging [Write Debug [Note (B "a")]]] = true /\
  Forall (fun c => decision c <> Some true) [SetInfoLog false; NewClient [] cfg1 false; WithDebugLogging [Write Debug [Note (B "a")]]].
Proof. cbv zeta. repeat split; try discriminate. repeat constructor; discriminate. Qed.

Print Assumptions C83_pin_refuted.
Print Assumptions C83_quiet.
