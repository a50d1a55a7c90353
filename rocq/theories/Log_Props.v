(** * Property C63: what the log of a dialog does and shows

    The transport of every PIN/TAN dialog takes each request and each answer apart to log
    them, whether or not anybody asked for a log. *)
From Verif Require Import Base BaseFacts Lexer_Model Lexer_Spec Codec_Model Codec_Spec Codec_Proofs Wire_Model Wire_Spec
  Lexer_Proofs Wire_Proofs Message_Model Message_Spec Message_Facts2 Dialog_Model Merge_Model Seg_Model Seg_Spec Seg_Facts Seg_Props Client_Model Answer_Spec Answer_Facts Answer_Facts2
  Time_Model Request_Model Request_Spec Request_Facts Request_Facts2 Request_Facts3 Request_Facts4 Request_Props Transport_Model
  Log_Model Log_Spec Log_Facts Log_Facts2 Log_Facts3.
From Coq Require Import Lia ZifyBool ZifyNat ZifyN.
Open Scope Z_scope.

(** ** What the dialog gets *)
(** Exactly: a request that crashes the reader is not sent; an answer that crashes it does not
    arrive; everything else arrives, errors while reading the body are dropped. *)
Theorem C63_exchange : forall {P} (others : bytes -> Z -> option (bytes -> outcome P)) header_text t url chunks,
  (read_response others (List.concat chunks) = Panic -> logged others header_text t url chunks = Panic) /\
  (read_response others (List.concat chunks) <> Panic ->
     (forall w ok, t url [List.concat chunks] = Ok (w, ok) -> read_response others w = Panic ->
        logged others header_text t url chunks = Panic) /\
     (forall w ok, t url [List.concat chunks] = Ok (w, ok) -> read_response others w <> Panic ->
        logged others header_text t url chunks = Ok (w, true)) /\
     (t url [List.concat chunks] = Err -> logged others header_text t url chunks = Err) /\
     (t url [List.concat chunks] = Panic -> logged others header_text t url chunks = Panic)).
Proof.
  intros P rd ht t url chunks. unfold logged, logged_do. split.
  - intros H. apply (proj1 (write_message_panics rd ht _)) in H. now rewrite H.
  - intros H. destruct (written_message rd ht _ H) as [l ->]. split; [|split; [|split]].
    + intros w ok -> R. cbn [fst snd]. apply (proj1 (write_message_panics rd ht w)) in R. now rewrite R.
    + intros w ok -> R. cbn [fst snd]. now destruct (written_message rd ht w R) as [l3 ->].
    + now intros ->.
    + now intros ->.
Qed.
(** ** What is written in debug mode *)
(** Exactly, unless the reader or the extractor of segments crashes: the request, a note about
    what the transport said, and the answer, each in full. *)
Theorem C63_log : forall {P} (others : bytes -> Z -> option (bytes -> outcome P)) header_text t url chunks l1,
  displayed others header_text (List.concat chunks) l1 ->
  (t url [List.concat chunks] = Err ->
     log_of others header_text true t url chunks = Note (B "Decrypted Request:") :: l1 ++ [Note (B "Error executing request:")]) /\
  (t url [List.concat chunks] = Panic ->
     log_of others header_text true t url chunks = Note (B "Decrypted Request:") :: l1) /\
  (forall w ok l2, t url [List.concat chunks] = Ok (w, ok) -> displayed others header_text w l2 ->
     log_of others header_text true t url chunks =
       Note (B "Decrypted Request:") :: l1 ++ (if ok then [] else [Note (B "Error reading response body: ")]) ++ Note (B "Decrypted Response:") :: l2).
Proof.
  intros P rd ht t url chunks l1 D1.
  assert (W : forall raw l, displayed rd ht raw l -> write_message rd ht raw = Ok l).
  { intros raw l [m H|segs H1 H2|H1 H2]; unfold write_message; [now rewrite H| |]; rewrite H1; unfold write_raw_segments; now rewrite H2. }
  unfold log_of, logged_do. cbv zeta. rewrite (W _ _ D1). cbn [written]. split; [|split].
  - intros ->. reflexivity.
  - intros ->. reflexivity.
  - intros w ok l2 -> D2. cbn [fst snd]. rewrite (W _ _ D2). cbn [snd]. rewrite <- !app_assoc. reflexivity.
Qed.
Print Assumptions C63_log.
(** Every message has such lines, unless the reader or the extractor crashes. *)
Theorem C63_displayed : forall {P} (others : bytes -> Z -> option (bytes -> outcome P)) header_text raw,
  read_response others raw <> Panic -> message_extract raw <> Panic -> exists l, displayed others header_text raw l.
Proof.
  intros P rd ht raw H1 H2. destruct (read_response rd raw) as [m| |] eqn:E; [eexists; eapply displayed_read; exact E| |now destruct H1].
  destruct (message_extract raw) as [s| |] eqn:E2; [eexists; eapply displayed_raw; eassumption|eexists; eapply displayed_garbage; eassumption|now destruct H2].
Qed.
Print Assumptions C63_displayed.
Example C63_log_meets : displayed (fun _ _ => None : option (bytes -> outcome unit)) (fun _ => []) (B "x") [Note (B "x" ++ [nl])].
Proof. apply displayed_garbage; vm_compute; reflexivity. Qed.

(** For a request the reader does not crash on, what the dialog makes of the answer - message,
    error or crash - is what it would be without the log. *)
Theorem C63_no_difference : forall {P} (others : bytes -> Z -> option (bytes -> outcome P)) header_text t url request,
  read_response others request <> Panic ->
  (do w <- exchange (logged others header_text t) url request; read_response others w) =
  (do w <- exchange (logging t) url request; read_response others w).
Proof.
  intros P rd ht t url request H. assert (E : List.concat [request] = request) by (cbn; apply app_nil_r).
  destruct (C63_exchange rd ht t url [request]) as [_ K]. rewrite E in K. specialize (K H). destruct K as (K1&K2&K3&K4).
  assert (G : logging t url [request] = do resp <- t url [request]; Ok (fst resp, true)) by (unfold logging; now rewrite E).
  unfold exchange. rewrite G. clear G. destruct (t url [request]) as [[w ok]| |] eqn:Et.
  - cbn [obind fst snd]. destruct (read_response rd w) as [m| |] eqn:R.
    + rewrite (K2 w ok Et) by congruence. exact R.
    + rewrite (K2 w ok Et) by congruence. exact R.
    + now rewrite (K1 w ok Et R).
  - now rewrite (K3 Et).
  - now rewrite (K4 Et).
Qed.
Print Assumptions C63_exchange.
Print Assumptions C63_no_difference.

(** ** Requests *)
Section Requests.
  Context {F : Type} (parse_float : bytes -> option F) (neg : F -> F) (header_text : msg_header -> bytes).
  Variable render : seg -> bytes.
  Variable today : list (entry (Client_Model.job args)) -> date.
  Variable signed_at enveloped_at : list (entry (Client_Model.job args)) -> date * tod.
  Notation reader := (others parse_float neg).
  Notation bytes_of x := (request_bytes render (settings_for x) today signed_at enveloped_at).
  Notation signed dialog a number s c := (mkRq (kind_for dialog a) (utf8 dialog) number (Some (provider_for s)) (Some (provider_for c))).

  (** A signed request does not crash the log.  The library's reader refuses it - the
      signature's end has a PIN where it expects none - and so, if debugging is on, the log
      starts with the four segments of the message as they are. *)
  Theorem C63_signed_request : forall x, good_caller x -> exists reference, hex_word reference /\
    forall h dialog number a s c, good_ask (today h) dialog number a -> good_secret s -> good_secret c ->
      real_moment (signed_at h) -> real_moment (enveloped_at h) ->
      exists w, bytes_of x h (signed dialog a number s c) = Ok w /\
        (len w < 10 ^ 12 ->
         read_response reader w = Err /\
         forall t url, exists rest,
           log_of reader header_text true t url [w] =
             Note (B "Decrypted Request:") ::
             map marked (sent_segments x dialog number (len w) c (enveloped_at h)
               (signed_parts x (today h) dialog s reference (signed_at h) a)) ++ rest).
  Proof.
    intros x Hx. pose proof Hx as (Hb&Hpx&Hcx). destruct (C56_clean_requests render today signed_at enveloped_at x Hb Hcx) as (r&Hr&K).
    exists r. split; [exact Hr|]. intros h dialog number a s c Ha Hs Hc Hm1 Hm2.
    pose proof Ha as (Q1&Q2&Q3&Q4&Q5&Q6&Q7). pose proof Hs as (_&_&S3). pose proof Hc as (C1&_&C3).
    destruct (K h dialog number a s c Q1 Q3 Q4 S3 C3 C1 Q5 Q6 Hm1 Hm2) as (w&E&Hw). exists w. split; [exact E|]. intros Hl. specialize (Hw Hl).
    assert (Hsz : number_ok (len w)) by (pose proof (len_nonneg w); unfold number_ok; lia).
    destruct (signed_refused parse_float neg x dialog number (len w) (today h) s c r (signed_at h) (enveloped_at h) a Hx Hr Ha Hs Hc Hm1 Hm2 Hsz) as [R M].
    { rewrite <- Hw. lia. }
    rewrite <- Hw in R, M. split; [exact R|]. intros t url. apply log_starts.
    unfold write_message. rewrite R. unfold write_raw_segments. now rewrite M.
  Qed.
  (** The PIN (with release characters before special characters) stands in the debug log. *)
  Theorem C63_pin_secret_refuted : forall x h dialog number a s c, good_caller x -> good_ask (today h) dialog number a ->
    good_secret s -> good_secret c -> real_moment (signed_at h) -> real_moment (enveloped_at h) ->
    exists w, bytes_of x h (signed dialog a number s c) = Ok w /\
      (len w < 10 ^ 12 -> forall t url, shows (log_of reader header_text true t url [w]) (escaped (sc_pin s))).
  Proof.
    intros x h dialog number a s c Hx Ha Hs Hc Hm1 Hm2. destruct (C63_signed_request x Hx) as (r&Hr&K).
    destruct (K h dialog number a s c Ha Hs Hc Hm1 Hm2) as (w&E&Hw). exists w. split; [exact E|]. intros Hl t url. destruct (Hw Hl) as (_&L).
    destruct (L t url) as (rest&->). destruct Hs as (Hp&_).
    destruct (pin_within x dialog number (len w) c (enveloped_at h) s r (signed_parts x (today h) dialog s r (signed_at h) a) Hp) as (g&Hg&(p&q&Eg)).
    { unfold signed_parts. right. apply in_or_app. right. now left. }
    exists (marked g), (B ">>" ++ p), (q ++ [nl]). split; [right; apply in_or_app; left; now apply in_map|].
    unfold marked, entry_bytes. rewrite Eg. now rewrite <- !app_assoc.
  Qed.
  (** A request of an anonymous dialog is read; the log has the header and then each segment. *)
  Theorem C63_anonymous_request : forall value, reads_decimals parse_float value ->
    forall x h dialog number a, good_caller x -> good_ask (today h) dialog number a -> (forall w mark, a <> QJob w mark) ->
    exists w, bytes_of x h (mkRq (kind_for dialog a) (utf8 dialog) number None None) = Ok w /\
      (len w < 10 ^ 12 -> exists m, read_response reader w = Ok m /\
         forall t url, exists rest,
           log_of reader header_text true t url [w] =
             Note (B "Decrypted Request:") :: indented (header_text (bm_header m)) ::
             map indented (letter_raw (request_letter x dialog number (len w) None (body_parts x (today h) dialog false a))) ++ rest).
  Proof.
    intros value Hv x h dialog number a Hx Ha Hj. pose proof Hx as (Hb&Hpx&Hcx). pose proof Ha as (Q1&Q2&Q3&Q4&Q5&Q6&Q7).
    assert (W : who_ok x). { split; [exact Hb|]. unfold who_texts in Hcx. inversion_clear Hcx as [|? ? [K _] _]. exact K. }
    destruct (C56_anonymous_requests render today signed_at enveloped_at x h dialog number a W Hj Q5) as (w&E&Hw).
    { eapply Forall_impl; [exact clean_tidy|]. now apply clean_body. }
    exists w. split; [exact E|]. intros Hl. specialize (Hw Hl).
    assert (Hsz : number_ok (len w)) by (pose proof (len_nonneg w); unfold number_ok; lia).
    assert (G : letter_ok (request_letter x dialog number (len w) None (body_parts x (today h) dialog false a))).
    { apply anonymous_good; try assumption. rewrite <- Hw. lia. }
    destruct (letter_read parse_float neg value Hv _ G) as (m&R&_&_&_&_&_&_&_&Raw). rewrite <- anonymous_letter, <- Hw in R.
    exists m. split; [exact R|]. intros t url.
    assert (Ea : write_message reader header_text w = Ok (indented (header_text (bm_header m)) ::
      map indented (letter_raw (request_letter x dialog number (len w) None (body_parts x (today h) dialog false a)))))
      by (unfold write_message; rewrite R, Raw; reflexivity).
    exact (log_starts _ _ t url w _ Ea).
  Qed.
  (** An answer as the bank should write it is logged with its header and each segment. *)
  Theorem C63_answer : forall value, reads_decimals parse_float value -> forall l, letter_ok l ->
    exists m, read_response reader (letter_wire l) = Ok m /\
      forall t url w ok, read_response reader w <> Panic -> t url [w] = Ok (letter_wire l, ok) ->
      exists before,
        log_of reader header_text true t url [w] =
          before ++ Note (B "Decrypted Response:") :: indented (header_text (bm_header m)) :: map indented (letter_raw l).
  Proof.
    intros value Hv l G. destruct (letter_read parse_float neg value Hv _ G) as (m&R&_&_&_&_&_&_&_&Raw). exists m. split; [exact R|].
    intros t url w ok Hw Ht.
    assert (Ea : write_message reader header_text (letter_wire l) = Ok (indented (header_text (bm_header m)) :: map indented (letter_raw l)))
      by (unfold write_message; rewrite R, Raw; reflexivity).
    exact (log_ends _ _ t url w _ ok _ Hw Ht Ea).
  Qed.
  (** Unless debugging is on, nothing is written. *)
  Theorem C63_silent : forall t url chunks, log_of reader header_text false t url chunks = [].
  Proof. reflexivity. Qed.
End Requests.
Print Assumptions C63_signed_request.
Print Assumptions C63_pin_secret_refuted.
Print Assumptions C63_anonymous_request.
Print Assumptions C63_answer.
Print Assumptions C63_silent.

(** ** A case *)
Example C63_witness : let a := QJob (WTransactions 5 demo_account None (Some (mkDate 2024 1 1)) false) (B "m1") in
  good_caller demo_who /\ good_secret (demo_secret (B "12")) /\ good_ask demo_day (B "d1") 2 a /\ real_moment demo_moment.
Proof.
  cbv zeta.
  split; [|split; [|split]].
  - split; [discriminate|]. split; [split; [now right|]; split; [unfold number_ok; cbn; lia|]|].
    + repeat (apply Forall_cons; [split; [vm_compute; intuition discriminate|reflexivity]|]). apply Forall_nil.
    + repeat (apply Forall_cons; [apply clean_rev; vm_compute; try exact I; split; discriminate|]). apply Forall_nil.
  - split; [discriminate|]. split.
    + repeat (apply Forall_cons; [split; [vm_compute; intuition discriminate|reflexivity]|]). apply Forall_nil.
    + repeat (apply Forall_cons; [apply clean_rev; vm_compute; try exact I; split; discriminate|]). apply Forall_nil.
  - split; [split; discriminate|]. split; [|split; [|split; [|split; [|split]]]].
    + split; [discriminate|]. split; [split; [vm_compute; intuition discriminate|reflexivity]|]. split; [|split; [|cbn; lia]].
      * repeat (apply Forall_cons; [split; [vm_compute; intuition discriminate|reflexivity]|]). apply Forall_nil.
      * repeat (apply Forall_cons; [unfold number_ok; cbn; lia|]). apply Forall_nil.
    + repeat (apply Forall_cons; [apply clean_rev; vm_compute; try exact I; split; discriminate|]). apply Forall_nil.
    + apply Forall_cons; [|apply Forall_nil]. vm_compute. repeat split; discriminate.
    + vm_compute. repeat split; discriminate.
    + vm_compute. discriminate.
    + unfold number_ok. lia.
  - vm_compute. repeat split; try discriminate; reflexivity.
Qed.
