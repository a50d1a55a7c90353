(** * Property C56: what is sent to the bank *)
From Verif Require Import Base BaseFacts Lexer_Model Lexer_Spec Codec_Model Codec_Spec Codec_Proofs Wire_Model Wire_Spec
  Wire_Proofs Message_Model Message_Spec Message_Proofs Dialog_Model Merge_Model Client_Model Time_Model Seg_Model Seg_Spec
  Request_Model Request_Spec Request_Facts Request_Facts2 Request_Facts3 Request_Facts4 Seg_Facts Crc_Facts.
From Coq Require Import Lia ZifyBool ZifyNat ZifyN.
Open Scope Z_scope.

Section C56.
  Variable render : seg -> bytes.
  Variable today : list (entry (Client_Model.job args)) -> date.
  Variable signed_at enveloped_at : list (entry (Client_Model.job args)) -> date * tod.

  (** Every signed request - synchronisation, initialisation, job or dialog end -
      is, byte by byte, the message the specification gives: the given dialog ID
      and message number, the segments in their order, numbered from 2 on and put
      into the envelope, the size in the header its real length.  The control
      reference is one word for all messages of a client. *)
  Theorem C56_signed_requests : forall x, who_ok x -> exists reference, hex_word reference /\
    forall h dialog number a s c, ask_ok a -> real_date (today h) -> sc_pin c <> [] ->
      Forall tidy (signed_parts x (today h) dialog s reference (signed_at h) a) -> tidy (envelope_header x c (enveloped_at h)) ->
      exists w,
        request_bytes render (settings_for x) today signed_at enveloped_at h
          (mkRq (kind_for dialog a) (utf8 dialog) number (Some (provider_for s)) (Some (provider_for c))) = Ok w /\
        (len w < 10 ^ 12 ->
         w = enveloped_message x dialog number (len w) c (enveloped_at h)
               (signed_parts x (today h) dialog s reference (signed_at h) a)).
  Proof.
    intros x Hx. exists (control_reference (settings_for x)). split; [apply hex_word_reference|].
    intros h dialog number a s c Ha Ht Hp T Te. now apply enveloped_bytes.
  Qed.

  (** Two customers of a bank whose user IDs differ in a short stretch have different references. *)
  Theorem C56_reference_differs : exists reference : who -> bytes,
    (forall x, who_ok x -> hex_word (reference x) /\
      forall h dialog number a s c, ask_ok a -> real_date (today h) -> sc_pin c <> [] ->
        Forall tidy (signed_parts x (today h) dialog s (reference x) (signed_at h) a) -> tidy (envelope_header x c (enveloped_at h)) ->
        exists w,
          request_bytes render (settings_for x) today signed_at enveloped_at h
            (mkRq (kind_for dialog a) (utf8 dialog) number (Some (provider_for s)) (Some (provider_for c))) = Ok w /\
          (len w < 10 ^ 12 ->
           w = enveloped_message x dialog number (len w) c (enveloped_at h)
                 (signed_parts x (today h) dialog s (reference x) (signed_at h) a))) /\
    (forall x y before u v after, wh_country x = wh_country y -> wh_bank x = wh_bank y ->
       wh_user x = before ++ u ++ after -> wh_user y = before ++ v ++ after -> u <> v ->
       List.length (utf8 u) = List.length (utf8 v) -> (List.length (utf8 u) <= 4)%nat -> reference x <> reference y).
  Proof.
    exists (fun x => control_reference (settings_for x)). split.
    - intros x Hx. split; [apply hex_word_reference|]. intros h dialog number a s c Ha Ht Hp T Te. now apply enveloped_bytes.
    - intros x y before u v after Ec Eb Ex Ey D L S. unfold control_reference, settings_for. cbn [st_bank st_user bank_country bank_code]. rewrite Ec, Eb, Ex, Ey.
      assert (U : forall p q r, utf8 (p ++ q ++ r) = utf8 p ++ utf8 q ++ utf8 r) by (intros; rewrite !utf8_eq; unfold to_utf8; now rewrite !flat_map_app).
      rewrite !U. set (tail := B "S" ++ B "0" ++ B "0"). set (p := itoa (wh_country y)). set (q := utf8 (wh_bank y)).
      assert (A : forall z, p ++ q ++ (utf8 before ++ z ++ utf8 after) ++ tail = (p ++ q ++ utf8 before) ++ z ++ (utf8 after ++ tail)) by (intros z; now rewrite <- !app_assoc).
      rewrite !A. apply hex_crc_differs; [exact L|exact S|]. rewrite !utf8_eq. intros K. apply D. now apply to_utf8_inj.
  Qed.

  (** The same for callers whose texts do not end in ':' or '+'. *)
  Theorem C56_clean_requests : forall x, wh_bank x <> [] -> Forall clean_text (who_texts x) -> exists reference, hex_word reference /\
    forall h dialog number a s c, ask_ok a -> Forall clean_text (ask_texts dialog a) -> Forall real_date (ask_dates a) ->
      Forall clean_text (secret_texts s) -> Forall clean_text (secret_texts c) -> sc_pin c <> [] ->
      real_date (today h) -> 1 <= d_year (today h) -> real_moment (signed_at h) -> real_moment (enveloped_at h) ->
      exists w,
        request_bytes render (settings_for x) today signed_at enveloped_at h
          (mkRq (kind_for dialog a) (utf8 dialog) number (Some (provider_for s)) (Some (provider_for c))) = Ok w /\
        (len w < 10 ^ 12 ->
         w = enveloped_message x dialog number (len w) c (enveloped_at h)
               (signed_parts x (today h) dialog s reference (signed_at h) a)).
  Proof.
    intros x Hb Hx. assert (W : who_ok x). { split; [exact Hb|]. unfold who_texts in Hx. inversion_clear Hx as [|? ? [K _] _]. exact K. }
    exists (control_reference (settings_for x)). pose proof (hex_word_reference (settings_for x)) as Hr. split; [exact Hr|].
    intros h dialog number a s c Ha Hta Hda Hs Hc Hp Ht Hy Hm1 Hm2. apply enveloped_bytes; try assumption.
    - unfold signed_parts. apply Forall_cons; [apply clean_tidy; now apply clean_sig_header|]. apply Forall_app. split.
      + eapply Forall_impl; [exact clean_tidy|]. now apply clean_body.
      + apply Forall_cons; [apply clean_tidy; now apply clean_sig_end|apply Forall_nil].
    - apply clean_tidy. now apply clean_envelope.
  Qed.

  (** The messages of an anonymous dialog go out in the clear, unsigned. *)
  Theorem C56_anonymous_requests : forall x h dialog number a, who_ok x -> (forall w mark, a <> QJob w mark) -> real_date (today h) ->
    Forall tidy (body_parts x (today h) dialog false a) ->
    exists w,
      request_bytes render (settings_for x) today signed_at enveloped_at h (mkRq (kind_for dialog a) (utf8 dialog) number None None) = Ok w /\
      (len w < 10 ^ 12 -> w = anonymous_message x dialog number (len w) (body_parts x (today h) dialog false a)).
  Proof. intros x h dialog number a Hx Ha Ht T. now apply anonymous_bytes. Qed.

  (** Nothing is sent in an envelope without a PIN, and nothing crashes. *)
  Theorem C56_no_pin_nothing_sent : forall x h dialog number a s c, who_ok x -> ask_ok a -> real_date (today h) -> sc_pin c = [] ->
    Forall tidy (signed_parts x (today h) dialog s (control_reference (settings_for x)) (signed_at h) a) ->
    request_bytes render (settings_for x) today signed_at enveloped_at h
      (mkRq (kind_for dialog a) (utf8 dialog) number (Some (provider_for s)) (Some (provider_for c))) = Err.
  Proof.
    intros x h dialog number a s c Hx Ha Ht Hp T.
    destruct (signed_content render x today signed_at enveloped_at Hx h dialog number a s (Some (provider_for c)) Ha Ht T) as (m&Em&_&_&_&Hi).
    unfold request_bytes. cbn [rq_sig rq_crypt]. rewrite Em. cbn [obind]. unfold encrypt. rewrite Hi. cbn [obind provider_for pv_pin].
    rewrite Hp. reflexivity.
  Qed.

  (** Signing a request never fails. *)
  Theorem C56_signing_succeeds : forall x h dialog number a s c, who_ok x -> ask_ok a -> real_date (today h) ->
    Forall tidy (signed_parts x (today h) dialog s (control_reference (settings_for x)) (signed_at h) a) ->
    request_sign render (settings_for x) today signed_at h (mkRq (kind_for dialog a) (utf8 dialog) number (Some (provider_for s)) c) = Ok tt.
  Proof.
    intros x h dialog number a s c Hx Ha Ht T.
    destruct (signed_content render x today signed_at enveloped_at Hx h dialog number a s c Ha Ht T) as (m&Em&_).
    unfold request_sign. cbn [rq_sig]. now rewrite Em.
  Qed.
End C56.

(** ** What is left out of the theorems *)
Definition demo_who : who := mkWho 300 280 (B "12345678") (B "user") [] [].
Definition demo_secret (pin : bytes) : secret := mkSecret pin (B "sys1") (B "999").
Definition demo_day : date := mkDate 2024 3 31.
Definition demo_moment : date * tod := (demo_day, mkTod 10 20 30).
Definition demo_account : national := mkNat (B "42") [] 280 (B "12345678").
Definition demo_bytes (pin : bytes) (a : ask) : outcome bytes :=
  request_bytes (fun _ => []) (settings_for demo_who) (fun _ => demo_day) (fun _ => demo_moment) (fun _ => demo_moment) []
    (mkRq (kind_for (B "d1") a) (utf8 (B "d1")) 2 (Some (provider_for (demo_secret pin))) (Some (provider_for (demo_secret pin)))).

(** A PIN that ends in '+' or ':': the signature end lacks its last apostrophe, what is there
    reads as an escaped one; different PINs give the same bytes. *)
Theorem C56_pin_ending_refuted : exists w, demo_bytes (B "12+") QEnd = Ok w /\ demo_bytes (B "12:") QEnd = Ok w /\
  skipn 262 w = B "HNSHA:4:2+b967e12b++12?''HNHBS:5:1+2'".
Proof.
  destruct (demo_bytes (B "12+") QEnd) as [w| |] eqn:E; [|vm_compute in E; discriminate|vm_compute in E; discriminate].
  exists w. split; [reflexivity|]. split; [rewrite <- E; vm_compute; reflexivity|].
  vm_compute in E. injection E as <-. vm_compute. reflexivity.
Qed.
(** Transactions asked for up to a day with no first day: the first day sent is a month before
    today, even if that is after the last one.  A month before 31 March 2024 is 2 March. *)
Theorem C56_default_start_refuted : exists w,
  demo_bytes (B "12") (QJob (WTransactions 5 demo_account None (Some (mkDate 2024 1 1)) false) (B "m1")) = Ok w /\
  firstn 69 (skipn 249 w) = B "HKTAN:3:6+4+HKIDN'HKKAZ:4:5+42::280:12345678+N+20240302+20240101++m1'".
Proof.
  eexists. split; [vm_compute; reflexivity|]. vm_compute. reflexivity.
Qed.
(** A checksum whose value is known. *)
Example C56_checksum : hex 8 (crc32 (B "123456789")) = B "cbf43926".
Proof. vm_compute. reflexivity. Qed.
Example C56_witness :
  let a := QJob (WTransactions 5 demo_account None (Some (mkDate 2024 1 1)) false) (B "m1") in
  let s := demo_secret (B "12") in
  wh_bank demo_who <> [] /\ Forall clean_text (who_texts demo_who) /\ ask_ok a /\ Forall clean_text (ask_texts (B "d1") a) /\
  Forall real_date (ask_dates a) /\ Forall clean_text (secret_texts s) /\ sc_pin s <> [] /\ real_date demo_day /\
  real_moment demo_moment /\
  enveloped_message demo_who (B "d1") 2 354 s demo_moment (signed_parts demo_who demo_day (B "d1") s (B "b967e12b") demo_moment a) =
  B "HNHBK:1:3+000000000354+300+d1+2'HNVSK:998:3+PIN:1+998+1+1::sys1+1:20240331:102030+2:2:13:@8@" ++ repeat b_nul 8 ++
  B ":5:1+280:12345678:user:V:0:0+0'HNVSD:999:1+@193@HNSHK:2:4+PIN:1+999+b967e12b+1+1+1::sys1+0+1:20240331:102030+1:999:1+6:10:16+280:12345678:user:S:0:0'HKTAN:3:6+4+HKIDN'HKKAZ:4:5+42::280:12345678+N+20240302+20240101++m1'HNSHA:5:2+b967e12b++12''HNHBS:6:1+2'".
Proof.
  cbv zeta. split; [discriminate|]. split; [|split; [|split; [|split; [|split; [|split; [|split; [|split]]]]]]].
  - repeat (apply Forall_cons; [apply clean_rev; vm_compute; try exact I; split; discriminate|]). apply Forall_nil.
  - split; discriminate.
  - repeat (apply Forall_cons; [apply clean_rev; vm_compute; try exact I; split; discriminate|]). apply Forall_nil.
  - apply Forall_cons; [|apply Forall_nil]. vm_compute. repeat split; discriminate.
  - repeat (apply Forall_cons; [apply clean_rev; vm_compute; try exact I; split; discriminate|]). apply Forall_nil.
  - discriminate.
  - vm_compute. repeat split; discriminate.
  - vm_compute. repeat split; try discriminate; reflexivity.
  - vm_compute. reflexivity.
Qed.

Print Assumptions C56_signed_requests.
Print Assumptions C56_reference_differs.
Print Assumptions C56_clean_requests.
Print Assumptions C56_anonymous_requests.
Print Assumptions C56_no_pin_nothing_sent.
Print Assumptions C56_signing_succeeds.
Print Assumptions C56_pin_ending_refuted.
Print Assumptions C56_default_start_refuted.
