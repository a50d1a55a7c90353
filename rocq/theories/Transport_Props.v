(** * C38 and C49: the transport of a PIN/TAN dialog *)
From Coq Require Import Lia ZifyBool ZifyNat ZifyN.
From Verif Require Import Base BaseFacts Codec_Model Codec_Proofs Transport_Model Transport_Spec Transport_Proofs.
Open Scope Z_scope.

Lemma rfc_quanta data : quanta (rfc4648 data) data.
Proof. rewrite <- encode_rfc. apply encode_quanta. Qed.
Lemma read_wrapped cuts data w : broken_into_lines (rfc4648 data) w -> decoder_read_all cuts w = (data, true).
Proof.
  intros H. unfold decoder_read_all. rewrite (broken_strip _ _ H (quanta_no_newline _ _ (rfc_quanta data))).
  apply decode_reads_quanta, rfc_quanta.
Qed.

(** ** C38 *)

(** The middleware, for every transport below it, every way the request comes in
    pieces and every way the response is read: the transport is given the Base64
    form of the request; if it answers the Base64 form of data, broken into lines
    in any way, the caller reads these data. *)
Theorem C38_middleware : forall cuts (t : transport) url chunks w ok data,
  t url [rfc4648 (List.concat chunks)] = Ok (w, ok) -> broken_into_lines (rfc4648 data) w ->
  base64_encoding cuts t url chunks = Ok (data, ok).
Proof.
  intros cuts t url chunks w ok data Ht Hw. unfold base64_encoding. rewrite encoder_all, encode_rfc, Ht.
  cbn [obind fst snd]. rewrite (read_wrapped cuts data w Hw). reflexivity.
Qed.
Print Assumptions C38_middleware.

(** The whole transport of a dialog, over a configured transport or HTTPS. *)
Theorem C38_dialog : forall cuts (t : transport) s url request w data,
  t url [rfc4648 request] = Ok (w, true) -> broken_into_lines (rfc4648 data) w ->
  exchange (dialog_transport cuts (Some t) s) url request = Ok data.
Proof.
  intros cuts t s url request w data Ht Hw. unfold exchange, dialog_transport, logging.
  rewrite (C38_middleware cuts t url _ w true data); [reflexivity| |assumption].
  cbn [List.concat app]. now rewrite !app_nil_r.
Qed.
Print Assumptions C38_dialog.
Theorem C38_https : forall cuts s url request status w data,
  s url (rfc4648 request) = Ok (status, (w, true)) -> broken_into_lines (rfc4648 data) w ->
  exchange (dialog_transport cuts None s) url request = Ok data.
Proof.
  intros cuts s url request status w data Hs Hw.
  change (exchange (dialog_transport cuts (Some (https_do s)) s) url request = Ok data).
  apply C38_dialog with (w := w); [|assumption]. unfold https_do. cbn [List.concat]. rewrite app_nil_r, Hs. reflexivity.
Qed.
Print Assumptions C38_https.
(** The HTTPS transport that does Base64 itself. *)
Theorem C38_https_base64 : forall cuts s url chunks status w ok data,
  s url (rfc4648 (List.concat chunks)) = Ok (status, (w, ok)) ->
  https_base64_do cuts s url chunks =
    (if status =? 200 then let (x, good) := decoder_read_all cuts w in Ok (x, good && ok) else Ok (w, ok)) /\
  (status = 200 -> broken_into_lines (rfc4648 data) w -> https_base64_do cuts s url chunks = Ok (data, ok)).
Proof.
  intros cuts s url chunks status w ok data Hs. unfold https_base64_do. rewrite encoder_all, encode_rfc, Hs.
  cbn [obind fst snd]. split; [reflexivity|]. intros -> Hw. rewrite (read_wrapped cuts data w Hw). reflexivity.
Qed.
Print Assumptions C38_https_base64.

(** No answer is an error. *)
Theorem C38_no_answer : forall cuts (t : transport) s url request,
  t url [rfc4648 request] = Err -> exchange (dialog_transport cuts (Some t) s) url request = Err.
Proof.
  intros cuts t s url request Ht. unfold exchange, dialog_transport, logging, base64_encoding.
  rewrite encoder_all, encode_rfc. cbn [List.concat]. rewrite !app_nil_r, Ht. reflexivity.
Qed.
Print Assumptions C38_no_answer.

(** The middleware reads a body of the shape of Base64 without an error, and
    what it reads does not depend on how the reading is divided. *)
Theorem C38_shape : forall body,
  (exists data, decoder_read_all [] body = (data, true)) <->
  (exists t, broken_into_lines t body /\ base64_shape t).
Proof.
  intros body. unfold decoder_read_all. split.
  - intros [data H]. exists (strip_newlines body). split; [apply strip_broken|].
    apply quanta_shape with (x := data). revert H. cbn [decode_reads].
    set (s := strip_newlines body). destruct (Nat.ltb_spec (List.length s) 4) as [L|L].
    + destruct s; [|discriminate]. intros H. injection H as <-. constructor.
    + destruct (b64_decode (firstn (List.length s / 4 * 4) s)) as [d ok] eqn:E. intros H.
      assert (d = data) by congruence. subst d. destruct ok; [|discriminate].
      destruct (skipn (List.length s / 4 * 4) s) as [|c r] eqn:Es; [|discriminate].
      apply decode_quanta in E. rewrite <- (firstn_skipn (List.length s / 4 * 4) s), Es, app_nil_r. exact E.
  - intros (t&Hb&Hs). destruct (shape_quanta t Hs) as [x Hx]. exists x.
    rewrite (broken_strip _ _ Hb (quanta_no_newline _ _ Hx)). now apply decode_reads_quanta.
Qed.
Print Assumptions C38_shape.
Theorem C38_reading_in_pieces : forall body data cuts,
  decoder_read_all [] body = (data, true) -> decoder_read_all cuts body = (data, true).
Proof.
  intros body data cuts H. destruct (proj1 (C38_shape body)) as (t&Hb&Hs); [eauto|].
  destruct (shape_quanta t Hs) as [x Hx]. unfold decoder_read_all in *.
  rewrite (broken_strip _ _ Hb (quanta_no_newline _ _ Hx)) in *. rewrite (decode_reads_quanta [] t x Hx) in H.
  rewrite (decode_reads_quanta cuts t x Hx). congruence.
Qed.
Print Assumptions C38_reading_in_pieces.

Example C38_witness : forall url s,
  rfc4648 (B "Man") = B "TWFu" /\ rfc4648 (B "Ma") = B "TWE=" /\ rfc4648 (B "M") = B "TQ==" /\
  broken_into_lines (rfc4648 (B "Many hands")) (B "TWFueSBo" ++ [b_cr; b_lf] ++ B "YW5kcw==" ++ [b_lf]) /\
  exchange (dialog_transport [0; 3]%nat (Some (fun _ _ => Ok (B "TWFueSBo" ++ [b_cr; b_lf] ++ B "YW5kcw==" ++ [b_lf], true))) s) url (B "hello")
    = Ok (B "Many hands").
Proof.
  intros url s. split; [vm_compute; reflexivity|]. split; [vm_compute; reflexivity|]. split; [vm_compute; reflexivity|]. split.
  - assert (E : rfc4648 (B "Many hands") = strip_newlines (B "TWFueSBo" ++ [b_cr; b_lf] ++ B "YW5kcw==" ++ [b_lf])) by (vm_compute; reflexivity).
    rewrite E. apply strip_broken.
  - vm_compute. reflexivity.
Qed.

(** ** C49 *)
Lemma quanta_prefix : forall cuts m t x, quanta t x ->
  exists y, x = fst (decode_reads cuts (firstn m t)) ++ y.
Proof.
  assert (A : forall p, (List.length p < 4)%nat -> forall cuts, fst (decode_reads cuts p) = []).
  { intros p L [|k cuts]; cbn [decode_reads]; destruct (Nat.ltb_spec (List.length p) 4); [reflexivity|lia|reflexivity|lia]. }
  induction cuts as [|k cuts IH]; intros m t x H.
  - set (p := firstn m t). destruct (Nat.ltb_spec (List.length p) 4) as [L|L]; [exists x; now rewrite A|].
    cbn [decode_reads]. destruct (Nat.ltb_spec (List.length p) 4); [lia|].
    set (n := (List.length p / 4 * 4)%nat).
    assert (Lp : (List.length p <= List.length t)%nat) by (unfold p; rewrite firstn_length; lia).
    assert (Hm : (n <= m)%nat) by (unfold n, p; rewrite firstn_length; lia).
    assert (E : firstn n p = firstn (4 * (List.length p / 4)) t).
    { unfold p at 1. rewrite firstn_firstn. f_equal. fold p. unfold n in *. lia. }
    rewrite E. destruct (quanta_cut (List.length p / 4) t x H) as (y&z&Hy&_&->); [lia|].
    rewrite (quanta_decode _ _ Hy). exists z. reflexivity.
  - set (p := firstn m t). destruct (Nat.ltb_spec (List.length p) 4) as [L|L]; [exists x; now rewrite A|].
    cbn [decode_reads]. destruct (Nat.ltb_spec (List.length p) 4); [lia|].
    set (n := Nat.min (4 * S k) (List.length p / 4 * 4)).
    assert (Lp : (List.length p <= List.length t)%nat) by (unfold p; rewrite firstn_length; lia).
    assert (Lm : (List.length p <= m)%nat) by (unfold p; rewrite firstn_length; lia).
    assert (N : exists j, n = (4 * j)%nat) by (exists (Nat.min (S k) (List.length p / 4)); unfold n; lia).
    destruct N as [j Hj]. assert (Hn : (n <= List.length p)%nat) by (unfold n; lia).
    assert (E : firstn n p = firstn (4 * j) t).
    { unfold p. rewrite firstn_firstn. f_equal. lia. }
    assert (E2 : skipn n p = firstn (m - 4 * j) (skipn (4 * j) t)).
    { unfold p. rewrite skipn_firstn_comm. now rewrite Hj. }
    rewrite E, E2. destruct (quanta_cut j t x H) as (y&z&Hy&Hz&->); [lia|].
    rewrite (quanta_decode _ _ Hy). destruct (IH (m - 4 * j)%nat _ _ Hz) as [u Hu].
    destruct (decode_reads cuts (firstn (m - 4 * j) (skipn (4 * j) t))) as [d ok]. cbn [fst] in *.
    exists u. rewrite Hu. now rewrite app_assoc.
Qed.
Lemma broken_prefix : forall t w, broken_into_lines t w -> forall n, exists m, broken_into_lines (firstn m t) (firstn n w).
Proof.
  induction 1 as [|c t w _ IH|t w _ IH|t w _ IH]; intros n.
  - exists 0%nat. destruct n; constructor.
  - destruct n as [|n]; [exists 0%nat; constructor|]. destruct (IH n) as [m Hm]. exists (S m). cbn [firstn]. now constructor.
  - destruct n as [|n]; [exists 0%nat; constructor|]. destruct (IH n) as [m Hm]. exists m. cbn [firstn]. now constructor.
  - destruct n as [|n]; [exists 0%nat; constructor|]. destruct (IH n) as [m Hm]. exists m. cbn [firstn]. now constructor.
Qed.
Lemma Forall_firstn_ {A} (P : A -> Prop) n l : Forall P l -> Forall P (firstn n l).
Proof. intros H. revert n. induction H; intros [|n]; cbn [firstn]; constructor; auto. Qed.

(** Whatever body comes back, damaged or interrupted, the dialog goes on with
    some bytes and no error. *)
Theorem C49_damage_is_not_reported : forall cuts (t : transport) s url request w ok,
  t url [rfc4648 request] = Ok (w, ok) ->
  exists bytes, exchange (dialog_transport cuts (Some t) s) url request = Ok bytes.
Proof.
  intros cuts t s url request w ok Ht. unfold exchange, dialog_transport, logging, base64_encoding.
  rewrite encoder_all, encode_rfc. cbn [List.concat]. rewrite !app_nil_r, Ht. cbn [obind fst snd].
  destruct (decoder_read_all cuts w) as [x good]. cbn [obind fst snd]. eauto.
Qed.
Print Assumptions C49_damage_is_not_reported.

(** After an interruption these bytes are a beginning of what the bank sent. *)
Theorem C49_interrupted_prefix : forall cuts (t : transport) s url request w data n ok,
  broken_into_lines (rfc4648 data) w -> t url [rfc4648 request] = Ok (firstn n w, ok) ->
  exists beginning rest, exchange (dialog_transport cuts (Some t) s) url request = Ok beginning /\
    data = beginning ++ rest.
Proof.
  intros cuts t s url request w data n ok Hw Ht. unfold exchange, dialog_transport, logging, base64_encoding.
  rewrite encoder_all, encode_rfc. cbn [List.concat]. rewrite !app_nil_r, Ht. cbn [obind fst snd].
  destruct (broken_prefix _ _ Hw n) as [m Hm]. unfold decoder_read_all.
  rewrite (broken_strip _ _ Hm) by (apply Forall_firstn_; exact (quanta_no_newline _ _ (rfc_quanta data))).
  destruct (quanta_prefix cuts m _ _ (rfc_quanta data)) as [y Hy].
  destruct (decode_reads cuts (firstn m (rfc4648 data))) as [d good]. cbn [obind fst snd] in *. eauto.
Qed.
Print Assumptions C49_interrupted_prefix.

(** So a damaged answer is not noticed: the property one would expect is false. *)
Theorem C49_damage_reported_refuted : exists w, ~ (exists t, broken_into_lines t w /\ base64_shape t) /\
  forall cuts s url request, exchange (dialog_transport cuts (Some (fun _ _ => Ok (w, true))) s) url request <> Err.
Proof.
  exists (B "TWFu*"). split.
  - intros K. apply C38_shape in K. destruct K as [data K]. vm_compute in K. congruence.
  - intros cuts s url request K.
    destruct (C49_damage_is_not_reported cuts (fun _ _ => Ok (B "TWFu*", true)) s url request _ _ eq_refl) as [b Hb]. pose proof (eq_trans (eq_sym K) Hb). discriminate.
Qed.
Print Assumptions C49_damage_reported_refuted.
(** Nor is the status of the HTTP answer looked at. *)
Theorem C49_status_ignored : forall cuts s s' url request st st' b,
  s url (rfc4648 request) = Ok (st, b) -> s' url (rfc4648 request) = Ok (st', b) ->
  exchange (dialog_transport cuts None s) url request = exchange (dialog_transport cuts None s') url request.
Proof.
  intros cuts s s' url request st st' b H H'. unfold exchange, dialog_transport, logging, base64_encoding, https_do.
  rewrite encoder_all, encode_rfc. cbn [List.concat]. rewrite !app_nil_r, H, H'. reflexivity.
Qed.
Print Assumptions C49_status_ignored.

Example C49_witness : forall url,
  let page := B "Internal Server Error" in
  exchange (dialog_transport [] None (fun _ _ => Ok (500, (page, true)))) url (B "x") =
    Ok (map byte_of_Z [34; 123; 94; 174; 118; 165]) /\
  exchange (dialog_transport [] (Some (fun _ _ => Ok (B "TWFueSBoY", true))) (fun _ _ => Err)) url (B "x") = Ok (B "Many h") /\
  firstn 9 (rfc4648 (B "Many hands")) = B "TWFueSBoY".
Proof. intros url. cbv zeta. split; [vm_compute; reflexivity|]. split; vm_compute; reflexivity. Qed.
(** It is the logging and Base64 layers that hide the damage: over a bare transport the
    dialog's own reading fails exactly when the answer does not arrive completely. *)
Theorem C49_hidden_by_the_layers : forall (t : transport) url request r,
  exchange t url request = Ok r <-> t url [request] = Ok (r, true).
Proof.
  intros t url request r. unfold exchange. destruct (t url [request]) as [[w ok]| |]; cbn [obind fst snd]; try (split; discriminate).
  destruct ok; (split; intros H; [try discriminate; assert (w = r) by congruence; now subst|try discriminate; now inversion H]).
Qed.
Print Assumptions C49_hidden_by_the_layers.
