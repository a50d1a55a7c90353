From Verif Require Import Base BaseFacts Lexer_Model Lexer_Spec Lexer_Proofs Lexer_Facts
  Codec_Model Codec_Spec Codec_Proofs Codec_Props Wire_Model Wire_Spec Wire_Proofs
  Message_Model Message_Spec Message_Proofs Message_Facts
  Dialog_Model Dialog_Spec Dialog_Proofs Dialog_Facts Dialog_Facts2 Dialog_Facts3 Seg_Model Seg_Spec Seg_Facts Seg_Facts2 Seg_Facts3 Seg_Facts4 Seg_Facts5 Seg_Props Seg_Props2
  Merge_Model Client_Model Client_Spec Client_Proofs Client_Facts Client_Props Time_Model
  Request_Model Request_Spec Request_Facts Request_Facts2 Request_Facts3 Request_Facts4 Request_Props
  Answer_Spec Answer_Facts Answer_Facts2 Answer_Props Stack_Spec.
From Coq Require Import Lia ZifyBool ZifyNat ZifyN.
Open Scope Z_scope.

(** ** What the dialog finds in a friendly letter *)
Lemma in_seg {F} l id (o : oseg (Seg_Model.account_information F)) :
  In o (letter_segs l id) -> exists p, In p (lt_pieces l) /\ info_id (pc_info p) = id /\ piece_value p = Some o.
Proof.
  unfold letter_segs. rewrite in_flat_map. intros (p&Hp&H). exists p. split; [exact Hp|].
  destruct (list_eq_dec byte_eq_dec (info_id (pc_info p)) id) as [E|E]; [|destruct H].
  split; [exact E|]. destruct (piece_value p) as [o'|]; [|destruct H]. destruct H as [->|[]]. reflexivity.
Qed.
Lemma notices_in (l : letter) a : In a (letter_acks l) ->
  exists fm msg seg n, In n (letter_notices l) /\ a = notice_value fm msg seg n.
Proof.
  unfold letter_acks, letter_notices. intros H. apply in_app_or in H. destruct H as [H|H].
  - revert H. generalize (reply_value l). intros r. induction (lt_pieces l) as [|p ps IH]; [intros []|]. cbn [message_notices flat_map].
    intros H. destruct p as [pos ref i]. cbn [pc_info pc_ref] in *. destruct i; cbn [notices];
      try (destruct (IH H) as (fm&msg&seg&n&K1&K2); exists fm, msg, seg, n; split; [apply in_or_app; now right|exact K2]).
    apply in_map_iff in H. destruct H as (n&H1&H2). do 3 eexists. exists n. split; [apply in_or_app; now left|symmetry; exact H1].
  - unfold segment_notices in H. apply in_flat_map in H. destruct H as (p&Hp&H). destruct p as [pos ref i]. cbn [pc_info pc_ref] in *.
    destruct i; try destruct H. apply in_map_iff in H. destruct H as (n&H1&H2). do 3 eexists. exists n. split; [|symmetry; exact H1].
    apply in_flat_map. eexists. split; [exact Hp|]. exact H2.
Qed.
Lemma functions_seg {F} ps (t : oseg (Seg_Model.account_information F)) r :
  flat_map (fun p => if list_eq_dec byte_eq_dec (info_id (pc_info p)) (B "HITANS")
                     then match piece_value p with Some o => [o] | None => [] end else []) ps = t :: r ->
  exists fs, functions_of ps = Some fs /\ t = OTans (Ok (map escaped fs)).
Proof.
  induction ps as [|p ps IH]; [discriminate|]. cbn [flat_map functions_of]. destruct p as [pos ref i]. cbn [pc_info].
  destruct (list_eq_dec byte_eq_dec (info_id i) (B "HITANS")) as [E|E].
  - destruct i; try discriminate E; try (destruct k; discriminate E); cbn [piece_value pc_info]; [|exact IH].
    intros H. cbn [app] in H. exists (map ti_function l). split; [reflexivity|].
    assert (K : t = OTans (Ok (map (fun t => escaped (ti_function t)) l))) by congruence. rewrite K, map_map. reflexivity.
  - destruct i; try exact IH. now destruct E.
Qed.
Lemma digits_stay f : forallb is_digit f = true -> utf8 (escaped f) = f.
Proof.
  intros H. assert (E : escaped f = f).
  { induction f as [|c f IH]; [reflexivity|]. cbn [forallb] in H. apply Bool.andb_true_iff in H. destruct H as [Hc H].
    specialize (IH H). rewrite !escaped_eq in *. change (escape (c :: f)) with ((if is_syntax c then [b_qmark; c] else [c]) ++ escape f). rewrite IH.
    destruct (is_syntax c) eqn:Es; [|reflexivity]. exfalso. unfold is_syntax in Es. unfold is_digit in Hc.
    repeat (apply Bool.orb_true_iff in Es; destruct Es as [Es|Es]); apply beq_true in Es; subst c; discriminate Hc. }
  rewrite E, utf8_eq. apply to_utf8_ascii. unfold ascii. rewrite forallb_forall in *. intros c Hc. specialize (H c Hc).
  unfold is_digit in H. lia.
Qed.

Section Stack.
  Context {F : Type} (parse_float : bytes -> option F) (neg : F -> F) (value : N -> bytes -> F).
  Hypothesis Hfloat : reads_decimals parse_float value.
  Notation Acc := (Seg_Model.account_information F).
  Notation J := (Client_Model.job args).
  Variables (x : who) (pin : bytes).
  Variable render : seg -> bytes.
  Variable today : list (entry J) -> date.
  Variable signed_at enveloped_at : list (entry J) -> date * tod.
  Variable letters : list (entry J) -> letter.
  Variable pick : list (entry J) -> nat.
  Variable orders : list order.
  Variable wanted : list (bytes * list Z).
  Hypothesis Hbank : wh_bank x <> [].
  Hypothesis Hx : Forall clean_text (who_texts x).
  Hypothesis Hpin : pin <> [] /\ clean_text pin.
  Hypothesis Hclock : forall h, real_date (today h) /\ 1 <= d_year (today h) /\ real_moment (signed_at h) /\ real_moment (enveloped_at h).
  Hypothesis Hhelp : helpful letters.
  Hypothesis Hserves : forall id vs, In (id, vs) wanted -> serves letters id vs.
  Hypothesis Horders : Forall order_ok orders.

  Notation sign_ok := (request_sign render (settings_for x) today signed_at).
  Notation compose := (request_bytes render (settings_for x) today signed_at enveloped_at).
  Notation bank := (post letters).
  Notation oth := (others parse_float neg).
  Notation world := (@world J Acc).
  Notation act := (@act J Acc).
  Notation reply := (bank_message (oseg Acc)).
  Notation exchange := (exchange sign_ok compose bank oth).

  (** ** The invariant *)
  Definition text_ok (b : bytes) : Prop := exists t, b = utf8 t /\ clean_text t.
  Definition good (p : provider) : Prop := exists s, p = provider_for s /\ Forall clean_text (secret_texts s) /\ sc_pin s = pin.
  Definition ordered (a : ask) : Prop := forall w mark, a = QJob w mark -> exists o v mark', In o orders /\ order_wish o v = Some (w, mark').
  Definition sent_ok (h : list (entry J)) (e : entry J) : Prop := exists dialog number a s c,
    fst e = mkRq (kind_for dialog a) (utf8 dialog) number (Some (provider_for s)) (Some (provider_for c)) /\
    sc_pin s = pin /\ sc_pin c = pin /\ ordered a /\
    (len (snd e) < 10 ^ 12 ->
     snd e = enveloped_message x dialog number (len (snd e)) c (enveloped_at h)
               (signed_parts x (today h) dialog s (control_reference (settings_for x)) (signed_at h) a)).
  Definition offering (d : dstate Acc) : Prop := forall id vs, In (id, vs) wanted -> exists v, In v vs /\ In (id, v) (d_supported d).
  Definition healthy (b : bool) (w : world) : Prop :=
    text_ok (d_system (w_d w)) /\ text_ok (d_client (w_d w)) /\ text_ok (d_dialog (w_d w)) /\
    good (d_sig (w_d w)) /\ good (d_crypt (w_d w)) /\
    (b = true \/ d_bpd_version (w_d w) <> 0 -> offering (w_d w)) /\
    (forall h e r, w_sent w = h ++ e :: r -> sent_ok h e).
  Definition fine {A} (b : bool) (m : act A) (w : world) (Q : A -> Prop) : Prop :=
    exists w' a, m w = (w', Ok a) /\ healthy b w' /\ Q a.
  Lemma fine_bind {A C} b b' (m : act A) (k : A -> act C) w Q R :
    fine b m w Q -> (forall a w1, healthy b w1 -> Q a -> fine b' (k a) w1 R) -> fine b' (bind m k) w R.
  Proof.
    intros (w1&a&E&Hw&Ha) Hk. destruct (Hk a w1 Hw Ha) as (w2&c&E2&H2&Hc). exists w2, c. split; [|auto].
    unfold bind. rewrite E. exact E2.
  Qed.
  Lemma fine_ret {A} b (a : A) w (Q : A -> Prop) : healthy b w -> Q a -> fine b (ret a) w Q.
  Proof. intros H K. exists w, a. auto. Qed.
  Lemma fine_weaken {A} b (m : act A) w (Q R : A -> Prop) : fine b m w Q -> (forall a, Q a -> R a) -> fine b m w R.
  Proof. intros (w1&a&E&H&K) I. exists w1, a. auto. Qed.
  Lemma fine_deferred {A} b (m : act A) (c : act unit) w (Q : A -> Prop) :
    fine b m w Q -> (forall w1, healthy b w1 -> fine b c w1 (fun _ => True)) -> fine b (deferred m c) w Q.
  Proof.
    intros (w1&a&E&Hw&Ha) Hk. destruct (Hk w1 Hw) as (w2&u&E2&H2&_). exists w2, a. split; [|auto].
    unfold deferred. rewrite E, E2. reflexivity.
  Qed.

  Lemma letter_text s : ascii s = true -> utf8 s = s.
  Proof. intros H. rewrite utf8_eq. now apply to_utf8_ascii. Qed.
  Lemma zero_ok : text_ok (B "0").
  Proof. exists (B "0"). split; [reflexivity|]. apply clean_rev. vm_compute. split; discriminate. Qed.
  Lemma good_system p t : good p -> clean_text t -> good (pv_set_system (utf8 t) p).
  Proof.
    intros (s&->&Hs&Hp) Ht. exists (mkSecret (sc_pin s) t (sc_function s)). split; [reflexivity|]. split; [|exact Hp].
    unfold secret_texts in *. cbn [sc_pin sc_system sc_function]. inversion Hs as [|? ? H1 H2]; subst. inversion H2 as [|? ? H3 H4]; subst.
    apply Forall_cons; [exact H1|]. apply Forall_cons; [exact Ht|exact H4].
  Qed.
  Lemma good_fn p t : good p -> clean_text t -> good (pv_set_fn (utf8 t) p).
  Proof.
    intros (s&->&Hs&Hp) Ht. exists (mkSecret (sc_pin s) (sc_system s) t). split; [reflexivity|]. split; [|exact Hp].
    unfold secret_texts in *. cbn [sc_pin sc_system sc_function]. inversion Hs as [|? ? H1 H2]; subst. inversion H2 as [|? ? H3 H4]; subst.
    apply Forall_cons; [exact H1|]. apply Forall_cons; [exact H3|]. apply Forall_cons; [exact Ht|apply Forall_nil].
  Qed.

  (** ** What is read *)
  (** [m] is what is read of a letter of this bank. *)
  Definition heard (m : reply) (l : letter) : Prop :=
    read_response oth (letter_wire l) = Ok m /\ friendly l /\
    (forall id vs, In (id, vs) wanted -> tells_parameters l -> exists v, In v vs /\ In (id, v) (letter_offers l)).
  Lemma heard_facts m l : heard m l ->
    mh_dialog (bm_header m) = Some (utf8 (lt_dialog l)) /\ bm_acks m = letter_acks l /\
    (forall id, ~ In id [B "HIRMG"; B "HIRMS"; B "HNHBK"; B "HNHBS"] -> segs m id = letter_segs l id) /\
    supported_segments m = letter_offers l /\ bm_raw m = letter_raw l.
  Proof.
    intros (Hm&(Hok&_)&_). destruct (C57_message_delivered parse_float neg value Hfloat l Hok) as (m'&Hm'&_&H1&_&_&H2&H3&H4&H5).
    assert (m' = m) by congruence. subst m'. auto.
  Qed.
  Ltac no_id := intros K; cbn in K; repeat (destruct K as [K|K]; [discriminate|]); exact K.
  Lemma heard_no_error m l : heard m l -> ~ has_error m.
  Proof.
    intros H (a&Ha&Hc). destruct (heard_facts m l H) as (_&Ea&_). rewrite Ea in Ha. destruct (notices_in l a Ha) as (fm&msg&sg&n&Hn&->).
    destruct H as (_&(_&Hf&_)&_). rewrite Forall_forall in Hf. specialize (Hf n Hn). cbn [notice_value ack_code] in Hc. lia.
  Qed.
  Lemma fail_fine b m l w : heard m l -> healthy b w -> fine b (fail_on_error_acks m) w (fun _ => True).
  Proof.
    intros H Hw. assert (E : existsb is_err (bm_acks m) = false).
    { destruct (existsb is_err (bm_acks m)) eqn:E; [|reflexivity]. exfalso. apply (heard_no_error m l H). now apply has_error_spec. }
    unfold fail_on_error_acks. rewrite E. exists w, tt. auto.
  Qed.
  Lemma take_fine b m l w : heard m l -> healthy b w -> fine b (take_dialog_id m) w (fun _ => True).
  Proof.
    intros H Hw. destruct (heard_facts m l H) as (Ed&_). unfold take_dialog_id. rewrite Ed. eexists _, tt. split; [reflexivity|]. split; [|exact I].
    destruct Hw as (H1&H2&H3&H4&H5&H6&H7). unfold healthy. cbn [w_d w_sent upd_dialog d_system d_client d_dialog d_sig d_crypt d_bpd_version d_supported].
    split; [exact H1|]. split; [exact H2|]. split; [|auto]. exists (lt_dialog l). split; [reflexivity|].
    destruct H as (_&(_&_&Hc&_)&_). inversion Hc; assumption.
  Qed.
  Lemma in_returned l p t : friendly l -> In p (lt_pieces l) -> In t (returned_texts (pc_info p)) -> clean_text t.
  Proof.
    intros (_&_&Hc&_) Hp Ht. inversion Hc as [|? ? _ Hc']; subst. rewrite Forall_forall in Hc'. apply Hc'. apply in_flat_map. eauto.
  Qed.
  Lemma notice_returned l n t : friendly l -> In n (letter_notices l) -> nt_code n = 3920 \/ nt_code n = 3040 -> In t (nt_params n) -> clean_text t.
  Proof.
    intros H Hn Hc Ht. apply in_flat_map in Hn. destruct Hn as (p&Hp&Hn). apply (in_returned l p t H Hp). destruct (pc_info p); try destruct Hn;
      cbn [notices returned_texts] in *; apply in_flat_map; exists n; (split; [exact Hn|]);
      (replace ((nt_code n =? 3920) || (nt_code n =? 3040))%bool with true by lia); exact Ht.
  Qed.
  Lemma clean_escaped t : clean_text t -> clean_text (escaped t).
  Proof. intros [H1 H2]. split; intros K; apply (proj1 (escaped_ends _ _)) in K; auto. Qed.
  Lemma function_heard m l : heard m l -> function_available m.
  Proof.
    intros H. destruct (heard_facts m l H) as (_&Ea&Es&_). destruct H as (_&Hf&_). unfold function_available.
    specialize (Es (B "HITANS") ltac:(no_id)). destruct (segs m (B "HITANS")) as [|t r] eqn:Et; [now left|right].
    symmetry in Es. destruct (functions_seg _ t r Es) as (fs&Hfs&->).
    destruct (find is_3920 (bm_acks m)) as [a|] eqn:Ef.
    - right. apply find_split in Ef. destruct Ef as (p&q&E1&E2&E3). unfold is_3920 in *.
      assert (Ha : In a (letter_acks l)) by (rewrite <- Ea, E1; apply in_or_app; right; now left).
      destruct (notices_in l a Ha) as (fm&msg&sg&n&Hn&->). cbn [notice_value ack_code] in E2.
      destruct Hf as (_&_&_&_&_&Hf). specialize (Hf fs Hfs). rewrite Forall_forall in Hf.
      destruct (Hf n Hn ltac:(lia)) as (f&F1&F2&F3).
      exists (notice_value fm msg sg n), (map escaped fs), r, f, p, q. split; [exact E1|]. split; [cbn [notice_value ack_code]; lia|].
      split; [intros y Hy; specialize (E3 y Hy); cbn beta in E3; lia|]. split; [reflexivity|]. rewrite <- (digits_stay f F3). split.
      + cbn [notice_value ack_params]. apply (in_map (fun p => utf8 (escaped p)) _ f F1).
      + assert (K : escaped f = utf8 (escaped f)).
        { rewrite (digits_stay f F3). pose proof (digits_stay f F3) as D. apply utf8_inj_B in D; [exact D|]. unfold ascii. rewrite forallb_forall in F3 |- *.
          intros c Hc. specialize (F3 c Hc). unfold is_digit in F3. lia. }
        rewrite <- K. now apply in_map.
    - left. intros a Ha Hc. pose proof (find_none _ _ Ef a Ha) as K. unfold is_3920 in K. lia.
  Qed.
  Lemma offers_heard m l f : heard m l -> offers m f -> text_ok f.
  Proof.
    intros H (a&fs&rest&Ha&Hc&Hf&_). destruct (heard_facts m l H) as (_&Ea&_). rewrite Ea in Ha.
    destruct (notices_in l a Ha) as (fm&msg&sg&n&Hn&->). cbn [notice_value ack_code ack_params] in *. apply in_map_iff in Hf.
    destruct Hf as (t&<-&Ht). exists (escaped t). split; [reflexivity|]. apply clean_escaped. destruct H as (_&Hf&_).
    apply (notice_returned l n t Hf Hn); auto.
  Qed.
  Lemma update_fine b m l w : heard m l -> healthy b w -> fine b (update_security_function pick m) w (fun _ => True).
  Proof.
    intros H Hw. assert (K : is_ok (snd (update_security_function pick m w))).
    { apply (update_ok oth). exact (function_heard m l H). }
    destruct K as [[] K]. destruct (update_security_function pick m w) as [w' o] eqn:E. cbn in K. subst o. exists w', tt. split; [exact E|]. split; [|exact I].
    destruct (update_choice oth pick m w) as [U|(f&U1&U2)].
    - rewrite E in U. cbn in U. now subst w'.
    - rewrite E in U2. injection U2 as ->. destruct (offers_heard m l f H U1) as (t&->&Ht).
      destruct Hw as (H1&H2&H3&H4&H5&H6&H7). unfold healthy. cbn.
      split; [exact H1|]. split; [exact H2|]. split; [exact H3|]. split; [now apply good_fn|]. split; [now apply good_fn|]. auto.
  Qed.
  Lemma bpd_fine b m l w : heard m l -> healthy b w -> fine b (parse_bpd m) w (fun _ => True) /\
    (tells_parameters l -> fine true (parse_bpd m) w (fun _ => True)).
  Proof.
    intros H Hw. destruct (heard_facts m l H) as (_&_&Es&Eo&_). unfold parse_bpd. rewrite !find_seg_eq.
    pose proof (Es (B "HIBPA") ltac:(no_id)) as E1. pose proof (Es (B "HIPINS") ltac:(no_id)) as E2.
    destruct (segs m (B "HIBPA")) as [|s r] eqn:E3.
    - split; [apply fine_ret; auto|]. intros (p&v&bi&Hp&Hi). exfalso.
      assert (K : In (OBpd (Ok (bi_version bi))) (@letter_segs F l (B "HIBPA"))).
      { unfold letter_segs. apply in_flat_map. exists p. split; [exact Hp|]. unfold piece_value. rewrite Hi.
        change (info_id (IBank v bi)) with (B "HIBPA"). destruct (list_eq_dec byte_eq_dec (B "HIBPA") (B "HIBPA")) as [_|N]; [now left|now destruct N]. }
      rewrite <- E1 in K. exact K.
    - destruct (in_seg l (B "HIBPA") s ltac:(rewrite <- E1; now left)) as (p&Hp&Hi&Hv).
      assert (Ht : tells_parameters l /\ exists bi, s = OBpd (Ok (bi_version bi))).
      { destruct p as [pos ref i]. cbn [pc_info] in Hi. destruct i; try discriminate Hi; try (destruct k; discriminate Hi); try discriminate Hv. injection Hv as <-.
        split; [|now eexists]. eexists _, _, _. split; [exact Hp|reflexivity]. }
      destruct Ht as [Ht [bi ->]].
      assert (Hw1 : healthy true (mkW (upd_bpd (bi_version bi) (upd_supported (supported_segments m) (w_d w))) (w_sent w))).
      { destruct Hw as (H1&H2&H3&H4&H5&H6&H7). unfold healthy. cbn. split; [exact H1|]. split; [exact H2|]. split; [exact H3|].
        split; [exact H4|]. split; [exact H5|]. split; [|exact H7]. intros _ id vs Hin. cbn. rewrite Eo. apply H; assumption. }
      assert (Hp2 : fine true (match match segs m (B "HIPINS") with [] => None | s :: _ => Some s end with
                               | None => ret tt | Some (OPins t) => lift t | Some _ => lift Panic end)
                      (mkW (upd_bpd (bi_version bi) (upd_supported (supported_segments m) (w_d w))) (w_sent w)) (fun _ => True)).
      { destruct (segs m (B "HIPINS")) as [|s' r'] eqn:E4; [now apply fine_ret|].
        destruct (in_seg l (B "HIPINS") s' ltac:(rewrite <- E2; now left)) as (p'&Hp'&Hi'&Hv').
        destruct p' as [pos ref i]. cbn [pc_info] in Hi'. destruct i; try discriminate Hi'; try (destruct k; discriminate Hi'); try discriminate Hv'. injection Hv' as <-.
        eexists _, tt. split; [reflexivity|]. auto. }
      destruct Hp2 as (w2&[]&E5&H5&_).
      assert (G : bind (modify (upd_supported (supported_segments m))) (fun _ => bind (lift (Ok (bi_version bi))) (fun v =>
                   bind (modify (upd_bpd v)) (fun _ => match match segs m (B "HIPINS") with [] => None | s :: _ => Some s end with
                     | None => ret tt | Some (OPins t) => lift t | Some _ => lift Panic end))) w = (w2, Ok tt)).
      { rewrite <- E5. reflexivity. }
      split; [|intros _]; exists w2, tt; (split; [exact G|]); (split; [|exact I]); [|exact H5].
      destruct H5 as (H1&H2&H3&H4&H6&H7&H8). repeat (split; [assumption|]). split; [|exact H8]. intros _. apply H7. now left.
  Qed.
  Lemma news_fine b m l w : heard m l -> healthy b w -> fine b (log_news m) w (fun _ => True).
  Proof.
    intros H Hw. assert (K : is_ok (snd (log_news m w))).
    { apply news_ok. intros s r Es0. destruct (heard_facts m l H) as (_&_&Es&_). pose proof (Es (B "HIKIM") ltac:(no_id)) as E1.
      rewrite Es0 in E1. destruct (in_seg l (B "HIKIM") s ltac:(rewrite <- E1; now left)) as (p&Hp&Hi&Hv).
      destruct H as (_&(_&_&_&_&Hn&_)&_). rewrite Forall_forall in Hn. specialize (Hn p Hp).
      destruct p as [pos ref i]. cbn [pc_info] in *. destruct i; try discriminate Hi; try discriminate Hv. destruct k; try discriminate Hi.
      cbn [piece_value pc_info kept_value] in Hv. injection Hv as <-. destruct Hn as [N1 N2]. destruct subject; [congruence|]. destruct body; [congruence|].
      cbn [is_nil orb]. now eexists. }
    assert (Q : fst (log_news m w) = w) by (unfold log_news; destruct (find_seg m _) as [[]|]; reflexivity).
    destruct K as [[] K]. exists w, tt. split; [|auto]. destruct (log_news m w); cbn in *; congruence.
  Qed.
  Lemma accounts_fine b l : forall w, healthy b w -> Forall (fun s => exists a, s = OAccount (Ok a)) l -> fine b (add_accounts l) w (fun _ => True).
  Proof.
    induction l as [|s r IH]; intros w Hw Hl; [now apply fine_ret|]. inversion Hl as [|? ? [a ->] Hr]; subst.
    cbn [add_accounts]. apply (fine_bind b b _ _ w (fun y => y = a)); [exists w, a; auto|]. intros a' w1 H1 ->.
    apply (fine_bind b b _ _ w1 (fun _ => True)); [|intros _ w2 H2 _; now apply IH].
    eexists _, tt. split; [reflexivity|]. split; [exact H1|exact I].
  Qed.
  Lemma upd_fine b m l w : heard m l -> healthy b w -> fine b (parse_upd m) w (fun _ => True).
  Proof.
    intros H Hw. destruct (heard_facts m l H) as (_&_&Es&_). unfold parse_upd. rewrite find_seg_eq, seg_eq.
    pose proof (Es (B "HIUPA") ltac:(no_id)) as E1. pose proof (Es (B "HIUPD") ltac:(no_id)) as E2.
    apply (fine_bind b b _ _ w (fun _ => True)).
    - destruct (segs m (B "HIUPA")) as [|s r] eqn:E3; [now apply fine_ret|].
      destruct (in_seg l (B "HIUPA") s ltac:(rewrite <- E1; now left)) as (p&Hp&Hi&Hv).
      destruct p as [pos ref i]. cbn [pc_info] in Hi. destruct i; try discriminate Hi; try (destruct k; discriminate Hi); try discriminate Hv. injection Hv as <-.
      eexists _, tt. split; [reflexivity|]. split; [|exact I].
      destruct Hw as (H1&H2&H3&H4&H5&H6&H7). unfold healthy. cbn. split; [exact H1|]. split; [|auto]. exists (ui_user u). split; [reflexivity|].
      destruct H as (_&Hf&_). apply (in_returned l _ _ Hf Hp). now left.
    - intros _ w1 H1 _. apply accounts_fine; [exact H1|]. rewrite E2. apply Forall_forall. intros s Hs.
      destruct (in_seg l (B "HIUPD") s Hs) as (p&Hp&Hi&Hv). destruct p as [pos ref i]. cbn [pc_info] in Hi.
      destruct i; try discriminate Hi; try (destruct k; discriminate Hi); try discriminate Hv. injection Hv as <-. now eexists.
  Qed.
  Lemma system_fine b m l w : heard m l -> tells_system l -> healthy b w ->
    fine b (match find_seg m (B "HISYN") with
            | None => lift Err
            | Some (OSync s) => bind (lift s) (fun s => set_client_system s)
            | Some _ => lift Panic
            end) w (fun _ => True).
  Proof.
    intros H (p0&v0&s0&m0&g0&Hp0&Hi0) Hw. destruct (heard_facts m l H) as (_&_&Es&_). rewrite find_seg_eq.
    pose proof (Es (B "HISYN") ltac:(no_id)) as E1. destruct (segs m (B "HISYN")) as [|s r] eqn:E3.
    - exfalso. assert (K : In (OSync (Ok (utf8 s0))) (@letter_segs F l (B "HISYN"))).
      { unfold letter_segs. apply in_flat_map. exists p0. split; [exact Hp0|]. unfold piece_value. rewrite Hi0.
        change (info_id (ISync v0 s0 m0 g0)) with (B "HISYN"). destruct (list_eq_dec byte_eq_dec (B "HISYN") (B "HISYN")) as [_|N]; [now left|now destruct N]. }
      rewrite <- E1 in K. exact K.
    - destruct (in_seg l (B "HISYN") s ltac:(rewrite <- E1; now left)) as (p&Hp&Hi&Hv).
      destruct p as [pos ref i]. cbn [pc_info] in Hi. destruct i; try discriminate Hi; try (destruct k; discriminate Hi); try discriminate Hv. injection Hv as <-.
      eexists _, tt. split; [reflexivity|]. split; [|exact I].
      assert (Hs : clean_text system). { destruct H as (_&Hf&_). apply (in_returned l _ _ Hf Hp). now left. }
      destruct Hw as (H1&H2&H3&H4&H5&H6&H7). unfold healthy. cbn. split; [exists system; auto|]. split; [exact H2|]. split; [exact H3|].
      split; [now apply good_system|]. split; [now apply good_system|]. auto.
  Qed.

  (** ** Sending *)
  Definition fit (t : bytes) (a : ask) : Prop :=
    ask_ok a /\ Forall clean_text (ask_texts t a) /\ Forall real_date (ask_dates a) /\ ordered a.
  Lemma who_fine : who_ok x.
  Proof. split; [exact Hbank|]. unfold who_texts in Hx. inversion Hx as [|? ? [K _] _]; subst. exact K. Qed.
  Lemma composing h t a number s c : fit t a ->
    Forall clean_text (secret_texts s) -> Forall clean_text (secret_texts c) -> sc_pin s = pin -> sc_pin c = pin ->
    let q := mkRq (kind_for t a) (utf8 t) number (Some (provider_for s)) (Some (provider_for c)) in
    exists bs, composed sign_ok compose h q bs /\ sent_ok h (q, bs).
  Proof.
    intros (Ha&Ht&Hd&Ho) Hs Hc Ps Pc q. destruct (Hclock h) as (C1&C2&C3&C4). pose proof (hex_word_reference (settings_for x)) as Hr.
    assert (T : Forall tidy (signed_parts x (today h) t s (control_reference (settings_for x)) (signed_at h) a)).
    { unfold signed_parts. apply Forall_cons; [apply clean_tidy; now apply clean_sig_header|]. apply Forall_app. split.
      - eapply Forall_impl; [exact clean_tidy|]. now apply clean_body.
      - apply Forall_cons; [apply clean_tidy; now apply clean_sig_end|apply Forall_nil]. }
    destruct (enveloped_bytes render x today signed_at enveloped_at who_fine h t number a s c Ha C1 ltac:(rewrite Pc; apply Hpin) T
                ltac:(apply clean_tidy; now apply clean_envelope)) as (bs&Eb&Hl).
    exists bs. split.
    - split; [intros _|exact Eb]. unfold unsealed, q. cbn [rq_kind rq_dialog rq_number rq_sig]. apply (C56_signing_succeeds render today signed_at enveloped_at); [exact who_fine|assumption..].
    - exists t, number, a, s, c. auto.
  Qed.
  Lemma heard_at h e m : read_response oth (letter_wire (letters (h ++ [e]))) = Ok m -> heard m (letters (h ++ [e])).
  Proof.
    intros H. split; [exact H|]. split; [apply Hhelp|]. intros id vs Hin Ht. exact (Hserves id vs Hin h e Ht).
  Qed.
  Lemma heard_some h e : exists m, read_response oth (letter_wire (letters (h ++ [e]))) = Ok m.
  Proof.
    destruct (Hhelp h e) as [[Hok _] _]. destruct (C57_message_delivered parse_float neg value Hfloat _ Hok) as (m&Hm&_). now exists m.
  Qed.
  Lemma sent_snoc (l : list (entry J)) e : (forall h e' r, l = h ++ e' :: r -> sent_ok h e') -> sent_ok l e ->
    forall h e' r, l ++ [e] = h ++ e' :: r -> sent_ok h e'.
  Proof.
    intros H1 H2 h e' r E. destruct r as [|z r] using rev_ind.
    - apply app_inj_tail in E. destruct E as [-> ->]. exact H2.
    - rewrite app_comm_cons, app_assoc in E. apply app_inj_tail in E. destruct E as [E _]. exact (H1 h e' r E).
  Qed.
  Definition asking (k : dstate Acc -> kind J) (d : dstate Acc) : Prop :=
    forall t, d_dialog d = utf8 t -> clean_text t -> exists a, k (counted d) = kind_for t a /\ fit t a.
  Definition answer_to (P : kind J -> Prop) (m : reply) : Prop := exists h e, P (kind_of e) /\ heard m (letters (h ++ [e])).
  Lemma exchange_fine b k w : healthy b w -> asking k (w_d w) ->
    fine b (exchange k) w (answer_to (fun z => z = k (counted (w_d w)))).
  Proof.
    intros Hw Ha. pose proof Hw as (H1&H2&(t&Et&Ct)&(s&Es&Cs&Ps)&(c&Ec&Cc&Pc)&H6&H7). destruct (Ha t Et Ct) as (a&Ea&Hf).
    destruct (composing (w_sent w) t a (d_count (w_d w) + 1) s c Hf Cs Cc Ps Pc) as (bs&Hb&Hs).
    assert (Eq : req k (w_d w) = mkRq (kind_for t a) (utf8 t) (d_count (w_d w) + 1) (Some (provider_for s)) (Some (provider_for c))).
    { unfold req. now rewrite Ea, Et, Es, Ec. }
    destruct (exchange_cases sign_ok compose bank oth k w) as [[N _]|(bs'&Hb'&E)].
    - exfalso. apply N. exists bs. rewrite Eq. exact Hb.
    - rewrite Eq in Hb'. assert (bs' = bs) by (destruct Hb as [_ Q1], Hb' as [_ Q2]; congruence). subst bs'.
      set (e := (req k (w_d w), bs)) in *. destruct (heard_some (w_sent w) e) as (m&Hm).
      eexists _, m. split; [refine (eq_trans E (f_equal2 pair eq_refl _)); exact Hm|]. split.
      + unfold healthy. cbn [w_d w_sent counted upd_count d_system d_client d_dialog d_sig d_crypt d_bpd_version d_supported].
        split; [exact H1|]. split; [exact H2|]. split; [now exists t|]. split; [now exists s|]. split; [now exists c|].
        split; [exact H6|]. apply sent_snoc; [exact H7|]. unfold e. rewrite Eq. exact Hs.
      + exists (w_sent w), e. split; [reflexivity|]. now apply heard_at.
  Qed.
  Lemma sync_exchange_fine b w : healthy b w ->
    fine b (sync_exchange sign_ok compose bank oth) w (answer_to (fun z => exists c, z = KSync c)).
  Proof.
    intros Hw. pose proof Hw as (H1&(cl&Ecl&Ccl)&(t&Et&Ct)&(s&Es&Cs&Ps)&Hc&H6&H7).
    pose proof (good_system _ (B "0") Hc ltac:(apply clean_rev; vm_compute; split; discriminate)) as (c&Ec&Cc&Pc).
    change (utf8 (B "0")) with (B "0") in Ec.
    assert (Hf : fit t (QSync cl)).
    { split; [exact I|]. split; [apply Forall_cons; [exact Ccl|apply Forall_nil]|]. split; [apply Forall_nil|]. intros ? ? K. discriminate K. }
    destruct (composing (w_sent w) t (QSync cl) (d_count (w_d w) + 1) s c Hf Cs Cc Ps Pc) as (bs&Hb&Hs).
    assert (Eq : sync_request (w_d w) = mkRq (kind_for t (QSync cl)) (utf8 t) (d_count (w_d w) + 1) (Some (provider_for s)) (Some (provider_for c))).
    { unfold sync_request. cbn [kind_for]. now rewrite Ecl, Et, Es, Ec. }
    destruct (sync_exchange_cases sign_ok compose bank oth w) as [[N _]|(bs'&Hb'&E)].
    - exfalso. apply N. exists bs. rewrite Eq. exact Hb.
    - rewrite Eq in Hb'. assert (bs' = bs) by (destruct Hb as [_ Q1], Hb' as [_ Q2]; congruence). subst bs'.
      set (e := (sync_request (w_d w), bs)) in *. destruct (heard_some (w_sent w) e) as (m&Hm).
      eexists _, m. split; [refine (eq_trans E (f_equal2 pair eq_refl _)); exact Hm|]. split.
      + unfold healthy, counted_sync. cbn [w_d w_sent counted upd_crypt upd_count d_system d_client d_dialog d_sig d_crypt d_bpd_version d_supported].
        split; [exact H1|]. split; [now exists cl|]. split; [now exists t|]. split; [now exists s|]. split; [now exists c|].
        split; [exact H6|]. apply sent_snoc; [exact H7|]. unfold e. rewrite Eq. exact Hs.
      + exists (w_sent w), e. split; [now eexists|]. now apply heard_at.
  Qed.

  (** ** The acts of a dialog *)
  Lemma end_fine b w : healthy b w -> fine b (end_dialog sign_ok compose bank oth) w (fun _ => True).
  Proof.
    intros Hw. unfold end_dialog. eapply fine_bind; [apply exchange_fine; [exact Hw|]|].
    - intros t Et Ct. exists QEnd. split; [cbn; now rewrite Et|]. split; [exact I|]. split; [apply Forall_cons; [exact Ct|apply Forall_nil]|].
      split; [apply Forall_nil|]. intros ? ? K. discriminate K.
    - intros m w1 H1 (h&e&_&Hm). exact (fail_fine b m _ w1 Hm H1).
  Qed.
  Lemma sync_fine b w : healthy b w -> fine true (sync_client_system sign_ok compose bank oth pick) w text_ok.
  Proof.
    intros Hw. enough (K : fine true (bind (sync_exchange sign_ok compose bank oth) (fun m => bind (process_sync pick m) (fun _ =>
      bind (end_dialog sign_ok compose bank oth) (fun _ => bind get (fun d => ret (d_system d)))))) w text_ok).
    { destruct K as (w'&a&E&K). exists w', a. split; [rewrite sync_eq; exact E|exact K]. }
    eapply fine_bind; [apply (sync_exchange_fine b); exact Hw|]. intros m w1 H1 (h&e&[c Ek]&Hm).
    destruct (proj2 (Hhelp h e) c Ek) as [Hsys Hpar].
    apply (fine_bind true true _ _ _ (fun _ => True)).
    - unfold process_sync. eapply fine_bind; [exact (take_fine b m _ w1 Hm H1)|]. intros _ w2 H2 _.
      eapply fine_bind; [exact (fail_fine b m _ w2 Hm H2)|]. intros _ w3 H3 _.
      eapply fine_bind; [exact (update_fine b m _ w3 Hm H3)|]. intros _ w4 H4 _.
      eapply fine_bind; [exact (system_fine b m _ w4 Hm Hsys H4)|]. intros _ w5 H5 _.
      eapply fine_bind; [exact (proj2 (bpd_fine b m _ w5 Hm H5) Hpar)|]. intros _ w6 H6 _.
      exact (upd_fine true m _ w6 Hm H6).
    - intros _ w2 H2 _. eapply fine_bind; [exact (end_fine true w2 H2)|]. intros _ w3 H3 _.
      exists w3, (d_system (w_d w3)). split; [reflexivity|]. split; [exact H3|]. apply H3.
  Qed.
  Lemma start_fine b w : healthy b w -> fine b (start_dialog sign_ok compose bank oth pick) w (fun _ => True).
  Proof.
    intros Hw. assert (Hw0 : healthy b (mkW (reset (w_d w)) (w_sent w))).
    { destruct Hw as (H1&H2&H3&H4&H5&H6&H7). unfold healthy. cbn. split; [exact H1|]. split; [exact H2|]. split; [exact zero_ok|]. auto. }
    enough (K : fine b (bind (exchange init_kind) (process pick)) (mkW (reset (w_d w)) (w_sent w)) (fun _ => True)).
    { destruct K as (w'&a&E&K). exists w', a. split; [rewrite Dialog_Proofs.start_eq; exact E|exact K]. }
    eapply fine_bind; [apply exchange_fine; [exact Hw0|]|].
    - intros t Et Ct. destruct Hw0 as ((sy&Es&Cs)&(cl&Ec&Cc)&_). eexists (QInit cl sy _ _). split.
      { unfold init_kind. cbn [counted kind_for d_client d_system upd_count]. rewrite Es, Ec. reflexivity. }
      split; [exact I|]. split; [apply Forall_cons; [exact Cc|apply Forall_cons; [exact Cs|apply Forall_nil]]|].
      split; [apply Forall_nil|]. intros ? ? K. discriminate K.
    - intros m w1 H1 (h&e&_&Hm). unfold process. eapply fine_bind; [exact (take_fine b m _ w1 Hm H1)|]. intros _ w2 H2 _.
      eapply fine_bind; [exact (proj1 (bpd_fine b m _ w2 Hm H2))|]. intros _ w3 H3 _.
      eapply fine_bind; [exact (upd_fine b m _ w3 Hm H3)|]. intros _ w4' H4' _.
      eapply fine_bind; [exact (news_fine b m _ w4' Hm H4')|]. intros _ w4 H4 _.
      eapply fine_bind; [exact (fail_fine b m _ w4 Hm H4)|]. intros _ w5 H5 _.
      exact (update_fine b m _ w5 Hm H5).
  Qed.
  Lemma healthy_less b w : healthy true w -> healthy b w.
  Proof. intros (H1&H2&H3&H4&H5&H6&H7). repeat (split; [assumption|]). split; [|exact H7]. intros _. apply H6. now left. Qed.

  (** ** The accounts *)
  Notation told := (told_accounts letters).
  Lemma told_app l1 : forall h l2, @told_accounts F letters h (l1 ++ l2) = told_accounts letters h l1 ++ told_accounts letters (h ++ l1) l2.
  Proof.
    induction l1 as [|e l1 IH]; intros h l2; [cbn; now rewrite app_nil_r|]. cbn [app told_accounts]. rewrite IH, <- !app_assoc. reflexivity.
  Qed.
  Lemma reported_letter m l : heard m l -> reported m = letter_accounts l.
  Proof.
    intros H. destruct (heard_facts m l H) as (_&_&Es&_). unfold reported. rewrite (Es (B "HIUPD") ltac:(no_id)). unfold letter_segs, letter_accounts.
    induction (lt_pieces l) as [|p ps IH]; [reflexivity|]. cbn [flat_map]. rewrite flat_map_app, IH. f_equal. destruct p as [pos ref i]. cbn [pc_info].
    destruct i; try reflexivity; try (destruct k; reflexivity). cbn [piece_value pc_info]. destruct (list_eq_dec byte_eq_dec (info_id (IOther id version fields)) (B "HIUPD")); reflexivity.
  Qed.
  Definition sound (b : bool) (w : world) : Prop := healthy b w /\ d_accounts (w_d w) = told_accounts letters [] (w_sent w).
  Definition sure {A} (b : bool) (m : act A) (w : world) (Q : A -> Prop) : Prop :=
    exists w' a, m w = (w', Ok a) /\ sound b w' /\ Q a.
  Lemma sure_bind {A C} b b' (m : act A) (k : A -> act C) w Q R :
    sure b m w Q -> (forall a w1, sound b w1 -> Q a -> sure b' (k a) w1 R) -> sure b' (bind m k) w R.
  Proof.
    intros (w1&a&E&Hw&Ha) Hk. destruct (Hk a w1 Hw Ha) as (w2&c&E2&H2&Hc). exists w2, c. split; [|auto].
    unfold bind. rewrite E. exact E2.
  Qed.
  Lemma sure_ret {A} b (a : A) w (Q : A -> Prop) : sound b w -> Q a -> sure b (ret a) w Q.
  Proof. intros H K. exists w, a. auto. Qed.
  Lemma sure_deferred {A} b (m : act A) (c : act unit) w (Q : A -> Prop) :
    sure b m w Q -> (forall w1, sound b w1 -> sure b c w1 (fun _ => True)) -> sure b (deferred m c) w Q.
  Proof.
    intros (w1&a&E&Hw&Ha) Hk. destruct (Hk w1 Hw) as (w2&u&E2&H2&_). exists w2, a. split; [|auto].
    unfold deferred. rewrite E, E2. reflexivity.
  Qed.
  Lemma answered_heard h e (m : reply) : answered bank oth h e m -> heard m (letters (h ++ [e])).
  Proof. intros (raw&E&Hm). unfold post in E. injection E as <-. now apply heard_at. Qed.

  Lemma fine_frame {A} b (m : act A) w Q new : sound b w -> fine b m w Q -> d_accounts (w_d (fst (m w))) = d_accounts (w_d w) ->
    w_sent (fst (m w)) = w_sent w ++ new -> Forall (fun e => is_job (kind_of e) \/ is_end (kind_of e)) new -> sure b m w Q.
  Proof.
    intros [_ Hw] (w'&a&E&H1&H2) Ea En Hn. rewrite E in Ea, En. cbn [fst] in *. exists w', a. split; [exact E|]. split; [|exact H2]. split; [exact H1|].
    rewrite Ea, En, Hw, told_app. rewrite <- (app_nil_r (told_accounts letters [] (w_sent w))) at 1. f_equal. cbn [app].
    generalize (w_sent w). clear -Hn. induction Hn as [|e r He Hr IH]; intros h; [reflexivity|]. cbn [told_accounts]. rewrite <- IH.
    destruct He as [[j ->]|[i ->]]; reflexivity.
  Qed.
  Lemma end_sure b w : sound b w -> sure b (end_dialog sign_ok compose bank oth) w (fun _ => True).
  Proof.
    intros Hw. destruct (end_ended sign_ok compose bank oth w) as [ends [N1 N2]].
    apply (fine_frame b _ w _ ends Hw); [apply end_fine, Hw|apply accounts_end|exact N1|].
    apply ended_any in N2. destruct N2 as [q [Q1 [_ [_ [[-> _]|[be [-> _]]]]]]]; [constructor|]. constructor; [right; eexists; exact Q1|constructor].
  Qed.
  Lemma job_sure b j w : sound b w -> (forall t, exists a, KJob j = kind_for t a /\ fit t a) ->
    sure b (exchange (fun _ => KJob j)) w (answer_to (fun z => z = KJob j)).
  Proof.
    intros Hw Ha. assert (K : fine b (exchange (fun _ => KJob j)) w (answer_to (fun z => z = KJob j))).
    { apply (exchange_fine b (fun _ => KJob j)); [apply Hw|]. intros t _ _. exact (Ha t). }
    pose proof K as (w'&a&E&_). destruct (exchange_cases sign_ok compose bank oth (fun _ => KJob j) w) as [[_ [N _]]|(bs&_&E')].
    { exfalso. apply N. rewrite E. now eexists. }
    eapply (fine_frame b _ w _ [_] Hw K); [apply accounts_exchange|rewrite E'; reflexivity|]. constructor; [left; now eexists|constructor].
  Qed.
  Lemma sync_sure b w : sound b w -> sure true (sync_client_system sign_ok compose bank oth pick) w text_ok.
  Proof.
    intros Hw. destruct (sync_fine b w (proj1 Hw)) as (w'&a&E&H1&H2). exists w', a. split; [exact E|]. split; [|exact H2]. split; [exact H1|].
    pose proof (accounts_sync sign_ok compose bank oth pick w) as K. rewrite E in K. destruct (K (ex_intro _ a eq_refl)) as (s&e&m&K1&[c K2]&[i K3]&K4&K5).
    cbn [fst] in *. rewrite K5, K1, told_app, (proj2 Hw). f_equal. cbn [app told_accounts]. rewrite K2, K3, !app_nil_r.
    apply reported_letter. now apply answered_heard.
  Qed.
  Lemma start_sure b w : sound b w -> sure b (start_dialog sign_ok compose bank oth pick) w (fun _ => True).
  Proof.
    intros Hw. destruct (start_fine b w (proj1 Hw)) as (w'&a&E&H1&H2). exists w', a. split; [exact E|]. split; [|exact H2]. split; [exact H1|].
    pose proof (accounts_start sign_ok compose bank oth pick w) as K. rewrite E in K. destruct (K (ex_intro _ a eq_refl)) as (i&m&K1&K2&K4&K5).
    destruct K2 as (c&sy&bp&up&K2).
    cbn [fst] in *. rewrite K5, K1, told_app, (proj2 Hw). f_equal. cbn [app told_accounts]. rewrite K2, !app_nil_r.
    apply reported_letter. now apply answered_heard.
  Qed.
  Lemma sound_less b w : sound true w -> sound b w.
  Proof. intros [H1 H2]. split; [now apply healthy_less|exact H2]. Qed.
  Lemma ensure_sure b w : sound b w -> sure b (ensure_system sign_ok compose bank oth pick) w (fun _ => True).
  Proof.
    intros Hw. unfold ensure_system. apply (sure_bind b b _ _ w (fun d => d = w_d w)); [exists w, (w_d w); auto|]. intros d w1 H1 ->.
    destruct (bytes_eqb _ _); [|now apply sure_ret]. eapply sure_bind; [apply (sync_sure b); exact H1|]. intros s w2 H2 Hs.
    eexists _, tt. split; [reflexivity|]. split; [|exact I]. apply (sound_less b) in H2. destruct H2 as [(K1&K2&K3&K4&K5&K6&K7) K8].
    split; [|exact K8]. unfold healthy. cbn. auto 10.
  Qed.
  Lemma init_sure b w : sound b w -> sure b (init sign_ok compose bank oth pick) w (fun _ => True).
  Proof.
    intros Hw. unfold init. eapply sure_bind; [exact (ensure_sure b w Hw)|]. intros _ w1 H1 _. exact (start_sure b w1 H1).
  Qed.
  Definition orderly (j : J) : Prop := exists v mark, j = job_for v mark /\
    wish_ok v /\ Forall clean_text (mark :: wish_texts v) /\ Forall real_date (wish_dates v) /\
    exists o n mark', In o orders /\ order_wish o n = Some (v, mark').
  Lemma send_sure b j w : sound b w -> orderly j ->
    sure b (send_message sign_ok compose bank oth pick j) w (answer_to (fun z => z = KJob j)).
  Proof.
    intros Hw (v&mark&->&J1&J2&J3&J4). unfold send_message. eapply sure_bind; [exact (init_sure b w Hw)|]. intros _ w1 H1 _.
    apply sure_deferred; [|intros w2 H2; exact (end_sure b w2 H2)].
    eapply sure_bind; [apply job_sure; [exact H1|]|].
    - intros t. exists (QJob v mark). split; [reflexivity|]. split; [exact J1|]. split; [exact J2|]. split; [exact J3|].
      intros v' mark' K. injection K as <- <-. exact J4.
    - intros m w2 H2 Hm. pose proof Hm as (h&e&_&Hl). exists w2, m. split; [|auto]. unfold bind.
      destruct (fail_fine b m _ w2 Hl (proj1 H2)) as (w3&[]&E&_). unfold fail_on_error_acks, lift in *.
      destruct (existsb is_err (bm_acks m)); [discriminate E|reflexivity].
  Qed.
  Lemma user_sure b w : sound b w -> sure b (sync_user_data sign_ok compose bank oth pick) w (fun _ => True).
  Proof.
    intros Hw. unfold sync_user_data. eapply sure_bind; [exact (init_sure b w Hw)|]. intros _ w1 H1 _.
    apply sure_deferred; [now apply sure_ret|intros w2 H2; exact (end_sure b w2 H2)].
  Qed.
  Lemma client_init_sure b w : sound b w -> sure true (client_init sign_ok compose bank oth pick) w (fun _ => True).
  Proof.
    intros Hw. unfold client_init, sure, bind at 1. cbn [get].
    change (sure true (if d_bpd_version (w_d w) =? 0 then bind (sync_client_system sign_ok compose bank oth pick) (fun _ => ret tt) else ret tt) w (fun _ => True)).
    destruct (d_bpd_version (w_d w) =? 0) eqn:E.
    - eapply sure_bind; [apply (sync_sure b); exact Hw|]. intros _ w1 H1 _. now apply sure_ret.
    - apply sure_ret; [|exact I]. destruct Hw as [(H1&H2&H3&H4&H5&H6&H7) H8]. split; [|exact H8]. repeat (split; [assumption|]). split; [|exact H7].
      intros _. apply H6. right. lia.
  Qed.

  (** ** The client *)
  Context {St Tx : Type} (status_in : bytes -> outcome St) (read_mt940 : bytes -> outcome (list Tx)).
  Variable sort : list mt -> list mt.
  Variable clock : nat -> Z.
  Notation bal := (balance_in parse_float neg).
  Notation sbal := (sepa_balance_in parse_float neg).
  Lemma new_sound : sound false (new_client (utf8 (wh_user x)) (utf8 pin)).
  Proof.
    split; [|reflexivity]. unfold healthy, new_client. cbn. split; [exact zero_ok|].
    assert (G : good (new_provider (utf8 pin) (B "0"))).
    { exists (mkSecret pin (B "0") (B "999")). split; [reflexivity|]. split; [|reflexivity]. destruct Hpin as [_ Hp]. unfold secret_texts. cbn [sc_pin sc_system sc_function].
      apply Forall_cons; [exact Hp|]. apply Forall_cons; [apply clean_rev; vm_compute; split; discriminate|].
      apply Forall_cons; [apply clean_rev; vm_compute; split; discriminate|apply Forall_nil]. }
    split; [|split; [exact zero_ok|]].
    { exists (wh_user x). split; [reflexivity|]. unfold who_texts in Hx. inversion Hx as [|? ? _ K]; subst. now inversion K. }
    split; [exact G|]. split; [exact G|]. split; [intros [K|K]; [discriminate K|now destruct K]|].
    intros h e r K. destruct h; discriminate K.
  Qed.
  Lemma safe_bind {A C} b (m : act A) (k : A -> act C) w Q :
    sure b m w Q -> (forall a w1, sound b w1 -> Q a -> sound false (fst (k a w1))) -> sound false (fst (bind m k w)).
  Proof. intros (w1&a&E&H1&H2) Hk. unfold bind. rewrite E. exact (Hk a w1 H1 H2). Qed.
  Lemma safe_lift {A C} (o : outcome A) (k : A -> act C) w :
    sound false w -> (forall a, o = Ok a -> sound false (fst (k a w))) -> sound false (fst (bind (lift o) k w)).
  Proof. intros Hw Hk. unfold bind, lift. destruct o as [a| |]; [exact (Hk a eq_refl)|exact Hw|exact Hw]. Qed.
  Lemma order_orderly o v y mark t : In o orders -> order_wish o v = Some (y, mark) -> clean_text t -> orderly (job_for y t).
  Proof.
    intros Ho E Ht. exists y, t. split; [reflexivity|]. pose proof Horders as Hall. rewrite Forall_forall in Hall. specialize (Hall o Ho). unfold order_ok in Hall.
    assert (K : exists y0, order_wish o 0 = Some (y0, mark) /\ (wish_ok y0 -> wish_ok y) /\ wish_texts y = wish_texts y0 /\ wish_dates y = wish_dates y0).
    { destruct o; cbn [order_wish] in E |- *; try discriminate E; injection E as <- <-; eexists; (split; [reflexivity|]); auto. }
    destruct K as (y0&E0&K1&K2&K3). rewrite E0 in Hall. destruct Hall as (H1&H2&H3). split; [now apply K1|]. inversion H2 as [|? ? _ H4]; subst.
    split; [apply Forall_cons; [exact Ht|rewrite K2; exact H4]|]. split; [now rewrite K3|]. exists o, v, mark. auto.
  Qed.
  Lemma order_mark o v y mark : In o orders -> order_wish o v = Some (y, mark) -> clean_text mark.
  Proof.
    intros Ho E. pose proof Horders as Hall. rewrite Forall_forall in Hall. specialize (Hall o Ho). unfold order_ok in Hall.
    assert (K : exists y0, order_wish o 0 = Some (y0, mark)).
    { destruct o; cbn [order_wish] in E |- *; try discriminate E; injection E as <- <-; eexists; reflexivity. }
    destruct K as [y0 K]. rewrite K in Hall. destruct Hall as (_&H2&_). now inversion H2.
  Qed.
  Lemma nil_clean : clean_text [].
  Proof. apply clean_rev. exact I. Qed.
  Lemma continuation_ok m l : heard m l -> exists c, continuation (bm_acks m) = Ok c /\ text_ok c.
  Proof.
    intros H. destruct (heard_facts m l H) as (_&Ea&_). unfold continuation. destruct (find is_3040 (bm_acks m)) as [a|] eqn:E.
    - apply find_some in E. destruct E as [E1 E2]. rewrite Ea in E1. destruct (notices_in l a E1) as (fm&msg&sg&n&Hn&->).
      unfold is_3040 in E2. cbn [notice_value ack_code ack_params] in *. destruct H as (_&Hf&_). pose proof Hf as (_&_&_&Hc&_).
      rewrite Forall_forall in Hc. specialize (Hc n Hn ltac:(lia)). destruct (nt_params n) as [|p ps] eqn:Ep; [now destruct Hc|]. cbn [map].
      eexists. split; [reflexivity|]. exists (escaped p). split; [reflexivity|]. apply clean_escaped.
      apply (notice_returned l n p Hf Hn); [right; lia|]. rewrite Ep. now left.
    - exists []. split; [reflexivity|]. exists []. split; [reflexivity|exact nil_clean].
  Qed.
  Lemma build_some w id vs t : sound true w -> In (id, vs) wanted -> straight t -> (forall v, In v vs -> In v (map fst t)) ->
    exists v, build (d_supported (w_d w)) id (fun l => first_entry t (sort_desc l)) = Ok v /\ In v (map fst t).
  Proof.
    intros [(_&_&_&_&_&Ho&_) _] Hin Hs Hv. destruct (Ho (or_introl eq_refl) id vs Hin) as (v&V1&V2). unfold build.
    pose proof (versions_of_spec (d_supported (w_d w)) id) as K. destruct (versions_of _ id) as [l|]; [|destruct (K v V2)].
    apply K in V2. destruct (first_entry t (sort_desc l)) as [u| |] eqn:E.
    - exists u. split; [reflexivity|]. apply (builder_ok t l u Hs) in E. apply E.
    - apply builder_err in E. destruct (E v V2 (Hv v V1)).
    - exfalso. pose proof (first_entry_spec t _ (sort_desc_sorted l)) as Q. rewrite E in Q. exact Q.
  Qed.
  Notation client_init := (client_init sign_ok compose bank oth pick).
  Notation account_balances := (account_balances sign_ok compose bank oth pick bal).
  Notation sepa_account_balances := (sepa_account_balances sign_ok compose bank oth pick sbal).
  Lemma accounts_sure w : sound false w -> exists w', accounts sign_ok compose bank oth pick w = (w', Ok (told_accounts letters [] (w_sent w'))) /\ sound false w'.
  Proof.
    intros Hw. destruct (client_init_sure false w Hw) as (w1&[]&E1&H1&_). destruct (user_sure true w1 H1) as (w2&[]&E2&H2&_).
    exists w2. unfold accounts. rewrite (bind_ok _ _ _ _ _ E1), (bind_ok _ _ _ _ _ E2), bind_get. unfold ret. rewrite (proj2 H2). split; [reflexivity|now apply sound_less].
  Qed.
  Lemma balances_safe a all w : In (OBalances a all) orders -> sound false w -> sound false (fst (account_balances (AAccount (national_value a) all) w)).
  Proof.
    intros Ho Hw. unfold Client_Model.account_balances. eapply safe_bind; [apply (client_init_sure false); exact Hw|]. intros _ w1 H1 _.
    rewrite bind_get. apply safe_lift; [now apply sound_less|]. intros v _.
    eapply safe_bind; [apply (send_sure true); [exact H1|]|].
    - exact (order_orderly (OBalances a all) v (WBalances v a all) [] [] Ho eq_refl nil_clean).
    - intros m w2 H2 _. apply safe_lift; [now apply sound_less|]. intros bs _. destruct bs; now apply sound_less.
  Qed.
  Lemma balances_sure a all w : In (OBalances a all) orders -> In (B "HISALS", [5; 6]) wanted ->
    answers_with letters TBalances (fun l => letter_balances l <> []) -> sound false w ->
    exists w' bs, account_balances (AAccount (national_value a) all) w = (w', Ok bs).
  Proof.
    intros Ho Hwant Hans Hw. unfold Client_Model.account_balances. destruct (client_init_sure false w Hw) as (w1&[]&E1&H1&_). rewrite (bind_ok _ _ _ _ _ E1), bind_get.
    destruct (build_some w1 (B "HISALS") [5; 6] balance_table H1 Hwant ltac:(repeat constructor) ltac:(auto)) as (v&Ev&_).
    change (fun l => first_entry balance_table (sort_desc l)) with balance_builder in Ev. rewrite Ev, bind_lift.
    pose proof (order_orderly (OBalances a all) v (WBalances v a all) [] [] Ho eq_refl nil_clean) as Hj.
    destruct (send_sure true _ w1 H1 Hj) as (w2&m&E2&H2&(h&e&Ek&Hm)). cbn [job_for] in E2. change (utf8 []) with (@nil byte) in E2. rewrite (bind_ok _ _ _ _ _ E2).
    pose proof (C57_balances_in_message parse_float neg value Hfloat (letters (h ++ [e])) m ltac:(apply Hm) ltac:(apply Hm)) as C.
    apply read_segs_spec in C. rewrite C, bind_lift. specialize (Hans h e _ Ek eq_refl).
    destruct (map (balance_value value neg) (letter_balances (letters (h ++ [e])))) as [|y ys] eqn:Em.
    - apply map_eq_nil in Em. contradiction.
    - eexists _, _. reflexivity.
  Qed.
  Lemma balance_page_safe n a all mark t w : In (OSepaBalances n a all mark) orders -> clean_text t -> sound false w ->
    let r := balance_page sign_ok compose bank oth pick sbal (ASepa (international_value a) all) (utf8 t) w in
    sound false (fst r) /\ (forall bs c, snd r = Ok (bs, c) -> text_ok c) /\
    (In (B "HISALS", [7; 8]) wanted -> answers_with letters TSepaBalances (fun l => letter_balances l <> [] /\ only_international l) -> is_ok (snd r)).
  Proof.
    intros Ho Ht Hw. cbv zeta. unfold balance_page. destruct (client_init_sure false w Hw) as (w1&[]&E1&H1&_). rewrite (bind_ok _ _ _ _ _ E1), bind_get, bind_lift.
    destruct (build (d_supported (w_d w1)) (B "HISALS") sepa_balance_builder) as [v| |] eqn:Eb.
    - pose proof (order_orderly (OSepaBalances n a all mark) v (WSepaBalances v a all) mark t Ho eq_refl Ht) as Hj.
      destruct (send_sure true _ w1 H1 Hj) as (w2&m&E2&H2&(h&e&Ek&Hm)). cbn [job_for] in E2. rewrite (bind_ok _ _ _ _ _ E2), bind_lift. apply (sound_less false) in H2.
      destruct (continuation_ok m _ Hm) as (c&Ec&Hc).
      destruct (read_segs sbal (find_segs m (B "HISAL"))) as [bs| |] eqn:Er.
      + split; [|split].
        * unfold bind. destruct bs; cbn; [exact H2|]. rewrite Ec. exact H2.
        * intros bs' c' K. unfold bind in K. destruct bs; cbn in K; [discriminate K|]. rewrite Ec in K. injection K as _ <-. exact Hc.
        * intros _ Hans. destruct (Hans h e _ Ek eq_refl) as [A1 A2].
          destruct bs as [|y ys]; [|unfold bind; cbn; rewrite Ec; eexists; reflexivity]. exfalso.
          apply read_segs_spec in Er. unfold contents in Er. inversion Er as [Es|]. 
          pose proof (C57_balances_in_message parse_float neg value Hfloat (letters (h ++ [e])) m ltac:(apply Hm) ltac:(apply Hm)) as C. unfold contents in C.
          rewrite <- Es in C. destruct (letter_balances (letters (h ++ [e]))) as [|y ys]; [now apply A1|]. inversion C.
      + split; [exact H2|]. split; [intros ? ? K; discriminate K|]. intros _ Hans. exfalso. destruct (Hans h e _ Ek eq_refl) as [A1 A2].
        assert (C : exists ys, contents sbal (B "HISAL") m ys).
        { exists (sepa_values value neg (letters (h ++ [e]))). apply (C57_sepa_balances_in_message parse_float neg value Hfloat (letters (h ++ [e])) m); [apply Hm|apply Hm|].
          unfold sepa_values, only_international in *. clear -A2. induction A2 as [|[vv bb] r [K1 [aa K2]] Hr IH]; [constructor|]. cbn [flat_map fst snd] in *. rewrite K2.
          cbn [app]. constructor; [|exact IH]. cbn [fst snd]. eauto. }
        destruct C as [ys C]. apply read_segs_spec in C. rewrite C in Er. discriminate Er.
      + split; [exact H2|]. split; [intros ? ? K; discriminate K|]. intros _ Hans. exfalso. destruct (Hans h e _ Ek eq_refl) as [A1 A2].
        assert (C : exists ys, contents sbal (B "HISAL") m ys).
        { exists (sepa_values value neg (letters (h ++ [e]))). apply (C57_sepa_balances_in_message parse_float neg value Hfloat (letters (h ++ [e])) m); [apply Hm|apply Hm|].
          unfold sepa_values, only_international in *. clear -A2. induction A2 as [|[vv bb] r [K1 [aa K2]] Hr IH]; [constructor|]. cbn [flat_map fst snd] in *. rewrite K2.
          cbn [app]. constructor; [|exact IH]. cbn [fst snd]. eauto. }
        destruct C as [ys C]. apply read_segs_spec in C. rewrite C in Er. discriminate Er.
    - cbn [fst snd]. split; [now apply sound_less|]. split; [intros ? ? K; discriminate K|]. intros Hwant _. exfalso.
      destruct (build_some w1 (B "HISALS") [7; 8] sepa_balance_table H1 Hwant ltac:(repeat constructor) ltac:(auto)) as (v&Ev&_).
      change (fun l => first_entry sepa_balance_table (sort_desc l)) with sepa_balance_builder in Ev. congruence.
    - cbn [fst snd]. split; [now apply sound_less|]. split; [intros ? ? K; discriminate K|]. intros Hwant _. exfalso.
      destruct (build_some w1 (B "HISALS") [7; 8] sepa_balance_table H1 Hwant ltac:(repeat constructor) ltac:(auto)) as (v&Ev&_).
      change (fun l => first_entry sepa_balance_table (sort_desc l)) with sepa_balance_builder in Ev. congruence.
  Qed.
  Lemma sepa_safe n0 a all mark : In (OSepaBalances n0 a all mark) orders -> forall n t w, clean_text t -> sound false w ->
    let r := sepa_account_balances n (ASepa (international_value a) all) (utf8 t) w in
    sound false (fst r) /\
    (In (B "HISALS", [7; 8]) wanted -> answers_with letters TSepaBalances (fun l => letter_balances l <> [] /\ only_international l) ->
     snd r = None \/ exists bs, snd r = Some (Ok bs)).
  Proof.
    intros Ho. induction n as [|n IH]; intros t w Ht Hw; [split; [exact Hw|now left]|]. cbv zeta. cbn [Client_Model.sepa_account_balances].
    destruct (balance_page_safe n0 a all mark t w Ho Ht Hw) as (P1&P2&P3).
    destruct (balance_page sign_ok compose bank oth pick sbal (ASepa (international_value a) all) (utf8 t) w) as [w1 [[bs c]| |]]; cbn [fst snd] in *.
    - destruct (P2 bs c eq_refl) as (t'&->&Ht'). destruct (utf8 t') as [|c0 c1] eqn:Eu; [split; [exact P1|right; now eexists]|]. rewrite <- Eu.
      destruct (IH t' w1 Ht' P1) as [I1 I2].
      destruct (sepa_account_balances n (ASepa (international_value a) all) (utf8 t') w1) as [w2 [[next| |]|]]; cbn [fst snd] in *;
        (split; [exact I1|]); intros Q1 Q2; destruct (I2 Q1 Q2) as [K|[bs' K]]; try discriminate K; eauto.
    - split; [exact P1|]. intros Q1 Q2. destruct (P3 Q1 Q2) as [? K]. discriminate K.
    - split; [exact P1|]. intros Q1 Q2. destruct (P3 Q1 Q2) as [? K]. discriminate K.
  Qed.
  Notation transaction_page := (transaction_page sign_ok compose bank oth pick booked_in sort clock).
  Notation transaction_pages := (transaction_pages sign_ok compose bank oth pick booked_in sort clock).
  Notation transactions := (transactions sign_ok compose bank oth pick booked_in read_mt940 sort clock).
  Section Transactions.
    Variables (tp : topic) (builder : list Z -> outcome Z) (ag : args).
    Hypothesis Hjobs : forall v t, clean_text t -> orderly (Client_Model.mkJob tp v ag (utf8 t)).
    (** The version is found, whatever the bank's list. *)
    Definition finds : Prop := forall w, sound true w -> exists v, build (d_supported (w_d w)) (B "HIKAZS") builder = Ok v.
    Lemma transaction_page_safe t tick w : clean_text t -> sound true w ->
      let r := transaction_page tp builder ag (utf8 t) tick w in
      sound true (fst r) /\ (forall m k c, snd r = Ok (m, k, c) -> text_ok c) /\ (finds -> is_ok (snd r)).
    Proof.
      intros Ht Hw. cbv zeta. unfold Client_Model.transaction_page. rewrite bind_get, bind_lift.
      destruct (build (d_supported (w_d w)) (B "HIKAZS") builder) as [v| |] eqn:Eb.
      - destruct (send_sure true _ w Hw (Hjobs v t Ht)) as (w2&m&E2&H2&(h&e&Ek&Hm)). rewrite (bind_ok _ _ _ _ _ E2), !bind_lift.
        destruct (continuation_ok m _ Hm) as (c&Ec&Hc).
        pose proof (C57_booked_in_message parse_float neg value Hfloat (letters (h ++ [e])) m ltac:(apply Hm) ltac:(apply Hm)) as C.
        apply read_segs_spec in C. rewrite C, bind_lift, Ec. cbn [fst snd ret]. split; [exact H2|]. split; [|intros _; eexists; reflexivity].
        intros m' k c' K. injection K as _ _ <-. exact Hc.
      - cbn [fst snd]. split; [exact Hw|]. split; [intros ? ? ? K; discriminate K|]. intros Hf. destruct (Hf w Hw) as [v K]. congruence.
      - cbn [fst snd]. split; [exact Hw|]. split; [intros ? ? ? K; discriminate K|]. intros Hf. destruct (Hf w Hw) as [v K]. congruence.
    Qed.
    Lemma transaction_pages_safe n : forall t tick w, clean_text t -> sound true w ->
      let r := transaction_pages n tp builder ag (utf8 t) tick w in
      sound true (fst r) /\ (finds -> snd r = None \/ exists y, snd r = Some (Ok y)).
    Proof.
      induction n as [|n IH]; intros t tick w Ht Hw; [split; [exact Hw|now left]|]. cbv zeta. cbn [Client_Model.transaction_pages].
      destruct (transaction_page_safe t tick w Ht Hw) as (P1&P2&P3).
      destruct (transaction_page tp builder ag (utf8 t) tick w) as [w1 [[[m k] c]| |]]; cbn [fst snd] in *.
      - destruct (P2 m k c eq_refl) as (t'&->&Ht'). destruct (utf8 t') as [|c0 c1] eqn:Eu; [split; [exact P1|right; now eexists]|]. rewrite <- Eu.
        destruct (IH t' k w1 Ht' P1) as [I1 I2].
        destruct (transaction_pages n tp builder ag (utf8 t') k w1) as [w2 [[[msg k2]| |]|]]; cbn [fst snd] in *;
          (split; [exact I1|]); intros Q; destruct (I2 Q) as [K|[y K]]; try discriminate K; eauto.
      - split; [exact P1|]. intros Q. destruct (P3 Q) as [? K]. discriminate K.
      - split; [exact P1|]. intros Q. destruct (P3 Q) as [? K]. discriminate K.
    Qed.
    Lemma transactions_safe n t tick w : clean_text t -> sound false w ->
      let r := transactions n tp builder ag (utf8 t) tick w in
      sound false (fst r) /\ (finds -> snd r = None \/ exists d, snd r = Some (read_mt940 d)).
    Proof.
      intros Ht Hw. cbv zeta. unfold Client_Model.transactions. destruct (client_init_sure false w Hw) as (w1&[]&E1&H1&_). rewrite E1.
      destruct (transaction_pages_safe n t tick w1 Ht H1) as [P1 P2].
      destruct (transaction_pages n tp builder ag (utf8 t) tick w1) as [w2 [r|]]; cbn [fst snd] in *.
      - split; [now apply sound_less|]. intros Q. right. destruct (P2 Q) as [K|[[m k] K]]; [discriminate K|]. injection K as ->. cbn. now eexists.
      - split; [now apply sound_less|]. now left.
    Qed.
  End Transactions.
  Lemma information_safe a all w : In (OInformation a all) orders -> sound false w ->
    sound false (fst (Client_Model.account_information sign_ok compose bank oth pick (AAccount (national_value a) all) w)).
  Proof.
    intros Ho Hw. unfold Client_Model.account_information. eapply safe_bind; [apply (client_init_sure false); exact Hw|]. intros _ w1 H1 _.
    eapply safe_bind; [apply (send_sure true); [exact H1|]|].
    - exact (order_orderly (OInformation a all) 1 (WInformation 1 a all) [] [] Ho eq_refl nil_clean).
    - intros m w2 H2 _. destruct (find _ _); now apply sound_less.
  Qed.
  Lemma status_safe from to n mark w : In (OStatus from to n mark) orders -> sound false w ->
    sound false (fst (status sign_ok compose bank oth pick status_in (AStatus from to n) (utf8 mark) w)).
  Proof.
    intros Ho Hw. unfold status. eapply safe_bind; [apply (client_init_sure false); exact Hw|]. intros _ w1 H1 _.
    rewrite bind_get. apply safe_lift; [now apply sound_less|]. intros v _.
    eapply safe_bind; [apply (send_sure true); [exact H1|]|].
    - exact (order_orderly (OStatus from to n mark) v (WStatus v from to n) mark mark Ho eq_refl (order_mark _ v _ _ Ho eq_refl)).
    - intros m w2 H2 _. now apply sound_less.
  Qed.
  Notation run_ccall := (run_ccall sign_ok compose bank oth pick bal sbal booked_in status_in read_mt940 sort clock).
  Notation run_ccalls := (run_ccalls sign_ok compose bank oth pick bal sbal booked_in status_in read_mt940 sort clock).
  Lemma call_safe o w : In o orders -> sound false w -> sound false (run_ccall (order_call o) w).
  Proof.
    intros Ho Hw. destruct o as [|a all|n a all mark|n a from to all mark tick|n a from to all mark tick|a all|from to n mark]; cbn [order_call Client_Model.run_ccall].
    - destruct (accounts_sure w Hw) as (w'&E&H). rewrite E. exact H.
    - now apply balances_safe.
    - exact (proj1 (sepa_safe n a all mark Ho n mark w (order_mark _ 0 _ _ Ho eq_refl) Hw)).
    - refine (proj1 (transactions_safe TTransactions transaction_builder _ _ n mark tick w (order_mark _ 0 _ _ Ho eq_refl) Hw)).
      intros v t Ht. exact (order_orderly _ v _ _ t Ho eq_refl Ht).
    - refine (proj1 (transactions_safe TSepaTransactions sepa_transaction_builder _ _ n mark tick w (order_mark _ 0 _ _ Ho eq_refl) Hw)).
      intros v t Ht. exact (order_orderly _ v _ _ t Ho eq_refl Ht).
    - now apply information_safe.
    - now apply status_safe.
  Qed.
  Lemma calls_safe os : (forall o, In o os -> In o orders) -> forall w, sound false w -> sound false (run_ccalls (map order_call os) w).
  Proof.
    induction os as [|o os IH]; intros Hi w Hw; [exact Hw|]. cbn [map Client_Model.run_ccalls]. apply IH; [intros o' Ho'; apply Hi; now right|].
    apply call_safe; [apply Hi; now left|exact Hw].
  Qed.
End Stack.
