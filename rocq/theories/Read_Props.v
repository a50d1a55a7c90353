(** * Property C64: a bank reads in a request what the caller gave, and nothing else *)
From Verif Require Import Base BaseFacts Lexer_Model Lexer_Spec Codec_Model Codec_Spec Codec_Proofs Wire_Model Wire_Spec Message_Model Message_Spec
  Dialog_Model Merge_Model Client_Model Time_Model Seg_Model Seg_Spec Request_Model Request_Spec Request_Facts Request_Facts2 Request_Facts3 Request_Facts4
  Request_Props Read_Spec Read_Facts Read_Facts2.
From Coq Require Import Lia ZifyBool ZifyNat ZifyN.
Open Scope Z_scope.

Section C64.
  Variable render : seg -> bytes.
  Variable today : list (entry (Client_Model.job args)) -> date.
  Variable signed_at enveloped_at : list (entry (Client_Model.job args)) -> date * tod.
  Notation bytes_of x := (request_bytes render (settings_for x) today signed_at enveloped_at).
  Notation signed dialog a number s c := (mkRq (kind_for dialog a) (utf8 dialog) number (Some (provider_for s)) (Some (provider_for c))).
  Notation unsigned dialog a number := (mkRq (kind_for dialog a) (utf8 dialog) number None None).
  (** What a request needs to be sent as the specification says (C56). *)
  Definition sends (x : who) (h : list (entry (Client_Model.job args))) (dialog : bytes) (a : ask) : Prop :=
    wh_bank x <> [] /\ Forall clean_text (who_texts x) /\ ask_ok a /\ Forall clean_text (ask_texts dialog a) /\ Forall real_date (ask_dates a) /\
    real_date (today h) /\ 1 <= d_year (today h) /\ real_moment (signed_at h) /\ real_moment (enveloped_at h).
  Definition keeps (s : secret) : Prop := Forall clean_text (secret_texts s) /\ sc_pin s <> [].

  (** A signed request: the bank finds the four segments of the message, and in the envelope
      the segments of the signed message; every value is the one given, whatever characters it
      is made of, and there are no others. *)
  Theorem C64_signed_read : forall x h dialog number a s c, sends x h dialog a -> keeps s -> keeps c ->
    exists reference w, hex_word reference /\ bytes_of x h (signed dialog a number s c) = Ok w /\
      (len w < 10 ^ 12 ->
       let l := signed_parts x (today h) dialog s reference (signed_at h) a in
       finds w [(1, message_header x dialog number (len w)); (998, envelope_header x c (enveloped_at h));
                (999, mkPart (B "HNVSD") 1 [[TBinary (numbered 2 l)]]); (parts_end l, message_end number)] /\
       finds (numbered 2 l) (counted 2 l)).
  Proof.
    intros x h dialog number a s c (Hb&Hx&Ha&Hta&Hda&Ht&Hy&Hm1&Hm2) (Hs&_) (Hc&Hp).
    destruct (C56_clean_requests render today signed_at enveloped_at x Hb Hx) as (r&Hr&K).
    destruct (K h dialog number a s c Ha Hta Hda Hs Hc Hp Ht Hy Hm1 Hm2) as (w&E&Hw). exists r, w. split; [exact Hr|]. split; [exact E|].
    intros Hl. specialize (Hw Hl). set (l := signed_parts x (today h) dialog s r (signed_at h) a) in *. cbv zeta.
    assert (Fl : Forall fit l).
    { assert (Cl : Forall clean_part l).
      { unfold l, signed_parts. apply Forall_cons; [now apply clean_sig_header|]. apply Forall_app. split; [now apply clean_body|].
        apply Forall_cons; [now apply clean_sig_end|apply Forall_nil]. }
      apply Forall_forall. intros p Hi. split; [|now apply clean_tidy, (proj1 (Forall_forall _ _) Cl)].
      unfold l, signed_parts in Hi. destruct Hi as [<-|Hi]; [reflexivity|]. apply in_app_or in Hi. destruct Hi as [Hi|[<-|[]]]; [|reflexivity].
      clear - Hi. destruct a as [client|client system bpd upd|w mark|]; cbn [body_parts app In] in Hi;
        repeat (destruct Hi as [<-|Hi]; [first [reflexivity|destruct w; reflexivity]|]); destruct Hi. }
    split.
    - rewrite Hw at 1. unfold enveloped_message. change (part_wire 998 ?p ++ part_wire 999 ?q) with (part_wire 998 p ++ part_wire 999 q).
      replace (part_wire 998 (envelope_header x c (enveloped_at h)) ++ part_wire 999 (mkPart (B "HNVSD") 1 [[TBinary (numbered 2 l)]]))
        with (parts_wire [(998, envelope_header x c (enveloped_at h)); (999, mkPart (B "HNVSD") 1 [[TBinary (numbered 2 l)]])])
        by (unfold parts_wire; cbn [map List.concat fst snd]; now rewrite app_nil_r).
      rewrite framed_parts. apply finds_parts. cbn [app].
      assert (Te : fit (envelope_header x c (enveloped_at h))) by (split; [reflexivity|]; now apply clean_tidy, clean_envelope).
      repeat (apply Forall_cons; [cbn [snd]; first [exact Te|split; [reflexivity|repeat constructor]]|]). apply Forall_nil.
    - rewrite numbered_parts. apply finds_parts. now apply counted_fit.
  Qed.
  (** The same for a request of an anonymous dialog. *)
  Theorem C64_anonymous_read : forall x h dialog number a, sends x h dialog a -> (forall w mark, a <> QJob w mark) ->
    exists w, bytes_of x h (unsigned dialog a number) = Ok w /\
      (len w < 10 ^ 12 ->
       let l := body_parts x (today h) dialog false a in
       finds w ((1, message_header x dialog number (len w)) :: counted 2 l ++ [(parts_end l, message_end number)])).
  Proof.
    intros x h dialog number a (Hb&Hx&Ha&Hta&Hda&Ht&Hy&Hm1&Hm2) Hj.
    assert (W : who_ok x). { split; [exact Hb|]. unfold who_texts in Hx. inversion_clear Hx as [|? ? [K _] _]. exact K. }
    assert (Cl : Forall clean_part (body_parts x (today h) dialog false a)) by now apply clean_body.
    destruct (C56_anonymous_requests render today signed_at enveloped_at x h dialog number a W Hj Ht) as (w&E&Hw).
    { eapply Forall_impl; [exact clean_tidy|]. exact Cl. }
    exists w. split; [exact E|]. intros Hl. specialize (Hw Hl). cbv zeta. rewrite Hw at 1. unfold anonymous_message. rewrite numbered_parts, framed_parts.
    apply finds_parts. apply Forall_cons; [split; [reflexivity|repeat constructor]|]. apply Forall_app.
    split; [|apply Forall_cons; [split; [reflexivity|repeat constructor]|apply Forall_nil]]. apply counted_fit.
    apply Forall_forall. intros p Hi. split; [|now apply clean_tidy, (proj1 (Forall_forall _ _) Cl)].
    clear - Hi. destruct a as [client|client system bpd upd|v mark|]; cbn [body_parts app In] in Hi;
      repeat (destruct Hi as [<-|Hi]; [first [reflexivity|destruct v; reflexivity]|]); destruct Hi.
  Qed.
End C64.

(** Two signed requests - of any callers, in any dialogs, at any time - with the same bytes ask
    for the same, in the same dialog with the same number, for the same user with the same PIN. *)
Theorem C64_same_bytes : forall render render' today today' at1 at1' at2 at2' x x' h h' dialog dialog' number number' a a' s s' c c' w,
  sends today at1 at2 x h dialog a -> sends today' at1' at2' x' h' dialog' a' -> keeps s -> keeps s' -> keeps c -> keeps c' ->
  int_values x number a -> int_values x' number' a' ->
  request_bytes render (settings_for x) today at1 at2 h (mkRq (kind_for dialog a) (utf8 dialog) number (Some (provider_for s)) (Some (provider_for c))) = Ok w ->
  request_bytes render' (settings_for x') today' at1' at2' h' (mkRq (kind_for dialog' a') (utf8 dialog') number' (Some (provider_for s')) (Some (provider_for c'))) = Ok w ->
  len w < 10 ^ 12 ->
  same_ask (today h) (today' h') a a' /\ dialog = dialog' /\ number = number' /\ same_who x x' /\ s = s' /\ sc_system c = sc_system c'.
Proof.
  intros render render' today today' at1 at1' at2 at2' x x' h h' dialog dialog' number number' a a' s s' c c' w S S' Ks Ks' Kc Kc' I I' E E' Hl.
  destruct (C64_signed_read render today at1 at2 x h dialog number a s c S Ks Kc) as (r&u&_&Eu&H). rewrite E in Eu. injection Eu as <-. specialize (H Hl).
  destruct (C64_signed_read render' today' at1' at2' x' h' dialog' number' a' s' c' S' Ks' Kc') as (r'&u'&_&Eu'&H'). rewrite E' in Eu'. injection Eu' as <-. specialize (H' Hl).
  cbv zeta in H, H'. set (l := signed_parts x (today h) dialog s r (at1 h) a) in *. set (l' := signed_parts x' (today' h') dialog' s' r' (at1' h') a') in *.
  destruct H as [H1 H2], H' as [H1' H2']. destruct (finds_unique _ _ _ H1 H1') as [_ V].
  pose proof (given_same _ _ 0 _ _ _ _ V eq_refl eq_refl) as P0. pose proof (given_same _ _ 1 _ _ _ _ V eq_refl eq_refl) as P1.
  pose proof (given_same _ _ 2 _ _ _ _ V eq_refl eq_refl) as P2.
  assert (Ec : numbered 2 l = numbered 2 l').
  { clear - P2. clearbody l l'. destruct P2 as (_&_&P2). specialize (P2 0%nat 0%nat). unfold field_value in P2. cbn [pt_fields nth nth_error item_value] in P2. now injection P2. }
  rewrite <- Ec, !numbered_parts in H2'. rewrite numbered_parts in H2. apply (counted_same 2 l l' H2) in H2'. clear H2 P2 V H1 H1'.
  assert (A : Forall2 same_part (body_parts x (today h) dialog true a) (body_parts x' (today' h') dialog' true a') /\
              same_part (signature_header x s r (at1 h)) (signature_header x' s' r' (at1' h')) /\
              same_part (signature_end x s r) (signature_end x' s' r')).
  { unfold l, l', signed_parts in H2'. inversion_clear H2' as [|? ? ? ? Q1 Q2]. apply Forall2_app_inv_l in Q2. destruct Q2 as (b1&b2&F1&F2&Eq).
    inversion F2 as [|? y ? ? G1 G2 Q4 Q5]. inversion G2. subst. apply app_inj_tail in Eq. destruct Eq as [<- <-]. repeat split; try assumption; try apply Q1; apply G1. }
  destruct A as (A1&(_&_&A2)&(_&_&A3)). destruct P0 as (_&_&P0), P1 as (_&_&P1).
  destruct S as (Hb&Hx&Ha&Hta&Hda&Ht&Hy&_), S' as (Hb'&Hx'&Ha'&Hta'&Hda'&Ht'&Hy'&_).
  unfold int_values in I, I'. cbn [app] in I, I'.
  repeat match goal with K : Forall _ (wh_version _ :: _) |- _ => inversion_clear K | K : Forall _ (wh_country _ :: _) |- _ => inversion_clear K | K : Forall _ (number :: _) |- _ => inversion_clear K | K : Forall _ (number' :: _) |- _ => inversion_clear K end.
  split; [apply (body_same x x' _ _ dialog dialog' a a') with (signed := true); try assumption; discriminate|].
  split; [val P0 2%nat 0%nat; assumption|]. split; [val P0 3%nat 0%nat; now apply itoa_inj|].
  assert (Ev : wh_version x = wh_version x') by (val P0 1%nat 0%nat; now apply itoa_inj).
  unfold same_who. split; [|split].
  - split; [exact Ev|]. unfold envelope_header, profile_field in P1. rewrite <- Ev in P1. destruct (wh_version x =? 300); cbn [app] in P1.
    + val P1 6%nat 0%nat. val P1 6%nat 1%nat. val P1 6%nat 2%nat. split; [now apply itoa_pad_inj in V|]. now split.
    + val P1 5%nat 0%nat. val P1 5%nat 1%nat. val P1 5%nat 2%nat. split; [now apply itoa_pad_inj in V|]. now split.
  - val A3 2%nat 0%nat. unfold signature_header, profile_field in A2. rewrite <- Ev in A2.
    assert (sc_system s = sc_system s' /\ sc_function s = sc_function s') as [F1 F2].
    { destruct (wh_version x =? 300); cbn [app] in A2.
      - val A2 1%nat 0%nat. val A2 5%nat 2%nat. now split.
      - val A2 0%nat 0%nat. val A2 4%nat 2%nat. now split. }
    destruct s as [p1 p2 p3], s' as [q1 q2 q3]. cbn [sc_pin sc_system sc_function] in *. congruence.
  - unfold envelope_header, profile_field in P1. rewrite <- Ev in P1. destruct (wh_version x =? 300); cbn [app] in P1.
    + val P1 3%nat 2%nat. assumption.
    + val P1 2%nat 2%nat. assumption.
Qed.
(** The same for two requests of anonymous dialogs, which name no user. *)
Theorem C64_same_bytes_anonymous : forall render render' today today' at1 at1' at2 at2' x x' h h' dialog dialog' number number' a a' w,
  sends today at1 at2 x h dialog a -> sends today' at1' at2' x' h' dialog' a' -> (forall v mark, a <> QJob v mark) -> (forall v mark, a' <> QJob v mark) ->
  int_values x number a -> int_values x' number' a' ->
  request_bytes render (settings_for x) today at1 at2 h (mkRq (kind_for dialog a) (utf8 dialog) number None None) = Ok w ->
  request_bytes render' (settings_for x') today' at1' at2' h' (mkRq (kind_for dialog' a') (utf8 dialog') number' None None) = Ok w ->
  len w < 10 ^ 12 ->
  same_ask (today h) (today' h') a a' /\ dialog = dialog' /\ number = number' /\ wh_version x = wh_version x'.
Proof.
  intros render render' today today' at1 at1' at2 at2' x x' h h' dialog dialog' number number' a a' w S S' J J' I I' E E' Hl.
  destruct (C64_anonymous_read render today at1 at2 x h dialog number a S J) as (u&Eu&H). rewrite E in Eu. injection Eu as <-. specialize (H Hl).
  destruct (C64_anonymous_read render' today' at1' at2' x' h' dialog' number' a' S' J') as (u'&Eu'&H'). rewrite E' in Eu'. injection Eu' as <-. specialize (H' Hl).
  cbv zeta in H, H'. destruct (finds_unique _ _ _ H H') as [L V]. cbn [List.length] in L. rewrite !app_length, !counted_length in L. cbn [List.length] in L.
  pose proof (given_same _ _ 0 _ _ _ _ V eq_refl eq_refl) as (_&_&P0).
  destruct S as (Hb&Hx&Ha&Hta&Hda&Ht&Hy&_), S' as (Hb'&Hx'&Ha'&Hta'&Hda'&Ht'&Hy'&_). unfold int_values in I, I'. cbn [app] in I, I'.
  repeat match goal with K : Forall _ (wh_version _ :: _) |- _ => inversion_clear K | K : Forall _ (wh_country _ :: _) |- _ => inversion_clear K | K : Forall _ (number :: _) |- _ => inversion_clear K | K : Forall _ (number' :: _) |- _ => inversion_clear K end.
  split.
  - apply (body_same x x' _ _ dialog dialog' a a') with (signed := false); try assumption; [|now split].
    set (l := body_parts x (today h) dialog false a) in *. set (l' := body_parts x' (today' h') dialog' false a') in *.
    assert (G : forall i p p', nth_error l i = Some p -> nth_error l' i = Some p' -> same_part p p').
    { intros i p p' Ep Ep'. apply (given_same _ _ (Datatypes.S i) (2 + Z.of_nat i) (2 + Z.of_nat i) p p' V); cbn [nth_error];
        (rewrite nth_error_app1; [rewrite counted_nth; rewrite ?Ep, ?Ep'; reflexivity|rewrite counted_length; apply nth_error_Some; congruence]). }
    assert (L' : List.length l = List.length l') by lia. clear - L' G. clearbody l l'. revert l' L' G.
    induction l as [|p l IH]; intros [|p' l'] L G; try discriminate; [constructor|]. constructor; [apply (G O); reflexivity|].
    apply IH; [now injection L|]. intros i q q' Eq Eq'. now apply (G (Datatypes.S i)).
  - split; [val P0 2%nat 0%nat; assumption|]. split; [val P0 3%nat 0%nat; now apply itoa_inj|]. val P0 1%nat 0%nat. now apply itoa_inj.
Qed.

(** The PINs that end in '+' or ':' are the exception: these are not kept apart. *)
Theorem C64_every_pin_refuted : exists w, demo_bytes (B "12+") QEnd = Ok w /\ demo_bytes (B "12:") QEnd = Ok w.
Proof. destruct C56_pin_ending_refuted as (w&H1&H2&_). exists w. split; [exact H1|exact H2]. Qed.

(** An account number with a whole segment in it. *)
Example C64_witness :
  let evil := mkNat (B "1'HKUEB:4:5+2?@x") [] 280 (B "12345678") in
  let a := QJob (WBalances 5 evil false) (B "m1") in
  sends (fun _ => demo_day) (fun _ => demo_moment) (fun _ => demo_moment) demo_who [] (B "d1") a /\ keeps (demo_secret (B "12")) /\
  int_values demo_who 2 a /\
  given_value (counted 2 (signed_parts demo_who demo_day (B "d1") (demo_secret (B "12")) (B "b967e12b") demo_moment a)) 2 1 0 =
    chars (B "1'HKUEB:4:5+2?@x").
Proof.
  cbv zeta. split; [|split; [|split]].
  - split; [discriminate|]. split; [repeat (apply Forall_cons; [apply clean_rev; vm_compute; try exact I; split; discriminate|]); apply Forall_nil|].
    split; [exact I|]. split; [repeat (apply Forall_cons; [apply clean_rev; vm_compute; try exact I; split; discriminate|]); apply Forall_nil|].
    split; [apply Forall_nil|]. split; [vm_compute; repeat split; discriminate|]. split; [vm_compute; discriminate|].
    split; vm_compute; repeat split; try discriminate; reflexivity.
  - split; [repeat (apply Forall_cons; [apply clean_rev; vm_compute; try exact I; split; discriminate|]); apply Forall_nil|discriminate].
  - repeat (apply Forall_cons; [reflexivity|]). apply Forall_nil.
  - reflexivity.
Qed.

Print Assumptions C64_signed_read.
Print Assumptions C64_anonymous_read.
Print Assumptions C64_same_bytes.
Print Assumptions C64_same_bytes_anonymous.
Print Assumptions C64_every_pin_refuted.
