(** * Facts about the anonymous client *)
From Verif Require Import Base BaseFacts Lexer_Model Lexer_Spec Codec_Model Codec_Spec Codec_Proofs Wire_Model Wire_Spec
  Wire_Proofs Message_Model Message_Spec Message_Proofs Dialog_Model Dialog_Spec Dialog_Proofs Dialog_Facts Dialog_Facts2
  Merge_Model Client_Model Time_Model Seg_Model Seg_Spec
  Request_Model Request_Spec Request_Facts Request_Facts2 Request_Facts3 Request_Facts4 Seg_Facts Anon_Model Anon_Spec.
From Coq Require Import Lia ZifyBool ZifyNat ZifyN.
Open Scope Z_scope.

(** ** Bytes *)
Lemma institute_field i : clean_text (is_code i) -> marshal_opt (bank_de (institute_value i)) = Ok (group_wire (institute_items i)).
Proof.
  intros H.
  assert (T : tidy_field (institute_items i)).
  { apply last_present_clean. apply Forall_map. repeat apply Forall_cons; [| |apply Forall_nil]; apply clean_wire; auto. exact I. }
  unfold bank_de. flat_field (institute_items i).
Qed.
Lemma clean_institute i : clean_text (is_code i) -> Forall clean_item (institute_items i).
Proof. intros H. repeat apply Forall_cons; [exact I|exact H|apply Forall_nil]. Qed.

Section Bytes.
  Variable render : seg -> bytes.
  Variable x : who.
  Variable today : list (entry ajob) -> date.
  Variable signed_at enveloped_at : list (entry ajob) -> date * tod.
  Notation st := (settings_for x).
  Notation compose := (anon_bytes render st today signed_at enveloped_at).

  Lemma question_bytes h dialog number from to max : clean_text (is_code from) -> clean_text (is_code to) ->
    exists w, compose h (mkRq (KJob (inl (mkAccess (institute_value from) (institute_value to) max))) (utf8 dialog) number None None) = Ok w /\
      is_message w (fun size => anonymous_message x dialog number size [mkPart (B "HKKOM") 3 [institute_items from; institute_items to; [TNumber max]]]).
  Proof.
    intros Hf Ht. set (parts := [mkPart (B "HKKOM") 3 [institute_items from; institute_items to; [TNumber max]]]).
    set (a := mkAccess _ _ max). set (body := [Some (kom_seg a)]).
    assert (Sb : Forall2 shows (somes body) parts).
    { apply Forall2_cons; [|apply Forall2_nil]. apply shows_intro; [reflexivity|].
      apply shown_cons; [now apply institute_field|]. apply shown_cons; [now apply institute_field|].
      apply shown_cons; [exact (field_number _)|]. apply shown_absent, shown_nil. }
    assert (T : Forall tidy parts).
    { apply Forall_cons; [|apply Forall_nil]. apply clean_tidy. unfold clean_part. cbn [pt_fields].
      apply Forall_cons; [now apply clean_institute|]. apply Forall_cons; [now apply clean_institute|].
      apply Forall_cons; [|apply Forall_nil]. apply Forall_cons; [exact I|apply Forall_nil]. }
    unfold anon_bytes, is_message. cbn [rq_sig rq_crypt rq_kind common_kind rq_dialog rq_number]. fold body.
    destruct (body_positions body _ 1 Sb T) as (heap&ws&Hp&Hw&Hc).
    unfold set_positions, new_message. cbn [m_body m_header m_end m_heap m_cache m_sigbegin m_sigend]. rewrite Hp. cbn [obind].
    match goal with |- context [marshal_msg ?e] => pose proof (message_bytes x dialog number (parts_end parts) e (numbered 2 parts)) as M end.
    cbn [m_header m_end m_cache] in M. apply M; [reflexivity| |reflexivity|].
    - reflexivity.
    - unfold marshal_inner. cbn [m_body m_sigbegin marshal_optseg obind m_heap m_sigend].
      assert (Hm : marshal_body (pointers 0 body) heap = Ok (List.concat ws)).
      { apply marshal_body_iff. split; [apply no_interface|]. now exists ws. }
      rewrite Hm. cbn [obind app]. rewrite app_nil_r, Hc. reflexivity.
  Qed.

  Lemma plain_bytes h dialog number a : caller_ok x -> (forall w mark, a <> QJob w mark) -> (forall client, a <> QSync client) ->
    Forall clean_text (ask_texts dialog a) ->
    forall k, common_kind k = Some (kind_for dialog a) ->
    exists w, compose h (mkRq k (utf8 dialog) number None None) = Ok w /\
      is_message w (fun size => anonymous_message x dialog number size (body_parts x (mkDate 2000 1 1) dialog false a)).
  Proof.
    intros (C1&C2&C3&C4) Hj Hs Ht k Hk. set (day := fun _ : list (entry (Client_Model.job args)) => mkDate 2000 1 1).
    assert (R : real_date (mkDate 2000 1 1)) by (vm_compute; repeat split; discriminate).
    assert (T : Forall tidy (body_parts x (mkDate 2000 1 1) dialog false a)).
    { set (y := mkWho (wh_version x) (wh_country x) (wh_bank x) [] (wh_product x) (wh_product_version x)).
      assert (E : body_parts x (mkDate 2000 1 1) dialog false a = body_parts y (mkDate 2000 1 1) dialog false a)
        by (destruct a; reflexivity).
      rewrite E. eapply Forall_impl; [exact clean_tidy|]. apply clean_body; try assumption.
      - apply Forall_cons; [exact C2|]. apply Forall_cons; [apply (clean_B ""); exact I|]. apply Forall_cons; [exact C3|].
        apply Forall_cons; [exact C4|apply Forall_nil].
      - destruct a as [client|client system bpd upd|w mark|]; [apply Forall_nil|apply Forall_nil|now destruct (Hj w mark)|apply Forall_nil].
      - discriminate. }
    destruct (anonymous_bytes render x day (fun _ => signed_at h) (fun _ => enveloped_at h) (conj C1 (proj1 C2)) [] dialog number a Hj R T)
      as (w&E&M).
    exists w. split; [|exact M]. unfold anon_bytes. cbn [rq_kind rq_dialog rq_number rq_sig rq_crypt]. rewrite Hk.
    rewrite <- E. destruct a; reflexivity.
  Qed.
End Bytes.

(** ** The conversation *)
Section Extends.
  Context {J Acc : Type}.
  Variable compose : list (entry J) -> request J -> outcome bytes.
  Variable bank : list (entry J) -> outcome bytes.
  Variable others : bytes -> Z -> option (bytes -> outcome (oseg Acc)).
  Notation sign_any := (fun (_ : list (entry J)) (_ : request J) => Ok tt).
  Lemma job_extends (j : J) (w1 : world) : exists l,
    w_sent (fst (deferred (bind (exchange_plain compose bank others (fun _ => KJob j)) (fun m => bind (fail_on_error_acks m) (fun _ => ret m)))
                   (anonymous_end compose bank others) w1)) = w_sent w1 ++ l.
  Proof.
    unfold deferred. set (m := bind _ _).
    destruct (exchange_plain_cases sign_any compose bank others (fun _ => KJob j) w1) as [[G1 [G2 G3]]|[bs [G1 G2]]].
    + assert (S : w_sent (fst (m w1)) = w_sent w1).
      { unfold m, bind at 1. destruct (exchange_plain compose bank others (fun _ => KJob j) w1) as [w2 [a| |]]; cbn [fst snd] in *; rewrite ?G3; try reflexivity.
        exfalso. apply G2. now exists a. }
      destruct (m w1) as [w2 r2]. cbn [fst] in S. destruct (anonymous_ended sign_any compose bank others w2) as (ends&E1&_).
      destruct (anonymous_end compose bank others w2) as [w3 r3]. cbn [fst] in *. exists ends. now rewrite E1, S.
    + assert (S : exists e, w_sent (fst (m w1)) = w_sent w1 ++ [e]).
      { unfold m, bind at 1. rewrite G2. eexists.
        match goal with |- context [match ?o with Ok _ => _ | Err => _ | Panic => _ end] => destruct o as [y| |] end; [|reflexivity|reflexivity].
        unfold bind, fail_on_error_acks, lift. destruct (existsb _ _); reflexivity. }
      destruct S as (e&S). destruct (m w1) as [w2 r2]. cbn [fst] in S. destruct (anonymous_ended sign_any compose bank others w2) as (ends&E1&_).
      destruct (anonymous_end compose bank others w2) as [w3 r3]. cbn [fst] in *. exists ([e] ++ ends). now rewrite E1, S, <- app_assoc.
  Qed.
End Extends.
Section Conversation.
  Context {Acc : Type}.
  Variable render : seg -> bytes.
  Variable x : who.
  Variable today : list (entry ajob) -> date.
  Variable signed_at enveloped_at : list (entry ajob) -> date * tod.
  Variable bank : list (entry ajob) -> outcome bytes.
  Variable others : bytes -> Z -> option (bytes -> outcome (oseg Acc)).
  Notation compose := (anon_bytes render (settings_for x) today signed_at enveloped_at).
  Notation answered := (answered bank others).
  Notation sign_any := (fun (_ : list (entry ajob)) (_ : request ajob) => Ok tt).
  Hypothesis Hx : caller_ok x.
  Variables (from to : institute) (max : Z).
  Hypothesis (Hf : clean_text (is_code from)) (Ht : clean_text (is_code to)).
  Notation call := (communication_access render (settings_for x) today signed_at enveloped_at bank others
                      (institute_value from) (institute_value to) max).

  Lemma hello_sent (w : world) : exists i rest, w_sent (fst (call w)) = w_sent w ++ i :: rest /\
    is_message (snd i) (hello x (d_bpd_version (w_d w)) (upd_version (d_upd (w_d w)))).
  Proof.
    destruct (plain_bytes render x today signed_at enveloped_at (w_sent w) (B "0") 1
      (QInit (B "9999999999") (B "0") (d_bpd_version (w_d w)) (upd_version (d_upd (w_d w)))) Hx
      ltac:(discriminate) ltac:(discriminate)
      ltac:(repeat apply Forall_cons; try apply Forall_nil; apply clean_B; vm_compute; split; discriminate)
      (KInit (B "9999999999") (B "0") (d_bpd_version (w_d w)) (upd_version (d_upd (w_d w)))) eq_refl) as (bs&E&M).
    assert (U : utf8 (B "0") = B "0") by reflexivity. rewrite U in E.
    exists (mkRq (KInit (B "9999999999") (B "0") (d_bpd_version (w_d w)) (upd_version (d_upd (w_d w)))) (B "0") 1 None None, bs).
    pose proof (anonymous_cases sign_any compose bank others w) as C. cbv zeta in C.
    unfold communication_access, send_anonymous. unfold bind at 1.
    destruct C as [(C1&C2&C3)|(bi&C1&C2&_)].
    - exfalso. apply C1. exists bs. split; [intros K; now destruct K|]. exact E.
    - assert (bi = bs) as ->. { destruct C1 as [_ C1]. assert (K : Ok bi = Ok bs) by (rewrite <- C1, <- E; reflexivity). now injection K. }
      destruct (anonymous_init compose bank others w) as [w1 r1]. cbn [fst snd] in C2.
      match goal with |- context [fst (match r1 with Ok a => ?f | Err => _ | Panic => _ end)] => set (g := f) end.
      assert (G : exists l, w_sent (fst g) = w_sent w1 ++ l) by (unfold g; apply (job_extends compose bank others)).
      destruct G as (l&G). destruct r1 as [a| |]; cbn [fst].
      + exists l. split; [|exact M]. rewrite G, C2, <- app_assoc. reflexivity.
      + exists []. split; [exact C2|exact M].
      + exists []. split; [exact C2|exact M].
  Qed.

  Lemma conversation (w : world) : exists i rest, w_sent (fst (call w)) = w_sent w ++ i :: rest /\
    is_message (snd i) (hello x (d_bpd_version (w_d w)) (upd_version (d_upd (w_d w)))) /\
    ((~ exists m, answered (w_sent w) i m /\ usable_anonymous m) -> rest = [] /\ ~ is_ok (snd (call w))) /\
    (forall m D, answered (w_sent w) i m -> usable_anonymous m -> assigns m (utf8 D) -> clean_text D ->
       exists j e, rest = [j; e] /\ is_message (snd j) (question x D from to max) /\ is_message (snd e) (goodbye x D) /\
         (forall y, snd (call w) = Ok y -> answered (w_sent w ++ [i]) j y /\ ~ has_error y) /\
         (forall y, answered (w_sent w ++ [i]) j y -> ~ has_error y -> snd (call w) = Ok y \/ snd (call w) = Panic)).
  Proof.
    destruct (hello_sent w) as (i&rest&Es&M). exists i, rest. split; [exact Es|]. split; [exact M|].
    destruct (anonymous_summary sign_any compose bank others (inl (mkAccess (institute_value from) (institute_value to) max)) w)
      as [[H1 H2]|[i' [H1 [H2 [H3 [[H4 [H5 H6]]|[m [D [jobs [ends [A1 [A2 [A3 [A4 [A5 A6]]]]]]]]]]]]]]].
    - exfalso. change (w_sent (fst (call w)) = w_sent w) in H2. rewrite H2 in Es. rewrite <- (app_nil_r (w_sent w)) in Es at 1. apply app_inv_head in Es. discriminate.
    - change (w_sent (fst (call w)) = w_sent w ++ [i']) in H5. rewrite H5 in Es. apply app_inv_head in Es. injection Es as <- <-. split; [auto|].
      intros m D A U _ _. exfalso. apply H6. now exists m.
    - change (w_sent (fst (call w)) = w_sent w ++ [i'] ++ jobs ++ ends) in A4. rewrite A4 in Es. apply app_inv_head in Es. injection Es as <- <-. split.
      { intros K. exfalso. apply K. now exists m. }
      intros m' D' A U As Hc. pose proof (answered_fun _ _ _ _ _ _ A1 A) as <-.
      assert (D = utf8 D') as -> by (unfold assigns in *; congruence).
      destruct A6 as [(_&K&_)|(bs&->&B1&B2&B3)].
      { exfalso. apply K. destruct (question_bytes render x today signed_at enveloped_at (w_sent w ++ [i']) D' 2 from to max Hf Ht) as (b&E&_).
        exists b. split; [intros N; now destruct N|exact E]. }
      destruct A5 as [(_&K)|(be&->&B4)].
      { exfalso. apply K.
        destruct (plain_bytes render x today signed_at enveloped_at (w_sent w ++ [i'] ++ [(mkRq (KJob (inl (mkAccess (institute_value from) (institute_value to) max))) (utf8 D') 2 None None, bs)]) D' 3 QEnd Hx
          ltac:(discriminate) ltac:(discriminate) ltac:(apply Forall_cons; [exact Hc|apply Forall_nil]) (KEnd (utf8 D')) eq_refl) as (b&E&_).
        exists b. split; [intros N; now destruct N|exact E]. }
      eexists. eexists. split; [reflexivity|]. cbn [snd]. split; [|split; [|split; [exact B2|exact B3]]].
      + destruct B1 as [_ B1]. destruct (question_bytes render x today signed_at enveloped_at (w_sent w ++ [i']) D' 2 from to max Hf Ht) as (b&E&Q).
        assert (b = bs) as <-; [|exact Q]. assert (K : Ok b = Ok bs) by (rewrite <- E, <- B1; reflexivity). now injection K.
      + destruct B4 as [_ B4].
        destruct (plain_bytes render x today signed_at enveloped_at (w_sent w ++ [i'] ++ [(mkRq (KJob (inl (mkAccess (institute_value from) (institute_value to) max))) (utf8 D') 2 None None, bs)]) D' 3 QEnd Hx
          ltac:(discriminate) ltac:(discriminate) ltac:(apply Forall_cons; [exact Hc|apply Forall_nil]) (KEnd (utf8 D')) eq_refl) as (b&E&Q).
        assert (b = be) as <-; [|exact Q]. assert (K : Ok b = Ok be) by (rewrite <- E, <- B4; reflexivity). now injection K.
  Qed.
End Conversation.
