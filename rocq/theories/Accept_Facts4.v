(** * Facts about which segments can be read: the readers of the segments *)
From Verif Require Import Base BaseFacts Lexer_Model Lexer_Spec Lexer_Proofs Lexer_Facts
  Codec_Model Codec_Spec Codec_Proofs Codec_Props Wire_Model Wire_Spec Wire_Proofs Wire_Facts Wire_Facts2 Wire_Facts3
  Message_Model Message_Spec Message_Proofs Message_Facts Message_Facts2 Message_Facts3
  Dialog_Model Seg_Model Seg_Spec Seg_Facts Seg_Facts2 Seg_Facts3 Seg_Facts4 Seg_Facts5 Seg_Props2
  Accept_Spec Accept_Facts Accept_Facts2 Accept_Facts3.
From Coq Require Import Lia ZifyBool ZifyNat ZifyN.
Open Scope Z_scope.
Ltac Zify.zify_post_hook ::= Z.div_mod_to_equations.

Definition done {A} (o : outcome A) : outcome unit := omap (fun _ => tt) o.
Lemma done_ok {A E} (o : outcome A) (f : A -> E) : done (do x <- o; Ok (f x)) = done o.
Proof. destruct o; reflexivity. Qed.
Lemma done_done {A E} (o : outcome A) (o' : outcome E) P C : done o = done o' -> judged o' P C -> judged o P C.
Proof. intros H J. eapply judged_done; [exact J|]. symmetry. exact H. Qed.
Lemma done_unit (o : outcome unit) : done o = o.
Proof. destruct o as [[]| |]; reflexivity. Qed.
Lemma done_segment {A} (k : list bytes -> outcome A) k' s : (forall es, done (k es) = k' es) -> done (segment_fields k s) = segment_fields k' s.
Proof.
  intros H. unfold segment_fields. destruct (segment_extract s) as [[|h es]| |]; try reflexivity. cbn [obind].
  destruct (unmarshal_header h); try reflexivity. apply H.
Qed.
Lemma fits_done {A E} (r : bytes -> outcome A) (r' : bytes -> outcome E) f : fits r f -> (forall w, done (r' w) = done (r w)) -> fits r' f.
Proof. intros H K e H1 H2 H3. eapply done_done; [apply K|]. now apply H. Qed.

Section Segments.
  Context {F : Type} (parse_float : bytes -> option F) (neg : F -> F).
  Definition fits_opt (r : option reader) (f : form) : Prop :=
    match r with Some r => fits (projT2 r) f | None => forall w, accepts f w /\ ~ crashes f w end.
  Definition entry (x : bytes * Z * list form) : Prop :=
    forallb alnum (fst (fst x)) = true /\ 0 <= snd (fst x) <= 99 /\
    exists rs, List.length rs = List.length (snd x) /\
      (forall s, done (read_as parse_float neg (fst (fst x)) (snd (fst x)) s) = segment_fields (chain rs 1) s) /\
      Forall2 fits_opt rs (snd x).

  Lemma skip_text : fits_opt None a_text.
  Proof. intros w. split; [exact I|]. intros []. Qed.
  Lemma fits_hisal_account v : fits (fun w => if v <? 7 then omap National (unmarshal_connection w) else omap International (unmarshal_intl w))
    (if v <? 7 then an_account else an_iban).
  Proof.
    destruct (v <? 7).
    - eapply fits_done; [apply fits_account|]. intros w. destruct (unmarshal_connection w); reflexivity.
    - eapply fits_done; [apply fits_iban|]. intros w. destruct (unmarshal_intl w); reflexivity.
  Qed.
  Ltac literal t := let r := eval cbv in t in lazymatch r with true => change t with true | false => change t with false end.
  Ltac settle := repeat match goal with
    | |- context [bytes_eqb (B ?a) (B ?b)] => literal (bytes_eqb (B a) (B b))
    | |- context [Z.eqb ?a ?b] => literal (Z.eqb a b)
    | |- context [Z.ltb ?a ?b] => literal (Z.ltb a b)
    | |- context [Z.leb ?a ?b] => literal (Z.leb a b)
    end; cbn [orb andb]; cbv iota.
  Ltac alike := lazymatch goal with
    | |- context [obind (field ?k ?f ?es) _] => destruct (field k f es); [cbn [obind]; alike|reflexivity|reflexivity]
    | |- context [obind (last_field ?k ?f ?es) _] => destruct (last_field k f es); [cbn [obind]; alike|reflexivity|reflexivity]
    | |- _ => reflexivity
    end.
  Ltac fit1 := lazymatch goal with
    | |- fits_opt None _ => exact skip_text
    | |- fits_opt (Some (rd ?r)) ?f => change (fits r f); lazymatch f with
      | a_text => exact fits_text | a_number => exact fits_number | a_day => exact fits_day | a_time => exact fits_time
      | a_flag => exact fits_flag | a_binary => exact fits_binary | crash => exact fits_crash
      | a_bank => exact fits_bank
      | an_account => lazymatch r with unmarshal_connection => exact fits_account | _ => exact (fits_hisal_account 5) end
      | an_iban => exact (fits_hisal_account 7)
      | small_numbers => exact fits_small_numbers | numbers => exact fits_numbers | a_reference => exact fits_reference
      | an_acknowledgement => exact (fits_acknowledgement true 0)
      | pin_parameters => exact fits_pin_parameters | tan_parameters => exact fits_tan_parameters
      | security_methods => exact fits_methods | security_profile => exact fits_profile
      | security_identification => exact fits_security_id | security_date => exact fits_security_date
      | hash_algorithm => exact fits_hash_algorithm | signature_algorithm => exact fits_signature_algorithm
      | key_name => exact fits_key_name | encryption_algorithm => exact fits_encryption_algorithm
      | pin_and_tan => exact fits_pin_tan | own_signature => exact fits_own_signature
      | a_value _ => exact (fits_money parse_float) | an_amount _ => exact (fits_amount parse_float)
      | a_balance _ => exact (fits_balance parse_float neg)
      end
    end.
  Ltac fit := lazymatch goal with
    | |- Forall2 _ (_ :: _) (_ :: _) => apply Forall2_cons; [fit1|fit]
    | |- Forall2 _ [] [] => apply Forall2_nil
    end.
  Ltac start := unfold entry; cbn [fst snd]; split; [reflexivity|]; split; [lia|].
  Ltac same := intros s; unfold read_as, others; cbv zeta; settle; rewrite done_ok;
    unfold unmarshal_hisyn, unmarshal_hitans, unmarshal_hibpa, unmarshal_hipins, unmarshal_hiupa, unmarshal_hisal, unmarshal_hikaz,
      unmarshal_hipro, unmarshal_hitan, unmarshal_hikim, unmarshal_hikif, unmarshal_hikom, unmarshal_hishv, unmarshal_hikpv,
      unmarshal_hnshk, unmarshal_hnsha, unmarshal_hnvsk, unmarshal_hnhbs;
    apply done_segment; intros es; cbv zeta; settle; cbn [chain rd projT1 projT2 Nat.add obind]; alike.
  Ltac by_readers l := start; exists l; split; [reflexivity|]; split; [same|fit].

  Notation T := (Some (rd text)).
  Notation N := (Some (rd unmarshal_int)).
  Notation D := (Some (rd unmarshal_date)).
  Notation C := (Some (rd unmarshal_time)).
  Notation A := (Some (rd (unmarshal_amount parse_float))).
  Notation L := (Some (rd (unmarshal_balance parse_float neg))).
  Notation V := (Some (rd (unmarshal_value parse_float))).
  Notation Bin := (Some (rd unmarshal_binary)).
  Notation X := (Some (rd (fun _ : bytes => @Panic unit))).
  Notation Acc v := (Some (rd (fun w => if v <? 7 then omap National (unmarshal_connection w) else omap International (unmarshal_intl w)))).
  Lemma entries : Forall entry (segments parse_float).
  Proof.
    unfold segments, balances, signature_header, encryption_header, bank_parameters; cbn [app].
    apply Forall_cons; [by_readers ([T; N; N] : list (option reader))|].
    apply Forall_cons; [by_readers ([T; N; N] : list (option reader))|].
    apply Forall_cons; [by_readers ([N; N; T; Some (rd unmarshal_tan_params)] : list (option reader))|].
    apply Forall_cons; [by_readers ([N; Some (rd unmarshal_bank); T; N; Some (rd unmarshal_languages); Some (rd unmarshal_versions); N] : list (option reader))|].
    apply Forall_cons; [by_readers ([N; Some (rd unmarshal_bank); T; N; Some (rd unmarshal_languages); Some (rd unmarshal_versions); N; N; N] : list (option reader))|].
    apply Forall_cons; [by_readers ([N; N; N; Some (rd unmarshal_pin_params)] : list (option reader))|].
    apply Forall_cons; [by_readers ([T; N; N] : list (option reader))|].
    apply Forall_cons; [by_readers ([T; N; N; T; T] : list (option reader))|].
    apply Forall_cons; [by_readers ([T; N; N; T; T] : list (option reader))|].
    apply Forall_cons; [by_readers ([Acc 5; T; T; L; L; A; A; A; D; C; D] : list (option reader))|].
    apply Forall_cons; [by_readers ([Acc 6; T; T; L; L; A; A; A; D; C; D] : list (option reader))|].
    apply Forall_cons; [by_readers ([Acc 7; T; T; L; L; A; A; A; D; C; D] : list (option reader))|].
    apply Forall_cons; [by_readers ([Acc 8; T; T; L; L; A; A; A; D; C; D; A] : list (option reader))|].
    apply Forall_cons; [by_readers ([Bin; Bin] : list (option reader))|].
    apply Forall_cons; [by_readers ([Bin; Bin] : list (option reader))|].
    apply Forall_cons; [by_readers ([Bin; Bin] : list (option reader))|].
    apply Forall_cons; [by_readers ([Some (rd unmarshal_ref); N; D; C; Some (rd (unmarshal_ack true 0))] : list (option reader))|].
    apply Forall_cons; [by_readers ([Some (rd unmarshal_ref); N; D; C; Some (rd (unmarshal_ack true 0))] : list (option reader))|].
    apply Forall_cons; [by_readers ([T; Bin; T] : list (option reader))|].
    apply Forall_cons; [by_readers ([T; T] : list (option reader))|].
    apply Forall_cons; [by_readers ([Some (rd unmarshal_connection); N; T; T; T; T; D; V; V; V; A; Some (rd unmarshal_connection); N; N; T; X] : list (option reader))|].
    apply Forall_cons; [by_readers ([Some (rd unmarshal_bank); N; X] : list (option reader))|].
    apply Forall_cons; [by_readers ([Some (rd unmarshal_bool); Some (rd unmarshal_methods)] : list (option reader))|].
    apply Forall_cons; [by_readers ([X] : list (option reader))|].
    apply Forall_cons; [by_readers ([None; None; None; None; Some (rd unmarshal_security_id); N; Some (rd unmarshal_security_date); Some (rd unmarshal_hash_algorithm); Some (rd unmarshal_signature_algorithm); Some (rd unmarshal_key_name); Some (rd unmarshal_certificate)] : list (option reader))|].
    apply Forall_cons; [by_readers ([Some (rd unmarshal_profile); None; None; None; None; Some (rd unmarshal_security_id); N; Some (rd unmarshal_security_date); Some (rd unmarshal_hash_algorithm); Some (rd unmarshal_signature_algorithm); Some (rd unmarshal_key_name); Some (rd unmarshal_certificate)] : list (option reader))|].
    apply Forall_cons; [by_readers ([None; Bin; Some (rd unmarshal_pin_tan)] : list (option reader))|].
    apply Forall_cons; [by_readers ([None; Bin; Some (rd unmarshal_custom_signature)] : list (option reader))|].
    apply Forall_cons; [by_readers ([None; None; Some (rd unmarshal_security_id); Some (rd unmarshal_security_date); Some (rd unmarshal_encryption_algorithm); Some (rd unmarshal_key_name); None; Some (rd unmarshal_certificate)] : list (option reader))|].
    apply Forall_cons; [by_readers ([Some (rd unmarshal_profile); None; None; Some (rd unmarshal_security_id); Some (rd unmarshal_security_date); Some (rd unmarshal_encryption_algorithm); Some (rd unmarshal_key_name); None; Some (rd unmarshal_certificate)] : list (option reader))|].
    apply Forall_cons; [|apply Forall_cons; [|apply Forall_cons; [by_readers ([N] : list (option reader))|apply Forall_nil]]].
    - start. exists [Bin]. split; [reflexivity|]. split; [|fit]. intros s. unfold read_as, others. cbv zeta. settle. rewrite done_ok.
      unfold unmarshal_data_seg, segment_fields. destruct (segment_extract s) as [[|h [|[|x w] r]]| |]; try reflexivity; cbn [obind];
        (destruct (unmarshal_header h); try reflexivity); cbn [obind chain rd projT1 projT2].
    - start. exists [N; N; T; N; Some (rd unmarshal_ref)]. split; [reflexivity|]. split; [|fit]. intros s. unfold read_as, others. cbv zeta. settle. rewrite done_ok.
      unfold unmarshal_msg_header, segment_fields. destruct (segment_extract s) as [[|h es']| |]; try reflexivity. cbn [obind].
      destruct (unmarshal_header h) as [hd| |]; try reflexivity. cbn [obind].
      set (es := h :: es'). cbn [chain rd projT1 projT2]. unfold field, last_field. change (fun w => Ok (unmarshal_text w)) with text.
      do 5 (lazymatch goal with |- _ = obind (opt_parse ?f ?o) _ => destruct (opt_parse f o); cbn [obind]; [|reflexivity|reflexivity] end). reflexivity.
  Qed.
End Segments.
