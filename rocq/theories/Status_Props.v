(** * C84: the text of a status report *)
From Verif Require Import Base BaseFacts Lexer_Model Codec_Model Codec_Spec Wire_Spec Message_Model Message_Spec Dialog_Model Seg_Model Seg_Spec
  Client_Model Answer_Spec Lexer_Spec Seg_Props  Kept_Props Status_Model Status_Spec.
From Coq Require Import Lia.
Open Scope Z_scope.

Lemma join_each sep p ps : join sep (p :: ps) = p ++ flat_map (fun q => sep ++ q) ps.
Proof.
  revert p. induction ps as [|q ps IH]; intros p; [cbn; now rewrite app_nil_r|]. rewrite join_cons, IH. cbn [flat_map]. now rewrite <- app_assoc.
Qed.

(** The text says all there is, in order. *)
Theorem C84_text : forall moment s, reports (status_string moment s) (sa_ack s) (moment (sa_at s)).
Proof.
  intros moment [a at_]. cbn [sa_ack sa_at].
  exists (if ack_for_message a then B "MessageAcknowledgement" else B "SegmentAcknowledgement"),
    (if 0 <? ack_ref_seg a then B ", segment " ++ itoa (ack_ref_seg a) else []),
    (match ack_elem a with [] => B "none" | e => e end),
    (match ack_params a with [] => [] | ps => B ", Parameters: " ++ join (B ", ") ps end).
  split; [|split; [reflexivity|split; [|split]]].
  - unfold status_string. cbv zeta. cbn [sa_ack sa_at]. f_equal. f_equal. f_equal. f_equal. f_equal. f_equal.
    destruct (0 <? ack_ref_seg a); destruct (ack_elem a); repeat rewrite <- app_assoc; reflexivity.
  - destruct (Z.ltb_spec 0 (ack_ref_seg a)); auto.
  - destruct (ack_elem a); [left; auto|right; split; [discriminate|reflexivity]].
  - destruct (ack_params a) as [|p ps]; [left; auto|right]. exists p, ps. split; [reflexivity|]. now rewrite join_each.
Qed.
(** A report only says one thing. *)
Theorem C84_one_text : forall a t line line', reports line a t -> reports line' a t -> line = line'.
Proof.
  intros a t line line' (w&sg&p&ps&->&->&Hs&Hp&Hps) (w'&sg'&p'&ps'&->&->&Hs'&Hp'&Hps').
  assert (sg = sg') as -> by (destruct Hs as [[? ->]|[? ->]], Hs' as [[? ->]|[? ->]]; solve [reflexivity|lia]).
  assert (p = p') as -> by (destruct Hp as [[? ->]|[? ->]], Hp' as [[? ->]|[? ->]]; solve [reflexivity|contradiction]).
  assert (ps = ps') as ->; [|reflexivity].
  destruct Hps as [[E ->]|(x&l&E&->)], Hps' as [[E' ->]|(x'&l'&E'&->)]; rewrite E in E'; try discriminate E'; [reflexivity|].
  injection E' as <- <-. reflexivity.
Qed.
(** The text of an entry of the bank's status protocol, from the bank's bytes on. *)
Theorem C84_from_bank : forall moment pos ref v s now a,
  header_ok pos ref -> kept_ok (KStatus v s) ->
  Z.of_nat (List.length (kept_segment pos ref (KStatus v s))) < 2 ^ 61 -> status_about s = Some a ->
  exists r, status_in now (kept_segment pos ref (KStatus v s)) = Ok r /\
    reports (status_string moment r) a (moment (date_instant (st_day s) + within_int64 (now - time_of_day (st_time s)))).
Proof.
  intros moment pos ref v s now a Hh Hk Hl Ha. rewrite C59_status_delivered by assumption. rewrite Ha. eexists. split; [reflexivity|]. apply C84_text.
Qed.

(** The text is one line exactly if all texts of the bank are (parameters as well: unlike
    those of other acknowledgements they are not quoted). *)
Lemma itoa_line z : ~ In x0a (itoa z).
Proof.
  assert (D : forall n, ~ In x0a (itoa_N n)).
  { intros n Hi. destruct (itoa_N_spec n) as (_&D&_). rewrite forallb_forall in D. apply D in Hi. vm_compute in Hi. discriminate Hi. }
  intros Hi. unfold itoa in Hi. destruct (z <? 0); [destruct Hi as [X|Hi]; [discriminate X|]|]; exact (D _ Hi).
Qed.
Lemma no_feed (t : bytes) : existsb (Byte.eqb x0a) t = false -> (In x0a t <-> False).
Proof.
  intros E. split; [|intros []]. intros Hi. assert (existsb (Byte.eqb x0a) t = true); [|congruence]. apply existsb_exists. exists x0a. split; [exact Hi|reflexivity].
Qed.
Theorem C84_lines : forall moment s, ~ In x0a (moment (sa_at s)) ->
  (In x0a (status_string moment s) <-> exists t, In t (texts_of (sa_ack s)) /\ In x0a t).
Proof.
  intros moment s Hm. pose proof (C84_text moment s) as H. revert H. generalize (status_string moment s). intros line (w&sg&p&ps&->&->&Hs&Hp&Hps).
  set (a := sa_ack s) in *.
  assert (Kw : In x0a (if ack_for_message a then B "MessageAcknowledgement" else B "SegmentAcknowledgement") <-> False) by (destruct (ack_for_message a); apply no_feed; reflexivity).
  assert (Ks : In x0a sg <-> False).
  { destruct Hs as [[_ ->]|[_ ->]]; [tauto|]. rewrite in_app_iff. rewrite (no_feed (B ", segment ")) by reflexivity. pose proof (itoa_line (ack_ref_seg a)). tauto. }
  assert (Kp : In x0a p <-> In x0a (ack_elem a)).
  { destruct Hp as [[E ->]|[_ ->]]; [|reflexivity]. rewrite E. now apply no_feed. }
  assert (Kq : In x0a ps <-> exists t, In t (ack_params a) /\ In x0a t).
  { destruct Hps as [[E ->]|(q&l&E&->)]; rewrite E.
    - split; [intros []|intros (t&[]&_)].
    - rewrite !in_app_iff. rewrite (no_feed (B ", Parameters: ")) by reflexivity. rewrite in_flat_map. split.
      + intros [[]|[H|(t&Ht&H)]]; [exists q; split; [now left|exact H]|]. rewrite in_app_iff in H. rewrite (no_feed (B ", ")) in H by reflexivity. destruct H as [[]|H]. exists t. split; [now right|exact H].
      + intros (t&[->|Ht]&H); [tauto|]. right. right. exists t. split; [exact Ht|]. rewrite in_app_iff. now right. }
  rewrite !in_app_iff. rewrite Kw, Ks, Kp, Kq.
  rewrite (no_feed (B " for message ")), (no_feed (B " (")), (no_feed (B ")")), (no_feed (B ": Transmitted at: ")), (no_feed (B ", Code: ")), (no_feed (B ", Position: ")), (no_feed (B ", Text: '")), (no_feed (B "'")) by reflexivity.
  pose proof (itoa_line (snd (ack_ref_msg a))) as N1. pose proof (itoa_line (ack_code a)) as N2. unfold texts_of. split.
  - intros H. assert (K : In x0a (fst (ack_ref_msg a)) \/ In x0a (ack_elem a) \/ In x0a (ack_text a) \/ exists t, In t (ack_params a) /\ In x0a t) by tauto.
    destruct K as [K|[K|[K|(t&Ht&K)]]]; eexists; (split; [|exact K]); cbn; auto.
  - intros (t&[<-|[<-|[<-|Ht]]]&K); try tauto. assert (exists t, In t (ack_params a) /\ In x0a t) by (now exists t). tauto.
Qed.

(** What it says cannot always be told: a text of the bank may look like a text with a
    parameter, and a parameter with a comma like two. *)
Theorem C84_text_refuted : forall moment code elem m ref seg at_ text param,
  status_string moment (mkSA (mkAck code elem (text ++ B "', Parameters: " ++ param) [] m ref seg) at_) =
  status_string moment (mkSA (mkAck code elem text [param ++ B "'"] m ref seg) at_).
Proof.
  intros. unfold status_string. cbv zeta. cbn [sa_ack sa_at ack_for_message ack_ref_msg ack_ref_seg ack_code ack_elem ack_text ack_params join].
  do 12 f_equal. repeat rewrite <- app_assoc. reflexivity.
Qed.
Theorem C84_params_refuted : forall moment code elem text m ref seg at_ p q,
  status_string moment (mkSA (mkAck code elem text [p ++ B ", " ++ q] m ref seg) at_) =
  status_string moment (mkSA (mkAck code elem text [p; q] m ref seg) at_).
Proof. reflexivity. Qed.

(** Cases *)
Example C84_case :
  status_string (fun _ => B "now") (mkSA (mkAck 9210 (B "5,1") (B "Konto gesperrt") [B "x"; B "y"] false (B "abc", 3) 4) 0) =
    B "SegmentAcknowledgement for message 3 (abc), segment 4: Transmitted at: now, Code: 9210, Position: 5,1, Text: 'Konto gesperrt', Parameters: x, y" /\
  status_string (fun _ => B "now") (mkSA (mkAck 20 [] (B "ok") [] true ([], 0) 0) 0) =
    B "MessageAcknowledgement for message 0 (): Transmitted at: now, Code: 20, Position: none, Text: 'ok'" /\
  header_ok 4 (Some 3) /\ kept_ok (KStatus 4 sample_status) /\ Z.of_nat (List.length (kept_segment 4 (Some 3) (KStatus 4 sample_status))) < 2 ^ 61 /\
  exists a, status_about sample_status = Some a.
Proof.
  split; [reflexivity|]. split; [reflexivity|]. split; [unfold header_ok; lia|]. split.
  - unfold sample_status. split; [repeat (apply Forall_cons; [prove_items|]); apply Forall_nil|]. split; [lia|]. split; [split; [prove_items|prove_groupable]|].
    split; [cbn; lia|]; split; [split; [prove_items|prove_groupable]|discriminate].
  - split; [vm_compute; reflexivity|eexists; reflexivity].
Qed.

Print Assumptions C84_text.
Print Assumptions C84_one_text.
Print Assumptions C84_from_bank.
Print Assumptions C84_lines.
Print Assumptions C84_text_refuted.
Print Assumptions C84_params_refuted.
