(** * C59: status entries, TAN answers and announcements of the bank *)
From Verif Require Import Base BaseFacts Lexer_Model Lexer_Spec Lexer_Proofs Lexer_Facts
  Codec_Model Codec_Spec Codec_Proofs Codec_Props Wire_Model Wire_Spec Wire_Proofs Wire_Facts Wire_Facts2 Wire_Facts3
  Message_Model Message_Spec Message_Proofs Message_Facts Message_Facts2 Message_Facts3
  Dialog_Model Dialog_Spec Seg_Model Seg_Spec Seg_Facts Seg_Facts2 Seg_Facts3 Seg_Facts4 Seg_Facts5 Seg_Props Seg_Props2
  Client_Model Client_Spec Answer_Spec Kept_Facts Answer_Facts Answer_Facts2 Answer_Props.
From Coq Require Import Lia ZifyBool ZifyNat ZifyN.
Open Scope Z_scope.
Ltac Zify.zify_post_hook ::= Z.div_mod_to_equations.

(** ** The status protocol *)
(** Of an entry the return code is delivered with what it is about.  The instant is the
    midnight of its day plus the time that passed, at [now], since its time of day in the
    year 0, as far as 63 bits hold it. *)
Theorem C59_status_delivered : forall pos ref v s now,
  header_ok pos ref -> kept_ok (KStatus v s) ->
  Z.of_nat (List.length (kept_segment pos ref (KStatus v s))) < 2 ^ 61 ->
  status_in now (kept_segment pos ref (KStatus v s)) =
    match status_about s with
    | Some a => Ok (mkSA a (date_instant (st_day s) + within_int64 (now - time_of_day (st_time s))))
    | None => Panic
    end.
Proof.
  intros pos ref v s now Hh Hk Hl. unfold status_in, kept_segment. cbn [kept_id kept_version].
  rewrite hipro_read by assumption. cbn [obind]. unfold status_of, status_element, status_about. cbn [pr_ack pr_message pr_segment pr_date pr_time deref obind].
  assert (T : time_sub now (instant_of_tod (st_time s)) = within_int64 (now - time_of_day (st_time s))).
  { unfold time_sub, within_int64, int64_min, int64_max. replace (instant_of_tod (st_time s)) with (time_of_day (st_time s)); [|unfold instant_of_tod, time_of_day, ns_per_second, one_second; lia].
    repeat match goal with |- context [if ?b then _ else _] => destruct b eqn:?Hb end; lia. }
  destruct (st_message s) as [r|]; cbn [option_map].
  - destruct (st_segment s) as [n|]; cbn [deref obind]; [|reflexivity]. rewrite T. reflexivity.
  - cbn [obind]. rewrite T. reflexivity.
Qed.
Print Assumptions C59_status_delivered.
(** Since the year 293 that instant is 292 years after the day, whatever the time of day. *)
Theorem C59_status_time_refuted : forall pos ref v s now a,
  header_ok pos ref -> kept_ok (KStatus v s) ->
  Z.of_nat (List.length (kept_segment pos ref (KStatus v s))) < 2 ^ 61 ->
  2 ^ 63 + one_day <= now -> status_about s = Some a ->
  status_in now (kept_segment pos ref (KStatus v s)) = Ok (mkSA a (date_instant (st_day s) + (2 ^ 63 - 1))) /\
  date_instant (st_day s) + (2 ^ 63 - 1) <> date_instant (st_day s) + time_of_day (st_time s).
Proof.
  intros pos ref v s now a Hh Hk Hl Hn Ha. rewrite C59_status_delivered by assumption. rewrite Ha.
  assert (Ht : real_time (st_time s)).
  { destruct Hk as [Hi _]. cbn [kept_fields] in Hi. rewrite !Forall_cons_iff in Hi. destruct Hi as (_&_&_&(Ht&_)&_). exact Ht. }
  assert (T : 0 <= time_of_day (st_time s) < one_day).
  { destruct Ht as (H1&H2&H3). unfold time_of_day, one_day, one_second. lia. }
  unfold one_day, one_second in *. split; [|lia]. do 3 f_equal. unfold within_int64. lia.
Qed.
Print Assumptions C59_status_time_refuted.
(** An entry about a message as a whole crashes whoever asks for it. *)
Theorem C59_status_message_refuted : forall pos ref v s now r,
  header_ok pos ref -> kept_ok (KStatus v s) ->
  Z.of_nat (List.length (kept_segment pos ref (KStatus v s))) < 2 ^ 61 ->
  st_message s = Some r -> st_segment s = None ->
  status_in now (kept_segment pos ref (KStatus v s)) = Panic.
Proof.
  intros pos ref v s now r Hh Hk Hl E1 E2. rewrite C59_status_delivered by assumption. unfold status_about. now rewrite E1, E2.
Qed.
Print Assumptions C59_status_message_refuted.

Section Message.
  Context {F : Type} (parse_float : bytes -> option F) (neg : F -> F) (value : N -> bytes -> F).
  Hypothesis Hfloat : reads_decimals parse_float value.
  (** In a whole message: all entries, in their order. *)
  Theorem C59_statuses_in_message : forall now l m xs, letter_ok l -> read_response (others parse_float neg) (letter_wire l) = Ok m ->
    map status_about (letter_statuses l) = map Some xs ->
    contents (status_in now) (B "HIPRO") m
      (map (fun p => mkSA (snd p) (date_instant (st_day (fst p)) + within_int64 (now - time_of_day (st_time (fst p)))))
         (combine (letter_statuses l) xs)).
  Proof.
    intros now l m xs Hok Hm Hx. destruct (C57_message_delivered parse_float neg value Hfloat l Hok) as (m'&Hm'&_&_&_&_&_&Hs&_).
    assert (m' = m) by congruence. subst m'. unfold contents. rewrite Hs by (intros K; cbn in K; repeat (destruct K as [K|K]; [discriminate|]); exact K).
    set (val := fun s => mkSA (match status_about s with Some a => a | None => notice_value true ([], 0) 0 (st_notice s) end)
                          (date_instant (st_day s) + within_int64 (now - time_of_day (st_time s)))).
    assert (E : forall ss ys, map status_about ss = map Some ys ->
      map (fun p => mkSA (snd p) (date_instant (st_day (fst p)) + within_int64 (now - time_of_day (st_time (fst p))))) (combine ss ys) = map val ss).
    { induction ss as [|s ss IH]; intros [|y ys] H; try discriminate; [reflexivity|]. cbn [map] in H. injection H as H1 H2.
      cbn [combine map fst snd]. rewrite (IH ys H2). f_equal. unfold val. now rewrite H1. }
    rewrite (E _ _ Hx).
    assert (D : Forall (fun s => status_about s <> None) (letter_statuses l)).
    { apply Forall_forall. intros s Hin K. assert (In None (map Some xs)) as J by (rewrite <- Hx, <- K; now apply in_map).
      apply in_map_iff in J. destruct J as (?&J&_). discriminate. }
    apply (pieces_contents _ _ (fun i => match i with IKept (KStatus _ s) => [s] | _ => [] end) val).
    intros p Hp. pose proof (piece_len l p Hok Hp) as Hl.
    assert (Dp : match pc_info p with IKept (KStatus _ s) => status_about s <> None | _ => True end).
    { destruct (pc_info p) as [| | | | | | | | | |[]|] eqn:Ei; try exact I. rewrite Forall_forall in D. apply D. unfold letter_statuses. apply in_flat_map. exists p. rewrite Ei. split; [exact Hp|now left]. }
    destruct Hok as (_&_&_&_&_&_&_&Hps&_).
    rewrite Forall_forall in Hps. destruct (Hps p Hp) as [Hh Hi]. destruct p as [pos ref i]. cbn [pc_info pc_pos pc_ref] in *.
    destruct i; try (left; discriminate); try (right; reflexivity). destruct k; try (left; discriminate).
    split; [reflexivity|]. split; [reflexivity|]. split; [reflexivity|]. destruct Hi as [Hk _].
    change (piece_wire (mkPiece pos ref (IKept (KStatus version s)))) with (kept_segment pos ref (KStatus version s)) in *.
    rewrite C59_status_delivered by assumption. unfold val. now destruct (status_about s).
  Qed.
End Message.
Print Assumptions C59_statuses_in_message.

(** ** Answers to a TAN request *)
Lemma unescape_app a b : unescape (escape a ++ b) = a ++ unescape b.
Proof.
  induction a as [|c a IH]; [reflexivity|]. cbn [escape flat_map]. destruct (is_syntax c) eqn:E; cbn [app].
  - cbn [unescape]. rewrite beq_refl, E. f_equal. exact IH.
  - cbn [unescape]. assert (Hq : beq c b_qmark = false) by (destruct (beq_spec c b_qmark); [subst; discriminate|reflexivity]).
    rewrite Hq. f_equal. exact IH.
Qed.
Lemma joined_text ls : unmarshal_text (join [b_plus] (map escaped ls)) = utf8 (join [b_plus] ls).
Proof.
  rewrite utf8_eq. unfold unmarshal_text. induction ls as [|a ls IH]; [reflexivity|]. destruct ls as [|b ls].
  - cbn [map join]. now rewrite escaped_eq, <- escape_to_utf8, unescape_escape.
  - cbn [map]. cbn [map] in IH. rewrite !join_cons.
    rewrite !to_utf8_app, escaped_eq, <- escape_to_utf8, unescape_app. f_equal.
    change (to_utf8 [b_plus]) with [b_plus]. cbn [app unescape]. change (beq b_plus b_qmark) with false. cbv iota. f_equal. exact IH.
Qed.
(** The three elements are delivered, but with what follows the reference (the challenge)
    put behind it. *)
Theorem C59_tan_delivered : forall pos ref process hash reference ts,
  header_ok pos ref -> kept_ok (KTan process hash reference (map text_group ts)) ->
  Z.of_nat (List.length (kept_segment pos ref (KTan process hash reference (map text_group ts)))) < 2 ^ 61 ->
  reference <> [] -> last (reference :: ts) [] <> [] ->
  unmarshal_hitan (kept_segment pos ref (KTan process hash reference (map text_group ts))) =
    Ok (mkHitan (option_map utf8 (nonempty process)) hash (Some (utf8 (join (B "+") (reference :: ts))))).
Proof.
  intros pos ref process hash reference ts Hh Hk Hl Hr Ht. unfold kept_segment in *. cbn [kept_id kept_version] in *.
  destruct (hitan_read _ _ _ _ _ _ Hh Hk Hl) as (r&E&K). rewrite E. rewrite (K Hr).
  assert (M : map group_wire ([TText reference] :: map text_group ts) = map escaped (reference :: ts)).
  { cbn [map]. rewrite single_wire. cbn [item_wire]. f_equal. rewrite map_map. apply map_ext. intros t. unfold text_group. now rewrite single_wire. }
  rewrite M, strip_id.
  - rewrite joined_text. reflexivity.
  - assert (L : forall (l : list bytes) x d, last (map escaped (x :: l)) d = escaped (last (x :: l) [])).
    { induction l as [|y l IH]; intros x d; [reflexivity|]. change (last (map escaped (y :: l)) d = escaped (last (y :: l) [])). apply IH. }
    rewrite L. intros N. apply (proj1 (escaped_nil _)) in N. exact (Ht N).
Qed.
Print Assumptions C59_tan_delivered.
Theorem C59_tan_challenge_refuted : forall pos ref process hash reference ts,
  header_ok pos ref -> kept_ok (KTan process hash reference (map text_group ts)) ->
  Z.of_nat (List.length (kept_segment pos ref (KTan process hash reference (map text_group ts)))) < 2 ^ 61 ->
  reference <> [] -> ts <> [] -> last ts [] <> [] ->
  exists h, unmarshal_hitan (kept_segment pos ref (KTan process hash reference (map text_group ts))) = Ok h /\
    hn_reference h <> Some (utf8 reference).
Proof.
  intros pos ref process hash reference ts Hh Hk Hl Hr Hn Ht. eexists. split.
  - apply C59_tan_delivered; try assumption. destruct ts; [congruence|exact Ht].
  - cbn [hn_reference]. intros N. assert (N' : utf8 (join (B "+") (reference :: ts)) = utf8 reference) by congruence. clear N. rename N' into N. rewrite !utf8_eq in N. apply to_utf8_inj in N. destruct ts as [|t ts]; [congruence|].
    rewrite join_cons in N. apply (f_equal (@List.length byte)) in N. rewrite !app_length in N. cbn in N. lia.
Qed.
Print Assumptions C59_tan_challenge_refuted.

(** ** Announcements *)
Theorem C59_news_delivered : forall pos ref subject body,
  header_ok pos ref -> kept_ok (KNews subject body) ->
  Z.of_nat (List.length (kept_segment pos ref (KNews subject body))) < 2 ^ 61 ->
  unmarshal_hikim (kept_segment pos ref (KNews subject body)) =
    Ok (mkHikim (if is_nil subject then None else Some (utf8 subject)) (if is_nil body then None else Some (utf8 body))).
Proof.
  intros pos ref subject body Hh Hk Hl. unfold kept_segment in *. cbn [kept_id kept_version] in *. rewrite hikim_read by assumption.
  destruct subject, body; reflexivity.
Qed.
Print Assumptions C59_news_delivered.

(** ** Examples *)
Definition sample_status : status_info :=
  mkStatus (Some (B "abc=1:2", 3)) (Some 4) (mkDate 2016 5 17) (mkTod 13 45 0) (mkNotice 20 [] (B "Auftrag ausgef?hrt") []).
Definition sample_status_2 : status_info :=
  mkStatus None None (mkDate 2016 5 18) (mkTod 8 0 1) (mkNotice 9210 (B "5,1") (B "Konto gesperrt: ja") [B "x"]).
Definition status_letter : letter := mkLetter 300 300 (B "d") 2 None None
  [mkPiece 2 None (IMessage [mkNotice 10 [] (B "ok") []]); mkPiece 3 (Some 3) (IKept (KStatus 4 sample_status));
   mkPiece 4 (Some 3) (IKept (KTan (B "4") (Some (B "ab'")) (B "ref+1") (map text_group [B "TAN bitte: "; []; B "medium"])));
   mkPiece 5 (Some 3) (IKept (KStatus 3 sample_status_2)); mkPiece 6 None (IKept (KNews (B "Wartung") (B "am 1.1.?")))] 7.
(** 2016-05-20 *)
Definition sample_now : Z := 736469 * one_day.
Example C59_witness :
  letter_ok status_letter /\ 2 ^ 63 + one_day <= sample_now /\
    letter_statuses status_letter = [sample_status; sample_status_2] /\
    map status_about (letter_statuses status_letter) =
    [Some (mkAck 20 [] (B "Auftrag ausgef??hrt") [] false (B "abc=1?:2", 3) 4);
     Some (mkAck 9210 (B "5,1") (B "Konto gesperrt?: ja") [B "x"] true ([], 0) 0)] /\
    (exists m, read_response (others sample_float sample_neg) (letter_wire status_letter) = Ok m /\
    segs m (B "HIKIM") = [ONews (Ok (B "Wartung", B "am 1.1.?"))]) /\
    unmarshal_hitan (kept_segment 4 (Some 3) (KTan (B "4") (Some (B "ab'")) (B "ref+1") (map text_group [B "TAN bitte: "; []; B "medium"]))) =
    Ok (mkHitan (Some (B "4")) (Some (B "ab'")) (Some (B "ref+1+TAN bitte: ++medium"))).
Proof.
  split.
  { unfold letter_ok, letter_form, status_letter, sample_status, sample_status_2. cbn [lt_version lt_size lt_number lt_dialog lt_reply lt_envelope lt_pieces lt_last opt_ok].
    split; [now right|]. split; [unfold number_ok; lia|]. split; [unfold number_ok; lia|]. split; [prove_item|]. split; [discriminate|].
    split; [exact I|]. split; [exact I|]. split; [|split; [unfold header_ok; lia|vm_compute; reflexivity]].
    repeat (apply Forall_cons; [split; [unfold header_ok; cbn [pc_pos pc_ref]; lia|]|]); try apply Forall_nil.
    - apply Forall_cons; [|apply Forall_nil]. split; [cbn [nt_code]; lia|]; split; [split; [prove_items|prove_groupable]|discriminate].
    - split; [|reflexivity]. split; [repeat (apply Forall_cons; [prove_items|]); apply Forall_nil|]. split; [lia|]. split; [split; [prove_items|prove_groupable]|].
      split; [cbn; lia|]; split; [split; [prove_items|prove_groupable]|discriminate].
    - split; [|reflexivity]. split; [repeat (apply Forall_cons; [prove_items|]); apply Forall_nil|exact I].
    - split; [|reflexivity]. split; [repeat (apply Forall_cons; [prove_items|]); apply Forall_nil|]. split; [lia|]. split; [exact I|].
      split; [cbn; lia|]; split; [split; [prove_items|prove_groupable]|discriminate].
    - split; [|reflexivity]. split; [repeat (apply Forall_cons; [prove_items|]); apply Forall_nil|exact I]. }
  split; [unfold sample_now, one_day, one_second; lia|]. split; [reflexivity|]. split; [vm_compute; reflexivity|].
  split; [eexists; split; [vm_compute; reflexivity|vm_compute; reflexivity]|vm_compute; reflexivity].
Qed.
