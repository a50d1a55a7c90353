(** * Theorems: which segments of a bank can be read *)
From Verif Require Import Base BaseFacts Lexer_Model Lexer_Spec Lexer_Proofs Lexer_Facts
  Codec_Model Codec_Spec Codec_Proofs Codec_Props Wire_Model Wire_Spec Wire_Proofs Wire_Facts Wire_Facts2 Wire_Facts3
  Message_Model Message_Spec Message_Proofs Message_Facts Message_Facts2 Message_Facts3
  Dialog_Model Seg_Model Seg_Spec Seg_Facts Seg_Facts2 Seg_Facts3 Seg_Facts4 Seg_Facts5 Seg_Props2
  Accept_Spec Accept_Facts Accept_Facts2 Accept_Facts3 Accept_Facts4.
From Coq Require Import Lia ZifyBool ZifyNat ZifyN.
Open Scope Z_scope.
Ltac Zify.zify_post_hook ::= Z.div_mod_to_equations.

(** ** The elements of a segment *)
Lemma nth_strip (es : list bytes) k : nth k (strip es) [] = nth k es [].
Proof.
  destruct (strip_spec es) as [n E]. rewrite E at 2. destruct (Nat.lt_ge_cases k (List.length (strip es))) as [H|H].
  - now rewrite app_nth1.
  - rewrite (nth_overflow (strip es)) by exact H. rewrite app_nth2 by exact H. symmetry.
    generalize (k - List.length (strip es))%nat. clear. induction n as [|n IH]; intros [|j]; try reflexivity. apply IH.
Qed.
Lemma nth_group gs k : nth k (map group_wire gs) [] = group_wire (nth k gs []).
Proof. change (@nil byte) with (group_wire []) at 1. apply map_nth. Qed.
Lemma all_pass_ext fs (ws ws' : list bytes) : (forall k, (k < List.length fs)%nat -> nth k ws [] = nth k ws' []) -> all_pass fs ws <-> all_pass fs ws'.
Proof.
  intros H. unfold all_pass. split; intros K k f Hk; specialize (K k f Hk);
    (assert (k < List.length fs)%nat by (apply nth_error_Some; congruence)); [rewrite <- H by assumption|rewrite H by assumption]; exact K.
Qed.
Lemma one_crashes_ext fs (ws ws' : list bytes) : (forall k, (k < List.length fs)%nat -> nth k ws [] = nth k ws' []) -> one_crashes fs ws <-> one_crashes fs ws'.
Proof.
  assert (Hgo : forall (us us' : list bytes), (forall k, (k < List.length fs)%nat -> nth k us [] = nth k us' []) -> one_crashes fs us -> one_crashes fs us').
  { intros us us' H (k&f&H1&H2&H3&H4). assert (Hk : (k < List.length fs)%nat) by (apply nth_error_Some; congruence).
    exists k, f. rewrite <- H by exact Hk. split; [exact H1|]. split; [exact H2|]. split; [exact H3|].
    intros j g Hj Hg. rewrite <- H by lia. exact (H4 j g Hj Hg). }
  intros H. split; apply Hgo; [exact H|]. intros k Hk. symmetry. now apply H.
Qed.
Lemma front_judged fs rs id pos v ref gs : List.length rs = List.length fs -> Forall (Forall item_ok) gs ->
  len (segment_wire id pos v ref gs) < 2 ^ 61 ->
  (forall j r f, nth_error rs j = Some r -> nth_error fs j = Some f -> group_wire (nth j gs []) <> [] -> judges r f (group_wire (nth j gs []))) ->
  judged (plain_chain rs 1 (wire_elements id pos v ref gs)) (all_pass fs (map group_wire gs)) (one_crashes fs (map group_wire gs)).
Proof.
  intros Hlen Hgs Hl Hj.
  assert (E : forall k, nth (1 + k) (wire_elements id pos v ref gs) [] = group_wire (nth k gs [])).
  { intros k. unfold wire_elements. rewrite nth_strip. cbn [Nat.add nth]. apply nth_group. }
  eapply judged_iff; [apply (chain_judged fs rs 1); [exact Hlen|]| |].
  - intros j r f H1 H2. rewrite E. now apply Hj.
  - rewrite wire_elements_eq. cbn [skipn]. apply all_pass_ext. intros k _. apply nth_strip.
  - rewrite wire_elements_eq. cbn [skipn]. apply one_crashes_ext. intros k _. apply nth_strip.
Qed.
Lemma element_ok gs j : Forall (Forall item_ok) gs -> Forall item_ok (nth j gs []).
Proof.
  intros H. destruct (Nat.lt_ge_cases j (List.length gs)) as [K|K]; [rewrite Forall_forall in H; apply H, nth_In, K|].
  rewrite nth_overflow by exact K. constructor.
Qed.
Lemma element_small id pos v ref gs j : len (segment_wire id pos v ref gs) < 2 ^ 61 -> len (group_wire (nth j gs [])) < 2 ^ 61.
Proof.
  intros Hl. destruct (Nat.lt_ge_cases j (List.length gs)) as [K|K].
  - assert (len (group_wire (nth j gs [])) <= len (segment_wire id pos v ref gs)); [|lia]. apply in_wire_len. right. apply in_map, nth_In, K.
  - rewrite nth_overflow by exact K. reflexivity.
Qed.
Lemma fits_judges r f gs j id pos v ref : fits_opt r f -> Forall (Forall item_ok) gs -> len (segment_wire id pos v ref gs) < 2 ^ 61 ->
  group_wire (nth j gs []) <> [] -> judges r f (group_wire (nth j gs [])).
Proof.
  intros H Hgs Hl Hne. destruct r as [r|]; cbn [judges fits_opt] in *; [|apply H].
  apply H; [now apply element_ok|exact Hne|]. eapply element_small, Hl.
Qed.
Lemma Forall2_nth {X Y} (R : X -> Y -> Prop) l m j x y : Forall2 R l m -> nth_error l j = Some x -> nth_error m j = Some y -> R x y.
Proof. intros H. revert j. induction H as [|a b l m H1 H2 IH]; intros [|j] E1 E2; try discriminate; [cbn in E1, E2; injection E1 as <-; injection E2 as <-; exact H1|exact (IH j E1 E2)]. Qed.

(** ** C76 *)
Section Reading.
  Context {F : Type} (parse_float : bytes -> option F) (neg : F -> F).
  Notation read := (read_as parse_float neg).

  (** A segment of the table is read exactly if every element that is not empty has the form of
      its place; reading it ends the program exactly if the first that has not is one go-hbci
      cannot cope with.  Otherwise there is an error.  This holds whatever the elements contain. *)
  Theorem C76_readable_iff : forall id v fs pos ref gs,
    In (id, v, fs) (segments parse_float) -> header_ok pos ref -> Forall (Forall item_ok) gs ->
    (List.length gs <= List.length fs)%nat -> len (segment_wire id pos v ref gs) < 2 ^ 61 ->
    ((exists r, read id v (segment_wire id pos v ref gs) = Ok r) <-> all_pass fs (map group_wire gs)) /\
    (read id v (segment_wire id pos v ref gs) = Panic <-> one_crashes fs (map group_wire gs)).
  Proof.
    intros id v fs pos ref gs Hin Hh Hgs Hlen Hl.
    pose proof (entries parse_float neg) as He. rewrite Forall_forall in He. specialize (He _ Hin).
    destruct He as (Ha&Hv&rs&Hn&Hr&Hf). cbn [fst snd] in *.
    change (judged (read id v (segment_wire id pos v ref gs)) (all_pass fs (map group_wire gs)) (one_crashes fs (map group_wire gs))).
    eapply (done_done _ (plain_chain rs 1 (wire_elements id pos v ref gs))).
    - rewrite Hr, segment_wire_read by assumption. rewrite done_unit. unfold wire_elements. apply chain_plain.
      cbn [List.length]. rewrite map_length. lia.
    - apply front_judged; [exact Hn|exact Hgs|exact Hl|]. intros j r f H1 H2 Hne.
      eapply fits_judges; [|exact Hgs|exact Hl|exact Hne]. eapply Forall2_nth; eassumption.
  Qed.

  (** Acknowledgements: every element must be one; no element ends the program. *)
  Theorem C76_acknowledgements_readable_iff : forall m id v pos ref gs,
    In (id, v) [(B "HIRMG", 2); (B "HIRMS", 2)] -> header_ok pos ref -> Forall (Forall item_ok) gs ->
    len (segment_wire id pos v ref gs) < 2 ^ 61 ->
    ((exists r, unmarshal_acks m (segment_wire id pos v ref gs) = Ok r) <->
     Forall (accepts an_acknowledgement) (strip (map group_wire gs))) /\
    unmarshal_acks m (segment_wire id pos v ref gs) <> Panic.
  Proof.
    intros m id v pos ref gs Hin Hh Hgs Hl.
    assert (Hid : forallb alnum id = true /\ v = 2) by (destruct Hin as [E|[E|[]]]; injection E as <- <-; split; reflexivity).
    destruct Hid as [Hid ->].
    assert (J : judged (unmarshal_acks m (segment_wire id pos 2 ref gs)) (Forall (accepts an_acknowledgement) (strip (map group_wire gs))) False).
    { unfold unmarshal_acks. rewrite segment_wire_elements by assumption. cbn [obind]. rewrite wire_elements_eq.
      rewrite header_read; [|assumption|assumption|lia|]. 2:{ assert (len (header_bytes id pos 2 ref) <= len (segment_wire id pos 2 ref gs)) by (apply in_wire_len; now left). lia. }
      cbn [obind]. apply judged_all_ok. intros w Hw.
      destruct w as [|x w].
      - unfold unmarshal_ack. rewrite group_extract_empty. cbn [obind]. eapply judged_iff; [apply judged_err| |tauto].
        split; [tauto|]. intros (ps&(g&Hg&Hw'&->)&H1&_). 
        destruct (strip (map item_wire g)) as [|p ps'] eqn:E; [cbn in H1; lia|].
        destruct (strip_ne_last (map item_wire g)) as (q&y&Eq&Hy); [rewrite E; discriminate|].
        assert (K : len y <= len (group_wire g)) by (unfold group_wire; apply len_join_in; rewrite Eq; apply in_or_app; right; now left).
        rewrite <- Hw' in K. destruct y; [congruence|]. cbn in K. lia.
      - assert (Hm : In (x :: w) (map group_wire gs)).
        { destruct (strip_spec (map group_wire gs)) as [k E]. rewrite E. apply in_or_app. now left. }
        assert (Hs : len (x :: w) <= len (segment_wire id pos 2 ref gs)) by (apply in_wire_len; now right).
        apply in_map_iff in Hm. destruct Hm as (g&Eg&Hg). rewrite <- Eg in *.
        eapply judged_iff; [apply (fits_acknowledgement m); [rewrite Forall_forall in Hgs; now apply Hgs|rewrite Eg; discriminate|lia]|tauto|].
        split; [|tauto]. intros (ps&_&[]). }
    destruct J as [J1 J2]. split; [exact J1|]. intros K. now apply J2.
  Qed.

  (** DIPINS: none of the three elements may be absent; no element ends the program. *)
  Theorem C76_pin_transactions_readable_iff : forall pos ref gs, header_ok pos ref -> Forall (Forall item_ok) gs ->
    len (segment_wire (B "DIPINS") pos 1 ref gs) < 2 ^ 61 ->
    ((exists r, read (B "DIPINS") 1 (segment_wire (B "DIPINS") pos 1 ref gs) = Ok r) <->
     integer (group_wire (nth 0 gs [])) /\ integer (group_wire (nth 1 gs [])) /\
     exists l, l <> [] /\ Forall (fun p => flag (snd p)) l /\
       made_of (group_wire (nth 2 gs [])) (flat_map (fun p => [fst p; snd p]) l)) /\
    read (B "DIPINS") 1 (segment_wire (B "DIPINS") pos 1 ref gs) <> Panic.
  Proof.
    intros pos ref gs Hh Hgs Hl.
    set (Q := integer (group_wire (nth 0 gs [])) /\ integer (group_wire (nth 1 gs [])) /\ _).
    assert (J : judged (read (B "DIPINS") 1 (segment_wire (B "DIPINS") pos 1 ref gs)) Q False).
    { eapply (done_done _ (unmarshal_dipins (segment_wire (B "DIPINS") pos 1 ref gs))).
      { change (read (B "DIPINS") 1 (segment_wire (B "DIPINS") pos 1 ref gs)) with
          (do _ <- unmarshal_dipins (segment_wire (B "DIPINS") pos 1 ref gs); Ok (@OSeg (account_information F) (segment_wire (B "DIPINS") pos 1 ref gs))).
        apply done_ok. }
      unfold unmarshal_dipins. rewrite segment_wire_elements by (assumption || reflexivity). cbn [obind]. rewrite wire_elements_eq.
      unfold at_index. cbn [nth_error deref obind].
      rewrite header_read; [|reflexivity|assumption|lia|]. 2:{ assert (len (header_bytes (B "DIPINS") pos 1 ref) <= len (segment_wire (B "DIPINS") pos 1 ref gs)) by (apply in_wire_len; now left). lia. }
      cbn [obind].
      assert (E : forall k, nth k (strip (map group_wire gs)) [] = group_wire (nth k gs [])) by (intros k; rewrite nth_strip; apply nth_group).
      pose proof (E 0%nat) as E0. pose proof (E 1%nat) as E1. pose proof (E 2%nat) as E2.
      assert (Hni : ~ integer []) by (intros (z&ds&K1&_&_&[[[K|K] _]|[K _]]); congruence).
      assert (Hnm : forall l, l <> [] -> ~ made_of [] (flat_map (fun p : bytes * bytes => [fst p; snd p]) l)).
      { intros [|p l] Hne (g&Hg&Hw&Hs); [congruence|].
        destruct (strip_ne_last (map item_wire g)) as (q&y&Eq&Hy); [rewrite <- Hs; discriminate|].
        assert (K : len y <= len (group_wire g)) by (unfold group_wire; apply len_join_in; rewrite Eq; apply in_or_app; right; now left).
        rewrite <- Hw in K. destruct y; [congruence|]. cbn in K. lia. }
      assert (Hs2 : len (group_wire (nth 2 gs [])) < 2 ^ 61) by (eapply element_small, Hl).
      assert (Ho2 : Forall item_ok (nth 2 gs [])) by now apply element_ok.
      subst Q. rewrite <- E0, <- E1. 
      destruct (strip (map group_wire gs)) as [|a [|b [|c r]]]; cbn [nth] in *.
      - eapply judged_iff; [apply judged_err| |tauto]. tauto.
      - eapply judged_iff; [apply judged_err| |tauto]. tauto.
      - eapply judged_iff; [apply judged_err| |tauto]. split; [tauto|]. intros (_&_&l&K1&_&K2). rewrite <- E2 in K2. exfalso. exact (Hnm l K1 K2).
      - eapply judged_iff; [eapply judged_bind; [apply judged_int|intros; eapply judged_bind; [apply judged_int|intros]]| |].
        + instantiate (1 := False). instantiate (1 := exists l, l <> [] /\ Forall (fun p => flag (snd p)) l /\
            made_of (group_wire (nth 2 gs [])) (flat_map (fun p => [fst p; snd p]) l)).
          rewrite E2. destruct (group_wire (nth 2 gs [])) as [|y w] eqn:Ew.
          * unfold unmarshal_pin_pairs. rewrite group_extract_empty. cbn [obind List.length Nat.even].
            eapply judged_iff; [apply judged_err| |tauto]. split; [tauto|]. intros (l&K1&_&K2). exact (Hnm l K1 K2).
          * rewrite <- Ew in *. assert (Hne : group_wire (nth 2 gs []) <> []) by (rewrite Ew; discriminate).
            destruct (group_cases _ Ho2 Hne Hs2) as [(G1&G2&G3)|(G1&G2)].
            -- pose proof (judged_pin_list 0 _ G3) as Jp. cbn [skipn] in Jp. fold (group_wire (nth 2 gs [])) in Jp.
               change (join [b_colon] (strip (map item_wire (nth 2 gs [])))) with (group_wire (nth 2 gs [])) in Jp.
               eapply judged_iff; [exact Jp| |tauto]. split; intros (l&K1&K2&K3); exists l; (split; [exact K1|]); (split; [exact K2|]).
               ++ exists (nth 2 gs []). split; [split; assumption|]. split; [reflexivity|]. symmetry. exact K3.
               ++ apply made_of_unique in K3; [|assumption..]. congruence.
            -- unfold unmarshal_pin_pairs. rewrite G2. cbn [obind]. eapply judged_iff; [apply judged_err| |tauto].
               split; [tauto|]. intros (l&_&_&K). apply made_of_unique in K; [|assumption..]. congruence.
        + tauto.
        + tauto. }
    destruct J as [J1 J2]. split; [exact J1|]. intros K. now apply J2.
  Qed.

  (** Accounts (HIUPD), versions 4 and 5: any number of jobs follows, each an element. *)
  Lemma no_plus g : group_ok g -> ~ In b_plus (group_wire g).
  Proof.
    intros [H1 H2] K. pose proof (strip_map_special g H1 H2) as E.
    assert (existsb special (join [b_colon] (strip (map item_wire g))) = true); [|congruence].
    apply existsb_exists. exists b_plus. split; [exact K|reflexivity].
  Qed.
  Lemma job_judged g : group_ok g -> group_wire g <> [] -> len (group_wire g) < 2 ^ 61 ->
    judged (unmarshal_allowed parse_float (group_wire g)) (accepts a_job (group_wire g)) False.
  Proof.
    intros [H1 H2] Hne Hl. eapply judged_iff; [apply (fits_job parse_float); assumption|reflexivity|]. split; [|tauto]. intros (ps&_&[]).
  Qed.
  Lemma jobs_judged k id pos v ref (gs jobs : list (list item)) : List.length gs = k ->
    len (segment_wire id pos v ref (gs ++ jobs)) < 2 ^ 61 ->
    Forall group_ok jobs -> Forall (fun g => group_wire g <> []) jobs ->
    judged (last_field (S k) (unmarshal_alloweds parse_float) (wire_elements id pos v ref (gs ++ jobs)))
      (Forall (accepts a_job) (map group_wire jobs)) False.
  Proof.
    intros Hk Hl Hok Hne. unfold last_field, wire_elements. rewrite strip_nonempty_nth.
    destruct jobs as [|j jobs].
    - rewrite app_nil_r. unfold nonempty_nth. cbn [nth_error].
      rewrite (proj2 (nth_error_None (map group_wire gs) k)) by (rewrite map_length; lia).
      eapply judged_iff; [apply judged_ok| |tauto]. split; [intros _; constructor|tauto].
    - set (js := j :: jobs) in *.
      assert (Hs : strip (header_bytes id pos v ref :: map group_wire (gs ++ js)) = header_bytes id pos v ref :: map group_wire (gs ++ js)).
      { apply strip_id. assert (Hj : js <> []) by discriminate. destruct (exists_last Hj) as (q&y&E).
        rewrite E, app_assoc, map_app. cbn [map]. rewrite app_comm_cons, last_last.
        rewrite Forall_forall in Hne. apply Hne. rewrite E. apply in_or_app. right. now left. }
      rewrite Hs. unfold nonempty_nth. cbn [nth_error].
      rewrite map_app, nth_error_app2 by (rewrite map_length; lia). rewrite map_length, Hk, Nat.sub_diag. subst js. cbn [map nth_error].
      inversion Hne as [|? ? Hj Hjs]; subst. destruct (group_wire j) as [|x w] eqn:Ej; [congruence|]. rewrite <- Ej in *. cbn [opt_parse].
      assert (Hsk : skipn (S (List.length gs)) (header_bytes id pos v ref :: map group_wire gs ++ group_wire j :: map group_wire jobs) = map group_wire (j :: jobs)).
      { cbn [skipn map]. rewrite skipn_app, map_length, Nat.sub_diag. rewrite skipn_all2 by (rewrite map_length; lia). reflexivity. }
      assert (Hgoal : judged (unmarshal_alloweds parse_float (join [b_plus] (skipn (S (List.length gs)) (header_bytes id pos v ref :: map group_wire gs ++ group_wire j :: map group_wire jobs))))
         (Forall (accepts a_job) (map group_wire (j :: jobs))) False).
      { rewrite Hsk. unfold unmarshal_alloweds. rewrite split_on_join.
        - apply judged_all_ok. intros b Hb. apply in_map_iff in Hb. destruct Hb as (g&<-&Hg).
          rewrite Forall_forall in Hok, Hne. apply job_judged; [now apply Hok|now apply Hne|].
          assert (len (group_wire g) <= len (segment_wire id pos v ref (gs ++ j :: jobs))); [|lia].
          apply in_wire_len. right. apply in_map. apply in_or_app. now right.
        - discriminate.
        - apply Forall_map. eapply Forall_impl; [|exact Hok]. intros g. apply no_plus. }
      eapply judged_iff; [eapply judged_bind; [exact Hgoal|intros; apply judged_ok]| |]; tauto.
  Qed.
  Definition jobless (v : Z) : list (option reader) :=
    if v =? 4 then [Some (rd unmarshal_connection); Some (rd text); Some (rd text); Some (rd text); Some (rd text); Some (rd text); Some (rd unmarshal_limit)]
    else if v =? 5 then [Some (rd unmarshal_connection); Some (rd text); Some (rd unmarshal_int); Some (rd text); Some (rd text); Some (rd text); Some (rd text); Some (rd unmarshal_limit)]
    else [Some (rd unmarshal_connection); Some (rd text); Some (rd text); Some (rd unmarshal_int); Some (rd text); Some (rd text); Some (rd text); Some (rd text); Some (rd unmarshal_limit)].
  Lemma jobless_fits v fs : In (v, fs) account_segments -> List.length (jobless v) = List.length fs /\ Forall2 fits_opt (jobless v) fs.
  Proof.
    intros Hin. destruct Hin as [E|[E|[E|[E|[]]]]]; injection E as <- <-; (split; [reflexivity|]);
    repeat first [apply Forall2_nil|apply Forall2_cons;
      [lazymatch goal with
       | |- fits_opt _ an_account => exact fits_account | |- fits_opt _ a_text => exact fits_text
       | |- fits_opt _ a_number => exact fits_number | |- fits_opt _ crash => exact fits_crash end|]].
  Qed.
  Theorem C76_accounts_readable_iff : forall v fs pos ref gs jobs, In (v, fs) account_segments -> v <= 5 ->
    header_ok pos ref -> Forall (Forall item_ok) gs -> List.length gs = List.length fs ->
    Forall group_ok jobs -> Forall (fun g => group_wire g <> []) jobs ->
    len (segment_wire (B "HIUPD") pos v ref (gs ++ jobs)) < 2 ^ 61 ->
    ((exists r, read (B "HIUPD") v (segment_wire (B "HIUPD") pos v ref (gs ++ jobs)) = Ok r) <->
     all_pass fs (map group_wire gs) /\ Forall (accepts a_job) (map group_wire jobs)) /\
    (read (B "HIUPD") v (segment_wire (B "HIUPD") pos v ref (gs ++ jobs)) = Panic <-> one_crashes fs (map group_wire gs)).
  Proof.
    intros v fs pos ref gs jobs Hin Hv Hh Hgs Hlen Hok Hne Hl.
    assert (Hv4 : v = 4 \/ v = 5) by (destruct Hin as [E|[E|[E|[E|[]]]]]; injection E as <- _; lia).
    destruct (jobless_fits v fs Hin) as [Hn Hf].
    assert (Hall : Forall (Forall item_ok) (gs ++ jobs)).
    { apply Forall_app. split; [exact Hgs|]. eapply Forall_impl; [|exact Hok]. intros g [H _]. exact H. }
    set (s := segment_wire (B "HIUPD") pos v ref (gs ++ jobs)) in *.
    set (es := wire_elements (B "HIUPD") pos v ref (gs ++ jobs)).
    change (judged (read (B "HIUPD") v s) (all_pass fs (map group_wire gs) /\ Forall (accepts a_job) (map group_wire jobs)) (one_crashes fs (map group_wire gs))).
    assert (E : done (read (B "HIUPD") v s) =
      (do _ <- plain_chain (jobless v) 1 es; do _ <- last_field (S (List.length gs)) (unmarshal_alloweds parse_float) es; Ok tt)).
    { assert (Er : read (B "HIUPD") v s = do h <- unmarshal_hiupd parse_float v s; Ok (OAccount (account_of h))) by (destruct Hv4; subst v; reflexivity).
      rewrite Er, done_ok. unfold unmarshal_hiupd. subst s es. rewrite segment_wire_read; [|reflexivity|assumption|lia|assumption|assumption].
      rewrite Hlen. generalize (wire_elements (B "HIUPD") pos v ref (gs ++ jobs)). intros es.
      destruct Hin as [E|[E|[E|[E|[]]]]]; injection E as <- <-; try lia; cbn [Z.eqb Pos.eqb jobless plain_chain rd projT1 projT2 List.length];
      repeat lazymatch goal with
      | |- _ = obind (obind (field ?k ?f ?es) _) _ => destruct (field k f es); cbn [obind]; [|reflexivity|reflexivity]
      end; destruct (last_field _ _ es); reflexivity. }
    eapply done_done; [rewrite E; symmetry; apply done_unit|].
    eapply judged_iff; [eapply judged_bind; [apply (front_judged fs); [exact Hn|exact Hall|exact Hl|]|intros; eapply judged_bind; [apply jobs_judged; [reflexivity|exact Hl|exact Hok|exact Hne]|intros; apply judged_ok]]| |].
    - intros j r f H1 H2 Hj. eapply fits_judges; [|exact Hall|exact Hl|exact Hj]. eapply Forall2_nth; eassumption.
    - rewrite (all_pass_ext fs (map group_wire (gs ++ jobs)) (map group_wire gs)); [tauto|].
      intros k Hk. rewrite map_app, app_nth1; [reflexivity|]. rewrite map_length. lia.
    - rewrite (one_crashes_ext fs (map group_wire (gs ++ jobs)) (map group_wire gs)); [tauto|].
      intros k Hk. rewrite map_app, app_nth1; [reflexivity|]. rewrite map_length. lia.
  Qed.

  (** Versions 6 and 7: one element for a job, and one for extensions. *)
  Theorem C76_accounts_with_extensions_readable_iff : forall v fs pos ref gs job ext, In (v, fs) account_segments -> 6 <= v ->
    header_ok pos ref -> Forall (Forall item_ok) gs -> List.length gs = List.length fs ->
    group_ok job -> Forall item_ok ext -> len (segment_wire (B "HIUPD") pos v ref (gs ++ [job; ext])) < 2 ^ 61 ->
    ((exists r, read (B "HIUPD") v (segment_wire (B "HIUPD") pos v ref (gs ++ [job; ext])) = Ok r) <->
     all_pass (fs ++ [a_job]) (map group_wire (gs ++ [job]))) /\
    (read (B "HIUPD") v (segment_wire (B "HIUPD") pos v ref (gs ++ [job; ext])) = Panic <-> one_crashes fs (map group_wire gs)).
  Proof.
    intros v fs pos ref gs job ext Hin Hv Hh Hgs Hlen Hj He Hl.
    destruct (jobless_fits v fs Hin) as [Hn Hf].
    assert (Hall : Forall (Forall item_ok) (gs ++ [job; ext])).
    { apply Forall_app. split; [exact Hgs|]. constructor; [apply Hj|]. constructor; [exact He|constructor]. }
    assert (H9 : List.length gs = 9%nat) by (destruct Hin as [E|[E|[E|[E|[]]]]]; injection E as <- <-; try lia; exact Hlen).
    set (s := segment_wire (B "HIUPD") pos v ref (gs ++ [job; ext])) in *.
    set (es := wire_elements (B "HIUPD") pos v ref (gs ++ [job; ext])).
    change (judged (read (B "HIUPD") v s) (all_pass (fs ++ [a_job]) (map group_wire (gs ++ [job]))) (one_crashes fs (map group_wire gs))).
    assert (E : done (read (B "HIUPD") v s) =
      (do _ <- plain_chain (jobless v) 1 es; do _ <- field 10 (unmarshal_alloweds parse_float) es; do _ <- field 11 text es; Ok tt)).
    { assert (Hv6 : v = 6 \/ v = 7) by (destruct Hin as [E|[E|[E|[E|[]]]]]; injection E as <- _; lia).
      assert (Er : read (B "HIUPD") v s = do h <- unmarshal_hiupd parse_float v s; Ok (OAccount (account_of h))) by (destruct Hv6; subst v; reflexivity).
      rewrite Er, done_ok. unfold unmarshal_hiupd. subst s es. rewrite segment_wire_read; [|reflexivity|assumption|lia|assumption|assumption].
      assert (El : last_field 11 text (wire_elements (B "HIUPD") pos v ref (gs ++ [job; ext])) = field 11 text (wire_elements (B "HIUPD") pos v ref (gs ++ [job; ext]))).
      { unfold wire_elements. apply last_field_short. cbn [List.length]. rewrite map_length, app_length. cbn [List.length]. lia. }
      rewrite El. generalize (wire_elements (B "HIUPD") pos v ref (gs ++ [job; ext])). intros es.
      destruct Hv6; subst v; cbn [Z.eqb Pos.eqb jobless plain_chain rd projT1 projT2 List.length];
      repeat lazymatch goal with
      | |- _ = obind (obind (field ?k ?f ?es) _) _ => destruct (field k f es); cbn [obind]; [|reflexivity|reflexivity]
      end; (destruct (field 10 _ es); [cbn [obind]|reflexivity|reflexivity]); destruct (field 11 _ es); reflexivity. }
    eapply done_done; [rewrite E; symmetry; apply done_unit|].
    assert (Ej : nth 10 es [] = group_wire job).
    { subst es. unfold wire_elements. rewrite nth_strip. cbn [nth]. rewrite map_app, app_nth2 by (rewrite map_length; lia). rewrite map_length, H9. reflexivity. }
    eapply judged_iff; [eapply judged_bind; [apply (front_judged fs); [exact Hn|exact Hall|exact Hl|]|intros; eapply judged_bind;
      [apply (judged_field 10 (unmarshal_alloweds parse_float) es (accepts a_job (group_wire job)) False)|intros; destruct (text_field 11 es) as [o ->]; apply judged_ok]]| |].
    - intros j r f H1 H2 Hne. eapply fits_judges; [|exact Hall|exact Hl|exact Hne]. eapply Forall2_nth; eassumption.
    - rewrite Ej. intros Hne. unfold unmarshal_alloweds. rewrite split_on_one by now apply no_plus. cbn [all_ok].
      eapply judged_iff; [eapply judged_bind; [apply job_judged; [exact Hj|exact Hne|]|intros; apply judged_ok]| |]; [|tauto|tauto].
      assert (len (group_wire job) <= len s); [|lia]. apply in_wire_len. right. apply in_map. apply in_or_app. right. now left.
    - rewrite Ej. rewrite (all_pass_ext fs (map group_wire (gs ++ [job; ext])) (map group_wire gs)).
      2:{ intros k Hk. rewrite map_app, app_nth1; [reflexivity|]. rewrite map_length. lia. }
      assert (Hp : forall fs ws f w, List.length fs = List.length ws -> all_pass (fs ++ [f]) (ws ++ [w]) <-> all_pass fs ws /\ passes f w).
      { clear. induction fs as [|g fs IH]; intros [|u ws] f w H; try discriminate; cbn [app].
        - rewrite all_pass_cons. split; [intros [H1 _]; split; [apply all_pass_nil|exact H1]|intros [_ H1]; split; [exact H1|apply all_pass_nil]].
        - rewrite !all_pass_cons, IH by (cbn in H; lia). tauto. }
      rewrite map_app. cbn [map]. rewrite Hp by (rewrite map_length; lia). unfold passes.
      assert (Hd : group_wire job = [] \/ group_wire job <> []) by (destruct (group_wire job); [now left|right; discriminate]). tauto.
    - rewrite (one_crashes_ext fs (map group_wire (gs ++ [job; ext])) (map group_wire gs)); [tauto|].
      intros k Hk. rewrite map_app, app_nth1; [reflexivity|]. rewrite map_length. lia.
  Qed.
End Reading.
Print Assumptions C76_readable_iff.
Print Assumptions C76_acknowledgements_readable_iff.
Print Assumptions C76_pin_transactions_readable_iff.
Print Assumptions C76_accounts_readable_iff.
Print Assumptions C76_accounts_with_extensions_readable_iff.

(** Cases: a balance that can be read; the same with a third value in an amount, which is
    refused; TAN parameters of a single flag, which end the program; an account with two jobs,
    and with a job that has a limit, which is refused. *)
Definition every_float (_ : bytes) : option unit := Some tt.
Definition some_balance (amount : list item) : list (list item) :=
  [[TText (B "1234567"); TText []; TNumber 280; TText (B "10020030")]; [TText (B "Giro")]; [TText (B "EUR")];
   [TText (B "C"); TMoney 12 (B "5"); TText (B "EUR"); TDate (mkDate 2017 3 1); TTime (mkTod 12 30 0)]; [];
   amount].
Definition some_account : list (list item) :=
  [[TText (B "1234567"); TText []; TNumber 280; TText (B "10020030")]; [TText (B "me")]; [TNumber 1]; [TText (B "EUR")];
   [TText (B "Name")]; []; [TText (B "Giro")]; []].
Lemma some_balance_ok amount : Forall item_ok amount -> Forall (Forall item_ok) (some_balance amount).
Proof.
  intros H. unfold some_balance.
  repeat first [apply Forall_nil|apply Forall_cons; [first [exact H|repeat first [apply Forall_nil|apply Forall_cons; [cbn [item_ok]|]]]|]];
    first [lia|split; reflexivity|split; [intros K; cbv in K; repeat (destruct K as [K|K]; [discriminate K|]); destruct K|reflexivity]
          |repeat split; vm_compute; discriminate].
Qed.
Example C76_witness_balance :
  Forall (Forall item_ok) (some_balance [TMoney 5 []; TText (B "EUR")]) /\
  (exists r, read_as every_float id (B "HISAL") 5 (segment_wire (B "HISAL") 4 5 (Some 3) (some_balance [TMoney 5 []; TText (B "EUR")])) = Ok r) /\
  all_pass (balances every_float an_account) (map group_wire (some_balance [TMoney 5 []; TText (B "EUR")])) /\
  read_as every_float id (B "HISAL") 5 (segment_wire (B "HISAL") 4 5 (Some 3) (some_balance [TMoney 5 []; TText (B "EUR"); TText (B "x")])) = Err.
Proof.
  assert (Hok : Forall (Forall item_ok) (some_balance [TMoney 5 []; TText (B "EUR")])).
  { apply some_balance_ok. repeat first [apply Forall_nil|apply Forall_cons; [cbn [item_ok]|]]; [split; reflexivity|].
    split; [intros K; repeat (destruct K as [K|K]; [discriminate|]); destruct K|reflexivity]. }
  assert (Hr : exists r, read_as every_float id (B "HISAL") 5 (segment_wire (B "HISAL") 4 5 (Some 3) (some_balance [TMoney 5 []; TText (B "EUR")])) = Ok r)
    by (eexists; vm_compute; reflexivity).
  split; [exact Hok|]. split; [exact Hr|]. split; [|vm_compute; reflexivity].
  apply (C76_readable_iff every_float id (B "HISAL") 5 (balances every_float an_account) 4 (Some 3)); [|split; [|cbn]; lia|exact Hok|cbn; lia|vm_compute; reflexivity|exact Hr].
  do 9 right. left. reflexivity.
Qed.
Example C76_witness_crash :
  read_as every_float id (B "HITANS") 6 (segment_wire (B "HITANS") 4 6 (Some 3) [[TNumber 1]; [TNumber 1]; [TNumber 1]; [TFlag true]]) = Panic /\
  read_as every_float id (B "HITANS") 6 (segment_wire (B "HITANS") 4 6 (Some 3) [[TNumber 1]; [TText (B "x")]; [TNumber 1]; [TFlag true]]) = Err.
Proof. split; vm_compute; reflexivity. Qed.
Example C76_witness_account :
  (exists r, read_as every_float id (B "HIUPD") 5 (segment_wire (B "HIUPD") 4 5 (Some 3)
     (some_account ++ [[TText (B "HKSAL"); TNumber 1]; [TText (B "HKKAZ"); TNumber 1; TText []; TText []; TNumber 3]])) = Ok r) /\
  read_as every_float id (B "HIUPD") 5 (segment_wire (B "HIUPD") 4 5 (Some 3)
     (some_account ++ [[TText (B "HKSAL"); TNumber 1]; [TText (B "HKKAZ"); TNumber 1; TText (B "E"); TMoney 100 []; TText (B "EUR")]])) = Err /\
  List.length some_account = List.length (nth 1 (map snd account_segments) []) /\
  Forall group_ok [[TText (B "HKSAL"); TNumber 1]; [TText (B "HKKAZ"); TNumber 1; TText []; TText []; TNumber 3]].
Proof.
  split; [eexists; vm_compute; reflexivity|]. split; [vm_compute; reflexivity|]. split; [reflexivity|].
  repeat first [apply Forall_nil|apply Forall_cons; [split; repeat first [apply Forall_nil|apply Forall_cons; [cbn [item_ok groupable]|]]|]];
    try exact I; try lia; try (split; [intros K; repeat (destruct K as [K|K]; [discriminate|]); destruct K|reflexivity]);
    split; intros K; repeat (destruct K as [K|K]; [discriminate|]); destruct K.
Qed.
Example C76_witness_acknowledgements :
  (exists r, unmarshal_acks true (segment_wire (B "HIRMG") 2 2 None [[TNumber 10; TText []; TText (B "ok")]]) = Ok r) /\
  unmarshal_acks true (segment_wire (B "HIRMG") 2 2 None [[TText (B "x"); TText []; TText (B "ok")]]) = Err.
Proof. split; [eexists|]; vm_compute; reflexivity. Qed.
Example C76_witness_pins :
  (exists r, read_as every_float id (B "DIPINS") 1 (segment_wire (B "DIPINS") 2 1 None [[TNumber 1]; [TNumber 1]; [TText (B "HKSAL"); TFlag true]]) = Ok r) /\
  read_as every_float id (B "DIPINS") 1 (segment_wire (B "DIPINS") 2 1 None [[TNumber 1]; []; [TText (B "HKSAL"); TFlag true]]) = Err.
Proof. split; [eexists|]; vm_compute; reflexivity. Qed.
