(** * Properties of answers that crash a client (C60)

    The library recovers from no panic, so a crash while it reads an answer reaches the
    program that made the call. *)
From Coq Require Import Lia.
From Verif Require Import Base Codec_Model Message_Model Dialog_Model Dialog_Spec Dialog_Props Merge_Model Client_Model Client_Spec Seg_Model Seg_Spec Seg_Props Answer_Spec
  Answer_Facts2 Answer_Props Crash_Spec Crash_Facts Crash_Facts2 Crash_Facts3 Crash_Facts4.
Open Scope Z_scope.

(** ** Messages *)
(** Reading a message as the bank should write it crashes exactly if one of its segments
    is of a form without a working reader; otherwise it succeeds. *)
Theorem C60_message : forall {F} (parse_float : bytes -> option F) neg value,
  reads_decimals parse_float value -> forall l, valid_letter l ->
  (read_response (others parse_float neg) (letter_wire l) = Panic <-> crashing l) /\
  (~ crashing l -> exists m, read_response (others parse_float neg) (letter_wire l) = Ok m).
Proof.
  intros F pf neg value Hf l Hv.
  assert (N : ~ crashing l -> exists m, read_response (others pf neg) (letter_wire l) = Ok m).
  { intros C. destruct (letter_read pf neg value Hf l) as (m&R&_); [apply valid_not_crashing; assumption|now exists m]. }
  split; [split|exact N].
  - intros R. destruct (crashing_dec l) as [C|C]; [exact C|]. destruct (N C) as (m&E). congruence.
  - intros C. eapply letter_crash; eauto.
Qed.
Print Assumptions C60_message.

(** ** Calls, for a bank that answers as it should or not at all *)
Section Letters.
  Context {J F : Type} (parse_float : bytes -> option F) (neg : F -> F) (value : N -> bytes -> F).
  Hypothesis Hfloat : reads_decimals parse_float value.
  Variable sign_ok : list (entry J) -> request J -> outcome unit.
  Variable compose : list (entry J) -> request J -> outcome bytes.
  Variable answer : list (entry J) -> option letter.
  Variable pick : list (entry J) -> nat.
  Hypothesis Hsign : forall h q, sign_ok h q <> Panic.
  Hypothesis Hcompose : forall h q, compose h q <> Panic.
  Hypothesis Hvalid : forall h l, answer h = Some l -> valid_letter l.
  Notation reader := (others parse_float neg).
  Notation bank := (writes answer).
  (** [t]: the messages the call has sent. *)
  Theorem C60_dialog_calls : forall (w : @world J (account_information F)),
    (forall j t, let c := send_message sign_ok compose bank reader pick j w in
       w_sent (fst c) = w_sent w ++ t -> (snd c = Panic <-> one_crashes answer (w_sent w) t)) /\
    (forall t, let c := sync_user_data sign_ok compose bank reader pick w in
       w_sent (fst c) = w_sent w ++ t -> (snd c = Panic <-> one_crashes answer (w_sent w) t)) /\
    (forall t, let c := sync_client_system sign_ok compose bank reader pick w in
       w_sent (fst c) = w_sent w ++ t -> (snd c = Panic <-> one_crashes answer (w_sent w) t)) /\
    (forall j t, let c := send_anonymous compose bank reader j w in
       w_sent (fst c) = w_sent w ++ t -> (snd c = Panic <-> one_crashes answer (w_sent w) t)).
  Proof.
    intros w. pose proof (all_good_split parse_float neg answer) as S.
    assert (I : forall h t, all_good bank reader h t -> all_good bank reader h t) by auto.
    split; [|split; [|split]].
    - intros j t. cbv zeta. eapply exactly; eauto; [apply sound_send|apply safe_send; auto].
    - intros t. cbv zeta. eapply exactly; eauto; [apply sound_user|apply safe_user; auto].
    - intros t. cbv zeta. eapply exactly; eauto; [apply sound_sync|apply safe_sync; auto].
    - intros j t. cbv zeta. eapply exactly; eauto; [apply (sound_send_anonymous sign_ok)|apply (safe_send_anonymous sign_ok); auto].
  Qed.
End Letters.
Print Assumptions C60_dialog_calls.

Section ClientLetters.
  Context {A F : Type} (parse_float : bytes -> option F) (neg : F -> F) (value : N -> bytes -> F).
  Hypothesis Hfloat : reads_decimals parse_float value.
  Notation J := (Client_Model.job A).
  Notation Acc := (account_information F).
  Variable sign_ok : list (entry J) -> request J -> outcome unit.
  Variable compose : list (entry J) -> request J -> outcome bytes.
  Variable answer : list (entry J) -> option letter.
  Variable pick : list (entry J) -> nat.
  Variable sort : list mt -> list mt.
  Variable clock : nat -> Z.
  Hypothesis Hsign : forall h q, sign_ok h q <> Panic.
  Hypothesis Hcompose : forall h q, compose h q <> Panic.
  Hypothesis Hvalid : forall h l, answer h = Some l -> valid_letter l.
  Notation reader := (others parse_float neg).
  Notation bank := (writes answer).
  Theorem C60_client_calls : forall (w : @world J Acc),
    (forall t, let c := accounts sign_ok compose bank reader pick w in
       w_sent (fst c) = w_sent w ++ t -> (snd c = Panic <-> one_crashes answer (w_sent w) t)) /\
    (forall args t, let c := Client_Model.account_information sign_ok compose bank reader pick args w in
       w_sent (fst c) = w_sent w ++ t -> (snd c = Panic <-> one_crashes answer (w_sent w) t)).
  Proof.
    intros w. pose proof (all_good_split parse_float neg answer) as S.
    assert (I : forall h t, all_good bank reader h t -> all_good bank reader h t) by auto.
    split.
    - intros t. cbv zeta. eapply exactly; eauto; [apply sound_accounts|apply safe_accounts; auto].
    - intros args t. cbv zeta. eapply exactly; eauto; [apply sound_information|apply safe_information; auto].
  Qed.

  (** The calls that look into the answers to jobs, with any readers for their contents:
      they crash if one of the answers does; if none does and the contents of the answers
      to the jobs can be read, they do not, except that the reader for statements may
      crash on the data it is given: that which the call would return if nothing had to
      be read from it. *)
  Section Contents.
  Context {X : Type} (f : bytes -> outcome X).
  Notation fine id h t := (~ one_crashes answer h t /\ contents_good bank reader f (B id) h t).
  Theorem C60_contents : forall (w : @world J Acc),
    (forall args t, let c := account_balances sign_ok compose bank reader pick f args w in
       w_sent (fst c) = w_sent w ++ t ->
       (one_crashes answer (w_sent w) t -> snd c = Panic) /\ (fine "HISAL" (w_sent w) t -> snd c <> Panic)) /\
    (forall fuel args mark t, let c := sepa_account_balances sign_ok compose bank reader pick f fuel args mark w in
       w_sent (fst c) = w_sent w ++ t ->
       (one_crashes answer (w_sent w) t -> snd c = Some Panic) /\ (fine "HISAL" (w_sent w) t -> snd c <> Some Panic)) /\
    (forall args mark t, let c := status sign_ok compose bank reader pick f args mark w in
       w_sent (fst c) = w_sent w ++ t ->
       (one_crashes answer (w_sent w) t -> snd c = Panic) /\ (fine "HIPRO" (w_sent w) t -> snd c <> Panic)).
  Proof.
    intros w.
    assert (P : forall Y id (m : @act J Acc Y) t, sound bank reader m -> safe (GG bank reader f id) m (fun _ => True) ->
              w_sent (fst (m w)) = w_sent w ++ t ->
              (one_crashes answer (w_sent w) t -> snd (m w) = Panic) /\
              (~ one_crashes answer (w_sent w) t /\ contents_good bank reader f id (w_sent w) t -> snd (m w) <> Panic)).
    { intros Y id m t H1 H2 E. destruct (H1 w) as (t1&E1&P1). destruct (H2 w) as (t2&E2&P2).
      rewrite E in E1, E2. apply app_inv_head in E1, E2. subst t1 t2. split.
      - intros C. apply P1. eapply one_crashes_bad; eauto.
      - intros [C1 C2]. apply P2. split; [|exact C2]. eapply none_crashes_good; eauto. }
    split; [|split].
    - intros args t. cbv zeta. apply P; [apply sound_balances|now apply safe_balances].
    - intros fuel args mark t. cbv zeta. intros E.
      destruct (psound_pages sign_ok compose bank reader pick f args fuel mark w) as (t1&E1&P1).
      destruct (psafe_pages sign_ok compose bank reader pick f (B "HISAL") Hsign Hcompose args eq_refl fuel mark w) as (t2&E2&P2).
      rewrite E in E1, E2. apply app_inv_head in E1, E2. subst t1 t2. split.
      + intros C. apply P1. eapply one_crashes_bad; eauto.
      + intros [C1 C2]. apply P2. split; [|exact C2]. eapply none_crashes_good; eauto.
    - intros args mark t. cbv zeta. apply P; [apply sound_status|now apply safe_status].
  Qed.
  End Contents.
  Theorem C60_transactions : forall {Tx} booked_in (read_mt940 : bytes -> outcome (list Tx)) fuel args mark tick (w : @world J Acc) t,
    let c := account_transactions sign_ok compose bank reader pick booked_in read_mt940 sort clock fuel args mark tick w in
    let raw := account_transactions sign_ok compose bank reader pick booked_in (fun d => Ok [d]) sort clock fuel args mark tick w in
    w_sent (fst c) = w_sent w ++ t ->
    (one_crashes answer (w_sent w) t -> snd c = Some Panic) /\
    (~ one_crashes answer (w_sent w) t -> contents_good bank reader booked_in (B "HIKAZ") (w_sent w) t ->
       snd c = Some Panic -> exists d, read_mt940 d = Panic /\ snd raw = Some (Ok [d])).
  Proof.
    intros Tx booked_in rd fuel args mark tick w t. cbv zeta. unfold account_transactions. intros E.
    destruct (psound_transactions sign_ok compose bank reader pick sort clock booked_in rd TTransactions transaction_builder args fuel mark tick w) as (t1&E1&P1).
    destruct (psafe_transactions sign_ok compose bank reader pick sort clock Hsign Hcompose booked_in rd TTransactions transaction_builder args
                ltac:(intros; apply first_entry_no_panic) fuel mark tick w) as (t2&E2&P2).
    rewrite E in E1, E2. apply app_inv_head in E1, E2. subst t1 t2. split.
    - intros C. apply P1. eapply one_crashes_bad; eauto.
    - intros C1 C2. apply P2. split; [|exact C2]. eapply none_crashes_good; eauto.
  Qed.
End ClientLetters.
Print Assumptions C60_client_calls.
Print Assumptions C60_contents.
Print Assumptions C60_transactions.

(** ** Calls, for any bank whatsoever *)
Section AnyBank.
  Context {J Acc : Type}.
  Variable sign_ok : list (entry J) -> request J -> outcome unit.
  Variable compose : list (entry J) -> request J -> outcome bytes.
  Variable bank : list (entry J) -> outcome bytes.
  Variable others : bytes -> Z -> option (bytes -> outcome (oseg Acc)).
  Variable pick : list (entry J) -> nat.
  Theorem C60_any_bank : forall (w : @world J Acc),
    (forall j t, let c := send_message sign_ok compose bank others pick j w in
       w_sent (fst c) = w_sent w ++ t -> one_bad bank others (w_sent w) t -> snd c = Panic) /\
    (forall t, let c := sync_user_data sign_ok compose bank others pick w in
       w_sent (fst c) = w_sent w ++ t -> one_bad bank others (w_sent w) t -> snd c = Panic) /\
    (forall t, let c := sync_client_system sign_ok compose bank others pick w in
       w_sent (fst c) = w_sent w ++ t -> one_bad bank others (w_sent w) t -> snd c = Panic) /\
    (forall j t, let c := send_anonymous compose bank others j w in
       w_sent (fst c) = w_sent w ++ t -> one_bad bank others (w_sent w) t -> snd c = Panic).
  Proof.
    intros w.
    assert (P : forall X (m : @act J Acc X) t, sound bank others m -> w_sent (fst (m w)) = w_sent w ++ t -> one_bad bank others (w_sent w) t -> snd (m w) = Panic).
    { intros X m t H E. destruct (H w) as (t1&E1&P1). rewrite E in E1. apply app_inv_head in E1. now subst t1. }
    split; [|split; [|split]]; intros; eapply P; eauto.
    - apply sound_send.
    - apply sound_user.
    - apply sound_sync.
    - apply (sound_send_anonymous sign_ok).
  Qed.
End AnyBank.
Print Assumptions C60_any_bank.

(** ** A case *)
(** The bank answers the synchronisation and its end; the answer to the initialisation has
    an announcement without a subject, or the ways of communication of the bank. *)
Definition greeting (p : info) : letter := mkLetter 300 300 (B "d") 2 None None
  [mkPiece 2 None (IMessage [mkNotice 10 [] (B "ok") []]); mkPiece 3 (Some 3) (ISync 4 (B "sys") None None); mkPiece 4 None (IKept (KNews (B "Hallo") (B "Welt")));
   mkPiece 5 None p] 6.
Definition quiet_letter : letter := greeting (IKept (KPacking [])).
Definition news_letter : letter := mkLetter 300 300 (B "d") 2 None None [mkPiece 2 None (IKept (KNews [] (B "Wartung")))] 3.
Definition ways_letter : letter := greeting (IKept (KWays (280, B "10020030") 1 [[TNumber 3; TText (B "bank.de")]])).
Definition moody (last : letter) (h : list (entry bytes)) : option letter :=
  Some (if (List.length h <=? 2)%nat then quiet_letter else last).
Definition moody_call (last : letter) := send_message ex_sign ex_compose (writes (moody last)) (others sample_float sample_neg) ex_pick (B "job") (mkW (new_dialog (B "user")) []).
Example C60_witness :
  valid_letter quiet_letter /\ valid_letter news_letter /\ valid_letter ways_letter /\
  (forall k : kind bytes, ~ crashes_client k quiet_letter) /\ crashing ways_letter /\ ~ crashing news_letter /\
  (forall c s b u, crashes_client (J:=bytes) (KInit c s b u) news_letter) /\
  (snd (moody_call quiet_letter) <> Panic /\ List.length (w_sent (fst (moody_call quiet_letter))) = 5%nat) /\
  (snd (moody_call news_letter) = Panic /\ List.length (w_sent (fst (moody_call news_letter))) = 3%nat) /\
  (snd (moody_call ways_letter) = Panic /\ List.length (w_sent (fst (moody_call ways_letter))) = 3%nat).
Proof.
  assert (V : forall i, match i with IKept k => kept_ok k | i => info_ok i end -> Z.of_nat (List.length (letter_wire (greeting i))) < 2 ^ 48 -> valid_letter (greeting i)).
  { intros i Hi Hl. unfold valid_letter, letter_form. unfold greeting in *. cbn [lt_version lt_size lt_number lt_dialog lt_reply lt_envelope lt_pieces lt_last opt_ok].
    split; [now right|]. split; [unfold number_ok; lia|]. split; [unfold number_ok; lia|]. split; [prove_item|]. split; [discriminate|].
    split; [exact I|]. split; [exact I|]. split; [|split; [unfold header_ok; lia|exact Hl]].
    repeat (apply Forall_cons; [split; [unfold header_ok; cbn [pc_pos pc_ref]; lia|]|]); try apply Forall_nil.
    - apply Forall_cons; [|apply Forall_nil]. split; [cbn [nt_code]; lia|]; split; [split; [prove_items|prove_groupable]|discriminate].
    - cbn [pc_info info_ok]. split; [lia|]. split; [prove_item|]. split; [discriminate|]. split; exact I.
    - split; [repeat (apply Forall_cons; [prove_items|]); apply Forall_nil|exact I].
    - cbn [pc_info]. destruct i; exact Hi. }
  split. { apply V; [split; [apply Forall_nil|apply Forall_nil]|vm_compute; reflexivity]. }
  split.
  { unfold valid_letter, letter_form, news_letter. cbn [lt_version lt_size lt_number lt_dialog lt_reply lt_envelope lt_pieces lt_last opt_ok].
    split; [now right|]. split; [unfold number_ok; lia|]. split; [unfold number_ok; lia|]. split; [prove_item|]. split; [discriminate|].
    split; [exact I|]. split; [exact I|]. split; [|split; [unfold header_ok; lia|vm_compute; reflexivity]].
    apply Forall_cons; [|apply Forall_nil]. split; [unfold header_ok; cbn [pc_pos pc_ref]; lia|].
    split; [repeat (apply Forall_cons; [prove_items|]); apply Forall_nil|exact I]. }
  split.
  { apply V; [|vm_compute; reflexivity]. split; [repeat (apply Forall_cons; [prove_items|]); apply Forall_nil|].
    split; [split; [split; [prove_items|prove_groupable]|split; [discriminate|]]|].
    { intros c Hc Hn. repeat (destruct Hc as [<-|Hc]; [repeat (destruct Hn as [Hn|Hn]; [discriminate Hn|]); destruct Hn|]). destruct Hc. }
    apply Forall_cons; [|apply Forall_nil]. exists (TNumber 3). split; [now left|exact I]. }
  assert (N : forall l, existsb (fun p => match pc_info p with IKept k => crashes k | _ => false end) (lt_pieces l) = false -> ~ crashing l).
  { intros l H (p&k&H1&H2&H3). assert (existsb (fun p => match pc_info p with IKept k => crashes k | _ => false end) (lt_pieces l) = true); [|congruence].
    apply existsb_exists. exists p. split; [exact H1|]. now rewrite H2. }
  split. { intros k [C|[_ (s&b&r&E&H)]]; [now apply N in C|]. injection E as <- <- _. destruct H; discriminate. }
  split. { exists (mkPiece 5 None (IKept (KWays (280, B "10020030") 1 [[TNumber 3; TText (B "bank.de")]]))). eexists. split; [do 3 right; now left|]. split; reflexivity. }
  split. { now apply N. }
  split. { intros c s b u. right. split; [now repeat eexists|]. exists [], (B "Wartung"), []. split; [reflexivity|now left]. }
  split; [split; [vm_compute; discriminate|vm_compute; reflexivity]|].
  split; (split; vm_compute; reflexivity).
Qed.
