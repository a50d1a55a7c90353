(** * C77: every error a call returns names the step at which it failed *)
From Coq Require Import Lia ZifyBool Permutation Sorted.
From Verif Require Import Base BaseFacts Lexer_Model Codec_Model Wire_Model Message_Model Message_Proofs Dialog_Model Dialog_Spec Dialog_Proofs
  Merge_Model Client_Model Seg_Model Error_Model Error_Spec Error_Facts Error_Facts2 Error_Facts3 Dialog_Props Error_Props
  Reason_Spec Reason_Facts Reason_Facts2.
Open Scope Z_scope.

Section Dialog.
  Context {J Acc : Type}.
  Variable sign_ok : list (entry J) -> request J -> outcome unit.
  Variable compose : list (entry J) -> request J -> outcome bytes.
  Variable bank : list (entry J) -> outcome bytes.
  Variable others : bytes -> Z -> option (bytes -> outcome (oseg Acc)).
  Variable pick : list (entry J) -> nat.
  Variable sign_why : list (entry J) -> request J -> bytes.
  Variable compose_why : list (entry J) -> request J -> bytes.
  Variable bank_why : list (entry J) -> bytes.
  Variable read_why : bytes -> bytes.
  Variable quote : bytes -> bytes.
  Notation world := (@world J Acc).
  Notation t_call := (t_call sign_ok compose bank others pick sign_why compose_why bank_why read_why quote).

  Lemma failed_of {X} (m : tact X) (w : world) :
    ends_at (here (user_before sign_ok compose sign_why compose_why) (user_about bank others bank_why read_why quote)) m w ->
    exists l, w_sent (fst (m w)) = w_sent w ++ l /\ forall t, snd (m w) = RErr t ->
      failed sign_ok compose bank others sign_why compose_why bank_why read_why quote (w_sent w) l t.
  Proof.
    intros (l&E&P). exists l. split; [exact E|]. intros t Ht. destruct (P t Ht) as (b&a&H1&H2&H3). exists b, a. split; [exact H1|]. split; [|exact H3].
    now apply here_user.
  Qed.
  (** The text of an error of a dialog's call is one of those of Reason_Spec, for the
      last message it sent before the error. *)
  Theorem C77_dialog_errors : regular others -> forall (c : call) (w w' : world) text, t_call c w = (w', RErr text) ->
    exists l, w_sent w' = w_sent w ++ l /\
      match c with
      | CAnonymous _ => anonymous_failed compose bank others compose_why bank_why read_why quote (w_sent w) l text
      | _ => failed sign_ok compose bank others sign_why compose_why bank_why read_why quote (w_sent w) l text
      end.
  Proof.
    intros Hreg c w w' text H.
    assert (S : forall X (x : world * result X), (let '(w', r) := x in (w', said r)) = (w', RErr text) -> x = (w', RErr text)).
    { intros X [w1 [a|t|]] E; cbn in E; try discriminate. now injection E as <- <-. }
    destruct c; cbn [Error_Model.t_call] in H; try (unfold tnamed in H; cbn in H; discriminate H).
    - apply S in H. destruct (failed_of _ w
        (ended_send sign_ok compose bank others pick sign_why compose_why bank_why read_why quote Hreg j w)) as (l&E&P).
      rewrite H in E, P. cbn [fst snd] in *. exists l. split; [exact E|exact (P text eq_refl)].
    - destruct (failed_of _ w
        (ended_sync_user sign_ok compose bank others pick sign_why compose_why bank_why read_why quote Hreg w)) as (l&E&P).
      rewrite H in E, P. cbn [fst snd] in *. exists l. split; [exact E|exact (P text eq_refl)].
    - apply S in H. destruct (failed_of _ w
        (ended_here _ _ _ (blames_sync sign_ok compose bank others pick sign_why compose_why bank_why read_why quote Hreg) w)) as (l&E&P).
      rewrite H in E, P. cbn [fst snd] in *. exists l. split; [exact E|exact (P text eq_refl)].
    - apply S in H. destruct (ended_anonymous compose bank others compose_why bank_why read_why quote Hreg j w) as (l&E&P).
      rewrite H in E, P. cbn [fst snd] in *. exists l. split; [exact E|exact (P text eq_refl)].
  Qed.
End Dialog.
Print Assumptions C77_dialog_errors.

Section Client.
  Context {A Acc Bal SBal St Tx : Type}.
  Notation J := (Client_Model.job A).
  Variable sign_ok : list (entry J) -> request J -> outcome unit.
  Variable compose : list (entry J) -> request J -> outcome bytes.
  Variable bank : list (entry J) -> outcome bytes.
  Variable others : bytes -> Z -> option (bytes -> outcome (oseg Acc)).
  Variable pick : list (entry J) -> nat.
  Variable sign_why : list (entry J) -> request J -> bytes.
  Variable compose_why : list (entry J) -> request J -> bytes.
  Variable bank_why : list (entry J) -> bytes.
  Variable read_why : bytes -> bytes.
  Variable quote : bytes -> bytes.
  Variable balance_in : bytes -> outcome Bal.
  Variable sepa_balance_in : bytes -> outcome SBal.
  Variable booked_in : bytes -> outcome bytes.
  Variable status_in : bytes -> outcome St.
  Variable read_mt940 : bytes -> outcome (list Tx).
  Variable mt940_why : bytes -> bytes.
  Variable sort : list mt -> list mt.
  Variable clock : nat -> Z.
  Notation world := (@world J Acc).
  Notation t_run := (t_run sign_ok compose bank others pick sign_why compose_why bank_why read_why quote balance_in sepa_balance_in
    booked_in status_in read_mt940 mt940_why sort clock).
  Notation client_fails := (client_fails sign_ok compose bank others sign_why compose_why bank_why read_why quote
    (fun data => read_mt940 data = Err) (fun raw => sepa_balance_in raw = Err) mt940_why).

  (** The same for the calls of a client. *)
  Theorem C77_client_errors : regular others -> accessible others balance_in booked_in status_in ->
    forall (c : ccall A) (w w' : world) text, (forall n a mark, c <> CSepaBalances n a mark) ->
    t_run c w = (w', Some (RErr text)) ->
    exists l, w_sent w' = w_sent w ++ l /\
      client_fails c (d_bpd_version (w_d w)) (d_supported (w_d w')) (w_sent w) l text.
  Proof.
    intros Hreg Hacc c w w' text Hc H.
    assert (S : forall X (x : world * result X), (let '(w', r) := x in (w', Some (said r))) = (w', Some (RErr text)) -> x = (w', RErr text)).
    { intros X [w1 [a|t|]] E; cbn in E; try discriminate. now injection E as <- <-. }
    assert (S2 : forall X (x : world * option (result X)), (let '(w', r) := x in (w', option_map said r)) = (w', Some (RErr text)) -> x = (w', Some (RErr text))).
    { intros X [w1 [[a|t|]|]] E; cbn in E; try discriminate. now injection E as <- <-. }
    destruct c; cbn [Error_Model.t_run] in H.
    - apply S in H. destruct (accounts_reason sign_ok compose bank others pick sign_why compose_why bank_why read_why quote Hreg w) as (l&E&P).
      rewrite H in E, P. cbn [fst snd] in *. exists l. split; [exact E|]. exact (P text eq_refl).
    - apply S in H. destruct (balances_reason sign_ok compose bank others pick sign_why compose_why bank_why read_why quote balance_in booked_in status_in Hreg Hacc args w) as (l&E&P).
      rewrite H in E, P. cbn [fst snd] in *. exists l. split; [exact E|]. exact (P text eq_refl).
    - now destruct (Hc fuel args mark).
    - apply S2 in H. destruct (transactions_reason sign_ok compose bank others pick sign_why compose_why bank_why read_why quote balance_in booked_in status_in read_mt940 mt940_why sort clock Hreg Hacc
        fuel (B "account transaction") [6; 5] TTransactions transaction_builder args mark tick w ltac:(intros vs v; apply (table_has transaction_table))) as (l&E&P).
      unfold t_account_transactions in H. rewrite H in E, P. cbn [fst snd] in *. exists l. split; [exact E|]. exact (P text eq_refl).
    - apply S2 in H. destruct (transactions_reason sign_ok compose bank others pick sign_why compose_why bank_why read_why quote balance_in booked_in status_in read_mt940 mt940_why sort clock Hreg Hacc
        fuel (B "sepa account transaction") [] TSepaTransactions sepa_transaction_builder args mark tick w ltac:(intros vs v _ _ [])) as (l&E&P).
      unfold t_sepa_account_transactions in H. rewrite H in E, P. cbn [fst snd] in *. exists l. split; [exact E|]. exact (P text eq_refl).
    - apply S in H. destruct (information_reason sign_ok compose bank others pick sign_why compose_why bank_why read_why quote Hreg args w) as (l&E&P).
      rewrite H in E, P. cbn [fst snd] in *. exists l. split; [exact E|]. exact (P text eq_refl).
    - apply S in H. destruct (status_reason sign_ok compose bank others pick sign_why compose_why bank_why read_why quote balance_in booked_in status_in Hreg Hacc args mark w) as (l&E&P).
      rewrite H in E, P. cbn [fst snd] in *. exists l. split; [exact E|]. destruct (P text eq_refl) as [K|(K1&[K2|[K2|[]]])]; [left; exact K|right|right].
      + split; [exact K1|now left].
      + split; [exact K1|now right].
  Qed.
  (** Every page of SepaAccountBalances starts like a call: [before] are the messages of
      the pages that were received, [version] what was known then. *)
  Theorem C77_sepa_balances_errors : regular others ->
    forall n a mark (w w' : world) text, t_run (CSepaBalances n a mark) w = (w', Some (RErr text)) ->
    exists before l version, w_sent w' = w_sent w ++ before ++ l /\ (before = [] -> version = d_bpd_version (w_d w)) /\
      client_fails (CSepaBalances n a mark) version (d_supported (w_d w')) (w_sent w ++ before) l text.
  Proof.
    intros Hreg n a mark w w' text H. cbn [Error_Model.t_run] in H.
    destruct (sepa_reason sign_ok compose bank others pick sign_why compose_why bank_why read_why quote sepa_balance_in read_mt940 mt940_why clock Hreg n a mark w) as (l&E&P).
    destruct (t_sepa_account_balances _ _ _ _ _ _ _ _ _ _ _ n a mark w) as [w1 [[x|t|]|]]; cbn in H; try discriminate. injection H as <- <-.
    cbn [fst snd] in *. destruct (P t eq_refl) as (v&l1&l2&->&V&F). exists l1, l2, v. auto.
  Qed.
End Client.
Print Assumptions C77_client_errors.
Print Assumptions C77_sepa_balances_errors.

(** ** The library's readers *)
Theorem C77_readers : forall (F : Type) (parse_float : bytes -> option F) (neg : F -> F) now,
  accessible (others parse_float neg) (balance_in parse_float neg) booked_in (status_in now).
Proof.
  intros F pf neg now raw head f r Hh Ho Hf.
  assert (D : forall X (o : option X), deref o <> Err) by (intros X [x|]; discriminate).
  assert (O : forall X Y (o : outcome X) (g : X -> outcome Y), o <> Err -> (forall x, g x <> Err) -> obind o g <> Err).
  { intros X Y o g H1 H2. destruct o; cbn; [apply H2|contradiction|discriminate]. }
  assert (IV : forall i, intl_val i <> Err).
  { intros i. unfold intl_val. apply O; [|discriminate]. destruct (ie_bank i) as [b|]; [|discriminate].
    unfold bank_val. repeat (apply O; [|intros ?]); try apply D; discriminate. }
  split; [|split]; intros Hi; rewrite Hi in Ho; unfold others in Ho; cbv zeta in Ho;
    repeat match type of Ho with (if bytes_eqb ?a ?b then _ else _) = _ => let v := eval vm_compute in (bytes_eqb a b) in replace (bytes_eqb a b) with v in Ho by reflexivity; cbv iota in Ho end;
    (match type of Ho with (if ?c then _ else _) = _ => destruct c; [|discriminate Ho] end); injection Ho as <-.
  - destruct (unmarshal_hisal pf neg (sh_version head) raw) as [h| |] eqn:E; cbn [obind] in Hf; try discriminate Hf. injection Hf as <-.
    unfold balance_in, with_version. rewrite Hh. cbn [obind]. rewrite E. cbn [obind].
    unfold account_balance_of, balance_of. repeat (apply O; [|intros ?]); try apply D; try discriminate.
    + destruct x; [discriminate|]. unfold omap. apply O; [|discriminate]. apply IV.
    + unfold booking_instant. destruct (hs_time h); [|discriminate]. apply O; [apply D|discriminate].
  - destruct (unmarshal_hikaz raw) as [h| |] eqn:E; cbn [obind] in Hf; try discriminate Hf. injection Hf as <-.
    unfold booked_in. rewrite E. cbn [obind]. apply D.
  - destruct (unmarshal_hipro raw) as [h| |] eqn:E; cbn [obind] in Hf; try discriminate Hf. injection Hf as <-.
    unfold status_in. rewrite E. cbn [obind]. unfold status_of. repeat (apply O; [|intros ?]); try apply D; try discriminate.
    destruct (pr_message h); [|discriminate]. apply O; [apply D|discriminate].
Qed.
Print Assumptions C77_readers.

(** A balance is not about a SEPA account exactly if its segment has a version below 7. *)
Theorem C77_not_sepa : forall (F : Type) (parse_float : bytes -> option F) (neg : F -> F) raw head f r,
  extract_header raw = Ok head -> sh_id head = B "HISAL" -> others parse_float neg (sh_id head) (sh_version head) = Some f -> f raw = Ok (OSeg r) ->
  sepa_balance_in parse_float neg r = Err <-> sh_version head < 7.
Proof.
  intros F pf neg raw head f r Hh Hi Ho Hf.
  rewrite Hi in Ho; unfold others in Ho; cbv zeta in Ho;
    repeat match type of Ho with (if bytes_eqb ?a ?b then _ else _) = _ => let v := eval vm_compute in (bytes_eqb a b) in replace (bytes_eqb a b) with v in Ho by reflexivity; cbv iota in Ho end;
    (match type of Ho with (if ?c then _ else _) = _ => destruct c; [|discriminate Ho] end); injection Ho as <-.
  destruct (unmarshal_hisal pf neg (sh_version head) raw) as [h| |] eqn:E; cbn [obind] in Hf; try discriminate Hf. injection Hf as <-.
  unfold sepa_balance_in, with_version. rewrite Hh. cbn [obind]. rewrite E. cbn [obind].
  assert (K : hs_version h = sh_version head /\ (7 <= sh_version head -> forall a, hs_account h <> Some (National a))).
  { unfold unmarshal_hisal, segment_fields in E. 
    apply obind_ok in E. destruct E as (es&_&E). destruct es as [|x es]; [discriminate|]. apply obind_ok in E. destruct E as (?&_&E).
    apply obind_ok in E. destruct E as (acc&Ea&E). repeat (apply obind_ok in E; destruct E as (?&_&E)). injection E as <-. cbn [hs_version hs_account].
    split; [reflexivity|]. intros Hv a ->. unfold field, opt_parse in Ea. destruct (nonempty_nth 1 (x :: es)) as [w|]; [|discriminate].
    destruct (Z.ltb_spec (sh_version head) 7); [lia|]. destruct (unmarshal_intl w); cbn in Ea; discriminate. }
  destruct K as (K1&K2). unfold sepa_account_balance_of. rewrite K1. destruct (Z.ltb_spec (sh_version head) 7) as [L|L]; [split; auto|].
  split; [|lia]. intros X. exfalso. revert X.
  assert (D : forall X (o : option X), deref o <> Err) by (intros X [x|]; discriminate).
  assert (O : forall X Y (o : outcome X) (g : X -> outcome Y), o <> Err -> (forall x, g x <> Err) -> obind o g <> Err).
  { intros X Y o g H1 H2. destruct o; cbn; [apply H2|contradiction|discriminate]. }
  assert (IV : forall i, intl_val i <> Err).
  { intros i. unfold intl_val. apply O; [|discriminate]. destruct (ie_bank i) as [b|]; [|discriminate].
    unfold bank_val. repeat (apply O; [|intros ?]); try apply D; discriminate. }
  unfold balance_of. apply O; [|intros ?; repeat (apply O; [|intros ?]); try apply D; try discriminate].
  - destruct (hs_account h) as [[c|i]|]; cbn [deref obind]; [now destruct (K2 L c)|apply IV|discriminate].
  - unfold booking_instant. destruct (hs_time h); [|discriminate]. apply O; [apply D|discriminate].
Qed.
Print Assumptions C77_not_sepa.

(** ** Concrete cases *)
Definition unreachable_bank {J} (h : list (entry J)) : outcome bytes := Err.
(** A new dialog fails at the synchronisation, one that is known to the bank at the
    initialisation. *)
Example C77_dialog_meets :
  snd (t_call ex_sign ex_compose unreachable_bank ex_others ex_pick (fun _ _ => B "?") (fun _ _ => B "?") quiet_why quiet_why ex_quote
         (CSend (B "x")) (mkW (new_dialog (Acc := bytes) (B "user")) [])) =
    RErr (B "error while extracting encrypted message: error executing Transport request: ?") /\
  ex_text unreachable_bank (CSend (B "x")) =
    RErr (B "error while initializing dialog: error executing Transport request: ?") /\
  ex_text unreachable_bank (CAnonymous (B "x")) =
    RErr (B "Error while initating anonymous dialog: error executing Transport request: ?").
Proof. repeat split; vm_compute; reflexivity. Qed.

Definition any_reader (x : bytes) : outcome unit := Ok tt.
Definition ex_client (bank : list (entry (Client_Model.job unit)) -> outcome bytes) (d : dstate bytes) (c : ccall unit) : option (result unit) :=
  snd (t_run (A := unit) (Tx := unit) (fun _ _ => Ok tt) (fun _ q => Ok (rq_dialog q)) bank ex_others (fun _ => O)
         (fun _ _ => B "?") (fun _ _ => B "?") quiet_why quiet_why ex_quote any_reader any_reader (fun _ => Ok []) any_reader
         (fun _ => Err) quiet_why (fun l => l) (fun _ => 0) c (mkW d [])).
Example C77_client_hypotheses_meet : regular ex_others /\ accessible ex_others any_reader (fun _ => Ok []) any_reader.
Proof. split; [exact C68_regular_meets|]. intros raw head f r _ _ _. repeat split; discriminate. Qed.
Definition offers (l : list (bytes * Z)) : dstate bytes :=
  upd_supported l (upd_bpd 7 (upd_system (B "SYS1") (new_dialog (Acc := bytes) (B "user")))).
Example C77_client_meets :
  ex_client unreachable_bank (new_dialog (B "user")) (CBalances tt) =
    Some (RErr (B "error while fetching accounts: error while extracting encrypted message: error executing Transport request: ?")) /\
  ex_client unreachable_bank (offers [(B "HISALS", 5)]) (CBalances tt) =
    Some (RErr (B "error while initializing dialog: error executing Transport request: ?")) /\
  ex_client unreachable_bank (offers [(B "HISALS", 3); (B "HISALS", 12); (B "HIKAZS", 5)]) (CBalances tt) =
    Some (RErr (B "error building account balance request (HKSAL): unsupported versions [12 3]")) /\
  ex_client unreachable_bank (offers [(B "HISALS", 5)]) (CTransactions 3 tt [] 0) =
    Some (RErr (B "error executing HBCI request: error building request: Segment HKKAZ not supported")) /\
  ex_client unreachable_bank (offers []) (CSepaBalances 3 tt []) = Some (RErr (B "Segment HKSAL not supported")).
Proof. repeat split; vm_compute; reflexivity. Qed.
(** The bank answers the job, but without what was asked for. *)
Definition polite_bank {J} (h : list (entry J)) : outcome bytes := Ok (B "HNHBK:1:3+000000000100+300+S1+1'HIRMG:2:2+0010::ok+3920::ok:999'").
Example C77_missing_meets :
  ex_client polite_bank (offers [(B "HISALS", 5)]) (CBalances tt) = Some (RErr (B "malformed response: expected HISAL segment")) /\
  ex_client polite_bank (offers []) (CInformation tt) = Some (RErr (B "malformed response: expected HIKIF segment")).
Proof. split; vm_compute; reflexivity. Qed.
