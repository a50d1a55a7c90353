(** * C68: the error a call returns says what the bank reported *)
From Coq Require Import Lia ZifyBool.
From Verif Require Import Base BaseFacts Lexer_Model Codec_Model Wire_Model Message_Model Message_Proofs Dialog_Model Dialog_Spec Dialog_Proofs
  Merge_Model Client_Model Seg_Model Error_Model Error_Spec Error_Facts Error_Facts2 Error_Facts3 Dialog_Props.
Open Scope Z_scope.

(** ** The calls of a dialog *)
Section Dialog.
  Context {J Acc : Type}.
  Variable sign_ok : list (entry J) -> request J -> outcome unit.
  Variable compose : list (entry J) -> request J -> outcome bytes.
  Variable bank : list (entry J) -> outcome bytes.
  Variable others : bytes -> Z -> option (bytes -> outcome (oseg Acc)).
  Variable pick : list (entry J) -> nat.
  Variable sign_why : list (entry J) -> request J -> bytes.
  Variable compose_why : list (entry J) -> request J -> bytes.
  Variable bank_why : list (entry J) -> bytes.
  Variable read_why : bytes -> bytes.
  Variable quote : bytes -> bytes.
  Notation t_call := (t_call sign_ok compose bank others pick sign_why compose_why bank_why read_why quote).
  Notation world := (@world J Acc).

  (** The model with texts is the model without them, plus texts. *)
  Theorem C68_same_calls : forall (c : call) (w : world),
    fst (t_call c w) = run_call sign_ok compose bank others pick c w /\
    (forall j, c = CSend j -> plain (snd (t_call c w)) = omap (fun _ => tt) (snd (send_message sign_ok compose bank others pick j w))) /\
    (c = CSyncUser -> plain (snd (t_call c w)) = snd (sync_user_data sign_ok compose bank others pick w)) /\
    (c = CSyncSystem -> plain (snd (t_call c w)) = omap (fun _ => tt) (snd (sync_client_system sign_ok compose bank others pick w))) /\
    (forall j, c = CAnonymous j -> plain (snd (t_call c w)) = omap (fun _ => tt) (snd (send_anonymous compose bank others j w))).
  Proof.
    intros c w. destruct c; cbn [Error_Model.t_call run_call].
    - rewrite <- (same_send sign_ok compose bank others pick sign_why compose_why bank_why read_why quote j w). unfold erase.
      destruct (t_send sign_ok compose bank others pick sign_why compose_why bank_why read_why quote j w) as [w1 r] eqn:E. cbn [fst snd].
      split; [reflexivity|]. split; [|split; [discriminate|split; discriminate]]. intros j' X. injection X as <-.
      pose proof (same_send sign_ok compose bank others pick sign_why compose_why bank_why read_why quote j w) as S. rewrite E in S.
      rewrite <- S. now destruct r.
    - rewrite <- (same_sync_user sign_ok compose bank others pick sign_why compose_why bank_why read_why quote w). unfold erase.
      split; [reflexivity|]. split; [discriminate|]. split; [|split; discriminate]. intros _. reflexivity.
    - rewrite <- (same_sync sign_ok compose bank others pick sign_why compose_why bank_why read_why quote w). unfold erase.
      destruct (t_sync_system sign_ok compose bank others pick sign_why compose_why bank_why read_why quote w) as [w1 r]. cbn [fst snd].
      split; [reflexivity|]. split; [discriminate|]. split; [discriminate|]. split; [|discriminate]. intros _. now destruct r.
    - rewrite <- (same_send_anonymous compose bank others compose_why bank_why read_why quote j w). unfold erase.
      destruct (t_send_anonymous compose bank others compose_why bank_why read_why quote j w) as [w1 r] eqn:E. cbn [fst snd].
      split; [reflexivity|]. split; [discriminate|]. split; [discriminate|]. split; [discriminate|]. intros j' X. injection X as <-.
      pose proof (same_send_anonymous compose bank others compose_why bank_why read_why quote j w) as S. rewrite E in S.
      rewrite <- S. now destruct r.
    - split; [reflexivity|]. repeat split; discriminate.
    - split; [reflexivity|]. repeat split; discriminate.
    - split; [reflexivity|]. repeat split; discriminate.
  Qed.

  (** Whatever goes wrong with a message, the ends of dialogs excepted: the call fails, and
      if it returns an error, its text ends with the transport's error, with the error of
      reading the answer, or with one line for each error the bank reports. *)
  Theorem C68_dialog_calls : regular others -> forall (c : call) (w : world) before e after,
    w_sent (fst (t_call c w)) = w_sent w ++ before ++ e :: after ->
    matters (w_sent w ++ before) e -> troubled bank others (w_sent w ++ before) e ->
    told bank others bank_why read_why quote (w_sent w ++ before) e (snd (t_call c w)).
  Proof.
    intros Hreg c w before e after E M T.
    assert (S : explains_at bank others bank_why read_why quote (t_call c) w).
    { destruct c; unfold explains_at; cbn [Error_Model.t_call].
      - destruct (explains_send sign_ok compose bank others pick sign_why compose_why bank_why read_why quote Hreg j w) as (l&E1&P).
        destruct (t_send sign_ok compose bank others pick sign_why compose_why bank_why read_why quote j w) as [w1 r]. cbn [fst snd] in *.
        exists l. split; [exact E1|]. intros b e' a X1 X2 X3. apply told_said. eapply P; eauto.
      - exact (explains_sync_user sign_ok compose bank others pick sign_why compose_why bank_why read_why quote Hreg w).
      - destruct (explains_sync sign_ok compose bank others pick sign_why compose_why bank_why read_why quote w) as (l&E1&P).
        destruct (t_sync_system sign_ok compose bank others pick sign_why compose_why bank_why read_why quote w) as [w1 r]. cbn [fst snd] in *.
        exists l. split; [exact E1|]. intros b e' a X1 X2 X3. apply told_said. eapply P; eauto.
      - destruct (explains_send_anonymous compose bank others compose_why bank_why read_why quote Hreg j w) as (l&E1&P).
        destruct (t_send_anonymous compose bank others compose_why bank_why read_why quote j w) as [w1 r]. cbn [fst snd] in *.
        exists l. split; [exact E1|]. intros b e' a X1 X2 X3. apply told_said. eapply P; eauto.
      - exists []. split; [now rewrite app_nil_r|]. apply ok_nil.
      - exists []. split; [now rewrite app_nil_r|]. apply ok_nil.
      - exists []. split; [now rewrite app_nil_r|]. apply ok_nil. }
    destruct S as (l&E1&P). rewrite E1 in E. apply app_inv_head in E. eapply P; eauto.
  Qed.
End Dialog.
Print Assumptions C68_same_calls.
Print Assumptions C68_dialog_calls.

(** ** The calls of a client *)
Section Client.
  Context {A Acc Bal SBal St Tx : Type}.
  Notation J := (Client_Model.job A).
  Variable sign_ok : list (entry J) -> request J -> outcome unit.
  Variable compose : list (entry J) -> request J -> outcome bytes.
  Variable bank : list (entry J) -> outcome bytes.
  Variable others : bytes -> Z -> option (bytes -> outcome (oseg Acc)).
  Variable pick : list (entry J) -> nat.
  Variable sign_why : list (entry J) -> request J -> bytes.
  Variable compose_why : list (entry J) -> request J -> bytes.
  Variable bank_why : list (entry J) -> bytes.
  Variable read_why : bytes -> bytes.
  Variable quote : bytes -> bytes.
  Variable balance_in : bytes -> outcome Bal.
  Variable sepa_balance_in : bytes -> outcome SBal.
  Variable booked_in : bytes -> outcome bytes.
  Variable status_in : bytes -> outcome St.
  Variable read_mt940 : bytes -> outcome (list Tx).
  Variable mt940_why : bytes -> bytes.
  Variable sort : list mt -> list mt.
  Variable clock : nat -> Z.
  Notation world := (@world J Acc).
  Notation t_run := (t_run sign_ok compose bank others pick sign_why compose_why bank_why read_why quote balance_in sepa_balance_in
    booked_in status_in read_mt940 mt940_why sort clock).
  Notation run_ccall := (run_ccall sign_ok compose bank others pick balance_in sepa_balance_in booked_in status_in read_mt940 sort clock).

  Definition no_value {X} (o : outcome X) : outcome unit := omap (fun _ => tt) o.
  (** What the calls of Client_Model return, without the value. *)
  Definition returned (c : ccall A) (w : world) : option (outcome unit) :=
    match c with
    | CAccounts => Some (no_value (snd (accounts sign_ok compose bank others pick w)))
    | CBalances a => Some (no_value (snd (account_balances sign_ok compose bank others pick balance_in a w)))
    | CSepaBalances n a mark => option_map no_value (snd (sepa_account_balances sign_ok compose bank others pick sepa_balance_in n a mark w))
    | CTransactions n a mark tick =>
        option_map no_value (snd (account_transactions sign_ok compose bank others pick booked_in read_mt940 sort clock n a mark tick w))
    | CSepaTransactions n a mark tick =>
        option_map no_value (snd (sepa_account_transactions sign_ok compose bank others pick booked_in read_mt940 sort clock n a mark tick w))
    | CInformation a => Some (no_value (snd (Client_Model.account_information sign_ok compose bank others pick a w)))
    | CStatus a mark => Some (no_value (snd (status sign_ok compose bank others pick status_in a mark w)))
    end.
  Theorem C68_same_client_calls : forall (c : ccall A) (w : world),
    fst (t_run c w) = run_ccall c w /\ option_map plain (snd (t_run c w)) = returned c w.
  Proof.
    assert (P : forall X (r : result X), plain (said r) = no_value (plain r)) by (intros X r; now destruct r).
    assert (Q : forall X (r : option (result X)), option_map plain (option_map said r) = option_map no_value (option_map plain r))
      by (intros X [r|]; cbn; [now rewrite P|reflexivity]).
    intros c w. destruct c; cbn [Error_Model.t_run Client_Model.run_ccall returned].
    - rewrite <- (same_accounts sign_ok compose bank others pick sign_why compose_why bank_why read_why quote w). unfold erase.
      destruct (t_accounts _ _ _ _ _ _ _ _ _ _ w) as [w1 r]. cbn [fst snd option_map]. now rewrite P.
    - rewrite <- (same_balances sign_ok compose bank others pick sign_why compose_why bank_why read_why quote balance_in args w). unfold erase.
      destruct (t_account_balances _ _ _ _ _ _ _ _ _ _ _ args w) as [w1 r]. cbn [fst snd option_map]. now rewrite P.
    - rewrite <- (same_sepa_balances sign_ok compose bank others pick sign_why compose_why bank_why read_why quote sepa_balance_in fuel args mark w). unfold erase_pages.
      destruct (t_sepa_account_balances _ _ _ _ _ _ _ _ _ _ _ fuel args mark w) as [w1 r]. cbn [fst snd]. now rewrite Q.
    - unfold account_transactions, t_account_transactions.
      rewrite <- (same_transactions sign_ok compose bank others pick sign_why compose_why bank_why read_why quote booked_in read_mt940 mt940_why sort clock fuel (B "account transaction") _ _ args mark tick w). unfold erase_pages.
      destruct (t_transactions _ _ _ _ _ _ _ _ _ _ _ _ _ _ _ fuel _ _ _ args mark tick w) as [w1 r]. cbn [fst snd]. now rewrite Q.
    - unfold sepa_account_transactions, t_sepa_account_transactions.
      rewrite <- (same_transactions sign_ok compose bank others pick sign_why compose_why bank_why read_why quote booked_in read_mt940 mt940_why sort clock fuel (B "sepa account transaction") _ _ args mark tick w). unfold erase_pages.
      destruct (t_transactions _ _ _ _ _ _ _ _ _ _ _ _ _ _ _ fuel _ _ _ args mark tick w) as [w1 r]. cbn [fst snd]. now rewrite Q.
    - rewrite <- (same_information sign_ok compose bank others pick sign_why compose_why bank_why read_why quote args w). unfold erase.
      destruct (t_account_information _ _ _ _ _ _ _ _ _ _ args w) as [w1 r]. cbn [fst snd option_map]. now rewrite P.
    - rewrite <- (same_status sign_ok compose bank others pick sign_why compose_why bank_why read_why quote status_in args mark w). unfold erase.
      destruct (t_status _ _ _ _ _ _ _ _ _ _ _ args mark w) as [w1 r]. cbn [fst snd option_map]. now rewrite P.
  Qed.

  (** The same for every call of a client but Accounts, those that fetch several pages
      included: once something went wrong, the call ends with that error. *)
  Theorem C68_client_calls : regular others -> forall (c : ccall A) (w : world) before e after,
    c <> CAccounts ->
    w_sent (fst (t_run c w)) = w_sent w ++ before ++ e :: after ->
    matters (w_sent w ++ before) e -> troubled bank others (w_sent w ++ before) e ->
    exists r, snd (t_run c w) = Some r /\ told bank others bank_why read_why quote (w_sent w ++ before) e r.
  Proof.
    intros Hreg c w before e after Hc E M T.
    assert (W : forall X (x : world * result X), explains_at bank others bank_why read_why quote (fun _ => x) w ->
              page_explains bank others bank_why read_why quote (let '(w', r) := x in (w', Some (said r))) w).
    { intros X [w1 r] (l&E1&P). cbn [fst snd] in *. exists l. split; [exact E1|]. intros b e' a X1 X2 X3. cbn [snd].
      eexists. split; [reflexivity|]. apply told_said. eapply P; eauto. }
    assert (W2 : forall X (x : world * option (result X)), page_explains bank others bank_why read_why quote x w ->
              page_explains bank others bank_why read_why quote (let '(w', r) := x in (w', option_map said r)) w).
    { intros X [w1 r] (l&E1&P). cbn [fst snd] in *. exists l. split; [exact E1|]. intros b e' a X1 X2 X3. cbn [snd].
      destruct (P b e' a X1 X2 X3) as (x&->&Tx'). eexists. split; [reflexivity|]. now apply told_said. }
    assert (S : page_explains bank others bank_why read_why quote (t_run c w) w).
    { destruct c; cbn [Error_Model.t_run].
      - now destruct Hc.
      - apply W. exact (explains_balances sign_ok compose bank others pick sign_why compose_why bank_why read_why quote balance_in Hreg args w).
      - apply W2. exact (explains_sepa_balances sign_ok compose bank others pick sign_why compose_why bank_why read_why quote sepa_balance_in Hreg fuel args mark w).
      - apply W2. exact (explains_transactions sign_ok compose bank others pick sign_why compose_why bank_why read_why quote booked_in read_mt940 mt940_why sort clock Hreg fuel _ _ _ args mark tick w).
      - apply W2. exact (explains_transactions sign_ok compose bank others pick sign_why compose_why bank_why read_why quote booked_in read_mt940 mt940_why sort clock Hreg fuel _ _ _ args mark tick w).
      - apply W. exact (explains_information sign_ok compose bank others pick sign_why compose_why bank_why read_why quote Hreg args w).
      - apply W. exact (explains_status sign_ok compose bank others pick sign_why compose_why bank_why read_why quote status_in Hreg args mark w). }
    destruct S as (l&E1&P). rewrite E1 in E. apply app_inv_head in E. eapply P; eauto.
  Qed.
  (** Accounts fails as well, but may say only "error getting accounts". *)
  Theorem C68_accounts : regular others -> forall (w : world) before e after,
    w_sent (fst (t_run CAccounts w)) = w_sent w ++ before ++ e :: after ->
    matters (w_sent w ++ before) e -> troubled bank others (w_sent w ++ before) e ->
    exists r, snd (t_run CAccounts w) = Some r /\
      (told bank others bank_why read_why quote (w_sent w ++ before) e r \/ r = RErr (B "error getting accounts")).
  Proof.
    intros Hreg w before e after E M T. cbn [Error_Model.t_run] in *.
    destruct (accounts_fail sign_ok compose bank others pick sign_why compose_why bank_why read_why quote Hreg w) as (l&E1&P).
    destruct (t_accounts _ _ _ _ _ _ _ _ _ _ w) as [w1 r]. cbn [fst snd] in *. rewrite E1 in E. apply app_inv_head in E.
    eexists. split; [reflexivity|]. destruct (P _ _ _ E M T) as [H|H]; [left; now apply told_said|right; now rewrite H].
  Qed.
End Client.
Print Assumptions C68_same_client_calls.
Print Assumptions C68_client_calls.
Print Assumptions C68_accounts.

(** ** The library's readers are regular *)
Theorem C68_readers : forall (F : Type) (parse_float : bytes -> option F) (neg : F -> F), regular (others parse_float neg).
Proof.
  intros F pf neg id v f raw s Ho Hf.
  assert (D : forall X (o : option X), deref o <> Err) by (intros X [x|]; discriminate).
  assert (O : forall X Y (o : outcome X) (g : X -> outcome Y), o <> Err -> (forall x, g x <> Err) -> obind o g <> Err).
  { intros X Y o g H1 H2. destruct o; cbn; [apply H2|contradiction|discriminate]. }
  unfold others in Ho. cbv zeta in Ho.
  repeat match type of Ho with (if bytes_eqb id ?x then _ else _) = _ => let Ei := fresh "Ei" in destruct (bytes_eqb_spec id x) as [Ei|Ei] end; try subst id; try discriminate Ho;
    match type of Ho with (if ?c then _ else _) = _ => destruct c; [|discriminate Ho] end; injection Ho as <-;
    match type of Hf with obind ?r _ = _ => destruct r as [h| |]; cbn [obind] in Hf; try discriminate Hf end; injection Hf as <-;
    (split; [intros X; first [eexists; reflexivity|vm_compute in X; discriminate X]|]); try exact I.
  all: cbv beta.
  - apply D.
  - apply O; [apply D|]. discriminate.
  - unfold bank_data_of, omap. repeat (apply O; [|intros ?]); try apply D; try discriminate.
  - unfold pin_transactions_of, omap. repeat (apply O; [|intros ?]); try apply D; try discriminate.
  - unfold user_data_of, omap. repeat (apply O; [|intros ?]); try apply D; try discriminate. now destruct (_ =? _).
  - unfold account_of. repeat (apply O; [|intros ?]); try apply D; try discriminate; destruct (_ =? _); try apply D; discriminate.
  - unfold news_of. repeat (apply O; [|intros ?]); try apply D; try discriminate.
Qed.
Print Assumptions C68_readers.

(** ** What the lines say *)

(** A line is one line as long as the bank's texts are: Go's %q escapes line feeds, the
    other verbs do not. *)
Theorem C68_one_line : forall quote line a, (forall t, ~ In x0a (quote t)) -> describes quote line a ->
  (In x0a line <-> In x0a (ack_elem a) \/ In x0a (ack_text a) \/ In x0a (fst (ack_ref_msg a))).
Proof.
  intros quote line a Hq (what&segment&position&params&->&Hw&Hs&Hp&Hr).
  assert (N : forall z, ~ In x0a (itoa z)).
  { assert (D : forall n, ~ In x0a (itoa_N n)).
    { intros n Hi. destruct (itoa_N_spec n) as (_&D&_). rewrite forallb_forall in D. apply D in Hi. vm_compute in Hi. discriminate Hi. }
    intros z Hi. unfold itoa in Hi. destruct (z <? 0); [destruct Hi as [X|Hi]; [discriminate X|]|]; exact (D _ Hi). }
  assert (L : forall t : bytes, existsb (Byte.eqb x0a) t = false -> ~ In x0a t).
  { intros t E Hi. assert (existsb (Byte.eqb x0a) t = true); [|congruence]. apply existsb_exists. exists x0a. split; [exact Hi|reflexivity]. }
  assert (Wn : ~ In x0a what) by (destruct Hw as [[_ ->]|[_ ->]]; apply L; reflexivity).
  assert (Sn : ~ In x0a segment).
  { destruct Hs as [[_ ->]|[_ ->]]; [intros []|]. intros Hi. apply in_app_or in Hi. destruct Hi as [Hi|Hi]; [revert Hi; apply L; reflexivity|exact (N _ Hi)]. }
  assert (Rn : ~ In x0a params).
  { destruct Hr as [[_ ->]|[_ ->]]; [intros []|]. intros Hi. apply in_app_or in Hi. destruct Hi as [Hi|Hi]; [revert Hi; apply L; reflexivity|exact (Hq _ Hi)]. }
  assert (Pn : In x0a position <-> In x0a (ack_elem a)).
  { destruct Hp as [[E ->]|[_ ->]]; [|reflexivity]. rewrite E. split; [intros Hi; exfalso; revert Hi; apply L; reflexivity|intros []]. }
  rewrite !in_app_iff, Pn.
  pose proof (N (snd (ack_ref_msg a))). pose proof (N (ack_code a)).
  assert (~ In x0a (B " for message ")) by (apply L; reflexivity). assert (~ In x0a (B " (")) by (apply L; reflexivity).
  assert (~ In x0a (B ")")) by (apply L; reflexivity). assert (~ In x0a (B ": Code: ")) by (apply L; reflexivity).
  assert (~ In x0a (B ", Position: ")) by (apply L; reflexivity). assert (~ In x0a (B ", Text: '")) by (apply L; reflexivity).
  assert (~ In x0a (B "'")) by (apply L; reflexivity). tauto.
Qed.
Print Assumptions C68_one_line.

Section Reading.
  Context {P : Type} (others : bytes -> Z -> option (bytes -> outcome P)).
  Lemma unmarshal_acks_kind : forall b s l, unmarshal_acks b s = Ok l ->
    Forall (fun a => ack_for_message a = b /\ ack_ref_msg a = ([], 0)) l.
  Proof.
    intros b s l H. unfold unmarshal_acks in H. destruct (segment_extract s) as [[|h r]| |]; cbn [obind] in H; try discriminate H.
    destruct (unmarshal_header h) as [hd| |]; cbn [obind] in H; try discriminate H. cbv zeta in H.
    apply Forall_forall. intros a Ha. destruct (all_ok_in _ _ _ H _ Ha) as (x&_&Hx). unfold unmarshal_ack in Hx.
    destruct (group_extract x) as [[|c [|c2 [|c3 ps]]]| |]; cbn [obind] in Hx; try discriminate Hx.
    destruct (unmarshal_int c) as [z| |]; cbn [obind] in Hx; try discriminate Hx. injection Hx as <-. now split.
  Qed.
  Lemma parsed_kind : forall raw segs l, unmarshal_all others raw = Ok (segs, l) ->
    Forall (fun x => match snd x with
                     | PMsgAcks l => Forall (fun a => ack_for_message a = true /\ ack_ref_msg a = ([], 0)) l
                     | PSegAcks l => Forall (fun a => ack_for_message a = false /\ ack_ref_msg a = ([], 0)) l
                     | POther _ => True end) l.
  Proof.
    intros raw segs l H. unfold unmarshal_all in H. destruct (message_extract raw) as [ss| |]; cbn [obind] in H; try discriminate H.
    destruct (all_ok (unmarshal_one others) ss) as [os| |] eqn:E; cbn [obind] in H; try discriminate H. injection H as <- <-.
    apply Forall_forall. intros x Hx. unfold somes in Hx. apply in_flat_map in Hx. destruct Hx as (o&Ho&Hx).
    destruct o as [y|]; [|destruct Hx]. destruct Hx as [<-|[]]. destruct (all_ok_in _ _ _ E _ Ho) as (s&_&Hs).
    unfold unmarshal_one in Hs. destruct (extract_header s) as [h| |]; cbn [obind] in Hs; try discriminate Hs.
    unfold known in Hs. destruct (bytes_eqb (sh_id h) (B "HIRMG")).
    - destruct (sh_version h =? 2); [|discriminate Hs]. destruct (unmarshal_acks true s) as [l'| |] eqn:El; cbn [omap obind] in Hs; try discriminate Hs.
      injection Hs as <-. cbn [snd]. exact (unmarshal_acks_kind _ _ _ El).
    - destruct (bytes_eqb (sh_id h) (B "HIRMS")).
      + destruct (sh_version h =? 2); [|discriminate Hs]. destruct (unmarshal_acks false s) as [l'| |] eqn:El; cbn [omap obind] in Hs; try discriminate Hs.
        injection Hs as <-. cbn [snd]. exact (unmarshal_acks_kind _ _ _ El).
      + destruct (others (sh_id h) (sh_version h)) as [f|]; [|discriminate Hs]. destruct (f s) as [p| |]; cbn [omap obind] in Hs; try discriminate Hs. injection Hs as <-. exact I.
  Qed.
  (** Acknowledgements of a message refer to the message that the header of the answer
      names; acknowledgements of segments (HIRMS) refer to "message 0 ()", whatever message
      the answer answers. *)
  Theorem C68_reference : forall raw m a, read_response others raw = Ok m -> In a (bm_acks m) ->
    ack_ref_msg a = if ack_for_message a then referencing_message (bm_header m) else ([], 0).
  Proof.
    assert (N : forall h raw m a, new_decrypted others h raw = Ok m -> In a (bm_acks m) ->
      ack_ref_msg a = if ack_for_message a then referencing_message (bm_header m) else ([], 0)).
    { intros h raw m a H Ha. unfold new_decrypted in H. destruct (unmarshal_all others raw) as [[segs l]| |] eqn:E; cbn [obind] in H; try discriminate H.
      pose proof (parsed_kind _ _ _ E) as K. cbv zeta in H.
      destruct (all_ok seg_acks (segments_by_id (B "HIRMS") l)) as [ls| |] eqn:El; cbn [obind] in H; try discriminate H.
      destruct (mh_hbci h) as [v|]; [|discriminate H]. destruct ((v =? 220) || (v =? 300)); [|discriminate H]. injection H as <-. cbn [bm_acks bm_header] in *.
      apply in_app_or in Ha. destruct Ha as [Ha|Ha].
      - destruct (segments_by_id (B "HIRMG") l) as [|[l'|l'|p] r] eqn:Es; try destruct Ha.
        apply in_map_iff in Ha. destruct Ha as (b&<-&Hb). assert (Hi : In (PMsgAcks l') (segments_by_id (B "HIRMG") l)) by (rewrite Es; left; reflexivity).
        unfold segments_by_id in Hi. apply in_map_iff in Hi. destruct Hi as (x&Ex&Hx). apply filter_In in Hx. destruct Hx as [Hx _].
        rewrite Forall_forall in K. apply K in Hx. rewrite Ex in Hx. rewrite Forall_forall in Hx. apply Hx in Hb. destruct Hb as [Hb _].
        cbn [set_ref_msg ack_for_message ack_ref_msg]. now rewrite Hb.
      - apply in_concat in Ha. destruct Ha as (l'&Hl&Ha). destruct (all_ok_in _ _ _ El _ Hl) as (x&Hx&Ex).
        destruct x as [z|z|z]; try discriminate Ex. injection Ex as ->.
        unfold segments_by_id in Hx. apply in_map_iff in Hx. destruct Hx as (y&Ey&Hy). apply filter_In in Hy. destruct Hy as [Hy _].
        rewrite Forall_forall in K. apply K in Hy. rewrite Ey in Hy. rewrite Forall_forall in Hy. apply Hy in Ha. destruct Ha as [-> ->]. reflexivity. }
    intros raw m a H Ha. unfold read_response in H. destruct (se_extract (new_segment_extractor raw)) as [x r].
    destruct r as [r| |]; cbn [obind] in H; try discriminate H.
    destruct (find_segment x (B "HNHBK")) as [hs|]; [|discriminate H].
    destruct (unmarshal_msg_header hs) as [h| |]; cbn [obind] in H; try discriminate H.
    destruct (find_segment x (B "HNVSK")) as [_|].
    - destruct (find_segment x (B "HNVSD")) as [ds|]; [|discriminate H].
      destruct (unmarshal_data_seg ds) as [[d|]| |]; cbn [obind] in H; try discriminate H. eapply N; eauto.
    - eapply N; eauto.
  Qed.
End Reading.
Print Assumptions C68_reference.

(** ** Where the texts mislead *)

(** A bank that refuses everything but synchronisations, naming the message it answers in
    the header and refusing a segment as well. *)
Definition strict_answer : bytes :=
  B "HNHBK:1:3+000000000100+300+D1+1+0:1'HIRMG:2:2+9050::Fehler'HIRMS:3:2:4+9210:2:Falsch:a:b+0020::gut'".
Definition strict_bank {J} (h : list (entry J)) : outcome bytes :=
  match rev h with
  | [] => Err
  | e :: _ => match kind_of e with
              | KSync _ => Ok (B "HNHBK:1:3+000000000100+300+S1+1'HIRMG:2:2+0010::ok'HISYN:4:4:1+x'")
              | KEnd _ => Ok (B "HNHBK:1:3+000000000100+300+S1+1'HIRMG:2:2+0010::ok'")
              | _ => Ok strict_answer
              end
  end.
Definition ex_quote (t : bytes) : bytes := x22 :: t ++ [x22].
Definition quiet_why {X} (x : X) : bytes := B "?".
Definition known_system : @world bytes bytes := mkW (upd_system (B "SYS1") (new_dialog (Acc := bytes) (B "user"))) [].
Definition ex_text (bank : list (entry bytes) -> outcome bytes) (c : call) : result unit :=
  snd (t_call ex_sign ex_compose bank ex_others ex_pick (fun _ _ => B "?") (fun _ _ => B "?") quiet_why quiet_why ex_quote c known_system).

(** The hypotheses of C68_dialog_calls are met, and this is what the error looks like:
    the initialisation of the dialog failed, but the text says that ending it did.  The
    error about the segment says that it is about message 0. *)
Theorem C68_init_label_refuted :
  map kind_of (w_sent (fst (t_call ex_sign ex_compose strict_bank ex_others ex_pick (fun _ _ => B "?") (fun _ _ => B "?") quiet_why quiet_why ex_quote CSyncUser known_system)))
    = [KInit (B "user") (B "SYS1") 0 0] /\
  ex_text strict_bank CSyncUser =
    RErr (B "DialogEnd: Institute returned errors:" ++ x0a ::
          B "MessageAcknowledgement for message 1 (0): Code: 9050, Position: none, Text: 'Fehler'" ++ x0a ::
          B "SegmentAcknowledgement for message 0 (), segment 4: Code: 9210, Position: 2, Text: 'Falsch', Parameters: " ++ x22 :: B "a, b" ++ [x22]).
Proof. split; vm_compute; reflexivity. Qed.
Print Assumptions C68_init_label_refuted.
Example C68_regular_meets : regular ex_others.
Proof.
  intros id v f raw s Ho Hf. unfold ex_others in Ho.
  repeat match type of Ho with (if bytes_eqb id ?x then _ else _) = _ => let Ei := fresh "Ei" in destruct (bytes_eqb_spec id x) as [Ei|Ei] end;
    try discriminate Ho; injection Ho as <-; injection Hf as <-; (split; [intros X; rewrite X in *; vm_compute in Ei; discriminate|first [discriminate|exact I]]).
Qed.
Example C68_troubled_meets : exists e, w_sent (fst (t_call ex_sign ex_compose strict_bank ex_others ex_pick (fun _ _ => B "?") (fun _ _ => B "?") quiet_why quiet_why ex_quote CSyncUser known_system))
    = w_sent known_system ++ [] ++ e :: [] /\
  matters (w_sent known_system ++ []) e /\ troubled strict_bank ex_others (w_sent known_system ++ []) e.
Proof.
  eexists. split; [vm_compute; reflexivity|]. split; [intros [i X]; discriminate X|]. right. right. eexists. split.
  - eexists. split; [reflexivity|vm_compute; reflexivity].
  - eexists. split; [left; reflexivity|]. cbn. lia.
Qed.

(** A line feed in the bank's text makes two lines out of one error. *)
Definition two_line_bank (h : list (entry bytes)) : outcome bytes :=
  Ok (B "HNHBK:1:3+000000000100+300+D1+1+0:1'HIRMG:2:2+9050::no" ++ x0a :: B "PIN wrong'").
Theorem C68_lines_refuted : exists m,
  read_response ex_others (match two_line_bank [] with Ok r => r | _ => [] end) = Ok m /\ List.length (errors m) = 1%nat /\
  ex_text two_line_bank CSyncUser =
    RErr (B "DialogEnd: Institute returned errors:" ++ x0a ::
          B "MessageAcknowledgement for message 1 (0): Code: 9050, Position: none, Text: 'no" ++ x0a :: B "PIN wrong'").
Proof. eexists. split; [vm_compute; reflexivity|]. split; vm_compute; reflexivity. Qed.
Print Assumptions C68_lines_refuted.

(** Errors reported at the end of a dialog are not returned. *)
Definition end_refusing_bank (h : list (entry bytes)) : outcome bytes :=
  match rev h with
  | [] => Err
  | e :: _ => match kind_of e with
              | KEnd _ => Ok (B "HNHBK:1:3+000000000100+300+D1+3'HIRMG:2:2+9010::no'")
              | k => Ok (ex_answer k)
              end
  end.
Theorem C68_end_refuted : ex_text end_refusing_bank (CSend (B "x")) = ROk tt.
Proof. vm_compute. reflexivity. Qed.
Print Assumptions C68_end_refuted.

(** Accounts does not say why the bank refused. *)
Definition no_reader (x : bytes) : outcome unit := Err.
Definition ex_accounts : option (result unit) :=
  snd (t_run (A := unit) (Tx := unit) (fun _ _ => Ok tt) (fun _ q => Ok (rq_dialog q)) strict_bank ex_others (fun _ => O)
         (fun _ _ => B "?") (fun _ _ => B "?") quiet_why quiet_why ex_quote no_reader no_reader (fun _ => Err) no_reader (fun _ => Err)
         quiet_why (fun l => l) (fun _ => 0) CAccounts
         (mkW (upd_bpd 7 (upd_system (B "SYS1") (new_dialog (Acc := bytes) (B "user")))) [])).
Theorem C68_accounts_refuted : ex_accounts = Some (RErr (B "error getting accounts")).
Proof. vm_compute. reflexivity. Qed.
Print Assumptions C68_accounts_refuted.
