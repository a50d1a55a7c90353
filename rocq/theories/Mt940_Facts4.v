(** Lemmas about :86: fields whose keys are out of order, and about failing statements. *)
From Verif Require Import Base BaseFacts Lexer_Model Codec_Model Codec_Spec Codec_Proofs Wire_Model Swift_Model Swift_Spec
  Swift_Facts3 Mt940_Model Mt940_Spec Mt940_Proofs Mt940_Facts Mt940_Facts2 Mt940_Facts3.
From Coq Require Import Lia ZifyBool ZifyNat ZifyN Sorted.
Open Scope Z_scope.

(** ** Keys *)
Lemma key_at_prefix k s n : key_at k s n <-> (n <= List.length s)%nat /\ has_prefix (key_text k) (skipn n s) = true.
Proof.
  split.
  - intros (u & w & -> & <-). split; [rewrite app_length; lia|]. rewrite skipn_app_len by reflexivity. apply has_prefix_spec. eauto.
  - intros [L H]. apply has_prefix_spec in H. destruct H as [w H]. exists (firstn n s), w.
    rewrite <- H, firstn_skipn. split; [reflexivity|]. rewrite firstn_length. lia.
Qed.
Lemma find_first k s n : find_sub (key_text k) s = Some n <-> first_at k s n.
Proof.
  assert (D : forall n, find_sub (key_text k) s = Some n -> first_at k s n).
  { intros m H. apply find_sub_some in H. destruct H as (L & P & N). split.
    - apply key_at_prefix. split; [lia|exact P].
    - intros j Hj K. apply key_at_prefix in K. rewrite N in K by exact Hj. destruct K. discriminate. }
  split; [apply D|]. intros [H N].
  destruct (find_sub (key_text k) s) as [m|] eqn:E.
  - destruct (D m eq_refl) as [H' N']. f_equal. destruct (lt_eq_lt_dec m n) as [[K|K]|K]; [|exact K|].
    + exfalso. exact (N m K H').
    + exfalso. exact (N' n K H).
  - apply find_sub_none in E. exfalso. apply E. destruct H as (u & w & -> & _). exists u, w. reflexivity.
Qed.
(** Two different keys do not overlap. *)
Lemma keys_apart k k' s n n' : key_ok k -> key_ok k' -> k <> k' -> key_at k s n -> key_at k' s n' -> (n < n')%nat -> (n + 3 <= n')%nat.
Proof.
  intros Hk Hk' Hne H H' L. apply key_at_prefix in H, H'. destruct H as [_ H], H' as [_ H'].
  destruct (le_lt_dec (n + 3) n') as [G|G]; [exact G|exfalso].
  apply has_prefix_spec in H, H'. destruct H as [w H], H' as [w' H'].
  replace n' with (n + (n' - n))%nat in H' by lia. rewrite <- skipn_plus, H in H'. rewrite !key_three in *.
  destruct (digits2_digits k (key_range k Hk)) as [A B]. 
  assert (n' - n = 1 \/ n' - n = 2)%nat as [E|E] by lia; rewrite E in H'; cbn [skipn app] in H'; injection H' as E1 _ _ || injection H' as E1 _.
  - rewrite E1 in A. discriminate.
  - rewrite E1 in B. discriminate.
Qed.

Definition spaced (p q : bytes * nat) : Prop := (snd p + 3 <= snd q)%nat.
Lemma spaced_trans : Relations_1.Transitive spaced.
Proof. intros a b c. unfold spaced. lia. Qed.
Definition positions (fields : bytes) (ks : list Z) : list (bytes * nat) :=
  flat_map (fun k => match find_sub (key_text k) fields with Some i => [(key_text k, i)] | None => [] end) ks.
Lemma key_positions_all fields : key_positions fields = positions fields key_numbers.
Proof. unfold key_positions, positions. rewrite custom_keys_eq. generalize key_numbers. induction l as [|k l IH]; [reflexivity|]. cbn. now rewrite IH. Qed.
Lemma positions_in fields ks q : In q (positions fields ks) <-> exists k, In k ks /\ first_at k fields (snd q) /\ fst q = key_text k.
Proof.
  unfold positions. rewrite in_flat_map. split.
  - intros (k & Hk & H). exists k. destruct (find_sub (key_text k) fields) as [i|] eqn:E; [|destruct H].
    destruct H as [<-|[]]. apply find_first in E. auto.
  - intros (k & Hk & H & E). exists k. split; [exact Hk|]. apply find_first in H. rewrite H. left. destruct q. cbn in *. congruence.
Qed.
Lemma positions_sorted fields : forall ks, ascending ks -> Forall key_ok ks ->
  ((forall k k' n n', In k ks -> In k' ks -> k < k' -> first_at k fields n -> first_at k' fields n' -> (n < n')%nat) <->
   StronglySorted spaced (positions fields ks)).
Proof.
  induction ks as [|k ks IH]; intros Ha Hk; [split; [constructor|intros _ ? ? ? ? []]|].
  apply ascending_tail in Ha. destruct Ha as [Ha Hlt]. inversion Hk as [|? ? K0 Ks]; subst. specialize (IH Ha Ks).
  rewrite Forall_forall in Hlt, Ks. cbn [positions flat_map]. fold (positions fields ks). split.
  - intros H. assert (S : StronglySorted spaced (positions fields ks)).
    { apply IH. intros a b n n' Hia Hib. apply H; now right. }
    destruct (find_sub (key_text k) fields) as [i|] eqn:E; [|exact S]. constructor; [exact S|].
    apply Forall_forall. intros q Hq. apply positions_in in Hq. destruct Hq as (k' & Hk' & F & _). apply find_first in E.
    unfold spaced. cbn [snd]. apply (keys_apart k k' fields); try apply E; try apply F; auto.
    + specialize (Hlt _ Hk'). lia.
    + apply (H k k'); auto; [now left|now right].
  - intros S. assert (T : StronglySorted spaced (positions fields ks)).
    { destruct (find_sub (key_text k) fields); [|exact S]. now inversion S. }
    intros a b n n' Hia Hib Hlt2 Fa Fb. destruct Hia as [->|Hia].
    + destruct Hib as [->|Hib]; [lia|]. apply find_first in Fa. rewrite Fa in S. inversion S as [|? ? _ HF]; subst.
      rewrite Forall_forall in HF. assert (HI : In (key_text b, n') (positions fields ks)) by (apply positions_in; exists b; auto).
      specialize (HF _ HI). unfold spaced in HF. cbn in HF. lia.
    + destruct Hib as [->|Hib]; [specialize (Hlt _ Hia); lia|]. exact (proj2 IH T a b n n' Hia Hib Hlt2 Fa Fb).
Qed.
Lemma in_order_sorted fields : in_order fields <-> Sorted spaced (key_positions fields).
Proof.
  rewrite key_positions_all. pose proof (positions_sorted fields key_numbers key_numbers_ascending) as P.
  assert (K : Forall key_ok key_numbers) by (apply Forall_forall; intros k Hk; now apply key_numbers_ok).
  specialize (P K). split.
  - intros H. apply StronglySorted_Sorted. apply P. intros k k' n n' A B. apply H; now apply key_numbers_ok.
  - intros H. apply Sorted_StronglySorted in H; [|exact spaced_trans]. intros k k' n n' A B. apply (proj2 P H); now apply key_numbers_ok.
Qed.

(** ** The loop *)
Lemma atoi_no_panic s : atoi s <> Panic.
Proof.
  unfold atoi. assert (K : forall neg ds, match atoi_digits ds with None => Err | Some n => if in_int64 (if neg : bool then - Z.of_N n else Z.of_N n) then Ok (if neg then - Z.of_N n else Z.of_N n) else Err end <> Panic).
  { intros neg ds. destruct (atoi_digits ds); [|discriminate]. destruct (in_int64 _); discriminate. }
  destruct s as [|c ds]; [discriminate|]. destruct (beq c b_minus); [apply (K true)|]. destruct (beq c b_plus); apply (K false).
Qed.
Lemma set_field_no_panic k v c : set_field k v c <> Panic.
Proof.
  unfold set_field. destruct c. repeat match goal with |- context [if ?b then _ else _] => destruct b; try discriminate end.
  pose proof (atoi_no_panic v). destruct (atoi v); [discriminate..|congruence].
Qed.
Lemma set_field_ok k v c : has_prefix (B "?34") k = false -> exists c', set_field k v c = Ok c'.
Proof.
  intros H. unfold set_field. destruct c. rewrite H. repeat match goal with |- context [if ?b then _ else _] => destruct b; eauto end.
Qed.
Lemma loop_in_order fields : forall ps c, Sorted spaced ps -> Forall (fun p => (snd p + 3 <= List.length fields)%nat) ps -> custom_loop fields ps c <> Panic.
Proof.
  induction ps as [|[k i] r IH]; intros c Hs Hl; [discriminate|]. cbn [custom_loop].
  inversion Hs as [|? ? Hr Hd]; subst. inversion Hl as [|? ? L1 L2]; subst. cbn [snd] in L1.
  match goal with |- (if (?n <? _)%nat then _ else _) <> _ => assert (E : (n <? i + 3)%nat = false) end.
  { apply Nat.ltb_ge. destruct r as [|[k' j] r]; [exact L1|]. inversion Hd as [|? ? Q]; subst. exact Q. }
  rewrite E. match goal with |- (do _ <- set_field ?k ?v ?c; _) <> _ => pose proof (set_field_no_panic k v c) as N; destruct (set_field k v c) as [c'| |] end; cbn [obind]; [|discriminate|congruence].
  now apply IH.
Qed.
Lemma loop_out_of_order fields : forall ps c x, custom_loop fields ps c = Ok x -> Sorted spaced ps.
Proof.
  induction ps as [|[k i] r IH]; intros c x H; [constructor|]. cbn [custom_loop] in H.
  match goal with [H : (if (?n <? _)%nat then _ else _) = _ |- _] => destruct (Nat.ltb_spec n (i + 3)) as [L|L]; [discriminate|] end.
  match goal with [H : (do _ <- set_field ?k ?v ?c; _) = _ |- _] => destruct (set_field k v c) as [c'| |]; [|discriminate|discriminate] end.
  cbn [obind] in H. constructor; [eapply IH, H|]. destruct r as [|[k' j] r]; constructor. exact L.
Qed.
Lemma loop_no_err fields : forall ps c, Forall (fun p => has_prefix (B "?34") (fst p) = false) ps -> custom_loop fields ps c <> Err.
Proof.
  induction ps as [|[k i] r IH]; intros c H; [discriminate|]. cbn [custom_loop]. inversion H as [|? ? H1 H2]; subst. cbn [fst] in H1.
  match goal with |- (if ?b then _ else _) <> _ => destruct b; [discriminate|] end.
  match goal with |- (do _ <- set_field ?k ?v ?c; _) <> _ => destruct (set_field_ok k v c H1) as [c' ->] end. cbn [obind]. now apply IH.
Qed.

Lemma read_custom_loop id code lines : ~ In b_colon id -> List.length code = 3%nat -> forallb is_digit code = true ->
  ~ In b_cr (List.concat lines) ->
  read_custom (b_colon :: id ++ b_colon :: code ++ join crlf lines) =
  custom_loop (List.concat lines) (key_positions (List.concat lines)) (mkCustom (Z.of_N (dec_val code)) [] [] [] [] [] [] 0 []).
Proof.
  intros Hid Hl Hd Hc. unfold read_custom. rewrite tag_elements_eq by exact Hid. cbn [obind snd]. cbv zeta.
  unfold len. rewrite app_length, Hl. destruct (Z.ltb_spec (Z.of_nat (3 + List.length (join crlf lines))) 3); [lia|].
  rewrite firstn_app_len, skipn_app_len by (symmetry; exact Hl). rewrite digits_utf8 by exact Hd.
  rewrite atoi_plain; [|destruct code; [discriminate|congruence]|exact Hd|].
  - cbn [obind]. now rewrite remove_crlf_join by exact Hc.
  - pose proof (dec_val_bound _ Hd) as K. rewrite Hl in K. unfold int64_max. change (10 ^ N.of_nat 3)%N with 1000%N in K. lia.
Qed.
Lemma read_custom_in_order id code lines : ~ In b_colon id -> List.length code = 3%nat -> forallb is_digit code = true ->
  ~ In b_cr (List.concat lines) -> in_order (List.concat lines) ->
  read_custom (b_colon :: id ++ b_colon :: code ++ join crlf lines) <> Panic.
Proof.
  intros H1 H2 H3 H4 H. rewrite read_custom_loop by assumption. apply loop_in_order; [now apply in_order_sorted|].
  apply Forall_forall. intros q Hq. rewrite key_positions_all in Hq. apply positions_in in Hq. destruct Hq as (k & _ & F & _).
  apply find_first in F. apply find_sub_some in F. rewrite key_length in F. lia.
Qed.
Lemma read_custom_needs_order id code lines c : ~ In b_colon id -> List.length code = 3%nat -> forallb is_digit code = true ->
  ~ In b_cr (List.concat lines) ->
  read_custom (b_colon :: id ++ b_colon :: code ++ join crlf lines) = Ok c -> in_order (List.concat lines).
Proof.
  intros H1 H2 H3 H4 H. rewrite read_custom_loop in H by assumption. apply in_order_sorted. eapply loop_out_of_order, H.
Qed.
Lemma read_custom_panics id code lines : ~ In b_colon id -> List.length code = 3%nat -> forallb is_digit code = true ->
  ~ In b_cr (List.concat lines) -> ~ occurs (B "?34") (List.concat lines) ->
  (read_custom (b_colon :: id ++ b_colon :: code ++ join crlf lines) = Panic <-> ~ in_order (List.concat lines)).
Proof.
  intros H1 H2 H3 H4 H5. split.
  - intros H K. revert H. now apply read_custom_in_order.
  - intros K. destruct (read_custom (b_colon :: id ++ b_colon :: code ++ join crlf lines)) as [c| |] eqn:E; [| |reflexivity].
    + exfalso. apply K. eapply read_custom_needs_order; eauto.
    + exfalso. rewrite read_custom_loop in E by assumption. revert E. apply loop_no_err. apply Forall_forall. intros q Hq.
      rewrite key_positions_all in Hq. apply positions_in in Hq. destruct Hq as (k & Hk & F & ->).
      destruct (has_prefix (B "?34") (key_text k)) eqn:P; [|reflexivity]. exfalso. apply H5.
      assert (k = 34) as ->.
      { apply has_prefix_spec in P. destruct P as [w P]. apply key_inj; [now apply key_numbers_ok|unfold key_ok; lia|].
        rewrite P. assert (w = []) as ->; [|reflexivity]. apply (f_equal (@List.length _)) in P. rewrite app_length, key_length in P.
        cbn in P. destruct w; [reflexivity|discriminate]. }
      destruct F as [(u & w & -> & _) _]. exists u, w. reflexivity.
Qed.

(** ** Statements that fail *)
Section Failing.
  Context {F : Type}.
  Variable parse_float : bytes -> option F.
  Variable neg : F -> F.
  Variable other_digit : Z -> bool.
  Variable now : Z.
  Variable zero : F.
  Notation dispatch := (dispatch parse_float other_digit now zero).
  Notation dispatch_all := (dispatch_all parse_float other_digit now zero).
  Notation read_statement := (read_statement parse_float other_digit now zero).
  Notation unmarshal_loop := (unmarshal_loop parse_float neg other_digit now zero).
  Notation unmarshal_mt940 := (unmarshal_mt940 parse_float neg other_digit now zero).

  (** A message that brings the whole call down. *)
  Definition breaks (m : bytes) : Prop :=
    read_statement m = Crash \/ exists s, (read_statement m = Fail s \/ exists o, read_statement m = Go o s) /\ transactions_of neg s = Panic.
  Lemma deliver_no_err a o c : forall l, all_ok (deliver neg a o c) l <> Err.
  Proof.
    induction l as [|[t d] l IH]; [discriminate|]. cbn [all_ok].
    unfold deliver at 1. destruct o as [o|], c as [c|]; cbn [obind]; try discriminate.
    destruct (all_ok (deliver neg a (Some o) (Some c)) l); cbn [obind]; congruence.
  Qed.
  Lemma transactions_no_err s : transactions_of neg s <> Err.
  Proof. unfold transactions_of. destruct (st_account s); [apply deliver_no_err|discriminate]. Qed.
  Lemma loop_panic_iff : forall ms failed acc, unmarshal_loop ms failed acc = Panic <-> exists m, In m ms /\ breaks m.
  Proof.
    induction ms as [|m ms IH]; intros failed acc.
    - cbn. split; [destruct failed; discriminate|intros (m & [] & _)].
    - cbn [Mt940_Model.unmarshal_loop].
      assert (D : (exists m0, In m0 (m :: ms) /\ breaks m0) <-> breaks m \/ exists m0, In m0 ms /\ breaks m0).
      { split; [intros (x & [->|Hx] & Hb); eauto|intros [Hb|(x & Hx & Hb)]; [exists m|exists x]; (split; [|exact Hb]); [now left|now right]]. }
      rewrite D. destruct (read_statement m) as [o s|s|] eqn:E.
      + destruct (transactions_of neg s) as [l| |] eqn:T; cbn [obind].
        * rewrite IH. split; [auto|]. intros [[K|(s' & K & P)]|K]; [congruence| |exact K]. exfalso.
          destruct K as [K|(o' & K)]; rewrite E in K; [discriminate|]. assert (s = s') by congruence. congruence.
        * exfalso. exact (transactions_no_err s T).
        * split; [intros _|reflexivity]. left. right. exists s. split; [right; exists o; exact E|exact T].
      + destruct (transactions_of neg s) as [l| |] eqn:T; cbn [obind].
        * rewrite IH. split; [auto|]. intros [[K|(s' & K & P)]|K]; [congruence| |exact K]. exfalso.
          destruct K as [K|(o' & K)]; rewrite E in K; [|discriminate]. assert (s = s') by congruence. congruence.
        * exfalso. exact (transactions_no_err s T).
        * split; [intros _|reflexivity]. left. right. exists s. split; [left; exact E|exact T].
      + split; [intros _|reflexivity]. left. left. exact E.
  Qed.

  Lemma dispatch_keeps_account t open s : has_prefix (B ":25:") t = false ->
    match dispatch t open s with Go _ s' => st_account s' = st_account s | Fail s' => st_account s' = st_account s | Crash => True end.
  Proof.
    intros H. unfold Mt940_Model.dispatch. rewrite H. unfold keep, store.
    repeat match goal with |- context [if has_prefix ?a ?b then _ else _] => destruct (has_prefix a b) end;
    try (match goal with |- context [match ?o with Ok _ => _ | Err => _ | Panic => _ end] => destruct o end; try reflexivity; try exact I).
    - destruct open; [|reflexivity]. destruct (rev (st_transactions s)) as [|[t0 [d|]] l]; reflexivity.
    - reflexivity.
  Qed.
  Lemma dispatch_all_keeps_account : forall ts open s, Forall (fun t => has_prefix (B ":25:") t = false) ts ->
    match dispatch_all ts open s with Go _ s' => st_account s' = st_account s | Fail s' => st_account s' = st_account s | Crash => True end.
  Proof.
    induction ts as [|t ts IH]; intros open s H; [reflexivity|]. inversion H as [|? ? H1 H2]; subst. cbn [Mt940_Model.dispatch_all].
    pose proof (dispatch_keeps_account t open s H1) as K. destruct (dispatch t open s) as [o s'|s'|]; [|exact K|exact I].
    specialize (IH o s' H2). destruct (dispatch_all ts o s'); congruence || exact I.
  Qed.
  (** Fields before the account, one that is not understood, and anything after. *)
  Lemma breaks_no_account m : (forall ts, extract_tags m = Ok ts -> Forall (fun t => has_prefix (B ":25:") t = false) ts) -> breaks m.
  Proof.
    intros H. unfold breaks, Mt940_Model.read_statement.
    destruct (extract_tags m) as [ts| |] eqn:E.
    - pose proof (dispatch_all_keeps_account ts false empty_statement (H ts eq_refl)) as K.
      destruct ts as [|t ts]; [right; exists empty_statement; split; [now left|reflexivity]|].
      destruct (dispatch_all (t :: ts) false empty_statement) as [o s|s|]; [| |now left]; right; exists s.
      + split; [right; now exists o|]. unfold transactions_of. now rewrite K.
      + split; [now left|]. unfold transactions_of. now rewrite K.
    - right. exists empty_statement. split; [now left|reflexivity].
    - now left.
  Qed.

  Hypothesis Hnow : 1000 <= now <= 9999.
  (** An entry that cannot be read after one that can. *)
  Lemma breaks_after_entry s ps bad rest : stmt_ok (reads parse_float) now s -> ps <> [] ->
    Forall (fun p => entry_ok now (fst p) /\ reads parse_float (e_money (fst p)) /\ opt_ok written_ok (snd p)) ps ->
    read_transaction parse_float other_digit now (field_bytes (plain_field (B "61") bad)) = Err ->
    let fields := [plain_field (B "20") (s_job s); plain_field (B "25") (s_bank s ++ B "/" ++ s_account s);
      mkField (B "28") (Some "C"%byte) (s_number s ++ match s_sheet s with Some t => B "/" ++ t | None => [] end);
      mkField (B "60") (Some (s_open_letter s)) (balance_value (s_opening s))] ++
      List.concat (map entry_fields ps) ++ plain_field (B "61") bad :: rest in
    extract_tags (swift_message fields) = Ok (map field_bytes fields) -> breaks (swift_message fields).
  Proof.
    intros (Hb & Ha & Hn & Hsh & Hol & Hcl & (Ho & Hc & Hav & Hfw) & He & Hr & _) Hne Hps Hbad. cbv zeta in *.
    destruct Ho as (Ho & x & Hx). intros E. unfold breaks, Mt940_Model.read_statement. rewrite E. clear E.
    right. 
    match goal with |- context [map field_bytes ?f] => assert (G : exists st q qs, dispatch_all (map field_bytes f) false empty_statement = Fail st /\
      st_account st = Some (mkAccount (s_bank s) (s_account s)) /\ st_closing st = None /\ st_transactions st = q :: qs) end.
    { rewrite !map_app, dispatch_all_app. cbn [map Mt940_Model.dispatch_all]. rewrite dispatch_job, (dispatch_account parse_float neg) by assumption.
      match goal with |- context [Mt940_Model.dispatch _ _ _ _ (field_bytes (mkField (B "28") ?l ?v)) ?o ?st] => destruct (dispatch_number parse_float neg other_digit now zero (s_number s) (s_sheet s) o st Hn Hsh) as (n & En) end.
      rewrite En. clear En. rewrite (dispatch_opening parse_float other_digit now zero Hnow _ _ x) by assumption.
      rewrite dispatch_all_app.
      match goal with |- context [Mt940_Model.dispatch_all _ _ _ _ _ true ?st] => destruct (dispatch_entries parse_float neg other_digit now zero Hnow ps st Hps) as (qs & Hq & E) end.
      rewrite E. clear E. cbn [Mt940_Model.dispatch_all].
      match goal with |- context [Mt940_Model.dispatch _ _ _ _ _ true ?st] => assert (E : dispatch (field_bytes (plain_field (B "61") bad)) true st = Fail st) end.
      { match goal with |- ?l = _ => transitivity (match read_transaction parse_float other_digit now (field_bytes (plain_field (B "61") bad)) with
          | Ok t => Go true (set_transactions (st_transactions (set_opening (stored_balance (s_opening s) x) (set_number n (set_account (mkAccount (s_bank s) (s_account s)) empty_statement))) ++ qs ++ [(t, None)]) (set_opening (stored_balance (s_opening s) x) (set_number n (set_account (mkAccount (s_bank s) (s_account s)) empty_statement)))) | Err => Fail (set_transactions (st_transactions (set_opening (stored_balance (s_opening s) x) (set_number n (set_account (mkAccount (s_bank s) (s_account s)) empty_statement))) ++ qs) (set_opening (stored_balance (s_opening s) x) (set_number n (set_account (mkAccount (s_bank s) (s_account s)) empty_statement)))) | Panic => Crash end) end; [reflexivity|now rewrite Hbad]. }
      rewrite E. clear E. inversion Hq as [|? q ? qs' ? ?]; subst; [congruence|].
      eexists _, _, _. split; [reflexivity|]. split; [reflexivity|]. split; reflexivity. }
    destruct G as (st & q & qs & E & G1 & G2 & G3). exists st. split.
    - left. exact E.
    - unfold transactions_of. rewrite G1, G2, G3. cbn [all_ok]. unfold deliver. destruct (st_opening st); reflexivity.
  Qed.
End Failing.
