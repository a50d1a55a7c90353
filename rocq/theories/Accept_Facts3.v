(** * Facts about which segments can be read: the readers of the elements *)
From Verif Require Import Base BaseFacts Lexer_Model Lexer_Spec Lexer_Proofs Lexer_Facts
  Codec_Model Codec_Spec Codec_Proofs Codec_Props Wire_Model Wire_Spec Wire_Proofs Wire_Facts Wire_Facts2 Wire_Facts3
  Message_Model Message_Spec Message_Proofs Message_Facts Message_Facts2 Message_Facts3
  Dialog_Model Seg_Model Seg_Spec Seg_Facts Seg_Facts2 Seg_Facts3 Seg_Facts4 Seg_Facts5
  Accept_Spec Accept_Facts Accept_Facts2.
From Coq Require Import Lia ZifyBool ZifyNat ZifyN.
Open Scope Z_scope.
Ltac Zify.zify_post_hook ::= Z.div_mod_to_equations.

Lemma fits_text : fits text a_text.
Proof. apply fits_value. intros w. apply judged_ok. Qed.
Lemma fits_number : fits unmarshal_int a_number.
Proof. apply fits_value, judged_int. Qed.
Lemma fits_day : fits unmarshal_date a_day.
Proof. apply fits_value, judged_date. Qed.
Lemma fits_time : fits unmarshal_time a_time.
Proof. apply fits_value, judged_time. Qed.
Lemma fits_flag : fits unmarshal_bool a_flag.
Proof. apply fits_value, judged_bool. Qed.
Lemma fits_binary : fits unmarshal_binary a_binary.
Proof. intros e _ _ _. apply judged_binary. Qed.
Lemma fits_crash {A} : fits (fun _ => @Panic A) crash.
Proof. intros e _ _ _. apply judged_panic. Qed.

Lemma judged_country w : judged (unmarshal_country w) True False.
Proof.
  unfold unmarshal_country. destruct (judged_int w) as [_ H]. destruct (unmarshal_int w); [apply judged_ok|apply judged_ok|].
  exfalso. now apply H.
Qed.
Lemma judged_bank_parts ps : judged (match ps with c :: b :: _ => do country <- unmarshal_country c; Ok (country, to_utf8 b) | _ => Err end)
  (2 <= List.length ps)%nat False.
Proof.
  destruct ps as [|c [|b ps]].
  - eapply judged_iff; [apply judged_err| |tauto]. cbn. lia.
  - eapply judged_iff; [apply judged_err| |tauto]. cbn. lia.
  - eapply judged_iff; [eapply judged_bind; [apply judged_country|intros; apply judged_ok]| |tauto]. cbn. lia.
Qed.
Lemma fits_bank : fits unmarshal_bank a_bank.
Proof. eapply fits_group; [intros w; reflexivity|]. intros ps _. apply judged_bank_parts. Qed.
Lemma fits_account : fits unmarshal_connection an_account.
Proof.
  eapply fits_group; [intros w; reflexivity|]. intros ps _. cbv beta.
  destruct ps as [|a [|s [|c [|b ps]]]]; try (eapply judged_iff; [apply judged_err|cbn; lia|tauto]).
  eapply judged_iff; [eapply judged_bind; [apply judged_int|intros; apply judged_ok]| |tauto]. unfold part. cbn [nth List.length]. 
  split; [intros [H _]; split; [lia|exact H]|tauto].
Qed.
Lemma parts_skipn n ps : parts_ok ps -> skipn n ps <> [] -> parts_ok (skipn n ps).
Proof.
  intros (H1&H2&H3) Hne. split; [|split; [exact Hne|]].
  - rewrite <- (firstn_skipn n ps) in H1. apply Forall_app in H1. tauto.
  - unfold small in *. pose proof (len_join_skipn b_colon n ps). lia.
Qed.
Lemma parts_firstn n ps : parts_ok ps -> firstn n ps <> [] -> parts_ok (firstn n ps).
Proof.
  intros (H1&H2&H3) Hne. split; [|split; [exact Hne|]].
  - rewrite <- (firstn_skipn n ps) in H1. apply Forall_app in H1. tauto.
  - unfold small in *. pose proof (len_join_firstn b_colon n ps). lia.
Qed.
Lemma parts_rejoin ps : parts_ok ps -> group_extract (join [b_colon] ps) = Ok ps.
Proof. intros (H1&H2&H3). now apply rejoin. Qed.
Lemma text_field k es : exists o, field k text es = Ok o.
Proof. unfold field, text. destruct (nonempty_nth k es); cbn; eauto. Qed.
Ltac texts := repeat match goal with |- context [obind (field ?k text ?es) _] =>
  let o := fresh "o" in destruct (text_field k es) as [o ->]; cbn [obind] end.
Lemma nth_skipn_ne (ps : list bytes) n : nth n ps [] <> [] -> skipn n ps <> [].
Proof. intros H K. apply H. destruct (skipn_nth ps n) as [(x&r&E&_)|(_&E&_)]; congruence. Qed.
Lemma nth_ne_length (ps : list bytes) n : nth n ps [] <> [] -> (n < List.length ps)%nat.
Proof. intros H. destruct (Nat.lt_ge_cases n (List.length ps)); [assumption|]. exfalso. apply H. now apply nth_overflow. Qed.
Lemma fits_iban : fits unmarshal_intl an_iban.
Proof.
  eapply fits_group; [intros w; reflexivity|]. intros ps Hp. cbv beta. destruct ps as [|p ps']; [destruct Hp as (_&K&_); congruence|].
  set (ps := p :: ps') in *. texts.
  eapply judged_iff; [eapply judged_bind;
    [apply (judged_field 4 (fun _ => unmarshal_bank (join [b_colon] (skipn 4 ps))) ps (6 <= List.length ps)%nat False)|intros; apply judged_ok]| |tauto].
  - intros Hn. unfold unmarshal_bank. rewrite parts_rejoin by (apply parts_skipn; [exact Hp|now apply nth_skipn_ne]). cbn [obind].
    eapply judged_iff; [apply judged_bank_parts| |tauto]. rewrite skipn_length. lia.
  - unfold part. tauto.
Qed.
Lemma judged_all_ok {A E} (f : A -> outcome E) (P : A -> Prop) l : (forall x, In x l -> judged (f x) (P x) False) ->
  judged (all_ok f l) (Forall P l) False.
Proof.
  induction l as [|x l IH]; intros H; cbn [all_ok].
  - eapply judged_iff; [apply judged_ok| |tauto]. split; [intros; constructor|tauto].
  - eapply judged_iff; [eapply judged_bind; [apply H; now left|intros y Hy; eapply judged_bind; [apply IH; intros z Hz; apply H; now right|intros; apply judged_ok]]| |tauto].
    split; [intros (H1&H2&_); now constructor|]. intros K. inversion K; subst. tauto.
Qed.
Lemma judged_numbers ok (Q : bytes -> Prop) ps : parts_ok ps ->
  (forall p, Q p <-> exists z, integer_of p z /\ ok z = true) ->
  judged (if (List.length ps =? 0)%nat || (9 <? List.length ps)%nat then Err
          else all_ok (fun e => do z <- unmarshal_int e; if ok z then Ok z else Err) ps)
    ((List.length ps <= 9)%nat /\ Forall Q ps) False.
Proof.
  intros (_&Hne&_) HQ. assert (List.length ps <> 0%nat) by (destruct ps; [congruence|cbn; lia]).
  destruct (List.length ps =? 0)%nat eqn:E1; [lia|]. cbn [orb]. destruct (9 <? List.length ps)%nat eqn:E2.
  - eapply judged_iff; [apply judged_err| |tauto]. lia.
  - eapply judged_iff; [apply judged_all_ok with (P := Q)| |tauto].
    + intros p _. split; [|split; [|tauto]].
      * rewrite HQ. split.
        -- intros [z Hz]. destruct (unmarshal_int p) as [y| |] eqn:E; cbn [obind] in Hz; try discriminate.
           exists y. split; [now apply judged_int_of|]. destruct (ok y); [reflexivity|discriminate].
        -- intros (z&Hz&Hok). apply judged_int_of in Hz. exists z. rewrite Hz. cbn [obind]. now rewrite Hok.
      * destruct (judged_int p) as [_ K]. destruct (unmarshal_int p) as [y| |]; cbn [obind]; [destruct (ok y); discriminate|discriminate|tauto].
    + split; [intros; split; [lia|assumption]|tauto].
Qed.
Lemma fits_small_numbers : fits unmarshal_languages small_numbers.
Proof.
  eapply fits_group; [intros w; reflexivity|]. intros ps Hp. apply judged_numbers; [exact Hp|].
  intros p. split; intros (z&H1&H2); exists z; (split; [exact H1|]); lia.
Qed.
Lemma fits_numbers : fits unmarshal_versions numbers.
Proof.
  eapply fits_group; [intros w; reflexivity|]. intros ps Hp. apply judged_numbers; [exact Hp|].
  intros p. unfold integer. split; intros (z&H); exists z; [tauto|]; tauto.
Qed.
Lemma fits_reference : fits unmarshal_ref a_reference.
Proof.
  eapply (fits_group _ (fun ps => match ps with [d; n] => do num <- unmarshal_int n; Ok (to_utf8 d, num) | _ => Err end)).
  - intros w. unfold unmarshal_ref. destruct (group_extract w) as [[|a [|b [|c l]]]| |]; reflexivity.
  - intros ps _. destruct ps as [|a [|b [|c ps]]]; try (eapply judged_iff; [apply judged_err|cbn; lia|tauto]).
    eapply judged_iff; [eapply judged_bind; [apply judged_int|intros; apply judged_ok]| |tauto]. unfold part. cbn [nth List.length]. tauto.
Qed.
Lemma fits_acknowledgement m z : fits (unmarshal_ack m z) an_acknowledgement.
Proof.
  eapply fits_group; [intros w; reflexivity|]. intros ps _. cbv beta.
  destruct ps as [|a [|s [|c ps]]]; try (eapply judged_iff; [apply judged_err|cbn; lia|tauto]).
  eapply judged_iff; [eapply judged_bind; [apply judged_int|intros; apply judged_ok]| |tauto]. unfold part. cbn [nth List.length].
  split; [intros [H _]; split; [lia|exact H]|tauto].
Qed.

(** PIN parameters *)
Lemma judged_pin_pair a b : parts_ok [a; b] -> judged (unmarshal_pin_pair (join [b_colon] [a; b])) (flag b) False.
Proof.
  intros H. unfold unmarshal_pin_pair. rewrite parts_rejoin by exact H. cbn [obind at_index nth_error deref].
  eapply judged_iff; [eapply judged_bind; [apply judged_bool|intros; apply judged_ok]| |]; tauto.
Qed.
Lemma two_ind {A} (P : list A -> Prop) : P [] -> (forall a, P [a]) -> (forall a b l, P l -> P (a :: b :: l)) -> forall l, P l.
Proof.
  intros H0 H1 H2 l. enough (P l /\ forall a, P (a :: l)) by tauto. induction l as [|x l [IH1 IH2]]; [split; [exact H0|exact H1]|].
  split; [apply IH2|]. intros a. now apply H2.
Qed.
Lemma judged_pin_pairs ps : Forall piece ps -> small ps -> Nat.even (List.length ps) = true ->
  judged (pin_pairs ps) (exists l, Forall (fun p => flag (snd p)) l /\ ps = flat_map (fun p => [fst p; snd p]) l) False.
Proof.
  induction ps as [|a|a b ps IH] using two_ind; intros H1 H2 H3.
  - cbn [pin_pairs]. eapply judged_iff; [apply judged_ok| |tauto]. split; [intros _; exists []; split; [constructor|reflexivity]|tauto].
  - discriminate.
  - inversion H1 as [|? ? Ha H1']. inversion H1' as [|? ? Hb H1'']. subst. cbn [pin_pairs].
    assert (Hab : parts_ok [a; b]).
    { split; [constructor; [exact Ha|constructor; [exact Hb|constructor]]|]. split; [discriminate|]. unfold small in *. pose proof (len_join_firstn b_colon 2 (a :: b :: ps)) as K. cbn [firstn] in K. lia. }
    assert (Hps : small ps) by (unfold small in *; pose proof (len_join_skipn b_colon 2 (a :: b :: ps)) as K; cbn [skipn] in K; lia).
    eapply judged_iff; [eapply judged_bind; [apply judged_pin_pair, Hab|intros; eapply judged_bind; [apply IH; assumption|intros; apply judged_ok]]| |tauto].
    split.
    + intros (K1&(l&K2&K3)&_). exists ((a, b) :: l). split; [now constructor|]. cbn [flat_map fst snd app]. now rewrite K3.
    + intros ([|[a' b'] l]&K2&K3); [discriminate|]. cbn [flat_map fst snd app] in K3. inversion K2; subst. cbn [snd] in *.
      assert (b' = b /\ ps = flat_map (fun p => [fst p; snd p]) l) as [-> K] by (split; congruence).
      split; [assumption|]. split; [|exact I]. exists l. split; assumption.
Qed.
Lemma flat_pairs_length (l : list (bytes * bytes)) : List.length (flat_map (fun p => [fst p; snd p]) l) = (2 * List.length l)%nat.
Proof. induction l as [|[a b] l IH]; [reflexivity|]. cbn [flat_map app List.length]. rewrite IH. lia. Qed.
Lemma group_extract_empty : group_extract [] = Ok [[]].
Proof. vm_compute. reflexivity. Qed.
Lemma judged_pin_list n ps : parts_ok ps -> judged (unmarshal_pin_pairs (join [b_colon] (skipn n ps)))
  (exists l, l <> [] /\ Forall (fun p => flag (snd p)) l /\ skipn n ps = flat_map (fun p => [fst p; snd p]) l) False.
Proof.
  intros Hp. unfold unmarshal_pin_pairs. destruct (skipn n ps) as [|x r] eqn:E.
  - cbn [join]. rewrite group_extract_empty. cbn [obind List.length Nat.even].
    eapply judged_iff; [apply judged_err| |tauto]. split; [tauto|]. intros ([|[a b] l]&H1&_&H); [congruence|discriminate].
  - assert (Hr : parts_ok (x :: r)) by (rewrite <- E; apply parts_skipn; [exact Hp|rewrite E; discriminate]).
    rewrite parts_rejoin by exact Hr. cbn [obind]. destruct (Nat.even (List.length (x :: r))) eqn:Ev.
    + destruct Hr as (H1&_&H3). eapply judged_iff; [apply judged_pin_pairs; assumption| |tauto].
      split; intros (l&K); exists l; [|tauto]. destruct K as [K1 K2]. split; [|split; assumption].
      intros ->. discriminate.
    + eapply judged_iff; [apply judged_err| |tauto]. split; [tauto|]. intros (l&_&_&H). rewrite H, flat_pairs_length in Ev.
      assert (Nat.even (2 * List.length l) = true) by (apply Nat.even_spec; now exists (List.length l)). congruence.
Qed.
Lemma fits_pin_parameters : fits unmarshal_pin_params pin_parameters.
Proof.
  eapply fits_group; [intros w; reflexivity|]. intros ps Hp. cbv beta.
  eapply judged_iff; [eapply judged_bind; [apply judged_int|intros; eapply judged_bind; [apply judged_int|intros; eapply judged_bind;
    [apply judged_int|intros; eapply judged_bind; [apply judged_pin_list, Hp|intros; apply judged_ok]]]]| |tauto].
  unfold part, next_at. tauto.
Qed.

(** TAN parameters *)
Lemma judged_tan_process p : parts_ok p -> List.length p = 21%nat -> judged (unmarshal_tan_process (join [b_colon] p)) (tan_process_ok p) False.
Proof.
  intros Hp Hl. unfold unmarshal_tan_process. rewrite parts_rejoin by exact Hp. cbn [obind]. cbv zeta.
  eapply judged_iff; [repeat (eapply judged_bind; [first [apply judged_int|apply judged_bool]|intros]); apply judged_ok| |tauto].
  unfold tan_process_ok, part, next_at. tauto.
Qed.
Lemma judged_tan_pieces : forall fuel ps, Forall piece ps -> small ps -> (List.length ps <= fuel)%nat -> (List.length ps mod 21 = 0)%nat ->
  judged (all_ok (fun p => unmarshal_tan_process (join [b_colon] p)) (pieces fuel 21 ps))
    (exists l, Forall tan_process_ok l /\ ps = List.concat l) False.
Proof.
  induction fuel as [|fuel IH]; intros ps H1 H2 H3 H4.
  - destruct ps; [|cbn in H3; lia]. cbn [pieces all_ok]. eapply judged_iff; [apply judged_ok| |tauto].
    split; [intros _; exists []; split; [constructor|reflexivity]|tauto].
  - destruct ps as [|x r].
    { cbn [pieces all_ok]. eapply judged_iff; [apply judged_ok| |tauto].
      split; [intros _; exists []; split; [constructor|reflexivity]|tauto]. }
    set (ps := x :: r) in *. change (pieces (S fuel) 21 ps) with (firstn 21 ps :: pieces fuel 21 (skipn 21 ps)). cbn [all_ok].
    assert (Hlen : (21 <= List.length ps)%nat).
    { destruct (Nat.lt_ge_cases (List.length ps) 21) as [K|K]; [|exact K]. rewrite Nat.mod_small in H4 by exact K. subst ps. cbn in H4. lia. }
    assert (Hf : List.length (firstn 21 ps) = 21%nat) by (rewrite firstn_length; lia).
    assert (Hp : parts_ok ps) by (split; [exact H1|split; [subst ps; discriminate|exact H2]]).
    assert (Hpf : parts_ok (firstn 21 ps)) by (apply parts_firstn; [exact Hp|intros K; rewrite K in Hf; discriminate]).
    eapply judged_iff; [eapply judged_bind; [apply judged_tan_process; assumption|intros; eapply judged_bind; [apply IH|intros; apply judged_ok]]| |tauto].
    + rewrite <- (firstn_skipn 21 ps) in H1. apply Forall_app in H1. tauto.
    + unfold small in *. pose proof (len_join_skipn b_colon 21 ps). lia.
    + rewrite skipn_length. subst ps. cbn [List.length] in *. lia.
    + rewrite skipn_length. replace (List.length ps) with (List.length ps - 21 + 1 * 21)%nat in H4 by lia. rewrite Nat.mod_add in H4 by lia. exact H4.
    + split.
      * intros (K1&(l&K2&K3)&_). exists (firstn 21 ps :: l). split; [now constructor|]. cbn [List.concat]. rewrite <- K3. symmetry. apply firstn_skipn.
      * intros ([|p l]&K2&K3); [subst ps; discriminate|]. inversion K2 as [|? ? Kp Kl]; subst. cbn [List.concat] in K3.
        destruct Kp as [Kp1 Kp2]. assert (firstn 21 ps = p /\ skipn 21 ps = List.concat l) as [-> ->].
        { rewrite K3, firstn_app, skipn_app, Kp1. rewrite (firstn_all2 p), (skipn_all2 p) by lia. cbn [Nat.sub firstn skipn app]. now rewrite app_nil_r. }
        split; [split; assumption|]. split; [|exact I]. exists l. split; [assumption|reflexivity].
Qed.
Lemma concat_length l : Forall tan_process_ok l -> List.length (List.concat l) = (List.length l * 21)%nat.
Proof. induction 1 as [|p l [H _] _ IH]; [reflexivity|]. cbn [List.concat]. rewrite app_length, H, IH. cbn [List.length]. lia. Qed.
Lemma judged_tan_processes ps : parts_ok ps -> judged (unmarshal_tan_processes (join [b_colon] (skipn 3 ps)))
  (exists l, l <> [] /\ Forall tan_process_ok l /\ skipn 3 ps = List.concat l) False.
Proof.
  intros Hp. unfold unmarshal_tan_processes. destruct (skipn 3 ps) as [|x r] eqn:E.
  - cbn [join]. rewrite group_extract_empty. cbn [obind].
    eapply judged_iff; [apply judged_err| |tauto]. split; [tauto|]. intros ([|p l]&H1&H2&H); [congruence|].
    inversion H2 as [|? ? [Hl _] _]; subst. destruct p; [discriminate|discriminate].
  - assert (Hr : parts_ok (x :: r)) by (rewrite <- E; apply parts_skipn; [exact Hp|rewrite E; discriminate]).
    rewrite parts_rejoin by exact Hr. cbn [obind]. destruct (List.length (x :: r) mod 21 =? 0)%nat eqn:Ev.
    + destruct Hr as (H1&_&H3). eapply judged_iff; [apply judged_tan_pieces; [assumption|assumption|lia|now apply Nat.eqb_eq]| |tauto].
      split; intros (l&K); exists l; [|tauto]. destruct K as [K1 K2]. split; [|split; assumption]. intros ->. discriminate.
    + eapply judged_iff; [apply judged_err| |tauto]. split; [tauto|]. intros (l&_&H2&H). rewrite H, concat_length, Nat.mod_mul in Ev by (assumption || lia). discriminate.
Qed.
Lemma fits_tan_parameters : fits unmarshal_tan_params tan_parameters.
Proof.
  eapply fits_group; [intros w; reflexivity|]. intros ps Hp. cbv beta.
  destruct ps as [|a [|b [|h r]]]; cbn [at_index nth_error deref obind].
  - destruct Hp as (_&K&_). congruence.
  - eapply judged_iff; [eapply judged_bind; [apply judged_bool|intros; apply judged_panic]| |]; unfold part; cbn [nth List.length].
    + split; [tauto|]. intros [K _]. lia.
    + split; [tauto|]. intros [K|[K _]]; [tauto|discriminate].
  - eapply judged_iff; [eapply judged_bind; [apply judged_bool|intros; eapply judged_bind; [apply judged_bool|intros; apply judged_panic]]| |]; unfold part; cbn [nth List.length].
    + split; [tauto|]. intros [K _]. lia.
    + split; [tauto|]. intros [[K _]|K]; [discriminate|tauto].
  - eapply judged_iff; [eapply judged_bind; [apply judged_bool|intros; eapply judged_bind; [apply judged_bool|intros; eapply judged_bind; [apply judged_tan_processes, Hp|intros; apply judged_ok]]]| |]; unfold part; cbn [nth List.length].
    + split; [intros (K1&K2&K3&_); split; [lia|tauto]|tauto].
    + split; [tauto|]. intros [[K _]|[K _]]; discriminate.
Qed.

(** Security methods *)
Lemma split_on_others c w : forall r, split_on c w = r -> (existsb (fun p : bytes => match p with [] => false | _ => true end) r = true <-> exists x, In x w /\ x <> c).
Proof.
  induction w as [|x w IH]; intros r <-.
  - cbn. split; [discriminate|]. intros (x&[]&_).
  - cbn [split_on]. specialize (IH _ eq_refl). destruct (beq_spec x c) as [->|Hx].
    + cbn [existsb orb]. rewrite IH. split; intros (y&H1&H2); exists y; (split; [|exact H2]); [now right|]. destruct H1; [congruence|assumption].
    + destruct (split_on c w) as [|p ps] eqn:E; cbn [existsb orb].
      * split; [intros _; exists x; split; [now left|exact Hx]|reflexivity].
      * split; [intros _; exists x; split; [now left|exact Hx]|reflexivity].
Qed.
Lemma fits_methods : fits unmarshal_methods security_methods.
Proof.
  intros e _ _ _. generalize (group_wire e). intros w. unfold unmarshal_methods, security_methods. cbn [accepts crashes].
  set (versions := exists code rest, _). destruct (in_dec byte_eq_dec ":"%byte w) as [Hin|Hn].
  - destruct (first_occurrence _ _ Hin) as (a&b&Hw&Ha).
    assert (Hv : versions <-> exists c, In c b /\ c <> ":"%byte).
    { subst versions. split; [|intros K; exists a, b; tauto]. intros (a'&b'&H1&H2&H3).
      assert (b = b') as ->; [|exact H3]. clear -Hw Ha H1 H2. rewrite Hw in H1. clear Hw. revert a' H2 H1.
      induction a as [|y a IH]; intros [|y' a'] H2 H1; cbn [app] in H1.
      - congruence.
      - exfalso. apply H2. left. congruence.
      - exfalso. apply Ha. left. congruence.
      - apply (IH ltac:(intros K; apply Ha; now right) a' ltac:(intros K; apply H2; now right)). congruence. }
    rewrite Hw at 1. rewrite split_on_app by exact Ha. 
    match goal with |- judged (if ?x then _ else _) _ _ =>
      assert (Hs : x = true <-> exists y, In y b /\ y <> ":"%byte) by exact (split_on_others b_colon b _ eq_refl); destruct x eqn:E end.
    + assert versions by (apply Hv, Hs; reflexivity). eapply judged_iff; [apply judged_panic| |]; tauto.
    + assert (~ versions) by (intros K; apply Hv, Hs in K; discriminate). eapply judged_iff; [apply judged_ok| |]; tauto.
  - rewrite split_on_one by exact Hn. cbn [existsb].
    assert (~ versions) by (intros (a&b&H1&_); apply Hn; rewrite H1; apply in_or_app; right; now left).
    eapply judged_iff; [apply judged_ok| |]; tauto.
Qed.

(** The security envelope *)
Lemma fits_profile : fits unmarshal_profile security_profile.
Proof.
  eapply fits_group; [intros w; reflexivity|]. intros ps _. cbv beta.
  destruct ps as [|a [|v ps]]; try (eapply judged_iff; [apply judged_err|cbn; lia|tauto]).
  eapply judged_iff; [eapply judged_bind; [apply judged_int|intros; apply judged_ok]| |tauto]. unfold part. cbn [nth List.length].
  split; [intros [H _]; split; [lia|exact H]|tauto].
Qed.
Ltac atleast := match goal with |- judged (if (List.length ?ps <? ?n)%nat then Err else _) _ _ =>
  let H := fresh in destruct (List.length ps <? n)%nat eqn:H; [eapply judged_iff; [apply judged_err|cbn; lia|cbn; try tauto; lia]|] end.
Ltac each := first
  [eapply judged_bind; [first [eapply judged_field; intros _; first [apply judged_int|apply judged_binary|apply judged_date|apply judged_time]]|intros; each]
  |apply judged_ok].
Lemma fits_security_id : fits unmarshal_security_id security_identification.
Proof.
  eapply fits_group; [intros w; reflexivity|]. intros ps _. cbv beta. atleast. texts.
  eapply judged_iff; [eapply judged_bind; [apply judged_field; intros _; apply judged_binary|intros; texts; apply judged_ok]| |];
    unfold if_sent, sent_and, part; assert (3 <= List.length ps)%nat by lia; tauto.
Qed.
Lemma fits_security_date : fits unmarshal_security_date security_date.
Proof.
  eapply fits_group; [intros w; reflexivity|]. intros ps (_&Hp&_). cbv beta.
  destruct ps as [|p ps]; [congruence|]. cbn [List.length Nat.ltb Nat.leb]. texts.
  eapply judged_iff; [each| |]; unfold if_sent, part; tauto.
Qed.
Lemma fits_hash_algorithm : fits unmarshal_hash_algorithm hash_algorithm.
Proof.
  eapply fits_group; [intros w; reflexivity|]. intros ps _. cbv beta. atleast.
  eapply judged_iff; [each| |]; unfold if_sent, sent_and, part; assert (3 <= List.length ps)%nat by lia; tauto.
Qed.
Lemma fits_signature_algorithm : fits unmarshal_signature_algorithm signature_algorithm.
Proof.
  eapply fits_group; [intros w; reflexivity|]. intros ps _. cbv beta. atleast.
  eapply judged_iff; [apply judged_ok|cbv beta; lia|tauto].
Qed.
Lemma fits_key_name : fits unmarshal_key_name key_name.
Proof.
  eapply fits_group; [intros w; reflexivity|]. intros ps Hp. cbv beta. atleast.
  assert (Hl : (6 <= List.length ps)%nat) by lia.
  eapply judged_iff; [eapply judged_bind; [apply (judged_field 0 (fun _ => unmarshal_bank (join [b_colon] (firstn 2 ps))) ps True False)|intros; each]| |];
    [|unfold if_sent, part; tauto|unfold if_sent, part; tauto].
  intros _. unfold unmarshal_bank. rewrite parts_rejoin.
  - cbn [obind]. eapply judged_iff; [apply judged_bank_parts| |tauto]. rewrite firstn_length. lia.
  - apply parts_firstn; [exact Hp|]. destruct ps; [cbn in Hl; lia|]. discriminate.
Qed.
Lemma fits_encryption_algorithm : fits unmarshal_encryption_algorithm encryption_algorithm.
Proof.
  eapply fits_group; [intros w; reflexivity|]. intros ps _. cbv beta. atleast.
  eapply judged_iff; [each| |]; unfold if_sent, sent_and, part; assert (7 <= List.length ps)%nat by lia; tauto.
Qed.
Lemma fits_pin_tan : fits unmarshal_pin_tan pin_and_tan.
Proof.
  eapply fits_group; [intros w; reflexivity|]. intros ps _. cbv beta. atleast.
  eapply judged_iff; [apply judged_ok|cbv beta; lia|tauto].
Qed.
Lemma fits_own_signature : fits unmarshal_custom_signature own_signature.
Proof.
  eapply fits_group; [intros w; reflexivity|]. intros ps _. cbv beta. atleast.
  eapply judged_iff; [apply judged_panic|tauto|cbv beta; lia].
Qed.

(** Amounts, balances, jobs *)
Section Money.
  Context {F : Type} (parse_float : bytes -> option F) (neg : F -> F).
  Lemma fits_money : fits (unmarshal_value parse_float) (a_value parse_float).
  Proof. apply fits_value, judged_money. Qed.
  Lemma judged_amount_parts ps : judged (match ps with [v; c] => do f <- unmarshal_value parse_float v; do cur <- text c; Ok (mkAmount f cur) | _ => Err end)
    (List.length ps = 2%nat /\ money parse_float (part 0 ps)) False.
  Proof.
    destruct ps as [|a [|b [|c ps]]]; try (eapply judged_iff; [apply judged_err|cbn; lia|tauto]).
    eapply judged_iff; [eapply judged_bind; [apply judged_money|intros; apply judged_ok]| |tauto]. unfold part. cbn [nth List.length]. tauto.
  Qed.
  Lemma fits_amount : fits (unmarshal_amount parse_float) (an_amount parse_float).
  Proof. eapply fits_group; [intros w; reflexivity|]. intros ps _. apply judged_amount_parts. Qed.
  Lemma fits_balance : fits (unmarshal_balance parse_float neg) (a_balance parse_float).
  Proof.
    eapply fits_group; [intros w; reflexivity|]. intros ps _. cbv beta.
    destruct ps as [|i [|v [|c [|d r]]]]; try (eapply judged_iff; [apply judged_err|cbn; lia|tauto]).
    unfold part. cbn [nth List.length text obind].
    eapply judged_iff; [eapply judged_bind; [apply judged_money|intros; eapply judged_bind; [apply judged_date|intros; eapply judged_bind;
      [apply (judged_iff _ (List.length r = 1%nat -> clock (nth 0 r [])) False _ _); [|reflexivity|reflexivity]|intros; apply judged_ok]]]| |tauto].
    - destruct r as [|t [|u r]]; [eapply judged_iff; [apply judged_ok|cbn; lia|tauto]| |eapply judged_iff; [apply judged_ok|cbn; lia|tauto]].
      eapply judged_iff; [eapply judged_bind; [apply judged_time|intros; apply judged_ok]| |tauto]. cbn [nth List.length]. tauto.
    - split; [intros (H1&H2&H3&_)|intros (H1&H2&H3&H4)].
      + split; [lia|]. split; [exact H1|]. split; [exact H2|]. intros K. apply H3. lia.
      + split; [exact H2|]. split; [exact H3|]. split; [|exact I]. intros K. apply H4. lia.
  Qed.
  Lemma fits_job : fits (unmarshal_allowed parse_float) a_job.
  Proof.
    eapply fits_group; [intros w; reflexivity|]. intros ps Hp. cbv beta.
    destruct ps as [|i [|n r]]; try (eapply judged_iff; [apply judged_err|cbn; lia|tauto]).
    set (ps := i :: n :: r) in *. change (text i) with (Ok (unmarshal_text i)). cbn [obind]. 
    eapply judged_iff; [eapply judged_bind; [apply judged_int|intros; texts; eapply judged_bind;
      [apply (judged_field 3 (unmarshal_amount parse_float) ps False False)|intros; each]]| |].
    - intros Hne. unfold unmarshal_amount. pose proof (nth_ne_length ps 3 Hne) as Hlt.
      assert (Hk : parts_ok [nth 3 ps []]).
      { destruct Hp as (H1&H2&H3). split; [|split; [discriminate|]].
        - constructor; [|constructor]. rewrite Forall_forall in H1. apply H1. now apply nth_In.
        - unfold small in *. change (join [b_colon] [nth 3 ps []]) with (nth 3 ps []).
          pose proof (len_join_in b_colon ps (nth 3 ps []) (nth_In ps [] Hlt)). lia. }
      change (group_extract (nth 3 ps [])) with (group_extract (join [b_colon] [nth 3 ps []])). rewrite parts_rejoin by exact Hk.
      cbn [obind]. apply judged_err.
    - unfold if_sent. change (part 1 ps) with n. unfold part.
      assert (2 <= List.length ps)%nat by (subst ps; cbn; lia).
      destruct (nth 3 ps []) as [|x w] eqn:E.
      + assert (@nil byte <> [] -> False) by congruence. tauto.
      + split; [intros (_&K&_); exfalso; apply K; discriminate|]. intros (_&_&K&_). discriminate.
    - tauto.
  Qed.
End Money.
