(** * Reading parameter data *)
From Verif Require Import Base BaseFacts Lexer_Model Lexer_Spec Lexer_Proofs Lexer_Facts
  Codec_Model Codec_Spec Codec_Proofs Codec_Props Wire_Model Wire_Spec Wire_Proofs Wire_Facts Wire_Facts2 Wire_Facts3
  Message_Model Message_Spec Message_Proofs Message_Facts Message_Facts2 Message_Facts3
  Seg_Model Seg_Spec Seg_Facts Seg_Facts2 Seg_Facts3.
From Coq Require Import Lia ZifyBool ZifyNat ZifyN.
Open Scope Z_scope.
Ltac Zify.zify_post_hook ::= Z.div_mod_to_equations.

Lemma option_map_id {A} (o : option A) : option_map (fun x => x) o = o.
Proof. destruct o; reflexivity. Qed.
Lemma reads_numbers_opt : reads unmarshal_int number_group number_ok (fun n => n).
Proof. exact reads_number. Qed.
Lemma number_items o : opt_ok number_ok o -> Forall item_ok (opt_group number_group o).
Proof. apply opt_items. intros n H. constructor; [exact H|constructor]. Qed.
Lemma one_item i : item_ok i -> Forall item_ok [i].
Proof. intros H. constructor; [exact H|constructor]. Qed.

(** ** HISYN *)
Lemma hisyn_read pos v ref sys msg sg : header_ok pos ref -> 0 <= v <= 99 -> item_ok (TText sys) ->
  opt_ok number_ok msg -> opt_ok number_ok sg -> len (sync_segment pos v ref sys msg sg) < 2 ^ 61 ->
  unmarshal_hisyn (sync_segment pos v ref sys msg sg) = Ok (mkHisyn (option_map utf8 (nonempty sys)) msg sg).
Proof.
  intros Hh Hv H1 H2 H3 Hl. unfold sync_segment, unmarshal_hisyn in *.
  rewrite segment_wire_read; [|reflexivity|exact Hh|exact Hv| |exact Hl].
  - assert (S : forall g, In g [[TText sys]; opt_group number_group msg; opt_group number_group sg] -> len (group_wire g) < 2 ^ 61)
      by (intros g Hg; now apply (element_small g _ _ _ _ _ Hg) in Hl).
    unfold wire_elements. rewrite !field_strip, last_field_strip by reflexivity.
    rewrite (field_text 1 _ sys) by reflexivity. cbn [obind].
    rewrite (field_opt _ _ _ _ 2 _ msg reads_numbers_opt); [|reflexivity|exact H2|apply S; cbn; tauto]. cbn [obind].
    rewrite (field_opt _ _ _ _ 3 _ sg reads_numbers_opt); [|reflexivity|exact H3|apply S; cbn; tauto]. cbn [obind].
    now rewrite !option_map_id.
  - repeat apply Forall_cons; try apply Forall_nil; try exact H1; now apply number_items.
Qed.

(** ** HIUPA *)
Lemma hiupa_read pos v ref u : header_ok pos ref -> 2 <= v <= 4 -> user_ok u -> len (user_segment pos v ref u) < 2 ^ 61 ->
  unmarshal_hiupa v (user_segment pos v ref u) =
    Ok (mkHiupa v (Some (utf8 (ui_user u))) (Some (ui_version u)) (Some (ui_usage u))
          (if v =? 2 then None else option_map utf8 (nonempty (ui_name u)))
          (if v =? 2 then None else option_map utf8 (nonempty (ui_extensions u)))).
Proof.
  intros Hh Hv (H1&H2&H3&H4&H5&H6) Hl. unfold user_segment, unmarshal_hiupa in *.
  set (gs := [[TText (ui_user u)]; [TNumber (ui_version u)]; [TNumber (ui_usage u)]] ++
     (if v =? 2 then [] else [[TText (ui_name u)]; [TText (ui_extensions u)]])) in *.
  assert (Hi : Forall (Forall item_ok) gs).
  { unfold gs. apply Forall_app. split.
    - repeat apply Forall_cons; try apply Forall_nil; assumption.
    - destruct (v =? 2); repeat apply Forall_cons; try apply Forall_nil; assumption. }
  rewrite segment_wire_read; [|reflexivity|exact Hh|lia|exact Hi|exact Hl].
  assert (S : forall g, In g gs -> len (group_wire g) < 2 ^ 61) by (intros g Hg; now apply (element_small g _ _ _ _ _ Hg) in Hl).
  unfold wire_elements. rewrite !field_strip.
  rewrite (field_some _ _ _ _ 1 _ (ui_user u) reads_text); [|reflexivity|exact H2|apply S; cbn; tauto]. cbn [obind].
  rewrite (field_some _ _ _ _ 2 _ (ui_version u) reads_number); [|reflexivity|exact H3|apply S; cbn; tauto]. cbn [obind].
  unfold gs in *. destruct (v =? 2); cbn [app map] in *.
  - rewrite last_field_strip by reflexivity.
    rewrite (field_some _ _ _ _ 3 _ (ui_usage u) reads_number); [|reflexivity|exact H4|apply S; cbn; tauto]. reflexivity.
  - rewrite last_field_strip by reflexivity.
    rewrite (field_some _ _ _ _ 3 _ (ui_usage u) reads_number); [|reflexivity|exact H4|apply S; cbn; tauto]. cbn [obind].
    rewrite (field_text 4 _ (ui_name u)) by reflexivity. cbn [obind].
    rewrite (field_text 5 _ (ui_extensions u)) by reflexivity. reflexivity.
Qed.

(** ** HIBPA *)
Lemma numbers_read (ok : Z -> bool) (l : list Z) : Forall number_ok l -> (1 <= List.length l <= 9)%nat -> Forall (fun z => ok z = true) l ->
  len (group_wire (map TNumber l)) < 2 ^ 61 ->
  group_wire (map TNumber l) <> [] /\ unmarshal_numbers ok (group_wire (map TNumber l)) = Ok l.
Proof.
  intros H1 H2 H3 Hl. destruct l as [|x l]; [cbn in H2; lia|].
  split; [apply (group_wire_ne _ (TNumber x)); [now left|exact I]|].
  assert (Hg : group_ok (map TNumber (x :: l))).
  { split; apply Forall_forall; intros i Hi; apply in_map_iff in Hi; destruct Hi as (n&<-&Hn); [|exact I].
    rewrite Forall_forall in H1. now apply H1. }
  assert (Hs : strip (map item_wire (map TNumber (x :: l))) = map item_wire (map TNumber (x :: l))).
  { apply strip_full. apply Forall_forall. intros w Hw. apply in_map_iff in Hw. destruct Hw as (i&<-&Hi).
    apply in_map_iff in Hi. destruct Hi as (n&<-&_). now apply (item_present (TNumber n)). }
  unfold unmarshal_numbers. rewrite group_read; [|exact Hg|rewrite Hs; discriminate|exact Hl]. cbn [obind]. rewrite Hs.
  rewrite !map_length. destruct ((List.length (x :: l) =? 0)%nat || (9 <? List.length (x :: l))%nat) eqn:E; [lia|].
  clear -H1 H3. induction (x :: l) as [|y r IH]; [reflexivity|].
  inversion H1; subst. inversion H3; subst. cbn [map all_ok]. rewrite number_read by assumption. cbn [obind].
  rewrite H5. cbn [obind]. rewrite IH by assumption. reflexivity.
Qed.
Lemma reads_numbers (ok : Z -> bool) : reads (unmarshal_numbers ok) (map TNumber)
  (fun l => Forall number_ok l /\ (1 <= List.length l <= 9)%nat /\ Forall (fun z => ok z = true) l) (fun l => l).
Proof. intros l (H1&H2&H3) Hl. now apply numbers_read. Qed.
Lemma number_map_items l : Forall number_ok l -> Forall item_ok (map TNumber l).
Proof. intros H. apply Forall_forall. intros i Hi. apply in_map_iff in Hi. destruct Hi as (n&<-&Hn). rewrite Forall_forall in H. now apply H. Qed.
Lemma language_number l : Forall (fun z => 0 <= z <= 3) l -> Forall number_ok l.
Proof. apply Forall_impl. intros z H. unfold number_ok. lia. Qed.
Lemma hibpa_read pos v ref b : header_ok pos ref -> 2 <= v <= 3 -> bank_ok b -> len (bank_segment pos v ref b) < 2 ^ 61 ->
  unmarshal_hibpa v (bank_segment pos v ref b) =
    Ok (mkHibpa (Some (bi_version b)) (Some (Some (bi_country b), utf8 (bi_code b))) (Some (utf8 (bi_name b))) (Some (bi_jobs b))
          (Some (bi_languages b)) (Some (bi_protocols b)) (bi_size b)
          (if v =? 2 then None else bi_min b) (if v =? 2 then None else bi_max b)).
Proof.
  intros Hh Hv (H1&H2&H3&H4&H5&H6&H7&H8&H9&H10&H11&H12&H13&H14&H15) Hl. unfold bank_segment, unmarshal_hibpa in *.
  set (gs := [[TNumber (bi_version b)]; [TDigits 3 (bi_country b); TText (bi_code b)]; [TText (bi_name b)];
      [TNumber (bi_jobs b)]; map TNumber (bi_languages b); map TNumber (bi_protocols b);
      opt_group number_group (bi_size b)] ++
     (if v =? 2 then [] else [opt_group number_group (bi_min b); opt_group number_group (bi_max b)])) in *.
  assert (Hi : Forall (Forall item_ok) gs).
  { unfold gs. apply Forall_app. split.
    - apply Forall_cons; [now apply one_item|]. apply Forall_cons; [apply Forall_cons; [exact H2|now apply one_item]|].
      apply Forall_cons; [now apply one_item|]. apply Forall_cons; [now apply one_item|].
      apply Forall_cons; [now apply number_map_items, language_number|]. apply Forall_cons; [now apply number_map_items|].
      apply Forall_cons; [now apply number_items|constructor].
    - destruct (v =? 2); [constructor|]. apply Forall_cons; [now apply number_items|]. apply Forall_cons; [now apply number_items|constructor]. }
  rewrite segment_wire_read; [|reflexivity|exact Hh|lia|exact Hi|exact Hl].
  assert (S : forall g, In g gs -> len (group_wire g) < 2 ^ 61) by (intros g Hg; now apply (element_small g _ _ _ _ _ Hg) in Hl).
  unfold wire_elements. rewrite !field_strip.
  rewrite (field_some _ _ _ _ 1 _ (bi_version b) reads_number); [|reflexivity|exact H1|apply S; cbn; tauto]. cbn [obind].
  rewrite (field_some _ _ _ _ 2 _ (bi_country b, bi_code b) reads_bank); [|reflexivity|cbn [fst snd]; repeat split; try apply H2; try apply H3; assumption|apply S; cbn; tauto]. cbn [obind fst snd].
  rewrite (field_some _ _ _ _ 3 _ (bi_name b) reads_text); [|reflexivity|exact H7|apply S; cbn; tauto]. cbn [obind].
  rewrite (field_some _ _ _ _ 4 _ (bi_jobs b) reads_number); [|reflexivity|exact H8|apply S; cbn; tauto]. cbn [obind].
  rewrite (field_some unmarshal_languages _ _ _ 5 _ (bi_languages b) (reads_numbers (fun z => z <=? 3))); [|reflexivity| |apply S; cbn; tauto].
  2: { split; [now apply language_number|]. split; [exact H10|]. revert H9. apply Forall_impl. intros z Hz. lia. }
  cbn [obind].
  rewrite (field_some unmarshal_versions _ _ _ 6 _ (bi_protocols b) (reads_numbers (fun _ => true))); [|reflexivity| |apply S; cbn; tauto].
  2: { split; [exact H11|]. split; [exact H12|]. revert H11. apply Forall_impl. reflexivity. }
  cbn [obind]. unfold gs in *. destruct (v =? 2); cbn [app map] in *.
  - rewrite last_field_strip by reflexivity.
    rewrite (field_opt _ _ _ _ 7 _ (bi_size b) reads_numbers_opt); [|reflexivity|exact H13|apply S; cbn; tauto]. cbn [obind]. now rewrite option_map_id.
  - rewrite last_field_strip by reflexivity.
    rewrite (field_opt _ _ _ _ 7 _ (bi_size b) reads_numbers_opt); [|reflexivity|exact H13|apply S; cbn; tauto]. cbn [obind].
    rewrite (field_opt _ _ _ _ 8 _ (bi_min b) reads_numbers_opt); [|reflexivity|exact H14|apply S; cbn; tauto]. cbn [obind].
    rewrite (field_opt _ _ _ _ 9 _ (bi_max b) reads_numbers_opt); [|reflexivity|exact H15|apply S; cbn; tauto]. cbn [obind].
    now rewrite !option_map_id.
Qed.

(** ** HIUPD *)
Lemma split_on_one c b : ~ In c b -> split_on c b = [b].
Proof.
  induction b as [|x b IH]; intros H; [reflexivity|]. cbn [split_on].
  destruct (beq_spec x c) as [->|]; [exfalso; apply H; now left|]. rewrite IH; [reflexivity|]. intros K. apply H. now right.
Qed.
Lemma split_on_app c a r : ~ In c a -> split_on c (a ++ c :: r) = a :: split_on c r.
Proof.
  induction a as [|x a IH]; intros H; cbn [app split_on]; [now rewrite beq_refl|].
  destruct (beq_spec x c) as [->|]; [exfalso; apply H; now left|]. rewrite IH; [reflexivity|]. intros K. apply H. now right.
Qed.
Lemma split_on_join c (ls : list bytes) : ls <> [] -> Forall (fun w => ~ In c w) ls -> split_on c (join [c] ls) = ls.
Proof.
  induction ls as [|a ls IH]; intros H1 H2; [congruence|]. inversion H2; subst. destruct ls as [|b ls].
  - now apply split_on_one.
  - change (join [c] (a :: b :: ls)) with (a ++ c :: join [c] (b :: ls)). rewrite split_on_app by assumption. rewrite IH; [reflexivity|discriminate|assumption].
Qed.
Lemma group_no_plus g : group_ok g -> ~ In b_plus (group_wire g).
Proof.
  intros [H1 H2] K. pose proof (strip_map_special g H1 H2) as E. unfold group_wire in K.
  assert (existsb special (join [b_colon] (strip (map item_wire g))) = true) by (apply existsb_exists; exists b_plus; split; [exact K|reflexivity]).
  congruence.
Qed.
Section Accounts.
  Context {F : Type} (parse_float : bytes -> option F).
  Lemma reads_job : reads (unmarshal_allowed parse_float) job_group job_ok job_value.
  Proof.
    intros j [[H1 H2] H3] Hl. split; [apply (group_wire_ne _ (TNumber (jb_signatures j))); [cbn; tauto|exact I]|].
    unfold job_group in *. unfold unmarshal_allowed, job_value. assert (Hn : 0 <= jb_signatures j < 2 ^ 63).
    { cbn [app] in H1. rewrite !Forall_cons_iff in H1. apply H1. }
    destruct (jb_limit j) as [k|]; cbn [app] in *.
    - change [TText (jb_id j); TNumber (jb_signatures j); TText k] with ([TText (jb_id j); TNumber (jb_signatures j)] ++ [TText k]) in *.
      rewrite group_read_present; [|now split|exact H3|exact Hl]. cbn [app map obind]. rewrite text_read. cbn [obind].
      rewrite number_read by exact Hn. cbn [obind].
      rewrite (field_text 2 _ k) by (rewrite single_wire; reflexivity). cbn [obind].
      destruct k as [|c k]; [cbn in H3; congruence|]. reflexivity.
    - change [TText (jb_id j); TNumber (jb_signatures j)] with ([TText (jb_id j)] ++ [TNumber (jb_signatures j)]) in *.
      rewrite group_read_present; [|now split|exact I|exact Hl]. cbn [app map obind]. rewrite text_read. cbn [obind].
      rewrite number_read by exact Hn. reflexivity.
  Qed.
  Lemma jobs_wire_ne js : Forall job_ok js -> Forall (fun w => w <> []) (map group_wire (map job_group js)).
  Proof.
    intros H. apply Forall_forall. intros w Hw. apply in_map_iff in Hw. destruct Hw as (g&<-&Hg). apply in_map_iff in Hg.
    destruct Hg as (j&<-&_). apply (group_wire_ne _ (TNumber (jb_signatures j))); [cbn; tauto|exact I].
  Qed.
  Lemma jobs_read js : js <> [] -> Forall job_ok js -> Forall (fun j => len (group_wire (job_group j)) < 2 ^ 61) js ->
    unmarshal_alloweds parse_float (join [b_plus] (map group_wire (map job_group js))) = Ok (map job_value js).
  Proof.
    intros Hne H Hl. unfold unmarshal_alloweds. rewrite split_on_join.
    - clear Hne. induction js as [|j js IH]; [reflexivity|]. inversion H; subst. inversion Hl; subst. cbn [map all_ok].
      destruct (reads_job j) as [_ ->]; [assumption..|]. cbn [obind]. rewrite IH by assumption. reflexivity.
    - destruct js; [congruence|discriminate].
    - apply Forall_forall. intros w Hw. apply in_map_iff in Hw. destruct Hw as (g&<-&Hg). apply in_map_iff in Hg. destruct Hg as (j&<-&Hj).
      rewrite Forall_forall in H. destruct (H j Hj) as [K _]. now apply group_no_plus.
  Qed.
  (** The last field over all remaining elements. *)
  Lemma last_field_jobs fixed js : Forall job_ok js -> Forall (fun j => len (group_wire (job_group j)) < 2 ^ 61) js ->
    last_field (List.length fixed) (unmarshal_alloweds parse_float) (strip (fixed ++ map group_wire (map job_group js))) =
      Ok (match js with [] => None | _ => Some (map job_value js) end).
  Proof.
    intros H Hl. unfold last_field. rewrite strip_nonempty_nth. unfold nonempty_nth. destruct js as [|j js].
    - cbn [map]. rewrite app_nil_r, (proj2 (nth_error_None _ _)) by lia. reflexivity.
    - rewrite nth_error_app2, Nat.sub_diag by lia. pose proof (jobs_wire_ne _ H) as Hw.
      assert (Hs : strip (fixed ++ map group_wire (map job_group (j :: js))) = fixed ++ map group_wire (map job_group (j :: js))).
      { apply strip_id. assert (Hne : map group_wire (map job_group (j :: js)) <> []) by discriminate.
        destruct (exists_last Hne) as (q&y&E). rewrite E in *. rewrite app_assoc, last_last.
        apply Forall_app in Hw. destruct Hw as [_ Hw]. inversion Hw; subst. assumption. }
      rewrite Hs, skipn_app, skipn_all, Nat.sub_diag. cbn [app skipn].
      assert (Hj : group_wire (job_group j) <> []) by (cbn [map] in Hw; now inversion Hw).
      rewrite (jobs_read (j :: js)); [|discriminate|exact H|exact Hl].
      cbn [map nth_error]. destruct (group_wire (job_group j)); [congruence|]. reflexivity.
  Qed.
  Lemma last_field_jobs_at k fixed js (es : list bytes) : es = fixed ++ map group_wire (map job_group js) -> List.length fixed = k ->
    Forall job_ok js -> Forall (fun j => len (group_wire (job_group j)) < 2 ^ 61) js ->
    last_field k (unmarshal_alloweds parse_float) (strip es) = Ok (match js with [] => None | _ => Some (map job_value js) end).
  Proof. intros -> <-. now apply last_field_jobs. Qed.
  Definition hiupd_value (v : Z) (a : account_data) : hiupd F :=
    mkHiupd v (Some (national_value (ad_account a))) (Some (utf8 (ad_user a))) (option_map utf8 (nonempty (ad_currency a)))
      (Some (utf8 (ad_name1 a))) (option_map utf8 (nonempty (ad_name2 a))) (option_map utf8 (nonempty (ad_product a)))
      (match (if v <=? 5 then ad_jobs a else firstn 1 (ad_jobs a)) with [] => None | js => Some (map job_value js) end).
  Lemma account_groups_eq pos v ref a : 4 <= v <= 7 -> exists fixed,
    account_segment pos v ref a = segment_wire (B "HIUPD") pos v ref (fixed ++ map job_group (ad_jobs a)) /\
    fixed = [national_group (ad_account a)] ++
     (if v =? 4 then [[TText (ad_user a)]]
      else if v =? 5 then [[TText (ad_user a)]; opt_group number_group (ad_type a)]
      else [[TText (ad_iban a)]; [TText (ad_user a)]; opt_group number_group (ad_type a)]) ++
     [[TText (ad_currency a)]; [TText (ad_name1 a)]; [TText (ad_name2 a)]; [TText (ad_product a)]; []].
  Proof.
    intros Hv. eexists. split; [|reflexivity]. unfold account_segment. rewrite <- !app_assoc. reflexivity.
  Qed.
  Lemma text_total k es : exists o, field k text es = Ok o.
  Proof. unfold field. destruct (nonempty_nth k es); eexists; reflexivity. Qed.
  Lemma last_text_total k es : exists o, last_field k text es = Ok o.
  Proof. unfold last_field. destruct (nonempty_nth k es); eexists; reflexivity. Qed.
  Lemma hiupd_read pos v ref a : header_ok pos ref -> 4 <= v <= 7 -> account_ok a -> len (account_segment pos v ref a) < 2 ^ 61 ->
    unmarshal_hiupd parse_float v (account_segment pos v ref a) = Ok (hiupd_value v a).
  Proof.
    intros Hh Hv (H1&H2&H3&H4&H5&H6&H8&H9&H10&H11&H12) Hl.
    destruct (account_groups_eq pos v ref a Hv) as (fixed&E&Ef). rewrite E in *. clear E.
    assert (Hi : Forall (Forall item_ok) (fixed ++ map job_group (ad_jobs a))).
    { apply Forall_app. split.
      - rewrite Ef. apply Forall_app. split; [apply Forall_cons; [apply H1|constructor]|]. apply Forall_app. split.
        + pose proof (number_items _ H5) as Hn. destruct (v =? 4); [|destruct (v =? 5)].
          * apply Forall_cons; [now apply one_item|constructor].
          * apply Forall_cons; [now apply one_item|]. apply Forall_cons; [exact Hn|constructor].
          * apply Forall_cons; [now apply one_item|]. apply Forall_cons; [now apply one_item|]. apply Forall_cons; [exact Hn|constructor].
        + apply Forall_cons; [now apply one_item|]. apply Forall_cons; [now apply one_item|]. apply Forall_cons; [now apply one_item|].
          apply Forall_cons; [now apply one_item|]. apply Forall_cons; [constructor|constructor].
      - apply Forall_forall. intros g Hg. apply in_map_iff in Hg. destruct Hg as (j&<-&Hj). rewrite Forall_forall in H12.
        destruct (H12 j Hj) as [[K _] _]. exact K. }
    unfold unmarshal_hiupd. rewrite segment_wire_read; [|reflexivity|exact Hh|lia|exact Hi|exact Hl].
    assert (S : forall g, In g (fixed ++ map job_group (ad_jobs a)) -> len (group_wire g) < 2 ^ 61) by (intros g Hg; now apply (element_small g _ _ _ _ _ Hg) in Hl).
    assert (Sj : Forall (fun j => len (group_wire (job_group j)) < 2 ^ 61) (ad_jobs a)).
    { apply Forall_forall. intros j Hj. apply S, in_or_app. right. apply in_map_iff. now exists j. }
    unfold wire_elements. rewrite map_app. rewrite !field_strip.
    set (es := header_bytes (B "HIUPD") pos v ref :: map group_wire fixed ++ map group_wire (map job_group (ad_jobs a))).
    assert (Sc : forall i, In [i] fixed -> len (group_wire [i]) < 2 ^ 61) by (intros i Hi'; apply S, in_or_app; now left).
    assert (St : len (group_wire (opt_group number_group (ad_type a))) < 2 ^ 61 \/ v = 4).
    { destruct (v =? 4) eqn:E4; [right; lia|left]. apply S, in_or_app. left. rewrite Ef. destruct (v =? 5); cbn; tauto. }
    assert (Sn : len (group_wire (national_group (ad_account a))) < 2 ^ 61) by (apply S, in_or_app; left; rewrite Ef; cbn; tauto).
    assert (Su : len (group_wire [TText (ad_user a)]) < 2 ^ 61).
    { apply Sc. rewrite Ef. destruct (v =? 4); [cbn; tauto|destruct (v =? 5); cbn; tauto]. }
    assert (Scur : len (group_wire [TText (ad_currency a)]) < 2 ^ 61).
    { apply Sc. rewrite Ef. destruct (v =? 4); [cbn; tauto|destruct (v =? 5); cbn; tauto]. }
    assert (Sn1 : len (group_wire [TText (ad_name1 a)]) < 2 ^ 61).
    { apply Sc. rewrite Ef. destruct (v =? 4); [cbn; tauto|destruct (v =? 5); cbn; tauto]. }
    unfold hiupd_value. clear S Sc Hi. destruct (v =? 4) eqn:E4; [|destruct (v =? 5) eqn:E5]; cbn [app map] in Ef; subst fixed; cbn [app map] in *.
    - destruct (v <=? 5) eqn:E6; [|lia].
      rewrite (field_some _ _ _ _ 1 es (ad_account a) reads_national eq_refl H1 Sn). cbn [obind].
      rewrite (field_some _ _ _ _ 2 es (ad_user a) reads_text eq_refl H4 Su). cbn [obind].
      rewrite (field_text 3 es (ad_currency a) eq_refl). cbn [obind].
      rewrite (field_some _ _ _ _ 4 es (ad_name1 a) reads_text eq_refl H9 Sn1). cbn [obind].
      rewrite (field_text 5 es (ad_name2 a) eq_refl). cbn [obind].
      rewrite (field_text 6 es (ad_product a) eq_refl). cbn [obind].
      change (field 7 unmarshal_limit es) with (Ok (@None unit)). cbn [obind].
      rewrite (last_field_jobs_at 8 (firstn 8 es) (ad_jobs a) es eq_refl eq_refl H12 Sj). cbn [obind]. destruct (ad_jobs a); reflexivity.
    - destruct (v <=? 5) eqn:E6; [|lia]. destruct St as [St|St]; [|lia].
      rewrite (field_some _ _ _ _ 1 es (ad_account a) reads_national eq_refl H1 Sn). cbn [obind].
      rewrite (field_some _ _ _ _ 2 es (ad_user a) reads_text eq_refl H4 Su). cbn [obind].
      rewrite (field_opt _ _ _ _ 3 es (ad_type a) reads_numbers_opt eq_refl H5 St). cbn [obind].
      rewrite (field_text 4 es (ad_currency a) eq_refl). cbn [obind].
      rewrite (field_some _ _ _ _ 5 es (ad_name1 a) reads_text eq_refl H9 Sn1). cbn [obind].
      rewrite (field_text 6 es (ad_name2 a) eq_refl). cbn [obind].
      rewrite (field_text 7 es (ad_product a) eq_refl). cbn [obind].
      change (field 8 unmarshal_limit es) with (Ok (@None unit)). cbn [obind].
      rewrite (last_field_jobs_at 9 (firstn 9 es) (ad_jobs a) es eq_refl eq_refl H12 Sj). cbn [obind]. destruct (ad_jobs a); reflexivity.
    - destruct (v <=? 5) eqn:E6; [lia|]. destruct St as [St|St]; [|lia].
      rewrite (field_some _ _ _ _ 1 es (ad_account a) reads_national eq_refl H1 Sn). cbn [obind].
      rewrite (field_text 2 es (ad_iban a) eq_refl). cbn [obind].
      rewrite (field_some _ _ _ _ 3 es (ad_user a) reads_text eq_refl H4 Su). cbn [obind].
      rewrite (field_opt _ _ _ _ 4 es (ad_type a) reads_numbers_opt eq_refl H5 St). cbn [obind].
      rewrite (field_text 5 es (ad_currency a) eq_refl). cbn [obind].
      rewrite (field_some _ _ _ _ 6 es (ad_name1 a) reads_text eq_refl H9 Sn1). cbn [obind].
      rewrite (field_text 7 es (ad_name2 a) eq_refl). cbn [obind].
      rewrite (field_text 8 es (ad_product a) eq_refl). cbn [obind].
      change (field 9 unmarshal_limit es) with (Ok (@None unit)). cbn [obind].
      destruct (last_text_total 11 (strip es)) as [ext Hext].
      assert (Ha : field 10 (unmarshal_alloweds parse_float) es = Ok (match firstn 1 (ad_jobs a) with [] => None | js => Some (map job_value js) end)).
      { clear Hext. destruct (ad_jobs a) as [|j js] eqn:Ej; [reflexivity|]. cbn [firstn]. inversion H12; subst. inversion Sj; subst.
        destruct (reads_job j) as [Hne _]; [assumption..|].
        unfold field. rewrite (nth_present es 10 (group_wire (job_group j)) eq_refl Hne). cbn [opt_parse].
        pose proof (jobs_read [j] ltac:(discriminate) ltac:(constructor; [assumption|constructor]) ltac:(constructor; [assumption|constructor])) as R.
        cbn [map join] in R. rewrite R. reflexivity. }
      rewrite Ha. cbn [obind]. rewrite Hext. cbn [obind]. reflexivity.
  Qed.
  Definition limited_fixed (v : Z) (a : account_data) (limit : list item) : list (list item) :=
    [national_group (ad_account a)] ++
     (if v =? 4 then [[TText (ad_user a)]]
      else if v =? 5 then [[TText (ad_user a)]; opt_group number_group (ad_type a)]
      else [[TText (ad_iban a)]; [TText (ad_user a)]; opt_group number_group (ad_type a)]) ++
     [[TText (ad_currency a)]; [TText (ad_name1 a)]; [TText (ad_name2 a)]; [TText (ad_product a)]; limit].
  Lemma limited_eq pos v ref a limit jobs : limited_account_segment pos v ref a limit jobs =
    segment_wire (B "HIUPD") pos v ref (limited_fixed v a limit ++ jobs).
  Proof. unfold limited_account_segment, limited_fixed. rewrite <- !app_assoc. reflexivity. Qed.
  Definition limit_at (v : Z) : nat := if v =? 4 then 7%nat else if v =? 5 then 8%nat else 9%nat.
  Lemma hiupd_general pos v ref a limit jobs : header_ok pos ref -> 4 <= v <= 7 -> account_ok a ->
    Forall item_ok limit -> Forall (Forall item_ok) jobs -> len (limited_account_segment pos v ref a limit jobs) < 2 ^ 61 ->
    let es := wire_elements (B "HIUPD") pos v ref (limited_fixed v a limit ++ jobs) in
    unmarshal_hiupd parse_float v (limited_account_segment pos v ref a limit jobs) =
      (do _ <- field (limit_at v) unmarshal_limit es;
       do allowed <- (if v <=? 5 then last_field (S (limit_at v)) (unmarshal_alloweds parse_float) es
                      else field (S (limit_at v)) (unmarshal_alloweds parse_float) es);
       do _ <- (if v <=? 5 then Ok None else last_field (S (S (limit_at v))) text es);
       Ok (mkHiupd v (Some (national_value (ad_account a))) (Some (utf8 (ad_user a))) (option_map utf8 (nonempty (ad_currency a)))
         (Some (utf8 (ad_name1 a))) (option_map utf8 (nonempty (ad_name2 a))) (option_map utf8 (nonempty (ad_product a))) allowed)).
  Proof.
    intros Hh Hv (H1&H2&H3&H4&H5&H6&H8&H9&H10&H11&_) Hlim Hjobs Hl. rewrite limited_eq in *.
    remember (limited_fixed v a limit) as fixed eqn:Ef. unfold limited_fixed in Ef. intros es0.
    assert (Hi : Forall (Forall item_ok) (fixed ++ jobs)).
    { apply Forall_app. split; [|exact Hjobs].
      rewrite Ef. apply Forall_app. split; [apply Forall_cons; [apply H1|constructor]|]. apply Forall_app. split.
      + pose proof (number_items _ H5) as Hn. destruct (v =? 4); [|destruct (v =? 5)].
        * apply Forall_cons; [now apply one_item|constructor].
        * apply Forall_cons; [now apply one_item|]. apply Forall_cons; [exact Hn|constructor].
        * apply Forall_cons; [now apply one_item|]. apply Forall_cons; [now apply one_item|]. apply Forall_cons; [exact Hn|constructor].
      + apply Forall_cons; [now apply one_item|]. apply Forall_cons; [now apply one_item|]. apply Forall_cons; [now apply one_item|].
        apply Forall_cons; [now apply one_item|]. apply Forall_cons; [exact Hlim|constructor]. }
    unfold unmarshal_hiupd. rewrite segment_wire_read; [|reflexivity|exact Hh|lia|exact Hi|exact Hl].
    assert (S : forall g, In g (fixed ++ jobs) -> len (group_wire g) < 2 ^ 61) by (intros g Hg; now apply (element_small g _ _ _ _ _ Hg) in Hl).
    subst es0. unfold wire_elements. rewrite map_app. rewrite !field_strip.
    set (es := header_bytes (B "HIUPD") pos v ref :: map group_wire fixed ++ map group_wire jobs).
    assert (Sc : forall i, In [i] fixed -> len (group_wire [i]) < 2 ^ 61) by (intros i Hi'; apply S, in_or_app; now left).
    assert (St : len (group_wire (opt_group number_group (ad_type a))) < 2 ^ 61 \/ v = 4).
    { destruct (v =? 4) eqn:E4; [right; lia|left]. apply S, in_or_app. left. rewrite Ef. destruct (v =? 5); cbn; tauto. }
    assert (Sn : len (group_wire (national_group (ad_account a))) < 2 ^ 61) by (apply S, in_or_app; left; rewrite Ef; cbn; tauto).
    assert (Su : len (group_wire [TText (ad_user a)]) < 2 ^ 61).
    { apply Sc. rewrite Ef. destruct (v =? 4); [cbn; tauto|destruct (v =? 5); cbn; tauto]. }
    assert (Scur : len (group_wire [TText (ad_currency a)]) < 2 ^ 61).
    { apply Sc. rewrite Ef. destruct (v =? 4); [cbn; tauto|destruct (v =? 5); cbn; tauto]. }
    assert (Sn1 : len (group_wire [TText (ad_name1 a)]) < 2 ^ 61).
    { apply Sc. rewrite Ef. destruct (v =? 4); [cbn; tauto|destruct (v =? 5); cbn; tauto]. }
    unfold limit_at. clear S Sc Hi. destruct (v =? 4) eqn:E4; [|destruct (v =? 5) eqn:E5]; cbn [app map] in Ef; subst fixed; cbn [app map] in *.
    - destruct (v <=? 5) eqn:E6; [|lia].
      rewrite (field_some _ _ _ _ 1 es (ad_account a) reads_national eq_refl H1 Sn). cbn [obind].
      rewrite (field_some _ _ _ _ 2 es (ad_user a) reads_text eq_refl H4 Su). cbn [obind].
      rewrite (field_text 3 es (ad_currency a) eq_refl). cbn [obind].
      rewrite (field_some _ _ _ _ 4 es (ad_name1 a) reads_text eq_refl H9 Sn1). cbn [obind].
      rewrite (field_text 5 es (ad_name2 a) eq_refl). cbn [obind].
      rewrite (field_text 6 es (ad_product a) eq_refl). cbn [obind]. reflexivity.
    - destruct (v <=? 5) eqn:E6; [|lia]. destruct St as [St|St]; [|lia].
      rewrite (field_some _ _ _ _ 1 es (ad_account a) reads_national eq_refl H1 Sn). cbn [obind].
      rewrite (field_some _ _ _ _ 2 es (ad_user a) reads_text eq_refl H4 Su). cbn [obind].
      rewrite (field_opt _ _ _ _ 3 es (ad_type a) reads_numbers_opt eq_refl H5 St). cbn [obind].
      rewrite (field_text 4 es (ad_currency a) eq_refl). cbn [obind].
      rewrite (field_some _ _ _ _ 5 es (ad_name1 a) reads_text eq_refl H9 Sn1). cbn [obind].
      rewrite (field_text 6 es (ad_name2 a) eq_refl). cbn [obind].
      rewrite (field_text 7 es (ad_product a) eq_refl). cbn [obind]. reflexivity.
    - destruct (v <=? 5) eqn:E6; [lia|]. destruct St as [St|St]; [|lia].
      rewrite (field_some _ _ _ _ 1 es (ad_account a) reads_national eq_refl H1 Sn). cbn [obind].
      rewrite (field_text 2 es (ad_iban a) eq_refl). cbn [obind].
      rewrite (field_some _ _ _ _ 3 es (ad_user a) reads_text eq_refl H4 Su). cbn [obind].
      rewrite (field_opt _ _ _ _ 4 es (ad_type a) reads_numbers_opt eq_refl H5 St). cbn [obind].
      rewrite (field_text 5 es (ad_currency a) eq_refl). cbn [obind].
      rewrite (field_some _ _ _ _ 6 es (ad_name1 a) reads_text eq_refl H9 Sn1). cbn [obind].
      rewrite (field_text 7 es (ad_name2 a) eq_refl). cbn [obind].
      rewrite (field_text 8 es (ad_product a) eq_refl). cbn [obind]. reflexivity.
  Qed.
  Lemma fixed_len v a limit : List.length (limited_fixed v a limit) = limit_at v.
  Proof. unfold limited_fixed, limit_at. destruct (v =? 4); [reflexivity|]. destruct (v =? 5); reflexivity. Qed.
  Lemma fixed_last v a limit : nth_error (limited_fixed v a limit) (pred (limit_at v)) = Some limit.
  Proof. unfold limited_fixed, limit_at. destruct (v =? 4); [reflexivity|]. destruct (v =? 5); reflexivity. Qed.
  Lemma limit_pos v : limit_at v = S (pred (limit_at v)).
  Proof. unfold limit_at. destruct (v =? 4); [reflexivity|]. destruct (v =? 5); reflexivity. Qed.
  Lemma hiupd_limit pos v ref a limit i jobs : header_ok pos ref -> 4 <= v <= 7 -> account_ok a ->
    Forall item_ok limit -> In i limit -> present i -> Forall (Forall item_ok) jobs -> len (limited_account_segment pos v ref a limit jobs) < 2 ^ 61 ->
    unmarshal_hiupd parse_float v (limited_account_segment pos v ref a limit jobs) = Panic.
  Proof.
    intros Hh Hv Ha Hi Hin Hp Hj Hl. rewrite hiupd_general by assumption. unfold wire_elements. rewrite field_strip.
    unfold field. rewrite (nth_present _ _ (group_wire limit)); [reflexivity| |now apply (group_wire_ne _ i)].
    rewrite limit_pos. cbn [nth_error]. rewrite map_app, nth_error_app1 by (rewrite map_length, fixed_len; rewrite (limit_pos v); lia).
    apply map_nth_error. apply fixed_last.
  Qed.
  Lemma join_group_len id n kind am : bm_currency am <> [] -> len (group_wire (limited_job id n kind am)) =
    len (item_wire (TText id)) + 1 + (len (item_wire (TNumber n)) + 1 + (len (item_wire (TText kind)) + 1 +
      (len (item_wire (TMoney (bm_units am) (bm_decimals am))) + 1 + len (item_wire (TText (bm_currency am)))))).
  Proof.
    intros H. unfold group_wire, limited_job, limit_group.
    change ([TText id; TNumber n] ++ [TText kind; TMoney (bm_units am) (bm_decimals am); TText (bm_currency am)])
      with ([TText id; TNumber n; TText kind; TMoney (bm_units am) (bm_decimals am)] ++ [TText (bm_currency am)]).
    rewrite strip_present by exact H. cbn [app map]. rewrite !join_cons. cbn [join]. rewrite !len_app.
    rewrite !len_cons, !len_nil. lia.
  Qed.
  (** A job whose limit has an amount: the amount's two parts are read as two fields. *)
  Lemma limited_job_read id n kind am : group_ok (limited_job id n kind am) -> bm_currency am <> [] ->
    len (group_wire (limited_job id n kind am)) < 2 ^ 61 -> unmarshal_allowed parse_float (group_wire (limited_job id n kind am)) = Err.
  Proof.
    intros H Hc Hl.
    assert (E : exists g, limited_job id n kind am = g ++ [TText (bm_currency am)]) by (eexists [_; _; _; _]; reflexivity).
    destruct E as [g E]. unfold unmarshal_allowed. rewrite E in *. rewrite group_read_present; [|exact H|exact Hc|exact Hl].
    rewrite <- E in *. unfold limited_job, limit_group. cbn [app map obind].
    unfold limited_job, limit_group in H. cbn [app] in H. destruct H as [H _]. rewrite !Forall_cons_iff in H. destruct H as (_&Hn&_&Hm&_).
    rewrite text_read. cbn [obind]. rewrite number_read by exact Hn. cbn [obind].
    rewrite (field_text 2 _ kind) by (rewrite single_wire; reflexivity). cbn [obind].
    unfold field at 1. erewrite nth_present; [|reflexivity|apply (item_present (TMoney (bm_units am) (bm_decimals am))); exact I].
    cbn [opt_parse]. unfold unmarshal_amount.
    assert (Hs : group_extract (item_wire (TMoney (bm_units am) (bm_decimals am))) = Ok [item_wire (TMoney (bm_units am) (bm_decimals am))]).
    { rewrite <- single_wire at 1.
      apply (group_read_present [] (TMoney (bm_units am) (bm_decimals am))); [|exact I|].
      - split; (constructor; [|constructor]); [exact Hm|exact I].
      - rewrite (join_group_len id n kind am Hc) in Hl. cbn [app]. rewrite single_wire. pose proof (len_nonneg (item_wire (TText id))).
        pose proof (len_nonneg (item_wire (TNumber n))). pose proof (len_nonneg (item_wire (TText kind))). pose proof (len_nonneg (item_wire (TText (bm_currency am)))). lia. }
    rewrite Hs. reflexivity.
  Qed.
End Accounts.
