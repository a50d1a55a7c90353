(** * Reading the PIN and TAN parameters *)
From Verif Require Import Base BaseFacts Lexer_Model Lexer_Spec Lexer_Proofs Lexer_Facts
  Codec_Model Codec_Spec Codec_Proofs Codec_Props Wire_Model Wire_Spec Wire_Proofs Wire_Facts Wire_Facts2 Wire_Facts3
  Message_Model Message_Spec Message_Proofs Message_Facts Message_Facts2 Message_Facts3
  Seg_Model Seg_Spec Seg_Facts Seg_Facts2 Seg_Facts3 Seg_Facts4.
From Coq Require Import Lia ZifyBool ZifyNat ZifyN.
Open Scope Z_scope.
Ltac Zify.zify_post_hook ::= Z.div_mod_to_equations.

Lemma join_app c (a b : list bytes) : a <> [] -> b <> [] -> join [c] (a ++ b) = join [c] a ++ c :: join [c] b.
Proof.
  induction a as [|x a IH]; intros Ha Hb; [congruence|]. destruct a as [|y a].
  - cbn [app]. destruct b as [|z b]; [congruence|]. reflexivity.
  - change ((x :: y :: a) ++ b) with (x :: (y :: a) ++ b).
    destruct ((y :: a) ++ b) as [|z r] eqn:E; [discriminate|].
    change (join [c] (x :: y :: a)) with (x ++ c :: join [c] (y :: a)).
    assert (K : join [c] (z :: r) = join [c] (y :: a) ++ c :: join [c] b) by (apply IH; [discriminate|assumption]).
    change (join [c] (x :: z :: r)) with (x ++ c :: join [c] (z :: r)). rewrite K, <- app_assoc. reflexivity.
Qed.
Lemma join_len c (a b : list bytes) : len (join [c] a) <= len (join [c] (a ++ b)) /\ len (join [c] b) <= len (join [c] (a ++ b)).
Proof.
  destruct a as [|x a]; [split; [apply len_nonneg|apply Z.le_refl]|].
  destruct b as [|y b]; [rewrite app_nil_r; split; [apply Z.le_refl|apply len_nonneg]|].
  rewrite join_app by discriminate. rewrite len_app, len_cons. pose proof (len_nonneg (join [c] (x :: a))). pose proof (len_nonneg (join [c] (y :: b))). lia.
Qed.
(** A group whose last item has a value is written in full. *)
Definition ends (g : list item) : Prop := exists g' i, g = g' ++ [i] /\ present i.
Lemma ends_strip g : ends g -> strip (map item_wire g) = map item_wire g.
Proof. intros (g'&i&->&H). now apply strip_present. Qed.
Lemma ends_wire g : ends g -> group_wire g = join [b_colon] (map item_wire g).
Proof. intros H. unfold group_wire. now rewrite ends_strip. Qed.
Lemma ends_ne g : ends g -> g <> [].
Proof. intros (g'&i&->&_) K. destruct g'; discriminate. Qed.
Lemma ends_wire_ne g : ends g -> group_wire g <> [].
Proof. intros (g'&i&->&H). apply (group_wire_ne _ i); [apply in_or_app; right; now left|exact H]. Qed.
Lemma ends_read g : group_ok g -> ends g -> len (group_wire g) < 2 ^ 61 -> group_extract (group_wire g) = Ok (map item_wire g).
Proof.
  intros H E Hl. rewrite group_read; [now rewrite ends_strip|exact H| |exact Hl].
  rewrite ends_strip by exact E. pose proof (ends_ne g E). destruct g; [congruence|discriminate].
Qed.
Lemma ends_app a b : ends b -> ends (a ++ b).
Proof. intros (g'&i&->&H). exists (a ++ g'), i. now rewrite app_assoc. Qed.
Lemma group_ok_app a b : group_ok (a ++ b) -> group_ok a /\ group_ok b.
Proof. intros [H1 H2]. apply Forall_app in H1. apply Forall_app in H2. split; split; tauto. Qed.
Lemma ends_len_r a b : ends b -> len (group_wire b) <= len (group_wire (a ++ b)).
Proof. intros H. rewrite !ends_wire by auto using ends_app. rewrite map_app. apply join_len. Qed.
Lemma ends_len_l a b : ends a -> ends b -> len (group_wire a) <= len (group_wire (a ++ b)).
Proof. intros H K. rewrite !ends_wire by auto using ends_app. rewrite map_app. apply join_len. Qed.

(** ** Jobs and whether they need a TAN *)
Lemma pair_ends p : ends (pair_items p).
Proof. now exists [TText (fst p)], (TFlag (snd p)). Qed.
Lemma pairs_ends l : l <> [] -> ends (flat_map pair_items l).
Proof.
  induction l as [|p l IH]; intros H; [congruence|]. cbn [flat_map]. destruct l as [|q l]; [cbn [flat_map]; rewrite app_nil_r; apply pair_ends|].
  apply ends_app, IH. discriminate.
Qed.
Lemma pair_read p : group_ok (pair_items p) -> len (group_wire (pair_items p)) < 2 ^ 61 -> no_syntax (fst p) ->
  unmarshal_pin_pair (join [b_colon] (map item_wire (pair_items p))) = Ok (utf8 (fst p), snd p).
Proof.
  intros H Hl Hn. rewrite <- ends_wire by apply pair_ends. unfold unmarshal_pin_pair. rewrite ends_read; [|exact H|apply pair_ends|exact Hl].
  unfold pair_items, at_index. cbn [map obind nth_error deref]. rewrite flag_read. cbn [obind]. now rewrite raw_read.
Qed.
Lemma pairs_read l : group_ok (flat_map pair_items l) -> len (group_wire (flat_map pair_items l)) < 2 ^ 61 ->
  Forall (fun x => no_syntax (fst x)) l -> pin_pairs (map item_wire (flat_map pair_items l)) = Ok (pairs_value l).
Proof.
  induction l as [|p l IH]; intros H Hl Hn; [reflexivity|]. cbn [flat_map] in *. inversion Hn; subst.
  apply group_ok_app in H. destruct H as [Hp Hr].
  assert (L1 : len (group_wire (pair_items p)) < 2 ^ 61 /\ len (group_wire (flat_map pair_items l)) < 2 ^ 61).
  { destruct l as [|q l]; [cbn [flat_map] in *; rewrite app_nil_r in Hl; split; [exact Hl|vm_compute; reflexivity]|].
    pose proof (pairs_ends (q :: l) ltac:(discriminate)) as E.
    pose proof (ends_len_r (pair_items p) _ E). pose proof (ends_len_l (pair_items p) _ (pair_ends p) E). lia. }
  rewrite map_app. change (map item_wire (pair_items p)) with [item_wire (TText (fst p)); item_wire (TFlag (snd p))].
  cbn [app pin_pairs].
  change [item_wire (TText (fst p)); item_wire (TFlag (snd p))] with (map item_wire (pair_items p)).
  rewrite pair_read by tauto. cbn [obind]. rewrite IH by tauto. reflexivity.
Qed.
Lemma pairs_even l : Nat.even (List.length (flat_map pair_items l)) = true.
Proof. induction l as [|p l IH]; [reflexivity|exact IH]. Qed.
Lemma pin_pairs_read l : l <> [] -> group_ok (flat_map pair_items l) -> len (group_wire (flat_map pair_items l)) < 2 ^ 61 ->
  Forall (fun x => no_syntax (fst x)) l -> unmarshal_pin_pairs (group_wire (flat_map pair_items l)) = Ok (pairs_value l).
Proof.
  intros Hne H Hl Hn. unfold unmarshal_pin_pairs. rewrite ends_read; [|exact H|now apply pairs_ends|exact Hl].
  cbn [obind]. rewrite map_length, pairs_even. now apply pairs_read.
Qed.
Definition pin_params_value (p : pin_info) : pin_params :=
  mkPP (pi_min p) (pi_max p) (pi_tan p) (utf8 (pi_user_text p)) (utf8 (pi_customer_text p)) (pairs_value (pi_jobs p)).
Lemma pin_ends p : pi_jobs p <> [] -> ends (pin_group p).
Proof. intros H. apply ends_app, pairs_ends, H. Qed.
Lemma next_at_nth k es w : nth_error es k = Some w -> next_at k es = w.
Proof. unfold next_at. apply nth_error_nth. Qed.
Lemma reads_pin : reads unmarshal_pin_params pin_group pin_ok pin_params_value.
Proof.
  intros p (H1&H2&H3) Hl. pose proof (pin_ends p H2) as E. split; [now apply ends_wire_ne|].
  unfold unmarshal_pin_params. rewrite ends_read by assumption. cbn [obind].
  pose proof (pairs_ends _ H2) as Ep.
  assert (Lp : len (group_wire (flat_map pair_items (pi_jobs p))) < 2 ^ 61) by (pose proof (ends_len_r [TNumber (pi_min p); TNumber (pi_max p); TNumber (pi_tan p); TText (pi_user_text p); TText (pi_customer_text p)] _ Ep); unfold pin_group in Hl; lia).
  destruct (group_ok_app _ _ H1) as [[G _] Gp]. rewrite !Forall_cons_iff in G. destruct G as (G1&G2&G3&_).
  unfold pin_group. rewrite map_app.
  rewrite (next_at_nth 0 _ (item_wire (TNumber (pi_min p)))) by reflexivity. rewrite number_read by exact G1. cbn [obind].
  rewrite (next_at_nth 1 _ (item_wire (TNumber (pi_max p)))) by reflexivity. rewrite number_read by exact G2. cbn [obind].
  rewrite (next_at_nth 2 _ (item_wire (TNumber (pi_tan p)))) by reflexivity. rewrite number_read by exact G3. cbn [obind].
  rewrite (next_at_nth 3 _ (item_wire (TText (pi_user_text p)))) by reflexivity.
  rewrite (next_at_nth 4 _ (item_wire (TText (pi_customer_text p)))) by reflexivity.
  change (skipn 5 (_ ++ ?x)) with x. rewrite <- ends_wire by exact Ep.
  rewrite pin_pairs_read by assumption. cbn [obind].
  assert (T : forall l, unmarshal_text (item_wire (TText l)) = utf8 l) by (intros l; pose proof (text_read l) as K; unfold text in K; congruence).
  now rewrite !T.
Qed.
Lemma hipins_read pos ref jobs sigs class p : header_ok pos ref -> number_ok jobs -> number_ok sigs -> number_ok class -> pin_ok p ->
  len (pin_segment pos ref jobs sigs class p) < 2 ^ 61 ->
  unmarshal_hipins (pin_segment pos ref jobs sigs class p) = Ok (mkHipins (Some jobs) (Some sigs) (Some (pin_params_value p))).
Proof.
  intros Hh H1 H2 H3 H4 Hl. unfold pin_segment, unmarshal_hipins in *.
  rewrite segment_wire_read; [|reflexivity|exact Hh|lia| |exact Hl].
  - assert (S : forall g, In g [[TNumber jobs]; [TNumber sigs]; [TNumber class]; pin_group p] -> len (group_wire g) < 2 ^ 61)
      by (intros g Hg; now apply (element_small g _ _ _ _ _ Hg) in Hl).
    unfold wire_elements. rewrite !field_strip, last_field_strip by reflexivity.
    rewrite (field_some _ _ _ _ 1 _ jobs reads_number); [|reflexivity|exact H1|apply S; cbn; tauto]. cbn [obind].
    rewrite (field_some _ _ _ _ 2 _ sigs reads_number); [|reflexivity|exact H2|apply S; cbn; tauto]. cbn [obind].
    rewrite (field_some _ _ _ _ 3 _ class reads_number); [|reflexivity|exact H3|apply S; cbn; tauto]. cbn [obind].
    rewrite (field_some _ _ _ _ 4 _ p reads_pin); [|reflexivity|exact H4|apply S; cbn; tauto]. reflexivity.
  - do 3 (apply Forall_cons; [now apply one_item|]). apply Forall_cons; [apply H4|constructor].
Qed.
Lemma dipins_read pos ref jobs sigs l : header_ok pos ref -> number_ok jobs -> number_ok sigs ->
  l <> [] -> group_ok (flat_map pair_items l) -> Forall (fun x => no_syntax (fst x)) l ->
  len (pin2_segment pos ref jobs sigs l) < 2 ^ 61 ->
  unmarshal_dipins (pin2_segment pos ref jobs sigs l) = Ok (pairs_value l).
Proof.
  intros Hh H1 H2 H3 H4 H5 Hl. unfold pin2_segment, unmarshal_dipins in *.
  assert (Hi : Forall (Forall item_ok) [[TNumber jobs]; [TNumber sigs]; flat_map pair_items l])
    by (do 2 (apply Forall_cons; [now apply one_item|]); apply Forall_cons; [apply H4|constructor]).
  assert (S : forall g, In g [[TNumber jobs]; [TNumber sigs]; flat_map pair_items l] -> len (group_wire g) < 2 ^ 61)
      by (intros g Hg; now apply (element_small g _ _ _ _ _ Hg) in Hl).
  rewrite segment_wire_elements; [|reflexivity|exact Hi|exact Hl]. cbn [obind]. rewrite wire_elements_eq. unfold at_index. cbn [nth_error deref obind].
  rewrite header_read; [|reflexivity|exact Hh|lia|].
  2: { assert (len (header_bytes (B "DIPINS") pos 1 ref) <= len (segment_wire (B "DIPINS") pos 1 ref
         [[TNumber jobs]; [TNumber sigs]; flat_map pair_items l])) by (apply in_wire_len; now left). lia. }
  cbn [obind].
  assert (Hw : strip (map group_wire [[TNumber jobs]; [TNumber sigs]; flat_map pair_items l]) =
     map group_wire [[TNumber jobs]; [TNumber sigs]; flat_map pair_items l]).
  { apply strip_full. cbn [map]. repeat apply Forall_cons; try apply Forall_nil.
    - apply (group_wire_ne _ (TNumber jobs)); [now left|exact I].
    - apply (group_wire_ne _ (TNumber sigs)); [now left|exact I].
    - now apply ends_wire_ne, pairs_ends. }
  rewrite Hw. cbn [map]. rewrite !single_wire, !number_read by assumption. cbn [obind].
  apply pin_pairs_read; try assumption. apply S. cbn; tauto.
Qed.

(** ** TAN processes *)
Lemma tan_ends t : ends (tan_items t).
Proof. exists (firstn 20 (tan_items t)), (TNumber (ti_media t)). split; [reflexivity|exact I]. Qed.
Lemma tans_ends l : l <> [] -> ends (flat_map tan_items l).
Proof.
  induction l as [|p l IH]; intros H; [congruence|]. cbn [flat_map]. destruct l as [|q l]; [cbn [flat_map]; rewrite app_nil_r; apply tan_ends|].
  apply ends_app, IH. discriminate.
Qed.
Lemma tan_read t : group_ok (tan_items t) -> len (group_wire (tan_items t)) < 2 ^ 61 ->
  unmarshal_tan_process (join [b_colon] (map item_wire (tan_items t))) = Ok (tan_value escaped t).
Proof.
  intros H Hl. rewrite <- ends_wire by apply tan_ends. unfold unmarshal_tan_process. rewrite ends_read; [|exact H|apply tan_ends|exact Hl].
  destruct H as [H _]. unfold tan_items in H. rewrite !Forall_cons_iff in H. cbn [obind].
  destruct H as (_&_&_&_&_&_&N6&_&_&N9&_&_&_&_&_&_&_&_&_&_&N20&_).
  rewrite (next_at_nth 6 _ (item_wire (TNumber (ti_max_input t)))) by reflexivity. rewrite number_read by exact N6. cbn [obind].
  rewrite (next_at_nth 9 _ (item_wire (TNumber (ti_return_max t)))) by reflexivity. rewrite number_read by exact N9. cbn [obind].
  rewrite (next_at_nth 10 _ (item_wire (TFlag (ti_multi t)))) by reflexivity. rewrite flag_read. cbn [obind].
  rewrite (next_at_nth 12 _ (item_wire (TFlag (ti_cancel t)))) by reflexivity. rewrite flag_read. cbn [obind].
  rewrite (next_at_nth 15 _ (item_wire (TFlag (ti_class t)))) by reflexivity. rewrite flag_read. cbn [obind].
  rewrite (next_at_nth 16 _ (item_wire (TFlag (ti_structured t)))) by reflexivity. rewrite flag_read. cbn [obind].
  rewrite (next_at_nth 19 _ (item_wire (TFlag (ti_hhd t)))) by reflexivity. rewrite flag_read. cbn [obind].
  rewrite (next_at_nth 20 _ (item_wire (TNumber (ti_media t)))) by reflexivity. rewrite number_read by exact N20. cbn [obind].
  reflexivity.
Qed.
Lemma tan_len t : List.length (tan_items t) = 21%nat.
Proof. reflexivity. Qed.
Lemma tans_len l : List.length (flat_map tan_items l) = (21 * List.length l)%nat.
Proof. induction l as [|t l IH]; [reflexivity|]. cbn [flat_map]. rewrite app_length, IH, tan_len. cbn [List.length]. lia. Qed.
Lemma pieces_tans l : forall fuel, (List.length l <= fuel)%nat ->
  pieces fuel 21 (map item_wire (flat_map tan_items l)) = map (fun t => map item_wire (tan_items t)) l.
Proof.
  induction l as [|t l IH]; intros fuel H; [destruct fuel; reflexivity|]. destruct fuel as [|fuel]; [cbn in H; lia|].
  cbn [flat_map map]. rewrite map_app.
  assert (L : List.length (map item_wire (tan_items t)) = 21%nat) by (rewrite map_length; apply tan_len).
  assert (P : pieces (S fuel) 21 (map item_wire (tan_items t) ++ map item_wire (flat_map tan_items l)) =
     firstn 21 (map item_wire (tan_items t) ++ map item_wire (flat_map tan_items l)) ::
     pieces fuel 21 (skipn 21 (map item_wire (tan_items t) ++ map item_wire (flat_map tan_items l)))) by reflexivity.
  rewrite P. rewrite <- L at 1 3. rewrite firstn_app, skipn_app, Nat.sub_diag, firstn_all, skipn_all. cbn [firstn skipn app].
  rewrite app_nil_r, IH; [reflexivity|cbn in H; lia].
Qed.
Lemma tans_read l : group_ok (flat_map tan_items l) -> len (group_wire (flat_map tan_items l)) < 2 ^ 61 ->
  all_ok (fun p => unmarshal_tan_process (join [b_colon] p)) (map (fun t => map item_wire (tan_items t)) l) = Ok (map (tan_value escaped) l).
Proof.
  induction l as [|t l IH]; intros H Hl; [reflexivity|]. cbn [flat_map] in *.
  apply group_ok_app in H. destruct H as [Hp Hr].
  assert (L1 : len (group_wire (tan_items t)) < 2 ^ 61 /\ len (group_wire (flat_map tan_items l)) < 2 ^ 61).
  { destruct l as [|q l]; [cbn [flat_map] in *; rewrite app_nil_r in Hl; split; [exact Hl|vm_compute; reflexivity]|].
    pose proof (tans_ends (q :: l) ltac:(discriminate)) as E.
    pose proof (ends_len_r (tan_items t) _ E). pose proof (ends_len_l (tan_items t) _ (tan_ends t) E). lia. }
  cbn [map all_ok]. rewrite tan_read by tauto. cbn [obind]. rewrite IH by tauto. reflexivity.
Qed.
Lemma tan_params_read one more hash l : tan_ok hash one more l -> len (group_wire (tan_group one more hash l)) < 2 ^ 61 ->
  unmarshal_tan_params (group_wire (tan_group one more hash l)) =
    Ok (mkTanP one more (utf8 hash) (map (tan_value escaped) l)).
Proof.
  intros (H1&H2&H3) Hl. pose proof (tans_ends l H2) as E.
  unfold unmarshal_tan_params. rewrite ends_read; [|exact H1|now apply ends_app|exact Hl]. cbn [obind].
  unfold tan_group, at_index. rewrite map_app. cbn [map app nth_error deref obind]. rewrite !flag_read. cbn [obind].
  change (skipn 3 (_ :: _ :: _ :: ?x)) with x. rewrite <- ends_wire by exact E.
  destruct (group_ok_app _ _ H1) as [_ G].
  assert (Lp : len (group_wire (flat_map tan_items l)) < 2 ^ 61) by (pose proof (ends_len_r [TFlag one; TFlag more; TText hash] _ E); unfold tan_group in Hl; lia).
  unfold unmarshal_tan_processes. rewrite ends_read by assumption. cbn [obind].
  rewrite map_length, tans_len. rewrite Nat.mul_comm, Nat.mod_mul by lia. cbn [Nat.eqb].
  rewrite pieces_tans by lia. rewrite tans_read by assumption. cbn [obind]. now rewrite raw_read.
Qed.
Lemma hitans_read pos ref jobs sigs class one more hash l : header_ok pos ref -> number_ok jobs -> number_ok sigs ->
  item_ok (TText class) -> tan_ok hash one more l ->
  len (tan_segment pos ref jobs sigs class one more hash l) < 2 ^ 61 ->
  unmarshal_hitans (tan_segment pos ref jobs sigs class one more hash l) =
    Ok (mkHitans (Some jobs) (Some sigs) (option_map utf8 (nonempty class))
          (Some (mkTanP one more (utf8 hash) (map (tan_value escaped) l)))).
Proof.
  intros Hh H1 H2 H3 H4 Hl. unfold tan_segment, unmarshal_hitans in *.
  rewrite segment_wire_read; [|reflexivity|exact Hh|lia| |exact Hl].
  - assert (S : forall g, In g [[TNumber jobs]; [TNumber sigs]; [TText class]; tan_group one more hash l] -> len (group_wire g) < 2 ^ 61)
      by (intros g Hg; now apply (element_small g _ _ _ _ _ Hg) in Hl).
    unfold wire_elements. rewrite !field_strip, last_field_strip by reflexivity.
    rewrite (field_some _ _ _ _ 1 _ jobs reads_number); [|reflexivity|exact H1|apply S; cbn; tauto]. cbn [obind].
    rewrite (field_some _ _ _ _ 2 _ sigs reads_number); [|reflexivity|exact H2|apply S; cbn; tauto]. cbn [obind].
    rewrite (field_text 3 _ class) by reflexivity. cbn [obind].
    unfold field. erewrite nth_present; [|reflexivity|apply ends_wire_ne, ends_app, tans_ends, H4]. cbn [opt_parse].
    rewrite tan_params_read; [reflexivity|exact H4|apply S; cbn; tauto].
  - do 3 (apply Forall_cons; [now apply one_item|]). apply Forall_cons; [apply H4|constructor].
Qed.
