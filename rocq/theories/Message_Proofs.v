From Verif Require Import Base BaseFacts Lexer_Model Lexer_Spec Lexer_Proofs Lexer_Facts
  Codec_Model Codec_Spec Codec_Proofs Wire_Model Wire_Spec Wire_Proofs Wire_Facts Wire_Facts2 Wire_Facts3
  Message_Model Message_Spec.
From Coq Require Import Lia ZifyBool ZifyNat ZifyN.
Open Scope Z_scope.
Ltac Zify.zify_post_hook ::= Z.div_mod_to_equations.

(** ** Marshaling as a concatenation *)
Lemma obind_ok {A C} (o : outcome A) (f : A -> outcome C) c : obind o f = Ok c <-> exists a, o = Ok a /\ f a = Ok c.
Proof. destruct o; cbn; split; [eauto|intros [? [H ?]]; congruence| | | |]; try discriminate; intros [? [? ?]]; discriminate. Qed.
Lemma all_ok_app {A C} (f : A -> outcome C) l1 l2 cs : all_ok f (l1 ++ l2) = Ok cs <->
  exists c1 c2, cs = c1 ++ c2 /\ all_ok f l1 = Ok c1 /\ all_ok f l2 = Ok c2.
Proof.
  revert cs. induction l1 as [|x l1 IH]; intros cs; cbn [app all_ok].
  - split; [intros H; exists [], cs; auto|]. intros (c1&c2&->&E&H). injection E as <-. exact H.
  - rewrite obind_ok. split.
    + intros (y&Hy&H). apply obind_ok in H. destruct H as (ys&Hys&E). injection E as <-.
      apply IH in Hys. destruct Hys as (c1&c2&->&H1&H2). exists (y :: c1), c2. rewrite Hy. cbn [obind]. rewrite H1. auto.
    + intros (c1&c2&->&H1&H2). apply obind_ok in H1. destruct H1 as (y&Hy&H1). apply obind_ok in H1. destruct H1 as (ys&Hys&E).
      injection E as <-. exists y. split; [assumption|]. apply obind_ok. exists (ys ++ c2). split; [|reflexivity]. apply IH. eauto.
Qed.
Lemma marshal_body_iff ps heap w : marshal_body ps heap = Ok w <->
  ~ In NilInterface ps /\ exists ws, all_ok marshal_seg (pointees ps heap) = Ok ws /\ w = List.concat ws.
Proof.
  revert w. induction ps as [|[| |a] ps IH]; intros w; cbn [marshal_body pointees all_ok].
  - split; [intros H; injection H as <-; split; [intros []|exists []; auto]|]. intros [_ (ws&E&->)]. now injection E as <-.
  - split; [discriminate|]. intros [H _]. exfalso. apply H. now left.
  - rewrite IH. split; intros [H G]; (split; [|assumption]).
    + intros [|]; [discriminate|contradiction].
    + intros F. apply H. now right.
  - rewrite obind_ok. split.
    + intros (x&Hx&H). apply obind_ok in H. destruct H as (r&Hr&E). injection E as <-. apply IH in Hr.
      destruct Hr as [H (ws&Hws&->)]. split; [intros [|]; [discriminate|contradiction]|]. exists (x :: ws). rewrite Hx. cbn [obind].
      rewrite Hws. auto.
    + intros [H (ws&E&->)]. apply obind_ok in E. destruct E as (x&Hx&E). apply obind_ok in E. destruct E as (r&Hr&E). injection E as <-.
      exists x. split; [assumption|]. apply obind_ok. exists (List.concat r). split; [|reflexivity]. apply IH. split; [|eauto].
      intros F. apply H. now right.
Qed.
Lemma marshal_optseg_iff o w : marshal_optseg o = Ok w <->
  exists ws, all_ok marshal_seg (optlist o) = Ok ws /\ w = List.concat ws.
Proof.
  destruct o as [s|]; cbn [marshal_optseg optlist all_ok].
  - split.
    + intros H. rewrite H. cbn. exists [w]. split; [reflexivity|]. cbn. now rewrite app_nil_r.
    + intros (ws&E&->). apply obind_ok in E. destruct E as (x&Hx&E). cbn in E. injection E as <-. cbn. rewrite app_nil_r. assumption.
  - split; [intros H; injection H as <-; exists []; auto|]. intros (ws&E&->). now injection E as <-.
Qed.
Lemma marshal_inner_iff m w : marshal_inner m = Ok w <->
  exists ps ws, m_body m = Some ps /\ ~ In NilInterface ps /\
    all_ok marshal_seg (content m) = Ok ws /\ w = List.concat ws.
Proof.
  unfold marshal_inner, content. destruct (m_body m) as [ps|]; [|split; [discriminate|intros (ps&ws&H&_); discriminate]].
  rewrite obind_ok. split.
  - intros (a&Ha&H). apply obind_ok in H. destruct H as (b&Hb&H). apply obind_ok in H. destruct H as (c&Hc&H).
    assert (E : w = a ++ b ++ c) by congruence. apply marshal_optseg_iff in Ha, Hc. apply marshal_body_iff in Hb.
    destruct Ha as (wa&Ha&->), Hb as (Hn&wb&Hb&->), Hc as (wc&Hc&->). exists ps, (wa ++ wb ++ wc).
    split; [reflexivity|]. split; [assumption|]. split.
    + apply all_ok_app. exists wa, (wb ++ wc). split; [reflexivity|]. split; [assumption|]. apply all_ok_app. eauto.
    + now rewrite !concat_app.
  - intros (ps'&ws&E&Hn&H&->). injection E as <-. apply all_ok_app in H. destruct H as (wa&wx&->&Ha&H).
    apply all_ok_app in H. destruct H as (wb&wc&->&Hb&Hc).
    exists (List.concat wa). split; [apply marshal_optseg_iff; eauto|]. apply obind_ok. exists (List.concat wb).
    split; [apply marshal_body_iff; eauto|]. apply obind_ok. exists (List.concat wc). split; [apply marshal_optseg_iff; eauto|].
    now rewrite !concat_app.
Qed.
Lemma marshal_parts_iff m w : marshal_parts m = Ok w <->
  exists ps h e ws, m_body m = Some ps /\ m_header m = Some h /\ m_end m = Some e /\ ~ In NilInterface ps /\
    all_ok marshal_seg (transmitted m) = Ok ws /\ w = List.concat ws.
Proof.
  assert (G : forall h e ps, m_body m = Some ps -> m_header m = Some h -> m_end m = Some e ->
    (marshal_parts m = Ok w <-> exists a i f, marshal_seg (header_seg h) = Ok a /\ marshal_inner m = Ok i /\
       marshal_seg (end_seg e) = Ok f /\ w = a ++ i ++ f)).
  { intros h e ps Hp Hh He. unfold marshal_parts, marshal_inner. rewrite Hp, Hh, He. rewrite obind_ok. split.
    - intros (a&Ha&H). apply obind_ok in H. destruct H as (b&Hb&H). apply obind_ok in H. destruct H as (c&Hc&H).
      apply obind_ok in H. destruct H as (d&Hd&H). apply obind_ok in H. destruct H as (f&Hf&H).
      exists a, (b ++ c ++ d), f. rewrite Hb. cbn [obind]. rewrite Hc. cbn [obind]. rewrite Hd. cbn [obind].
      repeat split; auto. assert (E : w = a ++ b ++ c ++ d ++ f) by congruence. rewrite E. now rewrite <- !app_assoc.
    - intros (a&i&f&Ha&Hi&Hf&->). exists a. split; [assumption|]. apply obind_ok in Hi. destruct Hi as (b&Hb&Hi).
      apply obind_ok in Hi. destruct Hi as (c&Hc&Hi). apply obind_ok in Hi. destruct Hi as (d&Hd&Hi).
      apply obind_ok. exists b. split; [assumption|]. apply obind_ok. exists c. split; [assumption|].
      apply obind_ok. exists d. split; [assumption|]. apply obind_ok. exists f. split; [assumption|].
      assert (E : i = b ++ c ++ d) by congruence. rewrite E. now rewrite <- !app_assoc. }
  destruct (m_body m) as [ps|] eqn:Hp.
  2: { unfold marshal_parts. rewrite Hp. split; [discriminate|]. intros (ps&h&e&ws&H&_). discriminate. }
  destruct (m_header m) as [h|] eqn:Hh.
  2: { unfold marshal_parts. rewrite Hp, Hh. split; [discriminate|]. intros (ps'&h&e&ws&_&H&_). discriminate. }
  destruct (m_end m) as [e|] eqn:He.
  2: { unfold marshal_parts. rewrite Hp, Hh, He. split.
       - intros H. repeat (apply obind_ok in H; destruct H as (?&?&H)). discriminate.
       - intros (ps'&h'&e&ws&_&_&H&_). discriminate. }
  rewrite (G h e ps eq_refl eq_refl eq_refl). unfold transmitted. rewrite Hh, He. cbn [option_map optlist]. split.
  - intros (a&i&f&Ha&Hi&Hf&->). apply marshal_inner_iff in Hi. destruct Hi as (ps'&wi&Hp'&Hn&Hi&->).
    assert (ps' = ps) by congruence. subst ps'.
    exists ps, h, e, (a :: wi ++ [f]). repeat split; auto.
    + cbn [app all_ok]. rewrite Ha. cbn [obind]. apply obind_ok. exists (wi ++ [f]). split; [|reflexivity].
      apply all_ok_app. exists wi, [f]. split; [reflexivity|]. split; [assumption|]. cbn. now rewrite Hf.
    + cbn. now rewrite concat_app; cbn; rewrite app_nil_r.
  - intros (ps'&h'&e'&ws&E1&E2&E3&Hn&H&->). injection E1 as <-. injection E2 as <-. injection E3 as <-.
    cbn [app all_ok] in H. apply obind_ok in H. destruct H as (a&Ha&H). apply obind_ok in H. destruct H as (r&Hr&E). injection E as <-.
    apply all_ok_app in Hr. destruct Hr as (wi&wf&->&Hi&Hf). cbn [all_ok] in Hf. apply obind_ok in Hf. destruct Hf as (f&Hf&E).
    cbn in E. injection E as <-. exists a, (List.concat wi), f. split; [assumption|]. split; [|split; [assumption|]].
    + apply marshal_inner_iff. exists ps, wi. auto.
    + cbn. now rewrite concat_app; cbn; rewrite app_nil_r.
Qed.

(** ** Positions *)
Lemma pointees_ext ps : forall h1 h2, (forall a, In a (addresses ps) -> h1 a = h2 a) -> pointees ps h1 = pointees ps h2.
Proof.
  induction ps as [|[| |a] ps IH]; intros h1 h2 H; cbn [pointees addresses] in *; auto.
  f_equal; [apply H; now left|apply IH; intros b Hb; apply H; now right].
Qed.
Lemma heap_set_same h a s : heap_set h a s a = s.
Proof. unfold heap_set. now rewrite Nat.eqb_refl. Qed.
Lemma heap_set_other h a s b : b <> a -> heap_set h a s b = h b.
Proof. unfold heap_set. intros H. destruct (Nat.eqb_spec b a); [contradiction|reflexivity]. Qed.
Lemma position_body_spec ps : forall n heap n' heap', position_body n ps heap = Ok (n', heap') -> NoDup (addresses ps) ->
  n' = n + Z.of_nat (List.length (addresses ps)) /\
  (forall a, ~ In a (addresses ps) -> heap' a = heap a) /\
  map sg_pos (pointees ps heap') = map (fun i => n + Z.of_nat i) (seq 1 (List.length (addresses ps))) /\
  Forall2 same_but_pos (pointees ps heap) (pointees ps heap').
Proof.
  induction ps as [|[| |a] ps IH]; intros n heap n' heap'; cbn [position_body addresses pointees].
  - intros H _. injection H as <- <-. cbn. split; [lia|]. auto.
  - discriminate.
  - apply IH.
  - intros H Hd. inversion Hd as [|? ? Ha Hd']; subst. destruct (IH _ _ _ _ H Hd') as (E1&E2&E3&E4). clear IH H.
    split; [|split; [|split]].
    + rewrite E1. cbn [List.length]. lia.
    + intros b Hb. rewrite E2 by (intros F; apply Hb; now right). apply heap_set_other. intros ->. apply Hb. now left.
    + cbn [map List.length seq]. rewrite (E2 a Ha), heap_set_same, E3. cbn [set_pos sg_pos]. f_equal.
      rewrite <- (seq_shift _ 1), map_map. apply map_ext. intros i. lia.
    + constructor.
      * rewrite (E2 a Ha), heap_set_same. repeat split.
      * erewrite (pointees_ext ps heap); [exact E4|]. intros b Hb. symmetry. apply heap_set_other. intros ->. contradiction.
Qed.
Lemma position_body_ok ps : forall n heap, (exists r, position_body n ps heap = Ok r) <-> ~ In NilInterface ps.
Proof.
  induction ps as [|[| |a] ps IH]; intros n heap; cbn [position_body].
  - split; [intros _ []|eauto].
  - split; [intros [r H]; discriminate|]. intros H. exfalso. apply H. now left.
  - rewrite IH. cbn. intuition discriminate.
  - rewrite IH. cbn. intuition discriminate.
Qed.
Lemma pointees_len ps heap : List.length (pointees ps heap) = List.length (addresses ps).
Proof. induction ps as [|[| |a] ps IH]; cbn; auto. Qed.
Lemma one_to_app a b : one_to (a + b) = one_to a ++ map (fun i => Z.of_nat a + Z.of_nat i) (seq 1 b).
Proof.
  assert (G : forall k, map Z.of_nat (seq (a + k) b) = map (fun i => Z.of_nat a + Z.of_nat i) (seq k b)).
  { induction b as [|b IH]; intros k; [reflexivity|]. cbn [seq map]. f_equal; [lia|]. rewrite <- IH. f_equal. f_equal. lia. }
  unfold one_to. rewrite seq_app, map_app. f_equal. rewrite <- G. f_equal. f_equal. lia.
Qed.
Lemma one_to_S n : one_to (S n) = one_to n ++ [Z.of_nat (S n)].
Proof. replace (S n) with (n + 1)%nat by lia. rewrite one_to_app. cbn. f_equal. f_equal. lia. Qed.
Lemma Forall2_len {A C} (R : A -> C -> Prop) l1 l2 : Forall2 R l1 l2 -> List.length l1 = List.length l2.
Proof. induction 1; cbn; congruence. Qed.
Lemma same_refl s : same_but_pos s s. Proof. repeat split. Qed.

Lemma set_positions_spec m m' : set_positions m = Ok m' -> distinct_body m ->
  map sg_pos (transmitted m') = one_to (List.length (transmitted m)) /\
  Forall2 same_but_pos (transmitted m) (transmitted m') /\ m_cache m' = m_cache m /\ m_body m' = m_body m.
Proof.
  unfold set_positions, distinct_body. destruct (m_body m) as [ps|] eqn:Hp; [|discriminate].
  destruct (m_header m) as [h|] eqn:Hh; [|discriminate]. destruct (m_end m) as [e|] eqn:He; [|discriminate].
  destruct (match m_sigbegin m with Some s => (Some (set_pos (1 + 1) s), 1 + 1) | None => (None, 1) end) as [sb n] eqn:Hsb.
  intros H Hd. apply obind_ok in H. destruct H as ([n2 heap]&Hb&H).
  destruct (position_body_spec _ _ _ _ _ Hb Hd) as (E1&_&E3&E4).
  destruct (match m_sigend m with Some s => (Some (set_pos (n2 + 1) s), n2 + 1) | None => (None, n2) end) as [se n3] eqn:Hse.
  injection H as <-. unfold transmitted, content. cbn [m_header m_end m_sigbegin m_sigend m_body m_heap m_cache]. rewrite Hp, Hh, He.
  cbn [option_map optlist].
  assert (S1 : Forall2 same_but_pos (optlist (m_sigbegin m)) (optlist sb) /\ n = 1 + Z.of_nat (List.length (optlist sb)) /\
               map sg_pos (optlist sb) = map (fun i => 1 + Z.of_nat i) (seq 1 (List.length (optlist (m_sigbegin m))))).
  { destruct (m_sigbegin m); injection Hsb as <- <-; cbn; (split; [|split; reflexivity]); repeat constructor. }
  assert (S2 : Forall2 same_but_pos (optlist (m_sigend m)) (optlist se) /\ n3 = n2 + Z.of_nat (List.length (optlist se)) /\
               map sg_pos (optlist se) = map (fun i => n2 + Z.of_nat i) (seq 1 (List.length (optlist (m_sigend m))))).
  { destruct (m_sigend m); injection Hse as <- <-; cbn; (split; [|split; [lia|reflexivity]]); repeat constructor. }
  destruct S1 as (S1&Hn&P1), S2 as (S2&Hn3&P2).
  pose proof (Forall2_len _ _ _ S1) as L1. pose proof (Forall2_len _ _ _ S2) as L2.
  rewrite <- L1 in *. rewrite <- L2 in *.
  split; [|split; [|split; reflexivity]].
  - cbn [app map]. rewrite !map_app. cbn [map]. rewrite P1, E3, P2.
    cbn [List.length]. rewrite !app_length, pointees_len. cbn [List.length].
    set (a := List.length (optlist (m_sigbegin m))) in *. set (b := List.length (addresses ps)) in *.
    set (c := List.length (optlist (m_sigend m))) in *.
    replace (S (a + (b + c) + 1)) with (S (1 + a + b + c)) by lia.
    rewrite one_to_S, !one_to_app. cbn [header_seg sg_pos set_header_pos mh_pos end_seg me_pos].
    change (one_to 1) with [1]. rewrite <- !app_assoc. cbn [app]. f_equal. f_equal.
    assert (An : forall x y k, x = y -> map (fun i => x + Z.of_nat i) (seq 1 k) = map (fun i => y + Z.of_nat i) (seq 1 k)) by (intros; now subst).
    rewrite (An n (Z.of_nat (1 + a)) b) by lia. rewrite (An n2 (Z.of_nat (1 + a + b)) c) by lia.
    f_equal. f_equal. f_equal. lia.
  - constructor; [repeat split|]. apply Forall2_app; [|constructor; [repeat split|constructor]].
    apply Forall2_app; [assumption|]. apply Forall2_app; assumption.
Qed.
Lemma set_positions_ok m : (exists m', set_positions m = Ok m') <->
  m_header m <> None /\ m_end m <> None /\ exists ps, m_body m = Some ps /\ ~ In NilInterface ps.
Proof.
  unfold set_positions. destruct (m_body m) as [ps|]; [|split; [intros [? H]; discriminate|intros (_&_&ps&H&_); discriminate]].
  destruct (m_header m) as [h|]; [|split; [intros [? H]; discriminate|intros (H&_); contradiction]].
  destruct (m_end m) as [e|]; [|split; [intros [? H]; discriminate|intros (_&H&_); contradiction]].
  destruct (match m_sigbegin m with Some s => (Some (set_pos (1 + 1) s), 1 + 1) | None => (None, 1) end) as [sb n].
  split.
  - intros [m' H]. apply obind_ok in H. destruct H as (r&Hb&_). split; [discriminate|]. split; [discriminate|].
    exists ps. split; [reflexivity|]. apply (position_body_ok ps n (m_heap m)). eauto.
  - intros (_&_&ps'&E&H). injection E as <-. apply (position_body_ok ps n (m_heap m)) in H. destruct H as [[n2 heap] ->]. cbn [obind].
    destruct (m_sigend m); eauto.
Qed.

(** ** The size in the header *)
Lemma trim_right_stop c a b x : b <> c -> trim_right c ((a ++ [b]) ++ x) = (a ++ [b]) ++ trim_right c x.
Proof.
  intros Hb. destruct (trim_right c x) as [|y t] eqn:E.
  - destruct (trim_right_last c x) as [k [Hk _]]. rewrite E in Hk. cbn [app] in Hk. rewrite Hk, trim_right_repeat, app_nil_r.
    now apply trim_right_app_stop.
  - rewrite <- E. apply trim_right_suffix. rewrite E. discriminate.
Qed.
Lemma itoa_pad_last w z : exists p d, itoa_pad w z = p ++ [d] /\ is_digit d = true.
Proof.
  assert (D : forall w n, exists p d, pad_left w (itoa_N n) = p ++ [d] /\ is_digit d = true).
  { intros w' n. destruct (itoa_N_spec n) as (H2&H1&_). destruct (exists_last H2) as [p [d E]].
    unfold pad_left. rewrite E in *. rewrite forallb_app in H1. apply andb_true_iff in H1. cbn in H1.
    exists (repeat b_zero (w' - List.length (p ++ [d])) ++ p), d. split; [now rewrite app_assoc|]. destruct (is_digit d); [reflexivity|].
    destruct H1. discriminate. }
  unfold itoa_pad. destruct (z <? 0); cbn [app].
  - destruct (D (w - 1)%nat (Z.to_N (- z))) as (p&d&->&Hd). exists (b_minus :: p), d. auto.
  - apply D.
Qed.
Lemma itoa_last z : exists p d, itoa z = p ++ [d] /\ is_digit d = true.
Proof.
  destruct (itoa_pad_last 0 z) as (p&d&H&Hd). exists p, d. split; [|assumption]. rewrite <- H. unfold itoa, itoa_pad, pad_left.
  destruct (z <? 0); cbn; reflexivity.
Qed.
Lemma digit_not c d : is_digit d = true -> is_digit c = false -> d <> c.
Proof. intros H G ->. congruence. Qed.

Definition header_wire (i : bytes) (pos ver : Z) (ref : option Z) : bytes :=
  i ++ b_colon :: itoa pos ++ b_colon :: itoa ver ++ match ref with Some r => b_colon :: itoa r | None => [] end.
Lemma marshal_header_eq id i pos ver ref : marshal_text id = Ok i ->
  marshal_de (segment_header id pos ver ref) = Ok (header_wire i pos ver ref).
Proof.
  intros Hi. unfold segment_header. rewrite marshal_de_group.
  assert (N : forall z, marshal_elem (ENumber z) = Ok (itoa z)).
  { intros z. cbn. unfold marshal_number. now rewrite (to_latin1_ascii _ (itoa_ascii z)). }
  cbn [all_ok marshal_opt marshal_de]. change (marshal_elem (EText id)) with (marshal_text id). rewrite Hi. cbn [obind].
  rewrite !N. cbn [obind].
  destruct ref as [r|]; cbn [option_map marshal_opt marshal_de]; [rewrite N|]; cbn [obind].
  - f_equal. rewrite !join_cons. cbn [join app]. destruct (itoa_last r) as (p&d&E&Hd). unfold header_wire. rewrite E.
    rewrite trim_right_id; [reflexivity|]. intros q b Hq. cbn [app] in Hq.
    assert (G : (i ++ b_colon :: itoa pos ++ b_colon :: itoa ver ++ b_colon :: p) ++ [d] = q ++ [b]).
    { rewrite <- Hq. rewrite <- !app_assoc. cbn [app]. rewrite <- !app_assoc. cbn [app]. rewrite <- !app_assoc. reflexivity. }
    apply app_inj_tail in G. destruct G as [_ <-]. now apply digit_not.
  - f_equal. rewrite !join_cons. cbn [join app]. destruct (itoa_last ver) as (p&d&E&Hd). unfold header_wire. rewrite E.
    match goal with |- trim_right _ ?x = _ => replace x with
      (((i ++ b_colon :: itoa pos ++ b_colon :: p) ++ [d]) ++ repeat b_colon 1) end.
    2: { rewrite <- !app_assoc. cbn [app]. rewrite <- !app_assoc. cbn [app repeat]. reflexivity. }
    rewrite trim_right_repeat, trim_right_app_stop by now apply digit_not.
    rewrite app_nil_r, <- !app_assoc. cbn [app]. rewrite <- !app_assoc. reflexivity.
Qed.
Lemma header_wire_last i pos ver ref : exists p d, header_wire i pos ver ref = p ++ [d] /\ is_digit d = true.
Proof.
  unfold header_wire. destruct ref as [r|].
  - destruct (itoa_last r) as (p&d&->&Hd). exists (i ++ b_colon :: itoa pos ++ b_colon :: itoa ver ++ b_colon :: p), d. split; [|assumption].
    rewrite <- !app_assoc. cbn [app]. rewrite <- !app_assoc. cbn [app]. rewrite <- !app_assoc. reflexivity.
  - destruct (itoa_last ver) as (p&d&->&Hd). exists (i ++ b_colon :: itoa pos ++ b_colon :: p), d. split; [|assumption].
    rewrite app_nil_r, <- !app_assoc. cbn [app]. rewrite <- !app_assoc. reflexivity.
Qed.

Definition header_prefix (pos : Z) : bytes := B "HNHBK:" ++ itoa pos ++ B ":3+".
Lemma marshal_msg_header_eq h w z a : mh_size h = Some (w, z) -> marshal_seg (header_seg h) = Ok a ->
  exists rest, a = header_prefix (mh_pos h) ++ itoa_pad w z ++ rest ++ [b_quote] /\
    (rest = [] \/ exists r, rest = b_plus :: r) /\
    forall w' z', marshal_seg (header_seg (mkMH (mh_pos h) (Some (w', z')) (mh_hbci h) (mh_dialog h) (mh_number h) (mh_ref h))) =
      Ok (header_prefix (mh_pos h) ++ itoa_pad w' z' ++ rest ++ [b_quote]).
Proof.
  intros Hs. unfold marshal_seg, header_seg, marshal_segment. rewrite Hs.
  cbn [sg_id sg_pos sg_version sg_ref sg_elems mh_pos mh_size mh_hbci mh_dialog mh_number mh_ref option_map fst snd].
  rewrite (marshal_header_eq (B "HNHBK") (B "HNHBK") (mh_pos h) 3 None) by reflexivity. cbn [obind].
  assert (N : forall w z, marshal_elem (EDigit w z) = Ok (itoa_pad w z)).
  { intros w1 z1. cbn. unfold marshal_digit. now rewrite (to_latin1_ascii _ (itoa_pad_ascii w1 z1)). }
  set (l := [option_map (fun z0 => DE (ENumber z0)) (mh_hbci h); option_map (fun d => DE (EText d)) (mh_dialog h);
             option_map (fun z0 => DE (ENumber z0)) (mh_number h);
             option_map (fun r => DEG [Some (DE (EText (fst r))); Some (DE (ENumber (snd r)))]) (mh_ref h)]).
  change (all_ok marshal_opt (Some (DE (EDigit w z)) :: l)) with
    (do y <- marshal_elem (EDigit w z); do ys <- all_ok marshal_opt l; Ok (y :: ys)).
  rewrite N. cbn [obind]. destruct (all_ok marshal_opt l) as [bs| |] eqn:El; [|discriminate|discriminate]. cbn [obind].
  assert (Lb : exists b1 bs', bs = b1 :: bs').
  { unfold l in El. cbn [all_ok] in El. apply obind_ok in El. destruct El as (b1&_&El). apply obind_ok in El. destruct El as (bs'&_&E).
    injection E as <-. eauto. }
  destruct Lb as (b1&bs'&->).
  assert (T : forall w z, trim_right b_plus (join [b_plus] (header_wire (B "HNHBK") (mh_pos h) 3 None :: itoa_pad w z :: b1 :: bs')) ++ [b_quote] =
     header_prefix (mh_pos h) ++ itoa_pad w z ++ trim_right b_plus (b_plus :: join [b_plus] (b1 :: bs')) ++ [b_quote]).
  { intros w1 z1. rewrite !join_cons. destruct (itoa_pad_last w1 z1) as (p&d&->&Hd).
    assert (E : header_wire (B "HNHBK") (mh_pos h) 3 None ++ [b_plus] ++ (p ++ [d]) ++ [b_plus] ++ join [b_plus] (b1 :: bs') =
       ((header_prefix (mh_pos h) ++ p) ++ [d]) ++ b_plus :: join [b_plus] (b1 :: bs')).
    { unfold header_wire, header_prefix. rewrite app_nil_r. change (itoa 3) with (B "3"). cbn [B list_byte_of_string Byte.of_bits app].
      rewrite <- !app_assoc. cbn [app]. rewrite <- !app_assoc. reflexivity. }
    rewrite E, trim_right_stop by now apply digit_not. rewrite <- !app_assoc. reflexivity. }
  intros H. assert (Ea : a = trim_right b_plus (join [b_plus] (header_wire (B "HNHBK") (mh_pos h) 3 None :: itoa_pad w z :: b1 :: bs')) ++ [b_quote]) by congruence.
  exists (trim_right b_plus (b_plus :: join [b_plus] (b1 :: bs'))). split; [rewrite Ea; apply T|]. split.
  - destruct (trim_right_last b_plus (b_plus :: join [b_plus] (b1 :: bs'))) as [k [Hk _]].
    destruct (trim_right b_plus (b_plus :: join [b_plus] (b1 :: bs'))) as [|x t]; [now left|right]. cbn [app] in Hk.
    injection Hk as <- _. eauto.
  - intros w' z'. cbn [obind].
    change (all_ok marshal_opt (Some (DE (EDigit w' z')) :: l)) with
      (do y <- marshal_elem (EDigit w' z'); do ys <- all_ok marshal_opt l; Ok (y :: ys)).
    rewrite N. cbn [obind]. rewrite El. cbn [obind]. now rewrite T.
Qed.
Lemma parts_header m h h' w a a' : m_header m = Some h -> marshal_parts m = Ok w ->
  marshal_seg (header_seg h) = Ok a -> marshal_seg (header_seg h') = Ok a' ->
  exists t, w = a ++ t /\ marshal_parts (set_header h' m) = Ok (a' ++ t).
Proof.
  intros Hh. unfold marshal_parts, set_header. cbn [m_body m_header m_end m_sigbegin m_sigend m_heap].
  rewrite Hh. destruct (m_body m) as [ps|]; [|discriminate]. intros H Ha Ha'. rewrite Ha in H. rewrite Ha'. cbn [obind] in *.
  apply obind_ok in H. destruct H as (b&->&H). cbn [obind]. apply obind_ok in H. destruct H as (c&->&H). cbn [obind].
  apply obind_ok in H. destruct H as (d&->&H). cbn [obind]. destruct (m_end m) as [e|]; [|discriminate].
  apply obind_ok in H. destruct H as (f&->&H). cbn [obind]. exists (b ++ c ++ d ++ f). split; [congruence|reflexivity].
Qed.
Lemma parts_needs_header m w : marshal_parts m = Ok w -> exists h a, m_header m = Some h /\ marshal_seg (header_seg h) = Ok a.
Proof.
  unfold marshal_parts. destruct (m_body m); [|discriminate]. destruct (m_header m) as [h|]; [|discriminate].
  intros H. apply obind_ok in H. destruct H as (a&Ha&_). eauto.
Qed.
Definition sized (size : Z) (h : msg_header) : msg_header :=
  mkMH (mh_pos h) (Some (12%nat, size)) (mh_hbci h) (mh_dialog h) (mh_number h) (mh_ref h).
Lemma set_size_inv m m1 : set_size m = Ok m1 -> exists w h s, marshal_parts m = Ok w /\ m_header m = Some h /\ mh_size h = Some s /\
  m1 = set_header (sized (len w) h) m.
Proof.
  unfold set_size. intros H. apply obind_ok in H. destruct H as (w&Hw&H). destruct (m_header m) as [h|] eqn:Hh; [|discriminate].
  apply obind_ok in H. destruct H as (h'&Hh'&H). unfold set_header_size in Hh'. destruct (mh_size h) as [s|] eqn:Hs; [|discriminate].
  exists w, h, s. split; [assumption|]. split; [reflexivity|]. split; [assumption|]. unfold sized, len. congruence.
Qed.
Lemma set_size_cache m m1 : set_size m = Ok m1 -> m_cache m1 = m_cache m.
Proof. intros H. destruct (set_size_inv _ _ H) as (w&h&s&_&_&_&->). reflexivity. Qed.

Lemma announced m m' w h ow oz : m_cache m = [] -> m_header m = Some h -> mh_size h = Some (ow, oz) ->
  List.length (itoa_pad ow oz) = 12%nat -> marshal_msg m = (m', Ok w) -> len w < 10 ^ 12 ->
  exists t r, w = header_prefix (mh_pos h) ++ itoa_pad 12 (len w) ++ t :: r /\ (t = b_plus \/ t = b_quote) /\
   marshal_parts (set_header (sized (len w) h) m) = Ok w.
Proof.
  intros Hc Hh Hs H12 Hm Hlt. unfold marshal_msg in Hm. destruct (set_size m) as [m1| |] eqn:E; [|discriminate|discriminate].
  pose proof (set_size_cache _ _ E) as Hc1. rewrite Hc in Hc1. rewrite Hc1 in Hm.
  destruct (set_size_inv _ _ E) as (w0&h0&s&Hw0&Hh0&_&->). assert (h0 = h) by congruence. subst h0.
  destruct (marshal_parts (set_header (sized (len w0) h) m)) as [w1| |] eqn:Hw1; [|discriminate|discriminate].
  assert (w1 = w) by congruence. subst w1.
  destruct (parts_needs_header _ _ Hw0) as (h1&a&Hh1&Ha). assert (h1 = h) by congruence. subst h1.
  destruct (marshal_msg_header_eq _ _ _ _ Hs Ha) as (rest&Ea&Hr&Hall).
  destruct (parts_header m h (sized (len w0) h) w0 a _ Hh Hw0 Ha (Hall _ _)) as (t&Ew0&Hp). rewrite Hp in Hw1.
  assert (Ew : w = (header_prefix (mh_pos h) ++ itoa_pad 12 (len w0) ++ rest ++ [b_quote]) ++ t) by congruence. clear Hw1.
  assert (L0 : len w0 = len (header_prefix (mh_pos h)) + 12 + len rest + 1 + len t).
  { rewrite Ew0, Ea. autorewrite with len. unfold len at 2. rewrite H12. change (len [b_quote]) with 1. lia. }
  assert (P0 : 0 <= len w0) by apply len_nonneg.
  assert (L1 : len w = len (header_prefix (mh_pos h)) + len (itoa_pad 12 (len w0)) + len rest + 1 + len t).
  { rewrite Ew. autorewrite with len. change (len [b_quote]) with 1. lia. }
  assert (G : len w0 < 10 ^ 12).
  { destruct (Z.lt_ge_cases (len w0) (10 ^ 12)) as [|Hge]; [assumption|]. exfalso.
    assert (12 <= len (itoa_pad 12 (len w0))).
    { unfold itoa_pad. replace (len w0 <? 0) with false by lia. unfold pad_left, len. rewrite app_length, repeat_length. lia. }
    lia. }
  destruct (digit_width 12 (len w0) ltac:(change (Z.of_nat 12) with 12; lia) ltac:(lia)) as (v&Hv&Hvl&_).
  unfold marshal_digit in Hv. rewrite (to_latin1_ascii _ (itoa_pad_ascii _ _)) in Hv.
  assert (v = itoa_pad 12 (len w0)) by congruence. subst v.
  assert (L2 : len (itoa_pad 12 (len w0)) = 12) by (unfold len at 1; rewrite Hvl; reflexivity).
  assert (Eq : len w = len w0) by lia. rewrite <- Eq in *.
  assert (Q : exists u r, rest ++ [b_quote] ++ t = u :: r /\ (u = b_plus \/ u = b_quote)).
  { destruct Hr as [->|[r ->]]; cbn [app]; eauto. }
  destruct Q as (u&r&Q&Hu). exists u, r. split; [|split; [assumption|rewrite Hp; f_equal; symmetry; exact Ew]].
  rewrite Ew at 1. rewrite <- Q, <- !app_assoc. reflexivity.
Qed.
Lemma itoa_pad_12 z : 0 <= z < 10 ^ 12 -> List.length (itoa_pad 12 z) = 12%nat /\ forallb is_digit (itoa_pad 12 z) = true /\
  Z.of_N (dec_val (itoa_pad 12 z)) = z.
Proof.
  intros H. destruct (digit_width 12 z ltac:(change (Z.of_nat 12) with 12; lia) ltac:(lia)) as (v&Hv&Hvl&Hd).
  unfold marshal_digit in Hv. rewrite (to_latin1_ascii _ (itoa_pad_ascii _ _)) in Hv. assert (v = itoa_pad 12 z) by congruence. subst v.
  split; [assumption|]. split; [assumption|]. unfold itoa_pad. replace (z <? 0) with false by lia. unfold pad_left. rewrite dec_val_zeros.
  destruct (itoa_N_spec (Z.to_N z)) as (_&_&->&_). lia.
Qed.

(** ** The cache *)
Lemma marshal_msg_cache m m1 w : marshal_msg m = (m1, Ok w) -> m_cache m1 = w.
Proof.
  unfold marshal_msg. destruct (set_size m) as [m0| |]; try discriminate. destruct (m_cache m0) as [|c cs] eqn:E.
  - destruct (marshal_parts m0) eqn:F; try discriminate. intros H. injection H as <- <-. reflexivity.
  - intros H. injection H as <- <-. exact E.
Qed.
Lemma marshal_msg_cached m c : m_cache m = c -> c <> [] -> forall m1 r, marshal_msg m = (m1, r) ->
  m_cache m1 = c /\ (r = Ok c \/ r = Err \/ r = Panic).
Proof.
  intros Hc Hne m1 r. unfold marshal_msg. destruct (set_size m) as [m0| |] eqn:E.
  - pose proof (set_size_cache _ _ E) as Hc0. rewrite Hc in Hc0. rewrite Hc0. destruct c as [|x y]; [congruence|].
    intros H. injection H as <- <-. auto.
  - intros H. injection H as <- <-. auto.
  - intros H. injection H as <- <-. auto.
Qed.
Lemma after_cache m m' : after m m' -> forall c, c <> [] -> m_cache m = c -> m_cache m' = c.
Proof.
  induction 1 as [m|m m1 m2 _ IH Hc|m m1 m2 r _ IH Hm]; intros c Hne E; [assumption| |].
  - rewrite Hc. now apply IH.
  - apply (marshal_msg_cached m1 c (IH c Hne E) Hne m2 r Hm).
Qed.
Lemma marshal_parts_nonempty m w : marshal_parts m = Ok w -> w <> [].
Proof.
  intros H. destruct (parts_needs_header _ _ H) as (h&a&Hh&Ha). destruct (parts_header m h h w a a Hh H Ha Ha) as (t&->&_).
  unfold marshal_seg, marshal_segment in Ha. apply obind_ok in Ha. destruct Ha as (x&_&Ha). apply obind_ok in Ha. destruct Ha as (y&_&Ha).
  assert (E : a = trim_right b_plus (join [b_plus] (x :: y)) ++ [b_quote]) by congruence. rewrite E. intros F. apply app_eq_nil in F.
  destruct F as [F _]. destruct (trim_right b_plus (join [b_plus] (x :: y))); discriminate.
Qed.
Lemma marshal_msg_nonempty m m1 w : marshal_msg m = (m1, Ok w) -> w <> [].
Proof.
  unfold marshal_msg. destruct (set_size m) as [m0| |]; try discriminate. destruct (m_cache m0) as [|c cs] eqn:E.
  - destruct (marshal_parts m0) eqn:F; try discriminate. intros H. injection H as <- <-. eapply marshal_parts_nonempty; eauto.
  - intros H. injection H as <- <-. discriminate.
Qed.
Lemma set_cache_parts m c : marshal_parts (set_cache c m) = marshal_parts m.
Proof. reflexivity. Qed.
Lemma marshal_msg_again m m1 w : m_cache m = [] -> marshal_msg m = (m1, Ok w) -> exists m2, marshal_msg m1 = (m2, Ok w).
Proof.
  intros Hc Hm. pose proof (marshal_msg_cache _ _ _ Hm) as E. pose proof (marshal_msg_nonempty _ _ _ Hm) as Hne.
  unfold marshal_msg in Hm. destruct (set_size m) as [m0| |] eqn:Es; try discriminate.
  pose proof (set_size_cache _ _ Es) as Hc0. rewrite Hc in Hc0. rewrite Hc0 in Hm.
  destruct (set_size_inv _ _ Es) as (w0&h&s&_&_&_&E0).
  destruct (marshal_parts m0) as [w1| |] eqn:Hp; try discriminate. assert (w1 = w) by congruence. subst w1.
  assert (Em : m1 = set_cache w m0) by congruence. unfold marshal_msg, set_size. rewrite Em, set_cache_parts, Hp. cbn [obind].
  assert (Hh : m_header (set_cache w m0) = Some (sized (len w0) h)) by (rewrite E0; reflexivity). rewrite Hh.
  cbn [set_header_size sized mh_size obind]. unfold set_header at 1. cbn [m_cache set_cache]. destruct w as [|x y]; [congruence|]. eauto.
Qed.
