From Verif Require Import Base BaseFacts Lexer_Model Lexer_Spec Lexer_Proofs Lexer_Facts
  Codec_Model Codec_Spec Codec_Proofs Wire_Model Wire_Spec Wire_Proofs.
From Coq Require Import Lia ZifyBool ZifyNat ZifyN.
Open Scope Z_scope.
Ltac Zify.zify_post_hook ::= Z.div_mod_to_equations.

Lemma good_unterminated c p : good c -> 0 <= p -> p + len c < 2 ^ 62 -> scan_tok p c = SErr.
Proof.
  intros [Hne H] Hp Hsm. destruct (H p b_plus [] eq_refl Hp Hsm) as [ty [Hty Hs]].
  destruct (scan_tok p c) as [ty' n| |n|] eqn:E; [|reflexivity| |].
  - pose proof (scan_tok_app _ _ [b_plus] _ _ E) as E2. rewrite Hs in E2. injection E2 as <- <-.
    apply scan_tok_spec in E. destruct E as [[E _]|[_ [E _]]].
    + destruct ty; discriminate.
    + rewrite skipn_all in E. discriminate.
  - apply scan_tok_eof_val in E. destruct E as [[-> _]|[r [-> _]]]; [congruence|].
    cbn in Hs. discriminate.
  - apply scan_tok_panic in E. destruct E as [->|(ds&r&->&H1&H2&H3&H4)].
    + cbn in Hs. discriminate.
    + assert (G : scan_tok p ((b_at :: ds ++ b_at :: r) ++ [b_plus]) = SPanic); [|congruence].
      apply scan_tok_panic. right. exists ds, (r ++ [b_plus]). split; [|auto].
      cbn [app]. now rewrite <- app_assoc.
Qed.

(** ** Pieces: chunks with the delimiter behind each *)
Definition okc (c : bytes) : Prop := c = [] \/ good c.
Definition okp (x : bytes * byte) : Prop := okc (fst x) /\ is_delimiter (snd x) = true.
Definition flatp (lc : list (bytes * byte)) : bytes := List.concat (map (fun x => fst x ++ [snd x]) lc).
Definition dtype (d : byte) : ttype :=
  if beq d b_plus then T_DES else if beq d b_quote then T_SEGEND else T_GDES.
Inductive ptoks : list (bytes * byte) -> list token -> Prop :=
| pt_nil : ptoks [] []
| pt_empty d t lc ts : tok_type t = dtype d -> tok_val t = [d] -> ptoks lc ts -> ptoks (([], d) :: lc) (t :: ts)
| pt_chunk c d u t lc ts : is_data_type (tok_type u) = true -> tok_val u = c ->
    tok_type t = dtype d -> tok_val t = [d] -> ptoks lc ts -> ptoks ((c, d) :: lc) (u :: t :: ts).

Lemma scan_tok_delim p d s : is_delimiter d = true -> scan_tok p (d :: s) = SEmit (dtype d) 1.
Proof. intros H. destruct (delim_cases d H) as [->|[->| ->]]; reflexivity. Qed.
Lemma len_flatp_cons c d lc : len (flatp ((c, d) :: lc)) = len c + 1 + len (flatp lc).
Proof. unfold flatp. cbn [map List.concat fst snd]. autorewrite with len. lia. Qed.
Lemma flatp_cons c d lc s : flatp ((c, d) :: lc) ++ s = c ++ d :: flatp lc ++ s.
Proof. unfold flatp. cbn [map List.concat fst snd]. now rewrite <- !app_assoc. Qed.
Lemma flatp_app a b : flatp (a ++ b) = flatp a ++ flatp b.
Proof. unfold flatp. now rewrite map_app, concat_app. Qed.

Lemma scans_pieces lc : forall p tail tst e, Forall okp lc -> 0 <= p -> p + len (flatp lc) < 2 ^ 62 ->
  scans (p + len (flatp lc)) tail tst e ->
  exists ts, ptoks lc ts /\ scans p (flatp lc ++ tail) (ts ++ tst) e.
Proof.
  induction lc as [|[c d] lc IH]; intros p tail tst e Hok Hp Hsm Hs.
  - exists []. split; [constructor|]. cbn [flatp map List.concat] in Hs. rewrite len_nil, Z.add_0_r in Hs. exact Hs.
  - inversion Hok as [|x l [Hc Hd] Hl]; subst. cbn [fst snd] in *.
    rewrite len_flatp_cons in *. pose proof (len_nonneg c). pose proof (len_nonneg (flatp lc)).
    rewrite flatp_cons.
    assert (Hd' : exists ts, ptoks lc ts /\
      scans (p + len c) (d :: flatp lc ++ tail) (mkTok (dtype d) [d] (p + len c) :: ts ++ tst) e).
    { destruct (IH (p + len c + 1) tail tst e Hl) as [ts [H1 H2]]; [lia|lia| |].
      - replace (p + len c + 1 + len (flatp lc)) with (p + (len c + 1 + len (flatp lc))) by lia. exact Hs.
      - exists ts. split; [assumption|].
        apply (sc_emit (p + len c) (d :: flatp lc ++ tail) (dtype d) 1 (ts ++ tst) e).
        + now apply scan_tok_delim.
        + exact H2. }
    destruct Hd' as [ts [H1 H2]]. destruct Hc as [->|[Hne Hg]].
    + exists (mkTok (dtype d) [d] p :: ts). split; [constructor; auto|].
      rewrite len_nil, Z.add_0_r in H2. exact H2.
    + destruct (Hg p d (flatp lc ++ tail) Hd Hp ltac:(lia)) as [ty [Hty Hsc]].
      exists (mkTok ty c p :: mkTok (dtype d) [d] (p + len c) :: ts). split; [constructor; auto|].
      cbn [app]. apply scans_emit_app; assumption.
Qed.
Lemma pieces_read lc : Forall okp lc -> len (flatp lc) < 2 ^ 62 ->
  exists ts t, ptoks lc ts /\ tok_type t = T_EOF /\ tok_val t = [] /\ read_all (flatp lc) = (ts ++ [t], EndDone).
Proof.
  intros Hok Hsm.
  destruct (scans_pieces lc 0 [] [mkTok T_EOF [] (0 + len (flatp lc))] EndDone Hok ltac:(lia) ltac:(lia)) as [ts [H1 H2]].
  { apply (sc_eof _ _ 0). reflexivity. }
  rewrite app_nil_r in H2. exists ts, (mkTok T_EOF [] (0 + len (flatp lc))). repeat split; try assumption.
  rewrite read_all_scan by assumption. now apply scans_scan.
Qed.
Lemma pieces_error lc t : Forall okp lc -> len (flatp lc ++ t) < 2 ^ 62 ->
  scan_tok (len (flatp lc)) t = SErr ->
  exists ts u, ptoks lc ts /\ tok_type u = T_ERROR /\ read_all (flatp lc ++ t) = (ts ++ [u], EndDone).
Proof.
  intros Hok Hsm He. autorewrite with len in Hsm. pose proof (len_nonneg t).
  destruct (scans_pieces lc 0 t [mkTok T_ERROR [] (0 + len (flatp lc))] EndDone Hok ltac:(lia) ltac:(lia)) as [ts [H1 H2]].
  { apply sc_err. exact He. }
  exists ts, (mkTok T_ERROR [] (0 + len (flatp lc))). repeat split; try assumption.
  rewrite read_all_scan by (unfold small_input; autorewrite with len; lia). now apply scans_scan.
Qed.
Lemma ptoks_no_error lc ts : ptoks lc ts -> existsb is_error ts = false.
Proof.
  assert (D : forall d, ttype_eqb (dtype d) T_ERROR = false).
  { intros d. unfold dtype. destruct (beq d b_plus); [reflexivity|]. destruct (beq d b_quote); reflexivity. }
  induction 1 as [|d t lc ts H1 H2 _ IH|c d u t lc ts H1 H2 H3 H4 _ IH]; [reflexivity| |];
    cbn [existsb]; unfold is_error at 1.
  - now rewrite H1, D, IH.
  - unfold is_error at 1. rewrite H3, D, IH. destruct (tok_type u); try discriminate; reflexivity.
Qed.
Lemma with_tokens_ok {A} lc (f : list token -> A) : Forall okp lc -> len (flatp lc) < 2 ^ 62 ->
  exists ts t, ptoks lc ts /\ tok_type t = T_EOF /\ tok_val t = [] /\
    with_tokens (flatp lc) f = Ok (f (ts ++ [t])).
Proof.
  intros Hok Hsm. destruct (pieces_read lc Hok Hsm) as (ts&t&H1&H2&H3&H4). exists ts, t. repeat split; try assumption.
  unfold with_tokens. rewrite H4, existsb_app, (ptoks_no_error _ _ H1). cbn [existsb]. unfold is_error. rewrite H2. reflexivity.
Qed.
Lemma with_tokens_err {A} lc t (f : list token -> A) : Forall okp lc -> len (flatp lc ++ t) < 2 ^ 62 ->
  scan_tok (len (flatp lc)) t = SErr -> with_tokens (flatp lc ++ t) f = Err.
Proof.
  intros Hok Hsm He. destruct (pieces_error lc t Hok Hsm He) as (ts&u&H1&H2&H3).
  unfold with_tokens. rewrite H3, existsb_app. cbn [existsb]. unfold is_error at 2. rewrite H2.
  rewrite orb_true_r. reflexivity.
Qed.

(** ** The folds over piece tokens *)
Lemma group_split_pieces lc ts tst : ptoks lc ts -> Forall okp lc ->
  group_split [] (ts ++ tst) = map fst lc ++ group_split [] tst.
Proof.
  induction 1 as [|d t lc ts H1 H2 _ IH|c d u t lc ts H1 H2 H3 H4 _ IH]; intros Hok; [reflexivity| |];
    inversion Hok as [|x l [_ Hd] Hl]; subst; cbn [snd fst map app] in *.
  - cbn [group_split]. rewrite H1. rewrite <- (IH Hl). unfold dtype.
    destruct (beq d b_plus); [reflexivity|]. destruct (beq d b_quote); reflexivity.
  - assert (E : forall cur r, group_split cur (u :: r) = group_split (cur ++ tok_val u) r).
    { intros cur r. cbn [group_split]. destruct (tok_type u); try discriminate; reflexivity. }
    rewrite E. cbn [app group_split]. rewrite H3. rewrite <- (IH Hl). unfold dtype.
    destruct (beq d b_plus); [reflexivity|]. destruct (beq d b_quote); reflexivity.
Qed.

(** Fields: chunks joined by ':'; [fpieces cs d] are the pieces of a field that
    is followed by d. *)
Fixpoint fpieces (cs : list bytes) (d : byte) : list (bytes * byte) :=
  match cs with
  | [] => []
  | [c] => [(c, d)]
  | c :: r => (c, b_colon) :: fpieces r d
  end.
Lemma flatp_fpieces cs d : cs <> [] -> flatp (fpieces cs d) = join [b_colon] cs ++ [d].
Proof.
  induction cs as [|c [|c2 cs] IH]; intros H; [congruence| |].
  - cbn. now rewrite app_nil_r.
  - change (flatp (fpieces (c :: c2 :: cs) d)) with ((c ++ [b_colon]) ++ flatp (fpieces (c2 :: cs) d)).
    rewrite IH by discriminate. rewrite join_cons, <- !app_assoc. reflexivity.
Qed.
Lemma okp_fpieces cs d : Forall okc cs -> is_delimiter d = true -> Forall okp (fpieces cs d).
Proof.
  intros H Hd. induction cs as [|c [|c2 cs] IH]; cbn [fpieces]; [constructor| |].
  - inversion H; subst. constructor; [split; assumption|constructor].
  - inversion H; subst. constructor; [split; [assumption|reflexivity]|]. now apply IH.
Qed.
Lemma data_not_delim u : is_data_type (tok_type u) = true ->
  (forall cur r, elements_split cur (u :: r) = elements_split (cur ++ tok_val u) r) /\
  (forall cur r, segments_split cur (u :: r) = segments_split (cur ++ tok_val u) r).
Proof. intros H. split; intros cur r; cbn [elements_split segments_split]; destruct (tok_type u); try discriminate; reflexivity. Qed.

(** Running over the tokens of one piece. *)
Lemma elements_split_piece c d lc ts : ptoks ((c, d) :: lc) ts -> exists ts', ptoks lc ts' /\
  forall cur tst, elements_split cur (ts ++ tst) =
    if beq d b_plus then (cur ++ c) :: elements_split [] (ts' ++ tst)
    else if beq d b_quote then match cur ++ c with [] => elements_split [] (ts' ++ tst) | _ => (cur ++ c) :: elements_split [] (ts' ++ tst) end
    else elements_split (cur ++ c ++ [d]) (ts' ++ tst).
Proof.
  intros H. inversion H as [|d' t lc' ts' H1 H2 H3|c' d' u t lc' ts' H1 H2 H3 H4 H5]; subst.
  - exists ts'. split; [assumption|]. intros cur tst. cbn [app elements_split]. rewrite H1, app_nil_r. unfold dtype.
    destruct (beq d b_plus); [reflexivity|]. destruct (beq d b_quote); [reflexivity|]. now rewrite H2.
  - exists ts'. split; [assumption|]. intros cur tst. cbn [app].
    rewrite (proj1 (data_not_delim u H1)). cbn [elements_split]. rewrite H3. unfold dtype.
    destruct (beq d b_plus); [reflexivity|]. destruct (beq d b_quote); [reflexivity|]. now rewrite H4, <- app_assoc.
Qed.
Lemma elements_split_field cs d : cs <> [] -> d = b_plus \/ d = b_quote -> forall lc ts,
  ptoks (fpieces cs d ++ lc) ts -> exists ts', ptoks lc ts' /\
  forall cur tst, elements_split cur (ts ++ tst) =
    let f := cur ++ join [b_colon] cs in
    if beq d b_plus then f :: elements_split [] (ts' ++ tst)
    else match f with [] => elements_split [] (ts' ++ tst) | _ => f :: elements_split [] (ts' ++ tst) end.
Proof.
  intros Hne Hd. induction cs as [|c [|c2 cs] IH]; intros lc ts H; [congruence| |].
  - cbn [fpieces app] in H. destruct (elements_split_piece _ _ _ _ H) as [ts' [H1 H2]].
    exists ts'. split; [assumption|]. intros cur tst. rewrite H2. cbn [join]. cbv zeta.
    destruct Hd as [->| ->]; reflexivity.
  - change (fpieces (c :: c2 :: cs) d ++ lc) with ((c, b_colon) :: (fpieces (c2 :: cs) d ++ lc)) in H.
    destruct (elements_split_piece _ _ _ _ H) as [ts' [H1 H2]].
    destruct (IH ltac:(discriminate) lc ts' H1) as [ts'' [H3 H4]].
    exists ts''. split; [assumption|]. intros cur tst. rewrite H2.
    change (beq b_colon b_plus) with false. change (beq b_colon b_quote) with false. cbv iota.
    rewrite H4. rewrite join_cons. rewrite <- !app_assoc. reflexivity.
Qed.

Lemma segments_split_pieces lc ts tst : ptoks lc ts -> Forall (fun x => is_delimiter (snd x) = true /\ snd x <> b_quote) lc ->
  forall cur, segments_split cur (ts ++ tst) = segments_split (cur ++ flatp lc) tst.
Proof.
  induction 1 as [|d t lc ts H1 H2 _ IH|c d u t lc ts H1 H2 H3 H4 _ IH]; intros Hok cur.
  - cbn. now rewrite app_nil_r.
  - inversion Hok as [|x l [Hd Hq] Hl]; subst. cbn [snd] in *.
    change (flatp (([], d) :: lc)) with ([d] ++ flatp lc). cbn [app segments_split]. rewrite H1.
    unfold dtype. destruct (beq d b_plus) eqn:E1.
    + now rewrite (IH Hl), H2, <- app_assoc.
    + destruct (beq_spec d b_quote) as [->|]; [congruence|]. now rewrite (IH Hl), H2, <- app_assoc.
  - inversion Hok as [|x l [Hd Hq] Hl]; subst. cbn [snd] in *.
    change (flatp ((tok_val u, d) :: lc)) with ((tok_val u ++ [d]) ++ flatp lc). cbn [app].
    rewrite (proj2 (data_not_delim u H1)). cbn [segments_split]. rewrite H3. unfold dtype.
    destruct (beq d b_plus) eqn:E1.
    + rewrite (IH Hl), H4, <- !app_assoc. reflexivity.
    + destruct (beq_spec d b_quote) as [->|]; [congruence|]. rewrite (IH Hl), H4, <- !app_assoc. reflexivity.
Qed.
Lemma segments_split_end c ts tst lc : ptoks ((c, b_quote) :: lc) ts -> exists ts', ptoks lc ts' /\
  forall cur, segments_split cur (ts ++ tst) = (cur ++ c ++ [b_quote]) :: segments_split [] (ts' ++ tst).
Proof.
  intros H. inversion H as [|d' t lc' ts' H1 H2 H3|c' d' u t lc' ts' H1 H2 H3 H4 H5]; subst.
  - exists ts'. split; [assumption|]. intros cur. cbn [app segments_split]. rewrite H1. cbn. now rewrite H2.
  - exists ts'. split; [assumption|]. intros cur. cbn [app]. rewrite (proj2 (data_not_delim u H1)).
    cbn [segments_split]. rewrite H3. cbn. now rewrite H4, <- app_assoc.
Qed.
Lemma ptoks_app_inv a : forall b ts, ptoks (a ++ b) ts -> exists ta tb, ts = ta ++ tb /\ ptoks a ta /\ ptoks b tb.
Proof.
  induction a as [|x a IH]; intros b ts H; [exists [], ts; repeat split; [constructor|assumption]|].
  cbn [app] in H. inversion H as [|d t lc ts0 G1 G2 G3|c d u t lc ts0 G1 G2 G3 G4 G5]; subst.
  - destruct (IH _ _ G3) as (ta&tb&->&Ha&Hb). exists (t :: ta), tb. repeat split; [constructor; auto|assumption].
  - destruct (IH _ _ G5) as (ta&tb&->&Ha&Hb). exists (u :: t :: ta), tb. repeat split; [constructor; auto|assumption].
Qed.

(** ** strip, join and trim *)
Lemma strip_spec bs : exists k, bs = strip bs ++ repeat [] k.
Proof.
  induction bs as [|x bs [k IH]]; [exists 0%nat; reflexivity|]. cbn [strip].
  destruct x as [|c x].
  - destruct (strip bs) as [|y s] eqn:E.
    + exists (S k). cbn. f_equal. exact IH.
    + exists k. cbn [app]. f_equal. exact IH.
  - exists k. cbn [app]. f_equal. exact IH.
Qed.
Lemma strip_last bs : strip bs <> [] -> last (strip bs) [] <> [].
Proof.
  induction bs as [|x bs IH]; cbn [strip]; [congruence|]. destruct x as [|c x].
  - destruct (strip bs) as [|y s] eqn:E; [congruence|]. intros _. cbn [last]. apply IH. discriminate.
  - destruct (strip bs) as [|y s] eqn:E; intros _; [discriminate|]. cbn [last]. apply IH. discriminate.
Qed.
Lemma join_app_repeat c (s : list bytes) k : s <> [] -> join [c] (s ++ repeat [] k) = join [c] s ++ repeat c k.
Proof.
  intros Hne. induction s as [|x [|y s] IH]; [congruence| |].
  - cbn [app]. clear. revert x. induction k as [|k IH]; intros x; [cbn; now rewrite app_nil_r|].
    change (repeat (@nil byte) (S k)) with ((@nil byte) :: repeat (@nil byte) k).
    rewrite join_cons. specialize (IH (@nil byte)). cbn [join app] in IH |- *. rewrite IH. reflexivity.
  - cbn [app]. rewrite !join_cons. cbn [app] in IH. unfold bytes in *. rewrite IH by discriminate. now rewrite <- !app_assoc.
Qed.
Lemma join_repeat_nil c k : join [c] (repeat [] (S k)) = repeat c k.
Proof.
  induction k as [|k IH]; [reflexivity|].
  change (repeat [] (S (S k))) with ([] :: [] :: repeat (@nil byte) k).
  rewrite join_cons. change ([] :: repeat (@nil byte) k) with (repeat (@nil byte) (S k)). rewrite IH. reflexivity.
Qed.
Lemma join_snoc c (s : list bytes) (x : bytes) : s <> [] -> join [c] (s ++ [x]) = join [c] s ++ c :: x.
Proof.
  intros H. induction s as [|y [|z s] IH]; [congruence|reflexivity|].
  cbn [app]. rewrite !join_cons. cbn [app] in IH. rewrite IH by discriminate. now rewrite <- !app_assoc.
Qed.
(** The part before the last element, with its separator. *)
Definition before_last (c : byte) (s : list bytes) : bytes :=
  match s with [] => [] | _ => join [c] s ++ [c] end.
Lemma join_last c (s : list bytes) (x : bytes) : join [c] (s ++ [x]) = before_last c s ++ x.
Proof.
  destruct s as [|y s]; [reflexivity|]. rewrite join_snoc by discriminate. unfold before_last.
  now rewrite <- app_assoc.
Qed.
Lemma trim_join c bs : trim_right c (join [c] bs) =
  match strip bs with [] => [] | _ => trim_right c (join [c] (strip bs)) end.
Proof.
  destruct (strip_spec bs) as [k Hk]. destruct (strip bs) as [|x s] eqn:E.
  - rewrite Hk. cbn [app]. destruct k as [|k]; [reflexivity|].
    rewrite join_repeat_nil. change (repeat c k) with ([] ++ repeat c k). now rewrite trim_right_repeat.
  - rewrite Hk at 1. rewrite join_app_repeat by discriminate. now rewrite trim_right_repeat.
Qed.
Lemma trim_right_suffix c a x : trim_right c x <> [] -> trim_right c (a ++ x) = a ++ trim_right c x.
Proof.
  intros H. destruct (trim_right_last c x) as [k [Hk Hn]].
  rewrite Hk at 1. rewrite app_assoc, trim_right_repeat. apply trim_right_id.
  intros p b Hb. destruct (exists_last H) as [q [y Hy]]. rewrite Hy in Hb, Hn. rewrite app_assoc in Hb.
  apply app_inj_tail in Hb. destruct Hb as [_ <-]. intros ->. apply Hn. now exists q.
Qed.
Lemma trim_join_clean c bs : ~ ends_with c (last_present bs) -> trim_right c (join [c] bs) = join [c] (strip bs).
Proof.
  intros H. rewrite trim_join. pose proof (strip_last bs) as Hl. unfold last_present in H.
  destruct (strip bs) as [|x s] eqn:E; [reflexivity|]. rewrite <- E in *.
  assert (Hne : strip bs <> []) by (rewrite E; discriminate). specialize (Hl Hne).
  destruct (exists_last Hne) as [q [y Hy]]. rewrite Hy in *. rewrite last_last in *.
  rewrite join_last. rewrite trim_right_suffix.
  - f_equal. apply trim_right_id. intros p b ->. intros ->. apply H. now exists p.
  - rewrite trim_right_id; [assumption|]. intros p b ->. intros ->. apply H. now exists p.
Qed.
