(** Proofs about the lexer: the index based model refines [Lexer_Spec.scan]. *)
From Verif Require Import Base BaseFacts Lexer_Model Lexer_Spec.
From Coq Require Import Lia ZifyBool ZifyNat ZifyN.
Open Scope Z_scope.

(** [s] is what is left of [inp] at offset [p]. *)
Definition view (inp : bytes) (p : Z) (s : bytes) : Prop :=
  exists pre, inp = pre ++ s /\ p = len pre.

Lemma len_app a b : len (a ++ b) = len a + len b.
Proof. unfold len. rewrite app_length. lia. Qed.
Lemma len_nonneg a : 0 <= len a.
Proof. unfold len. lia. Qed.
Lemma len_cons b s : len (b :: s) = len s + 1.
Proof. unfold len. simpl List.length. lia. Qed.
Lemma len_nil : len [] = 0.
Proof. reflexivity. Qed.
#[global] Hint Rewrite len_app len_cons len_nil : len.

Lemma view_init inp : view inp 0 inp.
Proof. exists []. split; reflexivity. Qed.
Lemma view_range inp p s : view inp p s -> 0 <= p /\ p + len s = len inp.
Proof. intros [pre [-> ->]]. autorewrite with len. pose proof (len_nonneg pre). lia. Qed.
Lemma view_index inp p b s : view inp p (b :: s) -> index inp p = Some b.
Proof.
  intros [pre [-> ->]]. unfold index, len.
  replace (Z.of_nat (List.length pre) <? 0) with false by lia.
  rewrite Nat2Z.id, nth_error_app2 by lia.
  now rewrite Nat.sub_diag.
Qed.
Lemma view_next_cons inp p b s : view inp p (b :: s) -> l_next inp p = Ok (b, p + 1).
Proof.
  intros H. pose proof (view_range _ _ _ H) as [H1 H2]. autorewrite with len in H2.
  pose proof (len_nonneg s).
  unfold l_next. replace (len inp <=? p) with false by lia.
  now rewrite (view_index _ _ _ _ H).
Qed.
Lemma view_next_nil inp p : view inp p [] -> l_next inp p = Ok (b_nul, p).
Proof.
  intros H. pose proof (view_range _ _ _ H) as [H1 H2]. autorewrite with len in H2.
  unfold l_next. now replace (len inp <=? p) with true by lia.
Qed.
Lemma next_beyond inp p : len inp <= p -> l_next inp p = Ok (b_nul, p).
Proof. intros H. unfold l_next. now replace (len inp <=? p) with true by lia. Qed.
Lemma view_app inp p a s : view inp p (a ++ s) -> view inp (p + len a) s.
Proof.
  intros [pre [-> ->]]. exists (pre ++ a). rewrite app_assoc, len_app. split; reflexivity.
Qed.
Lemma view_adv inp p b s : view inp p (b :: s) -> view inp (p + 1) s.
Proof. intros H. apply (view_app inp p [b] s H). Qed.
Lemma view_skip inp p s n : view inp p s -> (n <= List.length s)%nat ->
  view inp (p + Z.of_nat n) (skipn n s).
Proof.
  intros H Hn. rewrite <- (firstn_skipn n s) in H. apply view_app in H.
  unfold len in H. rewrite firstn_length_le in H by assumption. assumption.
Qed.
Lemma view_back inp p a b s : view inp p (a ++ b :: s) -> view inp (p + len a + 1 - 1) (b :: s).
Proof. intros H. apply view_app in H. now replace (p + len a + 1 - 1) with (p + len a) by lia. Qed.
Lemma view_slice inp p s n : view inp p s -> (n <= List.length s)%nat ->
  slice inp p (p + Z.of_nat n) = Some (firstn n s).
Proof.
  intros [pre [-> ->]] Hn. unfold slice.
  replace ((0 <=? len pre) && (len pre <=? len pre + Z.of_nat n) &&
    (len pre + Z.of_nat n <=? len (pre ++ s))) with true by (unfold len; rewrite app_length; lia).
  f_equal. replace (len pre + Z.of_nat n - len pre) with (Z.of_nat n) by lia.
  unfold len. rewrite !Nat2Z.id. rewrite skipn_app, Nat.sub_diag, skipn_all. reflexivity.
Qed.

(** ** Bytes *)
Lemma digit_facts b : is_digit b = true ->
  is_delimiter b = false /\ beq b b_qmark = false /\ beq b b_nul = false /\
  beq b b_comma = false /\ beq b b_lf = false /\ beq b b_cr = false /\ beq b b_at = false /\
  is_syntax_symbol b = false.
Proof.
  intros H.
  assert (G : forall b, (negb (is_digit b) ||
    (negb (is_delimiter b) && negb (beq b b_qmark) && negb (beq b b_nul) && negb (beq b b_comma) &&
     negb (beq b b_lf) && negb (beq b b_cr) && negb (beq b b_at) && negb (is_syntax_symbol b)))%bool = true)
    by (apply byte_sweep; vm_compute; reflexivity).
  specialize (G b). rewrite H in G. simpl in G.
  destruct (is_delimiter b), (beq b b_qmark), (beq b b_nul), (beq b b_comma), (beq b b_lf),
    (beq b b_cr), (beq b b_at), (is_syntax_symbol b); simpl in G; try discriminate.
  repeat split.
Qed.
Lemma zero_digit b : beq b b_zero = true -> is_digit b = true.
Proof. intros H. apply beq_true in H. now subst. Qed.
Lemma delim_not_digit b : is_delimiter b = true -> is_digit b = false.
Proof.
  intros H. destruct (is_digit b) eqn:E; [|reflexivity].
  destruct (digit_facts b E) as [E2 _]. congruence.
Qed.
Lemma nul_not_digit : is_digit b_nul = false. Proof. reflexivity. Qed.

Lemma take_drop s : take_digits s ++ drop_digits s = s.
Proof. induction s as [|b s IH]; simpl; [reflexivity|]. destruct (is_digit b); simpl; congruence. Qed.
Lemma take_digits_all s : forallb is_digit (take_digits s) = true.
Proof. induction s as [|b s IH]; simpl; [reflexivity|]. destruct (is_digit b) eqn:E; simpl; [now rewrite E|reflexivity]. Qed.
Lemma drop_digits_head s c r : drop_digits s = c :: r -> is_digit c = false.
Proof.
  induction s as [|b s IH]; simpl; [discriminate|]. destruct (is_digit b) eqn:E; [assumption|].
  intros H. injection H as -> ->. assumption.
Qed.
Lemma take_digits_length s : (List.length (take_digits s) <= List.length s)%nat.
Proof.
  rewrite <- (take_drop s) at 2. rewrite app_length. lia.
Qed.
Lemma digits_snoc ds : ds <> [] -> forallb is_digit ds = true ->
  exists ds' d, ds = ds' ++ [d] /\ is_digit d = true /\ forallb is_digit ds' = true.
Proof.
  intros Hne H. destruct (exists_last Hne) as [ds' [d ->]].
  rewrite forallb_app in H. simpl in H. exists ds', d. repeat split; lia.
Qed.

Lemma accept_run_view fuel inp : forall p s, view inp p s -> (List.length s < fuel)%nat ->
  l_accept_run fuel inp is_digit p =
  Some (Ok (match drop_digits s with
            | [] => p + len (take_digits s) - 1
            | _ => p + len (take_digits s) end)).
Proof.
  induction fuel as [|f IH]; intros p s Hv Hf; [lia|].
  simpl. destruct s as [|b s].
  - rewrite (view_next_nil _ _ Hv), nul_not_digit. simpl. unfold l_backup. rewrite len_nil. do 2 f_equal. lia.
  - rewrite (view_next_cons _ _ _ _ Hv). simpl. destruct (is_digit b) eqn:E.
    + rewrite (IH _ s (view_adv _ _ _ _ Hv)) by (simpl in Hf; lia).
      do 2 f_equal. rewrite len_cons. destruct (drop_digits s); lia.
    + unfold l_backup. rewrite len_nil. do 2 f_equal. lia.
Qed.

Lemma alnum_view fuel inp start : forall text p s, view inp p s -> (List.length s < fuel)%nat ->
  lex_alnum_loop fuel inp start text p =
  match scan_text text s with
  | Some (t, n) => l_emit inp (if t then T_TEXT else T_ALNUM) StStart start (p + Z.of_nat n)
  | None => l_errorf start
  end.
Proof.
  induction fuel as [|f IH]; intros text p s Hv Hf; [lia|].
  simpl lex_alnum_loop. destruct s as [|c r].
  - rewrite (view_next_nil _ _ Hv). reflexivity.
  - rewrite (view_next_cons _ _ _ _ Hv). cbn [scan_text].
    pose proof (view_adv _ _ _ _ Hv) as Hv1. cbn [List.length] in Hf.
    destruct (beq c b_qmark).
    + destruct r as [|e r'].
      * unfold l_peek. rewrite (view_next_nil _ _ Hv1). reflexivity.
      * unfold l_peek. rewrite (view_next_cons _ _ _ _ Hv1). cbn [obind].
        destruct (is_syntax_symbol e); [|reflexivity].
        unfold l_backup. replace (p + 1 + 1 - 1) with (p + 1) by lia.
        rewrite (view_next_cons _ _ _ _ Hv1).
        rewrite (IH _ _ _ (view_adv _ _ _ _ Hv1)) by (cbn [List.length] in Hf; lia).
        destruct (scan_text text r') as [[t n]|]; [|reflexivity].
        f_equal. lia.
    + destruct (is_delimiter c).
      * f_equal. unfold l_backup. lia.
      * destruct (beq c b_nul); [reflexivity|].
        rewrite (IH _ _ _ Hv1) by lia.
        destruct (scan_text _ r) as [[t n]|]; [|reflexivity].
        f_equal. lia.
Qed.

Lemma scan_text_le text : forall s t n, scan_text text s = Some (t, n) -> (n < List.length s)%nat.
Proof.
  intros s. revert text.
  induction s as [s IH] using (induction_ltof1 _ (@List.length byte)). unfold ltof in IH.
  destruct s as [|c r]; intros text t n; cbn [scan_text List.length]; [discriminate|].
  destruct (beq c b_qmark).
  - destruct r as [|e r']; [discriminate|]. destruct (is_syntax_symbol e); [|discriminate].
    destruct (scan_text text r') as [[t' n']|] eqn:E; [|discriminate].
    intros H; injection H as <- <-. apply IH in E; simpl in *; lia.
  - destruct (is_delimiter c); [intros H; injection H as <- <-; lia|].
    destruct (beq c b_nul); [discriminate|].
    destruct (scan_text _ r) as [[t' n']|] eqn:E; [|discriminate].
    intros H; injection H as <- <-. apply IH in E; simpl in *; lia.
Qed.

(** A plain byte never ends, breaks or changes the type of free text. *)
Definition plain (c : byte) : bool :=
  negb (is_delimiter c || beq c b_qmark || beq c b_nul || beq c b_lf || beq c b_cr).
Lemma digit_plain b : is_digit b = true -> plain b = true.
Proof. intros H. unfold plain. destruct (digit_facts b H) as (->&->&->&_&->&->&_). reflexivity. Qed.
Lemma scan_text_plain text ps s : forallb plain ps = true ->
  scan_text text (ps ++ s) =
  match scan_text text s with Some (t, n) => Some (t, (List.length ps + n)%nat) | None => None end.
Proof.
  induction ps as [|c ps IH]; intros H; simpl forallb in H.
  - simpl. destruct (scan_text text s) as [[]|]; reflexivity.
  - apply andb_true_iff in H. destruct H as [Hc Hps]. cbn [app scan_text List.length].
    unfold plain in Hc.
    destruct (is_delimiter c), (beq c b_qmark), (beq c b_nul), (beq c b_lf), (beq c b_cr); try discriminate.
    rewrite !orb_false_r, (IH Hps). destruct (scan_text text s) as [[]|]; reflexivity.
Qed.
Lemma forallb_digit_plain ds : forallb is_digit ds = true -> forallb plain ds = true.
Proof.
  induction ds as [|d ds IH]; simpl; [reflexivity|]. intros H. apply andb_true_iff in H.
  destruct H as [H1 H2]. now rewrite (digit_plain _ H1), (IH H2).
Qed.

(** Entering free text behind plain bytes is the same as starting there. *)
Lemma alnum_mid inp start ps s : view inp start (ps ++ s) -> forallb plain ps = true ->
  lex_alnum inp start (start + len ps) =
  match scan_free (ps ++ s) with
  | SEmit ty n => l_emit inp ty StStart start (start + Z.of_nat n)
  | _ => l_errorf start
  end.
Proof.
  intros Hv Hps. unfold lex_alnum, scan_free.
  pose proof (view_app _ _ _ _ Hv) as Hv2.
  rewrite (alnum_view _ _ _ _ _ s Hv2).
  2:{ destruct Hv as [pre [-> _]]. unfold loop_fuel. rewrite !app_length. lia. }
  rewrite (scan_text_plain _ _ _ Hps). destruct (scan_text false s) as [[t n]|]; [|reflexivity].
  f_equal. unfold len. lia.
Qed.
Lemma scan_text_plain_end text ps : forallb plain ps = true -> scan_text text ps = None.
Proof. intros H. rewrite <- (app_nil_r ps), (scan_text_plain _ _ _ H). reflexivity. Qed.

(** ** Numbers *)
Definition plain_comma : plain b_comma = true := eq_refl.

(** What a state function chain yields, up to [LGoto StAlnum]. *)
Definition settles (inp : bytes) (start : Z) (r : lres lstate) (s : sres) : Prop :=
  let fin := match r with LGoto StAlnum a p => lex_alnum inp a p | _ => r end in
  fin = match s with
        | SEmit ty n => l_emit inp ty StStart start (start + Z.of_nat n)
        | SErr => l_errorf start
        | SEof n => l_emit_eof inp start (start + Z.of_nat n)
        | SPanic => LPanic
        end.

Lemma settles_emit inp start ty q n : q = start + Z.of_nat n ->
  settles inp start (l_emit inp ty StStart start q) (SEmit ty n).
Proof. intros ->. unfold settles, l_emit. destruct (slice _ _ _); reflexivity. Qed.

Lemma settles_free inp start ps s : view inp start (ps ++ s) -> forallb plain ps = true ->
  settles inp start (LGoto StAlnum start (start + len ps)) (scan_free (ps ++ s)).
Proof.
  intros Hv Hp. unfold settles. rewrite (alnum_mid _ _ _ _ Hv Hp).
  unfold scan_free. destruct (scan_text false (ps ++ s)) as [[]|]; reflexivity.
Qed.
Lemma settles_plain_end inp start ps s : view inp start (ps ++ s) -> forallb plain (ps ++ s) = true ->
  settles inp start (LGoto StAlnum start (start + len ps)) SErr.
Proof.
  intros Hv Hp. rewrite forallb_app in Hp. apply andb_true_iff in Hp. destruct Hp as [Hp Hs].
  unfold settles. rewrite (alnum_mid _ _ _ _ Hv Hp). unfold scan_free.
  rewrite scan_text_plain_end; [reflexivity|]. rewrite forallb_app. now rewrite Hp, Hs.
Qed.

Lemma peek_cons inp p c s : view inp p (c :: s) -> l_peek inp p = Ok (c, p).
Proof.
  intros H. unfold l_peek. rewrite (view_next_cons _ _ _ _ H). simpl. unfold l_backup. do 2 f_equal. lia.
Qed.
Lemma accept_cons inp valid p c s : view inp p (c :: s) ->
  l_accept inp valid p = Ok (if valid c then (true, p + 1) else (false, p)).
Proof.
  intros H. unfold l_accept. rewrite (view_next_cons _ _ _ _ H). simpl.
  destruct (valid c); [reflexivity|]. unfold l_backup. do 2 f_equal. lia.
Qed.

Lemma fuel_ok inp p s : view inp p s -> (List.length s < loop_fuel inp)%nat.
Proof. intros [pre [-> _]]. unfold loop_fuel. rewrite app_length. lia. Qed.

(** lex_fraction after [ps ++ ","]; everything before [s] is plain. *)
Lemma fraction_settles inp start ps s : view inp start (ps ++ s) -> ps <> [] -> forallb plain ps = true ->
  settles inp start (lex_fraction inp start (start + len ps))
    (if starts_delim (drop_digits s) then SEmit T_FLOAT (List.length ps + List.length (take_digits s))
     else scan_free (ps ++ s)).
Proof.
  intros Hv Hne Hp. pose proof (view_app _ _ _ _ Hv) as Hv1. unfold lex_fraction.
  rewrite (accept_run_view _ _ _ s Hv1) by (eapply fuel_ok; eassumption).
  pose proof (take_digits_all s) as Hd. apply forallb_digit_plain in Hd.
  pose proof (take_drop s) as Htd.
  destruct (drop_digits s) as [|c r] eqn:E.
  - rewrite app_nil_r in Htd. rewrite Htd in *.
    assert (Hall : forallb plain (ps ++ s) = true) by (rewrite forallb_app; now rewrite Hp, Hd).
    assert (Hne2 : ps ++ s <> []) by (destruct ps; discriminate || congruence).
    destruct (exists_last Hne2) as [qs [q Hq]].
    assert (Hlen : start + len ps + len s - 1 = start + len qs).
    { assert (len (ps ++ s) = len (qs ++ [q])) by congruence. autorewrite with len in *. lia. }
    rewrite Hlen. rewrite Hq in *.
    rewrite (peek_cons inp _ q []) by (apply view_app; assumption).
    assert (Hq2 : is_delimiter q = false).
    { rewrite forallb_app in Hall. simpl in Hall. unfold plain in Hall. destruct (is_delimiter q); [|reflexivity].
      simpl in Hall. lia. }
    rewrite Hq2. simpl starts_delim.
    replace (scan_free (qs ++ [q])) with SErr.
    2:{ unfold scan_free. now rewrite scan_text_plain_end. }
    apply settles_plain_end with (s := [q]); assumption.
  - rewrite <- Htd in Hv1. pose proof (view_app _ _ _ _ Hv1) as Hv2.
    rewrite (peek_cons inp _ c r Hv2).
    simpl starts_delim. destruct (is_delimiter c).
    + apply settles_emit. unfold len. lia.
    + replace (scan_free (ps ++ s)) with (scan_free ((ps ++ take_digits s) ++ c :: r))
        by (rewrite <- app_assoc; congruence).
      replace (start + len ps + len (take_digits s)) with (start + len (ps ++ take_digits s))
        by (autorewrite with len; lia).
      apply settles_free.
      * rewrite <- app_assoc, Htd. assumption.
      * rewrite forallb_app. now rewrite Hp, Hd.
Qed.

Lemma number_settles inp start c s : view inp start (c :: s) -> is_digit c = true -> beq c b_zero = false ->
  settles inp start (lex_number inp start start) (scan_num (c :: s)).
Proof.
  intros Hv Hc Hz. unfold lex_number.
  rewrite (accept_run_view _ _ _ _ Hv) by (eapply fuel_ok; eassumption).
  unfold scan_num. rewrite Hz. simpl andb.
  set (S := c :: s) in *.
  pose proof (take_digits_all S) as Hd. pose proof (forallb_digit_plain _ Hd) as Hp.
  pose proof (take_drop S) as Htd.
  assert (Hne : take_digits S <> []) by (unfold S; simpl; rewrite Hc; discriminate).
  destruct (drop_digits S) as [|d r] eqn:E.
  - simpl starts_delim. cbv iota.
    destruct (digits_snoc _ Hne Hd) as [ds [d [Hds [Hd1 Hd2]]]].
    rewrite app_nil_r in Htd.
    replace (start + len (take_digits S) - 1) with (start + len ds)
      by (rewrite Hds; autorewrite with len; lia).
    assert (Hv1 : view inp start (ds ++ [d])) by congruence.
    pose proof (view_app _ _ _ _ Hv1) as Hv2.
    destruct (digit_facts d Hd1) as (F1&_&_&F2&_).
    rewrite (accept_cons inp _ _ d [] Hv2).
    rewrite beq_sym, F2. rewrite (peek_cons _ _ _ _ Hv2), F1.
    apply settles_plain_end with (s := [d]); [assumption|]. congruence.
  - assert (Hv1 : view inp start (take_digits S ++ d :: r)) by congruence.
    pose proof (view_app _ _ _ _ Hv1) as Hv2.
    rewrite (accept_cons inp _ _ d r Hv2). rewrite (beq_sym b_comma d).
    simpl starts_delim. cbv iota.
    destruct (beq d b_comma) eqn:Ec.
    + apply beq_true in Ec. subst d. change (is_delimiter b_comma) with false. cbv iota.
      replace (start + len (take_digits S) + 1) with (start + len (take_digits S ++ [b_comma]))
        by (autorewrite with len; lia).
      replace (scan_free S) with (scan_free ((take_digits S ++ [b_comma]) ++ r))
        by (rewrite <- app_assoc; f_equal; exact Htd).
      replace (List.length (take_digits S) + 1)%nat with (List.length (take_digits S ++ [b_comma]))
        by (rewrite app_length; reflexivity).
      apply fraction_settles.
      * rewrite <- app_assoc. exact Hv1.
      * destruct (take_digits S); discriminate.
      * rewrite forallb_app, Hp. reflexivity.
    + rewrite (peek_cons _ _ _ _ Hv2).
      destruct (is_delimiter d).
      * apply settles_emit. reflexivity.
      * replace (scan_free S) with (scan_free (take_digits S ++ d :: r)) by (f_equal; exact Htd).
        apply settles_free; assumption.
Qed.

Lemma digit_settles inp start s : view inp start (b_zero :: s) ->
  settles inp start (lex_digit inp start start) (scan_num (b_zero :: s)).
Proof.
  intros Hv. unfold lex_digit. rewrite (accept_cons _ _ _ _ _ Hv), beq_refl.
  pose proof (view_adv _ _ _ _ Hv) as Hv1.
  unfold scan_num. rewrite beq_refl. cbn [take_digits drop_digits].
  change (is_digit b_zero) with true. cbv iota. simpl andb.
  destruct s as [|c r].
  - (* "0" at the end *)
    simpl starts_delim. cbv iota.
    unfold l_peek at 1. rewrite (view_next_nil _ _ Hv1). cbn [obind]. unfold l_backup.
    change (is_delimiter b_nul) with false. cbv iota.
    replace (start + 1 - 1) with start by lia.
    rewrite (accept_cons _ _ _ _ _ Hv). change (beq b_comma b_zero) with false. cbv iota.
    rewrite (accept_run_view _ _ _ _ Hv) by (eapply fuel_ok; eassumption).
    cbn [take_digits drop_digits]. change (is_digit b_zero) with true. cbv iota.
    replace (start + len [b_zero] - 1) with start by (autorewrite with len; lia).
    rewrite (peek_cons _ _ _ _ Hv). change (beq b_zero b_comma) with false. cbv iota.
    rewrite (peek_cons _ _ _ _ Hv). change (is_delimiter b_zero) with false. cbv iota.
    replace start with (start + len []) at 3 by (autorewrite with len; lia).
    apply settles_plain_end with (s := [b_zero]); [exact Hv | reflexivity].
  - rewrite (peek_cons _ _ _ _ Hv1). rewrite (accept_cons _ _ _ _ _ Hv1).
    rewrite (beq_sym b_comma c). cbn [List.length].
    destruct (is_delimiter c) eqn:Edel.
    { pose proof (delim_not_digit c Edel) as Hcd. cbn [take_digits drop_digits]. rewrite Hcd.
      simpl starts_delim. rewrite Edel. cbv iota. simpl. apply settles_emit. reflexivity. }
    destruct (beq c b_comma) eqn:Ecom.
    { apply beq_true in Ecom. subst c. cbn [take_digits drop_digits]. change (is_digit b_comma) with false. cbv iota.
      simpl starts_delim at 1. change (is_delimiter b_comma) with false. cbv iota. rewrite beq_refl.
      simpl negb. cbv iota.
      replace (start + 1 + 1) with (start + len [b_zero; b_comma]) by (autorewrite with len; lia).
      change (b_zero :: b_comma :: r) with ([b_zero; b_comma] ++ r).
      apply fraction_settles; [exact Hv | discriminate | reflexivity]. }
    pose proof (take_digits_all (c :: r)) as Hd. pose proof (take_drop (c :: r)) as Htd.
    rewrite (accept_run_view _ _ _ _ Hv1) by (eapply fuel_ok; eassumption).
    set (S := c :: r) in *.
    destruct (drop_digits S) as [|d t] eqn:E.
    + simpl starts_delim. cbv iota.
      rewrite app_nil_r in Htd.
      assert (Hne : take_digits S <> []) by (rewrite Htd; unfold S; discriminate).
      destruct (digits_snoc _ Hne Hd) as [ds [d [Hds [Hd1 Hd2]]]].
      replace (start + 1 + len (take_digits S) - 1) with (start + 1 + len ds)
        by (rewrite Hds; autorewrite with len; lia).
      assert (Hv2 : view inp (start + 1 + len ds) [d]).
      { apply view_app. congruence. }
      destruct (digit_facts d Hd1) as (F1&_&_&F2&_).
      rewrite (peek_cons _ _ _ _ Hv2), F2, (peek_cons _ _ _ _ Hv2), F1.
      replace (start + 1 + len ds) with (start + len (b_zero :: ds)) by (autorewrite with len; lia).
      assert (HS : b_zero :: S = (b_zero :: ds) ++ [d]) by (simpl; congruence).
      apply settles_plain_end with (s := [d]); [congruence|].
      rewrite <- HS. apply forallb_digit_plain.
      change (forallb is_digit S = true). rewrite Htd in Hd. exact Hd.
    + assert (Hv2 : view inp (start + 1 + len (take_digits S)) (d :: t)).
      { apply view_app. congruence. }
      rewrite (peek_cons _ _ _ _ Hv2). simpl starts_delim.
      destruct (is_delimiter d) eqn:Ed.
      * assert (Hdc : beq d b_comma = false).
        { destruct (beq_spec d b_comma); [subst; discriminate | reflexivity]. }
        rewrite Hdc, (peek_cons _ _ _ _ Hv2), Ed.
        assert (Hne : (List.length (take_digits S) <> 0)%nat).
        { destruct (take_digits S) eqn:ET; [|simpl; lia].
          simpl in Htd. unfold S in Htd. congruence. }
        change (Datatypes.S (List.length (take_digits S)) =? 1)%nat with (List.length (take_digits S) =? 0)%nat.
          replace (List.length (take_digits S) =? 0)%nat with false by lia. simpl negb. cbv iota.
        apply settles_emit. unfold len. lia.
      * destruct (beq d b_comma) eqn:Ec2.
        { assert (Hne : (List.length (take_digits S) <> 0)%nat).
          { destruct (take_digits S) eqn:ET; [|simpl; lia].
            simpl in Htd. unfold S in Htd. congruence. }
          change (Datatypes.S (List.length (take_digits S)) =? 1)%nat with (List.length (take_digits S) =? 0)%nat.
          replace (List.length (take_digits S) =? 0)%nat with false by lia. simpl negb. cbv iota.
          reflexivity. }
        rewrite (peek_cons _ _ _ _ Hv2), Ed.
        replace (start + 1 + len (take_digits S)) with (start + len (b_zero :: take_digits S))
          by (autorewrite with len; lia).
        replace (scan_free (b_zero :: S)) with (scan_free ((b_zero :: take_digits S) ++ d :: t))
          by (simpl; do 2 f_equal; exact Htd).
        apply settles_free; [rewrite <- app_comm_cons; congruence|].
        apply forallb_digit_plain. simpl. assumption.
Qed.

(** ** Binary data *)
Lemma atoi_of_digits ds : ds <> [] -> forallb is_digit ds = true ->
  atoi ds = if in_int64 (Z.of_N (dec_val ds)) then Ok (Z.of_N (dec_val ds)) else Err.
Proof.
  intros Hne Hd. unfold atoi. destruct ds as [|c r]; [congruence|].
  assert (Hc : is_digit c = true) by (simpl in Hd; lia).
  destruct (is_digit_not_sign c Hc) as [-> ->]. unfold atoi_digits. now rewrite Hd.
Qed.

Lemma wrap64_small z : - 2^63 <= z < 2^63 -> wrap64 z = z.
Proof. intros H. unfold wrap64. rewrite Z.mod_small; lia. Qed.
Lemma wrap64_over z : 2^63 <= z < 2^64 -> wrap64 z = z - 2^64.
Proof.
  intros H. unfold wrap64.
  replace (z + 2^63) with (z - 2^63 + 1 * 2^64) by lia.
  rewrite Z.mod_add, Z.mod_small; lia.
Qed.

Lemma next_neg inp p : p < 0 -> l_next inp p = Panic.
Proof.
  intros H. unfold l_next, index. pose proof (len_nonneg inp).
  replace (len inp <=? p) with false by lia. now replace (p <? 0) with true by lia.
Qed.


Lemma binary_settles inp start r : small_input inp -> view inp start (b_at :: r) ->
  settles inp start (lex_binary inp start start) (scan_bin start r).
Proof.
  intros Hsm Hv. unfold lex_binary. rewrite (accept_cons _ _ _ _ _ Hv), beq_refl.
  pose proof (view_adv _ _ _ _ Hv) as Hv1.
  rewrite (accept_run_view _ _ _ _ Hv1) by (eapply fuel_ok; eassumption).
  unfold scan_bin.
  pose proof (take_digits_all r) as Hd. pose proof (take_drop r) as Htd.
  pose proof (view_range _ _ _ Hv) as [Hs0 Hs1]. autorewrite with len in Hs1.
  destruct (drop_digits r) as [|c data] eqn:E.
  - rewrite app_nil_r in Htd.
    destruct (take_digits r) as [|d0 dr] eqn:ED.
    + autorewrite with len. replace (start + 1 + 0 - 1 =? start + 1) with false by lia.
      unfold slice. replace ((0 <=? start + 1) && (start + 1 <=? start + 1 + 0 - 1) &&
        (start + 1 + 0 - 1 <=? len inp)) with false by lia.
      reflexivity.
    + rewrite <- ED in *. assert (Hne : take_digits r <> []) by congruence.
      destruct (digits_snoc _ Hne Hd) as [ds [d [Hds [Hd1 Hd2]]]].
      replace (start + 1 + len (take_digits r) - 1) with (start + 1 + len ds)
        by (rewrite Hds; autorewrite with len; lia).
      destruct (start + 1 + len ds =? start + 1) eqn:Eq; [reflexivity|].
      assert (Hv2 : view inp (start + 1) (ds ++ [d])) by congruence.
      pose proof (view_slice inp (start+1) (ds ++ [d]) (List.length ds) Hv2) as Hsl.
      rewrite app_length in Hsl. specialize (Hsl ltac:(lia)).
      change (Z.of_nat (List.length ds)) with (len ds) in Hsl. rewrite Hsl.
      rewrite firstn_app, Nat.sub_diag, firstn_all, app_nil_r.
      assert (Hdne : ds <> []) by (intros ->; autorewrite with len in Eq; lia).
      rewrite (atoi_of_digits ds Hdne Hd2).
      destruct (in_int64 (Z.of_N (dec_val ds))); [|reflexivity].
      rewrite (accept_cons inp _ _ d []) by (apply view_app; assumption).
      destruct (digit_facts d Hd1) as (_&_&_&_&_&_&F&_).
      rewrite beq_sym, F. reflexivity.
  - assert (Hv2 : view inp (start + 1) (take_digits r ++ c :: data)) by congruence.
    pose proof (view_app _ _ _ _ Hv2) as Hv3.
    pose proof (view_slice inp (start+1) _ (List.length (take_digits r)) Hv2) as Hsl.
    rewrite app_length in Hsl. specialize (Hsl ltac:(lia)).
    change (Z.of_nat (List.length (take_digits r))) with (len (take_digits r)) in Hsl.
    rewrite firstn_app, Nat.sub_diag, firstn_all, app_nil_r in Hsl.
    rewrite Hsl.
    destruct (take_digits r) as [|d0 dr] eqn:ED.
    + autorewrite with len. replace (start + 1 + 0 =? start + 1) with true by lia. reflexivity.
    + rewrite <- ED in *. clear Hsl.
      assert (Hne : take_digits r <> []) by congruence.
      assert (Hl1 : 1 <= len (take_digits r)) by (rewrite ED; autorewrite with len; pose proof (len_nonneg dr); lia).
      replace (start + 1 + len (take_digits r) =? start + 1) with false by lia.
      rewrite (atoi_of_digits _ Hne Hd). set (n := Z.of_N (dec_val (take_digits r))) in *.
      destruct (in_int64 n) eqn:Ein; [|reflexivity]. simpl negb. cbv iota.
      rewrite (accept_cons _ _ _ _ _ Hv3). rewrite (beq_sym b_at c).
      destruct (beq c b_at) eqn:Eat; [|reflexivity]. simpl negb. cbv iota.
      pose proof (view_adv _ _ _ _ Hv3) as Hv4.
      pose proof (view_range _ _ _ Hv4) as [Hr1 Hr2]. pose proof (len_nonneg data).
      set (p2 := start + 1 + len (take_digits r) + 1) in *.
      replace (start + 2 + len (take_digits r) + n) with (p2 + n) by (unfold p2; lia).
      unfold small_input in Hsm. unfold in_int64, int64_max, int64_min in Ein.
      assert (Hn0 : 0 <= n) by (unfold n; lia).
      destruct (2 ^ 63 <=? p2 + n) eqn:Eov.
      { rewrite wrap64_over by lia. unfold l_peek. rewrite next_neg by lia. reflexivity. }
      rewrite wrap64_small by lia.
      destruct (n <? len data) eqn:Elt.
      * assert (Hv5 : view inp (p2 + Z.of_nat (Z.to_nat n)) (skipn (Z.to_nat n) data)).
        { apply view_skip; [assumption|]. unfold len in *. lia. }
        rewrite Z2Nat.id in Hv5 by lia.
        destruct (skipn (Z.to_nat n) data) as [|q qs] eqn:Esk.
        { apply view_range in Hv5. autorewrite with len in Hv5. lia. }
        rewrite (peek_cons _ _ _ _ Hv5). simpl starts_delim. simpl andb.
        destruct (is_delimiter q); [|reflexivity].
        apply settles_emit. unfold p2, len. lia.
      * unfold l_peek. rewrite next_beyond by lia. reflexivity.
Qed.

(** ** Whole token and whole input *)
Lemma scan_tok_bounds p s ty n : scan_tok p s = SEmit ty n -> (1 <= n <= List.length s)%nat.
Proof.
  unfold scan_tok. destruct s as [|c r]; [discriminate|].
  destruct (beq c b_plus) eqn:E1; [intros H; injection H as <- <-; simpl; lia|].
  destruct (beq c b_quote) eqn:E2; [intros H; injection H as <- <-; simpl; lia|].
  destruct (beq c b_colon) eqn:E3; [intros H; injection H as <- <-; simpl; lia|].
  destruct (beq c b_at) eqn:E4.
  { unfold scan_bin. pose proof (take_drop r) as Htd. destruct (drop_digits r) as [|c' data].
    - destruct (take_digits r); discriminate.
    - destruct (take_digits r) as [|d dr] eqn:ED; [discriminate|]. rewrite <- ED in *.
      destruct (in_int64 _); [|discriminate]. simpl negb. cbv iota.
      destruct (beq c' b_at); [|discriminate]. simpl negb. cbv iota.
      destruct (2 ^ 63 <=? _); [discriminate|].
      destruct (_ && _) eqn:EE; [|discriminate]. intros H. injection H as <- <-.
      apply andb_true_iff in EE. destruct EE as [EE _].
      assert (HL : (List.length r = List.length (take_digits r) + S (List.length data))%nat).
      { rewrite <- Htd at 1. rewrite app_length. reflexivity. }
      cbn [List.length]. unfold len in EE. lia. }
  destruct (beq c b_nul) eqn:E5; [discriminate|].
  assert (Hfree : forall t n, scan_free (c :: r) = SEmit t n -> (1 <= n <= List.length (c :: r))%nat).
  { intros t m. unfold scan_free. destruct (scan_text false (c :: r)) as [[t' n']|] eqn:E; [|discriminate].
    intros H; injection H as _ <-. pose proof (scan_text_le _ _ _ _ E).
    cbn [scan_text] in E. unfold is_delimiter in E. rewrite E1, E2, E3, E5 in E. simpl orb in E. cbv iota in E.
    destruct (beq c b_qmark).
    - destruct r; [discriminate|]. destruct (is_syntax_symbol _); [|discriminate].
      destruct (scan_text false r) as [[]|]; [|discriminate]. injection E as <- <-. lia.
    - destruct (scan_text _ r) as [[]|]; [|discriminate]. injection E as <- <-. lia. }
  destruct (is_digit c) eqn:E6; [|apply Hfree].
  unfold scan_num. pose proof (take_drop (c :: r)) as Htd.
  assert (HT : (1 <= List.length (take_digits (c :: r)))%nat) by (simpl; rewrite E6; simpl; lia).
  remember (c :: r) as S eqn:ES. clear ES.
  assert (HL : (List.length S = List.length (take_digits S) + List.length (drop_digits S))%nat)
    by (rewrite <- Htd at 1; apply app_length).
  destruct (starts_delim (drop_digits S)).
  { intros H; injection H as _ <-. lia. }
  destruct (drop_digits S) as [|d t]; [discriminate|].
  destruct (beq d b_comma); [|apply Hfree].
  destruct (_ && _); [discriminate|].
  destruct (starts_delim (drop_digits t)); [|apply Hfree].
  intros H; injection H as _ <-. pose proof (take_digits_length t). cbn [List.length] in HL. lia.
Qed.

Lemma scan_tok_eof p s n : scan_tok p s = SEof n -> (n <= List.length s)%nat.
Proof.
  unfold scan_tok. destruct s as [|c r]; [intros H; injection H as <-; lia|].
  destruct (beq c b_plus); [discriminate|]. destruct (beq c b_quote); [discriminate|].
  destruct (beq c b_colon); [discriminate|]. destruct (beq c b_at).
  { unfold scan_bin. destruct (drop_digits r); [destruct (take_digits r); discriminate|].
    destruct (take_digits r); [discriminate|].
    destruct (in_int64 _); [|discriminate]. simpl negb. cbv iota.
    destruct (beq _ b_at); [|discriminate]. simpl negb. cbv iota.
    destruct (2 ^ 63 <=? _); [discriminate|].
    destruct (_ && _); discriminate. }
  destruct (beq c b_nul); [intros H; injection H as <-; simpl; lia|].
  assert (Hfree : scan_free (c :: r) <> SEof n).
  { unfold scan_free. destruct (scan_text false (c :: r)) as [[]|]; discriminate. }
  destruct (is_digit c); [|congruence].
  unfold scan_num.
  destruct (starts_delim _); [discriminate|].
  destruct (drop_digits (c :: r)); [discriminate|].
  destruct (beq _ b_comma); [|congruence].
  destruct (_ && _); [discriminate|].
  destruct (starts_delim _); [discriminate|congruence].
Qed.

Lemma run_settled inp f k a q start s0 : (2 <= f)%nat ->
  settles inp start (lex_step inp k a q) s0 ->
  (forall k' a' q', lex_step inp k a q = LGoto k' a' q' -> k' = StAlnum) ->
  exists f', (f - 2 <= f')%nat /\
  run_lexer (lex_step inp) f k a q =
  match s0 with
  | SEmit ty n =>
      match slice inp start (start + Z.of_nat n) with
      | Some v => let '(ts, e) := run_lexer (lex_step inp) f' StStart (start + Z.of_nat n) (start + Z.of_nat n) in
                  (mkTok ty v start :: ts, e)
      | None => ([], EndPanic)
      end
  | SErr => ([mkTok T_ERROR [] start], EndDone)
  | SEof n =>
      match slice inp start (start + Z.of_nat n) with
      | Some v => ([mkTok T_EOF v start], EndDone)
      | None => ([], EndPanic)
      end
  | SPanic => ([], EndPanic)
  end.
Proof.
  intros Hf Hs Hk. destruct f as [|[|f]]; try lia.
  unfold settles in Hs.
  assert (Hgen : forall g k a q R, (lex_step inp k a q = R) ->
    (R = match s0 with
         | SEmit ty n => l_emit inp ty StStart start (start + Z.of_nat n)
         | SErr => l_errorf start
         | SEof n => l_emit_eof inp start (start + Z.of_nat n)
         | SPanic => LPanic
         end) ->
    run_lexer (lex_step inp) (S g) k a q =
    match s0 with
    | SEmit ty n =>
        match slice inp start (start + Z.of_nat n) with
        | Some v => let '(ts, e) := run_lexer (lex_step inp) g StStart (start + Z.of_nat n) (start + Z.of_nat n) in
                    (mkTok ty v start :: ts, e)
        | None => ([], EndPanic)
        end
    | SErr => ([mkTok T_ERROR [] start], EndDone)
    | SEof n =>
        match slice inp start (start + Z.of_nat n) with
        | Some v => ([mkTok T_EOF v start], EndDone)
        | None => ([], EndPanic)
        end
    | SPanic => ([], EndPanic)
    end).
  { intros g k0 a0 q0 R HR HR2. cbn [run_lexer]. rewrite HR, HR2.
    destruct s0; try reflexivity.
    - unfold l_emit. destruct (slice _ _ _); reflexivity.
    - unfold l_emit_eof. destruct (slice _ _ _); reflexivity. }
  destruct (lex_step inp k a q) as [t k' a' q'|k' a' q'|t| |] eqn:E.
  - exists (S f). split; [lia|]. apply (Hgen _ _ _ _ _ E). exact Hs.
  - rewrite (Hk _ _ _ eq_refl) in *. exists f. split; [lia|].
    rewrite <- (Hgen f StAlnum a' q' _ eq_refl Hs). cbn [run_lexer]. rewrite E. reflexivity.
  - exists (S f). split; [lia|]. apply (Hgen _ _ _ _ _ E). exact Hs.
  - exists (S f). split; [lia|]. apply (Hgen _ _ _ _ _ E). exact Hs.
  - exists (S f). split; [lia|]. apply (Hgen _ _ _ _ _ E). exact Hs.
Qed.

Lemma fraction_goto inp a q k' a' q' : lex_fraction inp a q = LGoto k' a' q' -> k' = StAlnum.
Proof.
  unfold lex_fraction, l_emit. destruct (l_accept_run _ _ _ _) as [[]|]; try discriminate.
  destruct (l_peek _ _) as [[]| |]; try discriminate.
  destruct (is_delimiter _); [destruct (slice _ _ _); discriminate|]. congruence.
Qed.
Lemma digit_goto inp a q k' a' q' : lex_digit inp a q = LGoto k' a' q' -> k' = StAlnum.
Proof.
  unfold lex_digit. destruct (l_accept _ _ _) as [[]| |]; try discriminate.
  destruct (l_peek _ _) as [[]| |]; try discriminate.
  destruct (is_delimiter _); [unfold l_emit; destruct (slice _ _ _); discriminate|].
  destruct (l_accept _ _ _) as [[[] ?]| |]; try discriminate; [apply fraction_goto|].
  destruct (l_accept_run _ _ _ _) as [[]|]; try discriminate.
  destruct (l_peek _ _) as [[]| |]; try discriminate.
  destruct (beq _ _); [discriminate|].
  destruct (l_peek _ _) as [[]| |]; try discriminate.
  destruct (is_delimiter _); [unfold l_emit; destruct (slice _ _ _); discriminate|]. congruence.
Qed.
Lemma number_goto inp a q k' a' q' : lex_number inp a q = LGoto k' a' q' -> k' = StAlnum.
Proof.
  unfold lex_number. destruct (l_accept_run _ _ _ _) as [[]|]; try discriminate.
  destruct (l_accept _ _ _) as [[[] ?]| |]; try discriminate; [apply fraction_goto|].
  destruct (l_peek _ _) as [[]| |]; try discriminate.
  destruct (is_delimiter _); [unfold l_emit; destruct (slice _ _ _); discriminate|]. congruence.
Qed.
Lemma binary_goto inp a q k' a' q' : lex_binary inp a q = LGoto k' a' q' -> k' = StAlnum.
Proof.
  unfold lex_binary, l_emit. destruct (l_accept _ _ _) as [[]| |]; try discriminate.
  destruct (l_accept_run _ _ _ _) as [[]|]; try discriminate.
  destruct (_ =? _); [discriminate|]. destruct (slice _ _ _); [|discriminate].
  destruct (atoi _); try discriminate. destruct (l_accept _ _ _) as [[[] ?]| |]; try discriminate.
  destruct (l_peek _ _) as [[]| |]; try discriminate.
  destruct (is_delimiter _); [destruct (slice _ _ _)|]; discriminate.
Qed.
Lemma alnum_goto inp a q k' a' q' : lex_alnum inp a q = LGoto k' a' q' -> k' = StAlnum.
Proof.
  unfold lex_alnum. generalize false. revert q.
  induction (loop_fuel inp) as [|f IH]; intros q t; simpl; [discriminate|].
  destruct (l_next _ _) as [[]| |]; try discriminate.
  destruct (beq _ b_qmark).
  - destruct (l_peek _ _) as [[]| |]; try discriminate.
    destruct (is_syntax_symbol _); [|discriminate].
    destruct (l_next _ _) as [[]| |]; try discriminate. apply IH.
  - destruct (is_delimiter _); [unfold l_emit; destruct (slice _ _ _); discriminate|].
    destruct (beq _ b_nul); [discriminate|]. apply IH.
Qed.

Lemma run_tok inp f p s : small_input inp -> view inp p s -> (3 <= f)%nat ->
  exists f', (f - 3 <= f')%nat /\
  run_lexer (lex_step inp) f StStart p p =
  match scan_tok p s with
  | SEmit ty n =>
      let '(ts, e) := run_lexer (lex_step inp) f' StStart (p + Z.of_nat n) (p + Z.of_nat n) in
      (mkTok ty (firstn n s) p :: ts, e)
  | SErr => ([mkTok T_ERROR [] p], EndDone)
  | SEof n => ([mkTok T_EOF (firstn n s) p], EndDone)
  | SPanic => ([], EndPanic)
  end.
Proof.
  intros Hsm Hv Hf. destruct f as [|f]; [lia|].
  assert (Hclean : forall f' R s0, scan_tok p s = s0 ->
    R = match s0 with
        | SEmit ty n =>
            match slice inp p (p + Z.of_nat n) with
            | Some v => let '(ts, e) := run_lexer (lex_step inp) f' StStart (p + Z.of_nat n) (p + Z.of_nat n) in
                        (mkTok ty v p :: ts, e)
            | None => ([], EndPanic)
            end
        | SErr => ([mkTok T_ERROR [] p], EndDone)
        | SEof n =>
            match slice inp p (p + Z.of_nat n) with
            | Some v => ([mkTok T_EOF v p], EndDone)
            | None => ([], EndPanic)
            end
        | SPanic => ([], EndPanic)
        end ->
    R = match scan_tok p s with
        | SEmit ty n =>
            let '(ts, e) := run_lexer (lex_step inp) f' StStart (p + Z.of_nat n) (p + Z.of_nat n) in
            (mkTok ty (firstn n s) p :: ts, e)
        | SErr => ([mkTok T_ERROR [] p], EndDone)
        | SEof n => ([mkTok T_EOF (firstn n s) p], EndDone)
        | SPanic => ([], EndPanic)
        end).
  { intros f' R s0 Hs0 ->. rewrite Hs0. destruct s0; try reflexivity.
    - rewrite (view_slice _ _ _ _ Hv); [reflexivity|]. apply scan_tok_bounds in Hs0. lia.
    - rewrite (view_slice _ _ _ _ Hv); [reflexivity|]. apply scan_tok_eof in Hs0. lia. }
  assert (Hsub : forall k s0, lex_step inp StStart p p = LGoto k p p -> scan_tok p s = s0 ->
     settles inp p (lex_step inp k p p) s0 ->
     (forall k' a' q', lex_step inp k p p = LGoto k' a' q' -> k' = StAlnum) ->
     exists f', (S f - 3 <= f')%nat /\ run_lexer (lex_step inp) (S f) StStart p p = 
      match scan_tok p s with
        | SEmit ty n =>
            let '(ts, e) := run_lexer (lex_step inp) f' StStart (p + Z.of_nat n) (p + Z.of_nat n) in
            (mkTok ty (firstn n s) p :: ts, e)
        | SErr => ([mkTok T_ERROR [] p], EndDone)
        | SEof n => ([mkTok T_EOF (firstn n s) p], EndDone)
        | SPanic => ([], EndPanic)
        end).
  { intros k s0 Hst Hsc Hse Hgo.
    destruct (run_settled inp f k p p p s0 ltac:(lia) Hse Hgo) as [f' [Hf' HR]].
    exists f'. split; [lia|]. apply (Hclean _ _ s0 Hsc). rewrite <- HR.
    cbn [run_lexer]. now rewrite Hst. }
  destruct s as [|c r].
  - exists f. split; [lia|]. apply (Hclean _ _ (SEof 0) eq_refl).
    cbn [run_lexer lex_step]. unfold lex_start. rewrite (view_next_nil _ _ Hv).
    simpl. unfold l_emit_eof. rewrite Z.add_0_r. destruct (slice _ _ _); reflexivity.
  - assert (Hstart : lex_step inp StStart p p =
      if beq c b_plus then l_emit inp T_DES StStart p (p + 1)
      else if beq c b_quote then l_emit inp T_SEGEND StStart p (p + 1)
      else if beq c b_colon then l_emit inp T_GDES StStart p (p + 1)
      else if beq c b_at then LGoto StBinary p p
      else if beq c b_nul then l_emit_eof inp p (p + 1)
      else if beq c b_zero then LGoto StDigit p p
      else if is_digit c then LGoto StNumber p p
      else LGoto StAlnum p p).
    { simpl. unfold lex_start. rewrite (view_next_cons _ _ _ _ Hv). unfold l_backup.
      now replace (p + 1 - 1) with p by lia. }
    assert (Hemit : forall ty, lex_step inp StStart p p = l_emit inp ty StStart p (p + 1) ->
      scan_tok p (c :: r) = SEmit ty 1 ->
      exists f', (S f - 3 <= f')%nat /\ run_lexer (lex_step inp) (S f) StStart p p =
      match scan_tok p (c :: r) with
        | SEmit ty n =>
            let '(ts, e) := run_lexer (lex_step inp) f' StStart (p + Z.of_nat n) (p + Z.of_nat n) in
            (mkTok ty (firstn n (c :: r)) p :: ts, e)
        | SErr => ([mkTok T_ERROR [] p], EndDone)
        | SEof n => ([mkTok T_EOF (firstn n (c :: r)) p], EndDone)
        | SPanic => ([], EndPanic)
        end).
    { intros ty Hst Hsc. exists f. split; [lia|]. apply (Hclean _ _ _ Hsc).
      cbn [run_lexer]. rewrite Hst. unfold l_emit. change (Z.of_nat 1) with 1.
      destruct (slice _ _ _); reflexivity. }
    assert (Hscan : scan_tok p (c :: r) =
      if beq c b_plus then SEmit T_DES 1
      else if beq c b_quote then SEmit T_SEGEND 1
      else if beq c b_colon then SEmit T_GDES 1
      else if beq c b_at then scan_bin p r
      else if beq c b_nul then SEof 1
      else if is_digit c then scan_num (c :: r)
      else scan_free (c :: r)) by reflexivity.
    destruct (beq c b_plus) eqn:E1; [now apply (Hemit T_DES)|].
    destruct (beq c b_quote) eqn:E2; [now apply (Hemit T_SEGEND)|].
    destruct (beq c b_colon) eqn:E3; [now apply (Hemit T_GDES)|].
    destruct (beq c b_at) eqn:E4.
    { apply beq_true in E4. subst c.
      apply (Hsub StBinary _ Hstart Hscan).
      - apply binary_settles; assumption.
      - intros k' a' q'. apply binary_goto. }
    destruct (beq c b_nul) eqn:E5.
    { exists f. split; [lia|]. apply (Hclean _ _ _ Hscan).
      cbn [run_lexer]. rewrite Hstart. unfold l_emit_eof. change (Z.of_nat 1) with 1.
      destruct (slice _ _ _); reflexivity. }
    destruct (beq c b_zero) eqn:E6.
    { rewrite (zero_digit _ E6) in Hscan. apply beq_true in E6. subst c.
      apply (Hsub StDigit _ Hstart Hscan).
      - apply digit_settles; assumption.
      - intros k' a' q'. apply digit_goto. }
    destruct (is_digit c) eqn:E7.
    { apply (Hsub StNumber _ Hstart Hscan).
      - apply number_settles; assumption.
      - intros k' a' q'. apply number_goto. }
    apply (Hsub StAlnum _ Hstart Hscan).
    + cbn [lex_step]. pose proof (alnum_mid inp p [] (c :: r) Hv eq_refl) as HH.
      rewrite len_nil, Z.add_0_r in HH. cbn [app] in HH. unfold settles. rewrite HH.
      unfold scan_free. destruct (scan_text false (c :: r)) as [[t n]|]; [|reflexivity].
      unfold l_emit. destruct (slice _ _ _); reflexivity.
    + intros k' a' q'. apply alnum_goto.
Qed.

Lemma scan_all_fuel f : forall g p s, (List.length s < f)%nat -> (List.length s < g)%nat ->
  scan_all f p s = scan_all g p s.
Proof.
  induction f as [|f IH]; intros g p s Hf Hg; [lia|]. destruct g as [|g]; [lia|].
  cbn [scan_all]. destruct (scan_tok p s) as [ty n| | |] eqn:E; try reflexivity.
  apply scan_tok_bounds in E.
  rewrite (IH g); [reflexivity| |]; rewrite skipn_length; lia.
Qed.

Lemma lex_scan_from inp : small_input inp -> forall m p s f, view inp p s -> (List.length s <= m)%nat ->
  (3 * m + 3 <= f)%nat ->
  run_lexer (lex_step inp) f StStart p p = scan_all (S m) p s.
Proof.
  intros Hsm. induction m as [|m IH]; intros p s f Hv Hm Hf.
  - destruct s; [|simpl in Hm; lia].
    destruct (run_tok inp f p [] Hsm Hv ltac:(lia)) as [f' [_ ->]]. reflexivity.
  - destruct (run_tok inp f p s Hsm Hv ltac:(lia)) as [f' [Hf' ->]].
    cbn [scan_all]. destruct (scan_tok p s) as [ty n| | |] eqn:E; try reflexivity.
    apply scan_tok_bounds in E.
    rewrite (IH _ (skipn n s)); [reflexivity| | |lia].
    + apply view_skip; [assumption | lia].
    + rewrite skipn_length. lia.
Qed.

(** The state machine of token/lexer.go computes exactly the specification. *)
Theorem lex_eq_scan inp : small_input inp -> lex inp = scan inp.
Proof.
  intros Hsm. unfold lex, scan, run_fuel.
  apply lex_scan_from; [assumption | apply view_init | lia | lia].
Qed.
