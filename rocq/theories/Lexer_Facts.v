(** Consequences of [lex_eq_scan]. *)
From Verif Require Import Base BaseFacts Lexer_Model Lexer_Spec Lexer_Proofs.
From Coq Require Import Lia ZifyBool ZifyNat ZifyN.
Open Scope Z_scope.

(** ** The lexer object and [lex] *)
Lemma lx_next_stable inp f : forall k s p N M,
  snd (run_lexer (lex_step inp) f k s p) <> EndFuel -> (f < N)%nat -> (f < M)%nat ->
  lx_next N inp (mkLexer [] false (Some k) s p) = lx_next M inp (mkLexer [] false (Some k) s p).
Proof.
  induction f as [|f IH]; intros k s p N M H HN HM; [simpl in H; congruence|].
  destruct N as [|[|N]]; try lia. destruct M as [|[|M]]; try lia.
  cbn [run_lexer] in H.
  change (lx_next (S (S N)) inp (mkLexer [] false (Some k) s p)) with
    (match lex_step inp k s p with
     | LEmit t k' s' p' => lx_next (S N) inp (mkLexer [t] false (Some k') s' p')
     | LGoto k' s' p' => lx_next (S N) inp (mkLexer [] false (Some k') s' p')
     | LDone t => lx_next (S N) inp (mkLexer [t] true None s p)
     | LPanic => Some Panic
     | LFuel => None
     end).
  change (lx_next (S (S M)) inp (mkLexer [] false (Some k) s p)) with
    (match lex_step inp k s p with
     | LEmit t k' s' p' => lx_next (S M) inp (mkLexer [t] false (Some k') s' p')
     | LGoto k' s' p' => lx_next (S M) inp (mkLexer [] false (Some k') s' p')
     | LDone t => lx_next (S M) inp (mkLexer [t] true None s p)
     | LPanic => Some Panic
     | LFuel => None
     end).
  destruct (lex_step inp k s p); try reflexivity.
  apply IH; [assumption | lia | lia].
Qed.

Lemma drain_run inp f : forall k s p D,
  snd (run_lexer (lex_step inp) f k s p) <> EndFuel -> (f <= D)%nat -> (f <= run_fuel inp)%nat ->
  lx_drain D inp (mkLexer [] false (Some k) s p) = run_lexer (lex_step inp) f k s p.
Proof.
  induction f as [|f IH]; intros k s p D H HD HF; [simpl in H; congruence|].
  destruct D as [|D]; [lia|].
  cbn [run_lexer] in H |- *. cbn [lx_drain lx_has_next lx_state].
  assert (HN : exists N, (run_fuel inp + 1)%nat = S (S N)) by (exists (run_fuel inp - 1)%nat; lia).
  destruct HN as [N HN]. rewrite HN.
  change (lx_next (S (S N)) inp (mkLexer [] false (Some k) s p)) with
    (match lex_step inp k s p with
     | LEmit t k' s' p' => lx_next (S N) inp (mkLexer [t] false (Some k') s' p')
     | LGoto k' s' p' => lx_next (S N) inp (mkLexer [] false (Some k') s' p')
     | LDone t => lx_next (S N) inp (mkLexer [t] true None s p)
     | LPanic => Some Panic
     | LFuel => None
     end).
  destruct (lex_step inp k s p) as [t k' s' p'|k' s' p'|t| |] eqn:E.
  - cbn [lx_next lx_chan lx_closed lx_state lx_start lx_pos].
    rewrite IH; [reflexivity| |lia|lia].
    destruct (run_lexer (lex_step inp) f k' s' p'); exact H.
  - rewrite <- (IH k' s' p' (S D) H ltac:(lia) ltac:(lia)).
    cbn [lx_drain lx_has_next lx_state].
    rewrite (lx_next_stable inp f k' s' p' (S N) (run_fuel inp + 1) H); [reflexivity|lia|lia].
  - destruct D; reflexivity.
  - reflexivity.
  - simpl in H. congruence.
Qed.

(** ** Induction over a scan *)
Inductive scans : Z -> bytes -> list token -> lex_end -> Prop :=
| sc_emit p s ty n ts e :
    scan_tok p s = SEmit ty n -> scans (p + Z.of_nat n) (skipn n s) ts e ->
    scans p s (mkTok ty (firstn n s) p :: ts) e
| sc_err p s : scan_tok p s = SErr -> scans p s [mkTok T_ERROR [] p] EndDone
| sc_eof p s n : scan_tok p s = SEof n -> scans p s [mkTok T_EOF (firstn n s) p] EndDone
| sc_panic p s : scan_tok p s = SPanic -> scans p s [] EndPanic.

Lemma scan_all_scans f : forall p s, (List.length s < f)%nat ->
  scans p s (fst (scan_all f p s)) (snd (scan_all f p s)).
Proof.
  induction f as [|f IH]; intros p s Hf; [lia|].
  cbn [scan_all]. destruct (scan_tok p s) as [ty n| | |] eqn:E.
  - pose proof (scan_tok_bounds _ _ _ _ E) as Hn.
    assert (Hl : (List.length (skipn n s) < f)%nat) by (rewrite skipn_length; lia).
    specialize (IH (p + Z.of_nat n) (skipn n s) Hl).
    destruct (scan_all f (p + Z.of_nat n) (skipn n s)) as [ts e]. simpl in *.
    now constructor.
  - now constructor.
  - now constructor.
  - now constructor.
Qed.
Lemma scans_det p s ts e : scans p s ts e -> forall f, (List.length s < f)%nat -> scan_all f p s = (ts, e).
Proof.
  induction 1 as [p s ty n ts e Ht H IH|p s Ht|p s n Ht|p s Ht]; intros f Hf; (destruct f as [|f]; [lia|]);
    cbn [scan_all]; rewrite Ht; try reflexivity.
  pose proof (scan_tok_bounds _ _ _ _ Ht) as Hn.
  rewrite IH; [reflexivity|]. rewrite skipn_length; lia.
Qed.

Lemma scan_scans inp : scans 0 inp (fst (scan inp)) (snd (scan inp)).
Proof. apply scan_all_scans. lia. Qed.
Lemma scans_scan inp ts e : scans 0 inp ts e -> scan inp = (ts, e).
Proof. intros H. apply (scans_det _ _ _ _ H). lia. Qed.

Lemma scans_not_fuel p s ts e : scans p s ts e -> e <> EndFuel.
Proof. induction 1; congruence. Qed.

Theorem read_all_lex inp : small_input inp -> read_all inp = lex inp.
Proof.
  intros Hsm. unfold read_all, lex, new_lexer. apply drain_run; [|lia|lia].
  change (snd (lex inp) <> EndFuel). rewrite (lex_eq_scan _ Hsm).
  eapply scans_not_fuel, scan_scans.
Qed.
Theorem read_all_scan inp : small_input inp -> read_all inp = scan inp.
Proof. intros H. now rewrite read_all_lex, lex_eq_scan. Qed.
Theorem read_all_scans inp : small_input inp -> scans 0 inp (fst (read_all inp)) (snd (read_all inp)).
Proof. intros H. rewrite (read_all_scan _ H). apply scan_scans. Qed.

(** ** Types of tokens *)
Lemma scan_free_type s ty n : scan_free s = SEmit ty n -> ty = T_TEXT \/ ty = T_ALNUM.
Proof.
  unfold scan_free. destruct (scan_text false s) as [[[] m]|]; intros H; try discriminate;
    injection H as <- <-; auto.
Qed.
Lemma scan_num_type s ty n : scan_num s = SEmit ty n ->
  ty = T_DIGIT \/ ty = T_NUMERIC \/ ty = T_FLOAT \/ ty = T_TEXT \/ ty = T_ALNUM.
Proof.
  unfold scan_num. destruct (starts_delim _).
  - destruct (_ && _); intros H; injection H as <- <-; auto.
  - destruct (drop_digits s); [discriminate|]. destruct (beq _ b_comma).
    + destruct (_ && _); [discriminate|]. destruct (starts_delim _).
      * intros H; injection H as <- <-; auto.
      * intros H; apply scan_free_type in H; tauto.
    + intros H; apply scan_free_type in H; tauto.
Qed.
Lemma scan_bin_type p r ty n : scan_bin p r = SEmit ty n -> ty = T_BINARY.
Proof.
  unfold scan_bin. destruct (drop_digits r); [destruct (take_digits r); discriminate|].
  destruct (take_digits r); [discriminate|].
  destruct (negb _); [discriminate|]. destruct (negb _); [discriminate|].
  destruct (2 ^ 63 <=? _); [discriminate|]. destruct (_ && _); [|discriminate]. congruence.
Qed.

(** Everything about an emitted token that the properties need: its type and
    value, and what follows it. *)
Lemma scan_text_spec : forall s text t n, scan_text text s = Some (t, n) ->
  all_escaped (firstn n s) = true /\ starts_delim (skipn n s) = true.
Proof.
  intros s. induction s as [s IH] using (induction_ltof1 _ (@List.length byte)). unfold ltof in IH.
  intros text t n. destruct s as [|c r]; [discriminate|]. cbn [scan_text].
  destruct (beq c b_qmark) eqn:Eq.
  - destruct r as [|e r']; [discriminate|]. destruct (is_syntax_symbol e); [|discriminate].
    destruct (scan_text text r') as [[t' m]|] eqn:E; [|discriminate].
    intros H; injection H as <- <-. apply IH in E; [|simpl; lia].
    cbn [firstn skipn all_escaped]. rewrite Eq. exact E.
  - destruct (is_delimiter c) eqn:Ed.
    + intros H; injection H as <- <-. simpl. now rewrite Ed.
    + destruct (beq c b_nul); [discriminate|].
      destruct (scan_text _ r) as [[t' m]|] eqn:E; [|discriminate].
      intros H; injection H as <- <-. apply IH in E; [|simpl; lia].
      cbn [firstn skipn all_escaped]. rewrite Eq, Ed. exact E.
Qed.
Lemma plain_escaped ds : forallb plain ds = true -> all_escaped ds = true.
Proof.
  induction ds as [|d ds IH]; [reflexivity|]. cbn [forallb all_escaped]. intros H.
  apply andb_true_iff in H. destruct H as [Hd H]. unfold plain in Hd.
  destruct (is_delimiter d), (beq d b_qmark); try discriminate. now rewrite IH.
Qed.
Lemma scan_free_spec s ty n : scan_free s = SEmit ty n ->
  all_escaped (firstn n s) = true /\ starts_delim (skipn n s) = true.
Proof.
  unfold scan_free. destruct (scan_text false s) as [[t m]|] eqn:E; [|discriminate].
  intros H; injection H as _ <-. apply (scan_text_spec _ _ _ _ E).
Qed.
Lemma firstn_exact {A} (a b : list A) : firstn (List.length a) (a ++ b) = a.
Proof. rewrite firstn_app, Nat.sub_diag, firstn_all, app_nil_r. reflexivity. Qed.
Lemma skipn_exact {A} (a b : list A) : skipn (List.length a) (a ++ b) = b.
Proof. rewrite skipn_app, Nat.sub_diag, skipn_all. reflexivity. Qed.

Lemma scan_num_spec s ty n : scan_num s = SEmit ty n ->
  all_escaped (firstn n s) = true /\ starts_delim (skipn n s) = true.
Proof.
  unfold scan_num. pose proof (take_drop s) as Htd.
  pose proof (forallb_digit_plain _ (take_digits_all s)) as Hp.
  destruct (starts_delim (drop_digits s)) eqn:Es.
  - intros H; injection H as _ <-. rewrite <- Htd at 2 4. rewrite firstn_exact, skipn_exact.
    split; [now apply plain_escaped | assumption].
  - destruct (drop_digits s) as [|c r] eqn:Ed; [discriminate|].
    destruct (beq_spec c b_comma) as [->|_]; [|apply scan_free_spec].
    destruct (_ && _); [discriminate|].
    destruct (starts_delim (drop_digits r)) eqn:Es2; [|apply scan_free_spec].
    intros H; injection H as _ <-.
    assert (Hs : s = (take_digits s ++ [b_comma] ++ take_digits r) ++ drop_digits r).
    { rewrite <- !app_assoc. rewrite take_drop. simpl. congruence. }
    assert (Hl : (List.length (take_digits s) + 1 + List.length (take_digits r))%nat =
                 List.length (take_digits s ++ [b_comma] ++ take_digits r)).
    { rewrite !app_length. simpl. lia. }
    rewrite Hl. rewrite Hs at 2 4. rewrite firstn_exact, skipn_exact.
    split; [|assumption]. apply plain_escaped. rewrite !forallb_app, Hp.
    rewrite (forallb_digit_plain _ (take_digits_all r)). reflexivity.
Qed.

(** Shape of a binary token. *)
Lemma scan_bin_spec p r ty n : scan_bin p r = SEmit ty n ->
  exists ds data rest,
    r = ds ++ b_at :: data ++ rest /\ ds <> [] /\ forallb is_digit ds = true /\
    Z.of_N (dec_val ds) = len data /\ starts_delim rest = true /\
    n = (2 + List.length ds + List.length data)%nat.
Proof.
  unfold scan_bin. pose proof (take_drop r) as Htd. pose proof (take_digits_all r) as Hd.
  destruct (drop_digits r) as [|c d]; [destruct (take_digits r); discriminate|].
  destruct (take_digits r) as [|d0 dr] eqn:ED; [discriminate|]. rewrite <- ED in *.
  destruct (in_int64 _); [|discriminate]. simpl negb. cbv iota.
  destruct (beq_spec c b_at) as [->|]; [|discriminate]. simpl negb. cbv iota.
  destruct (2 ^ 63 <=? _); [discriminate|].
  destruct (_ && _) eqn:EE; [|discriminate]. intros H; injection H as <- <-.
  apply andb_true_iff in EE. destruct EE as [E1 E2].
  set (k := Z.to_nat (Z.of_N (dec_val (take_digits r)))) in *.
  exists (take_digits r), (firstn k d), (skipn k d).
  rewrite firstn_skipn. unfold len in *.
  assert (Hk : (k < List.length d)%nat) by lia.
  rewrite firstn_length_le by lia.
  repeat split; try assumption; try congruence; lia.
Qed.


Lemma scan_tok_spec p s ty n : scan_tok p s = SEmit ty n ->
  (delimiter_type ty = true /\ n = 1%nat /\ exists c r, s = c :: r /\
     ((ty = T_DES /\ c = b_plus) \/ (ty = T_SEGEND /\ c = b_quote) \/ (ty = T_GDES /\ c = b_colon))) \/
  (is_data_type ty = true /\ starts_delim (skipn n s) = true /\
   ((ty = T_BINARY /\ exists ds data, firstn n s = b_at :: ds ++ b_at :: data /\
        ds <> [] /\ forallb is_digit ds = true /\ Z.of_N (dec_val ds) = len data) \/
    (ty <> T_BINARY /\ all_escaped (firstn n s) = true))).
Proof.
  unfold scan_tok. destruct s as [|c r]; [discriminate|].
  destruct (beq_spec c b_plus) as [->|].
  { intros H; injection H as <- <-. left. repeat split; eauto 6. }
  destruct (beq_spec c b_quote) as [->|].
  { intros H; injection H as <- <-. left. repeat split; eauto 7. }
  destruct (beq_spec c b_colon) as [->|].
  { intros H; injection H as <- <-. left. repeat split; eauto 7. }
  destruct (beq_spec c b_at) as [->|].
  { intros H. pose proof (scan_bin_type _ _ _ _ H) as ->.
    destruct (scan_bin_spec _ _ _ _ H) as (ds&data&rest&Hr&Hne&Hdig&Hlen&Hdel&Hn).
    right.
    assert (HS : b_at :: r = (b_at :: ds ++ b_at :: data) ++ rest).
    { rewrite Hr. simpl. rewrite <- app_assoc. reflexivity. }
    assert (HL : n = List.length (b_at :: ds ++ b_at :: data)).
    { simpl. rewrite app_length. simpl. lia. }
    rewrite HS, HL, skipn_exact, firstn_exact.
    split; [reflexivity|]. split; [assumption|]. left. split; [reflexivity|].
    exists ds, data. auto. }
  destruct (beq c b_nul); [discriminate|].
  destruct (is_digit c).
  - intros H. right. destruct (scan_num_spec _ _ _ H) as [H1 H2].
    apply scan_num_type in H.
    destruct H as [->|[->|[->|[->| ->]]]]; (split; [reflexivity|split; [assumption|right; split; [discriminate|assumption]]]).
  - intros H. right. destruct (scan_free_spec _ _ _ H) as [H1 H2].
    apply scan_free_type in H.
    destruct H as [->| ->]; (split; [reflexivity|split; [assumption|right; split; [discriminate|assumption]]]).
Qed.

Lemma scan_tok_not_closing p s ty n : scan_tok p s = SEmit ty n -> ty <> T_EOF /\ ty <> T_ERROR.
Proof.
  intros H. apply scan_tok_spec in H. destruct H as [[H _]|[H _]]; destruct ty; try discriminate; split; discriminate.
Qed.

(** ** C01 *)
Lemma scans_shape p s ts e : scans p s ts e ->
  match e with
  | EndDone => exists body last, ts = body ++ [last] /\ closing last /\ Forall (fun t => ~ closing t) body
  | EndPanic => Forall (fun t => ~ closing t) ts
  | EndFuel => False
  end.
Proof.
  induction 1 as [p s ty n ts e Ht H IH|p s Ht|p s n Ht|p s Ht].
  - assert (Hc : ~ closing (mkTok ty (firstn n s) p)).
    { apply scan_tok_not_closing in Ht. unfold closing. simpl. tauto. }
    destruct e; [|constructor; assumption|assumption].
    destruct IH as [body [last [-> [Hl Hb]]]].
    exists (mkTok ty (firstn n s) p :: body), last. split; [reflexivity|]. split; [assumption|].
    now constructor.
  - exists [], (mkTok T_ERROR [] p). split; [reflexivity|]. split; [right; reflexivity|constructor].
  - exists [], (mkTok T_EOF (firstn n s) p). split; [reflexivity|]. split; [left; reflexivity|constructor].
  - constructor.
Qed.

(** ** C03 *)
Lemma scan_tok_eof_val p s n : scan_tok p s = SEof n ->
  (s = [] /\ n = 0%nat) \/ (exists r, s = b_nul :: r /\ n = 1%nat).
Proof.
  unfold scan_tok. destruct s as [|c r]; [intros H; injection H as <-; auto|].
  destruct (beq c b_plus); [discriminate|]. destruct (beq c b_quote); [discriminate|].
  destruct (beq c b_colon); [discriminate|]. destruct (beq c b_at).
  { unfold scan_bin. destruct (drop_digits r); [destruct (take_digits r); discriminate|].
    destruct (take_digits r); [discriminate|].
    destruct (negb _); [discriminate|]. destruct (negb _); [discriminate|].
    destruct (2 ^ 63 <=? _); [discriminate|].
    destruct (_ && _); discriminate. }
  destruct (beq_spec c b_nul) as [->|]; [intros H; injection H as <-; eauto|].
  assert (Hfree : scan_free (c :: r) <> SEof n).
  { unfold scan_free. destruct (scan_text false (c :: r)) as [[]|]; discriminate. }
  destruct (is_digit c); [|congruence].
  unfold scan_num.
  destruct (starts_delim _); [discriminate|].
  destruct (drop_digits (c :: r)); [discriminate|].
  destruct (beq _ b_comma); [|congruence].
  destruct (_ && _); [discriminate|].
  destruct (starts_delim _); [discriminate|congruence].
Qed.

Lemma scans_cover p s ts e : scans p s ts e ->
  contiguous p ts /\
  exists rest, s = covered ts ++ rest /\
    (e = EndDone -> forall body last, ts = body ++ [last] -> tok_type last = T_EOF ->
       (tok_val last = [] /\ rest = []) \/ tok_val last = [b_nul]).
Proof.
  induction 1 as [p s ty n ts e Ht H IH|p s Ht|p s n Ht|p s Ht].
  - pose proof (scan_tok_bounds _ _ _ _ Ht) as Hn.
    destruct IH as [Hc [rest [Hr He]]]. split.
    + cbn [contiguous tok_pos tok_val]. split; [reflexivity|].
      unfold len. rewrite firstn_length_le by lia. assumption.
    + exists rest. unfold covered in *. cbn [map List.concat tok_val]. split.
      * rewrite <- app_assoc, <- Hr. symmetry. apply firstn_skipn.
      * intros He0 body last Hb Hl.
        destruct body as [|b body].
        -- simpl in Hb. injection Hb as Hb1 Hb2. subst last ts. inversion H; subst; discriminate.
        -- simpl in Hb. injection Hb as Hb1 Hb2. apply (He He0 body last Hb2 Hl).
  - split; [simpl; auto|]. exists s. split; [reflexivity|]. intros _ body last Hb Hl.
    destruct body as [|b [|b2 body]]; simpl in Hb; try discriminate. injection Hb as <-. discriminate.
  - split; [simpl; auto|]. exists (skipn n s). unfold covered. cbn [map List.concat tok_val].
    rewrite app_nil_r, firstn_skipn. split; [reflexivity|].
    intros _ body last Hb Hl.
    destruct body as [|b [|b2 body]]; simpl in Hb; try discriminate. injection Hb as <-. simpl.
    destruct (scan_tok_eof_val _ _ _ Ht) as [[-> ->]|[r [-> ->]]]; [left; auto|right; reflexivity].
  - split; [exact I|]. exists s. split; [reflexivity|discriminate].
Qed.

(** ** C02 *)

Lemma take_digits_app ds c r : forallb is_digit ds = true -> is_digit c = false ->
  take_digits (ds ++ c :: r) = ds /\ drop_digits (ds ++ c :: r) = c :: r.
Proof.
  intros Hd Hc. induction ds as [|d ds IH]; cbn [app take_digits drop_digits].
  - now rewrite Hc.
  - cbn [forallb] in Hd. apply andb_true_iff in Hd. destruct Hd as [H1 H2]. rewrite H1.
    destruct (IH H2) as [-> ->]. auto.
Qed.

Lemma scan_tok_panic p s : scan_tok p s = SPanic <-> s = [b_at] \/ bad_length p s.
Proof.
  split.
  - unfold scan_tok. destruct s as [|c r]; [discriminate|].
    destruct (beq c b_plus); [discriminate|]. destruct (beq c b_quote); [discriminate|].
    destruct (beq c b_colon); [discriminate|].
    destruct (beq_spec c b_at) as [->|].
    { unfold scan_bin. pose proof (take_drop r) as Htd. pose proof (take_digits_all r) as Hd.
      destruct (drop_digits r) as [|c data].
      - destruct (take_digits r); [|discriminate]. simpl in Htd. subst. auto.
      - destruct (take_digits r) as [|d0 dr] eqn:ED; [discriminate|]. rewrite <- ED in *.
        destruct (in_int64 _) eqn:Ein; [|discriminate]. simpl negb. cbv iota.
        destruct (beq_spec c b_at) as [->|]; [|discriminate]. simpl negb. cbv iota.
        destruct (2 ^ 63 <=? _) eqn:Eo; [|destruct (_ && _); discriminate].
        intros _. right. exists (take_digits r), data. unfold in_int64, int64_max in Ein.
        repeat split; try congruence; lia. }
    destruct (beq c b_nul); [discriminate|].
    assert (Hfree : scan_free (c :: r) <> SPanic).
    { unfold scan_free. destruct (scan_text false (c :: r)) as [[]|]; discriminate. }
    destruct (is_digit c); [|congruence].
    unfold scan_num.
    destruct (starts_delim _); [discriminate|].
    destruct (drop_digits (c :: r)); [discriminate|].
    destruct (beq _ b_comma); [|congruence].
    destruct (_ && _); [discriminate|].
    destruct (starts_delim _); [discriminate|congruence].
  - intros [->|(ds&r&->&Hne&Hd&Hn&Hov)]; [reflexivity|].
    unfold scan_tok. change (beq b_at b_plus) with false. change (beq b_at b_quote) with false.
    change (beq b_at b_colon) with false. rewrite beq_refl. cbv iota.
    unfold scan_bin. destruct (take_digits_app ds b_at r Hd eq_refl) as [-> ->].
    destruct ds as [|d0 dr] eqn:ED; [congruence|]. rewrite <- ED in *.
    assert (Hin : in_int64 (Z.of_N (dec_val ds)) = true) by (unfold in_int64, int64_max, int64_min; lia).
    rewrite Hin, beq_refl. simpl negb. cbv iota.
    now replace (2 ^ 63 <=? p + 2 + len ds + Z.of_N (dec_val ds)) with true by lia.
Qed.

Lemma scans_panic p s ts e : scans p s ts e ->
  (e = EndPanic <-> Forall (fun t => ~ closing t) ts /\ exists rest, s = covered ts ++ rest /\
     (rest = [b_at] \/ bad_length (p + len (covered ts)) rest)).
Proof.
  induction 1 as [p s ty n ts e Ht H IH|p s Ht|p s n Ht|p s Ht].
  - pose proof (scan_tok_bounds _ _ _ _ Ht) as Hn. rewrite IH.
    assert (Hc : ~ closing (mkTok ty (firstn n s) p)).
    { apply scan_tok_not_closing in Ht. unfold closing. simpl. tauto. }
    unfold covered. cbn [map List.concat tok_val].
    assert (Hlen : len (firstn n s) = Z.of_nat n) by (unfold len; rewrite firstn_length_le; lia).
    rewrite len_app, Hlen. split; intros [Hf [rest [Hr Hb]]]; (split; [|exists rest]).
    + now constructor.
    + split; [rewrite <- app_assoc, <- Hr; symmetry; apply firstn_skipn|].
      now rewrite Z.add_assoc.
    + now inversion Hf.
    + rewrite <- app_assoc in Hr. rewrite Z.add_assoc in Hb. split; [|exact Hb].
      apply (app_inv_head (firstn n s)). now rewrite firstn_skipn.
  - split; [discriminate|]. intros [Hf _]. exfalso. inversion Hf as [|x l Hx Hl]. apply Hx. right. reflexivity.
  - split; [discriminate|]. intros [Hf _]. exfalso. inversion Hf as [|x l Hx Hl]. apply Hx. left. reflexivity.
  - split; [|reflexivity]. intros _. split; [constructor|]. exists s. split; [reflexivity|].
    unfold covered. simpl. rewrite Z.add_0_r. now apply scan_tok_panic.
Qed.

(** ** Locality: a token does not depend on what follows its delimiter *)
Lemma starts_delim_app a b : starts_delim a = true -> starts_delim (a ++ b) = true.
Proof. destruct a; [discriminate|auto]. Qed.
Lemma take_app_nonempty s t : drop_digits s <> [] ->
  take_digits (s ++ t) = take_digits s /\ drop_digits (s ++ t) = drop_digits s ++ t.
Proof.
  induction s as [|c s IH]; cbn [app take_digits drop_digits]; intros H; [congruence|].
  destruct (is_digit c); [|auto]. destruct (IH H) as [-> ->]. auto.
Qed.
Lemma scan_text_app text : forall s t r, scan_text text s = Some r -> scan_text text (s ++ t) = Some r.
Proof.
  intros s. revert text. induction s as [s IH] using (induction_ltof1 _ (@List.length byte)). unfold ltof in IH.
  intros text t r. destruct s as [|c s]; [discriminate|]. cbn [scan_text app].
  destruct (beq c b_qmark).
  - destruct s as [|e s']; [discriminate|]. cbn [app]. destruct (is_syntax_symbol e); [|discriminate].
    destruct (scan_text text s') as [[]|] eqn:E; [|discriminate]. intros H; injection H as <-.
    rewrite (IH s' ltac:(simpl; lia) _ t _ E). reflexivity.
  - destruct (is_delimiter c); [auto|]. destruct (beq c b_nul); [discriminate|].
    destruct (scan_text _ s) as [[]|] eqn:E; [|discriminate]. intros H; injection H as <-.
    rewrite (IH s ltac:(simpl; lia) _ t _ E). reflexivity.
Qed.
Lemma scan_free_app s t ty n : scan_free s = SEmit ty n -> scan_free (s ++ t) = SEmit ty n.
Proof.
  unfold scan_free. destruct (scan_text false s) as [[]|] eqn:E; [|discriminate].
  now rewrite (scan_text_app _ _ t _ E).
Qed.
Lemma scan_num_app s t ty n : scan_num s = SEmit ty n -> scan_num (s ++ t) = SEmit ty n.
Proof.
  unfold scan_num. intros H. pose proof (take_drop s) as Htd.
  assert (Hne : drop_digits s <> []).
  { destruct (drop_digits s); discriminate. }
  destruct (take_app_nonempty s t Hne) as [-> ->].
  assert (Hz : match s ++ t with c :: _ => beq c b_zero | [] => false end =
               match s with c :: _ => beq c b_zero | [] => false end).
  { destruct s; [simpl in Hne; congruence | reflexivity]. }
  rewrite Hz. destruct (starts_delim (drop_digits s)) eqn:Es.
  - now rewrite (starts_delim_app _ t Es).
  - destruct (drop_digits s) as [|c r]; [congruence|]. cbn [app starts_delim] in *. rewrite Es.
    destruct (beq_spec c b_comma) as [->|]; [|now apply scan_free_app].
    destruct (_ && _); [discriminate|].
    destruct (starts_delim (drop_digits r)) eqn:Es2.
    + destruct (take_app_nonempty r t) as [-> ->]; [destruct (drop_digits r); discriminate|].
      now rewrite (starts_delim_app _ t Es2).
    + destruct (drop_digits r) as [|c2 r2] eqn:Er.
      * exfalso. unfold scan_free in H. rewrite scan_text_plain_end in H; [discriminate|].
        pose proof (take_drop r) as Htr. rewrite Er, app_nil_r in Htr.
        rewrite <- Htd, forallb_app. cbn [forallb]. rewrite <- Htr.
        now rewrite !(forallb_digit_plain _ (take_digits_all _)).
      * destruct (take_app_nonempty r t) as [-> ->]; [congruence|].
        rewrite Er. cbn [app starts_delim] in *. rewrite Es2. now apply scan_free_app.
Qed.
Lemma scan_bin_app p r t ty n : scan_bin p r = SEmit ty n -> scan_bin p (r ++ t) = SEmit ty n.
Proof.
  unfold scan_bin. intros H.
  assert (Hne : drop_digits r <> []).
  { destruct (drop_digits r); [destruct (take_digits r)|]; discriminate. }
  destruct (take_app_nonempty r t Hne) as [-> ->].
  destruct (drop_digits r) as [|c data]; [congruence|]. cbn [app].
  destruct (take_digits r) eqn:ED; [discriminate|]. rewrite <- ED in *.
  destruct (negb _); [discriminate|]. destruct (negb _); [discriminate|].
  destruct (2 ^ 63 <=? _); [discriminate|].
  destruct (_ && _) eqn:EE; [|discriminate]. apply andb_true_iff in EE. destruct EE as [E1 E2].
  rewrite skipn_app. rewrite (starts_delim_app _ _ E2).
  unfold len in *. rewrite app_length.
  replace (Z.of_N (dec_val (take_digits r)) <? _) with true by lia. exact H.
Qed.
Lemma scan_tok_app p s t ty n : scan_tok p s = SEmit ty n -> scan_tok p (s ++ t) = SEmit ty n.
Proof.
  unfold scan_tok. destruct s as [|c r]; [discriminate|]. cbn [app].
  destruct (beq c b_plus); [auto|]. destruct (beq c b_quote); [auto|]. destruct (beq c b_colon); [auto|].
  destruct (beq c b_at); [apply scan_bin_app|]. destruct (beq c b_nul); [discriminate|].
  destruct (is_digit c).
  - apply (scan_num_app (c :: r)).
  - apply (scan_free_app (c :: r)).
Qed.

(** Lexing [a] completely and going on with [b]. *)
Lemma scans_app p a body q b tsb eb :
  scans p a (body ++ [mkTok T_EOF [] q]) EndDone ->
  scans (p + len a) b tsb eb ->
  scans p (a ++ b) (body ++ tsb) eb.
Proof.
  revert p a. induction body as [|t body IH]; intros p a Ha Hb.
  - inversion Ha as [p0 s0 ty n ts e Ht H|p0 s0 Ht|p0 s0 n Ht|]; subst.
    + inversion H.
    + destruct (scan_tok_eof_val _ _ _ Ht) as [[-> ->]|[r [-> ->]]]; [|discriminate].
      simpl. now rewrite len_nil, Z.add_0_r in Hb.
  - inversion Ha as [p0 s0 ty n ts e Ht H|p0 s0 Ht|p0 s0 n Ht|]; subst.
    + pose proof (scan_tok_bounds _ _ _ _ Ht) as Hn.
      assert (Hf : firstn n (a ++ b) = firstn n a).
      { rewrite firstn_app. replace (n - List.length a)%nat with 0%nat by lia. simpl. apply app_nil_r. }
      assert (Hs : skipn n (a ++ b) = skipn n a ++ b).
      { rewrite skipn_app. replace (n - List.length a)%nat with 0%nat by lia. reflexivity. }
      rewrite <- Hf. cbn [app]. constructor.
      * now apply scan_tok_app.
      * rewrite Hs. apply IH; [assumption|].
        replace (p + Z.of_nat n + len (skipn n a)) with (p + len a); [assumption|].
        unfold len. rewrite skipn_length. lia.
    + destruct body; discriminate.
    + destruct body; discriminate.
Qed.

Lemma scans_emit_app p v rest ty tsb eb :
  scan_tok p (v ++ rest) = SEmit ty (List.length v) ->
  scans (p + len v) rest tsb eb ->
  scans p (v ++ rest) (mkTok ty v p :: tsb) eb.
Proof.
  intros Ht H. pose proof (sc_emit p (v ++ rest) ty (List.length v) tsb eb Ht) as G.
  rewrite firstn_exact, skipn_exact in G. now apply G.
Qed.

(** ** C04 *)
Lemma scan_tok_binary p payload c rest ds :
  ds <> [] -> forallb is_digit ds = true -> Z.of_N (dec_val ds) = len payload ->
  is_delimiter c = true -> p + 2 + len ds + len payload < 2 ^ 63 -> 0 <= p ->
  scan_tok p ((b_at :: ds ++ b_at :: payload) ++ c :: rest) =
  SEmit T_BINARY (List.length (b_at :: ds ++ b_at :: payload)).
Proof.
  intros Hne Hd Hn Hc Hov Hp.
  unfold scan_tok. cbn [app]. change (beq b_at b_plus) with false. change (beq b_at b_quote) with false.
  change (beq b_at b_colon) with false. rewrite beq_refl. cbv iota.
  rewrite <- app_assoc. cbn [app]. unfold scan_bin.
  destruct (take_digits_app ds b_at (payload ++ c :: rest) Hd eq_refl) as [-> ->].
  destruct ds as [|d0 dr] eqn:ED; [congruence|]. rewrite <- ED in *.
  pose proof (len_nonneg ds). pose proof (len_nonneg payload).
  assert (Hin : in_int64 (Z.of_N (dec_val ds)) = true) by (unfold in_int64, int64_max, int64_min; lia).
  rewrite Hin, beq_refl. simpl negb. cbv iota. rewrite Hn.
  replace (2 ^ 63 <=? p + 2 + len ds + len payload) with false by lia.
  replace (Z.to_nat (len payload)) with (List.length payload) by (unfold len; lia).
  rewrite skipn_exact. cbn [starts_delim]. rewrite Hc.
  replace (len payload <? len (payload ++ c :: rest)) with true
    by (autorewrite with len; pose proof (len_nonneg rest); lia).
  simpl andb. cbv iota. f_equal. cbn [List.length]. rewrite app_length. cbn [List.length]. lia.
Qed.

(** ** C05 *)
Lemma scans_tokens p s ts e : scans p s ts e -> Forall (fun t =>
  match tok_type t with
  | T_DES => tok_val t = [b_plus]
  | T_GDES => tok_val t = [b_colon]
  | T_SEGEND => tok_val t = [b_quote]
  | T_BINARY => exists ds data, tok_val t = b_at :: ds ++ b_at :: data /\ ds <> [] /\
                  forallb is_digit ds = true /\ Z.of_N (dec_val ds) = len data
  | T_ALNUM | T_TEXT | T_NUMERIC | T_DIGIT | T_FLOAT =>
      tok_val t <> [] /\ all_escaped (tok_val t) = true
  | T_EOF => tok_val t = [] \/ tok_val t = [b_nul]
  | T_ERROR => True
  | _ => False
  end) ts.
Proof.
  induction 1 as [p s ty n ts e Ht H IH|p s Ht|p s n Ht|p s Ht].
  - constructor; [|assumption]. cbn [tok_type tok_val].
    pose proof (scan_tok_bounds _ _ _ _ Ht) as Hn.
    assert (Hv : firstn n s <> []).
    { intros Hz. assert (List.length (firstn n s) = 0%nat) by now rewrite Hz.
      rewrite firstn_length_le in H0; lia. }
    apply scan_tok_spec in Ht.
    destruct Ht as [(H1&->&c&r&->&[[-> ->]|[[-> ->]|[-> ->]]])|(H1&H2&[[-> H3]|[H3 H4]])];
      try reflexivity.
    + assumption.
    + destruct ty; try discriminate; try congruence; auto.
  - repeat constructor.
  - constructor; [|constructor]. cbn [tok_type tok_val].
    destruct (scan_tok_eof_val _ _ _ Ht) as [[-> ->]|[r [-> ->]]]; auto.
  - constructor.
Qed.

Lemma starts_delim_tok p s : starts_delim s = true -> exists ty, scan_tok p s = SEmit ty 1 /\ delimiter_type ty = true.
Proof.
  destruct s as [|c r]; [discriminate|]. simpl. unfold is_delimiter.
  destruct (beq c b_plus); [eauto|]. destruct (beq c b_quote); [eauto|]. destruct (beq c b_colon); [eauto|].
  discriminate.
Qed.
Lemma scans_separated p s ts e : scans p s ts e -> separated ts.
Proof.
  induction 1 as [p s ty n ts e Ht H IH|p s Ht|p s n Ht|p s Ht]; try (simpl; split; [discriminate|exact I]).
  - cbn [separated]. split; [|assumption]. cbn [tok_type]. intros Hd.
    apply scan_tok_spec in Ht. destruct Ht as [(H1&_)|(H1&H2&_)].
    + destruct ty; discriminate.
    + destruct (starts_delim_tok (p + Z.of_nat n) _ H2) as [ty2 [E2 Hd2]].
      inversion H as [p0 s0 ty' n' ts' e' Ht'|p0 s0 Ht'|p0 s0 n' Ht'|p0 s0 Ht']; subst; try congruence.
      simpl. congruence.
  - exact I.
Qed.
