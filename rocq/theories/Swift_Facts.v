(** * The tokens of every input, and the tags of a message *)
From Verif Require Import Base BaseFacts Lexer_Model Lexer_Spec Lexer_Proofs Swift_Model Swift_Spec Swift_Proofs.
From Coq Require Import Lia ZifyBool ZifyNat ZifyN.
Ltac Zify.zify_post_hook ::= Z.div_mod_to_equations.
Open Scope Z_scope.

Lemma gtok_inj a b c d e f : GTok a b c = GTok d e f -> a = d /\ b = e /\ c = f.
Proof. intros H. now injection H. Qed.

Lemma free_text_bound s ty n k : s <> [] -> (forall c r, s = c :: r -> beq c b_cr = false) ->
  free_text s = GTok ty n k -> (1 <= n <= List.length s)%nat /\ k = GStart /\ ty = TS_ALPHANUMERIC.
Proof.
  intros Hne Hc. unfold free_text. destruct (free_length s) as [m|] eqn:E; [|discriminate].
  intros H. destruct (gtok_inj _ _ _ _ _ _ H) as (<- & <- & <-). destruct (free_length_spec _ _ E) as (t & H1 & _ & H3).
  destruct m as [|m]; [|split; [lia|split; reflexivity]].
  cbn [skipn] in H1. subst s. specialize (Hc _ _ eq_refl). discriminate.
Qed.
Lemma take_while_length f s : (List.length (take_while f s) <= List.length s)%nat.
Proof. rewrite <- (while_split f s) at 2. rewrite app_length. lia. Qed.

Lemma value_bound s ty n k : (forall c r, s = c :: r -> beq c b_cr = false) ->
  value s = GTok ty n k -> (1 <= n <= List.length s)%nat /\ k = GStart.
Proof.
  intros Hc. destruct s as [|c s]; [unfold value; cbn; discriminate|].
  assert (HF : free_text (c :: s) = GTok ty n k -> (1 <= n <= List.length (c :: s))%nat /\ k = GStart).
  { intros H. destruct (free_text_bound (c :: s) _ _ _ ltac:(discriminate) Hc H) as (A & B & _). now split. }
  unfold value. pose proof (while_split is_digit (c :: s)) as Hsp.
  assert (Hl : List.length (c :: s) = (List.length (take_while is_digit (c :: s)) + List.length (drop_while is_digit (c :: s)))%nat).
  { rewrite <- Hsp at 1. apply app_length. }
  pose proof (take_while_length cap_or_digit (c :: s)) as Hcd.
  pose proof (take_while_length is_capital (c :: s)) as Hca.
  assert (Hcd1 : is_digit c = true \/ is_capital c = true -> (1 <= List.length (take_while cap_or_digit (c :: s)))%nat).
  { intros [H|H]; cbn [take_while]; unfold cap_or_digit at 1; rewrite H, ?orb_true_r; cbn [orb List.length]; lia. }
  destruct (take_while is_digit (c :: s)) as [|d ds] eqn:Ed.
  - destruct (is_capital c) eqn:Ec; [|exact HF].
    assert (Hca1 : (1 <= List.length (take_while is_capital (c :: s)))%nat) by (cbn [take_while]; rewrite Ec; cbn [List.length]; lia).
    destruct (drop_while is_capital (c :: s)) as [|x r]; [discriminate|].
    destruct (beq x b_cr); [intros H; destruct (gtok_inj _ _ _ _ _ _ H) as (<- & <- & <-); split; [lia|reflexivity]|].
    destruct (drop_while cap_or_digit (c :: s)); [discriminate|].
    destruct (_ && _); [intros H; destruct (gtok_inj _ _ _ _ _ _ H) as (<- & <- & <-); split; [|reflexivity]|exact HF].
    specialize (Hcd1 (or_intror eq_refl)). lia.
  - assert (Hdc : is_digit c = true) by (cbn [take_while] in Ed; destruct (is_digit c); [reflexivity|discriminate]).
    destruct (drop_while is_digit (c :: s)) as [|x r] eqn:Er; [discriminate|].
    cbn [List.length] in Hl |- *.
    destruct (beq x b_comma).
    { pose proof (take_while_length is_digit r). destruct (drop_while is_digit r) as [|y t]; [discriminate|].
      destruct (beq y b_cr); [|exact HF]. intros H0. destruct (gtok_inj _ _ _ _ _ _ H0) as (<- & <- & <-). split; [lia|reflexivity]. }
    destruct (boundary (x :: r)); [intros H0; destruct (gtok_inj _ _ _ _ _ _ H0) as (<- & <- & <-); split; [lia|reflexivity]|].
    destruct (drop_while cap_or_digit (c :: s)); [discriminate|].
    destruct (beq b b_cr); [|exact HF]. intros H0. destruct (gtok_inj _ _ _ _ _ _ H0) as (<- & <- & <-).
    specialize (Hcd1 (or_introl Hdc)). cbn [List.length] in *. split; [lia|reflexivity].
Qed.

Lemma tag_length_bound s n : tag_length s = Some n -> (2 <= n <= List.length s)%nat.
Proof.
  unfold tag_length.
  assert (G : forall n0 s0, (n0 + List.length s0 = List.length s)%nat ->
    match take_while is_digit s0 with
    | [] => None
    | ds => match drop_while is_digit s0 with
            | c :: r => if beq c b_colon then Some (n0 + List.length ds + 1)%nat
                else if is_capital c then match r with d :: _ => if beq d b_colon then Some (n0 + List.length ds + 2)%nat else None | [] => None end
                else None
            | [] => None
            end
    end = Some n -> (2 <= n <= List.length s)%nat).
  { intros n0 s0 Hs0. pose proof (while_split is_digit s0) as Hsp.
    assert (Hl : List.length s0 = (List.length (take_while is_digit s0) + List.length (drop_while is_digit s0))%nat).
    { rewrite <- Hsp at 1. apply app_length. }
    destruct (take_while is_digit s0) as [|d ds]; [discriminate|].
    destruct (drop_while is_digit s0) as [|x r]; [discriminate|]. cbn [List.length] in Hl |- *.
    destruct (beq x b_colon); [intros H; injection H as <-; lia|].
    destruct (is_capital x); [|discriminate]. destruct r as [|y r]; [discriminate|]. cbn [List.length] in Hl.
    destruct (beq y b_colon); [intros H; injection H as <-; lia|discriminate]. }
  destruct s as [|c r]; [now apply (G 0%nat)|]. destruct (beq c b_colon); [now apply (G 1%nat)|now apply (G 0%nat)].
Qed.

Lemma next_token_bound k s ty n k' : next_token k s = GTok ty n k' ->
  (1 <= n <= List.length s)%nat /\ (k' = GTag -> exists u, firstn n s = u ++ [b_lf]) /\ k' <> GEntry /\
  ty <> T_EOF /\ ty <> T_ERROR.
Proof.
  destruct k; cbn [next_token].
  - destruct s as [|a [|b r]]; try discriminate. destruct (beq a b_cr && beq b b_lf) eqn:E; [|discriminate].
    intros H. destruct (gtok_inj _ _ _ _ _ _ H) as (<- & <- & <-). apply andb_true_iff in E. destruct E as [_ E]. apply beq_true in E. subst b.
    split; [simpl; lia|]. split; [intros _; now exists [a]|]. repeat split; discriminate.
  - destruct (tag_length s) eqn:E; [|discriminate]. intros H. destruct (gtok_inj _ _ _ _ _ _ H) as (<- & <- & <-).
    apply tag_length_bound in E. split; [lia|]. repeat split; discriminate.
  - destruct s as [|c r]; [discriminate|]. destruct (beq c b_nul) eqn:En; [discriminate|].
    destruct (beq c b_cr) eqn:Ecr.
    + destruct r as [|d [|e r]]; try discriminate.
      destruct (negb (beq d b_lf) || beq e b_nul) eqn:E; [discriminate|].
      apply orb_false_iff in E. destruct E as [E _]. apply negb_false_iff, beq_true in E. subst d.
      destruct (beq e b_dash); intros H; destruct (gtok_inj _ _ _ _ _ _ H) as (<- & <- & <-).
      * split; [simpl; lia|]. repeat split; discriminate.
      * split; [simpl; lia|]. split; [intros _; now exists [c]|]. repeat split; discriminate.
    + intros H. assert (Hty : ty <> T_EOF /\ ty <> T_ERROR).
      { revert H. unfold value, free_text.
        repeat (match goal with |- context [match ?x with _ => _ end] => destruct x end; try discriminate);
        intros H; injection H as <- _ _; split; discriminate. }
      apply value_bound in H; [|intros x t Hx; injection Hx as <- _; exact Ecr]. destruct H as [H ->].
      split; [exact H|]. split; [discriminate|]. split; [discriminate|exact Hty].
Qed.

Lemma run_tokens inp : forall m s k p, (List.length s <= m)%nat -> view inp p s ->
  (k = GTag -> s = [] -> exists u, inp = u ++ [b_lf]) ->
  ends inp (S m * (m + 6)) (st k) p p (tokens (S m) k p s, EndDone).
Proof.
  induction m as [m IH] using (well_founded_induction lt_wf). intros s k p Hm Hv Hk.
  assert (G : gives inp p s (List.length s + 4) (st k) p (next_token k s)).
  { destruct k.
    - eapply gives_le; [|now apply entry_gives]. lia.
    - eapply gives_le; [|apply tag_gives; [exact Hv|auto]]. lia.
    - now apply start_gives. }
  cbn [tokens]. destruct (next_token k s) as [ty n k'| |n] eqn:E.
  - destruct (next_token_bound _ _ _ _ _ E) as (Hn & Htag & _ & _).
    destruct m as [|m]; [lia|].
    assert (Hl : List.length (skipn n s) = (List.length s - n)%nat) by apply skipn_length.
    assert (He : ends inp (S (S m - n) * (S m - n + 6)) (st k') (p + Z.of_nat n) (p + Z.of_nat n)
                   (tokens (S (S m - n)) k' (p + Z.of_nat n) (skipn n s), EndDone)).
    { apply IH; [lia|rewrite Hl; lia|apply view_skip; [exact Hv|lia]|].
      intros Hk' Hs. destruct (Htag Hk') as [u Hu]. destruct Hv as [pre [-> _]].
      exists (pre ++ u). rewrite <- app_assoc, <- Hu. rewrite <- (firstn_skipn n s) at 1. rewrite Hs, app_nil_r.
      reflexivity. }
    assert (Hfuel : forall f g k p s, (List.length s < f)%nat -> (List.length s < g)%nat -> tokens f k p s = tokens g k p s).
    { clear. induction f as [|f IH]; intros g k p s Hf Hg; [lia|]. destruct g as [|g]; [lia|]. cbn [tokens].
      destruct (next_token k s) as [ty n k'| |n] eqn:E; try reflexivity.
      destruct (next_token_bound _ _ _ _ _ E) as (Hn & _). f_equal. apply IH; rewrite skipn_length; lia. }
    rewrite (Hfuel (S m) (S (S m - n)) k') by (rewrite Hl; lia).
    cbn [gives] in G. eapply ends_le; [|exact (G _ _ _ He)].
    assert (List.length s <= S m)%nat by exact Hm. nia.
  - cbn [gives] in G. eapply ends_le; [|exact G]. lia.
  - cbn [gives] in G. eapply ends_le; [|exact G]. lia.
Qed.

Lemma tokens_fuel f : forall g k p s, (List.length s < f)%nat -> (List.length s < g)%nat -> tokens f k p s = tokens g k p s.
Proof.
  induction f as [|f IH]; intros g k p s Hf Hg; [lia|]. destruct g as [|g]; [lia|]. cbn [tokens].
  destruct (next_token k s) as [ty n k'| |n] eqn:E; try reflexivity.
  destruct (next_token_bound _ _ _ _ _ E) as (Hn & _). f_equal. apply IH; rewrite skipn_length; lia.
Qed.

Theorem swift_lex_tokens inp : swift_lex inp = (tokens (S (List.length inp)) GEntry 0 inp, EndDone).
Proof.
  unfold swift_lex, swift_fuel.
  apply (run_tokens inp (List.length inp) inp GEntry 0 ltac:(lia) (view_init inp) ltac:(discriminate)). lia.
Qed.
