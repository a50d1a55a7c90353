(** * C81: what the syntax error of a SWIFT dataset says *)
From Coq Require Import Lia ZifyBool ZifyNat.
From Verif Require Import Base BaseFacts Lexer_Model Lexer_Spec Lexer_Proofs Swift_Model Swift_Spec Swift_Proofs Swift_Facts Swift_Facts2 Swift_Facts3
  Cut_Model Cut_Spec.
Open Scope Z_scope.

(** ** Bytes and positions *)
Lemma next_cases inp p : (len inp <= p /\ l_next inp p = Ok (b_nul, p)) \/ (exists b, p < len inp /\ index inp p = Some b /\ l_next inp p = Ok (b, p + 1)) \/
  (index inp p = None /\ l_next inp p = Panic).
Proof.
  unfold l_next. destruct (Z.leb_spec (len inp) p); [now left|]. right. destruct (index inp p) as [b|]; [left; exists b; auto|right; auto].
Qed.
Lemma accept_true inp valid p q : l_accept inp valid p = Ok (true, q) -> valid b_nul = false -> exists b, index inp p = Some b /\ valid b = true /\ q = p + 1.
Proof.
  unfold l_accept. intros H Hv. destruct (next_cases inp p) as [(_&E)|[(b&_&Ei&E)|(_&E)]]; rewrite E in H; cbn [obind] in H; [rewrite Hv in H; discriminate| |discriminate].
  destruct (valid b) eqn:Eb; [|discriminate]. injection H as <-. exists b. auto.
Qed.
Lemma accept_false inp valid p q : l_accept inp valid p = Ok (false, q) -> (len inp <= p /\ q = p - 1) \/ (exists b, index inp p = Some b /\ valid b = false /\ q = p).
Proof.
  unfold l_accept, l_backup. intros H. destruct (next_cases inp p) as [(Hl&E)|[(b&_&Ei&E)|(_&E)]]; rewrite E in H; cbn [obind] in H; [| |discriminate].
  - destruct (valid b_nul); [discriminate|]. injection H as <-. left. split; [assumption|reflexivity].
  - destruct (valid b) eqn:Eb; [discriminate|]. injection H as <-. right. exists b. repeat split; try assumption. lia.
Qed.
Lemma skipn_index inp p b : index inp p = Some b -> skipn (Z.to_nat p) inp = b :: skipn (Z.to_nat (p + 1)) inp.
Proof.
  unfold index. destruct (Z.ltb_spec p 0); [discriminate|]. intros E. replace (Z.to_nat (p + 1)) with (S (Z.to_nat p)) by lia.
  revert E. generalize (Z.to_nat p) as n. clear. intros n. revert inp. induction n as [|n IH]; intros [|c inp] E; try discriminate; cbn in E; [injection E as <-; reflexivity|].
  cbn [skipn]. now apply IH.
Qed.
Lemma skipn_end inp p : len inp <= p -> skipn (Z.to_nat p) inp = [].
Proof. unfold len. intros H. apply skipn_all2. lia. Qed.

(** ** The type of the last token and what is read next *)
Definition goal_after (t : option ttype) : goal :=
  match t with None => GEntry | Some TS_DATASET_START | Some TS_TAG_SEPARATOR => GTag | _ => GStart end.
Definition last_type (t : option ttype) (ts : list token) : option ttype := fold_left (fun _ x => Some (tok_type x)) ts t.
Definition goal_of (k : sstate) : goal := match k with SwEntry => GEntry | SwTag => GTag | _ => GStart end.
(** The positions of a state. *)
Definition placed (inp : bytes) (k : sstate) (start pos : Z) : Prop :=
  match k with
  | SwEntry => start = 0 /\ pos = 0
  | SwTag => start = pos /\ index inp (pos - 1) = Some b_lf
  | SwStart => start = pos
  | SwSymbol => start = pos /\ index inp pos = Some b_cr
  | SwDigit | SwAlpha | SwCharacter | SwAlnum => exists c, index inp start = Some c /\ beq c b_cr = false
  end.
Lemma emit_inv {S} inp ty (k : S) a p t k' a' p' : l_emit inp ty k a p = LEmit t k' a' p' -> tok_type t = ty /\ k' = k /\ a' = p /\ p' = p.
Proof. unfold l_emit. destruct (slice inp a p); [|discriminate]. intros H. injection H as <- <- <- <-. auto. Qed.
Lemma emit_goto {S} inp ty (k : S) a p k' a' p' : l_emit inp ty k a p = LGoto k' a' p' -> False.
Proof. unfold l_emit. destruct (slice inp a p); discriminate. Qed.
Lemma emit_done {S} inp ty (k : S) a p t : l_emit inp ty k a p = LDone t -> False.
Proof. unfold l_emit. destruct (slice inp a p); discriminate. Qed.

Ltac crunch H :=
  repeat first
    [ discriminate H
    | match type of H with
      | l_emit _ _ _ _ _ = LGoto _ _ _ => destruct (emit_goto _ _ _ _ _ _ _ _ H)
      | l_emit _ _ _ _ _ = LDone _ => destruct (emit_done _ _ _ _ _ _ H)
      | match ?x with _ => _ end = _ => let E := fresh "E" in destruct x eqn:E
      | (if ?x then _ else _) = _ => let E := fresh "E" in destruct x eqn:E
      end ].

Lemma step_goto inp k a p k' a' p' : placed inp k a p -> sw_step inp k a p = LGoto k' a' p' -> placed inp k' a' p' /\ goal_of k' = goal_of k /\ goal_of k = GStart.
Proof.
  intros Hp H. destruct k; cbn [sw_step] in H.
  - unfold sw_entry, l_errorf in H. crunch H.
  - unfold sw_tag, l_errorf in H. crunch H.
  - cbn in Hp. subst a. unfold sw_start in H. destruct (next_cases inp p) as [(Hl&E)|[(b&_&Ei&E)|(_&E)]]; rewrite E in H.
    + cbn in H. unfold l_emit_eof in H. destruct (slice inp p p); discriminate.
    + unfold l_emit_eof in H. destruct (class_facts b) as (C1&C2&_).
      destruct (is_digit b) eqn:Ed; [injection H as <- <- <-; split; [|split; reflexivity]; exists b; split; [exact Ei|apply (C1 eq_refl)]|].
      destruct (is_capital b) eqn:Ec; [injection H as <- <- <-; split; [|split; reflexivity]; exists b; split; [exact Ei|apply (C2 eq_refl)]|].
      destruct (beq b b_cr) eqn:Er.
      { injection H as <- <- <-. apply beq_true in Er. subst b. unfold l_backup. replace (p + 1 - 1) with p by lia. split; [split; [reflexivity|exact Ei]|split; reflexivity]. }
      destruct (beq b b_nul); [destruct (slice inp p (p + 1)); discriminate|]. injection H as <- <- <-. split; [|split; reflexivity]. exists b. auto.
    + discriminate.
  - unfold sw_symbol, l_errorf in H. crunch H.
  - unfold sw_digit in H. crunch H; injection H as <- <- <-; (split; [exact Hp|split; reflexivity]).
  - unfold sw_alpha, l_errorf in H. crunch H; injection H as <- <- <-; (split; [exact Hp|split; reflexivity]).
  - unfold sw_character, l_errorf in H. crunch H; injection H as <- <- <-; (split; [exact Hp|split; reflexivity]).
  - unfold sw_alnum, l_errorf in H. crunch H; injection H as <- <- <-; (split; [exact Hp|split; reflexivity]).
Qed.
Lemma step_emit inp k a p t k' a' p' : placed inp k a p -> sw_step inp k a p = LEmit t k' a' p' -> placed inp k' a' p' /\ goal_of k' = goal_after (Some (tok_type t)).
Proof.
  intros Hp H. destruct k; cbn [sw_step] in H.
  - unfold sw_entry, l_errorf in H. destruct (l_accept inp (beq b_cr) p) as [[[|] q1]| |] eqn:E1; try discriminate.
    destruct (l_accept inp (beq b_lf) q1) as [[[|] q2]| |] eqn:E2; try discriminate. apply emit_inv in H. destruct H as (->&->&->&->). split; [|reflexivity].
    destruct (accept_true _ _ _ _ E2 eq_refl) as (c&Hc&Hv&->). apply beq_true in Hv. subst c. split; [reflexivity|]. now replace (q1 + 1 - 1) with q1 by lia.
  - unfold sw_tag, l_errorf in H. crunch H. apply emit_inv in H. destruct H as (->&->&->&->). split; reflexivity.
  - unfold sw_start, l_emit_eof in H. crunch H.
  - unfold sw_symbol, l_errorf in H. destruct (l_accept inp (beq b_cr) p) as [[[|] q1]| |] eqn:E1; try discriminate.
    destruct (l_accept inp (beq b_lf) q1) as [[[|] q2]| |] eqn:E2; try discriminate. destruct (l_peek inp q2) as [[c q3]| |] eqn:E3; try discriminate.
    destruct (beq c b_nul) eqn:En; [discriminate|]. destruct (beq c b_dash).
    + crunch H. apply emit_inv in H. destruct H as (->&->&->&->). split; reflexivity.
    + apply emit_inv in H. destruct H as (->&->&->&->). split; [|reflexivity].
      destruct (accept_true _ _ _ _ E2 eq_refl) as (d&Hd&Hv&->). apply beq_true in Hv. subst d. unfold l_peek, l_backup in E3.
      destruct (next_cases inp (q1 + 1)) as [(_&E)|[(b&_&_&E)|(_&E)]]; rewrite E in E3; cbn [obind] in E3; try discriminate.
      * injection E3 as <- _. discriminate En.
      * injection E3 as _ <-. split; [reflexivity|]. now replace (q1 + 1 + 1 - 1 - 1) with q1 by lia.
  - unfold sw_digit in H. crunch H; apply emit_inv in H; destruct H as (->&->&->&->); split; reflexivity.
  - unfold sw_alpha, l_errorf in H. crunch H. apply emit_inv in H; destruct H as (->&->&->&->); split; reflexivity.
  - unfold sw_character, l_errorf in H. crunch H; apply emit_inv in H; destruct H as (->&->&->&->); split; reflexivity.
  - unfold sw_alnum, l_errorf in H. destruct (next_cases inp p) as [(Hl&E)|[(b&_&Ei&E)|(_&E)]]; rewrite E in H; [discriminate| |discriminate].
    destruct (beq b b_cr) eqn:Er; [|destruct (beq b b_nul); discriminate]. crunch H. apply emit_inv in H; destruct H as (->&->&->&->). split; [|reflexivity].
    apply beq_true in Er. subst b. unfold l_backup. replace (p + 1 - 1) with p by lia. split; [reflexivity|exact Ei].
Qed.
(** The text of an error is that of the rest of the input. *)
Lemma step_error inp k a p t : placed inp k a p -> sw_step inp k a p = LDone t -> tok_type t = T_ERROR ->
  t = mkTok T_ERROR [] a /\ sw_text inp k p = stop_text (goal_of k) (skipn (Z.to_nat a) inp).
Proof.
  intros Hp H Ht. destruct k; cbn [sw_step] in H; cbn [goal_of stop_text sw_text].
  - unfold sw_entry, l_errorf in H. crunch H; injection H as <-; split; reflexivity.
  - destruct Hp as (->&Hl). split; [unfold sw_tag, l_errorf in H; crunch H; injection H as <-; reflexivity|].
    unfold no_digit. destruct (l_accept inp (beq b_colon) p) as [[[|] q]| |] eqn:E.
    + destruct (accept_true _ _ _ _ E eq_refl) as (c&Hc&Hv&->). rewrite (skipn_index _ _ _ Hc). apply beq_true in Hv. subst c. change (beq b_colon b_colon) with true. cbv iota.
      destruct (l_accept inp is_digit (p + 1)) as [[[|] q]| |] eqn:E2.
      * destruct (accept_true _ _ _ _ E2 eq_refl) as (d&Hd&Hw&->). rewrite (skipn_index _ _ _ Hd), Hw. reflexivity.
      * destruct (accept_false _ _ _ _ E2) as [(Hle&_)|(d&Hd&Hw&_)]; [rewrite (skipn_end _ _ Hle); reflexivity|]. rewrite (skipn_index _ _ _ Hd), Hw. reflexivity.
      * exfalso. unfold sw_tag in H. rewrite E, E2 in H. discriminate.
      * exfalso. unfold sw_tag in H. rewrite E, E2 in H. discriminate.
    + destruct (accept_false _ _ _ _ E) as [(Hle&->)|(c&Hc&Hv&->)].
      * rewrite (skipn_end _ _ Hle). unfold l_accept. destruct (next_cases inp (p - 1)) as [(_&E2)|[(b&_&Hb&E2)|(Hn&_)]]; [rewrite E2; reflexivity| |congruence].
        rewrite E2. cbn [obind]. assert (b = b_lf) as -> by congruence. reflexivity.
      * rewrite (skipn_index _ _ _ Hc). assert (beq c b_colon = false) as -> by (rewrite <- colon_beq; exact Hv).
        destruct (l_accept inp is_digit p) as [[[|] q]| |] eqn:E2.
        -- destruct (accept_true _ _ _ _ E2 eq_refl) as (d&Hd&Hw&->). assert (d = c) as -> by congruence. rewrite Hw. reflexivity.
        -- destruct (accept_false _ _ _ _ E2) as [(Hle&_)|(d&Hd&Hw&_)].
           ++ exfalso. pose proof (skipn_end _ _ Hle) as K. rewrite (skipn_index _ _ _ Hc) in K. discriminate.
           ++ assert (d = c) as -> by congruence. rewrite Hw. reflexivity.
        -- exfalso. unfold sw_tag in H. rewrite E, E2 in H. discriminate.
        -- exfalso. unfold sw_tag in H. rewrite E, E2 in H. discriminate.
    + exfalso. unfold sw_tag in H. rewrite E in H. discriminate.
    + exfalso. unfold sw_tag in H. rewrite E in H. discriminate.
  - exfalso. unfold sw_start, l_emit_eof in H. crunch H. injection H as <-. discriminate.
  - destruct Hp as (->&Hc). split; [unfold sw_symbol, l_errorf in H; crunch H; injection H as <-; reflexivity|].
    rewrite (skipn_index _ _ _ Hc). unfold lone_cr. change (beq b_cr b_cr) with true. cbn [andb].
    destruct (l_accept inp (beq b_cr) p) as [[[|] q]| |] eqn:E.
    + destruct (accept_true _ _ _ _ E eq_refl) as (?&_&_&->). destruct (l_accept inp (beq b_lf) (p + 1)) as [[[|] q]| |] eqn:E2.
      * destruct (accept_true _ _ _ _ E2 eq_refl) as (d&Hd&Hw&->). rewrite (skipn_index _ _ _ Hd). rewrite lf_beq in Hw. rewrite Hw. reflexivity.
      * destruct (accept_false _ _ _ _ E2) as [(Hle&_)|(d&Hd&Hw&_)]; [rewrite (skipn_end _ _ Hle); reflexivity|]. rewrite (skipn_index _ _ _ Hd). rewrite lf_beq in Hw. rewrite Hw. reflexivity.
      * exfalso. unfold sw_symbol in H. rewrite E, E2 in H. discriminate.
      * exfalso. unfold sw_symbol in H. rewrite E, E2 in H. discriminate.
    + exfalso. destruct (accept_false _ _ _ _ E) as [(Hle&_)|(d&Hd&Hw&_)].
      * pose proof (skipn_end _ _ Hle) as K. rewrite (skipn_index _ _ _ Hc) in K. discriminate.
      * assert (d = b_cr) as -> by congruence. discriminate.
    + exfalso. unfold sw_symbol in H. rewrite E in H. discriminate.
    + exfalso. unfold sw_symbol in H. rewrite E in H. discriminate.
  - exfalso. unfold sw_digit in H. crunch H.
  - destruct Hp as (c&Hc&Hr). rewrite (skipn_index _ _ _ Hc). unfold lone_cr. rewrite Hr. unfold sw_alpha, l_errorf in H. crunch H. injection H as <-. split; reflexivity.
  - destruct Hp as (c&Hc&Hr). rewrite (skipn_index _ _ _ Hc). unfold lone_cr. rewrite Hr. unfold sw_character, l_errorf in H. crunch H. injection H as <-. split; reflexivity.
  - destruct Hp as (c&Hc&Hr). rewrite (skipn_index _ _ _ Hc). unfold lone_cr. rewrite Hr. unfold sw_alnum, l_errorf in H. crunch H. injection H as <-. split; reflexivity.
Qed.

(** ** The run of the lexer *)
Lemma failure_run inp fuel : forall k a p prev ts, placed inp k a p -> (goal_of k = goal_after prev) -> run_lexer (sw_step inp) fuel k a p = (ts, EndDone) ->
  match sw_failure inp fuel k a p with
  | Some (q, text) => exists body, ts = body ++ [mkTok T_ERROR [] q] /\ text = stop_text (goal_after (last_type prev body)) (skipn (Z.to_nat q) inp)
  | None => exists body t, ts = body ++ [t] /\ tok_type t <> T_ERROR
  end.
Proof.
  induction fuel as [|fuel IH]; intros k a p prev ts Hp Hg H; cbn [run_lexer sw_failure] in *; [discriminate|].
  destruct (sw_step inp k a p) as [t k' a' p'|k' a' p'|t| |] eqn:E; try discriminate.
  - destruct (step_emit _ _ _ _ _ _ _ _ Hp E) as (Hp'&Hg'). destruct (run_lexer (sw_step inp) fuel k' a' p') as [ts' e'] eqn:Er. injection H as <- ->.
    specialize (IH k' a' p' (Some (tok_type t)) ts' Hp' Hg' Er). destruct (sw_failure inp fuel k' a' p') as [[q text]|].
    + destruct IH as (body&->&->). exists (t :: body). split; reflexivity.
    + destruct IH as (body&x&->&Hx). exists (t :: body), x. split; [reflexivity|exact Hx].
  - destruct (step_goto _ _ _ _ _ _ _ Hp E) as (Hp'&Hg'&_). apply (IH k' a' p' prev ts Hp'); [congruence|exact H].
  - injection H as <-. destruct (ttype_eqb (tok_type t) T_ERROR) eqn:Et.
    + assert (Ht : tok_type t = T_ERROR) by (destruct (tok_type t); try discriminate Et; reflexivity).
      destruct (step_error _ _ _ _ _ Hp E Ht) as (->&->). exists []. cbn [app tok_pos last_type fold_left]. split; [reflexivity|]. now rewrite Hg.
    + exists [], t. split; [reflexivity|]. intros Ht. rewrite Ht in Et. discriminate.
Qed.
Lemma value_goal s ty n k : value s = GTok ty n k -> goal_after (Some ty) = k.
Proof.
  unfold value, free_text. intros H.
  repeat match type of H with
  | match ?x with _ => _ end = _ => destruct x
  | (if ?x then _ else _) = _ => destruct x
  end; try discriminate H; injection H as <- <- <-; reflexivity.
Qed.
Lemma next_goal k s ty n k' : next_token k s = GTok ty n k' -> goal_after (Some ty) = k'.
Proof.
  destruct k; cbn [next_token]; intros H.
  - destruct s as [|a [|b r]]; try discriminate. destruct (beq a b_cr && beq b b_lf); [|discriminate]. injection H as <- <- <-. reflexivity.
  - destruct (tag_length s); [|discriminate]. injection H as <- <- <-. reflexivity.
  - destruct s as [|c r]; [discriminate|]. destruct (beq c b_nul); [discriminate|]. destruct (beq c b_cr); [|now apply (value_goal (c :: r) ty n)].
    destruct r as [|d [|e r]]; try discriminate. destruct (negb (beq d b_lf) || beq e b_nul); [discriminate|]. destruct (beq e b_dash); injection H as <- <- <-; reflexivity.
Qed.
Lemma tokens_error f : forall k p s body q prev, goal_after prev = k -> tokens f k p s = body ++ [mkTok T_ERROR [] q] ->
  exists pre rest, s = pre ++ rest /\ reaches k s (goal_after (last_type prev body)) rest /\ next_token (goal_after (last_type prev body)) rest = GErr /\ q = p + len pre.
Proof.
  induction f as [|f IH]; intros k p s body q prev Hg H; cbn [tokens] in H; [destruct body; discriminate|].
  destruct (next_token k s) as [ty n k'| |n] eqn:E.
  - destruct (next_token_bound _ _ _ _ _ E) as (Hn&_&_&_&Hne). destruct body as [|t body]; cbn [app] in H; [injection H as -> _ _ _; now destruct Hne|].
    injection H as <- H. destruct (IH k' (p + Z.of_nat n) (skipn n s) body q (Some ty) (next_goal _ _ _ _ _ E) H) as (pre&rest&Es&R&N&->).
    exists (firstn n s ++ pre), rest. cbn [last_type fold_left tok_type]. fold (last_type (Some ty) body). split; [rewrite <- app_assoc, <- Es; symmetry; apply firstn_skipn|].
    split; [eapply reaches_next; eassumption|]. split; [exact N|]. rewrite len_app. unfold len at 2. rewrite firstn_length. lia.
  - destruct body as [|t [|u body]]; try discriminate. injection H as <-. exists [], s. cbn [last_type fold_left]. rewrite Hg. repeat split; [constructor|exact E|unfold len; cbn; lia].
  - destruct body as [|t [|u body]]; discriminate.
Qed.
Lemma messages_loop_error body t : forall cur acc, tok_type t = T_ERROR -> Forall (fun x => ~ closing x /\ tok_val x <> []) body -> messages_loop (body ++ [t]) cur acc = Err.
Proof.
  induction body as [|x body IH]; intros cur acc Ht H; cbn [app messages_loop]; [now rewrite Ht|]. inversion H as [|? ? (Hx&_) H']; subst.
  destruct (ttype_eqb (tok_type x) T_ERROR); [reflexivity|]. destruct (ttype_eqb (tok_type x) TS_MESSAGE_SEPARATOR); now apply IH.
Qed.
Lemma messages_loop_fine ts : forall cur acc, Forall (fun x => tok_type x <> T_ERROR) ts -> exists ms, messages_loop ts cur acc = Ok ms.
Proof.
  induction ts as [|x ts IH]; intros cur acc H; cbn [messages_loop]; [eexists; reflexivity|]. inversion H as [|? ? Hx H']; subst.
  destruct (ttype_eqb (tok_type x) T_ERROR) eqn:E; [exfalso; apply Hx; destruct (tok_type x); try discriminate E; reflexivity|].
  destruct (ttype_eqb (tok_type x) TS_MESSAGE_SEPARATOR); now apply IH.
Qed.

(** ** C81 *)
(** Extract fails exactly if there is a syntax error, and its position and text are those
    of the place where reading stops. *)
Theorem C81_error : forall inp,
  match syntax_error inp with
  | Some (q, text) => extract_messages inp = Err /\
      exists pre g rest, inp = pre ++ rest /\ q = len pre /\ reaches GEntry inp g rest /\ next_token g rest = GErr /\ text = stop_text g rest
  | None => exists ms, extract_messages inp = Ok ms
  end.
Proof.
  intros inp. pose proof (swift_lex_tokens inp) as L. unfold syntax_error. unfold swift_lex in L at 1.
  pose proof (failure_run inp (swift_fuel inp) SwEntry 0 0 None _ (conj eq_refl eq_refl) eq_refl L) as H.
  destruct (tokens_shape (S (List.length inp)) GEntry 0 inp ltac:(lia)) as (body'&last&T&C&Fb&_). unfold extract_messages, drained. rewrite swift_lex_tokens. cbn [fst snd].
  destruct (sw_failure inp (swift_fuel inp) SwEntry 0 0) as [[q text]|].
  - destruct H as (body&E&->). rewrite T in E. pose proof E as E'. apply app_inj_tail in E'. destruct E' as (->&->). split; [rewrite T; now apply messages_loop_error|].
    destruct (tokens_error _ GEntry 0 inp body q None eq_refl T) as (pre&rest&Ei&R&N&->).
    exists pre, (goal_after (last_type None body)), rest. split; [exact Ei|]. split; [lia|]. split; [exact R|]. split; [exact N|].
    rewrite Ei at 1. unfold len. replace (Z.to_nat (0 + Z.of_nat (List.length pre))) with (List.length pre) by lia. now rewrite skipn_app_exact.
  - destruct H as (body&t&E&Ht). rewrite T in E. apply app_inj_tail in E. destruct E as (->&->). rewrite T. apply messages_loop_fine. apply Forall_app. split; [|constructor; [exact Ht|constructor]].
    eapply Forall_impl; [|exact Fb]. cbn. intros x (Hx&_) Hx'. apply Hx. now right.
Qed.
Print Assumptions C81_error.

Lemma reaches_det k s g rest : reaches k s g rest -> next_token g rest = GErr -> forall g' rest', reaches k s g' rest' -> next_token g' rest' = GErr -> g = g' /\ rest = rest'.
Proof.
  induction 1 as [k s|k s ty n k' g rest E R IH]; intros N g' rest' R' N'.
  - inversion R' as [|? ? ? ? ? ? ? E' R2]; subst; [split; reflexivity|congruence].
  - inversion R' as [|? ? ty2 n2 k2 ? ? E' R2]; subst; [congruence|]. rewrite E in E'. injection E' as <- <- <-. now apply IH.
Qed.
(** IsUnexpectedEndOfInput: reading stopped in a value or a line break, not at a tag, and
    not at a carriage return without a line feed. *)
Theorem C81_unexpected_iff : forall inp e, syntax_error inp = Some e ->
  (is_unexpected_end e = true <-> exists rest, reaches GEntry inp GStart rest /\ next_token GStart rest = GErr /\ lone_cr rest = false).
Proof.
  intros inp [q text] He. pose proof (C81_error inp) as H. rewrite He in H. destruct H as (_&pre&g&rest&Ei&->&R&N&->). unfold is_unexpected_end. cbn [snd]. split.
  - intros H. destruct g; cbn [stop_text] in H; [discriminate|destruct (no_digit rest); discriminate|]. destruct (lone_cr rest) eqn:El; [discriminate|]. exists rest. auto.
  - intros (rest'&R'&N'&El). destruct (reaches_det _ _ _ _ R N _ _ R' N') as (->&->). cbn [stop_text]. rewrite El. reflexivity.
Qed.
Print Assumptions C81_unexpected_iff.

(** ** Datasets that were cut *)
Lemma reaches_trans k s g r g' r' : reaches k s g r -> reaches g r g' r' -> reaches k s g' r'.
Proof. induction 1; intros H'; [exact H'|]. eapply reaches_next; [eassumption|auto]. Qed.
Lemma reaches_token k a s ty k' : next_token k (a ++ s) = GTok ty (List.length a) k' -> reaches k (a ++ s) k' s.
Proof. intros H. eapply reaches_next; [exact H|]. rewrite skipn_app_exact. constructor. Qed.
Lemma field_reaches t rest : field_ok t -> ends_text rest -> reaches GTag (field_bytes t ++ crlf ++ rest) GStart (crlf ++ rest).
Proof.
  intros (Hid&Hv) Hr. rewrite field_bytes_head, <- app_assoc. eapply reaches_trans; [apply (reaches_token _ _ _ _ _ (tag_token t _ Hid))|].
  destruct (f_value t) as [|c v] eqn:E; [constructor|]. rewrite <- E in *. destruct (value_token (f_value t) rest ltac:(congruence) Hr Hv) as (ty&Ht&_).
  exact (reaches_token _ _ _ _ _ Ht).
Qed.
Lemma fields_reach ts cut : Forall field_ok ts -> (ts <> [] -> ends_text (b_colon :: cut)) -> reaches GTag (List.concat (map (fun t => field_bytes t ++ crlf) ts) ++ b_colon :: cut) GTag (b_colon :: cut).
Proof.
  intros Hf He. induction Hf as [|t ts Ht Hts IH]; [constructor|]. cbn [map List.concat]. rewrite <- !app_assoc. specialize (He ltac:(discriminate)).
  assert (X : exists r, List.concat (map (fun t => field_bytes t ++ crlf) ts) ++ b_colon :: cut = b_colon :: r).
  { destruct ts as [|u us]; [exists cut; reflexivity|]. cbn [map List.concat]. unfold field_bytes. rewrite <- !app_assoc. eexists. reflexivity. }
  assert (Y : ends_text (List.concat (map (fun t => field_bytes t ++ crlf) ts) ++ b_colon :: cut)).
  { destruct ts as [|u us]; [exact He|]. cbn [map List.concat]. rewrite <- !app_assoc. apply ends_text_field. inversion Hts as [|? ? (H&_) _]; exact H. }
  eapply reaches_trans; [exact (field_reaches t _ Ht Y)|].
  eapply reaches_trans; [|apply IH; intros _; exact He]. apply (reaches_token GStart crlf _ TS_TAG_SEPARATOR GTag). destruct X as (r&->). reflexivity.
Qed.
Lemma dataset_reaches ts cut : Forall field_ok ts -> (ts <> [] -> ends_text (b_colon :: cut)) -> reaches GEntry (cut_dataset ts (b_colon :: cut)) GTag (b_colon :: cut).
Proof.
  intros Hf He. unfold cut_dataset. eapply reaches_trans; [apply (reaches_token GEntry crlf _ TS_DATASET_START GTag); reflexivity|]. now apply fields_reach.
Qed.
Lemma cut_error inp g pre rest : inp = pre ++ rest -> reaches GEntry inp g rest -> next_token g rest = GErr ->
  syntax_error inp = Some (len pre, stop_text g rest) /\ extract_messages inp = Err.
Proof.
  intros Ei R N. pose proof (C81_error inp) as H. assert (NE : syntax_error inp <> None).
  { intros E. rewrite E in H. destruct H as (ms&Hm). pose proof (swift_lex_tokens inp) as L. unfold extract_messages, drained in Hm. rewrite L in Hm. cbn [fst snd] in Hm.
    assert (G : forall f k p s, (List.length s < f)%nat -> reaches k s g rest -> forall cur acc, messages_loop (tokens f k p s) cur acc = Err).
    { clear - N. intros f k p s Hf R. revert f p Hf. induction R as [k s|k s ty n k' g rest E R IH]; intros f p Hf cur acc; (destruct f as [|f]; [lia|]); cbn [tokens].
      - rewrite N. reflexivity.
      - rewrite E. cbn [messages_loop tok_type tok_val]. destruct (next_token_bound _ _ _ _ _ E) as (Hn&_). destruct (ttype_eqb ty T_ERROR); [reflexivity|].
        destruct (ttype_eqb ty TS_MESSAGE_SEPARATOR); apply (IH N); rewrite skipn_length; lia. }
    rewrite (G (S (List.length inp)) GEntry 0 inp ltac:(lia) R [] []) in Hm. discriminate. }
  destruct (syntax_error inp) as [[q text]|] eqn:E; [|now destruct NE]. destruct H as (Hx&pre'&g'&rest'&Ei'&->&R'&N'&->). destruct (reaches_det _ _ _ _ R N _ _ R' N') as (<-&<-).
  split; [|exact Hx]. rewrite Ei in Ei'. apply app_inv_tail in Ei'. now rewrite Ei'.
Qed.
Lemma free_no_cr s : ~ In b_cr s -> free_length s = None.
Proof.
  induction s as [|c s IH]; intros H; [reflexivity|]. cbn [free_length]. destruct (beq c b_nul); [reflexivity|].
  destruct (beq c b_cr) eqn:E; [apply beq_true in E; subst; exfalso; apply H; now left|]. cbn [andb]. rewrite IH; [reflexivity|]. intros K. apply H. now right.
Qed.
Lemma drop_in f s c r : drop_while f s = c :: r -> In c s.
Proof. intros H. rewrite <- (while_split f s), H. apply in_or_app. right. now left. Qed.
Lemma not_cr s c : ~ In b_cr s -> In c s -> beq c b_cr = false.
Proof. intros H1 H2. destruct (beq c b_cr) eqn:E; [|reflexivity]. apply beq_true in E. now subst. Qed.
Lemma value_no_cr s : ~ In b_cr s -> value s = GErr.
Proof.
  intros H. assert (FT : free_text s = GErr) by (unfold free_text; now rewrite free_no_cr). unfold value. rewrite FT.
  destruct (take_while is_digit s) as [|d ds] eqn:Et.
  - destruct s as [|c s]; [reflexivity|]. destruct (is_capital c); [|reflexivity]. destruct (drop_while is_capital (c :: s)) as [|x r] eqn:E1; [reflexivity|].
    rewrite (not_cr _ _ H (drop_in _ _ _ _ E1)). destruct (drop_while cap_or_digit (c :: s)) as [|e r'] eqn:E2; [reflexivity|].
    rewrite (not_cr _ _ H (drop_in _ _ _ _ E2)), andb_false_r. reflexivity.
  - destruct (drop_while is_digit s) as [|c r] eqn:E; [reflexivity|]. assert (Hr : forall x, In x (c :: r) -> In x s).
    { intros x Hx. rewrite <- (while_split is_digit s), E. apply in_or_app. now right. }
    destruct (beq c b_comma).
    + destruct (drop_while is_digit r) as [|x r'] eqn:E1; [reflexivity|]. rewrite (not_cr _ x H); [reflexivity|]. apply Hr. right. exact (drop_in _ _ _ _ E1).
    + assert (boundary (c :: r) = false) as ->.
      { cbn [boundary]. destruct r as [|b r]; [reflexivity|]. now rewrite (not_cr _ c H) by (apply Hr; now left). }
      destruct (drop_while cap_or_digit s) as [|x r'] eqn:E1; [reflexivity|]. rewrite (not_cr _ x H (drop_in _ _ _ _ E1)). reflexivity.
Qed.
(** A dataset cut in the first line of a value: an unexpected end, where the value begins. *)
Theorem C81_cut_value : forall ts t v, Forall field_ok ts -> id_ok t -> v <> [] -> ~ In b_cr v -> ~ In b_nul v ->
  let inp := cut_dataset ts (tag_of t ++ v) in
  extract_messages inp = Err /\ exists e, syntax_error inp = Some e /\ is_unexpected_end e = true /\ fst e = len (cut_dataset ts (tag_of t)).
Proof.
  intros ts t v Hf Hid Hv Hr Hn inp.
  assert (R : reaches GEntry inp GStart v).
  { eapply reaches_trans; [apply dataset_reaches; [exact Hf|]|exact (reaches_token _ _ _ _ _ (tag_token t v Hid))]. intros _.
    assert (Hid' : id_ok (mkField (f_number t) (f_letter t) v)) by exact Hid. pose proof (ends_text_field _ [] Hid') as K. rewrite app_nil_r in K.
    unfold field_bytes in K. cbn [f_number f_letter f_value app] in K. change (ends_text (b_colon :: (f_number t ++ (match f_letter t with Some l => [l] | None => [] end) ++ [b_colon]) ++ v)). rewrite <- !app_assoc. exact K. }
  assert (N : next_token GStart v = GErr).
  { destruct v as [|c v]; [congruence|]. rewrite next_start_value; [now apply value_no_cr| |apply (not_cr _ _ Hr); now left].
    destruct (beq c b_nul) eqn:E; [|reflexivity]. apply beq_true in E. subst. exfalso. apply Hn. now left. }
  destruct (cut_error inp GStart (cut_dataset ts (tag_of t)) v) as (E&X); [unfold inp, cut_dataset; now rewrite <- !app_assoc|exact R|exact N|].
  split; [exact X|]. eexists. split; [exact E|]. cbn [fst]. split; [|reflexivity]. unfold is_unexpected_end. cbn [snd stop_text].
  assert (lone_cr v = false) as ->; [|reflexivity]. destruct v as [|c v]; [reflexivity|]. cbn [lone_cr]. now rewrite (not_cr _ c Hr) by (now left).
Qed.
Print Assumptions C81_cut_value.
(** Cut inside a tag, the error is about the tag and not an unexpected end. *)
Theorem C81_cut_tag_refuted : forall ts ds, Forall field_ok ts -> forallb is_digit ds = true -> (2 <= List.length ds)%nat ->
  let inp := cut_dataset ts (b_colon :: ds) in
  extract_messages inp = Err /\ exists e, syntax_error inp = Some e /\ is_unexpected_end e = false /\ fst e = len (cut_dataset ts []).
Proof.
  intros ts ds Hf Hd Hl inp.
  assert (R : reaches GEntry inp GTag (b_colon :: ds)).
  { apply dataset_reaches; [exact Hf|]. intros _. unfold ends_text. destruct ds as [|a [|b ds]]; cbn in Hl; try lia. cbn [forallb] in Hd. apply andb_true_iff in Hd. destruct Hd as (Ha&_).
    cbn [app crlf boundary]. rewrite Ha. reflexivity. }
  assert (N : next_token GTag (b_colon :: ds) = GErr).
  { cbn [next_token]. unfold tag_length. change (beq b_colon b_colon) with true. cbv iota. destruct (take_while is_digit ds) eqn:E; [reflexivity|].
    destruct (drop_while is_digit ds) eqn:E2; [reflexivity|]. apply drop_head in E2 as E3. apply drop_in in E2. rewrite forallb_forall in Hd. rewrite (Hd _ E2) in E3. discriminate. }
  destruct (cut_error inp GTag (cut_dataset ts []) (b_colon :: ds)) as (E&X); [unfold inp, cut_dataset; now rewrite app_nil_r, <- app_assoc|exact R|exact N|].
  split; [exact X|]. eexists. split; [exact E|]. split; [|reflexivity]. unfold is_unexpected_end. cbn [snd stop_text]. destruct (no_digit (b_colon :: ds)); reflexivity.
Qed.
Print Assumptions C81_cut_tag_refuted.
(** Cut right behind a tag: no error at all, and the message is lost. *)
Lemma lost_loop ts t : Forall field_ok ts -> id_ok t -> forall f p cur acc,
  (List.length (List.concat (map (fun t => field_bytes t ++ crlf) ts) ++ tag_of t) < f)%nat ->
  messages_loop (tokens f GTag p (List.concat (map (fun t => field_bytes t ++ crlf) ts) ++ tag_of t)) cur acc = Ok acc.
Proof.
  intros Hf Hid. induction Hf as [|u us (Hu&Hv) Hus IH]; intros f p cur acc Hl.
  - cbn [map List.concat app] in *. pose proof (tag_token t [] Hid) as T. destruct (tokens_step f GTag p (tag_of t) [] TS_TAG GStart T) as (f'&Hf'&E); [now rewrite app_nil_r|].
    rewrite app_nil_r in E. rewrite E. cbn [messages_loop tok_type ttype_eqb]. rewrite tokens_nil by (cbn in Hf'; lia). reflexivity.
  - cbn [map List.concat] in *. rewrite <- !app_assoc in *. set (rest := List.concat (map (fun t => field_bytes t ++ crlf) us) ++ tag_of t) in *.
    assert (X : exists r, rest = field_bytes r /\ id_ok r \/ exists s, rest = field_bytes r ++ s /\ id_ok r).
    { subst rest. destruct us as [|w ws].
      - exists (mkField (f_number t) (f_letter t) []). left. split; [|exact Hid]. unfold field_bytes. cbn [map List.concat app f_number f_letter f_value]. reflexivity.
      - exists w. right. cbn [map List.concat]. rewrite <- !app_assoc. inversion Hus as [|? ? (Hw&_) _]. eexists. split; [reflexivity|exact Hw]. }
    destruct X as (r&X). assert (Y : exists s, rest = field_bytes r ++ s /\ id_ok r) by (destruct X as [(->&H)|X]; [exists []; rewrite app_nil_r; auto|exact X]). destruct Y as (s&Er&Hr).
    assert (He : ends_text rest) by (rewrite Er; now apply ends_text_field).
    destruct (field_run f p u rest Hu Hv He Hl) as (ty&f1&Hty&Hf1&->). rewrite messages_loop_field by exact Hty. rewrite Er in *.
    destruct (sep_run f1 (p + len (field_bytes u)) r s Hf1) as (f2&Hf2&->). cbn [messages_loop tok_type ttype_eqb]. now apply IH.
Qed.
Theorem C81_cut_after_tag_refuted : forall ts t, Forall field_ok ts -> id_ok t ->
  let inp := cut_dataset ts (tag_of t) in syntax_error inp = None /\ extract_messages inp = Ok [].
Proof.
  intros ts t Hf Hid inp. assert (X : extract_messages inp = Ok []).
  { unfold extract_messages, drained. rewrite swift_lex_tokens. cbn [fst snd]. unfold inp, cut_dataset.
    set (body := List.concat (map (fun t => field_bytes t ++ crlf) ts) ++ tag_of t). destruct (entry_run (S (List.length (crlf ++ body))) 0 body ltac:(lia)) as (f'&Hf'&->).
    cbn [messages_loop tok_type ttype_eqb]. now apply lost_loop. }
  split; [|exact X]. pose proof (C81_error inp) as H. destruct (syntax_error inp) as [[q text]|]; [|reflexivity]. destruct H as (H&_). congruence.
Qed.
Print Assumptions C81_cut_after_tag_refuted.

(** ** A dataset with one complete field, cut at four places *)
Definition ex_field : field := mkField (B "20") None (B "STARTUMS").
Lemma ex_field_ok : Forall field_ok [ex_field].
Proof.
  assert (H : ~ In b_cr (f_value ex_field)) by (intros H; cbn in H; repeat (destruct H as [H|H]; [discriminate H|]); exact H).
  constructor; [|constructor]. split; [repeat split; discriminate|]. split; [|split].
  - intros K. cbn in K. repeat (destruct K as [K|K]; [discriminate K|]). exact K.
  - intros u w E. exfalso. apply H. rewrite E. apply in_or_app. right. now left.
  - intros K. now destruct H.
Qed.
Example C81_cut_meets :
  let invalue := cut_dataset [ex_field] (B ":25:100/12") in
  let intag := cut_dataset [ex_field] (B ":25") in
  let behind := cut_dataset [ex_field] (B ":25:") in
  let cr := cut_dataset [ex_field] (B ":25:" ++ [b_cr] ++ B "x") in
  syntax_error invalue = Some (20, B "unexpected end of input") /\ syntax_error intag = Some (16, B "malformed swift tag identifier: must be enclodes by ':'") /\ syntax_error behind = None /\ syntax_error cr = Some (20, B "Malformed syntax symbol").
Proof. cbv zeta. repeat split; vm_compute; reflexivity. Qed.
Example C81_cut_value_meets :
  let inp := cut_dataset [ex_field] (tag_of (mkField (B "25") None []) ++ B "100/12") in
  extract_messages inp = Err /\ exists e, syntax_error inp = Some e /\ is_unexpected_end e = true /\ fst e = 20.
Proof.
  apply (C81_cut_value [ex_field] (mkField (B "25") None []) (B "100/12") ex_field_ok); [repeat split; discriminate|discriminate| |];
    intros H; cbn in H; repeat (destruct H as [H|H]; [discriminate H|]); exact H.
Qed.
Example C81_cut_tag_meets : let inp := cut_dataset [ex_field] (B ":25") in
  extract_messages inp = Err /\ exists e, syntax_error inp = Some e /\ is_unexpected_end e = false /\ fst e = 16.
Proof. apply (C81_cut_tag_refuted [ex_field] (B "25") ex_field_ok); [reflexivity|cbn; lia]. Qed.
Example C81_cut_after_tag_meets : extract_messages (cut_dataset [ex_field] (tag_of (mkField (B "25") None []))) = Ok [].
Proof. apply (C81_cut_after_tag_refuted [ex_field] (mkField (B "25") None []) ex_field_ok). repeat split; discriminate. Qed.
(** The text of the error has the position, the reason and the whole message, in that order. *)
Theorem C81_text : forall quote inp pos reason,
  syntax_error_text quote inp (pos, reason) = B "syntax error at position " ++ itoa pos ++ B ": " ++ quote reason ++ [b_lf] ++ B "(" ++ quote inp ++ B ")".
Proof. reflexivity. Qed.
Print Assumptions C81_text.
(** The text of the error, with the input quoted by fmt's %q, here by apostrophes. *)
Example C81_text_meets : exists e, syntax_error (B "x") = Some e /\ syntax_error_text (fun s => B "'" ++ s ++ B "'") (B "x") e =
  B "syntax error at position 0: 'Malformed swift dataset'" ++ [b_lf] ++ B "('x')".
Proof. eexists. split; [vm_compute; reflexivity|]. vm_compute. reflexivity. Qed.
