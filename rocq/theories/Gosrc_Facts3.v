(** * Facts about Go source: tokens *)
From Coq Require Import Lia.
From Verif Require Import Base BaseFacts Codec_Model Codec_Proofs Mt940_Model Bank_Model Csv_Model Csv_Facts Gosrc_Model Gosrc_Spec Gosrc_Facts Gosrc_Facts2.
Open Scope Z_scope.

Lemma literal_shorter s v r : literal s = Some (v, r) -> (List.length r < List.length s)%nat.
Proof. intro H. apply literal_read in H as (c&->&_). rewrite app_length. cbn. lia. Qed.
Lemma word_split s : forall w r, word s = (w, r) -> s = w ++ r.
Proof.
  induction s as [|c s IH]; intros w r H; cbn [word] in H; [injection H as <- <-; reflexivity|].
  destruct (letter c || is_digit c); [|injection H as <- <-; reflexivity].
  destruct (word s) as [w' r'] eqn:E. injection H as <- <-. cbn. f_equal. now apply IH.
Qed.
Lemma line_rest_shorter s : (List.length (line_rest s) <= List.length s)%nat.
Proof. induction s as [|c s IH]; [cbn; lia|]. cbn [line_rest]. destruct (beq c x0a); cbn [List.length]; lia. Qed.
Lemma tokens_fuel s : forall n m e, (List.length s < n)%nat -> (List.length s < m)%nat -> tokens n e s = tokens m e s.
Proof.
  remember (List.length s) as k eqn:Ek. revert s Ek. induction k as [k IH] using lt_wf_ind. intros s -> n m e Hn Hm.
  destruct n as [|n]; [lia|]. destruct m as [|m]; [lia|]. cbn [tokens].
  destruct s as [|c s]; [reflexivity|].
  assert (G : forall r, (List.length r <= List.length s)%nat -> forall e, tokens n e r = tokens m e r).
  { intros r Hr e'. eapply IH; [| reflexivity | |]; cbn [List.length] in *; lia. }
  rewrite !(G s) by lia. destruct (beq c x0a); [reflexivity|]. destruct (beq c x20 || beq c x09 || beq c x0d); [reflexivity|].
  destruct (beq c x2f).
  { destruct s as [|d s]; [reflexivity|]. destruct (beq d x2f); [|reflexivity]. apply G. pose proof (line_rest_shorter s). cbn [List.length]. lia. }
  destruct (beq c x22).
  { destruct (literal s) as [[v r]|] eqn:E; [|reflexivity]. apply literal_shorter in E. rewrite G by lia. reflexivity. }
  destruct (letter c) eqn:L; [|reflexivity].
  destruct (word (c :: s)) as [w r] eqn:E. rewrite G; [reflexivity|].
  pose proof (word_split _ _ _ E) as W. cbn [word] in E. rewrite L in E. cbn [orb] in E. destruct (word s) as [w' r'] eqn:E'. injection E as <- <-.
  apply word_split in E'. subst s. rewrite app_length. lia.
Qed.
Definition toks (e : bool) (s : bytes) : option (list go_token) := tokens (S (List.length s)) e s.
Lemma go_tokens_toks s : go_tokens s = if source_ok s then toks false s else None.
Proof. reflexivity. Qed.
Lemma toks_lf e r : toks e (x0a :: r) = if e then more semicolon (toks false r) else toks false r.
Proof. reflexivity. Qed.
Lemma toks_blank e c r : c = x20 \/ c = x09 -> toks e (c :: r) = toks e r.
Proof. intros [-> | ->]; reflexivity. Qed.
Lemma toks_comment e s r : ~ In x0a s -> toks e (x2f :: x2f :: s ++ x0a :: r) = toks e (x0a :: r).
Proof.
  intro N. unfold toks at 1. assert (K : (List.length (x0a :: r) < List.length (x2f :: x2f :: s ++ x0a :: r))%nat) by (cbn [List.length]; rewrite app_length; cbn [List.length]; lia).
  revert K. generalize (List.length (x2f :: x2f :: s ++ x0a :: r)). intros n K. cbn [tokens]. change (beq x2f x0a) with false. change (beq x2f x20 || beq x2f x09 || beq x2f x0d) with false.
  change (beq x2f x2f) with true. cbv iota.
  assert (L : line_rest (s ++ x0a :: r) = x0a :: r).
  { induction s as [|c s IH]; [reflexivity|]. cbn [app line_rest]. rewrite beq_no by (intros ->; apply N; now left). apply IH. intro I. apply N. now right. }
  rewrite L. apply tokens_fuel; lia.
Qed.
Lemma toks_literal e r : toks e (x22 :: r) = match literal r with Some (v, rest) => more (Text v) (toks true rest) | None => None end.
Proof.
  unfold toks at 1. assert (K : (List.length r < List.length (x22 :: r))%nat) by (cbn; lia). revert K. generalize (List.length (x22 :: r)). intros n K. cbn [tokens]. change (beq x22 x0a) with false. change (beq x22 x20 || beq x22 x09 || beq x22 x0d) with false.
  change (beq x22 x2f) with false. change (beq x22 x22) with true. cbv iota. destruct (literal r) as [[v rest]|] eqn:E; [|reflexivity].
  apply literal_shorter in E. f_equal. apply tokens_fuel; lia.
Qed.
Definition all_letters (w : bytes) : bool := forallb letter w.
Lemma letter_not c : letter c = true -> beq c x0a = false /\ beq c x20 = false /\ beq c x09 = false /\ beq c x0d = false /\ beq c x2f = false /\ beq c x22 = false.
Proof. intro H. repeat split; apply beq_no; intros ->; discriminate H. Qed.
Lemma toks_word e w c r : w <> [] -> all_letters w = true -> letter c || is_digit c = false ->
  toks e (w ++ c :: r) = more (Word w) (toks (negb (keyword w)) (c :: r)).
Proof.
  intros N A C. assert (W : word (w ++ c :: r) = (w, c :: r)).
  { clear N. induction w as [|a w IH]; cbn [app word]; [rewrite C; reflexivity|]. cbn in A. apply andb_true_iff in A as (A1&A2). rewrite A1. cbn [orb]. rewrite IH by exact A2. reflexivity. }
  destruct w as [|a w]; [congruence|]. pose proof A as A'. cbn in A'. apply andb_true_iff in A' as (A1&_).
  unfold toks at 1. assert (K : (List.length (c :: r) < List.length ((a :: w) ++ c :: r))%nat) by (rewrite app_length; cbn [List.length]; lia).
  revert K. generalize (List.length ((a :: w) ++ c :: r)). intros n K. cbn [app tokens]. destruct (letter_not a A1) as (E1&E2&E3&E4&E5&E6). rewrite E1, E2, E3, E4, E5, E6, A1. cbn [orb].
  change (a :: w ++ c :: r) with ((a :: w) ++ c :: r). rewrite W. f_equal. apply tokens_fuel; lia.
Qed.
Lemma toks_opening e c r : opening c = true -> toks e (c :: r) = more (Sign c) (toks false r).
Proof. intro H. destruct c; try discriminate H; reflexivity. Qed.
Lemma toks_closing e c r : closing c = true -> toks e (c :: r) = more (Sign c) (toks true r).
Proof. intro H. destruct c; try discriminate H; reflexivity. Qed.
Lemma more_some t o ts : more t o = Some (t :: ts) <-> o = Some ts.
Proof. destruct o; cbn; split; intro H; try discriminate H; injection H as ->; reflexivity. Qed.

(** ** Lines *)
Lemma line_tokens name lit t : name <> [] -> all_letters name = true ->
  toks false (source_line name lit ++ t) = more (Word name) (more (Sign x3a) (toks false (lit ++ x2c :: x0a :: t))).
Proof.
  intros N A. unfold source_line. change b_tab with x09. rewrite <- !app_assoc. cbn [app].
  rewrite !toks_blank by tauto. change (B ": ") with [x3a; x20]. cbn [app]. rewrite toks_word by auto.
  rewrite toks_opening by reflexivity. rewrite toks_blank by tauto. reflexivity.
Qed.
Lemma literal_tokens t : toks true (x2c :: x0a :: t) = more (Sign x2c) (toks false t).
Proof. rewrite toks_opening by reflexivity. reflexivity. Qed.
Lemma raw_line name v t ts : name <> [] -> all_letters name = true ->
  toks false (source_line name (between_quotes v) ++ t) = Some (Word name :: Sign x3a :: Text v :: Sign x2c :: ts) <->
  (~ In x22 v /\ ~ In x5c v /\ ~ In x0a v) /\ toks false t = Some ts.
Proof.
  intros N A. rewrite line_tokens by assumption. rewrite !more_some. unfold between_quotes. rewrite <- !app_assoc. change b_dquote with x22. cbn [app].
  rewrite toks_literal. split.
  - intro H. destruct (literal (v ++ x22 :: x2c :: x0a :: t)) as [[v' r]|] eqn:E; [|discriminate H].
    assert (v' = v) as ->. { destruct (toks true r); [|discriminate H]. cbn in H. now injection H. }
    apply literal_itself in E as (Q&S&L&->). rewrite literal_tokens, !more_some in H. auto.
  - intros ((Q&S&L)&H). rewrite literal_plain by assumption. rewrite literal_tokens, H. reflexivity.
Qed.
Lemma quoted_line printable name v t ts : print_table printable -> name <> [] -> all_letters name = true ->
  toks false (source_line name (go_quote printable v) ++ t) = Some (Word name :: Sign x3a :: Text v :: Sign x2c :: ts) <-> toks false t = Some ts.
Proof.
  intros P N A. rewrite line_tokens by assumption. rewrite !more_some. unfold go_quote. rewrite <- !app_assoc. change b_dquote with x22. cbn [app].
  rewrite toks_literal. change (quoted_body printable (List.length v) v) with (body printable v). rewrite (literal_body printable P).
  rewrite literal_tokens, !more_some. tauto.
Qed.

Section Table.
  Variable printable : Z -> bool.
  Hypothesis printing : print_table printable.

  Definition unmarked (v : bytes) : Prop := ~ In x22 v /\ ~ In x5c v /\ ~ In x0a v.
  Definition unmarked_entry (e : bank_info) : Prop :=
    unmarked (bi_id e) /\ unmarked (bi_bic e) /\ unmarked (bi_number e) /\ unmarked (bi_url e) /\ unmarked (bi_name e) /\
    unmarked (bi_city e) /\ unmarked (bi_changed e).
  Lemma entry_toks e t ts :
    toks false (entry_source printable e ++ t) = Some (entry_tokens e ++ ts) <-> unmarked_entry e /\ toks false t = Some ts.
  Proof.
    unfold entry_source, entry_tokens. rewrite <- !app_assoc. cbn [app]. rewrite toks_opening by reflexivity. rewrite more_some. change b_lf with x0a. rewrite toks_lf. cbv iota.
    rewrite !raw_line by (first [discriminate|reflexivity]).
    rewrite quoted_line by (first [discriminate|reflexivity|assumption]).
    rewrite !raw_line by (first [discriminate|reflexivity]).
    change b_tab with x09. change b_comma with x2c. rewrite toks_blank by tauto. rewrite toks_closing, more_some by reflexivity.
    rewrite toks_opening, more_some by reflexivity. rewrite toks_lf. cbv iota. rewrite toks_blank by tauto.
    unfold unmarked_entry, unmarked. tauto.
  Qed.
  Lemma entries_toks table : forall t ts,
    toks false (flat_map (entry_source printable) table ++ t) = Some (flat_map entry_tokens table ++ ts) <->
    Forall unmarked_entry table /\ toks false t = Some ts.
  Proof.
    induction table as [|e table IH]; intros t ts; cbn [flat_map].
    - cbn [app]. split; [intro H; split; [constructor|exact H]|tauto].
    - rewrite <- !app_assoc, entry_toks, IH. rewrite Forall_cons_iff. tauto.
  Qed.
  Definition head_tokens : list go_token :=
    [Word (B "package"); Word (B "bankinfo"); semicolon;
     Word (B "var"); Word (B "data"); Sign x3d; Sign x5b; Sign x5d; Word (B "BankInfo"); Sign x7b].
  Lemma head_toks table ts : toks false (table_source printable table) = Some (head_tokens ++ ts) <->
    toks false (flat_map (entry_source printable) table ++ [x0a; x7d]) = Some ts.
  Proof.
    unfold table_source. change (B "// Code generated by cmd/bankdata_parser DO NOT EDIT.") with (x2f :: x2f :: B " Code generated by cmd/bankdata_parser DO NOT EDIT.").
    cbn [app]. change b_lf with x0a. rewrite toks_comment by (clear; intro H; vm_compute in H; repeat (destruct H as [H|H]; [discriminate H|]); exact H).
    rewrite !toks_lf. cbv iota. change (B "package bankinfo") with (B "package" ++ x20 :: B "bankinfo"). rewrite <- app_assoc. cbn [app].
    unfold head_tokens. cbn [app].
    rewrite toks_word, more_some by (first [discriminate|reflexivity]). rewrite toks_blank by tauto.
    rewrite toks_word, more_some by (first [discriminate|reflexivity]). change (negb (keyword (B "bankinfo"))) with true. rewrite toks_lf. cbv iota. rewrite more_some, toks_lf. cbv iota.
    change (B "var data = []BankInfo{") with (B "var" ++ x20 :: B "data" ++ x20 :: x3d :: x20 :: x5b :: x5d :: B "BankInfo" ++ [x7b]).
    rewrite <- !app_assoc. cbn [app]. rewrite <- !app_assoc. cbn [app].
    rewrite toks_word, more_some by (first [discriminate|reflexivity]). rewrite toks_blank by tauto.
    rewrite toks_word, more_some by (first [discriminate|reflexivity]). rewrite toks_blank by tauto.
    rewrite toks_opening, more_some by reflexivity. rewrite toks_blank by tauto.
    rewrite toks_opening, more_some by reflexivity. rewrite toks_closing, more_some by reflexivity.
    rewrite <- !app_assoc. cbn [app].
    rewrite toks_word, more_some by (first [discriminate|reflexivity]). rewrite toks_opening, more_some by reflexivity. rewrite toks_lf. cbv iota.
    rewrite toks_blank by tauto. reflexivity.
  Qed.
  Lemma table_toks table : toks false (table_source printable table) = Some (table_tokens table) <-> Forall unmarked_entry table.
  Proof.
    unfold table_tokens. fold head_tokens. rewrite head_toks, entries_toks. rewrite toks_lf. cbv iota.
    split; [tauto|]. intro H. split; [exact H|]. reflexivity.
  Qed.

  (** ** The characters of the file *)
  Lemma ok_line name v t : plain_ascii name = true -> source_ok (source_line name (between_quotes v) ++ t) = source_ok v && source_ok t.
  Proof.
    intro A. unfold source_line, between_quotes. rewrite <- !app_assoc. rewrite source_ok_plain by reflexivity. rewrite source_ok_plain by exact A.
    rewrite source_ok_plain by reflexivity. rewrite source_ok_plain by reflexivity. change [b_dquote] with [x22]. cbn [app]. rewrite source_ok_app by (cbv; reflexivity).
    change (x22 :: b_comma :: b_lf :: t) with ([x22; b_comma; b_lf] ++ t). now rewrite source_ok_plain.
  Qed.
  Lemma ok_quoted name v t : plain_ascii name = true -> source_ok (source_line name (go_quote printable v) ++ t) = source_ok t.
  Proof.
    intro A. unfold source_line, go_quote. rewrite <- !app_assoc. rewrite source_ok_plain by reflexivity. rewrite source_ok_plain by exact A.
    rewrite source_ok_plain by reflexivity. rewrite source_ok_plain by reflexivity. change (quoted_body printable (List.length v) v) with (body printable v).
    rewrite (source_ok_body printable printing). rewrite !source_ok_plain by reflexivity. reflexivity.
  Qed.
  Definition ok_entry (e : bank_info) : Prop :=
    source_ok (bi_id e) = true /\ source_ok (bi_bic e) = true /\ source_ok (bi_number e) = true /\ source_ok (bi_url e) = true /\
    source_ok (bi_name e) = true /\ source_ok (bi_city e) = true /\ source_ok (bi_changed e) = true.
  Lemma entry_ok e t : source_ok (entry_source printable e ++ t) = true <-> ok_entry e /\ source_ok t = true.
  Proof.
    unfold entry_source. rewrite <- !app_assoc. rewrite source_ok_plain by reflexivity. rewrite !ok_line by reflexivity. rewrite ok_quoted by reflexivity.
    rewrite !ok_line by reflexivity. rewrite source_ok_plain by reflexivity. rewrite !andb_true_iff. unfold ok_entry. tauto.
  Qed.
  Lemma table_ok table : source_ok (table_source printable table) = true <-> Forall ok_entry table.
  Proof.
    unfold table_source. rewrite !source_ok_plain by reflexivity.
    induction table as [|e table IH]; cbn [flat_map]; [split; [constructor|reflexivity]|].
    rewrite <- app_assoc, entry_ok, IH, Forall_cons_iff. tauto.
  Qed.
  Lemma table_go_tokens table : go_tokens (table_source printable table) = Some (table_tokens table) <-> Forall plain_entry table.
  Proof.
    assert (E : Forall plain_entry table <-> Forall ok_entry table /\ Forall unmarked_entry table).
    { split.
      - intro H. split; (eapply Forall_impl; [|exact H]); intros e; unfold plain_entry, plain_text, ok_entry, unmarked_entry, unmarked; tauto.
      - intros (H&K). rewrite Forall_forall in *. intros e I. specialize (H e I). specialize (K e I). revert H K. unfold plain_entry, plain_text, ok_entry, unmarked_entry, unmarked. tauto. }
    rewrite E, <- table_toks, <- table_ok. rewrite go_tokens_toks.
    destruct (source_ok (table_source printable table)).
    - split; [intro H; split; [reflexivity|exact H]|tauto].
    - split; [discriminate|intros (H&_); discriminate H].
  Qed.
End Table.

(** Tables that say the same are the same. *)
Lemma entry_tokens_inj e e' t t' : entry_tokens e ++ t = entry_tokens e' ++ t' -> e = e' /\ t = t'.
Proof.
  unfold entry_tokens. cbn [app]. intro H. injection H as H1 H2 H3 H4 H5 H6 H7 H8 H9. split; [|exact H9].
  destruct e, e'. cbn in *. subst. reflexivity.
Qed.
Lemma table_tokens_inj t t' : table_tokens t = table_tokens t' -> t = t'.
Proof.
  unfold table_tokens. intro H. apply app_inv_head in H. revert t' H.
  induction t as [|e t IH]; intros [|e' t'] H; cbn [flat_map] in H.
  - reflexivity.
  - exfalso. unfold entry_tokens in H. cbn in H. discriminate H.
  - exfalso. unfold entry_tokens in H. cbn in H. discriminate H.
  - rewrite <- !app_assoc in H. apply entry_tokens_inj in H as (->&H). f_equal. now apply IH.
Qed.
