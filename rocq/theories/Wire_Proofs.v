From Verif Require Import Base BaseFacts Lexer_Model Lexer_Spec Lexer_Proofs Lexer_Facts
  Codec_Model Codec_Spec Codec_Proofs Wire_Model Wire_Spec.
From Coq Require Import Lia ZifyBool ZifyNat ZifyN.
Open Scope Z_scope.
Ltac Zify.zify_post_hook ::= Z.div_mod_to_equations.

(** ** Chunks: what the lexer delivers as one token when a delimiter follows *)
Definition good (c : bytes) : Prop :=
  c <> [] /\
  forall p d rest, is_delimiter d = true -> 0 <= p -> p + len c < 2 ^ 62 ->
    exists ty, is_data_type ty = true /\ scan_tok p (c ++ d :: rest) = SEmit ty (List.length c).
(** [t] followed by a delimiter at the end of the input is an error. *)
Definition dead (t : bytes) : Prop :=
  t <> [] /\
  forall p d, is_delimiter d = true -> 0 <= p -> p + len t < 2 ^ 62 -> scan_tok p (t ++ [d]) = SErr.

Lemma delim_not_digit d : is_delimiter d = true -> is_digit d = false.
Proof.
  intros H. destruct (is_digit d) eqn:E; [|reflexivity]. destruct (digit_facts d E) as [E2 _]. congruence.
Qed.
Lemma delim_cases d : is_delimiter d = true -> d = b_plus \/ d = b_colon \/ d = b_quote.
Proof.
  unfold is_delimiter. rewrite !orb_true_iff, !beq_true. tauto.
Qed.
Lemma delim_not_qmark d : is_delimiter d = true -> beq d b_qmark = false.
Proof. intros H. destruct (delim_cases d H) as [->|[->| ->]]; reflexivity. Qed.
Lemma not_syntax_facts c : is_syntax c = false ->
  beq c b_plus = false /\ beq c b_quote = false /\ beq c b_colon = false /\ beq c b_at = false /\
  beq c b_qmark = false /\ is_delimiter c = false.
Proof.
  unfold is_syntax, is_delimiter.
  destruct (beq c b_plus), (beq c b_quote), (beq c b_colon), (beq c b_at), (beq c b_qmark); simpl; try discriminate; auto 10.
Qed.

(** Free text. *)
Lemma scan_text_delim text d rest : is_delimiter d = true -> scan_text text (d :: rest) = Some (text, 0%nat).
Proof. intros H. cbn [scan_text]. now rewrite (delim_not_qmark d H), H. Qed.
Lemma scan_text_escape l : forall text s, ~ In b_nul l ->
  exists text', scan_text text (escape l ++ s) =
  match scan_text text' s with Some (t, n) => Some (t, (List.length (escape l) + n)%nat) | None => None end.
Proof.
  induction l as [|c l IH]; intros text s Hn.
  - exists text. simpl. destruct (scan_text text s) as [[]|]; reflexivity.
  - assert (Hn' : ~ In b_nul l) by (intros H; apply Hn; now right).
    cbn [escape flat_map]. fold (escape l). destruct (is_syntax c) eqn:Ec.
    + destruct (IH text s Hn') as [t' Ht]. exists t'. cbn [app scan_text]. rewrite beq_refl.
      rewrite is_syntax_symbol_eq, Ec, Ht. destruct (scan_text t' s) as [[]|]; reflexivity.
    + destruct (not_syntax_facts c Ec) as (_&_&_&_&Hq&Hd).
      cbn [app scan_text]. rewrite Hq, Hd.
      destruct (beq_spec c b_nul) as [->|_]; [exfalso; apply Hn; now left|].
      destruct (IH (text || beq c b_lf || beq c b_cr) s Hn') as [t' Ht]. exists t'. rewrite Ht.
      destruct (scan_text t' s) as [[]|]; reflexivity.
Qed.

Lemma take_drop_escape l s d : (d :: s) = d :: s -> is_digit d = false ->
  take_digits (escape l ++ d :: s) = take_digits l /\
  drop_digits (escape l ++ d :: s) = escape (drop_digits l) ++ d :: s.
Proof.
  intros _ Hd. induction l as [|c l IH].
  - cbn. rewrite Hd. auto.
  - cbn [escape flat_map]. fold (escape l). destruct (is_syntax c) eqn:Ec.
    + assert (Hc : is_digit c = false).
      { destruct (is_digit c) eqn:E; [|reflexivity]. destruct (digit_facts c E) as (_&_&_&_&_&_&_&Hs).
        rewrite is_syntax_symbol_eq in Hs. congruence. }
      cbn [app take_digits drop_digits]. rewrite Hc. change (is_digit b_qmark) with false. cbv iota.
      cbn [escape flat_map]. rewrite Ec. auto.
    + cbn [app take_digits drop_digits]. destruct (is_digit c) eqn:Ed.
      * destruct IH as [-> ->]. auto.
      * cbn [escape flat_map]. rewrite Ec. auto.
Qed.
Lemma escape_drop_length l : List.length (escape l) = (List.length (take_digits l) + List.length (escape (drop_digits l)))%nat.
Proof.
  rewrite <- (take_drop l) at 1. rewrite escape_app, app_length. f_equal.
  assert (G : forall ds, forallb is_digit ds = true -> escape ds = ds).
  { induction ds as [|x ds IH]; [reflexivity|]. cbn [forallb escape flat_map]. intros H.
    apply andb_true_iff in H. destruct H as [Hx Hs]. destruct (digit_facts x Hx) as (_&_&_&_&_&_&_&Hy).
    rewrite is_syntax_symbol_eq in Hy. rewrite Hy. simpl. f_equal. now apply IH. }
  rewrite G; [reflexivity|]. apply take_digits_all.
Qed.
Lemma starts_delim_escape c l s : starts_delim (escape (c :: l) ++ s) = false.
Proof.
  cbn [escape flat_map]. destruct (is_syntax c) eqn:E; [reflexivity|]. cbn [app starts_delim].
  now destruct (not_syntax_facts c E) as (_&_&_&_&_&->).
Qed.

Lemma scan_free_escape l d rest : ~ In b_nul l -> is_delimiter d = true ->
  exists ty, is_data_type ty = true /\ scan_free (escape l ++ d :: rest) = SEmit ty (List.length (escape l)).
Proof.
  intros Hn Hd. unfold scan_free. destruct (scan_text_escape l false (d :: rest) Hn) as [t ->].
  rewrite (scan_text_delim _ _ _ Hd). rewrite Nat.add_0_r. destruct t; (eexists; split; [|reflexivity]; reflexivity).
Qed.

Lemma malformed_float_spec l : malformed_float l = true <->
  exists c r, l = c :: r /\ beq c b_zero = true /\ 2 <= len (take_digits l) /\
    exists r', drop_digits l = b_comma :: r'.
Proof.
  destruct l as [|c r]; cbn [malformed_float].
  - split; [discriminate|]. intros (c&r&H&_). discriminate.
  - split.
    + intros H. exists c, r. split; [reflexivity|].
      destruct (drop_digits (c :: r)) as [|d r'] eqn:E; [rewrite andb_false_r in H; discriminate|].
      rewrite !andb_true_iff in H. destruct H as [[H1 H2] H3]. apply beq_true in H3. subst d.
      repeat split; [assumption|lia|eauto].
    + intros (c'&r0&H&Hz&Hl&r'&Hr). injection H as <- <-. rewrite Hr, Hz, beq_refl.
      replace (2 <=? len (take_digits (c :: r))) with true by lia. reflexivity.
Qed.

Lemma good_escape l : l <> [] -> ~ In b_nul l -> malformed_float l = false -> good (escape l).
Proof.
  intros Hne Hn Hm. split.
  { destruct l as [|c l]; [congruence|]. cbn [escape flat_map]. destruct (is_syntax c); discriminate. }
  intros p d rest Hd Hp Hsm.
  destruct (scan_free_escape l d rest Hn Hd) as [tyf [Hf1 Hf2]].
  destruct l as [|c l]; [congruence|].
  destruct (is_syntax c) eqn:Ec.
  - exists tyf. split; [assumption|]. rewrite <- Hf2. cbn [escape flat_map]. rewrite Ec. reflexivity.
  - destruct (not_syntax_facts c Ec) as (E1&E2&E3&E4&E5&E6).
    assert (Hnul : beq c b_nul = false).
    { destruct (beq_spec c b_nul) as [->|]; [exfalso; apply Hn; now left|reflexivity]. }
    assert (Hs : scan_tok p (escape (c :: l) ++ d :: rest) =
      if is_digit c then scan_num (escape (c :: l) ++ d :: rest) else scan_free (escape (c :: l) ++ d :: rest)).
    { cbn [escape flat_map]. rewrite Ec. cbn [app scan_tok]. now rewrite E1, E2, E3, E4, Hnul. }
    rewrite Hs. clear Hs. destruct (is_digit c) eqn:Edc; [|exists tyf; auto].
    unfold scan_num.
    destruct (take_drop_escape (c :: l) rest d eq_refl (delim_not_digit d Hd)) as [-> ->].
    assert (Hlen := escape_drop_length (c :: l)).
    remember (c :: l) as L eqn:EL.
    assert (Hz : match escape L ++ d :: rest with c :: _ => beq c b_zero | [] => false end = beq c b_zero).
    { subst L. cbn [escape flat_map]. rewrite Ec. reflexivity. }
    rewrite Hz.
    destruct (drop_digits L) as [|x r] eqn:Edrop.
    + cbn [escape flat_map app starts_delim]. rewrite Hd.
      simpl in Hlen. rewrite Hlen, Nat.add_0_r.
      destruct (_ && _); (eexists; split; [|reflexivity]; reflexivity).
    + rewrite starts_delim_escape.
      assert (Hx : exists y z, escape (x :: r) = y :: z /\
                (beq y b_comma = true -> x = b_comma /\ y = b_comma /\ z = escape r)).
      { cbn [escape flat_map]. destruct (is_syntax x) eqn:Ex.
        - eexists _, _. split; [reflexivity|]. intros H. discriminate.
        - eexists _, _. split; [reflexivity|]. intros H. apply beq_true in H. auto. }
      destruct Hx as [y [z [Hyz Hcom]]]. rewrite Hyz. cbn [app].
      destruct (beq y b_comma) eqn:Ey; [|exists tyf; auto].
      destruct (Hcom eq_refl) as [-> [-> ->]].
      destruct (beq c b_zero && negb (List.length (take_digits L) =? 1)%nat) eqn:Ez.
      * exfalso. assert (malformed_float L = true); [|congruence].
        apply malformed_float_spec. exists c, l. apply andb_true_iff in Ez. destruct Ez as [Ez1 Ez2].
        repeat split; [assumption|assumption| |eauto].
        assert (take_digits L <> []) by (subst L; cbn [take_digits]; rewrite Edc; discriminate).
        unfold len. destruct (take_digits L) as [|? []]; cbn [List.length] in *; try congruence; simpl in Ez2; try discriminate; lia.
      * destruct (take_drop_escape r rest d eq_refl (delim_not_digit d Hd)) as [-> ->].
        destruct (drop_digits r) as [|u v] eqn:Edr.
        -- cbn [escape flat_map app starts_delim]. rewrite Hd. exists T_FLOAT. split; [reflexivity|].
           f_equal. rewrite Hlen, Hyz. cbn [List.length].
           rewrite (escape_drop_length r), Edr. simpl. lia.
        -- rewrite starts_delim_escape. exists tyf. auto.
Qed.

Lemma good_digits ds : ds <> [] -> forallb is_digit ds = true -> good ds.
Proof.
  intros Hne Hd. split; [assumption|]. intros p d rest Hdel Hp Hsm.
  destruct ds as [|c r]; [congruence|]. assert (Hc : is_digit c = true).
  { simpl in Hd. now apply andb_true_iff in Hd. }
  unfold scan_tok. cbn [app].
  destruct (digit_facts c Hc) as (E1&_&E3&_&_&_&E4&_).
  unfold is_delimiter in E1.
  destruct (beq c b_plus) eqn:Q1; [simpl in E1; rewrite ?orb_true_r in E1; discriminate|].
  destruct (beq c b_quote) eqn:Q2; [simpl in E1; rewrite ?orb_true_r in E1; discriminate|].
  destruct (beq c b_colon) eqn:Q3; [simpl in E1; rewrite ?orb_true_r in E1; discriminate|].
  rewrite E4, E3, Hc. change (c :: r ++ d :: rest) with ((c :: r) ++ d :: rest).
  remember (c :: r) as L. unfold scan_num.
  destruct (take_digits_app L d rest Hd (delim_not_digit d Hdel)) as [-> ->].
  cbn [starts_delim]. rewrite Hdel. destruct (_ && _); (eexists; split; [|reflexivity]; reflexivity).
Qed.
Lemma good_float ds fr : ds <> [] -> forallb is_digit ds = true -> forallb is_digit fr = true ->
  (ds = [b_zero] \/ forall c r, ds = c :: r -> c <> b_zero) -> good (ds ++ b_comma :: fr).
Proof.
  intros Hne Hd Hf Hz. split; [destruct ds; discriminate|]. intros p d rest Hdel Hp Hsm.
  destruct ds as [|c r]; [congruence|]. assert (Hc : is_digit c = true).
  { simpl in Hd. now apply andb_true_iff in Hd. }
  unfold scan_tok. cbn [app].
  destruct (digit_facts c Hc) as (E1&_&E3&_&_&_&E4&_).
  unfold is_delimiter in E1.
  destruct (beq c b_plus) eqn:Q1; [simpl in E1; rewrite ?orb_true_r in E1; discriminate|].
  destruct (beq c b_quote) eqn:Q2; [simpl in E1; rewrite ?orb_true_r in E1; discriminate|].
  destruct (beq c b_colon) eqn:Q3; [simpl in E1; rewrite ?orb_true_r in E1; discriminate|].
  rewrite E4, E3, Hc. rewrite <- app_assoc. cbn [app].
  change (c :: r ++ b_comma :: fr ++ d :: rest) with ((c :: r) ++ b_comma :: fr ++ d :: rest).
  assert (Hzz : beq c b_zero && negb (List.length (c :: r) =? 1)%nat = false).
  { destruct (beq_spec c b_zero) as [->|]; [|reflexivity].
    destruct Hz as [Hz|Hz]; [now rewrite Hz|]. exfalso. eapply Hz; reflexivity. }
  unfold scan_num. cbn [app].
  change (c :: r ++ b_comma :: fr ++ d :: rest) with ((c :: r) ++ b_comma :: fr ++ d :: rest).
  destruct (take_digits_app (c :: r) b_comma (fr ++ d :: rest) Hd eq_refl) as [-> ->].
  cbn [starts_delim]. change (is_delimiter b_comma) with false. rewrite beq_refl. cbv iota.
  rewrite Hzz. destruct (take_digits_app fr d rest Hf (delim_not_digit d Hdel)) as [-> ->].
  cbn [starts_delim]. rewrite Hdel. exists T_FLOAT. split; [reflexivity|]. f_equal.
  change (c :: r ++ b_comma :: fr) with ((c :: r) ++ b_comma :: fr). rewrite app_length. cbn [List.length]. lia.
Qed.
Definition starts_free (c : byte) : bool :=
  negb (is_delimiter c || beq c b_at || beq c b_nul || is_digit c).
Lemma good_plain c r : starts_free c = true -> forallb plain (c :: r) = true -> good (c :: r).
Proof.
  intros Hc Hp. split; [discriminate|]. intros p d rest Hdel _ _.
  unfold starts_free in Hc. rewrite !negb_orb, !andb_true_iff, !negb_true_iff in Hc.
  destruct Hc as [[[E1 E2] E3] E4]. unfold is_delimiter in E1.
  unfold scan_tok. cbn [app].
  destruct (beq c b_plus) eqn:Q1; [simpl in E1; rewrite ?orb_true_r in E1; discriminate|].
  destruct (beq c b_quote) eqn:Q2; [simpl in E1; rewrite ?orb_true_r in E1; discriminate|].
  destruct (beq c b_colon) eqn:Q3; [simpl in E1; rewrite ?orb_true_r in E1; discriminate|].
  rewrite E2, E3, E4. unfold scan_free.
  change (c :: r ++ d :: rest) with ((c :: r) ++ d :: rest).
  rewrite (scan_text_plain _ _ _ Hp), (scan_text_delim _ _ _ Hdel), Nat.add_0_r. (eexists; split; [|reflexivity]; reflexivity).
Qed.
Lemma good_negative ds : forallb is_digit ds = true -> good (b_minus :: ds).
Proof.
  intros H. apply good_plain; [reflexivity|]. cbn [forallb]. rewrite (forallb_digit_plain _ H). reflexivity.
Qed.
Lemma good_itoa z : good (itoa z).
Proof.
  unfold itoa. destruct (z <? 0).
  - apply good_negative. now destruct (itoa_N_spec (Z.to_N (- z))) as (_&H&_).
  - destruct (itoa_N_spec (Z.to_N z)) as (H1&H2&_). now apply good_digits.
Qed.
Lemma pad_left_nonempty w n : pad_left w (itoa_N n) <> [].
Proof.
  unfold pad_left. destruct (itoa_N_spec n) as (H&_). intros E. apply app_eq_nil in E. now destruct E.
Qed.
Lemma good_itoa_pad w z : good (itoa_pad w z).
Proof.
  unfold itoa_pad. destruct (z <? 0).
  - apply good_negative, pad_left_digits.
  - apply good_digits; [apply pad_left_nonempty|apply pad_left_digits].
Qed.
Lemma good_binary data : good (b_at :: itoa_N (N.of_nat (List.length data)) ++ b_at :: data).
Proof.
  set (n := N.of_nat (List.length data)). destruct (itoa_N_spec n) as (H1&H2&H3&_).
  split; [discriminate|]. intros p d rest Hd Hp Hsm. exists T_BINARY. split; [reflexivity|].
  apply scan_tok_binary; try assumption.
  - rewrite H3. unfold len. lia.
  - autorewrite with len in Hsm. lia.
Qed.

(** Floats. *)
Lemma replace1_not_in a b s : ~ In a s -> replace1 a b s = s.
Proof.
  induction s as [|c r IH]; intros H; [reflexivity|]. cbn [replace1].
  destruct (beq_spec c a) as [->|]; [exfalso; apply H; now left|]. f_equal. apply IH. intros G; apply H; now right.
Qed.
Lemma replace1_app a b s t : ~ In a s -> replace1 a b (s ++ t) = s ++ replace1 a b t.
Proof.
  induction s as [|c r IH]; intros H; [reflexivity|]. cbn [app replace1].
  destruct (beq_spec c a) as [->|]; [exfalso; apply H; now left|]. f_equal. apply IH. intros G; apply H; now right.
Qed.
Lemma digits_not_in ds c : forallb is_digit ds = true -> is_digit c = false -> ~ In c ds.
Proof. intros H Hc Hin. rewrite forallb_forall in H. specialize (H c Hin). congruence. Qed.
Lemma float_string_num neg i fr : forallb is_digit fr = true ->
  float_string (FNum neg i fr) = (if neg then [b_minus] else []) ++ itoa_N i ++ b_comma :: fr.
Proof.
  intros Hf. destruct (itoa_N_spec i) as (_&Hd&_).
  assert (Hs : forall c, is_digit c = false -> c <> b_minus -> ~ In c ((if neg then [b_minus] else []) ++ itoa_N i)).
  { intros c Hc Hm Hin. apply in_app_or in Hin. destruct Hin as [Hin|Hin].
    - destruct neg; simpl in Hin; [|tauto]. destruct Hin as [<-|[]]. congruence.
    - now apply (digits_not_in _ _ Hd Hc). }
  unfold float_string. cbn [format_float]. destruct fr as [|x fr].
  - rewrite app_nil_r. rewrite replace1_not_in by (apply Hs; [reflexivity|discriminate]).
    destruct (mem_byte b_comma _) eqn:E.
    + apply mem_byte_In in E. exfalso. revert E. apply Hs; [reflexivity|discriminate].
    + now rewrite <- app_assoc.
  - rewrite app_assoc. rewrite replace1_app by (apply Hs; [reflexivity|discriminate]).
    cbn [replace1]. rewrite beq_refl. destruct (mem_byte b_comma _) eqn:E.
    + now rewrite <- app_assoc.
    + exfalso. assert (mem_byte b_comma (((if neg then [b_minus] else []) ++ itoa_N i) ++ b_comma :: x :: fr) = true); [|congruence].
      apply mem_byte_In. apply in_or_app. right. now left.
Qed.
Lemma float_ascii f : elem_safe (EFloat f) -> ascii (float_string f) = true.
Proof.
  destruct f as [neg i fr|neg|]; intros H.
  - simpl in H. rewrite float_string_num by assumption. rewrite !ascii_app.
    destruct (itoa_N_spec i) as (_&Hd&_). rewrite (digits_ascii _ Hd).
    change (b_comma :: fr) with ([b_comma] ++ fr). rewrite ascii_app, (digits_ascii _ H). destruct neg; reflexivity.
  - destruct neg; reflexivity.
  - reflexivity.
Qed.
Lemma good_float_string f : elem_safe (EFloat f) -> good (float_string f).
Proof.
  destruct f as [neg i fr|neg|]; intros H.
  - simpl in H. rewrite float_string_num by assumption. destruct (itoa_N_spec i) as (H1&H2&H3&H4&H5).
    destruct neg.
    + cbn [app]. apply good_plain; [reflexivity|]. cbn [forallb]. rewrite forallb_app.
      rewrite (forallb_digit_plain _ H2). cbn [forallb]. now rewrite (forallb_digit_plain _ H).
    + cbn [app]. apply good_float; try assumption.
      destruct (N.eq_dec i 0) as [E|E]; [left; exact (H4 E)|right; exact (H5 E)].
  - simpl in H. subst neg. apply good_plain; reflexivity.
  - apply good_plain; reflexivity.
Qed.

(** Text values and their Latin-1 form. *)
Lemma to_utf8_take_drop l : take_digits (to_utf8 l) = take_digits l /\ drop_digits (to_utf8 l) = to_utf8 (drop_digits l).
Proof.
  induction l as [|c l [IH1 IH2]]; [auto|]. cbn [to_utf8 flat_map]. fold (to_utf8 l).
  unfold utf8_of_latin1. destruct (zb c <? 128) eqn:Ec.
  - cbn [app take_digits drop_digits]. destruct (is_digit c) eqn:Ed.
    + rewrite IH1, IH2. auto.
    + cbn [to_utf8 flat_map]. unfold utf8_of_latin1. rewrite Ec. auto.
  - pose proof (zb_range c) as Hc.
    assert (Hd : is_digit c = false) by (unfold is_digit; lia).
    assert (Hd2 : is_digit (byte_of_Z (192 + zb c / 64)) = false) by (unfold is_digit; rewrite zb_byte_of_Z; lia).
    cbn [app take_digits drop_digits]. rewrite Hd, Hd2. cbn [to_utf8 flat_map]. unfold utf8_of_latin1. rewrite Ec. auto.
Qed.
Lemma utf8_head_ascii l x : (zb x <? 128) = true ->
  match to_utf8 l with c :: _ => beq c x | [] => false end = match l with c :: _ => beq c x | [] => false end.
Proof.
  intros Hx. destruct l as [|c l]; [reflexivity|]. cbn [to_utf8 flat_map]. unfold utf8_of_latin1.
  destruct (zb c <? 128) eqn:Ec; [reflexivity|]. cbn [app]. pose proof (zb_range c).
  destruct (beq_spec (byte_of_Z (192 + zb c / 64)) x) as [E|_].
  - exfalso. subst x. rewrite zb_byte_of_Z in Hx; lia.
  - destruct (beq_spec c x) as [->|]; [congruence|reflexivity].
Qed.
Lemma malformed_to_utf8 l : malformed_float (to_utf8 l) = malformed_float l.
Proof.
  destruct (to_utf8_take_drop l) as [H1 H2].
  assert (G : forall s, malformed_float s = match s with c :: _ => beq c b_zero | [] => false end &&
     (2 <=? len (take_digits s)) && match drop_digits s with d :: _ => beq d b_comma | [] => false end).
  { intros [|c s]; reflexivity. }
  rewrite !G, H1, H2, !utf8_head_ascii by reflexivity. reflexivity.
Qed.
Lemma nul_to_utf8 l : In b_nul (to_utf8 l) <-> In b_nul l.
Proof.
  unfold to_utf8. rewrite in_flat_map. split.
  - intros [x [Hx Hn]]. unfold utf8_of_latin1 in Hn. destruct (zb x <? 128) eqn:E.
    + destruct Hn as [->|[]]. assumption.
    + pose proof (zb_range x). exfalso. destruct Hn as [Hn|[Hn|[]]]; apply (f_equal zb) in Hn; rewrite zb_byte_of_Z in Hn by lia;
        change (zb b_nul) with 0 in Hn; lia.
  - intros H. exists b_nul. split; [assumption|]. now left.
Qed.

Lemma chunk_good e c : marshal_elem e = Ok c -> elem_safe e -> c = [] \/ good c.
Proof.
  destruct e as [v|w z|z|f|data|b|d|t]; cbn [marshal_elem elem_safe]; intros Hm Hs.
  - apply marshal_text_iff in Hm. destruct Hm as [l [-> ->]]. destruct Hs as [Hn Hf].
    rewrite malformed_to_utf8 in Hf. rewrite nul_to_utf8 in Hn.
    destruct l as [|x l]; [left; reflexivity|right]. apply good_escape; [discriminate|assumption|assumption].
  - unfold marshal_digit in Hm. rewrite (to_latin1_ascii _ (itoa_pad_ascii w z)) in Hm. injection Hm as <-.
    right. apply good_itoa_pad.
  - unfold marshal_number in Hm. rewrite (to_latin1_ascii _ (itoa_ascii z)) in Hm. injection Hm as <-.
    right. apply good_itoa.
  - unfold marshal_float in Hm. rewrite (to_latin1_ascii _ (float_ascii f Hs)) in Hm. injection Hm as <-.
    right. now apply good_float_string.
  - rewrite marshal_binary_eq in Hm. injection Hm as <-. right. apply good_binary.
  - right. destruct b; injection Hm as <-; apply good_plain; reflexivity.
  - unfold marshal_date in Hm. rewrite (to_latin1_ascii _ (format_date_ascii d Hs)) in Hm. injection Hm as <-.
    right. destruct Hs as [Hy [Hmo Hd]].
    assert (G : forall w z, 0 <= z -> append_int w z <> [] /\ forallb is_digit (append_int w z) = true).
    { intros w z Hz. unfold append_int. replace (z <? 0) with false by lia. split; [apply pad_left_nonempty|apply pad_left_digits]. }
    apply good_digits; unfold format_date.
    + intros E. apply app_eq_nil in E. destruct E as [E _]. revert E. apply G. lia.
    + rewrite !forallb_app. repeat (apply andb_true_intro; split); apply G; lia.
  - unfold marshal_time in Hm. rewrite (to_latin1_ascii _ (format_time_ascii t Hs)) in Hm. injection Hm as <-.
    right. destruct Hs as [Hy [Hmo Hd]].
    assert (G : forall w z, 0 <= z -> append_int w z <> [] /\ forallb is_digit (append_int w z) = true).
    { intros w z Hz. unfold append_int. replace (z <? 0) with false by lia. split; [apply pad_left_nonempty|apply pad_left_digits]. }
    apply good_digits; unfold format_time.
    + intros E. apply app_eq_nil in E. destruct E as [E _]. revert E. apply G. lia.
    + rewrite !forallb_app. repeat (apply andb_true_intro; split); apply G; lia.
Qed.

(** ** Truncated chunks are errors *)
Lemma scan_free_fail l s0 p : ~ In b_nul l -> l ++ s0 <> [] ->
  (forall text, scan_text text s0 = None) -> (s0 = [] \/ exists r, s0 = b_qmark :: r) ->
  scan_tok p (escape l ++ s0) = SErr.
Proof.
  intros Hn Hne Hnone Hs0.
  assert (Hf : scan_free (escape l ++ s0) = SErr).
  { unfold scan_free. destruct (scan_text_escape l false s0 Hn) as [t ->]. now rewrite Hnone. }
  assert (Hsd : starts_delim s0 = false) by (destruct Hs0 as [->|[r ->]]; reflexivity).
  assert (Htd : forall m, take_digits (escape m ++ s0) = take_digits m /\
                          drop_digits (escape m ++ s0) = escape (drop_digits m) ++ s0).
  { intros m. destruct Hs0 as [->|[r ->]].
    - rewrite !app_nil_r. induction m as [|c m IH]; [auto|]. cbn [escape flat_map]. fold (escape m).
      destruct (is_syntax c) eqn:Ec.
      + cbn [app take_digits drop_digits]. change (is_digit b_qmark) with false. cbv iota.
        assert (Hc : is_digit c = false).
        { destruct (is_digit c) eqn:E; [|reflexivity]. destruct (digit_facts c E) as (_&_&_&_&_&_&_&Hs).
          rewrite is_syntax_symbol_eq in Hs. congruence. }
        rewrite Hc. cbn [escape flat_map]. now rewrite Ec.
      + cbn [app take_digits drop_digits]. destruct (is_digit c).
        * destruct IH as [-> ->]. auto.
        * cbn [escape flat_map]. now rewrite Ec.
    - apply take_drop_escape; reflexivity. }
  assert (Hse : forall m, starts_delim (escape m ++ s0) = false).
  { intros [|c m]; [exact Hsd|apply starts_delim_escape]. }
  destruct l as [|c l].
  - cbn [escape flat_map app] in *. destruct Hs0 as [->|[r ->]]; [congruence|]. exact Hf.
  - destruct (is_syntax c) eqn:Ec.
    + rewrite <- Hf. cbn [escape flat_map]. rewrite Ec. reflexivity.
    + destruct (not_syntax_facts c Ec) as (E1&E2&E3&E4&E5&E6).
      assert (Hnul : beq c b_nul = false).
      { destruct (beq_spec c b_nul) as [->|]; [exfalso; apply Hn; now left|reflexivity]. }
      assert (Hs : scan_tok p (escape (c :: l) ++ s0) =
        if is_digit c then scan_num (escape (c :: l) ++ s0) else scan_free (escape (c :: l) ++ s0)).
      { cbn [escape flat_map]. rewrite Ec. cbn [app scan_tok]. now rewrite E1, E2, E3, E4, Hnul. }
      rewrite Hs. destruct (is_digit c); [|assumption]. unfold scan_num.
      destruct (Htd (c :: l)) as [-> ->]. rewrite Hse.
      remember (drop_digits (c :: l)) as D.
      destruct (escape D ++ s0) as [|y z] eqn:EY; [reflexivity|].
      destruct (beq_spec y b_comma) as [->|]; [|assumption].
      destruct (_ && negb _); [reflexivity|].
      assert (Hz : starts_delim (drop_digits z) = false).
      { destruct D as [|x D].
        - cbn in EY. destruct Hs0 as [->|[r ->]]; discriminate.
        - cbn [escape flat_map] in EY. destruct (is_syntax x) eqn:Ex; [discriminate|].
          cbn [app] in EY. injection EY as _ <-. fold (escape D). destruct (Htd D) as [_ ->]. apply Hse. }
      now rewrite Hz.
Qed.

Lemma scan_bin_short p r ds data n : r = ds ++ b_at :: data -> ds <> [] -> forallb is_digit ds = true ->
  Z.of_N (dec_val ds) = n -> len data <= n -> p + 2 + len ds + n < 2 ^ 63 -> 0 <= p ->
  scan_tok p (b_at :: r) = SErr.
Proof.
  intros -> Hne Hd Hn Hl Hov Hp. unfold scan_tok.
  change (beq b_at b_plus) with false. change (beq b_at b_quote) with false.
  change (beq b_at b_colon) with false. rewrite beq_refl. cbv iota. unfold scan_bin.
  destruct (take_digits_app ds b_at data Hd eq_refl) as [-> ->].
  destruct ds as [|d0 dr] eqn:ED; [congruence|]. rewrite <- ED in *.
  pose proof (len_nonneg ds). pose proof (len_nonneg data).
  assert (Hin : in_int64 (Z.of_N (dec_val ds)) = true) by (unfold in_int64, int64_max, int64_min; lia).
  rewrite Hin, beq_refl. simpl negb. cbv iota. rewrite Hn.
  replace (2 ^ 63 <=? p + 2 + len ds + n) with false by lia.
  now replace (n <? len data) with false by lia.
Qed.

(** [cut x c t]: t is c without its trailing x bytes, at least one. *)
Definition deadly (t : bytes) : Prop :=
  t <> [] /\ forall p tail, 0 <= p -> p + len t < 2 ^ 62 ->
    (tail = [] \/ exists d, is_delimiter d = true /\ tail = [d]) ->
    scan_tok p (t ++ tail) = SErr.

Lemma plain_not_delim_end c x : forallb plain c = true -> is_delimiter x = true -> ~ ends_with x c.
Proof.
  intros H Hx [p ->]. rewrite forallb_app in H. simpl in H. unfold plain in H. rewrite Hx in H. simpl in H.
  rewrite andb_false_r in H. discriminate.
Qed.
Lemma trim_right_last x l : exists k, l = trim_right x l ++ repeat x k /\ ~ ends_with x (trim_right x l).
Proof.
  destruct (trim_right_spec x l) as [k [H1 H2]]. exists k. split; [assumption|].
  intros [p Hp]. apply (H2 _ _ Hp). reflexivity.
Qed.
Lemma ends_with_snoc x c l : ends_with x (l ++ [c]) <-> c = x.
Proof.
  split.
  - intros [p H]. apply app_inj_tail in H. tauto.
  - intros ->. now exists l.
Qed.
Lemma escape_snoc l x : is_syntax x = true -> escape (l ++ [x]) = (escape l ++ [b_qmark]) ++ [x].
Proof. intros H. rewrite escape_app. cbn [escape flat_map]. rewrite H, <- app_assoc. reflexivity. Qed.

Lemma itoa_plain z : forallb plain (itoa z) = true.
Proof.
  unfold itoa. destruct (z <? 0).
  - cbn [forallb]. destruct (itoa_N_spec (Z.to_N (- z))) as (_&H&_). rewrite (forallb_digit_plain _ H). reflexivity.
  - destruct (itoa_N_spec (Z.to_N z)) as (_&H&_). now apply forallb_digit_plain.
Qed.
Lemma itoa_pad_plain w z : forallb plain (itoa_pad w z) = true.
Proof.
  unfold itoa_pad. destruct (z <? 0).
  - cbn [forallb]. rewrite (forallb_digit_plain _ (pad_left_digits _ _)). reflexivity.
  - apply forallb_digit_plain, pad_left_digits.
Qed.
Lemma append_int_plain w z : 0 <= z -> forallb plain (append_int w z) = true.
Proof. intros H. unfold append_int. replace (z <? 0) with false by lia. apply forallb_digit_plain, pad_left_digits. Qed.
Lemma float_plain f : elem_safe (EFloat f) -> forallb plain (float_string f) = true.
Proof.
  destruct f as [neg i fr|neg|]; intros H; simpl in H.
  - rewrite float_string_num by assumption. destruct (itoa_N_spec i) as (_&Hd&_).
    rewrite !forallb_app, (forallb_digit_plain _ Hd). cbn [forallb]. rewrite (forallb_digit_plain _ H). destruct neg; reflexivity.
  - subst neg. reflexivity.
  - reflexivity.
Qed.

Lemma chunk_deadly e c x : marshal_elem e = Ok c -> elem_safe e -> is_delimiter x = true -> ends_with x c ->
  deadly (trim_right x c) \/ (exists data, e = EBinary data /\ 2 ^ 61 <= len data).
Proof.
  intros Hm Hs Hx Hend.
  assert (Hpl : forall b, c = b -> forallb plain b = true -> False).
  { intros b -> Hb. exact (plain_not_delim_end _ _ Hb Hx Hend). }
  destruct e as [v|w z|z|f|data|b|d|t]; cbn [marshal_elem elem_safe] in *.
  - left. apply marshal_text_iff in Hm. destruct Hm as [l [-> ->]]. destruct Hs as [Hn _]. rewrite nul_to_utf8 in Hn.
    destruct (exists_last (l := l)) as [l' [y ->]].
    { intros ->. destruct Hend as [[] ?]; discriminate. }
    assert (y = x).
    { rewrite escape_app in Hend. cbn [escape flat_map] in Hend. rewrite app_nil_r in Hend. destruct (is_syntax y).
      - change (escape l' ++ [b_qmark; y]) with (escape l' ++ [b_qmark] ++ [y]) in Hend.
        rewrite app_assoc in Hend. now apply ends_with_snoc in Hend.
      - now apply ends_with_snoc in Hend. }
    subst y. assert (Hxs : is_syntax x = true) by now apply delim_syntax.
    rewrite (escape_snoc _ _ Hxs).
    assert (Ht : trim_right x ((escape l' ++ [b_qmark]) ++ [x]) = escape l' ++ [b_qmark]).
    { change ((escape l' ++ [b_qmark]) ++ [x]) with ((escape l' ++ [b_qmark]) ++ repeat x 1).
      rewrite trim_right_repeat. apply trim_right_app_stop. intros <-. discriminate. }
    rewrite Ht. assert (Hn' : ~ In b_nul l') by (intros G; apply Hn; apply in_or_app; now left).
    split; [destruct (escape l'); discriminate|].
    intros p tail Hp Hsm Htail. rewrite <- app_assoc. apply scan_free_fail.
    + assumption.
    + destruct l'; discriminate.
    + intros text. cbn [app scan_text]. rewrite beq_refl. destruct Htail as [->|[d [Hd ->]]]; [reflexivity|].
      rewrite is_syntax_symbol_eq, (delim_syntax _ Hd). reflexivity.
    + right. eexists. reflexivity.
  - exfalso. unfold marshal_digit in Hm. rewrite (to_latin1_ascii _ (itoa_pad_ascii w z)) in Hm. injection Hm as <-.
    apply (Hpl _ eq_refl), itoa_pad_plain.
  - exfalso. unfold marshal_number in Hm. rewrite (to_latin1_ascii _ (itoa_ascii z)) in Hm. injection Hm as <-.
    apply (Hpl _ eq_refl), itoa_plain.
  - exfalso. unfold marshal_float in Hm. rewrite (to_latin1_ascii _ (float_ascii f Hs)) in Hm. injection Hm as <-.
    apply (Hpl _ eq_refl). now apply float_plain.
  - rewrite marshal_binary_eq in Hm. injection Hm as <-.
    set (n := N.of_nat (List.length data)) in *. destruct (itoa_N_spec n) as (H1&H2&H3&_).
    destruct (Z_lt_le_dec (len data) (2 ^ 61)) as [Hlt|Hge]; [left|right; eauto].
    destruct (trim_right_last x data) as [k [Hk Hne]].
    assert (Ht : trim_right x (b_at :: itoa_N n ++ b_at :: data) = b_at :: itoa_N n ++ b_at :: trim_right x data).
    { rewrite Hk at 1. change (b_at :: itoa_N n ++ b_at :: trim_right x data ++ repeat x k) with
        ((b_at :: itoa_N n) ++ (b_at :: trim_right x data) ++ repeat x k).
      rewrite app_assoc, trim_right_repeat.
      change (b_at :: itoa_N n ++ b_at :: trim_right x data) with ((b_at :: itoa_N n) ++ b_at :: trim_right x data).
      apply trim_right_id. intros q y Hy.
      destruct (trim_right x data) as [|u v] using rev_ind.
      - apply app_inj_tail in Hy. destruct Hy as [_ <-]. intros <-. discriminate.
      - rewrite app_comm_cons, app_assoc in Hy. apply app_inj_tail in Hy. destruct Hy as [_ <-].
        intros <-. apply Hne. now exists v. }
    assert (Hk1 : (1 <= k)%nat).
    { destruct k as [|k]; [|lia]. exfalso. rewrite Hk in Hend at 1. simpl in Hend. rewrite app_nil_r in Hend.
      destruct Hend as [q Hq].
      destruct (trim_right x data) as [|u v _] using rev_ind.
      - change (b_at :: itoa_N n ++ [b_at]) with ((b_at :: itoa_N n) ++ [b_at]) in Hq.
        apply app_inj_tail in Hq. destruct Hq as [_ <-]. discriminate.
      - change (b_at :: itoa_N n ++ b_at :: v ++ [u]) with ((b_at :: itoa_N n) ++ (b_at :: v) ++ [u]) in Hq.
        rewrite app_assoc in Hq. apply app_inj_tail in Hq. destruct Hq as [_ <-]. apply Hne. now exists v. }
    rewrite Ht. split; [discriminate|]. intros p tail Hp Hsm Htail. cbn [app]. rewrite <- app_assoc. cbn [app].
    assert (Hld : len data = len (trim_right x data) + Z.of_nat k).
    { rewrite Hk at 1. unfold len. rewrite app_length, repeat_length. lia. }
    autorewrite with len in Hsm. pose proof (len_nonneg (itoa_N n)). pose proof (len_nonneg (trim_right x data)).
    eapply scan_bin_short with (ds := itoa_N n) (n := len data); try reflexivity; try assumption.
    + rewrite H3. unfold len. lia.
    + destruct Htail as [->|[d [_ ->]]]; autorewrite with len; lia.
    + lia.
  - exfalso. destruct b; injection Hm as <-; apply (Hpl _ eq_refl); reflexivity.
  - exfalso. unfold marshal_date in Hm. rewrite (to_latin1_ascii _ (format_date_ascii d Hs)) in Hm. injection Hm as <-.
    apply (Hpl _ eq_refl). destruct Hs as [Hy [Hmo Hd]]. unfold format_date.
    rewrite !forallb_app, !append_int_plain by lia. reflexivity.
  - exfalso. unfold marshal_time in Hm. rewrite (to_latin1_ascii _ (format_time_ascii t Hs)) in Hm. injection Hm as <-.
    apply (Hpl _ eq_refl). destruct Hs as [Hy [Hmo Hd]]. unfold format_time.
    rewrite !forallb_app, !append_int_plain by lia. reflexivity.
Qed.

